(** Lemmas about the server's signature. *)
From Verif.Lib Require Import Base.
From Verif Require Import CodecModel CodecLemmas TlsModel HandshakeModel AttestModel SigAlgModel SigAlgSpec.

Lemma enc_params_spec k : (length (ke_public k) < 256)%nat ->
  enc_params k = [3%N] ++ be 2 (ke_group k) ++ be 1 (N.of_nat (length (ke_public k))) ++ ke_public k.
Proof.
  intros H. unfold enc_params, enc_payload, enc_uint. rewrite N.mod_small; [done|]. change (256 ^ N.of_nat 1)%N with 256%N. lia.
Qed.

Section SigAlg.
  Context (cert_key : bytes -> option key_kind) (sig_valid : bytes -> webpki_alg -> bytes -> bytes -> bool).

  (** The algorithm that [verify_any] settles on is the one meant by scheme and key. *)
  Lemma verify_any_means cert kind scheme algs msg sig t :
    convert_scheme scheme = Some algs -> verify_any sig_valid cert kind algs msg sig = Ok t ->
    exists a, scheme_means scheme kind a /\ sig_valid cert a msg sig = true /\ from_alg a = Ok t.
  Proof.
    unfold convert_scheme. intros E.
    repeat (case_match eqn:Es; [apply N.eqb_eq in Es; subst scheme; injection E as <-|clear Es]); try done;
    unfold verify_any, verify_signature; intros V;
    destruct kind; simpl in V;
    match type of V with
    | context [sig_valid ?c ?a ?m ?s] =>
        destruct (sig_valid c a m s) eqn:Ev; simpl in V; try discriminate; injection V as <-;
        exists a; split; [constructor|by split]
    | _ => discriminate
    end.
  Qed.
  Lemma means_verify_any cert kind scheme a msg sig :
    scheme_means scheme kind a -> sig_valid cert a msg sig = true ->
    exists algs t, convert_scheme scheme = Some algs /\ from_alg a = Ok t /\
      verify_any sig_valid cert kind algs msg sig = Ok t.
  Proof.
    intros [] Hv; eexists _, _; (split; [vm_compute; reflexivity|]); (split; [vm_compute; reflexivity|]);
      unfold verify_any, verify_signature; simpl; rewrite Hv; done.
  Qed.
  Lemma verify_any_no_panic cert kind algs msg sig : verify_any sig_valid cert kind algs msg sig <> Panic.
  Proof.
    induction algs as [|a algs IH]; simpl; [done|]. unfold verify_signature.
    case_bool_decide; simpl; [|done]. destruct (sig_valid _ _ _ _); simpl; [by destruct a|done].
  Qed.

  Lemma determine_struct cert msg d : (exists t, verify_determine cert_key sig_valid cert msg d = Ok t) <->
    verify_struct cert_key sig_valid msg cert d = Ok ().
  Proof.
    unfold verify_determine, verify_struct.
    destruct (cert_key cert); simpl; destruct (convert_scheme _); simpl; try (split; [by intros []|done]).
    destruct (verify_any _ _ _ _ _ _) as [t| |]; simpl; (split; [by intros []|try done]). by exists t.
  Qed.
  Lemma determine_means cert msg d t : verify_determine cert_key sig_valid cert msg d = Ok t ->
    exists kind a, cert_key cert = Some kind /\ scheme_means (ds_scheme d) kind a /\
      sig_valid cert a msg (ds_sig d) = true /\ from_alg a = Ok t.
  Proof.
    unfold verify_determine. destruct (cert_key cert) as [kind|]; simpl; [|done].
    destruct (convert_scheme _) as [algs|] eqn:Es; simpl; [|done]. intros V.
    destruct (verify_any_means _ _ _ _ _ _ _ Es V) as (a & Ha). by exists kind, a.
  Qed.
  Lemma means_determine cert msg d kind a : cert_key cert = Some kind -> scheme_means (ds_scheme d) kind a ->
    sig_valid cert a msg (ds_sig d) = true ->
    exists t, verify_determine cert_key sig_valid cert msg d = Ok t /\ from_alg a = Ok t.
  Proof.
    intros Hk Hm Hv. destruct (means_verify_any cert kind _ a msg _ Hm Hv) as (algs & t & E1 & E2 & E3).
    exists t. unfold verify_determine. by rewrite Hk, E1; simpl; rewrite E3.
  Qed.

  Lemma accepts_iff leaf rest cr sr k : (length (ke_public k) < 256)%nat ->
    client_accepts cert_key sig_valid (leaf :: rest) cr sr k = Ok () <->
    server_signed cert_key sig_valid leaf cr sr (ke_group k) (ke_public k) (ds_scheme (ke_dss k)) (ds_sig (ke_dss k)).
  Proof.
    intros Hl. simpl. rewrite <- determine_struct. unfold server_signed. rewrite enc_params_spec by done. split.
    - intros (t & (kind & a & ? & ? & ? & ?)%determine_means). by exists kind, a.
    - intros (kind & a & Hk & Hm & Hv). destruct (means_determine leaf _ _ kind a Hk Hm Hv) as (t & ? & _). by exists t.
  Qed.
  Lemma accepts_no_panic certs cr sr k : client_accepts cert_key sig_valid certs cr sr k <> Panic.
  Proof.
    destruct certs as [|leaf rest]; simpl; [done|]. unfold verify_struct.
    destruct (convert_scheme _) as [algs|]; simpl; [|done]. destruct (cert_key leaf) as [kind|]; simpl; [|done].
    destruct (verify_any _ _ _ _ _ _) eqn:E; simpl; [done|done|by apply verify_any_no_panic in E].
  Qed.

  Lemma leader_data_lemma certs cr sr k : client_accepts cert_key sig_valid certs cr sr k = Ok () ->
    ke_group k = 23%N -> exists leaf rest kind a t, certs = leaf :: rest /\ cert_key leaf = Some kind /\
      scheme_means (ds_scheme (ke_dss k)) kind a /\ from_alg a = Ok t /\
      sig_valid leaf a (cr ++ sr ++ kx_params (EphemKey (ke_public k))) (ds_sig (ke_dss k)) = true /\
      leader_data cert_key sig_valid certs cr sr k =
        Ok (HandshakeData certs (core_alg t) (ds_sig (ke_dss k)) cr sr (EphemKey (ke_public k))).
  Proof.
    intros Ha Hg. destruct certs as [|leaf rest]; simpl in Ha; [done|].
    apply determine_struct in Ha as (t & Ht). destruct (determine_means _ _ _ _ Ht) as (kind & a & H1 & H2 & H3 & H4).
    exists leaf, rest, kind, a, t. split_and!; try done.
    - revert H3. unfold enc_params. by rewrite Hg.
    - simpl. by rewrite Ht, Hg.
  Qed.

  Lemma handshake_verify_eq chain leaf rest alg sig cr sr key time name :
    chain leaf rest name time = true -> is_Some (cert_key leaf) ->
    handshake_verify (HandshakeData (leaf :: rest) alg sig cr sr key) (webpki_verifier cert_key sig_valid chain) time key name =
    if cv_signature (webpki_verifier cert_key sig_valid chain) leaf alg (cr ++ sr ++ kx_params key) sig
    then Ok () else Err InvalidServerSignature.
  Proof.
    intros Hc Hk. unfold handshake_verify. cbn [hd_certs hd_sig_alg hd_sig hd_client_random hd_server_random hd_ephem_key].
    rewrite bool_decide_true by done. cbn [negb]. cbn [cv_chain webpki_verifier]. rewrite Hc. cbn [negb].
    cbn [cv_parses webpki_verifier]. rewrite bool_decide_true by done. cbn [negb]. by destruct (cv_signature _ _ _ _ _).
  Qed.

  Lemma C61_verify_lemma chain certs cr sr k hd time name :
    client_accepts cert_key sig_valid certs cr sr k = Ok () -> ke_group k = 23%N ->
    leader_data cert_key sig_valid certs cr sr k = Ok hd ->
    (forall leaf rest, certs = leaf :: rest -> chain leaf rest name time = true) ->
    handshake_verify hd (webpki_verifier cert_key sig_valid chain) time (EphemKey (ke_public k)) name =
    if bool_decide ((head certs ≫= cert_key) = Some KeyP384)
    then Err InvalidServerSignature else Ok ().
  Proof.
    intros Ha Hg Hd Hc. destruct (leader_data_lemma _ _ _ _ Ha Hg) as (leaf & rest & kind & a & t & -> & Hk & Hm & Ht & Hv & Hd').
    rewrite Hd in Hd'. injection Hd' as ->. rewrite handshake_verify_eq by (try done; by eapply Hc).
    replace (cv_signature _ _ _ _ _) with (negb (bool_decide (kind = KeyP384))).
    - simpl. rewrite Hk. by destruct kind.
    - cbn [cv_signature webpki_verifier]. rewrite Hk.
      destruct Hm; injection Ht as <-; cbn [webpki_of_core core_alg]; unfold verify_signature; simpl; rewrite ?Hv; done.
  Qed.
  Lemma C61_builder_lemma chain certs cr sr k time name :
    client_accepts cert_key sig_valid certs cr sr k = Ok () -> ke_group k = 23%N ->
    (forall leaf rest, certs = leaf :: rest -> chain leaf rest name time = true) ->
    exists alg, map_scheme (curve_of cert_key) (ds_scheme (ke_dss k)) certs = Ok alg /\
    handshake_verify (HandshakeData certs alg (ds_sig (ke_dss k)) cr sr (EphemKey (ke_public k)))
      (webpki_verifier cert_key sig_valid chain) time (EphemKey (ke_public k)) name = Ok ().
  Proof.
    intros Ha Hg Hc. destruct (leader_data_lemma _ _ _ _ Ha Hg) as (leaf & rest & kind & a & t & -> & Hk & Hm & Ht & Hv & _).
    unfold map_scheme, curve_of. rewrite Hk.
    destruct Hm; simpl; (eexists; split; [reflexivity|]); rewrite handshake_verify_eq by (try done; by eapply Hc);
      cbn [cv_signature webpki_verifier]; rewrite Hk; cbn [webpki_of_core]; unfold verify_signature; simpl; rewrite Hv; done.
  Qed.
  Lemma C61_sound_lemma chain certs alg sig cr sr key ek time name : (length (ek_key ek) < 256)%nat ->
    handshake_verify (HandshakeData certs alg sig cr sr key) (webpki_verifier cert_key sig_valid chain) time ek name = Ok () ->
    ek = key /\ exists leaf rest scheme, certs = leaf :: rest /\ chain leaf rest name time = true /\
      server_signed cert_key sig_valid leaf cr sr 23 (ek_key key) scheme sig /\
      map_scheme (curve_of cert_key) scheme certs = Ok alg.
  Proof.
    intros Hl. unfold handshake_verify. cbn [hd_certs hd_sig_alg hd_sig hd_client_random hd_server_random hd_ephem_key].
    case_bool_decide as He; cbn [negb]; [subst key|done]. destruct certs as [|leaf rest]; [done|].
    cbn [cv_chain cv_parses cv_signature webpki_verifier].
    destruct (chain leaf rest name time) eqn:Ec; cbn [negb]; [|done].
    case_bool_decide as Hk; cbn [negb]; [|done]. destruct Hk as [kind Hk]. rewrite Hk.
    destruct (webpki_of_core alg) as [w|] eqn:Hw; cbn [negb]; [|done]. unfold verify_signature.
    case_bool_decide as Hw2; cbn [negb]; [|done].
    destruct (sig_valid _ _ _ _) eqn:Hv; cbn [negb]; [|done]. intros _. split; [done|].
    assert (exists scheme, scheme_means scheme kind w /\ map_scheme (curve_of cert_key) scheme (leaf :: rest) = Ok alg) as (scheme & Hm & He).
    { unfold map_scheme, curve_of. rewrite Hk. subst kind. unfold webpki_of_core in Hw.
      repeat (case_match; simplify_eq; []; eexists; split; [constructor|reflexivity]). 
      repeat case_match; simplify_eq; (eexists; split; [constructor|reflexivity]). }
    exists leaf, rest, scheme. split_and!; try done. exists kind, w. split_and!; try done.
    rewrite <- Hv. f_equal. unfold kx_params, enc_payload, enc_uint. rewrite N.mod_small; [done|].
    change (256 ^ N.of_nat 1)%N with 256%N. lia.
  Qed.
  Lemma offered_lemma scheme : is_Some (convert_scheme scheme) <-> scheme ∈ verification_schemes.
  Proof.
    unfold convert_scheme, verification_schemes. rewrite !elem_of_cons, elem_of_nil. split.
    - repeat (case_match eqn:Es; [apply N.eqb_eq in Es; subst scheme; intros _; tauto|clear Es]). by intros [].
    - intros H. repeat (destruct H as [->|H]; [by eexists|]). done.
  Qed.

  Lemma recorded_lemma certs cr sr k :
    client_accepts cert_key sig_valid certs cr sr k = Ok () -> ke_group k = 23%N ->
    exists alg, leader_data cert_key sig_valid certs cr sr k =
      Ok (HandshakeData certs alg (ds_sig (ke_dss k)) cr sr (EphemKey (ke_public k))).
  Proof.
    intros Ha Hg. destruct (leader_data_lemma _ _ _ _ Ha Hg) as (leaf & rest & kind & a & t & _ & _ & _ & _ & _ & Hd).
    by exists (core_alg t).
  Qed.
  Lemma verifies_lemma chain certs cr sr k hd time name :
    client_accepts cert_key sig_valid certs cr sr k = Ok () -> ke_group k = 23%N ->
    leader_data cert_key sig_valid certs cr sr k = Ok hd ->
    (forall leaf rest, certs = leaf :: rest -> chain leaf rest name time = true) ->
    (forall leaf, head certs = Some leaf -> cert_key leaf <> Some KeyP384) ->
    handshake_verify hd (webpki_verifier cert_key sig_valid chain) time (EphemKey (ke_public k)) name = Ok ().
  Proof.
    intros Ha Hg Hd Hc Hn. rewrite (C61_verify_lemma chain certs cr sr k) by done.
    rewrite bool_decide_false; [done|]. destruct certs as [|leaf rest]; simpl; [done|]. by apply Hn.
  Qed.
  Lemma p384_lemma chain leaf rest cr sr k time name :
    client_accepts cert_key sig_valid (leaf :: rest) cr sr k = Ok () -> ke_group k = 23%N ->
    cert_key leaf = Some KeyP384 -> chain leaf rest name time = true ->
    exists hd, leader_data cert_key sig_valid (leaf :: rest) cr sr k = Ok hd /\
      (hd_sig_alg hd = 0%N \/ hd_sig_alg hd = 1%N) /\
      handshake_verify hd (webpki_verifier cert_key sig_valid chain) time (EphemKey (ke_public k)) name =
        Err InvalidServerSignature.
  Proof.
    intros Ha Hg Hk Hc. destruct (leader_data_lemma _ _ _ _ Ha Hg) as (l & r & kind & a & t & [= <- <-] & Hk' & Hm & Ht & _ & Hd).
    eexists. split; [exact Hd|]. split.
    - rewrite Hk in Hk'. injection Hk' as <-. simpl. inversion Hm; subst; injection Ht as <-; auto.
    - rewrite (C61_verify_lemma chain (leaf :: rest) cr sr k) by (try done; by intros ?? [= <- <-]).
      by rewrite bool_decide_true.
  Qed.
End SigAlg.
