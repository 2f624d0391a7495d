(** Proofs about the output of the verifier (C34, C35). *)
From Verif.Lib Require Import Base Ranges RangesFacts.
From Verif Require Import TranscriptModel TranscriptProofs ProofModel CodecModel AttestModel AttestSpec AttestLemmas TlsModel
  AuthModel AuthSpec AuthMapLemmas AuthKsLemmas AuthLemmas AuthVerifyLemmas.

Lemma collect_ciphertext_eq rs : collect_ciphertext rs = all_ct (app_records rs).
Proof.
  induction rs as [|r rs IH]; [done|]. cbn [collect_ciphertext]. unfold app_records. cbn [List.filter].
  destruct (is_app r); [|done]. rewrite IH. done.
Qed.

Lemma commit_union_spec d cs : forall acc, rs_ok acc -> entries_ok cs ->
  rs_ok (commit_union d cs acc) /\
  forall i, in_rs i (commit_union d cs acc) <-> in_rs i acc \/ exists e, e ∈ cs /\ fst (fst e) = d /\ in_rs i (snd (fst e)).
Proof.
  induction cs as [|[[d' idx] a] cs IH]; intros acc Hacc Hok.
  { split; [done|]. intros i. split; [by left|]. intros [?|(e & []%elem_of_nil & _)]. done. }
  apply Forall_cons in Hok as [Hidx Hok]. simpl in Hidx. cbn [commit_union]. case_bool_decide as Hd.
  - subst d'. destruct (IH (rs_union acc idx)) as [H1 H2]; [by apply rs_union_ok|done|]. split; [done|].
    intros i. rewrite H2, in_rs_union by done. split.
    + intros [[?|?]|(e & He & Hed & Hi)]; [by left| |].
      * right. exists (d, idx, a). split_and!; [by left|done|done].
      * right. exists e. split_and!; [by right|done|done].
    + intros [?|(e & [->|He]%elem_of_cons & Hed & Hi)]; [by left; left|by left; right|].
      right. by exists e.
  - destruct (IH acc) as [H1 H2]; [done|done|]. split; [done|]. intros i. rewrite H2. split.
    + intros [?|(e & He & Hed & Hi)]; [by left|]. right. exists e. split_and!; [by right|done|done].
    + intros [?|(e & [->|He]%elem_of_cons & Hed & Hi)]; [by left|done|]. right. by exists e.
Qed.

Lemma commit_union_end d cs n : entries_ok cs ->
  rs_end (commit_union d cs []) <= n <-> entries_below d n cs.
Proof.
  intros Hok. destruct (commit_union_spec d cs [] I Hok) as [H1 H2].
  rewrite (rs_end_le_ok _ _ H1). unfold entries_below. rewrite Forall_forall. split.
  - intros H e He Hd. unfold entries_ok in Hok. rewrite Forall_forall in Hok.
    apply (rs_end_le_ok _ _ (Hok e He)). intros i Hi. apply H, H2. right. by exists e.
  - intros H i Hi. apply H2 in Hi as [Hi|(e & He & Hd & Hi)]; [by apply in_rs_nil in Hi|].
    unfold entries_ok in Hok. rewrite Forall_forall in Hok.
    by apply (proj1 (rs_end_le_ok _ _ (Hok e He)) (H e He Hd)).
Qed.

Lemma commit_union_sub cs gs gr : entries_ok cs ->
  (forall i, in_rs i (commit_union Sent cs []) -> in_rs i gs) ->
  (forall i, in_rs i (commit_union Received cs []) -> in_rs i gr) ->
  Forall (fun e => forall i, in_rs i (snd (fst e)) -> in_rs i (match fst (fst e) with Sent => gs | Received => gr end)) cs.
Proof.
  intros Hok Hs Hr. apply Forall_forall. intros e He i Hi.
  destruct (fst (fst e)) eqn:Ed; [apply Hs|apply Hr]; (apply commit_union_spec; [done|done|]); right; by exists e.
Qed.

Lemma encrypts_decryption aes key iv rs i p : encrypts aes key iv rs i p <-> decryption aes key iv rs i = Some p.
Proof.
  unfold encrypts, decryption. split.
  - intros (k & c & -> & -> & ->). by rewrite N.lxor_assoc, N.lxor_nilpotent, N.lxor_0_r.
  - destruct (keystream_at _ _ _ _ _) as [k|]; [|done]. destruct (all_ct rs !! i) as [c|]; [|done].
    intros [= <-]. exists k, c. split_and!; [done|done|]. by rewrite N.lxor_assoc, N.lxor_nilpotent, N.lxor_0_r.
Qed.

Lemma partial_new_ok ns nr : partial_ok (partial_new ns nr).
Proof. split_and!; simpl; try done; unfold rs_end; simpl; lia. Qed.

Section Out.
  Context (aes : list N -> list N -> list N) (empty_eq : bool).
  Context (vm_hash : alg_id -> option (list N -> list N)).
  Context (Haes : aes_ok aes).

  Lemma check_transcript_spec rq t ns nr p : check_transcript rq t ns nr = Ok p ->
    (forall p, t = Some p -> partial_ok p) ->
    partial_ok p /\ length (p_sent p) = ns /\ length (p_recv p) = nr /\
    match pq_reveal rq with
    | None => p = partial_new ns nr
    | Some (s, r) => t = Some p /\ p_sent_idx p = s /\ p_recv_idx p = r
    end.
  Proof.
    unfold check_transcript. intros H Hp. destruct (pq_reveal rq) as [[s r]|].
    - destruct t as [q|]; [|done]. destruct (negb _ || negb _) eqn:El; [done|].
      destruct (negb (rs_eqb (p_sent_idx q) s)) eqn:Es; [done|].
      destruct (negb (rs_eqb (p_recv_idx q) r)) eqn:Er; [done|]. injection H as <-.
      apply negb_false_iff, rs_eqb_spec in Es, Er. split_and!; [by apply Hp|lia|lia|done|done|done].
    - injection H as <-. split_and!; [apply partial_new_ok|apply replicate_length|apply replicate_length|done].
  Qed.
  Lemma check_transcript_no_panic rq t ns nr : check_transcript rq t ns nr <> Panic.
  Proof.
    unfold check_transcript. destruct (pq_reveal rq) as [[s r]|]; [|done]. destruct t; [|done].
    by repeat case_match.
  Qed.

  Lemma reveal_everything rq t ns nr p d : check_transcript rq t ns nr = Ok p ->
    (forall p, t = Some p -> partial_ok p) ->
    reveals_all empty_eq (p_idx p d) (length (p_data p d)) = true ->
    reveals_everything rq d (length (p_data p d)).
  Proof.
    intros Hc Hp Ha. destruct (check_transcript_spec _ _ _ _ _ Hc Hp) as (_ & Hs & Hr & Hm).
    unfold reveals_everything. pose proof (reveals_all_spec empty_eq _ _ Ha) as Hall.
    destruct (pq_reveal rq) as [[s r]|].
    - destruct Hm as (_ & <- & <-). destruct d; exact Hall.
    - subst p. destruct (length (p_data (partial_new ns nr) d)) as [|n]; [done|]. exfalso.
      specialize (Hall 0). destruct d; simpl in Hall; rewrite in_rs_nil in Hall; lia.
  Qed.

  Context (wit : nat -> N) (cv : cert_verifier) (keys : session_keys) (m : mem) (tls : tls_transcript).
  Context (rq : prove_request) (hs : option (server_name * handshake_data)) (t : option partial).
  Context (Hsess : session_ok tls) (Hent : entries_ok (the_commits rq)).
  Context (Hpart : forall p, t = Some p -> partial_ok p).

  Definition name_ok (out : verifier_output) : Prop :=
    match hs with
    | None => vo_name out = None
    | Some (name, data) => vo_name out = Some name /\
        handshake_ok cv data (tt_time tls) (cb_key (tt_binding tls)) name
    end.
  Definition transcript_ok (out : verifier_output) : Prop :=
    match pq_reveal rq with
    | None => vo_transcript out = None
    | Some (s, r) => exists p, t = Some p /\ vo_transcript out = Some p /\ discloses aes keys tls s r p
    end.

  Lemma verify_spec :
    match verify aes empty_eq vm_hash wit cv keys m tls rq hs t with
    | Ok (m', out) => m `prefix_of` m' /\ name_ok out /\ transcript_ok out /\
        Forall2 (commits_data aes vm_hash keys tls) (the_commits rq) (vo_commitments out) /\
        (forall d, entries_below d (data_length tls d) (the_commits rq))
    | Err _ => True
    | Panic => exists d, reveals_everything rq d (data_length tls d) /\
        ~ entries_below d (data_length tls d) (the_commits rq)
    end.
  Proof.
    unfold verify. rewrite !collect_ciphertext_eq.
    destruct (check_transcript _ _ _ _) as [p|e|] eqn:Ec; [|done|by apply check_transcript_no_panic in Ec].
    cbn [obind]. destruct (check_transcript_spec _ _ _ _ _ Ec Hpart) as ((Hok1 & Hok2 & Hb1 & Hb2) & Hls & Hlr & Hm).
    fold (the_commits rq).
    assert (Hname : forall name, (match hs with
      | None => Ok None
      | Some (name, data) =>
          let! _ := map_err (fun _ => VCertificate)
                      (handshake_verify data cv (tt_time tls) (cb_key (tt_binding tls)) name) in
          Ok (Some name)
      end) = Ok name -> forall tr cs, name_ok (VerifierOutput name tr cs)).
    { intros name Hn tr cs. unfold name_ok. destruct hs as [[n data]|].
      - apply obind_Ok in Hn as ([] & Hv & [= <-]). split; [done|].
        apply handshake_verify_iff. by destruct (handshake_verify _ _ _ _ _) as [[]| |].
      - by injection Hn as <-. }
    destruct (match hs with None => _ | Some _ => _ end) as [name| |] eqn:En; [|done|].
    2: { destruct hs as [[n data]|]; [|done].
         pose proof (handshake_verify_no_panic data cv (tt_time tls) (cb_key (tt_binding tls)) n) as Hnp.
         by destruct (handshake_verify _ _ _ _ _) as [[]| |]. }
    specialize (Hname _ eq_refl). cbn [obind].
    destruct (commit_union_spec Sent (the_commits rq) [] I Hent) as [HcS _].
    destruct (commit_union_spec Received (the_commits rq) [] I Hent) as [HcR _].
    set (cS := commit_union Sent (the_commits rq) []) in *.
    set (cR := commit_union Received (the_commits rq) []) in *.
    destruct (verify_plaintext_cases aes empty_eq (sk_client_key keys) (sk_client_iv keys) Haes wit m (p_sent p)
      (app_records (tt_sent tls)) (p_sent_idx p) cS) as
      [(HeS & m1 & refsS & pfS & -> & HgS)|[(_ & _ & ->)|(Ho & Ha & ->)]]; try done.
    { apply (Hsess Sent). }
    2: { cbn [auth_lift map_err obind]. exists Sent. unfold data_length. change (dir_records tls Sent) with (app_records (tt_sent tls)). rewrite <- Hls. split.
         - by apply (reveal_everything _ _ _ _ _ Sent Ec Hpart).
         - rewrite <- commit_union_end by done. unfold cS in Ho. lia. }
    cbn [auth_lift map_err obind].
    destruct (verify_plaintext_cases aes empty_eq (sk_server_key keys) (sk_server_iv keys) Haes wit m1 (p_recv p)
      (app_records (tt_recv tls)) (p_recv_idx p) cR) as
      [(HeR & m2 & refsR & pfR & -> & HgR)|[(_ & _ & ->)|(Ho & Ha & ->)]]; try done.
    { apply (Hsess Received). }
    2: { cbn [auth_lift map_err obind]. exists Received. unfold data_length. change (dir_records tls Received) with (app_records (tt_recv tls)). rewrite <- Hlr. split.
         - by apply (reveal_everything _ _ _ _ _ Received Ec Hpart).
         - rewrite <- commit_union_end by done. unfold cR in Ho. lia. }
    cbn [auth_lift map_err obind].
    destruct HgS as (HpS & (gS & HgokS & -> & HsubS & HlS) & _ & _ & HvS).
    destruct HgR as (HpR & (gR & HgokR & -> & HsubR & HlR) & _ & _ & HvR).
    pose proof (prefix_length _ _ HpS) as Hl1. pose proof (prefix_length _ _ HpR) as Hl2.
    destruct (verify_hash_spec vm_hash wit (length m) (length m1) gS gR (the_commits rq) m2) as
      [(m3 & cs & -> & Hp3 & HF)|[-> _]]; [done|done|done| |lia|lia| |done].
    { by apply commit_union_sub. }
    cbn [obind].
    destruct (HvS m3) as [_ HiffS]; [by etrans|]. destruct (HvR m3 Hp3) as [_ HiffR].
    destruct (HvS m3) as [[ES|ES] _]; [by etrans| |by rewrite ES]. rewrite ES. cbn [auth_lift map_err obind].
    destruct (HvR m3 Hp3) as [[ER|ER] _]; [|by rewrite ER]. rewrite ER. cbn [auth_lift map_err obind].
    pose proof (proj1 HiffS ES) as [HrS HdS]. pose proof (proj1 HiffR ER) as [HrR HdR].
    clear HiffS HiffR HvS HvR.
    split_and!.
    - etrans; [done|]. by etrans.
    - apply Hname.
    - unfold transcript_ok. cbn [vo_transcript]. destruct (pq_reveal rq) as [[s r]|]; [|done].
      destruct Hm as (Ht & Hs & Hr). exists p. split_and!; [done|done|]. split_and!; [done|done|].
      intros d. split; [by destruct d|]. intros i Hi. unfold data_at.
      destruct d; cbn [p_data p_idx dir_key dir_iv dir_records] in *.
      + destruct (lookup_lt_is_Some_2 (p_sent p) i) as [b Hb]; [by apply (proj1 (rs_end_le_ok _ _ Hok1) Hb1)|].
        exists b. split; [done|]. apply encrypts_decryption. by apply HrS.
      + destruct (lookup_lt_is_Some_2 (p_recv p) i) as [b Hb]; [by apply (proj1 (rs_end_le_ok _ _ Hok2) Hb2)|].
        exists b. split; [done|]. apply encrypts_decryption. by apply HrR.
    - cbn [vo_commitments].
      assert (Hsub : Forall (fun e => forall i, in_rs i (snd (fst e)) ->
        in_rs i (match fst (fst e) with Sent => cS | Received => cR end)) (the_commits rq)).
      { by apply commit_union_sub. }
      clearbody cS cR. clear - HF Hsub HdS HdR HpR HlS HgokS. induction HF as [|e c es cs' H HF IH]; [constructor|].
      apply Forall_cons in Hsub as [Hin Hsub]. constructor; [|by apply IH].
      destruct H as (h & msg & bl & H1 & H2 & H3 & H4 & H5 & H6). exists h, msg, bl. split_and!; [done..|].
      apply Forall2_same_length_lookup in H6 as [Hl H6]. apply Forall2_same_length_lookup_2; [done|].
      intros k i b Hi Hb. specialize (H6 k i b Hi Hb). unfold data_at. apply encrypts_decryption.
      assert (Hii : in_rs i (snd (fst e))) by (apply in_rs_values; by eapply elem_of_list_lookup_2).
      specialize (Hin i Hii). cbn beta in H6. destruct (fst (fst e)); cbn [dir_key dir_iv dir_records].
      + apply HdS; [done|]. by apply (value_at_prefix m1 m2) in H6.
      + by apply HdR.
    - intros d. unfold data_length. rewrite <- commit_union_end by done. fold cS cR.
      destruct d; unfold dir_records; [rewrite <- Hls|rewrite <- Hlr]; done.
  Qed.
End Out.

Section Honest.
  Context (aes : list N -> list N -> list N) (empty_eq : bool).
  Context (vm_hash : alg_id -> option (list N -> list N)).
  Context (Haes : aes_ok aes).

  Lemma honest_spec cv keys m tls (t : transcript) idflag reveal cm blinders hs name p :
    let rq := ProveRequest idflag reveal cm in
    session_ok tls -> entries_ok (the_commits rq) ->
    (forall d, entries_below d (data_length tls d) (the_commits rq)) ->
    (forall e, e ∈ the_commits rq -> vm_hash (snd e) <> None) ->
    (forall n, length (blinders n) = 16) ->
    (forall d, length (t_data t d) = data_length tls d) ->
    (forall d i b, t_data t d !! i = Some b -> data_at aes keys tls d i = Some b) ->
    partial_ok p -> (forall d, length (p_data p d) = data_length tls d) ->
    (forall d i, in_rs i (p_idx p d) -> p_data p d !! i = t_data t d !! i) ->
    match reveal with Some (s, r) => p_sent_idx p = s /\ p_recv_idx p = r | None => p = partial_new (data_length tls Sent) (data_length tls Received) end ->
    match hs with
    | None => name = None
    | Some (n, data) => name = Some n /\ handshake_ok cv data (tt_time tls) (cb_key (tt_binding tls)) n
    end ->
    exists mf cs ss,
      prove aes empty_eq vm_hash keys m tls t reveal (the_commits rq) blinders = Ok (mf, cs, ss) /\
      verify aes empty_eq vm_hash (wit_of mf) cv keys m tls rq hs (match reveal with Some _ => Some p | None => None end) =
        Ok (mf, VerifierOutput name (match reveal with Some _ => Some p | None => None end) cs).
  Proof.
    intros rq Hsess Hent Hbel Hsup Hbl Htl Htd (Hok1 & Hok2 & Hb1 & Hb2) Hpl Hpd Hp Hhs.
    destruct (commit_union_spec Sent (the_commits rq) [] I Hent) as [HcS _].
    destruct (commit_union_spec Received (the_commits rq) [] I Hent) as [HcR _].
    pose proof (proj2 (commit_union_end _ _ _ Hent) (Hbel Sent)) as HeS.
    pose proof (proj2 (commit_union_end _ _ _ Hent) (Hbel Received)) as HeR.
    set (cS := commit_union Sent (the_commits rq) []) in *.
    set (cR := commit_union Received (the_commits rq) []) in *.
    pose proof (Htl Sent) as HtS. pose proof (Htl Received) as HtR.
    pose proof (Hpl Sent) as HpS. pose proof (Hpl Received) as HpR. cbn [t_data p_data] in HtS, HtR, HpS, HpR.
    assert (HrS : rs_end (p_sent_idx p) <= length (t_sent t)) by lia.
    assert (HrR : rs_end (p_recv_idx p) <= length (t_recv t)) by lia.
    unfold data_length in *.
    destruct (prove_plaintext_ok aes empty_eq (sk_client_key keys) (sk_client_iv keys) Haes m (t_sent t)
      (dir_records tls Sent) (p_sent_idx p) cS) as (m1 & refsS & HprS & Hpre1 & HvalS & HverS);
      [apply Hsess|done|done|done|done|lia|].
    destruct (prove_plaintext_ok aes empty_eq (sk_server_key keys) (sk_server_iv keys) Haes m1 (t_recv t)
      (dir_records tls Received) (p_recv_idx p) cR) as (m2 & refsR & HprR & Hpre2 & HvalR & HverR);
      [apply Hsess|done|done|done|done|lia|].
    (* the shape of the references, from a run of the verifier *)
    assert (Hshape : forall mf, m2 `prefix_of` mf ->
      (exists pfS, verify_plaintext aes empty_eq (sk_client_key keys) (sk_client_iv keys) (wit_of mf) m (p_sent p)
         (all_ct (dir_records tls Sent)) (dir_records tls Sent) (p_sent_idx p) cS = Ok (m1, refsS, pfS) /\
         vp_good aes (sk_client_key keys) (sk_client_iv keys) (dir_records tls Sent) (wit_of mf) m (p_sent p) (p_sent_idx p) cS m1 refsS pfS) /\
      (exists pfR, verify_plaintext aes empty_eq (sk_server_key keys) (sk_server_iv keys) (wit_of mf) m1 (p_recv p)
         (all_ct (dir_records tls Received)) (dir_records tls Received) (p_recv_idx p) cR = Ok (m2, refsR, pfR) /\
         vp_good aes (sk_server_key keys) (sk_server_iv keys) (dir_records tls Received) (wit_of mf) m1 (p_recv p) (p_recv_idx p) cR m2 refsR pfR)).
    { intros mf Hmf. split.
      - destruct (HverS mf (p_sent p)) as [pf Hv]; [by etrans|lia|apply (Hpd Sent)|]. exists pf. split; [done|].
        destruct (verify_plaintext_in aes empty_eq (sk_client_key keys) (sk_client_iv keys) Haes (wit_of mf) m (p_sent p)
          (dir_records tls Sent) (p_sent_idx p) cS) as (m1' & refs' & pf' & Hv' & Hg);
          [apply Hsess|done|done|lia|lia|lia|]. rewrite Hv in Hv'. by injection Hv' as <- <- <-.
      - destruct (HverR mf (p_recv p)) as [pf Hv]; [done|lia|apply (Hpd Received)|]. exists pf. split; [done|].
        destruct (verify_plaintext_in aes empty_eq (sk_server_key keys) (sk_server_iv keys) Haes (wit_of mf) m1 (p_recv p)
          (dir_records tls Received) (p_recv_idx p) cR) as (m1' & refs' & pf' & Hv' & Hg);
          [apply Hsess|done|done|lia|lia|lia|]. rewrite Hv in Hv'. by injection Hv' as <- <- <-. }
    destruct (Hshape m2 ltac:(done)) as [(pfS0 & _ & (_ & (gS & HgokS & HeqS & HsubS & HlS) & _))
      (pfR0 & _ & (_ & (gR & HgokR & HeqR & HsubR & HlR) & _))].
    pose proof (prefix_length _ _ Hpre2) as Hl2.
    destruct (prove_hash_spec vm_hash (length m) (length m1) gS gR blinders (the_commits rq) m2) as
      (mf & cs & ss & Hph & Hpre3 & Hvh); [done|done|done| |lia|lia|done|done|].
    { by apply commit_union_sub. }
    exists mf, cs, ss. split.
    - unfold prove.
      assert (match reveal with Some p => p | None => ([], []) end = (p_sent_idx p, p_recv_idx p)) as ->.
      { destruct reveal as [[s r]|]; [by destruct Hp as [-> ->]|by subst p]. }
      change (app_records (tt_sent tls)) with (dir_records tls Sent).
      change (app_records (tt_recv tls)) with (dir_records tls Received). fold cS cR.
      rewrite HprS. cbn [auth_lift map_err obind]. rewrite HprR. cbn [auth_lift map_err obind].
      subst refsS refsR. exact Hph.
    - unfold verify. rewrite !collect_ciphertext_eq.
      change (app_records (tt_sent tls)) with (dir_records tls Sent).
      change (app_records (tt_recv tls)) with (dir_records tls Received).
      assert (check_transcript rq (match reveal with Some _ => Some p | None => None end)
        (length (all_ct (dir_records tls Sent))) (length (all_ct (dir_records tls Received))) = Ok p) as ->.
      { unfold check_transcript, rq. cbn [pq_reveal]. destruct reveal as [[s r]|]; [|by rewrite Hp].
        destruct Hp as [<- <-]. rewrite HpS, HpR, !Nat.eqb_refl. cbn [negb orb].
        rewrite !(proj2 (rs_eqb_spec _ _)) by done. done. }
      cbn [obind].
      assert (match hs with
        | None => Ok None
        | Some (name, data) =>
          let! _ := map_err (fun _ => VCertificate)
                      (handshake_verify data cv (tt_time tls) (cb_key (tt_binding tls)) name) in
          Ok (Some name)
        end = Ok name) as ->.
      { destruct hs as [[n data]|]; [|by rewrite Hhs]. destruct Hhs as [-> Hv%handshake_verify_iff]. by rewrite Hv. }
      cbn [obind]. fold (the_commits rq). fold cS cR.
      destruct (Hshape mf Hpre3) as [(pfS & -> & HgS) (pfR & HvR & HgR)]. cbn [auth_lift map_err obind].
      rewrite HvR. cbn [auth_lift map_err obind]. rewrite HeqS, HeqR, (Hvh mf ltac:(done)). cbn [obind].
      assert (HokS : plain_proof_verify aes (sk_client_key keys) (sk_client_iv keys) mf pfS = Ok tt).
      { apply HgS; [by etrans|]. split.
        - intros i b Hi Hb. apply encrypts_decryption. apply (Htd Sent). rewrite <- (Hpd Sent i Hi). done.
        - intros i v Hi Hv. apply encrypts_decryption. apply (Htd Sent). by apply HvalS. }
      assert (HokR : plain_proof_verify aes (sk_server_key keys) (sk_server_iv keys) mf pfR = Ok tt).
      { apply HgR; [done|]. split.
        - intros i b Hi Hb. apply encrypts_decryption. apply (Htd Received). rewrite <- (Hpd Received i Hi). done.
        - intros i v Hi Hv. apply encrypts_decryption. apply (Htd Received). by apply HvalR. }
      rewrite HokS. cbn [auth_lift map_err obind]. rewrite HokR. cbn [auth_lift map_err obind].
      unfold rq. cbn [pq_reveal]. by destruct reveal.
  Qed.
End Honest.
