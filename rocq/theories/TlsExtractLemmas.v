(** Lemmas about the data that the builder of TLS transcripts takes from the handshake (C53). *)
From Verif.Lib Require Import Base.
From Verif Require Import TranscriptModel CodecModel CodecSpec CodecLemmas FramingLemmas AttestModel TlsModel TlsSpec TlsLemmas.

Lemma parse_ecdhe_wire group key scheme sig : ske_sizes group key scheme sig ->
  parse_ecdhe (ske_wire group key scheme sig) = Some (group, key, scheme, sig).
Proof.
  intros [H1 H2 H3 H4]. unfold parse_ecdhe, ske_wire.
  change [3%N] with (enc_uint 1 3). rewrite read_uint_enc by done. cbn [N.eqb Pos.eqb negb].
  change (be 2 group) with (enc_uint 2 group). rewrite read_uint_enc by done.
  rewrite (app_assoc (be 1 _) key), <- enc_payload_small by (change (256 ^ N.of_nat 1)%N with 256%N; lia).
  rewrite read_payload_enc by (change (256 ^ N.of_nat 1)%N with 256%N; lia).
  change (be 2 scheme) with (enc_uint 2 scheme). rewrite read_uint_enc by done.
  rewrite <- enc_payload_small by (change (256 ^ N.of_nat 2)%N with (2 ^ 16)%N; lia).
  rewrite <- (app_nil_r (enc_payload 2 sig)). rewrite read_payload_enc by (change (256 ^ N.of_nat 2)%N with (2 ^ 16)%N; lia).
  done.
Qed.
Lemma parse_ecdhe_inv l group key scheme sig : bytes_ok l -> parse_ecdhe l = Some (group, key, scheme, sig) ->
  l = ske_wire group key scheme sig /\ ske_sizes group key scheme sig.
Proof.
  intros Hok. unfold parse_ecdhe.
  destruct (read_uint 1 l) as [[ct l1]|] eqn:E1; [|done].
  destruct (N.eqb_spec ct 3) as [->|]; [|done]. cbn [negb].
  destruct (read_uint 2 l1) as [[g l2]|] eqn:E2; [|done].
  destruct (read_payload 1 l2) as [[k l3]|] eqn:E3; [|done].
  destruct (read_uint 2 l3) as [[s l4]|] eqn:E4; [|done].
  destruct (read_payload 2 l4) as [[sg [|]]|] eqn:E5; [|done..]. intros [= <- <- <- <-].
  apply uint_canonical in E1 as (u1 & -> & B1); [|done]. apply bytes_ok_app in Hok as [_ Hok].
  apply uint_canonical in E2 as (u2 & -> & B2); [|done]. apply bytes_ok_app in Hok as [_ Hok].
  pose proof (read_payload_fits _ _ _ _ Hok E3) as F3.
  apply read_payload_Some in E3 as (u3 & -> & L3 & B3). apply bytes_ok_app in Hok as [O3 Hok].
  apply bytes_ok_app in Hok as [_ Hok].
  apply uint_canonical in E4 as (u4 & -> & B4); [|done]. apply bytes_ok_app in Hok as [_ Hok].
  pose proof (read_payload_fits _ _ _ _ Hok E5) as F5.
  apply read_payload_Some in E5 as (u5 & -> & L5 & B5). apply bytes_ok_app in Hok as [O5 Hok].
  rewrite app_nil_r. apply is_be_of in O3, O5. rewrite L3, <- B3 in O3. rewrite L5, <- B5 in O5.
  assert (forall n v l, is_be n v l -> (v < 256 ^ N.of_nat n)%N) as Hlt.
  { intros n v l (<- & Hl & <-)%is_be_ok. by apply of_be_lt. }
  split.
  - apply is_be_eq in B1, B2, O3, B4, O5. subst. done.
  - split.
    + by apply Hlt in B2.
    + change (256 ^ N.of_nat 1)%N with 256%N in F3. lia.
    + by apply Hlt in B4.
    + done.
Qed.

Lemma find_map_first {B} (f : hs_payload -> option B) (g : B -> hs_payload) :
  (forall p b, f p = Some b <-> p = g b) -> forall l b, find_map f l = Some b <-> first_is g l b.
Proof.
  intros Hfg l. induction l as [|p l IH]; intros b; simpl.
  - split; [done|]. intros (u & v & H & _). by destruct u.
  - destruct (f p) as [b'|] eqn:E.
    + apply Hfg in E as ->. split.
      * intros [= ->]. exists [], l. split; [done|]. intros a' H. by apply elem_of_nil in H.
      * intros (u & v & H & Hn). destruct u as [|q u].
        -- injection H as H _. assert (f (g b') = Some b') as E by by apply Hfg. rewrite H in E.
           assert (f (g b) = Some b) as E' by by apply Hfg. congruence.
        -- injection H as <- _. exfalso. apply (Hn b'). by left.
    + rewrite IH. split.
      * intros (u & v & -> & Hn). exists (p :: u), v. split; [done|]. intros a' H.
        apply elem_of_cons in H as [H|H]; [|by apply (Hn a')]. symmetry in H. apply Hfg in H. congruence.
      * intros (u & v & H & Hn). destruct u as [|q u].
        -- injection H as -> _. assert (f (g b) = Some b) by by apply Hfg. congruence.
        -- injection H as <- ->. exists u, v. split; [done|]. intros a' Ha. apply (Hn a'). by right.
Qed.
Lemma server_hello_first l v r :
  find_map get_server_hello l = Some (v, r) <-> first_is (fun x => HsServerHello (fst x) (snd x)) l (v, r).
Proof. apply find_map_first. intros p [v' r']. destruct p; simpl; split; try done; by intros [= -> ->]. Qed.
Lemma client_hello_first l r : find_map get_client_hello l = Some r <-> first_is HsClientHello l r.
Proof. apply find_map_first. intros p r'. destruct p; simpl; split; try done; by intros [= ->]. Qed.
Lemma certificate_first l r : find_map get_certificate l = Some r <-> first_is HsCertificate l r.
Proof. apply find_map_first. intros p r'. destruct p; simpl; split; try done; by intros [= ->]. Qed.
Lemma ske_first l r : find_map get_ske l = Some r <-> first_is HsServerKeyExchange l r.
Proof. apply find_map_first. intros p r'. destruct p; simpl; split; try done; by intros [= ->]. Qed.

Lemma version_of_supported v version : version_of v = Some version <-> supported v version.
Proof.
  unfold supported. split.
  - destruct v; simpl; intros [= <-]; auto.
  - by intros [[-> ->]|[-> ->]].
Qed.

Lemma map_scheme_is ec_curve scheme certs alg :
  map_scheme ec_curve scheme certs = Ok alg <->
  algorithm_is (match certs with [] => None | c :: _ => ec_curve c end) scheme alg.
Proof.
  unfold map_scheme. set (curve := match certs with [] => None | c :: _ => ec_curve c end). clearbody curve. split.
  - destruct (N.eqb_spec scheme 0x0401) as [->|_]; [intros [= <-]; constructor|].
    destruct (N.eqb_spec scheme 0x0501) as [->|_]; [intros [= <-]; constructor|].
    destruct (N.eqb_spec scheme 0x0601) as [->|_]; [intros [= <-]; constructor|].
    destruct (N.eqb_spec scheme 0x0804) as [->|_]; [intros [= <-]; constructor|].
    destruct (N.eqb_spec scheme 0x0805) as [->|_]; [intros [= <-]; constructor|].
    destruct (N.eqb_spec scheme 0x0806) as [->|_]; [intros [= <-]; constructor|].
    destruct (N.eqb_spec scheme 0x0807) as [->|_]; [intros [= <-]; constructor|].
    destruct (N.eqb_spec scheme 0x0403) as [->|_];
      [destruct curve as [[|[| |]]|]; intros [= <-]; by constructor|].
    destruct (N.eqb_spec scheme 0x0503) as [->|_];
      [destruct curve as [[|[| |]]|]; intros [= <-]; by constructor|]. done.
  - intros []; try (match goal with H : curve = _ |- _ => rewrite H end); reflexivity.
Qed.

Lemma extract_iff ec_curve sent recv version certs alg sig cr sr key :
  (forall b, HsServerKeyExchange b ∈ recv -> bytes_ok b) ->
  extract_handshake ec_curve sent recv = Ok (version, certs, ServerSignature alg sig, CertBinding cr sr (EphemKey key)) <->
  handshake_says ec_curve sent recv version certs alg sig cr sr key.
Proof.
  intros Hok. unfold extract_handshake. split.
  - destruct (find_map get_server_hello recv) as [[v r]|] eqn:E1; [|done]. cbn [opt_err obind].
    destruct (version_of v) as [v'|] eqn:E2; [|done]. cbn [opt_err obind].
    destruct (find_map get_client_hello sent) as [c|] eqn:E3; [|done]. cbn [opt_err obind].
    destruct (find_map get_certificate recv) as [cs|] eqn:E4; [|done]. cbn [opt_err obind].
    destruct (find_map get_ske recv) as [ske|] eqn:E5; [|done]. cbn [opt_err obind].
    destruct (parse_ecdhe ske) as [[[[g p] sc] sg]|] eqn:E6; [|done]. cbn [opt_err obind].
    destruct (N.eqb_spec g 23) as [->|]; [|done]. cbn [negb].
    destruct (map_scheme ec_curve sc cs) as [a| |] eqn:E7; [|done..]. cbn [obind].
    intros [= <- <- <- <- <- <- <-].
    apply server_hello_first in E1. apply client_hello_first in E3. apply certificate_first in E4.
    apply ske_first in E5. apply version_of_supported in E2. apply map_scheme_is in E7.
    assert (bytes_ok ske) as Hske.
    { apply Hok. destruct E5 as (u & w & -> & _). apply elem_of_app. right. by left. }
    apply parse_ecdhe_inv in E6 as [-> Hsz]; [|done]. split; eauto.
  - intros [H1 (v & H2 & H3) H4 (sc & H5 & H6 & H7)].
    apply server_hello_first in H2. apply client_hello_first in H1. apply certificate_first in H4.
    apply ske_first in H5. apply version_of_supported in H3. apply map_scheme_is in H7.
    rewrite H2. cbn [opt_err obind]. rewrite H3. cbn [opt_err obind]. rewrite H1. cbn [opt_err obind].
    rewrite H4. cbn [opt_err obind]. rewrite H5. cbn [opt_err obind]. rewrite (parse_ecdhe_wire _ _ _ _ H6). cbn [opt_err obind].
    change (negb (23 =? 23)%N) with false. cbn iota. rewrite H7. done.
Qed.

Section Extract.
  Context (sha256 : list N -> list N).
  Context (parse_body : protocol_version -> N -> list N -> option hs_payload).
  Context (ec_curve : list N -> option N).
  Notation build := (tls_build sha256 parse_body ec_curve).

  Lemma parse_messages_iff ms ps : Forall (fun m : hs_message => (N.of_nat (length (snd m)) < 2 ^ 24)%N) ms ->
    forall fuel, length (msgs_wire ms) <= fuel ->
    parse_messages parse_body fuel (msgs_wire ms) = Ok ps <-> messages_parse parse_body ms ps.
  Proof.
    intros Hms. revert ps. induction Hms as [|m ms Hm _ IH]; intros ps fuel Hf.
    - unfold messages_parse. destruct fuel; simpl; (split; [intros [= <-]; constructor|intros H; inversion H; done]).
    - assert (msgs_wire (m :: ms) = hs_wire (fst m) (snd m) ++ msgs_wire ms) as E by done.
      rewrite E in *. pose proof (msg_wire_length m) as Hl. unfold msg_wire in Hl.
      rewrite app_length, Hl in Hf. destruct fuel as [|fuel]; [lia|].
      assert (exists x l, hs_wire (fst m) (snd m) ++ msgs_wire ms = x :: l) as (x & l & Ex).
      { unfold hs_wire. cbn [app]. eauto. }
      rewrite Ex. cbn [parse_messages]. rewrite <- Ex. rewrite hs_read_wire by done.
      destruct (parse_body TLSv1_2 (fst m) (snd m)) as [p|] eqn:Ep.
      + specialize (fun ps => IH ps fuel ltac:(lia)). destruct (parse_messages parse_body fuel (msgs_wire ms)) as [ps'| |]; cbn [obind].
        * split.
          -- intros [= <-]. constructor; [done|]. by apply IH.
          -- intros H. inversion H as [|? ? ? ? H1 H2]; subst. apply IH in H2. injection H2 as <-. congruence.
        * split; [done|]. intros H. inversion H as [|? ? ? ? H1 H2]; subst. by apply IH in H2.
        * split; [done|]. intros H. inversion H as [|? ? ? ? H1 H2]; subst. by apply IH in H2.
      + split; [done|]. intros H. inversion H; congruence.
  Qed.

  Lemma messages_bytes ms ps : parses_to_bytes parse_body -> Forall (fun m : hs_message => bytes_ok (snd m)) ms ->
    messages_parse parse_body ms ps -> forall b, HsServerKeyExchange b ∈ ps -> bytes_ok b.
  Proof.
    intros Hb Hms H. induction H as [|m p ms ps Hp _ IH]; intros b Hin; [by apply elem_of_nil in Hin|].
    inversion Hms; subst. apply elem_of_cons in Hin as [<-|Hin]; [|by apply IH]. eauto.
  Qed.

  Lemma carries_bytes raw ms : bytes_ok raw -> carries raw ms -> Forall (fun m : hs_message => bytes_ok (snd m)) ms.
  Proof.
    intros Hraw (before & rest & -> & _ & _ & _ & Hm).
    assert (bytes_ok (msgs_wire ms)) as Hw.
    { rewrite <- Hm. clear Hm. rewrite map_app, concat_app in Hraw. apply bytes_ok_app in Hraw as [Hraw _].
      induction before as [|m before IH]; [constructor|].
      cbn [map concat] in Hraw. apply bytes_ok_app in Hraw as [Hm Hraw].
      cbn [List.filter]. destruct (bool_decide _); [|by apply IH]. cbn [map concat]. apply Forall_app. split; [|by apply IH].
      unfold wire in Hm. repeat (apply bytes_ok_app in Hm as [? Hm]). done. }
    clear Hm Hraw. induction ms as [|m ms IH]; [constructor|].
    change (msgs_wire (m :: ms)) with (hs_wire (fst m) (snd m) ++ msgs_wire ms) in Hw.
    apply bytes_ok_app in Hw as [H1 H2]. constructor; [|by apply IH]. unfold hs_wire in H1. by apply bytes_ok_app in H1 as [_ ?].
  Qed.

  Lemma C53_extract_lemma b t cms sms sent recv : parses_to_bytes parse_body ->
    tb_tls_sent b = Some sent -> tb_tls_recv b = Some recv -> bytes_ok recv ->
    carries sent cms -> carries recv sms ->
    Forall (fun m => (N.of_nat (length (snd m)) < 2 ^ 24)%N) (cms ++ sms) ->
    build b = Ok t ->
    exists ps qs version certs alg sig cr sr key,
      messages_parse parse_body cms ps /\ messages_parse parse_body sms qs /\
      handshake_says ec_curve ps qs version certs alg sig cr sr key /\
      tt_version t = default version (tb_version b) /\
      tt_certs t = Some (default certs (tb_certs b)) /\
      tt_signature t = Some (default (ServerSignature alg sig) (tb_signature b)) /\
      tt_binding t = default (CertBinding cr sr (EphemKey key)) (tb_binding b).
  Proof.
    intros Hpb Hs Hr Hok Cs Cr Hsz (sr & rr & H1 & H2 & _ & _ & _ & H)%build_inv.
    pose proof (carries_bytes _ _ Hok Cr) as Hsb.
    apply carries_collect in Cs as (ss & Cs1 & Cs2), Cr as (rs & Cr1 & Cr2).
    rewrite Hs, Cs1 in H1. rewrite Hr, Cr1 in H2. injection H1 as <-. injection H2 as <-.
    destruct H as (v & c & sg & bd & cf & se & i & H & Hv & Hsg & Hc & Hbd & _).
    unfold handshake_components in H. rewrite Cs2, Cr2 in H. apply Forall_app in Hsz as [Z1 Z2].
    destruct (parse_messages parse_body _ (msgs_wire cms)) as [ps| |] eqn:E1; try done. cbn [obind] in H.
    destruct (parse_messages parse_body _ (msgs_wire sms)) as [qs| |] eqn:E2; try done. cbn [obind] in H.
    apply parse_messages_iff in E1; [|done|lia]. apply parse_messages_iff in E2; [|done|lia].
    destruct (extract_handshake ec_curve ps qs) as [[[[v' c'] [alg sig]] [cr svr [key]]]| |] eqn:E3; try done. cbn [obind] in H.
    destruct (scan_messages _ 0 (msgs_wire cms)) as [si| |]; try done. cbn [obind] in H.
    destruct (scan_messages _ 0 (msgs_wire sms)) as [ri| |]; try done. cbn [obind] in H.
    destruct (compute_hashes sha256 _ _ si ri) as [h| |]; try done. cbn [obind] in H.
    injection H as <- <- <- <- _.
    apply extract_iff in E3; [|by eapply messages_bytes].
    exists ps, qs, v', c', alg, sig, cr, svr, key. split_and!; try done.
    - rewrite Hc. by destruct (tb_certs b).
    - rewrite Hsg. by destruct (tb_signature b).
  Qed.

  Lemma dir_records b d raw : (forall body, parse_body TLSv1_2 20%N body = Some (HsFinished body)) ->
    dir_input_ok b d -> parse_opt (b_raw b d) = Ok raw ->
    forall f, exists rs, build_records parse_body (b_given b d) raw (b_app b d) f = Ok rs.
  Proof.
    intros Hfin Hin Hraw f. unfold build_records, dir_input_ok in *.
    destruct (b_given b d) as [g|].
    - destruct Hin as [[Hsort (fin & rest & -> & Hty & Hseq & Hpl)] Hsize].
      assert (validate_finished parse_body fin = Ok tt) as ->.
      { unfold validate_finished. rewrite Hty, Hseq. rewrite bool_decide_eq_true_2 by done. cbn [negb].
        change (0 =? 0)%N with true. cbn [negb]. destruct (r_plain fin) as [p|] eqn:Ep; [|done].
        destruct (Hpl p eq_refl) as (vd & tr & ->).
        rewrite hs_read_wire; [by rewrite Hfin|]. by eapply Hsize. }
      cbn [obind]. apply validate_seq_ok in Hsort as ->. by eexists.
    - destruct Hin as (l & ms & Hl & Hlw & Hok & Hsplit).
      assert (raw = Some ms) as ->.
      { rewrite Hl in Hraw. unfold parse_opt in Hraw. rewrite Hlw, (parse_raw_ok ms Hok) in Hraw by done.
        cbn [obind] in Hraw. congruence. }
      destruct (parse_records_ok _ _ Hsplit) as [rs Hrs]. rewrite Hrs. cbn [obind].
      destruct (parse_records_inv _ _ _ Hrs) as [_ Hs _ _]. apply seq_sorted in Hs. apply validate_seq_ok in Hs as ->.
      by eexists.
  Qed.

  Lemma C53_build_lemma b h sent recv time ps qs version certs alg sig cr sr key :
    (forall body, parse_body TLSv1_2 20%N body = Some (HsFinished body)) -> parses_to_bytes parse_body ->
    tb_time b = Some time -> tb_tls_sent b = Some sent -> tb_tls_recv b = Some recv -> bytes_ok recv ->
    full_handshake_ok h -> carries sent (client_messages h) -> carries recv (server_messages h) ->
    (forall d, dir_input_ok b d) ->
    messages_parse parse_body (client_messages h) ps -> messages_parse parse_body (server_messages h) qs ->
    handshake_says ec_curve ps qs version certs alg sig cr sr key ->
    exists t, build b = Ok t.
  Proof.
    intros Hfin Hpb Ht Hs Hr Hok Hh Cs Cr Hin Hps Hqs Hsay.
    pose proof (carries_bytes _ _ Hok Cr) as Hsb.
    apply carries_collect in Cs as (ss & Cs1 & Cs2), Cr as (rs & Cr1 & Cr2).
    assert (Forall (fun m : hs_message => (N.of_nat (length (snd m)) < 2 ^ 24)%N) (client_messages h) /\
      Forall (fun m : hs_message => (N.of_nat (length (snd m)) < 2 ^ 24)%N) (server_messages h)) as [Z1 Z2].
    { destruct Hh as [Z _ _ _ _ _]. unfold client_messages, server_messages.
      apply Forall_cons in Z as [Za Zb]. rewrite !Forall_app in Zb. destruct Zb as (Zb1 & Zb2 & Zb3 & Zb4 & Zb5).
      split; [constructor; [done|]; by rewrite !Forall_app|]. rewrite !Forall_app. split_and!; [done|by repeat constructor|done]. }
    assert (exists h', handshake_components sha256 parse_body ec_curve ss rs =
      Ok ((version, certs, ServerSignature alg sig, CertBinding cr sr (EphemKey key)), h')) as [h' Hc].
    { unfold handshake_components. rewrite Cs2, Cr2.
      rewrite (proj2 (parse_messages_iff _ ps Z1 _ (Nat.le_refl _)) Hps). cbn [obind].
      rewrite (proj2 (parse_messages_iff _ qs Z2 _ (Nat.le_refl _)) Hqs). cbn [obind].
      rewrite (proj2 (extract_iff _ _ _ _ _ _ _ _ _ _ (messages_bytes _ _ Hpb Hsb Hqs)) Hsay). cbn [obind].
      rewrite (scan_ok _ Z1) by done. cbn [obind]. rewrite (scan_ok _ Z2) by done. cbn [obind].
      rewrite compute_hashes_ok by done. cbn [obind]. by eexists. }
    assert (parse_opt (b_raw b Sent) = Ok (Some ss)) as Ps by (simpl; by rewrite Hs).
    assert (parse_opt (b_raw b Received) = Ok (Some rs)) as Pr by (simpl; by rewrite Hr).
    destruct (dir_records b Sent _ Hfin (Hin Sent) Ps MSent) as [xs Hxs].
    destruct (dir_records b Received _ Hfin (Hin Received) Pr MRecv) as [ys Hys]. simpl in *.
    unfold tls_build. rewrite Ht. cbn [opt_err obind]. rewrite Ps. cbn [obind]. rewrite Pr. cbn [obind].
    rewrite Hc. cbn [obind]. rewrite Hxs. cbn [obind]. rewrite Hys. cbn [obind].
    destruct (tb_version b), (tb_binding b); cbn [or_else opt_err obind]; by eexists.
  Qed.
End Extract.
