(** What the transcript takes from a handshake message (C60). *)
From Verif.Lib Require Import Base.
From Verif Require Import CodecModel CodecSpec CodecLemmas AttestModel TlsModel TlsSpec TlsLemmas TlsExtractLemmas HandshakeModel HandshakeSpec HandshakeLemmas HandshakeWriteLemmas.

Lemma rd_int_Ok n l v l' : rd_int n l = Ok (v, l') -> exists b, l = b ++ l' /\ length b = n /\ v = of_be b.
Proof. unfold rd_int. destruct (read_uint n l) as [[w k]|] eqn:E; [|done]. intros [= <- <-]. by apply read_uint_Some. Qed.
Lemma rd_take_Ok n l b l' : rd_take n l = Ok (b, l') -> l = b ++ l' /\ length b = n.
Proof. unfold rd_take. destruct (take_bytes n l) as [[w k]|] eqn:E; [|done]. intros [= <- <-]. by apply take_bytes_Some. Qed.
Lemma rd_pay_Ok n l p l' : rd_pay n l = Ok (p, l') ->
  exists b, l = b ++ p ++ l' /\ length b = n /\ N.of_nat (length p) = of_be b.
Proof. unfold rd_pay. destruct (read_payload n l) as [[w k]|] eqn:E; [|done]. intros [= <- <-]. by apply read_payload_Some. Qed.

Lemma items_certs : forall fuel l cs, bytes_ok l -> rd_items (rd_pay 3) fuel l = Ok cs -> certs_wire cs l.
Proof.
  induction fuel as [|fuel IH]; intros l cs Hl H.
  { destruct l; [|done]. injection H as <-. constructor. }
  destruct l as [|b l]; [injection H as <-; constructor|]. cbn [rd_items] in H.
  apply obind_Ok in H. destruct H as ([c l'] & H1 & H). apply obind_Ok in H. destruct H as (cs' & H2 & H). injection H as <-.
  apply rd_pay_Ok in H1. destruct H1 as (len & E & H3 & H4). rewrite E in *.
  apply bytes_ok_app in Hl. destruct Hl as [Hlen Hl]. apply bytes_ok_app in Hl. destruct Hl as [_ Hl].
  constructor; [|by apply IH]. rewrite H4, <- H3. by apply is_be_of.
Qed.

Lemma says_lemma dns_ok typ body p : bytes_ok body ->
  real_parse_body dns_ok TLSv1_2 typ body = Some p -> body_says typ body p.
Proof.
  intros Hb. unfold real_parse_body. rewrite bool_decide_eq_false_2 by done.
  destruct (whole (rd_body dns_ok false typ body)) as [h| |] eqn:E; try done. intros [= <-].
  unfold whole in E. apply obind_Ok in E. destruct E as ([h' r] & E & Hr). destruct r; [|done]. injection Hr as ->.
  destruct (good_body dns_ok false typ body Hb) as [Hg Ht]. specialize (Ht _ _ E). rewrite E in Hg. cbn [ends] in Hg.
  rewrite app_nil_r in Hg.
  destruct (decide (typ ∈ [1; 2; 11; 12; 20]%N)) as [Hin|Hin].
  2:{ destruct h; cbn [hs_type hs_view] in *; subst typ; try (by constructor);
      exfalso; apply Hin; apply (bool_decide_unpack _); vm_compute; exact I. }
  unfold rd_body in E. rewrite !elem_of_cons, elem_of_nil in Hin.
  destruct Hin as [->|[->|[->|[->|[->|[]]]]]]; cbn [N.eqb Pos.eqb andb] in E.
  - clear Hg. apply obind_Ok in E. destruct E as ([x l1] & E & H). injection H as <- _. cbn [hs_view].
    unfold rd_client_hello in E. apply obind_Ok in E. destruct E as ([v l2] & E1 & E). cbv beta iota in E.
    apply obind_Ok in E. destruct E as ([rnd l3] & E2 & E). cbv beta iota in E.
    apply obind_Ok in E. destruct E as ([s l4] & E3 & E). cbv beta iota in E.
    apply obind_Ok in E. destruct E as ([c l5] & E4 & E). cbv beta iota in E.
    apply obind_Ok in E. destruct E as ([k l6] & E5 & E). cbv beta iota in E.
    apply obind_Ok in E. destruct E as ([e l7] & E6 & E). cbv beta iota in E.
    destruct (any_left l7 || _); [done|]. injection E as <- _. cbn [ch_random].
    apply rd_int_Ok in E1. destruct E1 as (b & -> & Hlen & _). apply rd_take_Ok in E2. destruct E2 as [-> Hlen2].
    by constructor.
  - clear Hg. apply obind_Ok in E. destruct E as ([v l2] & E1 & E). cbv beta iota in E.
    apply obind_Ok in E. destruct E as ([rnd l3] & E2 & E). cbv beta iota in E.
    apply rd_int_Ok in E1. destruct E1 as (b & -> & Hlen & ->). apply rd_take_Ok in E2. destruct E2 as [-> Hlen2].
    destruct (bool_decide (rnd = RETRY_RANDOM)) eqn:Er.
    + apply bool_decide_eq_true in Er. subst rnd. apply obind_Ok in E. destruct E as ([x l4] & _ & H). injection H as <- _.
      by constructor.
    + apply bool_decide_eq_false in Er. apply obind_Ok in E. destruct E as ([x l4] & E & H). injection H as <- _.
      unfold rd_server_hello in E. apply obind_Ok in E. destruct E as ([s l5] & _ & E). cbv beta iota in E.
      apply obind_Ok in E. destruct E as ([c l6] & _ & E). cbv beta iota in E.
      apply obind_Ok in E. destruct E as ([k l7] & _ & E). cbv beta iota in E.
      apply obind_Ok in E. destruct E as ([e l8] & _ & E). cbv beta iota in E.
      assert (sh_version x = of_be b /\ sh_random x = rnd) as [Hv Hrn].
      { destruct (any_left l8); [done|]. by injection E as <- _. }
      cbn [hs_view]. rewrite Hv, Hrn. apply bytes_ok_app in Hb. destruct Hb as [Hb _].
      constructor; [|apply pv_of_wf; pose proof (of_be_lt b Hb) as Hlt; by rewrite Hlen in Hlt|done|done].
      rewrite pv_u16_of, <- Hlen. by apply is_be_of.
  - clear Hg. apply obind_Ok in E. destruct E as ([x l1] & E & H). injection H as <- Hl1. subst l1. cbn [hs_view].
    unfold rd_certificates, rd_vec in E. apply obind_Ok in E. destruct E as ([len l2] & E1 & E). cbv beta iota in E.
    destruct (0x10000 <? len)%N; [done|]. apply obind_Ok in E. destruct E as ([sub l3] & E2 & E). cbv beta iota in E.
    apply obind_Ok in E. destruct E as (cs & E3 & E). injection E as <- ->.
    apply rd_int_Ok in E1. destruct E1 as (b & -> & Hlen & ->). apply rd_take_Ok in E2. destruct E2 as [-> Hlen2].
    apply bytes_ok_app in Hb. destruct Hb as [Hb Hs]. rewrite app_nil_r in *. constructor; [|by eapply items_certs].
    rewrite Hlen2, N2Nat.id, <- Hlen. by apply is_be_of.
  - injection E as <-. constructor.
  - injection E as <-. constructor.
Qed.
Lemma real_finished_lemma dns_ok body : real_parse_body dns_ok TLSv1_2 20 body = Some (HsFinished body).
Proof. done. Qed.
Lemma real_finished_is_20 dns_ok : finished_is_20 (real_parse_body dns_ok).
Proof.
  intros v typ body vd. unfold real_parse_body.
  destruct (whole _) as [h| |] eqn:E; try done. intros [= H]. destruct h; try done. injection H as ->.
  unfold whole in E. apply obind_Ok in E. destruct E as ([h' r] & E & Hr). destruct r; [|done]. injection Hr as ->.
  revert E. unfold rd_body, rd_rest.
  repeat match goal with
  | |- context [if ?c then _ else _] => destruct c eqn:?
  end; intros E; try done;
  repeat match goal with H : obind _ _ = Ok _ |- _ => apply obind_Ok in H; destruct H as ([? ?] & ? & H); cbv beta iota in H end;
  try discriminate.
  - destruct (bool_decide _); apply obind_Ok in E; destruct E as ([? ?] & ? & E); discriminate.
  - split; [by apply N.eqb_eq|]. congruence.
Qed.
Lemma real_to_bytes dns_ok : parses_to_bytes (real_parse_body dns_ok).
Proof.
  intros v typ body b Hb. unfold real_parse_body.
  destruct (whole _) as [h| |] eqn:E; try done. intros [= H]. destruct h; try done. injection H as ->.
  unfold whole in E. apply obind_Ok in E. destruct E as ([h' r] & E & Hr). destruct r; [|done]. injection Hr as ->.
  destruct (good_body dns_ok (bool_decide (v = TLSv1_3)) typ body Hb) as [Hg _]. rewrite E in Hg. cbn [ends hs_body] in Hg.
  rewrite app_nil_r in Hg. by subst.
Qed.

(** What a message says is unique. *)
Lemma certs_wire_inj l cs : certs_wire cs l -> forall cs', certs_wire cs' l -> cs = cs'.
Proof.
  induction 1 as [|c cs len l Hb H IH]; intros cs' H'; inversion H' as [E1 E2|c' cs2 len' l' Hb' H2 E1 E2]; subst.
  - done.
  - apply is_be_ok in Hb'. destruct Hb' as [Hlen _]. by destruct len'.
  - apply is_be_ok in Hb. destruct Hb as [Hlen _]. by destruct len.
  - assert (len' = len /\ c' ++ l' = c ++ l) as [-> E].
    { apply app_inj_1; [|done]. apply is_be_ok in Hb, Hb'. destruct Hb as [-> _], Hb' as [-> _]. done. }
    apply is_be_ok in Hb, Hb'. destruct Hb as (_ & _ & Hb), Hb' as (_ & _ & Hb').
    apply app_inj_1 in E; [|lia]. destruct E as [-> ->]. f_equal. by apply IH.
Qed.
Lemma says_unique_lemma typ body p q : body_says typ body p -> body_says typ body q -> p = q.
Proof.
  intros Hp Hq.
  assert (forall typ, typ ∉ [1; 2; 11; 12; 20]%N -> typ ∈ [1; 2; 11; 12; 20]%N -> False) as Hno by auto.
  destruct Hp as [v1 r1 x1 L1 L2|w v1 r1 x1 B1 W1 L2 R1|cs len l B1 C1|b|b|v1 x1 L1|t b Ht];
  inversion Hq as [v2 r2 x2 L3 L4 E1 E2|w2 v2 r2 x2 B3 W3 L4 R3 E1 E2|cs2 len2 l2 B3 C3 E1 E2|b2 E1 E2|b2 E1 E2|v2 x2 L3 E1 E2|t2 b2 Ht2 E1 E2];
  subst; try done; try (exfalso; eapply Hno; [eassumption|]; apply (bool_decide_unpack _); vm_compute; exact I).
  - apply app_inj_1 in E2; [|congruence]. destruct E2 as [_ E2]. apply app_inj_1 in E2; [|congruence]. by destruct E2 as [-> _].
  - apply is_be_ok in B1, B3. destruct B1 as (L1 & _ & B1), B3 as (L3 & _ & B3).
    apply app_inj_1 in E2; [|congruence]. destruct E2 as [-> E2]. apply app_inj_1 in E2; [|congruence]. destruct E2 as [-> _].
    rewrite <- (pv_of_u16 w), <- (pv_of_u16 w2) by done. by rewrite <- B1, <- B3.
  - apply is_be_ok in B1. destruct B1 as (L1 & _). apply app_inj_1 in E2; [|congruence]. destruct E2 as [_ E2].
    change (RETRY_RANDOM ++ x2 = r1 ++ x1) in E2. apply app_inj_1 in E2; [|by rewrite L2]. by destruct E2 as [<- _].
  - apply is_be_ok in B1, B3. destruct B1 as (L1 & _), B3 as (L3 & _). apply app_inj_1 in E2; [|congruence].
    destruct E2 as [_ ->]. f_equal. by eapply certs_wire_inj.
  - apply is_be_ok in B3. destruct B3 as (L3 & _). apply app_inj_1 in E2; [|congruence]. destruct E2 as [_ E2].
    change (r2 ++ x2 = RETRY_RANDOM ++ x1) in E2. apply app_inj_1 in E2; [|by rewrite L4]. by destruct E2 as [-> _].
Qed.

(** Transcripts. *)
Lemma carries_bytes raw ms : bytes_ok raw -> carries raw ms -> Forall (fun m => bytes_ok (snd m)) ms.
Proof.
  intros Hr (before & rest & -> & _ & _ & _ & E).
  assert (bytes_ok (msgs_wire ms)) as Hw.
  { rewrite <- E. clear E. rewrite map_app, concat_app in Hr. apply bytes_ok_app in Hr. destruct Hr as [Hr _].
    induction before as [|m before IH]; [constructor|]. cbn [map concat] in Hr. apply bytes_ok_app in Hr. destruct Hr as [Hm Hr].
    cbn [List.filter]. destruct (bool_decide _); [|by apply IH]. cbn [map concat]. apply bytes_ok_app. split; [|by apply IH].
    unfold wire in Hm. repeat (apply bytes_ok_app in Hm; destruct Hm as [? Hm]). done. }
  clear E Hr. induction ms as [|m ms IH]; [constructor|]. unfold msgs_wire in Hw. cbn [map concat] in Hw.
  apply bytes_ok_app in Hw. destruct Hw as [Hm Hw]. constructor; [|by apply IH].
  unfold msg_wire, hs_wire in Hm. repeat (apply bytes_ok_app in Hm; destruct Hm as [? Hm]). done.
Qed.
Lemma parse_says dns_ok ms ps : Forall (fun m => bytes_ok (snd m)) ms -> messages_parse (real_parse_body dns_ok) ms ps ->
  Forall2 (fun m p => body_says (fst m) (snd m) p) ms ps.
Proof.
  intros Hb H. induction H as [|m p ms ps Hm H IH]; [constructor|]. apply Forall_cons in Hb. destruct Hb as [Hb Hbs].
  constructor; [by eapply says_lemma|by apply IH].
Qed.

Lemma real_builds_lemma sha256 dns_ok ec_curve b t cms sms sent recv :
  tb_tls_sent b = Some sent -> tb_tls_recv b = Some recv -> bytes_ok sent -> bytes_ok recv ->
  carries sent cms -> carries recv sms ->
  Forall (fun m => (N.of_nat (length (snd m)) < 2 ^ 24)%N) (cms ++ sms) ->
  tls_build sha256 (real_parse_body dns_ok) ec_curve b = Ok t ->
  exists ps qs version certs alg sig client_random server_random key,
    Forall2 (fun m p => body_says (fst m) (snd m) p) cms ps /\ Forall2 (fun m p => body_says (fst m) (snd m) p) sms qs /\
    handshake_says ec_curve ps qs version certs alg sig client_random server_random key /\
    tt_version t = default version (tb_version b) /\
    tt_certs t = Some (default certs (tb_certs b)) /\
    tt_signature t = Some (default (ServerSignature alg sig) (tb_signature b)) /\
    tt_binding t = default (CertBinding client_random server_random (EphemKey key)) (tb_binding b).
Proof.
  intros H1 H2 B1 B2 C1 C2 Hs Ht.
  destruct (C53_extract_lemma sha256 (real_parse_body dns_ok) ec_curve b t cms sms sent recv (real_to_bytes dns_ok)
    H1 H2 B2 C1 C2 Hs Ht) as (ps & qs & v & certs & alg & sig & cr & sr & key & P1 & P2 & Hrest).
  exists ps, qs, v, certs, alg, sig, cr, sr, key. split; [|split; [|exact Hrest]].
  - eapply parse_says; [by apply (carries_bytes sent)|done].
  - eapply parse_says; [by apply (carries_bytes recv)|done].
Qed.
Lemma written_parse dns_ok hs ps : Forall (handshake_ok dns_ok false) hs ->
  Forall (fun m : hs_message => bytes_ok (snd m)) (map (fun x => (hs_type x, hs_body x)) hs) ->
  Forall2 (fun m p => body_says (fst m) (snd m) p) (map (fun x => (hs_type x, hs_body x)) hs) ps ->
  messages_parse (real_parse_body dns_ok) (map (fun x => (hs_type x, hs_body x)) hs) ps.
Proof.
  intros Hok. revert ps. induction Hok as [|h hs Hh Hok IH]; intros ps Hb H; [inversion H; constructor|].
  cbn [map] in *. inversion H as [|? p ? ps' Hp Hps]. subst. apply Forall_cons in Hb. destruct Hb as [Hb Hbs].
  constructor; [|by apply IH]. cbn [fst snd] in *.
  assert (real_parse_body dns_ok TLSv1_2 (hs_type h) (hs_body h) = Some (hs_view h)) as E.
  { unfold real_parse_body. rewrite bool_decide_eq_false_2 by done. by rewrite w_body. }
  rewrite E. f_equal. eapply says_unique_lemma; [by eapply says_lemma|done].
Qed.
Lemma real_accepts_lemma sha256 dns_ok ec_curve b h cs ss sent recv time ps qs version certs alg sig client_random server_random key :
  tb_time b = Some time -> tb_tls_sent b = Some sent -> tb_tls_recv b = Some recv -> bytes_ok sent -> bytes_ok recv ->
  full_handshake_ok h -> carries sent (client_messages h) -> carries recv (server_messages h) ->
  (forall d, dir_input_ok b d) ->
  client_messages h = map (fun x => (hs_type x, hs_body x)) cs -> server_messages h = map (fun x => (hs_type x, hs_body x)) ss ->
  Forall (handshake_ok dns_ok false) (cs ++ ss) ->
  Forall2 (fun m p => body_says (fst m) (snd m) p) (client_messages h) ps ->
  Forall2 (fun m p => body_says (fst m) (snd m) p) (server_messages h) qs ->
  handshake_says ec_curve ps qs version certs alg sig client_random server_random key ->
  exists t, tls_build sha256 (real_parse_body dns_ok) ec_curve b = Ok t.
Proof.
  intros H0 H1 H2 B1 B2 Hh C1 C2 Hd E1 E2 Hok P1 P2 Hsays. apply Forall_app in Hok. destruct Hok as [O1 O2].
  eapply (C53_build_lemma sha256 (real_parse_body dns_ok) ec_curve b h sent recv time ps qs); try eassumption.
  - intros body. apply real_finished_lemma.
  - apply real_to_bytes.
  - apply carries_bytes in C1; [|done]. rewrite E1 in *. by apply written_parse.
  - apply carries_bytes in C2; [|done]. rewrite E2 in *. by apply written_parse.
Qed.
