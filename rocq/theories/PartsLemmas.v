(** Lemmas about splitting records and closing connections. *)
From Verif.Lib Require Import Base.
From Verif Require Import TranscriptModel ProofModel CodecModel CodecSpec CodecLemmas AttestModel TlsModel TlsSpec TlsLemmas AuthModel AuthSpec
  TagModel TagSpec RecordModel RecordSpec RecordLemmas RecordHistLemmas PartsModel PartsSpec.

Lemma parts_ok msg n c t : opaque_into_parts msg = Ok (n, c, t) <-> is_split msg n c t.
Proof.
  unfold opaque_into_parts, is_split, split_off. split.
  - destruct (Nat.ltb_spec (length msg) (8 + 16)); [done|].
    destruct (Nat.ltb_spec (length msg) (length msg - 16)); [lia|]. cbn [obind].
    destruct (Nat.ltb_spec (length (take (length msg - 16) msg)) 8); [done|]. cbn [obind]. intros [= <- <- <-].
    rewrite app_assoc, take_drop, take_drop. split; [done|].
    rewrite !take_length, drop_length. lia.
  - intros (-> & Hn & Ht). rewrite !app_length, Hn, Ht.
    destruct (Nat.ltb_spec (8 + (length c + 16)) (8 + 16)); [lia|].
    destruct (Nat.ltb_spec (8 + (length c + 16)) (8 + (length c + 16) - 16)); [lia|]. cbn [obind].
    replace (8 + (length c + 16) - 16) with (length (n ++ c)) by (rewrite app_length; lia).
    rewrite app_assoc, take_app, drop_app. rewrite app_length, Hn.
    destruct (Nat.ltb_spec (8 + length c) 8); [lia|]. cbn [obind]. by rewrite <- Hn, take_app, drop_app.
Qed.
Lemma parts_err msg : opaque_into_parts msg = Err PTooShort <-> length msg < 24.
Proof.
  unfold opaque_into_parts, split_off. destruct (Nat.ltb_spec (length msg) (8 + 16)); [done|].
  destruct (Nat.ltb_spec (length msg) (length msg - 16)); [lia|]. cbn [obind].
  destruct (Nat.ltb_spec (length (take (length msg - 16) msg)) 8); [|split; [done|lia]].
  rewrite take_length in *. lia.
Qed.
Lemma parts_total msg : opaque_into_parts msg = Err PTooShort \/ exists n c t, opaque_into_parts msg = Ok (n, c, t).
Proof.
  destruct (decide (length msg < 24)); [left; by apply parts_err|right].
  exists (take 8 msg), (drop 8 (take (length msg - 16) msg)), (drop (length msg - 16) msg).
  apply parts_ok. split; [|rewrite take_length, drop_length; lia].
  rewrite app_assoc. rewrite <- (take_drop (length msg - 16) msg) at 1. f_equal.
  rewrite <- (take_drop 8 (take (length msg - 16) msg)) at 1. f_equal.
  rewrite take_take. f_equal. lia.
Qed.

Lemma C42_outgoing_lemma aes ghash_fn checked enc_key enc_iv dec_key dec_iv blind pad_rng :
  aes_ok aes -> (forall k d, length (ghash_fn k d) = 16) -> forall cs s' os r,
  rl_run aes ghash_fn checked enc_key enc_iv dec_key dec_iv blind pad_rng cs (rl_new Leader) = (s', os) ->
  Forall call_ok cs -> r ∈ handed_enc os ->
  exists payload tag, outgoing_payload r = Ok payload /\ er_tag r = Some tag /\
    opaque_into_parts payload = Ok (er_nonce r, er_ct r, tag).
Proof.
  intros Haes Hgh cs s' os r H Hok Hr.
  apply history_inv in H as (p & Hi & (_ & _ & _ & Hhe & _) & _ & Hrole); [|done..]. cbn in Hhe. rewrite <- Hhe in Hr.
  apply elem_of_list_lookup in Hr as [i Hr].
  eapply handed_prefix in Hr as (op & c & Hx & ->); [|done]. rewrite Hrole. apply elem_of_list_lookup_2 in Hx.
  cbn. eexists _, _. split; [done|]. split; [done|]. apply parts_ok. split; [done|].
  pose proof (fe_nonce _ _ _ _ _ _ _ _ _ _ Hi Hx) as Hn. cbn [fst] in Hn. rewrite Hn, be_length. split; [done|].
  unfold gcm_tag. rewrite zip_with_length, Hgh, Haes. done.
Qed.

Lemma check_close_iff rs : check_close_notify rs = Ok tt <-> ends_acceptably rs.
Proof.
  unfold check_close_notify, ends_acceptably. destruct rs as [|r0 rs0] eqn:E using rev_ind; [split; auto|]. clear IHrs0.
  rewrite last_snoc. split.
  - intros H. right. exists rs0, r0. split; [done|].
    destruct (r_typ r0) eqn:Et; try done; [|by left]. right. split; [done|].
    destruct (r_plain r0) as [[|lv [|d p]]|]; try done. destruct (N.eqb_spec d 0) as [->|]; [|done].
    exists [lv; 0%N], p. split; [done|]. by exists lv.
  - intros [H|(front & r & H & Hr)]; [by destruct rs0|]. apply app_inj_2 in H as [_ [= <-]]; [|done].
    destruct Hr as [->|(-> & p & more & -> & lv & ->)]; done.
Qed.
Lemma check_close_no_panic rs : check_close_notify rs <> Panic.
Proof.
  unfold check_close_notify. destruct (last rs) as [r|]; [|done]. destruct (r_typ r); try done.
  destruct (r_plain r) as [[|? [|? ?]]|]; try done. by destruct (_ =? _)%N.
Qed.
Lemma close_proper rs : ends_properly rs -> ends_acceptably rs.
Proof.
  intros [->|(f & r & -> & [H|(H & p & Hp & Hc)])]; [by left|right..]; exists f, r; (split; [done|]); [by left|right].
  split; [done|]. exists p, []. by rewrite app_nil_r.
Qed.

Lemma first_vd_spec rs vd : first_vd rs = Ok (Some vd) <-> finished_with rs vd.
Proof.
  unfold first_vd, finished_with. destruct rs as [|r rs]; [split; [done|by intros (? & ? & ? & ? & _)]|]. split.
  - destruct (r_plain r) as [p|] eqn:Ep; [|done]. destruct (Nat.leb_spec 4 (length p)); [|done]. intros [= <-].
    exists r, rs, (take 4 p). rewrite take_drop, take_length. split_and!; [done|done|lia].
  - intros (r' & rest & h & [= <- <-] & Hp & Hl). rewrite Hp, app_length.
    destruct (Nat.leb_spec 4 (length h + length vd)); [|lia]. by rewrite <- Hl, drop_app.
Qed.
Lemma finished_with_unique rs a b : finished_with rs a -> finished_with rs b -> a = b.
Proof. intros Ha%first_vd_spec Hb%first_vd_spec. congruence. Qed.

Lemma verify_iff t cf sf : verify_transcript t cf sf = Ok tt <->
  finished_with (tt_sent t) cf /\ finished_with (tt_recv t) sf /\ ends_acceptably (tt_sent t) /\ ends_acceptably (tt_recv t).
Proof.
  unfold verify_transcript, tls_cf_vd, tls_sf_vd. rewrite <- !first_vd_spec, <- !check_close_iff. split.
  - destruct (first_vd (tt_sent t)) as [[a|]|[]|]; cbn [lift_panic obind or_panic]; try done.
    destruct (decide (a = cf)) as [->|]; [rewrite bool_decide_eq_true_2 by done|by rewrite bool_decide_eq_false_2 by done]. cbn [negb].
    destruct (first_vd (tt_recv t)) as [[b|]|[]|]; cbn [lift_panic obind or_panic]; try done.
    destruct (decide (b = sf)) as [->|]; [rewrite bool_decide_eq_true_2 by done|by rewrite bool_decide_eq_false_2 by done]. cbn [negb].
    destruct (check_close_notify (tt_sent t)) as [[]| |]; try done.
  - intros (-> & -> & H1 & H2). cbn [lift_panic obind or_panic]. rewrite !bool_decide_eq_true_2 by done. cbn [negb].
    rewrite H1. done.
Qed.
Lemma verify_panic t cf sf : finished_known (tt_sent t) -> finished_known (tt_recv t) -> verify_transcript t cf sf <> Panic.
Proof.
  intros [a Ha%first_vd_spec] [b Hb%first_vd_spec]. unfold verify_transcript, tls_cf_vd, tls_sf_vd. rewrite Ha. cbn [lift_panic obind or_panic].
  destruct (negb _); [done|]. rewrite Hb. cbn [lift_panic obind or_panic]. destruct (negb _); [done|].
  pose proof (check_close_no_panic (tt_sent t)). destruct (check_close_notify (tt_sent t)); try done. apply check_close_no_panic.
Qed.
Lemma C43_handshake_only_lemma sha256 parse_body ec_curve b t d cf sf :
  builder_bytes_ok b -> finished_is_20 parse_body -> tls_build sha256 parse_body ec_curve b = Ok t ->
  length (tls_dir t d) = 1 -> verify_transcript t cf sf <> Ok tt.
Proof.
  intros Hb Hf Ht Hl (_ & _ & H1 & H2)%verify_iff.
  pose proof (C22_sequenced_lemma _ _ _ _ _ d Hb Hf Ht) as [_ (fin & rest & Heq & Hty & _)].
  assert (ends_acceptably (tls_dir t d)) as H by (by destruct d). rewrite Heq in *. destruct rest; [|done].
  destruct H as [H|(front & r & H & Hr)]; [done|]. destruct front as [|? [|]]; try done. injection H as <-. rewrite Hty in Hr.
  destruct Hr as [Hr|[Hr _]]; done.
Qed.
