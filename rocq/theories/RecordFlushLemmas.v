(** What a flush and a commit of the record layer do. *)
From Verif.Lib Require Import Base Ranges.
From Verif Require Import TranscriptModel ProofModel CodecModel CodecSpec CodecLemmas AttestModel TlsModel AuthModel
  TagModel TagLemmas RecordModel RecordSpec RecordGcmLemmas.

(** The keystream blocks that are left. *)
Definition blocks_left (g : gcm) : N :=
  match g with GSetup _ b _ | GReady _ b _ => b | _ => 0%N end.
Definition sum_blocks (ns : list N) : N := sum_N (map blocks_of ns).
Definition mono {A} (m : stm gcm rl_error A) : Prop :=
  forall g g' o, m g = (g', o) -> (blocks_left g' <= blocks_left g)%N.
Lemma mono_bind {A B} (m : stm gcm rl_error A) (k : A -> stm gcm rl_error B) :
  mono m -> (forall a, mono (k a)) -> mono (sbind m k).
Proof.
  intros Hm Hk g g' o [(g1 & a & H1 & H2)|[(e & H1 & _)|(H1 & _)]]%sbind_inv; [|by eapply Hm..].
  apply Hm in H1. apply Hk in H2. lia.
Qed.
Lemma mono_const {A} (o : outcome rl_error A) : mono (slift o).
Proof. intros g g' o' [= <- <-]. lia. Qed.
Lemma mono_if {A} (b : bool) (m k : stm gcm rl_error A) : mono m -> mono k -> mono (if b then m else k).
Proof. by destruct b. Qed.
Lemma mono_check_nonce n : mono (check_nonce n).
Proof. unfold check_nonce. apply mono_if; apply mono_const. Qed.
Lemma mono_check_input n : mono (check_input n).
Proof. intros [] g' o; cbn; try destruct (_ <? _)%N; intros [= <- <-]; cbn; lia. Qed.
Lemma mono_take_input n : mono (take_input n).
Proof. intros [] g' o; cbn; intros [= <- <-]; cbn; lia. Qed.
Lemma mono_consume n : mono (consume n).
Proof. intros [] g' o; cbn; try destruct (_ <? _)%N; intros [= <- <-]; cbn; lia. Qed.
Lemma mono_apply c nonce len : mono (apply_keystream_mpc c nonce len).
Proof.
  intros g g' o. unfold apply_keystream_mpc. destruct g; try (intros [= <- <-]; lia).
  generalize (GReady input blocks j0s) as g. intros g. revert g g' o.
  change (mono (do! _ := check_nonce nonce in
         do! padded := slift (lift_panic (umul c (blocks_of len) 16)) in
         do! padding := slift (lift_panic (usub c padded len)) in
         do! _ := check_input padded in
         do! _ := take_input padded in
         do! b := consume padded in
         if negb (padded =? 16 * b)%N then sfail RInputExceeded
         else if (b =? 0)%N then sfail REmptyRecord
         else sret tt)).
  repeat first [apply mono_bind; [|intros ?] | apply mono_check_nonce | apply mono_check_input | apply mono_take_input
    | apply mono_consume | apply mono_const | apply mono_if].
Qed.
Lemma mono_take c nonce len : mono (take_keystream_mpc c nonce len).
Proof.
  intros g g' o. unfold take_keystream_mpc. destruct g; try (intros [= <- <-]; lia).
  generalize (GReady input blocks j0s) as g. intros g. revert g g' o.
  change (mono (do! _ := check_nonce nonce in
         do! padded := slift (lift_panic (umul c (blocks_of len) 16)) in
         do! _ := check_input padded in
         do! b := consume len in
         if (len =? 0)%N then sfail REmptyRecord
         else if (b =? 0)%N then sfail REmptyRecord
         else sret tt)).
  repeat first [apply mono_bind; [|intros ?] | apply mono_check_nonce | apply mono_check_input | apply mono_take_input
    | apply mono_consume | apply mono_const | apply mono_if].
Qed.
Lemma mono_take_j0s ns : mono (take_j0s ns).
Proof.
  induction ns as [|n ns IH]; [apply mono_const|]. cbn [take_j0s]. apply mono_bind; [apply mono_check_nonce|intros _].
  apply mono_bind; [|by intros _]. intros [] g' o; cbn; intros [= <- <-]; cbn; lia.
Qed.
Lemma mono_tags ns : mono (gcm_tags ns).
Proof.
  intros g g' o. unfold gcm_tags. destruct g; try (intros [= <- <-]; lia).
  destruct (_ <? _)%N; [intros [= <- <-]; lia|]. apply mono_take_j0s.
Qed.

Section Flush.
  Context (aes : list N -> list N -> list N) (ghash_fn : list N -> list N -> list N).
  Context (checked : bool).
  Context (enc_key enc_iv dec_key dec_iv : list N).
  Context (blind : N -> nat -> N) (pad_rng : nat -> N).
  Context (Haes : forall k b, length (aes k b) = 16).
  Notation encrypt_one := (encrypt_one aes checked enc_key enc_iv blind).
  Notation encrypt_loop := (encrypt_loop aes checked enc_key enc_iv blind).
  Notation encrypt_mpc := (encrypt_mpc aes checked enc_key enc_iv blind).
  Notation decrypt_public := (decrypt_public aes checked dec_key dec_iv).
  Notation decrypt_private := (decrypt_private aes checked dec_key dec_iv).
  Notation decrypt_loop := (decrypt_loop aes checked dec_key dec_iv).
  Notation decrypt_local := (decrypt_local aes ghash_fn checked dec_key dec_iv).
  Notation decrypt_private_local := (decrypt_private_local aes ghash_fn dec_key dec_iv).
  Notation gcm_tag := (gcm_tag aes ghash_fn).
  Notation rl_flush := (rl_flush aes ghash_fn checked enc_key enc_iv dec_key dec_iv blind).
  Notation rl_commit := (rl_commit aes ghash_fn checked dec_key dec_iv).
  Notation out_enc := (out_enc aes ghash_fn enc_key enc_iv).
  Notation log_enc := (log_enc aes ghash_fn enc_key enc_iv).

  (** Operations as [push_encrypt] and [push_decrypt] make them. *)
  Definition eop_wf (op : enc_op) : Prop :=
    (eo_len op < 2 ^ 64)%N /\ eo_private op = is_app (eo_typ op) /\ eo_nonce op = be 8 (eo_seq op) /\
    eo_aad op = make_aad (eo_seq op) (eo_typ op) (eo_version op) (N.to_nat (eo_len op mod 2 ^ 16)) /\
    match eo_plain op with
    | Some p => N.of_nat (length p) = eo_len op
    | None => eo_typ op = ApplicationData
    end.
  Definition dop_wf (op : dec_op) : Prop :=
    (N.of_nat (length (do_ct op)) < 2 ^ 63)%N /\ do_private op = is_app (do_typ op) /\
    do_aad op = make_aad (do_seq op) (do_typ op) (do_version op) (length (do_ct op)).
  Definition eop_text (op : enc_op) : list N :=
    match eo_plain op with Some p => p | None => map (blind (eo_seq op)) (seq 0 (N.to_nat (eo_len op))) end.
  Definition enc_right (op : enc_op) (c : list N) : Prop :=
    N.of_nat (length c) = eo_len op /\ (0 < eo_len op)%N /\ ctr_encrypts aes enc_key enc_iv (eo_nonce op) (eop_text op) c.
  Definition dec_right (r : role) (op : dec_op) (p : option (list N)) : Prop :=
    match p with
    | Some text => ctr_encrypts aes dec_key dec_iv (do_nonce op) (do_ct op) text /\
        ~ (r = Follower /\ do_typ op = ApplicationData)
    | None => r = Follower /\ do_typ op = ApplicationData
    end /\
    (r = Leader -> do_typ op = ApplicationData ->
       length (do_nonce op) = 8 /\ do_tag op = gcm_tag dec_key dec_iv (do_nonce op) (do_aad op) (do_ct op)).

  Lemma is_app_spec t : is_app t = true <-> t = ApplicationData.
  Proof. unfold is_app. by rewrite bool_decide_eq_true. Qed.
  Lemma is_app_false t : is_app t = false <-> t <> ApplicationData.
  Proof. unfold is_app. by rewrite bool_decide_eq_false. Qed.

  (** ** Encryption *)
  Lemma mono_encrypt_one r op : mono (encrypt_one r op).
  Proof.
    unfold RecordModel.encrypt_one. apply mono_if.
    - apply mono_bind; [apply mono_apply|intros _]. destruct r, (eo_plain op); apply mono_const.
    - destruct (eo_plain op); [|apply mono_const]. apply mono_bind; [apply mono_take|intros _; apply mono_const].
  Qed.
  Lemma mono_encrypt_loop r ops : mono (encrypt_loop r ops).
  Proof.
    induction ops as [|op ops IH]; [apply mono_const|]. cbn. apply mono_bind; [apply mono_encrypt_one|intros c].
    apply mono_bind; [done|intros cs; apply mono_const].
  Qed.
  Lemma mono_encrypt_mpc r ops : mono (encrypt_mpc r ops).
  Proof.
    unfold RecordModel.encrypt_mpc. apply mono_bind; [apply mono_encrypt_loop|intros cs].
    apply mono_bind; [apply mono_tags|intros _; apply mono_const].
  Qed.

  Lemma encrypt_one_ok r op g g' c : eop_wf op -> encrypt_one r op g = (g', Ok c) ->
    enc_right op c /\ (blocks_left g = blocks_left g' + blocks_of (eo_len op))%N.
  Proof.
    intros (Hl & Hpr & Hn & Haad & Hp). unfold RecordModel.encrypt_one. rewrite Hpr.
    assert (forall text, N.of_nat (length text) = eo_len op -> eop_text op = text -> (0 < eo_len op)%N ->
      enc_right op (zip_with N.lxor text (ks_value aes enc_key enc_iv (eo_nonce op) (N.to_nat (eo_len op))))) as Hr.
    { intros text Ht He Hpos. destruct (xor_encrypts aes Haes enc_key enc_iv (eo_nonce op) text (N.to_nat (eo_len op))) as [H1 H2]; [lia|].
      split_and!; [lia|done|]. rewrite He. by split. }
    destruct (is_app (eo_typ op)) eqn:Et.
    - intros H. apply sbind_Ok in H as (g1 & [] & H1 & H2). apply apply_ok in H1 as (i & b & j & -> & H8 & Hb & ->); [|done].
      destruct r, (eo_plain op) as [p|] eqn:Ep; try done; injection H2 as <- <-; cbn [blocks_left];
        (split; [apply Hr; [|unfold eop_text; by rewrite Ep|lia]|lia]); [done|]. rewrite map_length, seq_length. lia.
    - destruct (eo_plain op) as [p|] eqn:Ep; [|done]. intros H. apply sbind_Ok in H as (g1 & [] & H1 & H2).
      apply take_ok in H1 as (i & b & j & -> & H8 & Hb & ->); [|done]. injection H2 as <- <-. cbn [blocks_left].
      split; [apply Hr; [done|unfold eop_text; by rewrite Ep|lia]|lia].
  Qed.
  Lemma encrypt_loop_ok r ops g g' cs : Forall eop_wf ops -> encrypt_loop r ops g = (g', Ok cs) ->
    Forall2 enc_right ops cs /\ (blocks_left g = blocks_left g' + sum_blocks (map eo_len ops))%N.
  Proof.
    intros Hwf. revert g cs. induction Hwf as [|op ops Hop Hwf IH]; intros g cs; cbn [RecordModel.encrypt_loop].
    - intros [= <- <-]. split; [constructor|unfold sum_blocks; cbn; lia].
    - intros H. apply sbind_Ok in H as (g1 & c & H1 & H). apply sbind_Ok in H as (g2 & cs' & H2 & H).
      injection H as <- <-. apply encrypt_one_ok in H1 as [Hr1 Hb1]; [|done]. apply IH in H2 as [Hr2 Hb2].
      split; [by constructor|].
      change (sum_blocks (map eo_len (op :: ops))) with (blocks_of (eo_len op) + sum_blocks (map eo_len ops))%N. lia.
  Qed.
  Lemma encrypt_mpc_ok r ops g g' cs : Forall eop_wf ops -> encrypt_mpc r ops g = (g', Ok cs) ->
    Forall2 enc_right ops cs /\ (blocks_left g = blocks_left g' + sum_blocks (map eo_len ops))%N.
  Proof.
    intros Hwf H. unfold RecordModel.encrypt_mpc in H. apply sbind_Ok in H as (g1 & cs' & H1 & H).
    apply sbind_Ok in H as (g2 & [] & H2 & H). injection H as <- <-.
    apply encrypt_loop_ok in H1 as [Hr Hb]; [|done]. split; [done|].
    apply gcm_tags_ok in H2 as (i & b & j & -> & _ & _ & ->). done.
  Qed.

  (** ** Decryption *)
  Lemma xor_decrypts nonce ct : ctr_encrypts aes dec_key dec_iv nonce ct
    (zip_with N.lxor ct (ks_value aes dec_key dec_iv nonce (length ct))).
  Proof. by apply xor_encrypts. Qed.

  (** The parts of the state that decryption changes. *)
  Definition dec_frame (s s' : rl) : Prop :=
    exists g otp otp' sent recv, rl_st s = SOnline otp sent recv /\ (is_Some otp' <-> is_Some otp) /\
      s' = set_dec g (set_st (SOnline otp' sent recv) s).
  Lemma dec_frame_refl otp sent recv s : rl_st s = SOnline otp sent recv -> dec_frame s s.
  Proof. intros H. exists (rl_dec s), otp, otp, sent, recv. split_and!; try done. destruct s; cbn in *. by subst. Qed.
  Lemma dec_frame_trans s s1 s2 : dec_frame s s1 -> dec_frame s1 s2 -> dec_frame s s2.
  Proof.
    intros (g & o & o' & a & b & H1 & H2 & ->) (g2 & p & p' & a2 & b2 & H3 & H4 & ->). cbn in H3. injection H3 as <- <- <-.
    exists g2, o, p', a, b. split_and!; [done|by rewrite H4|done].
  Qed.
  Lemma on_dec_frame {A} (m : stm gcm rl_error A) s s' o otp sent recv : rl_st s = SOnline otp sent recv ->
    on_dec m s = (s', o) -> dec_frame s s' /\ exists g, m (rl_dec s) = (g, o).
  Proof.
    intros Hs. unfold on_dec. destruct (m (rl_dec s)) as [g o'] eqn:E. intros [= <- <-]. split; [|eauto].
    exists g, otp, otp, sent, recv. split_and!; try done. destruct s; cbn in *. by subst.
  Qed.
  Lemma dec_frame_online s s' : dec_frame s s' -> exists otp sent recv, rl_st s' = SOnline otp sent recv.
  Proof. intros (g & o & o' & a & b & H1 & H2 & ->). cbn. eauto. Qed.

  Lemma decrypt_private_frame op s s' o otp sent recv : rl_st s = SOnline otp sent recv ->
    decrypt_private op s = (s', o) -> dec_frame s s'.
  Proof.
    intros Hs H. unfold RecordModel.decrypt_private in H.
    assert (get_otp s = (s, Ok otp)) as Hg by (unfold get_otp; by rewrite Hs).
    unfold sbind at 1 in H. rewrite Hg in H. destruct otp as [pad|].
    - destruct (length pad <? length (do_ct op)); [injection H as <- <-; by eapply dec_frame_refl|].
      apply sbind_inv in H as [(s1 & [] & H1 & H)|[(e & H1 & _)|(H1 & _)]];
        eapply on_dec_frame in H1 as [Hf _]; try done.
      apply dec_frame_online in Hf as Ho. destruct Ho as (o1 & a1 & b1 & Ho).
      unfold put_otp in H. unfold sbind in H. rewrite Ho in H. injection H as <- <-.
      destruct Hf as (g & p & p' & a2 & b2 & E1 & E2 & ->). cbn in Ho. injection Ho as <- <- <-.
      exists g, p, (Some (take (length pad - length (do_ct op)) pad)), a2, b2. split_and!; [done| |done].
      rewrite Hs in E1. injection E1 as <- _ _. split; intros _; eauto.
    - apply sbind_inv in H as [(s1 & [] & H1 & H)|[(e & H1 & _)|(H1 & _)]];
        eapply on_dec_frame in H1 as [Hf _]; try done. by injection H as <- <-.
  Qed.
  Lemma decrypt_private_ok op s s' p sent recv otp : rl_st s = SOnline otp sent recv -> dop_wf op ->
    decrypt_private op s = (s', Ok p) ->
    length (do_nonce op) = 8 /\
    match p with
    | Some text => is_Some otp /\ ctr_encrypts aes dec_key dec_iv (do_nonce op) (do_ct op) text
    | None => otp = None
    end.
  Proof.
    intros Hs (Hl & _ & _) H. unfold RecordModel.decrypt_private in H.
    assert (get_otp s = (s, Ok otp)) as Hg by (unfold get_otp; by rewrite Hs).
    unfold sbind at 1 in H. rewrite Hg in H. destruct otp as [pad|].
    - destruct (length pad <? length (do_ct op)) eqn:El; [done|].
      apply sbind_Ok in H as (s1 & [] & H1 & H). apply sbind_Ok in H as (s2 & [] & H2 & H). injection H as <- <-.
      unfold on_dec in H1. destruct (apply_keystream_mpc _ _ _ _) as [g o] eqn:Ea. injection H1 as <- ->.
      apply apply_ok in Ea as (i & b & j & _ & H8 & _); [|lia]. split; [done|]. split; [eauto|].
      rewrite (otp_cancels (do_ct op) (drop (length pad - length (do_ct op)) pad)) by (rewrite drop_length; lia). apply xor_decrypts.
    - apply sbind_Ok in H as (s1 & [] & H1 & H). injection H as <- <-.
      unfold on_dec in H1. destruct (apply_keystream_mpc _ _ _ _) as [g o] eqn:Ea. injection H1 as <- ->.
      apply apply_ok in Ea as (i & b & j & _ & H8 & _); [|lia]. done.
  Qed.
  Lemma decrypt_public_ok op g g' p : decrypt_public op g = (g', Ok p) ->
    exists text, p = Some text /\ ctr_encrypts aes dec_key dec_iv (do_nonce op) (do_ct op) text.
  Proof.
    intros H. unfold RecordModel.decrypt_public in H. apply sbind_Ok in H as (g1 & [] & H1 & H). injection H as <- <-.
    eexists. split; [done|]. apply xor_decrypts.
  Qed.
  Definition plain_right (r : role) (op : dec_op) (p : option (list N)) : Prop :=
    match p with
    | Some text => ctr_encrypts aes dec_key dec_iv (do_nonce op) (do_ct op) text /\
        ~ (r = Follower /\ do_typ op = ApplicationData)
    | None => r = Follower /\ do_typ op = ApplicationData
    end.
  Lemma decrypt_loop_frame ops s s' o otp sent recv : rl_st s = SOnline otp sent recv ->
    decrypt_loop ops s = (s', o) -> dec_frame s s'.
  Proof.
    revert s s' otp sent recv o. induction ops as [|op ops IH]; intros s s' otp sent recv o Hs; cbn.
    - intros [= <- <-]. by eapply dec_frame_refl.
    - assert (forall s1 o1, (if do_private op then decrypt_private op else on_dec (decrypt_public op)) s = (s1, o1) -> dec_frame s s1) as H1.
      { intros s1 o1. destruct (do_private op); [by eapply decrypt_private_frame|]. intros H. eapply on_dec_frame in H as [Hf _]; done. }
      intros [(s1 & p & Ha & H)|[(e & Ha & _)|(Ha & _)]]%sbind_inv; [|by eapply H1..]. apply H1 in Ha.
      apply dec_frame_online in Ha as Ho. destruct Ho as (o1 & a1 & b1 & Ho).
      apply sbind_inv in H as [(s2 & ps & Hb & H)|[(e & Hb & _)|(Hb & _)]]; eapply IH in Hb; try done;
        try (injection H as <- <-); by eapply dec_frame_trans.
  Qed.
  Lemma decrypt_loop_ok r ops s s' ps otp sent recv : rl_st s = SOnline otp sent recv -> (is_Some otp <-> r = Leader) ->
    Forall dop_wf ops -> decrypt_loop ops s = (s', Ok ps) ->
    Forall2 (plain_right r) ops ps.
  Proof.
    intros Hs Hr Hwf. revert s otp sent recv Hs Hr ps. induction Hwf as [|op ops Hop Hwf IH]; intros s otp sent recv Hs Hr ps; cbn.
    - intros [= <- <-]. constructor.
    - intros H. apply sbind_Ok in H as (s1 & p & H1 & H). apply sbind_Ok in H as (s2 & ps' & H2 & H). injection H as <- <-.
      assert (dec_frame s s1) as Hf.
      { destruct (do_private op); [by eapply decrypt_private_frame|]. eapply on_dec_frame in H1 as [Hf _]; done. }
      constructor.
      + pose proof Hop as (_ & Hpr & _). rewrite Hpr in H1. unfold plain_right. destruct (is_app (do_typ op)) eqn:Et.
        * apply is_app_spec in Et. eapply decrypt_private_ok in H1 as [H8 Hp]; [|done..]. destruct p as [text|].
          -- destruct Hp as [Hsome Hc]. split; [done|]. rewrite Hr in Hsome. intros [-> _]. done.
          -- split; [|done]. destruct r; [|done]. subst otp. destruct (proj2 Hr eq_refl) as [? [=]].
        * apply is_app_false in Et. eapply on_dec_frame in H1 as [_ [g H1]]; [|done].
          apply decrypt_public_ok in H1 as (text & -> & Hc). split; [done|]. by intros [_ ?].
      + destruct Hf as (g & o & o' & a & b & E1 & E2 & ->). rewrite Hs in E1. injection E1 as <- <- <-.
        eapply IH; [| |done]; [done|]. by rewrite E2.
  Qed.
  Lemma tags_verified_ok r ops : tags_verified aes ghash_fn dec_key dec_iv r ops = Ok tt ->
    r = Leader -> Forall (fun op => do_tag op = gcm_tag dec_key dec_iv (do_nonce op) (do_aad op) (do_ct op)) ops.
  Proof.
    intros H ->. unfold tags_verified in H. destruct (forallb _ _); [|done]. destruct (bool_decide _) eqn:E; [|done].
    apply bool_decide_eq_true in E. clear H. induction ops as [|op ops IH]; [constructor|]. cbn in E.
    injection E as E1 E2. constructor; [done|by apply IH].
  Qed.
  Lemma decrypt_local_ok r ops g g' ps : Forall dop_wf ops -> decrypt_local r ops g = (g', Ok ps) ->
    Forall2 (dec_right r) ops ps.
  Proof.
    intros Hwf. revert g ps. induction Hwf as [|op ops Hop Hwf IH]; intros g ps; cbn.
    - intros [= <- <-]. constructor.
    - intros H. apply sbind_Ok in H as (g1 & p & H1 & H). apply sbind_Ok in H as (g2 & ps' & H2 & H). injection H as <- <-.
      constructor; [|by eapply IH]. destruct Hop as (_ & Hpr & _). rewrite Hpr in H1. unfold dec_right.
      destruct (is_app (do_typ op)) eqn:Et.
      + apply is_app_spec in Et. unfold RecordModel.decrypt_private_local in H1. destruct r.
        * destruct (length (do_nonce op) =? 8) eqn:E8; [|done]. destruct (length (do_tag op) =? 16) eqn:E16; [|done].
          cbn in H1. destruct (bool_decide _) eqn:Eb; [|done]. apply bool_decide_eq_true in Eb. injection H1 as <- <-.
          split; [split; [apply xor_decrypts|by intros [? _]]|]. intros _ _. split; [lia|done].
        * injection H1 as <- <-. done.
      + apply is_app_false in Et. apply decrypt_public_ok in H1 as (text & -> & Hc).
        split; [split; [done|by intros [_ ?]]|]. by intros _ ?.
  Qed.
  Lemma until_app_app ops a b : until_app ops = (a, b) -> ops = a ++ b.
  Proof.
    revert a. induction ops as [|op ops IH]; intros a; cbn; [intros [= <- <-]; done|].
    destruct (is_app _); [intros [= <- <-]; done|]. destruct (until_app ops) as [a' b'] eqn:E. intros [= <- <-].
    cbn. f_equal. by apply IH.
  Qed.

  (** ** Flush *)
  (** The state with the parts that a flush changes replaced. *)
  Definition flushed (s : rl) (ge gd : gcm) (st : rl_state) (online : N) (rest : list dec_op)
      (oe : list enc_record) (od : list plain_record) : rl :=
    RL (rl_role s) (rl_write_seq s) (rl_read_seq s) ge gd st (rl_started s) (rl_sent s) online (rl_recv s)
      (rl_max_sent s) (rl_max_recv_online s) (rl_max_recv s) [] rest (rl_encrypted s ++ oe) (rl_decrypted s ++ od).

  Lemma gcm_tags_dec_frame ops s s' o otp sent recv : rl_st s = SOnline otp sent recv ->
    on_dec (gcm_tags ops) s = (s', o) -> dec_frame s s'.
  Proof. intros Hs H. eapply on_dec_frame in H as [Hf _]; done. Qed.

  Lemma flush_cases b s s' o : rl_flush b s = (s', o) ->
    Forall eop_wf (rl_encrypt s) -> Forall dop_wf (rl_decrypt s) ->
    (forall otp sent recv, rl_st s = SOnline otp sent recv -> is_Some otp <-> rl_role s = Leader) ->
    ((forall otp sent recv, rl_st s <> SOnline otp sent recv) /\ s' = s /\ o = Err RState) \/
    (exists otp sent recv dops rest otp' ge gd online,
      rl_st s = SOnline otp sent recv /\ rl_decrypt s = dops ++ rest /\ (is_Some otp' <-> is_Some otp) /\
      ((exists cts plains,
          o = Ok tt /\ Forall2 enc_right (rl_encrypt s) cts /\ Forall2 (dec_right (rl_role s)) dops plains /\
          (blocks_left (rl_enc s) = blocks_left ge + sum_blocks (map eo_len (rl_encrypt s)))%N /\
          s' = flushed s ge gd (SOnline otp' (sent ++ zip_with (log_enc (rl_role s)) (rl_encrypt s) cts)
                                 (recv ++ zip_with log_dec dops plains)) online rest
                 (zip_with (out_enc (rl_role s)) (rl_encrypt s) cts) (zip_with out_dec dops plains)) \/
       (o <> Ok tt /\ (blocks_left ge <= blocks_left (rl_enc s))%N /\
          s' = flushed s ge gd (SOnline otp' sent recv) online rest [] []))).
  Proof.
    intros H Hewf Hdwf Hrole. unfold RecordModel.rl_flush in H.
    destruct (rl_st s) as [|otp sent recv| |] eqn:Hst; try (injection H as <- <-; left; split_and!; done).
    specialize (Hrole otp sent recv eq_refl). right.
    destruct (if b then (rl_decrypt s, []) else until_app (rl_decrypt s)) as [dops rest] eqn:Ed.
    assert (rl_decrypt s = dops ++ rest) as Hd.
    { destruct b; [injection Ed as <- <-; by rewrite app_nil_r|by apply until_app_app]. }
    assert (Forall dop_wf dops) as Hdw by (rewrite Hd, Forall_app in Hdwf; tauto).
    set (s0 := set_bufs [] rest s) in *.
    assert (rl_st s0 = SOnline otp sent recv) as Hst0 by done.
    (* nothing to do *)
    assert (forall m : rl * outcome rl_error unit,
      match rl_encrypt s, dops with [], [] => (s0, Ok tt) | _, _ => m end = (s', o) ->
      (rl_encrypt s = [] /\ dops = [] /\ s' = s0 /\ o = Ok tt) \/ m = (s', o)) as Hskip.
    { intros m Hm. destruct (rl_encrypt s), dops; try (by right). injection Hm as <- <-. by left. }
    apply Hskip in H as [(He & -> & -> & ->)|H]; clear Hskip.
    { exists otp, sent, recv, [], rest, otp, (rl_enc s), (rl_dec s), (rl_recv_online s). split_and!; try done.
      left. exists [], []. rewrite He. split_and!; try constructor; [unfold sum_blocks; cbn; lia|].
      unfold flushed, s0. destruct s; cbn in *; subst. by rewrite !app_nil_r. }
    exists otp, sent, recv, dops, rest.
    (* failures *)
    assert (forall s1 e, (exists ge gd otp' online, (is_Some otp' <-> is_Some otp) /\ (blocks_left ge <= blocks_left (rl_enc s))%N /\
        s1 = RL (rl_role s) (rl_write_seq s) (rl_read_seq s) ge gd (SOnline otp' sent recv) (rl_started s) (rl_sent s) online
              (rl_recv s) (rl_max_sent s) (rl_max_recv_online s) (rl_max_recv s) [] rest (rl_encrypted s) (rl_decrypted s)) ->
      e <> Ok tt -> (s1, e) = (s', o) ->
      exists otp' ge gd online, SOnline otp sent recv = SOnline otp sent recv /\ rl_decrypt s = dops ++ rest /\ (is_Some otp' <-> is_Some otp) /\
      ((exists cts plains,
          o = Ok tt /\ Forall2 enc_right (rl_encrypt s) cts /\ Forall2 (dec_right (rl_role s)) dops plains /\
          (blocks_left (rl_enc s) = blocks_left ge + sum_blocks (map eo_len (rl_encrypt s)))%N /\
          s' = flushed s ge gd (SOnline otp' (sent ++ zip_with (log_enc (rl_role s)) (rl_encrypt s) cts)
                                 (recv ++ zip_with log_dec dops plains)) online rest
                 (zip_with (out_enc (rl_role s)) (rl_encrypt s) cts) (zip_with out_dec dops plains)) \/
       (o <> Ok tt /\ (blocks_left ge <= blocks_left (rl_enc s))%N /\
          s' = flushed s ge gd (SOnline otp' sent recv) online rest [] []))) as Hfail.
    { intros s1 e (ge & gd & otp' & online & Hotp & Hb & ->) Hne [= <- <-]. exists otp', ge, gd, online. split_and!; [done..|].
      right. split_and!; [done..|]. unfold flushed. by rewrite !app_nil_r. }
    (* online limit *)
    set (m1 := if b then _ else _) in H.
    assert (forall s1 o1, m1 s0 = (s1, o1) -> exists online, s1 = set_online online s0) as Hm1.
    { intros s1 o1. unfold m1. destruct b.
      - intros [(s2 & t & H1 & H2)|[(e & H1 & _)|(H1 & _)]]%sbind_inv; injection H1 as <- ?.
        + destruct (_ <? _)%N; injection H2 as <- <-; [exists (rl_recv_online s0)|exists t]; done.
        + exists (rl_recv_online s0). done.
        + exists (rl_recv_online s0). done.
      - intros [= <- <-]. exists (rl_recv_online s0). done. }
    clearbody m1.
    apply sbind_inv in H as [(s1 & [] & H1 & H)|[(e & H1 & ->)|(H1 & ->)]]; apply Hm1 in H1 as [online ->];
      [|eapply Hfail; [| |reflexivity]; [|done]; exists (rl_enc s), (rl_dec s), otp, online; split_and!; [done|lia|];
        unfold s0; destruct s; cbn in *; by subst..].
    (* encryption *)
    assert (forall s1 o1, on_enc (encrypt_mpc (rl_role s) (rl_encrypt s)) (set_online online s0) = (s1, o1) ->
      exists ge, encrypt_mpc (rl_role s) (rl_encrypt s) (rl_enc s) = (ge, o1) /\ s1 = set_enc ge (set_online online s0)) as Hm2.
    { intros s1 o1. unfold on_enc. change (rl_enc (set_online online s0)) with (rl_enc s).
      destruct (encrypt_mpc _ _ _) as [ge o2]. intros [= <- <-]. eauto. }
    apply sbind_inv in H as [(s1 & cts & H1 & H)|[(e & H1 & ->)|(H1 & ->)]]; apply Hm2 in H1 as (ge & H1 & ->); clear Hm1 Hm2;
      apply mono_encrypt_mpc in H1 as Hmono;
      [|eapply Hfail; [| |reflexivity]; [|done]; exists ge, (rl_dec s), otp, online; split_and!; [done|lia|];
        unfold s0; destruct s; cbn in *; by subst..].
    apply encrypt_mpc_ok in H1 as [Hcts Hblocks]; [|done].
    (* decryption *)
    set (s2 := set_enc ge (set_online online s0)) in *.
    assert (rl_st s2 = SOnline otp sent recv) as Hst2 by done.
    assert (forall s3 e, dec_frame s2 s3 -> e <> Ok tt -> (s3, e) = (s', o) ->
      exists otp' ge gd online, SOnline otp sent recv = SOnline otp sent recv /\ rl_decrypt s = dops ++ rest /\ (is_Some otp' <-> is_Some otp) /\
      ((exists cts plains,
          o = Ok tt /\ Forall2 enc_right (rl_encrypt s) cts /\ Forall2 (dec_right (rl_role s)) dops plains /\
          (blocks_left (rl_enc s) = blocks_left ge + sum_blocks (map eo_len (rl_encrypt s)))%N /\
          s' = flushed s ge gd (SOnline otp' (sent ++ zip_with (log_enc (rl_role s)) (rl_encrypt s) cts)
                                 (recv ++ zip_with log_dec dops plains)) online rest
                 (zip_with (out_enc (rl_role s)) (rl_encrypt s) cts) (zip_with out_dec dops plains)) \/
       (o <> Ok tt /\ (blocks_left ge <= blocks_left (rl_enc s))%N /\
          s' = flushed s ge gd (SOnline otp' sent recv) online rest [] []))) as Hfail2.
    { intros s3 e (gd & p & p' & a & b' & E1 & E2 & ->) Hne He. rewrite Hst2 in E1. injection E1 as <- <- <-.
      eapply Hfail; [|exact Hne|exact He]. exists ge, gd, p', online. split_and!; try done. }
    clear Hfail.
    apply sbind_inv in H as [(s3 & plains & H1 & H)|[(e & H1 & ->)|(H1 & ->)]];
      pose proof (decrypt_loop_frame _ _ _ _ _ _ _ Hst2 H1) as Hf3; [|eapply Hfail2; [| |reflexivity]; done..].
    eapply (decrypt_loop_ok (rl_role s)) in H1 as Hplains; [|done..].
    apply dec_frame_online in Hf3 as Ho3. destruct Ho3 as (o3 & a3 & b3 & Ho3).
    (* tags *)
    apply sbind_inv in H as [(s4 & [] & H2 & H)|[(e & H2 & ->)|(H2 & ->)]];
      pose proof (gcm_tags_dec_frame _ _ _ _ _ _ _ Ho3 H2) as Hf4;
      pose proof (dec_frame_trans _ _ _ Hf3 Hf4) as Hf; [|eapply Hfail2; [| |reflexivity]; done..].
    eapply on_dec_frame in H2 as [_ [g2 H2]]; [|done]. apply gcm_tags_ok in H2 as (_ & _ & _ & _ & _ & H8 & _).
    apply sbind_inv in H as [(s5 & [] & H3 & H)|[(e & H3 & ->)|(H3 & ->)]]; unfold slift in H3;
      [injection H3 as <- H3|injection H3 as <- H3; eapply Hfail2; [| |reflexivity]; done..].
    apply sbind_inv in H as [(s5 & [] & H4 & H)|[(e & H4 & ->)|(H4 & ->)]]; unfold slift in H4;
      [injection H4 as <- H4|injection H4 as <- H4; eapply Hfail2; [| |reflexivity]; done..].
    destruct Hf as (gd & p & p' & a & b' & E1 & E2 & ->). rewrite Hst2 in E1. injection E1 as <- <- <-.
    unfold smod, get_otp in H. cbn in H. injection H as <- <-.
    exists p', ge, gd, online. split_and!; [done..|]. left. exists cts, plains. split_and!; try done.
    - pose proof (tags_verified_ok _ _ H3) as Htags. clear -Hplains Htags H8.
      revert plains Hplains. induction dops as [|op dops IH]; intros ps Hps; apply Forall2_cons_inv_l in Hps || apply Forall2_nil_inv_l in Hps.
      + subst. constructor.
      + destruct Hps as (q & ps' & Hq & Hps' & ->). cbn in H8. apply Forall_cons in H8 as [H81 H82]. constructor.
        * split; [done|]. intros Hr _. split; [done|]. specialize (Htags Hr). by apply Forall_cons in Htags as [? _].
        * apply IH; try done. intros Hr. specialize (Htags Hr). by apply Forall_cons in Htags as [_ ?].
  Qed.

  (** ** Commit *)
  Lemma commit_cases s s' o : rl_commit s = (s', o) -> Forall dop_wf (rl_decrypt s) ->
    (exists otp sent recv plains g, rl_st s = SOnline otp sent recv /\ rl_encrypt s = [] /\
       Forall2 (dec_right (rl_role s)) (rl_decrypt s) plains /\
       o = Ok (sent, recv ++ zip_with log_dec (rl_decrypt s) plains) /\
       s' = set_out (rl_encrypted s) (rl_decrypted s ++ zip_with out_dec (rl_decrypt s) plains)
              (set_st SComplete (set_dec g (set_bufs [] [] s)))) \/
    (~ is_Ok o /\ exists ds g, (ds = [] \/ ds = rl_decrypt s) /\ s' = set_st SError (set_dec g (set_bufs (rl_encrypt s) ds s))).
  Proof.
    intros H Hdwf. unfold RecordModel.rl_commit in H.
    destruct (rl_st s) as [|otp sent recv| |] eqn:Hst;
      try (injection H as <- <-; right; split; [by intros [? [=]]|]; exists (rl_decrypt s), (rl_dec s); split; [by right|]; by destruct s).
    apply sbind_inv in H as [(s1 & [] & H1 & H)|[(e & H1 & _)|(H1 & _)]]; [|done..]. injection H1 as <-.
    destruct (rl_encrypt s) as [|eo es] eqn:He.
    2: { injection H as <- <-; right; split; [by intros [? [=]]|]; exists (rl_decrypt s), (rl_dec s); split; [by right|].
         destruct s; cbn in *; by subst. }
    apply sbind_inv in H as [(s1 & [] & H1 & H)|[(e & H1 & _)|(H1 & _)]]; [|done..]. injection H1 as <-.
    assert (forall s1 o1, on_dec (decrypt_local (rl_role s) (rl_decrypt s)) (set_bufs [] [] (set_st SError s)) = (s1, o1) ->
      exists g, decrypt_local (rl_role s) (rl_decrypt s) (rl_dec s) = (g, o1) /\ s1 = set_dec g (set_bufs [] [] (set_st SError s))) as Hm.
    { intros s1 o1. unfold on_dec. change (rl_dec (set_bufs [] [] (set_st SError s))) with (rl_dec s).
      destruct (decrypt_local _ _ _) as [g o2]. intros [= <- <-]. eauto. }
    apply sbind_inv in H as [(s1 & plains & H1 & H)|[(e & H1 & ->)|(H1 & ->)]]; apply Hm in H1 as (g & H1 & ->).
    - left. exists otp, sent, recv, plains, g. apply decrypt_local_ok in H1; [|done]. injection H as <- <-. split_and!; done.
    - right. split; [by intros [? [=]]|]. exists [], g. split; [by left|]. done.
    - right. split; [by intros [? [=]]|]. exists [], g. split; [by left|]. done.
  Qed.
End Flush.
