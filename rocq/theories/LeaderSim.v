(** The follower's record layer does what the leader's does, if it is told of the same calls. *)
From Verif.Lib Require Import Base.
From Verif Require Import TranscriptModel ProofModel CodecModel AttestModel TlsModel AuthModel TagModel RecordModel RecordSpec LeaderSpec.

Section Sim.
  Context (aes : list N -> list N -> list N) (ghash_fn : list N -> list N -> list N) (checked : bool).
  Context (ek ei dk di : list N) (blind_l blind_f : N -> nat -> N) (pad_l pad_f : nat -> N).
  Notation step_l := (rl_step aes ghash_fn checked ek ei dk di blind_l pad_l).
  Notation step_f := (rl_step aes ghash_fn checked ek ei dk di blind_f pad_f).

  Definition sim_op (l f : enc_op) : Prop :=
    exists p, eo_plain l = Some p /\ N.of_nat (length p) = eo_len l /\
      f = EncOp (eo_seq l) (eo_typ l) (eo_version l) (eo_len l) (if eo_private l then None else Some p) (eo_nonce l) (eo_aad l) (eo_private l) /\
      eo_private l = is_app (eo_typ l) /\
      (eo_private l = true -> map (blind_f (eo_seq l)) (seq 0 (length p)) = p).
  Definition sim_st (l f : rl_state) : Prop :=
    match l, f with
    | SInit, SInit | SComplete, SComplete | SError, SError => True
    | SOnline (Some _) ls lr, SOnline None fs fr => Forall2 told_sent ls fs /\ Forall2 told_recv lr fr
    | _, _ => False
    end.
  Record sim (l f : rl) : Prop := Sim {
    sim_leader : rl_role l = Leader; sim_follower : rl_role f = Follower;
    sim_wseq : rl_write_seq f = rl_write_seq l; sim_rseq : rl_read_seq f = rl_read_seq l;
    sim_enc : rl_enc f = rl_enc l; sim_dec : rl_dec f = rl_dec l; sim_state : sim_st (rl_st l) (rl_st f);
    sim_sent : rl_sent f = rl_sent l; sim_online : rl_recv_online f = rl_recv_online l; sim_recv : rl_recv f = rl_recv l;
    sim_max : rl_max_sent f = rl_max_sent l /\ rl_max_recv_online f = rl_max_recv_online l /\ rl_max_recv f = rl_max_recv l;
    sim_encrypt : Forall2 sim_op (rl_encrypt l) (rl_encrypt f);
    sim_decrypt : rl_decrypt f = rl_decrypt l;
    sim_private : Forall (fun op => do_private op = is_app (do_typ op)) (rl_decrypt l) }.

  Lemma sim_new : sim (rl_new Leader) (rl_new Follower).
  Proof. by constructor; cbn; repeat constructor. Qed.

  (** ** Encryption *)
  Lemma encrypt_one_sim l f g g' ct : sim_op l f -> encrypt_one aes checked ek ei blind_l Leader l g = (g', Ok ct) ->
    encrypt_one aes checked ek ei blind_f Follower f g = (g', Ok ct).
  Proof.
    intros (p & Hp & Hlen & -> & Hpr & Hb) H. unfold encrypt_one in *. cbn [eo_private eo_nonce eo_len eo_plain eo_seq].
    destruct (eo_private l) eqn:E.
    - unfold sbind in *. destruct (apply_keystream_mpc _ _ _ g) as [g1 [[]|e|]]; try discriminate H.
      rewrite Hp in H. rewrite <- Hlen, Nat2N.id in *. rewrite Hb by done. exact H.
    - rewrite Hp in H. exact H.
  Qed.
  Lemma encrypt_loop_sim ol of_ g g' cts : Forall2 sim_op ol of_ -> encrypt_loop aes checked ek ei blind_l Leader ol g = (g', Ok cts) ->
    encrypt_loop aes checked ek ei blind_f Follower of_ g = (g', Ok cts).
  Proof.
    intros Hops. revert g g' cts. induction Hops as [|l f ol of_ Hop Hops IH]; intros g g' cts H; [exact H|].
    cbn [encrypt_loop] in *. unfold sbind at 1 in H. destruct (encrypt_one _ _ _ _ _ Leader l g) as [g1 [ct|e|]] eqn:E; try discriminate H.
    unfold sbind at 1. rewrite (encrypt_one_sim _ _ _ _ _ Hop E). unfold sbind at 1 in H.
    destruct (encrypt_loop _ _ _ _ _ Leader ol g1) as [g2 [cs|e|]] eqn:E2; try discriminate H. unfold sbind. rewrite (IH _ _ _ E2). exact H.
  Qed.
  Lemma sim_nonces ol of_ : Forall2 sim_op ol of_ -> map eo_nonce of_ = map eo_nonce ol.
  Proof. induction 1 as [|l f ol of_ (p & _ & _ & -> & _) _ IH]; cbn; [done|by rewrite IH]. Qed.
  Lemma encrypt_mpc_sim ol of_ g g' cts : Forall2 sim_op ol of_ -> encrypt_mpc aes checked ek ei blind_l Leader ol g = (g', Ok cts) ->
    encrypt_mpc aes checked ek ei blind_f Follower of_ g = (g', Ok cts).
  Proof.
    intros Hops H. unfold encrypt_mpc in *. unfold sbind at 1 in H. destruct (encrypt_loop _ _ _ _ _ Leader ol g) as [g1 [cs|e|]] eqn:E; try discriminate H.
    unfold sbind at 1. rewrite (encrypt_loop_sim _ _ _ _ _ Hops E). by rewrite (sim_nonces _ _ Hops).
  Qed.
  Lemma encrypt_loop_length r ops g g' cts : encrypt_loop aes checked ek ei blind_l r ops g = (g', Ok cts) -> length cts = length ops.
  Proof.
    revert g g' cts. induction ops as [|op ops IH]; intros g g' cts H; cbn [encrypt_loop] in H; [by injection H as _ <-|].
    unfold sbind at 1 in H. destruct (encrypt_one _ _ _ _ _ r op g) as [g1 [ct|e|]]; try discriminate H. unfold sbind in H.
    destruct (encrypt_loop _ _ _ _ _ r ops g1) as [g2 [cs|e|]] eqn:E; try discriminate H. injection H as _ <-. cbn. by rewrite (IH _ _ _ E).
  Qed.
  Lemma encrypt_mpc_length r ops g g' cts : encrypt_mpc aes checked ek ei blind_l r ops g = (g', Ok cts) -> length cts = length ops.
  Proof.
    unfold encrypt_mpc, sbind. destruct (encrypt_loop _ _ _ _ _ r ops g) as [g1 [cs|e|]] eqn:E; [|discriminate..].
    destruct (gcm_tags _ g1) as [g2 [u|e|]]; [|discriminate..]. intros [= _ <-]. by eapply encrypt_loop_length.
  Qed.
  Lemma tags_computed_sim ol of_ cts : Forall2 sim_op ol of_ -> tags_computed ol cts = Ok tt -> tags_computed of_ cts = Ok tt.
  Proof.
    intros Hops. unfold tags_computed. enough (forallb (fun x => ghash_fits (eo_aad (fst x)) (snd x)) (zip of_ cts) = forallb (fun x => ghash_fits (eo_aad (fst x)) (snd x)) (zip ol cts)) as -> by done.
    revert cts. induction Hops as [|l f ol of_ (p & _ & _ & -> & _) _ IH]; intros [|ct cts]; cbn; [done..|]. by rewrite <- IH.
  Qed.
  Lemma logs_sent_sim ol of_ cts : Forall2 sim_op ol of_ -> Forall2 told_sent (zip_with (log_enc aes ghash_fn ek ei Leader) ol cts) (zip_with (log_enc aes ghash_fn ek ei Follower) of_ cts).
  Proof.
    intros Hops. revert cts. induction Hops as [|l f ol of_ (p & Hp & _ & -> & Hpr & _) _ IH]; intros [|ct cts]; cbn; constructor; [|apply IH].
    unfold told_sent, told. cbn. rewrite Hp, Hpr. split_and!; try done; by eexists.
  Qed.

  (** ** Decryption *)
  Definition hidden (ops : list dec_op) (ps : list (option (list N))) : list (option (list N)) :=
    zip_with (fun op (p : option (list N)) => if do_private op then None else p) ops ps.
  Lemma sim_set_dec g l f : sim l f -> sim (set_dec g l) (set_dec g f).
  Proof. intros []. by constructor. Qed.
  Lemma sim_set_enc g l f : sim l f -> sim (set_enc g l) (set_enc g f).
  Proof. intros []. by constructor. Qed.
  Lemma decrypt_public_some op g g' p : decrypt_public aes checked dk di op g = (g', Ok p) -> is_Some p.
  Proof. unfold decrypt_public, sbind. destruct (take_keystream_mpc _ _ _ g) as [g1 [u|e|]]; [|discriminate..]. intros [= _ <-]. by eexists. Qed.
  Lemma decrypt_loop_sim ops l f l' ps : sim l f -> decrypt_loop aes checked dk di ops l = (l', Ok ps) ->
    exists f', decrypt_loop aes checked dk di ops f = (f', Ok (hidden ops ps)) /\ sim l' f' /\ length ps = length ops /\ Forall is_Some ps.
  Proof.
    revert l f ps. induction ops as [|op ops IH]; intros l f ps Hs H; cbn [decrypt_loop] in *.
    { injection H as <- <-. by exists f. }
    unfold sbind at 1 in H.
    assert (forall l1 p, (if do_private op then decrypt_private aes checked dk di op else on_dec (decrypt_public aes checked dk di op)) l = (l1, Ok p) ->
      exists f1, (if do_private op then decrypt_private aes checked dk di op else on_dec (decrypt_public aes checked dk di op)) f = (f1, Ok (if do_private op then None else p)) /\ sim l1 f1 /\ is_Some p) as Hone.
    { clear H IH. intros l1 p H. destruct (do_private op).
      - unfold decrypt_private in *. unfold sbind at 1 in H. unfold sbind at 1. unfold get_otp in *.
        pose proof (sim_state _ _ Hs) as Hst. destruct (rl_st l) as [|otp sent recv| |] eqn:El; try discriminate H.
        destruct otp as [o|]; [|by destruct Hst]. destruct (rl_st f) as [|[o'|] fs fr| |] eqn:Ef; try by destruct Hst.
        destruct (length o <? length (do_ct op)); [discriminate H|]. unfold sbind at 1, on_dec in H. unfold sbind at 1, on_dec.
        rewrite (sim_dec _ _ Hs). destruct (apply_keystream_mpc _ _ _ (rl_dec l)) as [g [u|e|]]; try discriminate H.
        unfold sbind at 1, put_otp in H. cbn [rl_st set_dec] in H. rewrite El in H. injection H as <- <-. eexists. split; [reflexivity|]. split; [|by eexists].
        destruct Hs. constructor; try done. cbn. by rewrite Ef.
      - unfold on_dec in *. rewrite (sim_dec _ _ Hs). destruct (decrypt_public _ _ _ _ op (rl_dec l)) as [g [p'|e|]] eqn:E; try discriminate H.
        injection H as <- <-. eexists. split; [reflexivity|]. split; [by apply sim_set_dec|by eapply decrypt_public_some]. }
    match type of H with (let (_, _) := ?m in _) = _ => destruct m as [l1 [p|e|]] eqn:E end; try discriminate H. destruct (Hone _ _ eq_refl) as (f1 & Hf1 & Hs1 & Hp).
    unfold sbind at 1. rewrite Hf1. unfold sbind in H. destruct (decrypt_loop _ _ _ _ ops l1) as [l2 [ps2|e|]] eqn:E2; try discriminate H. injection H as <- <-.
    destruct (IH _ _ _ Hs1 E2) as (f2 & Hf2 & Hs2 & Hl2 & Hps). exists f2. unfold sbind. rewrite Hf2. split; [done|]. split; [done|]. split; [cbn; by rewrite Hl2|by constructor].
  Qed.
  Lemma decrypt_local_sim ops g g' ps : decrypt_local aes ghash_fn checked dk di Leader ops g = (g', Ok ps) ->
    decrypt_local aes ghash_fn checked dk di Follower ops g = (g', Ok (hidden ops ps)) /\ length ps = length ops /\ Forall is_Some ps.
  Proof.
    revert g ps. induction ops as [|op ops IH]; intros g ps H; cbn [decrypt_local] in *; [by injection H as <- <-|].
    unfold sbind at 1 in H. unfold sbind at 1. destruct (do_private op) eqn:Epr.
    - unfold decrypt_private_local in *. destruct (_ || _); [discriminate H|]. destruct (bool_decide _); [|discriminate H]. cbn in H. cbn [sret].
      unfold sbind in *. destruct (decrypt_local _ _ _ _ _ Leader ops g) as [g2 [ps2|e|]] eqn:E2; try discriminate H. injection H as <- <-.
      destruct (IH _ _ E2) as (H2 & Hl2 & Hp2). rewrite H2. cbn [hidden zip_with]. rewrite Epr. split; [done|]. split; [cbn; by rewrite Hl2|constructor; [by eexists|done]].
    - destruct (decrypt_public _ _ _ _ op g) as [g1 [p|e|]] eqn:E; try discriminate H.
      unfold sbind in *. destruct (decrypt_local _ _ _ _ _ Leader ops g1) as [g2 [ps2|e|]] eqn:E2; try discriminate H. injection H as <- <-.
      destruct (IH _ _ E2) as (H2 & Hl2 & Hp2). rewrite H2. cbn [hidden zip_with]. rewrite Epr. split; [done|]. split; [cbn; by rewrite Hl2|constructor; [by eapply decrypt_public_some|done]].
  Qed.
  Lemma logs_recv_sim ops ps : Forall (fun op => do_private op = is_app (do_typ op)) ops -> Forall is_Some ps ->
    Forall2 told_recv (zip_with log_dec ops ps) (zip_with log_dec ops (hidden ops ps)).
  Proof.
    intros Hops. revert ps. induction Hops as [|op ops Hop Hops IH]; intros [|p ps] Hps; cbn; constructor.
    - apply Forall_cons in Hps as [[x ->] _]. unfold told_recv, told. cbn. rewrite Hop. split_and!; try done; by eexists.
    - apply Forall_cons in Hps as [_ Hps]. by apply IH.
  Qed.
  Lemma tags_verified_sim ops : tags_verified aes ghash_fn dk di Leader ops = Ok tt -> tags_verified aes ghash_fn dk di Follower ops = Ok tt.
  Proof. unfold tags_verified. by destruct (forallb _ ops). Qed.
  Lemma until_app_split ops a b : until_app ops = (a, b) -> ops = a ++ b.
  Proof.
    revert a b. induction ops as [|op ops IH]; intros a b; cbn [until_app]; [by intros [= <- <-]|].
    destruct (is_app (do_typ op)); [by intros [= <- <-]|]. destruct (until_app ops) as [a' b']. intros [= <- <-]. by rewrite (IH _ _ eq_refl).
  Qed.

  (** ** The calls *)
  (** What the follower is told of a call. *)
  Definition tell (c : rl_call) : rl_call :=
    match c with CEncrypt t v n p => CEncrypt t v n (if is_app t then None else p) | _ => c end.
  (** What the leader itself does: known plaintexts, which are those that the follower's machine has. *)
  Definition own_call (l : rl) (c : rl_call) : Prop :=
    match c with
    | CEncrypt t v n p => exists text, p = Some text /\ n = N.of_nat (length text) /\
        (t = ApplicationData -> map (blind_f (rl_write_seq l)) (seq 0 (length text)) = text)
    | CNextEnc | CNextDec => False
    | _ => True
    end.
  Definition sim_res (x y : rl_result) : Prop :=
    match x, y with
    | RUnit, RUnit => True
    | RLogs ls lr, RLogs fs fr => Forall2 told_sent ls fs /\ Forall2 told_recv lr fr
    | _, _ => False
    end.

  Lemma alloc_sim a b c d e l f l' : sim l f -> rl_alloc checked pad_l a b c d e l = (l', Ok tt) ->
    exists f', rl_alloc checked pad_f a b c d e f = (f', Ok tt) /\ sim l' f'.
  Proof.
    intros Hs H. unfold rl_alloc in *. pose proof (sim_state _ _ Hs) as Hst.
    destruct (rl_st l) as [|[o|] ls lr| |] eqn:El; try discriminate H. destruct (rl_st f) as [|[o|] fs fr| |] eqn:Ef; try by destruct Hst.
    rewrite (sim_leader _ _ Hs) in H. rewrite (sim_follower _ _ Hs).
    destruct (sim_max _ _ Hs) as (M1 & M2 & M3). rewrite M1, M2, M3.
    unfold sbind, smod, on_enc, on_dec, slift in *. cbn [set_st rl_enc rl_dec set_enc] in *. rewrite (sim_enc _ _ Hs).
    destruct (gcm_alloc checked a c (rl_enc l)) as [g1 [u1|e1|]]; try discriminate H. cbn [set_st rl_enc rl_dec set_enc] in *. rewrite (sim_dec _ _ Hs).
    destruct (gcm_alloc checked b d (rl_dec l)) as [g2 [u2|e2|]]; try discriminate H.
    repeat (match type of H with context [lift_panic ?m] => destruct (lift_panic m); try discriminate H end).
    injection H as <-. eexists. split; [reflexivity|]. destruct Hs. constructor; cbn; try done.
  Qed.
  Lemma setup_sim l f l' : sim l f -> rl_setup l = (l', Ok tt) -> exists f', rl_setup f = (f', Ok tt) /\ sim l' f'.
  Proof.
    intros Hs H. unfold rl_setup, sbind, on_enc, on_dec in *. rewrite (sim_enc _ _ Hs). destruct (gcm_setup (rl_enc l)) as [g1 [u1|e1|]]; try discriminate H.
    cbn [set_enc rl_dec] in *. rewrite (sim_dec _ _ Hs). destruct (gcm_setup (rl_dec l)) as [g2 [[]|e2|]]; try discriminate H. injection H as <-.
    eexists. split; [reflexivity|]. by apply sim_set_dec, sim_set_enc.
  Qed.
  Lemma push_encrypt_sim t v n text l f l' : sim l f -> n = N.of_nat (length text) ->
    (t = ApplicationData -> map (blind_f (rl_write_seq l)) (seq 0 (length text)) = text) ->
    push_encrypt checked t v n (Some text) l = (l', Ok tt) ->
    exists f', push_encrypt checked t v n (if is_app t then None else Some text) f = (f', Ok tt) /\ sim l' f' /\ rl_write_seq l' = (rl_write_seq l + 1)%N.
  Proof.
    intros Hs -> Hb H. unfold push_encrypt in *. rewrite <- (Forall2_length _ _ _ (sim_encrypt _ _ Hs)). destruct (max_buffer <=? length (rl_encrypt l)); [discriminate H|].
    rewrite (sim_sent _ _ Hs). destruct (uadd checked (rl_sent l) _) as [total|[]|]; try discriminate H.
    destruct (sim_max _ _ Hs) as (M1 & M2 & M3). rewrite M1. destruct (rl_max_sent l <? total)%N; [discriminate H|].
    rewrite (sim_wseq _ _ Hs). unfold enc_op_new in *. rewrite N.eqb_refl in H. cbn [negb] in H. injection H as <-.
    destruct (is_app t) eqn:Et; cbn [negb]; [|rewrite N.eqb_refl; cbn [negb]]; eexists; (split; [reflexivity|]); (split; [|done]);
      destruct Hs; (constructor; cbn; try done); apply Forall2_app; try done; repeat constructor; exists text; cbn; rewrite ?Et; split_and!; try done.
    intros _. apply Hb. unfold is_app in Et. by apply bool_decide_eq_true in Et.
  Qed.
  Lemma push_decrypt_sim t v n ct g l f l' : sim l f -> push_decrypt checked t v n ct g l = (l', Ok tt) ->
    exists f', push_decrypt checked t v n ct g f = (f', Ok tt) /\ sim l' f'.
  Proof.
    intros Hs H. unfold push_decrypt in *. rewrite (sim_decrypt _ _ Hs). destruct (max_buffer <=? length (rl_decrypt l)); [discriminate H|].
    rewrite (sim_recv _ _ Hs). destruct (uadd checked (rl_recv l) _) as [total|[]|]; try discriminate H.
    destruct (sim_max _ _ Hs) as (M1 & M2 & M3). rewrite M3. destruct (rl_max_recv l <? total)%N; [discriminate H|]. injection H as <-.
    rewrite (sim_rseq _ _ Hs). eexists. split; [reflexivity|]. destruct Hs. constructor; cbn; try done; [congruence|]. apply Forall_app. split; [done|]. by repeat constructor.
  Qed.
  Lemma sim_set_bufs d rest l f : sim l f -> rl_decrypt l = d ++ rest -> sim (set_bufs [] rest l) (set_bufs [] rest f).
  Proof. intros [] E. constructor; cbn; try done. rewrite E in *. by apply Forall_app in sim_private0 as [_ ?]. Qed.
  Lemma flush_sim b l f l' : sim l f -> rl_flush aes ghash_fn checked ek ei dk di blind_l b l = (l', Ok tt) ->
    exists f', rl_flush aes ghash_fn checked ek ei dk di blind_f b f = (f', Ok tt) /\ sim l' f'.
  Proof.
    intros Hs H. unfold rl_flush in *. pose proof (sim_state _ _ Hs) as Hst.
    destruct (rl_st l) as [|[o|] ls lr| |] eqn:El; try discriminate H; [|by destruct Hst].
    destruct (rl_st f) as [|[o'|] fs fr| |] eqn:Ef; try by destruct Hst. destruct Hst as [Hls Hlr].
    rewrite (sim_decrypt _ _ Hs), (sim_leader _ _ Hs) in *. rewrite (sim_follower _ _ Hs).
    destruct (if b then (rl_decrypt l, []) else until_app (rl_decrypt l)) as [dops rest] eqn:Ed.
    assert (rl_decrypt l = dops ++ rest) as Hsplit by (destruct b; [injection Ed as <- <-; by rewrite app_nil_r|by apply until_app_split]).
    assert (Forall (fun op => do_private op = is_app (do_typ op)) dops) as Hpr.
    { pose proof (sim_private _ _ Hs) as Hp. rewrite Hsplit in Hp. by apply Forall_app in Hp as [? _]. }
    pose proof (sim_encrypt _ _ Hs) as Hops. pose proof (sim_set_bufs _ _ _ _ Hs Hsplit) as Hs1.
    assert (rl_encrypt l = [] /\ dops = [] \/ (forall A (x y : A), match rl_encrypt l, dops with [], [] => x | _, _ => y end = y) /\
      (forall A (x y : A), match rl_encrypt f, dops with [], [] => x | _, _ => y end = y)) as [[E1 ->]|[N1 N2]].
    { destruct Hops; destruct dops; auto. }
    { rewrite E1 in *. apply Forall2_nil_inv_l in Hops. rewrite Hops in *. injection H as <-. eexists. split; [reflexivity|]. done. }
    rewrite N1 in H. rewrite N2. clear N1 N2. generalize dependent (set_bufs [] rest l). intros l1 H Hs1. generalize dependent (set_bufs [] rest f). intros f1 Hs1.
    unfold sbind at 1 in H. unfold sbind at 1.
    assert (forall l2 u, (if b then
                  let dlen := foldr N.add 0%N (map (fun op => N.of_nat (length (do_ct op))) dops) in
                  do! total := slift (lift_panic (uadd checked (rl_recv_online l1) dlen)) in
                  if (rl_max_recv_online l1 <? total)%N then sfail ROnlineLimit else smod (set_online total)
                else sret tt) l1 = (l2, Ok u) -> exists f2,
      (if b then
                  let dlen := foldr N.add 0%N (map (fun op => N.of_nat (length (do_ct op))) dops) in
                  do! total := slift (lift_panic (uadd checked (rl_recv_online f1) dlen)) in
                  if (rl_max_recv_online f1 <? total)%N then sfail ROnlineLimit else smod (set_online total)
                else sret tt) f1 = (f2, @Ok rl_error unit tt) /\ sim l2 f2) as Hon.
    { clear H. intros l2 u H. destruct b; [|injection H as <- _; by exists f1]. cbn zeta in *. unfold sbind, slift in *.
      rewrite (sim_online _ _ Hs1). destruct (sim_max _ _ Hs1) as (M1 & M2 & M3). rewrite M2.
      destruct (lift_panic _) as [tot|e|]; try discriminate H. destruct (_ <? tot)%N; [discriminate H|]. injection H as <- _.
      eexists. split; [reflexivity|]. destruct Hs1. by constructor. }
    match type of H with (let (_, _) := ?m in _) = _ => destruct m as [l2 [u|e|]] eqn:E2 end; try discriminate H.
    destruct (Hon _ _ eq_refl) as (f2 & Hf2 & Hs2). cbn zeta in Hf2. rewrite Hf2. clear Hon Hf2 E2 Hs1.
    unfold sbind at 1, on_enc at 1 in H. unfold sbind at 1, on_enc at 1. rewrite (sim_enc _ _ Hs2).
    destruct (encrypt_mpc _ _ _ _ _ Leader (rl_encrypt l) (rl_enc l2)) as [g [cts|e|]] eqn:E3; try discriminate H.
    rewrite (encrypt_mpc_sim _ _ _ _ _ Hops E3). apply (sim_set_enc g) in Hs2.
    unfold sbind at 1 in H. unfold sbind at 1. destruct (decrypt_loop _ _ _ _ dops (set_enc g l2)) as [l3 [ps|e|]] eqn:E4; try discriminate H.
    destruct (decrypt_loop_sim _ _ _ _ _ Hs2 E4) as (f3 & Hf3 & Hs3 & Hlp & Hsome). rewrite Hf3.
    unfold sbind at 1, on_dec in H. unfold sbind at 1, on_dec. rewrite (sim_dec _ _ Hs3). destruct (gcm_tags _ (rl_dec l3)) as [g4 [u4|e|]]; try discriminate H.
    apply (sim_set_dec g4) in Hs3.
    unfold sbind at 1, slift in H. destruct (tags_verified _ _ _ _ Leader dops) as [[]|e|] eqn:E5; try discriminate H.
    unfold sbind at 1, slift. rewrite (tags_verified_sim _ E5).
    unfold sbind at 1 in H. destruct (tags_computed (rl_encrypt l) cts) as [[]|e|] eqn:E6; try discriminate H.
    unfold sbind at 1. rewrite (tags_computed_sim _ _ _ Hops E6).
    unfold sbind, smod, get_otp in H. unfold sbind, smod, get_otp. cbn [rl_st set_out] in *.
    pose proof (sim_state _ _ Hs3) as Hst3. destruct (rl_st (set_dec g4 l3)) as [|otp3 ls3 lr3| |]; try discriminate H.
    destruct otp3 as [o3|]; [|by destruct Hst3]. destruct (rl_st (set_dec g4 f3)) as [|[o3'|] fs3 fr3| |]; try by destruct Hst3.
    injection H as <-. eexists. split; [reflexivity|]. destruct Hs3. constructor; cbn; try done.
    split; apply Forall2_app; try done; [by apply logs_sent_sim|by apply logs_recv_sim].
  Qed.
  Lemma decrypt_loop_wseq ops l l' o : decrypt_loop aes checked dk di ops l = (l', o) -> rl_write_seq l' = rl_write_seq l.
  Proof.
    revert l l' o. induction ops as [|op ops IH]; intros l l' o H; cbn [decrypt_loop] in H; [by injection H as <- _|].
    unfold sbind at 1 in H. match type of H with (let (_, _) := ?m in _) = _ => destruct m as [l1 o1] eqn:E end.
    assert (rl_write_seq l1 = rl_write_seq l) as H1.
    { destruct (do_private op).
      - unfold decrypt_private, sbind, get_otp, on_dec, put_otp, sfail in E. destruct (rl_st l) as [|otp a b| |] eqn:El; try (by injection E as <- _).
        destruct otp as [pad|]; [destruct (length pad <? _); [by injection E as <- _|]|];
        (destruct (apply_keystream_mpc _ _ _ _) as [g [u|e|]]; try (by injection E as <- _)).
        cbn [rl_st set_dec] in E. rewrite El in E. by injection E as <- _.
      - unfold on_dec in E. destruct (decrypt_public _ _ _ _ op _) as [g p]. by injection E as <- _. }
    destruct o1 as [p|e|]; try (by injection H as <- _). unfold sbind in H. destruct (decrypt_loop _ _ _ _ ops l1) as [l2 o2] eqn:E2.
    apply IH in E2. destruct o2; injection H as <- _; congruence.
  Qed.
  Lemma flush_wseq b l l' : rl_flush aes ghash_fn checked ek ei dk di blind_l b l = (l', Ok tt) -> rl_write_seq l' = rl_write_seq l.
  Proof.
    unfold rl_flush. destruct (rl_st l) as [|otp ls lr| |]; try discriminate.
    destruct (if b then _ else _) as [dops rest]. assert (rl_write_seq (set_bufs [] rest l) = rl_write_seq l) as <- by done. generalize (set_bufs [] rest l). intros l1.
    assert (forall A (x y : A) (P : A -> Prop), P x -> P y -> P (match rl_encrypt l, dops with [], [] => x | _, _ => y end)) as Hm by (intros; by destruct (rl_encrypt l), dops).
    apply Hm; [by intros [= <-]|]. clear Hm. unfold sbind at 1.
    match goal with |- (let (_, _) := ?m in _) = _ -> _ => destruct m as [l2 [u|e|]] eqn:E2 end; [|discriminate..].
    assert (rl_write_seq l2 = rl_write_seq l1) as <-.
    { destruct b; [|by injection E2 as <- _]. cbn zeta in E2. unfold sbind, slift in E2. destruct (lift_panic _) as [tot|e|]; try discriminate E2.
      destruct (_ <? tot)%N; [discriminate E2|]. by injection E2 as <- _. }
    unfold sbind at 1, on_enc. destruct (encrypt_mpc _ _ _ _ _ _ _ _) as [g [cts|e|]]; [|discriminate..].
    unfold sbind at 1. destruct (decrypt_loop _ _ _ _ dops _) as [l3 [ps|e|]] eqn:E4; [|discriminate..]. apply decrypt_loop_wseq in E4.
    cbn [rl_write_seq set_enc] in E4. rewrite <- E4. unfold sbind at 1, on_dec. destruct (gcm_tags _ _) as [g4 [u4|e|]]; [|discriminate..].
    unfold sbind at 1, slift. destruct (tags_verified _ _ _ _ _ _) as [u5|e|]; [|discriminate..]. unfold sbind at 1. destruct (tags_computed _ _) as [u6|e|]; [|discriminate..].
    unfold sbind, smod, get_otp. destruct (rl_st _); try discriminate. by intros [= <-].
  Qed.
  Lemma commit_sim l f l' ls lr : sim l f -> rl_commit aes ghash_fn checked dk di l = (l', Ok (ls, lr)) ->
    exists f' fs fr, rl_commit aes ghash_fn checked dk di f = (f', Ok (fs, fr)) /\ sim l' f' /\ Forall2 told_sent ls fs /\ Forall2 told_recv lr fr.
  Proof.
    intros Hs H. unfold rl_commit in *. pose proof (sim_state _ _ Hs) as Hst.
    destruct (rl_st l) as [|[o|] ls0 lr0| |] eqn:El; try discriminate H; [|by destruct Hst].
    destruct (rl_st f) as [|[o'|] fs0 fr0| |] eqn:Ef; try by destruct Hst. destruct Hst as [Hls Hlr].
    pose proof (sim_encrypt _ _ Hs) as Hops. destruct (rl_encrypt l) as [|op ops] eqn:Eo; [|unfold sbind, smod, sfail in H; discriminate H].
    apply Forall2_nil_inv_l in Hops. rewrite Hops. rewrite (sim_decrypt _ _ Hs), (sim_follower _ _ Hs). rewrite (sim_leader _ _ Hs) in H.
    unfold sbind, smod, on_dec in *. cbn [rl_dec set_bufs set_st] in *. rewrite (sim_dec _ _ Hs).
    destruct (decrypt_local _ _ _ _ _ Leader (rl_decrypt l) (rl_dec l)) as [g [ps|e|]] eqn:E; try discriminate H.
    destruct (decrypt_local_sim _ _ _ _ E) as (-> & Hl & Hsome). injection H as <- <- <-.
    do 3 eexists. split; [reflexivity|]. split; [|split; [done|]].
    - destruct Hs. by constructor; cbn.
    - apply Forall2_app; [done|]. apply logs_recv_sim; [exact (sim_private _ _ Hs)|done].
  Qed.
  Lemma step_sim c l f l' x : sim l f -> own_call l c -> step_l c l = (l', Ok x) ->
    exists f' y, step_f (tell c) f = (f', Ok y) /\ sim l' f' /\ sim_res x y /\
      rl_write_seq l' = (rl_write_seq l + match c with CEncrypt _ _ _ _ => 1 | _ => 0 end)%N.
  Proof.
    intros Hs Ho H. destruct c as [a b c d e| | |t v n p|t v n ct g|b| | |]; cbn [rl_step tell own_call] in *; unfold sbind in *; try done.
    - destruct (rl_alloc _ _ _ _ _ _ _ l) as [l1 [[]|e1|]] eqn:E; try discriminate H. injection H as <- <-.
      destruct (alloc_sim _ _ _ _ _ _ _ _ Hs E) as (f1 & -> & Hs1). do 2 eexists. split; [reflexivity|]. split; [done|]. split; [done|].
      rewrite N.add_0_r. clear -E. unfold rl_alloc in E. destruct (rl_st l); try discriminate E. unfold smod, sbind, on_enc, on_dec, slift in E. cbn [set_st rl_enc rl_dec set_enc] in E.
      destruct (gcm_alloc _ _ _ (rl_enc l)) as [g1 [u1|e1|]]; try discriminate E. cbn [set_st rl_enc rl_dec set_enc] in E.
      destruct (gcm_alloc _ _ _ (rl_dec l)) as [g2 [u2|e2|]]; try discriminate E.
      repeat (match type of E with context [lift_panic ?m] => destruct (lift_panic m); try discriminate E end). by injection E as <-.
    - destruct (rl_setup l) as [l1 [[]|e1|]] eqn:E; try discriminate H. injection H as <- <-.
      destruct (setup_sim _ _ _ Hs E) as (f1 & -> & Hs1). do 2 eexists. split; [reflexivity|]. split; [done|]. split; [done|].
      rewrite N.add_0_r. clear -E. unfold rl_setup, sbind, on_enc, on_dec in E. destruct (gcm_setup (rl_enc l)) as [g1 [u1|e1|]]; try discriminate E.
      destruct (gcm_setup _) as [g2 [[]|e2|]]; try discriminate E. by injection E as <-.
    - injection H as <- <-. do 2 eexists. split; [reflexivity|]. split; [destruct Hs; by constructor|]. split; [done|]. cbn. lia.
    - destruct Ho as (text & -> & -> & Hb). destruct (push_encrypt _ _ _ _ _ l) as [l1 [[]|e1|]] eqn:E; try discriminate H. injection H as <- <-.
      destruct (push_encrypt_sim _ _ _ _ _ _ _ Hs eq_refl Hb E) as (f1 & Hf & Hs1 & Hw). rewrite Hf. do 2 eexists. split; [reflexivity|]. done.
    - destruct (push_decrypt _ _ _ _ _ _ l) as [l1 [[]|e1|]] eqn:E; try discriminate H. injection H as <- <-.
      destruct (push_decrypt_sim _ _ _ _ _ _ _ _ Hs E) as (f1 & -> & Hs1). do 2 eexists. split; [reflexivity|]. split; [done|]. split; [done|].
      rewrite N.add_0_r. clear -E. unfold push_decrypt in E. destruct (_ <=? _); [discriminate E|]. destruct (uadd _ _ _) as [tot|[]|]; try discriminate E.
      destruct (_ <? _)%N; [discriminate E|]. by injection E as <-.
    - destruct (rl_flush _ _ _ _ _ _ _ _ _ l) as [l1 [[]|e1|]] eqn:E; try discriminate H. injection H as <- <-.
      destruct (flush_sim _ _ _ _ Hs E) as (f1 & -> & Hs1). do 2 eexists. split; [reflexivity|]. split; [done|]. split; [done|].
      rewrite N.add_0_r. by eapply flush_wseq.
    - destruct (rl_commit _ _ _ _ _ l) as [l1 [[ls lr]|e1|]] eqn:E; try discriminate H. injection H as <- <-.
      destruct (commit_sim _ _ _ _ _ Hs E) as (f1 & fs & fr & -> & Hs1 & H1 & H2). do 2 eexists. split; [reflexivity|]. split; [done|]. split; [done|].
      rewrite N.add_0_r. clear -E. unfold rl_commit in E. destruct (rl_st l); try discriminate E. unfold sbind, smod, on_dec, sfail in E.
      destruct (rl_encrypt l); try discriminate E. cbn [rl_dec set_bufs set_st] in *. destruct (decrypt_local _ _ _ _ _ _ _ _) as [g [ps|e|]]; try discriminate E. by injection E as <-.
  Qed.
End Sim.
