(** Proofs about panics and endless loops of the follower. *)
From Verif.Lib Require Import Base.
From Verif Require Import TranscriptModel ProofModel CodecModel AttestModel TlsModel AuthModel AuthSpec TagModel TagSpec RecordModel RecordSpec PartsModel PartsSpec PartsLemmas
  PrfModel PrfSpec PrfMainLemmas PrfFlushLemmas FollowerModel FollowerSpec FollowerLemmas FollowerRunLemmas.

(** ** The record layer of a follower does not panic without overflow checks *)
Definition calm {S E A} (m : stm S E A) : Prop := forall s, snd (m s) <> Panic.
Lemma calm_bind {S E A B} (m : stm S E A) (k : A -> stm S E B) : calm m -> (forall a, calm (k a)) -> calm (sbind m k).
Proof. intros Hm Hk s. unfold sbind. specialize (Hm s). destruct (m s) as [s' [a|e|]]; [apply Hk|done|done]. Qed.
Lemma calm_ret {S E A} (a : A) : calm (@sret S E A a).
Proof. by intros s. Qed.
Lemma calm_fail {S E A} (e : E) : calm (@sfail S E A e).
Proof. by intros s. Qed.
Lemma calm_lift {S E A} (o : outcome E A) : o <> Panic -> calm (@slift S E A o).
Proof. by intros H s. Qed.
Lemma calm_mod {E} f : calm (@smod E f).
Proof. by intros s. Qed.
Lemma calm_enc {E A} (m : stm gcm E A) : calm m -> calm (on_enc m).
Proof. intros H s. unfold on_enc. specialize (H (rl_enc s)). by destruct (m (rl_enc s)). Qed.
Lemma calm_dec {E A} (m : stm gcm E A) : calm m -> calm (on_dec m).
Proof. intros H s. unfold on_dec. specialize (H (rl_dec s)). by destruct (m (rl_dec s)). Qed.
Lemma calm_if {S E A} (b : bool) (m m' : stm S E A) : calm m -> calm m' -> calm (if b then m else m').
Proof. by destruct b. Qed.
Lemma uadd_calm {E} a b : @lift_panic E N (uadd false a b) <> Panic.
Proof. unfold uadd. by destruct (_ <? _)%N. Qed.
Lemma umul_calm {E} a b : @lift_panic E N (umul false a b) <> Panic.
Proof. unfold umul. by destruct (_ <? _)%N. Qed.
Lemma usub_calm {E} a b : @lift_panic E N (usub false a b) <> Panic.
Proof. unfold usub. by destruct (_ <=? _)%N. Qed.
Ltac calm_tac := repeat first
  [ simple apply calm_bind; [|intros ?] | simple apply calm_ret | simple apply calm_fail | simple apply calm_mod | simple apply calm_enc | simple apply calm_dec | simple apply calm_if
  | simple apply calm_lift; first [apply uadd_calm | apply umul_calm | apply usub_calm] ].

Section Calm.
  Context (aes : list N -> list N -> list N) (ghash_fn : list N -> list N -> list N) (ek ei dk di : list N) (blind : N -> nat -> N) (pad_rng : nat -> N).
  Lemma gcm_alloc_calm a b : calm (gcm_alloc false a b).
  Proof. intros g. unfold gcm_alloc, umul. destruct g; try done. by destruct (_ <? _)%N. Qed.
  Lemma gcm_setup_calm : calm gcm_setup.
  Proof. by intros []. Qed.
  Lemma check_nonce_calm n : calm (check_nonce n).
  Proof. unfold check_nonce. calm_tac. Qed.
  Lemma check_input_calm n : calm (check_input n).
  Proof. intros []; cbn; try done. by destruct (_ <? _)%N. Qed.
  Lemma take_input_calm n : calm (take_input n).
  Proof. by intros []. Qed.
  Lemma consume_calm n : calm (consume n).
  Proof. intros []; cbn; try done. by destruct (_ <? _)%N. Qed.
  Lemma apply_calm n l : calm (apply_keystream_mpc false n l).
  Proof.
    intros g. unfold apply_keystream_mpc. destruct g as [| |i b j|]; try done. revert i b j.
    match goal with |- forall i b j, snd (?m (GReady i b j)) <> Panic => cut (calm m); [intros H i b j; apply H|] end.
    calm_tac; first [apply check_nonce_calm|apply check_input_calm|apply take_input_calm|apply consume_calm].
  Qed.
  Lemma take_calm n l : calm (take_keystream_mpc false n l).
  Proof.
    intros g. unfold take_keystream_mpc. destruct g as [| |i b j|]; try done. revert i b j.
    match goal with |- forall i b j, snd (?m (GReady i b j)) <> Panic => cut (calm m); [intros H i b j; apply H|] end.
    calm_tac; first [apply check_nonce_calm|apply check_input_calm|apply consume_calm].
  Qed.
  Lemma j0s_calm ns : calm (take_j0s ns).
  Proof. induction ns as [|n ns IH]; cbn [take_j0s]; calm_tac; first [exact IH|by intros []|apply check_nonce_calm]. Qed.
  Lemma tags_calm ns : calm (gcm_tags ns).
  Proof. intros g. unfold gcm_tags. destruct g; try done. destruct (_ <? _)%N; [done|]. apply j0s_calm. Qed.
  Lemma encrypt_calm r ops : calm (encrypt_mpc aes false ek ei blind r ops).
  Proof.
    unfold encrypt_mpc. calm_tac; [|apply tags_calm]. induction ops as [|op ops IH]; cbn [encrypt_loop]; calm_tac; [|exact IH].
    unfold encrypt_one. calm_tac; [apply apply_calm|destruct r, (eo_plain op); calm_tac|]. destruct (eo_plain op); calm_tac. apply take_calm.
  Qed.
  Lemma decrypt_public_calm op : calm (decrypt_public aes false dk di op).
  Proof. unfold decrypt_public. cbn zeta. calm_tac. apply take_calm. Qed.
  Lemma get_otp_calm : calm get_otp.
  Proof. intros s. unfold get_otp. by destruct (rl_st s). Qed.
  Lemma put_otp_calm o : calm (put_otp o).
  Proof. intros s. unfold put_otp. by destruct (rl_st s). Qed.
  Lemma decrypt_loop_calm ops : calm (decrypt_loop aes false dk di ops).
  Proof.
    induction ops as [|op ops IH]; cbn [decrypt_loop]; calm_tac; [| |exact IH].
    - unfold decrypt_private. cbn zeta. calm_tac; [apply get_otp_calm|]. destruct a; calm_tac; try apply apply_calm. apply put_otp_calm.
    - apply decrypt_public_calm.
  Qed.
  Lemma decrypt_local_calm ops : calm (decrypt_local aes ghash_fn false dk di Follower ops).
  Proof. induction ops as [|op ops IH]; cbn [decrypt_local decrypt_private_local]; calm_tac; [apply decrypt_public_calm|exact IH]. Qed.
  Lemma flush_calm b s : rl_role s = Follower -> snd (rl_flush aes ghash_fn false ek ei dk di blind b s) <> Panic.
  Proof.
    intros Hr. unfold rl_flush. rewrite Hr. destruct (rl_st s) as [|otp sent recv| |]; try done.
    destruct (if b then (rl_decrypt s, []) else until_app (rl_decrypt s)) as [dops rest].
    destruct (rl_encrypt s) as [|op eops], dops as [|dop dops]; [done|..].
    all: match goal with |- snd (?m ?s1) <> Panic => cut (calm m); [intros H; apply H|] end.
    all: calm_tac; first [apply encrypt_calm|apply decrypt_loop_calm|apply tags_calm|apply get_otp_calm|apply calm_lift].
    all: unfold tags_verified, tags_computed; by destruct (forallb _ _).
  Qed.
  Lemma step_calm c s : rl_role s = Follower -> snd (rl_step aes ghash_fn false ek ei dk di blind pad_rng c s) <> Panic.
  Proof.
    intros Hr. destruct c; cbn [rl_step].
    - unfold sbind. match goal with |- context [rl_alloc ?a ?b ?c ?d ?e ?f ?g s] => assert (snd (rl_alloc a b c d e f g s) <> Panic) as H end.
      { unfold rl_alloc. destruct (rl_st s); try done. revert s Hr. match goal with |- forall s, _ -> snd (?m s) <> Panic => idtac end.
        intros s Hr. match goal with |- snd (?m s) <> Panic => cut (calm m); [intros H; apply H|] end.
        calm_tac; apply gcm_alloc_calm. }
      destruct (rl_alloc _ _ _ _ _ _ _ s) as [s1 [u|e|]]; done.
    - revert s Hr. intros s _. match goal with |- snd (?m s) <> Panic => cut (calm m); [intros H; apply H|] end. unfold rl_setup. calm_tac; apply gcm_setup_calm.
    - done.
    - unfold sbind. assert (snd (push_encrypt false typ v len plain s) <> Panic) as H.
      { unfold push_encrypt. destruct (_ <=? _); [done|]. unfold uadd. destruct (_ <? _)%N; cbn zeta; (destruct (_ <? _)%N; [done|]);
          unfold enc_op_new; destruct plain; cbn; by destruct (negb _). }
      by destruct (push_encrypt _ _ _ _ _ s) as [s1 [u|e|]].
    - unfold sbind. assert (snd (push_decrypt false typ v nonce ct tag s) <> Panic) as H.
      { unfold push_decrypt. destruct (_ <=? _); [done|]. unfold uadd. destruct (_ <? _)%N; cbn zeta; by destruct (_ <? _)%N. }
      by destruct (push_decrypt _ _ _ _ _ _ s) as [s1 [u|e|]].
    - unfold sbind. pose proof (flush_calm is_decrypting s Hr) as H. by destruct (rl_flush _ _ _ _ _ _ _ _ _ s) as [s1 [u|e|]].
    - unfold sbind, next_encrypted. destruct (rl_encrypted s); [done|]. by destruct (_ && _).
    - unfold sbind, next_decrypted. destruct (rl_decrypted s); [done|]. by destruct (_ && _).
    - unfold sbind. assert (snd (rl_commit aes ghash_fn false dk di s) <> Panic) as H.
      { unfold rl_commit. rewrite Hr. destruct (rl_st s); try done. generalize (rl_decrypt s). intros ops. destruct (rl_encrypt s) as [|op eops].
        - match goal with |- snd (?m s) <> Panic => cut (calm m); [intros H; apply H|] end. calm_tac. apply decrypt_local_calm.
        - done. }
      by destruct (rl_commit _ _ _ _ _ s) as [s1 [u|e|]].
  Qed.
End Calm.

(** ** The role does not change *)
Definition steady {E A} (m : stm rl E A) : Prop := forall s, rl_role (fst (m s)) = rl_role s.
Lemma steady_bind {E A B} (m : stm rl E A) (k : A -> stm rl E B) : steady m -> (forall a, steady (k a)) -> steady (sbind m k).
Proof. intros Hm Hk s. unfold sbind. specialize (Hm s). destruct (m s) as [s' [a|e|]]; [|done|done]. rewrite Hk. done. Qed.
Lemma steady_ret {E A} (a : A) : steady (@sret rl E A a).
Proof. by intros s. Qed.
Lemma steady_fail {E A} (e : E) : steady (@sfail rl E A e).
Proof. by intros s. Qed.
Lemma steady_lift {E A} (o : outcome E A) : steady (@slift rl E A o).
Proof. by intros s. Qed.
Lemma steady_enc {E A} (m : stm gcm E A) : steady (on_enc m).
Proof. intros s. unfold on_enc. by destruct (m (rl_enc s)). Qed.
Lemma steady_dec {E A} (m : stm gcm E A) : steady (on_dec m).
Proof. intros s. unfold on_dec. by destruct (m (rl_dec s)). Qed.
Lemma steady_if {E A} (b : bool) (m m' : stm rl E A) : steady m -> steady m' -> steady (if b then m else m').
Proof. by destruct b. Qed.
Ltac steady_tac := repeat first
  [ simple apply steady_bind; [|intros ?] | simple apply steady_ret | simple apply steady_fail | simple apply steady_lift | simple apply steady_enc | simple apply steady_dec
  | simple apply steady_if ].
Section Steady.
  Context (aes : list N -> list N -> list N) (ghash_fn : list N -> list N -> list N) (checked : bool) (ek ei dk di : list N) (blind : N -> nat -> N) (pad_rng : nat -> N).
  Lemma decrypt_loop_steady ops : steady (decrypt_loop aes checked dk di ops).
  Proof.
    induction ops as [|op ops IH]; cbn [decrypt_loop]; steady_tac; [|exact IH].
    unfold decrypt_private. cbn zeta. steady_tac.
    - intros s. unfold get_otp. by destruct (rl_st s).
    - destruct a; steady_tac. intros s. unfold put_otp. by destruct (rl_st s).
  Qed.
  Lemma step_steady c : steady (rl_step aes ghash_fn checked ek ei dk di blind pad_rng c).
  Proof.
    destruct c; cbn [rl_step]; steady_tac.
    - intros s. unfold rl_alloc. destruct (rl_st s); try done.
      match goal with |- rl_role (fst (?m s)) = _ => cut (steady m); [intros H; apply H|] end. steady_tac; by intros ?.
    - unfold rl_setup. steady_tac.
    - by intros s.
    - intros s. unfold push_encrypt. destruct (_ <=? _); [done|]. destruct (uadd _ _ _) as [|[]|]; try done. destruct (_ <? _)%N; [done|].
      cbn zeta. by destruct (enc_op_new _ _ _ _ _ _ _ _).
    - intros s. unfold push_decrypt. destruct (_ <=? _); [done|]. destruct (uadd _ _ _) as [|[]|]; try done. by destruct (_ <? _)%N.
    - intros s. unfold rl_flush. destruct (rl_st s) as [|otp sent recv| |]; try done.
      destruct (if is_decrypting then (rl_decrypt s, []) else until_app (rl_decrypt s)) as [dops rest].
      destruct (rl_encrypt s) as [|op eops], dops as [|dop dops]; [done|..].
      all: change (rl_role s) with (rl_role (set_bufs [] rest s)) at 1.
      all: match goal with |- rl_role (fst (?m ?s1)) = _ => cut (steady m); [intros H; rewrite H; done|] end.
      all: cbn zeta; steady_tac; try apply decrypt_loop_steady; try (by intros ?). all: intros s2; unfold get_otp; by destruct (rl_st s2).
    - intros s. unfold next_encrypted. destruct (rl_encrypted s); [done|]. by destruct (_ && _).
    - intros s. unfold next_decrypted. destruct (rl_decrypted s); [done|]. by destruct (_ && _).
    - intros s. unfold rl_commit. destruct (rl_st s); try done.
      destruct (rl_encrypt s) as [|op eops]; [|done]. cbn zeta.
      match goal with |- rl_role (fst (?m s)) = _ => cut (steady m); [intros H; rewrite H; done|] end. steady_tac; by intros ?.
  Qed.
End Steady.

(** ** The key derivation *)
Definition prf_shape (p : prf) : Prop :=
  pf_ms p = MsStandard /\ match pf_state p with PSetup ms _ _ _ => is_Some ms | _ => True end.
Section Shape.
  Context (iv : list N) (compress : list N -> list N -> list N).
  Lemma setup_shape net m p out : prf_setup iv compress net MsStandard = Ok (m, p, out) -> prf_shape p.
  Proof. intros H. destruct net; vm_compute in H; injection H as _ <- _; (split; [reflexivity|by eexists]). Qed.
  Lemma call_shape c m p m' p' : prf_shape p -> prf_call_step compress c m p = Ok (m', p') -> prf_shape p'.
  Proof.
    intros [H1 H2] H. destruct c; cbn [prf_call_step] in H.
    - apply obind_Ok in H as (? & _ & H). by injection H as _ <-.
    - by injection H as _ <-.
    - unfold keep_vm in H. apply obind_Ok in H as (q & H & Hq). injection Hq as _ <-. unfold set_server_random in H. destruct (pf_state p) as [|ms ke cf sf| |]; try discriminate H.
      apply obind_Ok in H as (cl & _ & H). rewrite H1 in H. destruct ms as [f|]; [|discriminate H]. cbn [or_panic obind] in H. injection H as <-. split; [done|by eexists].
    - unfold keep_vm, set_session_hash in H. rewrite H1 in H. destruct (pf_state p); discriminate H.
    - unfold keep_vm, set_cf_hash in H. destruct (pf_state p); try discriminate H. injection H as _ <-. by split.
    - unfold keep_vm, set_sf_hash in H. destruct (pf_state p); try discriminate H. injection H as _ <-. by split.
    - unfold prf_flush in H. destruct (pf_state p) as [|ms ke cf sf| |] eqn:E; try (injection H as _ <-; by split; [|rewrite E]).
      destruct ms as [f|]; [|by destruct H2]. apply obind_Ok in H as ([m1 f1] & Hf & H). apply obind_Ok in H as ([m2 f2] & _ & H). apply obind_Ok in H as ([m3 f3] & _ & H).
      apply obind_Ok in H as ([m4 f4] & _ & H). injection H as _ <-. split; [done|]. cbn. destruct (_ && _); [done|].
      apply obind_Ok in Hf as ([m5 f5] & _ & Hf). injection Hf as _ <-. by eexists.
    - by injection H as _ <-.
  Qed.
  Lemma run_shape cs m p m' p' : prf_shape p -> prf_run compress cs m p = Ok (m', p') -> prf_shape p'.
  Proof.
    revert m p. induction cs as [|c cs IH]; intros m p Hp H; [by injection H as _ <-|]. cbn [prf_run] in H. apply obind_Ok in H as ([m1 p1] & H1 & H).
    eapply IH; [|exact H]. eapply call_shape; [exact Hp|exact H1].
  Qed.
  Lemma server_random_calm p r : prf_shape p -> pf_random p <> None -> set_server_random p r <> Panic.
  Proof.
    intros [H1 H2] Hr. unfold set_server_random. destruct (pf_state p) as [|ms ke cf sf| |]; try done. destruct (pf_random p); [|done]. cbn [or_panic obind].
    rewrite H1. destruct H2 as [f ->]. done.
  Qed.
  Context (Hcompress : forall s b, length (compress s b) = 8).
  Lemma flush_all_calm net n cs m p out m' p' : prf_setup iv compress net MsStandard = Ok (m, p, out) -> prf_run compress cs m p = Ok (m', p') ->
    exists o, flush_all compress n m' p' = Ok o.
  Proof.
    intros Hs. revert cs m' p'. induction n as [|n IH]; intros cs m' p' Hr; cbn [flush_all]; destruct (prf_wants_flush p'); try (by eexists).
    destruct (C49_flush_lemma iv compress Hcompress net MsStandard cs m p out m' p' Hs Hr) as (m2 & p2 & H). rewrite H. cbn [obind].
    apply (IH (cs ++ [CPrfFlush; CExecute])). rewrite prf_run_app, Hr. cbn [obind prf_run prf_call_step]. rewrite H. done.
  Qed.
End Shape.

(** ** Steps *)
Section Robust.
  Context (iv : list N) (compress : list N -> list N -> list N).
  Context (aes : list N -> list N -> list N) (ghash_fn : list N -> list N -> list N) (blind : N -> nat -> N) (pad_rng : nat -> N).
  Context (sha256 : list N -> list N) (parse_body : protocol_version -> N -> list N -> option hs_payload) (ec_curve : list N -> option N).
  Context (parse_key : list N -> bool) (exchange : list N -> option (list N)) (finalize : list N -> bool) (rounds : nat).
  Notation step := (fo_step compress aes ghash_fn false blind pad_rng parse_key exchange finalize rounds).
  Notation steps := (fo_steps compress aes ghash_fn false blind pad_rng parse_key exchange finalize rounds).
  Notation exec := (rl_exec aes ghash_fn false blind pad_rng).
  Context (Hcompress : forall s b, length (compress s b) = 8) (Hex : forall k x, exchange k = Some x -> length x = 32) (Hrounds : 11 <= rounds).
  Context (c : fo_config) (m0 : vm) (p0 : prf) (out : prf_output) (Hs : prf_setup iv compress (fc_net c) MsStandard = Ok (m0, p0, out)).

  (** Neither a panic nor an endless loop. *)
  Definition fine {A} (o : outcome fo_error A) : Prop := o <> Panic /\ o <> Err FHang.
  Lemma fine_bind {A B} (o : outcome fo_error A) (k : A -> outcome fo_error B) : fine o -> (forall a, o = Ok a -> fine (k a)) -> fine (let! x := o in k x).
  Proof. intros [H1 H2] Hk. destruct o as [a|e|]; cbn [obind]; [by apply Hk|split; [done|intros [= ->]; done]|done]. Qed.
  Lemma fine_Ok {A} (a : A) : fine (Ok a).
  Proof. by split. Qed.
  Lemma exec_fine cl s : rl_role (fo_rl s) = Follower -> fine (exec out cl s).
  Proof.
    intros Hr. unfold rl_exec. match goal with |- context [rl_step ?a1 ?a2 ?a3 ?a4 ?a5 ?a6 ?a7 ?a8 ?a9 ?b1 ?b2] =>
      pose proof (step_calm a1 a2 a4 a5 a6 a7 a8 a9 b1 b2 Hr) as H; destruct (rl_step a1 a2 a3 a4 a5 a6 a7 a8 a9 b1 b2) as [r [x|e|]] end; by split.
  Qed.
  Lemma exec_role cl s x s' : exec out cl s = Ok (x, s') -> rl_role (fo_rl s') = rl_role (fo_rl s).
  Proof.
    intros H. apply exec_Ok in H as (r & H & ->). cbn. match type of H with rl_step ?a1 ?a2 ?a3 ?a4 ?a5 ?a6 ?a7 ?a8 ?a9 ?b1 ?b2 = _ =>
      pose proof (step_steady a1 a2 a3 a4 a5 a6 a7 a8 a9 b1 b2) as Hst end. by rewrite H in Hst.
  Qed.
  Lemma step_role now x s s' : step out now x s = Ok s' -> rl_role (fo_rl s') = rl_role (fo_rl s).
  Proof.
    intros H. destruct x; cbn [fo_step] in H; try (apply obind_Ok in H as ([y s1] & H & H2); injection H2 as <-; by apply exec_role in H).
    - destruct (bool_decide _); [discriminate H|]. by injection H as <-.
    - apply on_hello_Ok in H as (_ & _ & _ & p & pms & m & m2 & p2 & r & x & _ & _ & _ & _ & H & ->). cbn.
      match type of H with rl_step ?a1 ?a2 ?a3 ?a4 ?a5 ?a6 ?a7 ?a8 ?a9 ?b1 ?b2 = _ => pose proof (step_steady a1 a2 a3 a4 a5 a6 a7 a8 a9 b1 b2) as Hst end. by rewrite H in Hst.
    - apply on_cf_Ok in H as (_ & p & m2 & p2 & vd & _ & _ & _ & ->). done.
    - apply on_sf_Ok in H as (_ & p & m2 & p2 & vd & _ & _ & _ & ->). done.
    - by injection H as <-.
  Qed.
  Lemma steps_role pre s0 s : steps out pre s0 = Ok s -> rl_role (fo_rl s) = rl_role (fo_rl s0).
  Proof.
    revert s. induction pre as [|[now x] pre IH] using rev_ind; intros s H; [by injection H as <-|].
    rewrite fo_steps_snoc in H. apply obind_Ok in H as (s1 & H1 & H). apply step_role in H. rewrite H. by apply IH.
  Qed.

  (** The machine completes the key derivation once secret and randoms are there. *)
  Lemma flush_fine v cs s : length (tv_secret v) = 32 -> prf_run compress cs m0 p0 = Ok (fo_vm s, fo_prf s) -> Forall (call_agrees v) cs ->
    (exists x, CSecret x ∈ cs) -> (exists r, CServerRandom r ∈ cs) -> fine (flush_prf compress rounds s).
  Proof.
    intros Hl Hr Hag H1 H2. destruct (C49_complete_lemma iv compress Hcompress (fc_net c) MsStandard v cs m0 p0 out _ _ Hl Hs Hag Hr H1 H2) as (m2 & p2 & d & Hf & _).
    unfold flush_prf. rewrite (FollowerLemmas.flush_all_mono compress 11 rounds _ _ _ Hrounds Hf). cbn. apply fine_Ok.
  Qed.

  (** The values of the messages, when each kind of message comes at most once. *)
  Lemma agrees_of_lists pre : length (client_randoms pre) <= 1 -> length (hellos pre) <= 1 -> Forall (fun x => is_Some (exchange (sp_key (snd x)))) (hellos pre) ->
    length (cf_hashes pre) <= 1 -> length (sf_hashes pre) <= 1 -> Forall (fun x => msg_agrees exchange (values_of exchange pre) (snd x)) pre.
  Proof.
    intros H1 H2 H2' H3 H4. apply Forall_forall. intros [now x] Hx. cbn [snd]. destruct x as [r|h|hash|hash| | | | |]; cbn [msg_agrees]; try done.
    - assert (r ∈ client_randoms pre) as Hr by (apply elem_of_list_omap; by exists (now, MClientRandom r)).
      unfold values_of. cbn [tv_client_random]. destruct (client_randoms pre) as [|a [|]]; cbn in H1; [by apply elem_of_nil in Hr|by apply elem_of_list_singleton in Hr|lia].
    - assert ((now, h) ∈ hellos pre) as Hr by (apply elem_of_list_omap; by exists (now, MServerHello h)).
      unfold values_of. cbn [tv_server_random tv_secret]. destruct (hellos pre) as [|[n a] [|]]; cbn in H2; [by apply elem_of_nil in Hr| |lia].
      apply elem_of_list_singleton in Hr as [= <- <-]. split; [done|]. apply Forall_cons in H2' as [[y Hy] _]. cbn in Hy. by rewrite Hy.
    - assert (hash ∈ cf_hashes pre) as Hr by (apply elem_of_list_omap; by exists (now, MCfVd hash)).
      unfold values_of. cbn [tv_cf_hash]. destruct (cf_hashes pre) as [|a [|]]; cbn in H3; [by apply elem_of_nil in Hr|by apply elem_of_list_singleton in Hr|lia].
    - assert (hash ∈ sf_hashes pre) as Hr by (apply elem_of_list_omap; by exists (now, MSfVd hash)).
      unfold values_of. cbn [tv_sf_hash]. destruct (sf_hashes pre) as [|a [|]]; cbn in H4; [by apply elem_of_nil in Hr|by apply elem_of_list_singleton in Hr|lia].
  Qed.
  Lemma counted_lists pre s : counted exchange pre s -> length (client_randoms pre) <= 1 /\ length (hellos pre) <= 1 /\
    Forall (fun x => is_Some (exchange (sp_key (snd x)))) (hellos pre) /\ length (cf_hashes pre) <= 1 /\ length (sf_hashes pre) <= 1.
  Proof.
    intros (_ & H1 & H2 & H3 & H4). rewrite H1. split; [destruct (fo_random s); cbn; lia|]. destruct (fo_hello s) as [h|].
    - destruct H2 as (now & pms & -> & _ & _ & He & _). split; [cbn; lia|]. split; [repeat constructor; cbn; by eexists|].
      destruct (fo_cf s); [destruct H3 as [? ->]|rewrite H3]; (destruct (fo_sf s); [destruct H4 as [? ->]|rewrite H4]); cbn; lia.
    - rewrite H2. split; [cbn; lia|]. split; [constructor|].
      destruct (fo_cf s); [destruct H3 as [? ->]|rewrite H3]; (destruct (fo_sf s); [destruct H4 as [? ->]|rewrite H4]); cbn; lia.
  Qed.

  Context (r0 : rl) (x0 : rl_result) (Hr0 : forall ek ei dk di, rl_step aes ghash_fn false ek ei dk di blind pad_rng
    (CAlloc (fc_sent_records c) (fc_recv_records c) (fc_sent c) (fc_recv_online c) (fc_recv c)) (rl_new Follower) = (r0, Ok x0)).
  Notation start := (Fo m0 p0 r0 None None None None).
  Lemma start_role : rl_role r0 = Follower.
  Proof.
    pose proof (step_steady aes ghash_fn false [] [] [] [] blind pad_rng
      (CAlloc (fc_sent_records c) (fc_recv_records c) (fc_sent c) (fc_recv_online c) (fc_recv c)) (rl_new Follower)) as H.
    rewrite (Hr0 [] [] [] []) in H. exact H.
  Qed.
  (** The key derivation's calls so far agree with any values that the messages agree with. *)
  Lemma prf_calls v pre s : length (tv_secret v) = 32 -> Forall (fun x => msg_agrees exchange v (snd x)) pre -> steps out pre start = Ok s ->
    exists cs, prf_run compress cs m0 p0 = Ok (fo_vm s, fo_prf s) /\ Forall (call_agrees v) cs /\
      match fo_hello s with Some h => CServerRandom (sp_random h) ∈ cs /\ CSecret (tv_secret v) ∈ cs | None => True end.
  Proof.
    intros Hl Hag H. destruct (derived_exist iv compress Hcompress v Hl) as [d Hd].
    destruct (kept_steps iv compress aes ghash_fn false blind pad_rng parse_key exchange finalize rounds Hcompress Follower c m0 p0 out
      (CAlloc (fc_sent_records c) (fc_recv_records c) (fc_sent c) (fc_recv_online c) (fc_recv c)) v d pre start s Hs Hl Hd) as [(cs & H1 & H2 & H3) _];
      [eapply kept_start; [exact Hs|exact Hr0]|exact Hag|exact H|].
    exists cs. split; [done|]. split; [done|]. by destruct (fo_hello s).
  Qed.

  Lemma step_fine pre s now x : steps out pre start = Ok s -> in_order_of_handshake (pre ++ [(now, x)]) -> fine (step out now x s).
  Proof.
    intros Hpre Hord. specialize (Hord pre now x [] eq_refl).
    pose proof (counted_steps _ _ _ _ _ _ _ _ _ _ _ _ _ _ (counted_start iv compress exchange _ _ r0 _ _ Hs) Hpre) as Hc.
    assert (rl_role (fo_rl s) = Follower) as Hrole by (apply steps_role in Hpre; rewrite Hpre; apply start_role).
    pose proof (counted_lists _ _ Hc) as (L1 & L2 & L2' & L3 & L4). pose proof Hc as (C0 & C1 & C2 & C3 & C4).
    destruct x as [r|h|hash|hash|t ve n p|t ve nn ct g| |b|]; cbn [fo_step];
      try (apply fine_bind; [by apply exec_fine|intros [y s1] _; apply fine_Ok]).
    - destruct (bool_decide _); by split.
    - unfold on_hello. destruct (fo_hello s) eqn:Eh; [by split|]. cbn [bool_decide is_Some option_eq_None_dec]. rewrite bool_decide_eq_false_2 by (intros [? [=]]).
      destruct (_ <? _)%N; [by split|].
      assert (pf_random (fo_prf s) <> None) as Hrand.
      { rewrite C0. intros E. rewrite E in C1. by apply Hord. }
      destruct (exchange (sp_key h)) as [pms|] eqn:Ex.
      + set (v := values_of exchange (pre ++ [(now, MServerHello h)])).
        assert (Forall (fun x => msg_agrees exchange v (snd x)) (pre ++ [(now, MServerHello h)])) as Hag.
        { apply agrees_of_lists; rewrite ?client_randoms_app, ?hellos_app, ?cf_hashes_app, ?sf_hashes_app, ?C2; cbn; rewrite ?app_nil_r; try done; try lia.
          repeat constructor. cbn. by eexists. }
        assert (tv_secret v = pms) as Hsec by (unfold v, values_of; rewrite hellos_app, C2; cbn; by rewrite Ex).
        assert (length (tv_secret v) = 32) as Hl by (rewrite Hsec; by eapply Hex).
        apply Forall_app in Hag as [Hag Hx]. apply Forall_singleton in Hx as [Hx1 Hx2]. destruct (prf_calls v pre s Hl Hag Hpre) as (cs & Hcs & Hcag & _).
        assert (prf_shape (fo_prf s)) as Hsh by (eapply run_shape; [eapply setup_shape; exact Hs|exact Hcs]).
        unfold with_prf. pose proof (server_random_calm (fo_prf s) (sp_random h) Hsh Hrand) as Hnp.
        destruct (set_server_random (fo_prf s) (sp_random h)) as [p|e|] eqn:Esr; cbn [map_err obind]; [|by split|done].
        destruct (negb _); [by split|]. destruct (negb _); [by split|]. cbn [opt_err obind].
        destruct (vm_assign (fo_vm s) 0 pms) as [m|e|] eqn:Ea; cbn [set_prf fo_vm] in *; rewrite ?Ea; cbn [map_err obind];
          [|by split|unfold vm_assign in Ea; repeat case_match; discriminate Ea].
        apply fine_bind.
        * eapply (flush_fine v (cs ++ [CServerRandom (sp_random h); CSecret pms])); [exact Hl| | | |].
          -- rewrite prf_run_app, Hcs. cbn [obind prf_run prf_call_step]. unfold keep_vm. rewrite Esr. cbn [obind]. rewrite Ea. done.
          -- apply Forall_app. split; [done|]. repeat constructor; [exact Hx1|by cbn].
          -- exists pms. rewrite elem_of_app, !elem_of_cons. auto.
          -- exists (sp_random h). rewrite elem_of_app, !elem_of_cons. auto.
        * intros s1 Hf. destruct (negb _); [by split|]. apply fine_bind; [|intros [y s2] _; apply fine_Ok].
          apply exec_fine. apply flush_Ok in Hf as (m2 & p2 & _ & ->). exact Hrole.
      + unfold with_prf.
        assert (exists v, length (tv_secret v) = 32 /\ Forall (fun x => msg_agrees exchange v (snd x)) pre) as (v & Hl & Hag).
        { pose proof (agrees_of_lists pre L1 L2 L2' L3 L4) as Hag.
          exists (TlsValues (replicate 32 0%N) (tv_client_random (values_of exchange pre)) (tv_server_random (values_of exchange pre)) [] (tv_cf_hash (values_of exchange pre)) (tv_sf_hash (values_of exchange pre))).
          split; [apply replicate_length|]. apply Forall_forall. intros [n y] Hy. rewrite Forall_forall in Hag. specialize (Hag _ Hy). cbn [snd] in *.
          destruct y as [|h'| | | | | | |]; try done. assert ((n, h') ∈ hellos pre) as Hin by (apply elem_of_list_omap; by exists (n, MServerHello h')).
          rewrite C2 in Hin. by apply elem_of_nil in Hin. }
        destruct (prf_calls v pre s Hl Hag Hpre) as (cs & Hcs & Hcag & _).
        assert (prf_shape (fo_prf s)) as Hsh by (eapply run_shape; [eapply setup_shape; exact Hs|exact Hcs]).
        pose proof (server_random_calm (fo_prf s) (sp_random h) Hsh Hrand) as Hnp.
        destruct (set_server_random (fo_prf s) (sp_random h)) as [p|e|] eqn:Esr; cbn [map_err obind]; [|by split|done].
        destruct (negb _); [by split|]. destruct (negb _); by split.
    - unfold on_cf. destruct (fo_cf s) eqn:Ecf; [by split|]. rewrite bool_decide_eq_false_2 by (intros [? [=]]).
      destruct (fo_hello s) as [h|] eqn:Eh; [|by destruct Hord]. destruct C2 as (nw & pms & C2 & _ & _ & Ex & _).
      set (v := values_of exchange (pre ++ [(now, MCfVd hash)])).
      assert (Forall (fun x => msg_agrees exchange v (snd x)) (pre ++ [(now, MCfVd hash)])) as Hag.
      { apply agrees_of_lists; rewrite ?client_randoms_app, ?hellos_app, ?cf_hashes_app, ?sf_hashes_app, ?C3; cbn; rewrite ?app_nil_r; try done; lia. }
      assert (tv_secret v = pms) as Hsec by (unfold v, values_of; rewrite hellos_app, C2; cbn; by rewrite Ex).
      assert (length (tv_secret v) = 32) as Hl by (rewrite Hsec; by eapply Hex).
      apply Forall_app in Hag as [Hag Hx]. apply Forall_cons in Hx as [Hx _]. cbn [snd msg_agrees] in Hx. destruct (prf_calls v pre s Hl Hag Hpre) as (cs & Hcs & Hcag & Hin).
      rewrite Eh in Hin. destruct Hin as [Hin1 Hin2].
      unfold with_prf. destruct (set_cf_hash (fo_prf s) hash) as [p|e|] eqn:Esr; cbn [map_err obind]; [|by split|unfold set_cf_hash in Esr; destruct (pf_state _); discriminate Esr].
      apply fine_bind.
      + eapply (flush_fine v (cs ++ [CCfHash hash])); [exact Hl| | | |].
        * rewrite prf_run_app, Hcs. cbn [obind prf_run prf_call_step]. unfold keep_vm. by rewrite Esr.
        * apply Forall_app. split; [done|]. apply Forall_singleton. exact Hx.
        * eexists. rewrite elem_of_app. left. exact Hin2.
        * eexists. rewrite elem_of_app. left. exact Hin1.
      + intros s1 _. destruct (vm_decoded _ _); by split.
    - unfold on_sf. destruct (fo_sf s) eqn:Ecf; [by split|]. rewrite bool_decide_eq_false_2 by (intros [? [=]]).
      destruct (fo_hello s) as [h|] eqn:Eh; [|by destruct Hord]. destruct C2 as (nw & pms & C2 & _ & _ & Ex & _).
      set (v := values_of exchange (pre ++ [(now, MSfVd hash)])).
      assert (Forall (fun x => msg_agrees exchange v (snd x)) (pre ++ [(now, MSfVd hash)])) as Hag.
      { apply agrees_of_lists; rewrite ?client_randoms_app, ?hellos_app, ?cf_hashes_app, ?sf_hashes_app, ?C4; cbn; rewrite ?app_nil_r; try done; lia. }
      assert (tv_secret v = pms) as Hsec by (unfold v, values_of; rewrite hellos_app, C2; cbn; by rewrite Ex).
      assert (length (tv_secret v) = 32) as Hl by (rewrite Hsec; by eapply Hex).
      apply Forall_app in Hag as [Hag Hx]. apply Forall_cons in Hx as [Hx _]. cbn [snd msg_agrees] in Hx. destruct (prf_calls v pre s Hl Hag Hpre) as (cs & Hcs & Hcag & Hin).
      rewrite Eh in Hin. destruct Hin as [Hin1 Hin2].
      unfold with_prf. destruct (set_sf_hash (fo_prf s) hash) as [p|e|] eqn:Esr; cbn [map_err obind]; [|by split|unfold set_sf_hash in Esr; destruct (pf_state _); discriminate Esr].
      apply fine_bind.
      + eapply (flush_fine v (cs ++ [CSfHash hash])); [exact Hl| | | |].
        * rewrite prf_run_app, Hcs. cbn [obind prf_run prf_call_step]. unfold keep_vm. by rewrite Esr.
        * apply Forall_app. split; [done|]. apply Forall_singleton. exact Hx.
        * eexists. rewrite elem_of_app. left. exact Hin2.
        * eexists. rewrite elem_of_app. left. exact Hin1.
      + intros s1 _. destruct (vm_decoded _ _); by split.
    - apply fine_Ok.
  Qed.

  Notation loop := (fo_loop compress aes ghash_fn false blind pad_rng parse_key exchange finalize rounds).
  Notation finish := (fo_finish aes ghash_fn false blind pad_rng sha256 parse_body ec_curve).
  Lemma loop_fine pre ms s : steps out pre start = Ok s -> in_order_of_handshake (pre ++ ms) -> fine (loop out ms s).
  Proof.
    revert pre s. induction ms as [|[now x] ms IH]; intros pre s Hpre Hord; [by split|].
    assert (x = MClose \/ x <> MClose) as [->|Hx] by (destruct x; (by left) || (by right)); [by split|].
    assert (loop out ((now, x) :: ms) s = (let! s := step out now x s in loop out ms s)) as -> by (by destruct x).
    apply fine_bind.
    - eapply step_fine; [exact Hpre|]. intros a n y b E. apply (Hord a n y (b ++ ms)). rewrite app_comm_cons, app_assoc, <- E, <- app_assoc. done.
    - intros s1 H1. apply (IH (pre ++ [(now, x)])); [rewrite fo_steps_snoc, Hpre; exact H1|by rewrite <- app_assoc].
  Qed.
  Lemma encrypt_known ek ei dk di t v n cs s s' os : rl_run aes ghash_fn false ek ei dk di blind pad_rng cs s = (s', os) -> no_failure os ->
    CEncrypt t v n None ∈ cs -> t = ApplicationData.
  Proof.
    revert s os. induction cs as [|c' cs IH]; intros s os H Hos Hin; [by apply elem_of_nil in Hin|]. cbn [rl_run] in H.
    destruct (rl_step aes ghash_fn false ek ei dk di blind pad_rng c' s) as [s1 o] eqn:E.
    assert (exists y os', o = Ok y /\ rl_run aes ghash_fn false ek ei dk di blind pad_rng cs s1 = (s', os') /\ no_failure os') as (y & os' & -> & H2 & H3).
    { destruct o as [y|e|]; [|destruct (rl_run _ _ _ _ _ _ _ _ _ cs s1) as [s2 os'] eqn:E2; injection H as _ <-; apply Forall_cons in Hos as [[? ?] _]; discriminate
        |injection H as _ <-; apply Forall_cons in Hos as [[? ?] _]; discriminate].
      destruct (rl_run _ _ _ _ _ _ _ _ _ cs s1) as [s2 os'] eqn:E2. injection H as -> <-. apply Forall_cons in Hos as [_ Hos]. by exists y, os'. }
    apply elem_of_cons in Hin as [<-|Hin]; [|by eapply IH].
    cbn [rl_step] in E. unfold sbind, push_encrypt in E. destruct (max_buffer <=? _); [discriminate E|].
    destruct (uadd false (rl_sent s) n) as [tot|[]|]; [|discriminate E]. destruct (rl_max_sent s <? tot)%N; [discriminate E|]. unfold enc_op_new in E. destruct t; cbn in E; try discriminate E. done.
  Qed.
  Lemma hs_read_long v p y l : hs_read parse_body v p = Some (y, l) -> 4 <= length p.
  Proof.
    unfold hs_read. intros H. destruct p as [|a [|b [|d [|e p]]]]; try discriminate H; cbn; lia.
  Qed.
  Lemma finished_first rs rest r : rs = r :: rest -> validate_finished parse_body r = Ok tt -> (r_typ r <> ApplicationData -> r_plain r <> None) -> finished_known rs.
  Proof.
    intros -> H Hp. unfold validate_finished in H. destruct (decide (r_typ r = Handshake)) as [E|]; [|by rewrite bool_decide_eq_false_2 in H by done].
    rewrite bool_decide_eq_true_2 in H by done. cbn [negb] in H. destruct (negb _); [discriminate H|].
    destruct (r_plain r) as [p|] eqn:Ep; [|by rewrite E in Hp; destruct Hp]. destruct (hs_read _ _ p) as [[y l]|] eqn:Er; [|discriminate H].
    apply hs_read_long in Er. exists (drop 4 p), r, rest, (take 4 p). rewrite take_drop, take_length. split_and!; [done|done|lia].
  Qed.
  Lemma build_records_calm rs o f : rs <> [] -> build_records parse_body (Some rs) None o f <> Panic.
  Proof.
    intros Hne. unfold build_records. destruct rs as [|r rs]; [done|].
    assert (validate_finished parse_body r <> Panic) as H1 by (unfold validate_finished; repeat case_match; done).
    destruct (validate_finished parse_body r); cbn [obind]; [|done|done].
    assert (forall l, validate_seq l <> Panic) as H2 by (induction l as [|r1 l IH]; [done|]; destruct l as [|r2 l]; [done|]; cbn [validate_seq]; destruct (r_seq r2 <=? r_seq r1)%N; [done|exact IH]).
    specialize (H2 (r :: rs)). by destruct (validate_seq (r :: rs)).
  Qed.

  Lemma finish_fine ms pre s : aes_ok aes -> config_ok c -> Forall (fun x => msg_ok (snd x)) ms -> (N.of_nat (length ms) < 2 ^ 62)%N -> handled ms pre ->
    steps out pre start = Ok s -> encrypts pre <> [] -> decrypts pre <> [] -> fine (finish out s).
  Proof.
    intros Haes Hc Hms Hlen Hpre Hst He Hd. unfold fo_finish.
    assert (rl_role (fo_rl s) = Follower) as Hrole by (pose proof Hst as H; apply steps_role in H; rewrite H; apply start_role).
    apply fine_bind; [by apply exec_fine|]. intros [l s1] H1. apply exec_Ok in H1 as (rr & H1 & ->).
    assert (exists sent recv, l = RLogs sent recv) as (sent & recv & ->).
    { cbn [rl_step] in H1. unfold sbind in H1. destruct (rl_commit _ _ _ _ _ _) as [s2 [[a b]|e|]]; try discriminate H1. injection H1 as _ <-. by eexists _, _. }
    cbn [obind set_rl fo_hello fo_random fo_cf fo_sf].
    destruct (fo_hello s) as [h|] eqn:Eh; [|by split]. destruct (fo_random s) as [r|] eqn:Er; [|by split].
    destruct (fo_cf s) as [cf|] eqn:Ecf; [|by split]. destruct (fo_sf s) as [sf|] eqn:Esf; [|by split]. cbn [opt_err obind].
    destruct (logs_lemma iv compress aes ghash_fn false blind pad_rng sha256 parse_body ec_curve parse_key exchange finalize rounds Hcompress Follower c ms pre m0 p0 out r0 x0 s h r cf sf rr sent recv)
      as (now & hc & hs & pms & d & C1 & C2 & C3 & C4 & Cw & Cg & Ce & Hdd & -> & -> & [L1 L1'] & [L2 L2'] & ek & ei & dk & di & s' & os & Hrun & Hos); try done.
    unfold ephem_of. rewrite Cg, N.eqb_refl. cbn [or_panic obind].
    assert (sent <> []) as Hn1 by (intros ->; destruct (encrypts pre); done). assert (recv <> []) as Hn2 by (intros ->; destruct (decrypts pre); done).
    unfold tls_build. cbn [tb_time opt_err obind tb_tls_sent tb_tls_recv parse_opt tb_version tb_signature tb_certs tb_binding tb_records_sent tb_records_recv tb_app_sent tb_app_recv].
    assert (forall rs f a, build_records parse_body (Some rs) None None f = Ok a -> a = rs /\ exists r0 rest, rs = r0 :: rest /\ validate_finished parse_body r0 = Ok tt) as Hbr.
    { clear. intros rs f a H. unfold build_records in H. apply obind_Ok in H as (rs' & H1 & H). apply obind_Ok in H as (? & _ & H). injection H as <-.
      destruct rs as [|r0 rest]; [discriminate H1|]. apply obind_Ok in H1 as ([] & Hv & H1). injection H1 as <-. eauto. }
    pose proof (build_records_calm sent None MSent Hn1) as Hb1. destruct (build_records parse_body (Some sent) None None MSent) as [a|e|] eqn:E1; cbn [obind map_err]; [|by split|done].
    pose proof (build_records_calm recv None MRecv Hn2) as Hb2. destruct (build_records parse_body (Some recv) None None MRecv) as [b|e|] eqn:E2; cbn [obind map_err]; [|by split|done].
    apply Hbr in E1 as (-> & f1 & t1 & -> & V1). apply Hbr in E2 as (-> & f2 & t2 & -> & V2).
    match goal with |- context [verify_transcript ?t ?x ?y] => assert (verify_transcript t x y <> Panic) as Hv; [|destruct (verify_transcript t x y) as [[]|e|]; cbn [map_err obind]; by split] end.
    apply verify_panic; cbn [tt_sent tt_recv].
    - eapply finished_first; [done|exact V1|]. destruct (encrypts pre) as [|[[[t v] n] p] es] eqn:Ee; [done|]. destruct (L1' 0 _ eq_refl) as (r1 & [= <-] & _ & Ht & Hp & _).
      rewrite Ht, Hp. intros Hna ->. apply Hna. eapply encrypt_known; [exact Hrun|exact Hos|]. apply elem_of_cons. right.
      assert ((t, v, n, None) ∈ encrypts pre) as Hin by (rewrite Ee; apply elem_of_cons; by left).
      apply elem_of_list_omap in Hin as ([nw y] & Hy & Hm). cbn in Hm. destruct y; try discriminate Hm. injection Hm as -> -> -> ->.
      apply elem_of_list_In, in_concat. exists [CEncrypt t v n None]. split; [|by left]. apply elem_of_list_In in Hy. apply in_map_iff. eexists. split; [|exact Hy]. done.
    - eapply finished_first; [done|exact V2|]. destruct (decrypts pre) as [|[[[[t v] n] ct] g] es] eqn:Ee; [done|]. destruct (L2' 0 _ eq_refl) as (r1 & [= <-] & _ & Ht & _ & _ & _ & Hp).
      rewrite Ht. intros Hna E. rewrite E in Hp. by destruct Hp.
  Qed.
End Robust.

Section C58.
  Context (iv : list N) (compress : list N -> list N -> list N).
  Context (aes : list N -> list N -> list N) (ghash_fn : list N -> list N -> list N) (blind : N -> nat -> N) (pad_rng : nat -> N).
  Context (sha256 : list N -> list N) (parse_body : protocol_version -> N -> list N -> option hs_payload) (ec_curve : list N -> option N).
  Context (parse_key : list N -> bool) (exchange : list N -> option (list N)) (finalize : list N -> bool) (rounds : nat).
  Context (Hcompress : forall s b, length (compress s b) = 8).
  Notation run checked := (fo_run iv compress aes ghash_fn checked blind pad_rng sha256 parse_body ec_curve parse_key exchange finalize rounds).

  Lemma C58_lemma c ms : (forall k x, exchange k = Some x -> length x = 32) -> aes_ok aes -> config_ok c -> Forall (fun x => msg_ok (snd x)) ms ->
    (N.of_nat (length ms) < 2 ^ 62)%N -> 11 <= rounds -> in_order_of_handshake ms ->
    run false c ms <> Err FHang /\ (run false c ms = Panic -> exists pre, handled ms pre /\ (encrypts pre = [] \/ decrypts pre = [])).
  Proof.
    intros Hex Haes Hc Hms Hlen Hrounds Hord. unfold fo_run.
    assert (fine (fo_alloc iv compress aes ghash_fn false blind pad_rng c)) as Hal.
    { unfold fo_alloc. destruct (C49_setup_lemma iv compress (fc_net c) MsStandard) as (m & p & out & Hs). rewrite Hs. cbn [map_err obind].
      apply fine_bind; [by apply exec_fine|]. intros [y s] _. apply fine_Ok. }
    destruct (fo_alloc iv compress aes ghash_fn false blind pad_rng c) as [[out s0]|e|] eqn:Ea; cbn [obind]; [|split; [intros [= ->]; by destruct Hal|done]|by destruct Hal].
    apply alloc_Ok in Ea as (m & p & rl0 & x0 & Hs & Hr0 & ->).
    pose proof (loop_fine iv compress aes ghash_fn blind pad_rng sha256 parse_body ec_curve parse_key exchange finalize rounds Hcompress Hex Hrounds c m p out Hs rl0 x0 Hr0 [] ms _ eq_refl Hord) as Hl.
    destruct (fo_loop _ _ _ _ _ _ _ _ _ _ out ms _) as [s|e|] eqn:El; cbn [obind]; [|split; [intros [= ->]; by destruct Hl|done]|by destruct Hl].
    apply loop_Ok in El as (pre & Hpre & El).
    assert (fine (fo_finish aes ghash_fn false blind pad_rng sha256 parse_body ec_curve out s) \/ encrypts pre = [] \/ decrypts pre = []) as Hf.
    { destruct (encrypts pre) eqn:E1; [by right; left|]. destruct (decrypts pre) eqn:E2; [by right; right|]. left.
      eapply (finish_fine iv compress aes ghash_fn blind pad_rng sha256 parse_body ec_curve parse_key exchange finalize rounds); try done; congruence. }
    split.
    - intros E.
      assert (fo_finish aes ghash_fn false blind pad_rng sha256 parse_body ec_curve out s <> Err FHang) as Hn; [|done].
      clear. unfold fo_finish. intros H.
      repeat (match type of H with obind ?o _ = _ => let E := fresh in destruct o eqn:E; cbn [obind] in H; [|first [discriminate H|injection H as ->]|discriminate H] | (let '(_, _) := ?q in _) = _ => destruct q end).
      all: try discriminate H.
      all: repeat match goal with H : map_err _ ?o = Err FHang |- _ => destruct o; discriminate H | H : opt_err _ ?o = Err FHang |- _ => destruct o; discriminate H
        | H : or_panic ?o = Err FHang |- _ => destruct o; discriminate H | H : match ?l with _ => _ end = Err FHang |- _ => destruct l; discriminate H end.
      unfold rl_exec in *. destruct (rl_step _ _ _ _ _ _ _ _ _ _ _) as [? []]; discriminate.
    - intros E. exists pre. split; [done|]. destruct Hf as [Hf|Hf]; [by destruct Hf|done].
  Qed.

  (** The loop of the key derivation does not end when the client's Finished is asked for before the hello. *)
  Lemma C58_hang_lemma checked c t1 t2 r h post out s : fc_net c = NetReduced -> fo_alloc iv compress aes ghash_fn checked blind pad_rng c = Ok (out, s) ->
    run checked c ((t1, MClientRandom r) :: (t2, MCfVd h) :: post) = Err FHang.
  Proof.
    intros Hn Ha. unfold fo_run. rewrite Ha. cbn [obind]. apply alloc_Ok in Ha as (m & p & rl0 & x0 & Hs & Hr0 & ->). rewrite Hn in Hs.
    cbn [fo_loop fo_step fo_random]. rewrite bool_decide_eq_false_2 by (intros [? [=]]). cbn [obind].
    unfold on_cf. cbn [set_random set_prf fo_cf fo_prf fo_vm]. rewrite bool_decide_eq_false_2 by (intros [? [=]]).
    assert (exists p', set_cf_hash (set_client_random p r) h = Ok p') as [p' Hp'].
    { unfold set_cf_hash, set_client_random. vm_compute in Hs. injection Hs as _ <- _. cbn. by eexists. }
    unfold with_prf. cbn [set_random set_prf fo_prf fo_vm]. rewrite Hp'. cbn [map_err obind]. unfold flush_prf. cbn [set_prf fo_vm fo_prf].
    rewrite (C49_never_ends_lemma iv compress Hcompress MsStandard [CClientRandom r; CCfHash h] m p out m p' Hs); [done| | |].
    - cbn [prf_run prf_call_step]. unfold keep_vm. cbn [obind]. by rewrite Hp'.
    - intros [q Hq]. rewrite !elem_of_cons in Hq. destruct Hq as [Hq|[Hq|Hq]]; [discriminate Hq|discriminate Hq|by apply elem_of_nil in Hq].
    - left. exists h. rewrite !elem_of_cons. auto.
  Qed.
  (** A hello before the client's random ends the process. *)
  Lemma C58_hello_lemma checked c now h post out s : fo_alloc iv compress aes ghash_fn checked blind pad_rng c = Ok (out, s) -> within 5 (sp_time h) now ->
    run checked c ((now, MServerHello h) :: post) = Panic.
  Proof.
    intros Ha Hw. unfold fo_run. rewrite Ha. cbn [obind]. apply alloc_Ok in Ha as (m & p & rl0 & x0 & Hs & Hr0 & ->).
    cbn [fo_loop fo_step]. unfold on_hello. cbn [fo_hello]. rewrite bool_decide_eq_false_2 by (intros [? [=]]).
    apply abs_diff_within in Hw. rewrite Hw. unfold with_prf. cbn [fo_prf].
    assert (set_server_random p (sp_random h) = Panic) as ->; [|done].
    destruct (fc_net c); vm_compute in Hs; injection Hs as _ <- _; reflexivity.
  Qed.
End C58.
