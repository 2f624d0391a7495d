(** Which calls to the leader panic. *)
From Verif.Lib Require Import Base.
From Verif Require Import TranscriptModel ProofModel CodecModel CodecSpec AttestModel TlsModel AuthModel AuthSpec TagModel TagSpec RecordModel RecordSpec RecordFlushLemmas RecordLemmas
  PartsModel PartsSpec PartsLemmas PrfModel PrfSpec PrfMainLemmas PrfFlushLemmas HandshakeModel SigAlgModel SigAlgSpec SigAlgLemmas FollowerModel FollowerSpec FollowerLemmas FollowerRobustLemmas
  LeaderModel LeaderSpec LeaderRun LeaderLog LeaderOutSpec LeaderOut LeaderCalmSpec.

Lemma finished_head parse_body rest r : validate_finished parse_body r = Ok tt -> r_plain r <> None -> finished_known (r :: rest).
Proof.
  intros H Hp. unfold validate_finished in H. destruct (decide (r_typ r = Handshake)) as [E|]; [|by rewrite bool_decide_eq_false_2 in H by done].
  rewrite bool_decide_eq_true_2 in H by done. cbn [negb] in H. destruct (negb _); [discriminate H|].
  destruct (r_plain r) as [p|] eqn:Ep; [|done]. destruct (hs_read _ _ p) as [[y l]|] eqn:Er; [|discriminate H].
  assert (4 <= length p) by (unfold hs_read in Er; destruct p as [|a [|b [|d [|e p]]]]; try discriminate Er; cbn; lia). exists (drop 4 p), r, rest, (take 4 p). rewrite take_drop, take_length. split_and!; [done|done|lia].
Qed.

(** ** The record layer of the leader does not panic without overflow checks *)
Section Calm.
  Context (aes : list N -> list N -> list N) (ghash_fn : list N -> list N -> list N) (ek ei dk di : list N) (blind : N -> nat -> N) (pad_rng : nat -> N).
  Notation rstep := (rl_step aes ghash_fn false ek ei dk di blind pad_rng).
  Lemma flush_calm_l b s : snd (rl_flush aes ghash_fn false ek ei dk di blind b s) <> Panic.
  Proof.
    unfold rl_flush. destruct (rl_st s) as [|otp sent recv| |]; try done.
    destruct (if b then (rl_decrypt s, []) else until_app (rl_decrypt s)) as [dops rest].
    destruct (rl_encrypt s) as [|op eops], dops as [|dop dops]; [done|..].
    all: match goal with |- snd (?m ?s1) <> Panic => cut (calm m); [intros H; apply H|] end.
    all: calm_tac; first [apply encrypt_calm|apply decrypt_loop_calm|apply tags_calm|apply get_otp_calm|apply calm_lift].
    all: unfold tags_verified, tags_computed; destruct (forallb _ _); try done. all: destruct (rl_role s); try done; by destruct (bool_decide _).
  Qed.
  Lemma decrypt_local_calm_l r ops : Forall neat ops -> calm (decrypt_local aes ghash_fn false dk di r ops).
  Proof.
    induction 1 as [|op ops [H1 H2] _ IH]; cbn [decrypt_local]; calm_tac; [|apply decrypt_public_calm|exact IH].
    unfold decrypt_private_local. rewrite H1, H2. destruct r; cbn; calm_tac.
  Qed.
  Lemma step_calm_l c s : Forall neat (rl_decrypt s) -> snd (rstep c s) <> Panic.
  Proof.
    intros Hn. destruct c; cbn [rl_step].
    - unfold sbind. match goal with |- context [rl_alloc ?a ?b ?c ?d ?e ?f ?g s] => assert (snd (rl_alloc a b c d e f g s) <> Panic) as H end.
      { unfold rl_alloc. destruct (rl_st s); try done. match goal with |- snd (?m s) <> Panic => cut (calm m); [intros H; apply H|] end.
        calm_tac; apply gcm_alloc_calm. }
      destruct (rl_alloc _ _ _ _ _ _ _ s) as [s1 [u|e|]]; done.
    - match goal with |- snd (?m s) <> Panic => cut (calm m); [intros H; apply H|] end. unfold rl_setup. calm_tac; apply gcm_setup_calm.
    - done.
    - unfold sbind. assert (snd (push_encrypt false typ v len plain s) <> Panic) as H.
      { unfold push_encrypt. destruct (_ <=? _); [done|]. unfold uadd. destruct (_ <? _)%N; cbn zeta; (destruct (_ <? _)%N; [done|]);
          unfold enc_op_new; destruct plain; cbn; by destruct (negb _). }
      by destruct (push_encrypt _ _ _ _ _ s) as [s1 [u|e|]].
    - unfold sbind. assert (snd (push_decrypt false typ v nonce ct tag s) <> Panic) as H.
      { unfold push_decrypt. destruct (_ <=? _); [done|]. unfold uadd. destruct (_ <? _)%N; cbn zeta; by destruct (_ <? _)%N. }
      by destruct (push_decrypt _ _ _ _ _ _ s) as [s1 [u|e|]].
    - unfold sbind. pose proof (flush_calm_l is_decrypting s) as H. by destruct (rl_flush _ _ _ _ _ _ _ _ _ s) as [s1 [u|e|]].
    - unfold sbind, next_encrypted. destruct (rl_encrypted s); [done|]. by destruct (_ && _).
    - unfold sbind, next_decrypted. destruct (rl_decrypted s); [done|]. by destruct (_ && _).
    - unfold sbind. assert (snd (rl_commit aes ghash_fn false dk di s) <> Panic) as H.
      { unfold rl_commit. destruct (rl_st s); try done. destruct (rl_encrypt s) as [|op eops].
        - match goal with |- snd (?m s) <> Panic => cut (calm m); [intros H; apply H|] end. calm_tac. by apply decrypt_local_calm_l.
        - done. }
      by destruct (rl_commit _ _ _ _ _ s) as [s1 [u|e|]].
  Qed.

  (** ** What the leader sends, it knows *)
  Definition spoken (r : rl) : Prop :=
    Forall (fun o => is_Some (eo_plain o)) (rl_encrypt r) /\
    match rl_st r with SOnline _ sent _ => Forall (fun y => is_Some (r_plain y)) sent | _ => True end.
  Context (Haes : aes_ok aes).
  Lemma spoken_frame r r' : spoken r -> rl_encrypt r' = rl_encrypt r -> rl_st r' = rl_st r -> spoken r'.
  Proof. intros H E1 E2. unfold spoken in *. by rewrite E1, E2. Qed.
  Lemma spoken_encrypt t v p r r' o : (N.of_nat (length p) < 2 ^ 64)%N -> spoken r -> rstep (CEncrypt t v (N.of_nat (length p)) (Some p)) r = (r', o) -> spoken r'.
  Proof.
    intros Hl Hs H. cbn [rl_step] in H. assert (exists o1, push_encrypt false t v (N.of_nat (length p)) (Some p) r = (r', o1)) as (o1 & Hf).
    { unfold sbind in H. destruct (push_encrypt _ _ _ _ _ r) as [r1 [[]|e|]] eqn:E; injection H as <- <-; eauto. }
    apply push_encrypt_cases in Hf; [|done]. destruct Hf as [(_ & [->|(total & _ & ->)])|(-> & _ & total & op & _ & _ & Hwf & Hc & _ & ->)]; [done|by eapply spoken_frame|].
    unfold eop_call in Hc. injection Hc as C1 C2 C3 C4. destruct Hs as [H1 H2]. split; [|done]. cbn. apply Forall_app. split; [done|]. constructor; [|constructor]. rewrite C4. by eexists.
  Qed.
  Lemma spoken_decrypt t v nonce ct tag r r' o : rstep (CDecrypt t v nonce ct tag) r = (r', o) -> spoken r -> spoken r'.
  Proof.
    intros H Hs. cbn [rl_step] in H. unfold sbind, push_decrypt in H. destruct (_ <=? _); [by injection H as <- _|]. destruct (uadd _ _ _) as [tot|[]|]; [|by injection H as <- _].
    destruct (_ <? _)%N; [by injection H as <- _|]. by injection H as <- _.
  Qed.
  Lemma spoken_flush b ok pre mo mi r r' o : good ok pre mo mi r -> spoken r -> rstep (CFlush b) r = (r', o) -> spoken r'.
  Proof.
    intros ((Hr & He & Hd & Hn) & _ & otp & sent & recv & Hst & _) [S1 S2] H. cbn [rl_step] in H.
    assert (exists o1, rl_flush aes ghash_fn false ek ei dk di blind b r = (r', o1)) as (o1 & Hf).
    { unfold sbind in H. destruct (rl_flush _ _ _ _ _ _ _ _ b r) as [r1 [[]|e|]] eqn:E; injection H as <- <-; eauto. }
    clear H. apply (flush_cases aes ghash_fn false ek ei dk di blind Haes) in Hf; [|done..|].
    2: { intros ? ? ? E. rewrite Hst in E. injection E as <- _ _. split; [done|by eexists]. }
    destruct Hf as [(Hx & _)|(otp1 & sent1 & recv1 & dops & rest & otp' & ge & gd & online & E & Ed & Ho & Hc)]; [by apply Hx in Hst|].
    rewrite Hst in *. injection E as <- <- <-. destruct Hc as [(cts & plains & -> & Hct & Hpl & _ & ->)|(Hno & _ & ->)].
    - split; [constructor|]. cbn. apply Forall_app. split; [done|]. clear - S1 Hct. revert S1. induction Hct as [|op ct ops cts _ _ IH]; cbn; [constructor|]. intros S1.
      apply Forall_cons in S1 as [S1 S3]. constructor; [exact S1|by apply IH].
    - split; [constructor|]. cbn. rewrite ?app_nil_r. exact S2.
  Qed.
End Calm.

Section Run.
  Context (iv : list N) (compress : list N -> list N -> list N).
  Context (aes : list N -> list N -> list N) (ghash_fn : list N -> list N -> list N) (blind : N -> nat -> N) (pad_rng : nat -> N).
  Context (sha256 : list N -> list N) (parse_body : protocol_version -> N -> list N -> option hs_payload) (ec_curve : list N -> option N).
  Context (parse_key : list N -> bool) (exchange : list N -> option (list N)) (fin : list N -> bool) (rounds : nat).
  Context (cert_key : bytes -> option key_kind) (sig_valid : bytes -> webpki_alg -> bytes -> bytes -> bool).
  Context (client_key : option (list N)) (c : fo_config).
  Context (Haes : aes_ok aes) (Hcfg : config_ok c) (Hcompress : forall s b, length (compress s b) = 8).
  Notation lstep := (ld_step iv compress aes ghash_fn false blind pad_rng sha256 parse_body ec_curve parse_key exchange fin rounds cert_key sig_valid client_key c).
  Notation lrun := (ld_run iv compress aes ghash_fn false blind pad_rng sha256 parse_body ec_curve parse_key exchange fin rounds cert_key sig_valid client_key c).
  Notation lexec := (ld_exec aes ghash_fn false blind pad_rng).
  Notation vouched := (vouched cert_key sig_valid).
  Notation close := (close_transcript aes ghash_fn false blind pad_rng sha256 parse_body ec_curve cert_key sig_valid).

  Definition keyed (s : fo) : Prop := exists m0 p0 out0 cs, prf_setup iv compress (fc_net c) MsStandard = Ok (m0, p0, out0) /\ prf_run compress cs m0 p0 = Ok (fo_vm s, fo_prf s).
  Definition inv4 (pre : calls) (l : ld) : Prop :=
    match ld_st l with
    | LSetup _ s rd => keyed s /\ spoken (fo_rl s) /\ rd ∈ allocated pre
    | LReady _ s => keyed s /\ spoken (fo_rl s) /\ pf_random (fo_prf s) <> None /\ exists r, fo_random s = Some r /\ r ∈ allocated pre
    | LActive _ s hs => (keyed s \/ pf_state (fo_prf s) = PError) /\ spoken (fo_rl s) /\ (exists r, fo_random s = Some r /\ r ∈ allocated pre) /\
        (exists h now, fo_hello s = Some h /\ sp_group h = secp256r1 /\ (now, hs) ∈ prepared pre)
    | _ => True
    end.
  Lemma allocated_mono pre x r : r ∈ allocated pre -> r ∈ allocated (pre ++ [x]).
  Proof. unfold allocated. rewrite omap_app, elem_of_app. auto. Qed.
  Lemma prepared_mono pre x r : r ∈ prepared pre -> r ∈ prepared (pre ++ [x]).
  Proof. unfold prepared. rewrite omap_app, elem_of_app. auto. Qed.
  Lemma inv4_mono pre l l1 x : inv4 pre l -> ld_st l1 = ld_st l -> inv4 (pre ++ [x]) l1.
  Proof.
    intros Hi El. unfold inv4 in *. rewrite El. destruct (ld_st l); try done.
    - destruct Hi as (H1 & H2 & H3). split_and!; try done. by apply allocated_mono.
    - destruct Hi as (H1 & H2 & H3 & r & H4 & H5). split_and!; try done. exists r. split; [done|]. by apply allocated_mono.
    - destruct Hi as (H1 & H2 & (r & H3 & H4) & (h & now & H5 & H6 & H7)). split_and!; try done; [exists r; split; [done|]; by apply allocated_mono|].
      exists h, now. split_and!; try done. by apply prepared_mono.
  Qed.
  Lemma keyed_flush s : keyed s -> exists o, flush_all compress rounds (fo_vm s) (fo_prf s) = Ok o.
  Proof. intros (m0 & p0 & out0 & cs & H1 & H2). eapply flush_all_calm; [exact Hcompress|exact H1|exact H2]. Qed.
  Lemma keyed_flushed s s' : keyed s -> flush_prf compress rounds s = Ok s' -> keyed s'.
  Proof.
    intros (m0 & p0 & out0 & cs & H1 & H2) H. apply flush_Ok in H as (m & p & H & ->). apply flush_all_run in H as (cs' & H & _).
    exists m0, p0, out0, (cs ++ cs'). split; [done|]. rewrite prf_run_app, H2. exact H.
  Qed.
  Lemma keyed_call s cl m p : keyed s -> prf_call_step compress cl (fo_vm s) (fo_prf s) = Ok (m, p) -> keyed (set_prf m p s).
  Proof.
    intros (m0 & p0 & out0 & cs & H1 & H2) H. exists m0, p0, out0, (cs ++ [cl]). split; [done|]. rewrite prf_run_app, H2. cbn [obind prf_run]. rewrite H. done.
  Qed.
  Lemma keyed_rl s r : keyed s -> keyed (set_rl r s).
  Proof. done. Qed.
  Lemma keyed_shape s : keyed s -> prf_shape (fo_prf s).
  Proof. intros (m0 & p0 & out0 & cs & H1 & H2). eapply run_shape; [eapply setup_shape; exact H1|exact H2]. Qed.
  Lemma flush_no_panic s : keyed s -> flush_prf compress rounds s <> Panic.
  Proof. intros H. apply keyed_flush in H as [o H]. unfold flush_prf. rewrite H. cbn. by destruct o as [[? ?]|]. Qed.
  (** The verify data. *)
  Lemma vd_calm set (mk : list N -> prf_call) cell known hash s s1 o :
    (forall m p h, prf_call_step compress (mk h) m p = keep_vm m (set p h)) -> (forall p h, set p h <> Panic) -> (forall p h, pf_state p = PError -> exists e, set p h = Err e) ->
    keyed s \/ pf_state (fo_prf s) = PError -> vd_of compress rounds set cell known hash s = (s1, o) ->
    o <> Panic /\ (keyed s1 \/ pf_state (fo_prf s1) = PError) /\ fo_hello s1 = fo_hello s /\ fo_random s1 = fo_random s.
  Proof.
    intros Hc Hp He [Hk|Hk] H.
    - unfold vd_of, with_prf in H. specialize (Hp (fo_prf s) hash). destruct (set (fo_prf s) hash) as [p|e|] eqn:E; cbn [map_err obind] in H; [| |done].
      + assert (keyed (set_prf (fo_vm s) p s)) as Hk1 by (eapply keyed_call; [exact Hk|]; rewrite (Hc _ _ hash); unfold keep_vm; rewrite E; reflexivity).
        pose proof (flush_no_panic _ Hk1) as Hf. destruct (flush_prf compress rounds _) as [s2|e|] eqn:Ef; [| |done].
        * pose proof (keyed_flushed _ _ Hk1 Ef) as Hk2. apply flush_Ok in Ef as (m2 & p2 & _ & ->). destruct known; injection H as <- <-; [by split_and!; [|left|..]|].
          split_and!; [by destruct (vm_decoded _ _)|by left|done|done].
        * injection H as <- <-. split_and!; [done|by right|done|done].
      + injection H as <- <-. split_and!; [done|by left|done|done].
    - unfold vd_of, with_prf in H. destruct (He (fo_prf s) hash Hk) as [e E]. rewrite E in H. cbn [map_err obind] in H. injection H as <- <-. split_and!; [done|by right|done|done].
  Qed.
  (** The keys. *)
  Lemma prepare_calm out h s : keyed s -> pf_random (fo_prf s) <> None -> Forall neat (rl_decrypt (fo_rl s)) ->
    prepare_keys compress aes ghash_fn false blind pad_rng parse_key exchange fin rounds out h s <> Panic.
  Proof.
    intros Hk Hr Hn. unfold prepare_keys, with_prf. pose proof (server_random_calm (fo_prf s) (sp_random h) (keyed_shape _ Hk) Hr) as Hp.
    destruct (set_server_random (fo_prf s) (sp_random h)) as [p|e|] eqn:E; cbn [map_err obind]; [|done|done].
    assert (keyed (set_prf (fo_vm s) p s)) as Hk1 by (apply (keyed_call s (CServerRandom (sp_random h))); [exact Hk|]; cbn [prf_call_step]; unfold keep_vm; rewrite E; reflexivity).
    destruct (negb _); [done|]. destruct (exchange _) as [pms|]; cbn [opt_err obind]; [|done]. cbn [set_prf fo_vm fo_prf].
    destruct (vm_assign (fo_vm s) 0 pms) as [m|e|] eqn:Ea; cbn [map_err obind]; [|done|unfold vm_assign in Ea; repeat case_match; discriminate Ea].
    match goal with |- context [flush_prf compress rounds ?t] => assert (keyed t) as Hk2; [|pose proof (flush_no_panic _ Hk2) as Hf; destruct (flush_prf compress rounds t) as [s2|e|] eqn:Ef] end; cbn [obind]; [|..|done]; [| |done].
    { apply (keyed_call (set_prf (fo_vm s) p s) (CSecret pms)); [exact Hk1|]. cbn [prf_call_step set_prf fo_vm]. rewrite Ea. reflexivity. }
    destruct (negb _); [done|]. apply flush_Ok in Ef as (m2 & p2 & _ & ->). unfold rl_exec.
    match goal with |- context [rl_step ?a1 ?a2 ?a3 ?a4 ?a5 ?a6 ?a7 ?a8 ?a9 ?b1 ?b2] =>
      assert (snd (rl_step a1 a2 a3 a4 a5 a6 a7 a8 a9 b1 b2) <> Panic) as Hc by (apply step_calm_l; exact Hn); destruct (rl_step a1 a2 a3 a4 a5 a6 a7 a8 a9 b1 b2) as [r [x|e|]] end; done.
  Qed.
  Lemma prepare_kept out h s s1 : keyed s -> prepare_keys compress aes ghash_fn false blind pad_rng parse_key exchange fin rounds out h s = Ok s1 ->
    keyed s1 /\ fo_random s1 = fo_random s /\ fo_hello s1 = Some h.
  Proof.
    intros Hk H. unfold prepare_keys, with_prf in H. destruct (set_server_random (fo_prf s) (sp_random h)) as [p|e|] eqn:E; cbn [map_err obind] in H; [|done|done].
    assert (keyed (set_prf (fo_vm s) p s)) as Hk1 by (apply (keyed_call s (CServerRandom (sp_random h))); [exact Hk|]; cbn [prf_call_step]; unfold keep_vm; rewrite E; reflexivity).
    destruct (negb _); [done|]. destruct (exchange _) as [pms|]; cbn [opt_err obind] in H; [|done]. cbn [set_prf fo_vm fo_prf] in H.
    destruct (vm_assign (fo_vm s) 0 pms) as [m|e|] eqn:Ea; cbn [map_err obind] in H; [|done|done].
    match type of H with context [flush_prf compress rounds ?t] => assert (keyed t) as Hk2; [|destruct (flush_prf compress rounds t) as [s2|e|] eqn:Ef] end; cbn [obind] in H; [|..|done]; [| |done].
    { apply (keyed_call (set_prf (fo_vm s) p s) (CSecret pms)); [exact Hk1|]. cbn [prf_call_step set_prf fo_vm]. rewrite Ea. reflexivity. }
    pose proof (keyed_flushed _ _ Hk2 Ef) as Hk3. destruct (negb _); [done|]. apply flush_Ok in Ef as (m2 & p2 & _ & ->). apply obind_Ok in H as ([x s3] & H & H2). injection H2 as <-.
    apply exec_Ok in H as (r & _ & ->). done.
  Qed.
  (** The end. *)
  Lemma commit_sent ok pre mo mi s sx sent recv out : good ok pre mo mi (fo_rl s) -> spoken (fo_rl s) -> lexec out CCommit s = (sx, Ok (RLogs sent recv)) ->
    (exists s', sx = set_rl s' s) /\ Forall (fun y => is_Some (r_plain y)) sent /\ Forall (fun y => is_Some (r_plain y)) recv /\
    (sent = [] -> mo = [] /\ (ok -> pushed pre = [])) /\ (recv = [] -> mi = [] /\ (ok -> arrived pre = [])).
  Proof.
    intros Hg [_ Hs] H. apply exec_step in H as (ek & ei & dk & di & r & o & H & -> & Eo). destruct o as [y|e|]; try discriminate Eo. injection Eo as <-.
    pose proof (commit_good aes ghash_fn false blind pad_rng Haes _ _ _ _ _ _ _ _ _ _ _ _ Hg H) as (E1 & E2 & ([_ K1] & [_ K2]) & (s1 & s2 & Es & W1 & W2) & (q1 & q2 & Eq & W3 & W4)).
    rewrite E1 in K1. rewrite E2 in K2. cbn in K1, K2. rewrite app_nil_r in K1, K2.
    split; [by eexists|]. split_and!.
    - destruct Hg as ((Hr & He & Hd & Hn) & _ & otp & sent0 & recv0 & Hst & _). cbn [rl_step] in H. unfold sbind in H. destruct (rl_commit _ _ _ _ _ _) as [r1 [[a b]|e|]] eqn:E; cbn in H; [|discriminate H..]. injection H as _ <- <-.
      apply (commit_cases aes ghash_fn false dk di Haes) in E; [|done]. destruct E as [(otp1 & sent1 & recv1 & plains & g & E & E0 & Hpl & Eo & ->)|(Hno & _)]; [|by destruct Hno; eexists].
      rewrite Hst in *. injection E as <- <- <-. injection Eo as -> _. done.
    - rewrite Eq. apply Forall_app. split.
      + clear - W3. induction W3 as [|m y ? ? [_ H] _ IH]; constructor; [by eexists|done].
      + clear - W4. induction W4 as [|m y ? ? (_ & _ & H) _ IH]; by constructor.
    - intros ->. symmetry in Es. apply app_nil in Es as [-> ->]. apply Forall2_nil_inv_r in W1 as ->. apply Forall2_nil_inv_r in W2. rewrite W2 in K1. split; [done|]. intros Ho. specialize (K1 Ho). cbn in K1. by destruct (pushed pre).
    - intros ->. symmetry in Eq. apply app_nil in Eq as [-> ->]. apply Forall2_nil_inv_r in W3 as ->. apply Forall2_nil_inv_r in W4. rewrite W4 in K2. split; [done|]. intros Ho. specialize (K2 Ho). cbn in K2. by destruct (arrived pre).
  Qed.
  Lemma sig_panic r hs : server_sig cert_key sig_valid r hs = Panic -> ~ vouched r hs.
  Proof.
    intros H (leaf & rest & kind & a & E & H1 & H2 & H3). unfold server_sig in H. rewrite E in H. destruct (means_determine cert_key sig_valid leaf _ _ kind a H1 H2 H3) as (t & Ht & _). by rewrite Ht in H.
  Qed.
  Definition why (ok : Prop) (pre : calls) (mo mi : list message) : Prop :=
    (exists r now hs, r ∈ allocated pre /\ (now, hs) ∈ prepared pre /\ ~ vouched r hs) \/
    ((mo = [] \/ mi = []) /\ (ok -> pushed pre = [] \/ arrived pre = [])).
  Lemma close_panic ok pre mo mi out s hs l : ld_st l = LActive out s hs -> good ok pre mo mi (fo_rl s) -> inv4 pre l -> close out s hs = Panic -> why ok pre mo mi.
  Proof.
    intros El Hg Hi H. unfold inv4 in Hi. rewrite El in Hi. destruct Hi as (_ & Hs & (rd & Hr & Hra) & (h & now & Hh & Hgr & Hp)). unfold close_transcript in H.
    destruct (ld_exec _ _ _ _ _ _ _ _) as [s1 o] eqn:E. assert (o <> Panic) as Ho.
    { apply exec_step in E as (ek & ei & dk & di & r & o' & E & -> & ->). destruct Hg as ((_ & _ & _ & Hn) & _). pose proof (step_calm_l aes ghash_fn ek ei dk di blind pad_rng CCommit _ Hn) as Hc. rewrite E in Hc. by destruct o'. }
    destruct o as [y|e|]; [|discriminate H|done]. cbn [obind] in H. assert (exists sent recv, y = RLogs sent recv) as (sent & recv & ->).
    { apply exec_step in E as (ek & ei & dk & di & r & o' & E & -> & Eo). destruct o' as [z|e|]; try discriminate Eo. injection Eo as <-. cbn [rl_step] in E. unfold sbind in E. destruct (rl_commit _ _ _ _ _ _) as [r1 [[a b]|e|]]; try discriminate E. injection E as _ <-. eauto. }
    cbn [obind] in H. destruct (commit_sent _ _ _ _ _ _ _ _ _ Hg Hs E) as ([r' ->] & F1 & F2 & N1 & N2). cbn [set_rl fo_cf fo_sf fo_random fo_hello fo_rl] in H.
    destruct (fo_cf s) as [cf|]; [|discriminate H]. destruct (fo_sf s) as [sf|]; [|discriminate H]. rewrite Hr, Hh in H. cbn [opt_err or_panic obind] in H.
    destruct (server_sig cert_key sig_valid rd hs) as [sg|e|] eqn:Esg; cbn [lift_panic obind] in H.
    2: { destruct e. }
    2: { left. exists rd, now, hs. split_and!; try done. by apply sig_panic. }
    unfold ephem_of in H. rewrite Hgr, N.eqb_refl in H. cbn [or_panic obind] in H.
    destruct (decide (sent = [])) as [En|Hn1]; [right; destruct (N1 En); split; auto|]. destruct (decide (recv = [])) as [En|Hn2]; [right; destruct (N2 En); split; auto|]. exfalso.
    unfold tls_build in H. cbn [tb_time opt_err obind tb_tls_sent tb_tls_recv parse_opt tb_version tb_signature tb_certs tb_binding tb_records_sent tb_records_recv tb_app_sent tb_app_recv] in H.
    assert (forall rs f a, build_records parse_body (Some rs) None None f = Ok a -> a = rs /\ exists r0 rest, rs = r0 :: rest /\ validate_finished parse_body r0 = Ok tt) as Hbr.
    { clear. intros rs f a H. unfold build_records in H. apply obind_Ok in H as (rs' & H1 & H). apply obind_Ok in H as (? & _ & H). injection H as <-.
      destruct rs as [|r0 rest]; [discriminate H1|]. apply obind_Ok in H1 as ([] & Hv & H1). injection H1 as <-. eauto. }
    pose proof (build_records_calm parse_body sent None MSent Hn1) as Hb1. destruct (build_records parse_body (Some sent) None None MSent) as [a|e|] eqn:E1; cbn [obind map_err] in H; [|discriminate H|done].
    pose proof (build_records_calm parse_body recv None MRecv Hn2) as Hb2. destruct (build_records parse_body (Some recv) None None MRecv) as [b|e|] eqn:E2; cbn [obind map_err] in H; [|discriminate H|done].
    apply Hbr in E1 as (-> & f1 & t1 & -> & V1). apply Hbr in E2 as (-> & f2 & t2 & -> & V2). apply Forall_cons in F1 as [[p1 F1] _]. apply Forall_cons in F2 as [[p2 F2] _].
    match type of H with context [verify_transcript ?t ?x ?y] => assert (verify_transcript t x y <> Panic) as Hv; [|destruct (verify_transcript t x y) as [[]|e|]; cbn [map_err obind] in H; done] end.
    apply verify_panic; cbn [tt_sent tt_recv]; (eapply finished_head; [eassumption|congruence]).
  Qed.

  Lemma step4 now io x ok pre mo mi ts l l1 ms o : small x -> inv3 ok pre mo mi ts l -> inv4 pre l -> lstep now io x l = (l1, ms, o) ->
    inv4 (pre ++ [(now, io, x)]) l1 /\ (o = Panic -> x = LCloseConn /\ why ok pre mo mi).
  Proof.
    intros Hx H3 Hi H.
    assert (ld_st l1 = ld_st l -> o <> Panic -> inv4 (pre ++ [(now, io, x)]) l1 /\ (o = Panic -> x = LCloseConn /\ why ok pre mo mi)) as Hsame.
    { intros El Ho. split; [by eapply inv4_mono|done]. }
    assert (ld_st l1 = LError -> o <> Panic -> inv4 (pre ++ [(now, io, x)]) l1 /\ (o = Panic -> x = LCloseConn /\ why ok pre mo mi)) as Hfail.
    { intros El Ho. split; [unfold inv4; by rewrite El|done]. }
    assert (forall out s hs s1, ld_st l = LActive out s hs -> ld_st l1 = LActive out s1 hs -> o <> Panic -> (keyed s1 \/ pf_state (fo_prf s1) = PError) -> spoken (fo_rl s1) ->
      fo_random s1 = fo_random s -> fo_hello s1 = fo_hello s -> inv4 (pre ++ [(now, io, x)]) l1 /\ (o = Panic -> x = LCloseConn /\ why ok pre mo mi)) as Hact.
    { intros out s hs s1 El El1 Ho K1 K2 K3 K4. split; [|done]. unfold inv4 in Hi |- *. rewrite El in Hi. rewrite El1, K3, K4. destruct Hi as (J1 & J2 & (r & J3 & J4) & (h & nw & J5 & J6 & J7)). split_and!; try done.
      - exists r. split; [done|]. by apply allocated_mono.
      - exists h, nw. split_and!; try done. by apply prepared_mono. }
    assert (forall out s cl sx ox, lexec out cl s = (sx, ox) -> Forall neat (rl_decrypt (fo_rl s)) -> ox <> Panic) as Hex.
    { intros out s cl sx ox E Hn. apply exec_step in E as (ek & ei & dk & di & r & o' & E & -> & ->). pose proof (step_calm_l aes ghash_fn ek ei dk di blind pad_rng cl _ Hn) as Hc. rewrite E in Hc. by destruct o'. }
    assert (forall out s hs sx ox m, then_send io out hs (sx, ox) m l = (l1, ms, o) -> ox <> Panic -> ld_st l = LActive out s hs -> (exists r, sx = set_rl r s /\ (spoken (fo_rl s) -> spoken r)) ->
      inv4 (pre ++ [(now, io, x)]) l1 /\ (o = Panic -> x = LCloseConn /\ why ok pre mo mi)) as Hsend.
    { intros out s hs sx ox m E Ho El (r & -> & Hr). pose proof Hi as Hi'. unfold inv4 in Hi'. rewrite El in Hi'. destruct Hi' as (J1 & J2 & _).
      unfold then_send in E. destruct ox as [y|e|]; [destruct io|..]; injection E as <- <- <-; try done; (eapply Hact; [exact El|reflexivity|done|exact J1|by apply Hr|done|done]). }
    destruct x as [rd| | | |hs|h|h|m| |m| | | | | |b|]; cbn [ld_step] in H.
    - unfold ld_alloc in H. destruct (ld_st l) eqn:El; try (injection H as <- <- <-; by apply Hfail).
      destruct (C49_setup_lemma iv compress (fc_net c) MsStandard) as (m & p & out & Hs). rewrite Hs in H. cbn [map_err] in H.
      destruct (ld_exec _ _ _ _ _ _ _ _) as [s1 ox] eqn:E. pose proof (Hex _ _ _ _ _ E (Forall_nil_2 _)) as Ho. destruct ox as [y|e|]; [| |done]; injection H as <- <- <-; [|by apply Hfail].
      split; [|done]. unfold inv4. cbn [goto ld_st]. apply exec_step in E as (ek & ei & dk & di & r & o' & E & -> & Eo). destruct o' as [z|e|]; try discriminate Eo. split_and!.
      + exists m, p, out, []. done.
      + cbn [rl_step] in E. unfold sbind in E. destruct (rl_alloc _ _ _ _ _ _ _ _) as [r1 [[]|e|]] eqn:Ea; try discriminate E. injection E as <- _.
        eapply (alloc_cases aes ghash_fn false [] blind pad_rng Haes) in Ea; [|exact Hcfg]. destruct Ea as [(Hno & _)|(_ & _ & ge & gd & otp & x & y' & z' & -> & _)]; [by destruct Hno; eexists|].
        split; constructor.
      + unfold allocated. rewrite omap_app, elem_of_app. right. by apply elem_of_list_singleton.
    - unfold ld_preprocess in H. destruct (ld_st l) eqn:El; try (injection H as <- <- <-; by apply Hfail).
      destruct io; injection H as <- <- <-; [|by apply Hfail]. split; [|done]. unfold inv4 in Hi |- *. rewrite El in Hi. cbn [goto ld_st]. destruct Hi as (J1 & J2 & J3). split_and!; try done.
      + apply (keyed_call s (CClientRandom random)); [exact J1|reflexivity].
      + exists random. split; [done|]. by apply allocated_mono.
    - unfold ld_random in H. destruct (ld_st l) eqn:El; try (injection H as <- <- <-; by apply Hsame). destruct (fo_random s); injection H as <- <- <-; by apply Hsame.
    - unfold ld_key_share in H. destruct (ld_st l) eqn:El; try (injection H as <- <- <-; by apply Hsame). destruct client_key; injection H as <- <- <-; by apply Hsame.
    - unfold ld_prepare in H. destruct (ld_st l) eqn:El; try (injection H as <- <- <-; by apply Hfail).
      destruct (negb (hs_group hs =? secp256r1)%N) eqn:Eg; [injection H as <- <- <-; by apply Hfail|]. destruct (negb io); [injection H as <- <- <-; by apply Hfail|].
      unfold inv4 in Hi. rewrite El in Hi. destruct Hi as (J1 & J2 & J3 & rd & J4 & J5). unfold inv3 in H3. rewrite El in H3. destruct H3 as (_ & (_ & _ & _ & Hn) & _).
      destruct (prepare_keys _ _ _ _ _ _ _ _ _ _ _ _ _) as [s1|e|] eqn:E; injection H as <- <- <-; [|by apply Hfail|by apply prepare_calm in E].
      split; [|done]. unfold inv4. cbn [goto ld_st]. destruct (prepare_kept _ _ _ _ J1 E) as (P1 & P2 & P3). apply (prepare_rl _ _ _ _ _ _ _ _ _ _ Haes) in E as (ge & gd & E). rewrite P2, P3. split_and!.
      + by left.
      + eapply spoken_frame; [exact J2|by rewrite E..].
      + exists rd. split; [done|]. by apply allocated_mono.
      + eexists _, now. split; [reflexivity|]. split; [cbn; apply negb_false_iff, N.eqb_eq in Eg; exact Eg|]. unfold prepared. rewrite omap_app, elem_of_app. right. by apply elem_of_list_singleton.
    - unfold ld_cf in H. destruct (ld_st l) eqn:El; try (injection H as <- <- <-; by apply Hsame).
      destruct (negb _); [injection H as <- <- <-; by apply Hsame|]. destruct (negb io); [injection H as <- <- <-; by apply Hsame|].
      destruct (vd_of _ _ _ _ _ _ _) as [s1 ov] eqn:E. pose proof (vd_rl _ _ _ _ _ _ _ _ _ E) as Er. pose proof Hi as Hi'. unfold inv4 in Hi'. rewrite El in Hi'. destruct Hi' as (J1 & J2 & _).
      eapply (vd_calm _ CCfHash) in E; [|done|by intros p' h'; unfold set_cf_hash; destruct (pf_state p')|by intros p' h' Ep; unfold set_cf_hash; rewrite Ep; eexists|done]. destruct E as (V1 & V2 & V3 & V4).
      destruct ov as [vd|e|]; [| |done]; injection H as <- <- <-; (eapply Hact; [reflexivity|reflexivity|done|exact V2| |exact V4|exact V3]); cbn; by rewrite Er.
    - unfold ld_sf in H. destruct (ld_st l) eqn:El; try (injection H as <- <- <-; by apply Hsame).
      destruct (negb _); [injection H as <- <- <-; by apply Hsame|]. destruct (negb io); [injection H as <- <- <-; by apply Hsame|].
      destruct (vd_of _ _ _ _ _ _ _) as [s1 ov] eqn:E. pose proof (vd_rl _ _ _ _ _ _ _ _ _ E) as Er. pose proof Hi as Hi'. unfold inv4 in Hi'. rewrite El in Hi'. destruct Hi' as (J1 & J2 & _).
      eapply (vd_calm _ CSfHash) in E; [|done|by intros p' h'; unfold set_sf_hash; destruct (pf_state p')|by intros p' h' Ep; unfold set_sf_hash; rewrite Ep; eexists|done]. destruct E as (V1 & V2 & V3 & V4).
      destruct ov as [vd|e|]; [| |done]; injection H as <- <- <-; (eapply Hact; [reflexivity|reflexivity|done|exact V2| |exact V4|exact V3]); cbn; by rewrite Er.
    - unfold ld_push_in in H. destruct (ld_st l) eqn:El; try (injection H as <- <- <-; by apply Hsame).
      destruct (opaque_into_parts _) as [[[nonce ct] tag]|e|] eqn:Ep; [|injection H as <- <- <-; by apply Hsame|destruct (parts_total (m_payload m)) as [Ep'|(? & ? & ? & Ep')]; congruence].
      destruct (ld_exec _ _ _ _ _ _ _ _) as [s1 ox] eqn:E. unfold inv3 in H3. rewrite El in H3. destruct H3 as (_ & (_ & _ & _ & Hn) & _). eapply Hsend; [exact H|by eapply Hex|reflexivity|].
      apply exec_step in E as (ek & ei & dk & di & r & o' & E & -> & Eo). exists r. split; [done|]. by eapply spoken_decrypt.
    - unfold ld_next_in in H. cbn zeta in H. destruct (step3 iv compress aes ghash_fn false blind pad_rng sha256 parse_body ec_curve parse_key exchange fin rounds cert_key sig_valid client_key c Haes Hcfg now io LNextIn ok pre mo mi ts l l1 ms o I H3) as [_ Hp]; [exact H|]. specialize (Hp (or_introl eq_refl)).
      destruct (ld_st l) eqn:El; try (injection H as <- <- <-; by apply Hsame).
      + destruct (fetch_in (fo_rl s)) as (r' & y & E & [d ->] & Hf). rewrite E in H. injection H as <- <- <-. split; [|done]. eapply inv4_mono with (x := (now, io, LNextIn)) in Hi; [|reflexivity]. unfold inv4 in Hi |- *. rewrite El in Hi. exact Hi.
      + destruct (fetch_in (fo_rl s)) as (r' & y & E & [d ->] & Hf). rewrite E in H. injection H as <- <- <-. split; [|done]. eapply inv4_mono with (x := (now, io, LNextIn)) in Hi; [|reflexivity]. unfold inv4 in Hi |- *. rewrite El in Hi. exact Hi.
      + destruct (fetch_in r) as (r' & y & E & [d ->] & Hf). rewrite E in H. injection H as <- <- <-. split; [|done]. done.
    - unfold ld_push_out in H. destruct (ld_st l) eqn:El; try (injection H as <- <- <-; by apply Hsame).
      destruct (ld_exec _ _ _ _ _ _ _ _) as [s1 ox] eqn:E. unfold inv3 in H3. rewrite El in H3. destruct H3 as (_ & (_ & _ & _ & Hn) & _). eapply Hsend; [exact H|by eapply Hex|reflexivity|].
      apply exec_step in E as (ek & ei & dk & di & r & o' & E & -> & Eo). exists r. split; [done|]. intros Hs. eapply spoken_encrypt; [|exact Hs|exact E]. cbn in Hx. lia.
    - unfold ld_next_out in H. cbn zeta in H. destruct (step3 iv compress aes ghash_fn false blind pad_rng sha256 parse_body ec_curve parse_key exchange fin rounds cert_key sig_valid client_key c Haes Hcfg now io LNextOut ok pre mo mi ts l l1 ms o I H3) as [_ Hp]; [exact H|]. specialize (Hp (or_intror eq_refl)).
      destruct (ld_st l) eqn:El; try (injection H as <- <- <-; by apply Hsame).
      + destruct (fetch_out (fo_rl s)) as (r' & y & E & [d ->] & Hf). rewrite E in H. injection H as <- <- <-. split; [|done]. eapply inv4_mono with (x := (now, io, LNextOut)) in Hi; [|reflexivity]. unfold inv4 in Hi |- *. rewrite El in Hi. exact Hi.
      + destruct (fetch_out (fo_rl s)) as (r' & y & E & [d ->] & Hf). rewrite E in H. injection H as <- <- <-. split; [|done]. eapply inv4_mono with (x := (now, io, LNextOut)) in Hi; [|reflexivity]. unfold inv4 in Hi |- *. rewrite El in Hi. exact Hi.
      + destruct (fetch_out r) as (r' & y & E & [d ->] & Hf). rewrite E in H. injection H as <- <- <-. split; [|done]. done.
    - unfold ld_start in H. destruct (ld_st l) eqn:El; try (injection H as <- <- <-; by apply Hsame). rewrite exec_start in H. eapply Hsend; [exact H|done|reflexivity|]. eexists. split; [reflexivity|]. done.
    - unfold ld_flush in H. destruct (ld_st l) eqn:El; try (injection H as <- <- <-; by apply Hsame).
      destruct (negb _); [injection H as <- <- <-; by apply Hsame|]. destruct (negb io); [injection H as <- <- <-; by apply Hsame|].
      destruct (ld_exec _ _ _ _ _ _ _ _) as [s1 ox] eqn:E. injection H as <- <- <-. pose proof Hi as Hi'. unfold inv4 in Hi'. rewrite El in Hi'. destruct Hi' as (J1 & J2 & _).
      unfold inv3 in H3. rewrite El in H3. destruct H3 as [_ Hg]. pose proof Hg as ((_ & _ & _ & Hn) & _). pose proof (Hex _ _ _ _ _ E Hn) as Ho.
      apply exec_step in E as (ek & ei & dk & di & r & o' & E & -> & ->). eapply Hact; [reflexivity|reflexivity|by destruct o'|exact J1| |done|done]. cbn. eapply (spoken_flush aes ghash_fn); [exact Haes|exact Hg|exact J2|exact E].
    - unfold ld_is_empty in H. injection H as <- <- <-. by apply Hsame.
    - unfold ld_close in H. destruct (ld_st l) eqn:El; try (injection H as <- <- <-; by apply Hfail).
      destruct (negb io); [injection H as <- <- <-; by apply Hfail|]. unfold inv3 in H3. rewrite El in H3. destruct H3 as [_ Hg].
      destruct (close_transcript _ _ _ _ _ _ _ _ _ _ _ _ _) as [[r t]|e|] eqn:E; injection H as <- <- <-; [done|by apply Hfail|]. split; [done|]. intros _. split; [done|]. by eapply close_panic.
    - injection H as <- <- <-. by apply Hsame.
    - unfold ld_finish in H. destruct (ld_st l) as [|? ? ?|? ?|? ? ?|r t|] eqn:El; injection H as <- <- <-; try by apply Hsame. by apply Hfail.
  Qed.
  Lemma why_mono ok (ok' : Prop) pre mo mi : why ok pre mo mi -> (ok' -> ok) -> why ok' pre mo mi.
  Proof. intros [H|[H1 H2]] Ho; [by left|]. right. split; [done|]. auto. Qed.
  Lemma run4 xs ok pre mo mi ts l l' ms os i : Forall small (map snd xs) -> inv3 ok pre mo mi ts l -> inv4 pre l -> lrun xs l = (l', ms, os) -> os !! i = Some Panic ->
    exists now io, xs !! i = Some (now, io, LCloseConn) /\
      why (ok /\ all_succeed (take i os)) (pre ++ take i xs) (mo ++ put_out (take i xs) (take i os)) (mi ++ handed_in (take i xs) (take i os)).
  Proof.
    revert ok pre mo mi ts l l' ms os i. induction xs as [|[[now io] x] xs IH]; intros ok pre mo mi ts l l' ms os i Hs H3 H4 H Hp.
    { by injection H as <- <- <-. }
    cbn [map snd] in Hs. apply Forall_cons in Hs as [Hx Hs]. cbn [ld_run] in H. destruct (lstep now io x l) as [[l1 ms1] o] eqn:E.
    destruct (step3 iv compress aes ghash_fn false blind pad_rng sha256 parse_body ec_curve parse_key exchange fin rounds cert_key sig_valid client_key c Haes Hcfg _ _ _ _ _ _ _ _ _ _ _ _ Hx H3 E) as [J3 _].
    destruct (step4 _ _ _ _ _ _ _ _ _ _ _ _ Hx H3 H4 E) as [J4 Jp].
    assert (exists os', os = o :: os' /\ (o = Panic \/ exists l2 ms2, lrun xs l1 = (l2, ms2, os'))) as (os' & -> & Ho).
    { destruct o; [destruct (lrun xs l1) as [[l2 ms2] os']; injection H as <- <- <-; eauto 6..|injection H as <- <- <-; eauto]. }
    destruct i as [|i].
    - injection Hp as ->. destruct (Jp eq_refl) as [-> Jw]. exists now, io. split; [done|]. cbn [take]. unfold put_out, handed_in. cbn. rewrite !app_nil_r. eapply why_mono; [exact Jw|tauto].
    - cbn in Hp. destruct Ho as [->|(l2 & ms2 & Ho)]; [by injection H as _ _ <-|]. destruct (IH _ _ _ _ _ _ _ _ _ _ Hs J3 J4 Ho Hp) as (nw & i' & G1 & G2). exists nw, i'. split; [done|].
      cbn [take]. rewrite put_out_cons, handed_in_cons. rewrite <- !app_assoc in G2. eapply why_mono; [exact G2|]. intros [K1 K2]. apply Forall_cons in K2 as [K2 K3]. done.
  Qed.
  Lemma C69_lemma xs defer l' ms os i : sizes_ok xs -> lrun xs (ld_new defer) = (l', ms, os) -> os !! i = Some Panic ->
    exists now io, xs !! i = Some (now, io, LCloseConn) /\
      ((exists r time hs, r ∈ allocated (take i xs) /\ (time, hs) ∈ prepared (take i xs) /\ ~ vouched r hs) \/
       ((put_out (take i xs) (take i os) = [] \/ handed_in (take i xs) (take i os) = []) /\
        (all_succeed (take i os) -> pushed (take i xs) = [] \/ arrived (take i xs) = []))).
  Proof.
    intros Hs H Hp. destruct (run4 _ _ _ _ _ _ _ _ _ _ i (small_all _ Hs) (start3 defer) I H Hp) as (now & io & H1 & H2). exists now, io. split; [done|].
    destruct H2 as [H2|[H2 H3]]; [by left|]. right. split; [done|]. intros Ho. by apply H3.
  Qed.

  (** ** Closing without records *)
  Definition inv5 (pre : calls) (l : ld) : Prop :=
    LCloseConn ∈ map snd pre \/
    match ld_st l with
    | LInit | LSetup _ _ _ | LReady _ _ => prepared pre = [] /\ cf_asked pre = [] /\ sf_asked pre = []
    | LActive _ s _ => (cf_asked pre <> [] -> is_Some (fo_cf s)) /\ (sf_asked pre <> [] -> is_Some (fo_sf s))
    | _ => False
    end.
  Lemma exec_frame out cl s sx ox : lexec out cl s = (sx, ox) -> fo_cf sx = fo_cf s /\ fo_sf sx = fo_sf s.
  Proof. intros E. by apply exec_step in E as (ek & ei & dk & di & r & o' & E & -> & ->). Qed.
  Lemma vd_frame set cell known hash s s1 o : vd_of compress rounds set cell known hash s = (s1, o) -> fo_cf s1 = fo_cf s /\ fo_sf s1 = fo_sf s.
  Proof.
    unfold vd_of, with_prf, flush_prf. destruct (map_err FPrf (set (fo_prf s) hash)) as [p|e|]; cbn [obind]; try by intros [= <- <-].
    destruct (map_err FPrf (flush_all _ _ _ _)) as [[[m q]|]|e|]; cbn [obind]; try by intros [= <- <-]. by destruct known; intros [= <- <-].
  Qed.
  Lemma step5 now io x pre l l1 ms a : inv5 pre l -> lstep now io x l = (l1, ms, Ok a) -> inv5 (pre ++ [(now, io, x)]) l1.
  Proof.
    intros [Hi|Hi] H.
    { left. rewrite map_app, elem_of_app. by left. }
    unfold inv5. assert (x = LCloseConn \/ x <> LCloseConn) as [->|Hne] by (destruct x; (by left) || (by right)).
    { left. rewrite map_app, elem_of_app. right. by apply elem_of_list_singleton. }
    right. unfold prepared, cf_asked, sf_asked in *. rewrite !omap_app. cbn [omap list_omap snd fst].
    destruct x as [rd| | | |hs|h|h|m| |m| | | | | |b|]; try done; cbn [ld_step] in H; csimpl; rewrite ?app_nil_r.
    - unfold ld_alloc in H. destruct (ld_st l) eqn:El; try done. destruct (map_err FPrf _) as [[[m p] out]|e|]; try done. destruct (ld_exec _ _ _ _ _ _ _ _) as [s1 [y|e|]]; try done. by injection H as <- _ _.
    - unfold ld_preprocess in H. destruct (ld_st l) eqn:El; try done. destruct io; [|done]. by injection H as <- _ _.
    - unfold ld_random in H. destruct (ld_st l) eqn:El; try done. injection H as <- _ _. by rewrite El.
    - unfold ld_key_share in H. destruct (ld_st l) eqn:El; try done. injection H as <- _ _. by rewrite El.
    - unfold ld_prepare in H. destruct (ld_st l) eqn:El; try done. destruct (negb _); [done|]. destruct (negb io); [done|]. destruct (prepare_keys _ _ _ _ _ _ _ _ _ _ _ _ _) as [s1|e|]; try done. injection H as <- _ _. cbn [goto ld_st].
      destruct Hi as (_ & -> & ->). done.
    - unfold ld_cf in H. destruct (ld_st l) eqn:El; try done. destruct (negb _); [done|]. destruct (negb io); [done|]. destruct (vd_of _ _ _ _ _ _ _) as [s1 [vd|e|]] eqn:E; try done. apply vd_frame in E as [V1 V2]. injection H as <- _ _. cbn. rewrite V2. split; [by eexists|tauto].
    - unfold ld_sf in H. destruct (ld_st l) eqn:El; try done. destruct (negb _); [done|]. destruct (negb io); [done|]. destruct (vd_of _ _ _ _ _ _ _) as [s1 [vd|e|]] eqn:E; try done. apply vd_frame in E as [V1 V2]. injection H as <- _ _. cbn. rewrite V1. split; [tauto|by eexists].
    - unfold ld_push_in in H. destruct (ld_st l) eqn:El; try done. destruct (opaque_into_parts _) as [[[nonce ct] tag]|e|]; try done. destruct (ld_exec _ _ _ _ _ _ _ _) as [s1 ox] eqn:E. apply exec_frame in E as [V1 V2].
      apply then_send_out in H as (_ & H & _). rewrite H, V1, V2. done.
    - unfold ld_next_in in H. cbn zeta in H. destruct (ld_st l) eqn:El; try done.
      + destruct (fetch_in (fo_rl s)) as (r' & y & E & [d ->] & Hf). rewrite E in H. by injection H as <- _ _.
      + destruct (fetch_in (fo_rl s)) as (r' & y & E & [d ->] & Hf). rewrite E in H. by injection H as <- _ _.
    - unfold ld_push_out in H. destruct (ld_st l) eqn:El; try done. destruct (ld_exec _ _ _ _ _ _ _ _) as [s1 ox] eqn:E. apply exec_frame in E as [V1 V2].
      apply then_send_out in H as (_ & H & _). rewrite H, V1, V2. done.
    - unfold ld_next_out in H. cbn zeta in H. destruct (ld_st l) eqn:El; try done.
      + destruct (fetch_out (fo_rl s)) as (r' & y & E & [d ->] & Hf). rewrite E in H. by injection H as <- _ _.
      + destruct (fetch_out (fo_rl s)) as (r' & y & E & [d ->] & Hf). rewrite E in H. by injection H as <- _ _.
    - unfold ld_start in H. destruct (ld_st l) eqn:El; try done. rewrite exec_start in H. apply then_send_out in H as (_ & H & _). rewrite H. done.
    - unfold ld_flush in H. destruct (ld_st l) eqn:El; try done; try (injection H as <- _ _; by rewrite El). destruct (negb _); [injection H as <- _ _; by rewrite El|]. destruct (negb io); [done|].
      destruct (ld_exec _ _ _ _ _ _ _ _) as [s1 ox] eqn:E. apply exec_frame in E as [V1 V2]. injection H as <- _ _. cbn. by rewrite V1, V2.
    - unfold ld_is_empty in H. by injection H as <- _ _.
    - by injection H as <- _ _.
    - unfold ld_finish in H. destruct (ld_st l) eqn:El; try done; injection H as <- _ _; by rewrite El.
  Qed.
  Lemma run5 xs pre l l' ms os : inv5 pre l -> lrun xs l = (l', ms, os) -> all_succeed os -> inv5 (pre ++ xs) l'.
  Proof.
    revert pre l ms os. induction xs as [|[[now io] x] xs IH]; intros pre l ms os Hi H Ho.
    { injection H as <- <- <-. by rewrite app_nil_r. }
    cbn [ld_run] in H. destruct (lstep now io x l) as [[l1 ms1] o] eqn:E. destruct o as [a|e|].
    - destruct (lrun xs l1) as [[l2 ms2] os'] eqn:E3. injection H as <- <- <-. apply Forall_cons in Ho as [_ Ho]. rewrite cons_middle, app_assoc. eapply IH; [|exact E3|exact Ho]. by eapply step5.
    - destruct (lrun xs l1) as [[l2 ms2] os'] eqn:E3. injection H as <- <- <-. by apply Forall_cons in Ho as [[? ?] _].
    - injection H as <- <- <-. by apply Forall_cons in Ho as [[? ?] _].
  Qed.
  Lemma run_inv4 xs ok pre mo mi ts l l' ms os : Forall small (map snd xs) -> inv3 ok pre mo mi ts l -> inv4 pre l -> lrun xs l = (l', ms, os) -> inv4 (pre ++ take (length os) xs) l'.
  Proof.
    revert ok pre mo mi ts l ms os. induction xs as [|[[now io] x] xs IH]; intros ok pre mo mi ts l ms os Hs H3 H4 H.
    { injection H as <- <- <-. by rewrite app_nil_r. }
    cbn [map snd] in Hs. apply Forall_cons in Hs as [Hx Hs]. cbn [ld_run] in H. destruct (lstep now io x l) as [[l1 ms1] o] eqn:E.
    destruct (step3 iv compress aes ghash_fn false blind pad_rng sha256 parse_body ec_curve parse_key exchange fin rounds cert_key sig_valid client_key c Haes Hcfg _ _ _ _ _ _ _ _ _ _ _ _ Hx H3 E) as [J3 _].
    destruct (step4 _ _ _ _ _ _ _ _ _ _ _ _ Hx H3 H4 E) as [J4 _]. destruct o as [a|e|].
    - destruct (lrun xs l1) as [[l2 ms2] os'] eqn:E3. injection H as <- <- <-. cbn [length take]. rewrite cons_middle, app_assoc. by eapply IH.
    - destruct (lrun xs l1) as [[l2 ms2] os'] eqn:E3. injection H as <- <- <-. cbn [length take]. rewrite cons_middle, app_assoc. by eapply IH.
    - injection H as <- <- <-. by destruct xs.
  Qed.
  Lemma lrun_snoc xs l l' ms os now io x l2 ms2 o : lrun xs l = (l', ms, os) -> all_succeed os -> lstep now io x l' = (l2, ms2, o) -> lrun (xs ++ [(now, io, x)]) l = (l2, ms ++ ms2, os ++ [o]).
  Proof.
    revert l ms os. induction xs as [|[[n i] y] xs IH]; intros l ms os H Ho H2.
    { injection H as <- <- <-. cbn [app ld_run]. rewrite H2. destruct o; by rewrite ?app_nil_r. }
    cbn [app ld_run] in H |- *. destruct (lstep n i y l) as [[l1 ms1] o1] eqn:E. destruct o1 as [a|e|].
    - destruct (lrun xs l1) as [[l3 ms3] os'] eqn:E3. injection H as <- <- <-. apply Forall_cons in Ho as [_ Ho]. rewrite (IH _ _ _ E3 Ho H2). by rewrite <- app_assoc.
    - destruct (lrun xs l1) as [[l3 ms3] os'] eqn:E3. injection H as <- <- <-. by apply Forall_cons in Ho as [[? ?] _].
    - injection H as <- <- <-. by apply Forall_cons in Ho as [[? ?] _].
  Qed.
  Lemma C69_empty_lemma xs defer l' ms os now : sizes_ok xs -> lrun xs (ld_new defer) = (l', ms, os) -> all_succeed os ->
    prepared xs <> [] -> cf_asked xs <> [] -> sf_asked xs <> [] -> LCloseConn ∉ map snd xs -> pushed xs = [] -> arrived xs = [] ->
    exists l2 ms2, lrun (xs ++ [(now, true, LCloseConn)]) (ld_new defer) = (l2, ms2, os ++ [Panic]).
  Proof.
    intros Hs H Ho Hp Hcf Hsf Hc Ep Ea. assert (inv5 [] (ld_new defer)) as H5 by (by right). destruct (run5 xs [] _ _ _ _ H5 H Ho) as [Hi|Hi]; [done|]. cbn [app] in Hi.
    destruct (from_new iv compress aes ghash_fn false blind pad_rng sha256 parse_body ec_curve parse_key exchange fin rounds cert_key sig_valid client_key c Haes Hcfg _ _ _ _ _ Hs H) as (H3 & _ & Hl).
    pose proof (run_inv4 _ _ _ _ _ _ _ _ _ _ (small_all _ Hs) (start3 defer) I H) as H4. cbn [app] in H4. rewrite (Hl Ho), firstn_all in *.
    assert (forall l2 ms2, lstep now true LCloseConn l' = (l2, ms2, Panic) -> exists l2 ms2, lrun (xs ++ [(now, true, LCloseConn)]) (ld_new defer) = (l2, ms2, os ++ [Panic])) as Hend.
    { intros l2 ms2 E. eexists _, _. eapply lrun_snoc; [exact H|exact Ho|exact E]. }
    cbn [ld_step] in Hend. unfold ld_close in Hend. unfold inv3, inv4 in *. destruct (ld_st l') as [|? ? ?|? ?|out s hs|r t|]; try done; try (by destruct Hi as [Hi _]).
    destruct Hi as [I1 I2]. destruct (I1 Hcf) as [cf Ecf]. destruct (I2 Hsf) as [sf Esf]. destruct H4 as (_ & _ & (rd & Hr & _) & (h & nw & Hh & Hgr & _)). destruct H3 as (_ & Hg).
    assert (close out s hs = Panic) as E; [|rewrite E in Hend; cbn [negb] in Hend; by eapply Hend].
    destruct Hg as ((Hrl & _ & _ & _) & ([_ K1] & [_ K2]) & otp & sent & recv & Hst & (s1 & s2 & -> & W1 & W2) & (q1 & q2 & -> & W3 & W4)). specialize (K1 Ho). specialize (K2 Ho). rewrite Ep in K1. rewrite Ea in K2. cbn in K1, K2.
    apply app_nil in K1 as [K1 [K3 K4]%app_nil]. apply app_nil in K2 as [K2 [K5 K6]%app_nil]. apply map_eq_nil in K1, K2, K3, K4, K5, K6.
    rewrite K1 in W1. rewrite K3 in W2. rewrite K2 in W3. rewrite K5 in W4. apply Forall2_nil_inv_l in W1 as ->. apply Forall2_nil_inv_l in W2 as ->. apply Forall2_nil_inv_l in W3 as ->. apply Forall2_nil_inv_l in W4 as ->.
    unfold close_transcript, ld_exec. cbn [rl_step]. unfold sbind at 1, rl_commit. rewrite Hst, K4, K6. cbn.
    rewrite Ecf, Esf, Hr, Hh. cbn [opt_err or_panic obind]. destruct (server_sig _ _ _ _) as [sg|[]|]; cbn [lift_panic obind]; [|done]. unfold ephem_of. rewrite Hgr, N.eqb_refl. reflexivity.
  Qed.
End Run.
