(** Two leaders whose record layers do the same. *)
From Verif.Lib Require Import Base.
From Verif Require Import TranscriptModel ProofModel CodecModel AttestModel TlsModel AuthModel TagModel RecordModel RecordSpec PartsModel PrfModel
  HandshakeModel SigAlgModel FollowerModel FollowerSpec LeaderModel LeaderSpec LeaderRel LeaderRun.

Section Pair.
  Context (compress : list N -> list N -> list N).
  Context (aes : list N -> list N -> list N) (ghash_fn : list N -> list N -> list N) (checked : bool) (blind : N -> nat -> N) (pad_rng : nat -> N).
  Context (parse_key : list N -> bool) (exchange : list N -> option (list N)) (fin : list N -> bool) (rounds : nat).
  Context (R : rl -> rl -> Prop) (CR : rl_call -> rl_call -> Prop) (RR : rl_result -> rl_result -> Prop).
  Context (H_step : forall ek ei dk di c c' a b, R a b -> CR c c' ->
    prel R RR (rl_step aes ghash_fn checked ek ei dk di blind pad_rng c a) (rl_step aes ghash_fn checked ek ei dk di blind pad_rng c' b)).
  Notation lexec := (ld_exec aes ghash_fn checked blind pad_rng).
  Notation fexec := (rl_exec aes ghash_fn checked blind pad_rng).
  Definition frel (s s' : fo) : Prop := s' = set_rl (fo_rl s') s /\ R (fo_rl s) (fo_rl s').
  Lemma frel_set r r' s : R r r' -> frel (set_rl r s) (set_rl r' s).
  Proof. by split. Qed.
  Lemma frel_inv s s' : frel s s' -> exists r, s' = set_rl r s /\ R (fo_rl s) r.
  Proof. intros [H1 H2]. by exists (fo_rl s'). Qed.

  Lemma exec_rel out c c' s s' : frel s s' -> CR c c' -> prel frel RR (lexec out c s) (lexec out c' s').
  Proof.
    intros [H1 H2] Hc. unfold ld_exec. assert (fo_vm s' = fo_vm s) as -> by (by rewrite H1).
    pose proof (H_step (key_of (fo_vm s) (po_ck out)) (key_of (fo_vm s) (po_civ out)) (key_of (fo_vm s) (po_sk out)) (key_of (fo_vm s) (po_siv out)) _ _ _ _ H2 Hc) as [Ha Hb].
    destruct (rl_step _ _ _ _ _ _ _ _ _ c (fo_rl s)) as [r o], (rl_step _ _ _ _ _ _ _ _ _ c' (fo_rl s')) as [r' o']. cbn in Ha, Hb.
    split; cbn; [split; [|done]; rewrite H1; done|]. destruct o, o'; try done. cbn in *. by subst.
  Qed.
  Lemma fexec_rel out c c' s s' : frel s s' -> CR c c' -> orel (fun x y => RR (fst x) (fst y) /\ frel (snd x) (snd y)) (fexec out c s) (fexec out c' s').
  Proof.
    intros Hs Hc. pose proof (exec_rel out _ _ _ _ Hs Hc) as [Ha Hb]. unfold ld_exec, rl_exec in *.
    destruct (rl_step _ _ _ _ _ _ _ _ _ c (fo_rl s)) as [r [x|e|]], (rl_step _ _ _ _ _ _ _ _ _ c' (fo_rl s')) as [r' [x'|e'|]]; cbn in *; try done. congruence.
  Qed.
  Lemma with_prf_rel s s' o : frel s s' -> orel frel (with_prf s o) (with_prf s' o).
  Proof. intros (r & -> & Hr)%frel_inv. unfold with_prf. destruct o as [p|e|]; cbn; try done. Qed.
  Lemma flush_rel s s' : frel s s' -> orel frel (flush_prf compress rounds s) (flush_prf compress rounds s').
  Proof.
    intros (r & -> & Hr)%frel_inv. unfold flush_prf. cbn [fo_vm fo_prf set_rl]. destruct (flush_all _ _ _ _) as [[[m p]|]|e|]; cbn; try done.
  Qed.
  Lemma orel_bind {E A B A' B'} (RA : A -> B -> Prop) (RB : A' -> B' -> Prop) (x : outcome E A) (y : outcome E B) k k' :
    orel RA x y -> (forall a b, RA a b -> orel RB (k a) (k' b)) -> orel RB (obind x k) (obind y k').
  Proof. destruct x, y; cbn; try done. auto. Qed.
  Context (H_setup : CR CSetup CSetup).
  Lemma prepare_rel out h s s' : frel s s' ->
    orel frel (prepare_keys compress aes ghash_fn checked blind pad_rng parse_key exchange fin rounds out h s)
      (prepare_keys compress aes ghash_fn checked blind pad_rng parse_key exchange fin rounds out h s').
  Proof.
    intros Hs. unfold prepare_keys. assert (fo_prf s' = fo_prf s) as -> by (destruct Hs as [-> _]; done).
    eapply orel_bind; [by apply with_prf_rel|]. intros s1 s1' H1. destruct (negb (parse_key (sp_key h))); [done|].
    destruct (opt_err FExchange _) as [pms|e|]; cbn [obind]; try done.
    assert (fo_vm s1' = fo_vm s1 /\ fo_prf s1' = fo_prf s1) as [-> ->] by (destruct H1 as [-> _]; done).
    destruct (map_err FPrf _) as [m|e|]; cbn [obind]; try done.
    eapply orel_bind; [apply flush_rel; apply frel_inv in H1 as (r & -> & Hr); by split|]. intros s2 s2' H2. destruct (negb (fin (sp_key h))); [done|].
    eapply orel_bind; [by apply fexec_rel|]. intros [x s3] [x' s3'] [_ H3]. cbn in *. apply frel_inv in H3 as (r & -> & Hr). by split.
  Qed.
  Lemma vd_rel set cell known hash s s' : frel s s' -> prel frel eq (vd_of compress rounds set cell known hash s) (vd_of compress rounds set cell known hash s').
  Proof.
    intros Hs. unfold vd_of. assert (fo_prf s' = fo_prf s) as -> by (destruct Hs as [-> _]; done).
    pose proof (with_prf_rel _ _ (set (fo_prf s) hash) Hs) as H1. destruct (with_prf s _) as [s1|e|], (with_prf s' _) as [s1'|e'|]; try done; cbn in H1.
    2: { split; [done|]. cbn. congruence. }
    pose proof (flush_rel _ _ H1) as H2. apply frel_inv in H1 as (r1 & -> & Hr1).
    destruct (flush_prf compress rounds s1) as [s2|e|], (flush_prf compress rounds (set_rl r1 s1)) as [s2'|e'|]; try done; cbn in H2.
    - assert (fo_vm s2' = fo_vm s2) as E by (destruct H2 as [-> _]; done). destruct known; [by split|]. split; [done|]. cbn. rewrite E. by destruct (vm_decoded _ _).
    - split; [|cbn; congruence]. by split.
  Qed.
End Pair.
