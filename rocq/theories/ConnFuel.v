(** More turns of the loops change nothing once they end. *)
From Verif.Lib Require Import Base.
From Verif Require Import CodecModel TlsModel RecordModel ClientModel ConnModel ConnLemmas.

Section Fuel.
  Context (E : env) (b_empty : list cev -> bool) (fuel fuel' : nat) (Hle : fuel <= fuel').

  Lemma settle_fuel f f' b i i' r : f <= f' -> settle E f b i = (i', r) -> r <> JHang -> settle E f' b i = (i', r).
  Proof.
    revert f' b i. induction f as [|f IH]; intros f' b i Hf H Hr; cbn [settle] in H; [congruence|].
    destruct f' as [|f']; [lia|]. cbn [settle]. destruct (icall E CallProcess i) as [i1 [[]|e|]]; [|done..].
    case_bool_decide; [done|]. apply IH; [lia|done..].
  Qed.
  Lemma run_fuel i i' r : job_run E fuel i = (i', r) -> r <> JHang -> job_run E fuel' i = (i', r).
  Proof. unfold job_run. destruct (icall E CallProcess i) as [i1 [[]|e|]]; [|done..]. by apply settle_fuel. Qed.
  Lemma job_fuel j i i' r : do_job E fuel j i = (i', r) -> r <> JHang -> do_job E fuel' j i = (i', r).
  Proof.
    destruct j; cbn [do_job]; [done|apply run_fuel|unfold job_client_close|unfold job_server_close].
    all: intros H Hr; destruct (job_run E fuel i) as [i1 r1] eqn:E1; assert (r1 <> JHang) as Hr1 by (intros ->; congruence).
    all: by rewrite (run_fuel _ _ _ E1 Hr1).
  Qed.
  Lemma mpoll_fuel f f' ready final v v' r : f <= f' -> mpoll E b_empty fuel f ready final v = (v', r) -> r <> PHang ->
    mpoll E b_empty fuel' f' ready final v = (v', r).
  Proof.
    revert f' ready v. induction f as [|f IH]; intros f' ready v Hf H Hr; cbn [mpoll] in H; [congruence|].
    destruct f' as [|f']; [lia|]. assert (f <= f') as Hf' by lia. cbn [mpoll]. destruct (v_tag v) as [| |j| |j| | |].
    - by apply IH.
    - by apply IH.
    - destruct (do_job E fuel j (v_i v)) as [i1 r1] eqn:E1. assert (r1 = JHang \/ r1 <> JHang) as [->|Hn] by (destruct r1; auto).
      { destruct ready as [|[] ready]; [congruence..|]. done. }
      rewrite (job_fuel _ _ _ _ E1 Hn). destruct ready as [|[] ready]; [| |done]; (destruct r1; [|done..]; destruct (v_shut _); [by apply IH|done]).
    - by apply IH.
    - destruct (do_job E fuel j (v_i v)) as [i1 r1] eqn:E1. assert (r1 = JHang \/ r1 <> JHang) as [->|Hn] by (destruct r1; auto).
      { destruct ready as [|[] ready]; [congruence..|]. done. }
      rewrite (job_fuel _ _ _ _ E1 Hn). destruct ready as [|[] ready]; [| |done]; (destruct r1; [|done..]; destruct (drained _ _); [|done]; destruct (i_done _); [by apply IH|done]).
    - done.
    - done.
    - done.
  Qed.
  Lemma cpoll_fuel n v v' r : cpoll E b_empty fuel n v = (v', r) -> r <> PHang -> cpoll E b_empty fuel' n v = (v', r).
  Proof.
    unfold cpoll. destruct (from_socket _ _) as [v1|]; [|done]. destruct (v_output (to_client E v1)); [done|].
    destruct (mpoll E b_empty fuel fuel _ _ _) as [v2 r2] eqn:E2. intros H Hr. assert (r2 <> PHang) as Hr2 by (intros ->; congruence).
    by rewrite (mpoll_fuel _ _ _ _ _ _ _ Hle E2 Hr2).
  Qed.
  Lemma step_fuel k s s' rs : do_step E b_empty fuel k s = (s', rs) -> PHang ∉ rs -> do_step E b_empty fuel' k s = (s', rs).
  Proof.
    destruct s as [st v]. destruct k as [b|n| | |n]; [done..|]. unfold do_step. destruct (fpoll E b_empty fuel n (st, v)) as [s1 r1] eqn:E1.
    intros [= <- <-] Hr. assert (r1 <> PHang) as Hr1. { intros ->. apply Hr. by left. }
    enough (fpoll E b_empty fuel' n (st, v) = (s1, r1)) as -> by done. unfold fpoll in E1 |- *. destruct st; [|done..].
    destruct (cpoll E b_empty fuel n v) as [v2 r2] eqn:E2. assert (r2 <> PHang) as Hr2 by (intros ->; congruence).
    by rewrite (cpoll_fuel _ _ _ _ E2 Hr2).
  Qed.
  Lemma play_fuel ks s s' rs : play E b_empty fuel ks s = (s', rs) -> PHang ∉ rs -> play E b_empty fuel' ks s = (s', rs).
  Proof.
    revert s rs. induction ks as [|k ks IH]; intros s rs H Hr; cbn [play] in H |- *; [done|].
    destruct (do_step E b_empty fuel k s) as [s1 r1] eqn:E1. destruct (play E b_empty fuel ks s1) as [s2 rs2] eqn:E2.
    injection H as <- <-. rewrite elem_of_app in Hr. rewrite (step_fuel _ _ _ _ E1) by tauto. by rewrite (IH _ _ E2) by tauto.
  Qed.
  Lemma play_cat f ks1 ks2 s : play E b_empty f (ks1 ++ ks2) s =
    let '(s1, r1) := play E b_empty f ks1 s in let '(s2, r2) := play E b_empty f ks2 s1 in (s2, r1 ++ r2).
  Proof.
    revert s. induction ks1 as [|k ks1 IH]; intros s; cbn [app play].
    - by destruct (play E b_empty f ks2 s).
    - destruct (do_step E b_empty f k s) as [s1 r1]. rewrite IH. destruct (play E b_empty f ks1 s1) as [s2 r2]. destruct (play E b_empty f ks2 s2) as [s3 r3]. by rewrite <- app_assoc.
  Qed.
End Fuel.
