(** What is true of every connection of the prover. *)
From stdpp Require Import relations.
From Verif.Lib Require Import Base.
From Verif Require Import ProofModel CodecModel CodecSpec CodecLemmas TlsModel HandshakeModel
  AttestModel SigAlgModel RecordModel ClientModel ClientSpec ClientLemmas ClientInv ClientSteps ClientFlight ClientRun ClientMain
  ClientEffects ClientData ClientOut ClientFinal ClientPanic ConnModel ConnSpec ConnCalls ConnMoves.

Ltac pvs := cbn [put_tag put_i put_wants put_shut put_up put_up_end put_down put_down_end put_rx put_tx put_client_closed
  put_server_closed put_output put_hup put_trace note vcall v_tag v_i v_wants v_shut v_up v_up_end v_down v_down_end v_rx v_tx
  v_client_closed v_server_closed v_output v_hup v_trace] in *.

(** ** Traces *)
Lemma app_wrote_app a b : app_wrote (a ++ b) = app_wrote a ++ app_wrote b. Proof. unfold app_wrote. by rewrite map_app, concat_app. Qed.
Lemma app_got_app a b : app_got (a ++ b) = app_got a ++ app_got b. Proof. unfold app_got. by rewrite map_app, concat_app. Qed.
Lemma sock_gave_app a b : sock_gave (a ++ b) = sock_gave a ++ sock_gave b. Proof. unfold sock_gave. by rewrite map_app, concat_app. Qed.
Lemma sock_took_app a b : sock_took (a ++ b) = sock_took a ++ sock_took b. Proof. unfold sock_took. by rewrite map_app, concat_app. Qed.
Lemma ends_once_prefix a b : ends_once (a ++ b) -> ends_once a.
Proof.
  intros H l1 l2 ->. specialize (H l1 (l2 ++ b)). rewrite <- app_assoc in H. specialize (H eq_refl). rewrite sock_gave_app in H.
  by apply app_eq_nil in H as [? _].
Qed.
Lemma ends_once_last a b : ends_once (a ++ [SockGave b]) -> SockEnded ∈ a -> b = [].
Proof.
  intros H (l1 & l2 & ->)%elem_of_list_split. specialize (H l1 (l2 ++ [SockGave b])). rewrite <- app_assoc in H. specialize (H eq_refl).
  rewrite sock_gave_app in H. apply app_eq_nil in H as [_ H]. simpl in H. unfold sock_gave in H. simpl in H. by rewrite app_nil_r in H.
Qed.

(** ** Calls *)
Section Runs.
  Context (E : env).
  Lemma run_app ks1 ks2 c c1 os1 c2 os2 : run E c ks1 = (c1, os1) -> Panic ∉ os1 -> run E c1 ks2 = (c2, os2) -> run E c (ks1 ++ ks2) = (c2, os1 ++ os2).
  Proof.
    revert c os1. induction ks1 as [|k ks1 IH]; intros c os1 H1 Hp H2; cbn [run app] in *; [by injection H1 as <- <-|].
    destruct (step E c k) as [c0 o]. destruct o as [[]|e|].
    - destruct (run E c0 ks1) as [c0' os0] eqn:Er. injection H1 as <- <-. apply not_elem_of_cons in Hp as [_ Hp]. by rewrite (IH _ _ Er Hp H2).
    - destruct (run E c0 ks1) as [c0' os0] eqn:Er. injection H1 as <- <-. apply not_elem_of_cons in Hp as [_ Hp]. by rewrite (IH _ _ Er Hp H2).
    - injection H1 as <- <-. by destruct Hp; left.
  Qed.
  Lemma run_one k c c' o : step E c k = (c', o) -> run E c [k] = (c', [o]).
  Proof. intros H. cbn [run]. rewrite H. by destruct o as [[]| |]. Qed.

  Definition made (i : inner) (ks : list call) (os : list (outcome cl_error unit)) (i' : inner) : Prop :=
    i_calls i' = i_calls i ++ ks /\ run E (i_tls i) ks = (i_tls i', os).
  Lemma made_nil i : made i [] [] i. Proof. split; [by rewrite app_nil_r|done]. Qed.
  Lemma made_app i ks os i1 ks1 os1 i2 : made i ks os i1 -> Panic ∉ os -> made i1 ks1 os1 i2 -> made i (ks ++ ks1) (os ++ os1) i2.
  Proof. intros [H1 H2] Hp [H3 H4]. split; [by rewrite H3, H1, app_assoc|]. by eapply run_app. Qed.
  Lemma icall_made k i i' o : icall E k i = (i', o) -> made i [k] [o] i' /\ i_close_sent i' = i_close_sent i /\ i_done i' = i_done i /\
    step E (i_tls i) k = (i_tls i', o).
  Proof.
    unfold icall. destruct (step E (i_tls i) k) as [c o'] eqn:Es. intros [= <- <-]. split_and!; try done. split; [done|]. by apply run_one.
  Qed.

  (** The end of a job that ran the client. *)
  Definition ran (i i' : inner) (r : jres) : Prop := exists ks os, made i ks os i' /\ Forall (eq CallProcess) ks /\
    (Panic ∈ os <-> r = JPanic) /\ i_close_sent i' = i_close_sent i /\ i_done i' = i_done i /\
    (r = JOk -> exists ks0 os0 c0, run E (i_tls i) ks0 = (c0, os0) /\ Panic ∉ os0 /\ ks = ks0 ++ [CallProcess] /\ step E c0 CallProcess = (i_tls i', Ok tt)).
  Lemma pn : (@Panic cl_error unit) ∈ (@nil (outcome cl_error unit)) -> False. Proof. apply not_elem_of_nil. Qed.
  Lemma ran_call i i' o : icall E CallProcess i = (i', o) -> ran i i' (match o with Ok _ => JOk | Err _ => JErr | Panic => JPanic end).
  Proof.
    intros (H1 & H2 & H3 & H4)%icall_made. exists [CallProcess], [o]. split_and!; try done.
    - by constructor.
    - rewrite elem_of_list_singleton. by destruct o as [[]| |].
    - intros Ho. destruct o as [[]| |]; try done. exists [], [], (i_tls i). split_and!; try done. apply not_elem_of_nil.
  Qed.
  Lemma ran_trans i i1 i2 r : ran i i1 JOk -> ran i1 i2 r -> ran i i2 r.
  Proof.
    intros (ks & os & H1 & H2 & H3 & H4 & H5 & _) (ks' & os' & G1 & G2 & G3 & G4 & G5 & G6).
    assert (Panic ∉ os) as Hp. { intros Hp%H3. done. }
    exists (ks ++ ks'), (os ++ os'). split_and!; [by eapply made_app|by apply Forall_app| |congruence|congruence|].
    - rewrite elem_of_app, <- G3. split; [by intros [?|?]|by right].
    - intros Hr. destruct (G6 Hr) as (ks0 & os0 & c0 & E1 & E2 & -> & E3). exists (ks ++ ks0), (os ++ os0), c0.
      split_and!; [eapply run_app; [by destruct H1|done|done]|rewrite elem_of_app; tauto|by rewrite app_assoc|done].
  Qed.
  Lemma settle_ran f b i i' r : settle E f b i = (i', r) -> r = JHang /\ (exists ks os, made i ks os i' /\ Forall (eq CallProcess) ks /\ Panic ∉ os /\ i_close_sent i' = i_close_sent i /\ i_done i' = i_done i) \/ ran i i' r.
  Proof.
    revert b i. induction f as [|f IH]; intros b i H; cbn [settle] in H.
    - injection H as <- <-. left. split; [done|]. exists [], []. split_and!; try done; [apply made_nil|apply not_elem_of_nil].
    - destruct (icall E CallProcess i) as [i1 o] eqn:Ei. apply ran_call in Ei. destruct o as [[]|e|]; [|injection H as <- <-; by right..].
      case_bool_decide; [injection H as <- <-; by right|]. apply IH in H as [[-> (ks & os & H1 & H2 & H3 & H4 & H5)]|H].
      + left. split; [done|]. destruct Ei as (ks' & os' & G1 & G2 & G3 & G4 & G5 & _). assert (Panic ∉ os') as Hp. { intros Hp%G3. done. }
        exists (ks' ++ ks), (os' ++ os). split_and!; [by eapply made_app|by apply Forall_app|rewrite elem_of_app; tauto|congruence|congruence].
      + right. by eapply ran_trans.
  Qed.
  Lemma hang_ran i i' : (exists ks os, made i ks os i' /\ Forall (eq CallProcess) ks /\ Panic ∉ os /\ i_close_sent i' = i_close_sent i /\ i_done i' = i_done i) -> ran i i' JHang.
  Proof. intros (ks & os & H1 & H2 & H3 & H4 & H5). exists ks, os. by split_and!. Qed.
  Lemma job_run_ran fuel i i' r : job_run E fuel i = (i', r) -> ran i i' r.
  Proof.
    unfold job_run. destruct (icall E CallProcess i) as [i1 o] eqn:Ei. apply ran_call in Ei. destruct o as [[]|e|]; [|intros [= <- <-]; done..].
    intros [[-> H]|H]%settle_ran; [|by eapply ran_trans]. eapply ran_trans; [done|]. by apply hang_ran.
  Qed.
  (** What jobs do. *)
  Definition did (j : job) (i i' : inner) (r : jres) : Prop :=
    match j with
    | JStart => exists o, made i [CallStart] [o] i' /\ (o = Panic <-> r = JPanic) /\ i_close_sent i' = i_close_sent i /\ i_done i' = i_done i /\ r <> JHang
    | JRun => ran i i' r
    | JClientClose => ran i i' r \/ exists i1 o, ran i i1 JOk /\ i_close_sent i = false /\ i_done i' = i_done i /\
        made i1 [CallCloseNotify] [o] i' /\ (o = Panic <-> r = JPanic) /\ r <> JHang /\ (r = JOk -> i_close_sent i' = true) /\ r <> JErr
    | JServerClose => (ran i i' r /\ r <> JOk) \/ exists i1 o, ran i i1 JOk /\ made i1 [CallServerClosed] [o] i' /\
        step E (i_tls i1) CallServerClosed = (i_tls i', o) /\ i_close_sent i' = i_close_sent i /\ r <> JHang /\
        (r = JPanic <-> o = Panic) /\ (r = JOk -> o = Ok tt /\ i_done i' = true)
    end.
  Lemma do_job_did fuel j i i' r : do_job E fuel j i = (i', r) -> did j i i' r.
  Proof.
    destruct j; cbn [do_job did]; [|apply job_run_ran| |].
    - unfold job_start. destruct (icall E CallStart i) as [i1 o] eqn:Ei. apply icall_made in Ei as (H1 & H2 & H3 & H4). intros H. exists o.
      destruct o as [[]|e|]; injection H as <- <-; by split_and!.
    - unfold job_client_close. destruct (job_run E fuel i) as [i1 r1] eqn:Er. apply job_run_ran in Er.
      destruct r1; [|intros [= <- <-]; by left..]. assert (i_close_sent i1 = i_close_sent i /\ i_done i1 = i_done i) as [Hc Hd]. { by destruct Er as (? & ? & _ & _ & _ & ? & ? & _). }
      destruct (i_close_sent i1) eqn:Ec; [intros [= <- <-]; by left|]. destruct (icall E CallCloseNotify i1) as [i2 o] eqn:Ei.
      apply icall_made in Ei as (H1 & H2 & H3 & H4). intros H. right. exists i1, o.
      destruct o as [[]|e|]; injection H as <- <-; split_and!; try done; cbn [i_done]; congruence.
    - unfold job_server_close. destruct (job_run E fuel i) as [i1 r1] eqn:Er. apply job_run_ran in Er.
      destruct r1; [|intros [= <- <-]; by left..]. assert (i_close_sent i1 = i_close_sent i /\ i_done i1 = i_done i) as [Hc Hd]. { by destruct Er as (? & ? & _ & _ & _ & ? & ? & _). }
      destruct (icall E CallServerClosed i1) as [i2 o] eqn:Ei. apply icall_made in Ei as (H1 & H2 & H3 & H4). intros H. right. exists i1, o.
      destruct o as [[]|e|]; injection H as <- <-; split_and!; try done; try congruence; cbn [i_close_sent]; congruence.
  Qed.
End Runs.
