(** Invariants of the prover's connection. *)
From stdpp Require Import relations.
From Verif.Lib Require Import Base.
From Verif Require Import ProofModel CodecModel CodecSpec CodecLemmas TlsModel HandshakeModel
  AttestModel SigAlgModel RecordModel ClientModel ClientSpec ClientLemmas ClientInv ClientSteps ClientFlight ClientRun ClientMain
  ClientEffects ClientData ClientOut ClientFinal ClientPanic ConnModel ConnSpec ConnCalls ConnMoves ConnLemmas.

(** ** Calls of jobs *)
Definition job_call (k : call) : Prop := match k with CallProcess | CallStart | CallCloseNotify | CallServerClosed => True | _ => False end.
Definition calm_ev (e : cev) : Prop := match e with WireIn _ | WireOut _ | Accepted _ | Delivered _ => False | _ => True end.
Lemma calm_nil l : Forall calm_ev l -> accepted l = [] /\ wire_in l = [] /\ wire_out l = [] /\ delivered l = [].
Proof. intros H. split_and!; apply concat_nil; (eapply Forall_impl; [exact H|]); by intros []. Qed.
Lemma grows_calm x x' : grows x x' -> exists l, x_log x' = x_log x ++ l /\ Forall calm_ev l.
Proof. intros (l & H1 & H2). exists l. split; [done|]. eapply Forall_impl; [exact H2|]. by intros []. Qed.

Section Inv.
  Context (E : env) (b_empty : list cev -> bool) (fuel : nat).

  Lemma calm_step k c c' o : job_call k -> step E c k = (c', o) -> exists l, log_of c' = log_of c ++ l /\ Forall calm_ev l.
  Proof.
    intros Hk H. destruct k; try done.
    - apply start_call in H. by apply grows_calm.
    - apply process_call in H. by apply grows_calm.
    - apply notify_call in H. by apply grows_calm.
    - apply closed_call in H as (_ & H & _). exists [CloseConnection]. split; [done|]. by constructor.
  Qed.
  Lemma calm_run ks c c' os : Forall job_call ks -> run E c ks = (c', os) -> exists l, log_of c' = log_of c ++ l /\ Forall calm_ev l.
  Proof.
    revert c c' os. induction ks as [|k ks IH]; intros c c' os Hk H; cbn [run] in H; [injection H as <- <-; exists []; split; [by rewrite app_nil_r|done]|].
    apply Forall_cons in Hk as [Hk Hks]. destruct (step E c k) as [c1 o] eqn:Es. apply calm_step in Es as (l & El & Hl); [|done].
    assert (forall c2 os2, run E c1 ks = (c2, os2) -> exists l, log_of c2 = log_of c ++ l /\ Forall calm_ev l) as HC.
    { intros c2 os2 (l' & El' & Hl')%IH; [|done]. exists (l ++ l'). rewrite El', El, app_assoc. split; [done|]. by apply Forall_app. }
    destruct o; [| |injection H as <- <-; by exists l]; (destruct (run E c1 ks) as [c2 os2] eqn:Er; injection H as <- <-; by eapply HC).
  Qed.
  Lemma processes ks : Forall (eq CallProcess) ks -> Forall job_call ks.
  Proof. intros H. eapply Forall_impl; [exact H|]. by intros ? <-. Qed.
  (** What a job's calls are, roughly. *)
  Lemma did_made j i i' r : did E j i i' r -> exists ks os, made E i ks os i' /\ Forall job_call ks /\ (Panic ∈ os -> r = JPanic) /\ (r = JPanic -> Panic ∈ os).
  Proof.
    assert (forall i1 r1, ran E i i1 r1 -> exists ks os, made E i ks os i1 /\ Forall job_call ks /\ (Panic ∈ os -> r1 = JPanic) /\ (r1 = JPanic -> Panic ∈ os)) as HR.
    { intros i1 r1 (ks & os & H1 & H2 & H3 & _). exists ks, os. split_and!; [done|by apply processes|apply H3..]. }
    destruct j; cbn [did].
    - intros (o & H1 & H2 & _). exists [CallStart], [o]. split_and!; [done|by constructor|intros Ho%elem_of_list_singleton; by apply H2|intros ->%H2; by left].
    - apply HR.
    - intros [H|(i1 & o & H1 & _ & _ & H2 & H3 & _)]; [by apply HR|]. apply HR in H1 as (ks & os & Hm & Hk & Hp & _).
      assert (Panic ∉ os) as Hp'. { intros ?%Hp. done. }
      exists (ks ++ [CallCloseNotify]), (os ++ [o]). split_and!; [by eapply made_app|apply Forall_app; split; [done|by constructor]| |].
      + intros [?|Ho%elem_of_list_singleton]%elem_of_app; [done|by apply H3].
      + intros ->%H3. apply elem_of_app. right. by left.
    - intros [[H _]|(i1 & o & H1 & H2 & _ & _ & _ & H3 & _)]; [by apply HR|]. apply HR in H1 as (ks & os & Hm & Hk & Hp & _).
      assert (Panic ∉ os) as Hp'. { intros ?%Hp. done. }
      exists (ks ++ [CallServerClosed]), (os ++ [o]). split_and!; [by eapply made_app|apply Forall_app; split; [done|by constructor]| |].
      + intros [?|Ho%elem_of_list_singleton]%elem_of_app; [done|by apply H3].
      + intros ->%H3. apply elem_of_app. right. by left.
  Qed.

  (** ** The user's calls *)
  Lemma vcall_made k v : exists o, made E (v_i v) [k] [o] (v_i (vcall E k v)) /\ step E (i_tls (v_i v)) k = (i_tls (v_i (vcall E k v)), o) /\
    i_close_sent (v_i (vcall E k v)) = i_close_sent (v_i v) /\ i_done (v_i (vcall E k v)) = i_done (v_i v).
  Proof.
    destruct (icall E k (v_i v)) as [i' o] eqn:Ei. exists o. unfold vcall. rewrite Ei. cbn [fst]. pvs. by apply icall_made in Ei as (H1 & H2 & H3 & H4).
  Qed.
  Lemma write_log v : v_up v <> [] -> let n := snd (cvb_append_limited (x_sendable (tls_of v)) (v_up v)) in
    tls_log (vcall E (CallWrite (v_up v)) v) = tls_log v ++ [Accepted (take n (v_up v))] /\
    (forall o, step E (i_tls (v_i v)) (CallWrite (v_up v)) = (i_tls (v_i (vcall E (CallWrite (v_up v)) v)), o) -> o = Ok tt).
  Proof.
    intros H n. unfold tls_log, vcall, icall. rewrite write_call by done. cbv zeta. pvs. cbn [fst i_tls]. split; [done|]. intros o. by intros [= <-].
  Qed.
  Lemma write_tls_log v n : tls_log (vcall E (CallWriteTls n) v) = tls_log v ++ [WireOut (fst (cvb_write n (x_tls (tls_of v))))] /\
    (forall o, step E (i_tls (v_i v)) (CallWriteTls n) = (i_tls (v_i (vcall E (CallWriteTls n) v)), o) -> o = Ok tt).
  Proof. unfold tls_log, vcall, icall. rewrite write_tls_call. pvs. cbn [fst i_tls]. split; [done|]. intros o. by intros [= <-]. Qed.
  Lemma read_log v n : tls_log (vcall E (CallRead n) v) = tls_log v ++ [Delivered (fst (cvb_read n (x_received (tls_of v))))] /\
    (forall o, step E (i_tls (v_i v)) (CallRead n) = (i_tls (v_i (vcall E (CallRead n) v)), o) -> o = Ok tt).
  Proof. unfold tls_log, vcall, icall. rewrite read_call. pvs. cbn [fst i_tls]. split; [done|]. intros o. by intros [= <-]. Qed.
  Lemma read_tls_log v n : n = df_fit v (length (v_rx v)) -> exists l, tls_log (vcall E (CallReadTls (take n (v_rx v))) v) = tls_log v ++ l /\
    wire_in l = take n (v_rx v) /\ accepted l = [] /\ wire_out l = [] /\ delivered l = [] /\
    (forall o, step E (i_tls (v_i v)) (CallReadTls (take n (v_rx v))) = (i_tls (v_i (vcall E (CallReadTls (take n (v_rx v))) v)), o) -> o <> Panic).
  Proof.
    intros Hn. destruct (decide (N.of_nat (length (df_buf (x_df (tls_of v)))) <= MAX_WIRE_SIZE)%N) as [Hl|Hl].
    - destruct (read_tls_call E (i_tls (v_i v)) (take n (v_rx v))) as (df & Hd & Hs).
      { rewrite take_length. unfold df_fit in Hn. unfold tls_of in *. lia. }
      exists [WireIn (take n (v_rx v))]. unfold tls_log, vcall, icall. rewrite Hs. pvs. cbn [fst i_tls wire_in accepted wire_out delivered map concat].
      rewrite app_nil_r. split_and!; try done. intros o. by intros [= <-].
    - assert (n = 0) as ->. { rewrite Hn. unfold df_fit. lia. }
      change (take 0 (v_rx v)) with (@nil N). destruct (step E (i_tls (v_i v)) (CallReadTls [])) as [c' o] eqn:Es.
      assert (df_read (x_df (tls_of v)) [] = None) as Hd.
      { unfold df_read. cbn [length]. rewrite Nat.add_0_r. destruct (N.ltb_spec MAX_WIRE_SIZE (N.of_nat (length (df_buf (x_df (tls_of v)))))); [done|lia]. }
      pose proof Es as Es'. cbn [step] in Es'. unfold on_x, sgets, sbind at 1 in Es'. unfold tls_of in Hd. rewrite Hd in Es'. injection Es' as <- <-.
      exists []. unfold tls_log, vcall, icall. rewrite ?Es. pvs. cbn [fst i_tls]. rewrite app_nil_r. split_and!; try done. intros o. by intros [= <-].
  Qed.

  (** ** What every connection satisfies *)
  Record base (v : pv) : Prop := Base {
    b_run : exists os, run E conn_new (i_calls (v_i v)) = (i_tls (v_i v), os) /\ (Panic ∈ os -> v_tag v = TError);
    b_reads : reads_bytes (i_calls (v_i v));
    b_bytes : bytes_ok (v_rx v);
    b_up : app_wrote (v_trace v) = accepted (tls_log v) ++ v_up v;
    b_rx : sock_gave (v_trace v) = wire_in (tls_log v) ++ v_rx v;
    b_tx : wire_out (tls_log v) = sock_took (v_trace v) ++ v_tx v;
    b_down : delivered (tls_log v) = app_got (v_trace v) ++ v_down v }.
  Lemma base_new : base pv_new.
  Proof. split; try done; [exists []; split; [done|by intros ?%not_elem_of_nil]|by constructor|by constructor]. Qed.
  Lemma run_made v ks os i' : (exists os, run E conn_new (i_calls (v_i v)) = (i_tls (v_i v), os) /\ (Panic ∈ os -> v_tag v = TError)) ->
    v_tag v <> TError -> made E (v_i v) ks os i' -> exists os0, run E conn_new (i_calls (v_i v)) = (i_tls (v_i v), os0) /\ Panic ∉ os0 /\
      run E conn_new (i_calls i') = (i_tls i', os0 ++ os).
  Proof.
    intros (os0 & H1 & H2) Ht [H3 H4]. exists os0. split; [done|]. assert (Panic ∉ os0) as Hp. { intros ?%H2. done. }
    split; [done|]. rewrite H3. by eapply run_app.
  Qed.
  Lemma base_call k v o : base v -> v_tag v <> TError -> made E (v_i v) [k] [o] (v_i (vcall E k v)) -> o <> Panic -> reads_byte k ->
    (exists os, run E conn_new (i_calls (v_i (vcall E k v))) = (i_tls (v_i (vcall E k v)), os) /\ (Panic ∈ os -> v_tag v = TError)) /\ reads_bytes (i_calls (v_i (vcall E k v))).
  Proof.
    intros [HR HB _ _ _ _ _] Ht Hm Ho Hk. destruct (run_made v _ _ _ HR Ht Hm) as (os0 & _ & Hp & Hrun). split.
    - eexists. split; [exact Hrun|]. intros [?|Hx%elem_of_list_singleton]%elem_of_app; [done|by destruct Ho].
    - destruct Hm as [-> _]. apply Forall_app. split; [done|]. by constructor.
  Qed.
  Lemma visible_tag v : visible v = true -> v_tag v = TActive \/ v_tag v = TCloseActive.
  Proof. unfold visible. destruct (v_tag v); auto; done. Qed.
  Lemma visible_not_error v : visible v = true -> v_tag v <> TError.
  Proof. intros [-> | ->]%visible_tag; done. Qed.
  Ltac tr := rewrite ?app_wrote_app, ?app_got_app, ?sock_gave_app, ?sock_took_app; cbn [app_wrote app_got sock_gave sock_took map concat]; rewrite ?app_nil_r.
  Ltac lg := rewrite ?accepted_app, ?wire_in_app, ?wire_out_app, ?delivered_app; cbn [accepted wire_in wire_out delivered map concat]; rewrite ?app_nil_r.
  Lemma busy_not_error v j : busy_with (v_tag v) = Some j -> v_tag v <> TError.
  Proof. by destruct (v_tag v). Qed.
  Lemma made_panic_tag t i r t' : next_tag b_empty t i r t' -> r = JPanic -> t' = TError. Proof. by intros [] ?. Qed.
  Lemma base_move v v' : base v -> move E b_empty fuel v v' -> base v'.
  Proof.
    intros HB HM. pose proof HB as [HR Hrd Hby Hup Hrx Htx Hdn].
    destruct HM as [v t Ht|v j i r t Hbusy Hjob Hnt|v Hu Hue|v Hv Hu|v|v b Hb|v Hr Hs|v n Hw Hn|v n Hv|v n|v n Hv Hd|v Hf|v|v|v b Hue|v n Hde|v Hue|v Hde].
    - split; try done. destruct HR as (os & H1 & H2). exists os. split; [done|]. intros Hp. pose proof (H2 Hp) as H3. pvs. by destruct Ht; congruence.
    - apply do_job_did, did_made in Hjob as (ks & os & Hm & Hk & Hp & _).
      destruct (run_made v ks os i HR) as (os0 & _ & Hp0 & Hrun); [by eapply busy_not_error|done|].
      destruct Hm as [Hc Hru]. apply calm_run in Hru as (l & El & (L1 & L2 & L3 & L4)%calm_nil); [|done].
      unfold tls_log in *. split; pvs; unfold tls_log; pvs; try rewrite El; lg; rewrite ?L1, ?L2, ?L3, ?L4, ?app_nil_r; try done.
      + eexists. split; [exact Hrun|]. intros [?|Hx]%elem_of_app; [done|]. by eapply made_panic_tag, Hp.
      + rewrite Hc. apply Forall_app. split; [done|]. eapply Forall_impl; [exact Hk|]. by intros [].
    - by split.
    - destruct (vcall_made (CallWrite (v_up v)) v) as (o & Hm & Hs & _). destruct (write_log v Hu) as [El Ho]. apply Ho in Hs as ->.
      destruct (base_call _ _ _ HB (visible_not_error _ Hv) Hm) as [H1 H2]; [done|done|].
      set (v1 := vcall E (CallWrite (v_up v)) v) in *.
      split; try done; pvs; unfold tls_log in *; pvs; rewrite El; lg; try done. rewrite <- app_assoc, take_drop. exact Hup.
    - split; try done; pvs; tr; done.
    - split; try done; pvs; tr; try done; [by apply Forall_app|]. by rewrite Hrx, app_assoc.
    - by split.
    - pose proof Hw as Hv. unfold wants_read_tls in Hv. rewrite !andb_true_iff in Hv. destruct Hv as [[[Hv _] _] _].
      destruct (vcall_made (CallReadTls (take n (v_rx v))) v) as (o & Hm & Hs & _). destruct (read_tls_log v n Hn) as (l & El & L2 & L1 & L3 & L4 & Ho). apply Ho in Hs as Hne.
      destruct (base_call _ _ _ HB (visible_not_error _ Hv) Hm) as [H1 H2]; [done|by apply Forall_take|].
      set (v1 := vcall E _ v) in *.
      split; try done; pvs; unfold tls_log in *; pvs; try rewrite El; lg; rewrite ?L1, ?L2, ?L3, ?L4, ?app_nil_r; try done; [by apply Forall_drop|].
      rewrite <- app_assoc, take_drop. exact Hrx.
    - destruct (vcall_made (CallWriteTls n) v) as (o & Hm & Hs & _). destruct (write_tls_log v n) as [El Ho]. apply Ho in Hs as ->.
      destruct (base_call _ _ _ HB (visible_not_error _ Hv) Hm) as [H1 H2]; [done|done|].
      set (v1 := vcall E _ v) in *.
      split; try done; pvs; unfold tls_log in *; pvs; rewrite El; lg; try done. by rewrite Htx, app_assoc.
    - split; try done; pvs; tr; try done. by rewrite <- app_assoc, take_drop.
    - destruct (vcall_made (CallRead n) v) as (o & Hm & Hs & _). destruct (read_log v n) as [El Ho]. apply Ho in Hs as ->.
      destruct (base_call _ _ _ HB (visible_not_error _ Hv) Hm) as [H1 H2]; [done|done|].
      set (v1 := vcall E _ v) in *.
      split; try done; pvs; unfold tls_log in *; pvs; rewrite El; lg; try done. by rewrite Hdn, app_assoc.
    - by split.
    - split; try done; pvs; tr; done.
    - split; try done; pvs; tr; done.
    - split; try done; pvs; tr; try done. by rewrite Hup, app_assoc.
    - split; try done; pvs; tr; try done. by rewrite <- app_assoc, take_drop.
    - split; try done; pvs; tr; done.
    - split; try done; pvs; tr; done.
  Qed.
  Lemma base_moves v v' : base v -> moves E b_empty fuel v v' -> base v'.
  Proof. intros H1 H2. revert H1. induction H2; [done|]. intros ?. apply IHrtc. by eapply base_move. Qed.
End Inv.
