(** How the prover's connection is started and closed. *)
From stdpp Require Import relations.
From Verif.Lib Require Import Base.
From Verif Require Import ProofModel CodecModel CodecSpec CodecLemmas TlsModel HandshakeModel
  AttestModel SigAlgModel RecordModel ClientModel ClientSpec ClientLemmas ClientInv ClientSteps ClientFlight ClientRun ClientMain
  ClientEffects ClientData ClientOut ClientFinal ClientPanic ConnModel ConnSpec ConnCalls ConnMoves ConnLemmas ConnInv ConnMono.

Section Close.
  Context (E : env) (b_empty : list cev -> bool) (fuel : nat).

  (** Calls made once, and the connection before them. *)
  Definition once (k : call) (calls : list call) (P : conn -> Prop) : Prop := forall ks1 ks2, calls = ks1 ++ k :: ks2 ->
    k ∉ ks1 /\ k ∉ ks2 /\ forall c os, run E conn_new ks1 = (c, os) -> P c.
  Lemma once_none k calls P : k ∉ calls -> once k calls P.
  Proof. intros H ks1 ks2 ->. destruct H. apply elem_of_app. right. by left. Qed.
  Lemma once_if k calls P : (k ∈ calls -> once k calls P) -> once k calls P.
  Proof. intros H ks1 ks2 He. apply H; [|done]. rewrite He. apply elem_of_app. right. by left. Qed.
  Lemma once_app k calls ks (P P' : conn -> Prop) : once k calls P -> k ∉ ks -> (forall c, P c -> P' c) -> once k (calls ++ ks) P'.
  Proof.
    intros H Hk HP ks1 ks2 He.
    assert (exists l, calls = ks1 ++ k :: l /\ ks2 = l ++ ks) as (l & -> & ->).
    { clear H. revert calls He. induction ks1 as [|k1 ks1 IH]; intros calls He.
      - destruct calls as [|k0 calls]; simpl in *; [destruct Hk; rewrite He; by left|]. injection He as -> <-. by exists calls.
      - destruct calls as [|k0 calls]; simpl in He; [destruct Hk; rewrite He; right; apply elem_of_app; right; by left|]. injection He as -> He.
        apply IH in He as (l & -> & ->). by exists l. }
    destruct (H _ _ eq_refl) as (H1 & H2 & H3). split_and!; [done|rewrite elem_of_app; tauto|]. intros c os Hr. eapply HP, H3, Hr.
  Qed.
  Lemma once_snoc k calls (P : conn -> Prop) c os : k ∉ calls -> run E conn_new calls = (c, os) -> P c -> once k (calls ++ [k]) P.
  Proof.
    intros Hk Hr HP ks1 ks2 He.
    assert (ks1 = calls /\ ks2 = []) as [-> ->].
    { clear -He Hk. revert ks1 He. induction calls as [|k0 calls IH]; intros ks1 He.
      - destruct ks1 as [|k1 ks1]; simpl in He; [by injection He as <-|]. injection He as _ He. by destruct ks1.
      - apply not_elem_of_cons in Hk as [Hk1 Hk]. destruct ks1 as [|k1 ks1]; simpl in He; [by injection He as -> ?|]. injection He as <- He.
        by destruct (IH Hk _ He) as [-> ->]. }
    split_and!; [done|apply not_elem_of_nil|]. intros c' os' Hr'. rewrite Hr in Hr'. by injection Hr' as <- _.
  Qed.

  (** ** Starting *)
  Definition started (v : pv) : Prop :=
    match v_tag v with
    | TStart | TBusy JStart => i_calls (v_i v) = []
    | TError => i_calls (v_i v) = [] \/ exists ks, i_calls (v_i v) = CallStart :: ks /\ CallStart ∉ ks
    | _ => exists ks, i_calls (v_i v) = CallStart :: ks /\ CallStart ∉ ks
    end.
  Lemma started_more v v' ks : (exists ks, i_calls (v_i v) = CallStart :: ks /\ CallStart ∉ ks) -> i_calls (v_i v') = i_calls (v_i v) ++ ks -> CallStart ∉ ks ->
    exists ks, i_calls (v_i v') = CallStart :: ks /\ CallStart ∉ ks.
  Proof. intros (ks0 & H1 & H2) H3 H4. exists (ks0 ++ ks). rewrite H3, H1. split; [done|]. rewrite elem_of_app. tauto. Qed.
  Lemma started_visible v k o : started v -> visible v = true -> made E (v_i v) [k] [o] (v_i (vcall E k v)) -> k <> CallStart -> forall v',
    v_tag v' = v_tag v -> v_i v' = v_i (vcall E k v) -> started v'.
  Proof.
    intros H Hv [Hm _] Hk v' Ht Hi. assert (exists ks, i_calls (v_i v) = CallStart :: ks /\ CallStart ∉ ks) as HS.
    { unfold started in H. by apply visible_tag in Hv as [Hv|Hv]; rewrite Hv in H. }
    unfold started. rewrite Ht. assert (exists ks, i_calls (v_i v') = CallStart :: ks /\ CallStart ∉ ks) as HS'.
    { eapply started_more; [exact HS|rewrite Hi; exact Hm|]. intros Hx%elem_of_list_singleton. by destruct Hk. }
    by apply visible_tag in Hv as [-> | ->].
  Qed.
  Lemma not_in_processes k ks : k <> CallProcess -> Forall (eq CallProcess) ks -> k ∉ ks.
  Proof. intros Hk H Hin. rewrite Forall_forall in H. by destruct Hk; rewrite (H _ Hin). Qed.
  Lemma ran_calls i i' r : ran E i i' r -> exists ks, i_calls i' = i_calls i ++ ks /\ Forall (eq CallProcess) ks.
  Proof. intros (ks & os & [H1 _] & H2 & _). by exists ks. Qed.
  (** What the job's calls are. *)
  Lemma did_calls j i i' r : did E j i i' r -> exists ks, i_calls i' = i_calls i ++ ks /\
    (j <> JStart -> CallStart ∉ ks) /\ (j = JStart -> ks = [CallStart]) /\ (j <> JClientClose -> CallCloseNotify ∉ ks) /\ (j <> JServerClose -> CallServerClosed ∉ ks).
  Proof.
    destruct j; cbn [did].
    - intros (o & [H1 _] & _). exists [CallStart]. split_and!; try done; by intros _ ?%elem_of_list_singleton.
    - intros (ks & H1 & H2)%ran_calls. exists ks. split_and!; try done; intros _; by apply not_in_processes.
    - intros [(ks & H1 & H2)%ran_calls|(i1 & o & (ks & H1 & H2)%ran_calls & _ & _ & [H3 _] & _)].
      + exists ks. split_and!; try done; intros _; by apply not_in_processes.
      + exists (ks ++ [CallCloseNotify]). rewrite H3, H1, app_assoc. split_and!; try done; intros _ [Hin|Hin%elem_of_list_singleton]%elem_of_app; try done;
          (eapply not_in_processes; [|exact H2|exact Hin]; done).
    - intros [[(ks & H1 & H2)%ran_calls _]|(i1 & o & (ks & H1 & H2)%ran_calls & [H3 _] & _)].
      + exists ks. split_and!; try done; intros _; by apply not_in_processes.
      + exists (ks ++ [CallServerClosed]). rewrite H3, H1, app_assoc. split_and!; try done; intros _ [Hin|Hin%elem_of_list_singleton]%elem_of_app; try done;
          (eapply not_in_processes; [|exact H2|exact Hin]; done).
  Qed.

  (** ** The order of things *)
  Definition closing (t : tag) : Prop := match t with TCloseActive | TCloseBusy _ | TFinalizing | TFinished => True | _ => False end.
  Record tags (v : pv) : Prop := Tags {
    t_started : started v;
    t_busy : match v_tag v with TBusy j => j <> JServerClose | TCloseBusy j => j = JRun \/ j = JServerClose | _ => True end;
    t_done : match v_tag v with TCloseActive | TCloseBusy JRun | TFinalizing | TFinished => i_done (v_i v) = true | _ => True end;
    t_open : match v_tag v with TStart | TActive | TBusy _ | TCloseBusy JServerClose => CallServerClosed ∉ i_calls (v_i v) | _ => True end;
    t_shut : closing (v_tag v) -> v_shut v = true }.
  Lemma tags_new : tags pv_new.
  Proof. split; try done. apply not_elem_of_nil. Qed.
  Lemma ran_same i i' r : ran E i i' r -> i_close_sent i' = i_close_sent i /\ i_done i' = i_done i.
  Proof. by intros (ks & os & _ & _ & _ & H1 & H2 & _). Qed.
  Lemma did_done j i i' r : did E j i i' r -> (i_done i = true -> j <> JServerClose -> i_done i' = true) /\ (j = JServerClose -> r = JOk -> i_done i' = true).
  Proof.
    destruct j; cbn [did].
    - intros (o & _ & _ & _ & -> & _). done.
    - intros [_ ->]%ran_same. done.
    - intros [[_ ->]%ran_same|(i1 & o & _ & _ & -> & _)]; done.
    - intros [[_ H]|(i1 & o & _ & _ & _ & _ & _ & _ & H)]; [done|]. split; [done|]. intros _ Hr. by apply H.
  Qed.
  Lemma tags_visible v k o : tags v -> visible v = true -> made E (v_i v) [k] [o] (v_i (vcall E k v)) -> i_done (v_i (vcall E k v)) = i_done (v_i v) ->
    k <> CallStart -> k <> CallServerClosed -> forall v', v_tag v' = v_tag v -> v_i v' = v_i (vcall E k v) -> v_shut v' = v_shut v -> tags v'.
  Proof.
    intros [H1 H2 H3 H4 H5] Hv Hm Hd Hk1 Hk2 v' Ht Hi Hs. split; rewrite ?Ht, ?Hi, ?Hs, ?Hd; try done.
    - by eapply started_visible.
    - destruct Hm as [-> _]. assert (CallServerClosed ∉ i_calls (v_i v) -> CallServerClosed ∉ i_calls (v_i v) ++ [k]) as HN.
      { intros Hn [?|Hx%elem_of_list_singleton]%elem_of_app; [done|by destruct Hk2]. }
      destruct (v_tag v) as [| |j| |[]| | |]; auto.
  Qed.
  Lemma tags_move v v' : tags v -> move E b_empty fuel v v' -> tags v'.
  Proof.
    intros HT HM. pose proof HT as [H1 H2 H3 H4 H5].
    destruct HM as [v t Ht|v j i r t Hbusy Hjob Hnt|v Hu Hue|v Hv Hu|v|v b Hb|v Hr Hs|v n Hw Hn|v n Hv|v n|v n Hv Hd|v Hf|v|v|v b Hue|v n Hde|v Hue|v Hde]; try (by split).
    - destruct Ht as [v Et|v Et|v Et _ _ _|v Et _ ?|v Et|v Et|v]; (split; unfold started in *; pvs; rewrite ?Et in *; auto; try done).
      destruct (v_tag v) as [| |[]| |[]| | |]; auto.
    - apply do_job_did in Hjob. apply did_done in Hjob as Hdn. destruct Hdn as [Hdn1 Hdn2]. apply did_calls in Hjob as (ks & Hc & C1 & C2 & _ & C3).
      assert (exists ks0, i_calls i = CallStart :: ks0 /\ CallStart ∉ ks0) as HG.
      { unfold started in H1. destruct (v_tag v) as [| |j'| |j'| | |]; try done; injection Hbusy as ->.
        - destruct j; try (apply (started_more v (put_i i v) ks); [done|done|by apply C1]).
          rewrite Hc, H1, (C2 eq_refl). exists []. split; [done|apply not_elem_of_nil].
        - assert (j <> JStart) as Hj by (destruct H2; congruence). apply (started_more v (put_i i v) ks); [done|done|by apply C1]. }
      split; pvs.
      + unfold started. pvs. destruct Hnt; auto.
      + by destruct Hnt.
      + destruct Hnt as [j' i|j' i Hd|j' i Hd Hdone|]; try done. simpl in Hbusy. injection Hbusy as ->. destruct H2 as [-> | ->]; [|by apply Hdn2]. by apply Hdn1.
      + destruct Hnt as [j' i|j' i Hd|j' i Hd Hdone|]; try done. simpl in Hbusy. injection Hbusy as ->. rewrite Hc. intros [?|?]%elem_of_app; [done|]. by apply C3.
      + intros Hcl. apply H5. by destruct Hnt.
    - destruct (vcall_made E (CallWrite (v_up v)) v) as (o & Hm & _ & _ & Hd). by eapply tags_visible.
    - pose proof Hw as Hv. unfold wants_read_tls in Hv. rewrite !andb_true_iff in Hv. destruct Hv as [[[Hv _] _] _].
      destruct (vcall_made E (CallReadTls (take n (v_rx v))) v) as (o & Hm & _ & _ & Hd). by eapply tags_visible.
    - destruct (vcall_made E (CallWriteTls n) v) as (o & Hm & _ & _ & Hd). by eapply tags_visible.
    - destruct (vcall_made E (CallRead n) v) as (o & Hm & _ & _ & Hdn). by eapply tags_visible.
  Qed.

  (** ** The application's end *)
  Definition app_end (v : pv) (c : conn) : Prop := accepted (log_of c) = accepted (tls_log v) /\ (backend_ok E -> app_sent (log_of c) = accepted (log_of c)).
  Record ending (v : pv) : Prop := Ending {
    e_wants : v_wants v = true -> v_up v = [] /\ v_up_end v = true;
    e_client : v_tag v = TBusy JClientClose -> v_wants v = true /\ handshaking (v_i v) = false;
    e_notify : CallCloseNotify ∈ i_calls (v_i v) -> v_wants v = true /\ (i_close_sent (v_i v) = true \/ v_tag v = TError);
    e_once : once CallCloseNotify (i_calls (v_i v)) (app_end v) }.
  Lemma ending_new : ending pv_new.
  Proof. split; try done; [by intros ?%not_elem_of_nil|]. apply once_none, not_elem_of_nil. Qed.

  Lemma not_in_one (k k' : call) : k <> k' -> k ∉ [k']. Proof. by intros H ?%elem_of_list_singleton. Qed.
  Lemma ending_keep v v' ks : ending v -> (v_wants v = true -> v_wants v' = true /\ v_up v' = [] /\ v_up_end v' = true) ->
    (v_wants v' = true -> v_up v' = [] /\ v_up_end v' = true) -> i_calls (v_i v') = i_calls (v_i v) ++ ks -> CallCloseNotify ∉ ks ->
    (i_close_sent (v_i v) = true -> i_close_sent (v_i v') = true) -> (v_tag v = TError -> v_tag v' = TError) ->
    (v_tag v' = TBusy JClientClose -> v_wants v' = true /\ handshaking (v_i v') = false) ->
    (v_wants v = true -> accepted (tls_log v') = accepted (tls_log v)) -> ending v'.
  Proof.
    intros [H1 H2 H3 H4] A1 A2 A3 A4 A5 A6 A7 A8.
    assert (CallCloseNotify ∈ i_calls (v_i v') -> CallCloseNotify ∈ i_calls (v_i v)) as HI. { rewrite A3. by intros [?|?]%elem_of_app. }
    split; [done|done| |].
    - intros Hn%HI%H3. destruct Hn as [Hn1 [Hn2|Hn2]]; split; auto; by apply A1.
    - apply once_if. intros Hn. apply HI, H3 in Hn as [Hw _]. rewrite A3. eapply once_app; [exact H4|done|]. intros c [P1 P2]. split; [by rewrite A8|done].
  Qed.
  Lemma handshaking_up i i' : up (c_x (i_tls i)) (c_x (i_tls i')) -> handshaking i = false -> handshaking i' = false.
  Proof.
    unfold handshaking. rewrite !negb_false_iff, !andb_true_iff. intros (U1 & U2 & _) [H1 H2]. auto.
  Qed.
  Lemma all_sent_may c c' : backend_ok E -> reached E c -> step E c CallProcess = (c', Ok tt) -> x_may_send (c_x c') = true ->
    accepted (log_of c') = app_sent (log_of c').
  Proof.
    intros HB HR%reached_all H Ht; [|done]. pose proof (step_all E HB c CallProcess c' (Ok tt) HR I H) as (HG' & HD' & _).
    apply process_ok in H as (st & st' & Es & Es' & H). destruct HR as (_ & HD & _). unfold data_conn in HD, HD'. unfold good_conn in HG'. rewrite Es' in HD', HG'. rewrite Es in HD.
    destruct HG' as [[HI _] _]. assert (st' = CsTraffic) as ->.
    { assert (early (c_x c') -> False) as HE. { intros (_ & _ & He & _). congruence. }
      destruct st'; simpl in HI; try (destruct HI as [[? _] _]; by destruct HE); try done. destruct HI as [? _]. by destruct HE. }
    apply process_body_data in H as [HA HL]; [|by apply bo_given|by destruct HD..]. specialize (HL _ eq_refl). destruct HL as (_ & _ & HS).
    destruct (d_sent _ _ HA) as (lost & Hd & Hl). unfold log_of. rewrite Hd, (Hl eq_refl), HS by done. by rewrite app_nil_r.
  Qed.
  Lemma ran_log i i' r : ran E i i' r -> accepted (log_of (i_tls i')) = accepted (log_of (i_tls i)) /\ wire_in (log_of (i_tls i')) = wire_in (log_of (i_tls i)) /\
    up (c_x (i_tls i)) (c_x (i_tls i')).
  Proof.
    intros (ks & os & [_ H1] & H2 & _). split_and!.
    1, 2: apply calm_run in H1 as (l & -> & (L1 & L2 & L3 & L4)%calm_nil); [rewrite ?accepted_app, ?wire_in_app, ?L1, ?L2; by rewrite app_nil_r|by apply processes].
    eapply run_up; [|exact H1]. intros n. by apply not_in_processes.
  Qed.
  Lemma job_log j i i' r : did E j i i' r -> accepted (log_of (i_tls i')) = accepted (log_of (i_tls i)) /\ wire_in (log_of (i_tls i')) = wire_in (log_of (i_tls i)).
  Proof. intros (ks & os & [_ H1] & H2 & _)%did_made. apply calm_run in H1 as (l & -> & (L1 & L2 & L3 & L4)%calm_nil); [|done]. by rewrite accepted_app, wire_in_app, L1, L2, !app_nil_r. Qed.
  (** A connection that has just been run. *)
  Definition fresh (c : conn) : Prop := exists c0, reached E c0 /\ step E c0 CallProcess = (c, Ok tt).
  Lemma ran_fresh v i' : base E v -> v_tag v <> TError -> ran E (v_i v) i' JOk -> fresh (i_tls i') /\ exists os, run E conn_new (i_calls i') = (i_tls i', os) /\ Panic ∉ os.
  Proof.
    intros HB Ht (ks & os & Hm & Hp & Hpn & _ & _ & Hok). destruct (Hok eq_refl) as (ks0 & os0 & c0 & R0 & P0 & -> & S0).
    destruct (run_made E v _ _ _ (b_run _ _ HB) Ht Hm) as (os1 & R1 & P1 & R2). split.
    - exists c0. split; [|done]. exists (i_calls (v_i v) ++ ks0), (os1 ++ os0). split; [|by eapply run_app].
      apply Forall_app. split; [apply (b_reads _ _ HB)|]. apply Forall_app in Hp as [Hp _]. eapply Forall_impl; [exact Hp|]. by intros ? <-.
    - eexists. split; [exact R2|]. rewrite elem_of_app. intros [?|?%Hpn]; done.
  Qed.
  Lemma ending_visible v k o v' : ending v -> visible v = true -> made E (v_i v) [k] [o] (v_i (vcall E k v)) -> k <> CallCloseNotify ->
    i_close_sent (v_i (vcall E k v)) = i_close_sent (v_i v) -> v_tag v' = v_tag v -> v_i v' = v_i (vcall E k v) -> v_wants v' = v_wants v -> v_up_end v' = v_up_end v ->
    (v_wants v = true -> v_up v' = [] /\ accepted (tls_log v') = accepted (tls_log v)) -> ending v'.
  Proof.
    intros HE Hv [Hm _] Hk Hc Ht Hi Hw Hue Hup. apply (ending_keep v v' [k]); try done.
    - intros Hw'. rewrite Hw, Hue. split_and!; [done|by apply Hup|]. by apply (e_wants _ HE).
    - rewrite Hw, Hue. intros Hw'. split; [by apply Hup|]. by apply (e_wants _ HE).
    - by rewrite Hi.
    - by apply not_in_one.
    - by rewrite Hi, Hc.
    - by rewrite Ht.
    - rewrite Ht. intros Hx. apply visible_tag in Hv as [Hv|Hv]; by rewrite Hv in Hx.
    - intros Hw'. by apply Hup.
  Qed.
  Lemma busy_back t i r : next_tag b_empty t i r (TBusy JClientClose) -> False. Proof. by inversion 1. Qed.
  Lemma ending_move v v' : base E v -> tags v -> ending v -> move E b_empty fuel v v' -> ending v'.
  Proof.
    intros HB HT HE HM. pose proof HE as [H1 H2 H3 H4].
    destruct HM as [v t Ht|v j i r t Hbusy Hjob Hnt|v Hu Hue|v Hv Hu|v|v b Hb|v Hr Hs|v n Hw Hn|v n Hv|v n|v n Hv Hd|v Hf|v|v|v b Hue|v n Hde|v Hue|v Hde].
    - apply (ending_keep v _ []); pvs; try done; [intros Hw; split; [done|by apply H1]|by rewrite app_nil_r|apply not_elem_of_nil| |].
      + intros Et. by destruct Ht; congruence.
      + intros ->. inversion Ht. done.
    - apply do_job_did in Hjob. pose proof Hjob as Hdid. apply did_calls in Hjob as (ks & Hc & _ & _ & Hk & _).
      assert (v_tag v <> TError) as Hte by by eapply busy_not_error.
      assert (t <> TBusy JClientClose) as Htb. { intros ->. by eapply busy_back. }
      assert (i_close_sent (v_i v) = true -> i_close_sent i = true) as Hcs.
      { destruct j; cbn [did] in Hdid.
        - destruct Hdid as (o & _ & _ & -> & _). done.
        - apply ran_same in Hdid as [-> _]. done.
        - destruct Hdid as [Hd|(i1 & o & _ & Hcs & _)]; [by apply ran_same in Hd as [-> _]|]. by rewrite Hcs.
        - destruct Hdid as [[Hd _]|(i1 & o & _ & _ & _ & -> & _)]; [by apply ran_same in Hd as [-> _]|done]. }
      assert (CallCloseNotify ∉ ks -> ending (put_tag t (put_i i v))) as HK.
      { intros Hn. apply (ending_keep v _ ks); pvs; try done; [intros Hw; split; [done|by apply H1]|]. intros _. unfold tls_log. pvs. by apply job_log in Hdid as [-> _]. }
      destruct j; try (by apply HK, Hk). cbn [did] in Hdid.
      destruct Hdid as [Hd|(i1 & o & Hran & Hcs0 & Hdn & [Hm1 Hm2] & Hop & Hr1 & Hr2 & Hr3)].
      { apply HK. destruct Hd as (ks' & os' & [Hc' _] & Hp & _). rewrite Hc' in Hc. apply app_inv_head in Hc as ->. by apply not_in_processes. }
      assert (v_tag v = TBusy JClientClose \/ v_tag v = TCloseBusy JClientClose) as Htag. { destruct (v_tag v) as [| |j| |j| | |]; simpl in Hbusy; try done; injection Hbusy as ->; auto. }
      assert (CallCloseNotify ∉ i_calls (v_i v)) as Hnot. { intros [_ [Hx|Hx]]%H3; [by rewrite Hx in Hcs0|done]. }
      destruct (ran_fresh v i1 HB Hte Hran) as [Hfr (os & Hrun & _)].
      apply ran_log in Hran as Hlog. destruct Hlog as (L1 & _ & Lup).
      destruct Htag as [Htag|Htag].
      2: { pose proof (t_busy _ HT) as HT2. rewrite Htag in HT2. by destruct HT2. }
      destruct (H2 Htag) as [Hwn Hhs].
      assert (i_calls i = i_calls i1 ++ [CallCloseNotify]) as Hci by done.
      assert (exists l, log_of (i_tls i) = log_of (i_tls i1) ++ l /\ Forall calm_ev l) as (l & El & (L2 & _)%calm_nil).
      { eapply calm_run; [|exact Hm2]. by constructor. }
      split; pvs; try done.
      + intros _. split; [done|]. destruct Hnt as [j' i|j' i Hd|j' i Hd Hdone|]; try done; [left; by apply Hr2|by right].
      + rewrite Hci. eapply once_snoc; [|exact Hrun|].
        * destruct (ran_calls _ _ _ Hran) as (pk & Hpk & Hpp). rewrite Hpk. intros [?|?]%elem_of_app; [done|]. by apply (not_in_processes CallCloseNotify pk).
        * split; [unfold tls_log; pvs; by rewrite El, accepted_app, L2, app_nil_r|]. intros HBk.
          destruct Hfr as (c0 & Hre & Hst). symmetry. eapply all_sent_may; [done|exact Hre|exact Hst|].
          unfold handshaking in Hhs. rewrite negb_false_iff, andb_true_iff in Hhs. destruct Hhs as [Hms _]. by apply Lup.
    - apply (ending_keep v _ []); pvs; try done; [by rewrite app_nil_r|apply not_elem_of_nil|].
      intros Et. split; [done|]. by apply H2.
    - destruct (vcall_made E (CallWrite (v_up v)) v) as (o & Hm & _ & Hc & _). eapply ending_visible; [exact HE|exact Hv|exact Hm|done|done|done|done|done|done|].
      intros Hw. by destruct (H1 Hw) as [? _].
    - apply (ending_keep v _ []); pvs; try done; [intros Hw; split; [done|by apply H1]|by rewrite app_nil_r|apply not_elem_of_nil].
    - apply (ending_keep v _ []); pvs; try done; [intros Hw; split; [done|by apply H1]|by rewrite app_nil_r|apply not_elem_of_nil].
    - apply (ending_keep v _ []); pvs; try done; [intros Hw; split; [done|by apply H1]|by rewrite app_nil_r|apply not_elem_of_nil].
    - pose proof Hw as Hv. unfold wants_read_tls in Hv. rewrite !andb_true_iff in Hv. destruct Hv as [[[Hv _] _] _].
      destruct (vcall_made E (CallReadTls (take n (v_rx v))) v) as (o & Hm & _ & Hc & _). eapply ending_visible; [exact HE|exact Hv|exact Hm|done|done|done|done|done|done|].
      intros Hwn. pvs. split; [by apply H1|]. destruct (read_tls_log E v n Hn) as (l & El & _ & L1 & _). unfold tls_log in *. pvs. by rewrite El, accepted_app, L1, app_nil_r.
    - destruct (vcall_made E (CallWriteTls n) v) as (o & Hm & _ & Hc & _). eapply ending_visible; [exact HE|exact Hv|exact Hm|done|done|done|done|done|done|].
      intros Hwn. pvs. split; [by apply H1|]. destruct (write_tls_log E v n) as [El _]. unfold tls_log in *. pvs. by rewrite El, accepted_app, app_nil_r.
    - apply (ending_keep v _ []); pvs; try done; [intros Hw; split; [done|by apply H1]|by rewrite app_nil_r|apply not_elem_of_nil].
    - destruct (vcall_made E (CallRead n) v) as (o & Hm & _ & Hc & _). eapply ending_visible; [exact HE|exact Hv|exact Hm|done|done|done|done|done|done|].
      intros Hwn. pvs. split; [by apply H1|]. destruct (read_log E v n) as [El _]. unfold tls_log in *. pvs. by rewrite El, accepted_app, app_nil_r.
    - apply (ending_keep v _ []); pvs; try done; [intros Hw; split; [done|by apply H1]|by rewrite app_nil_r|apply not_elem_of_nil].
    - apply (ending_keep v _ []); pvs; try done; [intros Hw; split; [done|by apply H1]|by rewrite app_nil_r|apply not_elem_of_nil].
    - apply (ending_keep v _ []); pvs; try done; [intros Hw; split; [done|by apply H1]|by rewrite app_nil_r|apply not_elem_of_nil].
    - apply (ending_keep v _ []); pvs; try done; [intros Hw; by destruct (H1 Hw); congruence|intros Hw; by destruct (H1 Hw); congruence|by rewrite app_nil_r|apply not_elem_of_nil].
    - apply (ending_keep v _ []); pvs; try done; [intros Hw; split; [done|by apply H1]|by rewrite app_nil_r|apply not_elem_of_nil].
    - apply (ending_keep v _ []); pvs; try done; [intros Hw; split_and!; [done|by apply H1|done]|intros Hw; split; [by apply H1|done]|by rewrite app_nil_r|apply not_elem_of_nil].
    - apply (ending_keep v _ []); pvs; try done; [intros Hw; split_and!; [done|by apply H1|done]|intros Hw; split; [by apply H1|done]|by rewrite app_nil_r|apply not_elem_of_nil].
  Qed.

  (** ** Logs *)
  Lemma step_close c k c' o : step E c k = (c', o) -> exists l, log_of c' = log_of c ++ l /\ (k = CallServerClosed -> l = [CloseConnection]) /\ (k <> CallServerClosed -> CloseConnection ∉ l).
  Proof.
    assert (forall l, Forall within l -> CloseConnection ∉ l) as HW. { intros l Hl Hin. rewrite Forall_forall in Hl. by apply Hl in Hin. }
    assert (forall e, e <> CloseConnection -> CloseConnection ∉ [e]) as HE. { intros e He ?%elem_of_list_singleton. by destruct He. }
    intros H. destruct k.
    - apply start_call in H as (l & E1 & E2). exists l. split_and!; [done|done|]. intros _. by apply HW.
    - cbn [step] in H. unfold on_x, sgets in H. unfold sbind in H at 1. destruct (df_read _ _); injection H as <- <-.
      + exists [WireIn chunk]. split_and!; [done|done|]. intros _. by apply HE.
      + exists []. split_and!; [by rewrite app_nil_r|done|]. intros _. apply not_elem_of_nil.
    - apply process_call in H as (l & E1 & E2). exists l. split_and!; [done|done|]. intros _. by apply HW.
    - rewrite write_tls_call in H. injection H as <- <-. eexists. split_and!; [done|done|]. intros _. by apply HE.
    - destruct p as [|b p]; [injection H as <- <-; exists []; split_and!; [by destruct c; rewrite app_nil_r|done|intros _; apply not_elem_of_nil]|].
      rewrite write_call in H by done. injection H as <- <-. eexists. split_and!; [done|done|]. intros _. by apply HE.
    - rewrite read_call in H. injection H as <- <-. eexists. split_and!; [done|done|]. intros _. by apply HE.
    - apply notify_call in H as (l & E1 & E2). exists l. split_and!; [done|done|]. intros _. by apply HW.
    - apply closed_call in H as (_ & H & _). exists [CloseConnection]. by split_and!.
  Qed.
  Lemma run_prefix ks c c' os : run E c ks = (c', os) -> exists l, log_of c' = log_of c ++ l.
  Proof.
    revert c os. induction ks as [|k ks IH]; intros c os H; cbn [run] in H; [injection H as <- <-; exists []; by rewrite app_nil_r|].
    destruct (step E c k) as [c1 o] eqn:Es. apply step_close in Es as (l & El & _).
    destruct o; [| |injection H as <- <-; by exists l]; (destruct (run E c1 ks) as [c2 os2] eqn:Er; injection H as <- <-; apply IH in Er as [l' El']; exists (l ++ l'); by rewrite El', El, app_assoc).
  Qed.
  Lemma split_at {A} (a : A) l lr l1 l2 : l ++ lr = l1 ++ a :: l2 -> a ∉ l -> exists l1', l1 = l ++ l1' /\ lr = l1' ++ a :: l2.
  Proof.
    revert l1. induction l as [|b l IH]; intros l1 H Ha; simpl in *; [by exists l1|].
    apply not_elem_of_cons in Ha as [Ha1 Ha]. destruct l1 as [|b' l1]; simpl in H; injection H as -> H; [done|].
    destruct (IH _ H Ha) as (l1' & -> & ->). by exists l1'.
  Qed.
  Lemma run_split ks c c' os l1 l2 : run E c ks = (c', os) -> log_of c' = log_of c ++ l1 ++ CloseConnection :: l2 ->
    exists ks1 ks2 c1 os1, ks = ks1 ++ CallServerClosed :: ks2 /\ run E c ks1 = (c1, os1) /\ log_of c1 = log_of c ++ l1.
  Proof.
    revert c os l1. induction ks as [|k ks IH]; intros c os l1 H Hl; cbn [run] in H.
    { injection H as <- <-. rewrite <- (app_nil_r (log_of c)) in Hl at 1. apply app_inv_head in Hl. by destruct l1. }
    destruct (step E c k) as [c1 o] eqn:Es. apply step_close in Es as HC. destruct HC as (l & El & Hsc & Hnsc).
    assert (exists lr, log_of c' = log_of c1 ++ lr /\ (o = Panic -> lr = []) /\ (o <> Panic -> exists os', run E c1 ks = (c', os'))) as (lr & Elr & Hp & Hnp).
    { destruct o; [| |injection H as <- <-; exists []; by rewrite app_nil_r].
      - destruct (run E c1 ks) as [c2 os2] eqn:Er. injection H as <- <-. destruct (run_prefix _ _ _ _ Er) as [lr ?]. exists lr. split_and!; eauto. done.
      - destruct (run E c1 ks) as [c2 os2] eqn:Er. injection H as <- <-. destruct (run_prefix _ _ _ _ Er) as [lr ?]. exists lr. split_and!; eauto. done. }
    rewrite Elr, El, <- app_assoc in Hl. apply app_inv_head in Hl.
    assert (o = Panic \/ o <> Panic) as Ho by (destruct o; auto).
    assert (forall l1', l1 = l ++ l1' -> lr = l1' ++ CloseConnection :: l2 -> exists ks1 ks2 c2 os2, k :: ks = ks1 ++ CallServerClosed :: ks2 /\ run E c ks1 = (c2, os2) /\ log_of c2 = log_of c ++ l1) as HI.
    { intros l1' -> ->. destruct Ho as [Ho|Ho]; [apply Hp in Ho; by destruct l1'|]. destruct (Hnp Ho) as [os' Hrun].
      destruct (IH _ _ l1' Hrun Elr) as (ks1 & ks2 & c2 & os2 & -> & Hr & Hlog). exists (k :: ks1), ks2, c2, (o :: os2).
      split_and!; [done|cbn [run]; rewrite Es, Hr; by destruct o|]. by rewrite Hlog, El, app_assoc. }
    assert (k = CallServerClosed \/ k <> CallServerClosed) as [Hk|Hk] by (destruct k; auto; by right).
    - rewrite (Hsc Hk) in *. subst k. destruct l1 as [|e l1]; [exists [], ks, c, []; split_and!; [done|done|by rewrite app_nil_r]|].
      simpl in Hl. injection Hl as <- Hl. by apply (HI l1).
    - destruct (split_at _ _ _ _ _ Hl (Hnsc Hk)) as (l1' & -> & ->). by apply (HI l1').
  Qed.

  (** ** The server's end *)
  Definition server_end (v : pv) (c : conn) : Prop := fresh c /\ (ends_once (v_trace v) -> wire_in (log_of c) = wire_in (tls_log v)).
  (** Done: just run, or told about the end just after that. *)
  Definition rested (c : conn) : Prop := exists c1, fresh c1 /\ (c = c1 \/ step E c1 CallServerClosed = (c, Ok tt)).
  Definition closed_in (i : inner) : Prop := CallServerClosed ∈ i_calls i /\ CloseConnection ∈ log_of (i_tls i).
  Record server (v : pv) : Prop := Server {
    s_ended : v_server_closed v = true -> SockEnded ∈ v_trace v;
    s_shut : v_shut v = true -> v_server_closed v = true /\ (ends_once (v_trace v) -> v_rx v = []);
    s_called : CallServerClosed ∈ i_calls (v_i v) -> v_shut v = true;
    s_once : once CallServerClosed (i_calls (v_i v)) (server_end v);
    s_output : v_output v = true -> v_tag v = TFinished \/ v_tag v = TError;
    s_final : v_tag v = TFinalizing \/ v_tag v = TFinished \/ v_output v = true ->
      rested (i_tls (v_i v)) /\ drained b_empty (v_i v) = true /\ closed_in (v_i v);
    s_close : v_tag v = TCloseActive \/ v_tag v = TCloseBusy JRun -> closed_in (v_i v) }.
  Lemma server_new : server pv_new.
  Proof. split; try done; [by intros ?%not_elem_of_nil|apply once_none, not_elem_of_nil|by intros [?|[?|?]]|by intros [?|?]]. Qed.

  Lemma once_same k calls (P P' : conn -> Prop) : once k calls P -> (forall c, P c -> P' c) -> once k calls P'.
  Proof. intros H HP ks1 ks2 He. destruct (H _ _ He) as (A1 & A2 & A3). split_and!; [done..|]. intros c os Hr. eapply HP, A3, Hr. Qed.
  Lemma server_same v v' t : server v -> v_i v' = v_i v -> v_tag v' = v_tag v -> v_trace v' = v_trace v ++ t ->
    (v_server_closed v' = true -> SockEnded ∈ v_trace v') -> (v_shut v = true -> v_shut v' = true) ->
    (v_shut v' = true -> v_server_closed v' = true /\ (ends_once (v_trace v') -> v_rx v' = [])) ->
    (v_output v' = true -> v_output v = true \/ v_tag v = TFinished) -> server v'.
  Proof.
    intros [H1 H2 H3 H4 H5 H6 H7] Hi Ht Htr K1 K2 K3 K4. split; rewrite ?Hi, ?Ht; try done.
    - intros Hc. by apply K2, H3.
    - eapply once_same; [exact H4|]. intros c [A1 A2]. split; [done|]. rewrite Htr. intros He%ends_once_prefix. unfold tls_log. rewrite Hi. by apply A2.
    - intros [Ho|Ho]%K4; auto.
    - intros [?|[?|[?|?]%K4]]; apply H6; auto.
  Qed.
  Lemma visible_end v : visible v = true -> ~ (v_tag v = TFinalizing \/ v_tag v = TFinished) /\ v_tag v <> TError /\ (v_tag v = TCloseBusy JRun -> False).
  Proof. intros [-> | ->]%visible_tag; (split; [by intros []|done]). Qed.
  Lemma server_visible v k o v' : server v -> visible v = true -> made E (v_i v) [k] [o] (v_i (vcall E k v)) -> k <> CallServerClosed ->
    v_tag v' = v_tag v -> v_i v' = v_i (vcall E k v) -> v_trace v' = v_trace v -> v_server_closed v' = v_server_closed v -> v_shut v' = v_shut v -> v_output v' = v_output v ->
    (v_shut v = true -> ends_once (v_trace v) -> v_rx v' = [] /\ wire_in (tls_log v') = wire_in (tls_log v)) -> server v'.
  Proof.
    intros [H1 H2 H3 H4 H5 H6 H7] Hv [Hm Hm2] Hk Ht Hi Htr Hsc Hsh Hou HX.
    destruct (visible_end v Hv) as (V1 & V2 & V3).
    assert (v_output v = true -> False) as Vo. { intros [Ho|Ho]%H5; [apply V1; auto|done]. }
    assert (CallServerClosed ∈ i_calls (v_i v') -> CallServerClosed ∈ i_calls (v_i v)) as HI.
    { rewrite Hi, Hm. intros [?|Hx%elem_of_list_singleton]%elem_of_app; [done|by destruct Hk]. }
    split; rewrite ?Ht, ?Htr, ?Hsc, ?Hsh, ?Hou; try done.
    - intros Hs. destruct (H2 Hs) as [A1 A2]. split; [done|]. intros He. by apply HX.
    - intros Hc%HI. by apply H3.
    - apply once_if. intros Hc%HI%H3. rewrite Hi, Hm. eapply once_app; [exact H4|by apply not_in_one|]. intros c [A1 A2]. split; [done|]. rewrite Htr.
      intros He. destruct (HX Hc He) as [_ ->]. by apply A2.
    - intros [?|[?|?]]; [by destruct V1; auto..|by destruct Vo].
    - intros Hx. destruct (H7 Hx) as [A1 A2]. unfold closed_in. rewrite Hi. split; [rewrite Hm; apply elem_of_app; by left|].
      destruct (run_prefix [k] _ _ _ Hm2) as [l ->]. apply elem_of_app. by left.
  Qed.
  Lemma server_move v v' : base E v -> tags v -> server v -> move E b_empty fuel v v' -> server v'.
  Proof.
    intros HB HT HS HM. pose proof HS as [H1 H2 H3 H4 H5 H6 H7].
    destruct HM as [v t Ht|v j i r t Hbusy Hjob Hnt|v Hu Hue|v Hv Hu|v|v b Hb|v Hr Hs|v n Hw Hn|v n Hv|v n|v n Hv Hd|v Hf|v|v|v b Hue|v n Hde|v Hue|v Hde].
    - split; pvs; try done.
      + intros Ho. destruct (H5 Ho) as [Hx|Hx]; destruct Ht; congruence || auto.
      + destruct Ht as [v Et|v Et|v Et _ _ _|v Et _ _|v Et|v Et|v]; intros [Hx|[Hx|Hx]]; try done; apply H6; auto.
      + destruct Ht as [v Et|v Et|v Et _ _ _|v Et _ _|v Et|v Et|v]; intros [Hx|Hx]; try done. apply H7. auto.
    - apply do_job_did in Hjob. pose proof Hjob as Hdid. apply did_calls in Hjob as (ks & Hc & _ & _ & _ & Hk).
      assert (v_tag v <> TError) as Hte by by eapply busy_not_error.
      assert (v_output v = true -> False) as Vo. { intros [Ho|Ho]%H5; [by rewrite Ho in Hbusy|done]. }
      apply job_log in Hdid as Hlog. destruct Hlog as [_ Hwi].
      assert (forall t', next_tag b_empty (v_tag v) i r t' -> t' = TCloseActive \/ t' = TFinalizing -> r = JOk /\ exists j, v_tag v = TCloseBusy j) as Hnt1.
      { intros t' Hn [-> | ->]; inversion Hn; by eauto. }
      assert (v_tag v = TCloseBusy j -> j = JRun \/ j = JServerClose) as Hj. { intros Hx. pose proof (t_busy _ HT) as HT2. by rewrite Hx in HT2. }
      assert (r = JOk -> v_tag v = TCloseBusy j -> rested (i_tls i) /\ closed_in i) as Hrest.
      { intros -> Htg. destruct (Hj Htg) as [-> | ->]; cbn [did] in Hdid.
        - destruct (ran_fresh v i HB Hte Hdid) as [Hf _]. split; [exists (i_tls i); auto|].
          destruct (H7 (or_intror Htg)) as [A1 A2]. split; [rewrite Hc; apply elem_of_app; by left|]. destruct Hdid as (ks' & os' & [_ Hm'] & _).
          destruct (run_prefix _ _ _ _ Hm') as [l ->]. apply elem_of_app. by left.
        - destruct Hdid as [[_ Hx]|(i1 & o & Hran & [Hm1 _] & Hst & _ & _ & _ & Hok)]; [done|]. destruct (Hok eq_refl) as [-> _].
          destruct (ran_fresh v i1 HB Hte Hran) as [Hf _]. split; [exists (i_tls i1); auto|]. split; [rewrite Hm1; apply elem_of_app; right; by left|].
          apply closed_call in Hst as (_ & Hst & _). unfold log_of. rewrite Hst. apply elem_of_app. right. by left. }
      split; pvs; try done.
      + intros Hin. rewrite Hc in Hin. apply elem_of_app in Hin as [?|Hin]; [by apply H3|].
        destruct j; try (by apply Hk in Hin). apply (t_shut _ HT). destruct (v_tag v) as [| |j'| |j'| | |] eqn:Etg; try done. simpl in Hbusy. injection Hbusy as ->.
        pose proof (t_busy _ HT) as HT2. by rewrite Etg in HT2.
      + assert (CallServerClosed ∉ ks -> once CallServerClosed (i_calls i) (server_end (put_tag t (put_i i v)))) as HK.
        { intros Hn. rewrite Hc. eapply once_app; [exact H4|done|]. intros c [A1 A2]. split; [done|]. pvs. intros He. unfold tls_log. pvs. rewrite Hwi. by apply A2. }
        destruct j; try (by apply HK, Hk). cbn [did] in Hdid.
        destruct Hdid as [[Hd _]|(i1 & o & Hran & [Hm1 Hm2] & Hst & _)].
        { apply HK. destruct Hd as (ks' & os' & [Hc' _] & Hp & _). rewrite Hc' in Hc. apply app_inv_head in Hc as ->. by apply not_in_processes. }
        destruct (ran_fresh v i1 HB Hte Hran) as [Hfr (os & Hrun & _)].
        rewrite Hm1. eapply once_snoc; [|exact Hrun|].
        * destruct (ran_calls _ _ _ Hran) as (pk & Hpk & Hpp). rewrite Hpk. intros [Hin|?]%elem_of_app; [|by apply (not_in_processes CallServerClosed pk)].
          pose proof (t_open _ HT) as HO. pose proof (t_busy _ HT) as HT2. destruct (v_tag v) as [| |j'| |j'| | |] eqn:Etg; try done; simpl in Hbusy; injection Hbusy as ->; done.
        * split; [done|]. pvs. intros _. unfold tls_log. pvs. apply calm_run in Hm2 as (l & -> & (_ & L2 & _)%calm_nil); [|by constructor]. by rewrite wire_in_app, L2, app_nil_r.
      + intros [Hx|[Hx|Hx]]; [|subst t; inversion Hnt|by destruct (Vo Hx)]. subst t. pose proof Hnt as Hnt'. apply Hnt1 in Hnt as [-> [j' Etg]]; [|auto].
        rewrite Etg in Hbusy. simpl in Hbusy. injection Hbusy as ->. destruct (Hrest eq_refl Etg) as [A1 A2]. split_and!; [done| |done]. by inversion Hnt'.
      + intros [Hx|Hx]; subst t; [|inversion Hnt]. apply Hnt1 in Hnt as [-> [j' Etg]]; [|auto].
        rewrite Etg in Hbusy. simpl in Hbusy. injection Hbusy as ->. by destruct (Hrest eq_refl Etg) as [A1 A2].
    - apply (server_same v _ []); pvs; try done; [by rewrite app_nil_r|by left].
    - destruct (vcall_made E (CallWrite (v_up v)) v) as (o & Hm & _). eapply server_visible; [exact HS|exact Hv|exact Hm|done..|].
      intros Hsh He. pvs. split; [by apply H2|]. destruct (write_log E v Hu) as [El _]. unfold tls_log in *. pvs. by rewrite El, wire_in_app, app_nil_r.
    - apply (server_same v _ [SockEnded]); pvs; try done; [intros _; apply elem_of_app; right; by left| |by left].
      intros Hsh. split; [done|]. intros He%ends_once_prefix. by apply H2.
    - apply (server_same v _ [SockGave b]); pvs; try done; [intros Hx; apply elem_of_app; left; by apply H1| |by left].
      intros Hsh. destruct (H2 Hsh) as [A1 A2]. split; [done|]. intros He. rewrite (ends_once_last _ _ He (H1 A1)), app_nil_r. apply A2. by eapply ends_once_prefix.
    - apply (server_same v _ []); pvs; try done; [by rewrite app_nil_r|by left].
    - pose proof Hw as Hv. unfold wants_read_tls in Hv. rewrite !andb_true_iff in Hv. destruct Hv as [[[Hv _] _] _].
      destruct (vcall_made E (CallReadTls (take n (v_rx v))) v) as (o & Hm & _). eapply server_visible; [exact HS|exact Hv|exact Hm|done..|].
      intros Hsh He. pvs. destruct (H2 Hsh) as [_ A2]. specialize (A2 He). destruct (read_tls_log E v n Hn) as (l & El & L1 & _). unfold tls_log in *. pvs.
      rewrite El, wire_in_app, L1, A2, take_nil, drop_nil, app_nil_r. done.
    - destruct (vcall_made E (CallWriteTls n) v) as (o & Hm & _). eapply server_visible; [exact HS|exact Hv|exact Hm|done..|].
      intros Hsh He. pvs. split; [by apply H2|]. destruct (write_tls_log E v n) as [El _]. unfold tls_log in *. pvs. by rewrite El, wire_in_app, app_nil_r.
    - apply (server_same v _ [SockTook (take n (v_tx v))]); pvs; try done; [intros Hx; apply elem_of_app; left; by apply H1| |by left].
      intros Hsh. destruct (H2 Hsh) as [A1 A2]. split; [done|]. intros He%ends_once_prefix. by apply A2.
    - destruct (vcall_made E (CallRead n) v) as (o & Hm & _). eapply server_visible; [exact HS|exact Hv|exact Hm|done..|].
      intros Hsh He. pvs. split; [by apply H2|]. destruct (read_log E v n) as [El _]. unfold tls_log in *. pvs. by rewrite El, wire_in_app, app_nil_r.
    - apply (server_same v _ []); pvs; try done; [by rewrite app_nil_r|auto].
    - apply (server_same v _ [HungUp]); pvs; try done; [intros Hx; apply elem_of_app; left; by apply H1| |by left].
      intros Hsh. destruct (H2 Hsh) as [A1 A2]. split; [done|]. intros He%ends_once_prefix. by apply A2.
    - apply (server_same v _ [SockClosed]); pvs; try done; [intros Hx; apply elem_of_app; left; by apply H1| |by left].
      intros Hsh. destruct (H2 Hsh) as [A1 A2]. split; [done|]. intros He%ends_once_prefix. by apply A2.
    - apply (server_same v _ [AppWrote b]); pvs; try done; [intros Hx; apply elem_of_app; left; by apply H1| |by left].
      intros Hsh. destruct (H2 Hsh) as [A1 A2]. split; [done|]. intros He%ends_once_prefix. by apply A2.
    - apply (server_same v _ [AppGot (take n (v_down v))]); pvs; try done; [intros Hx; apply elem_of_app; left; by apply H1| |by left].
      intros Hsh. destruct (H2 Hsh) as [A1 A2]. split; [done|]. intros He%ends_once_prefix. by apply A2.
    - apply (server_same v _ [AppClosed]); pvs; try done; [intros Hx; apply elem_of_app; left; by apply H1| |by left].
      intros Hsh. destruct (H2 Hsh) as [A1 A2]. split; [done|]. intros He%ends_once_prefix. by apply A2.
    - apply (server_same v _ [AppDropped]); pvs; try done; [intros Hx; apply elem_of_app; left; by apply H1| |by left].
      intros Hsh. destruct (H2 Hsh) as [A1 A2]. split; [done|]. intros He%ends_once_prefix. by apply A2.
  Qed.
  Definition all (v : pv) : Prop := base E v /\ tags v /\ ending v /\ server v.
  Lemma all_new : all pv_new.
  Proof. split_and!; [apply base_new|apply tags_new|apply ending_new|apply server_new]. Qed.
  Lemma all_moves v v' : all v -> moves E b_empty fuel v v' -> all v'.
  Proof.
    intros H HM. revert H. induction HM as [|v v1 v2 H1 _ IH]; [done|]. intros (A1 & A2 & A3 & A4). apply IH.
    split_and!; [by eapply base_move|by eapply tags_move|by eapply ending_move|by eapply server_move].
  Qed.
End Close.
