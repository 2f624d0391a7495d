(** How polls end, and how they do not. *)
From stdpp Require Import relations.
From Verif.Lib Require Import Base.
From Verif Require Import ProofModel CodecModel CodecSpec CodecLemmas TlsModel HandshakeModel
  AttestModel SigAlgModel RecordModel ClientModel ClientSpec ClientLemmas ClientInv ClientSteps ClientFlight ClientRun ClientMain
  ClientEffects ClientData ClientOut ClientFinal ClientPanic ConnModel ConnSpec ConnCalls ConnMoves ConnLemmas ConnInv ConnMono ConnClose ConnFinal.

Section End.
  Context (E : env) (b_empty : list cev -> bool) (fuel : nat).
  Notation "v ~> v'" := (moves E b_empty fuel v v') (at level 70).

  (** ** C71 *)
  Lemma notify_lemma ks st v rs ks1 ks2 c os : gives_bytes ks -> leads E b_empty fuel ks st v rs ->
    i_calls (v_i v) = ks1 ++ CallCloseNotify :: ks2 -> run E conn_new ks1 = (c, os) ->
    CallCloseNotify ∉ ks1 ++ ks2 /\ (AppClosed ∈ v_trace v \/ AppDropped ∈ v_trace v) /\ accepted (log_of c) = app_wrote (v_trace v) /\
    (backend_ok E -> app_sent (log_of c) = app_wrote (v_trace v)).
  Proof.
    intros Hk H Hc Hr. destruct (leads_all _ _ _ _ _ _ _ Hk H) as [(HB & _ & HE & _) [_ HU]]. destruct HE as [E1 E2 E3 E4].
    assert (CallCloseNotify ∈ i_calls (v_i v)) as [Hw _]%E3. { rewrite Hc. apply elem_of_app. right. by left. }
    destruct (E1 Hw) as [Hup Hue]. destruct (E4 _ _ Hc) as (N1 & N2 & N3). destruct (N3 _ _ Hr) as [A1 A2].
    pose proof (b_up _ _ HB) as B. rewrite Hup, app_nil_r in B. split_and!.
    - rewrite elem_of_app. tauto.
    - by apply HU.
    - by rewrite B.
    - intros HBk. by rewrite A2, A1, B.
  Qed.
  Lemma close_lemma ks st v rs l1 l2 : backend_ok E -> gives_bytes ks -> leads E b_empty fuel ks st v rs -> tls_log v = l1 ++ CloseConnection :: l2 ->
    CloseConnection ∉ l1 ++ l2 /\ SockEnded ∈ v_trace v /\
    (ends_once (v_trace v) -> wire_in l1 = sock_gave (v_trace v) /\ exists bad rest, stream_holds (sock_gave (v_trace v)) (map snd (records_in l1)) bad rest).
  Proof.
    intros HBk Hk H Hl. destruct (leads_all _ _ _ _ _ _ _ Hk H) as [(HB & _ & _ & HS) _]. destruct HS as [S1 S2 S3 S4 _ _ _].
    destruct (b_run _ _ HB) as (os & Hrun & _).
    destruct (run_split E _ _ _ _ l1 l2 Hrun Hl) as (ks1 & ks2 & c1 & os1 & Hcs & Hr1 & Hl1). change (log_of c1 = l1) in Hl1.
    destruct (S4 _ _ Hcs) as (N1 & N2 & N3). destruct (N3 _ _ Hr1) as [Hf Hw].
    assert (CallServerClosed ∈ i_calls (v_i v)) as Hsh%S3. { rewrite Hcs. apply elem_of_app. right. by left. }
    destruct (S2 Hsh) as [Hsc Hrx]. split_and!.
    - rewrite elem_of_app. intros [Hin|Hin].
      + apply elem_of_list_split in Hin as (a & b & Hab). rewrite Hab in Hl1.
        destruct (run_split E ks1 conn_new c1 os1 a b Hr1 Hl1) as (k1 & k2 & _ & _ & -> & _). destruct N1. apply elem_of_app. right. by left.
      + apply elem_of_list_split in Hin as (a & b & Hab). rewrite Hab in Hl.
        assert (tls_log v = (l1 ++ CloseConnection :: a) ++ CloseConnection :: b) as Hl' by by rewrite Hl, <- app_assoc.
        destruct (run_split E _ _ _ _ _ b Hrun Hl') as (k1 & k2 & c2 & os2 & Hcs2 & Hr2 & Hl2).
        destruct (S4 _ _ Hcs2) as (M1 & _ & _).
        destruct (run_split E k1 conn_new c2 os2 l1 a Hr2 Hl2) as (k3 & k4 & _ & _ & -> & _). destruct M1. apply elem_of_app. right. by left.
    - by apply S1.
    - intros He. specialize (Hw He). specialize (Hrx He). pose proof (b_rx _ _ HB) as B. rewrite Hrx, app_nil_r in B.
      assert (wire_in l1 = sock_gave (v_trace v)) as Hwi. { by rewrite B, <- Hw, Hl1. }
      split; [done|]. destruct Hf as (c0 & HR0 & Hs). destruct (all_taken_lemma E HBk c0 c1 HR0 Hs) as (bad & rest & Ht). rewrite Hl1, Hwi in Ht. by exists bad, rest.
  Qed.

  (** ** C73 *)
  Lemma not_panicked v : (0 < e_frag E)%N -> e_debug E = false -> all E b_empty v -> panicked E b_empty fuel v -> False.
  Proof.
    intros Hf Hd HA (v0 & j & i & r & Hm & Hb & Hj & Hcase). apply (all_moves E b_empty fuel _ _ HA) in Hm as (HB & HT & _ & _).
    pose proof Hj as Hdid. apply do_job_did in Hdid. destruct Hcase as [->|(Htg & -> & Hdn)].
    - apply did_made in Hdid as (ks & os & Hmade & _ & _ & Hp). specialize (Hp eq_refl).
      destruct (run_made E v0 _ _ _ (b_run _ _ HB) (busy_not_error v0 j Hb) Hmade) as (os0 & _ & _ & Hrun).
      assert (started (put_tag TError (put_i i v0))) as HS.
      { eapply t_started, (tags_move E b_empty fuel v0); [done|]. eapply mv_job; [done|exact Hj|constructor]. }
      unfold started in HS. pvs. destruct HS as [HS|(ks' & HS & Hn)].
      + rewrite HS in Hrun. simpl in Hrun. injection Hrun as _ Hrun. symmetry in Hrun. apply app_eq_nil in Hrun as [_ ->]. by apply elem_of_nil in Hp.
      + rewrite HS in Hrun. apply (C64_no_panic_lemma E Hf Hd _ _ _ Hn Hrun). apply elem_of_app. by right.
    - destruct (did_done _ _ _ _ _ Hdid) as [D1 D2]. pose proof (t_busy _ HT) as T2. pose proof (t_done _ HT) as T3. rewrite Htg in T2, T3.
      destruct T2 as [-> | ->]; [specialize (D1 T3)|specialize (D2 eq_refl eq_refl)]; [rewrite D1 in Hdn; done|congruence].
  Qed.
  Lemma no_panic_play ks st v st' v' rs : (0 < e_frag E)%N -> e_debug E = false -> Forall good_step ks -> all E b_empty v -> st <> FDead ->
    play E b_empty fuel ks (st, v) = (st', v', rs) -> PHang ∉ rs -> PPanic ∉ rs.
  Proof.
    intros Hf Hd. revert st v rs. induction ks as [|k ks IH]; intros st v rs Hk HA Hst H Hh; cbn [play] in H; [injection H as <- <- <-; apply not_elem_of_nil|].
    apply Forall_cons in Hk as [Hk Hks]. destruct (do_step E b_empty fuel k (st, v)) as [[st1 v1] r1] eqn:E1.
    destruct (play E b_empty fuel ks (st1, v1)) as [[st2 v2] rs2] eqn:E2. injection H as <- <- <-.
    apply do_step_moves in E1 as (M1 & M2 & M3); [|done]. rewrite elem_of_app in Hh.
    assert (PPanic ∉ r1) as Hp. { intros Hp%M2. destruct Hp as [?|Hp]; [done|]. by eapply not_panicked. }
    rewrite elem_of_app. intros [?|Hp2]; [done|]. eapply IH; [done|by eapply all_moves| |exact E2|tauto|exact Hp2].
    intros Hx. apply M3 in Hx as [?|[?|?]]; tauto.
  Qed.
  Lemma told_lemma ks st v rs : gives_bytes ks -> leads E b_empty fuel ks st v rs -> PReady ∈ rs \/ PErr ∈ rs -> HungUp ∈ v_trace v.
  Proof.
    intros Hk H Hr. destruct (leads_all _ _ _ _ _ _ _ Hk H) as [_ [HO _]]. pose proof H as HE. apply play_ended in HE; [|by apply gives_good|done].
    assert (exists r rs1 rs2, rs = rs1 ++ r :: rs2 /\ (r = PReady \/ r = PErr)) as (r & rs1 & rs2 & Hrs & Hrr).
    { destruct Hr as [Hr|Hr]; apply elem_of_list_split in Hr as (rs1 & rs2 & ->); eauto 10. }
    destruct (ends_lemma E b_empty fuel _ _ _ _ _ _ rs1 r rs2 (gives_good _ Hk) (I : ended FConnected pv_new) H Hrs Hrr) as [_ [-> | ->]]; simpl in HE; apply HO; [by destruct HE as (_ & _ & ?)|done].
  Qed.

  (** ** C72: polls end *)
  Lemma settle_hang f b i i' : settle E f b i = (i', JHang) -> i_calls i' = i_calls i ++ replicate f CallProcess.
  Proof.
    revert b i. induction f as [|f IH]; intros b i H; cbn [settle] in H; [injection H as <-; by rewrite app_nil_r|].
    destruct (icall E CallProcess i) as [i1 o] eqn:Ei. apply icall_made in Ei as ([Hc _] & _). destruct o as [[]|e|]; try done.
    case_bool_decide; [done|]. apply IH in H. rewrite H, Hc, <- app_assoc. done.
  Qed.
  Lemma job_hang j i i' : do_job E fuel j i = (i', JHang) -> exists ks, i_calls i' = ks ++ replicate fuel CallProcess.
  Proof.
    assert (forall i i', job_run E fuel i = (i', JHang) -> exists ks, i_calls i' = ks ++ replicate fuel CallProcess) as HR.
    { intros i0 i0' H. unfold job_run in H. destruct (icall E CallProcess i0) as [i1 o]. destruct o as [[]|e|]; try done. apply settle_hang in H. by eexists. }
    destruct j; cbn [do_job].
    - unfold job_start. destruct (icall _ _ _) as [i1 [| |]]; by intros [= ].
    - apply HR.
    - unfold job_client_close. destruct (job_run E fuel i) as [i1 r1] eqn:Er. destruct r1; try (by intros [= <-]); [|intros [= <-]; by eapply HR].
      destruct (i_close_sent i1); [by intros [= ]|]. destruct (icall _ _ _) as [i2 [| |]]; by intros [= ].
    - unfold job_server_close. destruct (job_run E fuel i) as [i1 r1] eqn:Er. destruct r1; try (by intros [= <-]); [|intros [= <-]; by eapply HR].
      destruct (icall _ _ _) as [i2 [| |]]; by intros [= ].
  Qed.
  Definition spun (v : pv) : Prop := exists ks, i_calls (v_i v) = ks ++ replicate fuel CallProcess.
  Lemma did_up j i i' r : did E j i i' r -> up (c_x (i_tls i)) (c_x (i_tls i')).
  Proof. intros (ks & os & [_ Hr] & Hk & _)%did_made. eapply run_up; [|exact Hr]. intros n Hin. rewrite Forall_forall in Hk. by apply Hk in Hin. Qed.
  Lemma hang_finalizing f ready final v v' : v_tag v = TFinalizing -> mpoll E b_empty fuel (S f) ready final v = (v', PHang) -> False.
  Proof. cbn [mpoll]. intros ->. destruct ready as [|[] ?]; [destruct final|destruct final|]; by intros [= ]. Qed.
  Lemma hang_close_busy f ready final v v' j : v_tag v = TCloseBusy j -> mpoll E b_empty fuel (S (S f)) ready final v = (v', PHang) -> spun v'.
  Proof.
    remember (S f) as g eqn:Eg. cbn [mpoll]. intros ->. intros H.
    assert (exists i r1, do_job E fuel j (v_i v) = (i, r1) /\
        match r1 with
        | JOk => if drained b_empty i then if i_done i then mpoll E b_empty fuel g (tail ready) final (put_tag TFinalizing (put_i i v)) else (put_tag TError (put_i i v), PPanic)
                 else (put_tag TCloseActive (put_i i v), PPending)
        | JErr => (put_tag TError (put_i i v), PErr) | JPanic => (put_tag TError (put_i i v), PPanic) | JHang => (put_tag TError (put_i i v), PHang) end = (v', PHang)) as (i & r1 & Ej & HC).
    { destruct ready as [|[] ready]; [| |done]; destruct (do_job E fuel j (v_i v)) as [i r1] eqn:Ej; by exists i, r1. }
    clear H. destruct r1; try done.
    - destruct (drained b_empty i); [|done]. destruct (i_done i); [|done]. subst g. by apply hang_finalizing in HC.
    - injection HC as <-. apply job_hang in Ej. exact Ej.
  Qed.
  Lemma hang_close_active f ready final v v' : v_tag v = TCloseActive -> mpoll E b_empty fuel (S (S (S f))) ready final v = (v', PHang) -> spun v'.
  Proof. remember (S (S f)) as g eqn:Eg. cbn [mpoll]. intros -> H. subst g. eapply hang_close_busy; [|exact H]. done. Qed.
  Lemma hang_active f ready final v v' : v_tag v = TActive -> v_shut v = true -> handshaking (v_i v) = false -> mpoll E b_empty fuel (S (S (S f))) ready final v = (v', PHang) -> spun v'.
  Proof. remember (S (S f)) as g eqn:Eg. cbn [mpoll]. intros -> -> -> H. subst g. eapply hang_close_busy; [|exact H]. done. Qed.
  Lemma hang_busy f ready final v v' j : v_tag v = TBusy j -> v_shut v = false \/ handshaking (v_i v) = false -> mpoll E b_empty fuel (S (S (S (S f)))) ready final v = (v', PHang) -> spun v'.
  Proof.
    remember (S (S (S f))) as g eqn:Eg. cbn [mpoll]. intros -> Hs H.
    assert (exists i r1, do_job E fuel j (v_i v) = (i, r1) /\
        match r1 with
        | JOk => if v_shut (put_tag TActive (put_i i v)) then mpoll E b_empty fuel g (tail ready) final (put_tag TActive (put_i i v)) else (put_tag TActive (put_i i v), PPending)
        | JErr => (put_tag TError (put_i i v), PErr) | JPanic => (put_tag TError (put_i i v), PPanic) | JHang => (put_tag TError (put_i i v), PHang) end = (v', PHang)) as (i & r1 & Ej & HC).
    { destruct ready as [|[] ready]; [| |done]; destruct (do_job E fuel j (v_i v)) as [i r1] eqn:Ej; by exists i, r1. }
    clear H. destruct r1; try done.
    - pvs. destruct (v_shut v) eqn:Esh; [|done]. destruct Hs as [?|Hs]; [done|]. subst g. eapply hang_active; [| | |exact HC]; [done|done|].
      pvs. eapply handshaking_up; [|exact Hs]. eapply did_up, do_job_did, Ej.
    - injection HC as <-. by apply job_hang in Ej.
  Qed.
  Lemma hang_lemma f ready final v v' : 6 <= f -> v_shut v = false \/ handshaking (v_i v) = false -> mpoll E b_empty fuel f ready final v = (v', PHang) -> spun v'.
  Proof.
    intros Hf Hs H. do 6 (destruct f as [|f]; [lia|]). destruct (v_tag v) eqn:Et.
    - remember (S (S (S (S (S f))))) as g eqn:Eg. cbn [mpoll] in H. rewrite Et in H. subst g. eapply hang_busy; [| |exact H]; [done|exact Hs].
    - destruct (v_shut v) eqn:Esh; [destruct Hs as [?|Hs]; [done|]; by eapply hang_active|].
      remember (S (S (S (S (S f))))) as g eqn:Eg. cbn [mpoll] in H. rewrite Et, Esh in H. subst g.
      destruct (handshaking (v_i v)); [|destruct (v_wants v)]; (eapply hang_busy; [| |exact H]; [done|by left]).
    - by eapply hang_busy.
    - by eapply hang_close_active.
    - by eapply hang_close_busy.
    - by apply hang_finalizing in H.
    - remember (S (S (S (S (S f))))) as g eqn:Eg. cbn [mpoll] in H. by rewrite Et in H.
    - remember (S (S (S (S (S f))))) as g eqn:Eg. cbn [mpoll] in H. by rewrite Et in H.
  Qed.

  Lemma vcall_up k v : (forall n, k <> CallRead n) -> up (tls_of v) (tls_of (vcall E k v)).
  Proof. intros Hk. destruct (vcall_made E k v) as (o & _ & Hs & _). by eapply step_up. Qed.
  Lemma trace_moves v v' : v ~> v' -> exists t, v_trace v' = v_trace v ++ t.
  Proof.
    intros H. induction H as [v|v v1 v2 H1 _ [t IH]]; [exists []; by rewrite app_nil_r|].
    enough (exists t, v_trace v1 = v_trace v ++ t) as [t' Ht']. { exists (t' ++ t). by rewrite IH, Ht', <- app_assoc. }
    destruct H1; unfold note, vcall; pvs; eauto; exists []; by rewrite app_nil_r.
  Qed.
  Lemma poll_ends ks st v rs n st' v' : gives_bytes (ks ++ [SPoll n]) -> leads E b_empty fuel ks st v rs -> 6 <= fuel ->
    fpoll E b_empty fuel n (st, v) = (st', v', PHang) ->
    (handshaking (v_i v) = true /\ SockEnded ∈ v_trace v') \/ exists ks', i_calls (v_i v') = ks' ++ replicate fuel CallProcess.
  Proof.
    intros Hk H Hf Hp. apply Forall_app in Hk as [Hk Hn]. destruct (leads_all _ _ _ _ _ _ _ Hk H) as [HA _]. rewrite Forall_singleton in Hn. cbn beta iota in Hn.
    assert (cpoll E b_empty fuel n v = (v', PHang)) as Hc.
    { unfold fpoll in Hp. destruct st as [|[]| | |].
      - destruct (cpoll E b_empty fuel n v) as [v1 r1]. destruct r1; try done.
        + destruct (n_ready n) as [|[] ?]; [destruct (n_final n)|destruct (n_final n)|]; done.
        + destruct (n_close n); done.
        + by injection Hp as <- <-.
      - destruct (n_ready n) as [|[] ?]; [destruct (n_final n)|destruct (n_final n)|]; done.
      - destruct (n_close n); done.
      - done.
      - done.
      - done. }
    pose proof (from_app_moves E b_empty fuel v) as M1. unfold cpoll in Hc. destruct (from_socket (n_read n) (from_app E v)) as [v1|] eqn:E1; [|done].
    assert (from_app E v ~> v1) as M2. { eapply from_socket_moves; [|exact E1]. intros b Hb. by rewrite Hb in Hn. } pose proof (to_client_moves E b_empty fuel v1) as M3.
    assert (v ~> to_client E v1) as M4 by (etrans; [exact M1|]; etrans; [exact M2|exact M3]). set (v2 := to_client E v1) in *.
    destruct (v_output v2).
    { by destruct (to_socket _ _) as [v3|]; [|done]; destruct (_ && _); [destruct (n_close n)|]. }
    destruct (mpoll E b_empty fuel fuel (n_ready n) (n_final n) v2) as [v3 r3] eqn:E3.
    assert (v3 = v' /\ r3 = PHang) as [-> ->].
    { destruct r3; try done; [| |by injection Hc as <-]; (destruct (to_socket _ _) as [v4|]; [|done]; destruct (_ && _); [destruct (n_close n)|]; done). }
    destruct (v_shut v2) eqn:Esh; [|right; by eapply hang_lemma; [exact Hf|left; exact Esh|exact E3]].
    destruct (handshaking (v_i v2)) eqn:Ehs; [|right; by eapply hang_lemma; [exact Hf|right; exact Ehs|exact E3]].
    left. split.
    - destruct (handshaking (v_i v)) eqn:Eh; [done|]. exfalso.
      enough (up (tls_of v) (tls_of v2)) as HU. { eapply (handshaking_up (v_i v) (v_i v2)) in HU; [|exact Eh]. congruence. }
      assert (up (tls_of v) (tls_of (from_app E v))) as U1.
      { unfold from_app. destruct (v_up v) eqn:Eu; [by destruct (_ && _)|]. destruct (wants_write v); [|done]. by apply (vcall_up (CallWrite (n0 :: l)) v). }
      assert (tls_of v1 = tls_of (from_app E v)) as U2.
      { unfold from_socket in E1. destruct (n_read n); [by injection E1 as <-..| |done]. destruct (_ || _); by injection E1 as <-. }
      rewrite <- U2 in U1. unfold v2, to_client. destruct (v_rx v1) eqn:Er; [by destruct (v_server_closed v1)|]. destruct (wants_read_tls v1); [|done].
      eapply up_trans; [exact U1|]. by apply (vcall_up (CallReadTls _) v1).
    - apply mpoll_moves in E3 as [M5 _]. destruct (trace_moves _ _ M5) as [t ->]. apply elem_of_app. left.
      apply (all_moves E b_empty fuel _ _ HA) in M4 as (_ & _ & _ & [S1 S2 _ _ _ _ _]). apply S1, S2, Esh.
  Qed.

  (** ** C72: polls that never succeed *)
  Definition open_tag (t : tag) : Prop := match t with TFinalizing | TFinished => False | _ => True end.
  Definition unread (v : pv) : Prop := x_close (tls_of v) = true /\ v_rx v <> [] /\ v_shut v = false /\ ~ closing (v_tag v) /\ v_output v = false.
  Definition undrained (v : pv) : Prop := v_down_end v = true /\ x_received (tls_of v) <> [] /\ open_tag (v_tag v) /\ v_output v = false.
  Lemma unread_move v v' : unread v -> move E b_empty fuel v v' -> unread v'.
  Proof.
    intros HU HM. pose proof HU as (H1 & H2 & H3 & H4 & H5).
    destruct HM as [v t Ht|v j i r t Hbusy Hjob Hnt|v Hu Hue|v Hv Hu|v|v b Hb|v Hr Hs|v n Hw Hn|v n Hv|v n|v n Hv Hd|v Hf|v|v|v b Hue|v n Hde|v Hue|v Hde]; try done.
    - split_and!; try done. pvs. destruct Ht as [v Et|v Et|v Et _ _ _|v Et _ ?|v Et|v Et|v]; try (by intros []); [congruence|by rewrite Et in H4..].
    - apply do_job_did, did_up in Hjob as (_ & _ & U & _). split_and!; try done; pvs; [by apply U|]. clear HU Hbusy. revert H4. destruct Hnt; simpl; tauto.
    - destruct (vcall_up (CallWrite (v_up v)) v) as (_ & _ & U & _); [done|]. split_and!; try done. by apply U.
    - split_and!; try done. pvs. by destruct (v_rx v).
    - unfold wants_read_tls in Hw. rewrite H1 in Hw. by rewrite !andb_false_r in Hw.
    - split_and!; try done. unfold tls_of, vcall, icall. rewrite read_call. pvs. done.
    - by rewrite Hf in H4.
  Qed.
  Lemma undrained_move v v' : undrained v -> move E b_empty fuel v v' -> undrained v'.
  Proof.
    intros HU HM. pose proof HU as (H1 & H2 & H3 & H4).
    destruct HM as [v t Ht|v j i r t Hbusy Hjob Hnt|v Hu Hue|v Hv Hu|v|v b Hb|v Hr Hs|v n Hw Hn|v n Hv|v n|v n Hv Hd|v Hf|v|v|v b Hue|v n Hde|v Hue|v Hde]; try done.
    - split_and!; try done. pvs. destruct Ht as [v Et|v Et|v Et _ _ _|v Et _ ?|v Et|v Et|v]; try done. by rewrite Et in H3.
    - apply do_job_did, did_up in Hjob as (_ & _ & _ & U). specialize (U H2). split_and!; try done. pvs. destruct Hnt as [| |j' i Hd _|]; try done.
      unfold drained in Hd. by destruct (x_received (c_x (i_tls i))).
    - destruct (vcall_up (CallWrite (v_up v)) v) as (_ & _ & _ & U); [done|]. split_and!; try done. by apply U.
    - destruct (vcall_up (CallReadTls (take n (v_rx v))) v) as (_ & _ & _ & U); [done|]. split_and!; try done. by apply U.
    - congruence.
    - by rewrite Hf in H3.
  Qed.
  Definition unsuccessful (st : fut) : Prop := st <> FFinishing true /\ st <> FDone.
  Lemma never_step (P : pv -> Prop) k st v st' v' rs : (forall v, P v -> v_output v = false) -> (forall v v', P v -> v ~> v' -> P v') -> good_step k -> P v -> unsuccessful st ->
    do_step E b_empty fuel k (st, v) = (st', v', rs) -> P v' /\ unsuccessful st' /\ PReady ∉ rs.
  Proof.
    intros HO HP Hk Hv Hst H. apply do_step_moves in H as HM; [|done]. destruct HM as [HM _]. apply (HP _ _ Hv) in HM as Hv'. split; [done|].
    unfold do_step in H. destruct k as [b|n| | |n].
    5: { destruct (fpoll E b_empty fuel n (st, v)) as [[st1 v1] r1] eqn:E1. injection H as <- <- <-.
         assert (unsuccessful st1 /\ r1 <> PReady) as [A1 A2].
         { unfold fpoll in E1. destruct st as [|[]| | |].
           - destruct (cpoll E b_empty fuel n v) as [v2 r2] eqn:E2. destruct r2.
             + by injection E1 as <- <- <-.
             + pose proof E2 as E2'. apply cpoll_ready in E2 as [Ho _]. apply cpoll_moves in E2' as [M2 _]; [|done]. apply (HP _ _ Hv), HO in M2. congruence.
             + destruct (n_close n); by injection E1 as <- <- <-.
             + by injection E1 as <- <- <-.
             + by injection E1 as <- <- <-.
           - by destruct Hst.
           - destruct (n_close n); by injection E1 as <- <- <-.
           - by destruct Hst.
           - by injection E1 as <- <- <-.
           - by injection E1 as <- <- <-. }
         split; [done|]. intros Hx%elem_of_list_singleton. by destruct A2. }
    all: try (destruct (_ || _) in H); try (destruct (v_down_end v) in H); injection H as <- _ <-; (split; [done|apply not_elem_of_nil]).
  Qed.
  Lemma never_play (P : pv -> Prop) ks st v st' v' rs : (forall v, P v -> v_output v = false) -> (forall v v', P v -> v ~> v' -> P v') -> Forall good_step ks -> P v -> unsuccessful st ->
    play E b_empty fuel ks (st, v) = (st', v', rs) -> PReady ∉ rs.
  Proof.
    intros HO HP. revert st v rs. induction ks as [|k ks IH]; intros st v rs Hk Hv Hst H; cbn [play] in H; [injection H as <- <- <-; apply not_elem_of_nil|].
    apply Forall_cons in Hk as [Hk Hks]. destruct (do_step E b_empty fuel k (st, v)) as [[st1 v1] r1] eqn:E1.
    destruct (play E b_empty fuel ks (st1, v1)) as [[st2 v2] rs2] eqn:E2. injection H as <- <- <-.
    apply (never_step P) in E1 as (A1 & A2 & A3); [|done..]. rewrite elem_of_app. intros [?|Hx]; [done|]. by eapply IH.
  Qed.
  Lemma keep_moves (P : pv -> Prop) : (forall v v', P v -> move E b_empty fuel v v' -> P v') -> forall v v', P v -> v ~> v' -> P v'.
  Proof. intros HP v v' H HM. revert H. induction HM as [|v v1 v2 H1 _ IH]; [done|]. intros H. by eapply IH, HP. Qed.
  Lemma unread_never ks st v st' v' rs : gives_bytes ks -> unread v -> unsuccessful st -> play E b_empty fuel ks (st, v) = (st', v', rs) -> PReady ∉ rs.
  Proof. intros Hk%gives_good. apply never_play; [by intros ? (_ & _ & _ & _ & ?)|apply keep_moves, unread_move|done]. Qed.
  Lemma undrained_never ks st v st' v' rs : gives_bytes ks -> undrained v -> unsuccessful st -> play E b_empty fuel ks (st, v) = (st', v', rs) -> PReady ∉ rs.
  Proof. intros Hk%gives_good. apply never_play; [by intros ? (_ & _ & _ & ?)|apply keep_moves, undrained_move|done]. Qed.
End End.

Section Ready.
  Context (E : env) (b_empty : list cev -> bool) (fuel : nat).
  Lemma done_stays ks v st' v' rs : play E b_empty fuel ks (FDone, v) = (st', v', rs) -> st' = FDone.
  Proof.
    revert v rs. induction ks as [|k ks IH]; intros v rs H; cbn [play] in H; [by injection H as <- _ _|].
    destruct (do_step E b_empty fuel k (FDone, v)) as [[st1 v1] r1] eqn:E1. destruct (play E b_empty fuel ks (st1, v1)) as [[st2 v2] rs2] eqn:E2. injection H as <- <- <-.
    assert (st1 = FDone) as ->; [|by eapply IH]. unfold do_step in E1. destruct k as [b|n| | |n].
    - destruct (_ || _); by injection E1.
    - destruct (v_down_end v); by injection E1.
    - by injection E1.
    - by injection E1.
    - by injection E1.
  Qed.
  Lemma ready_done ks st v st' v' rs : play E b_empty fuel ks (st, v) = (st', v', rs) -> PReady ∈ rs -> st' = FDone.
  Proof.
    revert st v rs. induction ks as [|k ks IH]; intros st v rs H Hr; cbn [play] in H; [injection H as <- _ <-; by apply elem_of_nil in Hr|].
    destruct (do_step E b_empty fuel k (st, v)) as [[st1 v1] r1] eqn:E1. destruct (play E b_empty fuel ks (st1, v1)) as [[st2 v2] rs2] eqn:E2. injection H as <- <- <-.
    apply elem_of_app in Hr as [Hr|Hr]; [|by eapply IH]. assert (st1 = FDone) as ->; [|by eapply done_stays].
    unfold do_step in E1. destruct k as [b|n| | |n].
    5: { destruct (fpoll E b_empty fuel n (st, v)) as [[st3 v3] r3] eqn:E3. injection E1 as -> -> <-. apply elem_of_list_singleton in Hr as <-.
         unfold fpoll in E3. destruct st as [|[]| | |].
         - destruct (cpoll E b_empty fuel n v) as [v4 r4]. destruct r4; try done.
           + destruct (n_ready n) as [|[] ?]; [destruct (n_final n)|destruct (n_final n)|]; by injection E3.
           + destruct (n_close n); done.
         - destruct (n_ready n) as [|[] ?]; [destruct (n_final n)|destruct (n_final n)|]; by injection E3.
         - destruct (n_close n); done.
         - done.
         - done.
         - done. }
    all: exfalso; try (destruct (_ || _) in E1); try (destruct (v_down_end v) in E1); injection E1 as _ _ <-; by apply elem_of_nil in Hr.
  Qed.
  Lemma ready_lemma ks st v rs : backend_ok E -> gives_bytes ks -> leads E b_empty fuel ks st v rs -> PReady ∈ rs -> ends_once (v_trace v) ->
    SockEnded ∈ v_trace v /\ sock_gave (v_trace v) = wire_in (tls_log v) /\
    (exists bad rest, stream_holds (sock_gave (v_trace v)) (map snd (records_in (tls_log v))) bad rest) /\
    app_received (tls_log v) = app_got (v_trace v) ++ v_down v /\ CloseConnection ∈ tls_log v.
  Proof. intros HB Hk H Hr. eapply success_lemma; [done..|]. right. by eapply ready_done. Qed.
  Lemma no_panic_lemma ks st v rs : (0 < e_frag E)%N -> e_debug E = false -> gives_bytes ks -> leads E b_empty fuel ks st v rs -> PHang ∉ rs -> PPanic ∉ rs.
  Proof.
    intros Hf Hd Hk H. assert (FConnected <> FDead) as Hne by done.
    apply (no_panic_play E b_empty fuel ks FConnected pv_new st v rs Hf Hd (gives_good _ Hk) (all_new E b_empty) Hne H).
  Qed.
  Lemma over_lemma ks st v rs1 r rs2 : gives_bytes ks -> leads E b_empty fuel ks st v (rs1 ++ r :: rs2) -> r = PReady \/ r = PErr -> Forall (eq PErr) rs2.
  Proof. intros Hk H Hr. eapply ends_lemma; [by apply gives_good| |exact H|reflexivity|exact Hr]. done. Qed.
End Ready.
