(** What follows for every history of the prover's connection. *)
From stdpp Require Import relations.
From Verif.Lib Require Import Base.
From Verif Require Import ProofModel CodecModel CodecSpec CodecLemmas TlsModel HandshakeModel
  AttestModel SigAlgModel RecordModel ClientModel ClientSpec ClientLemmas ClientInv ClientSteps ClientFlight ClientRun ClientMain
  ClientEffects ClientData ClientOut ClientFinal ClientPanic ConnModel ConnSpec ConnCalls ConnMoves ConnLemmas ConnInv ConnMono ConnClose.

Section Final.
  Context (E : env) (b_empty : list cev -> bool) (fuel : nat).
  Notation "v ~> v'" := (moves E b_empty fuel v v') (at level 70).

  (** ** Small facts *)
  Record told (v : pv) : Prop := Told {
    o_hup : v_hup v = true -> HungUp ∈ v_trace v;
    o_up : v_up_end v = true -> AppClosed ∈ v_trace v \/ AppDropped ∈ v_trace v }.
  Definition later (v v' : pv) : Prop := (v_output v = true -> v_output v' = true) /\ (v_server_closed v = true -> v_server_closed v' = true) /\
    (v_hup v = true -> v_hup v' = true) /\ exists t, v_trace v' = v_trace v ++ t.
  Lemma later_move v v' : move E b_empty fuel v v' -> later v v'.
  Proof. intros HM. destruct HM; split_and!; pvs; try done; first [by exists []; rewrite app_nil_r|by eexists]. Qed.
  Lemma later_moves v v' : v ~> v' -> later v v'.
  Proof.
    intros H. induction H as [v|v v1 v2 H1 _ IH]; [split_and!; try done; exists []; by rewrite app_nil_r|].
    apply later_move in H1 as (A1 & A2 & A3 & t & A4). destruct IH as (B1 & B2 & B3 & t' & B4). split_and!; auto. exists (t ++ t'). by rewrite B4, A4, app_assoc.
  Qed.
  Lemma later_in v v' e : later v v' -> e ∈ v_trace v -> e ∈ v_trace v'.
  Proof. intros (_ & _ & _ & t & ->) H. apply elem_of_app. by left. Qed.
  Lemma told_move v v' : told v -> move E b_empty fuel v v' -> told v'.
  Proof.
    intros [H1 H2] HM. apply later_move in HM as HL. assert (forall e, e ∈ v_trace v -> e ∈ v_trace v') as HI by (intros e; by apply later_in).
    destruct HM; (split; pvs; [try (by intros ?; apply HI, H1)|try (intros Hx; destruct (H2 Hx) as [?|?]; auto)]); try done; intros _.
    - apply elem_of_app. right. by left.
    - left. apply elem_of_app. right. by left.
    - right. apply elem_of_app. right. by left.
  Qed.
  Lemma told_moves v v' : told v -> v ~> v' -> told v'.
  Proof. intros H HM. revert H. induction HM as [|v v1 v2 H1 _ IH]; [done|]. intros H. by eapply IH, told_move. Qed.

  Lemma play_app ks1 ks2 s s1 r1 s2 r2 : play E b_empty fuel ks1 s = (s1, r1) -> play E b_empty fuel ks2 s1 = (s2, r2) -> play E b_empty fuel (ks1 ++ ks2) s = (s2, r1 ++ r2).
  Proof.
    revert s r1. induction ks1 as [|k ks1 IH]; intros s r1 H1 H2; cbn [play app] in *; [by injection H1 as <- <-|].
    destruct (do_step E b_empty fuel k s) as [s0 r0]. destruct (play E b_empty fuel ks1 s0) as [s1' r1'] eqn:E1. injection H1 as <- <-.
    rewrite (IH _ _ E1 H2). by rewrite app_assoc.
  Qed.
  Lemma leads_all ks st v rs : gives_bytes ks -> leads E b_empty fuel ks st v rs -> all E b_empty v /\ told v.
  Proof.
    intros Hk%gives_good H. apply play_moves in H; [|done]. split; [eapply all_moves; [apply all_new|done]|]. eapply told_moves; [|done]. by split.
  Qed.
  (** Polls. *)
  Definition ended (st : fut) (v : pv) : Prop :=
    match st with
    | FFinishing true | FDone => v_output v = true /\ v_server_closed v = true /\ v_hup v = true
    | FFinishing false => v_hup v = true
    | FError => v_hup v = true
    | _ => True
    end.
  Lemma ended_later st v v' : ended st v -> later v v' -> ended st v'.
  Proof. intros H (A1 & A2 & A3 & _). destruct st as [|[]| | |]; simpl in *; try done; auto; destruct H as (B1 & B2 & B3); auto. Qed.
  Lemma fpoll_ended n st v st' v' r : ended st v -> fpoll E b_empty fuel n (st, v) = (st', v', r) -> ended st' v' /\
    (r = PReady -> st' = FDone) /\ (r = PErr -> st' = FDone \/ st' = FError).
  Proof.
    assert (forall (good : bool) v, (if good then v_output v = true /\ v_server_closed v = true /\ v_hup v = true else True) -> forall st' v' r,
      (if good then match n_ready n with
        | false :: _ => (FFinishing true, v, PPending)
        | _ => if n_final n then (FDone, v, PReady) else (FError, v, PErr) end
       else match n_close n with CPending => (FFinishing false, hang_up v, PPending) | _ => (FError, note SockClosed (hang_up v), PErr) end) = (st', v', r) ->
      ended st' v' /\ (r = PReady -> st' = FDone) /\ (r = PErr -> st' = FDone \/ st' = FError)) as HF.
    { intros good v0 Hg st0 v1 r0. destruct good.
      - destruct Hg as (G1 & G2 & G3). destruct (n_ready n) as [|[] ?]; [destruct (n_final n)|destruct (n_final n)|]; intros [= <- <- <-]; simpl; split_and!; auto; done.
      - assert (v_hup (hang_up v0) = true) as HH. { unfold hang_up. destruct (v_hup v0) eqn:Ev; by pvs. }
        destruct (n_close n); intros [= <- <- <-]; simpl; pvs; split_and!; auto; done. }
    intros He H. unfold fpoll in H. destruct st as [|[]| | |].
    - destruct (cpoll E b_empty fuel n v) as [v1 r1] eqn:E1. destruct r1.
      + injection H as <- <- <-. done.
      + apply cpoll_ready in E1. eapply (HF true); [|exact H]. done.
      + eapply (HF false); [|exact H]. done.
      + injection H as <- <- <-. done.
      + injection H as <- <- <-. done.
    - eapply (HF true); [|exact H]. done.
    - eapply (HF false); [|exact H]. done.
    - injection H as <- <- <-. split_and!; auto; done.
    - injection H as <- <- <-. split_and!; auto; done.
    - injection H as <- <- <-. done.
  Qed.
  Lemma do_step_ended k st v st' v' rs : good_step k -> ended st v -> do_step E b_empty fuel k (st, v) = (st', v', rs) -> ended st' v' /\
    (PReady ∈ rs -> st' = FDone) /\ (PErr ∈ rs -> st' = FDone \/ st' = FError).
  Proof.
    intros Hk He H. apply do_step_moves in H as HM; [|done]. destruct HM as [HM _]. apply later_moves in HM.
    assert (forall st' rs (x : pres), (st', v', rs) = (st, v', []) -> ended st' v' /\ (PReady ∈ rs -> st' = FDone) /\ (PErr ∈ rs -> st' = FDone \/ st' = FError)) as HN.
    { intros st0 rs0 _ [= -> ->]. split_and!; [by eapply ended_later|by intros ?%not_elem_of_nil..]. }
    unfold do_step in H. destruct k as [b|n| | |n].
    5: { destruct (fpoll E b_empty fuel n (st, v)) as [[st1 v1] r1] eqn:E1. injection H as <- <- <-. apply fpoll_ended in E1 as (A1 & A2 & A3); [|done].
         split_and!; [done|..]; intros <-%elem_of_list_singleton; auto. }
    all: apply (HN _ _ PPending); try (destruct (_ || _) in H); try (destruct (v_down_end v) in H); by injection H as <- <- <-.
  Qed.
  Lemma play_ended ks st v st' v' rs : Forall good_step ks -> ended st v -> play E b_empty fuel ks (st, v) = (st', v', rs) -> ended st' v'.
  Proof.
    revert st v rs. induction ks as [|k ks IH]; intros st v rs Hk He H; cbn [play] in H; [by injection H as <- <- <-|].
    apply Forall_cons in Hk as [Hk Hks]. destruct (do_step E b_empty fuel k (st, v)) as [[st1 v1] r1] eqn:E1.
    destruct (play E b_empty fuel ks (st1, v1)) as [[st2 v2] rs2] eqn:E2. injection H as <- <- <-.
    apply do_step_ended in E1 as (H1 & _); [|done..]. by eapply IH.
  Qed.
  (** Ends are final. *)
  Lemma over_step k st v st' v' rs : st = FDone \/ st = FError -> do_step E b_empty fuel k (st, v) = (st', v', rs) -> st' = st /\ Forall (eq PErr) rs.
  Proof.
    intros Hs H. unfold do_step in H. destruct k as [b|n| | |n].
    5: { unfold fpoll in H. destruct Hs as [-> | ->]; injection H as <- <- <-; split; try done; by constructor. }
    all: try (destruct (_ || _) in H); try (destruct (v_down_end v) in H); by injection H as <- <- <-.
  Qed.
  Lemma over_play ks st v st' v' rs : st = FDone \/ st = FError -> play E b_empty fuel ks (st, v) = (st', v', rs) -> st' = st /\ Forall (eq PErr) rs.
  Proof.
    revert st v rs. induction ks as [|k ks IH]; intros st v rs Hs H; cbn [play] in H; [by injection H as <- <- <-|].
    destruct (do_step E b_empty fuel k (st, v)) as [[st1 v1] r1] eqn:E1.
    destruct (play E b_empty fuel ks (st1, v1)) as [[st2 v2] rs2] eqn:E2. injection H as <- <- <-.
    apply over_step in E1 as [-> H1]; [|done]. apply IH in E2 as [-> H2]; [|done]. split; [done|]. by apply Forall_app.
  Qed.
  Lemma ends_lemma ks st v st' v' rs rs1 r rs2 : Forall good_step ks -> ended st v -> play E b_empty fuel ks (st, v) = (st', v', rs) -> rs = rs1 ++ r :: rs2 -> r = PReady \/ r = PErr ->
    Forall (eq PErr) rs2 /\ (st' = FDone \/ st' = FError).
  Proof.
    intros Hk He H -> Hr. revert st v rs1 Hk He H. induction ks as [|k ks IH]; intros st v rs1 Hk He H; cbn [play] in H; [injection H as _ _ H; by destruct rs1|].
    apply Forall_cons in Hk as [Hk Hks]. destruct (do_step E b_empty fuel k (st, v)) as [[st1 v1] r1] eqn:E1.
    destruct (play E b_empty fuel ks (st1, v1)) as [[st2 v2] rs2'] eqn:E2. injection H as <- <- H.
    apply do_step_ended in E1 as HE1; [|done..]. destruct HE1 as (A1 & A2 & A3).
    assert (r1 = [] \/ exists r0, r1 = [r0]) as [-> | [r0 ->]].
    { unfold do_step in E1. destruct k as [b|n| | |n].
      5: { destruct (fpoll _ _ _ _ _) as [[? ?] ?]. right. injection E1 as <- <- <-. by eexists. }
      all: left; try (destruct (_ || _) in E1); try (destruct (v_down_end v) in E1); by injection E1 as <- <- <-. }
    - simpl in H. subst rs2'. by eapply IH.
    - destruct rs1 as [|r1 rs1]; simpl in H; injection H as -> ->; [|by eapply IH].
      assert (st1 = FDone \/ st1 = FError) as Hs. { destruct Hr as [-> | ->]; [left; apply A2; by left|apply A3; by left]. }
      apply over_play in E2 as [-> HF]; [|done]. done.
  Qed.

  (** ** C70 *)
  Lemma passed_lemma ks st v rs : gives_bytes ks -> leads E b_empty fuel ks st v rs ->
    (exists r, app_wrote (v_trace v) = accepted (tls_log v) ++ r) /\ (exists r, sock_gave (v_trace v) = wire_in (tls_log v) ++ r) /\
    (exists r, wire_out (tls_log v) = sock_took (v_trace v) ++ r) /\ (exists r, delivered (tls_log v) = app_got (v_trace v) ++ r).
  Proof. intros Hk H. destruct (leads_all _ _ _ _ Hk H) as [(HB & _) _]. destruct HB. split_and!; eexists; done. Qed.
  Lemma base_reached v : base E v -> reached E (i_tls (v_i v)).
  Proof. intros HB. destruct (b_run _ _ HB) as (os & H & _). exists (i_calls (v_i v)), os. split; [apply (b_reads _ _ HB)|done]. Qed.
  Lemma data_lemma ks st v rs : backend_ok E -> gives_bytes ks -> leads E b_empty fuel ks st v rs ->
    (exists r, app_wrote (v_trace v) = app_sent (tls_log v) ++ r) /\ (exists r, app_received (tls_log v) = app_got (v_trace v) ++ r) /\
    (exists r, queued (tls_log v) = sock_took (v_trace v) ++ r).
  Proof.
    intros HB Hk H. destruct (leads_all _ _ _ _ Hk H) as [(HBs & _) _]. apply base_reached in HBs as HR. destruct HBs as [_ _ _ H1 H2 H3 H4].
    destruct (sent_lemma E HB _ HR) as (r1 & R1). destruct (delivered_lemma E HB _ HR) as (r2 & R2). destruct (written_lemma E HB _ HR) as (r3 & R3).
    unfold tls_log in *. split_and!.
    - rewrite H1, R1, <- app_assoc. by eexists.
    - rewrite R2, H4, <- app_assoc. by eexists.
    - rewrite R3, H3, <- app_assoc. by eexists.
  Qed.
  Lemma closed_log c c' o : step E c CallServerClosed = (c', o) -> log_of c' = log_of c ++ [CloseConnection] /\ c_state c' = c_state c /\
    x_received (c_x c') = x_received (c_x c).
  Proof. intros (H1 & H2 & H3 & _)%closed_call. split_and!; [done|done|]. by rewrite H3. Qed.
  Lemma rested_facts c : backend_ok E -> reached E c -> rested E c -> x_received (c_x c) = [] ->
    (exists bad rest, stream_holds (wire_in (log_of c)) (map snd (records_in (log_of c))) bad rest) /\ delivered (log_of c) = app_received (log_of c) /\
    accepted (log_of c) = accepted (log_of c).
  Proof.
    intros HB HR (c1 & (c0 & HR0 & Hs) & Hc) Hx.
    destruct (all_taken_lemma E HB c0 c1 HR0 Hs) as (bad & rest & Ht).
    assert (exists l, log_of c = log_of c1 ++ l /\ Forall (fun e => e = CloseConnection) l /\ exists st, c_state c = inr st) as (l & El & Hl & st & Est).
    { apply process_ok in Hs as (st & st' & _ & Es' & _). destruct Hc as [-> | Hc]; [exists []; rewrite app_nil_r; split_and!; eauto|].
      apply closed_log in Hc as (E1 & E2 & _). exists [CloseConnection]. rewrite E2. split_and!; [done|by constructor|by exists st']. }
    assert (wire_in l = [] /\ records_in l = []) as [L1 L2]. { split; apply concat_nil; (eapply Forall_impl; [exact Hl|]); by intros ? ->. }
    split_and!; [|..].
    - exists bad, rest. by rewrite El, wire_in_app, records_in_app, L1, L2, !app_nil_r.
    - apply reached_all in HR as (_ & HD & _); [|done]. unfold data_conn in HD. rewrite Est in HD. destruct HD as [HD _].
      destruct (d_received _ _ HD) as (lost & Hr & Hlo). rewrite (Hlo eq_refl), app_nil_r, Hx in Hr. cbn [concat] in Hr. rewrite app_nil_r in Hr. done.
    - done.
  Qed.
  Lemma drained_received i : drained b_empty i = true -> x_received (c_x (i_tls i)) = [].
  Proof. unfold drained. by destruct (x_received (c_x (i_tls i))). Qed.
  Lemma success_lemma ks st v rs : backend_ok E -> gives_bytes ks -> leads E b_empty fuel ks st v rs -> st = FFinishing true \/ st = FDone -> ends_once (v_trace v) ->
    SockEnded ∈ v_trace v /\ sock_gave (v_trace v) = wire_in (tls_log v) /\
    (exists bad rest, stream_holds (sock_gave (v_trace v)) (map snd (records_in (tls_log v))) bad rest) /\
    app_received (tls_log v) = app_got (v_trace v) ++ v_down v /\ CloseConnection ∈ tls_log v.
  Proof.
    intros HB Hk H Hst He. destruct (leads_all _ _ _ _ Hk H) as [(HBs & HT & _ & HS) _]. apply base_reached in HBs as HR.
    pose proof H as HE. apply play_ended in HE; [|by apply gives_good|done].
    assert (v_output v = true /\ v_server_closed v = true) as [Ho Hc]. { destruct Hst as [-> | ->]; simpl in HE; by destruct HE as (? & ? & _). }
    destruct HS as [S1 S2 S3 S4 S5 S6 S7]. destruct (S6 (or_intror (or_intror Ho))) as (Hr & Hd & Hcl).
    destruct (S2 (S3 (proj1 Hcl))) as [_ Hrx]. specialize (Hrx He). apply drained_received in Hd as Hx.
    destruct (rested_facts _ HB HR Hr Hx) as (Hst' & Hdel & _). destruct HBs as [B0 _ _ B1 B2 B3 B4]. rewrite Hrx, app_nil_r in B2. split_and!; auto.
    - rewrite B2. done.
    - rewrite <- B4. done.
    - apply Hcl.
  Qed.
End Final.
