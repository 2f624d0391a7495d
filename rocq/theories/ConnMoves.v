(** Everything that happens to a connection of the prover is a sequence of few kinds of moves. *)
From stdpp Require Import relations.
From Verif.Lib Require Import Base.
From Verif Require Import ProofModel CodecModel CodecSpec TlsModel HandshakeModel AttestModel SigAlgModel RecordModel ClientModel
  ClientSpec ConnModel ConnSpec.

(** The tag after a job. *)
Inductive next_tag (b_empty : list cev -> bool) : tag -> inner -> jres -> tag -> Prop :=
| nt_back j i : next_tag b_empty (TBusy j) i JOk TActive
| nt_more j i : drained b_empty i = false -> next_tag b_empty (TCloseBusy j) i JOk TCloseActive
| nt_final j i : drained b_empty i = true -> i_done i = true -> next_tag b_empty (TCloseBusy j) i JOk TFinalizing
| nt_error t i r : next_tag b_empty t i r TError.
Definition busy_with (t : tag) : option job := match t with TBusy j | TCloseBusy j => Some j | _ => None end.

Section Moves.
  Context (E : env) (b_empty : list cev -> bool) (fuel : nat).

  (** The tag changes that involve no call. *)
  Inductive turn : pv -> tag -> Prop :=
  | tu_start v : v_tag v = TStart -> turn v (TBusy JStart)
  | tu_run v : v_tag v = TActive -> turn v (TBusy JRun)
  | tu_client v : v_tag v = TActive -> handshaking (v_i v) = false -> v_wants v = true -> v_shut v = false -> turn v (TBusy JClientClose)
  | tu_server v : v_tag v = TActive -> handshaking (v_i v) = false -> v_shut v = true -> turn v (TCloseBusy JServerClose)
  | tu_close v : v_tag v = TCloseActive -> turn v (TCloseBusy JRun)
  | tu_finished v : v_tag v = TFinalizing -> turn v TFinished
  | tu_error v : turn v TError.
  Inductive move : pv -> pv -> Prop :=
  | mv_turn v t : turn v t -> move v (put_tag t v)
  | mv_job v j i r t : busy_with (v_tag v) = Some j -> do_job E fuel j (v_i v) = (i, r) -> next_tag b_empty (v_tag v) i r t ->
      move v (put_tag t (put_i i v))
  | mv_wants v : v_up v = [] -> v_up_end v = true -> move v (put_wants true (put_client_closed true v))
  | mv_write v : visible v = true -> v_up v <> [] ->
      move v (put_up (drop (snd (cvb_append_limited (x_sendable (tls_of v)) (v_up v))) (v_up v)) (vcall E (CallWrite (v_up v)) v))
  | mv_ended v : move v (note SockEnded (put_server_closed true v))
  | mv_gave v b : bytes_ok b -> move v (note (SockGave b) (put_rx (v_rx v ++ b) v))
  | mv_shut v : v_rx v = [] -> v_server_closed v = true -> move v (put_shut true v)
  | mv_read_tls v n : wants_read_tls v = true -> n = df_fit v (length (v_rx v)) ->
      move v (put_rx (drop n (v_rx v)) (vcall E (CallReadTls (take n (v_rx v))) v))
  | mv_write_tls v n : visible v = true ->
      move v (put_tx (v_tx v ++ fst (cvb_write n (x_tls (tls_of v)))) (vcall E (CallWriteTls n) v))
  | mv_took v n : move v (note (SockTook (take n (v_tx v))) (put_tx (drop n (v_tx v)) v))
  | mv_read v n : visible v = true -> v_down_end v = false ->
      move v (put_down (v_down v ++ fst (cvb_read n (x_received (tls_of v)))) (vcall E (CallRead n) v))
  | mv_output v : v_tag v = TFinished -> move v (put_output true v)
  | mv_hup v : move v (note HungUp (put_hup true v))
  | mv_closed v : move v (note SockClosed v)
  | mv_wrote v b : v_up_end v = false -> move v (note (AppWrote b) (put_up (v_up v ++ b) v))
  | mv_got v n : v_down_end v = false -> move v (note (AppGot (take n (v_down v))) (put_down (drop n (v_down v)) v))
  | mv_aclosed v : v_up_end v = false -> move v (note AppClosed (put_up_end true v))
  | mv_dropped v : v_down_end v = false -> move v (note AppDropped (put_down_end true (put_up_end true v))).
  Definition moves := rtc move.
  Lemma moves_one v v' : move v v' -> moves v v'. Proof. apply rtc_once. Qed.

  (** ** Polling the client *)
  (** How a poll can fail: something before it and the job that fails. *)
  Definition panicked (v : pv) : Prop := exists v0 j i r, moves v v0 /\ busy_with (v_tag v0) = Some j /\
    do_job E fuel j (v_i v0) = (i, r) /\ (r = JPanic \/ (v_tag v0 = TCloseBusy j /\ r = JOk /\ i_done i = false)).
  Lemma panicked_after v v' : moves v v' -> panicked v' -> panicked v.
  Proof. intros H (v0 & j & i & r & H1 & H2). exists v0, j, i, r. split; [by eapply rtc_transitive|done]. Qed.
  Lemma mpoll_moves f ready final v v' r : mpoll E b_empty fuel f ready final v = (v', r) ->
    moves v v' /\ (r = PReady -> v_tag v' = TFinished) /\ (r = PPanic -> panicked v).
  Proof.
    revert ready v. induction f as [|f IH]; intros ready v H; cbn [mpoll] in H; [injection H as <- <-; split_and!; [apply rtc_refl|done..]|].
    assert (forall ready v1, moves v v1 -> mpoll E b_empty fuel f ready final v1 = (v', r) -> moves v v' /\ (r = PReady -> v_tag v' = TFinished) /\ (r = PPanic -> panicked v)) as IH'.
    { intros rd v1 Hm H1. apply IH in H1 as (H1 & H2 & H3). split_and!; [by eapply rtc_transitive|done|]. intros Hr. eapply panicked_after; [exact Hm|]. by apply H3. }
    destruct (v_tag v) eqn:Et.
    - eapply IH'; [|exact H]. apply moves_one, mv_turn. by constructor.
    - eapply IH'; [|exact H]. apply moves_one, mv_turn.
      destruct (handshaking (v_i v)) eqn:Eh; [by constructor|]. destruct (v_shut v) eqn:Es; [by constructor|]. destruct (v_wants v) eqn:Ew; by constructor.
    - assert ((v', r) = (v, PPending) \/ exists i r1, do_job E fuel j (v_i v) = (i, r1) /\
        match r1 with
        | JOk => if v_shut (put_tag TActive (put_i i v)) then mpoll E b_empty fuel f (tail ready) final (put_tag TActive (put_i i v)) else (put_tag TActive (put_i i v), PPending)
        | JErr => (put_tag TError (put_i i v), PErr) | JPanic => (put_tag TError (put_i i v), PPanic) | JHang => (put_tag TError (put_i i v), PHang) end = (v', r)) as HC.
      { destruct ready as [|[] ready]; [right|right|left; by rewrite <- H]; destruct (do_job E fuel j (v_i v)) as [i r1] eqn:Ej; by exists i, r1. }
      clear H. destruct HC as [[= -> ->]|(i & r1 & Ej & H)]; [split_and!; [apply rtc_refl|done..]|].
      assert (forall t, next_tag b_empty (TBusy j) i r1 t -> moves v (put_tag t (put_i i v))) as HM.
      { intros t Ht. apply moves_one. eapply mv_job; [by rewrite Et|exact Ej|by rewrite Et]. }
      destruct r1.
      + assert (moves v (put_tag TActive (put_i i v))) as Hm. { apply HM. constructor. }
        destruct (v_shut _); [by eapply IH'|]. injection H as <- <-. by split_and!.
      + injection H as <- <-. split_and!; [apply HM; constructor|done..].
      + injection H as <- <-. split_and!; [apply HM; constructor|done|]. intros _. exists v, j, i, JPanic. split_and!; [apply rtc_refl|by rewrite Et|done|by left].
      + injection H as <- <-. split_and!; [apply HM; constructor|done..].
    - eapply IH'; [|exact H]. apply moves_one, mv_turn. by constructor.
    - assert ((v', r) = (v, PPending) \/ exists i r1, do_job E fuel j (v_i v) = (i, r1) /\
        match r1 with
        | JOk => if drained b_empty i then if i_done i then mpoll E b_empty fuel f (tail ready) final (put_tag TFinalizing (put_i i v)) else (put_tag TError (put_i i v), PPanic)
                 else (put_tag TCloseActive (put_i i v), PPending)
        | JErr => (put_tag TError (put_i i v), PErr) | JPanic => (put_tag TError (put_i i v), PPanic) | JHang => (put_tag TError (put_i i v), PHang) end = (v', r)) as HC.
      { destruct ready as [|[] ready]; [right|right|left; by rewrite <- H]; destruct (do_job E fuel j (v_i v)) as [i r1] eqn:Ej; by exists i, r1. }
      clear H. destruct HC as [[= -> ->]|(i & r1 & Ej & H)]; [split_and!; [apply rtc_refl|done..]|].
      assert (forall t, next_tag b_empty (TCloseBusy j) i r1 t -> moves v (put_tag t (put_i i v))) as HM.
      { intros t Ht. apply moves_one. eapply mv_job; [by rewrite Et|exact Ej|by rewrite Et]. }
      destruct r1.
      + destruct (drained b_empty i) eqn:Ed.
        * destruct (i_done i) eqn:Edn.
          -- eapply IH'; [|exact H]. apply HM. by constructor.
          -- injection H as <- <-. split_and!; [apply HM; constructor|done|]. intros _. exists v, j, i, JOk. split_and!; [apply rtc_refl|by rewrite Et|done|right; by rewrite Et].
        * injection H as <- <-. split_and!; [apply HM; by constructor|done..].
      + injection H as <- <-. split_and!; [apply HM; constructor|done..].
      + injection H as <- <-. split_and!; [apply HM; constructor|done|]. intros _. exists v, j, i, JPanic. split_and!; [apply rtc_refl|by rewrite Et|done|by left].
      + injection H as <- <-. split_and!; [apply HM; constructor|done..].
    - destruct ready as [|[] ready]; [|
        |injection H as <- <-; split_and!; [apply rtc_refl|done..]];
        (destruct final; injection H as <- <-; split_and!; try done; apply moves_one, mv_turn; by constructor).
    - injection H as <- <-. split_and!; try done. apply moves_one, mv_turn. by constructor.
    - injection H as <- <-. split_and!; [apply rtc_refl|done..].
  Qed.

  (** ** The parts of the loop *)
  Lemma from_app_moves v : moves v (from_app E v).
  Proof.
    unfold from_app. destruct (v_up v) as [|b bs] eqn:Eu.
    - destruct (v_up_end v) eqn:Ee; simpl; [|apply rtc_refl]. destruct (_ && _); [|apply rtc_refl]. apply moves_one. by constructor.
    - destruct (wants_write v) eqn:Ew; [|apply rtc_refl]. apply andb_true_iff in Ew as [Ew _].
      rewrite <- Eu. apply moves_one. constructor; [done|]. by rewrite Eu.
  Qed.
  Lemma from_socket_moves r v v' : (forall b, r = RData b -> bytes_ok b) -> from_socket r v = Some v' -> moves v v'.
  Proof.
    intros Hb H. unfold from_socket in H. destruct r as [|b| |].
    - injection H as <-. apply rtc_refl.
    - injection H as <-. apply moves_one, mv_gave. by apply Forall_take, Hb.
    - destruct (_ || _); injection H as <-; [apply rtc_refl|]. apply moves_one, mv_ended.
    - done.
  Qed.
  Lemma to_client_moves v : moves v (to_client E v).
  Proof.
    unfold to_client. destruct (v_rx v) as [|b bs] eqn:Er.
    - destruct (v_server_closed v) eqn:Es; [|apply rtc_refl]. apply moves_one. by constructor.
    - destruct (wants_read_tls v) eqn:Ew; [|apply rtc_refl]. rewrite <- Er. apply moves_one. by eapply mv_read_tls.
  Qed.
  Lemma from_client_moves v : moves v (from_client E v).
  Proof.
    unfold from_client. destruct (full _); [apply rtc_refl|]. destruct (wants_write_tls v) eqn:Ew; [|apply rtc_refl].
    apply andb_true_iff in Ew as [Ew _]. apply moves_one. by constructor.
  Qed.
  Lemma to_socket_moves w v v' : to_socket w v = Some v' -> moves v v'.
  Proof.
    unfold to_socket. intros H. destruct (v_tx v) as [|b bs] eqn:Et; [injection H as <-; apply rtc_refl|].
    destruct w; try (injection H as <-; try apply rtc_refl); [|done]. rewrite <- Et. apply moves_one, mv_took.
  Qed.
  Lemma to_app_moves v : moves v (to_app E v).
  Proof.
    unfold to_app. destruct (v_down_end v) eqn:Ed; simpl; [apply rtc_refl|]. destruct (full _); [apply rtc_refl|].
    destruct (wants_read v) eqn:Ew; [|apply rtc_refl]. apply andb_true_iff in Ew as [Ew _]. apply moves_one. by constructor.
  Qed.
  Lemma hang_up_moves v : moves v (hang_up v).
  Proof. unfold hang_up. destruct (v_hup v); [apply rtc_refl|]. apply moves_one, mv_hup. Qed.

  Definition good_input (n : input) : Prop := match n_read n with RData b => bytes_ok b | _ => True end.
  Lemma cpoll_moves n v v' r : good_input n -> cpoll E b_empty fuel n v = (v', r) -> moves v v' /\ (r = PPanic -> panicked v).
  Proof.
    intros Hn H. unfold cpoll in H. pose proof (from_app_moves v) as H1.
    destruct (from_socket _ _) as [v2|] eqn:E2; [|injection H as <- <-; by split].
    apply from_socket_moves in E2. 2: { intros b Hb. unfold good_input in Hn. by rewrite Hb in Hn. }
    assert (moves v (to_client E v2)) as H3. { eapply rtc_transitive; [exact H1|]. eapply rtc_transitive; [exact E2|]. apply to_client_moves. }
    clear H1 E2. set (v3 := to_client E v2) in *. clearbody v3. clear v2.
    destruct (if v_output v3 then (v3, PPending) else _) as [v4 r4] eqn:E4.
    assert (moves v v4 /\ (r4 = PReady -> v_tag v4 = TFinished) /\ (r4 = PPanic -> panicked v)) as (H4 & Hr & Hp).
    { destruct (v_output v3); [injection E4 as <- <-; split_and!; done|].
      apply mpoll_moves in E4 as (Ha & Hb & Hc). split_and!; [by eapply rtc_transitive|done|]. intros Hx. eapply panicked_after; [exact H3|]. by apply Hc. }
    clear E4. assert ((r4 = PPending \/ r4 = PReady) \/ (r4 <> PPending /\ r4 <> PReady)) as [Hd|[Hd1 Hd2]] by (destruct r4; auto).
    2: { destruct r4; try done; injection H as <- <-; split; done. }
    assert (moves v (match r4 with PReady => put_output true v4 | _ => v4 end)) as H5.
    { destruct r4; try done. eapply rtc_r; [exact H4|]. apply mv_output. by apply Hr. }
    set (v5 := match r4 with PReady => put_output true v4 | _ => v4 end) in *.
    assert ((match to_socket (n_write n) (from_client E v5) with
      | Some v6 => if v_server_closed (to_app E v6) && v_output (to_app E v6)
          then match n_close n with CPending => (hang_up (to_app E v6), PPending) | CDone => (note SockClosed (hang_up (to_app E v6)), PReady) | CFail => (hang_up (to_app E v6), PErr) end
          else (to_app E v6, PPending)
      | None => (from_client E v5, PErr) end) = (v', r)) as H'. { by destruct Hd as [-> | ->]. }
    clear H. clearbody v5. assert (moves v (from_client E v5)) as H6. { eapply rtc_transitive; [exact H5|]. apply from_client_moves. }
    destruct (to_socket _ _) as [v6|] eqn:E6; [|injection H' as <- <-; split; done].
    apply to_socket_moves in E6. assert (moves v (to_app E v6)) as H7.
    { eapply rtc_transitive; [exact H6|]. eapply rtc_transitive; [exact E6|]. apply to_app_moves. }
    destruct (_ && _); [|injection H' as <- <-; split; done].
    assert (moves v (hang_up (to_app E v6))) as H8. { eapply rtc_transitive; [exact H7|]. apply hang_up_moves. }
    destruct (n_close n); injection H' as <- <-; split; try done. eapply rtc_r; [exact H8|]. apply mv_closed.
  Qed.
  (** What a poll that succeeds leaves. *)
  Lemma hang_up_hup v : v_hup v = true -> hang_up v = v. Proof. unfold hang_up. by intros ->. Qed.
  Lemma cpoll_ready n v v' : cpoll E b_empty fuel n v = (v', PReady) -> v_output v' = true /\ v_server_closed v' = true /\ v_hup v' = true.
  Proof.
    intros H. unfold cpoll in H. destruct (from_socket _ _) as [v2|]; [|done].
    destruct (if v_output _ then _ else _) as [v4 r4]. 
    assert (exists v5, (match to_socket (n_write n) (from_client E v5) with
      | Some v6 => if v_server_closed (to_app E v6) && v_output (to_app E v6)
          then match n_close n with CPending => (hang_up (to_app E v6), PPending) | CDone => (note SockClosed (hang_up (to_app E v6)), PReady) | CFail => (hang_up (to_app E v6), PErr) end
          else (to_app E v6, PPending)
      | None => (from_client E v5, PErr) end) = (v', PReady)) as [v5 H']. { destruct r4; try done; by eexists. }
    clear H. destruct (to_socket _ _) as [v6|]; [|done]. destruct (_ && _) eqn:Eb; [|done]. apply andb_true_iff in Eb as [H1 H2].
    destruct (n_close n); try done. injection H' as <-. unfold hang_up. destruct (v_hup (to_app E v6)) eqn:Eh; by split_and!.
  Qed.

  Lemma finishing_moves (good : bool) n v st v' r :
    (if good then match n_ready n with
        | false :: _ => (FFinishing true, v, PPending)
        | _ => if n_final n then (FDone, v, PReady) else (FError, v, PErr) end
     else match n_close n with CPending => (FFinishing false, hang_up v, PPending) | _ => (FError, note SockClosed (hang_up v), PErr) end) = (st, v', r) ->
    moves v v' /\ r <> PPanic.
  Proof.
    destruct good.
    - destruct (n_ready n) as [|[] ?]; [| |intros [= <- <- <-]; split; [apply rtc_refl|done]]; destruct (n_final n); intros [= <- <- <-]; split; try done; apply rtc_refl.
    - pose proof (hang_up_moves v). destruct (n_close n); intros [= <- <- <-]; split; try done; (eapply rtc_r; [done|apply mv_closed]).
  Qed.
  Lemma fpoll_moves n st v st' v' r : good_input n -> fpoll E b_empty fuel n (st, v) = (st', v', r) ->
    moves v v' /\ (r = PPanic -> st = FDead \/ panicked v) /\ (st' = FDead -> st = FDead \/ r = PPanic \/ r = PHang).
  Proof.
    intros Hn H. unfold fpoll in H. destruct st.
    - destruct (cpoll E b_empty fuel n v) as [v1 r1] eqn:E1. apply cpoll_moves in E1 as [H1 Hp]; [|done].
      destruct r1.
      + injection H as <- <- <-. by split_and!.
      + assert (st' <> FDead) as Hst. { destruct (n_ready n) as [|[] ?]; [destruct (n_final n)|destruct (n_final n)|]; by injection H as <- <- <-. }
        apply (finishing_moves true) in H as [H2 H3]. split_and!; [by eapply rtc_transitive|done|done].
      + assert (st' <> FDead) as Hst. { destruct (n_close n); by injection H as <- <- <-. }
        apply (finishing_moves false) in H as [H2 H3]. split_and!; [by eapply rtc_transitive|done|done].
      + injection H as <- <- <-. split_and!; [done|intros _; right; by apply Hp|auto].
      + injection H as <- <- <-. split_and!; [done|done|auto].
    - assert (st' <> FDead) as Hst. { destruct good; [destruct (n_ready n) as [|[] ?]; [destruct (n_final n)|destruct (n_final n)|]|destruct (n_close n)]; by injection H as <- <- <-. }
      apply finishing_moves in H as [H2 H3]. by split_and!.
    - injection H as <- <- <-. split_and!; [apply rtc_refl|done|done].
    - injection H as <- <- <-. split_and!; [apply rtc_refl|done|done].
    - injection H as <- <- <-. split_and!; [apply rtc_refl|by left|by left].
  Qed.
  Definition good_step (k : pstep) : Prop := match k with SPoll n => good_input n | _ => True end.
  Lemma do_step_moves k st v st' v' rs : good_step k -> do_step E b_empty fuel k (st, v) = (st', v', rs) ->
    moves v v' /\ (PPanic ∈ rs -> st = FDead \/ panicked v) /\ (st' = FDead -> st = FDead \/ PPanic ∈ rs \/ PHang ∈ rs).
  Proof.
    intros Hk H. unfold do_step in H. assert (forall (x : pres), x ∈ [] -> False) as Hnil by (intros ?; apply not_elem_of_nil). destruct k as [b|n| | |n].
    - destruct (v_up_end v) eqn:Eu; cbn [orb] in H; [injection H as <- <- <-; split_and!; [apply rtc_refl|by intros ?%Hnil|by left]|].
      destruct (v_hup v); injection H as <- <- <-; (split_and!; [|by intros ?%Hnil|by left]); [apply rtc_refl|]. apply moves_one. by constructor.
    - destruct (v_down_end v) eqn:Ed; injection H as <- <- <-; (split_and!; [|by intros ?%Hnil|by left]); [apply rtc_refl|]. apply moves_one. by constructor.
    - injection H as <- <- <-. split_and!; [|by intros ?%Hnil|by left]. destruct (v_up_end v) eqn:Eu; [apply rtc_refl|]. apply moves_one. by constructor.
    - injection H as <- <- <-. split_and!; [|by intros ?%Hnil|by left]. destruct (v_down_end v) eqn:Ed; [apply rtc_refl|]. apply moves_one. by constructor.
    - destruct (fpoll E b_empty fuel n (st, v)) as [[st1 v1] r1] eqn:E1. injection H as <- <- <-. apply fpoll_moves in E1 as (H1 & H2 & H3); [|done].
      split_and!; [done| |].
      + intros <-%elem_of_list_singleton. by apply H2.
      + intros Hd. apply H3 in Hd as [?|[-> | ->]]; [by left|right; left; by left|right; right; by left].
  Qed.
  Lemma play_moves ks st v st' v' rs : Forall good_step ks -> play E b_empty fuel ks (st, v) = (st', v', rs) -> moves v v'.
  Proof.
    revert st v rs. induction ks as [|k ks IH]; intros st v rs Hk H; cbn [play] in H; [injection H as <- <- <-; apply rtc_refl|].
    apply Forall_cons in Hk as [Hk Hks]. destruct (do_step E b_empty fuel k (st, v)) as [[st1 v1] r1] eqn:E1.
    destruct (play E b_empty fuel ks (st1, v1)) as [[st2 v2] rs2] eqn:E2. injection H as <- <- <-.
    apply do_step_moves in E1 as (H1 & _); [|done]. apply IH in E2; [|done]. by eapply rtc_transitive.
  Qed.
  Lemma gives_good ks : gives_bytes ks -> Forall good_step ks.
  Proof. intros H. eapply Forall_impl; [exact H|]. by intros []. Qed.
End Moves.
