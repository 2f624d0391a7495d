(** Histories of the prover's connection, for the examples beside the theorems about it and for what is
    refuted. *)
From Verif.Lib Require Import Base.
From Verif Require Import ProofModel CodecModel CodecSpec TlsModel HandshakeModel AttestModel SigAlgModel RecordModel ClientModel ClientSpec ClientExamples ClientWitness
  ConnModel ConnSpec ConnMoves ConnLemmas ConnFuel ConnClose ConnEnd.
Local Open Scope N_scope.

Global Instance pres_eq_dec : EqDecision pres. Proof. solve_decision. Defined.
Global Instance pev_eq_dec : EqDecision pev. Proof. solve_decision. Defined.

(** The environment of ClientExamples.v, and one whose backend has nothing to hand out. *)
Definition nE : env := x_env false false.
Definition mE : env :=
  Env (e_name nE) (e_sni nE) (e_alpn nE) (e_frag nE) (e_has_certs nE) (e_resolve nE) (e_verify_cert nE) (e_cert_key nE) (e_sig_valid nE)
    (e_sha256 nE) (e_dns_ok nE) (e_debug nE) (b_now nE) (b_sid nE) (b_random nE) (b_key_share nE) (b_prepare nE) (b_cf nE) (b_sf nE)
    (b_push_in nE) (b_push_out nE) (b_start nE) (b_close nE) (fun _ => Some ([], [])).
Definition n_empty : list cev -> bool := fun _ => true.

(** A poll in which the socket gives what is said and takes everything. *)
Definition n_poll (r : sread) : pstep := SPoll (Input [] true r (WTake 1000) CDone).
Definition n_flight : bytes := Eval vm_compute in x_wire (x_records (x_flight 0xc02b 0x0403 [0] None)).
Definition n_last : bytes := Eval vm_compute in x_last (replicate 12 12) [[1; 2; 3]; [4]; []; [5; 6]].
Definition n_handshake : list pstep := [SWrite [71; 69; 84]; n_poll RPending; n_poll (RData n_flight); n_poll (RData n_last); SRead 2].
Definition nok (ks : list pstep) : bool :=
  forallb (fun k => match k with SPoll n => match n_read n with RData b => forallb (fun b => b <? 256) b | _ => true end | _ => true end) ks.
Lemma nok_ok ks : nok ks = true -> gives_bytes ks.
Proof.
  intros H. apply Forall_forall. intros k Hk. unfold nok in H. rewrite forallb_forall in H. specialize (H k). rewrite <- elem_of_list_In in H. specialize (H Hk).
  destruct k as [| | | |n]; try done. destruct (n_read n) as [|b| |]; try done. apply Forall_forall. intros x Hx.
  rewrite forallb_forall in H. specialize (H x). rewrite <- elem_of_list_In in H. specialize (H Hx). by apply N.ltb_lt.
Qed.

(** ** A connection that is closed by the application and by the server *)
Definition n_good : list pstep := n_handshake ++ [SClose; n_poll RPending; n_poll RPending; n_poll REnd; SRead 100].
Definition n_good_st : fut * pv * list pres := Eval vm_compute in play nE n_empty 10 n_good begin.
Lemma n_good_eq : play nE n_empty 10 n_good begin = n_good_st.
Proof. vm_cast_no_check (@eq_refl _ n_good_st). Qed.
(** ** Data written in the poll that sees the end of the socket *)
Definition n_late : list pstep := n_handshake ++ [SWrite [9; 9]; n_poll REnd; SRead 100].
Definition n_late_st : fut * pv * list pres := Eval vm_compute in play nE n_empty 10 n_late begin.
Lemma n_late_eq : play nE n_empty 10 n_late begin = n_late_st.
Proof. vm_cast_no_check (@eq_refl _ n_late_st). Qed.
(** ** Bytes after close_notify *)
Definition n_alert : bytes := Eval vm_compute in x_wire [Message Alert TLSv1_2 [1; 0]].
Definition n_extra : list pstep := n_handshake ++ [n_poll (RData n_alert); n_poll (RData [23]); n_poll REnd].
Definition n_extra_st : fut * pv * list pres := Eval vm_compute in play nE n_empty 10 n_extra begin.
Lemma n_extra_eq : play nE n_empty 10 n_extra begin = n_extra_st.
Proof. vm_cast_no_check (@eq_refl _ n_extra_st). Qed.
(** ** An application that drops the connection before the server has sent everything *)
Definition n_data : bytes := Eval vm_compute in x_wire [Message ApplicationData TLSv1_2 [7; 8]].
Definition n_drop : list pstep := n_handshake ++ [SDrop; n_poll (RData n_data); n_poll REnd].
Definition n_drop_st : fut * pv * list pres := Eval vm_compute in play nE n_empty 10 n_drop begin.
Lemma n_drop_eq : play nE n_empty 10 n_drop begin = n_drop_st.
Proof. vm_cast_no_check (@eq_refl _ n_drop_st). Qed.
Lemma n_extra_ok : unread (n_extra_st.1.2) /\ n_extra_st.1.1 = FConnected /\ PHang ∉ n_extra_st.2 /\ SockEnded ∈ v_trace (n_extra_st.1.2).
Proof.
  split_and!; [|done| |].
  - split_and!; try done; vm_compute; tauto.
  - apply (bool_decide_unpack _). vm_compute. exact I.
  - apply (bool_decide_unpack _). vm_compute. exact I.
Qed.
Lemma n_drop_ok : undrained (n_drop_st.1.2) /\ n_drop_st.1.1 = FConnected /\ PHang ∉ n_drop_st.2 /\ SockEnded ∈ v_trace (n_drop_st.1.2).
Proof.
  split_and!; [|done| |].
  - split_and!; try done; vm_compute; tauto.
  - apply (bool_decide_unpack _). vm_compute. exact I.
  - apply (bool_decide_unpack _). vm_compute. exact I.
Qed.
Lemma never_after E b_empty ks0 v0 rs0 fuel ks st v rs : play E b_empty 10 ks0 begin = (FConnected, v0, rs0) -> PHang ∉ rs0 -> PReady ∉ rs0 ->
  unread v0 \/ undrained v0 -> (10 <= fuel)%nat -> gives_bytes ks -> leads E b_empty fuel (ks0 ++ ks) st v rs -> PReady ∉ rs.
Proof.
  intros H0 Hh Hr HU Hf Hk H. unfold leads in H. rewrite play_cat in H. rewrite (play_fuel E b_empty 10 fuel Hf _ _ _ _ H0 Hh) in H.
  destruct (play E b_empty fuel ks (FConnected, v0)) as [[st1 v1] rs1] eqn:E1. injection H as <- <- <-. rewrite elem_of_app. intros [Hin|Hin]; [done|].
  revert Hin. assert (unsuccessful FConnected) as HS by by split.
  destruct HU as [HU|HU]; [apply (unread_never _ _ _ _ _ _ _ _ _ Hk HU HS E1)|apply (undrained_never _ _ _ _ _ _ _ _ _ Hk HU HS E1)].
Qed.
Lemma n_extra_never fuel ks st v rs : (10 <= fuel)%nat -> gives_bytes ks -> leads nE n_empty fuel (n_extra ++ ks) st v rs -> PReady ∉ rs.
Proof.
  destruct n_extra_ok as (HU & _ & Hh & _). apply (never_after nE n_empty n_extra n_extra_st.1.2 n_extra_st.2); [exact n_extra_eq|exact Hh| |left; exact HU].
  apply (bool_decide_unpack _). vm_compute. exact I.
Qed.
Lemma n_drop_never fuel ks st v rs : (10 <= fuel)%nat -> gives_bytes ks -> leads nE n_empty fuel (n_drop ++ ks) st v rs -> PReady ∉ rs.
Proof.
  destruct n_drop_ok as (HU & _ & Hh & _). apply (never_after nE n_empty n_drop n_drop_st.1.2 n_drop_st.2); [exact n_drop_eq|exact Hh| |right; exact HU].
  apply (bool_decide_unpack _). vm_compute. exact I.
Qed.

(** ** A server that ends the socket during the handshake *)
Definition idle (i : ConnModel.inner) : Prop :=
  exists st, c_state (i_tls i) = inr st /\ df_desynced (x_df (c_x (i_tls i))) = false /\ df_frames (x_df (c_x (i_tls i))) = [] /\
    x_may_send (c_x (i_tls i)) = false /\ x_in (c_x (i_tls i)) = [] /\ x_out (c_x (i_tls i)) = [].
Lemma idle_process i : idle i -> exists i', icall mE CallProcess i = (i', Ok tt) /\ idle i' /\ io_state i' = io_state i.
Proof.
  intros (st & H1 & H2 & H3 & H4 & H5 & H6). unfold icall, step, process_new_packets. rewrite H1.
  assert (process_body mE st (c_x (i_tls i)) = (set_in [] (set_out [] (set_log (x_log (c_x (i_tls i)) ++ [Flush]) (c_x (i_tls i)))), Ok st)) as ->.
  { unfold process_body, sbind, sgets. cbn. rewrite H2, H3. unfold passed, scatch, flush_plaintext, sbind, sgets. cbn. rewrite H4. cbn. unfold sbind, sgets, smodify, emit. cbn. rewrite H5, H6. cbn. reflexivity. }
  eexists. split; [reflexivity|]. split; [|done]. exists st. done.
Qed.
Lemma idle_run fuel i : (1 <= fuel)%nat -> idle i -> exists i', job_run mE fuel i = (i', JOk) /\ idle i'.
Proof.
  intros Hf Hi. unfold job_run. destruct (idle_process i Hi) as (i1 & -> & Hi1 & _). destruct fuel as [|f]; [lia|]. cbn [settle].
  destruct (idle_process i1 Hi1) as (i2 & -> & Hi2 & Hs). rewrite bool_decide_eq_true_2 by done. eauto.
Qed.
Lemma idle_hang fuel f v : (1 <= fuel)%nat -> idle (v_i v) -> v_shut v = true -> v_tag v = TActive \/ v_tag v = TBusy JRun ->
  exists v', mpoll mE n_empty fuel f [] true v = (v', PHang).
Proof.
  intros Hf. revert v. induction f as [|f IH]; intros v Hi Hs Ht; [by eexists|]. cbn [mpoll]. destruct Ht as [-> | ->].
  - assert (handshaking (v_i v) = true) as ->. { destruct Hi as (st & _ & _ & _ & H & _). unfold handshaking. by rewrite H. }
    apply IH; pvs; auto.
  - cbn [do_job]. destruct (idle_run fuel (v_i v) Hf Hi) as (i' & -> & Hi'). pvs. rewrite Hs. cbn [tail]. apply IH; pvs; auto.
Qed.
Definition n_start_st : fut * pv * list pres := Eval vm_compute in play mE n_empty 10 [n_poll RPending] begin.
Lemma n_start_eq : play mE n_empty 10 [n_poll RPending] begin = n_start_st.
Proof. vm_cast_no_check (@eq_refl _ n_start_st). Qed.
Lemma n_hang_lemma fuel : (10 <= fuel)%nat -> exists v, leads mE n_empty fuel [n_poll RPending; n_poll REnd] FDead v [PPending; PHang].
Proof.
  intros Hf. unfold leads. change [n_poll RPending; n_poll REnd] with ([n_poll RPending] ++ [n_poll REnd]). rewrite play_cat.
  rewrite (play_fuel mE n_empty 10 fuel Hf _ _ n_start_st.1 n_start_st.2).
  2: exact n_start_eq. 2: { apply (bool_decide_unpack _). vm_compute. exact I. }
  unfold n_start_st. cbn [fst snd play]. unfold do_step, n_poll, fpoll, cpoll. cbn [n_read n_ready n_final n_write n_close].
  match goal with |- context [from_socket REnd ?v] => set (v0 := v) end.
  assert (exists v1, from_socket REnd v0 = Some v1 /\ v_output (to_client mE v1) = false /\ idle (v_i (to_client mE v1)) /\ v_shut (to_client mE v1) = true /\ v_tag (to_client mE v1) = TActive) as (v1 & -> & Ho & Hi & Hs & Ht).
  { eexists. split; [vm_compute; reflexivity|]. split_and!; try (vm_compute; reflexivity). eexists. split_and!; vm_compute; reflexivity. }
  rewrite Ho. destruct (idle_hang fuel fuel (to_client mE v1)) as (v' & ->); [lia|done|done|by left|]. by exists v'.
Qed.

(** ** Put together *)
Lemma once_one t1 t2 : SockEnded ∉ t1 -> SockEnded ∉ t2 -> sock_gave t2 = [] -> ends_once (t1 ++ SockEnded :: t2).
Proof.
  intros H1 H2 H l1 l2 Heq.
  assert (l1 = t1 /\ l2 = t2) as [-> ->]; [|done]. revert t1 H1 Heq. induction l1 as [|e l1 IH]; intros [|e' t1] H1 Heq; simpl in Heq.
  - by injection Heq as <-.
  - injection Heq as -> _. destruct H1. by left.
  - injection Heq as <- ->. destruct H2. apply elem_of_app. right. by left.
  - injection Heq as <- Heq. rewrite elem_of_cons in H1. destruct (IH t1) as [-> ->]; tauto.
Qed.
Lemma n_good_once : ends_once (v_trace n_good_st.1.2).
Proof.
  unfold n_good_st. cbn [fst snd v_trace].
  match goal with |- ends_once ?t => replace t with (take 9 t ++ SockEnded :: drop 10 t) by by vm_compute end.
  apply once_one; [apply (bool_decide_unpack _); vm_compute; exact I..|by vm_compute].
Qed.
Lemma n_late_lemma : exists E b_empty ks v rs, backend_ok E /\ gives_bytes ks /\
  leads E b_empty 10 ks FDone v rs /\ PReady ∈ rs /\ app_sent (tls_log v) = app_wrote (v_trace v) /\
  Forall (fun k => match k with SPoll n => n_write n = WTake 1000 | _ => True end) ks /\
  (exists r, queued (tls_log v) = sock_took (v_trace v) ++ r /\ r <> []).
Proof.
  exists nE, n_empty, n_late, n_late_st.1.2, n_late_st.2. split; [exact (x_backend _ _)|]. split; [apply nok_ok; by vm_compute|].
  split; [exact n_late_eq|]. split; [apply (bool_decide_unpack _); vm_compute; exact I|]. split; [by vm_compute|]. split.
  - repeat constructor.
  - exists [23; 3; 3; 0; 2; 9; 9]. split; [|done]. apply (bool_decide_unpack _). vm_compute. exact I.
Qed.
Lemma n_notify_lemma : exists ks1 ks2, i_calls (v_i n_good_st.1.2) = ks1 ++ CallCloseNotify :: ks2 /\
  app_sent (log_of (fst (run nE conn_new ks1))) = [71; 69; 84] /\ length ks2 = 6%nat.
Proof. exists (take 15 (i_calls (v_i n_good_st.1.2))), (drop 16 (i_calls (v_i n_good_st.1.2))). split; [vm_compute; reflexivity|]. split; by vm_compute. Qed.
Lemma n_closed_lemma : exists l1 l2, tls_log n_good_st.1.2 = l1 ++ CloseConnection :: l2 /\ length (records_in l1) = 10%nat /\ l2 = [].
Proof. exists (take 51 (tls_log n_good_st.1.2)), (drop 52 (tls_log n_good_st.1.2)). split; [vm_compute; reflexivity|]. split; by vm_compute. Qed.
Lemma more_fuel_lemma E b_empty fuel fuel' ks st v rs : (fuel <= fuel')%nat -> PHang ∉ rs -> leads E b_empty fuel ks st v rs -> leads E b_empty fuel' ks st v rs.
Proof. intros Hf Hh H. by eapply play_fuel. Qed.
Lemma m_backend : backend_ok mE.
Proof. destruct (x_backend false false) as [H1 H2]. split; intros log ins outs [= <- <-]; constructor. Qed.
Lemma n_hang_witness : exists E b_empty ks, backend_ok E /\ gives_bytes ks /\
  forall fuel, (10 <= fuel)%nat -> exists v, leads E b_empty fuel ks FDead v [PPending; PHang].
Proof. exists mE, n_empty, [n_poll RPending; n_poll REnd]. split; [exact m_backend|]. split; [by apply nok_ok|exact n_hang_lemma]. Qed.
Lemma n_extra_witness : exists E b_empty ks, backend_ok E /\ gives_bytes ks /\
  forall fuel, (10 <= fuel)%nat ->
    (exists v rs, leads E b_empty fuel ks FConnected v rs /\ SockEnded ∈ v_trace v) /\
    forall ks' st v rs, gives_bytes ks' -> leads E b_empty fuel (ks ++ ks') st v rs -> PReady ∉ rs.
Proof.
  exists nE, n_empty, n_extra. split; [exact (x_backend _ _)|]. split; [apply nok_ok; by vm_compute|]. destruct n_extra_ok as (_ & _ & Hh & Hs).
  intros fuel Hf. split; [|intros ks' st v rs; by apply n_extra_never]. exists n_extra_st.1.2, n_extra_st.2. split; [|exact Hs].
  exact (play_fuel nE n_empty 10 fuel Hf _ _ _ _ n_extra_eq Hh).
Qed.
Lemma n_drop_witness : exists E b_empty ks, backend_ok E /\ gives_bytes ks /\
  forall fuel, (10 <= fuel)%nat ->
    (exists v rs, leads E b_empty fuel ks FConnected v rs /\ SockEnded ∈ v_trace v /\ AppDropped ∈ v_trace v) /\
    forall ks' st v rs, gives_bytes ks' -> leads E b_empty fuel (ks ++ ks') st v rs -> PReady ∉ rs.
Proof.
  exists nE, n_empty, n_drop. split; [exact (x_backend _ _)|]. split; [apply nok_ok; by vm_compute|]. destruct n_drop_ok as (_ & _ & Hh & Hs).
  intros fuel Hf. split; [|intros ks' st v rs; by apply n_drop_never]. exists n_drop_st.1.2, n_drop_st.2.
  split; [exact (play_fuel nE n_empty 10 fuel Hf _ _ _ _ n_drop_eq Hh)|]. split; [exact Hs|]. apply (bool_decide_unpack _). vm_compute. exact I.
Qed.
