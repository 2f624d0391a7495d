(** The prover's connection in proxy mode: properties C74 to C76. *)
From Verif.Lib Require Import Base.
From Verif Require Import CodecModel ConnModel ConnSpec ConnExamples ProxConnModel ProxConnSpec ProxConnLemmas ProxConnEnd ProxConnExamples.

(** C74: what is handed over to be proved is what went over the connection, for every TLS library and every history:
    the bytes from the server are exactly those the socket gave, the application's data is a prefix of what it wrote
    and at least what it got, the bytes to the server and those the socket took are a prefix of each other. *)
Theorem C74_recorded_traffic_is_real : forall R (L : lib R) r0 ks s v rs ms t,
  yleads L r0 ks s v rs -> XFinalize ms t ∈ k_log (y_c v) ->
  ms <> []
  /\ (exists b, app_wrote (y_trace v) = tb_app_sent t ++ b)
  /\ (exists b, tb_app_recv t = app_got (y_trace v) ++ b)
  /\ (exists b, sock_gave (y_trace v) = tb_tls_recv t ++ b)
  /\ (ends_once (y_trace v) -> tb_tls_recv t = sock_gave (y_trace v))
  /\ in_line (tb_tls_sent t) (sock_took (y_trace v))
  /\ SockEnded ∈ y_trace v.
Proof. exact @traffic_lemma. Qed.
Print Assumptions C74_recorded_traffic_is_real.
Example C74_recorded_example : yleads toyL toy0 good_steps good_st.1.1 good_st.1.2 good_st.2
  /\ XFinalize [1%N] (TlsBytes [22; 1; 2; 21]%N [22; 3; 4; 5]%N [1; 2]%N [3; 4; 5]%N) ∈ k_log (y_c good_st.1.2)
  /\ app_wrote (y_trace good_st.1.2) = [1; 2]%N /\ app_got (y_trace good_st.1.2) = [3; 4]%N /\ ends_once (y_trace good_st.1.2).
Proof. split_and!; [exact good_leads| |reflexivity|reflexivity|exact once_good]. do 11 right. left. Qed.

(** C74: it is handed over once. *)
Theorem C74_handed_over_once : forall R (L : lib R) r0 ks s v rs l1 ms t l2,
  yleads L r0 ks s v rs -> k_log (y_c v) = l1 ++ XFinalize ms t :: l2 -> ~ finalized l1 /\ ~ finalized l2.
Proof. exact @once_lemma. Qed.
Print Assumptions C74_handed_over_once.
Example C74_handed_over_once_example : exists l1 ms t l2, k_log (y_c good_st.1.2) = l1 ++ XFinalize ms t :: l2 /\ length l1 = 11.
Proof. eexists (take 11 (k_log (y_c good_st.1.2))), _, _, _. split; reflexivity. Qed.

(** C74: a connection that succeeds has handed it over. *)
Theorem C74_success_means_handed_over : forall R (L : lib R) r0 ks s v rs,
  yleads L r0 ks s v rs -> PReady ∈ rs -> exists ms t, XFinalize ms t ∈ k_log (y_c v).
Proof. exact @success_traffic. Qed.
Print Assumptions C74_success_means_handed_over.
Example C74_success_example : yleads toyL toy0 good_steps good_st.1.1 good_st.1.2 good_st.2 /\ PReady ∈ good_st.2.
Proof. split; [exact good_leads|]. do 4 right. left. Qed.

(** C74, refuted: not all that the server was sent is recorded. What the application writes when the server closes is
    recorded as its data and sent, but the records that carry it are not in the recorded traffic. *)
Theorem C74_all_sent_is_recorded_refuted : exists R (L : lib R) r0 ks v rs ms t b,
  never_fails L /\ stays_connected L /\ yleads L r0 ks FDone v rs /\ XFinalize ms t ∈ k_log (y_c v)
  /\ b <> [] /\ sock_took (y_trace v) = tb_tls_sent t ++ b /\ tb_app_sent t = b.
Proof.
  exists toy, toyL, toy0, late_steps, late_st.1.2, late_st.2, [1%N], (TlsBytes [22]%N [22]%N [1; 2]%N []), [1; 2]%N.
  split_and!; [exact toy_never_fails|exact toy_stays|exact late_leads| |done|reflexivity|reflexivity]. do 5 right. left.
Qed.
Print Assumptions C74_all_sent_is_recorded_refuted.

(** C74, refuted: nor was all that is recorded sent, as a success does not wait for the socket. *)
Theorem C74_all_recorded_was_sent_refuted : exists R (L : lib R) r0 ks v rs ms t b,
  never_fails L /\ stays_connected L /\ yleads L r0 ks FDone v rs /\ XFinalize ms t ∈ k_log (y_c v)
  /\ b <> [] /\ tb_tls_sent t = sock_took (y_trace v) ++ b /\ SockClosed ∈ y_trace v.
Proof.
  exists toy, toyL, toy0, stuck_steps, stuck_st.1.2, stuck_st.2, [1%N], (TlsBytes [22; 1; 2]%N [22]%N [1; 2]%N []), [1; 2]%N.
  split_and!; [exact toy_never_fails|exact toy_stays|exact stuck_leads| |done|reflexivity|].
  - do 7 right. left.
  - do 5 right. left.
Qed.
Print Assumptions C74_all_recorded_was_sent_refuted.

(** C74, refuted: an application that has not dropped its connection but reads slowly can lose the end of the response
    although the connection succeeds: with a library whose plaintext is what comes after the handshake, a byte that
    the socket gave is neither read nor in the pipe any more. *)
Theorem C74_all_received_is_delivered_refuted : exists ks v rs d, yleads toyL toy0 ks FDone v rs /\ sock_gave (y_trace v) = 22%N :: d
  /\ AppDropped ∉ y_trace v /\ y_hup v = true /\ exists k, d = (app_got (y_trace v) ++ y_down v) ++ [k].
Proof. exact slow_real. Qed.
Print Assumptions C74_all_received_is_delivered_refuted.

(** C75: the closing alert is sent at most once, only after the application closed or dropped its end, and after all
    that the application wrote. *)
Theorem C75_close_notify_comes_last : forall R (L : lib R) r0 ks s v rs l1 l2,
  yleads L r0 ks s v rs -> k_log (y_c v) = l1 ++ XNotify :: l2 ->
  XNotify ∉ l1 /\ XNotify ∉ l2 /\ data_in l1 = app_wrote (y_trace v) /\ (AppClosed ∈ y_trace v \/ AppDropped ∈ y_trace v).
Proof. exact @notify_lemma. Qed.
Print Assumptions C75_close_notify_comes_last.
Example C75_close_notify_example : exists l1 l2, k_log (y_c good_st.1.2) = l1 ++ XNotify :: l2 /\ data_in l1 = [1; 2]%N.
Proof. exists (take 8 (k_log (y_c good_st.1.2))), (drop 9 (k_log (y_c good_st.1.2))). split; reflexivity. Qed.

(** C76: whatever the TLS library and the socket do, the prover's future neither panics nor loops, and gives at most
    one result. *)
Theorem C76_no_panic_and_one_result : forall R (L : lib R) r0 ks s v rs,
  yleads L r0 ks s v rs -> PPanic ∉ rs /\ PHang ∉ rs /\
  (PReady ∈ rs -> s = FDone /\ exists l1 l2, rs = l1 ++ PReady :: l2 /\ PReady ∉ l1 /\ PReady ∉ l2).
Proof. exact @fine_lemma. Qed.
Print Assumptions C76_no_panic_and_one_result.
Example C76_no_panic_example : yleads toyL toy0 good_steps good_st.1.1 good_st.1.2 good_st.2 /\ good_st.2 = [PPending; PPending; PPending; PPending; PReady].
Proof. split; [exact good_leads|reflexivity]. Qed.

(** C76: when the connection is no longer running the application has been told: its end has been closed. *)
Theorem C76_application_is_told : forall R (L : lib R) r0 ks s v rs,
  yleads L r0 ks s v rs -> s <> FConnected -> HungUp ∈ y_trace v.
Proof. exact @hup_lemma. Qed.
Print Assumptions C76_application_is_told.
Example C76_told_example : yleads toyL toy0 good_steps FDone good_st.1.2 good_st.2.
Proof. exact good_leads. Qed.

(** C76, in part: once the server has closed its end, the library has been given all bytes and the handshake is over, the next poll with everything
    ready ends the connection. *)
Theorem C76_ends_after_server_close_partial : forall R (L : lib R) r0 ks v rs n,
  never_fails L -> stays_connected L ->
  yleads L r0 ks FConnected v rs -> SockEnded ∈ y_trace v -> wire_in (k_log (y_c v)) = sock_gave (y_trace v) ->
  l_handshaking L (k_r (y_c v)) = false ->
  n_ready n = [] -> n_final n = true -> n_read n = RPending -> n_write n <> WFail -> n_close n = CDone ->
  exists v', yfpoll L n (FConnected, v) = (FDone, v', PReady).
Proof. exact @ends_lemma. Qed.
Print Assumptions C76_ends_after_server_close_partial.
Example C76_ends_example : never_fails toyL /\ stays_connected toyL /\ yleads toyL toy0 over_steps FConnected over_st.1.2 over_st.2
  /\ SockEnded ∈ y_trace over_st.1.2 /\ wire_in (k_log (y_c over_st.1.2)) = sock_gave (y_trace over_st.1.2) /\ l_handshaking toyL (k_r (y_c over_st.1.2)) = false.
Proof. split_and!; [exact toy_never_fails|exact toy_stays|exact over_leads| |reflexivity|reflexivity]. do 8 right. left. Qed.

(** C76, refuted: if the server closes its end during the handshake the connection never ends, whatever the application does and however often the future is
    polled. *)
Theorem C76_ends_after_server_close_refuted : exists R (L : lib R) r0 ks v rs,
  never_fails L /\ stays_connected L /\ yleads L r0 ks FConnected v rs /\ SockEnded ∈ y_trace v
  /\ wire_in (k_log (y_c v)) = sock_gave (y_trace v) /\
  forall ks', Forall silent ks' -> exists v' rs', yleads L r0 (ks ++ ks') FConnected v' rs' /\ Forall (fun r => r = PPending) rs'.
Proof.
  exists toy, toyL, toy0, early_steps, early_st.1.2, early_st.2. split; [exact toy_never_fails|]. split; [exact toy_stays|]. exact early_never.
Qed.
Print Assumptions C76_ends_after_server_close_refuted.
