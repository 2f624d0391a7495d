(** C70, C71, C72 and C73: the connection of the prover. *)
From Verif.Lib Require Import Base.
From Verif Require Import ProofModel CodecModel CodecSpec TlsModel RecordModel ClientModel ClientSpec ClientExamples ClientWitness
  ConnModel ConnSpec ConnFinal ConnEnd ConnExamples.

(** ** C70 *)
(** Whatever the application, the socket and the backend do, and whenever the future is polled: the TLS
    client is given a prefix of the bytes that the application wrote and a prefix of those that the socket
    gave; the socket is given a prefix of the bytes that the TLS client wrote, and the application a prefix
    of those that the TLS client delivered. *)
Theorem C70_bytes_are_passed_on E b_empty fuel ks st v rs : gives_bytes ks -> leads E b_empty fuel ks st v rs ->
  (exists r, app_wrote (v_trace v) = accepted (tls_log v) ++ r) /\ (exists r, sock_gave (v_trace v) = wire_in (tls_log v) ++ r) /\
  (exists r, wire_out (tls_log v) = sock_took (v_trace v) ++ r) /\ (exists r, delivered (tls_log v) = app_got (v_trace v) ++ r).
Proof. exact (passed_lemma E b_empty fuel ks st v rs). Qed.
Print Assumptions C70_bytes_are_passed_on.

(** From end to end: the data in the records to be encrypted are a prefix of what the application wrote, the
    application gets a prefix of the data in the decrypted records, and the socket takes a prefix of the
    records that are to be sent. *)
Theorem C70_nothing_is_lost_or_made_up E b_empty fuel ks st v rs : backend_ok E -> gives_bytes ks -> leads E b_empty fuel ks st v rs ->
  (exists r, app_wrote (v_trace v) = app_sent (tls_log v) ++ r) /\ (exists r, app_received (tls_log v) = app_got (v_trace v) ++ r) /\
  (exists r, queued (tls_log v) = sock_took (v_trace v) ++ r).
Proof. exact (data_lemma E b_empty fuel ks st v rs). Qed.
Print Assumptions C70_nothing_is_lost_or_made_up.

(** If the future succeeds, the server has closed the socket, every byte of the socket was given to the TLS
    client and every whole record was taken up, the application has or still can read all the data in the
    decrypted records, and the backend was told to close. *)
Theorem C70_success_means_all_was_taken E b_empty fuel ks st v rs : backend_ok E -> gives_bytes ks -> leads E b_empty fuel ks st v rs ->
  PReady ∈ rs -> ends_once (v_trace v) ->
  SockEnded ∈ v_trace v /\ sock_gave (v_trace v) = wire_in (tls_log v) /\
  (exists bad rest, stream_holds (sock_gave (v_trace v)) (map snd (records_in (tls_log v))) bad rest) /\
  app_received (tls_log v) = app_got (v_trace v) ++ v_down v /\ CloseConnection ∈ tls_log v.
Proof. exact (ready_lemma E b_empty fuel ks st v rs). Qed.
Print Assumptions C70_success_means_all_was_taken.
(** A connection with a handshake, a request, a response, and an end by the application and by the server. *)
Example C70_ex_whole_connection : backend_ok nE /\ gives_bytes n_good /\
  (let '(st, v, rs) := n_good_st in
   leads nE n_empty 10 n_good st v rs /\ last rs = Some PReady /\ bool_decide (SockEnded ∈ v_trace v) = true /\
   app_wrote (v_trace v) = [71; 69; 84]%N /\ app_sent (tls_log v) = [71; 69; 84]%N /\
   app_received (tls_log v) = [1; 2; 3; 4; 5; 6]%N /\ app_got (v_trace v) = [1; 2; 3; 4; 5; 6]%N /\
   bool_decide (sock_took (v_trace v) = queued (tls_log v)) = true /\ (200 < length (sock_took (v_trace v))) /\ (200 < length (sock_gave (v_trace v)))).
Proof.
  split; [exact (x_backend _ _)|]. split; [apply nok_ok; by vm_compute|]. split; [exact n_good_eq|].
  split_and!; try (vm_compute; reflexivity); apply (bool_decide_unpack _); vm_compute; exact I.
Qed.
Example C70_ex_ends_once : ends_once (v_trace n_good_st.1.2).
Proof. apply n_good_once. Qed.

(** But what the application wrote need not have gone out: data that are written in the poll that sees the
    end of the socket are recorded as sent and the future succeeds, and the socket never gets them. *)
Theorem C70_success_means_all_was_sent_refuted : exists E b_empty ks v rs, backend_ok E /\ gives_bytes ks /\
  leads E b_empty 10 ks FDone v rs /\ PReady ∈ rs /\ app_sent (tls_log v) = app_wrote (v_trace v) /\
  Forall (fun k => match k with SPoll n => n_write n = WTake 1000 | _ => True end) ks /\
  (exists r, queued (tls_log v) = sock_took (v_trace v) ++ r /\ r <> []).
Proof. exact n_late_lemma. Qed.
Print Assumptions C70_success_means_all_was_sent_refuted.

(** ** C71 *)
(** The close_notify alert is asked for at most once, after the application closed or dropped its end, and
    when all that it wrote was handed over before. *)
Theorem C71_close_notify_comes_last E b_empty fuel ks st v rs ks1 ks2 c os : gives_bytes ks -> leads E b_empty fuel ks st v rs ->
  i_calls (v_i v) = ks1 ++ CallCloseNotify :: ks2 -> run E conn_new ks1 = (c, os) ->
  CallCloseNotify ∉ ks1 ++ ks2 /\ (AppClosed ∈ v_trace v \/ AppDropped ∈ v_trace v) /\ accepted (log_of c) = app_wrote (v_trace v) /\
  (backend_ok E -> app_sent (log_of c) = app_wrote (v_trace v)).
Proof. exact (notify_lemma E b_empty fuel ks st v rs ks1 ks2 c os). Qed.
Print Assumptions C71_close_notify_comes_last.
Example C71_ex_close_notify : exists ks1 ks2, i_calls (v_i n_good_st.1.2) = ks1 ++ CallCloseNotify :: ks2 /\
  app_sent (log_of (fst (run nE conn_new ks1))) = [71; 69; 84]%N /\ length ks2 = 6.
Proof. exact n_notify_lemma. Qed.

(** The backend is told to close at most once, after the end of the socket, and when all bytes of the socket
    were given to the TLS client and every whole record was taken up. *)
Theorem C71_closed_after_all_records E b_empty fuel ks st v rs l1 l2 : backend_ok E -> gives_bytes ks -> leads E b_empty fuel ks st v rs ->
  tls_log v = l1 ++ CloseConnection :: l2 ->
  CloseConnection ∉ l1 ++ l2 /\ SockEnded ∈ v_trace v /\
  (ends_once (v_trace v) -> wire_in l1 = sock_gave (v_trace v) /\
     exists bad rest, stream_holds (sock_gave (v_trace v)) (map snd (records_in l1)) bad rest).
Proof. exact (close_lemma E b_empty fuel ks st v rs l1 l2). Qed.
Print Assumptions C71_closed_after_all_records.
Example C71_ex_closed : exists l1 l2, tls_log n_good_st.1.2 = l1 ++ CloseConnection :: l2 /\ length (records_in l1) = 10 /\ l2 = [].
Proof. exact n_closed_lemma. Qed.

(** ** C72 *)
(** A poll ends, unless the server closed the socket during the handshake, or the TLS client goes on
    processing packets for ever. *)
Theorem C72_polls_end_partial E b_empty fuel ks st v rs n st' v' : gives_bytes (ks ++ [SPoll n]) -> leads E b_empty fuel ks st v rs -> 6 <= fuel ->
  fpoll E b_empty fuel n (st, v) = (st', v', PHang) ->
  (handshaking (v_i v) = true /\ SockEnded ∈ v_trace v') \/ exists ks', i_calls (v_i v') = ks' ++ replicate fuel CallProcess.
Proof. exact (poll_ends E b_empty fuel ks st v rs n st' v'). Qed.
Print Assumptions C72_polls_end_partial.
Example C72_ex_ends : bool_decide (PHang ∉ n_good_st.2) = true /\ length n_good_st.2 = 6.
Proof. split; vm_compute; reflexivity. Qed.
(** More turns of the loops change nothing once they end. *)
Theorem C72_bound_does_not_matter E b_empty fuel fuel' ks st v rs : fuel <= fuel' -> PHang ∉ rs ->
  leads E b_empty fuel ks st v rs -> leads E b_empty fuel' ks st v rs.
Proof. exact (more_fuel_lemma E b_empty fuel fuel' ks st v rs). Qed.
Print Assumptions C72_bound_does_not_matter.

(** If the server closes the socket during the handshake, the poll does not end, however long it runs. *)
Theorem C72_polls_end_refuted : exists E b_empty ks, backend_ok E /\ gives_bytes ks /\
  forall fuel, 10 <= fuel -> exists v, leads E b_empty fuel ks FDead v [PPending; PHang].
Proof. exact n_hang_witness. Qed.
Print Assumptions C72_polls_end_refuted.
(** If the server sends something after its close_notify and then closes the socket, the future never
    succeeds, whatever happens then. *)
Theorem C72_ends_after_close_notify_refuted : exists E b_empty ks, backend_ok E /\ gives_bytes ks /\
  forall fuel, 10 <= fuel ->
    (exists v rs, leads E b_empty fuel ks FConnected v rs /\ SockEnded ∈ v_trace v) /\
    forall ks' st v rs, gives_bytes ks' -> leads E b_empty fuel (ks ++ ks') st v rs -> PReady ∉ rs.
Proof. exact n_extra_witness. Qed.
Print Assumptions C72_ends_after_close_notify_refuted.
(** If the application drops its connection before all data came and the server closes the socket, the
    future never succeeds, whatever happens then. *)
Theorem C72_ends_after_drop_refuted : exists E b_empty ks, backend_ok E /\ gives_bytes ks /\
  forall fuel, 10 <= fuel ->
    (exists v rs, leads E b_empty fuel ks FConnected v rs /\ SockEnded ∈ v_trace v /\ AppDropped ∈ v_trace v) /\
    forall ks' st v rs, gives_bytes ks' -> leads E b_empty fuel (ks ++ ks') st v rs -> PReady ∉ rs.
Proof. exact n_drop_witness. Qed.
Print Assumptions C72_ends_after_drop_refuted.

(** ** C73 *)
(** Polls that end do not panic. *)
Theorem C73_no_panic E b_empty fuel ks st v rs : (0 < e_frag E)%N -> e_debug E = false -> gives_bytes ks -> leads E b_empty fuel ks st v rs ->
  PHang ∉ rs -> PPanic ∉ rs.
Proof. exact (no_panic_lemma E b_empty fuel ks st v rs). Qed.
Print Assumptions C73_no_panic.
(** After the future has ended, with or without an error, every poll is refused with an error. *)
Theorem C73_result_is_given_once E b_empty fuel ks st v rs1 r rs2 : gives_bytes ks -> leads E b_empty fuel ks st v (rs1 ++ r :: rs2) ->
  r = PReady \/ r = PErr -> Forall (eq PErr) rs2.
Proof. exact (over_lemma E b_empty fuel ks st v rs1 r rs2). Qed.
Print Assumptions C73_result_is_given_once.
(** When the future has ended, the application's connection was closed, so nobody waits for it. *)
Theorem C73_application_is_told E b_empty fuel ks st v rs : gives_bytes ks -> leads E b_empty fuel ks st v rs ->
  PReady ∈ rs \/ PErr ∈ rs -> HungUp ∈ v_trace v.
Proof. exact (told_lemma E b_empty fuel ks st v rs). Qed.
Print Assumptions C73_application_is_told.
(** A connection that fails because the socket does, and one that succeeds; both are polled again. *)
Example C73_ex_ends : (0 < e_frag nE)%N /\ e_debug nE = false /\
  snd (play nE n_empty 10 (n_handshake ++ [n_poll RFail; n_poll RPending; n_poll REnd]) begin) = [PPending; PPending; PPending; PErr; PErr; PErr] /\
  snd (play nE n_empty 10 (n_good ++ [n_poll RPending]) begin) = [PPending; PPending; PPending; PPending; PPending; PReady; PErr].
Proof. split_and!; try done; vm_compute; reflexivity. Qed.
