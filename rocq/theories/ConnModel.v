(** Model of the prover's side of a connection: crates/tlsn/src/prover/client/mpc.rs [MpcTlsClient],
    crates/tlsn/src/prover.rs:296-317 and 399-506 (the event loop that moves bytes between the application, the
    TLS client and the server) and crates/tlsn/src/prover/future.rs [ProverFuture].

    The TLS client is that of ClientModel.v. A job (one of the futures of mpc.rs) takes effect in the poll in
    which it becomes ready: until then its client cannot be seen by anyone (mpc.rs:98-113). Whether decryption
    is switched on (mpc.rs:231-237) is not modelled, as the answers of the backend are arbitrary anyway. Of
    wakers nothing is modelled: a task may be polled at any time.

    The pipes of crate futures-plex are taken to be queues of bytes of capacity 16 MiB: [poll_get] gives what is
    there, nothing if it is empty and its writer is gone, and waits if it is empty otherwise; [poll_mut] gives
    the room left, waits if there is none, and fails with BrokenPipe if the reader is gone. *)
From Verif.Lib Require Import Base.
From Verif Require Import ProofModel CodecModel TlsModel HandshakeModel AttestModel SigAlgModel RecordModel ClientModel.

(** mpc.rs:335-397: what can be going on. *)
Inductive job := JStart | JRun | JClientClose | JServerClose.
(** mpc.rs:34-55 [State], without the client in it. *)
Inductive tag := TStart | TActive | TBusy (j : job) | TCloseActive | TCloseBusy (j : job) | TFinalizing | TFinished | TError.
(** mpc.rs:326-333 [InnerState]; [i_done] is whether the backend has closed the connection (leader.rs
    [State::Closed]). [i_calls] are the calls made so far, for reference. *)
Record inner := Inner { i_tls : conn; i_calls : list call; i_close_sent : bool; i_done : bool }.
Inductive jres := JOk | JErr | JPanic | JHang.
(** What a poll results in. *)
Inductive pres := PPending | PReady | PErr | PPanic | PHang.

(** What happens outside: bytes that the application writes and reads, bytes that come from and go to the
    server's socket, and what is closed. *)
Inductive pev := AppWrote (b : bytes) | AppGot (b : bytes) | AppClosed | AppDropped
| SockGave (b : bytes) | SockEnded | SockTook (b : bytes) | HungUp | SockClosed.

(** prover.rs:43 *)
Definition BUF_CAP : N := 16777216%N.
(** a pipe that is full, and how many of [n] bytes there is room for *)
Definition full (b : bytes) : bool := (BUF_CAP <=? N.of_nat (length b))%N.
Definition fit (b : bytes) (n : nat) : nat := N.to_nat (N.min (N.of_nat n) (BUF_CAP - N.of_nat (length b))).

(** mpc.rs:27-32 [MpcTlsClient] ([v_tag], [v_i], [v_wants] for [client_wants_close], [v_shut] for
    [server_closed]) and state.rs [Connected]: the pipes from and to the application with whether the
    application closed its end, those from and to the server, and the flags. [v_hup] is whether the prover
    closed its end of the application's pipes; [v_trace] is what happened outside. *)
Record pv := Pv {
  v_tag : tag;
  v_i : inner;
  v_wants : bool;
  v_shut : bool;
  v_up : bytes;
  v_up_end : bool;
  v_down : bytes;
  v_down_end : bool;
  v_rx : bytes;
  v_tx : bytes;
  v_client_closed : bool;
  v_server_closed : bool;
  v_output : bool;
  v_hup : bool;
  v_trace : list pev }.
Definition put_tag (a : tag) (v : pv) : pv :=
  Pv a (v_i v) (v_wants v) (v_shut v) (v_up v) (v_up_end v) (v_down v) (v_down_end v) (v_rx v) (v_tx v) (v_client_closed v) (v_server_closed v) (v_output v) (v_hup v) (v_trace v).
Definition put_i (a : inner) (v : pv) : pv :=
  Pv (v_tag v) a (v_wants v) (v_shut v) (v_up v) (v_up_end v) (v_down v) (v_down_end v) (v_rx v) (v_tx v) (v_client_closed v) (v_server_closed v) (v_output v) (v_hup v) (v_trace v).
Definition put_wants (a : bool) (v : pv) : pv :=
  Pv (v_tag v) (v_i v) a (v_shut v) (v_up v) (v_up_end v) (v_down v) (v_down_end v) (v_rx v) (v_tx v) (v_client_closed v) (v_server_closed v) (v_output v) (v_hup v) (v_trace v).
Definition put_shut (a : bool) (v : pv) : pv :=
  Pv (v_tag v) (v_i v) (v_wants v) a (v_up v) (v_up_end v) (v_down v) (v_down_end v) (v_rx v) (v_tx v) (v_client_closed v) (v_server_closed v) (v_output v) (v_hup v) (v_trace v).
Definition put_up (a : bytes) (v : pv) : pv :=
  Pv (v_tag v) (v_i v) (v_wants v) (v_shut v) a (v_up_end v) (v_down v) (v_down_end v) (v_rx v) (v_tx v) (v_client_closed v) (v_server_closed v) (v_output v) (v_hup v) (v_trace v).
Definition put_up_end (a : bool) (v : pv) : pv :=
  Pv (v_tag v) (v_i v) (v_wants v) (v_shut v) (v_up v) a (v_down v) (v_down_end v) (v_rx v) (v_tx v) (v_client_closed v) (v_server_closed v) (v_output v) (v_hup v) (v_trace v).
Definition put_down (a : bytes) (v : pv) : pv :=
  Pv (v_tag v) (v_i v) (v_wants v) (v_shut v) (v_up v) (v_up_end v) a (v_down_end v) (v_rx v) (v_tx v) (v_client_closed v) (v_server_closed v) (v_output v) (v_hup v) (v_trace v).
Definition put_down_end (a : bool) (v : pv) : pv :=
  Pv (v_tag v) (v_i v) (v_wants v) (v_shut v) (v_up v) (v_up_end v) (v_down v) a (v_rx v) (v_tx v) (v_client_closed v) (v_server_closed v) (v_output v) (v_hup v) (v_trace v).
Definition put_rx (a : bytes) (v : pv) : pv :=
  Pv (v_tag v) (v_i v) (v_wants v) (v_shut v) (v_up v) (v_up_end v) (v_down v) (v_down_end v) a (v_tx v) (v_client_closed v) (v_server_closed v) (v_output v) (v_hup v) (v_trace v).
Definition put_tx (a : bytes) (v : pv) : pv :=
  Pv (v_tag v) (v_i v) (v_wants v) (v_shut v) (v_up v) (v_up_end v) (v_down v) (v_down_end v) (v_rx v) a (v_client_closed v) (v_server_closed v) (v_output v) (v_hup v) (v_trace v).
Definition put_client_closed (a : bool) (v : pv) : pv :=
  Pv (v_tag v) (v_i v) (v_wants v) (v_shut v) (v_up v) (v_up_end v) (v_down v) (v_down_end v) (v_rx v) (v_tx v) a (v_server_closed v) (v_output v) (v_hup v) (v_trace v).
Definition put_server_closed (a : bool) (v : pv) : pv :=
  Pv (v_tag v) (v_i v) (v_wants v) (v_shut v) (v_up v) (v_up_end v) (v_down v) (v_down_end v) (v_rx v) (v_tx v) (v_client_closed v) a (v_output v) (v_hup v) (v_trace v).
Definition put_output (a : bool) (v : pv) : pv :=
  Pv (v_tag v) (v_i v) (v_wants v) (v_shut v) (v_up v) (v_up_end v) (v_down v) (v_down_end v) (v_rx v) (v_tx v) (v_client_closed v) (v_server_closed v) a (v_hup v) (v_trace v).
Definition put_hup (a : bool) (v : pv) : pv :=
  Pv (v_tag v) (v_i v) (v_wants v) (v_shut v) (v_up v) (v_up_end v) (v_down v) (v_down_end v) (v_rx v) (v_tx v) (v_client_closed v) (v_server_closed v) (v_output v) a (v_trace v).
Definition put_trace (a : list pev) (v : pv) : pv :=
  Pv (v_tag v) (v_i v) (v_wants v) (v_shut v) (v_up v) (v_up_end v) (v_down v) (v_down_end v) (v_rx v) (v_tx v) (v_client_closed v) (v_server_closed v) (v_output v) (v_hup v) a.
Definition note (e : pev) (v : pv) : pv := put_trace (v_trace v ++ [e]) v.

(** What the socket does when it is polled. *)
Inductive sread := RPending | RData (b : bytes) | REnd | RFail.
Inductive swrite := WPending | WTake (n : nat) | WBroken | WFail.
Inductive sclose := CPending | CDone | CFail.
(** What happens in one poll of the future: whether jobs are ready when they are polled (those not listed
    are), whether the last step of the MPC protocol succeeds, and what the socket does. *)
Record input := Input { n_ready : list bool; n_final : bool; n_read : sread; n_write : swrite; n_close : sclose }.

Section Conn.
  Context (E : env).
  (** leader.rs:648-654 [is_empty]: whether the backend has records that it has not handed out yet. *)
  Context (b_empty : list cev -> bool).
  (** how often loops are run at most *)
  Context (fuel : nat).

  Definition icall (k : call) (i : inner) : inner * outcome cl_error unit :=
    let (c, o) := step E (i_tls i) k in (Inner c (i_calls i ++ [k]) (i_close_sent i) (i_done i), o).
  (** conn.rs:675-680 [current_io_state] *)
  Definition io_state (i : inner) : nat * nat :=
    (length (concat (x_received (c_x (i_tls i)))), length (concat (x_tls (c_x (i_tls i))))).
  (** mpc.rs:352-365: the loop *)
  Fixpoint settle (f : nat) (before : nat * nat) (i : inner) : inner * jres :=
    match f with
    | O => (i, JHang)
    | S f =>
        match icall CallProcess i with
        | (i, Ok _) =>
            let now := io_state i in
            if bool_decide (now = before) then (i, JOk) else settle f now i
        | (i, Err _) => (i, JErr)
        | (i, Panic) => (i, JPanic)
        end
    end.
  (** mpc.rs:346-368 [run] *)
  Definition job_run (i : inner) : inner * jres :=
    match icall CallProcess i with
    | (i, Ok _) => settle fuel (io_state i) i
    | (i, Err _) => (i, JErr)
    | (i, Panic) => (i, JPanic)
    end.
  (** mpc.rs:371-383 [client_close]: an error of the alert is ignored *)
  Definition job_client_close (i : inner) : inner * jres :=
    match job_run i with
    | (i, JOk) =>
        if i_close_sent i then (i, JOk)
        else
          match icall CallCloseNotify i with
          | (i, Panic) => (i, JPanic)
          | (i, _) => (Inner (i_tls i) (i_calls i) true (i_done i), JOk)
          end
    | r => r
    end.
  (** mpc.rs:386-396 [server_close] *)
  Definition job_server_close (i : inner) : inner * jres :=
    match job_run i with
    | (i, JOk) =>
        match icall CallServerClosed i with
        | (i, Ok _) => (Inner (i_tls i) (i_calls i) (i_close_sent i) true, JOk)
        | (i, Err _) => (i, JErr)
        | (i, Panic) => (i, JPanic)
        end
    | r => r
    end.
  (** mpc.rs:337-343 [start]; conn.rs:112-122: a handshake that fails to start is noticed later *)
  Definition job_start (i : inner) : inner * jres :=
    match icall CallStart i with
    | (i, Ok _) => (i, JOk)
    | (i, Err _) => (i, JErr)
    | (i, Panic) => (i, JPanic)
    end.
  Definition do_job (j : job) (i : inner) : inner * jres :=
    match j with
    | JStart => job_start i
    | JRun => job_run i
    | JClientClose => job_client_close i
    | JServerClose => job_server_close i
    end.

  (** conn.rs:402-404 [is_handshaking] *)
  Definition handshaking (i : inner) : bool := negb (x_may_send (c_x (i_tls i)) && x_may_recv (c_x (i_tls i))).
  (** mpc.rs:419-421 [is_record_layer_empty] *)
  Definition drained (i : inner) : bool :=
    match x_received (c_x (i_tls i)), x_in (c_x (i_tls i)), x_out (c_x (i_tls i)) with
    | [], [], [] => b_empty (log_of (i_tls i))
    | _, _, _ => false
    end.
  (** mpc.rs:204-323 [poll]. The two other [expect]s (299 and 405) are about the sharing of the VM, which is
      not modelled. *)
  Fixpoint mpoll (f : nat) (ready : list bool) (final : bool) (v : pv) : pv * pres :=
    match f with
    | O => (v, PHang)
    | S f =>
        match v_tag v with
        | TStart => mpoll f ready final (put_tag (TBusy JStart) v)
        | TActive =>
            let t :=
              if handshaking (v_i v) then TBusy JRun
              else if v_shut v then TCloseBusy JServerClose
              else if v_wants v then TBusy JClientClose
              else TBusy JRun in
            mpoll f ready final (put_tag t v)
        | TBusy j =>
            match ready with
            | false :: _ => (v, PPending)
            | _ =>
                let (i, r) := do_job j (v_i v) in
                let v := put_i i v in
                match r with
                | JOk =>
                    let v := put_tag TActive v in
                    if v_shut v then mpoll f (tail ready) final v else (v, PPending)
                | JErr => (put_tag TError v, PErr)
                | JPanic => (put_tag TError v, PPanic)
                | JHang => (put_tag TError v, PHang)
                end
            end
        | TCloseActive => mpoll f ready final (put_tag (TCloseBusy JRun) v)
        | TCloseBusy j =>
            match ready with
            | false :: _ => (v, PPending)
            | _ =>
                let (i, r) := do_job j (v_i v) in
                let v := put_i i v in
                match r with
                | JOk =>
                    if drained i then
                      (** mpc.rs:276: the [expect] *)
                      if i_done i then mpoll f (tail ready) final (put_tag TFinalizing v)
                      else (put_tag TError v, PPanic)
                    else (put_tag TCloseActive v, PPending)
                | JErr => (put_tag TError v, PErr)
                | JPanic => (put_tag TError v, PPanic)
                | JHang => (put_tag TError v, PHang)
                end
            end
        | TFinalizing =>
            match ready with
            | false :: _ => (v, PPending)
            | _ => if final then (put_tag TFinished v, PReady) else (put_tag TError v, PErr)
            end
        | TFinished => (put_tag TError v, PErr)
        | TError => (v, PErr)
        end
    end.

  (** mpc.rs:98-113 *)
  Definition visible (v : pv) : bool := match v_tag v with TActive | TCloseActive => true | _ => false end.
  Definition tls_of (v : pv) : cx := c_x (i_tls (v_i v)).
  (** The trait's methods, mpc.rs:118-198, with conn.rs:380-392 and 647-659. *)
  Definition wants_read_tls (v : pv) : bool :=
    visible v && (match x_received (tls_of v) with [] => true | _ => false end) && negb (x_close (tls_of v))
    && (x_may_send (tls_of v) || match x_tls (tls_of v) with [] => true | _ => false end).
  Definition wants_write_tls (v : pv) : bool := visible v && match x_tls (tls_of v) with [] => false | _ => true end.
  Definition wants_read (v : pv) : bool := visible v && match x_received (tls_of v) with [] => false | _ => true end.
  Definition wants_write (v : pv) : bool :=
    visible v && negb (DEFAULT_BUFFER_LIMIT <=? N.of_nat (length (concat (x_sendable (tls_of v)))))%N.
  (** A call that returns a number of bytes; it never fails (deframer.rs:59-81 and vecbuf.rs do not, reading
      from and writing to slices). *)
  Definition vcall (k : call) (v : pv) : pv := put_i (fst (icall k (v_i v))) v.
  (** deframer.rs:65: the room in the deframer's buffer *)
  Definition df_fit (v : pv) (n : nat) : nat :=
    N.to_nat (N.min (N.of_nat n) (MAX_WIRE_SIZE - N.of_nat (length (df_buf (x_df (tls_of v)))))).

  (** prover.rs:399-454 [io_to_tls_client], its three parts *)
  Definition from_app (v : pv) : pv :=
    match v_up v with
    | [] =>
        if v_up_end v && negb (v_client_closed v) && negb (v_server_closed v)
        then put_wants true (put_client_closed true v) else v
    | _ =>
        if wants_write v then
          let n := snd (cvb_append_limited (x_sendable (tls_of v)) (v_up v)) in
          put_up (drop n (v_up v)) (vcall (CallWrite (v_up v)) v)
        else v
    end.
  Definition from_socket (r : sread) (v : pv) : option pv :=
    match r with
    | RPending => Some v
    | RFail => None
    | REnd =>
        if full (v_rx v) || v_server_closed v then Some v
        else Some (note SockEnded (put_server_closed true v))
    | RData b => let b := take (fit (v_rx v) (length b)) b in Some (note (SockGave b) (put_rx (v_rx v ++ b) v))
    end.
  Definition to_client (v : pv) : pv :=
    match v_rx v with
    | [] => if v_server_closed v then put_shut true v else v
    | _ =>
        if wants_read_tls v then
          let n := df_fit v (length (v_rx v)) in
          put_rx (drop n (v_rx v)) (vcall (CallReadTls (take n (v_rx v))) v)
        else v
    end.
  (** prover.rs:456-506 [io_from_tls_client], its three parts *)
  Definition from_client (v : pv) : pv :=
    if full (v_tx v) then v
    else if wants_write_tls v then
      let n := fit (v_tx v) (length (concat (x_tls (tls_of v)))) in
      let b := fst (cvb_write n (x_tls (tls_of v))) in
      put_tx (v_tx v ++ b) (vcall (CallWriteTls n) v)
    else v.
  Definition to_socket (w : swrite) (v : pv) : option pv :=
    match v_tx v, w with
    | [], _ => Some v
    | _, WTake n => Some (note (SockTook (take n (v_tx v))) (put_tx (drop n (v_tx v)) v))
    | _, WFail => None
    | _, _ => Some v
    end.
  Definition to_app (v : pv) : pv :=
    if v_down_end v || full (v_down v) then v
    else if wants_read v then
      let n := fit (v_down v) (length (concat (x_received (tls_of v)))) in
      let b := fst (cvb_read n (x_received (tls_of v))) in
      put_down (v_down v ++ b) (vcall (CallRead n) v)
    else v.
  Definition hang_up (v : pv) : pv := if v_hup v then v else note HungUp (put_hup true v).
  (** prover.rs:296-317 [poll] *)
  Definition cpoll (n : input) (v : pv) : pv * pres :=
    match from_socket (n_read n) (from_app v) with
    | None => (from_app v, PErr)
    | Some v =>
        let v := to_client v in
        let (v, r) := if v_output v then (v, PPending) else mpoll fuel (n_ready n) (n_final n) v in
        match r with
        | PErr | PPanic | PHang => (v, r)
        | PPending | PReady =>
            let v := match r with PReady => put_output true v | _ => v end in
            let v := from_client v in
            match to_socket (n_write n) v with
            | None => (v, PErr)
            | Some v =>
                let v := to_app v in
                if v_server_closed v && v_output v then
                  let v := hang_up v in
                  match n_close n with
                  | CPending => (v, PPending)
                  | CDone => (note SockClosed v, PReady)
                  | CFail => (v, PErr)
                  end
                else (v, PPending)
            end
        end
    end.

  (** future.rs:16-25 [FutureState]; a panic or a loop without end is the end of the task. *)
  Inductive fut := FConnected | FFinishing (good : bool) | FDone | FError | FDead.
  (** future.rs:33-86 [poll]; [PReady] is [Ready(Ok(_))]. [n_final] is whether [Prover::finish]
      (prover.rs:340-397) succeeds. Closing the handles after an error: future.rs:44-63. *)
  Definition fpoll (n : input) (s : fut * pv) : fut * pv * pres :=
    let finishing (good : bool) (v : pv) :=
      if good then
        match n_ready n with
        | false :: _ => (FFinishing true, v, PPending)
        | _ => if n_final n then (FDone, v, PReady) else (FError, v, PErr)
        end
      else
        let v := hang_up v in
        match n_close n with
        | CPending => (FFinishing false, v, PPending)
        | _ => (FError, note SockClosed v, PErr)
        end in
    let (st, v) := s in
    match st with
    | FConnected =>
        match cpoll n v with
        | (v, PReady) => finishing true v
        | (v, PErr) => finishing false v
        | (v, PPending) => (FConnected, v, PPending)
        | (v, r) => (FDead, v, r)
        end
    | FFinishing good => finishing good v
    | FDone | FError => (st, v, PErr)
    | FDead => (st, v, PPanic)
    end.

  (** What can happen: the application writes, reads, closes or drops its connection (conn.rs), and the
      future is polled. *)
  Inductive pstep := SWrite (b : bytes) | SRead (n : nat) | SClose | SDrop | SPoll (n : input).
  Definition pv_new : pv := Pv TStart (Inner conn_new [] false false) false false [] false [] false [] [] false false false false [].
  Definition do_step (k : pstep) (s : fut * pv) : fut * pv * list pres :=
    let (st, v) := s in
    match k with
    | SWrite b =>
        if v_up_end v || v_hup v then (s, [])
        else let b := take (fit (v_up v) (length b)) b in ((st, note (AppWrote b) (put_up (v_up v ++ b) v)), [])
    | SRead n =>
        if v_down_end v then (s, [])
        else ((st, note (AppGot (take n (v_down v))) (put_down (drop n (v_down v)) v)), [])
    | SClose => ((st, if v_up_end v then v else note AppClosed (put_up_end true v)), [])
    | SDrop => ((st, if v_down_end v then v else note AppDropped (put_down_end true (put_up_end true v))), [])
    | SPoll n => let '(s, r) := fpoll n s in (s, [r])
    end.
  Fixpoint play (ks : list pstep) (s : fut * pv) : fut * pv * list pres :=
    match ks with
    | [] => (s, [])
    | k :: ks => let '(s, r) := do_step k s in let '(s, rs) := play ks s in (s, r ++ rs)
    end.
  Definition begin : fut * pv := (FConnected, pv_new).
End Conn.
