(** Model of a session and its two halves (/repo/crates/tlsn/src/session.rs).

    The multiplexer (crate tlsn_mux, not in the repository) is a black box: a type of states and
    functions to poll it, to close it and to take its IO. What a poll finds on the network is an
    argument of the poll. *)
From Verif.Lib Require Import Base.

(** Result of polling the connection. *)
Inductive mres := MPending | MOk | MErr.
Record mux (R I IO : Type) := Mux {
  m_poll : I -> R -> mres * R;        (* [Connection::poll] *)
  m_close : R -> R;                   (* [Connection::close] *)
  m_complete : R -> bool;             (* [Connection::is_complete] *)
  m_take : R -> option IO;            (* [Connection::try_into_io]; [None]: the connection is given back *)
}.
Arguments Mux {R I IO}. Arguments m_poll {R I IO}. Arguments m_close {R I IO}.
Arguments m_complete {R I IO}. Arguments m_take {R I IO}.

Section Sess.
  Context {R I IO : Type} (M : mux R I IO).

  (** ** The session as a whole (session.rs:37-42); only the connection matters here. *)
  Inductive scall := SIsClosed | SClose | STake | SPoll (x : I).
  Inductive sret :=
  | RBool (b : bool) | RUnit
  | RTakeOk (io : IO) | RTakeGone | RTakeBusy
  | RPollGone | RPoll (r : mres).
  Definition sess_call (c : option R) (a : scall) : option R * sret :=
    match a with
    (* session.rs:100-105 [is_closed] *)
    | SIsClosed => (c, RBool match c with Some r => m_complete M r | None => false end)
    (* session.rs:111-115 [close] *)
    | SClose => (match c with Some r => Some (m_close M r) | None => None end, RUnit)
    (* session.rs:118-131 [try_take] *)
    | STake =>
        match c with
        | None => (None, RTakeGone)
        | Some r => match m_take M r with None => (Some r, RTakeBusy) | Some io => (None, RTakeOk io) end
        end
    (* session.rs:134-147 [poll] *)
    | SPoll x =>
        match c with
        | None => (None, RPollGone)
        | Some r => let '(y, r) := m_poll M x r in (Some r, RPoll y)
        end
    end.
  Fixpoint sess_run (c : option R) (l : list scall) : option R * list sret :=
    match l with
    | [] => (c, [])
    | a :: l => let '(c, y) := sess_call c a in let '(c, ys) := sess_run c l in (c, y :: ys)
    end.

  (** ** The split session (session.rs:153-169): a driver, and a handle whose [close] may be
      called from any number of threads. The steps of both sides interleave. *)

  (** Where a poll of the driver stands: not in a poll; the waker is stored; the flag is read. *)
  Inductive dpc := DIdle | DStored (seen : bool) | DLoaded.
  (** Where a call of [close] stands: the flag is stored; the waker was taken and woken. *)
  Inductive cpc := CStored | CDone.
  (** Results of a poll of the driver. *)
  Inductive dres := DPending | DIo (io : IO) | DErrGone | DErrPoll | DErrTake | DPanic.
  (** What happens, oldest first in the log. Polls are numbered from one; the waker of a poll
      has its number. *)
  Inductive sev :=
  | EPollBegin (n : nat)           (* a poll has stored its waker *)
  | EClose (n : nat)               (* poll [n] calls [close] on the connection *)
  | EConnPoll (n : nat)            (* poll [n] polls the connection *)
  | EResult (n : nat) (y : dres)   (* poll [n] returns *)
  | ECloseCall                     (* a call of [close] on the handle stores the flag *)
  | ECloseRet                      (* a call of [close] on the handle returns *)
  | EWake (n : nat).               (* the waker of poll [n] is woken *)

  Record sys := Sys {
    s_flag : bool;                 (* [should_close] *)
    s_slot : option nat;           (* [waker] *)
    s_pub : bool;                  (* a [close] has gone through the lock of [waker] *)
    s_conn : option R;
    s_pc : dpc;
    s_polls : nat;
    s_closers : list cpc;
    s_log : list sev;
  }.
  Definition sys_new (c : option R) : sys := Sys false None false c DIdle 0 [] [].

  Inductive sop := PollBegin | PollLoad (stale : bool) | PollConn (x : I) | CloseStore | CloseWake (k : nat).

  (** One step; [None] if it is not enabled. The load of the flag may miss a store by another
      thread ([stale]), unless that thread went through the lock of the waker before this poll
      did: the order [Acquire]/[Release] and the mutex promise no more than that. *)
  Definition sstep (s : sys) (o : sop) : option sys :=
    match o, s_pc s with
    (* session.rs:201-205: lock, store the waker of this poll *)
    | PollBegin, DIdle =>
        let n := S (s_polls s) in
        Some (Sys (s_flag s) (Some n) (s_pub s) (s_conn s) (DStored (s_pub s)) n (s_closers s)
                (s_log s ++ [EPollBegin n]))
    (* session.rs:207-214 *)
    | PollLoad stale, DStored seen =>
        let n := s_polls s in
        match s_conn s with
        | None => Some (Sys (s_flag s) (s_slot s) (s_pub s) None DIdle n (s_closers s)
                          (s_log s ++ [EResult n DErrGone]))
        | Some r =>
            if s_flag s && (seen || negb stale)
            then Some (Sys (s_flag s) (s_slot s) (s_pub s) (Some (m_close M r)) DLoaded n (s_closers s)
                         (s_log s ++ [EClose n]))
            else Some (Sys (s_flag s) (s_slot s) (s_pub s) (Some r) DLoaded n (s_closers s) (s_log s))
        end
    (* session.rs:216-230 *)
    | PollConn x, DLoaded =>
        let n := s_polls s in
        let back c y := Some (Sys (s_flag s) (s_slot s) (s_pub s) c DIdle n (s_closers s)
                                (s_log s ++ [EConnPoll n; EResult n y])) in
        match s_conn s with
        | None => back None DPanic
        | Some r =>
            match m_poll M x r with
            | (MPending, r) => back (Some r) DPending
            | (MErr, r) => back (Some r) DErrPoll
            | (MOk, r) => back None match m_take M r with Some io => DIo io | None => DErrTake end
            end
        end
    (* session.rs:288 *)
    | CloseStore, _ =>
        Some (Sys true (s_slot s) (s_pub s) (s_conn s) (s_pc s) (s_polls s) (s_closers s ++ [CStored])
                (s_log s ++ [ECloseCall]))
    (* session.rs:289-291 *)
    | CloseWake k, _ =>
        match s_closers s !! k with
        | Some CStored =>
            Some (Sys (s_flag s) None true (s_conn s) (s_pc s) (s_polls s) (<[k := CDone]> (s_closers s))
                    (s_log s ++ match s_slot s with Some w => [EWake w] | None => [] end ++ [ECloseRet]))
        | _ => None
        end
    | _, _ => None
    end.
  (** A schedule; steps that are not enabled do nothing. *)
  Definition srun (s : sys) (l : list sop) : sys :=
    fold_left (fun s o => match sstep s o with Some s => s | None => s end) l s.
End Sess.
Arguments scall : clear implicits. Arguments sop : clear implicits.
Arguments sret : clear implicits. Arguments dres : clear implicits. Arguments sev : clear implicits.
Arguments sys : clear implicits.
