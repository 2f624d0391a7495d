(** Model of the life cycle of crates/sdk-core/src/prover.rs [SdkProver]. What the library below does is part of the calls: synchronous steps
    succeed or not, awaited steps succeed, fail, or the caller drops the future while it waits. Only calls that reach the library are
    logged as events. *)
From Verif.Lib Require Import Base.

Inductive sdk_mode := SdkMpc | SdkProxy.
Global Instance sdk_mode_dec : EqDecision sdk_mode.
Proof. solve_decision. Defined.
(** The parts of [ProverConfig] that matter here (config.rs). *)
Record sdk_config := SdkConfig { sc_name : list N; sc_mode : sdk_mode; sc_max_sent : N; sc_max_recv : N }.

Inductive fut (A : Type) := FOk (a : A) | FErr | FDropped.
Arguments FOk {A}. Arguments FErr {A}. Arguments FDropped {A}.
Inductive call_res (A : Type) := ROk (a : A) | RInvalidState | RErr | RDropped.
Arguments ROk {A}. Arguments RInvalidState {A}. Arguments RErr {A}. Arguments RDropped {A}.

Section life.
(** Transcripts of connections, responses, and what proving gives. *)
Context {T R O : Type}.
(** prover.rs:38-54; the states hold the library's prover, of which only the transcript matters. *)
Inductive sdk_state := SInitialized | SAcceptedMpc | SAcceptedProxy | SCommitted (t : T) | SComplete | SError.

Inductive sdk_op :=
| OpSetup (pre : bool) (commit : fut unit)
| OpSend (m : sdk_mode) (cfg connect : bool) (run : fut (R * T))
| OpTranscript
| OpReveal (build : bool) (prove : fut O) (close : fut unit) (out : bool).
Inductive sdk_event := EvCommit (m : sdk_mode) | EvConnect (m : sdk_mode) | EvProve (t : T) | EvClose.
Inductive sdk_value := VUnit | VResponse (r : R) | VTranscript (t : T) | VOutput (o : O).

(** prover.rs:78-97 [new]. *)
Definition sdk_new (c : sdk_config) : option sdk_state :=
  if (length (sc_name c) =? 0)%nat then None
  else if decide (sc_mode c = SdkMpc) then
    if (sc_max_sent c =? 0)%N then None else if (sc_max_recv c =? 0)%N then None else Some SInitialized
  else Some SInitialized.

(** [State::take] (prover.rs:71-73) leaves [Error]: this is the state whenever a call returns early or is dropped.
    prover.rs:105-177 [setup]; [pre] is whether the library gives a prover and the configuration can be built. *)
Definition sdk_setup (c : sdk_config) (s : sdk_state) (pre : bool) (commit : fut unit) : sdk_state * list sdk_event * call_res sdk_value :=
  match s with
  | SInitialized =>
      if pre then
        match commit with
        | FOk _ => (match sc_mode c with SdkProxy => SAcceptedProxy | SdkMpc => SAcceptedMpc end, [EvCommit (sc_mode c)], ROk VUnit)
        | FErr => (SError, [EvCommit (sc_mode c)], RErr)
        | FDropped => (SError, [EvCommit (sc_mode c)], RDropped)
        end
      else (SError, [], RErr)
  | _ => (SError, [], RInvalidState)
  end.
(** The common part of prover.rs:192-247 and 257-308: building the configuration, connecting, and then the request and the protocol. *)
Definition sdk_connect (m : sdk_mode) (cfg connect : bool) (run : fut (R * T)) : sdk_state * list sdk_event * call_res sdk_value :=
  if cfg then
    if connect then
      match run with
      | FOk (r, t) => (SCommitted t, [EvConnect m], ROk (VResponse r))
      | FErr => (SError, [EvConnect m], RErr)
      | FDropped => (SError, [EvConnect m], RDropped)
      end
    else (SError, [EvConnect m], RErr)
  else (SError, [], RErr).
(** prover.rs:192-247 [send_request_mpc], 257-308 [send_request_proxy]. *)
Definition sdk_send (s : sdk_state) (m : sdk_mode) (cfg connect : bool) (run : fut (R * T)) : sdk_state * list sdk_event * call_res sdk_value :=
  match m, s with
  | SdkMpc, SAcceptedMpc => sdk_connect SdkMpc cfg connect run
  | SdkProxy, SAcceptedProxy => sdk_connect SdkProxy cfg connect run
  | _, _ => (SError, [], RInvalidState)
  end.
(** prover.rs:359-365 [transcript]: borrows the state. *)
Definition sdk_transcript (s : sdk_state) : sdk_state * list sdk_event * call_res sdk_value :=
  match s with SCommitted t => (s, [], ROk (VTranscript t)) | _ => (s, [], RInvalidState) end.
(** prover.rs:377-441 [reveal]; [build] is whether the ranges are accepted, [out] whether [build_reveal_output] succeeds (C57). *)
Definition sdk_reveal (s : sdk_state) (build : bool) (prove : fut O) (close : fut unit) (out : bool) : sdk_state * list sdk_event * call_res sdk_value :=
  match s with
  | SCommitted t =>
      if build then
        match prove with
        | FOk o =>
            match close with
            | FOk _ => (SComplete, [EvProve t; EvClose], if out then ROk (VOutput o) else RErr)
            | FErr => (SError, [EvProve t; EvClose], RErr)
            | FDropped => (SError, [EvProve t; EvClose], RDropped)
            end
        | FErr => (SError, [EvProve t], RErr)
        | FDropped => (SError, [EvProve t], RDropped)
        end
      else (SError, [], RErr)
  | _ => (SError, [], RInvalidState)
  end.
(** prover.rs:444-446 [is_complete]. *)
Definition sdk_is_complete (s : sdk_state) : bool := match s with SComplete => true | _ => false end.

Definition sdk_step (c : sdk_config) (s : sdk_state) (o : sdk_op) : sdk_state * list sdk_event * call_res sdk_value :=
  match o with
  | OpSetup pre commit => sdk_setup c s pre commit
  | OpSend m cfg connect run => sdk_send s m cfg connect run
  | OpTranscript => sdk_transcript s
  | OpReveal build prove close out => sdk_reveal s build prove close out
  end.
(** Calls one after another: the methods borrow the prover mutably. The log has each call with its events and its result. *)
Fixpoint sdk_run (c : sdk_config) (s : sdk_state) (os : list sdk_op) : sdk_state * list (sdk_op * list sdk_event * call_res sdk_value) :=
  match os with
  | [] => (s, [])
  | o :: os' =>
      let '(s1, es, r) := sdk_step c s o in
      let (s2, log) := sdk_run c s1 os' in (s2, (o, es, r) :: log)
  end.
End life.
Arguments sdk_state : clear implicits. Arguments sdk_op : clear implicits. Arguments sdk_event : clear implicits. Arguments sdk_value : clear implicits.
