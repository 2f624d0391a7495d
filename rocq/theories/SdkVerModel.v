(** Model of the life cycle of crates/sdk-core/src/verifier.rs [SdkVerifier]. As in SdkLifeModel.v, what the library below does is part of the
    calls, and only calls that reach the library are logged as events. *)
From Verif.Lib Require Import Base.
From Verif Require Import SdkLifeModel ConfigModel.

(** What the prover asks for: [VerifierCommitStart]. *)
Inductive commit_start := StMpc (l : mpc_config) | StProxy (name : list N).

Section ver.
(** Server sockets, what the verifier holds after a connection, and what verifying gives. *)
Context {S T O : Type}.
(** verifier.rs:28-50 *)
Inductive ver_state := VInitialized | VConnected | VAcceptedMpc | VAcceptedProxy (sock : option S) | VCommitted (t : T) | VComplete | VError.
Inductive ver_op :=
| VOpConnect (pre : bool)
| VOpSetup (commit : fut commit_start) (reply : fut unit)
| VOpSocket (s : S)
| VOpRun (run : fut T)
| VOpVerify (verify : fut O) (accept close : fut unit).
Inductive ver_event :=
| VNew | VCommit | VAccept (st : commit_start) | VReject | VRun (sock : option S) | VVerify (t : T) | VAcceptProof | VClose.
Inductive ver_value := VvUnit | VvName (name : option (list N)) | VvOutput (t : T) (o : O).
Notation res := (ver_state * list ver_event * call_res ver_value)%type.

(** [State::take] (verifier.rs:66-70) leaves [Error]. verifier.rs:86-118 [connect]; [pre]: the library gives a verifier. *)
Definition ver_connect (s : ver_state) (pre : bool) : res :=
  match s with
  | VInitialized => if pre then (VConnected, [VNew], ROk VvUnit) else (VError, [], RErr)
  | _ => (VError, [], RInvalidState)
  end.
(** An awaited step followed by [?]: go on, fail, or be dropped by the caller; the state has been taken. *)
Definition await {A} (f : fut A) (es : list ver_event) (k : A -> res) : res :=
  match f with
  | FOk a => k a
  | FErr => (VError, es, RErr)
  | FDropped => (VError, es, RDropped)
  end.
(** verifier.rs:124-182 [setup]; the comparison of the limits (lines 139-151) is ConfigModel.v's [sdk_accepts]. *)
Definition ver_setup (c : sdk_limits) (s : ver_state) (commit : fut commit_start) (reply : fut unit) : res :=
  match s with
  | VConnected =>
      await commit [VCommit] (fun st =>
        match st with
        | StMpc l =>
            if sdk_accepts c l then await reply [VCommit; VAccept st] (fun _ => (VAcceptedMpc, [VCommit; VAccept st], ROk (VvName None)))
            else await reply [VCommit; VReject] (fun _ => (VError, [VCommit; VReject], RErr))
        | StProxy name =>
            await reply [VCommit; VAccept st] (fun _ => (VAcceptedProxy None, [VCommit; VAccept st], ROk (VvName (Some name))))
        end)
  | _ => (VError, [], RInvalidState)
  end.
(** verifier.rs:190-203 [set_server_socket]: borrows the state. *)
Definition ver_socket (s : ver_state) (sock : S) : res :=
  match s with VAcceptedProxy _ => (VAcceptedProxy (Some sock), [], ROk VvUnit) | _ => (s, [], RInvalidState) end.
(** verifier.rs:209-241 [run] *)
Definition ver_run (s : ver_state) (run : fut T) : res :=
  match s with
  | VAcceptedMpc => await run [VRun None] (fun t => (VCommitted t, [VRun None], ROk VvUnit))
  | VAcceptedProxy (Some sock) => await run [VRun (Some sock)] (fun t => (VCommitted t, [VRun (Some sock)], ROk VvUnit))
  | _ => (VError, [], RInvalidState)
  end.
(** verifier.rs:244-307 [verify]; the sizes and times that are logged and reported are those of [T], and the closing of the session handle
    (line 293), which cannot fail, goes with the last step. *)
Definition ver_verify (s : ver_state) (verify : fut O) (accept close : fut unit) : res :=
  match s with
  | VCommitted t =>
      await verify [VVerify t] (fun o =>
        await accept [VVerify t; VAcceptProof] (fun _ =>
          await close [VVerify t; VAcceptProof; VClose] (fun _ => (VComplete, [VVerify t; VAcceptProof; VClose], ROk (VvOutput t o)))))
  | _ => (VError, [], RInvalidState)
  end.
(** verifier.rs:310-312 [is_complete] *)
Definition ver_is_complete (s : ver_state) : bool := match s with VComplete => true | _ => false end.
Definition ver_step (c : sdk_limits) (s : ver_state) (o : ver_op) : res :=
  match o with
  | VOpConnect pre => ver_connect s pre
  | VOpSetup commit reply => ver_setup c s commit reply
  | VOpSocket sock => ver_socket s sock
  | VOpRun run => ver_run s run
  | VOpVerify verify accept close => ver_verify s verify accept close
  end.
(** Calls one after another. *)
Fixpoint ver_calls (c : sdk_limits) (s : ver_state) (os : list ver_op) : ver_state * list (ver_op * list ver_event * call_res ver_value) :=
  match os with
  | [] => (s, [])
  | o :: os' =>
      let '(s1, es, r) := ver_step c s o in
      let (s2, log) := ver_calls c s1 os' in (s2, (o, es, r) :: log)
  end.
End ver.
Arguments ver_state : clear implicits. Arguments ver_op : clear implicits. Arguments ver_event : clear implicits. Arguments ver_value : clear implicits.
