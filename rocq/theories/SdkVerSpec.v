(** Vocabulary for C91. *)
From Verif.Lib Require Import Base.
From Verif Require Import SdkLifeModel ConfigModel SdkVerModel.
Section spec.
Context {S T O : Type}.
Notation entry := (ver_op S T O * list (ver_event S T) * call_res (ver_value T O))%type.
Definition ver_events (log : list entry) : list (ver_event S T) := concat (map (fun e => snd (fst e)) log).
(** A stated number of records is within a stated limit. A prover that states none is not limited here (C54). *)
Definition records_within (n k : option N) : Prop := forall x, n = Some x -> exists y, k = Some y /\ (x <= y)%N.
(** The prover's proposal is within the verifier's limits. In proxy mode there are none. *)
Definition acceptable (c : sdk_limits) (st : commit_start) : Prop :=
  match st with
  | StMpc l => (mc_max_sent l <= sl_max_sent c)%N /\ (mc_max_recv l <= sl_max_recv c)%N /\
      records_within (mc_max_sent_records l) (sl_max_sent_records c) /\ records_within (mc_max_recv_records l) (sl_max_recv_records c)
  | StProxy _ => True
  end.
(** The socket that was set last. *)
Definition socket_set (e : entry) : option S := match e with (VOpSocket k, _, ROk _) => Some k | _ => None end.
Definition last_socket (log : list entry) : option S := last (omap socket_set log).
(** In proxy mode the verifier connects by that socket. *)
Definition socket_for (st : commit_start) (sock : option S) (log : list entry) : Prop :=
  match st with
  | StMpc _ => sock = None
  | StProxy _ => sock <> None /\ sock = last_socket log
  end.
(** The connection was run to its end and left [t]. *)
Definition ran (t : T) (log : list entry) : Prop := exists es r, (VOpRun (FOk t), es, r) ∈ log /\ exists sock, VRun sock ∈ es.
(** The prover proposed [st] and the acceptance reached it. *)
Definition accepted (st : commit_start) (log : list entry) : Prop :=
  exists es r, (VOpSetup (FOk st) (FOk tt), es, r) ∈ log /\ VAccept st ∈ es.
(** The proof was found valid. *)
Definition verified (log : list entry) : Prop :=
  exists x a k es r, (VOpVerify (FOk x) a k, es, r) ∈ log /\ exists t, VVerify t ∈ es.
(** The traces there are: a rejection, or an acceptance of an acceptable proposal, then a run, then a proof about that run. *)
Definition ver_order (c : sdk_limits) (log : list entry) : Prop :=
  ver_events log `prefix_of` [VNew; VCommit; VReject] \/
  (exists st, acceptable c st /\ ver_events log = [VNew; VCommit; VAccept st]) \/
  (exists st sock, acceptable c st /\ accepted st log /\ socket_for st sock log /\ ver_events log = [VNew; VCommit; VAccept st; VRun sock]) \/
  (exists st sock t, acceptable c st /\ accepted st log /\ socket_for st sock log /\ ran t log /\
     exists p, p `prefix_of` [VAcceptProof; VClose] /\ (p <> [] -> verified log) /\ ver_events log = [VNew; VCommit; VAccept st; VRun sock; VVerify t] ++ p).
(** The whole protocol was run, and left [t]. *)
Definition whole (c : sdk_limits) (t : T) (log : list entry) : Prop :=
  exists st sock, acceptable c st /\ accepted st log /\ socket_for st sock log /\ ran t log /\ verified log /\
    ver_events log = [VNew; VCommit; VAccept st; VRun sock; VVerify t; VAcceptProof; VClose].
(** [set_server_socket] only sets the socket. *)
Definition ver_changing (o : ver_op S T O) : Prop := match o with VOpSocket _ => False | _ => True end.
End spec.
