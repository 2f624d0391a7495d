(** Vocabulary for C90. *)
From Verif.Lib Require Import Base.
From Verif Require Import SdkLifeModel.
Section spec.
Context {T R O : Type}.
Notation entry := (sdk_op T R O * list (sdk_event T) * call_res (sdk_value T R O))%type.
(** Everything that reached the library, in order. *)
Definition all_events (log : list entry) : list (sdk_event T) := concat (map (fun e => snd (fst e)) log).
(** A request succeeded, over a connection with the transcript [t]. *)
Definition connected (m : sdk_mode) (t : T) (log : list entry) : Prop :=
  exists r es, (OpSend m true true (FOk (r, t)), es, ROk (VResponse r)) ∈ log.
(** A reveal was proved and closed. *)
Definition finished (log : list entry) : Prop := exists o out es r, (OpReveal true (FOk o) (FOk tt) out, es, r) ∈ log /\ EvClose ∈ es.
(** At most one commitment, then at most one connection, both in this mode, then at most one proof, about the transcript of that connection, then
    at most one closing. *)
Definition in_order (m : sdk_mode) (log : list entry) : Prop :=
  all_events log `prefix_of` [EvCommit m; EvConnect m] \/
  exists t, connected m t log /\
    (all_events log = [EvCommit m; EvConnect m; EvProve t] \/ all_events log = [EvCommit m; EvConnect m; EvProve t; EvClose]).
(** Every step of the call succeeded, and gave this. *)
Definition all_ok (o : sdk_op T R O) (v : sdk_value T R O) : Prop :=
  match o, v with
  | OpSetup true (FOk _), VUnit => True
  | OpSend _ true true (FOk (r, _)), VResponse r' => r = r'
  | OpTranscript, VTranscript _ => True
  | OpReveal true (FOk p) (FOk _) true, VOutput p' => p = p'
  | _, _ => False
  end.
(** The call is one that does this in the library, and what comes before it in the call succeeded. *)
Definition caused (o : sdk_op T R O) (e : sdk_event T) : Prop :=
  match o, e with
  | OpSetup true _, EvCommit _ | OpSend _ true _ _, EvConnect _ | OpReveal true _ _ _, EvProve _ | OpReveal true (FOk _) _ _, EvClose => True
  | _, _ => False
  end.
(** [transcript] only looks. *)
Definition changing (o : sdk_op T R O) : Prop := o <> OpTranscript.
Definition succeeded (r : call_res (sdk_value T R O)) : Prop := exists v, r = ROk v.
End spec.
