(** Theorems C59 about dual execution. The vocabulary is in DeapSpec.v, the model is DeapModel.v. In all theorems [os] is any list of calls made by a
    party. What the MPC machine decodes ([mpc_get]), whether executions succeed and the inputs of the other party ([wit]) are arbitrary. *)
From Verif.Lib Require Import Base.
From Verif Require Import DeapMapModel DeapModel DeapSpec DeapLemmas DeapHonestLemmas.

(** A concrete program: the conjunction of a bit of the leader and a bit of the follower. Memories of the two machines are not aligned. *)
Definition and_circuit : circuit := Circuit [1; 1] 1 (fun x => [forallb id x]).
Definition and_ops (r : role) (bit : bool) : list dop :=
  [DAlloc 1; DZk 3; DAlloc 1; DMark (match r with Leader => Private | Follower => Blind end) (Slice 0 1);
   DMark (match r with Leader => Blind | Follower => Private end) (Slice 1 1);
   DAssign (match r with Leader => Slice 0 1 | Follower => Slice 1 1 end) [bit];
   DCommit (Slice 0 1); DCommit (Slice 1 1); DCall and_circuit [Slice 0 1; Slice 1 1]; DDecode (Slice 2 1)].
Definition and_mpc (out bit : bool) (s : slice) : option (list bool) :=
  if sl_ptr s =? 2 then Some [out] else if sl_ptr s =? 1 then Some [bit] else None.
Definition is_ok {E A} (o : outcome E A) : bool := match o with Ok _ => true | _ => false end.
Definition and_state (r : role) (bit : bool) : deap := match dp_run r (and_ops r bit) dp_new with Ok d => d | _ => dp_new end.

(** ** C59 *)
(** If finalization succeeds for the follower then all outputs that the MPC machine gave them are outputs of the circuits on one choice
    of inputs, which agrees with what the follower assigned. *)
Theorem C59_outputs_are_those_of_one_execution mpc_get mpc_runs zk_runs wit os d d' :
  dp_run Follower os dp_new = Ok d -> dp_finalize mpc_get mpc_runs zk_runs wit Follower d = Ok d' ->
  exists inputs, agrees_with inputs os /\
    forall s v, DDecode s ∈ os -> mpc_get s = Some v -> read (meaning inputs os []) s = v.
Proof. exact (C59_sound_lemma mpc_get mpc_runs zk_runs wit os d d'). Qed.
Print Assumptions C59_outputs_are_those_of_one_execution.
Example C59_sound_met :
  dp_run Follower (and_ops Follower true) dp_new = Ok (and_state Follower true) /\
  is_ok (dp_finalize (and_mpc true true) true true (fun _ => true) Follower (and_state Follower true)) = true.
Proof. split; vm_compute; reflexivity. Qed.
Example C59_wrong_output_is_noticed :
  dp_finalize (and_mpc false true) true true (fun _ => true) Follower (and_state Follower true) = Err EEquality.
Proof. vm_compute. reflexivity. Qed.

(** Until finalization no bit of a private input of the follower is committed to in the ZK machine, where it is public; for neither party. *)
Theorem C59_follower_inputs_are_not_committed_before_finalization r os d s a z :
  dp_run r os dp_new = Ok d -> DMark (match r with Leader => Blind | Follower => Private end) s ∈ os ->
  sl_ptr s <= a < sl_ptr s + sl_size s -> translate d (Slice a 1) = Ok z ->
  exists v x, dp_zk d !! sl_ptr z = Some (In v x false).
Proof. intros H1 H2. apply (C59_privacy_lemma r os d _ s a z H1 H2). by destruct r. Qed.
Print Assumptions C59_follower_inputs_are_not_committed_before_finalization.
Example C59_privacy_met :
  translate (and_state Follower true) (Slice 1 1) = Ok (Slice 4 1) /\
  dp_zk (and_state Follower true) !! 4 = Some (In (Some Public) (Some true) false) /\
  dp_mpc (and_state Follower true) !! 1 = Some (In (Some Private) (Some true) true).
Proof. split; [|split]; vm_compute; reflexivity. Qed.

(** The follower's finalization succeeds if all private inputs have values, the other party's inputs are the same in both machines and
    what the MPC machine decodes is what it should be. *)
Theorem C59_right_outputs_are_accepted mpc_get wit wit' os d :
  dp_run Follower os dp_new = Ok d ->
  (forall s, DMark Private s ∈ os -> 0 < sl_size s) ->
  (forall s a, DMark Private s ∈ os -> sl_ptr s <= a < sl_ptr s + sl_size s ->
    exists s' bits, DAssign s' bits ∈ os /\ sl_ptr s' <= a < sl_ptr s' + sl_size s') ->
  (forall a z, translate d (Slice a 1) = Ok z -> wit' (sl_ptr z) = wit a) ->
  (forall s v, DDecode s ∈ os -> mpc_get s = Some v -> vm_values wit (dp_mpc d) s = Some v) ->
  exists d', dp_finalize mpc_get true true wit' Follower d = Ok d'.
Proof. exact (C59_follower_honest_lemma mpc_get wit wit' os d). Qed.
Print Assumptions C59_right_outputs_are_accepted.
Example C59_accepted_met :
  vm_values (fun _ => true) (dp_mpc (and_state Follower true)) (Slice 2 1) = Some [true] /\
  vm_values (fun _ => true) (dp_mpc (and_state Follower false)) (Slice 2 1) = Some [false].
Proof. split; vm_compute; reflexivity. Qed.

(** The leader's finalization succeeds if the MPC machine decodes all of the follower's inputs; they then have these values in the ZK machine. *)
Theorem C59_leader_adopts_the_decoded_inputs mpc_get wit os d :
  dp_run Leader os dp_new = Ok d ->
  (forall s, DMark Blind s ∈ os -> 0 < sl_size s /\ exists v, mpc_get s = Some v /\ length v = sl_size s) ->
  exists d', dp_finalize mpc_get true true wit Leader d = Ok d' /\
    forall s v z, DMark Blind s ∈ os -> mpc_get s = Some v -> translate d s = Ok z -> vm_values wit (dp_zk d') z = Some v.
Proof. exact (C59_leader_honest_lemma mpc_get wit os d). Qed.
Print Assumptions C59_leader_adopts_the_decoded_inputs.
Example C59_leader_met :
  dp_run Leader (and_ops Leader true) dp_new = Ok (and_state Leader true) /\
  is_ok (dp_finalize (and_mpc true true) true true (fun _ => false) Leader (and_state Leader true)) = true /\
  and_mpc true true (Slice 1 1) = Some [true].
Proof. split; [|split]; vm_compute; reflexivity. Qed.
