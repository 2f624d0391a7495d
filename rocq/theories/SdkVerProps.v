(** Theorems C91 about the life cycle of the SDK's verifier. The vocabulary is in SdkVerSpec.v, the model is SdkVerModel.v: [ver_calls c
    VInitialized os] are the calls [os] of a verifier with the limits [c], each with what the library does in it. *)
From Verif.Lib Require Import Base.
From Verif Require Import SdkLifeModel ConfigModel SdkVerModel SdkVerSpec SdkVerLemmas.

(** Whatever calls are made, however they end: the verifier reads one proposal and rejects it, or it accepts it, and then it is within the limits,
    runs one connection, in proxy mode by the socket it was given last, and verifies one proof about that connection and, if it is valid, accepts
    it and closes. *)
Theorem C91_one_of_each_in_order : forall (S T O : Type) c (os : list (ver_op S T O)) s log,
  ver_calls c VInitialized os = (s, log) -> ver_order c log.
Proof. exact @C91_order_lemma. Qed.
Print Assumptions C91_one_of_each_in_order.
(** An output is given only by a verification that succeeded, with the whole protocol before it, and is about its connection. *)
Theorem C91_outputs_are_verified : forall (S T O : Type) c (os : list (ver_op S T O)) s log o es t x,
  ver_calls c VInitialized os = (s, log) -> (o, es, ROk (VvOutput t x)) ∈ log ->
  o = VOpVerify (FOk x) (FOk tt) (FOk tt) /\ whole c t log.
Proof. exact @C91_output_lemma. Qed.
Print Assumptions C91_outputs_are_verified.
(** So has a verifier that says it is complete. *)
Theorem C91_complete_means_whole : forall (S T O : Type) c (os : list (ver_op S T O)) s log,
  ver_calls c VInitialized os = (s, log) -> ver_is_complete s = true -> exists t, whole c t log.
Proof. exact @C91_complete_lemma. Qed.
Print Assumptions C91_complete_means_whole.
(** After a call that failed or was dropped, other than of [set_server_socket], all calls are refused and nothing reaches the library. *)
Theorem C91_failure_is_final : forall (S T O : Type) c (os : list (ver_op S T O)) o es r o' s' es' r' s0 s log,
  ver_calls c s0 os = (s, log) -> (o, es, r) ∈ log -> ver_changing o -> (forall v, r <> ROk v) ->
  ver_step (O:=O) c s o' = (s', es', r') -> es' = [] /\ r' = RInvalidState.
Proof. exact @C91_final_lemma. Qed.
Print Assumptions C91_failure_is_final.
(** A socket can be set exactly while a proxied connection was accepted and not run; a refused socket changes nothing. *)
Theorem C91_refused_sockets_change_nothing : forall (S T O : Type) c (s : ver_state S T) k s' es r,
  ver_step (O:=O) c s (VOpSocket k) = (s', es, r) -> es = [] /\
  (r = RInvalidState /\ s' = s /\ (forall k', s <> VAcceptedProxy k') \/ r = ROk VvUnit /\ exists k', s = VAcceptedProxy k').
Proof. exact @C91_refused_socket_lemma. Qed.
Print Assumptions C91_refused_sockets_change_nothing.
(** The calls in their order succeed if the library does and the proposal is within the limits. *)
Theorem C91_right_mpc_calls_succeed : forall (S T O : Type) c l (t : T) (x : O), acceptable c (StMpc l) -> exists log,
  ver_calls (S:=S) c VInitialized
    [VOpConnect true; VOpSetup (FOk (StMpc l)) (FOk tt); VOpRun (FOk t); VOpVerify (FOk x) (FOk tt) (FOk tt)] = (VComplete, log) /\
  map snd log = [ROk VvUnit; ROk (VvName None); ROk VvUnit; ROk (VvOutput t x)].
Proof. exact @C91_mpc_lemma. Qed.
Print Assumptions C91_right_mpc_calls_succeed.
Theorem C91_right_proxy_calls_succeed : forall (S T O : Type) c name (k : S) (t : T) (x : O), exists log,
  ver_calls c VInitialized
    [VOpConnect true; VOpSetup (FOk (StProxy name)) (FOk tt); VOpSocket k; VOpRun (FOk t); VOpVerify (FOk x) (FOk tt) (FOk tt)] = (VComplete, log) /\
  map snd log = [ROk VvUnit; ROk (VvName (Some name)); ROk VvUnit; ROk VvUnit; ROk (VvOutput t x)].
Proof. exact @C91_proxy_lemma. Qed.
Print Assumptions C91_right_proxy_calls_succeed.
(** It is not so that a [run] that is refused leaves the verifier as it was: if it was called before the socket was set, the session is lost. *)
Theorem C91_refused_runs_change_nothing_refuted : ~ (forall c (os : list (ver_op nat nat nat)) s log t s' es r,
  ver_calls c VInitialized os = (s, log) -> ver_step (O:=nat) c s (VOpRun (FOk t)) = (s', es, r) -> r = RInvalidState -> s' = s).
Proof. exact C91_socket_lemma. Qed.
Print Assumptions C91_refused_runs_change_nothing_refuted.
(** A proposal at the limits, one above a limit, and a proxied session whose verification fails. *)
Example C91_ex :
  acceptable y_lim (StMpc (MpcConfig 100 (Some 10%N) 32 200 None true Latency)) /\
  map (fun e => (snd (fst e), snd e)) (snd (ver_calls (S:=nat) (T:=nat) (O:=nat) y_lim VInitialized
    [VOpConnect true; VOpSetup (FOk (StMpc (MpcConfig 100 (Some 11%N) 32 200 None true Latency))) (FOk tt); VOpRun (FOk 3)])) =
    [([VNew], ROk VvUnit); ([VCommit; VReject], RErr); ([], RInvalidState)] /\
  map (fun e => (snd (fst e), snd e)) (snd (ver_calls (S:=nat) (T:=nat) (O:=nat) y_lim VInitialized
    [VOpConnect true; VOpSetup (FOk (StProxy [1%N])) (FOk tt); VOpSocket 7; VOpRun (FOk 3); VOpVerify FErr FErr FErr; VOpVerify (FOk 4) (FOk tt) (FOk tt)])) =
    [([VNew], ROk VvUnit); ([VCommit; VAccept (StProxy [1%N])], ROk (VvName (Some [1%N]))); ([], ROk VvUnit); ([VRun (Some 7)], ROk VvUnit);
     ([VVerify 3], RErr); ([], RInvalidState)].
Proof. split; [|split]; [|vm_compute; reflexivity..]. apply accepts_spec. reflexivity. Qed.
