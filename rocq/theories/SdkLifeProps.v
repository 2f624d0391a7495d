(** Theorems C90 about the life cycle of the SDK's prover. The vocabulary is in SdkLifeSpec.v, the model is SdkLifeModel.v: [sdk_run c s0 os] are
    the calls [os] of a prover with the configuration [c], each with what the library does in it; [log] has their events and results. *)
From Verif.Lib Require Import Base.
From Verif Require Import SdkLifeModel SdkLifeSpec SdkLifeLemmas.

(** A prover is made if there is a name of the server and, in MPC mode, something may be sent and received. *)
Theorem C90_configurations : forall (T : Type) c, (exists s, sdk_new (T:=T) c = Some s) <->
  sc_name c <> [] /\ (sc_mode c = SdkMpc -> (0 < sc_max_sent c)%N /\ (0 < sc_max_recv c)%N).
Proof. exact @C90_new_lemma. Qed.
Print Assumptions C90_configurations.
(** Whatever calls are made, however they end: there is at most one commitment, one connection after it, both in the configured mode, one proof,
    about the transcript of that connection, and one closing. *)
Theorem C90_one_of_each_in_order : forall (T R O : Type) c (s0 : sdk_state T) (os : list (sdk_op T R O)) s log,
  sdk_new c = Some s0 -> sdk_run c s0 os = (s, log) -> in_order (sc_mode c) log.
Proof. exact @C90_order_lemma. Qed.
Print Assumptions C90_one_of_each_in_order.
(** A prover that says it is complete has proved and closed. *)
Theorem C90_complete_means_finished : forall (T R O : Type) c (s0 : sdk_state T) (os : list (sdk_op T R O)) s log,
  sdk_new c = Some s0 -> sdk_run c s0 os = (s, log) -> sdk_is_complete s = true -> finished log.
Proof. exact @C90_complete_lemma. Qed.
Print Assumptions C90_complete_means_finished.
(** Looking at the transcript changes nothing; it is that of the connection, and can be seen only before a proof. *)
Theorem C90_transcript_is_of_the_connection : forall (T R O : Type) c (s0 : sdk_state T) (os : list (sdk_op T R O)) s log s' es r,
  sdk_new c = Some s0 -> sdk_run c s0 os = (s, log) -> sdk_step (R:=R) (O:=O) c s OpTranscript = (s', es, r) -> s' = s /\ es = [] /\
  (r = RInvalidState \/ exists t, r = ROk (VTranscript t) /\ connected (sc_mode c) t log /\ forall t', EvProve t' ∉ all_events log).
Proof. exact @C90_transcript_lemma. Qed.
Print Assumptions C90_transcript_is_of_the_connection.
(** After a call that failed or was dropped, all calls are refused and nothing reaches the library. *)
Theorem C90_failure_is_final : forall (T R O : Type) c (os : list (sdk_op T R O)) o es r o' s' es' r' s0 s log,
  sdk_run c s0 os = (s, log) -> (o, es, r) ∈ log -> changing o -> ~ succeeded r ->
  sdk_step (R:=R) (O:=O) c s o' = (s', es', r') -> es' = [] /\ r' = RInvalidState.
Proof. exact @C90_final_lemma. Qed.
Print Assumptions C90_failure_is_final.
(** A call succeeds only if each of its steps did, with what they gave; and each step is made only if those before it in the call succeeded. *)
Theorem C90_results_are_true : forall (T R O : Type) c (os : list (sdk_op T R O)) o es r s0 s log,
  sdk_run c s0 os = (s, log) -> (o, es, r) ∈ log -> (forall v, r = ROk v -> all_ok o v) /\ Forall (caused o) es.
Proof. exact @C90_results_lemma. Qed.
Print Assumptions C90_results_are_true.
(** The calls in their order succeed if the library does. *)
Theorem C90_right_calls_succeed : forall (T R O : Type) c (s0 : sdk_state T) (r : R) (t : T) (o : O), sdk_new c = Some s0 -> exists s log,
  sdk_run c s0
    [OpSetup true (FOk tt); OpSend (sc_mode c) true true (FOk (r, t)); OpTranscript; OpReveal true (FOk o) (FOk tt) true] = (s, log) /\
  map snd log = [ROk VUnit; ROk (VResponse r); ROk (VTranscript t); ROk (VOutput o)] /\ sdk_is_complete s = true.
Proof. exact @C90_success_lemma. Qed.
Print Assumptions C90_right_calls_succeed.
(** It is not so that a call that is refused leaves the prover as it was: a second [setup] makes a good session unusable. *)
Theorem C90_refused_calls_change_nothing_refuted : ~ (forall c s0 (os : list (sdk_op nat nat nat)) s log (o : sdk_op nat nat nat) s' es r,
  sdk_new c = Some s0 -> sdk_run c s0 os = (s, log) -> sdk_step c s o = (s', es, r) -> r = RInvalidState -> s' = s).
Proof. exact C90_refused_lemma. Qed.
Print Assumptions C90_refused_calls_change_nothing_refuted.
(** Nor that a prover that is complete stays so: a second [reveal] is refused, and the prover then says that it is not complete. *)
Theorem C90_complete_stays_complete_refuted : ~ (forall c s0 (os : list (sdk_op nat nat nat)) s log (o : sdk_op nat nat nat) s' es r,
  sdk_new c = Some s0 -> sdk_run c s0 os = (s, log) -> sdk_is_complete s = true -> sdk_step c s o = (s', es, r) -> sdk_is_complete s' = true).
Proof. exact C90_stays_lemma. Qed.
Print Assumptions C90_complete_stays_complete_refuted.
(** A session in MPC mode with a request that is dropped, and one in which the proof fails. *)
Example C90_ex :
  sdk_new x_cfg = Some (@SInitialized nat) /\
  map (fun e => (snd (fst e), snd e)) (snd (sdk_run (T:=nat) (R:=nat) (O:=nat) x_cfg SInitialized
    [OpTranscript; OpSetup true (FOk tt); OpSend SdkMpc true true FDropped; OpSend SdkMpc true true (FOk (1, 2))])) =
    [([], RInvalidState); ([EvCommit SdkMpc], ROk VUnit); ([EvConnect SdkMpc], RDropped); ([], RInvalidState)] /\
  map (fun e => (snd (fst e), snd e)) (snd (sdk_run (T:=nat) (R:=nat) (O:=nat) x_cfg SInitialized
    [OpSetup true (FOk tt); OpSend SdkMpc true true (FOk (1, 2)); OpTranscript; OpReveal true FErr FErr true; OpTranscript])) =
    [([EvCommit SdkMpc], ROk VUnit); ([EvConnect SdkMpc], ROk (VResponse 1)); ([], ROk (VTranscript 2)); ([EvProve 2], RErr); ([], RInvalidState)].
Proof. vm_compute. split_and!; reflexivity. Qed.
