(** C47: the check of the Finished messages. C55: the traffic a proxy verifier goes on with. *)
From Verif.Lib Require Import Base.
From Verif Require Import PrfModel VdCheckModel VdCheckSpec VdCheckLemmas.

(** Whatever calls are made in whatever order, and whoever else uses the machine: if both checks pass then, in both directions,
    a check was allocated and later assigned a nonce and a ciphertext, and what they decrypt to under the keys of the check is
    the header of a message and the expected verify data. *)
Theorem C47_passing_means_equal : forall (aes : list N -> list N -> list N),
  (forall k b, length (aes k b) = 16) ->
  forall cs b os, vd_run aes vd_new cs = (b, os) -> vd_verify b = Ok tt -> forall d, finished_ok aes cs os (vb_vm b) d.
Proof. exact C47_sound_lemma. Qed.
Print Assumptions C47_passing_means_equal.

(** If it does and the machine was executed last, the checks pass. *)
Theorem C47_equal_means_passing : forall (aes : list N -> list N -> list N),
  (forall k b, length (aes k b) = 16) ->
  forall cs b os, vd_run aes vd_new (cs ++ [VcExecute]) = (b, os) ->
    (forall d, finished_ok aes (cs ++ [VcExecute]) os (vb_vm b) d) -> vd_verify b = Ok tt.
Proof. exact C47_complete_lemma. Qed.
Print Assumptions C47_equal_means_passing.

(** A check is allocated at most once, assigned at most once, and only after it was allocated and with lengths of 8 and 16. *)
Theorem C47_once_and_in_order : forall (aes : list N -> list N -> list N) cs b os,
  vd_run aes vd_new cs = (b, os) ->
  (forall d i i' key iv e key' iv' e', did cs os i (VcAlloc d key iv e) -> did cs os i' (VcAlloc d key' iv' e') -> i = i') /\
  (forall d j j' n c n' c', did cs os j (VcAssign d n c) -> did cs os j' (VcAssign d n' c') -> j = j') /\
  (forall d j n c, did cs os j (VcAssign d n c) ->
     length n = 8 /\ length c = 16 /\ exists i key iv e, i < j /\ did cs os i (VcAlloc d key iv e)).
Proof. exact C47_order_lemma. Qed.
Print Assumptions C47_once_and_in_order.

(** Both checks with a cipher that adds up the bytes; first assigned too early, then in order, then again. *)
Definition ex_aes (k b : list N) : list N := replicate 16 ((foldr N.add 0 k + foldr N.add 0 b) `mod` 256)%N.
Definition ex_ct (x : N) : list N := (fun y => N.lxor x y) <$> ([20; 0; 0; 12; 1; 2; 3; 4; 5; 6; 7; 8; 9; 10; 11; 12]%N).
Definition ex_vd : list N := [1; 2; 3; 4; 5; 6; 7; 8; 9; 10; 11; 12]%N.
Definition ex_calls (ct_s : list N) : list vd_call :=
  [VcAssign ClientFin (replicate 8 1%N) (ex_ct 50);
   VcOtherAdd (Given (Some [7; 8]%N)); VcOtherAdd (Given (Some [9]%N)); VcOtherAdd (Given (Some [10]%N)); VcOtherAdd (Given (Some ex_vd));
   VcAlloc ClientFin 0 1 3; VcAlloc ServerFin 0 2 3; VcAlloc ServerFin 0 0 3;
   VcAssign ServerFin (replicate 8 2%N) ct_s; VcAssign ClientFin (replicate 8 1%N) (ex_ct 34); VcAssign ClientFin (replicate 8 1%N) (ex_ct 35);
   VcExecute].
Example C47_example :
  (forall k b, length (ex_aes k b) = 16) /\
  (let '(b, os) := vd_run ex_aes vd_new (ex_calls (ex_ct 43)) in
   os = [Err VdState; Ok tt; Ok tt; Ok tt; Ok tt; Ok tt; Ok tt; Err VdState; Ok tt; Ok tt; Err VdState; Ok tt] /\
   vd_verify b = Ok tt) /\
  (* another ciphertext of the server *)
  vd_verify (vd_run ex_aes vd_new (ex_calls (ex_ct 42))).1 = Err VdFailed /\
  (* the server's message not assigned *)
  vd_verify (vd_run ex_aes vd_new (ex_calls [])).1 = Err VdState.
Proof. split; [intros k b; apply replicate_length|]. split_and!; vm_compute; try reflexivity. split; reflexivity. Qed.

(** However the traffic is cut into reads, what is recorded is what is forwarded. *)
Theorem C55_recorded_is_forwarded : forall xs r fwd fin,
  inspect_copy inspect_new xs = (r, fwd, fin) -> in_buf r = fwd.
Proof. exact C55_recorded_lemma. Qed.
Print Assumptions C55_recorded_is_forwarded.

(** What the verifier goes on with is all that the prover and the server sent, to the end of both streams, and the time at which
    the prover's first bytes came. *)
Theorem C55_the_traffic_is_complete : forall prover server a b t,
  proxy_traffic prover server = Some (Ok (a, b, t)) -> stream_of prover a /\ stream_of server b /\ first_time prover t.
Proof. exact C55_traffic_lemma. Qed.
Print Assumptions C55_the_traffic_is_complete.

(** It goes on if both streams end without an error and the prover sent something. *)
Theorem C55_traffic_is_accepted : forall prover server a b,
  stream_of prover a -> stream_of server b -> a <> [] -> exists t, proxy_traffic prover server = Some (Ok (a, b, t)).
Proof. exact C55_goes_on_lemma. Qed.
Print Assumptions C55_traffic_is_accepted.

(** It panics if the prover closes the connection without having sent anything. *)
Theorem C55_empty_traffic_does_not_panic_refuted : forall prover server b,
  stream_of prover [] -> stream_of server b -> proxy_traffic prover server = Some Panic.
Proof. exact C55_empty_lemma. Qed.
Print Assumptions C55_empty_traffic_does_not_panic_refuted.

Example C55_example :
  proxy_traffic [ReadBytes [1; 2]%N 10; ReadBytes [3]%N 11; ReadBytes [] 12] [ReadBytes [4]%N 11; ReadBytes [] 12] =
    Some (Ok ([1; 2; 3]%N, [4]%N, 10%N)) /\
  proxy_traffic [ReadBytes [1; 2]%N 10; ReadError] [ReadBytes [4]%N 11; ReadBytes [] 12] = None /\
  proxy_traffic [ReadBytes [] 10] [ReadBytes [] 12] = Some Panic.
Proof. done. Qed.
