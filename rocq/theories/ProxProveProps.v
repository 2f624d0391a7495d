(** Theorem C84 about an honest prover's proofs of a proxied connection. The vocabulary is in ProxVerSpec.v and ProxProveSpec.v, the model
    in ProxVerModel.v and ProxProveModel.v. *)
From Verif.Lib Require Import Base Ranges.
From Verif Require Import TranscriptModel ProofModel CodecModel CodecSpec AttestModel AttestSpec AttestExamples TlsModel TlsSpec TlsExamples AuthModel AuthSpec AuthExamples TagModel PrfModel PrfSpec VdCheckModel VdCheckSpec ProxVerModel ProxVerSpec ProxVerExamples ProxVerProofExamples ProxProveModel ProxProveSpec ProxProveLemmas ProxProveExamples.

(** ** C84 *)
(** Prover and verifier have finished a proxied connection, and the prover's plaintext is that of the traffic. Then any number of requests of
    the prover succeed on both sides: no step fails or panics, a request is answered exactly if it was accepted, and the verifier's output
    then has the server's name if requested, the requested part of the prover's transcript, and the commitments that the prover has. *)
Theorem C84_honest_proofs_succeed : forall sha_iv compress hash parse_body ec_curve aes ghash_fn,
  (forall s b, length (compress s b) = 8) -> (forall k b, length (aes k b) = 16) ->
  forall ms time time' sent recv app_sent app_recv keys t data keys' t' empty_eq vm_hash cv name m gs,
  length ms = 48 -> bytes_ok sent -> bytes_ok recv ->
  (N.of_nat (length sent) < 2 ^ 64)%N -> (N.of_nat (length recv) < 2 ^ 64)%N ->
  prox_prover sha_iv compress hash parse_body ec_curve aes ms time sent recv app_sent app_recv = Ok (keys, t, data) ->
  prox_commit sha_iv compress hash parse_body ec_curve aes ghash_fn ms time' sent recv = Ok (keys', t') ->
  data_right aes keys t data -> Forall (cfg_ok vm_hash cv name time' t data) gs ->
  exists res outs,
    prove_all aes empty_eq vm_hash keys t data name m gs = Ok res /\
    verify_all aes empty_eq vm_hash cv keys' t' m (map fst res) = Ok outs /\
    map (fun r => pt_accept (fst r)) res = map pg_accept gs /\
    Forall2 (fun g r => if pg_accept g then snd r <> None else snd r = None) gs res /\
    Forall2 (fun '(g, r) out => exists cs, snd r = Some cs /\ output_for name data g cs out)
      (List.filter (fun gr => pg_accept (fst gr)) (zip gs res)) (map snd outs).
Proof. exact C84_lemma. Qed.
Print Assumptions C84_honest_proofs_succeed.

(** The connection of C82_ex, with four requests, of which the second is rejected. *)
Example C84_ex : exists t,
  prox_prover q_iv q_compress ex_sha ex_parse_body ex_curve q_aes q_ms 9 (q_sent [20;0;0;12]%N) (q_recv 33) [71;69;84]%N [79;75;33]%N
    = Ok (keys_of q_d, t, q_data) /\
  data_right q_aes (keys_of q_d) t q_data /\ Forall (cfg_ok xhash ex_cv [1]%N 10 t q_data) q_cfgs /\
  map pg_accept q_cfgs = [true; false; true; true].
Proof.
  destruct C82_ex_lemma as (t & H1 & H2 & _). exists t. exact (conj H1 (conj (q_right t H2) (conj (q_cfgs_ok t) eq_refl))).
Qed.
