(** Theorems C81 to C83 about the verifier of a proxied connection. The vocabulary is in ProxVerSpec.v, the model is
    ProxVerModel.v. [compress] and [sha_iv] are the compression function and the initial state of the hash function in the
    virtual machine, [hash] is the hash function outside of it, [aes] any block function and [ghash_fn] any function. *)
From Verif.Lib Require Import Base Ranges.
From Verif Require Import TranscriptModel ProofModel CodecModel CodecSpec AttestModel AttestSpec TlsModel TlsSpec TlsExamples AuthModel AuthSpec TagModel PrfModel PrfSpec VdCheckModel VdCheckSpec ProxVerModel ProxVerSpec ProxVerLemmas ProxVerProofLemmas ProxVerExamples AttestExamples AuthExamples ProxVerProofExamples.

(** ** C81 *)
(** The verifier accepts a connection exactly if it has seen all of its traffic, the traffic is that of a TLS 1.2 connection,
    and for the keys derived from the prover's master secret and the handshake of that traffic both Finished messages carry the
    right verify data and all tags of the server's records are right. It goes on with these keys. *)
Theorem C81_accepted_iff_right : forall sha_iv compress hash parse_body ec_curve aes ghash_fn,
  (forall s b, length (compress s b) = 8) -> (forall k b, length (aes k b) = 16) ->
  forall ms prover server keys t, length ms = 48 -> reads_ok prover server ->
  prox_run sha_iv compress hash parse_body ec_curve aes ghash_fn ms prover server = Some (Ok (keys, t)) <->
  exists sent recv time d, stream_of prover sent /\ stream_of server recv /\ first_time prover time /\
    tls_build hash parse_body ec_curve (prox_builder time sent recv None) = Ok t /\
    connection_keys sha_iv compress hash ms t d /\ connection_right aes ghash_fn t d /\ keys = keys_of d.
Proof. exact C81_run_lemma. Qed.
Print Assumptions C81_accepted_iff_right.

(** For a full handshake the keys are those of RFC 5246 with the hashes of the messages before each Finished message. *)
Theorem C81_full_handshake : forall sha_iv compress hash parse_body ec_curve aes ghash_fn,
  (forall s b, length (compress s b) = 8) -> (forall k b, length (aes k b) = 16) ->
  forall ms time sent recv keys t h, length ms = 48 -> bytes_ok sent -> bytes_ok recv ->
  (N.of_nat (length sent) < 2 ^ 64)%N -> (N.of_nat (length recv) < 2 ^ 64)%N ->
  full_handshake_ok h -> carries sent (client_messages h) -> carries recv (server_messages h) ->
  prox_commit sha_iv compress hash parse_body ec_curve aes ghash_fn ms time sent recv = Ok (keys, t) ->
  exists d,
    is_derived sha_iv compress MsDirect
      (TlsValues ms (cb_client (tt_binding t)) (cb_server (tt_binding t)) []
         (hash (msgs_wire (until_client_finished h))) (hash (msgs_wire (until_server_finished h (d_cf d))))) d /\
    connection_right aes ghash_fn t d /\ keys = keys_of d.
Proof. exact C81_full_handshake_lemma. Qed.
Print Assumptions C81_full_handshake.

(** Other connections end with an error about the transcript, the Finished messages or the tags; the verifier neither hangs nor
    panics, unless the prover sends nothing at all (C55). *)
Theorem C81_others_are_rejected : forall sha_iv compress hash parse_body ec_curve aes ghash_fn,
  (forall s b, length (compress s b) = 8) -> (forall k b, length (aes k b) = 16) ->
  forall ms prover server, length ms = 48 -> reads_ok prover server ->
  match prox_run sha_iv compress hash parse_body ec_curve aes ghash_fn ms prover server with
  | Some Panic => stream_of prover []
  | Some (Err e) => match e with PvTranscript _ | PvVd _ | PvTag _ => True | _ => False end
  | _ => True
  end.
Proof. exact C81_run_errors_lemma. Qed.
Print Assumptions C81_others_are_rejected.

(** The header of a Finished message is not looked at: a connection is accepted whose first encrypted record of the client is
    not a Finished message. The tags of the client's records are not looked at either. *)
Theorem C81_finished_header_is_checked_refuted :
  exists sha_iv compress hash parse_body ec_curve aes ghash_fn ms time sent recv keys t d fin rest,
  (forall s b, length (compress s b) = 8) /\ (forall k b, length (aes k b) = 16) /\
  prox_commit sha_iv compress hash parse_body ec_curve aes ghash_fn ms time sent recv = Ok (keys, t) /\
  keys = keys_of d /\ tt_sent t = fin :: rest /\
  zip_with N.lxor (aes (d_client_key d) (d_client_iv d ++ r_nonce fin ++ [0;0;0;2]%N)) (r_ct fin) <> [20;0;0;12]%N ++ d_cf d /\
  ~ TagSpec.tag_right aes ghash_fn (d_client_key d) (d_client_iv d) (aes (d_client_key d) (replicate 16 0%N)) (tt_version t) fin.
Proof. exact C81_header_lemma. Qed.
Print Assumptions C81_finished_header_is_checked_refuted.

(** The connection of ProxVerExamples.v is accepted; with another master secret it is not. *)
Example C81_ex :
  length q_ms = 48 /\ bytes_ok (q_sent [20;0;0;12]%N) /\ bytes_ok (q_recv 33) /\
  full_handshake_ok q_h /\ carries (q_sent [20;0;0;12]%N) (client_messages q_h) /\ carries (q_recv 33) (server_messages q_h) /\
  q_commit [20;0;0;12]%N (q_recv 33) = Ok (keys_of q_d, q_t [20;0;0;12]%N) /\
  prox_run q_iv q_compress ex_sha ex_parse_body ex_curve q_aes q_ghash q_ms
    [ReadBytes (take 20 (q_sent [20;0;0;12]%N)) 10; ReadBytes (drop 20 (q_sent [20;0;0;12]%N)) 11; ReadBytes [] 12]
    [ReadBytes (q_recv 33) 10; ReadBytes [] 13]
  = Some (Ok (keys_of q_d, q_t [20;0;0;12]%N)) /\
  map (fun r => (r_seq r, length (r_ct r))) (tt_recv (q_t [20;0;0;12]%N)) = [(0%N, 16); (1%N, 3); (2%N, 2)] /\
  prox_commit q_iv q_compress ex_sha ex_parse_body ex_curve q_aes q_ghash (replicate 48 1%N) 10 (q_sent [20;0;0;12]%N) (q_recv 33) = Err (PvTag TInvalidTag).
Proof.
  exact (conj eq_refl (conj (proj1 q_bytes) (conj (proj2 q_bytes) (conj q_hs_ok (conj (proj1 q_carries) (conj (proj2 q_carries)
    (conj (q_accepted [20;0;0;12]%N (or_introl eq_refl)) (conj q_run (conj q_records q_other))))))))).
Qed.

(** ** C82 *)
(** The prover and the verifier of a connection that both accept have the same keys and the same transcript, but for its time
    and the plaintext, which the verifier does not have. *)
Theorem C82_parties_agree : forall sha_iv compress hash parse_body ec_curve aes ghash_fn,
  (forall s b, length (compress s b) = 8) -> (forall k b, length (aes k b) = 16) ->
  forall ms time time' sent recv app_sent app_recv keys t data keys' t', length ms = 48 -> bytes_ok sent -> bytes_ok recv ->
  (N.of_nat (length sent) < 2 ^ 64)%N -> (N.of_nat (length recv) < 2 ^ 64)%N ->
  prox_prover sha_iv compress hash parse_body ec_curve aes ms time sent recv app_sent app_recv = Ok (keys, t, data) ->
  prox_commit sha_iv compress hash parse_body ec_curve aes ghash_fn ms time' sent recv = Ok (keys', t') ->
  keys' = keys /\ t' = hide time' t.
Proof. exact C82_agree_lemma. Qed.
Print Assumptions C82_parties_agree.

(** If the prover's connection is right then the verifier accepts it. *)
Theorem C82_right_connections_are_accepted : forall sha_iv compress hash parse_body ec_curve aes ghash_fn,
  (forall s b, length (compress s b) = 8) -> (forall k b, length (aes k b) = 16) ->
  forall ms time time' sent recv app_sent app_recv keys t data, length ms = 48 -> bytes_ok sent -> bytes_ok recv ->
  (N.of_nat (length sent) < 2 ^ 64)%N -> (N.of_nat (length recv) < 2 ^ 64)%N ->
  prox_prover sha_iv compress hash parse_body ec_curve aes ms time sent recv app_sent app_recv = Ok (keys, t, data) ->
  (forall d, connection_keys sha_iv compress hash ms t d -> connection_right aes ghash_fn t d) ->
  prox_commit sha_iv compress hash parse_body ec_curve aes ghash_fn ms time' sent recv = Ok (keys, hide time' t).
Proof. exact C82_accepts_lemma. Qed.
Print Assumptions C82_right_connections_are_accepted.

Example C82_ex : exists t,
  prox_prover q_iv q_compress ex_sha ex_parse_body ex_curve q_aes q_ms 9 (q_sent [20;0;0;12]%N) (q_recv 33) [71;69;84]%N [79;75;33]%N
    = Ok (keys_of q_d, t, Transcript [71;69;84]%N [79;75;33]%N) /\
  q_t [20;0;0;12]%N = hide 10 t /\
  (forall d, connection_keys q_iv q_compress ex_sha q_ms t d -> connection_right q_aes q_ghash t d).
Proof. exact C82_ex_lemma. Qed.

(** ** C83 *)
(** After such a connection, whatever the prover asks to prove, in any number of proofs: each output belongs to an accepted request
    and is the requested disclosure, of application data that the recorded traffic decrypts to under the derived keys, and the
    outputs do not contradict each other. *)
Theorem C83_outputs_are_right : forall sha_iv compress hash parse_body ec_curve aes ghash_fn,
  (forall s b, length (compress s b) = 8) -> (forall k b, length (aes k b) = 16) ->
  forall ms prover server keys t empty_eq vm_hash cv m xs outs, length ms = 48 -> reads_ok prover server ->
  prox_run sha_iv compress hash parse_body ec_curve aes ghash_fn ms prover server = Some (Ok (keys, t)) ->
  Forall try_ok xs -> verify_all aes empty_eq vm_hash cv keys t m xs = Ok outs ->
  map fst outs = List.filter pt_accept xs /\
  Forall (fun xo => output_right aes vm_hash cv keys t (fst xo) (snd xo)) outs /\
  forall x o y o' p q, (x, o) ∈ outs -> (y, o') ∈ outs -> vo_transcript o = Some p -> vo_transcript o' = Some q -> agree p q.
Proof. exact C83_lemma. Qed.
Print Assumptions C83_outputs_are_right.

(** Three requests about the connection of C81_ex: the second is rejected, the outputs for the others overlap. *)
Example C83_ex : map pt_accept q_tries = [true; false; true] /\ Forall try_ok q_tries /\
  option_map (map (fun xo => (vo_transcript (snd xo), map cm_idx (vo_commitments (snd xo)))))
    (match verify_all q_aes true xhash ex_cv (keys_of q_d) (q_t [20;0;0;12]%N) [] q_tries with Ok outs => Some outs | _ => None end) =
  Some [(Some (Partial [71;69;84]%N [79;75;0]%N [(0, 3)] [(0, 2)]), [[(1, 2)]; [(1, 3)]]);
        (Some (Partial [0;0;0]%N [0;75;33]%N [] [(1, 3)]), [[(2, 3)]])].
Proof. exact (conj eq_refl (conj q_tries_ok q_outputs)). Qed.
