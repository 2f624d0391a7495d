(** What the verifier of a proxied connection may rely on (C81 to C84). *)
From Verif.Lib Require Import Base Ranges.
From Verif Require Import TranscriptModel ProofModel CodecModel AttestModel TlsModel AttestSpec AuthModel AuthSpec TagSpec PrfModel PrfSpec VdCheckModel VdCheckSpec ProxVerModel.

Section Spec.
  Context (sha_iv : list N) (compress : list N -> list N -> list N) (hash : list N -> list N).
  Context (aes ghash_fn : list N -> list N -> list N).

  (** The keys and the verify data of a connection with transcript [t] and master secret [ms], RFC 5246: the randoms are those
      of its handshake, and the hashes are those of its messages before each Finished message. *)
  Definition connection_keys (ms : list N) (t : tls_transcript) (d : derived) : Prop :=
    exists cf_hash sf_hash,
      tt_cf_hash t = Some cf_hash /\ tls_sf_hash hash t (d_cf d) = Ok (Some sf_hash) /\
      is_derived sha_iv compress MsDirect
        (TlsValues ms (cb_client (tt_binding t)) (cb_server (tt_binding t)) [] cf_hash sf_hash) d.
  (** The first encrypted record has 16 bytes, which decrypt to the header of a message and the verify data. *)
  Definition finished_right (key iv vd : list N) (rs : list tls_record) : Prop :=
    exists fin rest, rs = fin :: rest /\ length (r_ct fin) = 16 /\ decrypts aes key iv (r_nonce fin) (r_ct fin) vd.
  (** Both Finished messages are right, and so are the tags of all records of the server. *)
  Definition connection_right (t : tls_transcript) (d : derived) : Prop :=
    finished_right (d_client_key d) (d_client_iv d) (d_cf d) (tt_sent t) /\
    finished_right (d_server_key d) (d_server_iv d) (d_sf d) (tt_recv t) /\
    Forall (tag_right aes ghash_fn (d_server_key d) (d_server_iv d) (aes (d_server_key d) (replicate 16 0%N)) (tt_version t)) (tt_recv t).
End Spec.

(** The keys that the rest of the session uses. *)
Definition keys_of (d : derived) : session_keys :=
  SessionKeys (d_client_key d) (d_client_iv d) (d_server_key d) (d_server_iv d).

(** The same records without plaintexts, and the same transcript without plaintexts and with another time. *)
Definition hide_record (r : tls_record) : tls_record := TlsRecord (r_seq r) (r_typ r) None (r_nonce r) (r_ct r) (r_tag r).
Definition hide (time : N) (t : tls_transcript) : tls_transcript :=
  TlsTranscript time (tt_version t) (tt_signature t) (tt_certs t) (tt_binding t)
    (map hide_record (tt_sent t)) (map hide_record (tt_recv t)) (tt_cf_hash t) (tt_session_hash t) (tt_sf t).

(** The output is the one that was requested: a transcript exactly if the request reveals something, with the bytes of
    application data there, commitments to the requested application data, and a name only with a certificate that verifies. *)
Definition output_right (aes : list N -> list N -> list N) (vm_hash : alg_id -> option (list N -> list N)) (cv : cert_verifier)
    (keys : session_keys) (t : tls_transcript) (x : proof_try) (out : verifier_output) : Prop :=
  match pq_reveal (pt_request x) with
  | None => vo_transcript out = None
  | Some (s, r) => exists p, pt_partial x = Some p /\ vo_transcript out = Some p /\ discloses aes keys t s r p
  end /\
  Forall2 (commits_data aes vm_hash keys t) (the_commits (pt_request x)) (vo_commitments out) /\
  match pt_handshake x with
  | None => vo_name out = None
  | Some (name, data) => vo_name out = Some name /\ handshake_ok cv data (tt_time t) (cb_key (tt_binding t)) name
  end.
(** What deserialization guarantees of a request (C03). *)
Definition try_ok (x : proof_try) : Prop :=
  entries_ok (the_commits (pt_request x)) /\ forall p, pt_partial x = Some p -> partial_ok p.
(** Two partial transcripts show the same bytes where both show one. *)
Definition agree (p q : partial) : Prop :=
  forall d, length (p_data p d) = length (p_data q d) /\
    forall i, in_rs i (p_idx p d) -> in_rs i (p_idx q d) -> p_data p d !! i = p_data q d !! i.
(** What is read from the sockets are bytes, fewer than 2^64 of them. *)
Definition reads_ok (prover server : list read_result) : Prop :=
  forall l, stream_of prover l \/ stream_of server l -> bytes_ok l /\ (N.of_nat (length l) < 2 ^ 64)%N.
