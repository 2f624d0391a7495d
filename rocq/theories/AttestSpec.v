(** Vocabulary for the theorems about attestations and presentations (C15-C20). *)
From Verif.Lib Require Import Base Bcs Ranges.
From Verif Require Import TranscriptModel ProofModel ProofSpec MerkleModel MerkleSpec CodecModel AttestModel.

(** Different types have different 16 byte domain separators. *)
Definition domains_ok (dom : domains) : Prop :=
  (forall t, length (dom t) = 16) /\ (forall t t', dom t = dom t' -> t = t').

(** The values fit their Rust types, and no sequence is longer than BCS allows. *)
Definition u64 (n : N) : Prop := (n < 2 ^ 64)%N.
Definition u32 (n : N) : Prop := (n < 2 ^ 32)%N.
Definition th_ok (t : typed_hash) : Prop := len_ok (length (th_value t)).
Definition tc_ok (c : commitment) : Prop :=
  len_ok (length (cm_idx c)) /\
  Forall (fun r : range => u64 (N.of_nat (fst r)) /\ u64 (N.of_nat (snd r))) (cm_idx c) /\
  th_ok (cm_hash c).
Definition fdata_ok (f : fdata) : Prop :=
  match f with
  | FVk k => len_ok (length (vk_data k))
  | FCi c => u64 (ci_time c) /\ u32 (tl_sent (ci_length c)) /\ u32 (tl_recv (ci_length c))
  | FEk k => len_ok (length (ek_key k))
  | FCc c => th_ok c
  | FExt e => len_ok (length (ext_id e)) /\ len_ok (length (ext_value e))
  | FTc c => tc_ok c
  end.
Definition body_ok (b : body) : Prop := Forall (fun f => fdata_ok (snd f)) (body_fields b).
Definition cert_opening_ok (o : cert_opening) : Prop :=
  let d := co_data o in
  (len_ok (length (hd_certs d)) /\ Forall (fun c => len_ok (length c)) (hd_certs d)) /\
  (hd_sig_alg d < 11)%N /\ len_ok (length (hd_sig d)) /\
  length (hd_client_random d) = 32 /\ length (hd_server_random d) = 32 /\
  len_ok (length (ek_key (hd_ephem_key d))) /\ length (co_blinder o) = 16.

(** The identifiers of the fields, in the order in which the body lists them. *)
Definition field_ids (b : body) : list nat := map fst (body_fields b).
(** They are 0, 1, 2, ... *)
Definition numbered (b : body) : Prop := field_ids b = seq 0 (length (body_fields b)).

Section Spec.
  Context (dom : domains).
  (** The leaves of the tree over a body, and the strings hashed when its root is computed. *)
  Definition body_leaves (h : hasher) (b : body) : list (list N) := map snd (hash_fields dom h b).
  Definition body_inputs (h : hasher) (b : body) : list (list N) :=
    map (fun f => field_input dom (snd f)) (body_fields b) ++
    tree_inputs (h_hash h) (tree_depth (length (body_leaves h b))) (body_leaves h b).
  (** The strings hashed when a body is verified against a root with a Merkle proof. *)
  Definition verify_inputs (h : hasher) (b : body) (p : merkle_proof) : list (list N) :=
    map (fun f => field_input dom (snd f)) (body_fields b) ++
    proof_inputs (h_hash h) (tree_depth (mp_leaf_count p)) (mp_leaf_count p) (sort_by (hash_fields dom h b)) (mp_hashes p).
  (** A collision between strings of two given lists. *)
  Definition collides (h : hasher) (xs ys : list (list N)) : Prop :=
    exists x y, x ∈ xs /\ y ∈ ys /\ x <> y /\ h_hash h x = h_hash h y.
End Spec.

(** The signer of a provider makes signatures that the verifying side accepts. *)
Definition signer_ok (sg : signer) (P : crypto_provider) : Prop :=
  forall m sig, sg_sign sg m = Some sig ->
    exists v, cp_sigver P (s_alg sig) = Some v /\ v (sg_vk sg) m (s_data sig) = true.
(** The signature of an attestation or proof verifies under a key. *)
Definition signed_by (P : crypto_provider) (vk : verifying_key) (hd : header) (sig : signature) : Prop :=
  exists v, cp_sigver P (s_alg sig) = Some v /\ v vk (ser_header hd) (s_data sig) = true.

(** The handshake data belongs to a connection with key [ek] at [time], to the server [name]. *)
Definition handshake_ok (cv : cert_verifier) (hd : handshake_data) (time : N) (ek : ephem_key) (name : server_name) : Prop :=
  hd_ephem_key hd = ek /\
  exists leaf inter, hd_certs hd = leaf :: inter /\ cv_chain cv leaf inter name time = true /\
    cv_parses cv leaf = true /\
    cv_signature cv leaf (hd_sig_alg hd)
      (hd_client_random hd ++ hd_server_random hd ++
       [3; 0; 23]%N ++ [(N.of_nat (length (ek_key ek)) mod 256)%N] ++ ek_key ek) (hd_sig hd) = true.

(** A registration history: the last entry for an identifier counts. *)
Definition last_registered {A} (hist : list (N * A)) (a : N) : option A :=
  snd <$> last (filter (fun e => fst e = a) hist).

(** What the calls on the attestation builder have set or added. *)
Definition called_ci (calls : list sign_call) : option conn_info :=
  last (omap (fun c => match c with SetConnInfo x => Some x | _ => None end) calls).
Definition called_ek (calls : list sign_call) : option ephem_key :=
  last (omap (fun c => match c with SetEphemKey x => Some x | _ => None end) calls).
Definition called_exts (calls : list sign_call) : list extension :=
  omap (fun c => match c with AddExtension x => Some x | _ => None end) calls.
Definition called_tcs (calls : list sign_call) : list commitment :=
  default [] (last (omap (fun c => match c with SetCommitments x => Some x | _ => None end) calls)).

(** An attestation answers a request, as far as the requester looks. *)
Definition answers (rq : request) (a : attestation) : Prop :=
  s_alg (a_sig a) = rq_sig_alg rq /\ th_alg (hd_root (a_header a)) = rq_hash_alg rq /\
  snd (b_cc (a_body a)) = rq_cc rq /\
  (forall e, e ∈ rq_exts rq -> exists i, (i, e) ∈ b_exts (a_body a)).
