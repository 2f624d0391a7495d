(** Theorems C15-C20 about attestations, presentations, identities and algorithm identifiers.
    The vocabulary is in AttestSpec.v, MerkleSpec.v and ProofSpec.v; the model is AttestModel.v.
    [dom] is any assignment of domain separators to types. *)
From Verif.Lib Require Import Base Bcs Ranges RangesFacts.
From Verif Require Import TranscriptModel TranscriptSpec TranscriptProps ProofModel ProofSpec ProofLemmas ProofProps
  MerkleModel MerkleSpec CodecModel AttestModel AttestSpec AttestLemmas AttestExamples.

(** ** C15 *)
(** Every attestation built from an accepted request numbers its fields 0, 1, 2, ..., has the
    expected number of fields, and its header carries the root over them. *)
Theorem C15_built_bodies_are_numbered : forall dom c rq s0 calls P uid a,
  accept_request c rq = Ok s0 -> att_build dom (fold_left sign_step calls s0) P uid = Ok a ->
  field_ids (a_body a) = seq 0 (length (body_fields (a_body a))) /\
  length (body_fields (a_body a)) = 4 + length (rq_exts rq ++ called_exts calls) + length (called_tcs calls) /\
  exists h, cp_hash P (rq_hash_alg rq) = Some h /\ body_root dom h (a_body a) = Ok (hd_root (a_header a)).
Proof. exact C15_numbered_lemma. Qed.
Print Assumptions C15_built_bodies_are_numbered.

(** Two bodies with the same number of fields and the same root are equal, or two different strings
    with the same hash are found among those hashed to compute the two roots. *)
Theorem C15_root_binds_body : forall dom h L b1 b2 r,
  domains_ok dom -> hash_len (h_hash h) L -> body_ok b1 -> body_ok b2 -> numbered b1 -> numbered b2 ->
  length (body_fields b1) = length (body_fields b2) ->
  body_root dom h b1 = Ok r -> body_root dom h b2 = Ok r ->
  b1 = b2 \/ collides h (body_inputs dom h b1) (body_inputs dom h b2).
Proof. exact C15_binding_lemma. Qed.
Print Assumptions C15_root_binds_body.
Example C15_ex : exists s0, accept_request ex_config ex_rq = Ok s0 /\
  att_build ex_dom (fold_left sign_step ex_sign_calls s0) ex_cp ex_uid = Ok ex_att /\
  field_ids (a_body ex_att) = [0; 1; 2; 3; 4; 5; 6; 7] /\ map fst (b_tcs (a_body ex_att)) = [6; 7] /\
  domains_ok ex_dom /\ hash_len (h_hash ex_h) 1 /\ body_ok (a_body ex_att).
Proof. exact C15_ex_lemma. Qed.

(** ** C16 *)
(** What a verified presentation has been checked for. *)
Theorem C16_presentation_checks : forall dom P pr out, pres_verify dom P pr = Ok out ->
  let b := a_body (po_att out) in
  signed_by P (snd (b_vk b)) (a_header (po_att out)) (a_sig (po_att out)) /\
  po_ci out = snd (b_ci b) /\ po_exts out = map snd (b_exts b) /\
  (forall name, po_name out = Some name -> exists o h,
     cp_hash P (th_alg (snd (b_cc b))) = Some h /\ th_value (snd (b_cc b)) = h_hash h (opening_input dom o) /\
     handshake_ok (cp_cert P) (co_data o) (ci_time (snd (b_ci b))) (snd (b_ek b)) name) /\
  (forall t, po_transcript out = Some t -> exists tp,
     verify_tproof (cp_hash P) (ci_length (snd (b_ci b))) (map snd (b_tcs b)) tp = Ok t).
Proof. exact C16_checks_lemma. Qed.
Print Assumptions C16_presentation_checks.

(** Every presented field is the field with that identifier in the body whose root was signed,
    or a collision is found among the strings hashed by the verification and by the notary. Partial: the
    Merkle proof must state the true number of fields and the presented identifiers must be below it,
    which [Presentation::verify] does not (and cannot) check. *)
Theorem C16_presented_fields_are_attested_partial : forall dom P pr out h L b0,
  domains_ok dom -> hash_len (h_hash h) L -> body_ok b0 -> body_ok (a_body (po_att out)) -> numbered b0 ->
  pres_verify dom P pr = Ok out ->
  cp_hash P (th_alg (hd_root (a_header (po_att out)))) = Some h ->
  body_root dom h b0 = Ok (hd_root (a_header (po_att out))) ->
  mp_leaf_count (bp_proof (ap_body (pr_att pr))) = length (body_fields b0) ->
  (forall i, i ∈ field_ids (a_body (po_att out)) -> i < length (body_fields b0)) ->
  (forall i f, (i, f) ∈ body_fields (a_body (po_att out)) -> (i, f) ∈ body_fields b0) \/
  collides h (verify_inputs dom h (a_body (po_att out)) (bp_proof (ap_body (pr_att pr)))) (body_inputs dom h b0).
Proof. exact C16_pres_fields_lemma. Qed.
Print Assumptions C16_presented_fields_are_attested_partial.

(** Without those two conditions the property fails, for every hash function. Suppose the notary
    attests, without extensions, one commitment [tc] of the prover to data that together with the blinder encodes
    another commitment [fake]. Then a presentation with [fake] in place of [tc] verifies, and transcript
    proofs are checked against [fake]. The prover chooses the data it sends and the blinder. *)
Theorem C16_commitment_forgery_refuted : forall dom P h vk ci ek cc d idx fake msg blinder sig hd tp t,
  cp_hash P (h_id h) = Some h ->
  msg ++ blinder = field_input dom (FTc fake) ->
  let tc := Commitment d idx (hash_plaintext h msg blinder) in
  body_root dom h (make_body vk ci ek cc [] [tc]) = Ok (hd_root hd) ->
  signed_by P vk hd sig ->
  verify_tproof (cp_hash P) (ci_length ci) [fake] tp = Ok t ->
  let b' := Body (0, vk) (1, ci) (2, ek) (3, cc) [] [(5, fake)] in
  let head := dom DTc ++ bcs_len 0 ++ ser_dir d ++ bcs_seq ser_range idx ++
                [h_id h] ++ bcs_len (length (h_hash h (msg ++ blinder))) in
  pres_verify dom P (Presentation (AttProof sig hd (BodyProof b' (MerkleProof 6 [head]))) None (Some tp)) =
    Ok (PresOutput (Attestation sig hd b') None ci (Some t) []).
Proof. exact C16_forgery_lemma. Qed.
Print Assumptions C16_commitment_forgery_refuted.

(** A complete case: everything attested is honest, the output shows received data that was never received,
    and there is no collision. *)
Theorem C16_forged_transcript_refuted : exists dom P h c rq s0 calls uid a t os pr out p i,
  domains_ok dom /\ cp_hash P (rq_hash_alg rq) = Some h /\
  accept_request c rq = Ok s0 /\ att_build dom (fold_left sign_step calls s0) P uid = Ok a /\
  honest_commitments (cp_hash P) t os (map snd (b_tcs (a_body a))) /\ (forall o, o ∈ os -> secret_ok o) /\
  ci_length (snd (b_ci (a_body a))) = t_length t /\
  pres_verify dom P pr = Ok out /\ a_header (po_att out) = a_header a /\ a_sig (po_att out) = a_sig a /\
  po_transcript out = Some p /\ in_rs i (p_idx p Received) /\ p_data p Received !! i <> t_data t Received !! i /\
  ~ collides h (verify_inputs dom h (a_body (po_att out)) (bp_proof (ap_body (pr_att pr)))) (body_inputs dom h (a_body a)).
Proof. exact C16_forged_case. Qed.
Print Assumptions C16_forged_transcript_refuted.

(** Verification never panics, whatever the presentation (range sets are kept canonical by their type). *)
Theorem C16_verification_never_panics : forall dom P pr,
  (forall tp, pr_transcript pr = Some tp ->
     (forall s, s ∈ tp_secrets tp -> rs_ok (sc_idx s)) /\ (forall d, rs_ok (p_idx (tp_transcript tp) d))) ->
  pres_verify dom P pr <> Panic.
Proof. exact pres_verify_no_panic. Qed.
Print Assumptions C16_verification_never_panics.

Example C16_ex : exists pr, pres_build ex_dom ex_cp ex_att (Some (secrets_identity_proof ex_se)) (Some ex_pr) = Ok pr /\
  pres_verify ex_dom ex_cp pr = Ok (PresOutput ex_att (Some ex_name) ex_ci (Some ex_p) [ex_ext; ex_ext2]) /\
  numbered (a_body ex_att) /\ body_root ex_dom ex_h (a_body ex_att) = Ok (hd_root (a_header ex_att)) /\
  mp_leaf_count (bp_proof (ap_body (pr_att pr))) = length (body_fields (a_body ex_att)).
Proof. exact C16_ex_lemma. Qed.

(** ** C17 *)
(** A request made by the prover ([P]), accepted and attested by the notary ([Pn]): the presentation built
    from it, with or without identity and transcript proofs, verifies ([Pv]) and reports what was attested. *)
Theorem C17_honest_presentations_verify : forall dom cover P Pn Pv rb blinder rq se c s0 calls uid a ci ek sg reveals tp
    (with_id with_t : bool),
  cover_ok cover -> provider_ok (cp_hash P) -> cp_hash Pn = cp_hash P -> cp_hash Pv = cp_hash P ->
  req_build dom P rb blinder = Some (rq, se) ->
  accept_request c rq = Ok s0 -> att_build dom (fold_left sign_step calls s0) Pn uid = Ok a ->
  cp_signer Pn (rq_sig_alg rq) = Some sg -> signer_ok sg Pv ->
  called_ci calls = Some ci -> called_ek calls = Some ek -> called_tcs calls = se_commitments se ->
  handshake_ok (cp_cert Pv) (co_data (se_opening se)) (ci_time ci) ek (se_name se) ->
  ci_length ci = t_length (se_transcript se) ->
  (N.of_nat (length (t_sent (se_transcript se))) < 2 ^ 32)%N -> (N.of_nat (length (t_recv (se_transcript se))) < 2 ^ 32)%N ->
  (forall s, s ∈ se_secrets se -> secret_ok s) ->
  (forall s, s ∈ se_secrets se -> exists cm, cm ∈ se_commitments se /\ committed_by (cp_hash P) (se_transcript se) s cm) ->
  tb_build cover (tb_run (se_transcript se) (se_secrets se) reveals) = Ok tp ->
  exists pr, pres_build dom P a (if with_id then Some (secrets_identity_proof se) else None) (if with_t then Some tp else None) = Ok pr /\
    pres_verify dom Pv pr = Ok (PresOutput a (if with_id then Some (se_name se) else None) ci
      (if with_t then Some (tp_transcript tp) else None) (rq_exts rq ++ called_exts calls)).
Proof. exact C17_lemma. Qed.
Print Assumptions C17_honest_presentations_verify.
Example C17_ex :
  req_build ex_dom ex_cp ex_rb ex_blinder = Some (ex_rq, ex_se) /\
  (exists s0, accept_request ex_config ex_rq = Ok s0 /\
     att_build ex_dom (fold_left sign_step ex_sign_calls s0) ex_cp ex_uid = Ok ex_att) /\
  cp_signer ex_cp (rq_sig_alg ex_rq) = Some ex_signer /\ signer_ok ex_signer ex_cp /\
  called_ci ex_sign_calls = Some ex_ci /\ called_ek ex_sign_calls = Some ex_ek /\
  called_tcs ex_sign_calls = se_commitments ex_se /\
  handshake_ok (cp_cert ex_cp) (co_data (se_opening ex_se)) (ci_time ex_ci) ex_ek (se_name ex_se) /\
  ci_length ex_ci = t_length (se_transcript ex_se) /\
  tb_build simple_cover (tb_run (se_transcript ex_se) (se_secrets ex_se) ex_calls) = Ok ex_pr /\
  (forall s, s ∈ se_secrets ex_se -> secret_ok s) /\
  (forall s, s ∈ se_secrets ex_se -> exists cm, cm ∈ se_commitments ex_se /\ committed_by (cp_hash ex_cp) (se_transcript ex_se) s cm).
Proof. exact C17_ex_lemma. Qed.

(** ** C18 *)
(** Validation succeeds exactly when the attestation answers the request and its header is signed
    by the key in its body; it never panics. *)
Theorem C18_validate_iff : forall rq a P, validate rq a P = Ok () <->
  answers rq a /\ signed_by P (snd (b_vk (a_body a))) (a_header a) (a_sig a).
Proof. exact C18_lemma. Qed.
Print Assumptions C18_validate_iff.
Theorem C18_validate_never_panics : forall rq a P, validate rq a P <> Panic.
Proof. exact validate_no_panic. Qed.
Print Assumptions C18_validate_never_panics.

(** The last clause of the property fails: the body is not compared with the signed root. Connection info,
    server key and commitments of a valid attestation can be replaced... *)
Theorem C18_body_can_be_replaced_refuted : forall rq a P b',
  validate rq a P = Ok () ->
  snd (b_vk b') = snd (b_vk (a_body a)) -> snd (b_cc b') = snd (b_cc (a_body a)) -> b_exts b' = b_exts (a_body a) ->
  validate rq (Attestation (a_sig a) (a_header a) b') P = Ok ().
Proof. exact C18_replace_lemma. Qed.
Print Assumptions C18_body_can_be_replaced_refuted.
(** ...so that the body is not the one covered by the signature, without any collision... *)
Theorem C18_unsigned_body_validates_refuted : exists dom rq a P h,
  domains_ok dom /\ validate rq a P = Ok () /\ cp_hash P (rq_hash_alg rq) = Some h /\
  numbered (a_body a) /\ body_ok (a_body a) /\
  body_root dom h (a_body a) <> Ok (hd_root (a_header a)).
Proof. exact C18_unsigned_case. Qed.
Print Assumptions C18_unsigned_body_validates_refuted.
(** ...or such that building a presentation panics. *)
Theorem C18_validated_attestation_panics_refuted : exists dom rq a P,
  validate rq a P = Ok () /\ att_proof_new dom P a = Panic.
Proof. exact C18_panic_case. Qed.
Print Assumptions C18_validated_attestation_panics_refuted.
Example C18_ex : validate ex_rq ex_att ex_cp = Ok () /\
  validate (Request 2%N SHA256 (rq_cc ex_rq) (rq_exts ex_rq)) ex_att ex_cp = Err Inconsistent /\
  validate (Request 1%N BLAKE3 (rq_cc ex_rq) (rq_exts ex_rq)) ex_att ex_cp = Err Inconsistent /\
  validate (Request 1%N SHA256 (TypedHash SHA256 [0%N]) (rq_exts ex_rq)) ex_att ex_cp = Err Inconsistent /\
  validate (Request 1%N SHA256 (rq_cc ex_rq) [Extension [] []]) ex_att ex_cp = Err Inconsistent.
Proof. by split_and!. Qed.

(** ** C19 *)
(** Handshake data is accepted exactly when the key, the chain and the signature are right. *)
Theorem C19_handshake_verify_iff : forall hd cv time ek name,
  handshake_verify hd cv time ek name = Ok () <-> handshake_ok cv hd time ek name.
Proof. exact handshake_verify_iff. Qed.
Print Assumptions C19_handshake_verify_iff.
(** An identity proof is accepted exactly when in addition its opening has the committed hash. *)
Theorem C19_identity_verify_iff : forall dom P ip time ek cc name,
  identity_verify dom P ip time ek cc = Ok name <->
  name = ip_name ip /\
  (exists h, cp_hash P (th_alg cc) = Some h /\ th_value cc = h_hash h (opening_input dom (ip_opening ip))) /\
  handshake_ok (cp_cert P) (co_data (ip_opening ip)) time ek name.
Proof. exact identity_verify_iff. Qed.
Print Assumptions C19_identity_verify_iff.
(** It then has the committed certificates, signature, randoms, key and blinder, or its encoding
    collides with the encoding of the committed ones. *)
Theorem C19_opening_is_the_committed_one : forall dom P h o ip time ek name,
  cert_opening_ok o -> cert_opening_ok (ip_opening ip) -> cp_hash P (h_id h) = Some h ->
  identity_verify dom P ip time ek (opening_commit dom h o) = Ok name ->
  ip_opening ip = o \/
  (opening_input dom (ip_opening ip) <> opening_input dom o /\
   h_hash h (opening_input dom (ip_opening ip)) = h_hash h (opening_input dom o)).
Proof. exact C19_binding_lemma. Qed.
Print Assumptions C19_opening_is_the_committed_one.
Example C19_ex : cert_opening_ok (se_opening ex_se) /\
  identity_verify ex_dom ex_cp (secrets_identity_proof ex_se) 100%N ex_ek (rq_cc ex_rq) = Ok ex_name /\
  identity_verify ex_dom ex_cp (secrets_identity_proof ex_se) 300%N ex_ek (rq_cc ex_rq) = Err ICertificate /\
  identity_verify ex_dom ex_cp (secrets_identity_proof ex_se) 100%N (EphemKey [1%N]) (rq_cc ex_rq) = Err ICertificate /\
  identity_verify ex_dom ex_cp (secrets_identity_proof ex_se) 100%N ex_ek (TypedHash SHA256 [1%N]) = Err ICommitment.
Proof. exact C19_ex_lemma. Qed.

(** ** C20 *)
(** Identifiers below 128 are refused. *)
Theorem C20_reserved_identifiers_refused : forall id,
  (alg_id_new id = if (id <? 128)%N then Panic else Ok id) /\
  (key_alg_new id = if (id <? 128)%N then Panic else Ok id) /\
  (sig_alg_new id = if (id <? 128)%N then Panic else Ok id).
Proof. exact C20_new_lemma. Qed.
Print Assumptions C20_reserved_identifiers_refused.
(** After any history of registrations the providers return what was registered last, and else what
    they held before. *)
Theorem C20_last_registered_wins : forall a,
  (forall hist P, fold_left (fun p e => set_algorithm p (fst e) (snd e)) hist P a =
     match last_registered hist a with Some h => Some h | None => P a end) /\
  (forall hist p, fold_left set_signer hist p a =
     match last_registered (map (fun s => (sg_alg s, s)) hist) a with Some s => Some s | None => p a end) /\
  (forall hist p, fold_left set_verifier hist p a =
     match last_registered hist a with Some v => Some v | None => p a end).
Proof. exact C20_last_lemma. Qed.
Print Assumptions C20_last_registered_wins.
(** Registrations under identifiers made with [new] leave the built-in algorithms alone. *)
Theorem C20_builtins_are_kept : forall a, (a < 128)%N ->
  (forall hist P, (forall e, e ∈ hist -> exists id, alg_id_new id = Ok (fst e)) ->
     fold_left (fun p e => set_algorithm p (fst e) (snd e)) hist P a = P a) /\
  (forall hist p, (forall s, s ∈ hist -> exists id, sig_alg_new id = Ok (sg_alg s)) ->
     fold_left set_signer hist p a = p a) /\
  (forall hist p, (forall v, v ∈ hist -> exists id, sig_alg_new id = Ok (fst v)) ->
     fold_left set_verifier hist p a = p a).
Proof. exact C20_builtin_lemma. Qed.
Print Assumptions C20_builtins_are_kept.
Example C20_ex :
  let p := fold_left (fun p e => set_algorithm p (fst e) (snd e))
     [(130, Hasher 130 (toy_hash 7)); (200, Hasher 200 (toy_hash 8)); (130, Hasher 130 (toy_hash 9))]%N ex_P in
  (exists h, p 130%N = Some h /\ h_hash h [1]%N = toy_hash 9 [1]%N) /\
  (exists h, p BLAKE3 = Some h /\ h_hash h [1]%N = toy_hash 2 [1]%N) /\ p 131%N = None.
Proof. split_and!; [by eexists|by eexists|done]. Qed.
