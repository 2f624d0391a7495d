(** Theorems C31-C35 about the disclosure and commitment of plaintext. The vocabulary is in AuthSpec.v,
    the model is AuthModel.v. [aes] is any block function, [vm_hash] any hash functions, [wit] the
    values that the prover puts into the memory cells which are private to it, and [empty_eq] says
    whether the rangeset library takes the empty set to be equal to the range 0..0. *)
From Verif.Lib Require Import Base Ranges.
From Verif Require Import TranscriptModel ProofModel CodecModel AttestModel AttestSpec AttestExamples TlsModel AuthModel AuthSpec
  AuthExamples.

(** ** C31 *)
(** Looking up a range gives the references of its bytes if one recorded piece holds it, and nothing
    otherwise. It does not panic. *)
Theorem C31_lookup_returns_the_recorded_bytes : forall items m a b,
  map_from 0 items = Ok m ->
  exists o, map_get m a b = Ok o /\ forall r, o = Some r <-> in_one_piece items a b r.
Proof. exact C31_get_lemma. Qed.
Print Assumptions C31_lookup_returns_the_recorded_bytes.

(** Indexing by a set succeeds if each of its ranges is held by one piece; the result has these
    ranges, at the same addresses. *)
Theorem C31_indexing_keeps_the_bytes : forall items m idx,
  map_from 0 items = Ok m -> rs_ok idx ->
  exists o, map_index m idx = Ok o /\
    (o <> None <-> forall a b, (a, b) ∈ idx -> exists r, in_one_piece items a b r) /\
    forall m', o = Some m' -> map_keys m' = idx /\
      forall i x, recorded m' i x <-> in_rs i idx /\ recorded items i x.
Proof. exact C31_index_lemma. Qed.
Print Assumptions C31_indexing_keeps_the_bytes.

Example C31_ex :
  let items := [(0, VRef 10 4); (4, VRef 30 2); (9, VRef 50 7)] in
  map_from 0 items = Ok items /\ rs_ok [(1, 3); (10, 16)] /\
  map_get items 10 16 = Ok (Some (VRef 51 6)) /\ map_get items 3 5 = Ok None /\
  map_index items [(1, 3); (10, 16)] = Ok (Some [(1, VRef 11 2); (10, VRef 51 6)]).
Proof. unfold rs_ok. simpl. split_and!; (reflexivity || lia || done). Qed.

(** ** C32 *)
(** The key stream references allocated for a set of positions hold, in order, the key stream bytes of
    these positions; a position beyond the records is an error. *)
Theorem C32_positions_get_their_keystream_bytes : forall aes key iv rs m ranges,
  aes_ok aes -> nonces_ok rs -> rs_ok ranges -> ranges <> [] ->
  if bool_decide (rs_end ranges <= length (all_ct rs))
  then exists m' refs bytes, alloc_keystream aes key iv 0 (rec_params_of rs) m [] ranges = Ok (m', refs) /\
         vm_read_all m' refs = Ok bytes /\
         Forall2 (fun i b => keystream_at aes key iv rs i = Some b) (rs_values ranges) bytes
  else alloc_keystream aes key iv 0 (rec_params_of rs) m [] ranges = Err AOutOfBounds.
Proof. exact C32_lemma. Qed.
Print Assumptions C32_positions_get_their_keystream_bytes.

Example C32_ex :
  aes_ok toy_aes /\ nonces_ok (dir_records xtls Sent) /\ rs_ok [(2, 6); (8, 23)] /\
  length (all_ct (dir_records xtls Sent)) = 25 /\
  is_Ok (alloc_keystream toy_aes (sk_client_key xkeys) (sk_client_iv xkeys) 0
    (rec_params_of (dir_records xtls Sent)) [] [] [(2, 6); (8, 23)]) = true.
Proof.
  split_and!; [apply toy_aes_ok|apply (xsession_ok Sent)|unfold rs_ok; simpl; lia|vm_compute; reflexivity..].
Qed.

(** ** C33 *)
(** Whatever the prover does, the proof that comes with a claimed plaintext is accepted exactly if the
    disclosed bytes and the values bound to the committed positions are the decryption of the
    recorded ciphertext; otherwise it is rejected as invalid. The statement is the same whether
    everything is revealed with the key or parts are proven in zero knowledge. *)
Theorem C33_exactly_the_decryption_is_accepted : forall aes empty_eq key iv,
  aes_ok aes -> forall rs, nonces_ok rs -> forall m reveal commit, rs_ok reveal -> rs_ok commit ->
  forall plain, length plain = length (all_ct rs) -> rs_end reveal <= length plain ->
  forall wit m' refs pf m'',
  verify_plaintext aes empty_eq key iv wit m plain (all_ct rs) rs reveal commit = Ok (m', refs, pf) ->
  m' `prefix_of` m'' ->
  (forall i, in_rs i commit -> exists v, value_at m'' refs i v) /\
  (plain_proof_verify aes key iv m'' pf = Ok tt \/ plain_proof_verify aes key iv m'' pf = Err AInvalidPlaintext) /\
  (plain_proof_verify aes key iv m'' pf = Ok tt <->
    (forall i, in_rs i reveal -> decryption aes key iv rs i = plain !! i) /\
    (forall i v, in_rs i commit -> value_at m'' refs i v -> decryption aes key iv rs i = Some v)).
Proof. exact C33_sound_lemma. Qed.
Print Assumptions C33_exactly_the_decryption_is_accepted.

(** The honest prover with the true plaintext is accepted, whatever the bytes are that it does not
    show. [mf] is the memory of the machine once both parties are done. *)
Theorem C33_true_plaintext_is_accepted : forall aes empty_eq key iv,
  aes_ok aes -> forall rs, nonces_ok rs -> forall m reveal commit, rs_ok reveal -> rs_ok commit ->
  forall plain, length plain = length (all_ct rs) -> rs_end reveal <= length plain ->
  rs_end commit <= length plain ->
  (forall i, i < length plain -> decryption aes key iv rs i = plain !! i) ->
  exists m' refs, prove_plaintext aes empty_eq key iv m plain rs reveal commit = Ok (m', refs) /\
  forall shown mf, length shown = length plain -> (forall i, in_rs i reveal -> shown !! i = plain !! i) ->
    m' `prefix_of` mf ->
    exists pf, verify_plaintext aes empty_eq key iv (fun x => default 0%N (mf !! x)) m shown (all_ct rs) rs reveal commit =
        Ok (m', refs, pf) /\
      plain_proof_verify aes key iv mf pf = Ok tt.
Proof. exact C33_complete_lemma. Qed.
Print Assumptions C33_true_plaintext_is_accepted.

Example C33_ex :
  let rs := dir_records xtls Sent in
  aes_ok toy_aes /\ nonces_ok rs /\ rs_ok [(2, 6); (8, 23)] /\ rs_ok [(0, 3); (7, 9)] /\
  length xsent = length (all_ct rs) /\
  (forall i, i < length xsent -> decryption toy_aes (sk_client_key xkeys) (sk_client_iv xkeys) rs i = xsent !! i) /\
  is_Ok (verify_plaintext toy_aes true (sk_client_key xkeys) (sk_client_iv xkeys) (fun _ => 5%N) []
    (p_sent xp) (all_ct rs) rs [(2, 6); (8, 23)] [(0, 3); (7, 9)]) = true.
Proof.
  split_and!; [apply toy_aes_ok|apply (xsession_ok Sent)|unfold rs_ok; simpl; lia|unfold rs_ok; simpl; lia|vm_compute; reflexivity| |vm_compute; reflexivity].
  intros i Hi. destruct (lookup_lt_is_Some_2 xsent i Hi) as [b Hb]. rewrite Hb. exact (xdata Sent i b Hb).
Qed.

(** ** C34 *)
(** A prover that reveals everything and commits to a position after the end makes the verifier
    panic. *)
Theorem C34_request_panics_the_verifier_refuted : exists (keys : session_keys) tls rq t,
  session_ok tls /\ partial_ok t /\ entries_ok (the_commits rq) /\
  forall empty_eq vm_hash wit cv m,
    verify toy_aes empty_eq vm_hash wit cv keys m tls rq None (Some t) = Panic.
Proof. exact C34_panic_lemma. Qed.
Print Assumptions C34_request_panics_the_verifier_refuted.

(** This is the only case: the verifier panics at most if everything of a direction is revealed and a
    committed position of that direction is after its end. Missing for the full property: that it
    never panics. *)
Theorem C34_other_requests_do_not_panic_partial : forall aes empty_eq vm_hash wit cv keys m tls rq hs t,
  aes_ok aes -> session_ok tls -> entries_ok (the_commits rq) -> (forall p, t = Some p -> partial_ok p) ->
  verify aes empty_eq vm_hash wit cv keys m tls rq hs t = Panic ->
  exists d, reveals_everything rq d (data_length tls d) /\ ~ entries_below d (data_length tls d) (the_commits rq).
Proof. exact C34_only_lemma. Qed.
Print Assumptions C34_other_requests_do_not_panic_partial.

Example C34_ex :
  aes_ok toy_aes /\ session_ok xtls /\ entries_ok (the_commits bad_rq) /\ partial_ok xp /\
  verify toy_aes true xhash (fun _ => 0%N) ex_cv xkeys [] xtls bad_rq None (Some bad_p) = Panic.
Proof. split_and!; [apply toy_aes_ok|apply xsession_ok|apply bad_entries_ok|apply xpartial_ok|vm_compute; reflexivity]. Qed.

(** ** C35 *)
(** What the verifier outputs: a transcript exactly if the request reveals something, of the right
    lengths, with the requested indices and the bytes of application data of the connection there; a
    hash commitment for each requested one, in order, over the application data at the requested
    positions; and the name of the server only after its certificate and the signature over the key
    of this connection were verified. *)
Theorem C35_output_is_the_requested_disclosure : forall aes empty_eq vm_hash wit cv keys m tls rq hs t m' out,
  aes_ok aes -> session_ok tls -> entries_ok (the_commits rq) -> (forall p, t = Some p -> partial_ok p) ->
  verify aes empty_eq vm_hash wit cv keys m tls rq hs t = Ok (m', out) ->
  match pq_reveal rq with
  | None => vo_transcript out = None
  | Some (s, r) => exists p, t = Some p /\ vo_transcript out = Some p /\ discloses aes keys tls s r p
  end /\
  Forall2 (commits_data aes vm_hash keys tls) (the_commits rq) (vo_commitments out) /\
  match hs with
  | None => vo_name out = None
  | Some (name, data) => vo_name out = Some name /\ handshake_ok cv data (tt_time tls) (cb_key (tt_binding tls)) name
  end.
Proof. exact C35_output_lemma. Qed.
Print Assumptions C35_output_is_the_requested_disclosure.

(** The verifier accepts the honest prover and outputs the commitments that the prover computed. *)
Theorem C35_honest_prover_is_accepted : forall aes empty_eq vm_hash, aes_ok aes ->
  forall cv keys m tls (t : transcript) idflag reveal cm blinders hs name p,
  let rq := ProveRequest idflag reveal cm in
  session_ok tls -> entries_ok (the_commits rq) ->
  (forall d, entries_below d (data_length tls d) (the_commits rq)) ->
  (forall e, e ∈ the_commits rq -> vm_hash (snd e) <> None) ->
  (forall n, length (blinders n) = 16) ->
  (forall d, length (t_data t d) = data_length tls d) ->
  (forall d i b, t_data t d !! i = Some b -> data_at aes keys tls d i = Some b) ->
  partial_ok p -> (forall d, length (p_data p d) = data_length tls d) ->
  (forall d i, in_rs i (p_idx p d) -> p_data p d !! i = t_data t d !! i) ->
  match reveal with
  | Some (s, r) => p_sent_idx p = s /\ p_recv_idx p = r
  | None => p = partial_new (data_length tls Sent) (data_length tls Received)
  end ->
  match hs with
  | None => name = None
  | Some (n, data) => name = Some n /\ handshake_ok cv data (tt_time tls) (cb_key (tt_binding tls)) n
  end ->
  exists mf cs ss,
    prove aes empty_eq vm_hash keys m tls t reveal (the_commits rq) blinders = Ok (mf, cs, ss) /\
    verify aes empty_eq vm_hash (fun x => default 0%N (mf !! x)) cv keys m tls rq hs
      (match reveal with Some _ => Some p | None => None end) =
      Ok (mf, VerifierOutput name (match reveal with Some _ => Some p | None => None end) cs).
Proof. exact AuthOutputLemmas.honest_spec. Qed.
Print Assumptions C35_honest_prover_is_accepted.

Example C35_ex :
  aes_ok toy_aes /\ session_ok xtls /\ entries_ok (the_commits xrq) /\
  (forall d, entries_below d (data_length xtls d) (the_commits xrq)) /\
  (forall d i b, t_data xt d !! i = Some b -> data_at toy_aes xkeys xtls d i = Some b) /\
  partial_ok xp /\ (forall d i, in_rs i (p_idx xp d) -> p_data xp d !! i = t_data xt d !! i) /\
  handshake_ok ex_cv ex_hd (tt_time xtls) (cb_key (tt_binding xtls)) ex_name /\
  verify toy_aes true xhash (fun x => default 0%N (fst xproved !! x)) ex_cv xkeys [3;1]%N xtls xrq (Some (ex_name, ex_hd)) (Some xp) =
    Ok (fst xproved, VerifierOutput (Some ex_name) (Some xp) (snd xproved)) /\
  map cm_hash (snd xproved) = map (TypedHash SHA256) [[26; 476; 77]; [18; 219; 77]; [17; 47; 77]]%N.
Proof.
  split_and!; [apply toy_aes_ok|apply xsession_ok|apply xentries_ok|apply xbelow|apply xdata|apply xpartial_ok|apply xshown| |vm_compute; reflexivity|vm_compute; reflexivity].
  apply AttestLemmas.handshake_verify_iff. vm_compute. reflexivity.
Qed.
