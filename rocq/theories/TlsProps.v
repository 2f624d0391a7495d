(** Theorems C21-C24 and C53 about TLS transcripts. The vocabulary is in TlsSpec.v, the model is TlsModel.v.
    [sha256] is any hash function, [parse_body] any parser of the bodies of handshake messages and
    [ec_curve] any function giving the curve of a certificate. *)
From Verif.Lib Require Import Base.
From Verif Require Import TranscriptModel CodecModel CodecSpec AttestModel TlsModel TlsSpec TlsLemmas TlsExtractLemmas TlsExamples.

(** ** C21 *)
(** Whenever a transcript is built from the raw bytes [l] of a direction, these are a sequence of
    records, and the records of the transcript are those after the ChangeCipherSpec: numbered from
    0, the Finished first, nonce, ciphertext and tag making up the payloads on the wire, and the
    application plaintext distributed over the application data records in order. *)
Theorem C21_records_reproduce_the_stream : forall sha256 parse_body ec_curve b t d l,
  bytes_ok l -> b_raw b d = Some l -> b_given b d = None ->
  tls_build sha256 parse_body ec_curve b = Ok t ->
  exists ms, l = concat (map wire ms) /\ Forall record_ok ms /\ records_of ms (b_app b d) (tls_dir t d).
Proof. exact C21_lemma. Qed.
Print Assumptions C21_records_reproduce_the_stream.

Example C21_ex :
  bytes_ok (ex_sent (ex_hs [])) /\ b_raw (ex_builder (ex_hs [])) Sent = Some (ex_sent (ex_hs [])) /\
  b_given (ex_builder (ex_hs [])) Sent = None /\
  tls_build ex_sha ex_parse_body ex_curve (ex_builder (ex_hs [])) = Ok (ex_tt (ex_hs [])) /\
  map r_seq (tt_sent (ex_tt (ex_hs []))) = [0; 1; 2; 3]%N /\
  map r_plain (tt_sent (ex_tt (ex_hs []))) = [None; Some [1;2;3]; Some [4;5;6;7]; None]%N.
Proof.
  split_and!; [exact ex_sent_bytes|done|done|exact ex_builds|vm_compute; reflexivity..].
Qed.

(** ** C22 *)
(** Only well sequenced records make up a transcript. *)
Theorem C22_transcripts_are_well_sequenced : forall sha256 parse_body ec_curve b t d,
  builder_bytes_ok b -> finished_is_20 parse_body -> tls_build sha256 parse_body ec_curve b = Ok t ->
  well_sequenced (tls_dir t d).
Proof. exact C22_sequenced_lemma. Qed.
Print Assumptions C22_transcripts_are_well_sequenced.

(** Version and certificate binding are those handed to the builder, which must be there unless both
    streams are given. *)
Theorem C22_fields_are_present : forall sha256 parse_body ec_curve b t,
  tls_build sha256 parse_body ec_curve b = Ok t ->
  (forall d rs, b_given b d = Some rs -> tls_dir t d = rs) /\
  (forall v, tb_version b = Some v -> tt_version t = v) /\
  (forall c, tb_binding b = Some c -> tt_binding t = c) /\
  (tb_tls_sent b = None \/ tb_tls_recv b = None -> tb_version b <> None /\ tb_binding b <> None) /\
  tb_time b = Some (tt_time t).
Proof. exact C22_fields_lemma. Qed.
Print Assumptions C22_fields_are_present.

(** Conversely such input is accepted. *)
Theorem C22_good_input_is_accepted : forall sha256 parse_body ec_curve b time v c,
  (forall body, parse_body TLSv1_2 20%N body = Some (HsFinished body)) ->
  tb_time b = Some time -> tb_version b = Some v -> tb_binding b = Some c ->
  (tb_tls_sent b = None \/ tb_tls_recv b = None) ->
  (forall d l, b_raw b d = Some l -> exists ms, l = concat (map wire ms) /\ Forall record_ok ms) ->
  (forall d, dir_input_ok b d) -> exists t, tls_build sha256 parse_body ec_curve b = Ok t.
Proof. exact C22_succeeds_lemma. Qed.
Print Assumptions C22_good_input_is_accepted.

(** Building panics at most when it is handed an empty list of records (and it does then, see the
    example), and the accessors of a built transcript do not panic. *)
Theorem C22_build_panics_only_without_records : forall sha256 parse_body ec_curve b,
  tb_records_sent b <> Some [] -> tb_records_recv b <> Some [] -> tls_build sha256 parse_body ec_curve b <> Panic.
Proof. exact build_no_panic. Qed.
Print Assumptions C22_build_panics_only_without_records.
Theorem C22_accessors_never_panic : forall sha256 parse_body ec_curve b t,
  tls_build sha256 parse_body ec_curve b = Ok t ->
  tls_cf_vd t <> Panic /\ tls_sf_vd t <> Panic /\ forall vd, tls_sf_hash sha256 t vd <> Panic.
Proof. exact C22_accessors_lemma. Qed.
Print Assumptions C22_accessors_never_panic.

Example C22_ex : finished_is_20 ex_parse_body /\
  (forall body, ex_parse_body TLSv1_2 20%N body = Some (HsFinished body)) /\
  (forall d l, b_raw ex_builder2 d = Some l -> exists ms, l = concat (map wire ms) /\ Forall record_ok ms) /\
  (forall d, dir_input_ok ex_builder2 d) /\
  (exists t, tls_build ex_sha ex_parse_body ex_curve ex_builder2 = Ok t /\
     map r_seq (tt_recv t) = [0;1;2;4]%N /\ tls_sf_vd t = Ok (Some (replicate 12 7%N))).
Proof.
  split_and!; [exact ex_finished_is_20|done| | |].
  - intros [] l [= <-]. exists (ex_stream (client_messages (ex_hs [])) [3;4]). split; [done|].
    apply ex_stream_ok. repeat constructor; lia.
  - intros [].
    + exists (ex_sent (ex_hs [])), (ex_stream (client_messages (ex_hs [])) [3;4]). split_and!; [done|done|apply ex_stream_ok; repeat constructor; lia|].
      exists (cut 100 (msgs_wire (client_messages (ex_hs [])))), ccs_rec, (enc_rec Handshake 16), (map (enc_rec ApplicationData) [3;4] ++ [enc_rec Alert 2]).
      split_and!; try done.
      * eapply Forall_impl; [apply cut_ok|]. intros m [_ H] Hc. congruence.
      * repeat constructor; vm_compute; lia.
      * vm_compute. lia.
    + split; [exact ex_given_sequenced|]. intros fin p vd tr [= <-] [= <-] H.
      apply (f_equal length) in H. rewrite app_length in H. unfold hs_wire in H. rewrite !app_length in H. vm_compute length in H at 1. simpl in H. lia.
  - eexists. split; [vm_compute; reflexivity|]. split; vm_compute; reflexivity.
Qed.
Example C22_empty_panics :
  tls_build ex_sha ex_parse_body ex_curve (TlsBuilder (Some 1%N) None None None None None (Some []) None None None None) = Panic.
Proof. reflexivity. Qed.

(** ** C23 *)
(** For the streams of a full handshake, fragmented in any way, the hash for the Finished message of
    the client covers the messages before it, and that for the Finished message of the server all
    messages before it, in the order in which they were exchanged. *)
Theorem C23_finished_hashes : forall sha256 parse_body ec_curve b t h sent recv,
  full_handshake_ok h -> tb_tls_sent b = Some sent -> tb_tls_recv b = Some recv ->
  carries sent (client_messages h) -> carries recv (server_messages h) ->
  tls_build sha256 parse_body ec_curve b = Ok t ->
  tt_cf_hash t = Some (sha256 (msgs_wire (until_client_finished h))) /\
  (forall vd, length vd = 12 ->
     tls_sf_hash sha256 t vd = Ok (Some (sha256 (msgs_wire (until_server_finished h vd))))).
Proof. exact C23_finished_lemma. Qed.
Print Assumptions C23_finished_hashes.

(** The session hash is that of RFC 7627, all messages up to and including ClientKeyExchange, only
    if the server sent no NewSessionTicket. *)
Theorem C23_session_hash_partial : forall sha256 parse_body ec_curve b t h sent recv,
  full_handshake_ok h -> tb_tls_sent b = Some sent -> tb_tls_recv b = Some recv ->
  carries sent (client_messages h) -> carries recv (server_messages h) -> fh_ticket h = [] ->
  tls_build sha256 parse_body ec_curve b = Ok t ->
  tt_session_hash t = Some (sha256 (msgs_wire (until_key_exchange h))).
Proof. exact C23_session_lemma. Qed.
Print Assumptions C23_session_hash_partial.
(** With one, another string is hashed. *)
Theorem C23_session_hash_covers_ticket_refuted : forall sha256 parse_body ec_curve b t h sent recv,
  full_handshake_ok h -> tb_tls_sent b = Some sent -> tb_tls_recv b = Some recv ->
  carries sent (client_messages h) -> carries recv (server_messages h) -> fh_ticket h <> [] ->
  tls_build sha256 parse_body ec_curve b = Ok t ->
  exists input, tt_session_hash t = Some (sha256 input) /\ input <> msgs_wire (until_key_exchange h).
Proof. exact C23_ticket_lemma. Qed.
Print Assumptions C23_session_hash_covers_ticket_refuted.

(** The hypotheses are met both with and without a ticket. *)
Example C23_ex : forall ticket, ticket = [] \/ ticket = ex_ticket ->
  let h := ex_hs ticket in
  full_handshake_ok h /\ carries (ex_sent h) (client_messages h) /\ carries (ex_recv h) (server_messages h) /\
  tls_build ex_sha ex_parse_body ex_curve (ex_builder h) = Ok (ex_tt h).
Proof.
  intros ticket Ht h. split_and!.
  - by apply ex_hs_ok.
  - apply ex_carries; [|repeat constructor; lia]. destruct Ht as [->| ->]; vm_compute; lia.
  - apply ex_carries; [|repeat constructor; lia]. destruct Ht as [->| ->]; vm_compute; lia.
  - destruct Ht as [->| ->]; [exact ex_builds|exact ex_builds_ticket].
Qed.

(** ** C24 *)
(** The application data transcript exists iff all plaintexts of application data records are known,
    and consists of them in order. *)
Theorem C24_transcript_is_the_application_data : forall t s r,
  to_transcript t = Ok (Transcript s r) <->
  exists ps qs, app_plaintexts (tt_sent t) ps /\ app_plaintexts (tt_recv t) qs /\ s = concat ps /\ r = concat qs.
Proof. exact C24_ok_lemma. Qed.
Print Assumptions C24_transcript_is_the_application_data.
(** Otherwise the error names the first application data record that is not known, sent records
    coming before received ones. *)
Theorem C24_error_names_the_first_unknown_record : forall t e,
  to_transcript t = Err e <->
  exists d r, first_unknown (tls_dir t d) r /\ e = TIncomplete d (r_seq r) /\
    (d = Received -> exists ps, app_plaintexts (tt_sent t) ps).
Proof. exact C24_err_lemma. Qed.
Print Assumptions C24_error_names_the_first_unknown_record.
Theorem C24_never_panics : forall t, to_transcript t <> Panic.
Proof. exact C24_no_panic_lemma. Qed.
Print Assumptions C24_never_panics.

Example C24_ex : exists s r,
  to_transcript (ex_tt (ex_hs [])) = Ok (Transcript s r) /\ s = [1;2;3;4;5;6;7]%N /\ r = [8;9]%N.
Proof. eexists _, _. split; [vm_compute; reflexivity|done]. Qed.
Example C24_ex_unknown : first_unknown [ex_fin; ex_app 1 (Some [5%N]); ex_alert 2; ex_app 3 None; ex_app 4 None] (ex_app 3 None).
Proof. exists [ex_app 1 (Some [5%N])], [ex_app 4 None], [[5%N]]. done. Qed.

(** ** C53 *)
(** Whatever the builder is not handed it takes from the handshake: the version and the randoms are
    those of the first hello messages, the certificates those of the first Certificate message of the
    server, and key, signature and algorithm those of its first ServerKeyExchange message, which is
    about the group secp256r1 (number 23). *)
Theorem C53_handshake_data_is_that_of_the_messages : forall sha256 parse_body ec_curve b t cms sms sent recv,
  parses_to_bytes parse_body ->
  tb_tls_sent b = Some sent -> tb_tls_recv b = Some recv -> bytes_ok recv ->
  carries sent cms -> carries recv sms ->
  Forall (fun m => (N.of_nat (length (snd m)) < 2 ^ 24)%N) (cms ++ sms) ->
  tls_build sha256 parse_body ec_curve b = Ok t ->
  exists ps qs version certs alg sig client_random server_random key,
    messages_parse parse_body cms ps /\ messages_parse parse_body sms qs /\
    handshake_says ec_curve ps qs version certs alg sig client_random server_random key /\
    tt_version t = default version (tb_version b) /\
    tt_certs t = Some (default certs (tb_certs b)) /\
    tt_signature t = Some (default (ServerSignature alg sig) (tb_signature b)) /\
    tt_binding t = default (CertBinding client_random server_random (EphemKey key)) (tb_binding b).
Proof. exact C53_extract_lemma. Qed.
Print Assumptions C53_handshake_data_is_that_of_the_messages.
(** The streams of every full handshake whose messages parse and say these things are accepted. *)
Theorem C53_full_handshakes_are_accepted :
  forall sha256 parse_body ec_curve b h sent recv time ps qs version certs alg sig client_random server_random key,
  (forall body, parse_body TLSv1_2 20%N body = Some (HsFinished body)) -> parses_to_bytes parse_body ->
  tb_time b = Some time -> tb_tls_sent b = Some sent -> tb_tls_recv b = Some recv -> bytes_ok recv ->
  full_handshake_ok h -> carries sent (client_messages h) -> carries recv (server_messages h) ->
  (forall d, dir_input_ok b d) ->
  messages_parse parse_body (client_messages h) ps -> messages_parse parse_body (server_messages h) qs ->
  handshake_says ec_curve ps qs version certs alg sig client_random server_random key ->
  exists t, tls_build sha256 parse_body ec_curve b = Ok t.
Proof. exact C53_build_lemma. Qed.
Print Assumptions C53_full_handshakes_are_accepted.

Example C53_ex :
  let h := ex_hs ex_ticket in
  parses_to_bytes ex_parse_body /\ bytes_ok (ex_recv h) /\ (forall d, dir_input_ok (ex_builder h) d) /\
  exists ps qs,
  messages_parse ex_parse_body (client_messages h) ps /\ messages_parse ex_parse_body (server_messages h) qs /\
  handshake_says ex_curve ps qs V1_2 [[6%N]] 5%N [9%N] [1;2;3]%N [4;5]%N [7;8]%N /\
  tt_binding (ex_tt h) = CertBinding [1;2;3]%N [4;5]%N (EphemKey [7;8]%N) /\
  tt_signature (ex_tt h) = Some (ServerSignature 5%N [9%N]).
Proof.
  intros h. split_and!.
  - intros v typ body b Hb. unfold ex_parse_body. do 3 (destruct (_ =? _)%N; [done|]).
    destruct (_ =? _)%N; [by intros [= <-]|]. by destruct (_ =? _)%N.
  - unfold bytes_ok, byte_ok. apply (bool_decide_unpack _). vm_compute. exact I.
  - intros d. apply ex_builder_input.
  - exists [HsClientHello [1;2;3]%N; HsOther], [HsServerHello TLSv1_2 [4;5]%N; HsCertificate [[6%N]]; HsServerKeyExchange ex_ske; HsOther; HsOther].
    split_and!; [repeat constructor|repeat constructor| |vm_compute; reflexivity|vm_compute; reflexivity].
    split.
    + eexists [], _. split; [done|]. by intros a' H%elem_of_nil.
    + exists TLSv1_2. split; [|by left]. eexists [], _. split; [done|]. by intros a' H%elem_of_nil.
    + eexists [_], _. split; [done|]. intros a' [H|H%elem_of_nil]%elem_of_cons; done.
    + exists 0x0401%N. split; [|split; [|constructor]].
      * eexists [_; _], _. split; [done|]. intros a' [H|[H|H%elem_of_nil]%elem_of_cons]%elem_of_cons; done.
      * split; simpl; lia.
Qed.
