(** Theorems about handshake messages (C60). *)
From Verif.Lib Require Import Base.
From Verif Require Import CodecModel CodecSpec AttestModel TlsModel TlsSpec TlsExamples HandshakeModel HandshakeSpec HandshakeExamples
  HandshakeLemmas HandshakeWriteLemmas HandshakeViewLemmas HandshakePropLemmas.

(** Parsing any bytes ends, with a message or a refusal. *)
Theorem C60_parsing_ends_without_panic : forall dns_ok tls13 l,
  bytes_ok l -> hs_parse dns_ok tls13 l <> Panic.
Proof. exact C60_total_lemma. Qed.
Print Assumptions C60_parsing_ends_without_panic.

(** A parsed message, written again, gives the bytes that were read: nothing of a message is dropped,
    and what is hashed after parsing is what was received. *)
Theorem C60_parsed_messages_are_written_as_they_were_read : forall dns_ok tls13 l h rest,
  bytes_ok l -> hs_parse dns_ok tls13 l = Ok (h, rest) -> l = hs_encode h ++ rest.
Proof. exact C60_canonical_lemma. Qed.
Print Assumptions C60_parsed_messages_are_written_as_they_were_read.

(** A message whose fields fit is read back when it was written, whatever follows. *)
Theorem C60_written_messages_are_read_back : forall dns_ok tls13 h rest,
  handshake_ok dns_ok tls13 h -> hs_parse dns_ok tls13 (hs_encode h ++ rest) = Ok (h, rest).
Proof. exact w_parse. Qed.
Print Assumptions C60_written_messages_are_read_back.

(** The transcript takes from a message what the message says, and a message says one thing only. *)
Theorem C60_transcripts_read_what_messages_say : forall dns_ok typ body p,
  bytes_ok body -> real_parse_body dns_ok TLSv1_2 typ body = Some p -> body_says typ body p.
Proof. exact says_lemma. Qed.
Print Assumptions C60_transcripts_read_what_messages_say.
Theorem C60_messages_say_one_thing : forall typ body p q, body_says typ body p -> body_says typ body q -> p = q.
Proof. exact says_unique_lemma. Qed.
Print Assumptions C60_messages_say_one_thing.

(** C22 and C53 with this parser: nothing is assumed of it any more. *)
Theorem C60_transcripts_are_well_sequenced : forall sha256 dns_ok ec_curve b t d,
  builder_bytes_ok b -> tls_build sha256 (real_parse_body dns_ok) ec_curve b = Ok t -> well_sequenced (tls_dir t d).
Proof. exact real_sequenced_lemma. Qed.
Print Assumptions C60_transcripts_are_well_sequenced.

Theorem C60_handshake_data_is_that_of_the_messages : forall sha256 dns_ok ec_curve b t cms sms sent recv,
  tb_tls_sent b = Some sent -> tb_tls_recv b = Some recv -> bytes_ok sent -> bytes_ok recv ->
  carries sent cms -> carries recv sms ->
  Forall (fun m => (N.of_nat (length (snd m)) < 2 ^ 24)%N) (cms ++ sms) ->
  tls_build sha256 (real_parse_body dns_ok) ec_curve b = Ok t ->
  exists ps qs version certs alg sig client_random server_random key,
    Forall2 (fun m p => body_says (fst m) (snd m) p) cms ps /\ Forall2 (fun m p => body_says (fst m) (snd m) p) sms qs /\
    handshake_says ec_curve ps qs version certs alg sig client_random server_random key /\
    tt_version t = default version (tb_version b) /\
    tt_certs t = Some (default certs (tb_certs b)) /\
    tt_signature t = Some (default (ServerSignature alg sig) (tb_signature b)) /\
    tt_binding t = default (CertBinding client_random server_random (EphemKey key)) (tb_binding b).
Proof. exact real_builds_lemma. Qed.
Print Assumptions C60_handshake_data_is_that_of_the_messages.

(** A full handshake of messages that were written is accepted. *)
Theorem C60_written_handshakes_are_accepted :
  forall sha256 dns_ok ec_curve b h cs ss sent recv time ps qs version certs alg sig client_random server_random key,
  tb_time b = Some time -> tb_tls_sent b = Some sent -> tb_tls_recv b = Some recv -> bytes_ok sent -> bytes_ok recv ->
  full_handshake_ok h -> carries sent (client_messages h) -> carries recv (server_messages h) ->
  (forall d, dir_input_ok b d) ->
  client_messages h = map (fun x => (hs_type x, hs_body x)) cs -> server_messages h = map (fun x => (hs_type x, hs_body x)) ss ->
  Forall (handshake_ok dns_ok false) (cs ++ ss) ->
  Forall2 (fun m p => body_says (fst m) (snd m) p) (client_messages h) ps ->
  Forall2 (fun m p => body_says (fst m) (snd m) p) (server_messages h) qs ->
  handshake_says ec_curve ps qs version certs alg sig client_random server_random key ->
  exists t, tls_build sha256 (real_parse_body dns_ok) ec_curve b = Ok t.
Proof. exact real_accepts_lemma. Qed.
Print Assumptions C60_written_handshakes_are_accepted.

(** HandshakeExamples.v: a handshake with extensions, carried in records of five bytes. *)
Example C60_ex_ok : Forall (handshake_ok ex_dns false) (ex_client ++ ex_server).
Proof.
  repeat (apply Forall_cons; split); try apply Forall_nil_2; split; fields.
Qed.
Example C60_ex_bytes : bytes_ok (ex_sent ex_full) /\ bytes_ok (ex_recv ex_full) /\ full_handshake_ok ex_full /\
  client_messages ex_full = map (fun x => (hs_type x, hs_body x)) ex_client /\
  server_messages ex_full = map (fun x => (hs_type x, hs_body x)) ex_server.
Proof.
  split_and!; [unfold bytes_ok, byte_ok; apply (bool_decide_unpack _); vm_compute; exact I
    |unfold bytes_ok, byte_ok; apply (bool_decide_unpack _); vm_compute; exact I| |reflexivity|reflexivity].
  split.
  - cbn. repeat constructor.
  - by eexists _, _.
  - repeat constructor; vm_compute; repeat (by left || right).
  - constructor.
  - constructor.
  - repeat constructor.
Qed.
Example C60_ex : exists t,
  tls_build ex_sha (real_parse_body ex_dns) ex_curve (ex_builder ex_full) = Ok t /\
  tt_version t = V1_2 /\ tt_certs t = Some [[6%N]; [8;8]%N] /\
  tt_binding t = CertBinding (replicate 32 1%N) (replicate 32 3%N) (EphemKey [7;8]%N).
Proof. eexists. split; [vm_compute; reflexivity|]. split_and!; reflexivity. Qed.
(** The remaining hypotheses of the acceptance theorem. *)
Example C60_ex_carried : carries (ex_sent ex_full) (client_messages ex_full) /\ carries (ex_recv ex_full) (server_messages ex_full) /\
  forall d, dir_input_ok (ex_builder ex_full) d.
Proof.
  split_and!.
  - apply ex_carries; [vm_compute; lia|repeat constructor; lia].
  - apply ex_carries; [vm_compute; lia|repeat constructor; lia].
  - intros d. by apply ex_builder_input.
Qed.
Example C60_ex_says : exists ps qs,
  Forall2 (fun m p => body_says (fst m) (snd m) p) (client_messages ex_full) ps /\
  Forall2 (fun m p => body_says (fst m) (snd m) p) (server_messages ex_full) qs /\
  handshake_says ex_curve ps qs V1_2 [[6%N]; [8;8]%N] 5 [9%N] (replicate 32 1%N) (replicate 32 3%N) [7;8]%N.
Proof.
  destruct C60_ex_bytes as (B1 & B2 & _ & _ & _), C60_ex_carried as (C1 & C2 & _).
  exists [HsClientHello (replicate 32 1%N); HsOther],
    [HsServerHello TLSv1_2 (replicate 32 3%N); HsCertificate [[6%N]; [8;8]%N]; HsServerKeyExchange ex_ske; HsOther; HsOther].
  split_and!.
  - apply (parse_says ex_dns); [by apply (carries_bytes (ex_sent ex_full))|]. repeat constructor.
  - apply (parse_says ex_dns); [by apply (carries_bytes (ex_recv ex_full))|]. repeat constructor.
  - split.
    + eexists [], _. split; [done|]. by intros a' H%elem_of_nil.
    + exists TLSv1_2. split; [|by left]. eexists [], _. split; [done|]. by intros a' H%elem_of_nil.
    + eexists [_], _. split; [done|]. intros a' [H|H%elem_of_nil]%elem_of_cons; done.
    + exists 0x0401%N. split; [|split; [|constructor]].
      * eexists [_; _], _. split; [done|]. intros a' [H|[H|H%elem_of_nil]%elem_of_cons]%elem_of_cons; done.
      * split; simpl; lia.
Qed.
