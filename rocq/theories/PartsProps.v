(** Theorems C42 and C43 about splitting records and about closing connections. The vocabulary is in PartsSpec.v,
    the model is PartsModel.v. *)
From Verif.Lib Require Import Base.
From Verif Require Import TranscriptModel ProofModel CodecModel CodecSpec AttestModel TlsModel TlsSpec TlsExamples AuthModel AuthSpec
  TagModel RecordModel RecordSpec RecordProps PartsModel PartsSpec PartsLemmas.

(** ** C42 *)
(** The result is the one way of cutting the payload into 8 bytes, some bytes, and 16 bytes. *)
Theorem C42_split_is_exact : forall msg n c t, opaque_into_parts msg = Ok (n, c, t) <-> is_split msg n c t.
Proof. exact parts_ok. Qed.
Print Assumptions C42_split_is_exact.
Theorem C42_fails_exactly_if_short : forall msg, opaque_into_parts msg = Err PTooShort <-> length msg < 24.
Proof. exact parts_err. Qed.
Print Assumptions C42_fails_exactly_if_short.
(** There are no other failures, and no panics. *)
Theorem C42_fails_or_splits : forall msg,
  opaque_into_parts msg = Err PTooShort \/ exists n c t, opaque_into_parts msg = Ok (n, c, t).
Proof. exact parts_total. Qed.
Print Assumptions C42_fails_or_splits.
(** Every record that the leader's record layer hands out, whatever calls were made, can be joined (its tag is there),
    and splitting the joined payload gives its parts back. *)
Theorem C42_outgoing_records_split : forall aes ghash_fn checked enc_key enc_iv dec_key dec_iv blind pad_rng,
  aes_ok aes -> (forall k d, length (ghash_fn k d) = 16) -> forall cs s' os r,
  rl_run aes ghash_fn checked enc_key enc_iv dec_key dec_iv blind pad_rng cs (rl_new Leader) = (s', os) ->
  Forall call_ok cs -> r ∈ handed_enc os ->
  exists payload tag, outgoing_payload r = Ok payload /\ er_tag r = Some tag /\
    opaque_into_parts payload = Ok (er_nonce r, er_ct r, tag).
Proof. exact C42_outgoing_lemma. Qed.
Print Assumptions C42_outgoing_records_split.

Example C42_ex :
  opaque_into_parts (replicate 8 1 ++ [5; 6] ++ replicate 16 3)%N = Ok (replicate 8 1, [5; 6], replicate 16 3)%N /\
  is_split (replicate 8 1 ++ replicate 16 3)%N (replicate 8 1)%N [] (replicate 16 3)%N /\
  aes_ok ex_aes /\ (forall k d, length (ex_ghash k d) = 16) /\
  Forall call_ok (ex_pre (Some [0; 1; 2]%N) ++ [CCommit]) /\
  map er_ct (handed_enc (snd ex_leader)) <> [] /\
  map (fun r => match outgoing_payload r with Ok p => length p | _ => 0 end) (handed_enc (snd ex_leader)) = [26; 27].
Proof.
  split_and!; [done|done|exact ex_aes_ok|intros; apply replicate_length|repeat constructor|by vm_compute|by vm_compute].
Qed.

(** ** C43 *)
(** The records of a direction are accepted exactly if there are none, or the last one is application data, or it is an
    alert whose contents are known and start with a close_notify message. What is missing for the property:
    bytes after the message do not make the check fail, and see the theorem after the next. *)
Theorem C43_check_accepts_partial : forall rs, check_close_notify rs = Ok tt <-> ends_acceptably rs.
Proof. exact check_close_iff. Qed.
Print Assumptions C43_check_accepts_partial.
Theorem C43_proper_endings_are_accepted : forall rs, ends_properly rs -> ends_acceptably rs.
Proof. exact close_proper. Qed.
Print Assumptions C43_proper_endings_are_accepted.
(** The whole check: both Finished messages carry the verify data computed by the parties, and both directions end acceptably. *)
Theorem C43_transcript_check_accepts_exactly : forall t cf sf, verify_transcript t cf sf = Ok tt <->
  finished_with (tt_sent t) cf /\ finished_with (tt_recv t) sf /\ ends_acceptably (tt_sent t) /\ ends_acceptably (tt_recv t).
Proof. exact verify_iff. Qed.
Print Assumptions C43_transcript_check_accepts_exactly.
(** It does not panic if the contents of the Finished messages are known. *)
Theorem C43_transcript_check_does_not_panic : forall t cf sf,
  finished_known (tt_sent t) -> finished_known (tt_recv t) -> verify_transcript t cf sf <> Panic.
Proof. exact verify_panic. Qed.
Print Assumptions C43_transcript_check_does_not_panic.
(** The records of a transcript include the Finished message, so that a direction in which nothing follows the handshake
    is always refused, against the property: the list of records is never empty. *)
Theorem C43_nothing_after_the_handshake_refuted : forall sha256 parse_body ec_curve b t d cf sf,
  builder_bytes_ok b -> finished_is_20 parse_body -> tls_build sha256 parse_body ec_curve b = Ok t ->
  length (tls_dir t d) = 1 -> verify_transcript t cf sf <> Ok tt.
Proof. exact C43_handshake_only_lemma. Qed.
Print Assumptions C43_nothing_after_the_handshake_refuted.

Definition ex_finished (vd : N) : tls_record :=
  TlsRecord 0 Handshake (Some ([20; 0; 0; 12] ++ replicate 12 vd)%N) (replicate 8 0%N) (replicate 16 0%N) None.
Definition ex_alert_record (p : option (list N)) : tls_record := TlsRecord 2 Alert p (replicate 8 0%N) [1; 1]%N None.
Definition ex_closing (sent recv : list tls_record) : tls_transcript :=
  TlsTranscript 0 V1_2 None None (CertBinding [] [] (EphemKey [])) sent recv None None None.
Definition ex_app_record : tls_record := TlsRecord 1 ApplicationData None (replicate 8 0%N) [1; 1]%N None.
(** A direction with only the Finished message. *)
Definition ex_quiet : tls_builder :=
  TlsBuilder (Some 10%N) None (Some (concat (map wire (cut 100 (msgs_wire (client_messages (ex_hs []))) ++ [ccs_rec; enc_rec Handshake 16]))))
    (Some (ex_recv (ex_hs []))) (Some [1;2;3;4;5;6;7]%N) (Some [8;9]%N) None None None None None.
Example C43_ex :
  verify_transcript (ex_closing [ex_finished 1; ex_app_record; ex_alert_record (Some [1; 0]%N)] [ex_finished 2; ex_app_record])
    (replicate 12 1%N) (replicate 12 2%N) = Ok tt /\
  verify_transcript (ex_closing [ex_finished 1; ex_app_record; ex_alert_record (Some [2; 40]%N)] [ex_finished 2; ex_app_record])
    (replicate 12 1%N) (replicate 12 2%N) = Err PNotClose /\
  verify_transcript (ex_closing [ex_finished 1; ex_app_record; ex_alert_record None] [ex_finished 2; ex_app_record])
    (replicate 12 1%N) (replicate 12 2%N) = Err PHidden /\
  verify_transcript (ex_closing [ex_finished 1; ex_app_record; ex_alert_record (Some [1; 0; 9]%N)] [ex_finished 2; ex_app_record])
    (replicate 12 1%N) (replicate 12 2%N) = Ok tt /\
  finished_known [ex_finished 1; ex_app_record] /\
  exists t, tls_build ex_sha ex_parse_body ex_curve ex_quiet = Ok t /\ length (tls_dir t Sent) = 1 /\ builder_bytes_ok ex_quiet /\
    finished_is_20 ex_parse_body.
Proof.
  split_and!; try (by vm_compute).
  - exists (replicate 12 1%N), (ex_finished 1), [ex_app_record], [20; 0; 0; 12]%N. done.
  - eexists. split; [vm_compute; reflexivity|]. split; [done|]. split; [|exact ex_finished_is_20].
    intros []; (split; [intros l [= <-]|done]); unfold bytes_ok, byte_ok; apply (bool_decide_unpack _); vm_compute; exact I.
Qed.
