(** Theorems C25-C30 about the wire codec. The vocabulary is in CodecSpec.v; the model is
    CodecModel.v. *)
From Verif.Lib Require Import Base.
From Verif Require Import CodecModel CodecSpec CodecLemmas FramingLemmas.

(** ** C25 *)
(** Integers that fit are encoded in big-endian order and decode to themselves, whatever
    follows; every truncation is reported. *)
Theorem C25_integer_round_trip : forall n v, (v < 256 ^ N.of_nat n)%N ->
  is_be n v (enc_uint n v) /\ round_trips (read_uint n) (enc_uint n) v.
Proof. exact C25_uint_lemma. Qed.
Print Assumptions C25_integer_round_trip.

(** Byte strings shorter than the prefix can count likewise. *)
Theorem C25_payload_round_trip : forall n p, (N.of_nat (length p) < 256 ^ N.of_nat n)%N ->
  (exists prefix, enc_payload n p = prefix ++ p /\ is_be n (N.of_nat (length p)) prefix) /\
  round_trips (read_payload n) (enc_payload n) p.
Proof. exact C25_payload_lemma. Qed.
Print Assumptions C25_payload_round_trip.

(** Longer ones never decode to themselves. *)
Theorem C25_payload_too_long : forall n p rest rest', bytes_ok p ->
  (256 ^ N.of_nat n <= N.of_nat (length p))%N -> read_payload n (enc_payload n p ++ rest) <> Some (p, rest').
Proof. exact payload_too_long. Qed.
Print Assumptions C25_payload_too_long.

(** Vectors of items that round trip one by one (and are not empty on the wire). *)
Theorem C25_vector_round_trip : forall A n limit (rd : reader A) enc xs rest,
  Forall (fun x => round_trips rd enc x /\ enc x <> []) xs ->
  (N.of_nat (length (concat (map enc xs))) < 256 ^ N.of_nat n)%N ->
  match limit with Some m => length (concat (map enc xs)) <= m | None => True end ->
  read_vec n limit rd (enc_vec n enc xs ++ rest) = Some (Items xs, rest).
Proof. exact @vec_round_trip. Qed.
Print Assumptions C25_vector_round_trip.

(** A decoder consumes a prefix of its buffer and does not look further. *)
Theorem C25_readers_consume_a_prefix : forall n, reads_prefix (read_uint n) /\ reads_prefix (read_payload n).
Proof. exact (fun n => conj (uint_reads_prefix n) (payload_reads_prefix n)). Qed.
Print Assumptions C25_readers_consume_a_prefix.

(** What was read is what the prefix announced. *)
Theorem C25_decoding_is_canonical : forall n l, bytes_ok l ->
  (forall v rest, read_uint n l = Some (v, rest) -> exists used, l = used ++ rest /\ is_be n v used) /\
  (forall p rest, read_payload n l = Some (p, rest) ->
     exists prefix, l = prefix ++ p ++ rest /\ is_be n (N.of_nat (length p)) prefix).
Proof. exact (fun n l H => conj (fun v r => uint_canonical n l v r H) (fun p r => payload_canonical n l p r H)). Qed.
Print Assumptions C25_decoding_is_canonical.

(** A decoded vector is exactly the items of its pieces, and its limit bounds what it took. *)
Theorem C25_vector_decoding_is_exact : forall A n limit (rd : reader A) l xs rest, bytes_ok l -> reads_prefix rd ->
  read_vec n limit rd l = Some (Items xs, rest) ->
  exists prefix pieces, l = prefix ++ concat pieces ++ rest /\
    is_be n (N.of_nat (length (concat pieces))) prefix /\
    Forall2 (fun p x => forall more, rd (p ++ more) = Some (x, more)) pieces xs.
Proof. exact @vec_exact. Qed.
Print Assumptions C25_vector_decoding_is_exact.
Theorem C25_vector_limit : forall A n m (rd : reader A) l r rest,
  read_vec n (Some m) rd l = Some (r, rest) -> length l <= n + m + length rest.
Proof. exact @vec_limit. Qed.
Print Assumptions C25_vector_limit.

(** The loop over items ends when every item takes at least a byte. *)
Theorem C25_vector_decoding_ends : forall A n limit (rd : reader A) l r rest,
  (forall l a rest, rd l = Some (a, rest) -> l <> [] -> length rest < length l) ->
  read_vec n limit rd l = Some (r, rest) -> r <> OutOfFuel.
Proof. exact @vec_no_fuel. Qed.
Print Assumptions C25_vector_decoding_ends.

Example C25_ex_uint : (0x123456 < 256 ^ N.of_nat 3)%N /\ enc_uint 3 0x123456 = [0x12; 0x34; 0x56]%N.
Proof. done. Qed.
Example C25_ex_payload : (N.of_nat (length [7;8;9]%N) < 256 ^ N.of_nat 2)%N /\
  enc_payload 2 [7;8;9]%N = [0;3;7;8;9]%N /\ read_payload 2 [0;3;7;8;9;1;1]%N = Some ([7;8;9]%N, [1;1]%N).
Proof. done. Qed.
Example C25_ex_too_long : (256 ^ N.of_nat 1 <= N.of_nat (length (replicate 257 5%N)))%N /\
  read_payload 1 (enc_payload 1 (replicate 257 5%N)) = Some ([5%N], replicate 256 5%N).
Proof. vm_compute. done. Qed.
Example C25_ex_vec : Forall (fun x => round_trips (read_uint 2) (enc_uint 2) x /\ enc_uint 2 x <> []) [1;0x0203]%N /\
  read_vec 1 (Some 10) (read_uint 2) [4;0;1;2;3;99]%N = Some (Items [1;0x0203]%N, [99]%N) /\
  read_vec 1 None (read_uint 2) [3;0;1;2;3;99]%N = Some (ItemErr, [3;99]%N) /\
  read_vec 1 (Some 3) (read_uint 2) [4;0;1;2;3;99]%N = None.
Proof. split_and!; [|done..]. by repeat constructor; try apply uint_round_trip. Qed.

(** ** C26 *)
Theorem C26_record_round_trip : forall m rest, record_ok m -> message_read (message_encode m ++ rest) = Ok (m, rest).
Proof. exact C26_round_trip_lemma. Qed.
Print Assumptions C26_record_round_trip.

(** The records accepted are exactly the well-formed ones, from exactly their wire bytes. *)
Theorem C26_accepted_iff_well_formed : forall l m rest, bytes_ok l ->
  message_read l = Ok (m, rest) <-> record_ok m /\ l = wire m ++ rest.
Proof. exact C26_accept_iff_lemma. Qed.
Print Assumptions C26_accepted_iff_well_formed.

Theorem C26_proper_prefix_asks_for_more : forall m k, record_ok m -> k < length (wire m) ->
  message_read (take k (wire m)) = Err TooShortForHeader \/ message_read (take k (wire m)) = Err TooShortForLength.
Proof. exact C26_prefix_lemma. Qed.
Print Assumptions C26_proper_prefix_asks_for_more.

(** A read that is not a record either may still become one, or never will. *)
Theorem C26_error_meaning : forall l, bytes_ok l ->
  match message_read l with
  | Ok _ => True
  | Panic => False
  | Err TooShortForHeader => length l < 5
  | Err TooShortForLength => 5 <= length l /\ incomplete l
  | Err _ => 5 <= length l /\ hopeless l
  end.
Proof. exact message_read_err. Qed.
Print Assumptions C26_error_meaning.

Theorem C26_empty_records_rejected : forall l t, hdr_type l = Some t -> t <> 23%N -> hdr_len l = Some 0%N ->
  message_read l = Err IllegalLength.
Proof. exact C26_empty_lemma. Qed.
Print Assumptions C26_empty_records_rejected.
Theorem C26_oversized_records_rejected : forall l n, hdr_len l = Some n -> (18432 <= n)%N ->
  message_read l = Err IllegalLength.
Proof. exact C26_oversize_lemma. Qed.
Print Assumptions C26_oversized_records_rejected.
Theorem C26_unknown_types_rejected : forall l t n, hdr_type l = Some t -> (t < 20 \/ 24 < t)%N -> hdr_len l = Some n ->
  (0 < n < 18432)%N -> message_read l = Err IllegalContentType.
Proof. exact C26_type_lemma. Qed.
Print Assumptions C26_unknown_types_rejected.

Definition ex_m1 : message := Message Handshake TLSv1_2 [1;0;0;2;9;9]%N.
Definition ex_m2 : message := Message ApplicationData TLSv1_2 [].
Definition ex_m3 : message := Message Alert (UnknownVersion 0x0305) [2;40]%N.
Lemma ex_ms_ok : Forall record_ok [ex_m1; ex_m2; ex_m3].
Proof.
  assert (0x0305%N ∉ [0x0200; 0x0300; 0x0301; 0x0302; 0x0303; 0x0304; 0xFEFF; 0xFEFD]%N) as Hn.
  { intros H. rewrite !elem_of_cons, elem_of_nil in H. lia. }
  apply Forall_cons; split; [|apply Forall_cons; split; [|apply Forall_cons; split; [|done]]].
  - split; [done|done|by left|done|by right].
  - split; [done|done|by left|done|by left].
  - split; [done|done|by right|done|by right].
Qed.
Example C26_ex : record_ok ex_m1 /\ record_ok ex_m3 /\
  message_read (message_encode ex_m3 ++ [5;6]%N) = Ok (ex_m3, [5;6]%N) /\
  message_read [22;3;3;0;0]%N = Err IllegalLength /\ message_read [25;3;3;0;1;0]%N = Err IllegalContentType /\
  message_read [22;3;3;0x48;0]%N = Err IllegalLength.
Proof.
  pose proof ex_ms_ok as H. rewrite !Forall_cons in H. destruct H as (? & _ & ? & _). by split_and!.
Qed.

(** ** C27 *)
(** The full property is false: records with the version numbers of SSL 2 and DTLS are
    accepted. *)
Theorem C27_only_major_version_3_refuted : exists l m v,
  bytes_ok l /\ hdr_version l = Some v /\ (v / 256 <> 3)%N /\ message_read l = Ok (m, []).
Proof. exact C27_witness_lemma. Qed.
Print Assumptions C27_only_major_version_3_refuted.

(** What is true: any other version number with a major version other than 3 is rejected.
    Missing: 0x0200, 0xFEFF and 0xFEFD. *)
Theorem C27_other_versions_rejected_partial : forall l t v n, bytes_ok l ->
  hdr_type l = Some t -> hdr_version l = Some v -> hdr_len l = Some n ->
  (20 <= t <= 24)%N -> (0 < n < 18432)%N -> (v / 256 <> 3)%N -> v ∉ [0x0200; 0xFEFF; 0xFEFD]%N ->
  message_read l = Err IllegalProtocolVersion.
Proof. exact C27_partial_lemma. Qed.
Print Assumptions C27_other_versions_rejected_partial.
Example C27_ex : message_read [22;4;3;0;1;7]%N = Err IllegalProtocolVersion /\
  hdr_version [22;4;3;0;1;7]%N = Some 0x0403%N /\ 0x0403%N ∉ [0x0200; 0xFEFF; 0xFEFD]%N.
Proof. split_and!; [done..|]. intros H. rewrite !elem_of_cons, elem_of_nil in H. lia. Qed.

(** ** C28 *)
(** Whatever the reads and pops, the frames taken and queued, the verdict and the pending
    bytes are those of the stream of all bytes read... *)
Theorem C28_frames_are_those_of_the_stream : forall ops d popped, bytes_ok (fed ops) ->
  df_run df_new ops = Some (d, popped) ->
  stream_holds (fed ops) (popped ++ df_frames d) (df_desynced d) (df_buf d).
Proof. exact C28_sequence_lemma. Qed.
Print Assumptions C28_frames_are_those_of_the_stream.

(** ...which determines them... *)
Theorem C28_stream_determines_contents : forall s ms1 b1 r1 ms2 b2 r2, bytes_ok s ->
  stream_holds s ms1 b1 r1 -> stream_holds s ms2 b2 r2 -> ms1 = ms2 /\ b1 = b2 /\ r1 = r2.
Proof. exact stream_holds_unique. Qed.
Print Assumptions C28_stream_determines_contents.

(** ...so that two ways of reading the same bytes agree. *)
Theorem C28_independent_of_reads : forall ops1 ops2 d1 p1 d2 p2, bytes_ok (fed ops1) -> fed ops1 = fed ops2 ->
  df_run df_new ops1 = Some (d1, p1) -> df_run df_new ops2 = Some (d2, p2) ->
  p1 ++ df_frames d1 = p2 ++ df_frames d2 /\ df_desynced d1 = df_desynced d2 /\ df_buf d1 = df_buf d2.
Proof. exact C28_independent_lemma. Qed.
Print Assumptions C28_independent_of_reads.

(** A read that delivers no more than the buffer has room for is always processed... *)
Theorem C28_reads_succeed : forall ops, bytes_ok (fed ops) -> reads_fit df_new ops ->
  exists d popped, df_run df_new ops = Some (d, popped) /\
    stream_holds (fed ops) (popped ++ df_frames d) (df_desynced d) (df_buf d).
Proof. exact C28_run_lemma. Qed.
Print Assumptions C28_reads_succeed.

(** ...and the buffer, of 18437 bytes, always has room unless the stream is desynchronized. *)
Theorem C28_buffer_has_room : forall ops d popped, bytes_ok (fed ops) -> df_run df_new ops = Some (d, popped) ->
  df_desynced d = false -> (N.of_nat (length (df_buf d)) < 18436)%N.
Proof. exact C28_room_lemma. Qed.
Print Assumptions C28_buffer_has_room.

Definition ex_stream : list N := wire ex_m1 ++ wire ex_m2 ++ wire ex_m3 ++ [22;3]%N.
Example C28_ex :
  bytes_ok ex_stream /\
  df_run df_new [DFeed ex_stream] = Some (Deframer [ex_m1; ex_m2; ex_m3] false [22;3]%N, []) /\
  df_run df_new [DFeed (take 4 ex_stream); DPop; DFeed (take 9 (drop 4 ex_stream)); DPop; DFeed (drop 13 ex_stream)]
    = Some (Deframer [ex_m2; ex_m3] false [22;3]%N, [ex_m1]) /\
  df_run df_new [DFeed (wire ex_m1 ++ [99;3;3;0;1]%N)] = Some (Deframer [ex_m1] true [99;3;3;0;1]%N, []).
Proof. split_and!; [by repeat constructor|vm_compute; done..]. Qed.

(** ** C29 *)
Theorem C29_fragments : forall mf m, (0 < mf)%N -> exists fs, fragment mf m = Ok fs /\
  concat (map m_payload fs) = m_payload m /\ fs <> [] /\
  Forall (fun f => m_typ f = m_typ m /\ m_version f = m_version m /\
    (N.of_nat (length (m_payload f)) <= mf)%N /\ (m_payload f = [] -> m_payload m = [])) fs.
Proof.
  exact (fun mf m H => match fragment_spec mf m H with ex_intro _ fs (conj a (conj b (conj c d))) =>
    ex_intro _ fs (conj a (conj b (conj d c))) end).
Qed.
Print Assumptions C29_fragments.
Theorem C29_borrowed_fragments : forall mf t v p, (0 < mf)%N -> exists fs, fragment_borrow mf t v p = Ok fs /\
  concat (map m_payload fs) = p /\
  Forall (fun f => m_typ f = t /\ m_version f = v /\ (N.of_nat (length (m_payload f)) <= mf)%N /\ m_payload f <> []) fs.
Proof. exact fragment_borrow_spec. Qed.
Print Assumptions C29_borrowed_fragments.

(** The limits that are accepted, and the payload limit they give; anything else is
    refused. *)
Theorem C29_limit_configuration : forall new lim, frag_set new = Some lim <->
  match new with
  | None => lim = 16384%N
  | Some sz => (32 <= sz <= 16389)%N /\ lim = (sz - 5)%N
  end.
Proof. exact frag_set_spec. Qed.
Print Assumptions C29_limit_configuration.
(** With a requested packet size, each fragment's wire form fits in it. *)
Theorem C29_packets_fit : forall sz lim m, frag_set (Some sz) = Some lim -> exists fs, fragment lim m = Ok fs /\
  Forall (fun f => (N.of_nat (length (message_encode f)) <= sz)%N) fs.
Proof. exact C29_packets_lemma. Qed.
Print Assumptions C29_packets_fit.
Example C29_ex : frag_set (Some 32%N) = Some 27%N /\ frag_set (Some 31%N) = None /\ frag_set (Some 16390%N) = None /\
  fragment 3 ex_m1 = Ok [Message Handshake TLSv1_2 [1;0;0]%N; Message Handshake TLSv1_2 [2;9;9]%N] /\
  fragment 3 ex_m2 = Ok [ex_m2] /\ fragment_borrow 3 ApplicationData TLSv1_2 [1;2;3;4]%N =
    Ok [Message ApplicationData TLSv1_2 [1;2;3]%N; Message ApplicationData TLSv1_2 [4]%N].
Proof. done. Qed.

(** ** C30 *)
(** Whatever records the bytes arrive in, the messages yielded, in order, are the complete
    messages of the stream; what is kept is the start of the next one. This holds after
    every record, so no message is yielded before its last byte arrived. *)
Theorem C30_messages_are_those_of_the_stream : forall B (body_read : protocol_version -> N -> list N -> option B) v ms ns j,
  bytes_ok (concat (map m_payload ms)) -> Forall (fun m => m_version m = v) ms ->
  feed_all body_read j_new ms = Some (ns, j) ->
  exists tbs bs, hs_stream body_read v (concat (map m_payload ms)) tbs bs (j_buf j) /\
    j_frames j = map (fun b => (v, b)) bs /\ sum_list ns = length bs.
Proof. exact @C30_success_lemma. Qed.
Print Assumptions C30_messages_are_those_of_the_stream.
Theorem C30_stream_determines_messages : forall B (body_read : protocol_version -> N -> list N -> option B)
  v s tbs1 bs1 r1 tbs2 bs2 r2,
  hs_stream body_read v s tbs1 bs1 r1 -> hs_stream body_read v s tbs2 bs2 r2 ->
  tbs1 = tbs2 /\ bs1 = bs2 /\ r1 = r2.
Proof. exact @hs_stream_unique. Qed.
Print Assumptions C30_stream_determines_messages.

(** Any splitting of a good stream is accepted... *)
Theorem C30_good_streams_accepted : forall B (body_read : protocol_version -> N -> list N -> option B) v ms tbs bs rest,
  bytes_ok (concat (map m_payload ms)) -> Forall (fun m => m_version m = v) ms ->
  hs_stream body_read v (concat (map m_payload ms)) tbs bs rest ->
  exists ns j, feed_all body_read j_new ms = Some (ns, j) /\ j_buf j = rest /\ j_frames j = map (fun b => (v, b)) bs.
Proof. exact @C30_total_lemma. Qed.
Print Assumptions C30_good_streams_accepted.

(** ...and two splittings of the same stream end in the same state. *)
Theorem C30_independent_of_fragmentation : forall B (body_read : protocol_version -> N -> list N -> option B) v ms1 ms2 ns1 j1,
  bytes_ok (concat (map m_payload ms1)) ->
  Forall (fun m => m_version m = v) ms1 -> Forall (fun m => m_version m = v) ms2 ->
  concat (map m_payload ms1) = concat (map m_payload ms2) ->
  feed_all body_read j_new ms1 = Some (ns1, j1) ->
  exists ns2, feed_all body_read j_new ms2 = Some (ns2, j1).
Proof. exact @C30_independent_lemma. Qed.
Print Assumptions C30_independent_of_fragmentation.

(** The joiner is empty exactly on a message boundary. *)
Theorem C30_empty_on_boundaries : forall B (body_read : protocol_version -> N -> list N -> option B) v ms ns j,
  bytes_ok (concat (map m_payload ms)) -> Forall (fun m => m_version m = v) ms ->
  feed_all body_read j_new ms = Some (ns, j) ->
  j_is_empty j = true <-> exists tbs bs, Forall2 (hs_msg_ok body_read v) tbs bs /\
    concat (map m_payload ms) = concat (map (fun tb => hs_wire (fst tb) (snd tb)) tbs).
Proof. exact @C30_empty_lemma. Qed.
Print Assumptions C30_empty_on_boundaries.

Definition ex_body (v : protocol_version) (t : N) (b : list N) : option (N * list N) :=
  if (t =? 6)%N then None else Some (t, b).
Definition ex_hs (p : list N) : message := Message Handshake TLSv1_2 p.
Example C30_ex :
  feed_all ex_body j_new [ex_hs [1;0;0;2;8;9;14;0;0;0]%N] = Some ([2], Joiner [(TLSv1_2, (1,[8;9])); (TLSv1_2, (14, []))]%N []) /\
  feed_all ex_body j_new [ex_hs [1;0]%N; ex_hs [0;2;8]%N; ex_hs [9;14;0;0;0;3]%N]
    = Some ([0;0;2], Joiner [(TLSv1_2, (1,[8;9])); (TLSv1_2, (14, []))]%N [3]%N) /\
  feed_all ex_body j_new [ex_hs [6;0;0;0]%N] = None /\ feed_all ex_body j_new [ex_hs [1;1;0;0]%N] = None.
Proof. done. Qed.
