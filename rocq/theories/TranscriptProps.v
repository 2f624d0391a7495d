(** Theorems C01-C06 about transcripts. The vocabulary is in TranscriptSpec.v; the
    model is TranscriptModel.v. *)
From Verif.Lib Require Import Base Ranges RangesFacts.
From Verif Require Import TranscriptModel TranscriptSpec TranscriptLemmas.

(** A concrete transcript used by the examples below. *)
Definition ex_t : transcript := Transcript [1;2;3;4;5;6]%N [7;8;9;10]%N.
Definition ex_p : partial := Partial [0;2;3;0;5;0]%N [7;8;9;10]%N [(1,3);(4,5)] [(0,4)].
Definition ex_q : partial := Partial [1;2;0;0;0;0]%N [0;8;0;0]%N [(0,2)] [(1,2)].

Lemma ex_valid n idx : rs_ok_fromb 0 idx = true -> rs_end idx <=? n = true -> valid_idx n idx.
Proof. intros H1%rs_ok_fromb_spec H2. apply valid_idx_end. split; [exact H1|]. by apply Nat.leb_le. Qed.

(** C01. In-bounds selections: selected bytes shown, others zero, indices kept. *)
Theorem C01_to_partial_reveals : forall t si ri,
  valid_idx (length (t_sent t)) si -> valid_idx (length (t_recv t)) ri ->
  exists p, to_partial t si ri = Ok p /\ p_sent_idx p = si /\ p_recv_idx p = ri /\
            shows (t_sent t) si (p_sent p) /\ shows (t_recv t) ri (p_recv p).
Proof. exact to_partial_ok. Qed.
Print Assumptions C01_to_partial_reveals.
Example C01_ex : valid_idx (length (t_sent ex_t)) [(1,3);(4,5)] /\ valid_idx (length (t_recv ex_t)) [(0,4)] /\
  to_partial ex_t [(1,3);(4,5)] [(0,4)] = Ok ex_p.
Proof. split_and!; [by apply ex_valid..|reflexivity]. Qed.

(** C01. Nothing about redacted bytes leaks. *)
Theorem C01_to_partial_hides : forall t t' si ri,
  rs_ok si -> rs_ok ri ->
  length (t_sent t) = length (t_sent t') -> length (t_recv t) = length (t_recv t') ->
  (forall i, in_rs i si -> t_sent t !! i = t_sent t' !! i) ->
  (forall i, in_rs i ri -> t_recv t !! i = t_recv t' !! i) ->
  to_partial t si ri = to_partial t' si ri.
Proof. exact to_partial_hides. Qed.
Print Assumptions C01_to_partial_hides.
Example C01_hides_ex :
  to_partial ex_t [(1,3);(4,5)] [(0,4)] =
  to_partial (Transcript [255;2;3;77;5;99]%N [7;8;9;10]%N) [(1,3);(4,5)] [(0,4)].
Proof. reflexivity. Qed.

(** C01. Selections reaching outside the transcript are refused by a panic, and only those. *)
Theorem C01_to_partial_panics_iff_out_of_bounds : forall t si ri, rs_ok si -> rs_ok ri ->
  to_partial t si ri = Panic <->
  (exists i, in_rs i si /\ length (t_sent t) <= i) \/ (exists i, in_rs i ri /\ length (t_recv t) <= i).
Proof. exact to_partial_panic. Qed.
Print Assumptions C01_to_partial_panics_iff_out_of_bounds.
Example C01_panics_ex : to_partial ex_t [(5,7)] [] = Panic.
Proof. reflexivity. Qed.

(** C02. Serialize then deserialize. *)
Theorem C02_compression_lossless : forall p, partial_wf p ->
  exists c q, compress p = Ok c /\ deserialize c = Ok q /\
    p_sent_idx q = p_sent_idx p /\ p_recv_idx q = p_recv_idx p /\
    (forall d, shows (p_data p d) (p_idx p d) (p_data q d)).
Proof. exact compress_deserialize. Qed.
Print Assumptions C02_compression_lossless.
Example C02_ex : partial_wf ex_p /\
  compress ex_p = Ok (Compressed [2;3;5]%N [7;8;9;10]%N [(1,3);(4,5)] [(0,4)] 6 4).
Proof. split; [intros []; by apply ex_valid|reflexivity]. Qed.

Theorem C02_compression_exact : forall p, partial_wf p ->
  (forall d i, i < length (p_data p d) -> ~ in_rs i (p_idx p d) -> p_data p d !! i = Some 0%N) ->
  exists c, compress p = Ok c /\ deserialize c = Ok p.
Proof. exact compress_exact. Qed.
Print Assumptions C02_compression_exact.
Example C02_exact_ex : forall i, i < length (p_data ex_p Sent) -> ~ in_rs i (p_idx ex_p Sent) ->
  p_data ex_p Sent !! i = Some 0%N.
Proof.
  intros i Hi Hn. simpl in Hi. rewrite <-in_rsb_spec in Hn.
  do 6 (destruct i as [|i]; [first [reflexivity|by destruct Hn]|]). lia.
Qed.

(** C03. Untrusted input: accepted iff consistent; accepted input expands to a
    well-formed transcript of the declared lengths that compresses back to the
    input; everything else is an error (never a panic). *)
Theorem C03_untrusted_compressed : forall c, rs_ok (c_sent_idx c) -> rs_ok (c_recv_idx c) ->
  (compressed_wf c -> exists p, deserialize c = Ok p /\ partial_wf p /\
       length (p_sent p) = c_sent_total c /\ length (p_recv p) = c_recv_total c /\ compress p = Ok c) /\
  (~ compressed_wf c -> exists e, deserialize c = Err e).
Proof. exact C03_lemma. Qed.
Print Assumptions C03_untrusted_compressed.
Example C03_ex :
  (exists p, deserialize (Compressed [2;3;5]%N [] [(1,3);(4,5)] [] 6 4) = Ok p) /\
  deserialize (Compressed [2;3]%N [] [(1,3);(4,5)] [] 6 4) = Err LengthMismatch /\
  deserialize (Compressed [2;3;5]%N [] [(1,3);(4,5)] [] 4 4) = Err RangesOutOfBounds.
Proof. split_and!; [eexists|..]; reflexivity. Qed.

(** C04. Lookup returns exactly the indexed bytes, or nothing if out of bounds. *)
Theorem C04_get : forall t d idx, rs_ok idx ->
  (valid_idx (t_len t d) idx -> exists s, t_get t d idx = Ok (Some s) /\ sq_idx s = idx /\
     bytes_at (t_data t d) idx (sq_data s)) /\
  (~ valid_idx (t_len t d) idx -> t_get t d idx = Ok None).
Proof. exact C04_lemma. Qed.
Print Assumptions C04_get.
Example C04_ex : t_get ex_t Sent [(1,3);(4,5)] = Ok (Some (Subseq [(1,3);(4,5)] [2;3;5]%N)) /\
  t_get ex_t Received [(1,3);(4,5)] = Ok None.
Proof. split; reflexivity. Qed.

(** C04. [bytes_at] determines the bytes. *)
Theorem C04_bytes_at_deterministic : forall data idx x y,
  bytes_at data idx x -> bytes_at data idx y -> x = y.
Proof. exact bytes_at_det. Qed.
Print Assumptions C04_bytes_at_deterministic.

(** C04. Writing a subsequence back restores the bytes and touches nothing else. *)
Theorem C04_copy_back : forall t d idx s dst,
  rs_ok idx -> t_get t d idx = Ok (Some s) -> rs_end idx <= length dst ->
  exists r, subseq_copy_to s dst = Ok r /\ length r = length dst /\
    forall i, r !! i = if decide (in_rs i idx) then t_data t d !! i else dst !! i.
Proof. exact get_copy_back. Qed.
Print Assumptions C04_copy_back.
Example C04_copy_ex :
  subseq_copy_to (Subseq [(1,3);(4,5)] [2;3;5]%N) [90;91;92;93;94;95]%N = Ok [90;2;3;93;5;95]%N.
Proof. reflexivity. Qed.

(** C05. Merging. *)
Theorem C05_union : forall p q, partial_wf p -> partial_wf q ->
  (forall d, length (p_data p d) = length (p_data q d)) ->
  exists r, union_transcript p q = Ok r /\ partial_wf r /\
  forall d, p_idx r d = rs_union (p_idx p d) (p_idx q d) /\
    length (p_data r d) = length (p_data p d) /\
    forall i, p_data r d !! i =
      if decide (in_rs i (p_idx q d) /\ ~ in_rs i (p_idx p d)) then p_data q d !! i else p_data p d !! i.
Proof. exact union_transcript_ok. Qed.
Print Assumptions C05_union.
Example C05_ex : partial_wf ex_p /\ partial_wf ex_q /\ discloses ex_t ex_p /\ discloses ex_t ex_q /\
  union_transcript ex_p ex_q = Ok (Partial [1;2;3;0;5;0]%N [7;8;9;10]%N [(0,3);(4,5)] [(0,4)]).
Proof.
  split_and!; [intros []; by apply ex_valid..| | |reflexivity].
  - eapply to_partial_discloses with (si := [(1,3);(4,5)]) (ri := [(0,4)]); [by apply rs_ok_fromb_spec..|reflexivity].
  - eapply to_partial_discloses with (si := [(0,2)]) (ri := [(1,2)]); [by apply rs_ok_fromb_spec..|reflexivity].
Qed.

(** C05. The merged index set contains exactly the positions of either. *)
Theorem C05_union_index : forall x y i, rs_ok x -> in_rs i (rs_union x y) <-> in_rs i x \/ in_rs i y.
Proof. exact (fun x y i H => in_rs_union i x y H). Qed.
Print Assumptions C05_union_index.

Theorem C05_idempotent : forall p, partial_wf p -> union_transcript p p = Ok p.
Proof. exact C05_idem. Qed.
Print Assumptions C05_idempotent.

(** C05. Disclosures of the same transcript merge commutatively into a disclosure of it... *)
Theorem C05_commutative : forall t p q, discloses t p -> discloses t q ->
  exists r, union_transcript p q = Ok r /\ discloses t r /\ union_transcript q p = Ok r /\
    (forall d i, in_rs i (p_idx r d) <-> in_rs i (p_idx p d) \/ in_rs i (p_idx q d)).
Proof. exact C05_same_plaintext. Qed.
Print Assumptions C05_commutative.

(** ...and associatively. *)
Theorem C05_associative : forall t p q r pq qr, discloses t p -> discloses t q -> discloses t r ->
  union_transcript p q = Ok pq -> union_transcript q r = Ok qr ->
  exists x, union_transcript pq r = Ok x /\ union_transcript p qr = Ok x.
Proof. exact C05_assoc. Qed.
Print Assumptions C05_associative.

Theorem C05_length_mismatch_panics : forall p q,
  (length (p_sent p) <> length (p_sent q) \/ length (p_recv p) <> length (p_recv q)) ->
  union_transcript p q = Panic.
Proof. exact union_transcript_panic. Qed.
Print Assumptions C05_length_mismatch_panics.

(** C05. Merging a subsequence. *)
Theorem C05_union_subsequence : forall p d s,
  partial_wf p -> valid_idx (length (p_data p d)) (sq_idx s) -> rs_len (sq_idx s) = length (sq_data s) ->
  exists r, union_subsequence p d s = Ok r /\ partial_wf r /\
    p_idx r d = rs_union (p_idx p d) (sq_idx s) /\ length (p_data r d) = length (p_data p d) /\
    bytes_at (p_data r d) (sq_idx s) (sq_data s) /\
    (forall i, ~ in_rs i (sq_idx s) -> p_data r d !! i = p_data p d !! i) /\
    (forall d', d' <> d -> p_data r d' = p_data p d' /\ p_idx r d' = p_idx p d').
Proof. exact union_subsequence_ok. Qed.
Print Assumptions C05_union_subsequence.
Example C05_subsequence_ex :
  union_subsequence ex_q Sent (Subseq [(1,3);(4,5)] [2;3;5]%N)
  = Ok (Partial [1;2;3;0;5;0]%N [0;8;0;0]%N [(0,3);(4,5)] [(1,2)]).
Proof. reflexivity. Qed.

(** C06. *)
Theorem C06_set_unauthed : forall p v,
  exists r, set_unauthed p v = Ok r /\
  forall d, p_idx r d = p_idx p d /\ length (p_data r d) = length (p_data p d) /\
    forall i b, p_data p d !! i = Some b ->
      p_data r d !! i = Some (if decide (in_rs i (p_idx p d)) then b else v).
Proof. exact set_unauthed_ok. Qed.
Print Assumptions C06_set_unauthed.
Example C06_ex : set_unauthed ex_q 42%N =
  Ok (Partial [1;2;42;42;42;42]%N [42;8;42;42]%N [(0,2)] [(1,2)]).
Proof. reflexivity. Qed.

Theorem C06_set_unauthed_range : forall p v d a b, b <= length (p_data p d) ->
  exists r, set_unauthed_range p v d a b = Ok r /\
  (forall d', d' <> d -> p_data r d' = p_data p d') /\ (forall d', p_idx r d' = p_idx p d') /\
  length (p_data r d) = length (p_data p d) /\
  forall i x, p_data p d !! i = Some x ->
      p_data r d !! i = Some (if decide (a <= i < b /\ ~ in_rs i (p_idx p d)) then v else x).
Proof. exact set_unauthed_range_ok. Qed.
Print Assumptions C06_set_unauthed_range.
Example C06_range_ex : set_unauthed_range ex_q 42%N Sent 1 4 =
  Ok (Partial [1;2;42;42;0;0]%N [0;8;0;0]%N [(0,2)] [(1,2)]).
Proof. reflexivity. Qed.

(** C06. Completeness means every byte is authenticated, and filling never changes it. *)
Theorem C06_is_complete : forall p, partial_wf p ->
  is_complete p = true <-> forall d i, i < length (p_data p d) -> in_rs i (p_idx p d).
Proof. exact is_complete_spec. Qed.
Print Assumptions C06_is_complete.
Theorem C06_never_becomes_complete : forall p v r, set_unauthed p v = Ok r -> is_complete r = is_complete p.
Proof. exact set_unauthed_complete. Qed.
Print Assumptions C06_never_becomes_complete.
Theorem C06_range_never_becomes_complete : forall p v d a b r,
  b <= length (p_data p d) -> set_unauthed_range p v d a b = Ok r -> is_complete r = is_complete p.
Proof. exact set_unauthed_range_complete. Qed.
Print Assumptions C06_range_never_becomes_complete.
Example C06_complete_ex : is_complete ex_p = false /\ is_complete (Partial [1;2]%N [3]%N [(0,2)] [(0,1)]) = true.
Proof. split; reflexivity. Qed.
