(** Model of crates/core/src/transcript.rs: transcripts, partial transcripts,
    their compressed serialized form, subsequences. *)
From Verif.Lib Require Import Base Ranges.

(** transcript.rs:438-445 [enum Direction]. *)
Inductive direction := Sent | Received.
Global Instance direction_eq_dec : EqDecision direction.
Proof. solve_decision. Defined.

(** transcript.rs:49-54 [struct Transcript]. *)
Record transcript := Transcript { t_sent : list N; t_recv : list N }.

(** transcript.rs:84-89 [Transcript::len_of_direction] (and the [match] selecting
    the data of a direction in [get], 102-105). *)
Definition t_data (t : transcript) (d : direction) : list N :=
  match d with Sent => t_sent t | Received => t_recv t end.
Definition t_len (t : transcript) (d : direction) : nat := length (t_data t d).

(** core/src/connection.rs [struct TranscriptLength] (two u32). *)
Record transcript_length := TLen { tl_sent : N; tl_recv : N }.
(** transcript.rs:92-97 [Transcript::length]: [as u32] truncates. *)
Definition u32_of_usize (n : nat) : N := (N.of_nat n mod 2 ^ 32)%N.
Definition t_length (t : transcript) : transcript_length :=
  TLen (u32_of_usize (length (t_sent t))) (u32_of_usize (length (t_recv t))).

(** [data.index(idx)] of the rangeset crate followed by concatenation
    (transcript.rs:113-116, 198-211): the bytes of every range in order; slicing
    out of bounds panics. *)
Fixpoint index_concat (data : list N) (idx : rangeset) : panicky (list N) :=
  match idx with
  | [] => Ok []
  | (a, b) :: t =>
      let! s := or_panic (slice data a b) in
      let! rest := index_concat data t in
      Ok (s ++ rest)
  end.

(** [for range in idx { dst[range].copy_from_slice(&src[range]) }]
    (transcript.rs:141-147 and 363-372). *)
Fixpoint copy_ranges (dst src : list N) (idx : rangeset) : panicky (list N) :=
  match idx with
  | [] => Ok dst
  | (a, b) :: t =>
      let! s := or_panic (slice src a b) in
      let! dst' := or_panic (put dst a b s) in
      copy_ranges dst' src t
  end.

(** [for range in idx { dst[range].copy_from_slice(&packed[off..off+range.len()]);
    off += range.len() }] (transcript.rs:227-231, 235-239, 504-508). *)
Fixpoint copy_packed (dst packed : list N) (off : nat) (idx : rangeset) : panicky (list N) :=
  match idx with
  | [] => Ok dst
  | (a, b) :: t =>
      let! s := or_panic (slice packed off (off + (b - a))) in
      let! dst' := or_panic (put dst a b s) in
      copy_packed dst' packed (off + (b - a)) t
  end.

(** [for range in idx { dst[range].fill(v) }] (transcript.rs:403-408, 421-428). *)
Fixpoint fill_ranges (dst : list N) (v : N) (idx : rangeset) : panicky (list N) :=
  match idx with
  | [] => Ok dst
  | (a, b) :: t =>
      let! dst' := or_panic (put dst a b (replicate (b - a) v)) in
      fill_ranges dst' v t
  end.

(** transcript.rs:458-463 [struct Subsequence]. *)
Record subsequence := Subseq { sq_idx : rangeset; sq_data : list N }.

(** transcript.rs:467-475 [Subsequence::new]; [None] is [Err(InvalidSubsequence)]. *)
Definition subseq_new (idx : rangeset) (data : list N) : option subsequence :=
  if negb (rs_len idx =? length data) then None else Some (Subseq idx data).

(** transcript.rs:503-509 [Subsequence::copy_to]. *)
Definition subseq_copy_to (s : subsequence) (dst : list N) : panicky (list N) :=
  copy_packed dst (sq_data s) 0 (sq_idx s).

(** transcript.rs:101-121 [Transcript::get]; the inner [expect] is a panic. *)
Definition t_get (t : transcript) (d : direction) (idx : rangeset) : panicky (option subsequence) :=
  let data := t_data t d in
  if length data <? rs_end idx then Ok None
  else
    let! bs := index_concat data idx in
    match subseq_new idx bs with
    | Some s => Ok (Some s)
    | None => Panic
    end.

(** transcript.rs:166-175 [struct PartialTranscript]. *)
Record partial := Partial {
  p_sent : list N;
  p_recv : list N;
  p_sent_idx : rangeset;
  p_recv_idx : rangeset;
}.
Definition p_data (p : partial) (d : direction) : list N :=
  match d with Sent => p_sent p | Received => p_recv p end.
Definition p_idx (p : partial) (d : direction) : rangeset :=
  match d with Sent => p_sent_idx p | Received => p_recv_idx p end.

(** transcript.rs:133-155 [Transcript::to_partial]. *)
Definition to_partial (t : transcript) (si ri : rangeset) : panicky partial :=
  let! s := copy_ranges (replicate (length (t_sent t)) 0%N) (t_sent t) si in
  let! r := copy_ranges (replicate (length (t_recv t)) 0%N) (t_recv t) ri in
  Ok (Partial s r si ri).

(** transcript.rs:180-193 [struct CompressedPartialTranscript] (also the unchecked
    form received from the wire, 541-548, which has the same fields). *)
Record compressed := Compressed {
  c_sent_authed : list N;
  c_recv_authed : list N;
  c_sent_idx : rangeset;
  c_recv_idx : rangeset;
  c_sent_total : nat;
  c_recv_total : nat;
}.

(** transcript.rs:195-218 [From<PartialTranscript> for CompressedPartialTranscript]. *)
Definition compress (p : partial) : panicky compressed :=
  let! s := index_concat (p_sent p) (p_sent_idx p) in
  let! r := index_concat (p_recv p) (p_recv_idx p) in
  Ok (Compressed s r (p_sent_idx p) (p_recv_idx p) (length (p_sent p)) (length (p_recv p))).

(** transcript.rs:220-248 [From<CompressedPartialTranscript> for PartialTranscript]. *)
Definition decompress (c : compressed) : panicky partial :=
  let! s := copy_packed (replicate (c_sent_total c) 0%N) (c_sent_authed c) 0 (c_sent_idx c) in
  let! r := copy_packed (replicate (c_recv_total c) 0%N) (c_recv_authed c) 0 (c_recv_idx c) in
  Ok (Partial s r (c_sent_idx c) (c_recv_idx c)).

(** transcript.rs:550-579 [CompressedPartialTranscriptUnchecked::try_from]. *)
Inductive compressed_error := LengthMismatch | RangesOutOfBounds.
Definition validate (c : compressed) : outcome compressed_error compressed :=
  if negb (length (c_sent_authed c) =? rs_len (c_sent_idx c))
     || negb (length (c_recv_authed c) =? rs_len (c_recv_idx c))
  then Err LengthMismatch
  else if (c_sent_total c <? rs_end (c_sent_idx c)) || (c_recv_total c <? rs_end (c_recv_idx c))
  then Err RangesOutOfBounds
  else Ok c.

(** Deserialization of a [PartialTranscript]: serde [try_from] chains validation
    and expansion (transcript.rs:164-165, 179). *)
Definition deserialize (c : compressed) : outcome compressed_error partial :=
  let! c' := validate c in
  match decompress c' with
  | Ok p => Ok p
  | Err e => match e with end
  | Panic => Panic
  end.

(** transcript.rs:257-264 [PartialTranscript::new]. *)
Definition partial_new (ns nr : nat) : partial :=
  Partial (replicate ns 0%N) (replicate nr 0%N) [] [].

(** transcript.rs:277-280 [is_complete]. *)
Definition is_complete (p : partial) : bool :=
  (rs_len (p_sent_idx p) =? length (p_sent p)) && (rs_len (p_recv_idx p) =? length (p_recv p)).

(** transcript.rs:283-288 [contains]. *)
Definition p_contains (p : partial) (d : direction) (idx : rangeset) : bool :=
  rs_end idx <=? length (p_data p d).

(** transcript.rs:323-334 [sent_unauthed] / [received_unauthed]. *)
Definition unauthed (p : partial) (d : direction) : rangeset :=
  rs_diff (rs_single 0 (length (p_data p d))) (p_idx p d).

(** transcript.rs:337-344 [iter]: authenticated bytes in order; indexing panics
    out of bounds. *)
Definition p_iter (p : partial) (d : direction) : panicky (list N) :=
  foldr (fun i acc => let! l := acc in let! b := or_panic (p_data p d !! i) in Ok (b :: l))
        (Ok []) (rs_values (p_idx p d)).

(** transcript.rs:351-377 [union_transcript]; the two [assert_eq!] panic. *)
Definition union_transcript (p q : partial) : panicky partial :=
  if negb (length (p_sent p) =? length (p_sent q)) then Panic
  else if negb (length (p_recv p) =? length (p_recv q)) then Panic
  else
    let! s := copy_ranges (p_sent p) (p_sent q) (rs_diff (p_sent_idx q) (p_sent_idx p)) in
    let! r := copy_ranges (p_recv p) (p_recv q) (rs_diff (p_recv_idx q) (p_recv_idx p)) in
    Ok (Partial s r (rs_union (p_sent_idx p) (p_sent_idx q))
                    (rs_union (p_recv_idx p) (p_recv_idx q))).

(** transcript.rs:384-395 [union_subsequence]. *)
Definition union_subsequence (p : partial) (d : direction) (s : subsequence) : panicky partial :=
  match d with
  | Sent =>
      let! x := subseq_copy_to s (p_sent p) in
      Ok (Partial x (p_recv p) (rs_union (p_sent_idx p) (sq_idx s)) (p_recv_idx p))
  | Received =>
      let! x := subseq_copy_to s (p_recv p) in
      Ok (Partial (p_sent p) x (p_sent_idx p) (rs_union (p_recv_idx p) (sq_idx s)))
  end.

(** transcript.rs:402-409 [set_unauthed]. *)
Definition set_unauthed (p : partial) (v : N) : panicky partial :=
  let! s := fill_ranges (p_sent p) v (unauthed p Sent) in
  let! r := fill_ranges (p_recv p) v (unauthed p Received) in
  Ok (Partial s r (p_sent_idx p) (p_recv_idx p)).

(** transcript.rs:418-431 [set_unauthed_range] for the range [a..b]. *)
Definition set_unauthed_range (p : partial) (v : N) (d : direction) (a b : nat) : panicky partial :=
  match d with
  | Sent =>
      let! s := fill_ranges (p_sent p) v (rs_diff (rs_single a b) (p_sent_idx p)) in
      Ok (Partial s (p_recv p) (p_sent_idx p) (p_recv_idx p))
  | Received =>
      let! r := fill_ranges (p_recv p) v (rs_diff (rs_single a b) (p_recv_idx p)) in
      Ok (Partial (p_sent p) r (p_sent_idx p) (p_recv_idx p))
  end.
