(** Specification vocabulary for transcripts (independent of the model's loops). *)
From Verif.Lib Require Import Base Ranges RangesFacts.
From Verif Require Import TranscriptModel.

(** An index set in canonical form all of whose positions are below [n]. *)
Definition valid_idx (n : nat) (idx : rangeset) : Prop :=
  rs_ok idx /\ forall i, in_rs i idx -> i < n.

(** [shown] is [full] with every byte outside [idx] replaced by zero. *)
Definition shows (full : list N) (idx : rangeset) (shown : list N) : Prop :=
  length shown = length full /\
  forall i b, full !! i = Some b -> shown !! i = Some (if decide (in_rs i idx) then b else 0%N).

(** Well-formed partial transcript: both index sets lie inside the data. *)
Definition partial_wf (p : partial) : Prop :=
  forall d, valid_idx (length (p_data p d)) (p_idx p d).

(** [bs] lists the bytes of [data] at the positions of [idx], in increasing order. *)
Definition bytes_at (data : list N) (idx : rangeset) (bs : list N) : Prop :=
  exists ps, StronglySorted lt ps /\ (forall i, i ∈ ps <-> in_rs i idx) /\
             Forall2 (fun i b => data !! i = Some b) ps bs.

(** The partial transcript [p] discloses part of transcript [t]. *)
Definition discloses (t : transcript) (p : partial) : Prop :=
  partial_wf p /\ forall d, shows (t_data t d) (p_idx p d) (p_data p d).

(** The index set has exactly [n] positions. *)
Definition idx_size (idx : rangeset) (n : nat) : Prop :=
  exists ps, StronglySorted lt ps /\ (forall i, i ∈ ps <-> in_rs i idx) /\ length ps = n.

(** A serialized partial transcript whose data lengths match its indices and whose
    indices lie inside the declared lengths. *)
Definition compressed_wf (c : compressed) : Prop :=
  idx_size (c_sent_idx c) (length (c_sent_authed c)) /\
  idx_size (c_recv_idx c) (length (c_recv_authed c)) /\
  (forall i, in_rs i (c_sent_idx c) -> i < c_sent_total c) /\
  (forall i, in_rs i (c_recv_idx c) -> i < c_recv_total c).
