(** Range sets: model of the external crate [rangeset] (type [RangeSet<usize>]).

    A range set is a list of half-open ranges [(a, b)] meaning [a <= i < b].
    Canonical lists are sorted, contain no empty range, and leave a gap between
    consecutive ranges, so that equal sets are equal lists (this is the
    invariant of the crate's [RangeSet]).  The crate's source is not in /repo;
    its operations are modelled by their set meaning, proved below. *)
From Verif.Lib Require Import Base.

Notation range := (nat * nat)%type.
Definition rangeset := list range.

Definition in_range (i : nat) (r : range) : Prop := fst r <= i < snd r.
Definition in_rs (i : nat) (rs : rangeset) : Prop := Exists (in_range i) rs.

Definition in_rangeb (i : nat) (r : range) : bool := (fst r <=? i) && (i <? snd r).
Definition in_rsb (i : nat) (rs : rangeset) : bool := existsb (in_rangeb i) rs.

(** Canonical form, with a lower bound on the first start. *)
Fixpoint rs_ok_from (lo : nat) (rs : rangeset) : Prop :=
  match rs with
  | [] => True
  | (a, b) :: t => lo <= a /\ a < b /\ rs_ok_from (S b) t
  end.
Definition rs_ok (rs : rangeset) : Prop := rs_ok_from 0 rs.

Fixpoint rs_ok_fromb (lo : nat) (rs : rangeset) : bool :=
  match rs with
  | [] => true
  | (a, b) :: t => (lo <=? a) && (a <? b) && rs_ok_fromb (S b) t
  end.

(** Insert a non-empty range, merging overlapping and adjacent ranges. *)
Fixpoint rs_insert (a b : nat) (rs : rangeset) : rangeset :=
  match rs with
  | [] => [(a, b)]
  | (c, d) :: t =>
      if b <? c then (a, b) :: (c, d) :: t
      else if d <? a then (c, d) :: rs_insert a b t
      else rs_insert (Nat.min a c) (Nat.max b d) t
  end.
Definition rs_add (r : range) (rs : rangeset) : rangeset :=
  if fst r <? snd r then rs_insert (fst r) (snd r) rs else rs.

(** [RangeSet::from_range_iter]. *)
Definition rs_from (rs : list range) : rangeset := foldr rs_add [] rs.
(** [union]/[union_mut]. *)
Definition rs_union (x y : rangeset) : rangeset := foldr rs_add x y.

(** Remove one range. *)
Fixpoint rs_remove (a b : nat) (rs : rangeset) : rangeset :=
  match rs with
  | [] => []
  | (c, d) :: t =>
      if d <=? a then (c, d) :: rs_remove a b t
      else if b <=? c then (c, d) :: t
      else (if c <? a then [(c, a)] else [])
           ++ (if b <? d then (b, d) :: t else rs_remove a b t)
  end.
Definition rs_sub (rs : rangeset) (r : range) : rangeset :=
  if fst r <? snd r then rs_remove (fst r) (snd r) rs else rs.
(** [difference]. *)
Definition rs_diff (x y : rangeset) : rangeset := fold_left rs_sub y x.
(** [is_subset]. *)
Definition rs_subset (x y : rangeset) : bool :=
  match rs_diff x y with [] => true | _ => false end.
(** [is_empty]. *)
Definition rs_empty (x : rangeset) : bool := match x with [] => true | _ => false end.
(** [len]: number of positions. *)
Definition rs_len (x : rangeset) : nat := foldr (fun r n => (snd r - fst r) + n) 0 x.
(** [end().unwrap_or(0)]. *)
Definition rs_end (x : rangeset) : nat := match last x with Some r => snd r | None => 0 end.
(** [RangeSet::from(a..b)] of a single, possibly empty, range. *)
Definition rs_single (a b : nat) : rangeset := if a <? b then [(a, b)] else [].
(** [iter_values]. *)
Definition rs_values (x : rangeset) : list nat := flat_map (fun r => seq (fst r) (snd r - fst r)) x.
(** set equality test [==] on canonical sets *)
Definition rs_eqb (x y : rangeset) : bool := bool_decide (x = y).
