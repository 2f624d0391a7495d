(** What is asked of the map between two memories. *)
From Verif.Lib Require Import Base.
From Verif Require Import DeapMapModel.

(** All cells of a slice are cells of another. *)
Definition inside (s a : slice) : Prop := sl_ptr a <= sl_ptr s /\ sl_ptr s + sl_size s <= sl_ptr a + sl_size a.
(** The slice at the same offset of [b] as [s] is of [a]. *)
Definition same_offset (s a b s' : slice) : Prop := sl_ptr s' + sl_ptr a = sl_ptr b + sl_ptr s /\ sl_size s' = sl_size s.
(** No cell in common. *)
Definition in_slice (x : nat) (s : slice) : Prop := sl_ptr s <= x < sl_ptr s + sl_size s.
Definition disjoint_slices (s t : slice) : Prop := forall x, in_slice x s -> in_slice x t -> False.
(** Allocations are in ascending order and have sizes like their partners. *)
Definition ascending (hs : list (slice * slice)) : Prop :=
  (forall a b, (a, b) ∈ hs -> sl_size a = sl_size b) /\
  (forall i a b a' b', hs !! i = Some (a, b) -> hs !! S i = Some (a', b') -> sl_ptr a + sl_size a <= sl_ptr a').
(** The documented behaviour of a binary search in a sorted list. *)
Definition nondecreasing (l : list nat) : Prop := forall i j x y, l !! i = Some x -> l !! j = Some y -> i <= j -> x <= y.
Definition search_ok (search : list nat -> nat -> nat + nat) : Prop := forall l k, nondecreasing l ->
  match search l k with
  | inl i => l !! i = Some k
  | inr i => (forall j x, j < i -> l !! j = Some x -> x < k) /\ (forall j x, i <= j -> l !! j = Some x -> k < x) /\ i <= length l
  end.
