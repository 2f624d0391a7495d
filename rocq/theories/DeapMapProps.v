(** Theorems C48 about the map between the memories of two virtual machines. The vocabulary is in DeapMapSpec.v, the
    model is DeapMapModel.v. The list [hs] is any history of pairs of allocations, the first machine's first. *)
From Verif.Lib Require Import Base.
From Verif Require Import DeapMapModel DeapMapSpec DeapMapLemmas.

(** ** C48 *)
(** A history is accepted if allocations ascend and sizes agree; any other panics. *)
Theorem C48_ascending_histories_are_accepted : forall hs,
  (ascending hs -> exists m, mm_inserts mm_new hs = Ok m) /\ (~ ascending hs -> mm_inserts mm_new hs = Panic).
Proof. exact C48_insert_lemma. Qed.
Print Assumptions C48_ascending_histories_are_accepted.

(** A slice that is not empty is translated if and only if it lies in one allocation, to the same offset in its partner. *)
Theorem C48_translation_is_exact : forall hs m s s',
  mm_inserts mm_new hs = Ok m -> 0 < sl_size s ->
  mm_try_get rust_search m s = Ok s' <-> exists a b, (a, b) ∈ hs /\ inside s a /\ same_offset s a b s'.
Proof. exact C48_exact_lemma. Qed.
Print Assumptions C48_translation_is_exact.

(** The same with any search that does what Rust's documentation promises, if no allocation is empty. *)
Theorem C48_translation_with_any_search : forall search hs m s s',
  search_ok search -> (forall a b, (a, b) ∈ hs -> 0 < sl_size a) -> mm_inserts mm_new hs = Ok m -> 0 < sl_size s ->
  mm_try_get search m s = Ok s' <-> exists a b, (a, b) ∈ hs /\ inside s a /\ same_offset s a b s'.
Proof. exact C48_any_search_lemma. Qed.
Print Assumptions C48_translation_with_any_search.

(** The search of Rust's library does what is promised. *)
Theorem C48_search_is_as_documented : search_ok rust_search.
Proof. exact rust_search_ok. Qed.
Print Assumptions C48_search_is_as_documented.

(** Translation does not panic, of empty slices either. *)
Theorem C48_translation_does_not_panic : forall hs m s,
  mm_inserts mm_new hs = Ok m -> mm_try_get rust_search m s <> Panic.
Proof. exact C48_no_panic_lemma. Qed.
Print Assumptions C48_translation_does_not_panic.

(** If the second machine's allocations are disjoint, disjoint slices are translated to disjoint slices, and different slices to
    different ones. *)
Theorem C48_distinct_slices_stay_distinct : forall hs m s1 s2 t1 t2,
  mm_inserts mm_new hs = Ok m ->
  (forall i j a b a' b', hs !! i = Some (a, b) -> hs !! j = Some (a', b') -> i <> j -> disjoint_slices b b') ->
  mm_try_get rust_search m s1 = Ok t1 -> mm_try_get rust_search m s2 = Ok t2 ->
  (disjoint_slices s1 s2 -> disjoint_slices t1 t2) /\ (0 < sl_size s1 -> t1 = t2 -> s1 = s2).
Proof. exact C48_disjoint_lemma. Qed.
Print Assumptions C48_distinct_slices_stay_distinct.

(** ** Examples *)
(** Among the allocations is an empty one with the same start as the next. *)
Definition ex_history : list (slice * slice) :=
  [(Slice 0 10, Slice 100 10); (Slice 12 0, Slice 50 0); (Slice 12 8, Slice 60 8); (Slice 20 4, Slice 10 4)].
Example C48_ex : exists m, mm_inserts mm_new ex_history = Ok m /\
  mm_try_get rust_search m (Slice 12 8) = Ok (Slice 60 8) /\ mm_try_get rust_search m (Slice 3 4) = Ok (Slice 103 4) /\
  mm_try_get rust_search m (Slice 22 2) = Ok (Slice 12 2) /\ mm_try_get rust_search m (Slice 18 4) = Err InvalidSlice /\
  mm_try_get rust_search m (Slice 10 1) = Err InvalidSlice /\ mm_try_get rust_search m (Slice 24 1) = Err InvalidSlice.
Proof. eexists. split; [vm_compute; reflexivity|]. vm_compute. repeat split. Qed.
Example C48_ascending_ex : ascending ex_history.
Proof. apply (proj1 (inserts_ok ex_history _) eq_refl). Qed.
Example C48_disjoint_ex : forall i j a b a' b',
  ex_history !! i = Some (a, b) -> ex_history !! j = Some (a', b') -> i <> j -> disjoint_slices b b'.
Proof.
  intros i j a b a' b' Hi Hj Hij x Hx Hy. unfold in_slice in *.
  destruct i as [|[|[|[|i]]]], j as [|[|[|[|j]]]]; try done; cbn in Hi, Hj; injection Hi as <- <-; injection Hj as <- <-; cbn in *; lia.
Qed.
Example C48_panics_ex : mm_inserts mm_new [(Slice 0 10, Slice 100 10); (Slice 9 2, Slice 110 2)] = Panic /\
  mm_inserts mm_new [(Slice 5 5, Slice 20 10)] = Panic.
Proof. done. Qed.
