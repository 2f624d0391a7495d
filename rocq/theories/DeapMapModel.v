(** Model of crates/components/deap/src/map.rs: the map between the memories of two virtual machines. *)
From Verif.Lib Require Import Base.

(** mpz_memory_core's [Slice]: a pointer and a size; [to_range] is the range from [sl_ptr] to [sl_end]. *)
Record slice := Slice { sl_ptr : nat; sl_size : nat }.
Definition sl_end (s : slice) : nat := sl_ptr s + sl_size s.

(** The loop of the standard library's [binary_search_by] (Rust 1.84 and later): the elements before [base] are not
    greater than the key; [size] elements from [base] are left. The fuel is the length of the list. *)
Fixpoint search_loop (fuel : nat) (l : list nat) (key base size : nat) : nat :=
  match fuel with
  | O => base
  | S fuel' =>
      if size <=? 1 then base
      else
        let half := size / 2 in
        let mid := base + half in
        let base := match l !! mid with Some x => if key <? x then base else mid | None => base end in
        search_loop fuel' l key base (size - half)
  end.
(** [binary_search_by]: [inl] is Rust's [Ok], [inr] is [Err]. *)
Definition rust_search (l : list nat) (key : nat) : nat + nat :=
  match l with
  | [] => inr 0
  | _ =>
      let base := search_loop (length l) l key 0 (length l) in
      match l !! base with
      | Some x => if x =? key then inl base else inr (base + (if x <? key then 1 else 0))
      | None => inr base
      end
  end.

(** map.rs:7-11. *)
Record memory_map := MemoryMap { mm_mpc : list slice; mm_zk : list slice }.
Definition mm_new : memory_map := MemoryMap [] [].
Inductive map_error := InvalidSlice.
(** map.rs:20-35 [insert]. *)
Definition mm_insert (m : memory_map) (mpc zk : slice) : panicky memory_map :=
  if sl_size mpc =? sl_size zk then
    match last (mm_mpc m) with
    | Some l => if sl_ptr mpc <? sl_end l then Panic else Ok (MemoryMap (mm_mpc m ++ [mpc]) (mm_zk m ++ [zk]))
    | None => Ok (MemoryMap (mm_mpc m ++ [mpc]) (mm_zk m ++ [zk]))
    end
  else Panic.
Fixpoint mm_inserts (m : memory_map) (hs : list (slice * slice)) : panicky memory_map :=
  match hs with
  | [] => Ok m
  | (a, b) :: hs' => let! m := mm_insert m a b in mm_inserts m hs'
  end.
Section Get.
  (** [binary_search_by_key] on the starts. *)
  Context (search : list nat -> nat -> nat + nat).
  (** map.rs:38-62 [try_get]. [is_subset] of the crate rangeset compares the bounds. *)
  Definition mm_try_get (m : memory_map) (s : slice) : outcome map_error slice :=
    let! pos := (match search (map sl_ptr (mm_mpc m)) (sl_ptr s) with
      | inl pos => Ok pos
      | inr 0 => Err InvalidSlice
      | inr (S pos) => Ok pos
      end) in
    let! candidate := or_panic (mm_mpc m !! pos) in
    if (sl_ptr candidate <=? sl_ptr s) && (sl_end s <=? sl_end candidate) then
      let offset := sl_ptr s - sl_ptr candidate in
      let! zk := or_panic (mm_zk m !! pos) in
      Ok (Slice (sl_ptr zk + offset) (sl_size s))
    else Err InvalidSlice.
End Get.
