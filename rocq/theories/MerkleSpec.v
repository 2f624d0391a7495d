(** Vocabulary for the theorems about Merkle trees (C13, C14). *)
From Verif.Lib Require Import Base.
From Verif Require Import MerkleModel.

Section Spec.
  Context (H : list N -> list N).
  (** The strings hashed when an honest tree over the given nodes is built, up to [k] layers. *)
  Fixpoint tree_inputs (k : nat) (lay : list (list N)) : list (list N) :=
    match k with
    | O => []
    | S k' => pair_inputs lay ++ tree_inputs k' (next_layer H lay)
    end.
  (** A collision between a string hashed by the verification of [p] with the claimed
      [leaves] and a string hashed when building the tree over [tree]. *)
  Definition merkle_collision (p : merkle_proof) (claims : list (nat * list N)) (tree : list (list N)) : Prop :=
    exists x y, x ∈ proof_inputs H (tree_depth (mp_leaf_count p)) (mp_leaf_count p) (sort_by claims) (mp_hashes p) /\
      y ∈ tree_inputs (tree_depth (length tree)) tree /\ x <> y /\ H x = H y.
  (** The hash function has outputs of [L] bytes. *)
  Definition hash_len (L : nat) : Prop := forall m, length (H m) = L.
End Spec.
