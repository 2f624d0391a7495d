(** Model of crates/core/src/merkle.rs, and of the parts of the [rs_merkle] crate
    (git tlsnotary/rs-merkle) that it calls. The source of that crate is not part of
    the repository; its functions are written down here from its published version 1.4
    and from what the tests of merkle.rs expect. Two passes of [MerkleProof::root] (listing the
    helper indices of every layer, then building the partial tree) are done here layer by
    layer; the [usize] arithmetic does not overflow. *)
From Verif.Lib Require Import Base.

Section Merkle.
  (** [HashAlgorithm::hash] of the hasher in use. *)
  Context (H : list N -> list N).

  (** rs_merkle [Hasher::concat_and_hash]: hashes the concatenation of two nodes; a node
      without a right neighbour is passed on unchanged. *)
  Definition concat_and_hash (l : list N) (r : option (list N)) : list N :=
    match r with Some r => H (l ++ r) | None => l end.

  (** The next layer of a tree. *)
  Fixpoint next_layer (l : list (list N)) : list (list N) :=
    match l with
    | a :: b :: l' => concat_and_hash a (Some b) :: next_layer l'
    | [a] => [concat_and_hash a None]
    | [] => []
    end.
  (** rs_merkle [utils::indices::tree_depth]. *)
  Definition tree_depth (n : nat) : nat := if n =? 1 then 1 else Nat.log2_up n.
  Fixpoint layer (k : nat) (leaves : list (list N)) : list (list N) :=
    match k with O => leaves | S k' => layer k' (next_layer leaves) end.
  (** rs_merkle [MerkleTree::root] of a committed tree: the first node of the last layer. *)
  Definition rs_root (leaves : list (list N)) : option (list N) :=
    layer (tree_depth (length leaves)) leaves !! 0.

  (** rs_merkle [utils::indices]: sibling_index, parent_indices, and
      [utils::collections::difference]. *)
  Definition sibling (i : nat) : nat := if Nat.even i then i + 1 else i - 1.
  Fixpoint dedup (l : list nat) : list nat :=
    match l with
    | [] => []
    | a :: l' => match l' with
                 | [] => [a]
                 | b :: _ => if a =? b then dedup l' else a :: dedup l'
                 end
    end.
  Definition parent_indices (l : list nat) : list nat := dedup (map Nat.div2 l).
  Definition difference (a b : list nat) : list nat :=
    List.filter (fun i => negb (existsb (Nat.eqb i) b)) a.

  (** rs_merkle [MerkleTree::helper_nodes]: the siblings that are not known, where they
      exist, layer by layer. *)
  Fixpoint helper_nodes (k : nat) (lay : list (list N)) (ix : list nat) : list (list N) :=
    let here := omap (fun i => lay !! i) (difference (map sibling ix) ix) in
    match k with
    | O => here
    | S k' => here ++ helper_nodes k' (next_layer lay) (parent_indices ix)
    end.

  (** rs_merkle [utils::indices::proof_indices_by_layers], one layer of [n] nodes: the
      sibling of the last node of an odd layer is left out. *)
  Definition proof_indices (n : nat) (ix : list nat) : list nat :=
    let s := map sibling ix in
    let s := if Nat.odd n && match last ix with Some i => i =? n - 1 | None => false end
             then removelast s else s in
    difference s ix.

  (** [sort_by] on the index (stable). *)
  Fixpoint insert_by {A} (x : nat * A) (l : list (nat * A)) : list (nat * A) :=
    match l with
    | [] => [x]
    | y :: l' => if fst x <? fst y then x :: l else y :: insert_by x l'
    end.
  Definition sort_by {A} (l : list (nat * A)) : list (nat * A) :=
    fold_left (fun acc x => insert_by x acc) l [].

  (** rs_merkle [PartialTree::build_tree], the parents of one layer: the [i]-th parent is
      made of the nodes [2 i] and [2 i + 1] of the sorted layer. *)
  Fixpoint parents (ps : list nat) (vals : list (list N)) : option (list (nat * list N)) :=
    match ps with
    | [] => Some []
    | p :: ps' =>
        match vals with
        | [] => None
        | [a] => match parents ps' [] with
                 | Some r => Some ((p, concat_and_hash a None) :: r) | None => None end
        | a :: b :: vals' =>
            match parents ps' vals' with
            | Some r => Some ((p, concat_and_hash a (Some b)) :: r) | None => None end
        end
    end.

  (** rs_merkle [MerkleProof::root]: [n] is the size of the layer, [nodes] its known nodes,
      [proof] the remaining helper hashes. Too few hashes are an error (the test
      [test_verify_fail_fewer_indices] expects this), too many are ignored. *)
  Fixpoint proof_root (depth n : nat) (nodes : list (nat * list N)) (proof : list (list N))
    : option (list N) :=
    match depth with
    | O => match nodes with (_, h) :: _ => Some h | [] => None end
    | S depth' =>
        let hs := proof_indices n (map fst nodes) in
        if length proof <? length hs then None
        else
          let comb := sort_by (nodes ++ zip hs (take (length hs) proof)) in
          match parents (parent_indices (map fst comb)) (map snd comb) with
          | Some nodes' => proof_root depth' ((n + 1) / 2) nodes' (drop (length hs) proof)
          | None => None
          end
    end.
  (** The strings hashed by [proof_root] (for stating what a collision is). *)
  Fixpoint pair_inputs (vals : list (list N)) : list (list N) :=
    match vals with a :: b :: vals' => (a ++ b) :: pair_inputs vals' | _ => [] end.
  Fixpoint proof_inputs (depth n : nat) (nodes : list (nat * list N)) (proof : list (list N))
    : list (list N) :=
    match depth with
    | O => []
    | S depth' =>
        let hs := proof_indices n (map fst nodes) in
        let comb := sort_by (nodes ++ zip hs (take (length hs) proof)) in
        pair_inputs (map snd comb) ++
        match parents (parent_indices (map fst comb)) (map snd comb) with
        | Some nodes' => proof_inputs depth' ((n + 1) / 2) nodes' (drop (length hs) proof)
        | None => []
        end
    end.

  (** merkle.rs:21-26 [MerkleProof] (the algorithm id, which nothing reads, is left out). *)
  Record merkle_proof := MerkleProof { mp_leaf_count : nat; mp_hashes : list (list N) }.

  Fixpoint sorted_nodup (l : list nat) : bool :=
    match l with
    | a :: ((b :: _) as l') => (a <? b) && sorted_nodup l'
    | _ => true
    end.
  (** [indices.len() != HashSet(indices).len()] *)
  Definition has_duplicates (l : list nat) : bool := negb (bool_decide (NoDup l)).

  Inductive merkle_error := DuplicateIndices | InvalidMerkleProof.
  (** merkle.rs:36-65 [MerkleProof::verify]. A leaf count of 0 gives depth 0 and no root. *)
  Definition merkle_verify (p : merkle_proof) (root : list N) (leaves : list (nat * list N))
    : outcome merkle_error unit :=
    let leaves := sort_by leaves in
    if has_duplicates (map fst leaves) then Err DuplicateIndices
    else if mp_leaf_count p =? 0 then Err InvalidMerkleProof
    else match proof_root (tree_depth (mp_leaf_count p)) (mp_leaf_count p) leaves (mp_hashes p) with
         | Some r => if bool_decide (r = root) then Ok () else Err InvalidMerkleProof
         | None => Err InvalidMerkleProof
         end.

  (** merkle.rs:101-106 [MerkleTree::root] of the tree holding [leaves]. *)
  Definition merkle_root (leaves : list (list N)) : panicky (list N) := or_panic (rs_root leaves).

  (** merkle.rs:126-142 [MerkleTree::proof]. *)
  Definition merkle_proof_of (leaves : list (list N)) (indices : list nat) : panicky merkle_proof :=
    if negb (sorted_nodup indices) then Panic
    else match last indices with
         | None => Panic
         | Some i =>
             if i <? length leaves
             then Ok (MerkleProof (length leaves)
                        (helper_nodes (tree_depth (length leaves)) leaves indices))
             else Panic
         end.
End Merkle.
