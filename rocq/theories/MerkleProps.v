(** Theorems C13 and C14 about Merkle inclusion proofs. The vocabulary is in MerkleSpec.v;
    the model is MerkleModel.v. [H] is any hash function. *)
From Verif.Lib Require Import Base.
From Verif Require Import MerkleModel MerkleSpec MerkleLemmas ProofProps.

(** A tree with seven leaves. *)
Definition ex_H : list N -> list N := toy_hash 1.
Definition ex_tree : list (list N) := [[1];[2];[3];[4];[5];[6];[7]]%N.

(** ** C13 *)
(** A non-empty tree has a root. *)
Theorem C13_root_exists_for_every_tree : forall H leaves, leaves <> [] -> exists r, merkle_root H leaves = Ok r.
Proof. exact C13_root_exists. Qed.
Print Assumptions C13_root_exists_for_every_tree.

(** Exactly the non-empty, strictly increasing lists of in-range indices get a proof... *)
Theorem C13_valid_requests_are_answered : forall H leaves ix,
  (StronglySorted lt ix /\ ix <> [] /\ (forall i, i ∈ ix -> i < length leaves)) <->
  (exists p, merkle_proof_of H leaves ix = Ok p /\ mp_leaf_count p = length leaves).
Proof. exact C13_request_lemma. Qed.
Print Assumptions C13_valid_requests_are_answered.

(** ...the others are refused (with a panic). *)
Theorem C13_other_requests_are_refused : forall H leaves ix,
  ~ (StronglySorted lt ix /\ ix <> [] /\ (forall i, i ∈ ix -> i < length leaves)) ->
  merkle_proof_of H leaves ix = Panic.
Proof. exact C13_refused_lemma. Qed.
Print Assumptions C13_other_requests_are_refused.

(** The proof verifies with the leaves at those indices, in any order. *)
Theorem C13_proofs_verify : forall H leaves ix p root claims,
  StronglySorted lt ix -> ix <> [] -> (forall i, i ∈ ix -> i < length leaves) ->
  merkle_proof_of H leaves ix = Ok p -> merkle_root H leaves = Ok root ->
  Permutation (map fst claims) ix -> (forall i l, (i, l) ∈ claims -> leaves !! i = Some l) ->
  merkle_verify H p root claims = Ok ().
Proof. exact C13_complete_lemma. Qed.
Print Assumptions C13_proofs_verify.

Example C13_ex : exists p root,
  merkle_proof_of ex_H ex_tree [1; 2; 6] = Ok p /\ merkle_root ex_H ex_tree = Ok root /\
  length (mp_hashes p) = 3 /\
  merkle_verify ex_H p root [(6, [7%N]); (1, [2%N]); (2, [3%N])] = Ok () /\
  merkle_verify ex_H p root [(6, [7%N]); (1, [2%N]); (2, [4%N])] = Err InvalidMerkleProof /\
  merkle_verify ex_H p root [(6, [7%N]); (1, [2%N])] = Err InvalidMerkleProof.
Proof. do 2 eexists. by split_and!; [vm_compute..]. Qed.
Example C13_ex_refused :
  merkle_proof_of ex_H ex_tree [2; 1] = Panic /\ merkle_proof_of ex_H ex_tree [1; 1] = Panic /\
  merkle_proof_of ex_H ex_tree [7] = Panic /\ merkle_proof_of ex_H ex_tree [] = Panic.
Proof. by split_and!. Qed.

(** ** C14 *)
(** If a proof verifies, each claimed leaf is the leaf at that index, or two different
    strings with the same hash are found among those hashed by the verification and by the
    construction of the tree. Partial: the claimed indices must be smaller than the leaf
    count and the claimed leaves as long as hashes, which [MerkleProof::verify] does not check.
    The first is needed, as [C14_out_of_range_claim_refuted] shows. *)
Theorem C14_claims_are_leaves_partial : forall H L tree p root claims,
  hash_len H L -> Forall (fun l => length l = L) tree ->
  merkle_root H tree = Ok root -> mp_leaf_count p = length tree ->
  (forall i l, (i, l) ∈ claims -> i < length tree /\ length l = L) ->
  merkle_verify H p root claims = Ok () ->
  (forall i l, (i, l) ∈ claims -> tree !! i = Some l) \/ merkle_collision H p claims tree.
Proof. exact C14_sound_lemma. Qed.
Print Assumptions C14_claims_are_leaves_partial.

(** A claim with a repeated index is rejected, whatever the leaves, and so is an empty claim. *)
Theorem C14_repeated_index_rejected : forall H p root claims,
  ~ NoDup (map fst claims) -> merkle_verify H p root claims = Err DuplicateIndices.
Proof. exact C14_duplicates_lemma. Qed.
Print Assumptions C14_repeated_index_rejected.
Theorem C14_empty_claim_rejected : forall H p root, merkle_verify H p root [] = Err InvalidMerkleProof.
Proof. exact C14_empty_lemma. Qed.
Print Assumptions C14_empty_claim_rejected.

(** The full property fails: for every hash function, when the last of three leaves is the hash of
    [a ++ b], then [b] can be claimed to be the leaf with index 3, with the right leaf
    count 3 (or with 4). *)
Theorem C14_promoted_leaf_can_be_opened_refuted : forall H a b x y count, count = 3 \/ count = 4 ->
  merkle_root H [x; y; H (a ++ b)] = Ok (H (H (x ++ y) ++ H (a ++ b))) /\
  merkle_verify H (MerkleProof count [a; H (x ++ y)]) (H (H (x ++ y) ++ H (a ++ b))) [(3, b)] = Ok ().
Proof. exact C14_forgery_lemma. Qed.
Print Assumptions C14_promoted_leaf_can_be_opened_refuted.

Lemma C14_refutation_witness :
  let tree := [[1]; [2]; ex_H [3; 4]]%N in
  let p := MerkleProof 3 [[3]; ex_H [1; 2]]%N in
  hash_len ex_H 1 /\ Forall (fun l => length l = 1) tree /\
  merkle_root ex_H tree = Ok (ex_H (ex_H [1; 2]%N ++ ex_H [3; 4]%N)) /\
  mp_leaf_count p = length tree /\
  merkle_verify ex_H p (ex_H (ex_H [1; 2]%N ++ ex_H [3; 4]%N)) [(3, [4]%N)] = Ok () /\
  tree !! 3 = None /\ ~ merkle_collision ex_H p [(3, [4]%N)] tree.
Proof.
  split_and!; [done|by repeat constructor|done|done|done|done|].
  intros (x & y & Hx & Hy & Hne & Heq).
  apply elem_of_list_In in Hx, Hy. vm_compute in Hx, Hy.
  destruct Hx as [<-|[<-|[]]], Hy as [<-|[<-|[]]]; vm_compute in Heq; try discriminate Heq; by apply Hne.
Qed.
(** In particular a claim outside of the tree is accepted without any collision. *)
Theorem C14_out_of_range_claim_refuted : exists H L tree p root i l,
  hash_len H L /\ Forall (fun l => length l = L) tree /\
  merkle_root H tree = Ok root /\ mp_leaf_count p = length tree /\
  merkle_verify H p root [(i, l)] = Ok () /\ tree !! i = None /\
  ~ merkle_collision H p [(i, l)] tree.
Proof. exact (ex_intro _ ex_H (ex_intro _ 1 (ex_intro _ _ (ex_intro _ _ (ex_intro _ _ (ex_intro _ 3
  (ex_intro _ _ C14_refutation_witness))))))). Qed.
Print Assumptions C14_out_of_range_claim_refuted.

Example C14_ex : hash_len ex_H 1 /\ Forall (fun l => length l = 1) ex_tree /\
  exists p root, merkle_proof_of ex_H ex_tree [3; 6] = Ok p /\ merkle_root ex_H ex_tree = Ok root /\
  merkle_verify ex_H p root [(3, [4%N]); (6, [7%N])] = Ok () /\
  merkle_verify ex_H p root [(3, [4%N]); (3, [4%N])] = Err DuplicateIndices.
Proof. split_and!; [done|by repeat constructor|]. do 2 eexists. by split_and!; [vm_compute..]. Qed.
