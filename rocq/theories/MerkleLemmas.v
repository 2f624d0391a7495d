(** Lemmas about Merkle trees. *)
From Verif.Lib Require Import Base.
From Verif Require Import MerkleModel MerkleSpec.

Notation keys l := (map fst l).
Notation ssorted := (StronglySorted lt).

Lemma ssorted_unique (l1 l2 : list nat) : ssorted l1 -> ssorted l2 -> (forall i, i ∈ l1 <-> i ∈ l2) -> l1 = l2.
Proof.
  intros H1. revert l2. induction H1 as [|a l1 H1 IH Ha]; intros l2 H2 Heq.
  - destruct l2 as [|b l2]; [done|]. exfalso. assert (b ∈ @nil nat) as Hb%elem_of_nil; [|done].
    apply Heq. by left.
  - destruct H2 as [|b l2 H2 Hb].
    { exfalso. assert (a ∈ @nil nat) as Hx%elem_of_nil; [|done]. apply Heq. by left. }
    rewrite Forall_forall in Ha, Hb.
    assert (a = b) as ->.
    { assert (a ∈ b :: l2) as [->|Hx]%elem_of_cons by (apply Heq; by left); [done|].
      assert (b ∈ a :: l1) as [->|Hy]%elem_of_cons by (apply Heq; by left); [done|].
      apply Hb in Hx. apply Ha in Hy. lia. }
    f_equal. apply IH; [done|]. intros i. split; intros Hi.
    + assert (i ∈ b :: l2) as [->|?]%elem_of_cons by (apply Heq; by right); [|done].
      apply Ha in Hi. lia.
    + assert (i ∈ b :: l1) as [->|?]%elem_of_cons by (apply Heq; by right); [|done].
      apply Hb in Hi. lia.
Qed.
Lemma ssorted_NoDup l : ssorted l -> NoDup l.
Proof.
  induction 1 as [|a l Hl IH Ha]; constructor; [|done]. intros Hin.
  rewrite Forall_forall in Ha. apply Ha in Hin. lia.
Qed.

(** ** Sorting *)
Section Sort.
  Context {A : Type}.
  Implicit Types l : list (nat * A).
  Lemma insert_by_perm x l : Permutation (insert_by x l) (x :: l).
  Proof.
    induction l as [|y l IH]; simpl; [done|]. destruct (fst x <? fst y); [done|].
    rewrite IH. apply Permutation_swap.
  Qed.
  Lemma sort_by_perm_gen l acc : Permutation (fold_left (fun acc x => insert_by x acc) l acc) (l ++ acc).
  Proof.
    revert acc. induction l as [|x l IH]; intros acc; simpl; [done|].
    rewrite IH, insert_by_perm. by rewrite Permutation_middle.
  Qed.
  Lemma sort_by_perm l : Permutation (sort_by l) l.
  Proof. unfold sort_by. rewrite sort_by_perm_gen. by rewrite app_nil_r. Qed.
  Lemma insert_by_sorted x l : ssorted (keys l) -> fst x ∉ keys l -> ssorted (keys (insert_by x l)).
  Proof.
    intros Hl Hx. induction l as [|y l IH]; simpl in *; [by repeat constructor|].
    inversion Hl as [|? ? Hl' Hy]; subst. destruct (Nat.ltb_spec (fst x) (fst y)) as [Hlt|Hge]; simpl.
    - constructor; [done|]. constructor; [done|]. eapply Forall_impl; [exact Hy|]. intros z Hz. simpl in Hz. lia.
    - assert (fst y < fst x).
      { assert (fst x <> fst y) by (intros E; apply Hx; rewrite E; by left). lia. }
      constructor.
      + apply IH; [done|]. intros Hin. apply Hx. by right.
      + rewrite Forall_forall in Hy |- *. intros z (w & -> & Hw)%elem_of_list_fmap.
        rewrite insert_by_perm in Hw. apply elem_of_cons in Hw as [->|Hw]; [done|].
        apply Hy. apply elem_of_list_fmap. eauto.
  Qed.
  Lemma sort_by_sorted_gen l acc : ssorted (keys acc) -> NoDup (keys (l ++ acc)) ->
    ssorted (keys (fold_left (fun acc x => insert_by x acc) l acc)).
  Proof.
    revert acc. induction l as [|x l IH]; intros acc Hacc Hnd; simpl; [done|].
    simpl in Hnd. apply NoDup_cons in Hnd as [Hx Hnd].
    apply IH.
    - apply insert_by_sorted; [done|]. intros Hin. apply Hx. rewrite fmap_app. apply elem_of_app. by right.
    - assert (Permutation (keys (l ++ insert_by x acc)) (keys (x :: l ++ acc))) as Hp.
      { apply fmap_Permutation. rewrite insert_by_perm. symmetry. apply Permutation_middle. }
      rewrite Hp. simpl. by constructor.
  Qed.
  Lemma sort_by_sorted l : NoDup (keys l) -> ssorted (keys (sort_by l)).
  Proof. intros Hnd. apply sort_by_sorted_gen; [constructor|by rewrite app_nil_r]. Qed.
  Lemma NoDup_keys_inj l k a b : NoDup (keys l) -> (k, a) ∈ l -> (k, b) ∈ l -> a = b.
  Proof.
    induction l as [|[k' c] l IH]; intros Hnd Ha Hb; [by apply elem_of_nil in Ha|].
    apply NoDup_cons in Hnd as [Hn Hnd].
    apply elem_of_cons in Ha as [Ha|Ha], Hb as [Hb|Hb].
    - congruence.
    - injection Ha as -> ->. exfalso. apply Hn. apply elem_of_list_fmap. by exists (k', b).
    - injection Hb as -> ->. exfalso. apply Hn. apply elem_of_list_fmap. by exists (k', a).
    - by apply IH.
  Qed.
  (** Lists sorted on distinct keys with the same members are equal. *)
  Lemma sorted_assoc_unique l1 l2 : ssorted (keys l1) -> ssorted (keys l2) ->
    (forall x, x ∈ l1 <-> x ∈ l2) -> l1 = l2.
  Proof.
    intros H1 H2 Heq.
    assert (keys l1 = keys l2) as Hk.
    { apply ssorted_unique; [done..|]. intros i. rewrite !elem_of_list_fmap. by setoid_rewrite Heq. }
    revert l2 H2 Heq Hk. induction l1 as [|[k a] l1 IH]; intros [|[k' b] l2] H2 Heq Hk; try done.
    simpl in Hk. injection Hk as <- Hk.
    assert (a = b) as ->.
    { eapply (NoDup_keys_inj ((k, a) :: l1)); [by apply ssorted_NoDup|by left|]. apply Heq. by left. }
    f_equal. inversion H1 as [|? ? H1' F1]; inversion H2 as [|? ? H2' F2]; subst.
    apply IH; [done|done| |done].
    rewrite Forall_forall in F1, F2. intros [j c]. split; intros Hin.
    - assert ((j, c) ∈ (k, b) :: l2) as [E|?]%elem_of_cons by (apply Heq; by right); [|done].
      injection E as -> ->. assert (k ∈ keys l1) as Hkk by (apply elem_of_list_fmap; by exists (k, b)).
      apply F1 in Hkk. simpl in Hkk. lia.
    - assert ((j, c) ∈ (k, b) :: l1) as [E|?]%elem_of_cons by (apply Heq; by right); [|done].
      injection E as -> ->. assert (k ∈ keys l2) as Hkk by (apply elem_of_list_fmap; by exists (k, b)).
      apply F2 in Hkk. simpl in Hkk. lia.
  Qed.
End Sort.

(** ** Indices *)
Lemma sibling_spec i : exists p, (i = 2 * p /\ sibling i = 2 * p + 1) \/ (i = 2 * p + 1 /\ sibling i = 2 * p).
Proof.
  unfold sibling. destruct (Nat.even i) eqn:E.
  - apply Nat.even_spec in E as [p ->]. exists p. left. lia.
  - assert (Nat.odd i = true) as Ho by (by rewrite <- Nat.negb_even, E).
    apply Nat.odd_spec in Ho as [p ->]. exists p. right. lia.
Qed.
Lemma sibling_inj : Inj (=) (=) sibling.
Proof.
  intros i j. destruct (sibling_spec i) as (p & [[-> ->]|[-> ->]]), (sibling_spec j) as (q & [[-> ->]|[-> ->]]); lia.
Qed.
Lemma sibling_ne i : sibling i <> i.
Proof. destruct (sibling_spec i) as (p & [[-> ->]|[-> ->]]); lia. Qed.
Lemma sibling_div2 i : Nat.div2 (sibling i) = Nat.div2 i.
Proof.
  destruct (sibling_spec i) as (p & [[-> ->]|[-> ->]]);
    rewrite ?Nat.add_1_r, ?Nat.div2_succ_double, ?Nat.div2_double; done.
Qed.
Lemma div2_le i : 2 * Nat.div2 i <= i.
Proof. pose proof (Nat.div2_odd i). destruct (Nat.odd i); simpl in *; lia. Qed.
Lemma div2_cases i : i = 2 * Nat.div2 i \/ i = 2 * Nat.div2 i + 1.
Proof. pose proof (Nat.div2_odd i). destruct (Nat.odd i); simpl in *; lia. Qed.

Lemma difference_elem i a b : i ∈ difference a b <-> i ∈ a /\ i ∉ b.
Proof.
  unfold difference. rewrite !elem_of_list_In, filter_In, negb_true_iff.
  assert (existsb (Nat.eqb i) b = false <-> ~ In i b) as ->; [|done].
  rewrite <- not_true_iff_false, existsb_exists. split; intros Hn; contradict Hn.
  - exists i. by rewrite Nat.eqb_refl.
  - destruct Hn as (x & Hx & ->%Nat.eqb_eq). done.
Qed.
Lemma filter_NoDup {A} (f : A -> bool) l : NoDup l -> NoDup (List.filter f l).
Proof. rewrite !NoDup_ListNoDup. apply List.NoDup_filter. Qed.
Lemma NoDup_map_inj {A B} (f : A -> B) l : Inj (=) (=) f -> NoDup l -> NoDup (map f l).
Proof. intros Hf. by apply (NoDup_fmap_2 f). Qed.

Lemma filter_all {A} (f g : A -> bool) l : (forall x, x ∈ l -> f x = true) ->
  List.filter f l = l.
Proof.
  induction l as [|x l IH]; intros Hf; [done|]. simpl. rewrite Hf by by left. f_equal. apply IH.
  intros y Hy. apply Hf. by right.
Qed.

(** The helper indices of a layer are the siblings that exist and are not known. *)
Lemma proof_indices_eq n ix : ssorted ix -> (forall i, i ∈ ix -> i < n) ->
  proof_indices n ix = List.filter (fun j => j <? n) (difference (map sibling ix) ix).
Proof.
  intros Hs Hlt. unfold proof_indices.
  assert (forall i, i ∈ ix -> sibling i < n \/ (sibling i = n /\ i = n - 1 /\ Nat.odd n = true)) as Hsib.
  { intros i Hi. apply Hlt in Hi. destruct (sibling_spec i) as (p & [[-> ->]|[-> ->]]); [|lia].
    destruct (decide (2 * p + 1 < n)); [by left|right]. split_and!; [lia|lia|].
    replace n with (2 * p + 1) by lia. apply Nat.odd_spec. by exists p. }
  unfold difference. set (f := fun i => negb (existsb (Nat.eqb i) ix)).
  assert (forall l, (forall i, i ∈ l -> i < n) -> List.filter f l = List.filter (fun j => j <? n) (List.filter f l)) as Hall.
  { intros l Hl. symmetry. apply (filter_all _ f). intros x Hx. apply Nat.ltb_lt, Hl.
    rewrite elem_of_list_In, filter_In in Hx. apply elem_of_list_In. tauto. }
  destruct (Nat.odd n && match last ix with Some i => i =? n - 1 | None => false end) eqn:E.
  - apply andb_true_iff in E as [Ho E]. destruct (last ix) as [i|] eqn:El; [|done].
    apply Nat.eqb_eq in E. subst i. apply last_Some in El as [ix0 Hix].
    assert (map sibling ix = map sibling ix0 ++ [n]) as Hm.
    { rewrite Hix, map_app. simpl. do 2 f_equal.
      assert (n - 1 ∈ ix) as Hin by (rewrite Hix; apply elem_of_app; right; by left).
      destruct (Hsib _ Hin) as [Hl|(? & _ & _)]; [|done].
      apply Nat.odd_spec in Ho as [p ->]. exfalso.
      destruct (sibling_spec (2 * p + 1 - 1)) as (q & [[H1 H2]|[H1 H2]]); lia. }
    assert (forall i, i ∈ map sibling ix0 -> i < n) as Hlt0.
    { intros j (i & -> & Hi)%elem_of_list_fmap.
      assert (i ∈ ix) as Hin by (rewrite Hix; apply elem_of_app; by left).
      destruct (Hsib i Hin) as [|(_ & Hi' & _)]; [done|]. exfalso. subst i.
      rewrite Hix in Hs. apply ssorted_NoDup in Hs. apply NoDup_app in Hs as (_ & Hd & _).
      apply (Hd (n - 1) Hi). by left. }
    rewrite Hm, removelast_last. rewrite (Hall (map sibling ix0)) by done.
    rewrite !List.filter_app. rewrite <- (app_nil_r (List.filter _ (List.filter f (map sibling ix0)))) at 1. f_equal.
    simpl. destruct (f n); simpl; [|done]. by rewrite Nat.ltb_irrefl.
  - apply Hall. intros j (i & -> & Hi)%elem_of_list_fmap.
    destruct (Hsib i Hi) as [|(_ & -> & Ho)]; [done|]. exfalso. rewrite Ho in E. simpl in E.
    (* [n - 1] is in the list and is its maximum, hence the last *)
    destruct ix as [|x ix' _] using rev_ind; [by apply elem_of_nil in Hi|].
    rewrite last_snoc in E. apply Nat.eqb_neq in E.
    apply elem_of_app in Hi as [Hi|Hi%elem_of_list_singleton]; [|by subst].
    assert (n - 1 < x).
    { clear -Hs Hi. induction ix' as [|y ix' IH]; [by apply elem_of_nil in Hi|].
      simpl in Hs. inversion Hs as [|? ? Hs' HF]; subst. rewrite Forall_forall in HF.
      apply elem_of_cons in Hi as [->|Hi]; [|by apply IH]. apply HF. apply elem_of_app. right. by left. }
    assert (x < n) by (apply Hlt, elem_of_app; right; by left). lia.
Qed.
Lemma proof_indices_elem n ix j : ssorted ix -> (forall i, i ∈ ix -> i < n) ->
  j ∈ proof_indices n ix <-> j < n /\ j ∉ ix /\ exists i, i ∈ ix /\ j = sibling i.
Proof.
  intros Hs Hlt. rewrite proof_indices_eq by done.
  rewrite elem_of_list_In, filter_In, Nat.ltb_lt, <- elem_of_list_In, difference_elem, elem_of_list_fmap.
  naive_solver.
Qed.
Lemma proof_indices_NoDup n ix : ssorted ix -> (forall i, i ∈ ix -> i < n) -> NoDup (proof_indices n ix).
Proof.
  intros Hs Hlt. rewrite proof_indices_eq by done. apply filter_NoDup. unfold difference.
  apply filter_NoDup, NoDup_map_inj; [apply sibling_inj|by apply ssorted_NoDup].
Qed.

(** ** A layer with its helpers *)
Record closed {A} (n : nat) (comb : list (nat * A)) : Prop := {
  cl_sorted : ssorted (keys comb);
  cl_lt : forall i, i ∈ keys comb -> i < n;
  cl_sib : forall i, i ∈ keys comb -> sibling i < n -> sibling i ∈ keys comb;
}.
Lemma keys_zip (hs : list nat) (vs : list (list N)) : length vs = length hs -> keys (zip hs vs) = hs.
Proof. intros Hl. apply fst_zip. lia. Qed.
Lemma comb_closed n (nodes : list (nat * list N)) vs :
  ssorted (keys nodes) -> (forall i, i ∈ keys nodes -> i < n) ->
  length vs = length (proof_indices n (keys nodes)) ->
  closed n (sort_by (nodes ++ zip (proof_indices n (keys nodes)) vs)).
Proof.
  intros Hs Hlt Hl. set (hs := proof_indices n (keys nodes)) in *.
  assert (keys (nodes ++ zip hs vs) = keys nodes ++ hs) as Hk.
  { by rewrite map_app, keys_zip. }
  assert (forall i, i ∈ keys (sort_by (nodes ++ zip hs vs)) <-> i ∈ keys nodes \/ i ∈ hs) as Hel.
  { intros i. rewrite <- elem_of_app, <- Hk. apply elem_of_Permutation_proper, fmap_Permutation, sort_by_perm. }
  split.
  - apply sort_by_sorted. rewrite Hk. apply NoDup_app. split_and!; [by apply ssorted_NoDup| |by apply proof_indices_NoDup].
    intros i Hi Hh. apply proof_indices_elem in Hh as (_ & Hn & _); done.
  - intros i [Hi|Hi]%Hel; [by apply Hlt|]. by apply proof_indices_elem in Hi as (? & _ & _).
  - intros i [Hi|Hi]%Hel Hsib; apply Hel.
    + destruct (decide (sibling i ∈ keys nodes)); [by left|right]. apply proof_indices_elem; [done..|]. eauto.
    + left. apply proof_indices_elem in Hi as (_ & _ & j & Hj & ->); [|done..].
      assert (sibling (sibling j) = j) as ->; [|done].
      destruct (sibling_spec j) as (p & [[-> ->]|[-> ->]]).
      * destruct (sibling_spec (2 * p + 1)) as (q & [[H1 ->]|[H1 ->]]); lia.
      * destruct (sibling_spec (2 * p)) as (q & [[H1 ->]|[H1 ->]]); lia.
Qed.

Section WithHash.
  Context (H : list N -> list N).
  Notation next_layer := (next_layer H).
  Notation layer := (layer H).
  Notation parents := (parents H).
  Notation proof_root := (proof_root H).
  Notation proof_inputs := (proof_inputs H).
  Notation tree_inputs := (tree_inputs H).
  Notation helper_nodes := (helper_nodes H).

  Lemma list_pair_ind {A} (P : list A -> Prop) : P [] -> (forall a, P [a]) ->
    (forall a b l, P l -> P (a :: b :: l)) -> forall l, P l.
  Proof.
    intros H0 H1 H2. assert (forall l, P l /\ forall a, P (a :: l)) as Hg; [|intros l; apply Hg].
    induction l as [|b l [IH1 IH2]]; [by split|]. split; [apply IH2|]. intros a. by apply H2.
  Qed.
  Lemma next_layer_length l : length (next_layer l) = (length l + 1) / 2.
  Proof.
    induction l as [|a|a b l IH] using list_pair_ind; [done|done|].
    cbn [MerkleModel.next_layer length]. rewrite IH. replace (S (S (length l)) + 1) with (1 * 2 + (length l + 1)) by lia.
    rewrite Nat.div_add_l by lia. lia.
  Qed.
  Lemma next_layer_lookup2 l p a b : l !! (2 * p) = Some a -> l !! (2 * p + 1) = Some b ->
    next_layer l !! p = Some (H (a ++ b)).
  Proof.
    revert p. induction l as [|x|x y l IH] using list_pair_ind; intros p Ha Hb.
    - done.
    - destruct p; [done|]. by rewrite Nat.mul_comm in Ha.
    - destruct p as [|p]; [simpl in *; congruence|].
      cbn [MerkleModel.next_layer lookup list_lookup]. apply IH.
      + by replace (2 * S p) with (S (S (2 * p))) in Ha by lia.
      + by replace (2 * S p + 1) with (S (S (2 * p + 1))) in Hb by lia.
  Qed.
  Lemma next_layer_lookup1 l p a : l !! (2 * p) = Some a -> length l = 2 * p + 1 -> next_layer l !! p = Some a.
  Proof.
    revert p. induction l as [|x|x y l IH] using list_pair_ind; intros p Ha Hl.
    - done.
    - destruct p; [done|]. simpl in Hl. lia.
    - destruct p as [|p]; [simpl in Hl; lia|].
      cbn [MerkleModel.next_layer lookup list_lookup]. apply IH.
      + by replace (2 * S p) with (S (S (2 * p))) in Ha by lia.
      + simpl in Hl. lia.
  Qed.
  Lemma pair_inputs_lookup l p a b : l !! (2 * p) = Some a -> l !! (2 * p + 1) = Some b -> a ++ b ∈ pair_inputs l.
  Proof.
    revert p. induction l as [|x|x y l IH] using list_pair_ind; intros p Ha Hb.
    - done.
    - destruct p; [done|]. by rewrite Nat.mul_comm in Ha.
    - cbn [pair_inputs]. destruct p as [|p]; [simpl in *; injection Ha as ->; injection Hb as ->; by left|]. right. apply (IH p).
      + by replace (2 * S p) with (S (S (2 * p))) in Ha by lia.
      + by replace (2 * S p + 1) with (S (S (2 * p + 1))) in Hb by lia.
  Qed.

  (** ** Parent indices *)
  Lemma parent_indices_cons2 p l : (forall i, i ∈ l -> 2 * p + 2 <= i) ->
    parent_indices (2 * p :: 2 * p + 1 :: l) = p :: parent_indices l.
  Proof.
    intros Hl. unfold parent_indices. cbn [map].
    rewrite Nat.add_1_r, Nat.div2_double, Nat.div2_succ_double. cbn [dedup]. rewrite Nat.eqb_refl.
    destruct (map Nat.div2 l) as [|q l'] eqn:E; [done|].
    assert (exists i, i ∈ l /\ q = Nat.div2 i) as (i & Hi & ->).
    { assert (q ∈ map Nat.div2 l) as (i & -> & Hi)%elem_of_list_fmap by (rewrite E; by left). eauto. }
    apply Hl in Hi. destruct (div2_cases i); destruct (Nat.eqb_spec p (Nat.div2 i)); [lia|done|lia|done].
  Qed.
  Lemma dedup_elem l i : i ∈ dedup l <-> i ∈ l.
  Proof.
    induction l as [|a l IH]; [done|]. cbn [dedup]. destruct l as [|b l]; [done|].
    destruct (Nat.eqb_spec a b) as [->|Hne].
    - rewrite IH. rewrite !elem_of_cons. tauto.
    - rewrite elem_of_cons, IH. by rewrite !elem_of_cons.
  Qed.
  Lemma dedup_sorted l : StronglySorted le l -> ssorted (dedup l).
  Proof.
    induction 1 as [|a l Hl IH Ha]; [constructor|]. cbn [dedup]. destruct l as [|b l]; [by repeat constructor|].
    destruct (Nat.eqb_spec a b) as [->|Hne]; [done|]. constructor; [done|].
    inversion Hl as [|? ? _ Hb]; subst. rewrite Forall_forall in Ha, Hb |- *.
    intros i Hi. rewrite dedup_elem in Hi. assert (a <= b) by (apply Ha; by left).
    apply elem_of_cons in Hi as [->|Hi]; [lia|]. apply Hb in Hi. lia.
  Qed.
  Lemma parent_indices_elem l p : p ∈ parent_indices l <-> exists i, i ∈ l /\ p = Nat.div2 i.
  Proof. unfold parent_indices. rewrite dedup_elem, elem_of_list_fmap. naive_solver. Qed.
  Lemma parent_indices_sorted l : ssorted l -> ssorted (parent_indices l).
  Proof.
    intros Hl. apply dedup_sorted. induction Hl as [|a l Hl IH Ha]; simpl; constructor; [done|].
    rewrite Forall_forall in Ha |- *. intros q (i & -> & Hi)%elem_of_list_fmap. apply Ha in Hi.
    destruct (div2_cases a), (div2_cases i); lia.
  Qed.

  (** What a parent of a layer is made of. *)
  Definition parent_of (n : nat) (comb : list (nat * list N)) (pv : nat * list N) : Prop :=
    exists a, (2 * fst pv, a) ∈ comb /\
      if decide (2 * fst pv + 1 < n)
      then exists b, (2 * fst pv + 1, b) ∈ comb /\ snd pv = H (a ++ b) /\ a ++ b ∈ pair_inputs (map snd comb)
      else snd pv = a.

  Lemma parents_closed n comb : closed n comb ->
    exists nodes', parents (parent_indices (keys comb)) (map snd comb) = Some nodes' /\
      keys nodes' = parent_indices (keys comb) /\ Forall (parent_of n comb) nodes'.
  Proof.
    induction comb as [|[i a]|[i a] [j b] comb IH] using list_pair_ind; intros Hc.
    - exists []. by split_and!.
    - assert (exists p, i = 2 * p /\ n = 2 * p + 1) as (p & -> & ->).
      { assert (i ∈ [i]) as Hi by by left.
        pose proof (cl_lt _ _ Hc i Hi). pose proof (cl_sib _ _ Hc i Hi) as Hsib. simpl in Hsib.
        destruct (sibling_spec i) as (p & [[-> Es]|[-> Es]]); rewrite Es in Hsib.
        - exists p. split; [done|]. destruct (decide (2 * p + 1 < n)) as [Hl|]; [|lia].
          specialize (Hsib Hl). apply elem_of_list_singleton in Hsib. lia.
        - assert (2 * p < n) as Hl by lia. specialize (Hsib Hl). apply elem_of_list_singleton in Hsib. lia. }
      change (keys [(2 * p, a)]) with [2 * p]. unfold parent_indices. cbn [map dedup].
      rewrite Nat.div2_double. cbn [MerkleModel.parents map snd]. eexists. split_and!; [done|done|].
      constructor; [|done]. exists a. cbn [fst snd]. split; [by left|].
      case_decide; [lia|done].
    - assert (exists p, i = 2 * p /\ j = 2 * p + 1 /\ forall k, k ∈ keys comb -> 2 * p + 2 <= k) as (p & -> & -> & Hge).
      { assert (i ∈ keys ((i, a) :: (j, b) :: comb)) as Hi by by left.
        pose proof (cl_sorted _ _ Hc) as Hs. simpl in Hs.
        inversion Hs as [|? ? Hs' HF]; subst. inversion Hs' as [|? ? Hs'' HF']; subst.
        rewrite Forall_forall in HF, HF'.
        assert (i < j) by (apply HF; by left).
        assert (i + 1 <= j) by lia.
        pose proof (cl_lt _ _ Hc i Hi). assert (j < n) by (apply (cl_lt _ _ Hc); simpl; right; by left).
        pose proof (cl_sib _ _ Hc i Hi) as Hsib. simpl in Hsib.
        destruct (sibling_spec i) as (p & [[-> Es]|[-> Es]]); rewrite Es in Hsib.
        - exists p. split; [done|]. assert (2 * p + 1 < n) as Hl by lia. specialize (Hsib Hl).
          apply elem_of_cons in Hsib as [?|Hsib]; [lia|].
          apply elem_of_cons in Hsib as [Hj|Hsib].
          + split; [done|]. intros k Hk. apply HF' in Hk. lia.
          + apply HF' in Hsib. lia.
        - assert (2 * p < n) as Hl by lia. specialize (Hsib Hl).
          apply elem_of_cons in Hsib as [?|Hsib]; [lia|].
          apply HF in Hsib. lia. }
      assert (closed n comb) as Hc'.
      { pose proof (cl_sorted _ _ Hc) as Hs. simpl in Hs.
        inversion Hs as [|? ? Hs' HF]; subst. inversion Hs' as [|? ? Hs'' HF']; subst.
        split; [done| |].
        - intros k Hk. apply (cl_lt _ _ Hc). simpl. right. by right.
        - intros k Hk Hl. assert (sibling k ∈ keys ((2 * p, a) :: (2 * p + 1, b) :: comb)) as Hin.
          { apply (cl_sib _ _ Hc); [|done]. simpl. right. by right. }
          simpl in Hin. apply Hge in Hk.
          apply elem_of_cons in Hin as [E|Hin].
          { destruct (sibling_spec k) as (q & [[-> Es]|[-> Es]]); rewrite Es in E; lia. }
          apply elem_of_cons in Hin as [E|Hin]; [|done].
          destruct (sibling_spec k) as (q & [[-> Es]|[-> Es]]); rewrite Es in E; lia. }
      destruct (IH Hc') as (nodes' & Hp & Hk & HF).
      change (keys ((2 * p, a) :: (2 * p + 1, b) :: comb)) with (2 * p :: 2 * p + 1 :: keys comb).
      rewrite parent_indices_cons2 by done. cbn [MerkleModel.parents map snd]. rewrite Hp.
      eexists. split_and!; [done| |].
      + simpl. by rewrite Hk.
      + constructor.
        * exists a. cbn [fst snd]. split; [by left|].
          assert (2 * p + 1 < n) by (apply (cl_lt _ _ Hc); simpl; right; by left).
          destruct (decide (2 * p + 1 < n)); [|done]. exists b. split_and!; [right; by left|done|].
          cbn [map snd pair_inputs]. by left.
        * eapply Forall_impl; [exact HF|]. intros [q v] (a' & Ha' & Hrest). exists a'. cbn [fst snd] in *.
          split; [right; by right|]. destruct (decide (2 * q + 1 < n)); [|done].
          destruct Hrest as (b' & Hb' & Hv & Hin). exists b'. split_and!; [right; by right|done|].
          cbn [map snd pair_inputs]. by right.
  Qed.

  Definition is_node (lay : list (list N)) (iv : nat * list N) : Prop := lay !! fst iv = Some (snd iv).

  Lemma half_bounds n d : 1 <= n -> n <= 2 ^ S d -> 1 <= (n + 1) / 2 <= 2 ^ d.
  Proof.
    intros H1 H2. rewrite Nat.pow_succ_r' in H2. split.
    - apply Nat.div_le_lower_bound; lia.
    - apply Nat.lt_succ_r, Nat.div_lt_upper_bound; lia.
  Qed.
  Lemma key_half i n : i < n -> Nat.div2 i < (n + 1) / 2.
  Proof.
    intros Hi. destruct (div2_cases i); apply Nat.lt_le_trans with (S (Nat.div2 i)); try lia;
      apply Nat.div_le_lower_bound; lia.
  Qed.

  Lemma keys_parents_eq n (nodes : list (nat * list N)) vs :
    ssorted (keys nodes) -> (forall i, i ∈ keys nodes -> i < n) ->
    length vs = length (proof_indices n (keys nodes)) ->
    parent_indices (keys (sort_by (nodes ++ zip (proof_indices n (keys nodes)) vs))) = parent_indices (keys nodes).
  Proof.
    intros Hs Hlt Hl. pose proof (comb_closed n nodes vs Hs Hlt Hl) as Hc.
    apply ssorted_unique; [apply parent_indices_sorted, (cl_sorted _ _ Hc)|by apply parent_indices_sorted|].
    intros p. rewrite !parent_indices_elem.
    assert (forall i, i ∈ keys (sort_by (nodes ++ zip (proof_indices n (keys nodes)) vs)) <->
      i ∈ keys nodes \/ i ∈ proof_indices n (keys nodes)) as Hel.
    { intros i. rewrite <- elem_of_app.
      assert (keys nodes ++ proof_indices n (keys nodes) = keys (nodes ++ zip (proof_indices n (keys nodes)) vs)) as ->
        by (by rewrite map_app, keys_zip).
      apply elem_of_Permutation_proper, fmap_Permutation, sort_by_perm. }
    split.
    - intros (i & [Hi|Hi]%Hel & ->); [by eauto|].
      apply proof_indices_elem in Hi as (_ & _ & j & Hj & ->); [|done..]. exists j. by rewrite sibling_div2.
    - intros (i & Hi & ->). exists i. split; [|done]. apply Hel. by left.
  Qed.

  (** ** Completeness *)
  Lemma omap_filter_lookup (lay : list (list N)) l :
    omap (fun i => lay !! i) l = omap (fun i => lay !! i) (List.filter (fun j => j <? length lay) l).
  Proof.
    induction l as [|i l IH]; [done|]. csimpl. destruct (Nat.ltb_spec i (length lay)) as [Hi|Hi].
    - csimpl. by rewrite IH.
    - by rewrite lookup_ge_None_2.
  Qed.
  Lemma omap_lookup_all (lay : list (list N)) l : (forall i, i ∈ l -> i < length lay) ->
    length (omap (fun i => lay !! i) l) = length l /\ Forall (is_node lay) (zip l (omap (fun i => lay !! i) l)).
  Proof.
    induction l as [|i l IH]; intros Hl; [split; [done|constructor]|]. csimpl.
    destruct (lay !! i) as [h|] eqn:E.
    - csimpl. destruct IH as [IH1 IH2]; [intros; apply Hl; by right|]. split; [by rewrite IH1|]. by constructor.
    - exfalso. apply lookup_ge_None_1 in E. assert (i < length lay) by (apply Hl; by left). lia.
  Qed.

  Lemma proof_root_complete d lay nodes extra :
    1 <= length lay -> length lay <= 2 ^ d -> nodes <> [] -> ssorted (keys nodes) -> Forall (is_node lay) nodes ->
    proof_root d (length lay) nodes (helper_nodes d lay (keys nodes) ++ extra) = layer d lay !! 0.
  Proof.
    revert lay nodes. induction d as [|d IH]; intros lay nodes H1 H2 Hne Hs HF.
    - simpl in H2. destruct nodes as [|[i h] nodes]; [done|]. inversion HF as [|? ? Hh _]; subst.
      unfold is_node in Hh. simpl in *. assert (i < length lay) by by eapply lookup_lt_Some. by replace i with 0 in Hh by lia.
    - assert (forall i, i ∈ keys nodes -> i < length lay) as Hlt.
      { intros i ([i' h] & -> & Hin)%elem_of_list_fmap. rewrite Forall_forall in HF. apply HF in Hin.
        by eapply lookup_lt_Some. }
      cbn [MerkleModel.proof_root MerkleModel.helper_nodes MerkleModel.layer].
      set (n := length lay) in *. set (hs := proof_indices n (keys nodes)).
      rewrite omap_filter_lookup. fold n. rewrite <- proof_indices_eq by done. fold hs.
      set (vs := omap (fun i => lay !! i) hs).
      destruct (omap_lookup_all lay hs) as [Hlen Hz].
      { intros i Hi. by apply proof_indices_elem in Hi as (? & _ & _). }
      fold vs in Hlen, Hz. rewrite <- app_assoc.
      destruct (Nat.ltb_spec (length (vs ++ helper_nodes d (next_layer lay) (parent_indices (keys nodes)) ++ extra)) (length hs)) as [Hbad|_].
      { rewrite app_length in Hbad. lia. }
      rewrite take_app_alt, drop_app_alt by done.
      pose proof (comb_closed n nodes vs Hs Hlt Hlen) as Hc. fold hs in Hc.
      destruct (parents_closed n _ Hc) as (nodes' & Hp & Hk & HF').
      rewrite Hp. pose proof (keys_parents_eq n nodes vs Hs Hlt Hlen) as Hkeq. fold hs in Hkeq.
      rewrite Hkeq in Hk. rewrite <- Hk.
      replace ((n + 1) / 2) with (length (next_layer lay)) by apply next_layer_length.
      assert (Forall (is_node lay) (sort_by (nodes ++ zip hs vs))) as Hnodes.
      { rewrite Forall_forall. intros x. rewrite sort_by_perm. rewrite elem_of_app.
        rewrite Forall_forall in HF, Hz. naive_solver. }
      rewrite Forall_forall in Hnodes.
      apply IH.
      + rewrite next_layer_length. by apply (half_bounds (length lay) d).
      + rewrite next_layer_length. by apply (half_bounds (length lay) d).
      + intros ->. destruct nodes as [|[i h] nodes]; [done|]. simpl in Hk. 
        assert (Nat.div2 i ∈ @nil nat) as Hx%elem_of_nil; [|done].
        rewrite Hk. apply parent_indices_elem. exists i. split; [by left|done].
      + rewrite Hk. by apply parent_indices_sorted.
      + rewrite Forall_forall in HF' |- *. intros [p v] Hin. apply HF' in Hin as (a & Ha & Hrest).
        cbn [fst snd] in *. unfold is_node. cbn [fst snd]. apply Hnodes in Ha. unfold is_node in Ha. cbn [fst snd] in Ha.
        destruct (decide (2 * p + 1 < n)).
        * destruct Hrest as (b & Hb & -> & _). apply Hnodes in Hb. by apply next_layer_lookup2.
        * subst v. apply next_layer_lookup1; [done|]. apply lookup_lt_Some in Ha. unfold n in *. lia.
  Qed.

  (** ** Soundness *)
  Global Instance is_node_dec lay iv : Decision (is_node lay iv).
  Proof. unfold is_node. apply _. Qed.

  Lemma proof_root_sound L d lay nodes proof :
    hash_len H L -> 1 <= length lay -> length lay <= 2 ^ d -> Forall (fun h => length h = L) lay ->
    ssorted (keys nodes) -> (forall i, i ∈ keys nodes -> i < length lay) ->
    Forall (fun iv => length (snd iv) = L) nodes ->
    proof_root d (length lay) nodes proof = layer d lay !! 0 ->
    Forall (is_node lay) nodes \/
    exists x y, x ∈ proof_inputs d (length lay) nodes proof /\ y ∈ tree_inputs d lay /\ x <> y /\ H x = H y.
  Proof.
    intros HL. revert lay nodes proof. induction d as [|d IH]; intros lay nodes proof H1 H2 Hlay Hs Hlt Hnl Hr.
    - left. simpl in H2. destruct nodes as [|[i h] nodes]; [done|]. simpl in Hr, Hs, Hlt.
      assert (i = 0) as ->. { assert (i < length lay) by (apply Hlt; by left). lia. }
      destruct nodes as [|[j h'] nodes].
      + constructor; [|done]. unfold is_node. simpl. done.
      + exfalso. inversion Hs as [|? ? _ HF]; subst. rewrite Forall_forall in HF. simpl in HF.
        assert (0 < j) by (apply HF; by left). assert (j < length lay) by (apply Hlt; right; by left). lia.
    - cbn [MerkleModel.proof_root MerkleSpec.tree_inputs MerkleModel.proof_inputs MerkleModel.layer] in *.
      set (n := length lay) in *. set (hs := proof_indices n (keys nodes)) in *.
      destruct (Nat.ltb_spec (length proof) (length hs)) as [Hbad|Hlen].
      { exfalso. symmetry in Hr. apply lookup_ge_None_1 in Hr.
        assert (forall k l, 1 <= length l -> 1 <= length (layer k l)) as Hlayer.
        { clear. induction k as [|k IHk]; intros l Hl; [done|]. simpl. apply IHk. rewrite next_layer_length.
          apply Nat.div_le_lower_bound; lia. }
        specialize (Hlayer (S d) lay H1). simpl in Hlayer. lia. }
      assert (length (take (length hs) proof) = length hs) as Hvl by (rewrite take_length; lia).
      set (vs := take (length hs) proof) in *.
      pose proof (comb_closed n nodes vs Hs Hlt Hvl) as Hc. fold hs in Hc.
      destruct (parents_closed n _ Hc) as (nodes' & Hp & Hk & HF').
      set (comb := sort_by (nodes ++ zip hs vs)) in *.
      rewrite Hp in Hr |- *. pose proof (keys_parents_eq n nodes vs Hs Hlt Hvl) as Hkeq. fold hs comb in Hkeq.
      rewrite Hkeq in Hk.
      assert (forall x, x ∈ comb <-> x ∈ nodes \/ x ∈ zip hs vs) as Hcomb.
      { intros x. unfold comb. by rewrite sort_by_perm, elem_of_app. }
      assert (NoDup (keys comb)) as Hnd by apply ssorted_NoDup, (cl_sorted _ _ Hc).
      rewrite Forall_forall in HF', Hnl.
      assert (forall x, x ∈ zip hs vs -> fst x ∈ hs) as Hzk.
      { intros x Hx. rewrite <- (keys_zip hs vs) by done. apply elem_of_list_fmap. by exists x. }
      assert ((n + 1) / 2 = length (next_layer lay)) as Hn2 by (symmetry; apply next_layer_length).
      rewrite Hn2 in Hr |- *.
      assert (forall x, length (H x) = L) as HL' by exact HL.
      edestruct (IH (next_layer lay) nodes') as [Hall|Hcol]; [..|exact Hr| |].
      + rewrite <- Hn2. by apply (half_bounds n d).
      + rewrite <- Hn2. by apply (half_bounds n d).
      + clear -Hlay HL'. induction lay as [|a|a b lay IHl] using list_pair_ind; simpl; [done|done|].
        inversion Hlay as [|? ? _ Hlay']; inversion Hlay' as [|? ? _ Hlay'']; subst.
        constructor; [apply HL'|by apply IHl].
      + rewrite Hk. by apply parent_indices_sorted.
      + intros p Hp'. rewrite Hk in Hp'. apply parent_indices_elem in Hp' as (i & Hi & ->).
        rewrite <- Hn2. apply key_half. by apply Hlt.
      + rewrite Forall_forall. intros [p v] Hin. destruct (HF' _ Hin) as (a & Ha & Hrest). cbn [fst snd] in *.
        destruct (decide (2 * p + 1 < n)) as [Hlt'|Hge]; [destruct Hrest as (b & _ & -> & _); apply HL'|].
        subst v. apply Hcomb in Ha as [Ha|Ha]; [by apply (Hnl (2 * p, a))|].
        exfalso. apply Hzk in Ha. cbn [fst] in Ha. apply proof_indices_elem in Ha as (_ & _ & i & Hi & E); [|done..].
        apply Hlt in Hi. destruct (sibling_spec i) as (q & [[-> Es]|[-> Es]]); rewrite Es in E; lia.
      + (* all parents are right *)
        destruct (decide (Forall (is_node lay) nodes)) as [|Hnot]; [by left|right].
        apply not_Forall_Exists in Hnot; [|apply _]. apply Exists_exists in Hnot as ([i h] & Hin & Hbad).
        assert (i ∈ keys nodes) as Hik by (apply elem_of_list_fmap; by exists (i, h)).
        assert (i < n) as Hi by by apply Hlt.
        set (p := Nat.div2 i).
        assert (p ∈ keys nodes') as ([p' v] & Hpe & Hpin)%elem_of_list_fmap.
        { rewrite Hk. apply parent_indices_elem. eauto. }
        simpl in Hpe. subst p'. rewrite Forall_forall in Hall. pose proof (Hall _ Hpin) as Hv.
        unfold is_node in Hv, Hbad. cbn [fst snd] in *.
        destruct (HF' _ Hpin) as (a & Ha & Hrest). cbn [fst snd] in *.
        assert ((i, h) ∈ comb) as Hic by (apply Hcomb; by left).
        assert (2 * p < n) as H2p by (pose proof (div2_le i); unfold p; lia).
        destruct (lookup_lt_is_Some_2 lay (2 * p) H2p) as [la Hla].
        assert (length h = L) as Hhl by (by apply (Hnl (i, h))).
        assert (length la = L) as Hlal.
        { rewrite Forall_forall in Hlay. apply Hlay. by eapply elem_of_list_lookup_2. }
        destruct (decide (2 * p + 1 < n)) as [Hlt'|Hge].
        * destruct Hrest as (b & Hb & -> & Hinp).
          destruct (lookup_lt_is_Some_2 lay (2 * p + 1) Hlt') as [lb Hlb].
          assert (length lb = L) as Hlbl.
          { rewrite Forall_forall in Hlay. apply Hlay. by eapply elem_of_list_lookup_2. }
          rewrite (next_layer_lookup2 lay p la lb) in Hv by done. injection Hv as Hv.
          exists (a ++ b), (la ++ lb). split_and!.
          -- apply elem_of_app. by left.
          -- apply elem_of_app. left. by eapply pair_inputs_lookup.
          -- intros Heq. apply Hbad. destruct (div2_cases i) as [Ei|Ei]; fold p in Ei.
             ++ assert (a = h) as -> by (eapply (NoDup_keys_inj comb (2 * p)); [done|done|by rewrite <- Ei]).
                apply app_inj_1 in Heq as [-> _]; [by rewrite Ei|congruence].
             ++ assert (b = h) as -> by (eapply (NoDup_keys_inj comb (2 * p + 1)); [done|done|by rewrite <- Ei]).
                apply app_inj_2 in Heq as [_ ->]; [by rewrite Ei|congruence].
          -- done.
        * subst v. exfalso. apply Hbad. assert (n = 2 * p + 1) by lia.
          rewrite (next_layer_lookup1 lay p la) in Hv by done. injection Hv as <-.
          assert (i = 2 * p) as Ei0 by (destruct (div2_cases i) as [Ei|Ei]; fold p in Ei; lia).
          rewrite Ei0. cbn [fst snd]. rewrite Hla. f_equal. eapply (NoDup_keys_inj comb (2 * p)); [done|done|by rewrite <- Ei0].
      + right. destruct Hcol as (x & y & Hx & Hy & Hne & Heq). exists x, y. split_and!; [| |done|done].
        * apply elem_of_app. by right.
        * apply elem_of_app. by right.
  Qed.
End WithHash.

Lemma tree_depth_le n : n <= 2 ^ tree_depth n.
Proof.
  unfold tree_depth. destruct (Nat.eqb_spec n 1) as [->|Hn]; [simpl; lia|].
  destruct n as [|[|n]]; [simpl; lia|done|]. apply Nat.log2_up_spec. lia.
Qed.
Lemma sorted_nodup_ssorted l : sorted_nodup l = true <-> ssorted l.
Proof.
  induction l as [|a l IH]; [split; [constructor|done]|]. simpl. destruct l as [|b l].
  { split; [by repeat constructor|done]. }
  rewrite andb_true_iff, Nat.ltb_lt, IH. split.
  - intros [Hab Hs]. constructor; [done|]. inversion Hs as [|? ? _ HF]; subst. constructor; [done|].
    eapply Forall_impl; [exact HF|]. simpl. lia.
  - intros Hs. inversion Hs as [|? ? Hs' HF]; subst. inversion HF; subst. done.
Qed.
Lemma ssorted_last_max l i j : ssorted l -> last l = Some i -> j ∈ l -> j <= i.
Proof.
  intros Hs Hl Hj. apply last_Some in Hl as [l' ->]. apply elem_of_app in Hj as [Hj|Hj%elem_of_list_singleton]; [|lia].
  induction l' as [|y l' IH]; [by apply elem_of_nil in Hj|].
  simpl in Hs. inversion Hs as [|? ? Hs' HF]; subst. rewrite Forall_forall in HF.
  apply elem_of_cons in Hj as [->|Hj]; [|by apply IH].
  apply Nat.lt_le_incl, HF. apply elem_of_app. right. by left.
Qed.

Lemma C13_root_exists H leaves : leaves <> [] -> exists r, merkle_root H leaves = Ok r.
Proof.
  intros Hne. unfold merkle_root, rs_root.
  assert (forall k l, l <> [] -> layer H k l <> []) as Hlayer.
  { induction k as [|k IHk]; intros l Hl; [done|]. simpl. apply IHk. destruct l as [|a [|b l]]; done. }
  specialize (Hlayer (tree_depth (length leaves)) leaves Hne).
  destruct (layer H (tree_depth (length leaves)) leaves) as [|r rest]; [done|]. by exists r.
Qed.
Lemma C13_complete_lemma H leaves ix p root claims :
  ssorted ix -> ix <> [] -> (forall i, i ∈ ix -> i < length leaves) ->
  merkle_proof_of H leaves ix = Ok p -> merkle_root H leaves = Ok root ->
  Permutation (map fst claims) ix -> (forall i l, (i, l) ∈ claims -> leaves !! i = Some l) ->
  merkle_verify H p root claims = Ok ().
Proof.
  intros Hs Hne Hlt Hp Hr Hperm Hreal.
  unfold merkle_proof_of in Hp.
  destruct (negb (sorted_nodup ix)); [done|]. destruct (last ix) as [i|] eqn:El; [|done].
  destruct (i <? length leaves); [|done]. injection Hp as <-.
  unfold merkle_verify. cbn [mp_leaf_count mp_hashes].
  assert (NoDup (keys claims)) as Hnd by (rewrite Hperm; by apply ssorted_NoDup).
  pose proof (sort_by_sorted claims Hnd) as Hss.
  unfold has_duplicates. rewrite bool_decide_eq_true_2 by by apply ssorted_NoDup. simpl.
  assert (1 <= length leaves) as H1.
  { assert (i < length leaves); [|lia]. apply Hlt. apply last_Some in El as [l' ->]. apply elem_of_app. right. by left. }
  destruct (Nat.eqb_spec (length leaves) 0); [lia|].
  assert (keys (sort_by claims) = ix) as Hk.
  { apply ssorted_unique; [done..|]. intros j.
    assert (Permutation (keys (sort_by claims)) ix) as ->; [|done].
    rewrite <- Hperm. apply fmap_Permutation, sort_by_perm. }
  pose proof (proof_root_complete H (tree_depth (length leaves)) leaves (sort_by claims) []) as Hc.
  rewrite app_nil_r, Hk in Hc. rewrite Hc.
  - unfold merkle_root, rs_root in Hr. destruct (layer H (tree_depth (length leaves)) leaves !! 0) as [r|]; [|done].
    injection Hr as ->. by rewrite bool_decide_eq_true_2.
  - done.
  - apply tree_depth_le.
  - intros E. rewrite E in Hk. by subst ix.
  - by rewrite <- Hk.
  - rewrite Forall_forall. intros [j l]. rewrite sort_by_perm. apply Hreal.
Qed.
Lemma C13_request_lemma H leaves ix :
  (ssorted ix /\ ix <> [] /\ (forall i, i ∈ ix -> i < length leaves)) <->
  (exists p, merkle_proof_of H leaves ix = Ok p /\ mp_leaf_count p = length leaves).
Proof.
  unfold merkle_proof_of. split.
  - intros (Hs & Hne & Hlt). apply sorted_nodup_ssorted in Hs. rewrite Hs. simpl.
    destruct (last ix) as [i|] eqn:El; [|by apply last_None in El].
    assert (i < length leaves) as Hi by (apply Hlt; apply last_Some in El as [l' ->]; apply elem_of_app; right; by left).
    apply Nat.ltb_lt in Hi. rewrite Hi. by eexists.
  - intros (p & Hp & _). destruct (sorted_nodup ix) eqn:Hs; [|done]. simpl in Hp.
    apply sorted_nodup_ssorted in Hs. destruct (last ix) as [i|] eqn:El; [|done].
    destruct (Nat.ltb_spec i (length leaves)) as [Hi|]; [|done]. split_and!; [done|by intros ->|].
    intros j Hj. pose proof (ssorted_last_max _ _ _ Hs El Hj). lia.
Qed.
Lemma C13_refused_lemma H leaves ix :
  ~ (ssorted ix /\ ix <> [] /\ (forall i, i ∈ ix -> i < length leaves)) -> merkle_proof_of H leaves ix = Panic.
Proof.
  intros Hno. destruct (merkle_proof_of H leaves ix) as [p|[]|] eqn:E; [|done]. exfalso. apply Hno.
  apply (C13_request_lemma H). exists p. split; [done|].
  unfold merkle_proof_of in E. destruct (negb (sorted_nodup ix)); [done|].
  destruct (last ix); [|done]. destruct (_ <? _); [|done]. by injection E as <-.
Qed.

Lemma verify_inv H p root claims : merkle_verify H p root claims = Ok () ->
  NoDup (keys claims) /\ 1 <= mp_leaf_count p /\
  proof_root H (tree_depth (mp_leaf_count p)) (mp_leaf_count p) (sort_by claims) (mp_hashes p) = Some root.
Proof.
  unfold merkle_verify, has_duplicates. case_bool_decide as Hnd; [|done]. simpl.
  destruct (Nat.eqb_spec (mp_leaf_count p) 0); [done|].
  destruct (proof_root _ _ _ _ _) as [r|]; [|done]. case_bool_decide as E; [|done]. intros _. subst r.
  split_and!; [|lia|done].
  assert (Permutation (keys claims) (keys (sort_by claims))) as ->; [|done].
  apply fmap_Permutation. symmetry. apply sort_by_perm.
Qed.
Lemma C14_sound_lemma H L tree p root claims :
  hash_len H L -> Forall (fun l => length l = L) tree ->
  merkle_root H tree = Ok root -> mp_leaf_count p = length tree ->
  (forall i l, (i, l) ∈ claims -> i < length tree /\ length l = L) ->
  merkle_verify H p root claims = Ok () ->
  (forall i l, (i, l) ∈ claims -> tree !! i = Some l) \/ merkle_collision H p claims tree.
Proof.
  intros HL Htree Hr Hn Hcl (Hnd & H1 & Hp)%verify_inv. rewrite Hn in *.
  assert (layer H (tree_depth (length tree)) tree !! 0 = Some root) as Hroot.
  { unfold merkle_root, rs_root in Hr. destruct (_ !! 0); [|done]. by injection Hr as ->. }
  rewrite <- Hroot in Hp.
  eapply (proof_root_sound H L) in Hp as [Hall|Hc]; [..|done|done|apply tree_depth_le|done|by apply sort_by_sorted| |].
  - left. rewrite Forall_forall in Hall. intros i l Hin. apply (Hall (i, l)). by rewrite sort_by_perm.
  - right. unfold merkle_collision. by rewrite Hn.
  - intros i ([j l] & -> & Hin)%elem_of_list_fmap. rewrite sort_by_perm in Hin. by apply Hcl in Hin as [? _].
  - rewrite Forall_forall. intros [j l] Hin. rewrite sort_by_perm in Hin. by apply Hcl in Hin as [_ ?].
Qed.
Lemma C14_duplicates_lemma H p root claims : ~ NoDup (map fst claims) ->
  merkle_verify H p root claims = Err DuplicateIndices.
Proof.
  intros Hnd. unfold merkle_verify, has_duplicates. rewrite bool_decide_eq_false_2; [done|].
  intros Hx. apply Hnd. assert (Permutation (keys claims) (keys (sort_by claims))) as ->; [|done].
  apply fmap_Permutation. symmetry. apply sort_by_perm.
Qed.
Lemma proof_root_nil H d n proof : proof_root H d n [] proof = None.
Proof.
  revert n proof. induction d as [|d IH]; intros n proof; [done|].
  cbn [proof_root map]. unfold proof_indices. simpl. rewrite andb_false_r. simpl. apply IH.
Qed.
Lemma C14_empty_lemma H p root : merkle_verify H p root [] = Err InvalidMerkleProof.
Proof. unfold merkle_verify. simpl. destruct (_ =? 0); [done|]. by rewrite proof_root_nil. Qed.

(** The forgery: the last leaf of an odd tree is not hashed on the first layer, so a leaf
    that happens to be the hash of two strings can be opened into them. *)
Lemma C14_forgery_lemma H a b x y count : count = 3 \/ count = 4 ->
  merkle_root H [x; y; H (a ++ b)] = Ok (H (H (x ++ y) ++ H (a ++ b))) /\
  merkle_verify H (MerkleProof count [a; H (x ++ y)]) (H (H (x ++ y) ++ H (a ++ b))) [(3, b)] = Ok ().
Proof.
  intros Hc. split; [done|].
  destruct Hc as [->| ->]; unfold merkle_verify; cbn; (rewrite bool_decide_eq_true_2; [done|done]).
Qed.
