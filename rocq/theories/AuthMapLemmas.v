(** Proofs about range maps and binary search. *)
From Verif.Lib Require Import Base Ranges RangesFacts.
From Verif Require Import TranscriptModel ProofModel CodecModel AttestModel TlsModel AuthModel AuthSpec.

(** ** Binary search *)
Definition keys_sorted (keys : list nat) : Prop :=
  forall i j a b, i <= j -> keys !! i = Some a -> keys !! j = Some b -> a <= b.

Lemma nth_of_lookup (l : list nat) i a : l !! i = Some a -> nth i l 0 = a.
Proof. intros H. by apply nth_lookup_Some. Qed.

Lemma bsearch_spec keys x fuel base size :
  keys_sorted keys -> size <= fuel -> 1 <= size -> base + size <= length keys ->
  (base = 0 \/ exists k, keys !! base = Some k /\ k <= x) ->
  (forall j k, base + size <= j -> keys !! j = Some k -> x < k) ->
  let p := bsearch_go fuel keys x base size in
  p < length keys /\ (p = 0 \/ exists k, keys !! p = Some k /\ k <= x) /\
  (forall j k, p < j -> keys !! j = Some k -> x < k).
Proof.
  intros Hs. revert base size. induction fuel as [|fuel IH]; intros base size Hf H1 Hb Hlo Hhi; [lia|].
  cbn [bsearch_go]. destruct (size <=? 1) eqn:E.
  { cbv zeta. split_and!; [lia|done|]. intros j k Hj. apply Hhi. lia. }
  assert (Hhalf : 1 <= size / 2 /\ 2 * (size / 2) <= size).
  { split; [apply (Nat.div_le_lower_bound size 2 1); lia | apply Nat.mul_div_le; lia]. }
  destruct (lookup_lt_is_Some_2 keys (base + size / 2)) as [km Hm]; [lia|].
  rewrite (nth_of_lookup _ _ _ Hm).
  destruct (x <? km) eqn:Ex; (apply IH; [lia|lia|lia| |]).
  - done.
  - intros j k Hj Hk. pose proof (Hs (base + size / 2) j km k ltac:(lia) Hm Hk). lia.
  - right. exists km. split; [done|lia].
  - intros j k Hj. apply Hhi. lia.
Qed.

Definition map_sorted (m : refmap) : Prop := keys_sorted (map fst m).

Lemma map_pos_spec m x : map_sorted m ->
  match map_pos m x with
  | Some p => exists k r, m !! p = Some (k, r) /\ k <= x /\ forall j k' r', p < j -> m !! j = Some (k', r') -> x < k'
  | None => forall k r, (k, r) ∈ m -> x < k
  end.
Proof.
  intros Hs. unfold map_pos, binary_search. destruct m as [|e m]; [simpl; by intros ?? ?%elem_of_nil|].
  set (l := e :: m) in *. change (map fst (e :: m)) with (map fst l).
  destruct (map fst l) as [|k0 ks] eqn:Ek; [done|]. rewrite <- Ek.
  pose proof (bsearch_spec (map fst l) x (length (map fst l)) 0 (length (map fst l)) Hs) as Hb.
  cbv zeta in Hb. destruct Hb as (Hp & Hlo & Hhi); [lia| rewrite Ek; simpl; lia |lia|by left| |].
  { intros j k Hj Hk%lookup_lt_Some. lia. }
  set (p := bsearch_go (length (map fst l)) (map fst l) x 0 (length (map fst l))) in *.
  rewrite map_length in Hp.
  destruct (lookup_lt_is_Some_2 l p Hp) as [[k r] Hk].
  assert (Hkk : map fst l !! p = Some k) by (rewrite list_lookup_fmap, Hk; done).
  assert (Hhi' : forall j k' r', p < j -> l !! j = Some (k', r') -> x < k').
  { intros j k' r' Hj Hl. apply (Hhi j k' Hj). by rewrite list_lookup_fmap, Hl. }
  rewrite (nth_of_lookup _ _ _ Hkk).
  destruct (k =? x) eqn:E1.
  { exists k, r. split_and!; [done|lia|done]. }
  destruct (k <? x) eqn:E2.
  { replace (p + 1) with (S p) by lia. exists k, r. split_and!; [done|lia|done]. }
  destruct p as [|p'] eqn:Ep.
  - intros k' r' [j Hj]%elem_of_list_lookup.
    destruct j as [|j]; [rewrite Hk in Hj; injection Hj as <- <-; lia|].
    apply (Hhi' (S j) k' r'); [lia|done].
  - destruct Hlo as [?|(k1 & H1 & H2)]; [lia|]. rewrite Hkk in H1. injection H1 as <-. lia.
Qed.

(** ** Maps made by [from_iter] *)
(** Sorted and non-overlapping, from [pos] on. *)
Fixpoint laid_out (pos : nat) (m : refmap) : Prop :=
  match m with
  | [] => True
  | (i, r) :: m' => pos <= i /\ laid_out (i + v_len r) m'
  end.

Lemma map_from_spec pos items : map_from pos items = Ok items /\ laid_out pos items \/
  map_from pos items = Panic /\ ~ laid_out pos items.
Proof.
  revert pos. induction items as [|[i r] items IH]; intros pos; simpl; [by left|].
  destruct (i <? pos) eqn:E; [right; split; [done|lia]|].
  destruct (IH (i + v_len r)) as [[-> H]|[-> H]]; simpl; [left|right]; split; try done; try lia.
  split; [lia|done]. intros [_ ?]. done.
Qed.

Lemma map_from_ok pos items m : map_from pos items = Ok m -> m = items /\ laid_out pos m.
Proof. destruct (map_from_spec pos items) as [[-> ?]|[-> ?]]; [intros [= <-]; done|done]. Qed.

Lemma laid_out_mono p q m : q <= p -> laid_out p m -> laid_out q m.
Proof. destruct m as [|[i r] m]; simpl; [done|]. intros ? [? ?]. split; [lia|done]. Qed.

Lemma laid_out_lb pos m k r : laid_out pos m -> (k, r) ∈ m -> pos <= k.
Proof.
  revert pos. induction m as [|[i r'] m IH]; intros pos Hl Hin; [by apply elem_of_nil in Hin|].
  destruct Hl as [H1 H2]. apply elem_of_cons in Hin as [[= -> ->]|Hin]; [done|].
  pose proof (IH _ H2 Hin). lia.
Qed.

Lemma laid_out_lookup pos m i j k r k' r' : laid_out pos m -> i < j ->
  m !! i = Some (k, r) -> m !! j = Some (k', r') -> k + v_len r <= k'.
Proof.
  revert pos i j. induction m as [|[i0 r0] m IH]; intros pos i j Hl Hij Hi Hj; [done|].
  destruct Hl as [H1 H2]. destruct j as [|j]; [lia|]. simpl in Hj.
  destruct i as [|i]; simpl in Hi.
  - injection Hi as -> ->. apply (laid_out_lb _ _ _ r' H2). by eapply elem_of_list_lookup_2.
  - apply (IH _ i j H2); [lia|done|done].
Qed.

Lemma laid_out_sorted pos m : laid_out pos m -> map_sorted m.
Proof.
  intros Hl i j a b Hij Ha Hb. rewrite list_lookup_fmap in Ha, Hb.
  destruct (m !! i) as [[k r]|] eqn:Ei; [|discriminate Ha]. destruct (m !! j) as [[k' r']|] eqn:Ej; [|discriminate Hb].
  simpl in Ha, Hb. injection Ha as <-. injection Hb as <-.
  destruct (decide (i = j)) as [->|]; [rewrite Ei in Ej; injection Ej as -> ->; lia|].
  pose proof (laid_out_lookup pos m i j k r k' r' Hl ltac:(lia) Ei Ej). lia.
Qed.

(** The piece found by the search is the one that holds the position. *)
Lemma map_pos_piece pos m x k r : laid_out pos m -> (k, r) ∈ m -> k <= x < k + v_len r ->
  exists p, map_pos m x = Some p /\ m !! p = Some (k, r).
Proof.
  intros Hl Hin Hx. pose proof (map_pos_spec m x (laid_out_sorted _ _ Hl)) as Hp.
  destruct (map_pos m x) as [p|]; [|specialize (Hp _ _ Hin); lia].
  exists p. split; [done|]. destruct Hp as (k' & r' & Hm & Hle & Hgt).
  apply elem_of_list_lookup in Hin as [j Hj].
  destruct (lt_eq_lt_dec p j) as [[Hlt| ->]|Hgt'].
  - specialize (Hgt _ _ _ Hlt Hj). lia.
  - done.
  - pose proof (laid_out_lookup _ _ _ _ _ _ _ _ Hl Hgt' Hj Hm). lia.
Qed.

Lemma vref_get_spec r a b s : vref_get r a b = Some s <-> a <= b /\ b <= v_len r /\ s = VRef (v_base r + a) (b - a).
Proof.
  unfold vref_get. destruct (a <=? b) eqn:E1, (b <=? v_len r) eqn:E2; simpl; split;
    try (intros (? & ? & ?); lia); try done.
  - intros [= <-]. split_and!; [lia|lia|done].
  - intros (_ & _ & ->). done.
Qed.

Lemma map_get_spec pos m a b : laid_out pos m ->
  exists o, map_get m a b = Ok o /\ forall r, o = Some r <-> in_one_piece m a b r.
Proof.
  intros Hl. unfold map_get. destruct (b <=? a) eqn:E.
  { exists None. split; [done|]. intros r. split; [done|]. intros [? _]. lia. }
  pose proof (map_pos_spec m a (laid_out_sorted _ _ Hl)) as Hp.
  destruct (map_pos m a) as [p|] eqn:Ep.
  2: { exists None. split; [done|]. intros r. split; [done|]. intros (_ & k & it & Hin & Hle & _).
       specialize (Hp _ _ Hin). lia. }
  destruct Hp as (k & it & Hm & Hle & Hgt). rewrite Hm. simpl. replace (a <? k) with false by lia.
  eexists. split; [done|]. intros r. rewrite vref_get_spec. split.
  - intros (H1 & H2 & ->). split; [lia|]. exists k, it. split_and!; [by eapply elem_of_list_lookup_2|lia|lia|].
    f_equal. lia.
  - intros (_ & k' & it' & Hin & H1 & H2 & ->).
    destruct (map_pos_piece _ _ a _ _ Hl Hin ltac:(lia)) as (p' & Hp' & Hm').
    rewrite Ep in Hp'. injection Hp' as <-. rewrite Hm in Hm'. injection Hm' as <- <-.
    split_and!; [lia|lia|]. f_equal; lia.
Qed.

Lemma map_index_spec pos m idx : laid_out pos m -> Forall (fun r => fst r < snd r) idx ->
  exists o, map_index m idx = Ok o /\
  forall m', o = Some m' <-> Forall2 (fun r e => fst e = fst r /\ in_one_piece m (fst r) (snd r) (snd e)) idx m'.
Proof.
  intros Hl. induction idx as [|[a b] idx IH]; intros Hne.
  { exists (Some []). split; [done|]. intros m'. split.
    - intros [= <-]. constructor.
    - intros H. inversion H. done. }
  apply Forall_cons in Hne as [Hab Hne]. simpl in Hab. specialize (IH Hne). destruct IH as (o & Ho & Hspec).
  cbn [map_index]. pose proof (map_pos_spec m a (laid_out_sorted _ _ Hl)) as Hp.
  assert (Hnone : (forall r, ~ in_one_piece m a b r) -> forall m', None = Some m' <->
    Forall2 (fun r e => fst e = fst r /\ in_one_piece m (fst r) (snd r) (snd e)) ((a, b) :: idx) m').
  { intros H m'. split; [done|]. intros HF. inversion HF as [|? ? ? ? [_ H1]]. subst. by apply H in H1. }
  destruct (map_pos m a) as [p|] eqn:Ep.
  2: { exists None. split; [done|]. apply Hnone. intros r (_ & k & it & Hin & Hle & _).
       specialize (Hp _ _ Hin). lia. }
  destruct Hp as (k & it & Hm & Hle & Hgt). rewrite Hm.
  assert (Honly : forall r, in_one_piece m a b r -> b <= k + v_len it /\ r = VRef (v_base it + (a - k)) (b - a)).
  { intros r (_ & k' & it' & Hin & H1 & H2 & ->).
    destruct (map_pos_piece _ _ a _ _ Hl Hin ltac:(lia)) as (p' & Hp' & Hm').
    rewrite Ep in Hp'. injection Hp' as <-. rewrite Hm in Hm'. injection Hm' as <- <-. done. }
  destruct ((a <? k) || (k + v_len it <? b)) eqn:E.
  { exists None. split; [done|]. apply Hnone. intros r [H1 _]%Honly. lia. }
  destruct (vref_get it (a - k) (a - k + (b - a))) as [s|] eqn:Es.
  2: { exfalso. unfold vref_get in Es. destruct (_ && _) eqn:E'; [done|]. lia. }
  apply vref_get_spec in Es as (_ & _ & ->).
  cbn [or_panic obind]. rewrite Ho. cbn [obind]. eexists. split; [done|]. intros m'.
  assert (Hpiece : in_one_piece m a b (VRef (v_base it + (a - k)) (b - a))).
  { split; [done|]. exists k, it. split_and!; [by eapply elem_of_list_lookup_2|lia|lia|done]. }
  replace (a - k + (b - a) - (a - k)) with (b - a) by lia.
  destruct o as [m1|].
  - split.
    + intros [= <-]. constructor; [done|]. by apply Hspec.
    + intros HF. inversion HF as [|? [k' s'] ? ? [H1 H2] H3]; subst. simpl in *. subst k'.
      apply Honly in H2 as [_ ->]. apply Hspec in H3. injection H3 as ->. done.
  - split; [done|]. intros HF. inversion HF as [|? [k' s'] ? ? [H1 H2] H3]; subst.
    apply Hspec in H3. done.
Qed.
