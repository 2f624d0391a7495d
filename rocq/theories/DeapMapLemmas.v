From Verif.Lib Require Import Base.
From Verif Require Import DeapMapModel DeapMapSpec.

(** ** The binary search *)
Lemma search_loop_ok fuel l key base size :
  nondecreasing l -> size <= fuel -> 1 <= size -> base + size <= length l ->
  (base = 0 \/ exists x, l !! base = Some x /\ x <= key) -> (forall j x, base + size <= j -> l !! j = Some x -> key < x) ->
  let r := search_loop fuel l key base size in
  r < length l /\ (r = 0 \/ exists x, l !! r = Some x /\ x <= key) /\ (forall j x, r < j -> l !! j = Some x -> key < x).
Proof.
  intros Hl. revert base size. induction fuel as [|fuel IH]; intros base size Hf H1 Hb Hlow Hhigh; [lia|]. cbn [search_loop].
  destruct (Nat.leb_spec size 1) as [Hs|Hs].
  - split_and!; [lia|done|]. intros j x Hj. apply Hhigh. lia.
  - pose proof (Nat.div_mod size 2 ltac:(lia)). pose proof (Nat.mod_upper_bound size 2 ltac:(lia)).
    set (half := size / 2) in *.
    destruct (lookup_lt_is_Some_2 l (base + half) ltac:(lia)) as [x Hx]. rewrite Hx.
    destruct (Nat.ltb_spec key x) as [Hk|Hk].
    + apply IH; [lia|lia|lia|done|]. intros j y Hj Hy.
      assert (x <= y) by (eapply (Hl (base + half) j); [exact Hx|exact Hy|lia]). lia.
    + apply IH; [lia|lia|lia|right; eauto|]. intros j y Hj Hy. eapply Hhigh; [|exact Hy]. lia.
Qed.
Definition search_last (search : list nat -> nat -> nat + nat) : Prop := forall l k i, nondecreasing l ->
  search l k = inl i -> forall j x, i < j -> l !! j = Some x -> k < x.
Lemma rust_search_both l k : nondecreasing l ->
  match rust_search l k with
  | inl i => l !! i = Some k /\ forall j x, i < j -> l !! j = Some x -> k < x
  | inr i => (forall j x, j < i -> l !! j = Some x -> x < k) /\ (forall j x, i <= j -> l !! j = Some x -> k < x) /\ i <= length l
  end.
Proof.
  intros Hl. unfold rust_search. destruct l as [|y l0] eqn:Hl0; [split_and!; [lia|done|done]|]. rewrite <- Hl0 in *.
  assert (1 <= length l) by (rewrite Hl0; cbn; lia). clear y l0 Hl0.
  destruct (search_loop_ok (length l) l k 0 (length l) Hl) as (Hr & Hlow & Hhigh); try lia.
  { intros j x Hj Hx. apply lookup_lt_Some in Hx. lia. }
  set (r := search_loop (length l) l k 0 (length l)) in *.
  destruct (lookup_lt_is_Some_2 l r Hr) as [x Hx]. rewrite Hx.
  destruct (Nat.eqb_spec x k) as [->|Hne]; [done|].
  destruct (Nat.ltb_spec x k) as [Hk|Hk].
  - split_and!; [|intros j y Hj Hy; eapply Hhigh; [|exact Hy]; lia|lia].
    intros j y Hj Hy. assert (y <= x) by (eapply (Hl j r); [exact Hy|exact Hx|lia]). lia.
  - assert (r = 0) as Hr0. { destruct Hlow as [?|(x' & Hx' & ?)]; [done|]. rewrite Hx in Hx'. injection Hx' as <-. lia. }
    split_and!; [lia| |lia]. intros j y Hj Hy. assert (x <= y) by (eapply (Hl r j); [exact Hx|exact Hy|lia]). lia.
Qed.
Lemma rust_search_ok : search_ok rust_search.
Proof. intros l k Hl. pose proof (rust_search_both l k Hl) as H. destruct (rust_search l k); [apply H|done]. Qed.
Lemma rust_search_last : search_last rust_search.
Proof. intros l k i Hl Hi. pose proof (rust_search_both l k Hl) as H. rewrite Hi in H. apply H. Qed.

(** ** Insertions *)
Fixpoint chain (o : option slice) (hs : list (slice * slice)) : Prop :=
  match hs with
  | [] => True
  | (a, b) :: hs' => sl_size a = sl_size b /\ (match o with Some l => sl_end l <= sl_ptr a | None => True end) /\ chain (Some a) hs'
  end.
Lemma inserts_chain hs m m' :
  mm_inserts m hs = Ok m' <->
  chain (last (mm_mpc m)) hs /\ m' = MemoryMap (mm_mpc m ++ map fst hs) (mm_zk m ++ map snd hs).
Proof.
  revert m. induction hs as [|[a b] hs IH]; intros m; cbn [mm_inserts chain map].
  - rewrite !app_nil_r. split; [intros [= <-]; by destruct m|intros [_ ->]; by destruct m].
  - rewrite obind_Ok. unfold mm_insert. destruct (Nat.eqb_spec (sl_size a) (sl_size b)) as [Hs|Hs].
    2:{ split; [by intros (? & ? & _)|intros [[? _] _]; done]. }
    destruct (last (mm_mpc m)) as [l|] eqn:Hlast.
    + destruct (Nat.ltb_spec (sl_ptr a) (sl_end l)) as [Hlt|Hge].
      * split; [by intros (? & ? & _)|]. intros [(_ & ? & _) _]. lia.
      * split.
        -- intros (m1 & [= <-] & H). apply IH in H as [Hc ->]. cbn [mm_mpc mm_zk] in *. rewrite last_snoc in Hc.
           rewrite <- !app_assoc. split; [|done]. split_and!; [done|lia|done].
        -- intros [(_ & _ & Hc) ->]. eexists. split; [reflexivity|]. apply IH. cbn [mm_mpc mm_zk]. rewrite last_snoc, <- !app_assoc. done.
    + split.
      * intros (m1 & [= <-] & H). apply IH in H as [Hc ->]. cbn [mm_mpc mm_zk] in *. rewrite last_snoc in Hc.
        rewrite <- !app_assoc. split; [|done]. split_and!; done.
      * intros [(_ & _ & Hc) ->]. eexists. split; [reflexivity|]. apply IH. cbn [mm_mpc mm_zk]. rewrite last_snoc, <- !app_assoc. done.
Qed.
Lemma chain_ascending hs : forall o, chain o hs <-> ascending hs /\ (match o, hs with Some l, (a, _) :: _ => sl_end l <= sl_ptr a | _, _ => True end).
Proof.
  induction hs as [|[a b] hs IH]; intros o; cbn [chain].
  - split; [|done]. intros _. split; [|by destruct o]. split; [by intros a b ?%elem_of_nil|by intros].
  - rewrite IH. unfold ascending. split.
    + intros (Hs & Ho & (H1 & H2) & H3). split; [split|by destruct o].
      * intros a' b' [[= -> ->]|Hin]%elem_of_cons; [done|by apply H1].
      * intros [|i] a1 b1 a2 b2 E1 E2; cbn in E1, E2; [|by eapply H2].
        injection E1 as <- <-. destruct hs as [|[a3 b3] hs]; [done|]. injection E2 as <- <-. exact H3.
    + intros ((H1 & H2) & Ho). split_and!.
      * apply (H1 a b). constructor.
      * by destruct o.
      * intros a' b' Hin. apply H1. by constructor.
      * intros i a1 b1 a2 b2 E1 E2. by eapply (H2 (S i)).
      * destruct hs as [|[a3 b3] hs]; [done|]. by eapply (H2 0).
Qed.
Lemma inserts_ok hs m :
  mm_inserts mm_new hs = Ok m <-> ascending hs /\ m = MemoryMap (map fst hs) (map snd hs).
Proof. rewrite inserts_chain, chain_ascending. cbn. tauto. Qed.
Lemma C48_insert_lemma hs :
  (ascending hs -> exists m, mm_inserts mm_new hs = Ok m) /\ (~ ascending hs -> mm_inserts mm_new hs = Panic).
Proof.
  split.
  - intros H. eexists. by apply inserts_ok.
  - intros H. destruct (mm_inserts mm_new hs) as [m|e|] eqn:E; [|done|done]. apply inserts_ok in E as [? _]. done.
Qed.

(** ** Translation *)
Lemma ascending_lt hs i j a b a' b' :
  ascending hs -> hs !! i = Some (a, b) -> hs !! j = Some (a', b') -> i < j -> sl_end a <= sl_ptr a'.
Proof.
  intros [_ H] Hi Hj Hlt. revert a' b' Hj. induction Hlt as [|j Hlt IH]; intros a' b' Hj.
  - by eapply H.
  - destruct (lookup_lt_is_Some_2 hs j) as [[a2 b2] H2]; [apply lookup_lt_Some in Hj; lia|].
    specialize (IH _ _ H2). pose proof (H _ _ _ _ _ H2 Hj). unfold sl_end in *. lia.
Qed.
Lemma starts_nondecreasing hs : ascending hs -> nondecreasing (map sl_ptr (map fst hs)).
Proof.
  intros Ha i j x y Hi Hj Hij. rewrite map_map in *.
  apply list_lookup_fmap_Some in Hi as ([a b] & Hi & ->). apply list_lookup_fmap_Some in Hj as ([a' b'] & Hj & ->). cbn.
  destruct (decide (i = j)) as [->|Hne].
  - rewrite Hi in Hj. by injection Hj as -> ->.
  - pose proof (ascending_lt _ _ _ _ _ _ _ Ha Hi Hj ltac:(lia)). unfold sl_end in *. lia.
Qed.
Lemma lookup_fst (hs : list (slice * slice)) i x : map fst hs !! i = Some x <-> exists y, hs !! i = Some (x, y).
Proof.
  change (map fst hs) with (fst <$> hs). rewrite list_lookup_fmap, fmap_Some. split.
  - intros ([a b] & H & ->). eauto.
  - intros [y H]. exists (x, y). done.
Qed.
Lemma lookup_start (hs : list (slice * slice)) i a b : hs !! i = Some (a, b) -> map sl_ptr (map fst hs) !! i = Some (sl_ptr a).
Proof. intros H. rewrite map_map. change (((λ x : slice * slice, sl_ptr x.1) <$> hs) !! i = Some (sl_ptr a)). by rewrite list_lookup_fmap, H. Qed.

Definition no_empty (hs : list (slice * slice)) : Prop := forall a b, (a, b) ∈ hs -> 0 < sl_size a.
Lemma try_get_sound search hs m s s' :
  mm_inserts mm_new hs = Ok m -> mm_try_get search m s = Ok s' ->
  exists a b, (a, b) ∈ hs /\ inside s a /\ same_offset s a b s'.
Proof.
  intros [Ha ->]%inserts_ok H. unfold mm_try_get in H. cbn [mm_mpc mm_zk] in H.
  apply obind_Ok in H as (pos & _ & H). apply obind_Ok in H as (a & Hc & H). apply or_panic_Ok in Hc.
  destruct (Nat.leb_spec (sl_ptr a) (sl_ptr s)) as [H1|]; [|done]. destruct (Nat.leb_spec (sl_end s) (sl_end a)) as [H2|]; [|done].
  cbn [andb] in H. apply obind_Ok in H as (b & Hb & [= <-]). apply or_panic_Ok in Hb.
  apply lookup_fst in Hc as [b' Hc].
  assert (b = b') as <-.
  { change (map snd hs) with (snd <$> hs) in Hb. rewrite list_lookup_fmap, Hc in Hb. by injection Hb. }
  exists a, b. split; [by eapply elem_of_list_lookup_2|]. unfold inside, same_offset, sl_end in *. cbn. lia.
Qed.
Lemma try_get_complete search hs m s a b :
  search_ok search -> (search_last search \/ no_empty hs) ->
  mm_inserts mm_new hs = Ok m -> 0 < sl_size s -> (a, b) ∈ hs -> inside s a ->
  mm_try_get search m s = Ok (Slice (sl_ptr b + (sl_ptr s - sl_ptr a)) (sl_size s)).
Proof.
  intros Hse Hlast [Ha ->]%inserts_ok Hs Hin [H1 H2]. apply elem_of_list_lookup_1 in Hin as [i Hi].
  pose proof (starts_nondecreasing _ Ha) as Hn. pose proof (Hse _ (sl_ptr s) Hn) as Hspec.
  unfold mm_try_get. cbn [mm_mpc mm_zk].
  assert (forall pos, pos = i ->
    (let! candidate := or_panic (map fst hs !! pos) in
     if (sl_ptr candidate <=? sl_ptr s) && (sl_end s <=? sl_end candidate) then
       let! zk := or_panic (map snd hs !! pos) in Ok (Slice (sl_ptr zk + (sl_ptr s - sl_ptr candidate)) (sl_size s))
     else Err InvalidSlice) = Ok (Slice (sl_ptr b + (sl_ptr s - sl_ptr a)) (sl_size s))) as Hgo.
  { intros pos ->. assert (map fst hs !! i = Some a) as -> by (apply lookup_fst; eauto). cbn [or_panic obind].
    destruct (Nat.leb_spec (sl_ptr a) (sl_ptr s)); [|lia]. destruct (Nat.leb_spec (sl_end s) (sl_end a)); [|unfold sl_end in *; lia].
    cbn [andb]. change (map snd hs) with (snd <$> hs). rewrite list_lookup_fmap, Hi. done. }
  assert (forall j x y, hs !! j = Some (x, y) -> i < j -> sl_ptr s < sl_ptr x) as Hafter.
  { intros j x y Hj Hlt. pose proof (ascending_lt _ _ _ _ _ _ _ Ha Hi Hj Hlt). unfold sl_end in *. lia. }
  pose proof (lookup_start _ _ _ _ Hi) as Hsi.
  destruct (search (map sl_ptr (map fst hs)) (sl_ptr s)) as [pos|pos] eqn:Hsr.
  - cbn [obind]. apply Hgo. rewrite map_map in Hspec. apply list_lookup_fmap_Some in Hspec as ([x y] & Hpos & Hx). cbn in Hx.
    destruct (lt_eq_lt_dec pos i) as [[Hlt| ->]|Hgt]; [|done|].
    + exfalso. destruct Hlast as [Hlast|Hne].
      * pose proof (Hlast _ _ _ Hn Hsr i _ Hlt Hsi). lia.
      * pose proof (ascending_lt _ _ _ _ _ _ _ Ha Hpos Hi Hlt). pose proof (Hne x y (elem_of_list_lookup_2 _ _ _ Hpos)).
        unfold sl_end in *. lia.
    + exfalso. pose proof (Hafter _ _ _ Hpos Hgt). lia.
  - destruct Hspec as (Hlo & Hhi & Hlen).
    assert (i < pos) as Hip.
    { destruct (le_lt_dec pos i) as [Hle|]; [|done]. pose proof (Hhi i _ Hle Hsi). lia. }
    destruct pos as [|pos]; [lia|]. cbn [obind]. apply Hgo.
    destruct (lt_eq_lt_dec pos i) as [[Hlt| ->]|Hgt]; [lia|done|]. exfalso.
    rewrite !map_length in Hlen. destruct (lookup_lt_is_Some_2 hs pos ltac:(lia)) as [[x y] Hpos].
    pose proof (Hafter _ _ _ Hpos Hgt). pose proof (Hlo pos _ ltac:(lia) (lookup_start _ _ _ _ Hpos)). lia.
Qed.
Lemma same_offset_iff s a b s' : inside s a -> same_offset s a b s' <-> s' = Slice (sl_ptr b + (sl_ptr s - sl_ptr a)) (sl_size s).
Proof.
  intros [H1 H2]. unfold same_offset. split.
  - intros [H3 H4]. destruct s' as [p z]; cbn in *. f_equal; lia.
  - intros ->. cbn. lia.
Qed.
Lemma try_get_exact search hs m s s' :
  search_ok search -> (search_last search \/ no_empty hs) ->
  mm_inserts mm_new hs = Ok m -> 0 < sl_size s ->
  mm_try_get search m s = Ok s' <-> exists a b, (a, b) ∈ hs /\ inside s a /\ same_offset s a b s'.
Proof.
  intros Hse Hl Hm Hs. split; [by apply try_get_sound|]. intros (a & b & Hin & Hi & Ho).
  rewrite (try_get_complete search hs m s a b Hse Hl Hm Hs Hin Hi). f_equal. symmetry. by apply same_offset_iff.
Qed.
Lemma try_get_no_panic search hs m s : search_ok search -> mm_inserts mm_new hs = Ok m -> mm_try_get search m s <> Panic.
Proof.
  intros Hse [Ha ->]%inserts_ok. pose proof (Hse _ (sl_ptr s) (starts_nondecreasing _ Ha)) as H.
  unfold mm_try_get. cbn [mm_mpc mm_zk].
  assert (forall pos, pos < length hs ->
    (let! candidate := or_panic (map fst hs !! pos) in
     if (sl_ptr candidate <=? sl_ptr s) && (sl_end s <=? sl_end candidate) then
       let! zk := or_panic (map snd hs !! pos) in Ok (Slice (sl_ptr zk + (sl_ptr s - sl_ptr candidate)) (sl_size s))
     else Err InvalidSlice) <> Panic) as Hgo.
  { intros pos Hp. destruct (lookup_lt_is_Some_2 hs pos Hp) as [[x y] Hx].
    assert (map fst hs !! pos = Some x) as -> by (apply lookup_fst; eauto). cbn [or_panic obind].
    destruct (_ && _); [|done]. change (map snd hs) with (snd <$> hs). rewrite list_lookup_fmap, Hx. done. }
  destruct (search _ _) as [pos|[|pos]]; cbn [obind]; [|done|].
  - apply Hgo. apply lookup_lt_Some in H. by rewrite !map_length in H.
  - apply Hgo. destruct H as (_ & _ & H). rewrite !map_length in H. lia.
Qed.

Lemma C48_exact_lemma hs m s s' :
  mm_inserts mm_new hs = Ok m -> 0 < sl_size s ->
  mm_try_get rust_search m s = Ok s' <-> exists a b, (a, b) ∈ hs /\ inside s a /\ same_offset s a b s'.
Proof. intros Hm Hs. apply try_get_exact; [apply rust_search_ok|left; apply rust_search_last|done|done]. Qed.
Lemma C48_any_search_lemma search hs m s s' :
  search_ok search -> (forall a b, (a, b) ∈ hs -> 0 < sl_size a) -> mm_inserts mm_new hs = Ok m -> 0 < sl_size s ->
  mm_try_get search m s = Ok s' <-> exists a b, (a, b) ∈ hs /\ inside s a /\ same_offset s a b s'.
Proof. intros Hse Hne Hm Hs. apply try_get_exact; [done|by right|done|done]. Qed.
Lemma C48_no_panic_lemma hs m s : mm_inserts mm_new hs = Ok m -> mm_try_get rust_search m s <> Panic.
Proof. apply try_get_no_panic, rust_search_ok. Qed.

(** ** Distinct slices *)
Definition zk_disjoint (hs : list (slice * slice)) : Prop :=
  forall i j a b a' b', hs !! i = Some (a, b) -> hs !! j = Some (a', b') -> i <> j -> disjoint_slices b b'.
Lemma C48_disjoint_lemma hs m s1 s2 t1 t2 :
  mm_inserts mm_new hs = Ok m -> zk_disjoint hs ->
  mm_try_get rust_search m s1 = Ok t1 -> mm_try_get rust_search m s2 = Ok t2 ->
  (disjoint_slices s1 s2 -> disjoint_slices t1 t2) /\ (0 < sl_size s1 -> t1 = t2 -> s1 = s2).
Proof.
  intros Hm Hd H1 H2.
  apply (try_get_sound _ _ _ _ _ Hm) in H1 as (a1 & b1 & E1 & I1 & O1).
  apply (try_get_sound _ _ _ _ _ Hm) in H2 as (a2 & b2 & E2 & I2 & O2).
  apply inserts_ok in Hm as [[Ha _] _]. pose proof (Ha _ _ E1). pose proof (Ha _ _ E2).
  apply elem_of_list_lookup_1 in E1 as [i E1]. apply elem_of_list_lookup_1 in E2 as [j E2].
  unfold inside, same_offset in *.
  destruct (decide (i = j)) as [->|Hij].
  - rewrite E1 in E2. injection E2 as <- <-. split.
    + intros Hdis x X1 X2. unfold in_slice in *. apply (Hdis (x + sl_ptr a1 - sl_ptr b1)); unfold in_slice; lia.
    + intros _ ->. destruct s1, s2; cbn in *. f_equal; lia.
  - pose proof (Hd _ _ _ _ _ _ E1 E2 Hij) as Hb. split.
    + intros _ x X1 X2. apply (Hb x); unfold in_slice in *; lia.
    + intros Hs ->. exfalso. apply (Hb (sl_ptr t2)); unfold in_slice; lia.
Qed.
