(** Proofs about dual execution (C59). *)
From Verif.Lib Require Import Base Ranges RangesFacts.
From Verif Require Import AttestModel ProofModel DeapMapModel DeapMapSpec DeapMapLemmas DeapModel DeapSpec.

(** ** Changing cells *)
Definition cell_le (c c' : cell) : Prop :=
  match c, c' with
  | In v x com, In v' x' com' => (v = None \/ v = v') /\ (x = None \/ x = x') /\ (com = true -> com' = true)
  | Bit _ _ _, _ => c = c'
  | _, _ => False
  end.
Lemma cell_le_refl c : cell_le c c.
Proof. destruct c; cbn; auto. Qed.
Lemma cell_le_trans a b c : cell_le a b -> cell_le b c -> cell_le a c.
Proof.
  destruct a as [v x com|f args i], b as [v' x' com'|f' args' i'], c as [v'' x'' com''|f'' args'' i'']; cbn; try done; try congruence.
  intros (H1 & H2 & H3) (H4 & H5 & H6). split; [|split].
  - destruct H1 as [->| ->]; auto.
  - destruct H2 as [->| ->]; auto.
  - auto.
Qed.
Definition mono (m m' : machine) : Prop := length m <= length m' /\ forall a c, m !! a = Some c -> exists c', m' !! a = Some c' /\ cell_le c c'.
Lemma mono_refl m : mono m m.
Proof. split; [lia|]. intros a c H. exists c. auto using cell_le_refl. Qed.
Lemma mono_trans a b c : mono a b -> mono b c -> mono a c.
Proof.
  intros [L1 H1] [L2 H2]. split; [lia|]. intros i x H. destruct (H1 _ _ H) as (y & Hy & Hl). destruct (H2 _ _ Hy) as (z & Hz & Hl').
  exists z. split; [done|by eapply cell_le_trans].
Qed.
Lemma mono_app m l : mono m (m ++ l).
Proof. split; [rewrite app_length; lia|]. intros a c H. exists c. split; [by apply lookup_app_l_Some|apply cell_le_refl]. Qed.

Definition growing (g : cell -> option cell) : Prop := forall c c', g c = Some c' -> cell_le c c'.
Lemma mark_growing v : growing (mark_cell v).
Proof. intros [[]|] c' H; cbn in H; try done. destruct x; [done|]. destruct committed; [done|]. injection H as <-. cbn. auto. Qed.
Lemma assign_growing b : growing (assign_cell b).
Proof. intros [[[]|] [x|] []|] c' H; cbn in H; try done; injection H as <-; cbn; auto. Qed.
Lemma commit_growing : growing commit_cell.
Proof. intros [[[]|] [x|] []|] c' H; cbn in H; try done; injection H as <-; cbn; auto. Qed.

Lemma on_cells_spec l m m' : on_cells l m = Ok m' -> NoDup (map fst l) ->
  length m' = length m /\ (forall a, a ∉ map fst l -> m' !! a = m !! a) /\
  (forall a g, (a, g) ∈ l -> exists c c', m !! a = Some c /\ g c = Some c' /\ m' !! a = Some c').
Proof.
  revert m. induction l as [|[a g] l IH]; intros m H Hnd; cbn [on_cells] in H.
  { injection H as <-. split; [done|]. split; [done|]. by intros a g ?%elem_of_nil. }
  destruct (m !! a) as [c|] eqn:Hm; [|done]. destruct (g c) as [c'|] eqn:Hg; [|done].
  cbn in Hnd. apply NoDup_cons in Hnd as [Hni Hnd].
  destruct (IH _ H Hnd) as (Hl & Hout & Hin). rewrite insert_length in Hl. split; [done|]. split.
  - intros b Hb. cbn in Hb. apply not_elem_of_cons in Hb as [Hne Hb]. rewrite Hout by done. by rewrite list_lookup_insert_ne.
  - intros b g' Hb. apply elem_of_cons in Hb as [[= -> ->]|Hb].
    + exists c, c'. split; [done|]. split; [done|]. rewrite Hout by done. apply list_lookup_insert. by eapply lookup_lt_Some.
    + destruct (Hin _ _ Hb) as (c1 & c2 & H1 & H2 & H3). exists c1, c2. split; [|done].
      rewrite list_lookup_insert_ne in H1; [done|]. intros ->. apply Hni. apply elem_of_list_In, in_map_iff. exists (b, g').
      split; [done|]. by apply elem_of_list_In.
Qed.
Lemma on_cells_mono l m m' : on_cells l m = Ok m' -> (forall a g, (a, g) ∈ l -> growing g) -> mono m m'.
Proof.
  revert m. induction l as [|[a g] l IH]; intros m H Hg; cbn [on_cells] in H.
  { injection H as <-. apply mono_refl. }
  destruct (m !! a) as [c|] eqn:Hm; [|done]. destruct (g c) as [c'|] eqn:Hgc; [|done].
  eapply mono_trans; [|apply (IH _ H); intros a' g' Ha'; eapply Hg; by apply elem_of_cons; right].
  split; [by rewrite insert_length|]. intros b d Hb. destruct (decide (a = b)) as [->|Hne].
  - exists c'. rewrite list_lookup_insert by (by eapply lookup_lt_Some). split; [done|]. replace d with c by congruence.
    eapply Hg; [by left|done].
  - exists d. rewrite list_lookup_insert_ne by done. split; [done|apply cell_le_refl].
Qed.

Lemma NoDup_addrs s : NoDup (addrs s).
Proof. apply NoDup_seq. Qed.
Lemma elem_of_addrs a s : a ∈ addrs s <-> sl_ptr s <= a < sl_end s.
Proof. unfold addrs, sl_end. apply elem_of_seq. Qed.
Lemma fst_map {A} (f : nat -> A) l : map fst (map (fun a => (a, f a)) l) = l.
Proof. rewrite map_map. cbn. apply map_id. Qed.

Lemma mark_spec v s m m' : vm_mark v s m = Ok m' ->
  length m' = length m /\ mono m m' /\ (forall a, a ∉ addrs s -> m' !! a = m !! a) /\
  (forall a, a ∈ addrs s -> m !! a = Some (In None None false) /\ m' !! a = Some (In (Some v) None false)).
Proof.
  intros H. pose proof (on_cells_spec _ _ _ H) as Hs. rewrite (fst_map (fun _ => mark_cell v)) in Hs.
  specialize (Hs (NoDup_addrs s)) as (Hl & Hout & Hin). split; [done|]. split; [|split; [done|]].
  - eapply on_cells_mono; [exact H|]. intros a g Hg. apply elem_of_list_In, in_map_iff in Hg as (? & [= <- <-] & _). apply mark_growing.
  - intros a Ha. destruct (Hin a (mark_cell v)) as (c & c' & H1 & H2 & H3).
    { apply elem_of_list_In, in_map_iff. exists a. split; [done|]. by apply elem_of_list_In. }
    destruct c as [[]|]; cbn in H2; try done. destruct x; [done|]. destruct committed; [done|]. injection H2 as <-. done.
Qed.
Lemma commit_spec s m m' : vm_commit s m = Ok m' ->
  length m' = length m /\ mono m m' /\ (forall a, a ∉ addrs s -> m' !! a = m !! a) /\
  (forall a, a ∈ addrs s -> exists c c', m !! a = Some c /\ commit_cell c = Some c' /\ m' !! a = Some c').
Proof.
  intros H. pose proof (on_cells_spec _ _ _ H) as Hs. rewrite (fst_map (fun _ => commit_cell)) in Hs.
  specialize (Hs (NoDup_addrs s)) as (Hl & Hout & Hin). split; [done|]. split; [|split; [done|]].
  - eapply on_cells_mono; [exact H|]. intros a g Hg. apply elem_of_list_In, in_map_iff in Hg as (? & [= <- <-] & _). apply commit_growing.
  - intros a Ha. apply Hin. apply elem_of_list_In, in_map_iff. exists a. split; [done|]. by apply elem_of_list_In.
Qed.
Lemma fst_zip_with {A B} (f : B -> A) l (k : list B) : length k = length l -> map fst (zip_with (fun a b => (a, f b)) l k) = (l : list nat).
Proof. revert k. induction l as [|a l IH]; intros [|b k] H; cbn in *; try done. f_equal. apply IH. lia. Qed.
Lemma assign_spec s bits m m' : vm_assign s bits m = Ok m' ->
  length bits = sl_size s /\ length m' = length m /\ mono m m' /\ (forall a, a ∉ addrs s -> m' !! a = m !! a) /\
  (forall i b, bits !! i = Some b -> exists v, (v = Public \/ v = Private) /\
    m !! (sl_ptr s + i) = Some (In (Some v) None false) /\ m' !! (sl_ptr s + i) = Some (In (Some v) (Some b) false)).
Proof.
  unfold vm_assign. destruct (Nat.eqb_spec (length bits) (sl_size s)) as [Hl|]; [|done]. intros H.
  pose proof (on_cells_spec _ _ _ H) as Hs. rewrite fst_zip_with in Hs by (unfold addrs; by rewrite seq_length).
  specialize (Hs (NoDup_addrs s)) as (Hlm & Hout & Hin). split; [done|]. split; [done|]. split; [|split; [done|]].
  - eapply on_cells_mono; [exact H|]. intros a g Hg. apply elem_of_lookup_zip_with in Hg as (i & x & y & [= -> ->] & _). apply assign_growing.
  - intros i b Hb. pose proof (lookup_lt_Some _ _ _ Hb) as Hi.
    destruct (Hin (sl_ptr s + i) (assign_cell b)) as (c & c' & H1 & H2 & H3).
    { apply elem_of_lookup_zip_with. exists i, (sl_ptr s + i), b. split; [done|]. split; [|done]. unfold addrs. apply lookup_seq. lia. }
    destruct c as [[[]|] [x|] []|]; cbn in H2; try done; injection H2 as <-; eexists; eauto.
Qed.

(** ** Values *)
Lemma values_from_app wit env m : exists l, values_from wit env m = env ++ l /\ length l = length m.
Proof.
  revert env. induction m as [|c m IH]; intros env; cbn [values_from].
  - exists []. by rewrite app_nil_r.
  - destruct (IH (env ++ [cell_value wit env c])) as (l & -> & Hl). exists (cell_value wit env c :: l). rewrite <- app_assoc. cbn. auto.
Qed.
Lemma values_from_lookup wit env m z c :
  m !! z = Some c -> values_from wit env m !! (length env + z) = Some (cell_value wit (take (length env + z) (values_from wit env m)) c).
Proof.
  revert env z. induction m as [|c0 m IH]; intros env z H; [done|]. cbn [values_from]. destruct z as [|z]; cbn in H.
  - injection H as ->. destruct (values_from_app wit (env ++ [cell_value wit env c]) m) as (l & -> & _).
    rewrite Nat.add_0_r, <- app_assoc. rewrite take_app. cbn. rewrite lookup_app_r by lia. by rewrite Nat.sub_diag.
  - specialize (IH (env ++ [cell_value wit env c0]) z H). rewrite app_length in IH. cbn [length] in IH.
    replace (length env + 1 + z) with (length env + S z) in IH by lia. exact IH.
Qed.
Definition val (wit : nat -> bool) (m : machine) (z : nat) : option bool := mjoin (values_from wit [] m !! z).
Lemma val_lookup wit m z c : m !! z = Some c -> val wit m z = cell_value wit (take z (values_from wit [] m)) c.
Proof. intros H. unfold val. pose proof (values_from_lookup wit [] m z c H) as E. cbn [length plus] in E. by rewrite E. Qed.
Lemma val_in wit m z v x com b : m !! z = Some (In v x com) -> val wit m z = Some b -> v = Some Blind /\ b = wit z \/ v <> Some Blind /\ x = Some b.
Proof.
  intros H E. rewrite (val_lookup _ _ _ _ H) in E. cbn in E. destruct com; [|done].
  rewrite take_length in E. destruct (values_from_app wit [] m) as (l & Hl & Hll). rewrite Hl in E. cbn in E. rewrite Hll in E.
  apply lookup_lt_Some in H. rewrite Nat.min_l in E by lia.
  destruct v as [[]|]; [right; by split|right; by split|left|right; by split]. split; [done|congruence].
Qed.

(** ** The two memories *)
Definition images (g : list nat) (l z : list nat) : Prop := Forall2 (fun a b => g !! a = Some b) l z.
Definition tracks (g : list nat) (mpc zk : machine) : Prop :=
  length g = length mpc /\ (forall a z, g !! a = Some z -> z < length zk) /\
  (forall a a' z, g !! a = Some z -> g !! a' = Some z -> a = a') /\
  (forall a z c, g !! a = Some z -> mpc !! a = Some c ->
    match c with
    | In _ _ _ => exists v x com, zk !! z = Some (In v x com)
    | Bit f args i => exists zargs, zk !! z = Some (Bit f zargs i) /\ images g args zargs /\ Forall (fun b => b < a) args
    end).
Definition maps (g : list nat) (mm : memory_map) : Prop :=
  exists hs, mm_inserts mm_new hs = Ok mm /\ forall a b i, (a, b) ∈ hs -> i < sl_size a -> g !! (sl_ptr a + i) = Some (sl_ptr b + i).

Lemma images_seq g p q n : (forall i, i < n -> g !! (p + i) = Some (q + i)) -> images g (seq p n) (seq q n).
Proof.
  revert p q. induction n as [|n IH]; intros p q H; cbn [seq]; [constructor|]. constructor.
  - specialize (H 0 ltac:(lia)). by rewrite !Nat.add_0_r in H.
  - apply IH. intros i Hi. specialize (H (S i) ltac:(lia)). by rewrite <- !Nat.add_succ_comm in H.
Qed.
Lemma translate_images g d s z : maps g (dp_map d) -> translate d s = Ok z ->
  sl_size z = sl_size s /\ (forall i, i < sl_size s -> g !! (sl_ptr s + i) = Some (sl_ptr z + i)) /\ images g (addrs s) (addrs z).
Proof.
  intros (hs & Hhs & Hg) H. unfold translate in H. destruct (mm_try_get rust_search (dp_map d) s) as [z'|e|] eqn:E; cbn in H; try done.
  injection H as ->. destruct (try_get_sound _ _ _ _ _ Hhs E) as (a & b & Hab & [I1 I2] & [O1 O2]).
  assert (forall i, i < sl_size s -> g !! (sl_ptr s + i) = Some (sl_ptr z + i)) as Hi.
  { intros i Hi. specialize (Hg a b (sl_ptr s - sl_ptr a + i) Hab ltac:(lia)).
    replace (sl_ptr a + (sl_ptr s - sl_ptr a + i)) with (sl_ptr s + i) in Hg by lia.
    replace (sl_ptr b + (sl_ptr s - sl_ptr a + i)) with (sl_ptr z + i) in Hg by lia. done. }
  split; [done|]. split; [done|]. unfold addrs. rewrite O2. by apply images_seq.
Qed.
Lemma images_elem g l k z : images g l k -> z ∈ k -> exists a, a ∈ l /\ g !! a = Some z.
Proof. intros H Hz. apply elem_of_list_lookup in Hz as [i Hi]. destruct (Forall2_lookup_r _ _ _ _ _ H Hi) as (a & Ha & Hg). exists a. split; [by eapply elem_of_list_lookup_2|done]. Qed.
Lemma images_elem_l g l k a : images g l k -> a ∈ l -> exists z, z ∈ k /\ g !! a = Some z.
Proof. intros H Hz. apply elem_of_list_lookup in Hz as [i Hi]. destruct (Forall2_lookup_l _ _ _ _ _ H Hi) as (a' & Ha & Hg). exists a'. split; [by eapply elem_of_list_lookup_2|done]. Qed.
Lemma images_app g g' l k : images g l k -> images (g ++ g') l k.
Proof. intros H. eapply Forall2_impl; [exact H|]. intros a b Hab. by apply lookup_app_l_Some. Qed.

Lemma tracks_mono g mpc zk mpc' zk' : tracks g mpc zk -> length mpc' = length mpc -> mono mpc mpc' -> mono zk zk' -> tracks g mpc' zk'.
Proof.
  intros (H1 & H2 & H3 & H4) Hl [_ Hm] [Hlz Hz]. split; [congruence|]. split; [intros a z Ha; specialize (H2 _ _ Ha); lia|]. split; [done|].
  intros a z c Ha Hc. destruct (lookup_lt_is_Some_2 mpc a) as [c0 Hc0]. { rewrite <- Hl. by eapply lookup_lt_Some. }
  destruct (Hm _ _ Hc0) as (c1 & Hc1 & Hle). replace c1 with c in Hle by congruence. specialize (H4 _ _ _ Ha Hc0).
  destruct c0 as [v x com|f args i], c as [v' x' com'|f' args' i']; cbn in Hle; try done.
  - destruct H4 as (v1 & x1 & com1 & Hz1). destruct (Hz _ _ Hz1) as ([v2 x2 com2|] & Hz2 & Hle2); [eauto|done].
  - injection Hle as -> -> ->. destruct H4 as (zargs & Hz1 & Hi). destruct (Hz _ _ Hz1) as (c2 & Hz2 & Hle2). cbn in Hle2. subst c2. eauto.
Qed.
(** Both machines get new cells. *)
Lemma tracks_extend g mpc zk new znew :
  tracks g mpc zk -> length new = length znew ->
  (forall i c, new !! i = Some c ->
    match c with
    | In _ _ _ => exists v x com, znew !! i = Some (In v x com)
    | Bit f args j => exists zargs, znew !! i = Some (Bit f zargs j) /\ images g args zargs /\ Forall (fun b => b < length mpc) args
    end) ->
  tracks (g ++ seq (length zk) (length new)) (mpc ++ new) (zk ++ znew).
Proof.
  intros (H1 & H2 & H3 & H4) Hl Hn.
  assert (forall a z, (g ++ seq (length zk) (length new)) !! a = Some z ->
    g !! a = Some z /\ z < length zk \/ exists i, a = length g + i /\ z = length zk + i /\ i < length new) as Hc.
  { intros a z Ha. apply lookup_app_Some in Ha as [Ha|[Ha Hs]]; [left; eauto|right]. apply lookup_seq in Hs as [-> Hi].
    exists (a - length g). lia. }
  split; [rewrite !app_length, seq_length; lia|]. split; [|split].
  - intros a z Ha. rewrite app_length. destruct (Hc _ _ Ha) as [[_ ?]|(i & -> & -> & ?)]; lia.
  - intros a a' z Ha Ha'. destruct (Hc _ _ Ha) as [[G ?]|(i & -> & -> & ?)], (Hc _ _ Ha') as [[G' ?]|(i' & -> & ? & ?)]; [by eapply H3|lia..].
  - intros a z c Ha Hcell. destruct (Hc _ _ Ha) as [[G Hz]|(i & -> & -> & Hi)].
    + assert (mpc !! a = Some c) as Hm. { apply lookup_app_Some in Hcell as [?|[? _]]; [done|]. apply lookup_lt_Some in G. lia. }
      specialize (H4 _ _ _ G Hm). destruct c as [v x com|f args j].
      * destruct H4 as (v' & x' & com' & Hz'). exists v', x', com'. by apply lookup_app_l_Some.
      * destruct H4 as (zargs & Hz' & Hi & Hlt). exists zargs. split; [by apply lookup_app_l_Some|]. split; [by apply images_app|done].
    + rewrite H1 in Hcell. rewrite lookup_app_r, Nat.add_comm, Nat.add_sub in Hcell by lia. specialize (Hn _ _ Hcell).
      destruct c as [v x com|f args j].
      * destruct Hn as (v' & x' & com' & Hz'). exists v', x', com'. rewrite lookup_app_r by lia. by replace (length zk + i - length zk) with i by lia.
      * destruct Hn as (zargs & Hz' & Him & Hlt). exists zargs. rewrite lookup_app_r by lia. replace (length zk + i - length zk) with i by lia.
        split; [done|]. split; [by apply images_app|]. eapply Forall_impl; [exact Hlt|]. intros b Hb. cbn in Hb. lia.
Qed.
Lemma inserts_snoc hs m a b : mm_inserts m (hs ++ [(a, b)]) = obind (mm_inserts m hs) (fun m' => mm_insert m' a b).
Proof.
  revert m. induction hs as [|[x y] hs IH]; intros m; cbn [app mm_inserts].
  - cbn. by destruct (mm_insert m a b).
  - destruct (mm_insert m x y); cbn; [apply IH|done..].
Qed.
Lemma maps_insert g mm mm' n p q :
  maps g mm -> length g = p -> lift_panic (E := dp_error) (mm_insert mm (Slice p n) (Slice q n)) = Ok mm' -> maps (g ++ seq q n) mm'.
Proof.
  intros (hs & Hhs & Hg) Hp H. assert (mm_insert mm (Slice p n) (Slice q n) = Ok mm') as Hi.
  { destruct (mm_insert mm (Slice p n) (Slice q n)) as [?|[]|]; cbn in H; try done. by injection H as ->. }
  exists (hs ++ [(Slice p n, Slice q n)]). split.
  - rewrite inserts_snoc, Hhs. exact Hi.
  - intros a b i Hab Hi'. apply elem_of_app in Hab as [Hab|Hab].
    + apply lookup_app_l_Some. eauto.
    + apply elem_of_list_singleton in Hab. injection Hab as -> ->. cbn in *. rewrite lookup_app_r by lia. apply lookup_seq. lia.
Qed.

(** ** What calls mean *)
Lemma meaning_app inputs os os' mem : meaning inputs (os ++ os') mem = meaning inputs os' (meaning inputs os mem).
Proof. revert mem. induction os as [|[] os IH]; intros mem; cbn [app meaning]; try done; apply IH. Qed.
Definition means (past : list dop) (mpc : machine) : Prop := forall inputs, let mem := meaning inputs past [] in
  length mem = length mpc /\
  forall a c, mpc !! a = Some c ->
    match c with
    | In _ _ _ => mem !! a = Some (inputs a)
    | Bit f args i => exists xs, mapM (fun b => mem !! b) args = Some xs /\ mem !! a = ci_eval f xs !! i
    end.
Lemma means_mono past o mpc mpc' :
  means past mpc -> length mpc' = length mpc -> mono mpc mpc' -> (forall inputs mem, meaning inputs [o] mem = mem) -> means (past ++ [o]) mpc'.
Proof.
  intros H Hl [_ Hm] Ho inputs. rewrite meaning_app, Ho. destruct (H inputs) as [H1 H2]. split; [congruence|].
  intros a c Hc. destruct (lookup_lt_is_Some_2 mpc a) as [c0 Hc0]. { rewrite <- Hl. by eapply lookup_lt_Some. }
  destruct (Hm _ _ Hc0) as (c1 & Hc1 & Hle). replace c1 with c in Hle by congruence. specialize (H2 _ _ Hc0).
  destruct c0 as [v x com|f args i], c as [v' x' com'|f' args' i']; cbn in Hle; try done. by injection Hle as -> -> ->.
Qed.
Lemma mapM_grow (mem l : list bool) args xs : mapM (fun b => mem !! b) args = Some xs -> mapM (fun b => (mem ++ l) !! b) args = Some xs.
Proof. rewrite !mapM_Some. intros H. eapply Forall2_impl; [exact H|]. intros a b Hb. by apply lookup_app_l_Some. Qed.
Lemma means_extend past o mpc new (bits : (nat -> bool) -> list bool -> list bool) :
  means past mpc -> (forall inputs mem, meaning inputs [o] mem = mem ++ bits inputs mem) ->
  (forall inputs mem, mem = meaning inputs past [] -> length (bits inputs mem) = length new /\
    forall i c, new !! i = Some c ->
      match c with
      | In _ _ _ => bits inputs mem !! i = Some (inputs (length mpc + i))
      | Bit f args j => exists xs, mapM (fun b => mem !! b) args = Some xs /\ bits inputs mem !! i = ci_eval f xs !! j
      end) ->
  means (past ++ [o]) (mpc ++ new).
Proof.
  intros H Ho Hb inputs. rewrite meaning_app, Ho. destruct (H inputs) as [H1 H2]. specialize (Hb inputs _ eq_refl) as [Hl Hb].
  set (mem := meaning inputs past []) in *. split; [rewrite !app_length; lia|].
  intros a c Hc. apply lookup_app_Some in Hc as [Hc|[Ha Hc]].
  - pose proof (lookup_lt_Some _ _ _ Hc) as Hlt. specialize (H2 _ _ Hc). destruct c as [v x com|f args i].
    + by apply lookup_app_l_Some.
    + destruct H2 as (xs & Hxs & Hv). exists xs. split; [by apply mapM_grow|]. rewrite lookup_app_l by lia. done.
  - specialize (Hb _ _ Hc). rewrite lookup_app_r by lia. rewrite H1. destruct c as [v x com|f args i].
    + rewrite Hb. do 2 f_equal. lia.
    + destruct Hb as (xs & Hxs & Hv). exists xs. split; [by apply mapM_grow|done].
Qed.
Lemma read_mapM (mem : list bool) s : sl_end s <= length mem -> mapM (fun b => mem !! b) (addrs s) = Some (read mem s).
Proof.
  intros H. apply mapM_Some. unfold addrs, read, sl_end in *. apply Forall2_same_length_lookup. split.
  - rewrite seq_length, take_length, drop_length. lia.
  - intros i x y Hx Hy. apply lookup_seq in Hx as [-> Hi]. by rewrite lookup_take, lookup_drop in Hy by lia.
Qed.
Lemma mapM_app_Some {A B} (f : A -> option B) l k x y : mapM f l = Some x -> mapM f k = Some y -> mapM f (l ++ k) = Some (x ++ y).
Proof. rewrite !mapM_Some. apply Forall2_app. Qed.
Lemma reads_mapM (mem : list bool) args :
  Forall (fun s => sl_end s <= length mem) args -> mapM (fun b => mem !! b) (concat (map addrs args)) = Some (concat (map (read mem) args)).
Proof. induction 1 as [|s args Hs _ IH]; cbn [map concat]; [done|]. apply mapM_app_Some; [by apply read_mapM|done]. Qed.
Lemma ci_eval_length f x : length (ci_eval f x) = ci_out f.
Proof. unfold ci_eval. rewrite take_length, app_length, replicate_length. lia. Qed.

(** ** Invariant *)
Definition secret (r : role) (v : vis) : Prop := match r, v with Follower, Private | Leader, Blind => True | _, _ => False end.
Record inv (r : role) (past : list dop) (d : deap) (g : list nat) : Prop := {
  i_tracks : tracks g (dp_mpc d) (dp_zk d);
  i_maps : maps g (dp_map d);
  i_means : means past (dp_mpc d);
  i_assigned : forall s bits, DAssign s bits ∈ past -> length bits = sl_size s /\
    forall i b, bits !! i = Some b -> exists z v com, g !! (sl_ptr s + i) = Some z /\ dp_zk d !! z = Some (In (Some v) (Some b) com) /\ v <> Blind;
  i_ok : rs_ok (dp_ranges d);
  i_secret : forall a, in_rs a (dp_ranges d) -> exists z v x, g !! a = Some z /\ dp_zk d !! z = Some (In v x false);
  i_marks : forall v s a, DMark v s ∈ past -> secret r v -> a ∈ addrs s -> in_rs a (dp_ranges d);
  i_outs : forall s z, (s, z) ∈ dp_outputs d -> images g (addrs s) (addrs z);
  i_decs : forall s, DDecode s ∈ past -> exists z, (s, z) ∈ dp_outputs d }.

Lemma elem_snoc {A} (x y : A) l : x ∈ l ++ [y] -> x ∈ l \/ x = y.
Proof. intros [H|H]%elem_of_app; [by left|right]. by apply elem_of_list_singleton in H. Qed.

Lemma assigned_mono g g' zk zk' past o :
  mono zk zk' -> (forall s bits, o <> DAssign s bits) ->
  (forall s bits, DAssign s bits ∈ past -> length bits = sl_size s /\
    forall i b, bits !! i = Some b -> exists z v com, g !! (sl_ptr s + i) = Some z /\ zk !! z = Some (In (Some v) (Some b) com) /\ v <> Blind) ->
  forall s bits, DAssign s bits ∈ past ++ [o] -> length bits = sl_size s /\
    forall i b, bits !! i = Some b -> exists z v com, (g ++ g') !! (sl_ptr s + i) = Some z /\ zk' !! z = Some (In (Some v) (Some b) com) /\ v <> Blind.
Proof.
  intros [_ Hm] Ho H s bits Hin. apply elem_snoc in Hin as [Hin|Hin]; [|by destruct (Ho s bits)].
  destruct (H _ _ Hin) as [Hl Hb]. split; [done|]. intros i b Hi. destruct (Hb _ _ Hi) as (z & v & com & H1 & H2 & H3).
  destruct (Hm _ _ H2) as ([v' x' com'|] & H4 & H5); [|done]. destruct H5 as ([?|<-] & [?|<-] & _); try done.
  exists z, v, com'. split; [by apply lookup_app_l_Some|]. done.
Qed.
(** Operations that add cells to both machines. *)
Lemma inv_extend r past d g o new znew mm' (bits : (nat -> bool) -> list bool -> list bool) :
  inv r past d g ->
  length new = length znew ->
  (forall i c, new !! i = Some c ->
    match c with
    | In _ _ _ => exists v x com, znew !! i = Some (In v x com)
    | Bit f args j => exists zargs, znew !! i = Some (Bit f zargs j) /\ images g args zargs /\ Forall (fun b => b < length (dp_mpc d)) args
    end) ->
  (forall inputs mem, meaning inputs [o] mem = mem ++ bits inputs mem) ->
  (forall inputs mem, mem = meaning inputs past [] -> length (bits inputs mem) = length new /\
    forall i c, new !! i = Some c ->
      match c with
      | In _ _ _ => bits inputs mem !! i = Some (inputs (length (dp_mpc d) + i))
      | Bit f args j => exists xs, mapM (fun b => mem !! b) args = Some xs /\ bits inputs mem !! i = ci_eval f xs !! j
      end) ->
  (forall s bits, o <> DAssign s bits) -> (forall s v, o <> DMark v s) -> (forall s, o <> DDecode s) ->
  lift_panic (E := dp_error) (mm_insert (dp_map d) (Slice (length (dp_mpc d)) (length new)) (Slice (length (dp_zk d)) (length new))) = Ok mm' ->
  inv r (past ++ [o]) (Deap (dp_mpc d ++ new) (dp_zk d ++ znew) mm' (dp_ranges d) (dp_inputs d) (dp_outputs d)) (g ++ seq (length (dp_zk d)) (length new)).
Proof.
  intros [I1 I2 I3 I4 I5 I6 I7 I8 I9] Hl Hn Ho Hb Ha Hk Hd Hmm. split; cbn [dp_mpc dp_zk dp_map dp_ranges dp_inputs dp_outputs].
  - by apply tracks_extend.
  - eapply maps_insert; [exact I2|apply I1|exact Hmm].
  - eapply means_extend; [exact I3|exact Ho|exact Hb].
  - eapply assigned_mono; [apply mono_app|done|exact I4].
  - done.
  - intros a Hin. destruct (I6 _ Hin) as (z & v & x & H1 & H2). exists z, v, x. split; by apply lookup_app_l_Some.
  - intros v s a Hin. apply elem_snoc in Hin as [Hin|Hin]; [by eapply I7|by destruct (Hk s v)].
  - intros s z Hin. apply images_app. by apply I8.
  - intros s Hin. apply elem_snoc in Hin as [Hin|Hin]; [by apply I9|by destruct (Hd s)].
Qed.
Lemma step_alloc r past d g n d' : inv r past d g -> dp_alloc n d = Ok d' -> exists g', inv r (past ++ [DAlloc n]) d' g'.
Proof.
  intros Hi H. unfold dp_alloc, vm_alloc in H. apply obind_Ok in H as (mm & Hmm & [= <-]). eexists.
  eapply (inv_extend r past d g (DAlloc n) (replicate n (In None None false)) (replicate n (In None None false)) mm
    (fun inputs mem => map inputs (seq (length mem) n))); try done.
  - intros i c Hc. apply lookup_replicate in Hc as [-> Hlt]. exists None, None, false. by apply lookup_replicate.
  - intros inputs mem ->. rewrite map_length, seq_length, replicate_length. split; [done|]. intros i c Hc.
    apply lookup_replicate in Hc as [-> Hlt]. destruct (i_means _ _ _ _ Hi inputs) as [Hl _].
    apply list_lookup_fmap_Some. exists (length (meaning inputs past []) + i). split; [by apply lookup_seq|]. by rewrite Hl.
  - by rewrite replicate_length.
Qed.
Lemma forallb_has m args : forallb (vm_has m) args = true <-> Forall (fun s => sl_end s <= length m) args.
Proof.
  rewrite forallb_forall, Forall_forall. unfold vm_has. split; intros H s Hs.
  - apply Nat.leb_le, H. by apply elem_of_list_In.
  - apply Nat.leb_le, H. by apply elem_of_list_In.
Qed.
Lemma translate_all_images g d args zargs : maps g (dp_map d) -> translate_all d args = Ok zargs ->
  images g (concat (map addrs args)) (concat (map addrs zargs)).
Proof.
  intros Hm. revert zargs. induction args as [|s args IH]; intros zargs H; cbn [translate_all] in H.
  - injection H as <-. constructor.
  - apply obind_Ok in H as (z & Hz & H). apply obind_Ok in H as (zs & Hzs & [= <-]). cbn [map concat].
    apply Forall2_app; [by eapply translate_images|by apply IH].
Qed.
Lemma step_call r past d g f args d' : inv r past d g -> dp_call f args d = Ok d' -> exists g', inv r (past ++ [DCall f args]) d' g'.
Proof.
  intros Hi H. unfold dp_call in H. apply obind_Ok in H as (zargs & Hz & H).
  case_bool_decide; [|done]. cbn [negb] in H. apply obind_Ok in H as ([mpc ms] & H1 & H).
  apply obind_Ok in H as ([zk zs] & H2 & H). apply obind_Ok in H as (mm & Hmm & [= <-]).
  unfold vm_call in H1, H2. destruct (forallb (vm_has (dp_mpc d)) args) eqn:E1; [|done]. destruct (forallb (vm_has (dp_zk d)) zargs) eqn:E2; [|done].
  injection H1 as <- <-. injection H2 as <- <-. apply forallb_has in E1. eexists.
  eapply (inv_extend r past d g (DCall f args) _ _ mm (fun _ mem => ci_eval f (concat (map (read mem) args)))); try done.
  - by rewrite !map_length.
  - intros i c Hc. apply list_lookup_fmap_Some in Hc as (j & Hj & ->). exists (concat (map addrs zargs)). split.
    + apply list_lookup_fmap_Some. eauto.
    + split; [eapply translate_all_images; [apply Hi|done]|]. apply Forall_concat, Forall_map. eapply Forall_impl; [exact E1|].
      intros s Hs. cbn in Hs. apply Forall_forall. intros a Ha%elem_of_addrs. lia.
  - intros inputs mem ->. rewrite ci_eval_length, map_length, seq_length. split; [done|]. intros i c Hc.
    apply list_lookup_fmap_Some in Hc as (j & Hj & ->). apply lookup_seq in Hj as [-> Hj].
    eexists. split; [|reflexivity]. apply reads_mapM. destruct (i_means _ _ _ _ Hi inputs) as [Hl _]. by rewrite Hl.
  - by rewrite map_length, seq_length.
Qed.

Lemma step_zk r past d g n : inv r past d g -> inv r (past ++ [DZk n]) (set_vms (dp_mpc d) (fst (vm_alloc (dp_zk d) n)) d) g.
Proof.
  intros [I1 I2 I3 I4 I5 I6 I7 I8 I9]. unfold vm_alloc, set_vms. cbn [fst]. pose proof (mono_app (dp_zk d) (replicate n (In None None false))) as Hm.
  split; cbn [dp_mpc dp_zk dp_map dp_ranges dp_inputs dp_outputs]; try done.
  - eapply tracks_mono; [exact I1|done|apply mono_refl|done].
  - eapply means_mono; [exact I3|done|apply mono_refl|done].
  - intros s bits Hin. pose proof (assigned_mono g [] _ _ past (DZk n) Hm ltac:(done) I4 s bits Hin) as H. by rewrite app_nil_r in H.
  - intros a Hin. destruct (I6 _ Hin) as (z & v & x & H1 & H2). exists z, v, x. split; [done|]. by apply lookup_app_l_Some.
  - intros v s a Hin. apply elem_snoc in Hin as [Hin|Hin]; [by eapply I7|done].
  - intros s Hin. apply elem_snoc in Hin as [Hin|Hin]; [by apply I9|done].
Qed.
Lemma step_decode r past d g s d' : inv r past d g -> dp_decode s d = Ok d' -> inv r (past ++ [DDecode s]) d' g.
Proof.
  intros [I1 I2 I3 I4 I5 I6 I7 I8 I9] H. unfold dp_decode in H. apply obind_Ok in H as (z & Hz & H).
  destruct (negb (vm_has (dp_zk d) z)); [done|]. destruct (negb (vm_has (dp_mpc d) s)); [done|]. injection H as <-.
  split; cbn [dp_mpc dp_zk dp_map dp_ranges dp_inputs dp_outputs]; try done.
  - eapply means_mono; [exact I3|done|apply mono_refl|done].
  - intros s' bits Hin. apply elem_snoc in Hin as [Hin|Hin]; [by apply I4|done].
  - intros v s' a Hin. apply elem_snoc in Hin as [Hin|Hin]; [by eapply I7|done].
  - intros s' z' Hin. apply elem_snoc in Hin as [Hin|[= -> ->]]; [by apply I8|]. by eapply translate_images.
  - intros s' Hin. apply elem_snoc in Hin as [Hin|[= ->]].
    + destruct (I9 _ Hin) as [z' Hz']. exists z'. apply elem_of_app. by left.
    + exists z. apply elem_of_app. right. by apply elem_of_list_singleton.
Qed.
Lemma step_assign r past d g s bits d' : inv r past d g -> dp_assign s bits d = Ok d' -> inv r (past ++ [DAssign s bits]) d' g.
Proof.
  intros [I1 I2 I3 I4 I5 I6 I7 I8 I9] H. unfold dp_assign in H. apply obind_Ok in H as (mpc & Hm & H).
  apply obind_Ok in H as (z & Hz & H). apply obind_Ok in H as (zk & Hk & [= <-]).
  destruct (assign_spec _ _ _ _ Hm) as (L1 & L2 & L3 & L4 & L5). destruct (assign_spec _ _ _ _ Hk) as (K1 & K2 & K3 & K4 & K5).
  destruct (translate_images _ _ _ _ I2 Hz) as (T1 & T2 & T3).
  unfold set_vms. split; cbn [dp_mpc dp_zk dp_map dp_ranges dp_inputs dp_outputs]; try done.
  - eapply tracks_mono; eauto.
  - eapply means_mono; eauto.
  - intros s' bits' Hin. apply elem_snoc in Hin as [Hin|[= -> ->]].
    + destruct (I4 _ _ Hin) as [Hl Hb]. split; [done|]. intros i b Hi. destruct (Hb _ _ Hi) as (z' & v & com & H1 & H2 & H3).
      destruct (proj2 K3 _ _ H2) as ([v' x' com'|] & H4 & H5); [|done]. destruct H5 as ([?|<-] & [?|<-] & _); try done. eauto 6.
    + split; [done|]. intros i b Hi. destruct (K5 _ _ Hi) as (v & Hv & _ & Hz'). exists (sl_ptr z + i), v, false.
      split; [apply T2; apply lookup_lt_Some in Hi; lia|]. split; [done|]. by destruct Hv as [-> | ->].
  - intros a Hin. destruct (I6 _ Hin) as (z' & v & x & H1 & H2). destruct (decide (z' ∈ addrs z)) as [Hz'|Hz'].
    + apply elem_of_addrs in Hz'. unfold sl_end in Hz'.
      destruct (lookup_lt_is_Some_2 bits (z' - sl_ptr z)) as [b Hb]; [lia|]. destruct (K5 _ _ Hb) as (v' & _ & _ & Hc).
      replace (sl_ptr z + (z' - sl_ptr z)) with z' in Hc by lia. eauto.
    + exists z', v, x. split; [done|]. by rewrite K4.
  - intros v s' a Hin. apply elem_snoc in Hin as [Hin|Hin]; [by eapply I7|done].
  - intros s' Hin. apply elem_snoc in Hin as [Hin|Hin]; [by apply I9|done].
Qed.

Lemma commit_ranges_spec g d rs zk zk' : maps g (dp_map d) -> commit_ranges d rs zk = Ok zk' ->
  length zk' = length zk /\ mono zk zk' /\ (forall z, (forall a, g !! a = Some z -> ~ in_rs a rs) -> zk' !! z = zk !! z).
Proof.
  intros Hm. revert zk. induction rs as [|[a b] rs IH]; intros zk H; cbn [commit_ranges] in H.
  { injection H as <-. split; [done|]. split; [apply mono_refl|done]. }
  apply obind_Ok in H as (z & Hz & H). apply obind_Ok in H as (zk1 & Hk & H).
  destruct (commit_spec _ _ _ Hk) as (L1 & L2 & L3 & _). destruct (IH _ H) as (M1 & M2 & M3).
  split; [congruence|]. split; [by eapply mono_trans|]. intros y Hy. rewrite M3.
  - apply L3. intros Hin. destruct (translate_images _ _ _ _ Hm Hz) as (_ & _ & T). destruct (images_elem _ _ _ _ T Hin) as (x & Hx & Hg).
    apply (Hy _ Hg). apply in_rs_cons. left. apply elem_of_addrs in Hx. unfold sl_end in Hx. cbn in Hx. unfold in_range. cbn. lia.
  - intros x Hg Hin. apply (Hy _ Hg). apply in_rs_cons. by right.
Qed.
Lemma step_commit r past d g s d' : inv r past d g -> dp_commit s d = Ok d' -> inv r (past ++ [DCommit s]) d' g.
Proof.
  intros [I1 I2 I3 I4 I5 I6 I7 I8 I9] H. unfold dp_commit in H. apply obind_Ok in H as (zk & Hk & H).
  apply obind_Ok in H as (mpc & Hm & [= <-]).
  destruct (commit_spec _ _ _ Hm) as (L1 & L2 & L3 & _). destruct (commit_ranges_spec _ _ _ _ _ I2 Hk) as (K1 & K2 & K3).
  unfold set_vms. split; cbn [dp_mpc dp_zk dp_map dp_ranges dp_inputs dp_outputs]; try done.
  - eapply tracks_mono; eauto.
  - eapply means_mono; eauto.
  - intros s' bits Hin. pose proof (assigned_mono g [] _ _ past (DCommit s) K2 ltac:(done) I4 s' bits Hin) as H. by rewrite app_nil_r in H.
  - intros a Hin. destruct (I6 _ Hin) as (z & v & x & H1 & H2). exists z, v, x. split; [done|]. rewrite K3; [done|].
    intros a' Ha' Hin'. destruct I1 as (_ & _ & Hinj & _). rewrite (Hinj _ _ _ Ha' H1) in Hin'.
    apply in_rs_diff in Hin' as [_ Hn]; [done|apply rs_single_ok].
  - intros v s' a Hin. apply elem_snoc in Hin as [Hin|Hin]; [by eapply I7|done].
  - intros s' Hin. apply elem_snoc in Hin as [Hin|Hin]; [by apply I9|done].
Qed.

Lemma mark_both_inv past d g v v' s d' o : forall r,
  inv r past d g -> mark_both v v' s d = Ok d' -> (forall inputs mem, meaning inputs [o] mem = mem) -> (forall s bits, o <> DAssign s bits) -> (forall s, o <> DDecode s) ->
  dp_ranges d' = dp_ranges d /\ dp_inputs d' = dp_inputs d /\ (exists z, images g (addrs s) (addrs z) /\ forall a, a ∈ addrs z -> dp_zk d' !! a = Some (In (Some v') None false)) /\
  forall rs ins, rs_ok rs ->
    (forall a, in_rs a rs -> in_rs a (dp_ranges d) \/ a ∈ addrs s) ->
    (forall v s a, DMark v s ∈ past ++ [o] -> secret r v -> a ∈ addrs s -> in_rs a rs) ->
    inv r (past ++ [o]) (Deap (dp_mpc d') (dp_zk d') (dp_map d') rs ins (dp_outputs d')) g.
Proof.
  intros r [I1 I2 I3 I4 I5 I6 I7 I8 I9] H Ho Ha Hd. unfold mark_both in H. apply obind_Ok in H as (mpc & Hm & H).
  apply obind_Ok in H as (z & Hz & H). apply obind_Ok in H as (zk & Hk & [= <-]).
  destruct (mark_spec _ _ _ _ Hm) as (L1 & L2 & L3 & L4). destruct (mark_spec _ _ _ _ Hk) as (K1 & K2 & K3 & K4).
  destruct (translate_images _ _ _ _ I2 Hz) as (T1 & T2 & T3). unfold set_vms. cbn [dp_mpc dp_zk dp_map dp_ranges dp_inputs dp_outputs].
  split; [done|]. split; [done|]. split. { exists z. split; [done|]. intros a Hin. by apply K4. }
  intros rs ins Hrs Hsub Hmk. split; cbn [dp_mpc dp_zk dp_map dp_ranges dp_inputs dp_outputs]; try done.
  - eapply tracks_mono; eauto.
  - eapply means_mono; eauto.
  - intros s' bits Hin. pose proof (assigned_mono g [] _ _ past o K2 Ha I4 s' bits Hin) as H. by rewrite app_nil_r in H.
  - intros a Hin. destruct (Hsub _ Hin) as [Hin'|Hin'].
    + destruct (I6 _ Hin') as (z' & v1 & x & H1 & H2). destruct (decide (z' ∈ addrs z)) as [Hz'|Hz'].
      * exists z', (Some v'), None. split; [done|]. by apply K4.
      * exists z', v1, x. split; [done|]. by rewrite K3.
    + destruct (images_elem_l _ _ _ _ T3 Hin') as (y & Hy & Hg). exists y, (Some v'), None. split; [done|]. by apply K4.
  - intros s' Hin. apply elem_snoc in Hin as [Hin|Hin]; [by apply I9|by destruct (Hd s')].
Qed.
Lemma deap_eta d : Deap (dp_mpc d) (dp_zk d) (dp_map d) (dp_ranges d) (dp_inputs d) (dp_outputs d) = d.
Proof. by destruct d. Qed.
Lemma step_mark_plain r past d g v v' s d' :
  inv r past d g -> ~ secret r v -> mark_both v v' s d = Ok d' -> inv r (past ++ [DMark v s]) d' g.
Proof.
  intros Hi Hs H. destruct (mark_both_inv past d g v v' s d' (DMark v s) r Hi H) as (E1 & E2 & _ & Hinv); [done..|].
  rewrite <- (deap_eta d'). apply Hinv.
  - rewrite E1. apply Hi.
  - intros a Ha. left. by rewrite <- E1.
  - intros v1 s1 a Hin Hsec Ha. rewrite E1. apply elem_snoc in Hin as [Hin|[= -> ->]]; [by eapply i_marks|done].
Qed.
Lemma step_mark_secret r past d g v v' s d' :
  inv r past d g -> mark_both v v' s d = Ok d' -> inv r (past ++ [DMark v s]) (follower_input s d') g.
Proof.
  intros Hi H. destruct (mark_both_inv past d g v v' s d' (DMark v s) r Hi H) as (E1 & E2 & _ & Hinv); [done..|].
  unfold follower_input. pose proof (i_ok _ _ _ _ Hi) as Hok. apply Hinv; rewrite E1.
  - by apply rs_union_ok.
  - intros a Ha. apply in_rs_union in Ha as [?|Ha]; [by left|right|done]. apply in_rs_single in Ha. by apply elem_of_addrs.
  - intros v1 s1 a Hin Hsec Ha. apply in_rs_union; [done|]. apply elem_snoc in Hin as [Hin|[= -> ->]].
    + left. by eapply i_marks.
    + right. apply in_rs_single. by apply elem_of_addrs.
Qed.
Lemma step_inv r past d g o d' : inv r past d g -> dp_step r o d = Ok d' -> exists g', inv r (past ++ [o]) d' g'.
Proof.
  intros Hi H. destruct o as [n|n|v s|s bits|s|f args|s]; cbn [dp_step] in H.
  - by eapply step_alloc.
  - injection H as <-. exists g. by apply step_zk.
  - exists g. destruct v, r; cbn [dp_mark] in H.
    1-3,6: by eapply step_mark_plain; [exact Hi|intros []|exact H].
    all: apply obind_Ok in H as (d1 & H & [= <-]); by eapply step_mark_secret.
  - exists g. by eapply step_assign.
  - exists g. by eapply step_commit.
  - by eapply step_call.
  - exists g. by eapply step_decode.
Qed.
Lemma run_inv r past d g os d' : inv r past d g -> dp_run r os d = Ok d' -> exists g', inv r (past ++ os) d' g'.
Proof.
  revert past d g. induction os as [|o os IH]; intros past d g Hi H; cbn [dp_run] in H.
  - injection H as <-. exists g. by rewrite app_nil_r.
  - apply obind_Ok in H as (d1 & H1 & H). destruct (step_inv _ _ _ _ _ _ Hi H1) as [g1 Hi1].
    destruct (IH _ _ _ Hi1 H) as [g' Hg']. exists g'. by rewrite <- app_assoc in Hg'.
Qed.
Lemma inv_new r : inv r [] dp_new [].
Proof.
  split; cbn.
  - split; [done|]. split; [done|]. split; [done|]. done.
  - exists []. split; [done|]. by intros a b i ?%elem_of_nil.
  - intros inputs. done.
  - by intros s bits ?%elem_of_nil.
  - done.
  - by intros a ?%in_rs_nil.
  - by intros v s a ?%elem_of_nil.
  - by intros s z ?%elem_of_nil.
  - by intros s ?%elem_of_nil.
Qed.

(** ** Privacy *)
Lemma C59_privacy_lemma r os d v s a z :
  dp_run r os dp_new = Ok d -> DMark v s ∈ os -> secret r v -> sl_ptr s <= a < sl_ptr s + sl_size s ->
  translate d (Slice a 1) = Ok z -> exists v' x, dp_zk d !! sl_ptr z = Some (In v' x false).
Proof.
  intros Hr Hin Hs Ha Hz. destruct (run_inv _ _ _ _ _ _ (inv_new r) Hr) as [g Hi]. cbn [app] in Hi.
  assert (a ∈ addrs s) as Ha' by (apply elem_of_addrs; unfold sl_end; lia).
  destruct (i_secret _ _ _ _ Hi _ (i_marks _ _ _ _ Hi _ _ _ Hin Hs Ha')) as (y & v' & x & Hg & Hc).
  destruct (translate_images _ _ _ _ (i_maps _ _ _ _ Hi) Hz) as (_ & T & _). specialize (T 0). cbn in T. rewrite !Nat.add_0_r in T.
  rewrite T in Hg by lia. injection Hg as <-. eauto.
Qed.

(** ** Soundness *)
Section Sound.
  Context (mpc_get : slice -> option (list bool)) (mpc_runs zk_runs : bool) (wit : nat -> bool).
  Definition fol_input (g : list nat) (zk : machine) (a : nat) : bool :=
    match g !! a with
    | Some z => match zk !! z with Some (In (Some Blind) _ _) => wit z | Some (In _ (Some b) _) => b | _ => false end
    | None => false
    end.
  Lemma mapM_take_val m z args xs :
    mapM (fun a => mjoin (take z (values_from wit [] m) !! a)) args = Some xs -> Forall2 (fun a b => val wit m a = Some b) args xs.
  Proof.
    rewrite mapM_Some. intros H. eapply Forall2_impl; [exact H|]. intros a b Hab. unfold val. cbn beta in Hab.
    destruct (take z (values_from wit [] m) !! a) eqn:E; [|discriminate]. apply lookup_take_Some in E as [E _]. by rewrite E.
  Qed.
  Lemma values_mean past g mpc zk : tracks g mpc zk -> means past mpc ->
    forall a z b, g !! a = Some z -> val wit zk z = Some b -> meaning (fol_input g zk) past [] !! a = Some b.
  Proof.
    intros (T1 & T2 & T3 & T4) Hm a. induction (lt_wf a) as [a _ IH]. intros z b Hg Hv.
    destruct (lookup_lt_is_Some_2 mpc a) as [c Hc]. { rewrite <- T1. by eapply lookup_lt_Some. }
    specialize (T4 _ _ _ Hg Hc). destruct (Hm (fol_input g zk)) as [Hl Hcell]. specialize (Hcell _ _ Hc).
    destruct c as [v x com|f args i].
    - rewrite Hcell. f_equal. destruct T4 as (v' & x' & com' & Hz). unfold fol_input. rewrite Hg, Hz.
      destruct (val_in _ _ _ _ _ _ _ Hz Hv) as [[-> ->]|[Hn ->]]; [done|]. by destruct v' as [[]|].
    - destruct T4 as (zargs & Hz & Him & Hlt). destruct Hcell as (xs & Hxs & ->).
      rewrite (val_lookup _ _ _ _ Hz) in Hv. cbn [cell_value] in Hv.
      destruct (mapM (fun a => mjoin (take z (values_from wit [] zk) !! a)) zargs) as [ys|] eqn:Hys; [|done].
      apply mapM_take_val in Hys. replace xs with ys; [done|]. clear Hv Hz Hc.
      apply mapM_Some in Hxs. revert ys Hys xs Hxs. induction Him as [|a0 z0 args zargs H0 _ IHi]; intros ys Hys xs Hxs.
      + apply Forall2_nil_inv_l in Hys as ->. by apply Forall2_nil_inv_l in Hxs as ->.
      + apply Forall2_cons_inv_l in Hys as (y & ys' & Hy & Hys & ->). apply Forall2_cons_inv_l in Hxs as (x & xs' & Hx & Hxs & ->).
        apply Forall_cons in Hlt as [Hlt0 Hlt]. f_equal; [|by eapply IHi]. rewrite (IH _ Hlt0 _ _ H0 Hy) in Hx. congruence.
  Qed.
  Lemma open_inputs_mono d ss zk zk' : open_inputs mpc_get Follower d ss zk = Ok zk' -> mono zk zk'.
  Proof.
    revert zk. induction ss as [|s ss IH]; intros zk H; cbn [open_inputs] in H.
    - injection H as <-. apply mono_refl.
    - apply obind_Ok in H as (z & Hz & H). cbn in H. apply obind_Ok in H as (zk1 & H1 & H).
      eapply mono_trans; [|by apply IH]. apply commit_spec in H1. apply H1.
  Qed.
  Lemma check_outputs_ok zk os : check_outputs mpc_get wit zk os = Ok tt -> forall s z v, (s, z) ∈ os -> mpc_get s = Some v -> vm_values wit zk z = Some v.
  Proof.
    induction os as [|[s z] os IH]; intros H s' z' v Hin Hv; [by apply elem_of_nil in Hin|]. cbn [check_outputs] in H.
    apply elem_of_cons in Hin as [[= <- <-]|Hin].
    - rewrite Hv in H. apply obind_Ok in H as (y & Hy & H). destruct (vm_values wit zk z') as [y'|]; [|done]. cbn in Hy. injection Hy as ->.
      case_bool_decide; [congruence|done].
    - destruct (mpc_get s) as [x|]; [|by eapply IH]. apply obind_Ok in H as (y & Hy & H). case_bool_decide; [by eapply IH|done].
  Qed.
  Lemma C59_sound_lemma os d d' :
    dp_run Follower os dp_new = Ok d -> dp_finalize mpc_get mpc_runs zk_runs wit Follower d = Ok d' ->
    exists inputs, agrees_with inputs os /\
      forall s v, DDecode s ∈ os -> mpc_get s = Some v -> read (meaning inputs os []) s = v.
  Proof.
    intros Hr H. destruct (run_inv _ _ _ _ _ _ (inv_new _) Hr) as [g [I1 I2 I3 I4 I5 I6 I7 I8 I9]]. cbn [app] in *.
    unfold dp_finalize in H. destruct (negb (forallb _ _)); [done|]. destruct (negb mpc_runs); [done|].
    apply obind_Ok in H as (zk & Ho & H). destruct (negb zk_runs); [done|]. apply obind_Ok in H as ([] & Hc & _).
    pose proof (open_inputs_mono _ _ _ _ Ho) as Hmono. pose proof (tracks_mono _ _ _ _ _ I1 eq_refl (mono_refl _) Hmono) as Ht.
    exists (fol_input g zk). split.
    - intros s bits Hin. destruct (I4 _ _ Hin) as [Hl Hb]. apply list_eq_same_length with (sl_size s); [done|by rewrite map_length, seq_length|].
      intros i x y Hi Hx Hy. apply list_lookup_fmap_Some in Hx as (a & Ha & ->). apply lookup_seq in Ha as [-> _].
      destruct (Hb _ _ Hy) as (z & v & com & G1 & G2 & G3). destruct (proj2 Hmono _ _ G2) as ([v' x' com'|] & G4 & G5); [|done].
      destruct G5 as ([?|<-] & [?|<-] & _); try done. unfold fol_input. rewrite G1, G4. by destruct v.
    - intros s v Hin Hv. destruct (I9 _ Hin) as [z Hz]. pose proof (check_outputs_ok _ _ Hc _ _ _ Hz Hv) as Hval.
      pose proof (I8 _ _ Hz) as Him. unfold vm_values in Hval. apply mapM_Some in Hval.
      assert (Forall2 (fun a b => meaning (fol_input g zk) os [] !! a = Some b) (addrs s) v) as Hf.
      { clear -Him Hval Ht I3. revert v Hval. induction Him as [|a y l k Ha _ IH]; intros v Hval.
        - apply Forall2_nil_inv_l in Hval as ->. constructor.
        - apply Forall2_cons_inv_l in Hval as (b & v' & Hb & Hval & ->). constructor; [|by apply IH].
          eapply values_mean; [exact Ht|exact I3|exact Ha|exact Hb]. }
      assert (sl_size s <> 0 -> sl_end s <= length (meaning (fol_input g zk) os [])) as Hend.
      { intros Hs. destruct (Forall2_lookup_l _ _ _ (sl_size s - 1) (sl_ptr s + (sl_size s - 1)) Hf) as (b & _ & Hb).
        { unfold addrs. apply lookup_seq. lia. } apply lookup_lt_Some in Hb. unfold sl_end. lia. }
      destruct (decide (sl_size s = 0)) as [Hs|Hs].
      + unfold addrs in Hf. rewrite Hs in Hf. apply Forall2_nil_inv_l in Hf as ->. unfold read. by rewrite Hs, take_0.
      + pose proof (read_mapM _ _ (Hend Hs)) as Hrd. apply mapM_Some in Hf. congruence.
  Qed.
End Sound.
