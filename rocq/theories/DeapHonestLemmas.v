(** Proofs about dual execution (C59): finalization succeeds if the first machine's outputs are right. *)
From Verif.Lib Require Import Base Ranges RangesFacts.
From Verif Require Import AttestModel ProofModel DeapMapModel DeapMapSpec DeapMapLemmas DeapModel DeapSpec DeapLemmas.

Definition secretb (r : role) (v : option vis) : bool := match r, v with Follower, Some Private | Leader, Some Blind => true | _, _ => false end.
Definition zkvis (r : role) (v : option vis) : option vis := if secretb r v then Some Public else v.
Lemma secretb_spec r v : secretb r (Some v) = true <-> secret r v.
Proof. by destruct r, v. Qed.

Record hon (r : role) (d : deap) (g : list nat) : Prop := {
  h_inc : forall a a' z z', a < a' -> g !! a = Some z -> g !! a' = Some z' -> z < z';
  h_cells : forall a v x com, dp_mpc d !! a = Some (In v x com) ->
    exists z, g !! a = Some z /\ dp_zk d !! z = Some (In (zkvis r v) x (com && negb (secretb r v)));
  h_ranges : forall a, in_rs a (dp_ranges d) <-> exists v x com, dp_mpc d !! a = Some (In v x com) /\ secretb r v = true;
  h_inputs : forall a, in_rs a (dp_ranges d) <-> exists s, s ∈ dp_inputs d /\ a ∈ addrs s;
  h_disj : NoDup (concat (map addrs (dp_inputs d)));
  h_has : Forall (fun s => sl_size s = 0 \/ sl_end s <= length (dp_mpc d)) (dp_inputs d);
  h_trans : Forall (fun s => 0 < sl_size s -> exists z, translate d s = Ok z) (dp_inputs d);
  h_total : forall a z, g !! a = Some z -> translate d (Slice a 1) = Ok (Slice z 1);
  h_blind : forall a x com, dp_mpc d !! a = Some (In (Some Blind) x com) -> x = None }.

Lemma translate_grow g d d' a b s z : maps g (dp_map d) -> lift_panic (E := dp_error) (mm_insert (dp_map d) a b) = Ok (dp_map d') -> 0 < sl_size s ->
  translate d s = Ok z -> translate d' s = Ok z.
Proof.
  intros (hs & Hhs & _) Hi Hs Hz. unfold translate in *.
  destruct (mm_try_get rust_search (dp_map d) s) as [z1|e|] eqn:E; cbn in Hz; try done. injection Hz as ->.
  assert (mm_inserts mm_new (hs ++ [(a, b)]) = Ok (dp_map d')) as Hhs'.
  { rewrite inserts_snoc, Hhs. cbn. destruct (mm_insert (dp_map d) a b) as [m|[]|]; cbn in Hi; try done. by injection Hi as ->. }
  apply (C48_exact_lemma _ _ _ _ Hhs Hs) in E as (x & y & Hin & H).
  rewrite (proj2 (C48_exact_lemma _ _ s z Hhs' Hs)); [done|]. exists x, y. split; [|done]. apply elem_of_app. by left.
Qed.
Lemma translate_new g d d' p q n a : maps g (dp_map d) -> lift_panic (E := dp_error) (mm_insert (dp_map d) (Slice p n) (Slice q n)) = Ok (dp_map d') ->
  p <= a < p + n -> translate d' (Slice a 1) = Ok (Slice (q + (a - p)) 1).
Proof.
  intros (hs & Hhs & _) Hi Ha. unfold translate.
  assert (mm_inserts mm_new (hs ++ [(Slice p n, Slice q n)]) = Ok (dp_map d')) as Hhs'.
  { rewrite inserts_snoc, Hhs. cbn. destruct (mm_insert (dp_map d) (Slice p n) (Slice q n)) as [m|[]|]; cbn in Hi; try done. by injection Hi as ->. }
  rewrite (proj2 (C48_exact_lemma _ _ (Slice a 1) (Slice (q + (a - p)) 1) Hhs' ltac:(cbn; lia))); [done|]. exists (Slice p n), (Slice q n).
  split; [apply elem_of_app; right; by apply elem_of_list_singleton|]. unfold inside, same_offset. cbn. lia.
Qed.
Lemma translate_same d d' s : dp_map d' = dp_map d -> translate d' s = translate d s.
Proof. intros H. unfold translate. by rewrite H. Qed.

Lemma hon_extend r past d g new znew mm' :
  inv r past d g -> hon r d g -> length new = length znew ->
  (forall i v x com, new !! i = Some (In v x com) -> v = None /\ x = None /\ com = false /\ znew !! i = Some (In None None false)) ->
  lift_panic (E := dp_error) (mm_insert (dp_map d) (Slice (length (dp_mpc d)) (length new)) (Slice (length (dp_zk d)) (length new))) = Ok mm' ->
  hon r (Deap (dp_mpc d ++ new) (dp_zk d ++ znew) mm' (dp_ranges d) (dp_inputs d) (dp_outputs d)) (g ++ seq (length (dp_zk d)) (length new)).
Proof.
  intros Hi [H1 H2 H3 H4 H5 H6 H7 H8 H9] Hl Hn Hmm. destruct (i_tracks _ _ _ _ Hi) as (T1 & T2 & T3 & T4).
  split; cbn [dp_mpc dp_zk dp_map dp_ranges dp_inputs dp_outputs].
  - intros a a' z z' Hlt Ha Ha'. apply lookup_app_Some in Ha as [Ha|[Ha Hs]], Ha' as [Ha'|[Ha' Hs']].
    + by eapply H1.
    + apply lookup_seq in Hs' as [-> _]. specialize (T2 _ _ Ha). lia.
    + apply lookup_lt_Some in Ha'. lia.
    + apply lookup_seq in Hs as [-> _]. apply lookup_seq in Hs' as [-> _]. lia.
  - intros a v x com Hc. apply lookup_app_Some in Hc as [Hc|[Ha Hc]].
    + destruct (H2 _ _ _ _ Hc) as (z & Hg & Hz). exists z. split; by apply lookup_app_l_Some.
    + pose proof (lookup_lt_Some _ _ _ Hc) as Hlt. destruct (Hn _ _ _ _ Hc) as (-> & -> & -> & Hz).
      exists (length (dp_zk d) + (a - length (dp_mpc d))). split.
      * rewrite lookup_app_r by lia. apply lookup_seq. lia.
      * rewrite lookup_app_r by lia. replace (length (dp_zk d) + _ - _) with (a - length (dp_mpc d)) by lia. rewrite Hz. by destruct r.
  - intros a. rewrite H3. split; intros (v & x & com & Hc & Hs).
    + exists v, x, com. split; [by apply lookup_app_l_Some|done].
    + apply lookup_app_Some in Hc as [Hc|[Ha Hc]]; [eauto|]. destruct (Hn _ _ _ _ Hc) as (-> & _). by destruct r.
  - done.
  - done.
  - eapply Forall_impl; [exact H6|]. intros s [Hs|Hs]; [by left|right]. rewrite app_length. lia.
  - eapply Forall_impl; [exact H7|]. intros s Hs Hsz. destruct (Hs Hsz) as [z Hz]. exists z.
    eapply (translate_grow g d (Deap _ _ mm' _ _ _)); [apply Hi|exact Hmm|done|done].
  - intros a z Ha. apply lookup_app_Some in Ha as [Ha|[Ha Hs]].
    + eapply (translate_grow g d (Deap _ _ mm' _ _ _)); [apply Hi|exact Hmm|cbn; lia|by apply H8].
    + rewrite T1 in Ha, Hs. apply lookup_seq in Hs as [-> Hlt]. eapply translate_new; [apply Hi|exact Hmm|]. lia.
  - intros a x com Hc. apply lookup_app_Some in Hc as [Hc|[Ha Hc]]; [by eapply H9|]. by destruct (Hn _ _ _ _ Hc) as (? & _).
Qed.
Lemma hon_alloc r past d g n d' : inv r past d g -> hon r d g -> dp_alloc n d = Ok d' -> exists g', inv r (past ++ [DAlloc n]) d' g' /\ hon r d' g'.
Proof.
  intros Hi Hh H. unfold dp_alloc, vm_alloc in H. apply obind_Ok in H as (mm & Hmm & [= <-]).
  eexists. split.
  - eapply (inv_extend r past d g (DAlloc n) (replicate n (In None None false)) (replicate n (In None None false)) mm
      (fun inputs mem => map inputs (seq (length mem) n))); try done.
    + intros i c Hc. apply lookup_replicate in Hc as [-> Hlt]. exists None, None, false. by apply lookup_replicate.
    + intros inputs mem ->. rewrite map_length, seq_length, replicate_length. split; [done|]. intros i c Hc.
      apply lookup_replicate in Hc as [-> Hlt]. destruct (i_means _ _ _ _ Hi inputs) as [Hl _].
      apply list_lookup_fmap_Some. exists (length (meaning inputs past []) + i). split; [by apply lookup_seq|]. by rewrite Hl.
    + by rewrite replicate_length.
  - eapply hon_extend; [done|done|done| |by rewrite replicate_length].
    intros i v x com Hc. pose proof Hc as Hc'. apply lookup_replicate in Hc as [[= -> -> ->] Hlt]. done.
Qed.
Lemma hon_call r past d g f args d' : inv r past d g -> hon r d g -> dp_call f args d = Ok d' -> exists g', inv r (past ++ [DCall f args]) d' g' /\ hon r d' g'.
Proof.
  intros Hi Hh H. unfold dp_call in H. apply obind_Ok in H as (zargs & Hz & H).
  case_bool_decide; [|done]. cbn [negb] in H. apply obind_Ok in H as ([mpc ms] & H1 & H).
  apply obind_Ok in H as ([zk zs] & H2 & H). apply obind_Ok in H as (mm & Hmm & [= <-]).
  unfold vm_call in H1, H2. destruct (forallb (vm_has (dp_mpc d)) args) eqn:E1; [|done]. destruct (forallb (vm_has (dp_zk d)) zargs) eqn:E2; [|done].
  injection H1 as <- <-. injection H2 as <- <-. apply forallb_has in E1. eexists. split.
  - eapply (inv_extend r past d g (DCall f args) _ _ mm (fun _ mem => ci_eval f (concat (map (read mem) args)))); try done.
    + by rewrite !map_length.
    + intros i c Hc. apply list_lookup_fmap_Some in Hc as (j & Hj & ->). exists (concat (map addrs zargs)). split.
      * apply list_lookup_fmap_Some. eauto.
      * split; [eapply translate_all_images; [apply Hi|done]|]. apply Forall_concat, Forall_map. eapply Forall_impl; [exact E1|].
        intros s Hs. cbn in Hs. apply Forall_forall. intros a Ha%elem_of_addrs. lia.
    + intros inputs mem ->. rewrite ci_eval_length, map_length, seq_length. split; [done|]. intros i c Hc.
      apply list_lookup_fmap_Some in Hc as (j & Hj & ->). apply lookup_seq in Hj as [-> Hj].
      eexists. split; [|reflexivity]. apply reads_mapM. destruct (i_means _ _ _ _ Hi inputs) as [Hl _]. by rewrite Hl.
    + by rewrite map_length, seq_length.
  - eapply hon_extend; [done|done|by rewrite !map_length| |by rewrite map_length, seq_length].
    intros i v x com Hc. by apply list_lookup_fmap_Some in Hc as (j & Hj & ?).
Qed.
Lemma hon_zk r d g n : hon r d g -> hon r (set_vms (dp_mpc d) (fst (vm_alloc (dp_zk d) n)) d) g.
Proof.
  intros [H1 H2 H3 H4 H5 H6 H7 H8 H9]. unfold vm_alloc, set_vms. cbn [fst]. split; cbn [dp_mpc dp_zk dp_map dp_ranges dp_inputs dp_outputs]; try done.
  intros a v x com Hc. destruct (H2 _ _ _ _ Hc) as (z & Hg & Hz). exists z. split; [done|]. by apply lookup_app_l_Some.
Qed.
Lemma hon_decode r d g s d' : hon r d g -> dp_decode s d = Ok d' -> hon r d' g.
Proof.
  intros [H1 H2 H3 H4 H5 H6 H7 H8 H9] H. unfold dp_decode in H. apply obind_Ok in H as (z & Hz & H).
  destruct (negb (vm_has (dp_zk d) z)); [done|]. destruct (negb (vm_has (dp_mpc d) s)); [done|]. injection H as <-. by split.
Qed.
Lemma images_outside g mpc zk l k a z : tracks g mpc zk -> images g l k -> g !! a = Some z -> a ∉ l -> z ∉ k.
Proof. intros (_ & _ & Hinj & _) Him Hg Ha Hz. destruct (images_elem _ _ _ _ Him Hz) as (a' & Ha' & Hg'). rewrite (Hinj _ _ _ Hg' Hg) in Ha'. done. Qed.
Lemma hon_assign r past d g s bits d' : inv r past d g -> hon r d g -> dp_assign s bits d = Ok d' -> hon r d' g.
Proof.
  intros Hi [H1 H2 H3 H4 H5 H6 H7 H8 H9] H. unfold dp_assign in H. apply obind_Ok in H as (mpc & Hm & H).
  apply obind_Ok in H as (z & Hz & H). apply obind_Ok in H as (zk & Hk & [= <-]).
  destruct (assign_spec _ _ _ _ Hm) as (L1 & L2 & L3 & L4 & L5). destruct (assign_spec _ _ _ _ Hk) as (K1 & K2 & K3 & K4 & K5).
  destruct (translate_images _ _ _ _ (i_maps _ _ _ _ Hi) Hz) as (T1 & T2 & T3).
  assert (forall a, a ∈ addrs s -> exists i b, a = sl_ptr s + i /\ bits !! i = Some b) as Hbits.
  { intros a Ha%elem_of_addrs. unfold sl_end in Ha. destruct (lookup_lt_is_Some_2 bits (a - sl_ptr s)) as [b Hb]; [lia|].
    exists (a - sl_ptr s), b. split; [lia|done]. }
  unfold set_vms. split; cbn [dp_mpc dp_zk dp_map dp_ranges dp_inputs dp_outputs]; try done.
  - intros a v x com Hc. destruct (decide (a ∈ addrs s)) as [Ha|Ha].
    + destruct (Hbits _ Ha) as (i & b & -> & Hb). destruct (L5 _ _ Hb) as (v1 & _ & M1 & M2). destruct (K5 _ _ Hb) as (v2 & _ & Z1 & Z2).
      rewrite M2 in Hc. injection Hc as <- <- <-. exists (sl_ptr z + i). split; [apply T2; apply lookup_lt_Some in Hb; lia|].
      destruct (H2 _ _ _ _ M1) as (z' & Hg & Hz'). rewrite T2 in Hg by (apply lookup_lt_Some in Hb; lia). injection Hg as <-.
      rewrite Z1 in Hz'. injection Hz' as Hv. rewrite Z2. rewrite Hv. done.
    + rewrite L4 in Hc by done. destruct (H2 _ _ _ _ Hc) as (z' & Hg & Hz'). exists z'. split; [done|]. rewrite K4; [done|].
      eapply images_outside; [apply Hi|exact T3|done|done].
  - intros a. rewrite H3. destruct (decide (a ∈ addrs s)) as [Ha|Ha].
    + destruct (Hbits _ Ha) as (i & b & -> & Hb). destruct (L5 _ _ Hb) as (v1 & _ & M1 & M2). rewrite M1, M2.
      split; intros (v & x & com & E & Hs); injection E as <- <- <-; eauto.
    + by rewrite L4.
  - by rewrite L2.
  - intros a x com Hc. destruct (decide (a ∈ addrs s)) as [Ha|Ha].
    + destruct (Hbits _ Ha) as (i & b & -> & Hb). destruct (L5 _ _ Hb) as (v1 & Hv1 & M1 & M2). rewrite M2 in Hc. injection Hc as -> _ _. by destruct Hv1.
    + rewrite L4 in Hc by done. by eapply H9.
Qed.
Lemma commit_cell_in c c' : commit_cell c = Some c' -> exists v x com, c = In v x com /\ c' = In v x true.
Proof. destruct c as [[[]|] [x|] com|]; cbn; intros H; try discriminate; injection H as <-; eauto. Qed.
Lemma commit_ranges_inside g mpc d rs zk zk' a z : maps g (dp_map d) -> tracks g mpc zk -> commit_ranges d rs zk = Ok zk' ->
  g !! a = Some z -> in_rs a rs -> exists v x com, zk !! z = Some (In v x com) /\ zk' !! z = Some (In v x true).
Proof.
  intros Hm. revert zk. induction rs as [|[p q] rs IH]; intros zk Ht H Hg Hin; cbn [commit_ranges] in H.
  { by apply in_rs_nil in Hin. }
  apply obind_Ok in H as (y & Hy & H). apply obind_Ok in H as (zk1 & Hk & H).
  destruct (commit_spec _ _ _ Hk) as (L1 & L2 & L3 & L4). destruct (translate_images _ _ _ _ Hm Hy) as (_ & _ & T).
  assert (tracks g mpc zk1) as Ht1 by (eapply tracks_mono; [exact Ht|done|apply mono_refl|done]).
  destruct (commit_ranges_spec _ _ _ _ _ Hm H) as (_ & Hmono & _).
  destruct (decide (a ∈ addrs (Slice p (q - p)))) as [Ha|Ha].
  - destruct (images_elem_l _ _ _ _ T Ha) as (z' & Hz' & Hg'). rewrite Hg in Hg'. injection Hg' as <-.
    destruct (L4 _ Hz') as (c & c' & C1 & C2 & C3). destruct (commit_cell_in _ _ C2) as (v & x & com & -> & ->). exists v, x, com.
    split; [done|]. destruct (in_rsb a rs) eqn:E.
    + assert (in_rs a rs) as Hin' by (by apply in_rsb_spec). destruct (IH _ Ht1 H Hg Hin') as (v1 & x1 & com1 & D1 & D2). congruence.
    + destruct (commit_ranges_spec _ _ _ _ _ Hm H) as (_ & _ & Hout). rewrite Hout; [done|].
      intros a' Ha' Hin'. destruct Ht as (_ & _ & Hinj & _). rewrite (Hinj _ _ _ Ha' Hg) in Hin'. apply in_rsb_spec in Hin'. congruence.
  - assert (zk1 !! z = zk !! z) as Hz1. { apply L3. eapply images_outside; [exact Ht|exact T|done|done]. }
    rewrite <- Hz1. apply IH; try done. apply in_rs_cons in Hin as [Hr|Hr]; [|done]. exfalso. apply Ha. apply elem_of_addrs.
    unfold in_range in Hr. unfold sl_end. cbn in *. lia.
Qed.
Lemma hon_commit r past d g s d' : inv r past d g -> hon r d g -> dp_commit s d = Ok d' -> hon r d' g.
Proof.
  intros Hi [H1 H2 H3 H4 H5 H6 H7 H8 H9] H. unfold dp_commit in H. apply obind_Ok in H as (zk & Hk & H).
  apply obind_Ok in H as (mpc & Hm & [= <-]).
  destruct (commit_spec _ _ _ Hm) as (L1 & L2 & L3 & L4). destruct (commit_ranges_spec _ _ _ _ _ (i_maps _ _ _ _ Hi) Hk) as (K1 & K2 & K3).
  pose proof (i_tracks _ _ _ _ Hi) as Ht.
  unfold set_vms. split; cbn [dp_mpc dp_zk dp_map dp_ranges dp_inputs dp_outputs]; try done.
  - intros a v x com Hc. destruct (decide (a ∈ addrs s)) as [Ha|Ha].
    + destruct (L4 _ Ha) as (c & c' & C1 & C2 & C3). destruct (commit_cell_in _ _ C2) as (v1 & x1 & com1 & -> & ->).
      rewrite C3 in Hc. injection Hc as <- <- <-. destruct (H2 _ _ _ _ C1) as (z & Hg & Hz). exists z. split; [done|].
      destruct (secretb r v1) eqn:Hs; cbn [negb andb].
      * rewrite K3.
        -- rewrite Hz. by rewrite andb_false_r.
        -- intros a' Ha' Hin. destruct Ht as (_ & _ & Hinj & _). rewrite (Hinj _ _ _ Ha' Hg) in Hin.
           apply in_rs_diff in Hin as [_ Hn]; [|apply rs_single_ok]. apply Hn, H3. eauto.
      * destruct (commit_ranges_inside _ _ _ _ _ _ a z (i_maps _ _ _ _ Hi) Ht Hk Hg) as (v2 & x2 & com2 & D1 & D2).
        { apply in_rs_diff; [apply rs_single_ok|]. split; [apply in_rs_single; by apply elem_of_addrs|].
          intros Hin%H3. destruct Hin as (v3 & x3 & com3 & E1 & E2). congruence. }
        rewrite D1 in Hz. injection Hz as <- <- _. done.
    + rewrite L3 in Hc by done. destruct (H2 _ _ _ _ Hc) as (z & Hg & Hz). exists z. split; [done|]. rewrite K3; [done|].
      intros a' Ha' Hin. destruct Ht as (_ & _ & Hinj & _). rewrite (Hinj _ _ _ Ha' Hg) in Hin.
      apply in_rs_diff in Hin as [Hin _]; [|apply rs_single_ok]. apply in_rs_single in Hin. by apply Ha, elem_of_addrs.
  - intros a. rewrite H3. destruct (decide (a ∈ addrs s)) as [Ha|Ha].
    + destruct (L4 _ Ha) as (c & c' & C1 & C2 & C3). destruct (commit_cell_in _ _ C2) as (v1 & x1 & com1 & -> & ->).
      rewrite C1, C3. split; intros (v & x & com & E & Hs); injection E as <- <- <-; eauto.
    + by rewrite L3.
  - by rewrite L1.
  - intros a x com Hc. destruct (decide (a ∈ addrs s)) as [Ha|Ha].
    + destruct (L4 _ Ha) as (c & c' & C1 & C2 & C3). destruct (commit_cell_in _ _ C2) as (v1 & x1 & com1 & -> & ->).
      rewrite C3 in Hc. injection Hc as -> <- _. by eapply H9.
    + rewrite L3 in Hc by done. by eapply H9.
Qed.
Lemma hon_mark_gen r past d g v s d' :
  inv r past d g -> hon r d g -> (let! d1 := mark_both v (if secretb r (Some v) then Public else v) s d in Ok (if secretb r (Some v) then follower_input s d1 else d1)) = Ok d' -> hon r d' g.
Proof.
  intros Hi [H1 H2 H3 H4 H5 H6 H7 H8 H9] H. apply obind_Ok in H as (d1 & H & Hd'). unfold mark_both in H. apply obind_Ok in H as (mpc & Hm & H).
  apply obind_Ok in H as (z & Hz & H). apply obind_Ok in H as (zk & Hk & [= <-]).
  destruct (mark_spec _ _ _ _ Hm) as (L1 & L2 & L3 & L4). destruct (mark_spec _ _ _ _ Hk) as (K1 & K2 & K3 & K4).
  destruct (translate_images _ _ _ _ (i_maps _ _ _ _ Hi) Hz) as (T1 & T2 & T3). pose proof (i_tracks _ _ _ _ Hi) as Ht.
  assert (forall a, a ∈ addrs s -> ~ in_rs a (dp_ranges d)) as Hfresh.
  { intros a Ha Hin%H3. destruct (L4 _ Ha) as [M _]. destruct Hin as (v1 & x1 & com1 & E & Hs). rewrite M in E. injection E as <- <- <-. by destruct r. }
  assert (forall a v1 x com, mpc !! a = Some (In v1 x com) -> exists z, g !! a = Some z /\ zk !! z = Some (In (zkvis r v1) x (com && negb (secretb r v1)))) as Hcells.
  { intros a v1 x com Hc. destruct (decide (a ∈ addrs s)) as [Ha|Ha].
    - destruct (L4 _ Ha) as [_ M2]. rewrite M2 in Hc. injection Hc as <- <- <-. destruct (images_elem_l _ _ _ _ T3 Ha) as (y & Hy & Hg).
      exists y. split; [done|]. rewrite (proj2 (K4 _ Hy)). unfold zkvis. by destruct (secretb r (Some v)).
    - rewrite L3 in Hc by done. destruct (H2 _ _ _ _ Hc) as (y & Hg & Hy). exists y. split; [done|]. rewrite K3; [done|].
      eapply images_outside; [exact Ht|exact T3|done|done]. }
  assert (forall a, (exists v1 x com, mpc !! a = Some (In v1 x com) /\ secretb r v1 = true) <-> in_rs a (dp_ranges d) \/ (a ∈ addrs s /\ secretb r (Some v) = true)) as Hsec.
  { intros a. rewrite H3. destruct (decide (a ∈ addrs s)) as [Ha|Ha].
    - destruct (L4 _ Ha) as [M1 M2]. rewrite M1, M2. split.
      + intros (v1 & x & com & E & Hs). injection E as <- <- <-. right. done.
      + intros [(v1 & x & com & E & Hs)|[_ Hs]]; [injection E as <- <- <-; by destruct r|]. eauto.
    - rewrite L3 by done. split; [by left|intros [?|[? _]]; done]. }
  assert (sl_size s = 0 \/ sl_end s <= length mpc) as Hend.
  { destruct (decide (sl_size s = 0)); [by left|right]. destruct (L4 (sl_ptr s + (sl_size s - 1))) as [_ M]; [apply elem_of_addrs; unfold sl_end; lia|].
    apply lookup_lt_Some in M. unfold sl_end. lia. }
  assert (forall a x com, mpc !! a = Some (In (Some Blind) x com) -> x = None) as Hb.
  { intros a x com Hc. destruct (decide (a ∈ addrs s)) as [Ha|Ha].
    - destruct (L4 _ Ha) as [_ M2]. rewrite M2 in Hc. by injection Hc as _ <- _.
    - rewrite L3 in Hc by done. by eapply H9. }
  destruct (secretb r (Some v)) eqn:Hs; injection Hd' as <-; unfold follower_input, set_vms; split; cbn [dp_mpc dp_zk dp_map dp_ranges dp_inputs dp_outputs]; try done.
  - intros a. rewrite in_rs_union by apply Hi. rewrite Hsec, in_rs_single, <- elem_of_addrs. tauto.
  - intros a. rewrite in_rs_union by apply Hi. rewrite in_rs_single, <- elem_of_addrs, H4. split.
    + intros [(s1 & Hs1 & Ha)|Ha].
      * exists s1. split; [|done]. apply elem_of_app. by left.
      * exists s. split; [|done]. apply elem_of_app. right. by apply elem_of_list_singleton.
    + intros (s1 & Hs1 & Ha). apply elem_snoc in Hs1 as [Hs1| ->]; [left; eauto|by right].
  - rewrite map_app, concat_app. cbn [map concat]. rewrite app_nil_r. apply NoDup_app. split; [done|]. split; [|apply NoDup_addrs].
    intros a Ha Ha'. apply (Hfresh _ Ha'), H4. apply elem_of_list_In, in_concat in Ha as (l & Hl & Ha). apply in_map_iff in Hl as (s1 & <- & Hs1).
    exists s1. split; by apply elem_of_list_In.
  - apply Forall_app. rewrite L1. split; [done|]. apply Forall_singleton. by rewrite <- L1.
  - apply Forall_app. split; [done|]. apply Forall_singleton. intros _. exists z. done.
  - intros a. rewrite Hsec. split; [by left|intros [?|[_ ?]]; done].
  - by rewrite L1.
Qed.
Lemma hon_step r past d g o d' : inv r past d g -> hon r d g -> dp_step r o d = Ok d' -> exists g', inv r (past ++ [o]) d' g' /\ hon r d' g'.
Proof.
  intros Hi Hh H. destruct o as [n|n|v s|s bits|s|f args|s]; cbn [dp_step] in H.
  - by eapply hon_alloc.
  - injection H as <-. exists g. split; [by apply step_zk|by apply hon_zk].
  - exists g. split.
    + destruct v, r; cbn [dp_mark] in H.
      1-3,6: by eapply step_mark_plain; [exact Hi|intros []|exact H].
      all: apply obind_Ok in H as (d1 & H & [= <-]); by eapply step_mark_secret.
    + eapply (hon_mark_gen r past d g v s d' Hi Hh). destruct v, r; cbn [dp_mark secretb] in *; try (by rewrite H).
  - exists g. split; [by eapply step_assign|by eapply hon_assign].
  - exists g. split; [by eapply step_commit|by eapply hon_commit].
  - by eapply hon_call.
  - exists g. split; [by eapply step_decode|by eapply hon_decode].
Qed.
Lemma hon_run r past d g os d' : inv r past d g -> hon r d g -> dp_run r os d = Ok d' -> exists g', inv r (past ++ os) d' g' /\ hon r d' g'.
Proof.
  revert past d g. induction os as [|o os IH]; intros past d g Hi Hh H; cbn [dp_run] in H.
  - injection H as <-. exists g. by rewrite app_nil_r.
  - apply obind_Ok in H as (d1 & H1 & H). destruct (hon_step _ _ _ _ _ _ Hi Hh H1) as (g1 & Hi1 & Hh1).
    destruct (IH _ _ _ Hi1 Hh1 H) as (g' & Hg' & Hh'). exists g'. by rewrite <- app_assoc in Hg'.
Qed.
Lemma hon_new r : hon r dp_new [].
Proof.
  split; cbn; try done.
  - intros a. rewrite in_rs_nil. split; [done|]. by intros (v & x & com & ? & _).
  - intros a. rewrite in_rs_nil. split; [done|]. by intros (s & ?%elem_of_nil & _).
  - constructor.
Qed.

(** ** Finalization *)
Lemma on_cells_total l m :
  NoDup (map fst l) -> (forall a f, (a, f) ∈ l -> exists c c', m !! a = Some c /\ f c = Some c') -> exists m', on_cells l m = Ok m'.
Proof.
  revert m. induction l as [|[a f] l IH]; intros m Hnd H; cbn [on_cells]; [eauto|].
  destruct (H a f) as (c & c' & -> & ->); [by left|]. cbn in Hnd. apply NoDup_cons in Hnd as [Hni Hnd]. apply IH; [done|].
  intros b f' Hb. destruct (H b f') as (c1 & c2 & H1 & H2); [by right|]. exists c1, c2. split; [|done].
  rewrite list_lookup_insert_ne; [done|]. intros ->. apply Hni. apply elem_of_list_In, in_map_iff. exists (b, f'). split; [done|]. by apply elem_of_list_In.
Qed.
Lemma commit_total z zk : (forall a, a ∈ addrs z -> exists c c', zk !! a = Some c /\ commit_cell c = Some c') -> exists zk', vm_commit z zk = Ok zk'.
Proof.
  intros H. apply on_cells_total.
  - rewrite (fst_map (fun _ => commit_cell)). apply NoDup_addrs.
  - intros a f Hin. apply elem_of_list_In, in_map_iff in Hin as (b & [= <- <-] & Hb). apply H. by apply elem_of_list_In.
Qed.
Lemma assign_total z bits zk : length bits = sl_size z -> (forall a, a ∈ addrs z -> zk !! a = Some (In (Some Public) None false)) -> exists zk', vm_assign z bits zk = Ok zk'.
Proof.
  intros Hl H. unfold vm_assign. rewrite Hl, Nat.eqb_refl. apply on_cells_total.
  - rewrite fst_zip_with by (unfold addrs; by rewrite seq_length). apply NoDup_addrs.
  - intros a f Hin. apply elem_of_lookup_zip_with in Hin as (i & x & y & [= -> ->] & Hx & _). eexists _, _. split; [apply H; by eapply elem_of_list_lookup_2|done].
Qed.
Section Final.
  Context (mpc_get : slice -> option (list bool)).
  Lemma open_follower g d ss zk : maps g (dp_map d) ->
    (forall s, s ∈ ss -> exists z, translate d s = Ok z) ->
    (forall s a, s ∈ ss -> a ∈ addrs s -> exists z b com, g !! a = Some z /\ zk !! z = Some (In (Some Public) (Some b) com)) ->
    exists zk', open_inputs mpc_get Follower d ss zk = Ok zk' /\ mono zk zk' /\
      (forall z v x com, zk !! z = Some (In v x com) -> exists com', zk' !! z = Some (In v x com') /\ (com = true -> com' = true)) /\
      forall s a z, s ∈ ss -> a ∈ addrs s -> g !! a = Some z -> exists v x, zk' !! z = Some (In v x true).
  Proof.
    intros Hm. revert zk. induction ss as [|s ss IH]; intros zk Ht Hc; cbn [open_inputs].
    { exists zk. split; [done|]. split; [apply mono_refl|]. split; [eauto|]. by intros s a z ?%elem_of_nil. }
    destruct (Ht s) as [z Hz]; [by left|]. rewrite Hz. cbn [obind]. destruct (translate_images _ _ _ _ Hm Hz) as (_ & _ & T).
    destruct (commit_total z zk) as [zk1 Hk].
    { intros y Hy. destruct (images_elem _ _ _ _ T Hy) as (a & Ha & Hg). destruct (Hc s a) as (y' & b & com & Hg' & Hz'); [by left|done|].
      rewrite Hg in Hg'. injection Hg' as <-. eexists _, _. split; [done|done]. }
    rewrite Hk. cbn [obind]. destruct (commit_spec _ _ _ Hk) as (L1 & L2 & L3 & L4).
    destruct (IH zk1) as (zk' & H1 & H2 & H4 & H3).
    - intros s' Hs'. apply Ht. by right.
    - intros s' a Hs' Ha. destruct (Hc s' a) as (y & b & com & Hg & Hy); [by right|done|].
      destruct (proj2 L2 _ _ Hy) as ([v x com'|] & Hy' & Hle); [|done]. destruct Hle as ([?|<-] & [?|<-] & _); try done. eauto 6.
    - exists zk'. split; [done|]. split; [by eapply mono_trans|]. split.
      { intros y v x com Hy. destruct (decide (y ∈ addrs z)) as [Hin|Hin].
        - destruct (L4 _ Hin) as (c & c' & C1 & C2 & C3). rewrite Hy in C1. injection C1 as <-.
          destruct (commit_cell_in _ _ C2) as (v' & x' & com' & E & ->). injection E as <- <- <-.
          destruct (H4 _ _ _ _ C3) as (com' & D1 & D2). exists com'. auto.
        - apply H4. by rewrite L3. }
      intros s' a y Hs' Ha Hg. apply elem_of_cons in Hs' as [->|Hs']; [|by eapply H3].
      destruct (images_elem_l _ _ _ _ T Ha) as (y' & Hy' & Hg'). rewrite Hg in Hg'. injection Hg' as <-.
      destruct (L4 _ Hy') as (c & c' & _ & C2 & C3). destruct (commit_cell_in _ _ C2) as (v & x & com & -> & ->).
      destruct (proj2 H2 _ _ C3) as ([v' x' com'|] & D1 & D2); [|done]. destruct D2 as (_ & _ & D2). rewrite D2 in D1 by done. eauto.
  Qed.
  Lemma open_leader g mpc d ss zk : maps g (dp_map d) -> tracks g mpc zk ->
    (forall s, s ∈ ss -> exists z, translate d s = Ok z) -> (forall s, s ∈ ss -> exists v, mpc_get s = Some v /\ length v = sl_size s) ->
    NoDup (concat (map addrs ss)) ->
    (forall s a, s ∈ ss -> a ∈ addrs s -> exists z, g !! a = Some z /\ zk !! z = Some (In (Some Public) None false)) ->
    exists zk', open_inputs mpc_get Leader d ss zk = Ok zk' /\ mono zk zk' /\
      forall s v i b z, s ∈ ss -> mpc_get s = Some v -> v !! i = Some b -> g !! (sl_ptr s + i) = Some z -> zk' !! z = Some (In (Some Public) (Some b) true).
  Proof.
    intros Hm. revert zk. induction ss as [|s ss IH]; intros zk Htr Ht Hget Hnd Hc; cbn [open_inputs].
    { exists zk. split; [done|]. split; [apply mono_refl|]. by intros s v i b z ?%elem_of_nil. }
    destruct (Ht s) as [z Hz]; [by left|]. rewrite Hz. cbn [obind]. destruct (translate_images _ _ _ _ Hm Hz) as (T1 & T2 & T).
    destruct (Hget s) as (v & Hv & Hlen); [by left|]. rewrite Hv. cbn [or_panic obind].
    assert (forall y, y ∈ addrs z -> zk !! y = Some (In (Some Public) None false)) as Hold.
    { intros y Hy. destruct (images_elem _ _ _ _ T Hy) as (a & Ha & Hg). destruct (Hc s a) as (y' & Hg' & Hz'); [by left|done|]. congruence. }
    destruct (assign_total z v zk) as [zk1 Ha1]; [congruence|done|]. rewrite Ha1. cbn [obind].
    destruct (assign_spec _ _ _ _ Ha1) as (A1 & A2 & A3 & A4 & A5).
    assert (forall i b, v !! i = Some b -> zk1 !! (sl_ptr z + i) = Some (In (Some Public) (Some b) false)) as A6.
    { intros i b Hi. destruct (A5 _ _ Hi) as (v' & _ & E1 & E2). rewrite Hold in E1; [congruence|]. apply elem_of_addrs. unfold sl_end. apply lookup_lt_Some in Hi. lia. }
    destruct (commit_total z zk1) as [zk2 Hk].
    { intros y Hy%elem_of_addrs. unfold sl_end in Hy. destruct (lookup_lt_is_Some_2 v (y - sl_ptr z)) as [b Hb]; [lia|].
      specialize (A6 _ _ Hb). replace (sl_ptr z + (y - sl_ptr z)) with y in A6 by lia. eexists _, _. split; [done|done]. }
    rewrite Hk. cbn [obind]. destruct (commit_spec _ _ _ Hk) as (L1 & L2 & L3 & L4).
    cbn [map concat] in Hnd. apply NoDup_app in Hnd as (_ & Hdis & Hnd).
    destruct (IH zk2) as (zk' & H1 & H2 & H3).
    - eapply tracks_mono; [exact Htr|done|apply mono_refl|]. by eapply mono_trans.
    - intros s' Hs'. apply Ht. by right.
    - intros s' Hs'. apply Hget. by right.
    - done.
    - intros s' a Hs' Ha. destruct (Hc s' a) as (y & Hg & Hy); [by right|done|]. exists y. split; [done|].
      assert (y ∉ addrs z) as Hny.
      { eapply images_outside; [exact Htr|exact T|exact Hg|]. intros Ha'. apply (Hdis _ Ha'). apply elem_of_list_In, in_concat. exists (addrs s').
        split; [|by apply elem_of_list_In]. apply in_map_iff. exists s'. split; [done|]. by apply elem_of_list_In. }
      by rewrite L3, A4.
    - exists zk'. split; [done|]. split; [eapply mono_trans; [by eapply mono_trans|done]|].
      intros s' v' i b y Hs' Hv' Hi Hg. apply elem_of_cons in Hs' as [->|Hs']; [|by eapply H3].
      rewrite Hv in Hv'. injection Hv' as <-. pose proof (lookup_lt_Some _ _ _ Hi) as Hlt. rewrite T2 in Hg by lia. injection Hg as <-.
      destruct (L4 (sl_ptr z + i)) as (c & c' & C1 & C2 & C3); [apply elem_of_addrs; unfold sl_end; lia|].
      rewrite (A6 _ _ Hi) in C1. injection C1 as <-. injection C2 as <-.
      destruct (proj2 H2 _ _ C3) as ([v1 x1 com1|] & D1 & D2); [|done]. destruct D2 as ([?|<-] & [?|<-] & D2); try done. by rewrite D2 in D1.
  Qed.
End Final.

Lemma mapM_same {A B} (f h : A -> option B) l : Forall (fun a => f a = h a) l -> mapM f l = mapM h l.
Proof. induction 1 as [|a l Ha _ IH]; [done|]. change (mapM f (a :: l)) with (f a ≫= fun x => mapM f l ≫= fun k => Some (x :: k)). change (mapM h (a :: l)) with (h a ≫= fun x => mapM h l ≫= fun k => Some (x :: k)). by rewrite Ha, IH. Qed.
Lemma val_bit wit m z f args i : m !! z = Some (Bit f args i) -> Forall (fun a => a < z) args ->
  val wit m z = match mapM (val wit m) args with Some xs => ci_eval f xs !! i | None => None end.
Proof.
  intros H Hlt. rewrite (val_lookup _ _ _ _ H). cbn [cell_value].
  replace (mapM (fun a => mjoin (take z (values_from wit [] m) !! a)) args) with (mapM (val wit m) args); [done|].
  apply mapM_same. eapply Forall_impl; [exact Hlt|]. intros a Ha. cbn in Ha. unfold val. by rewrite lookup_take.
Qed.
Lemma vals_agree r past d g zk' wm wz :
  inv r past d g -> hon r d g -> mono (dp_zk d) zk' ->
  (forall a v x, dp_mpc d !! a = Some (In v x true) -> v <> Some Blind \/ r = Follower) ->
  (forall a z v x, dp_mpc d !! a = Some (In v x true) -> g !! a = Some z -> zk' !! z = Some (In (zkvis r v) x true)) ->
  (forall a z, g !! a = Some z -> wz z = wm a) ->
  forall a z b, g !! a = Some z -> val wm (dp_mpc d) a = Some b -> val wz zk' z = Some b.
Proof.
  intros Hi Hh Hmono Hbl Hcom Hw a. destruct (i_tracks _ _ _ _ Hi) as (T1 & T2 & T3 & T4).
  induction (lt_wf a) as [a _ IH]. intros z b Hg Hv.
  destruct (lookup_lt_is_Some_2 (dp_mpc d) a) as [c Hc]. { rewrite <- T1. by eapply lookup_lt_Some. }
  specialize (T4 _ _ _ Hg Hc). destruct c as [v x com|f args i].
  - destruct (h_cells _ _ _ Hh _ _ _ _ Hc) as (z' & Hg' & Hz). rewrite Hg in Hg'. injection Hg' as <-.
    assert (com = true) as ->. { rewrite (val_lookup _ _ _ _ Hc) in Hv. cbn in Hv. by destruct com. }
    pose proof (Hcom _ _ _ _ Hc Hg) as Hz'.
    destruct (val_in _ _ _ _ _ _ _ Hc Hv) as [[-> ->]|[Hn ->]].
    + destruct (Hbl _ _ _ Hc) as [?| ->]; [done|]. rewrite (val_lookup _ _ _ _ Hz'). cbn. rewrite take_length.
      destruct (values_from_app wz [] zk') as (l & -> & Hl). cbn.
      rewrite Hl. rewrite Nat.min_l by (apply lookup_lt_Some in Hz'; lia). f_equal. by apply Hw.
    + rewrite (val_lookup _ _ _ _ Hz'). cbn. unfold zkvis. destruct (secretb r v); [done|]. by destruct v as [[]|].
  - destruct T4 as (zargs & Hz & Him & Hlt). destruct (proj2 Hmono _ _ Hz) as (c & Hz' & Hle). cbn in Hle. subst c.
    rewrite (val_bit _ _ _ _ _ _ Hc Hlt) in Hv.
    assert (Forall (fun y => y < z) zargs) as Hltz.
    { clear Hv Hz Hz' Hc. induction Him as [|a0 z0 l k H0 _ IHi]; [done|]. apply Forall_cons in Hlt as [Hlt0 Hlt]. constructor; [|by apply IHi].
      by eapply (h_inc _ _ _ Hh a0 a). }
    rewrite (val_bit _ _ _ _ _ _ Hz' Hltz). destruct (mapM (val wm (dp_mpc d)) args) as [xs|] eqn:Hxs; [|done].
    replace (mapM (val wz zk') zargs) with (Some xs); [done|]. symmetry. apply mapM_Some. apply mapM_Some in Hxs. clear Hz Hz' Hc Hv Hltz.
    revert xs Hxs. induction Him as [|a0 z0 args zargs H0 _ IHi]; intros xs Hxs.
    + apply Forall2_nil_inv_l in Hxs as ->. constructor.
    + apply Forall2_cons_inv_l in Hxs as (x & xs' & Hx & Hxs & ->). apply Forall_cons in Hlt as [Hlt0 Hlt]. constructor; [|by apply IHi]. by eapply IH.
Qed.

Definition secret_marks (r : role) (os : list dop) : list slice :=
  flat_map (fun o => match o with DMark v s => if secretb r (Some v) then [s] else [] | _ => [] end) os.
Lemma run_inputs_eq r os d d' : dp_run r os d = Ok d' -> dp_inputs d' = dp_inputs d ++ secret_marks r os.
Proof.
  revert d. induction os as [|o os IH]; intros d H; cbn [dp_run] in H.
  { injection H as ->. by rewrite app_nil_r. }
  apply obind_Ok in H as (d1 & H1 & H). rewrite (IH _ H). cbn [secret_marks flat_map]. fold (secret_marks r os). rewrite app_assoc. f_equal.
  assert (forall v v' s d d1, mark_both v v' s d = Ok d1 -> dp_inputs d1 = dp_inputs d) as Hmb.
  { intros v v' s0 d0 d2 Hx. unfold mark_both in Hx. apply obind_Ok in Hx as (? & _ & Hx). apply obind_Ok in Hx as (? & _ & Hx). by apply obind_Ok in Hx as (? & _ & [= <-]). }
  destruct o as [n|n|v s0|s0 bits|s0|f args|s0]; cbn [dp_step] in H1; try rewrite app_nil_r.
  - unfold dp_alloc, vm_alloc in H1. by apply obind_Ok in H1 as (? & _ & [= <-]).
  - by injection H1 as <-.
  - destruct v, r; cbn [dp_mark secretb] in *.
    1-3,6: rewrite app_nil_r; by eapply Hmb.
    all: apply obind_Ok in H1 as (d2 & H1 & [= <-]); cbn; by rewrite (Hmb _ _ _ _ _ H1).
  - unfold dp_assign in H1. apply obind_Ok in H1 as (? & _ & H1). apply obind_Ok in H1 as (? & _ & H1). by apply obind_Ok in H1 as (? & _ & [= <-]).
  - unfold dp_commit in H1. apply obind_Ok in H1 as (? & _ & H1). by apply obind_Ok in H1 as (? & _ & [= <-]).
  - unfold dp_call in H1. apply obind_Ok in H1 as (? & _ & H1). case_bool_decide; [|done]. apply obind_Ok in H1 as ([] & _ & H1).
    apply obind_Ok in H1 as ([] & _ & H1). by apply obind_Ok in H1 as (? & _ & [= <-]).
  - unfold dp_decode in H1. apply obind_Ok in H1 as (? & _ & H1). destruct (negb _); [done|]. destruct (negb _); [done|]. by injection H1 as <-.
Qed.
Lemma run_inputs r os d : dp_run r os dp_new = Ok d -> forall s, s ∈ dp_inputs d <-> exists v, DMark v s ∈ os /\ secret r v.
Proof.
  intros H s. rewrite (run_inputs_eq _ _ _ _ H). cbn [dp_new dp_inputs app]. unfold secret_marks. rewrite elem_of_list_In, in_flat_map. split.
  - intros (o & Ho & Hs). destruct o as [| |v s0| | | |]; try done. destruct (secretb r (Some v)) eqn:E; [|done]. destruct Hs as [->|[]].
    exists v. split; [by apply elem_of_list_In|by apply secretb_spec].
  - intros (v & Hv & Hs). exists (DMark v s). split; [by apply elem_of_list_In|]. apply secretb_spec in Hs. rewrite Hs. by left.
Qed.

Lemma outputs_decoded r os d d' : dp_run r os d = Ok d' -> forall s z, (s, z) ∈ dp_outputs d' -> (s, z) ∈ dp_outputs d \/ DDecode s ∈ os.
Proof.
  revert d. induction os as [|o os IH]; intros d H s z Hs; cbn [dp_run] in H.
  { injection H as ->. by left. }
  apply obind_Ok in H as (d1 & H1 & H). destruct (IH _ H _ _ Hs) as [Hs1|Hs1]; [|right; by right].
  assert (forall v v' s d d1, mark_both v v' s d = Ok d1 -> dp_outputs d1 = dp_outputs d) as Hmb.
  { intros v v' s0 d0 d2 Hx. unfold mark_both in Hx. apply obind_Ok in Hx as (? & _ & Hx). apply obind_Ok in Hx as (? & _ & Hx). by apply obind_Ok in Hx as (? & _ & [= <-]). }
  destruct o as [n|n|v s0|s0 bits|s0|f args|s0]; cbn [dp_step] in H1.
  - unfold dp_alloc, vm_alloc in H1. apply obind_Ok in H1 as (? & _ & [= <-]). by left.
  - injection H1 as <-. by left.
  - destruct v, r; cbn [dp_mark] in H1.
    1-3,6: apply Hmb in H1; rewrite H1 in Hs1; by left.
    all: apply obind_Ok in H1 as (d2 & H1 & [= <-]); cbn in Hs1; apply Hmb in H1; rewrite H1 in Hs1; by left.
  - unfold dp_assign in H1. apply obind_Ok in H1 as (? & _ & H1). apply obind_Ok in H1 as (? & _ & H1). apply obind_Ok in H1 as (? & _ & [= <-]). by left.
  - unfold dp_commit in H1. apply obind_Ok in H1 as (? & _ & H1). apply obind_Ok in H1 as (? & _ & [= <-]). by left.
  - unfold dp_call in H1. apply obind_Ok in H1 as (? & _ & H1). case_bool_decide; [|done]. apply obind_Ok in H1 as ([] & _ & H1).
    apply obind_Ok in H1 as ([] & _ & H1). apply obind_Ok in H1 as (? & _ & [= <-]). by left.
  - unfold dp_decode in H1. apply obind_Ok in H1 as (? & _ & H1). destruct (negb _); [done|]. destruct (negb _); [done|]. injection H1 as <-.
    cbn in Hs1. apply elem_snoc in Hs1 as [Hs1|[= -> _]]; [by left|right; by left].
Qed.

Lemma C59_follower_honest_lemma mpc_get wm wz os d :
  dp_run Follower os dp_new = Ok d ->
  (forall s, DMark Private s ∈ os -> 0 < sl_size s) ->
  (forall s a, DMark Private s ∈ os -> sl_ptr s <= a < sl_ptr s + sl_size s -> exists s' bits, DAssign s' bits ∈ os /\ sl_ptr s' <= a < sl_ptr s' + sl_size s') ->
  (forall a z, translate d (Slice a 1) = Ok z -> wz (sl_ptr z) = wm a) ->
  (forall s v, DDecode s ∈ os -> mpc_get s = Some v -> vm_values wm (dp_mpc d) s = Some v) ->
  exists d', dp_finalize mpc_get true true wz Follower d = Ok d'.
Proof.
  intros Hr Hne Has Hw Hget. destruct (hon_run _ _ _ _ _ _ (inv_new _) (hon_new _) Hr) as (g & Hi & Hh). cbn [app] in Hi.
  pose proof (run_inputs _ _ _ Hr) as Hins. unfold dp_finalize. cbn [negb].
  assert (forall s, s ∈ dp_inputs d -> DMark Private s ∈ os) as Hpriv.
  { intros s Hs. apply Hins in Hs as (v & Hv & Hsec). by destruct v. }
  assert (forallb (vm_has (dp_mpc d)) (dp_inputs d) = true) as ->.
  { apply forallb_has, Forall_forall. intros s Hs. pose proof (h_has _ _ _ Hh) as Hhas. rewrite Forall_forall in Hhas.
    destruct (Hhas _ Hs) as [H0|?]; [|done]. specialize (Hne _ (Hpriv _ Hs)). lia. }
  cbn [negb].
  destruct (open_follower mpc_get g d (dp_inputs d) (dp_zk d)) as (zk' & Ho & Hmono & Hsame & Hcomm).
  - apply Hi.
  - intros s Hs. pose proof (h_trans _ _ _ Hh) as Ht. rewrite Forall_forall in Ht. by apply (Ht _ Hs), Hne, Hpriv.
  - intros s a Hs Ha. pose proof (Hpriv _ Hs) as Hp.
    pose proof (i_marks _ _ _ _ Hi _ _ _ Hp I Ha) as Hin. apply (h_ranges _ _ _ Hh) in Hin as (v & x & com & Hc & Hsec).
    destruct (h_cells _ _ _ Hh _ _ _ _ Hc) as (z & Hg & Hz). unfold zkvis in Hz. rewrite Hsec in Hz.
    destruct (Has s a Hp) as (s' & bits & Hin & Hr'). { apply elem_of_addrs in Ha. exact Ha. }
    destruct (i_assigned _ _ _ _ Hi _ _ Hin) as [Hl Hb]. destruct (lookup_lt_is_Some_2 bits (a - sl_ptr s')) as [b Hbit]; [lia|].
    destruct (Hb _ _ Hbit) as (z' & v' & com' & Hg' & Hz' & _). replace (sl_ptr s' + (a - sl_ptr s')) with a in Hg' by lia.
    rewrite Hg in Hg'. injection Hg' as <-. rewrite Hz in Hz'. injection Hz' as _ Hx _. subst x. eauto 6.
  - rewrite Ho. cbn [obind].
    assert (check_outputs mpc_get wz zk' (dp_outputs d) = Ok tt) as ->; [|eexists; reflexivity].
    assert (forall s z v, (s, z) ∈ dp_outputs d -> mpc_get s = Some v -> vm_values wz zk' z = Some v) as Hall.
    { intros s z v Hin Hv. destruct (outputs_decoded _ _ _ _ Hr _ _ Hin) as [?%elem_of_nil|Hd]; [done|]. specialize (Hget _ _ Hd Hv).
      pose proof (i_outs _ _ _ _ Hi _ _ Hin) as Him. unfold vm_values in *. apply mapM_Some. apply mapM_Some in Hget.
      revert v Hv Hget. generalize (addrs s), (addrs z), Him. clear Hin Hd Him.
      intros l k Him v _. revert v. induction Him as [|a y l k Ha _ IH]; intros v Hget.
      - apply Forall2_nil_inv_l in Hget as ->. constructor.
      - apply Forall2_cons_inv_l in Hget as (b & v' & Hb & Hget & ->). constructor; [|by apply IH].
        eapply (vals_agree Follower os d g zk' wm wz Hi Hh Hmono); [by right| | |exact Ha|exact Hb].
        + intros a' z' v x Hc Hg'. destruct (h_cells _ _ _ Hh _ _ _ _ Hc) as (z2 & Hg2 & Hz2). rewrite Hg' in Hg2. injection Hg2 as <-.
          destruct (Hsame _ _ _ _ Hz2) as (com' & Hz3 & Himp). rewrite Hz3.
          destruct (secretb Follower v) eqn:Hsec; cbn [negb andb] in Himp; [|by rewrite Himp].
          assert (in_rs a' (dp_ranges d)) as Hrs by (apply (h_ranges _ _ _ Hh); eauto).
          apply (h_inputs _ _ _ Hh) in Hrs as (s' & Hs' & Ha'). destruct (Hcomm _ _ _ Hs' Ha' Hg') as (v3 & x3 & Hz4). congruence.
        + intros a' z' Hg'. apply (Hw a' (Slice z' 1)). by apply (h_total _ _ _ Hh). }
    clear -Hall. induction (dp_outputs d) as [|[s z] os' IH]; cbn [check_outputs]; [done|].
    assert (check_outputs mpc_get wz zk' os' = Ok tt) as IH'. { apply IH. intros s' z' v Hin. apply Hall. by right. }
    destruct (mpc_get s) as [v|] eqn:E; [|done]. rewrite (Hall s z v) by (done || by left). cbn. by rewrite bool_decide_true.
Qed.
Lemma C59_leader_honest_lemma mpc_get wz os d :
  dp_run Leader os dp_new = Ok d ->
  (forall s, DMark Blind s ∈ os -> 0 < sl_size s /\ exists v, mpc_get s = Some v /\ length v = sl_size s) ->
  exists d', dp_finalize mpc_get true true wz Leader d = Ok d' /\
    forall s v z, DMark Blind s ∈ os -> mpc_get s = Some v -> translate d s = Ok z -> vm_values wz (dp_zk d') z = Some v.
Proof.
  intros Hr Hne. destruct (hon_run _ _ _ _ _ _ (inv_new _) (hon_new _) Hr) as (g & Hi & Hh). cbn [app] in Hi.
  pose proof (run_inputs _ _ _ Hr) as Hins. unfold dp_finalize. cbn [negb].
  assert (forall s, s ∈ dp_inputs d -> DMark Blind s ∈ os) as Hbl.
  { intros s Hs. apply Hins in Hs as (v & Hv & Hsec). by destruct v. }
  assert (forallb (vm_has (dp_mpc d)) (dp_inputs d) = true) as ->.
  { apply forallb_has, Forall_forall. intros s Hs. pose proof (h_has _ _ _ Hh) as Hhas. rewrite Forall_forall in Hhas.
    destruct (Hhas _ Hs) as [H0|?]; [|done]. destruct (Hne _ (Hbl _ Hs)). lia. }
  cbn [negb].
  destruct (open_leader mpc_get g (dp_mpc d) d (dp_inputs d) (dp_zk d)) as (zk' & Ho & Hmono & Hval).
  - apply Hi.
  - apply Hi.
  - intros s Hs. pose proof (h_trans _ _ _ Hh) as Ht. rewrite Forall_forall in Ht. apply (Ht _ Hs), Hne, Hbl, Hs.
  - intros s Hs. apply Hne, Hbl, Hs.
  - apply Hh.
  - intros s a Hs Ha. pose proof (i_marks _ _ _ _ Hi _ _ _ (Hbl _ Hs) I Ha) as Hin. apply (h_ranges _ _ _ Hh) in Hin as (v & x & com & Hc & Hsec).
    destruct (h_cells _ _ _ Hh _ _ _ _ Hc) as (z & Hg & Hz). exists z. split; [done|]. unfold zkvis in Hz. rewrite Hsec, andb_false_r in Hz.
    destruct v as [[]|]; try done. rewrite (h_blind _ _ _ Hh _ _ _ Hc) in Hz. done.
  - rewrite Ho. cbn [obind]. eexists. split; [reflexivity|]. cbn [set_vms dp_zk]. intros s v z Hs Hv Hz.
    destruct (translate_images _ _ _ _ (i_maps _ _ _ _ Hi) Hz) as (T1 & T2 & _). destruct (Hne _ Hs) as (_ & v' & Hv' & Hl).
    rewrite Hv in Hv'. injection Hv' as <-. unfold vm_values. apply mapM_Some. unfold addrs. rewrite T1, <- Hl. apply Forall2_same_length_lookup.
    split; [apply seq_length|]. intros i y b Hy Hb. apply lookup_seq in Hy as [-> Hlt].
    assert (zk' !! (sl_ptr z + i) = Some (In (Some Public) (Some b) true)) as Hc.
    { eapply Hval; [apply Hins; by exists Blind|exact Hv|exact Hb|]. apply T2. lia. }
    pose proof (val_lookup wz _ _ _ Hc) as E. exact E.
Qed.
