From Verif.Lib Require Import Base.
From Verif Require Import CodecModel CodecLemmas PrfModel PrfSpec PrfShaLemmas PrfVmLemmas PrfFnLemmas PrfExpLemmas PrfRunLemmas PrfSetupLemmas PrfStepLemmas PrfMainLemmas.

(** How many flushes are left of the functions with a seed. *)
Definition todo (f : inner_prf) : nat := match fn_seed f with Some _ => fn_left f | None => 0 end.
Definition todo_all (g : fns) : nat := list_sum (map todo (fns_list g)).

Lemma todo_stays f f' : stays f f' -> todo f' <= todo f.
Proof. intros (H1 & _ & H2). unfold todo. rewrite H1. destruct (fn_seed f); lia. Qed.
Lemma todos_stay fs fs' : Forall2 stays fs fs' -> list_sum (map todo fs') <= list_sum (map todo fs).
Proof. intros H. induction H as [|f f' fs fs' Hf H IH]; [done|]. cbn. pose proof (todo_stays _ _ Hf). unfold list_sum in IH. lia. Qed.
Lemma todos_decrease fs fs' j f f' :
  Forall2 stays fs fs' -> fs !! j = Some f -> fs' !! j = Some f' -> is_Some (fn_seed f) -> fn_left f' < fn_left f ->
  list_sum (map todo fs') < list_sum (map todo fs).
Proof.
  intros H. revert j. induction H as [|x x' fs fs' Hf H IH]; intros [|j] Hj Hj' Hs Hl; try done; cbn.
  - injection Hj as ->. injection Hj' as ->. pose proof (todos_stay _ _ H) as Hr. destruct Hf as (H1 & _ & _).
    destruct Hs as [s Hs]. unfold todo, list_sum in *. rewrite H1, Hs. lia.
  - cbn in Hj, Hj'. pose proof (todo_stays _ _ Hf). specialize (IH _ Hj Hj' Hs Hl). unfold list_sum in IH. lia.
Qed.
Lemma left_bound cs o i n outs f : fn_shape cs o i n outs f -> 1 <= n -> fn_left f <= S n.
Proof.
  destruct f as [x|x]; cbn.
  - intros (-> & _ & _ & _ & _ & H) Hn. destruct (rf_state x); lia.
  - intros _ Hn. destruct (nf_done x); lia.
Qed.
Lemma todo_bound k y cs g : fns_ok k y cs g -> todo_all g <= 10.
Proof.
  intros (H0 & H1 & H2 & H3 & _). unfold todo_all, fns_list.
  pose proof (left_bound _ _ _ _ _ _ H1 ltac:(lia)). pose proof (left_bound _ _ _ _ _ _ H2 ltac:(lia)).
  pose proof (left_bound _ _ _ _ _ _ H3 ltac:(lia)).
  assert (forall f, todo f <= fn_left f) as Ht by (intros f; unfold todo; destruct (fn_seed f); lia).
  pose proof (Ht (g_ke g)). pose proof (Ht (g_cf g)). pose proof (Ht (g_sf g)).
  destruct (g_ms g) as [f|]; cbn; [|lia]. destruct H0 as [_ H0].
  pose proof (left_bound _ _ _ _ _ _ H0 ltac:(lia)). pose proof (Ht f). lia.
Qed.
Lemma wants_iff f : fn_wants_flush f = true <-> fn_done f = false /\ is_Some (fn_seed f).
Proof. unfold fn_wants_flush. rewrite andb_true_iff, negb_true_iff, bool_decide_eq_true. done. Qed.
Lemma not_wants f : fn_wants_flush f = false -> seeded f -> fn_done f = true.
Proof. intros H Hs. destruct (fn_done f) eqn:Hd; [done|]. assert (fn_wants_flush f = true) as E by (by apply wants_iff). congruence. Qed.

Section Flush.
  Context (iv : list N) (compress : list N -> list N -> list N).
  Context (compress_length : forall s b, length (compress s b) = 8).

  (** The master secret's function does not want a flush: its result can be computed. *)
  Lemma master_avail k y out m p g :
    prf_ok k y out m p g -> avail (vm_cells m) 0 -> odone (g_ms g) = true ->
    avail (vm_cells m) (ly_om y) /\ avail (vm_cells m) (ly_im y).
  Proof.
    intros ((L0 & L1 & L2 & _) & (H0 & _) & _) Ha Hd.
    assert (Forall (avail (vm_cells m)) (master_from k y)) as Hm.
    { destruct (g_ms g) as [f|] eqn:Hms.
      - destruct H0 as [Hk Hs]. destruct (L0 Hk) as [La Lb].
        assert (master_from k y = ly_ms y) as -> by (by destruct k).
        eapply fn_done_avail; [exact Hs|exact Hd| |]; (eapply needs_use; [done|by constructor]).
      - subst k. by constructor. }
    split; by eapply needs_use.
  Qed.
  Lemma secret_avail m w : vm_cells m !! 0 = Some (Given (Some w)) -> avail (vm_cells m) 0.
  Proof. intros H. eapply needs_use; [by eapply needs_given|done]. Qed.

  (** A round makes progress. *)
  Lemma round_progress k y out m p g :
    prf_ok k y out m p g -> (exists w, vm_cells m !! 0 = Some (Given (Some w))) -> oseeded (g_ms g) ->
    prf_wants_flush p = true ->
    exists m' p' g', prf_flush compress m p = Ok (m', p') /\ prf_ok k y out (vm_execute m') p' g' /\
      (exists w, vm_cells (vm_execute m') !! 0 = Some (Given (Some w))) /\ oseeded (g_ms g') /\
      todo_all g' <= todo_all g /\ (vm_seen m = vm_values (vm_cells m) -> todo_all g' < todo_all g).
  Proof.
    intros Hok [w Hw] Hs Hwant. pose proof Hok as (Hy & Hg & Hp & Hk & _).
    destruct (prf_flush_ok compress k y out m p g Hok) as (m' & p' & g' & Ef & Hok' & G & Sn & Z & _ & _ & T & M & _ & _).
    destruct Hp as [Hp|[Hp _]]; [|unfold prf_wants_flush in Hwant; by rewrite Hp in Hwant].
    specialize (M Hp).
    assert (g_ms g = None <-> g_ms g' = None) as Hnone.
    { rewrite (prf_ok_ms _ _ _ _ _ _ Hok), (prf_ok_ms _ _ _ _ _ _ Hok'). done. }
    destruct (stays_seeds k g g' T Hnone) as (S1 & _).
    exists m', p', g'. split_and!; try done.
    - exists w. cbn. congruence.
    - by apply S1.
    - by apply todos_stay.
    - intros Hseen. apply fns_ok_list in Hg as [Hg _]. unfold prf_wants_flush in Hwant. rewrite Hp in Hwant.
      assert (exists j q f, places k y !! j = Some q /\ fns_list g !! j = Some f /\ fn_wants_flush f = true /\
                avail (vm_cells m) (pl_o q) /\ avail (vm_cells m) (pl_i q)) as (j & q & f & Hq & Hf & Hwf & Ao & Ai).
      { pose proof (secret_avail _ _ Hw) as A0. destruct Hy as (L0 & _).
        unfold places, fns_list. destruct (g_ms g) as [f|] eqn:Hms.
        - assert (k <> MsDirect) as Hkd.
          { intros Hd. apply (proj2 (prf_ok_ms _ _ _ _ _ _ Hok)) in Hd. congruence. }
          destruct (L0 Hkd) as [La Lb].
          assert (avail (vm_cells m) (ly_op y)) as Aop by (eapply needs_use; [done|by constructor]).
          assert (avail (vm_cells m) (ly_ip y)) as Aip by (eapply needs_use; [done|by constructor]).
          assert (match k with MsDirect => [] | _ => [Place (ly_op y) (ly_ip y) 2 (ly_ms y)] end = [Place (ly_op y) (ly_ip y) 2 (ly_ms y)]) as ->
            by (by destruct k).
          destruct (fn_wants_flush f) eqn:Hwf.
          { exists 0, (Place (ly_op y) (ly_ip y) 2 (ly_ms y)), f. done. }
          assert (odone (g_ms g) = true) as Hd by (rewrite Hms; by apply not_wants).
          destruct (master_avail _ _ _ _ _ _ Hok A0 Hd) as [Am Bm].
          cbn [orb] in Hwant. rewrite !orb_true_iff in Hwant. destruct Hwant as [[Hwk|Hwk]|Hwk].
          + exists 1. do 2 eexists. done.
          + exists 2. do 2 eexists. done.
          + exists 3. do 2 eexists. done.
        - assert (k = MsDirect) as -> by (by apply (prf_ok_ms _ _ _ _ _ _ Hok)).
          destruct (master_avail _ _ _ _ _ _ Hok A0 ltac:(by rewrite Hms)) as [Am Bm].
          cbn [orb] in Hwant. rewrite !orb_true_iff in Hwant. destruct Hwant as [[Hwk|Hwk]|Hwk].
          + exists 0. do 2 eexists. done.
          + exists 1. do 2 eexists. done.
          + exists 2. do 2 eexists. done. }
      destruct (Forall2_lookup_l _ _ _ _ _ T Hf) as (f' & Hf' & _).
      eapply todos_decrease; [exact T|exact Hf|exact Hf'|by apply wants_iff in Hwf as [_ ?]|].
      pose proof (Forall3_lookup_lmr _ _ _ _ _ _ _ _ M Hq Hf Hf') as Hm.
      eapply (Hm (vm_cells m)); try done. by eapply (Forall2_lookup_lr _ _ _ _ _ _ Hg).
  Qed.

  Lemma flush_all_end n m p : prf_wants_flush p = false -> flush_all compress n m p = Ok (Some (m, p)).
  Proof. intros H. destruct n; cbn; by rewrite H. Qed.
  Lemma flush_all_more n n' m p r : flush_all compress n m p = Ok (Some r) -> n <= n' -> flush_all compress n' m p = Ok (Some r).
  Proof.
    revert n' m p. induction n as [|n IH]; intros n' m p H Hn.
    - cbn in H. destruct (prf_wants_flush p) eqn:Hw; [done|]. injection H as <-. by apply flush_all_end.
    - cbn in H. destruct (prf_wants_flush p) eqn:Hw.
      + destruct n' as [|n']; [lia|]. cbn. rewrite Hw. apply obind_Ok in H as ([m1 p1] & E & H). rewrite E. cbn [obind].
        apply IH; [done|lia].
      + injection H as <-. by apply flush_all_end.
  Qed.
  Lemma flush_all_done k y out n m p g :
    prf_ok k y out m p g -> (exists w, vm_cells m !! 0 = Some (Given (Some w))) -> oseeded (g_ms g) ->
    vm_seen m = vm_values (vm_cells m) -> todo_all g <= n ->
    exists m' p', flush_all compress n m p = Ok (Some (m', p')) /\ prf_wants_flush p' = false.
  Proof.
    revert m p g. induction n as [|n IH]; intros m p g Hok Hw Hs Hseen Hn.
    - destruct (prf_wants_flush p) eqn:Hwant.
      + destruct (round_progress _ _ _ _ _ _ Hok Hw Hs Hwant) as (m' & p' & g' & _ & _ & _ & _ & _ & Hlt). specialize (Hlt Hseen). lia.
      + exists m, p. split; [by apply flush_all_end|done].
    - destruct (prf_wants_flush p) eqn:Hwant.
      + destruct (round_progress _ _ _ _ _ _ Hok Hw Hs Hwant) as (m' & p' & g' & E & Hok' & Hw' & Hs' & _ & Hlt). specialize (Hlt Hseen).
        destruct (IH _ _ _ Hok' Hw' Hs' eq_refl ltac:(lia)) as (m2 & p2 & E2 & H2).
        exists m2, p2. cbn. rewrite Hwant, E. done.
      + exists m, p. split; [by apply flush_all_end|done].
  Qed.
  Lemma flush_all_11 k y out m p g :
    prf_ok k y out m p g -> (exists w, vm_cells m !! 0 = Some (Given (Some w))) -> oseeded (g_ms g) ->
    exists m' p', flush_all compress 11 m p = Ok (Some (m', p')) /\ prf_wants_flush p' = false.
  Proof.
    intros Hok Hw Hs. destruct (prf_wants_flush p) eqn:Hwant.
    - destruct (round_progress _ _ _ _ _ _ Hok Hw Hs Hwant) as (m' & p' & g' & E & Hok' & Hw' & Hs' & Hle & _).
      assert (todo_all g' <= 10) as Hb by (eapply todo_bound, Hok').
      destruct (flush_all_done _ _ _ 10 _ _ _ Hok' Hw' Hs' eq_refl Hb) as (m2 & p2 & E2 & H2).
      exists m2, p2. split; [|done]. change 11 with (S 10). cbn [flush_all]. rewrite Hwant, E. done.
    - exists m, p. split; [by apply flush_all_end|done].
  Qed.
  (** A loop of flushes is a run. *)
  Lemma flush_all_run n m p m' p' :
    flush_all compress n m p = Ok (Some (m', p')) ->
    exists cs, prf_run compress cs m p = Ok (m', p') /\ Forall (fun c => c = CPrfFlush \/ c = CExecute) cs.
  Proof.
    revert m p. induction n as [|n IH]; intros m p H; cbn in H; destruct (prf_wants_flush p) eqn:Hw; try done.
    - injection H as <- <-. by exists [].
    - apply obind_Ok in H as ([m1 p1] & E & H). destruct (IH _ _ H) as (cs & Hr & Hc).
      exists (CPrfFlush :: CExecute :: cs). split; [|constructor; [by left|constructor; [by right|done]]].
      cbn. rewrite E. done.
    - injection H as <- <-. by exists [].
  Qed.

  Lemma C49_complete_lemma net k v cs m p out m' p' :
    length (tv_secret v) = secret_length k -> prf_setup iv compress net k = Ok (m, p, out) ->
    Forall (call_agrees v) cs -> prf_run compress cs m p = Ok (m', p') ->
    (exists x, CSecret x ∈ cs) -> master_seeded k cs ->
    exists m2 p2 d, flush_all compress 11 m' p' = Ok (Some (m2, p2)) /\ is_derived iv compress k v d /\
      ((exists r, CServerRandom r ∈ cs) ->
         vm_decoded (vm_execute m2) (po_ck out) = Some (d_client_key d) /\
         vm_decoded (vm_execute m2) (po_sk out) = Some (d_server_key d) /\
         vm_decoded (vm_execute m2) (po_civ out) = Some (d_client_iv d) /\
         vm_decoded (vm_execute m2) (po_siv out) = Some (d_server_iv d)) /\
      ((exists h, CCfHash h ∈ cs) -> vm_decoded (vm_execute m2) (po_cf out) = Some (d_cf d)) /\
      ((exists h, CSfHash h ∈ cs) -> vm_decoded (vm_execute m2) (po_sf out) = Some (d_sf d)).
  Proof.
    intros Hl Hset Ha Hr Hsec Hms.
    destruct (setup_val iv compress compress_length net k v m p out Hl Hset) as (E & y & g & Hok & Hv & (d & Hd & O1 & O2 & O3 & O4 & O5 & O6)).
    destruct (run_ok compress k y out cs m p g m' p' Hok Hr) as (g1 & Hok1 & _ & (R1 & R2 & R3 & R4) & _ & Z).
    specialize (Z Hsec). specialize (R1 Hms).
    pose proof (run_val iv compress compress_length k y v E out cs m p g m' p' Hok Hv Ha Hr) as Hv1.
    destruct (flush_all_11 _ _ _ _ _ _ Hok1 Z R1) as (m2 & p2 & Ef & Hwant).
    destruct (flush_all_run _ _ _ _ _ Ef) as (cs2 & Hr2 & Hc2).
    assert (Forall (call_agrees v) (cs2 ++ [CExecute])) as Ha2.
    { apply Forall_app. split; [|by constructor]. eapply Forall_impl; [exact Hc2|]. intros c [->| ->]; done. }
    assert (prf_run compress (cs2 ++ [CExecute]) m' p' = Ok (vm_execute m2, p2)) as Hr3.
    { clear -Hr2. revert m' p' Hr2. induction cs2 as [|c cs2 IH]; intros m' p' H; cbn in *.
      - by injection H as <- <-.
      - apply obind_Ok in H as ([m1 p1] & E & H). rewrite E. cbn [obind]. by apply IH. }
    destruct (run_ok compress k y out _ _ _ _ _ _ Hok1 Hr3) as (g2 & Hok2 & G2 & _ & (S1 & S2 & S3 & S4) & _).
    pose proof (run_val iv compress compress_length k y v E out _ _ _ _ _ _ Hok1 Hv1 Ha2 Hr3) as (_ & Hsn & _).
    pose proof Hok2 as (Hy & (F0 & F1 & F2 & F3 & _) & Hp & _).
    assert (odone (g_ms g2) = true /\ (seeded (g_ke g2) -> fn_done (g_ke g2) = true) /\ (seeded (g_cf g2) -> fn_done (g_cf g2) = true) /\
            (seeded (g_sf g2) -> fn_done (g_sf g2) = true)) as (D0 & D1 & D2 & D3).
    { destruct Hp as [Hp|[_ (D0 & D1 & D2 & D3)]]; [|done]. unfold prf_wants_flush in Hwant. rewrite Hp in Hwant.
      rewrite !orb_false_iff in Hwant. destruct Hwant as [[[W0 W1] W2] W3]. split_and!; try (by intros; apply not_wants).
      specialize (S1 R1). destruct (g_ms g2) as [f|]; [|done]. by apply not_wants. }
    destruct Z as [w Hw]. assert (avail (vm_cells (vm_execute m2)) 0) as A0.
    { eapply secret_avail. exact (grows_given _ _ _ _ G2 Hw). }
    destruct (master_avail _ _ _ _ _ _ Hok2 A0 D0) as [Am Bm].
    destruct Hy as (_ & _ & _ & L1 & L2 & L3 & L4 & L5 & L6).
    assert (forall i j js x, needs (vm_cells (vm_execute m2)) i js -> Forall (avail (vm_cells (vm_execute m2))) js -> E !! i = Some x ->
              j = i -> vm_decoded (vm_execute m2) j = Some x) as Hget.
    { intros i j js x Hn Hj Hx ->. destruct (decoded_avail (vm_execute m2) i eq_refl (needs_use _ _ _ Hn Hj)) as [x' Hx'].
      pose proof (Hsn _ _ Hx'). congruence. }
    exists m2, p2, d. split; [done|]. split; [done|]. split_and!.
    - intros Hin. pose proof (fn_done_avail _ _ _ _ _ _ F1 (D1 (S2 (R2 Hin))) Am Bm) as Hj.
      split_and!; (eapply Hget; [| |done|done]; [|exact Hj]; done).
    - intros Hin. pose proof (fn_done_avail _ _ _ _ _ _ F2 (D2 (S3 (R3 Hin))) Am Bm) as Hj. eapply Hget; [exact L5|exact Hj|done|done].
    - intros Hin. pose proof (fn_done_avail _ _ _ _ _ _ F3 (D3 (S4 (R4 Hin))) Am Bm) as Hj. eapply Hget; [exact L6|exact Hj|done|done].
  Qed.

  (** ** A loop that does not end *)
  Definition unavail (cs : list cell) (i : nat) : Prop := mjoin (vm_values cs !! i) = None.
  Lemma mapM_none {A B} (f : A -> option B) l x : x ∈ l -> f x = None -> mapM f l = None.
  Proof.
    intros H Hf. induction H as [x l|x y l H IH]; cbn.
    - by rewrite Hf.
    - destruct (f y); [|done]. cbn. by rewrite (IH Hf).
  Qed.
  Lemma unavail_computed cs i f args a : cs !! i = Some (Computed f args) -> a ∈ args -> unavail cs a -> unavail cs i.
  Proof.
    intros Hi Ha Hu. unfold unavail in *. rewrite (vm_values_lookup _ _ _ Hi). cbn.
    rewrite (mapM_none _ _ a Ha); [done|]. destruct (decide (a < i)).
    - by rewrite lookup_take.
    - by rewrite lookup_take_ge by lia.
  Qed.
  Lemma unavail_given cs i : cs !! i = Some (Given None) -> unavail cs i.
  Proof. intros Hi. unfold unavail. by rewrite (vm_values_lookup _ _ _ Hi). Qed.

  Definition depends (cs : list cell) (i a : nat) : Prop := exists f args, cs !! i = Some (Computed f args) /\ a ∈ args.
  (** The state of the inner hash (cell 25) depends on an input of the master secret's function (cell 11). *)
  Definition waits (f : inner_prf) : Prop := exists x, f = FReduced x /\ rf_state x = RInner 25.
  Definition stuck (m : vm) (p : prf) : Prop :=
    depends (vm_cells m) 25 24 /\ depends (vm_cells m) 24 17 /\ depends (vm_cells m) 17 12 /\ depends (vm_cells m) 12 11 /\
    vm_cells m !! 11 = Some (Given None) /\ vm_decoded m 25 = None /\
    exists ms ke cf sf, pf_state p = PSetup (Some ms) ke cf sf /\ fn_seed ms = None /\ fn_done ms = false /\ waits ke /\ waits cf /\ waits sf.
  Lemma stuck_unavail m p : stuck m p -> unavail (vm_cells m) 25.
  Proof.
    intros ((f1 & a1 & H1 & I1) & (f2 & a2 & H2 & I2) & (f3 & a3 & H3 & I3) & (f4 & a4 & H4 & I4) & H5 & _).
    eapply unavail_computed; [exact H1|exact I1|]. eapply unavail_computed; [exact H2|exact I2|].
    eapply unavail_computed; [exact H3|exact I3|]. eapply unavail_computed; [exact H4|exact I4|]. by apply unavail_given.
  Qed.
  Lemma waits_seed f s : waits f -> waits (fn_set_seed f s).
  Proof. intros (x & -> & H). eexists. split; [reflexivity|done]. Qed.
  Lemma waits_flush m f : waits f -> vm_decoded m 25 = None -> flush_if compress m f = Ok (m, f).
  Proof.
    intros (x & -> & H) Hd. unfold flush_if. destruct (fn_wants_flush _); [|done]. cbn. unfold reduced_flush. rewrite H, Hd. done.
  Qed.
  Lemma stuck_flush m p : stuck m p -> prf_flush compress m p = Ok (m, p).
  Proof.
    intros (_ & _ & _ & _ & _ & Hd & ms & ke & cf & sf & Hst & H1 & H2 & H3 & H4 & H5). unfold prf_flush. rewrite Hst.
    assert (flush_if compress m ms = Ok (m, ms)) as ->.
    { unfold flush_if, fn_wants_flush. rewrite H1. by rewrite andb_false_r. }
    cbn [obind]. rewrite (waits_flush _ _ H3 Hd). cbn [obind]. rewrite (waits_flush _ _ H4 Hd). cbn [obind].
    rewrite (waits_flush _ _ H5 Hd). cbn [obind]. rewrite H2. cbn [andb]. rewrite <- Hst. by destruct p.
  Qed.
  Lemma stuck_execute m p : stuck m p -> stuck (vm_execute m) p.
  Proof.
    intros H. pose proof (stuck_unavail _ _ H) as Hu. destruct H as (H1 & H2 & H3 & H4 & H5 & _ & H6).
    split_and!; try done.
  Qed.
  Lemma depends_grows cs cs' i a : grows cs cs' -> depends cs i a -> depends cs' i a.
  Proof. intros Hg (f & args & H & Hi). exists f, args. split; [|done]. destruct (Hg _ _ H) as [?|[? _]]; done. Qed.
  (** A call that does not give the master secret's seed. *)
  Definition no_master (k : ms_mode) (c : prf_call) : Prop :=
    match k, c with MsStandard, CServerRandom _ | MsExtended, CSessionHash _ => False | _, _ => True end.
  Lemma stuck_step k c m p m' p' :
    k <> MsDirect -> pf_ms p = k -> no_master k c -> stuck m p -> prf_call_step compress c m p = Ok (m', p') ->
    stuck m' p' /\ pf_ms p' = k.
  Proof.
    intros Hkd Hk Hc Hs H.
    pose proof Hs as (D1 & D2 & D3 & D4 & G & Hd & ms & ke & cf & sf & Hst & Hse & Hdn & W1 & W2 & W3).
    destruct c as [x|r|r|h|h|h| |]; cbn [prf_call_step] in H.
    - apply obind_Ok in H as (m1 & H & [= <- <-]). pose proof (vm_assign_inv _ _ _ _ H) as [Hi _].
      destruct (vm_assign_ok m 0 x Hi) as (m2 & E & Hm2 & Hgr & Hv & Hsame). assert (m2 = m1) as -> by congruence.
      split; [|done]. unfold stuck. split_and!; try (by eapply depends_grows).
      + rewrite Hsame; done.
      + unfold vm_decoded in *. apply vm_assign_inv in H as [_ ->]. done.
      + exists ms, ke, cf, sf. done.
    - injection H as <- <-. split; [|done]. split_and!; try done. exists ms, ke, cf, sf. done.
    - unfold keep_vm in H. apply obind_Ok in H as (p1 & H & [= <- <-]). unfold set_server_random in H. rewrite Hst in H.
      apply obind_Ok in H as (cr & _ & H). apply obind_Ok in H as (ms' & Hms & [= <-]). rewrite Hk in *.
      destruct k; [done| |done]. injection Hms as <-. split; [|done]. split_and!; try done.
      eexists _, _, _, _. split; [reflexivity|]. split_and!; try done. by apply waits_seed.
    - unfold keep_vm in H. apply obind_Ok in H as (p1 & H & [= <- <-]). unfold set_session_hash in H. rewrite Hst, Hk in H.
      destruct k; done.
    - unfold keep_vm in H. apply obind_Ok in H as (p1 & H & [= <- <-]). unfold set_cf_hash in H. rewrite Hst in H.
      injection H as <-. split; [|done]. split_and!; try done.
      eexists _, _, _, _. split; [reflexivity|]. split_and!; try done. by apply waits_seed.
    - unfold keep_vm in H. apply obind_Ok in H as (p1 & H & [= <- <-]). unfold set_sf_hash in H. rewrite Hst in H.
      injection H as <-. split; [|done]. split_and!; try done.
      eexists _, _, _, _. split; [reflexivity|]. split_and!; try done. by apply waits_seed.
    - rewrite (stuck_flush _ _ Hs) in H. injection H as <- <-. done.
    - injection H as <- <-. split; [by apply stuck_execute|done].
  Qed.
  Lemma stuck_run k cs m p m' p' :
    k <> MsDirect -> pf_ms p = k -> Forall (no_master k) cs -> stuck m p -> prf_run compress cs m p = Ok (m', p') ->
    stuck m' p' /\ pf_ms p' = k.
  Proof.
    revert m p. induction cs as [|c cs IH]; intros m p Hkd Hk Hc Hs H.
    - by injection H as <- <-.
    - cbn in H. apply obind_Ok in H as ([m1 p1] & E & H). apply Forall_cons in Hc as [Hc1 Hc2].
      destruct (stuck_step k c m p m1 p1 Hkd Hk Hc1 Hs E) as [Hs1 Hk1]. by apply (IH m1 p1).
  Qed.
  Lemma stuck_loop n m p : stuck m p -> prf_wants_flush p = true -> flush_all compress n m p = Ok None.
  Proof.
    revert m. induction n as [|n IH]; intros m Hs Hw; cbn; rewrite Hw; [done|]. rewrite (stuck_flush _ _ Hs). cbn [obind].
    apply IH; [by apply stuck_execute|done].
  Qed.
  Lemma setup_stuck k m p out : k <> MsDirect -> prf_setup iv compress NetReduced k = Ok (m, p, out) -> stuck m p /\ pf_ms p = k.
  Proof.
    intros Hk H.
    destruct k; [| |contradiction Hk; reflexivity].
    - cbv -[circ_xor circ_block circ_finish circ_merge circ_slice opad ipad label_ms label_ems label_key label_cf label_sf replicate] in H.
      injection H as <- <- <-.
      split; [|done]. unfold stuck, depends, waits. cbn [vm_cells vm_seen pf_state].
      split_and!.
      + eexists _, _. split; [reflexivity|]. repeat constructor.
      + eexists _, _. split; [reflexivity|]. repeat constructor.
      + eexists _, _. split; [reflexivity|]. repeat constructor.
      + eexists _, _. split; [reflexivity|]. repeat constructor.
      + reflexivity.
      + reflexivity.
      + eexists _, _, _, _. split; [reflexivity|]. split_and!; try done; (eexists; split; [reflexivity|done]).
    - cbv -[circ_xor circ_block circ_finish circ_merge circ_slice opad ipad label_ms label_ems label_key label_cf label_sf replicate] in H.
      injection H as <- <- <-.
      split; [|done]. unfold stuck, depends, waits. cbn [vm_cells vm_seen pf_state].
      split_and!.
      + eexists _, _. split; [reflexivity|]. repeat constructor.
      + eexists _, _. split; [reflexivity|]. repeat constructor.
      + eexists _, _. split; [reflexivity|]. repeat constructor.
      + eexists _, _. split; [reflexivity|]. repeat constructor.
      + reflexivity.
      + reflexivity.
      + eexists _, _, _, _. split; [reflexivity|]. split_and!; try done; (eexists; split; [reflexivity|done]).
  Qed.

  Lemma C49_never_ends_lemma k cs m p out m' p' :
    prf_setup iv compress NetReduced k = Ok (m, p, out) -> prf_run compress cs m p = Ok (m', p') ->
    ~ master_seeded k cs ->
    (exists h, CCfHash h ∈ cs) \/ (exists h, CSfHash h ∈ cs) \/ (exists r, CServerRandom r ∈ cs) ->
    forall n, flush_all compress n m' p' = Ok None.
  Proof.
    intros Hset Hr Hms Hsome n.
    assert (k <> MsDirect) as Hk by (intros ->; apply Hms; exact I).
    destruct (setup_stuck k m p out Hk Hset) as [Hst Hpk].
    assert (Forall (no_master k) cs) as Hno.
    { apply Forall_forall. intros c Hc. destruct k, c; cbn; try exact I; apply Hms; cbn; eauto. }
    destruct (stuck_run k cs m p m' p' Hk Hpk Hno Hst Hr) as [Hst' _].
    destruct (setup_val iv compress compress_length NetReduced k
                (TlsValues (replicate (secret_length k) 0%N) [] [] [] [] []) m p out (replicate_length _ _) Hset) as (E & y & g & Hok & _).
    destruct (run_ok compress k y out cs m p g m' p' Hok Hr) as (g1 & Hok1 & _ & (_ & R2 & R3 & R4) & _ & _).
    apply stuck_loop; [done|].
    pose proof Hst' as (_ & _ & _ & _ & _ & _ & ms & ke & cf & sf & Hs & _ & _ & W1 & W2 & W3).
    destruct Hok1 as (_ & _ & [Hp|[Hp _]] & _); [|congruence]. rewrite Hs in Hp. injection Hp as Hg1 -> -> ->.
    assert (forall f, waits f -> seeded f -> fn_wants_flush f = true) as Hw.
    { intros f (x & -> & Hx) Hse. apply wants_iff. split; [|exact Hse]. cbn. by rewrite Hx. }
    unfold prf_wants_flush. rewrite Hs. destruct Hsome as [H|[H|H]].
    - rewrite (Hw _ W2 (R3 H)). by rewrite orb_true_r.
    - rewrite (Hw _ W3 (R4 H)). by rewrite orb_true_r.
    - rewrite (Hw _ W1 (R2 H)). by rewrite orb_true_r.
  Qed.
  Lemma C49_setup_lemma net k : exists m p out, prf_setup iv compress net k = Ok (m, p, out).
  Proof.
    destruct k; unfold prf_setup, alloc_pms, alloc_ms; cbn [vm_add pf_ms prf_new pf_state].
    - repeat match goal with |- context [let '(_, _) := ?x in _] => destruct x end. destruct (alloc_post_ms _ _ _ _ _ _) as [[m p] out]. eauto.
    - repeat match goal with |- context [let '(_, _) := ?x in _] => destruct x end. destruct (alloc_post_ms _ _ _ _ _ _) as [[m p] out]. eauto.
    - destruct (alloc_post_ms _ _ _ _ _ _) as [[m p] out]. eauto.
  Qed.
  Lemma C49_flush_lemma net k cs m p out m' p' :
    prf_setup iv compress net k = Ok (m, p, out) -> prf_run compress cs m p = Ok (m', p') ->
    exists m2 p2, prf_flush compress m' p' = Ok (m2, p2).
  Proof.
    intros Hset Hr.
    apply (C49_flush_ok iv compress compress_length net k
             (TlsValues (replicate (secret_length k) 0%N) [] [] [] [] []) cs m p out m' p' (replicate_length _ _) Hset Hr).
  Qed.
End Flush.
