From Verif.Lib Require Import Base.
From Verif Require Import CodecModel CodecLemmas PrfModel PrfSpec PrfShaLemmas PrfVmLemmas PrfFnLemmas PrfExpLemmas PrfRunLemmas PrfSetupLemmas.

Section Steps.
  Context (iv : list N) (compress : list N -> list N -> list N).
  Context (compress_length : forall s b, length (compress s b) = 8).

  (** ** Flushing several functions *)
  Fixpoint flush_seq (m : vm) (fs : list inner_prf) : outcome prf_error (vm * list inner_prf) :=
    match fs with
    | [] => Ok (m, [])
    | f :: fs' => let! (m, f) := flush_if compress m f in let! (m, fs') := flush_seq m fs' in Ok (m, f :: fs')
    end.
  Record place := Place { pl_o : nat; pl_i : nat; pl_n : nat; pl_outs : list nat }.
  Definition shaped (cs : list cell) (q : place) (f : inner_prf) : Prop := fn_shape cs (pl_o q) (pl_i q) (pl_n q) (pl_outs q) f.
  Definition pends (fs : list inner_prf) : list nat := concat (map fn_pend fs).
  Definition stays (f f' : inner_prf) : Prop :=
    fn_seed f' = fn_seed f /\ fn_label f' = fn_label f /\ fn_left f' <= fn_left f.
  Definition moves (seen : list (option (list N))) (q : place) (f f' : inner_prf) : Prop :=
    forall cs0, shaped cs0 q f -> seen = vm_values cs0 -> avail cs0 (pl_o q) -> avail cs0 (pl_i q) ->
      fn_wants_flush f = true -> fn_left f' < fn_left f.
  Lemma flush_seq_ok qs fs m rest :
    Forall2 (shaped (vm_cells m)) qs fs -> NoDup (pends fs ++ rest) -> none_in (vm_cells m) rest ->
    exists m' fs', flush_seq m fs = Ok (m', fs') /\ Forall2 (shaped (vm_cells m')) qs fs' /\ NoDup (pends fs' ++ rest) /\
      none_in (vm_cells m') rest /\ grows (vm_cells m) (vm_cells m') /\ vm_seen m' = vm_seen m /\
      Forall2 stays fs fs' /\ Forall3 (moves (vm_seen m)) qs fs fs' /\
      (forall j, j ∈ pends fs' -> j ∈ pends fs) /\
      (forall j, j ∉ pends fs -> vm_cells m' !! j = vm_cells m !! j).
  Proof.
    intros H. revert rest. remember (vm_cells m) as cs eqn:Hcs. revert m Hcs.
    induction fs as [|f fs IH] in qs, cs, H |- *; intros m -> rest Hnd Hr.
    { apply Forall2_nil_inv_r in H as ->. exists m, []. split_and!; try done; [apply grows_refl|constructor]. }
    apply Forall2_cons_inv_r in H as (q & qs' & Hq & Hqs & ->).
    unfold pends in Hnd. cbn [map concat] in Hnd. rewrite <- app_assoc in Hnd.
    destruct (flush_if_shape compress m (pl_o q) (pl_i q) (pl_n q) (pl_outs q) f (pends fs ++ rest) Hq Hnd)
      as (m1 & f1 & E1 & G1 & S1 & Q1 & D1 & R1 & A1 & B1 & C1 & U1 & F1 & P1).
    { apply Forall_app. split; [|done]. unfold pends. apply Forall_concat. clear -Hqs.
      induction Hqs as [|q f qs fs Hq Hqs IH]; constructor; [|done]. by eapply fn_pend_none. }
    apply Forall_app in R1 as [R1 R1'].
    assert (Forall2 (shaped (vm_cells m1)) qs' fs) as Hqs1.
    { clear -Hqs G1 R1. unfold pends in R1. induction Hqs as [|q f qs fs Hq Hqs IH]; [done|].
      cbn in R1. apply Forall_app in R1 as [R1 R2]. constructor; [by eapply fn_shape_grows|by apply IH]. }
    destruct (IH qs' (vm_cells m1) Hqs1 m1 eq_refl (fn_pend f1 ++ rest))
      as (m2 & fs2 & E2 & Q2 & D2 & R2 & G2 & S2 & T2 & M2 & U2 & F2).
    { rewrite !app_assoc in D1 |- *. by rewrite (Permutation_app_comm (pends fs)). }
    { apply Forall_app. split; [|done]. by eapply fn_pend_none. }
    apply Forall_app in R2 as [R2 R2'].
    exists m2, (f1 :: fs2). cbn [flush_seq]. rewrite E1. cbn [obind]. rewrite E2. cbn [obind]. split_and!; try done.
    - constructor; [by eapply fn_shape_grows|done].
    - unfold pends in *. cbn [map concat]. rewrite app_assoc in D2. by rewrite (Permutation_app_comm (fn_pend f1)).
    - by eapply grows_trans.
    - congruence.
    - constructor; [done|done].
    - constructor; [|by rewrite <- S1].
      intros cs0 Hs Hseen Ho Hi Hw. by eapply P1.
    - intros j Hj. unfold pends in *. cbn [map concat] in *. rewrite elem_of_app in *.
      destruct Hj as [Hj|Hj]; [left; by apply U1|right; by apply U2].
    - intros j Hj. unfold pends in Hj. cbn [map concat] in Hj. rewrite elem_of_app in Hj.
      rewrite F2, F1; [done| |]; intros Hin; apply Hj; [by left|by right].
  Qed.
  Lemma flush_seq_expected m E fs Ks m' fs' :
    consistent (vm_cells m) E -> seen_ok E m ->
    Forall2 (fun K f => fn_expected compress K.1.1 K.1.2 K.2 E f) Ks fs -> flush_seq m fs = Ok (m', fs') ->
    consistent (vm_cells m') E /\ Forall2 (fun K f => fn_expected compress K.1.1 K.1.2 K.2 E f) Ks fs'.
  Proof.
    intros Hc Hs H. revert m m' fs' Hc Hs. induction H as [|K f Ks fs HK H IH]; intros m m' fs' Hc Hs E1; cbn in E1.
    { injection E1 as <- <-. done. }
    apply obind_Ok in E1 as ([m1 f1] & E1 & E2). apply obind_Ok in E2 as ([m2 fs2] & E2 & [= <- <-]).
    destruct (flush_if_expected compress _ _ _ _ _ _ _ _ Hc Hs HK E1) as [Hc1 HK1].
    assert (vm_seen m1 = vm_seen m) as Hsn.
    { unfold flush_if in E1. destruct (fn_wants_flush f); [|injection E1; congruence]. clear -E1.
      destruct f as [x|x]; cbn in E1; apply obind_Ok in E1 as ([m2 x2] & E1 & [= <- <-]).
      - unfold reduced_flush, reduced_flush_a, assign_inner_local in E1.
        repeat (case_match; try done; simplify_eq/=);
        repeat match goal with
        | H : obind _ _ = Ok _ |- _ => apply obind_Ok in H as (? & ? & ?); cbn in *; simplify_eq/=
        | H : vm_assign _ _ _ = Ok _ |- _ => apply vm_assign_inv in H as [_ ->]
        | H : (if ?b then _ else _) = _ |- _ => destruct b
        | H : match ?b with [] => _ | _ :: _ => _ end = _ |- _ => destruct b as [|[? ?] ?]
        end; simplify_eq/=; done.
      - unfold normal_flush in E1. destruct (nf_done x); [injection E1; congruence|].
        apply obind_Ok in E1 as (s & _ & E1). apply obind_Ok in E1 as (m3 & E1 & [= <- <-]).
        apply vm_assign_inv in E1 as [_ ->]. done. }
    destruct (IH m1 m2 fs2 Hc1) as [Hc2 HK2]; [|exact E2|].
    { intros i v Hd. apply Hs. unfold vm_decoded in *. congruence. }
    split; [done|]. by constructor.
  Qed.

  Definition fns_list (g : fns) : list inner_prf :=
    (match g_ms g with Some f => [f] | None => [] end) ++ [g_ke g; g_cf g; g_sf g].
  Definition places (k : ms_mode) (y : lay) : list place :=
    (match k with MsDirect => [] | _ => [Place (ly_op y) (ly_ip y) 2 (ly_ms y)] end) ++
    [Place (ly_om y) (ly_im y) 2 (ly_ke y); Place (ly_om y) (ly_im y) 1 (ly_cf y); Place (ly_om y) (ly_im y) 1 (ly_sf y)].
  Lemma pends_list g : pends (fns_list g) = fns_pend g.
  Proof. destruct g as [[ms|] ke cf sf]; unfold pends, fns_pend, fns_list, opend; cbn; by rewrite app_nil_r. Qed.
  Lemma fns_ok_list k y cs g :
    fns_ok k y cs g <-> Forall2 (shaped cs) (places k y) (fns_list g) /\ NoDup (0 :: fns_pend g).
  Proof.
    unfold fns_ok, fns_list, places, shaped. destruct g as [[ms|] ke cf sf]; cbn [g_ms g_ke g_cf g_sf].
    - split.
      + intros ([Hk H0] & H1 & H2 & H3 & H4). split; [|done]. destruct k; [| |done]; cbn; repeat constructor; done.
      + intros [H H4]. destruct k; cbn in H;
          repeat (match goal with H : Forall2 _ _ _ |- _ => inversion H; clear H; subst end); cbn in *; done.
    - split.
      + intros (-> & H1 & H2 & H3 & H4). split; [|done]. cbn; repeat constructor; done.
      + intros [H H4]. destruct k; cbn in H;
          repeat (match goal with H : Forall2 _ _ _ |- _ => inversion H; clear H; subst end); cbn in *; done.
  Qed.
  Definition all_done (g : fns) : bool := odone (g_ms g) && fn_done (g_ke g) && fn_done (g_cf g) && fn_done (g_sf g).
  Lemma all_done_iff g : all_done g = true <-> fns_done g.
  Proof. unfold all_done, fns_done. rewrite !andb_true_iff. tauto. Qed.
  Lemma prf_flush_seq m p g m' fs' :
    pf_state p = PSetup (g_ms g) (g_ke g) (g_cf g) (g_sf g) -> flush_seq m (fns_list g) = Ok (m', fs') ->
    exists g', fs' = fns_list g' /\
      prf_flush compress m p = Ok (m', Prf (pf_net p) (pf_ms p)
        (if all_done g' then PComplete else PSetup (g_ms g') (g_ke g') (g_cf g') (g_sf g')) (pf_random p)).
  Proof.
    intros Hst H. unfold prf_flush. rewrite Hst. unfold fns_list in H. destruct g as [[ms|] ke cf sf]; cbn [g_ms g_ke g_cf g_sf app flush_seq] in *.
    - apply obind_Ok in H as ([m1 ms'] & E1 & H). apply obind_Ok in H as ([m1' l] & H & [= <- <-]).
      apply obind_Ok in H as ([m2 ke'] & E2 & H). apply obind_Ok in H as ([m2' l'] & H & [= <- <-]).
      apply obind_Ok in H as ([m3 cf'] & E3 & H). apply obind_Ok in H as ([m3' l''] & H & [= <- <-]).
      apply obind_Ok in H as ([m4 sf'] & E4 & [= <- <-]).
      exists (Fns (Some ms') ke' cf' sf'). split; [done|]. rewrite E1. cbn [obind]. rewrite E2. cbn [obind]. rewrite E3. cbn [obind].
      rewrite E4. cbn [obind]. done.
    - apply obind_Ok in H as ([m2 ke'] & E2 & H). apply obind_Ok in H as ([m2' l'] & H & [= <- <-]).
      apply obind_Ok in H as ([m3 cf'] & E3 & H). apply obind_Ok in H as ([m3' l''] & H & [= <- <-]).
      apply obind_Ok in H as ([m4 sf'] & E4 & [= <- <-]).
      exists (Fns None ke' cf' sf'). split; [done|]. cbn [obind]. rewrite E2. cbn [obind]. rewrite E3. cbn [obind].
      rewrite E4. cbn [obind]. done.
  Qed.

  Lemma prf_flush_ok k y out m p g :
    prf_ok k y out m p g ->
    exists m' p' g', prf_flush compress m p = Ok (m', p') /\ prf_ok k y out m' p' g' /\
      grows (vm_cells m) (vm_cells m') /\ vm_seen m' = vm_seen m /\ vm_cells m' !! 0 = vm_cells m !! 0 /\
      pf_random p' = pf_random p /\ pf_net p' = pf_net p /\
      Forall2 stays (fns_list g) (fns_list g') /\
      (pf_state p = PSetup (g_ms g) (g_ke g) (g_cf g) (g_sf g) -> Forall3 (moves (vm_seen m)) (places k y) (fns_list g) (fns_list g')) /\
      (forall j, j ∉ fns_pend g -> vm_cells m' !! j = vm_cells m !! j) /\
      ((pf_state p = PComplete /\ m' = m /\ p' = p /\ g' = g) \/
       (flush_seq m (fns_list g) = Ok (m', fns_list g') /\
        (pf_state p' = if all_done g' then PComplete else PSetup (g_ms g') (g_ke g') (g_cf g') (g_sf g')))).
  Proof.
    intros (Hy & Hg & Hp & Hk & H0). destruct Hp as [Hp|[Hp Hd]].
    - apply fns_ok_list in Hg as [Hg Hnd].
      destruct (flush_seq_ok (places k y) (fns_list g) m []) as (m' & fs' & E & Q & D & _ & G & S & T & M & U & F).
      { done. } { rewrite app_nil_r, pends_list. by apply NoDup_cons in Hnd as [_ Hnd]. } { done. }
      destruct (prf_flush_seq m p g m' fs' Hp E) as (g' & -> & Ep).
      rewrite !pends_list in U. rewrite pends_list in F. rewrite app_nil_r, pends_list in D.
      assert (0 ∉ fns_pend g) as Hn0 by (by apply NoDup_cons in Hnd as [? _]).
      pose proof (F 0 Hn0) as F0.
      eexists m', _, g'. split; [exact Ep|]. cbn [pf_random pf_net pf_state pf_ms]. split_and!; try done.
      + split_and!.
        * by eapply lay_ok_grows.
        * apply fns_ok_list. split; [done|]. constructor; [|done].
          intros Hin%U. done.
        * destruct (all_done g') eqn:Hd; [right; split; [done|by apply all_done_iff]|by left].
        * done.
        * by rewrite F0.
      + right. done.
    - exists m, p, g. unfold prf_flush. rewrite Hp. split_and!; try done.
      + split_and!; try done. by right.
      + apply grows_refl.
      + clear. induction (fns_list g); constructor; done.
      + by left.
  Qed.

  (** ** Calls *)
  Lemma set_seed_shape cs o i n outs f sd : fn_shape cs o i n outs (fn_set_seed f sd) = fn_shape cs o i n outs f.
  Proof. by destruct f. Qed.
  Lemma set_seed_pend f sd : fn_pend (fn_set_seed f sd) = fn_pend f.
  Proof. by destruct f. Qed.
  Lemma set_seed_seed f sd : fn_seed (fn_set_seed f sd) = Some (fn_label f ++ sd).
  Proof. by destruct f. Qed.
  Lemma set_seed_label f sd : fn_label (fn_set_seed f sd) = fn_label f.
  Proof. by destruct f. Qed.
  Definition seeded (f : inner_prf) : Prop := is_Some (fn_seed f).
  Definition oseeded (o : option inner_prf) : Prop := match o with Some f => seeded f | None => True end.
  (** Seeds are kept, and set by the calls. *)
  Definition seeds_after (k : ms_mode) (c : prf_call) (g g' : fns) : Prop :=
    ((oseeded (g_ms g) \/ match c, k with CServerRandom _, MsStandard | CSessionHash _, MsExtended => True | _, _ => False end) ->
     oseeded (g_ms g')) /\
    ((seeded (g_ke g) \/ match c with CServerRandom _ => True | _ => False end) -> seeded (g_ke g')) /\
    ((seeded (g_cf g) \/ match c with CCfHash _ => True | _ => False end) -> seeded (g_cf g')) /\
    ((seeded (g_sf g) \/ match c with CSfHash _ => True | _ => False end) -> seeded (g_sf g')).

  Lemma stays_seeds (k : ms_mode) g g' : Forall2 stays (fns_list g) (fns_list g') -> (g_ms g = None <-> g_ms g' = None) ->
    (oseeded (g_ms g) -> oseeded (g_ms g')) /\ (seeded (g_ke g) -> seeded (g_ke g')) /\ (seeded (g_cf g) -> seeded (g_cf g')) /\
    (seeded (g_sf g) -> seeded (g_sf g')) /\ k = k.
  Proof.
    intros H Hn. destruct g as [[ms|] ke cf sf], g' as [[ms'|] ke' cf' sf']; unfold fns_list in H; cbn in *;
      try (by exfalso; destruct Hn; firstorder discriminate);
      repeat (match goal with H : Forall2 _ _ _ |- _ => inversion H; clear H; subst end);
      unfold stays, seeded, oseeded in *; cbn; intuition congruence.
  Qed.
  Lemma prf_ok_ms k y out m p g : prf_ok k y out m p g -> g_ms g = None <-> k = MsDirect.
  Proof. intros (_ & (H & _) & _). destruct (g_ms g); [|done]. destruct H. split; [done|]. intros ->. done. Qed.

  Lemma step_ok k y out c m p g m' p' :
    prf_ok k y out m p g -> prf_call_step compress c m p = Ok (m', p') ->
    exists g', prf_ok k y out m' p' g' /\ seeds_after k c g g' /\ grows (vm_cells m) (vm_cells m') /\
      (match c with CSecret v => vm_cells m' !! 0 = Some (Given (Some v)) | _ => vm_cells m' !! 0 = vm_cells m !! 0 end).
  Proof.
    intros Hok H. pose proof Hok as (Hy & Hg & Hp & Hk & H0).
    assert (forall sts, pf_state p = sts -> match sts with PSetup _ _ _ _ => True | _ => False end ->
              pf_state p = PSetup (g_ms g) (g_ke g) (g_cf g) (g_sf g)) as Hset.
    { intros sts <- Hs. destruct Hp as [Hp|[Hp _]]; [done|]. by rewrite Hp in Hs. }
    destruct c as [v|r|r|h|h|h| |]; cbn [prf_call_step] in H.
    - apply obind_Ok in H as (m1 & H & [= <- <-]).
      pose proof (vm_assign_inv _ _ _ _ H) as [Hi _]. destruct (vm_assign_ok m 0 v Hi) as (m2 & E & _ & Hgr & Hv & Hsame).
      assert (m2 = m1) as -> by congruence. clear E.
      exists g. unfold seeds_after. split_and!; try done; [| |intros [?|[]]; done|intros [?|[]]; done|intros [?|[]]; done].
      + split_and!; try done; [by eapply lay_ok_grows| |eauto]. apply fns_ok_list in Hg as [Hg Hnd]. apply fns_ok_list. split; [|done].
        assert (none_in (vm_cells m1) (pends (fns_list g))) as Hnone.
        { rewrite pends_list. apply Forall_forall. intros j Hj. apply NoDup_cons in Hnd as [Hn0 _].
          rewrite Hsame by (intros ->; done). rewrite <- pends_list in Hj. clear -Hg Hj.
          induction Hg as [|q f qs fs Hq Hqs IH]; [by apply elem_of_nil in Hj|].
          unfold pends in Hj. cbn in Hj. apply elem_of_app in Hj as [Hj|Hj]; [|by apply IH].
          apply fn_pend_none in Hq. rewrite Forall_forall in Hq. by apply Hq. }
        clear -Hg Hgr Hnone. unfold pends in Hnone. induction Hg as [|q f qs fs Hq Hqs IH]; [done|].
        cbn in Hnone. apply Forall_app in Hnone as [Hn1 Hn2]. constructor; [by eapply fn_shape_grows|by apply IH].
      + intros [?|Hf]; [done|]. by destruct k.
    - injection H as <- <-. exists g. unfold seeds_after.
      split_and!; try done; try apply grows_refl; try (by intros [?|[]]); intros [?|Hf]; (done || by destruct k).
    - unfold keep_vm in H. apply obind_Ok in H as (p1 & H & [= <- <-]). unfold set_server_random in H.
      destruct (pf_state p) as [|ms ke cf sf| |] eqn:Hs; try done. specialize (Hset _ eq_refl I). injection Hset as -> -> -> ->.
      apply obind_Ok in H as (cr & Hcr & H). apply obind_Ok in H as (ms' & Hms & [= <-]).
      rewrite Hk in Hms.
      exists (Fns ms' (fn_set_seed (g_ke g) (r ++ cr)) (g_cf g) (g_sf g)).
      assert (ms' = match k with MsStandard => (fun f => fn_set_seed f (cr ++ r)) <$> g_ms g | _ => g_ms g end /\ (k = MsStandard -> is_Some ms')) as [-> Hsome].
      { destruct k; [|injection Hms as <-; split; [done|done]|injection Hms as <-; split; [done|done]].
        apply obind_Ok in Hms as (f & Hf & [= <-]). destruct (g_ms g); [|done]. injection Hf as ->. cbn. split; [done|]. intros _. eauto. }
      unfold seeds_after. split_and!; try done; cbn [g_ms g_ke g_cf g_sf].
      + split_and!; try done; [|by left]. destruct Hg as (G0 & G1 & G2 & G3 & G4).
        split_and!; cbn [g_ms g_ke g_cf g_sf]; try done.
        * destruct k; [|done|done]. destruct (g_ms g) as [f|]; [|done]. cbn. rewrite set_seed_shape. done.
        * by rewrite set_seed_shape.
        * revert G4. unfold fns_pend. cbn. rewrite set_seed_pend. destruct k; [|done|done].
          destruct (g_ms g) as [f|]; [|done]. cbn. by rewrite set_seed_pend.
      + intros Hor. destruct k; [|destruct Hor as [?|[]]; done|destruct Hor as [?|[]]; done].
        destruct (g_ms g) as [f|]; [|done]. cbn. unfold seeded. rewrite set_seed_seed. eauto.
      + intros _. unfold seeded. rewrite set_seed_seed. eauto.
      + by intros [?|[]].
      + by intros [?|[]].
      + apply grows_refl.
    - unfold keep_vm in H. apply obind_Ok in H as (p1 & H & [= <- <-]). unfold set_session_hash in H.
      destruct (pf_state p) as [|ms ke cf sf| |] eqn:Hs; try done. specialize (Hset _ eq_refl I). injection Hset as -> -> -> ->.
      rewrite Hk in H. destruct k; try done. apply obind_Ok in H as (f & Hf & [= <-]).
      destruct (g_ms g) as [f'|] eqn:Hms; [|done]. injection Hf as ->.
      exists (Fns (Some (fn_set_seed f h)) (g_ke g) (g_cf g) (g_sf g)).
      unfold seeds_after. split_and!; try done; cbn [g_ms g_ke g_cf g_sf].
      + split_and!; try done; [|by left]. destruct Hg as (G0 & G1 & G2 & G3 & G4). rewrite Hms in G0.
        split_and!; cbn [g_ms g_ke g_cf g_sf]; try done.
        * by rewrite set_seed_shape.
        * revert G4. unfold fns_pend. rewrite Hms. cbn. by rewrite set_seed_pend.
      + intros _. cbn. unfold seeded. rewrite set_seed_seed. eauto.
      + by intros [?|[]].
      + by intros [?|[]].
      + by intros [?|[]].
      + apply grows_refl.
    - unfold keep_vm in H. apply obind_Ok in H as (p1 & H & [= <- <-]). unfold set_cf_hash in H.
      destruct (pf_state p) as [|ms ke cf sf| |] eqn:Hs; try done. specialize (Hset _ eq_refl I). injection Hset as -> -> -> ->.
      injection H as <-. exists (Fns (g_ms g) (g_ke g) (fn_set_seed (g_cf g) h) (g_sf g)).
      unfold seeds_after. split_and!; try done; cbn [g_ms g_ke g_cf g_sf].
      + split_and!; try done; [|by left]. destruct Hg as (G0 & G1 & G2 & G3 & G4).
        split_and!; cbn [g_ms g_ke g_cf g_sf]; try done.
        * by rewrite set_seed_shape.
        * revert G4. unfold fns_pend. cbn. by rewrite set_seed_pend.
      + intros [?|Hf]; [done|]. by destruct k.
      + by intros [?|[]].
      + intros _. unfold seeded. rewrite set_seed_seed. eauto.
      + by intros [?|[]].
      + apply grows_refl.
    - unfold keep_vm in H. apply obind_Ok in H as (p1 & H & [= <- <-]). unfold set_sf_hash in H.
      destruct (pf_state p) as [|ms ke cf sf| |] eqn:Hs; try done. specialize (Hset _ eq_refl I). injection Hset as -> -> -> ->.
      injection H as <-. exists (Fns (g_ms g) (g_ke g) (g_cf g) (fn_set_seed (g_sf g) h)).
      unfold seeds_after. split_and!; try done; cbn [g_ms g_ke g_cf g_sf].
      + split_and!; try done; [|by left]. destruct Hg as (G0 & G1 & G2 & G3 & G4).
        split_and!; cbn [g_ms g_ke g_cf g_sf]; try done.
        * by rewrite set_seed_shape.
        * revert G4. unfold fns_pend. cbn. by rewrite set_seed_pend.
      + intros [?|Hf]; [done|]. by destruct k.
      + by intros [?|[]].
      + by intros [?|[]].
      + intros _. unfold seeded. rewrite set_seed_seed. eauto.
      + apply grows_refl.
    - destruct (prf_flush_ok k y out m p g Hok) as (m1 & p1 & g' & E & Hok' & G & S & Z & _ & _ & T & _).
      rewrite E in H. injection H as <- <-. exists g'.
      destruct (stays_seeds k g g' T) as (T1 & T2 & T3 & T4 & _).
      { rewrite (prf_ok_ms _ _ _ _ _ _ Hok), (prf_ok_ms _ _ _ _ _ _ Hok'). done. }
      unfold seeds_after. split_and!; try done; [intros [?|Hf]; [by apply T1|by destruct k]|intros [?|[]]; by apply T2|intros [?|[]]; by apply T3|intros [?|[]]; by apply T4].
    - injection H as <- <-. exists g. unfold seeds_after.
      split_and!; try done; try apply grows_refl; try (by intros [?|[]]); intros [?|Hf]; (done || by destruct k).
  Qed.
End Steps.
