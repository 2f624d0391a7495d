From Verif.Lib Require Import Base.
From Verif Require Import CodecModel CodecLemmas PrfModel PrfSpec PrfShaLemmas PrfVmLemmas PrfFnLemmas PrfExpLemmas PrfRunLemmas PrfSetupLemmas PrfStepLemmas.

Section Main.
  Context (iv : list N) (compress : list N -> list N -> list N).
  Context (compress_length : forall s b, length (compress s b) = 8).
  Notation exp_ok := (exp_ok iv compress).
  Notation out_ok := (out_ok iv compress).
  Notation key_state := (key_state iv compress).
  Notation rfc_master := (rfc_master iv compress).

  Definition val_ok (k : ms_mode) (v : tls_values) (E : list (list N)) (m : vm) (p : prf) : Prop :=
    consistent (vm_cells m) E /\ seen_ok E m /\ E !! 0 = Some (tv_secret v) /\
    (forall ms ke cf sf, pf_state p = PSetup ms ke cf sf -> exp_ok k v E (Fns ms ke cf sf)) /\
    (forall r, pf_random p = Some r -> r = tv_client_random v).

  Definition triples (k : ms_mode) (v : tls_values) (b : bool) : list (list N * list N * list N) :=
    (if b then [(key_state (tv_secret v) 92, key_state (tv_secret v) 54, seed_ms k v)] else []) ++
    [(key_state (rfc_master k v) 92, key_state (rfc_master k v) 54, seed_ke v);
     (key_state (rfc_master k v) 92, key_state (rfc_master k v) 54, seed_cf v);
     (key_state (rfc_master k v) 92, key_state (rfc_master k v) 54, seed_sf v)].
  Definition is_some (o : option inner_prf) : bool := match o with Some _ => true | None => false end.
  Notation exp3 E := (fun (K : list N * list N * list N) f => fn_expected compress K.1.1 K.1.2 K.2 E f).
  Lemma exp_list k v E g : exp_ok k v E g -> Forall2 (exp3 E) (triples k v (is_some (g_ms g))) (fns_list g).
  Proof.
    intros (H0 & [H1 _] & [H2 _] & [H3 _]). unfold triples, fns_list. destruct (g_ms g) as [f|] eqn:Hms; cbn.
    - destruct (H0 f eq_refl) as [H _]. do 4 (apply List.Forall2_cons; [done|]). apply List.Forall2_nil.
    - do 3 (apply List.Forall2_cons; [done|]). apply List.Forall2_nil.
  Qed.
  Lemma list_exp k v E g g' :
    exp_ok k v E g -> Forall2 stays (fns_list g) (fns_list g') ->
    Forall2 (exp3 E) (triples k v (is_some (g_ms g))) (fns_list g') -> exp_ok k v E g'.
  Proof.
    intros (H0 & [_ H1] & [_ H2] & [_ H3]) Hs H. unfold triples, fns_list in *.
    destruct g as [[ms|] ke cf sf], g' as [[ms'|] ke' cf' sf']; cbn [g_ms g_ke g_cf g_sf is_some app] in *;
      try (exfalso; apply Forall2_length in Hs; cbn in Hs; lia).
    - destruct (H0 ms eq_refl) as [_ H0'].
      repeat (match goal with H : Forall2 _ _ _ |- _ => inversion H; clear H; subst end). unfold stays in *.
      unfold PrfSetupLemmas.exp_ok, fn_is. cbn [g_ms g_ke g_cf g_sf] in *. split_and!; try done; try (intuition congruence).
      intros f [= <-]. split; [done|]. intuition congruence.
    - repeat (match goal with H : Forall2 _ _ _ |- _ => inversion H; clear H; subst end). unfold stays in *.
      unfold PrfSetupLemmas.exp_ok, fn_is. cbn [g_ms g_ke g_cf g_sf] in *. split_and!; try done; try (intuition congruence).
  Qed.
  Lemma is_set_seed K s l E f x : fn_is iv compress K s l E f -> l ++ x = s -> fn_is iv compress K s l E (fn_set_seed f x).
  Proof. intros [H1 H2] Hs. split; [apply fn_set_seed_expected; [done|congruence]|by rewrite set_seed_label]. Qed.

  Lemma step_val k y v E out c m p g m' p' :
    prf_ok k y out m p g -> val_ok k v E m p -> call_agrees v c -> prf_call_step compress c m p = Ok (m', p') ->
    val_ok k v E m' p'.
  Proof.
    intros Hok (Hc & Hs & H0 & He & Hr) Ha H. pose proof Hok as (_ & _ & Hp & Hk & _).
    destruct c as [x|r|r|h|h|h| |]; cbn [prf_call_step call_agrees] in H, Ha.
    - subst x. apply obind_Ok in H as (m1 & H & [= <- <-]). apply vm_assign_inv in H as [_ ->].
      split_and!; try done. by apply consistent_assign.
    - subst r. injection H as <- <-. split_and!; try done. intros r [= <-]. done.
    - subst r. unfold keep_vm in H. apply obind_Ok in H as (p1 & H & [= <- <-]). unfold set_server_random in H.
      destruct (pf_state p) as [|ms ke cf sf| |] eqn:Hst; try done.
      apply obind_Ok in H as (cr & Hcr & H). apply obind_Ok in H as (ms' & Hms & [= <-]).
      destruct (pf_random p) as [cr'|] eqn:Hrd; [|done]. injection Hcr as ->. rewrite (Hr cr eq_refl) in *.
      split_and!; try done; [|cbn; intros ? ?; congruence]. cbn [pf_state]. intros ? ? ? ? [= <- <- <- <-].
      destruct (He _ _ _ _ eq_refl) as (E0 & E1 & E2 & E3). cbn [g_ms g_ke g_cf g_sf] in *. split_and!; cbn [g_ms g_ke g_cf g_sf]; try done.
      + rewrite Hk in Hms. intros f Hf. destruct k.
        * apply obind_Ok in Hms as (f0 & Hf0 & [= <-]). destruct ms as [f1|]; [|done]. injection Hf0 as ->. injection Hf as <-.
          apply is_set_seed; [by apply E0|done].
        * injection Hms as <-. by apply E0.
        * injection Hms as <-. by apply E0.
      + by apply is_set_seed.
    - subst h. unfold keep_vm in H. apply obind_Ok in H as (p1 & H & [= <- <-]). unfold set_session_hash in H.
      destruct (pf_state p) as [|ms ke cf sf| |] eqn:Hst; try done.
      rewrite Hk in H. destruct k; try done. apply obind_Ok in H as (f & Hf & [= <-]).
      split_and!; try done. cbn [pf_state]. intros ? ? ? ? [= <- <- <- <-].
      destruct (He _ _ _ _ eq_refl) as (E0 & E1 & E2 & E3). cbn [g_ms g_ke g_cf g_sf] in *. split_and!; cbn [g_ms g_ke g_cf g_sf]; try done.
      intros f1 [= <-]. destruct ms as [f1|]; [|done]. injection Hf as ->. apply is_set_seed; [by apply E0|done].
    - subst h. unfold keep_vm in H. apply obind_Ok in H as (p1 & H & [= <- <-]). unfold set_cf_hash in H.
      destruct (pf_state p) as [|ms ke cf sf| |] eqn:Hst; try done. injection H as <-.
      split_and!; try done. cbn [pf_state]. intros ? ? ? ? [= <- <- <- <-].
      destruct (He _ _ _ _ eq_refl) as (E0 & E1 & E2 & E3). cbn [g_ms g_ke g_cf g_sf] in *. split_and!; cbn [g_ms g_ke g_cf g_sf]; try done.
      by apply is_set_seed.
    - subst h. unfold keep_vm in H. apply obind_Ok in H as (p1 & H & [= <- <-]). unfold set_sf_hash in H.
      destruct (pf_state p) as [|ms ke cf sf| |] eqn:Hst; try done. injection H as <-.
      split_and!; try done. cbn [pf_state]. intros ? ? ? ? [= <- <- <- <-].
      destruct (He _ _ _ _ eq_refl) as (E0 & E1 & E2 & E3). cbn [g_ms g_ke g_cf g_sf] in *. split_and!; cbn [g_ms g_ke g_cf g_sf]; try done.
      by apply is_set_seed.
    - destruct (prf_flush_ok compress k y out m p g Hok) as (m1 & p1 & g' & Ef & Hok' & _ & Hsn & _ & Hrd & _ & T & _ & _ & Hcase).
      rewrite Ef in H. injection H as <- <-.
      destruct Hcase as [(_ & -> & -> & _)|[Hseq Hst]]; [done|].
      destruct Hp as [Hp|[Hp Hd]].
      + specialize (He _ _ _ _ Hp). assert (Fns (g_ms g) (g_ke g) (g_cf g) (g_sf g) = g) as Hgg by (by destruct g). rewrite Hgg in He.
        destruct (flush_seq_expected compress m E (fns_list g) _ m1 (fns_list g') Hc Hs (exp_list _ _ _ _ He) Hseq) as [Hc' Hl'].
        split_and!; try done.
        * intros i w Hd. apply Hs. unfold vm_decoded in *. congruence.
        * intros ms ke cf sf Hst'. rewrite Hst in Hst'. destruct (all_done g'); [done|]. injection Hst' as <- <- <- <-.
          assert (Fns (g_ms g') (g_ke g') (g_cf g') (g_sf g') = g') as -> by (by destruct g'). by eapply list_exp.
        * by rewrite Hrd.
      + unfold prf_flush in Ef. rewrite Hp in Ef. injection Ef as <- <-. done.
    - injection H as <- <-. split_and!; try done. by apply seen_execute.
  Qed.

  (** Seeds set and the secret assigned by a list of calls. *)
  Definition run_seeds (k : ms_mode) (cs : list prf_call) (g : fns) : Prop :=
    (master_seeded k cs -> oseeded (g_ms g)) /\
    ((exists r, CServerRandom r ∈ cs) -> seeded (g_ke g)) /\
    ((exists h, CCfHash h ∈ cs) -> seeded (g_cf g)) /\
    ((exists h, CSfHash h ∈ cs) -> seeded (g_sf g)).

  Lemma run_ok k y out cs m p g m' p' :
    prf_ok k y out m p g -> prf_run compress cs m p = Ok (m', p') ->
    exists g', prf_ok k y out m' p' g' /\ grows (vm_cells m) (vm_cells m') /\
      run_seeds k cs g' /\
      ((oseeded (g_ms g) -> oseeded (g_ms g')) /\ (seeded (g_ke g) -> seeded (g_ke g')) /\ (seeded (g_cf g) -> seeded (g_cf g')) /\
       (seeded (g_sf g) -> seeded (g_sf g'))) /\
      ((exists x, CSecret x ∈ cs) -> exists w, vm_cells m' !! 0 = Some (Given (Some w))).
  Proof.
    revert m p g. induction cs as [|c cs IH]; intros m p g Hok H.
    { injection H as <- <-. exists g. pose proof (prf_ok_ms _ _ _ _ _ _ Hok) as Hms.
      unfold run_seeds. split; [done|]. split; [apply grows_refl|]. split; [|split; [done|by intros [? ?%elem_of_nil]]].
      split; [|split_and!; by intros [? ?%elem_of_nil]].
      destruct k; cbn; [by intros [? ?%elem_of_nil]|by intros [? ?%elem_of_nil]|]. rewrite (proj2 Hms eq_refl). done. }
    cbn [prf_run] in H. apply obind_Ok in H as ([m1 p1] & H1 & H2).
    destruct (step_ok compress k y out c m p g m1 p1 Hok H1) as (g1 & Hok1 & (T1 & T2 & T3 & T4) & G1 & Z1).
    destruct (IH m1 p1 g1 Hok1 H2) as (g2 & Hok2 & G2 & (R1 & R2 & R3 & R4) & (S1 & S2 & S3 & S4) & Z2).
    exists g2. unfold run_seeds. split_and!; try done.
    - by eapply grows_trans.
    - destruct k; cbn [master_seeded].
      + intros [r [<-|Hin]%elem_of_cons]; [apply S1, T1; by right|apply R1; by exists r].
      + intros [r [<-|Hin]%elem_of_cons]; [apply S1, T1; by right|apply R1; by exists r].
      + intros _. by apply R1.
    - intros [r [<-|Hin]%elem_of_cons]; [apply S2, T2; by right|apply R2; by exists r].
    - intros [r [<-|Hin]%elem_of_cons]; [apply S3, T3; by right|apply R3; by exists r].
    - intros [r [<-|Hin]%elem_of_cons]; [apply S4, T4; by right|apply R4; by exists r].
    - intros ?. apply S1, T1. by left.
    - intros ?. apply S2, T2. by left.
    - intros ?. apply S3, T3. by left.
    - intros ?. apply S4, T4. by left.
    - intros [x [<-|Hin]%elem_of_cons]; [|apply Z2; by exists x]. exists x. cbn in Z1. by eapply grows_given.
  Qed.
  Lemma run_val k y v E out cs m p g m' p' :
    prf_ok k y out m p g -> val_ok k v E m p -> Forall (call_agrees v) cs -> prf_run compress cs m p = Ok (m', p') ->
    val_ok k v E m' p'.
  Proof.
    revert m p g. induction cs as [|c cs IH]; intros m p g Hok Hv Ha H.
    { by injection H as <- <-. }
    cbn [prf_run] in H. apply obind_Ok in H as ([m1 p1] & H1 & H2). inversion_clear Ha.
    destruct (step_ok compress k y out c m p g m1 p1 Hok H1) as (g1 & Hok1 & _).
    eapply IH; [exact Hok1| |done|exact H2]. eapply (step_val k y v E out c m p g m1 p1); assumption.
  Qed.

  (** ** Results *)
  Lemma setup_val net k v m p out :
    length (tv_secret v) = secret_length k -> prf_setup iv compress net k = Ok (m, p, out) ->
    exists E y g, prf_ok k y out m p g /\ val_ok k v E m p /\ out_ok k v E out.
  Proof.
    intros Hl H. destruct (setup_ok iv compress compress_length net k v m p out Hl H) as (E & y & g & Hok & Hc & H0 & He & Ho & Hsn & _).
    exists E, y, g. split_and!; try done. pose proof Hok as (_ & _ & Hp & _ & _). split_and!; try done.
    - intros i w Hd. unfold vm_decoded in Hd. rewrite Hsn in Hd. by rewrite lookup_nil in Hd.
    - intros ms ke cf sf Hst. destruct Hp as [Hp|[Hp _]]; [|congruence]. rewrite Hp in Hst. injection Hst as <- <- <- <-. by destruct g.
    - intros r Hr. unfold prf_setup in H. clear -Hr H. cbn in H. exfalso. revert H.
      assert (forall m0 p0 ms mso m1 p1 o1, alloc_post_ms iv compress m0 p0 ms mso = (m1, p1, o1) -> pf_random p1 = pf_random p0) as Hpost.
      { intros m0 p0 ms mso m1 p1 o1 H0. unfold alloc_post_ms in H0.
        repeat match type of H0 with context [let '(_, _) := ?x in _] => destruct x end. by injection H0 as <- <- <-. }
      destruct k; intros H; unfold alloc_pms, alloc_ms in H; cbn [pf_ms prf_new pf_state] in H.
      + repeat match type of H with context [let '(_, _) := ?x in _] => destruct x end. injection H as H. apply Hpost in H. cbn in H. congruence.
      + repeat match type of H with context [let '(_, _) := ?x in _] => destruct x end. injection H as H. apply Hpost in H. cbn in H. congruence.
      + injection H as H. apply Hpost in H. cbn in H. congruence.
  Qed.

  Lemma C49_sound net k v cs m p out m' p' :
    length (tv_secret v) = secret_length k -> prf_setup iv compress net k = Ok (m, p, out) ->
    Forall (call_agrees v) cs -> prf_run compress cs m p = Ok (m', p') ->
    exists d, is_derived iv compress k v d /\
      (forall w, vm_decoded m' (po_ck out) = Some w -> w = d_client_key d) /\
      (forall w, vm_decoded m' (po_sk out) = Some w -> w = d_server_key d) /\
      (forall w, vm_decoded m' (po_civ out) = Some w -> w = d_client_iv d) /\
      (forall w, vm_decoded m' (po_siv out) = Some w -> w = d_server_iv d) /\
      (forall w, vm_decoded m' (po_cf out) = Some w -> w = d_cf d) /\
      (forall w, vm_decoded m' (po_sf out) = Some w -> w = d_sf d).
  Proof.
    intros Hl Hs Ha Hr. destruct (setup_val net k v m p out Hl Hs) as (E & y & g & Hok & Hv & (d & Hd & O1 & O2 & O3 & O4 & O5 & O6)).
    pose proof (run_val _ _ _ _ _ _ _ _ _ _ _ Hok Hv Ha Hr) as (_ & Hsn & _).
    exists d. split; [done|]. split_and!; intros w Hw%Hsn; congruence.
  Qed.
  Lemma C49_flush_ok net k v cs m p out m' p' :
    length (tv_secret v) = secret_length k -> prf_setup iv compress net k = Ok (m, p, out) ->
    prf_run compress cs m p = Ok (m', p') -> exists m'' p'', prf_flush compress m' p' = Ok (m'', p'').
  Proof.
    intros Hl Hs Hr. destruct (setup_val net k v m p out Hl Hs) as (E & y & g & Hok & _).
    destruct (run_ok k y out cs m p g m' p' Hok Hr) as (g' & Hok' & _).
    destruct (prf_flush_ok compress k y out m' p' g' Hok') as (m'' & p'' & _ & H & _). eauto.
  Qed.
End Main.
