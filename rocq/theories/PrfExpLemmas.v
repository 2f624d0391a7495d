From Verif.Lib Require Import Base.
From Verif Require Import CodecModel CodecLemmas PrfModel PrfVmLemmas PrfFnLemmas.

Local Arguments iterations_of : simpl never.

(** What to expect of one function, for the states after the outer and the inner key block, and a label with a seed. *)
Section Exp.
  Context (iv : list N) (compress : list N -> list N -> list N).
  Context (so si seed : list N).
  Notation sha256 := (sha256 compress).
  Definition hin (x : list N) : list N := state_to_bytes (sha256 si 64 x).
  Definition hout (x : list N) : list N := state_to_bytes (sha256 so 64 x).
  Fixpoint seq_a (i : nat) : list N := match i with O => seed | S i' => hout (hin (seq_a i')) end.
  Definition seq_p (i : nat) : list N := hout (hin (seq_a i ++ seed)).

  Definition as_ok (E : list (list N)) (j : nat) (l : list (nat * nat)) : Prop :=
    forall k x, l !! k = Some x -> E !! x.1 = Some (hin (seq_a (j + k))) /\ E !! x.2 = Some (seq_a (S (j + k))).
  Definition ps_ok (E : list (list N)) (j : nat) (l : list (nat * nat)) : Prop :=
    forall k x, l !! k = Some x -> E !! x.1 = Some (hin (seq_a (j + k) ++ seed)).
  Definition outs_ok (E : list (list N)) (outs : list nat) : Prop :=
    forall k o, outs !! k = Some o -> E !! o = Some (seq_p (S k)).
  Definition fn_expected (E : list (list N)) (f : inner_prf) : Prop :=
    (forall s, fn_seed f = Some s -> s = seed) /\
    match f with
    | FNormal x => E !! nf_msg x = Some seed
    | FReduced x =>
        match rf_state x with
        | RInner i => E !! i = Some si /\ as_ok E 0 (rf_a x) /\ ps_ok E 1 (rf_p x)
        | RComputeA _ _ _ => False
        | RComputeP iter ip ao =>
            ip = si /\ E !! ao = Some (seq_a iter) /\ as_ok E iter (rf_a x) /\ ps_ok E iter (rf_p x)
        | RDone => True
        end
    end.

  Lemma as_ok_cons E j x l :
    as_ok E j (x :: l) -> E !! x.1 = Some (hin (seq_a j)) /\ E !! x.2 = Some (seq_a (S j)) /\ as_ok E (S j) l.
  Proof.
    intros H. destruct (H 0 x eq_refl) as [H1 H2]. rewrite Nat.add_0_r in H1, H2. split_and!; [done|done|].
    intros k y Hy. specialize (H (S k) y Hy). by rewrite <- Nat.add_succ_comm in H.
  Qed.
  Lemma ps_ok_cons E j x l : ps_ok E j (x :: l) -> E !! x.1 = Some (hin (seq_a j ++ seed)) /\ ps_ok E (S j) l.
  Proof.
    intros H. pose proof (H 0 x eq_refl) as H1. rewrite Nat.add_0_r in H1. split; [done|].
    intros k y Hy. specialize (H (S k) y Hy). by rewrite <- Nat.add_succ_comm in H.
  Qed.
  Lemma cons_as_ok E j x l :
    E !! x.1 = Some (hin (seq_a j)) -> E !! x.2 = Some (seq_a (S j)) -> as_ok E (S j) l -> as_ok E j (x :: l).
  Proof.
    intros H1 H2 H [|k] y Hy; [injection Hy as <-; by rewrite Nat.add_0_r|].
    specialize (H k y Hy). by rewrite <- Nat.add_succ_comm.
  Qed.
  Lemma cons_ps_ok E j x l : E !! x.1 = Some (hin (seq_a j ++ seed)) -> ps_ok E (S j) l -> ps_ok E j (x :: l).
  Proof.
    intros H1 H [|k] y Hy; [injection Hy as <-; by rewrite Nat.add_0_r|].
    specialize (H k y Hy). by rewrite <- Nat.add_succ_comm.
  Qed.
  Lemma as_ok_prefix E E' j l : E `prefix_of` E' -> as_ok E j l -> as_ok E' j l.
  Proof. intros Hp H k x Hx. destruct (H k x Hx). split; by eapply prefix_lookup. Qed.
  Lemma ps_ok_prefix E E' j l : E `prefix_of` E' -> ps_ok E j l -> ps_ok E' j l.
  Proof. intros Hp H k x Hx. specialize (H k x Hx). by eapply prefix_lookup. Qed.
  Lemma outs_ok_prefix E E' l : E `prefix_of` E' -> outs_ok E l -> outs_ok E' l.
  Proof. intros Hp H k x Hx. specialize (H k x Hx). by eapply prefix_lookup. Qed.
  Lemma fn_expected_prefix E E' f : E `prefix_of` E' -> fn_expected E f -> fn_expected E' f.
  Proof.
    intros Hp [H1 H2]. split; [done|]. destruct f as [x|x]; [|by eapply prefix_lookup].
    destruct (rf_state x); [|done| |done].
    - destruct H2 as (? & ? & ?). split_and!; [by eapply prefix_lookup|by eapply as_ok_prefix|by eapply ps_ok_prefix].
    - destruct H2 as (? & ? & ? & ?). split_and!; [done|by eapply prefix_lookup|by eapply as_ok_prefix|by eapply ps_ok_prefix].
  Qed.

  Lemma assign_expected m E i v m' :
    consistent (vm_cells m) E -> E !! i = Some v -> vm_assign m i v = Ok m' ->
    consistent (vm_cells m') E /\ vm_seen m' = vm_seen m.
  Proof. intros Hc Hv [_ ->]%vm_assign_inv. split; [|done]. by apply consistent_assign. Qed.

  Lemma fn_flush_expected m E f m' f' :
    consistent (vm_cells m) E -> seen_ok E m -> fn_expected E f -> fn_flush compress m f = Ok (m', f') ->
    consistent (vm_cells m') E /\ fn_expected E f'.
  Proof.
    intros Hc Hs [Hseed Hf] H. destruct f as [x|x]; cbn in Hseed, Hf, H.
    - apply obind_Ok in H as ([m1 x1] & H & [= <- <-]).
      destruct x as [lb sd it st a p]; cbn in *. unfold reduced_flush in H. cbn [rf_state rf_seed rf_p rf_a rf_iterations rf_label] in H.
      destruct st as [i|iter ip msg|iter ip ao|]; [|done| |].
      + destruct Hf as (Hi & Ha & Hp). destruct (vm_decoded m i) as [ip|] eqn:Hd.
        2:{ injection H as <- <-. done. }
        apply Hs in Hd. assert (ip = si) as -> by congruence.
        apply obind_Ok in H as (s & Hsd & H). destruct sd as [sd|]; [|done]. injection Hsd as ->.
        rewrite (Hseed s eq_refl) in *. clear Hseed.
        unfold reduced_flush_a in H. cbn [rf_a rf_label rf_seed rf_iterations rf_p] in H. destruct a as [|[ai ao] a']; [done|].
        apply obind_Ok in H as (m2 & H & [= <- <-]). apply as_ok_cons in Ha as (Ha1 & Ha2 & Ha).
        destruct (assign_expected _ _ _ _ _ Hc Ha1 H). split; [done|]. split; [cbn; congruence|]. cbn. done.
      + destruct Hf as (-> & Hao & Ha & Hp). destruct (vm_decoded m ao) as [out|] eqn:Hd.
        2:{ injection H as <- <-. done. }
        apply Hs in Hd. assert (out = seq_a iter) as -> by congruence.
        destruct p as [|[pi po] p']; [done|].
        apply obind_Ok in H as (s & Hsd & H). destruct sd as [sd|]; [|done]. injection Hsd as ->.
        rewrite (Hseed s eq_refl) in *. clear Hseed.
        apply obind_Ok in H as (m2 & Has & H). apply ps_ok_cons in Hp as [Hp1 Hp].
        destruct (assign_expected _ _ _ _ _ Hc Hp1 Has) as [Hc2 _].
        destruct (iter =? it).
        * injection H as <- <-. split; [done|]. split; [cbn; congruence|]. done.
        * unfold reduced_flush_a in H. cbn [rf_a rf_label rf_seed rf_iterations rf_p] in H. destruct a as [|[ai ao'] a']; [done|].
          apply obind_Ok in H as (m3 & H & [= <- <-]). apply as_ok_cons in Ha as (Ha1 & Ha2 & Ha).
          destruct (assign_expected _ _ _ _ _ Hc2 Ha1 H). split; [done|]. split; [cbn; congruence|]. cbn.
          rewrite Nat.add_1_r. done.
      + injection H as <- <-. done.
    - apply obind_Ok in H as ([m1 x1] & H & [= <- <-]). destruct x as [lb dn sd msg p]; cbn in *.
      unfold normal_flush in H. cbn in H. destruct dn; [injection H as <- <-; done|].
      destruct sd as [sd|]; [|done]. cbn in H. apply obind_Ok in H as (m2 & H & [= <- <-]).
      rewrite (Hseed sd eq_refl) in *. destruct (assign_expected _ _ _ _ _ Hc Hf H). split; [done|]. split; [cbn; congruence|]. done.
  Qed.
  Lemma fn_set_seed_expected E f s : fn_expected E f -> fn_label f ++ s = seed -> fn_expected E (fn_set_seed f s).
  Proof. intros [H1 H2] Hs. destruct f; (split; [cbn in *; congruence|exact H2]). Qed.

  (** ** Allocation *)
  Context (outer inner : nat).

  Lemma hmac_added m E i o m' v :
    consistent (vm_cells m) E -> E !! outer = Some so -> E !! i = Some v -> hmac_sha256 compress m outer i = (m', o) ->
    exists E', ext m E m' E' /\ E' !! o = Some (hout v) /\ needs (vm_cells m') o [outer; i] /\
      o = length (vm_cells m) /\ length (vm_cells m') = S o.
  Proof.
    intros Hc Ho Hi H. unfold hmac_sha256 in H.
    destruct (vm_add_computed m E (circ_finish compress) [outer; i] [so; v] m' o Hc) as (E' & H1 & H2 & H3 & H4 & H5 & _); [|exact H|].
    { cbn. rewrite Ho. cbn. rewrite Hi. done. }
    exists E'. split_and!; try done. rewrite H2. cbn. by rewrite app_nil_r.
  Qed.
  Lemma phash_added m E msgs o m' vs :
    consistent (vm_cells m) E -> E !! outer = Some so -> E !! inner = Some si -> mapM (fun a => E !! a) msgs = Some vs ->
    phash_alloc compress m outer inner msgs = (m', o) ->
    exists E', ext m E m' E' /\ E' !! o = Some (hout (hin (concat vs))) /\ needs (vm_cells m') o (outer :: inner :: msgs).
  Proof.
    intros Hc Ho Hi Hm H. unfold phash_alloc in H. destruct (vm_add m _) as [m1 il] eqn:H1.
    destruct (vm_add_computed m E (circ_finish compress) (inner :: msgs) (si :: vs) m1 il Hc) as (E1 & X1 & V1 & N1 & _); [|exact H1|].
    { cbn. rewrite Hi. cbn. rewrite Hm. done. }
    edestruct (hmac_added m1 E1 il o m') as (E2 & X2 & V2 & N2 & _); [apply X1|by eapply ext_lookup|exact V1|exact H|].
    exists E2. split_and!; [by eapply ext_trans|done|].
    eapply needs_trans; [exact N2|]. constructor; [apply needs_in; by left|]. constructor; [|done].
    eapply needs_weaken; [(eapply needs_grows; [|exact N1]); by eapply ext_grows|]. intros y Hy. by right.
  Qed.

  Lemma normal_loop_added n j m E msg_a sl m' ps :
    consistent (vm_cells m) E -> E !! outer = Some so -> E !! inner = Some si -> E !! sl = Some seed ->
    E !! msg_a = Some (seq_a j) -> needs (vm_cells m) msg_a [outer; inner; sl] ->
    normal_loop compress n m outer inner msg_a sl = (m', ps) ->
    exists E', ext m E m' E' /\ length ps = n /\
      (forall k o, ps !! k = Some o -> E' !! o = Some (seq_p (S j + k))) /\
      Forall (fun o => needs (vm_cells m') o [outer; inner; sl]) ps.
  Proof.
    revert j m E msg_a ps. induction n as [|n IH]; intros j m E msg_a ps Hc Ho Hi Hs Ha Hn H.
    { cbn in H. injection H as <- <-. exists E. split_and!; [by apply ext_refl|done|done|done]. }
    cbn [normal_loop] in H. destruct (phash_alloc _ m _ _ _) as [m1 a] eqn:H1.
    edestruct (phash_added m E) as (E1 & X1 & V1 & N1); [done|done|done| |exact H1|].
    { cbn. rewrite Ha. done. }
    destruct (phash_alloc _ m1 _ _ _) as [m2 p] eqn:H2.
    edestruct (phash_added m1 E1) as (E2 & X2 & V2 & N2);
      [apply X1|by eapply ext_lookup|by eapply ext_lookup| |exact H2|].
    { cbn. rewrite V1. cbn. rewrite (ext_lookup _ _ _ _ _ _ X1 Hs). done. }
    destruct (normal_loop _ _ m2 _ _ _ _) as [m3 ps'] eqn:H3. injection H as <- <-.
    cbn [concat] in V1, V2. rewrite !app_nil_r in V1, V2.
    pose proof (ext_trans _ _ _ _ _ _ X1 X2) as X12.
    assert (needs (vm_cells m1) a [outer; inner; sl]) as Hna.
    { eapply needs_trans; [exact N1|]. constructor; [apply needs_in; by left|].
      constructor; [apply needs_in; right; by left|]. constructor; [|done].
      (eapply needs_grows; [|exact Hn]); by eapply ext_grows. }
    edestruct (IH (S j) m2 E2 a ps') as (E3 & X3 & L3 & V3 & N3);
      [apply X2|exact (ext_lookup _ _ _ _ _ _ X12 Ho)|exact (ext_lookup _ _ _ _ _ _ X12 Hi)
      |exact (ext_lookup _ _ _ _ _ _ X12 Hs)|exact (ext_lookup _ _ _ _ _ _ X2 V1)| |exact H3|].
    { (eapply needs_grows; [|exact Hna]); by eapply ext_grows. }
    exists E3. split_and!; [by eapply ext_trans|cbn; lia| |].
    - intros [|k] o Hk.
      + injection Hk as <-. rewrite Nat.add_0_r. eapply ext_lookup; [exact X3|]. rewrite V2, app_nil_r. done.
      + rewrite <- Nat.add_succ_comm. by apply V3.
    - constructor; [|done]. eapply needs_grows; [exact (ext_grows _ _ _ _ X3)|].
      eapply needs_trans; [exact N2|]. constructor; [apply needs_in; by left|].
      constructor; [apply needs_in; right; by left|].
      constructor; [|constructor; [apply needs_in; right; right; by left|done]].
      (eapply needs_grows; [|exact Hna]); by eapply ext_grows.
  Qed.

  Definition po_ok (E : list (list N)) (j : nat) (l : list (nat * nat)) : Prop :=
    forall k x, l !! k = Some x -> E !! x.2 = Some (seq_p (j + k)).
  Lemma po_ok_prefix E E' j l : E `prefix_of` E' -> po_ok E j l -> po_ok E' j l.
  Proof. intros Hp H k x Hx. specialize (H k x Hx). by eapply prefix_lookup. Qed.
  Lemma cons_po_ok E j x l : E !! x.2 = Some (seq_p j) -> po_ok E (S j) l -> po_ok E j (x :: l).
  Proof.
    intros H1 H [|k] y Hy; [injection Hy as <-; by rewrite Nat.add_0_r|].
    specialize (H k y Hy). by rewrite <- Nat.add_succ_comm.
  Qed.
  Lemma pairs_ok_prefix cs cs' l : cs `prefix_of` cs' -> Forall (pair_ok cs outer) l -> Forall (pair_ok cs' outer) l.
  Proof.
    intros Hp H. eapply Forall_impl; [exact H|]. intros x [Hx Hn]. split; [by eapply prefix_lookup|].
    eapply needs_grows; [by apply grows_prefix|done].
  Qed.
  Lemma reduced_loop_added n lo m E a p m' a' p' :
    consistent (vm_cells m) E -> E !! outer = Some so ->
    as_ok E n a -> ps_ok E (S n) p -> po_ok E (S n) p ->
    Forall (pair_ok (vm_cells m) outer) a -> Forall (pair_ok (vm_cells m) outer) p ->
    NoDup (map fst a ++ map fst p) -> Forall (fun i => lo <= i < length (vm_cells m)) (map fst a ++ map fst p) ->
    lo <= length (vm_cells m) ->
    reduced_loop compress n m outer a p = (m', a', p') ->
    exists E', ext m E m' E' /\ as_ok E' 0 a' /\ ps_ok E' 1 p' /\ po_ok E' 1 p' /\
      Forall (pair_ok (vm_cells m') outer) a' /\ Forall (pair_ok (vm_cells m') outer) p' /\
      length a' = n + length a /\ length p' = n + length p /\
      NoDup (map fst a' ++ map fst p') /\ Forall (fun i => lo <= i < length (vm_cells m')) (map fst a' ++ map fst p').
  Proof.
    revert m E a p. induction n as [|n IH]; intros m E a p Hc Ho Ha Hp Hpo Pa Pp Hnd Hb Hlo H.
    { cbn in H. injection H as <- <- <-. exists E. split_and!; try done. }
    cbn [reduced_loop] in H.
    destruct (vm_add m _) as [m1 ai] eqn:H1.
    destruct (vm_add_given m E None (hin (seq_a n)) m1 ai Hc (or_introl eq_refl) H1) as (E1 & X1 & V1 & C1 & L1 & S1).
    destruct (hmac_sha256 _ m1 _ _) as [m2 ao] eqn:H2.
    destruct (hmac_added m1 E1 ai ao m2 _ (ext_consistent _ _ _ _ X1) (ext_lookup _ _ _ _ _ _ X1 Ho) V1 H2)
      as (E2 & X2 & V2 & N2 & L2 & S2).
    destruct (vm_add m2 _) as [m3 pi] eqn:H3.
    destruct (vm_add_given m2 E2 None (hin (seq_a (S n) ++ seed)) m3 pi (ext_consistent _ _ _ _ X2) (or_introl eq_refl) H3)
      as (E3 & X3 & V3 & C3 & L3 & S3).
    pose proof (ext_trans _ _ _ _ _ _ X1 X2) as X12. pose proof (ext_trans _ _ _ _ _ _ X12 X3) as X13.
    destruct (hmac_sha256 _ m3 _ _) as [m4 po] eqn:H4.
    destruct (hmac_added m3 E3 pi po m4 _ (ext_consistent _ _ _ _ X3) (ext_lookup _ _ _ _ _ _ X13 Ho) V3 H4)
      as (E4 & X4 & V4 & N4 & L4 & S4).
    pose proof (ext_trans _ _ _ _ _ _ X3 X4) as X34.
    pose proof (ext_trans _ _ _ _ _ _ X2 X34) as X24.
    pose proof (ext_trans _ _ _ _ _ _ X1 X24) as X14.
    edestruct (IH m4 E4 ((ai, ao) :: a) ((pi, po) :: p)) as (E5 & X5 & R);
      [apply X4|exact (ext_lookup _ _ _ _ _ _ X14 Ho)| | | | | | | | |exact H|].
    - apply cons_as_ok; cbn.
      + exact (ext_lookup _ _ _ _ _ _ X24 V1).
      + exact (ext_lookup _ _ _ _ _ _ X34 V2).
      + eapply as_ok_prefix; [apply X14|done].
    - apply cons_ps_ok; cbn; [exact (ext_lookup _ _ _ _ _ _ X4 V3)|]. eapply ps_ok_prefix; [apply X14|done].
    - apply cons_po_ok; cbn; [done|]. eapply po_ok_prefix; [apply X14|done].
    - constructor; [|eapply pairs_ok_prefix; [apply X14|done]]. split; cbn.
      + eapply prefix_lookup; [exact C1|apply X24].
      + exact (needs_grows _ _ _ _ (ext_grows _ _ _ _ X34) N2).
    - constructor; [|eapply pairs_ok_prefix; [apply X14|done]]. split; cbn.
      + eapply prefix_lookup; [exact C3|apply X4].
      + exact N4.
    - cbn [map fst app]. rewrite <- Permutation_middle.
      assert (forall i, i ∈ map fst a ++ map fst p -> i < length (vm_cells m)) as Hlt.
      { rewrite Forall_forall in Hb. intros i Hi. by apply Hb. }
      constructor.
      + intros [Heq|Hin]%elem_of_cons; [lia|]. apply Hlt in Hin. lia.
      + constructor; [|done]. intros Hin%Hlt. lia.
    - cbn [map fst app]. rewrite <- Permutation_middle. constructor; [lia|]. constructor; [lia|].
      eapply Forall_impl; [exact Hb|]. cbn. lia.
    - lia.
    - exists E5. destruct R as (R1 & R2 & R3 & R4 & R5 & R6 & R7 & R8 & R9). cbn in R6, R7.
      split_and!; try done; [exact (ext_trans _ _ _ _ _ _ X14 X5)|lia|lia].
  Qed.

  Lemma fn_alloc_added net m E label len m' f :
    consistent (vm_cells m) E -> E !! outer = Some so -> E !! inner = Some si -> 1 <= iterations_of len ->
    fn_alloc compress net m label outer inner len = (m', f) ->
    exists E', ext m E m' E' /\ fn_shape (vm_cells m') outer inner (iterations_of len) (fn_output f) f /\
      fn_expected E' f /\ outs_ok E' (fn_output f) /\ length (fn_output f) = iterations_of len /\
      NoDup (fn_pend f) /\ Forall (fun i => length (vm_cells m) <= i < length (vm_cells m')) (fn_pend f) /\
      fn_seed f = None /\ fn_label f = label.
  Proof.
    intros Hc Ho Hi Hn H. destruct net; cbn [fn_alloc] in H.
    - destruct (reduced_alloc _ _ _ _ _ _) as [m1 x] eqn:H1. injection H as <- <-. unfold reduced_alloc in H1.
      destruct (reduced_loop _ _ _ _ _ _) as [[m2 a] p] eqn:H2. injection H1 as <- <-.
      destruct (reduced_loop_added (iterations_of len) (length (vm_cells m)) m E [] [] m2 a p)
        as (E' & X & R1 & R2 & R3 & R4 & R5 & R6 & R7 & R8 & R9); try done; [apply NoDup_nil_2|apply Forall_nil_2|].
      exists E'. cbn in *. rewrite Nat.add_0_r in *. split_and!; try done.
      + by exists [].
      + split; [done|]. cbn. split_and!; [by eapply ext_lookup|done|done].
      + intros k o Hk. rewrite list_lookup_fmap in Hk. apply fmap_Some in Hk as (x & Hx & ->). by apply R3.
      + by rewrite map_length.
    - destruct (normal_alloc _ _ _ _ _ _) as [m1 x] eqn:H1. injection H as <- <-. unfold normal_alloc in H1.
      destruct (vm_add m _) as [m2 sl] eqn:H2.
      destruct (vm_add_given m E None seed m2 sl Hc (or_introl eq_refl) H2) as (E2 & X2 & V2 & C2 & L2 & S2).
      destruct (normal_loop _ _ _ _ _ _ _) as [m3 ps] eqn:H3. injection H1 as <- <-.
      destruct (normal_loop_added (iterations_of len) 0 m2 E2 sl sl m3 ps) as (E3 & X3 & L3 & V3 & N3);
        [apply X2|by eapply ext_lookup|by eapply ext_lookup|done|done| |exact H3|].
      { apply needs_in. right. right. by left. }
      exists E3. cbn. split_and!; try done.
      + by eapply ext_trans.
      + intros _. eapply prefix_lookup; [exact C2|apply X3].
      + split; [done|]. cbn. by eapply ext_lookup.
      + apply NoDup_singleton.
      + constructor; [|done]. pose proof (ext_length _ _ _ _ X3). lia.
  Qed.
End Exp.
