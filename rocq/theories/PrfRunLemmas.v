From Verif.Lib Require Import Base.
From Verif Require Import CodecModel CodecLemmas PrfModel PrfSpec PrfShaLemmas PrfVmLemmas PrfFnLemmas PrfExpLemmas.

Local Arguments iterations_of : simpl never.
Notation none_in cs l := (Forall (fun j => cs !! j = Some (Given None)) l).

(** ** One function among others *)
Section One.
  Context (compress : list N -> list N -> list N).

  Lemma fn_wants_seed f : fn_wants_flush f = true -> is_Some (fn_seed f) /\ fn_done f = false.
  Proof. unfold fn_wants_flush. intros [H1 H2]%andb_true_iff. apply bool_decide_eq_true in H2. destruct (fn_done f); done. Qed.

  Lemma flush_if_shape m o i n outs f rest :
    fn_shape (vm_cells m) o i n outs f -> NoDup (fn_pend f ++ rest) -> none_in (vm_cells m) rest ->
    exists m' f', flush_if compress m f = Ok (m', f') /\ grows (vm_cells m) (vm_cells m') /\ vm_seen m' = vm_seen m /\
      fn_shape (vm_cells m') o i n outs f' /\ NoDup (fn_pend f' ++ rest) /\ none_in (vm_cells m') rest /\
      fn_seed f' = fn_seed f /\ fn_label f' = fn_label f /\ fn_left f' <= fn_left f /\
      (forall j, j ∈ fn_pend f' -> j ∈ fn_pend f) /\
      (forall j, j ∉ fn_pend f -> vm_cells m' !! j = vm_cells m !! j) /\
      (forall cs0, fn_shape cs0 o i n outs f -> vm_seen m = vm_values cs0 -> avail cs0 o -> avail cs0 i ->
       fn_wants_flush f = true -> fn_left f' < fn_left f).
  Proof.
    intros Hs Hnd Hr. unfold flush_if. destruct (fn_wants_flush f) eqn:Hw.
    2:{ exists m, f. split_and!; try done. apply grows_refl. }
    apply fn_wants_seed in Hw as [Hseed Hdone].
    apply NoDup_app in Hnd as (Hnd1 & Hdis & Hnd2).
    destruct (fn_flush_shape compress m o i n outs f Hs Hnd1 Hseed) as (m' & f' & E & (Hg & Hsn & used & Hu & Hsame) & Hs' & H1 & H2 & H3 & H4).
    exists m', f'. split_and!; try done.
    - rewrite Hu in Hnd1. apply NoDup_app in Hnd1 as (_ & _ & Hnd1). apply NoDup_app. split_and!; [done| |done].
      intros j Hj. apply Hdis. rewrite Hu. apply elem_of_app. by right.
    - rewrite Forall_forall in *. intros j Hj. rewrite Hsame; [by apply Hr|]. intros Hin. eapply Hdis; [|exact Hj].
      rewrite Hu. apply elem_of_app. by left.
    - intros j Hj. rewrite Hu. apply elem_of_app. by right.
    - intros j Hj. apply Hsame. intros Hin. apply Hj. rewrite Hu. apply elem_of_app. by left.
    - intros cs0 ? ? ? ? _. by eapply H4.
  Qed.
  Lemma flush_if_expected so si seed m E f m' f' :
    consistent (vm_cells m) E -> seen_ok E m -> fn_expected compress so si seed E f -> flush_if compress m f = Ok (m', f') ->
    consistent (vm_cells m') E /\ fn_expected compress so si seed E f'.
  Proof.
    intros Hc Hs Hf H. unfold flush_if in H. destruct (fn_wants_flush f); [by eapply fn_flush_expected|].
    injection H as <- <-. done.
  Qed.
  (** What has been flushed to the end is computed. *)
  Lemma fn_done_avail cs o i n outs f :
    fn_shape cs o i n outs f -> fn_done f = true -> avail cs o -> avail cs i -> Forall (avail cs) outs.
  Proof.
    intros Hs Hd Ho Hi. destruct f as [x|x]; cbn in Hs, Hd.
    - destruct Hs as (_ & _ & (fin & -> & Hfin) & _ & _ & Hst). destruct (rf_state x); try done. destruct Hst as [-> _].
      rewrite app_nil_r. eapply Forall_impl; [exact Hfin|]. cbn. intros a Ha. eapply needs_use; [exact Ha|]. by constructor.
    - destruct Hs as (_ & Hv & Hn). eapply Forall_impl; [exact Hn|]. cbn. intros a Ha. eapply needs_use; [exact Ha|].
      destruct (Hv Hd) as [v Hv']. constructor; [done|]. constructor; [done|]. constructor; [|done].
      eapply needs_use; [by eapply needs_given|done].
  Qed.
End One.

(** ** Expected values of the parts *)
Section Parts.
  Context (iv : list N) (compress : list N -> list N -> list N).

  Lemma compute_partial_added m E key len K c mask m' i :
    consistent (vm_cells m) E -> E !! key = Some K -> length K = len -> mask = replicate 64 c ->
    compute_partial iv compress m key len mask = (m', i) ->
    exists E', ext m E m' E' /\ E' !! i = Some (key_state iv compress K c) /\ needs (vm_cells m') i [key].
  Proof.
    intros Hc Hk Hl -> H. unfold compute_partial in H.
    destruct (vm_add m _) as [m1 i1] eqn:H1.
    destruct (vm_add_given m E _ (replicate (64 - len) 0%N) m1 i1 Hc (or_intror eq_refl) H1) as (E1 & X1 & V1 & C1 & _).
    destruct (vm_add m1 _) as [m2 i2] eqn:H2.
    destruct (vm_add_given m1 E1 _ (replicate 64 c) m2 i2 (ext_consistent _ _ _ _ X1) (or_intror eq_refl) H2) as (E2 & X2 & V2 & C2 & _).
    destruct (vm_add m2 _) as [m3 i3] eqn:H3. pose proof (ext_trans _ _ _ _ _ _ X1 X2) as X12.
    destruct (vm_add_computed m2 E2 circ_xor [key; i1; i2] [K; replicate (64 - len) 0%N; replicate 64 c] m3 i3)
      as (E3 & X3 & V3 & N3 & _); [apply X2| |exact H3|].
    { cbn. rewrite (ext_lookup _ _ _ _ _ _ X12 Hk). cbn. rewrite (ext_lookup _ _ _ _ _ _ X2 V1). cbn. rewrite V2. done. }
    destruct (vm_add_computed m3 E3 (circ_block iv compress) [i3] [circ_xor [K; replicate (64 - len) 0%N; replicate 64 c]] m' i)
      as (E4 & X4 & V4 & N4 & _); [apply X3| |exact H|].
    { cbn. rewrite V3. done. }
    pose proof (ext_trans _ _ _ _ _ _ X3 X4) as X34. pose proof (ext_trans _ _ _ _ _ _ X2 X34) as X24.
    exists E4. split_and!; [exact (ext_trans _ _ _ _ _ _ X12 X34)| |].
    - rewrite V4. unfold key_state. cbn [circ_block circ_xor]. by rewrite Hl.
    - eapply needs_trans; [exact N4|]. constructor; [|done].
      eapply needs_trans; [exact (needs_grows _ _ _ _ (ext_grows _ _ _ _ X4) N3)|].
      assert (forall j v k, vm_cells m' !! j = Some (Given (Some v)) -> needs (vm_cells m') j [k]) as Hgiv.
      { intros j v k Hj. eapply needs_weaken; [by eapply needs_given|]. intros y Hy. by apply elem_of_nil in Hy. }
      constructor; [apply needs_in; by left|]. constructor; [|constructor; [|done]]; eapply Hgiv.
      + eapply prefix_lookup; [exact C1|apply X24].
      + eapply prefix_lookup; [exact C2|apply X34].
  Qed.

  (** The specification's names for these. *)
  Lemma hmac_is K x : (length K <= 64)%nat ->
    hout compress (key_state iv compress K 92) (hin compress (key_state iv compress K 54) x) = rfc_hmac iv compress K x.
  Proof. intros. rewrite <- mac_is by done. done. Qed.
  Lemma seq_a_is K seed i : (length K <= 64)%nat ->
    seq_a compress (key_state iv compress K 92) (key_state iv compress K 54) seed i = rfc_a iv compress K seed i.
  Proof. intros Hk. induction i as [|i IH]; [done|]. cbn. rewrite hmac_is, IH by done. done. Qed.
  Lemma seq_p_is K seed i : (length K <= 64)%nat ->
    seq_p compress (key_state iv compress K 92) (key_state iv compress K 54) seed i
    = rfc_hmac iv compress K (rfc_a iv compress K seed i ++ seed).
  Proof. intros Hk. unfold seq_p. rewrite hmac_is, seq_a_is by done. done. Qed.

  Lemma merge_added m E outs K seed n len m' i :
    consistent (vm_cells m) E -> (length K <= 64)%nat ->
    outs_ok compress (key_state iv compress K 92) (key_state iv compress K 54) seed E outs -> length outs = n ->
    merge_outputs m outs len = (m', i) ->
    exists E', ext m E m' E' /\ E' !! i = Some (take len (rfc_p_hash iv compress K seed n)) /\ needs (vm_cells m') i outs.
  Proof.
    intros Hc Hk Ho Hn H. unfold merge_outputs in H.
    destruct (vm_add_computed m E (circ_merge len) outs
      (map (fun j => rfc_hmac iv compress K (rfc_a iv compress K seed j ++ seed)) (seq 1 n)) m' i Hc)
      as (E' & X & V & N & _); [|exact H|].
    - apply mapM_Some. apply Forall2_same_length_lookup. split; [rewrite map_length, seq_length; done|].
      intros k o v Hok Hv. rewrite (Ho _ _ Hok). rewrite list_lookup_fmap in Hv. apply fmap_Some in Hv as (j & Hj & ->).
      apply lookup_seq in Hj as [-> _]. rewrite seq_p_is by done. done.
    - exists E'. done.
  Qed.
  Lemma slice_added m E i0 v a b m' i :
    consistent (vm_cells m) E -> E !! i0 = Some v -> vm_add m (Computed (circ_slice a b) [i0]) = (m', i) ->
    exists E', ext m E m' E' /\ E' !! i = Some (take b (drop a v)) /\ needs (vm_cells m') i [i0].
  Proof.
    intros Hc Hi H. destruct (vm_add_computed m E (circ_slice a b) [i0] [v] m' i Hc) as (E' & X & V & N & _); [|exact H|].
    { cbn. by rewrite Hi. }
    by exists E'.
  Qed.
End Parts.
