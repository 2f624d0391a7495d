From Verif.Lib Require Import Base.
From Verif Require Import CodecModel CodecLemmas PrfModel PrfVmLemmas.

(** Inputs still to be assigned. *)
Definition fn_pend (f : inner_prf) : list nat :=
  match f with
  | FReduced x => map fst (rf_a x) ++ map fst (rf_p x)
  | FNormal x => if nf_done x then [] else [nf_msg x]
  end.
Definition fn_label (f : inner_prf) : list N := match f with FReduced x => rf_label x | FNormal x => nf_label x end.
(** An input and the hash computed from it. *)
Definition pair_ok (cs : list cell) (outer : nat) (x : nat * nat) : Prop :=
  cs !! x.1 = Some (Given None) /\ needs cs x.2 [outer; x.1].
(** The shape of a function. *)
Definition fn_shape (cs : list cell) (outer inner n : nat) (outs : list nat) (f : inner_prf) : Prop :=
  match f with
  | FNormal x =>
      (nf_done x = false -> cs !! nf_msg x = Some (Given None)) /\
      (nf_done x = true -> exists v, cs !! nf_msg x = Some (Given (Some v))) /\
      Forall (fun o => needs cs o [outer; inner; nf_msg x]) outs
  | FReduced x =>
      rf_iterations x = n /\ 1 <= n /\
      (exists finished, outs = finished ++ map snd (rf_p x) /\ Forall (fun o => needs cs o [outer]) finished) /\
      Forall (pair_ok cs outer) (rf_a x) /\ Forall (pair_ok cs outer) (rf_p x) /\
      match rf_state x with
      | RInner i => i = inner /\ length (rf_a x) = n /\ length (rf_p x) = n
      | RComputeA _ _ _ => False
      | RComputeP iter _ ao =>
          1 <= iter <= n /\ length (rf_a x) = n - iter /\ length (rf_p x) = S (n - iter) /\ needs cs ao [outer]
      | RDone => rf_p x = [] /\ rf_a x = []
      end
  end.
(** How many flushes are left. *)
Definition fn_left (f : inner_prf) : nat :=
  match f with
  | FReduced x =>
      match rf_state x with
      | RInner _ => S (rf_iterations x)
      | RComputeA _ _ _ => 0
      | RComputeP iter _ _ => S (rf_iterations x - iter)
      | RDone => 0
      end
  | FNormal x => if nf_done x then 0 else 1
  end.

Lemma pair_ok_grows cs cs' outer x : grows cs cs' -> cs' !! x.1 = Some (Given None) -> pair_ok cs outer x -> pair_ok cs' outer x.
Proof. intros Hg Hi [_ H]. split; [done|]. by eapply needs_grows. Qed.
Lemma pairs_ok_grows cs cs' outer l :
  grows cs cs' -> Forall (fun i => cs' !! i = Some (Given None)) (map fst l) -> Forall (pair_ok cs outer) l -> Forall (pair_ok cs' outer) l.
Proof.
  intros Hg Hi H. induction H as [|x l Hx H IH]; [done|]. inversion_clear Hi.
  constructor; [by eapply pair_ok_grows|by apply IH].
Qed.
Lemma needs_all_grows cs cs' (l : list nat) js :
  grows cs cs' -> Forall (fun o => needs cs o js) l -> Forall (fun o => needs cs' o js) l.
Proof. intros Hg H. eapply Forall_impl; [exact H|]. cbn. intros. by eapply needs_grows. Qed.
Lemma fn_shape_grows cs cs' outer inner n outs f :
  grows cs cs' -> Forall (fun i => cs' !! i = Some (Given None)) (fn_pend f) ->
  fn_shape cs outer inner n outs f -> fn_shape cs' outer inner n outs f.
Proof.
  intros Hg Hp H. destruct f as [x|x]; cbn in *.
  - rewrite Forall_app in Hp. destruct Hp as [Ha Hp].
    destruct H as (H1 & H2 & (fin & H3 & H4) & H5 & H6 & H7). split_and!; [done|done| | | |].
    + exists fin. split; [done|]. by eapply needs_all_grows.
    + by eapply pairs_ok_grows.
    + by eapply pairs_ok_grows.
    + destruct (rf_state x); [done|done| |done]. destruct H7 as (? & ? & ? & ?). split_and!; try done; try lia.
      by eapply needs_grows.
  - destruct H as (H1 & H2 & H3). split_and!.
    + intros Hd. rewrite Hd in Hp. by inversion_clear Hp.
    + intros Hd. destruct (H2 Hd) as [v Hv]. exists v. by eapply grows_given.
    + by eapply needs_all_grows.
Qed.

Section Fn.
  Context (iv : list N) (compress : list N -> list N -> list N).
  Notation fn_flush := (fn_flush compress).

  (** What a flush does to the machine. *)
  Definition flushed (m : vm) (f : inner_prf) (m' : vm) (f' : inner_prf) : Prop :=
    grows (vm_cells m) (vm_cells m') /\ vm_seen m' = vm_seen m /\
    exists used, fn_pend f ≡ₚ used ++ fn_pend f' /\ forall j, j ∉ used -> vm_cells m' !! j = vm_cells m !! j.
  Lemma flushed_refl m f : flushed m f m f.
  Proof. split_and!; [apply grows_refl|done|]. exists []. done. Qed.

  Lemma assign_pair m outer i o v (rest : list nat) :
    pair_ok (vm_cells m) outer (i, o) -> i ∉ rest -> Forall (fun j => vm_cells m !! j = Some (Given None)) rest ->
    exists m', vm_assign m i v = Ok m' /\ grows (vm_cells m) (vm_cells m') /\ vm_seen m' = vm_seen m /\
      needs (vm_cells m') o [outer] /\ Forall (fun j => vm_cells m' !! j = Some (Given None)) rest /\
      (forall j, j <> i -> vm_cells m' !! j = vm_cells m !! j).
  Proof.
    intros [Hi Ho] Hr Hn. cbn in Hi, Ho. destruct (vm_assign_ok m i v Hi) as (m' & E & -> & Hg & Hv & Hs).
    eexists. split_and!; [exact E|done|done| | |done].
    - eapply needs_trans; [by eapply needs_grows|]. constructor; [apply needs_in; constructor|].
      constructor; [|done]. eapply needs_weaken; [by eapply needs_given|]. intros y Hy. by apply elem_of_nil in Hy.
    - rewrite Forall_forall in *. intros j Hj. rewrite Hs; [by apply Hn|]. intros ->. done.
  Qed.
  Lemma pairs_none cs outer l : Forall (pair_ok cs outer) l -> Forall (fun j => cs !! j = Some (Given None)) (map fst l).
  Proof. intros H. induction H as [|x l [Hx _] H IH]; constructor; done. Qed.
  Lemma fn_pend_none cs outer inner n outs f :
    fn_shape cs outer inner n outs f -> Forall (fun j => cs !! j = Some (Given None)) (fn_pend f).
  Proof.
    destruct f as [x|x]; cbn.
    - intros (_ & _ & _ & Ha & Hp & _). apply Forall_app. split; by eapply pairs_none.
    - intros (H & _). destruct (nf_done x); [done|]. constructor; [by apply H|done].
  Qed.

  Lemma fn_flush_shape m outer inner n outs f :
    fn_shape (vm_cells m) outer inner n outs f -> NoDup (fn_pend f) -> is_Some (fn_seed f) ->
    exists m' f', fn_flush m f = Ok (m', f') /\ flushed m f m' f' /\ fn_shape (vm_cells m') outer inner n outs f' /\
      fn_seed f' = fn_seed f /\ fn_label f' = fn_label f /\ fn_left f' <= fn_left f /\
      (forall cs0, fn_shape cs0 outer inner n outs f -> vm_seen m = vm_values cs0 -> avail cs0 outer -> avail cs0 inner ->
       fn_done f = false -> fn_left f' < fn_left f).
  Proof.
    intros Hs Hnd [seed Hseed]. pose proof (fn_pend_none _ _ _ _ _ _ Hs) as Hnone.
    destruct f as [x|x].
    - cbn in Hs, Hnd, Hseed, Hnone. destruct x as [lb sd it st a p]; cbn in *. subst sd.
      destruct Hs as (-> & Hn & (fin & -> & Hfin) & Ha & Hp & Hst).
      destruct st as [i|iter ip msg|iter ip ao|]; [|done| |].
      + destruct Hst as (-> & Hla & Hlp). unfold reduced_flush. cbn [rf_state rf_seed].
        destruct (vm_decoded m inner) as [ip|] eqn:Hd; cbn [obind or_panic].
        2:{ exists m, (FReduced (ReducedFn lb (Some seed) n (RInner inner) a p)). cbn. split_and!; try done.
            - apply flushed_refl.
            - by exists fin.
            - intros cs0 _ Hseen _ [v Hv] _. unfold vm_decoded in Hd. rewrite Hseen, Hv in Hd. done. }
        unfold reduced_flush_a. cbn [rf_a]. destruct a as [|[ai ao] a']; [cbn in Hla; lia|].
        cbn [map fst app] in Hnd, Hnone. apply NoDup_cons in Hnd as [Hai Hnd]. inversion_clear Hnone as [|? ? _ Hrest].
        inversion_clear Ha as [|? ? Hap Ha'].
        unfold assign_inner_local.
        destruct (assign_pair m outer ai ao (state_to_bytes (sha256 compress ip 64 seed)) _ Hap Hai Hrest)
          as (m' & -> & Hg & Hsn & Hneed & Hrest' & Hsame).
        cbn [obind]. rewrite Forall_app in Hrest'. destruct Hrest' as [Hra Hrp].
        eexists m', _. split; [reflexivity|]. cbn. split_and!; try done; try lia.
        * split_and!; [done|done|]. exists [ai]. split; [done|]. intros j Hj. apply Hsame.
          intros ->. apply Hj. by left.
        * exists fin. split; [done|]. by eapply needs_all_grows.
        * by eapply pairs_ok_grows.
        * by eapply pairs_ok_grows.
        * cbn in Hla. lia.
      + destruct Hst as (Hiter & Hla & Hlp & Hao). unfold reduced_flush. cbn [rf_state rf_seed rf_p rf_iterations rf_a rf_label].
        destruct (vm_decoded m ao) as [out|] eqn:Hd.
        2:{ cbn [obind]. exists m, (FReduced (ReducedFn lb (Some seed) n (RComputeP iter ip ao) a p)). cbn. split_and!; try done; try lia.
            - apply flushed_refl.
            - by exists fin.
            - intros cs0 (_ & _ & _ & _ & _ & _ & _ & _ & Hao0) Hseen Hout _ _.
              destruct (needs_use _ _ _ Hao0) as [v Hv]; [by constructor|]. unfold vm_decoded in Hd. rewrite Hseen, Hv in Hd. done. }
        destruct p as [|[pi po] p']; [cbn in Hlp; lia|]. cbn [obind or_panic].
        cbn [map fst] in Hnd, Hnone. rewrite <- Permutation_middle in Hnd. apply NoDup_cons in Hnd as [Hpi Hnd].
        rewrite <- Permutation_middle in Hnone. inversion_clear Hnone as [|? ? _ Hrest].
        inversion_clear Hp as [|? ? Hpp Hp'].
        unfold assign_inner_local.
        destruct (assign_pair m outer pi po (state_to_bytes (sha256 compress ip 64 (out ++ seed))) _ Hpp Hpi Hrest)
          as (m1 & -> & Hg & Hsn & Hneed & Hrest' & Hsame). cbn [obind].
        pose proof Hrest' as Hrest''. rewrite Forall_app in Hrest'. destruct Hrest' as [Hra Hrp].
        assert (exists fin', fin ++ map snd ((pi, po) :: p') = fin' ++ map snd p' /\
                  Forall (fun o => needs (vm_cells m1) o [outer]) fin') as (fin' & Houts & Hfin').
        { exists (fin ++ [po]). split; [by rewrite <- app_assoc|]. apply Forall_app. split; [by eapply needs_all_grows|].
          by constructor. }
        rewrite Houts. clear Houts.
        destruct (Nat.eqb_spec iter n) as [->|Hne].
        * eexists m1, _. split; [reflexivity|]. cbn. cbn in Hlp. destruct p' as [|? ?]; [|cbn in Hlp; lia].
          destruct a as [|? ?]; [|cbn in Hla; lia].
          split_and!; try done; try lia.
          -- split_and!; [done|done|]. exists [pi]. split; [done|]. intros j Hj. apply Hsame.
             intros ->. apply Hj. by left.
          -- by exists fin'.
        * unfold reduced_flush_a. cbn [rf_a rf_label rf_seed rf_iterations rf_p].
          destruct a as [|[ai ao'] a']; [cbn in Hla; lia|].
          assert (Forall (pair_ok (vm_cells m1) outer) ((ai, ao') :: a')) as Ha1 by (by eapply pairs_ok_grows).
          cbn [map fst app] in Hnd, Hrest''. apply NoDup_cons in Hnd as [Hai Hnd]. inversion_clear Hrest'' as [|? ? _ Hrest1].
          inversion_clear Ha1 as [|? ? Hap Ha'].
          unfold assign_inner_local.
          destruct (assign_pair m1 outer ai ao' (state_to_bytes (sha256 compress ip 64 out)) _ Hap Hai Hrest1)
            as (m2 & -> & Hg2 & Hsn2 & Hneed2 & Hrest2 & Hsame2). cbn [obind].
          rewrite Forall_app in Hrest2. destruct Hrest2 as [Hra2 Hrp2].
          eexists m2, _. split; [reflexivity|]. cbn. cbn in Hla, Hlp. split_and!; try done; try lia.
          -- split_and!; [by eapply grows_trans|congruence|]. exists [pi; ai]. split.
             { cbn. etrans; [|apply Permutation_swap]. constructor. by rewrite <- Permutation_middle. }
             intros j Hj. rewrite Hsame2, Hsame; [done| |]; intros ->; apply Hj; [by left|right; by left].
          -- exists fin'. split; [done|]. by eapply needs_all_grows.
          -- by eapply pairs_ok_grows.
          -- eapply pairs_ok_grows; [exact Hg2|done|]. eapply pairs_ok_grows; [exact Hg|done|done].
      + destruct Hst. unfold reduced_flush. cbn [rf_state obind]. eexists m, _. split; [reflexivity|]. cbn. split_and!; try done.
        * apply flushed_refl.
        * by exists fin.
    - destruct x as [lb dn sd msg p]; cbn in *. subst sd. destruct Hs as (H1 & H2 & H3). unfold normal_flush.
      cbn [nf_done nf_seed nf_msg nf_label nf_p]. destruct dn.
      + cbn [obind]. eexists m, _. split; [reflexivity|]. cbn. split_and!; try done. apply flushed_refl.
      + cbn [obind or_panic]. destruct (vm_assign_ok m msg seed (H1 eq_refl)) as (m' & -> & -> & Hg & Hv & Hsame).
        cbn [obind]. eexists _, _. split; [reflexivity|]. cbn in *. split_and!; try done; try lia.
        * split_and!; [done|done|]. exists [msg]. cbn. split; [done|]. intros j Hj. apply Hsame. intros ->. apply Hj. by left.
        * intros _. by exists seed.
        * by eapply needs_all_grows.
  Qed.
End Fn.
