(** Lemmas about the transcript model. *)
From Verif.Lib Require Import Base Ranges RangesFacts.
From Verif Require Import TranscriptModel.

Definition rs_bounded (n : nat) (idx : rangeset) : Prop :=
  Forall (fun r => fst r <= snd r /\ snd r <= n) idx.

Lemma rs_bounded_cons n a b t : rs_bounded n ((a, b) :: t) <-> a <= b /\ b <= n /\ rs_bounded n t.
Proof. unfold rs_bounded. rewrite Forall_cons. simpl. tauto. Qed.

Lemma rs_ok_bounded lo n idx : rs_ok_from lo idx -> rs_end idx <= n -> rs_bounded n idx.
Proof.
  revert lo. induction idx as [|[a b] t IH]; intros lo Hok He; [constructor|].
  rewrite rs_bounded_cons. pose proof (rs_end_lb _ _ _ _ Hok). destruct Hok as (?&?&Ht).
  split_and!; [lia|lia|]. eapply IH; [done|]. rewrite rs_end_cons in He.
  destruct t; [unfold rs_end; simpl; lia|done].
Qed.
Lemma rs_bounded_in n idx i : rs_bounded n idx -> in_rs i idx -> i < n.
Proof.
  induction idx as [|[a b] t IH]; [by rewrite in_rs_nil|].
  rewrite rs_bounded_cons, in_rs_cons. unfold in_range; simpl. intros (?&?&?) [?|?]; [lia|auto].
Qed.
Lemma rs_ok_in_bounded n idx : rs_ok idx -> (forall i, in_rs i idx -> i < n) -> rs_bounded n idx.
Proof. intros Hok Hin. eapply rs_ok_bounded; [done|]. by apply rs_end_le_ok. Qed.
(** ranges of a canonical set are non-empty, so out-of-bounds is detected *)
Lemma rs_bounded_ok_end lo n idx : rs_ok_from lo idx -> rs_bounded n idx -> rs_end idx <= n.
Proof. intros Hok Hb. eapply rs_end_le; [done|]. intros i. by apply rs_bounded_in. Qed.

(** ** index_concat *)
Lemma Forall2_seq_drop {A} (data : list A) a n :
  a + n <= length data ->
  Forall2 (fun i b => data !! i = Some b) (List.seq a n) (take n (drop a data)).
Proof.
  revert a. induction n as [|n IH]; intros a Hle; simpl; [constructor|].
  destruct (drop a data) as [|x t] eqn:E.
  - apply (f_equal length) in E. rewrite drop_length in E. simpl in E. lia.
  - simpl. assert (Hx : data !! a = Some x).
    { pose proof (lookup_drop data a 0) as H. rewrite E, Nat.add_0_r in H. simpl in H. congruence. }
    constructor; [done|].
    assert (t = drop (S a) data) as ->.
    { rewrite <-Nat.add_1_r, <-drop_drop, E. done. }
    apply IH. lia.
Qed.

Lemma index_concat_ok data idx :
  rs_bounded (length data) idx -> exists bs, index_concat data idx = Ok bs.
Proof.
  induction idx as [|[a b] t IH]; [eauto|]. rewrite rs_bounded_cons. intros (?&?&[bs Hbs]%IH).
  simpl. rewrite slice_Some by lia. simpl. rewrite Hbs. simpl. eauto.
Qed.
Lemma index_concat_bounded data idx bs : index_concat data idx = Ok bs -> rs_bounded (length data) idx.
Proof.
  revert bs. induction idx as [|[a b] t IH]; intros bs; [constructor|]. simpl.
  intros (s & Hs & (rest & Hr & [= <-])%obind_Ok)%obind_Ok.
  apply or_panic_Ok, slice_inv in Hs as (?&?&?&?). rewrite rs_bounded_cons. eauto.
Qed.
Lemma index_concat_spec data idx bs :
  index_concat data idx = Ok bs -> Forall2 (fun i b => data !! i = Some b) (rs_values idx) bs.
Proof.
  revert bs. induction idx as [|[a b] t IH]; intros bs; simpl.
  - intros [= <-]. constructor.
  - intros (s & Hs & (rest & Hr & [= <-])%obind_Ok)%obind_Ok.
    apply or_panic_Ok, slice_inv in Hs as (?&?&->&?). rewrite rs_values_cons.
    apply Forall2_app; [|auto]. apply Forall2_seq_drop. lia.
Qed.
Lemma index_concat_length data idx bs : index_concat data idx = Ok bs -> length bs = rs_len idx.
Proof. intros H%index_concat_spec%Forall2_length. by rewrite <-rs_values_length. Qed.
Lemma index_concat_no_err data idx : (exists bs, index_concat data idx = Ok bs) \/ index_concat data idx = Panic.
Proof. destruct (index_concat data idx) as [|[]|]; eauto. Qed.
Lemma Forall2_lookup_det {A} (data : list A) (l : list nat) x y :
  Forall2 (fun i b => data !! i = Some b) l x -> Forall2 (fun i b => data !! i = Some b) l y -> x = y.
Proof.
  intros Hx. revert y. induction Hx as [|i b l x Hi Hx IH]; intros y Hy; inversion Hy; subst; [done|].
  f_equal; [congruence|auto].
Qed.
Lemma index_concat_ext data data' idx bs bs' :
  index_concat data idx = Ok bs -> index_concat data' idx = Ok bs' ->
  (forall i, in_rs i idx -> data !! i = data' !! i) -> bs = bs'.
Proof.
  intros H1%index_concat_spec H2%index_concat_spec Hext.
  eapply (Forall2_lookup_det data); [done|].
  assert (Hall : Forall (fun i => in_rs i idx) (rs_values idx)).
  { apply Forall_forall. intros i Hi. by apply in_rs_values. }
  revert H2 Hall. generalize (rs_values idx) as l. clear -Hext.
  intros l H2. induction H2 as [|i b l x Hi Hx IH]; intros Hall; [constructor|].
  apply Forall_cons in Hall as [Hin Hall]. constructor; [by rewrite Hext|auto].
Qed.

(** ** copy_ranges *)
Lemma copy_ranges_ok dst src idx :
  length dst = length src -> rs_bounded (length dst) idx -> exists r, copy_ranges dst src idx = Ok r.
Proof.
  revert dst. induction idx as [|[a b] t IH]; intros dst Hl; [eauto|].
  rewrite rs_bounded_cons. intros (?&?&?). simpl. rewrite slice_Some by lia. simpl.
  rewrite put_Some; [|lia|lia|rewrite take_length, drop_length; lia]. simpl.
  apply IH.
  - rewrite !app_length, !take_length, !drop_length. lia.
  - rewrite !app_length, !take_length, !drop_length.
    replace (_ + _) with (length dst) by lia. done.
Qed.
Lemma copy_ranges_spec dst src idx r :
  copy_ranges dst src idx = Ok r ->
  length r = length dst /\ rs_bounded (length dst) idx /\ rs_bounded (length src) idx /\
  forall i, r !! i = if decide (in_rs i idx) then src !! i else dst !! i.
Proof.
  revert dst. induction idx as [|[a b] t IH]; intros dst; simpl.
  - intros [= <-]. split_and!; [done|constructor|constructor|]. intros i.
    rewrite decide_False; [done|]. rewrite in_rs_nil; tauto.
  - intros (s & Hs%or_panic_Ok & (dst' & Hd%or_panic_Ok & Hc)%obind_Ok)%obind_Ok.
    apply IH in Hc as (Hl & Hb & Hb' & Hlk). pose proof (put_length _ _ _ _ _ Hd) as Hld.
    pose proof (slice_inv _ _ _ _ Hs) as (?&?&_&?). pose proof (put_inv _ _ _ _ _ Hd) as (?&?&?&_).
    rewrite Hld in *. split_and!; [done|rewrite rs_bounded_cons; done|rewrite rs_bounded_cons; done|].
    intros i. rewrite Hlk, (put_lookup _ _ _ _ _ i Hd), (slice_lookup _ _ _ _ (i - a) Hs).
    destruct (decide (in_rs i t)) as [Ht|Ht].
    + rewrite decide_True; [done|]. rewrite in_rs_cons. tauto.
    + destruct (decide (a <= i < b)).
      * rewrite decide_True by lia. rewrite decide_True; [f_equal; lia|].
        rewrite in_rs_cons. left. done.
      * rewrite decide_False; [done|]. rewrite in_rs_cons. unfold in_range; simpl. tauto.
Qed.

(** ** copy_packed *)
Lemma copy_packed_ok dst packed off idx :
  rs_bounded (length dst) idx -> off + rs_len idx <= length packed ->
  exists r, copy_packed dst packed off idx = Ok r.
Proof.
  revert dst off. induction idx as [|[a b] t IH]; intros dst off; [simpl; eauto|].
  rewrite rs_bounded_cons, rs_len_cons. simpl. intros (?&?&?) Hlen.
  rewrite slice_Some by lia. simpl.
  rewrite put_Some; [|lia|lia|rewrite take_length, drop_length; lia]. simpl.
  apply IH; [|lia].
  rewrite !app_length, !take_length, !drop_length.
  replace (_ + _) with (length dst) by lia. done.
Qed.
Lemma copy_packed_spec lo dst packed off idx r :
  rs_ok_from lo idx ->
  copy_packed dst packed off idx = Ok r ->
  length r = length dst /\ rs_bounded (length dst) idx /\ off + rs_len idx <= Nat.max off (length packed) /\
  (forall i, ~ in_rs i idx -> r !! i = dst !! i) /\
  Forall2 (fun i b => r !! i = Some b) (rs_values idx) (take (rs_len idx) (drop off packed)).
Proof.
  revert lo dst off. induction idx as [|[a b] t IH]; intros lo dst off Hok; simpl.
  - intros [= <-]. rewrite rs_len_nil. split_and!; try done; try lia; constructor.
  - intros (s & Hs%or_panic_Ok & (dst' & Hd%or_panic_Ok & Hc)%obind_Ok)%obind_Ok.
    destruct Hok as (?&Hab&Ht). simpl in *.
    apply (IH _ _ _ Ht) in Hc as (Hl & Hb & Hoff & Hout & Hin).
    pose proof (put_length _ _ _ _ _ Hd) as Hld. rewrite Hld in *.
    pose proof (slice_inv _ _ _ _ Hs) as (?&?&Hse&Hsl). pose proof (put_inv _ _ _ _ _ Hd) as (?&?&?&_).
    rewrite rs_len_cons. split_and!; [done|rewrite rs_bounded_cons; done|lia| |].
    + intros i. rewrite in_rs_cons. unfold in_range; simpl. intros Hi. rewrite Hout by tauto.
      rewrite (put_lookup _ _ _ _ _ i Hd). rewrite decide_False; [done|tauto].
    + rewrite rs_values_cons.
      replace (take (b - a + rs_len t) (drop off packed))
        with (s ++ take (rs_len t) (drop (off + (b - a)) packed)).
      2:{ rewrite Hse. replace (off + (b - a) - off) with (b - a) by lia.
          rewrite <-drop_drop. apply take_take_drop. }
      apply Forall2_app; [|done].
      apply Forall2_same_length_lookup_2; [rewrite seq_length; lia|].
      intros k i x Hk Hx. apply lookup_seq in Hk as [-> Hk].
      rewrite Hout.
      * rewrite (put_lookup _ _ _ _ _ _ Hd). rewrite decide_True by lia.
        rewrite <-Hx. f_equal. lia.
      * intros Hi. pose proof (rs_ok_from_lb _ _ _ Ht Hi). lia.
Qed.

(** ** fill_ranges *)
Lemma fill_ranges_ok dst v idx : rs_bounded (length dst) idx -> exists r, fill_ranges dst v idx = Ok r.
Proof.
  revert dst. induction idx as [|[a b] t IH]; intros dst; [simpl; eauto|].
  rewrite rs_bounded_cons. simpl. intros (?&?&?).
  rewrite put_Some; [|lia|lia|rewrite replicate_length; lia]. simpl.
  apply IH. rewrite !app_length, !take_length, !drop_length, replicate_length.
  replace (_ + _) with (length dst) by lia. done.
Qed.
Lemma fill_ranges_spec dst v idx r :
  fill_ranges dst v idx = Ok r ->
  length r = length dst /\ rs_bounded (length dst) idx /\
  forall i, r !! i = if decide (in_rs i idx) then Some v else dst !! i.
Proof.
  revert dst. induction idx as [|[a b] t IH]; intros dst; simpl.
  - intros [= <-]. split_and!; [done|constructor|]. intros i.
    rewrite decide_False; [done|]. rewrite in_rs_nil; tauto.
  - intros (dst' & Hd%or_panic_Ok & Hc)%obind_Ok.
    apply IH in Hc as (Hl & Hb & Hlk). pose proof (put_length _ _ _ _ _ Hd) as Hld.
    pose proof (put_inv _ _ _ _ _ Hd) as (?&?&?&_).
    rewrite Hld in *. split_and!; [done|rewrite rs_bounded_cons; done|].
    intros i. rewrite Hlk, (put_lookup _ _ _ _ _ i Hd).
    destruct (decide (in_rs i t)) as [Ht|Ht].
    + rewrite decide_True; [done|]. rewrite in_rs_cons. tauto.
    + destruct (decide (a <= i < b)).
      * rewrite lookup_replicate_2 by lia. rewrite decide_True; [done|].
        rewrite in_rs_cons. left. done.
      * rewrite decide_False; [done|]. rewrite in_rs_cons. unfold in_range; simpl. tauto.
Qed.
