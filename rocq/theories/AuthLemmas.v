(** Proofs about the authentication of plaintext (C31-C33). *)
From Verif.Lib Require Import Base Ranges RangesFacts.
From Verif Require Import TranscriptModel TranscriptProofs ProofModel CodecModel AttestModel TlsModel
  AuthModel AuthSpec AuthMapLemmas AuthKsLemmas.

(** ** Layout of the pieces *)
Fixpoint layout (p : nat) (ranges : rangeset) : refmap :=
  match ranges with
  | [] => []
  | (a, b) :: t => (a, VRef p (b - a)) :: layout (p + (b - a)) t
  end.

Lemma pieces_layout base total ranges : forall pos, pos + rs_len ranges <= total ->
  Forall (fun r => fst r < snd r) ranges ->
  pieces (VRef base total) pos ranges = Ok (layout (base + pos) ranges).
Proof.
  induction ranges as [|[a b] t IH]; intros pos Hl Hne; [done|].
  apply Forall_cons in Hne as [Hab Hne]. rewrite rs_len_cons in Hl. cbn [pieces layout fst snd] in *.
  unfold vref_get. cbn [v_len v_base].
  replace ((pos <=? pos + (b - a)) && (pos + (b - a) <=? total)) with true by lia.
  cbn [or_panic obind]. rewrite IH by (done || lia). cbn [obind].
  replace (pos + (b - a) - pos) with (b - a) by lia. by rewrite Nat.add_assoc.
Qed.

Lemma rs_ok_nonempty lo rs : rs_ok_from lo rs -> Forall (fun r => fst r < snd r) rs.
Proof.
  revert lo. induction rs as [|[a b] t IH]; intros lo; [constructor|]. intros (? & ? & ?).
  constructor; [done|]. by eapply IH.
Qed.

Lemma layout_laid_out lo p ranges : rs_ok_from lo ranges -> laid_out lo (layout p ranges).
Proof.
  revert lo p. induction ranges as [|[a b] t IH]; intros lo p; [done|]. intros (? & ? & Ht).
  cbn [layout laid_out v_len]. split; [lia|]. eapply laid_out_mono; [|by apply IH]. lia.
Qed.

Lemma piece_map_layout base ranges : rs_ok ranges ->
  piece_map (VRef base (rs_len ranges)) ranges = Ok (layout base ranges).
Proof.
  intros Hok. unfold piece_map. rewrite pieces_layout; [|lia|by eapply rs_ok_nonempty].
  rewrite Nat.add_0_r. cbn [obind].
  destruct (map_from_spec 0 (layout base ranges)) as [[-> _]|[_ H]]; [done|].
  destruct H. by apply layout_laid_out.
Qed.

Lemma layout_keys p ranges : Forall (fun r => fst r < snd r) ranges -> map_keys (layout p ranges) = ranges.
Proof.
  revert p. induction ranges as [|[a b] t IH]; intros p Hne; [done|].
  apply Forall_cons in Hne as [Hab Hne]. cbn [layout map_keys map v_len fst snd] in *. f_equal.
  - f_equal. lia.
  - by apply IH.
Qed.

Lemma rs_from_canonical ranges : rs_ok ranges -> rs_from ranges = ranges.
Proof. intros H. apply rs_ext; [apply rs_from_ok|done|]. intros i. apply in_rs_from. Qed.

Lemma layout_nil p ranges : layout p ranges = [] <-> ranges = [].
Proof. destruct ranges as [|[a b] t]; split; done. Qed.

Lemma layout_recorded p ranges i x : Forall (fun r => fst r < snd r) ranges ->
  recorded (layout p ranges) i x <-> exists k, rs_values ranges !! k = Some i /\ x = p + k.
Proof.
  revert p x. induction ranges as [|[a b] t IH]; intros p x Hne.
  { split; [by intros (? & ? & ?%elem_of_nil & _)|by intros (k & ? & _)]. }
  apply Forall_cons in Hne as [Hab Hne]. simpl in Hab. specialize (IH (p + (b - a)) x Hne).
  rewrite rs_values_cons. cbn [layout]. split.
  - intros (base & r & Hin & Hi & ->). apply elem_of_cons in Hin as [[= -> ->]|Hin].
    + cbn [v_len v_base] in *. exists (i - a). split; [|done]. rewrite lookup_app_l by (rewrite seq_length; lia).
      rewrite lookup_seq_lt by lia. f_equal. lia.
    + destruct (proj1 IH) as (k & Hk & ->); [by exists base, r|]. exists (b - a + k). split; [|lia].
      rewrite lookup_app_r by (rewrite seq_length; lia). rewrite seq_length.
      by replace (b - a + k - (b - a)) with k by lia.
  - intros (k & Hk & Hxk). apply lookup_app_Some in Hk as [Hk|[Hk1 Hk2]].
    + apply lookup_seq in Hk as [-> Hk]. exists a, (VRef p (b - a)). cbn [v_len v_base].
      split_and!; [by left|lia|lia|lia].
    + rewrite seq_length in Hk1, Hk2. destruct (proj2 IH) as (base & r & Hin & Hi & Hx).
      { exists (k - (b - a)). split; [done|lia]. }
      exists base, r. split_and!; [by right|lia|lia|done].
Qed.

(** Positions and addresses determine each other. *)
Lemma layout_functional p ranges i x x' : rs_ok ranges ->
  recorded (layout p ranges) i x -> recorded (layout p ranges) i x' -> x = x'.
Proof.
  intros Hok. rewrite !layout_recorded by (by eapply rs_ok_nonempty). intros (k & Hk & ->) (k' & Hk' & ->).
  f_equal. eapply NoDup_lookup; [by apply rs_values_NoDup|done|done].
Qed.
Lemma layout_injective p ranges i i' x : rs_ok ranges ->
  recorded (layout p ranges) i x -> recorded (layout p ranges) i' x -> i = i'.
Proof.
  intros Hok. rewrite !layout_recorded by (by eapply rs_ok_nonempty). intros (k & Hk & ->) (k' & Hk' & Hx).
  replace k' with k in Hk' by lia. congruence.
Qed.

(** A range inside a canonical set lies inside one of its ranges. *)
Lemma rs_one_range lo y a b : rs_ok_from lo y -> a < b -> (forall i, a <= i < b -> in_rs i y) ->
  exists c d, (c, d) ∈ y /\ c <= a /\ b <= d.
Proof.
  revert lo. induction y as [|[c d] t IH]; intros lo Hok Hab Hin.
  { specialize (Hin a ltac:(lia)). by apply in_rs_nil in Hin. }
  destruct Hok as (H1 & H2 & H3).
  pose proof (Hin a ltac:(lia)) as [Ha|Ha]%in_rs_cons.
  - exists c, d. unfold in_range in Ha. simpl in Ha. split_and!; [by left|lia|].
    destruct (decide (b <= d)); [done|]. specialize (Hin d ltac:(lia)). apply in_rs_cons in Hin as [Hd|Hd].
    + unfold in_range in Hd. simpl in Hd. lia.
    + pose proof (rs_ok_from_lb _ _ _ H3 Hd). lia.
  - destruct (IH (S d) H3 Hab) as (c' & d' & Hc & ? & ?).
    { intros i Hi. destruct (proj1 (in_rs_cons _ _ _) (Hin i Hi)) as [Hd|Hd]; [|done].
      pose proof (rs_ok_from_lb _ _ _ H3 Ha). unfold in_range in Hd. simpl in Hd. lia. }
    exists c', d'. split_and!; [by right|done|done].
Qed.

Lemma layout_elem p ranges c d : (c, d) ∈ ranges -> exists q, (c, VRef q (d - c)) ∈ layout p ranges.
Proof.
  revert p. induction ranges as [|[a b] t IH]; intros p Hin; [by apply elem_of_nil in Hin|].
  cbn [layout]. apply elem_of_cons in Hin as [[= -> ->]|Hin].
  - exists p. by left.
  - destruct (IH (p + (b - a)) Hin) as [q Hq]. exists q. by right.
Qed.

Lemma layout_in_one_piece p ranges a b : rs_ok ranges -> a < b ->
  (forall i, a <= i < b -> in_rs i ranges) ->
  exists q, in_one_piece (layout p ranges) a b (VRef q (b - a)).
Proof.
  intros Hok Hab Hin. destruct (rs_one_range 0 ranges a b Hok Hab Hin) as (c & d & Hcd & H1 & H2).
  destruct (layout_elem p _ _ _ Hcd) as [q Hq]. exists (q + (a - c)). split; [done|].
  exists c, (VRef q (d - c)). cbn [v_len v_base]. split_and!; [done|done|lia|done].
Qed.

Lemma one_piece_recorded m a b r i : in_one_piece m a b r -> a <= i < b -> recorded m i (v_base r + (i - a)).
Proof.
  intros (Hab & base & it & Hin & H1 & H2 & ->) Hi. exists base, it. cbn [v_base]. split_and!; [done|lia|lia|lia].
Qed.
Lemma one_piece_len m a b r : in_one_piece m a b r -> v_len r = b - a.
Proof. intros (_ & base & it & _ & _ & _ & ->). done. Qed.

(** [index] of a subset succeeds, with the pieces of the ranges. *)
Lemma index_expect_ok p ranges idx : rs_ok ranges -> rs_ok idx -> (forall i, in_rs i idx -> in_rs i ranges) ->
  exists m', index_expect (layout p ranges) idx = Ok m' /\
    Forall2 (fun r e => fst e = fst r /\ in_one_piece (layout p ranges) (fst r) (snd r) (snd e)) idx m'.
Proof.
  intros Hok Hidx Hsub. pose proof (layout_laid_out 0 p ranges Hok) as Hl.
  destruct (map_index_spec 0 _ idx Hl) as (o & Ho & Hspec); [by eapply rs_ok_nonempty|].
  unfold index_expect. rewrite Ho. cbn [lift_panic obind].
  assert (exists m', Forall2 (fun r e => fst e = fst r /\ in_one_piece (layout p ranges) (fst r) (snd r) (snd e)) idx m')
    as [m' Hm'].
  { clear Ho Hspec Hl. assert (Hne := rs_ok_nonempty 0 idx Hidx). clear Hidx.
    induction idx as [|[a b] idx IH]; [by exists []|]. apply Forall_cons in Hne as [Hab Hne].
    destruct IH as [m' Hm']; [intros i Hi; apply Hsub, in_rs_cons; by right|done|].
    destruct (layout_in_one_piece p ranges a b Hok Hab) as [q Hq].
    { intros i Hi. apply Hsub, in_rs_cons. left. done. }
    exists ((a, VRef q (b - a)) :: m'). constructor; done. }
  pose proof (proj2 (Hspec m') Hm') as ->. exists m'. done.
Qed.

(** ** Assignments *)
Definition covers (refs : refmap) (x : nat) : Prop :=
  exists i r, (i, r) ∈ refs /\ v_base r <= x < v_base r + v_len r.

Lemma vm_assign_ok m r d : v_base r + v_len r <= length m -> length d = v_len r ->
  exists m', vm_assign m r d = Ok m' /\ length m' = length m /\
  forall x, m' !! x = if decide (v_base r <= x < v_base r + v_len r) then d !! (x - v_base r) else m !! x.
Proof.
  intros Hb Hd. unfold vm_assign. rewrite put_Some by lia. eexists. split; [done|].
  pose proof (put_Some m (v_base r) (v_base r + v_len r) d ltac:(lia) ltac:(lia) ltac:(lia)) as Hp.
  split; [by eapply put_length|]. intros x. by rewrite (put_lookup _ _ _ _ _ x Hp).
Qed.

Lemma assign_plain_spec refs : forall m plain,
  (forall i r, (i, r) ∈ refs -> v_base r + v_len r <= length m /\ i + v_len r <= length plain) ->
  exists m', assign_plain m plain refs = Ok m' /\ length m' = length m /\
  forall x, (m' !! x = m !! x /\ ~ covers refs x) \/
    exists i r, (i, r) ∈ refs /\ v_base r <= x < v_base r + v_len r /\ m' !! x = plain !! (i + (x - v_base r)).
Proof.
  induction refs as [|[i r] refs IH]; intros m plain Hb.
  { exists m. split_and!; [done|done|]. intros x. left. split; [done|]. by intros (? & ? & ?%elem_of_nil & _). }
  destruct (Hb i r) as [Hb1 Hb2]; [by left|]. cbn [assign_plain].
  rewrite slice_Some by lia. cbn [or_panic obind].
  replace (i + v_len r - i) with (v_len r) by lia.
  destruct (vm_assign_ok m r (take (v_len r) (drop i plain))) as (m1 & -> & Hl1 & Hm1); [done| |].
  { rewrite take_length, drop_length. lia. }
  cbn [obind]. destruct (IH m1 plain) as (m2 & -> & Hl2 & Hm2).
  { intros j s Hj. rewrite Hl1. apply Hb. by right. }
  exists m2. split_and!; [done|lia|]. intros x. destruct (Hm2 x) as [[Hx Hc]|(j & s & Hj & Hxs & Hv)].
  - rewrite Hm1 in Hx. case_decide as Hd.
    + right. exists i, r. split_and!; [by left|lia|lia|]. rewrite Hx.
      rewrite lookup_take, lookup_drop by lia. done.
    + left. split; [done|]. intros (j & s & [[= -> ->]|Hj]%elem_of_cons & Hxs); [lia|]. apply Hc. by exists j, s.
  - right. exists j, s. split_and!; [by right|lia|lia|done].
Qed.

Lemma blind_all_spec wit refs : forall m,
  (forall i r, (i, r) ∈ refs -> v_base r + v_len r <= length m) ->
  exists m', blind_all wit m refs = Ok m' /\ length m' = length m /\
  forall x, (m' !! x = m !! x /\ ~ covers refs x) \/ (covers refs x /\ m' !! x = Some (wit x)).
Proof.
  induction refs as [|[i r] refs IH]; intros m Hb.
  { exists m. split_and!; [done|done|]. intros x. left. split; [done|]. by intros (? & ? & ?%elem_of_nil & _). }
  pose proof (Hb i r ltac:(by left)) as Hb1. cbn [blind_all]. unfold vm_blind.
  destruct (vm_assign_ok m r (map wit (seq (v_base r) (v_len r)))) as (m1 & -> & Hl1 & Hm1); [done| |].
  { by rewrite map_length, seq_length. }
  cbn [obind]. destruct (IH m1) as (m2 & -> & Hl2 & Hm2).
  { intros j s Hj. rewrite Hl1. apply (Hb j). by right. }
  exists m2. split_and!; [done|lia|]. intros x. destruct (Hm2 x) as [[Hx Hc]|[(j & s & Hj & Hxs) Hv]].
  - rewrite Hm1 in Hx. case_decide as Hd.
    + right. split; [exists i, r; split; [by left|lia]|]. rewrite Hx.
      rewrite list_lookup_fmap, lookup_seq_lt by lia. simpl. do 2 f_equal. lia.
    + left. split; [done|]. intros (j & s & [[= -> ->]|Hj]%elem_of_cons & Hxs); [lia|]. apply Hc. by exists j, s.
  - right. split; [|done]. exists j, s. split; [by right|lia].
Qed.

(** The entries of [index] cover exactly the addresses of the indexed positions. *)
Lemma index_covers p ranges idx m' : rs_ok ranges ->
  Forall2 (fun r e => fst e = fst r /\ in_one_piece (layout p ranges) (fst r) (snd r) (snd e)) idx m' ->
  (forall i r, (i, r) ∈ m' -> exists b, (i, b) ∈ idx /\ in_one_piece (layout p ranges) i b r) /\
  (forall i x, in_rs i idx -> recorded (layout p ranges) i x -> covers m' x).
Proof.
  intros Hok HF. split.
  - intros i r [k Hk]%elem_of_list_lookup. destruct (Forall2_lookup_r _ _ _ _ _ HF Hk) as ([a b] & Hab & H1 & H2).
    simpl in *. subst i. exists b. split; [by eapply elem_of_list_lookup_2|done].
  - intros i x (( a & b) & Hab & Hi)%Exists_exists Hx.
    apply elem_of_list_lookup in Hab as [k Hk].
    destruct (Forall2_lookup_l _ _ _ _ _ HF Hk) as ([j r] & Hj & H1 & H2). simpl in *.
    exists j, r. split; [by eapply elem_of_list_lookup_2|].
    unfold in_range in Hi. simpl in Hi.
    pose proof (one_piece_recorded _ _ _ _ _ H2 Hi) as Hx'.
    rewrite (layout_functional _ _ _ _ _ Hok Hx Hx'). rewrite (one_piece_len _ _ _ _ H2). lia.
Qed.

Lemma layout_bounds p ranges i r : rs_ok ranges -> (i, r) ∈ layout p ranges ->
  p <= v_base r /\ v_base r + v_len r <= p + rs_len ranges.
Proof.
  intros _. revert p. induction ranges as [|[a b] t IH]; intros p Hin; [by apply elem_of_nil in Hin|].
  rewrite rs_len_cons. cbn [layout] in Hin. apply elem_of_cons in Hin as [[= -> ->]|Hin]; [simpl; lia|].
  destruct (IH _ Hin). lia.
Qed.
Lemma one_piece_bounds p ranges a b r : rs_ok ranges -> in_one_piece (layout p ranges) a b r ->
  p <= v_base r /\ v_base r + v_len r <= p + rs_len ranges.
Proof.
  intros Hok (Hab & base & it & Hin & H1 & H2 & ->). destruct (layout_bounds _ _ _ _ Hok Hin). simpl. lia.
Qed.

Lemma recorded_bounds p ranges i x : rs_ok ranges -> recorded (layout p ranges) i x -> p <= x < p + rs_len ranges.
Proof.
  intros Hok (base & r & Hin & Hi & ->). destruct (layout_bounds _ _ _ _ Hok Hin). lia.
Qed.

Lemma recorded_total p ranges i : rs_ok ranges -> in_rs i ranges -> exists x, recorded (layout p ranges) i x.
Proof.
  intros Hok Hi. apply in_rs_values, elem_of_list_lookup in Hi as [k Hk]. exists (p + k).
  apply layout_recorded; [by eapply rs_ok_nonempty|]. by exists k.
Qed.
Lemma recorded_in p ranges i x : rs_ok ranges -> recorded (layout p ranges) i x -> in_rs i ranges.
Proof.
  intros Hok (k & Hk & _)%layout_recorded; [|by eapply rs_ok_nonempty].
  apply in_rs_values. by eapply elem_of_list_lookup_2.
Qed.
Lemma address_total p ranges x : rs_ok ranges -> p <= x < p + rs_len ranges ->
  exists i, recorded (layout p ranges) i x.
Proof.
  intros Hok Hx. destruct (lookup_lt_is_Some_2 (rs_values ranges) (x - p)) as [i Hi].
  { rewrite rs_values_length. lia. }
  exists i. apply layout_recorded; [by eapply rs_ok_nonempty|]. exists (x - p). split; [done|lia].
Qed.

(** ** The plaintext phase *)
Lemma alloc_plaintext_ok m ranges : rs_ok ranges ->
  alloc_plaintext m ranges = Ok (m ++ replicate (rs_len ranges) 0%N, layout (length m) ranges).
Proof.
  intros Hok. unfold alloc_plaintext. destruct (rs_len ranges =? 0) eqn:E.
  - assert (ranges = []) as ->.
    { destruct ranges as [|[a b] t]; [done|]. destruct Hok as (_ & ? & _). rewrite rs_len_cons in E. lia. }
    simpl. by rewrite app_nil_r.
  - unfold vm_alloc, vm_push. rewrite replicate_length, piece_map_layout by done. done.
Qed.

Lemma prefix_of_lookup (m m' : list N) : length m <= length m' ->
  (forall x, x < length m -> m' !! x = m !! x) -> m `prefix_of` m'.
Proof.
  intros Hl Hx. exists (drop (length m) m'). apply list_eq. intros x.
  destruct (decide (x < length m)).
  - rewrite lookup_app_l by done. by apply Hx.
  - rewrite lookup_app_r, lookup_drop by lia. f_equal. lia.
Qed.

Section Phase.
  Context (wit : nat -> N) (m : mem) (plain : list N) (reveal commit : rangeset).
  Context (Hrev : rs_ok reveal) (Hcom : rs_ok commit).
  Context (Hrb : rs_end reveal <= length plain).
  Let ranges := rs_union commit reveal.
  Let m1 := m ++ replicate (rs_len ranges) 0%N.

  Lemma union_ok : rs_ok ranges.
  Proof. by apply rs_union_ok. Qed.
  Lemma in_union i : in_rs i ranges <-> in_rs i commit \/ in_rs i reveal.
  Proof. by apply in_rs_union. Qed.

  Lemma zk_phase : exists hidden shown m2 m3,
    index_expect (layout (length m) ranges) (rs_diff commit reveal) = Ok hidden /\
    blind_all wit m1 hidden = Ok m2 /\
    index_expect (layout (length m) ranges) reveal = Ok shown /\
    assign_plain m2 plain shown = Ok m3 /\
    m `prefix_of` m3 /\ length m3 = length m + rs_len ranges /\
    forall i x, recorded (layout (length m) ranges) i x ->
      (in_rs i reveal -> m3 !! x = plain !! i) /\ (~ in_rs i reveal -> m3 !! x = Some (wit x)).
  Proof.
    pose proof union_ok as Hok.
    assert (Hd : rs_ok (rs_diff commit reveal)) by (by apply rs_diff_ok).
    destruct (index_expect_ok (length m) ranges (rs_diff commit reveal)) as (hidden & Hh & HFh); [done|done| |].
    { intros i Hi. apply in_union. apply in_rs_diff in Hi; [|done]. tauto. }
    destruct (index_expect_ok (length m) ranges reveal) as (shown & Hs & HFs); [done|done| |].
    { intros i Hi. apply in_union. by right. }
    destruct (index_covers _ _ _ _ Hok HFh) as [Hh1 Hh2].
    destruct (index_covers _ _ _ _ Hok HFs) as [Hs1 Hs2].
    assert (Hl1 : length m1 = length m + rs_len ranges).
    { unfold m1. by rewrite app_length, replicate_length. }
    destruct (blind_all_spec wit hidden m1) as (m2 & Hm2 & Hl2 & Hx2).
    { intros i r Hi. destruct (Hh1 _ _ Hi) as (b & _ & Hp). destruct (one_piece_bounds _ _ _ _ _ Hok Hp). lia. }
    destruct (assign_plain_spec shown m2 plain) as (m3 & Hm3 & Hl3 & Hx3).
    { intros i r Hi. destruct (Hs1 _ _ Hi) as (b & Hb & Hp). destruct (one_piece_bounds _ _ _ _ _ Hok Hp).
      split; [lia|]. rewrite (one_piece_len _ _ _ _ Hp). destruct Hp as [Hib _].
      assert (Hend : forall i, in_rs i reveal -> i < length plain) by (by apply rs_end_le_ok).
      assert (b - 1 < length plain); [|lia]. apply Hend.
      apply Exists_exists. exists (i, b). split; [done|]. unfold in_range. simpl. lia. }
    exists hidden, shown, m2, m3. split_and!; try done; [|lia|].
    - apply prefix_of_lookup; [lia|]. intros x Hx.
      assert (Hm1x : m1 !! x = m !! x) by (unfold m1; by rewrite lookup_app_l).
      destruct (Hx3 x) as [[-> _]|(i & r & Hi & Hxr & _)].
      2: { destruct (Hs1 _ _ Hi) as (b & _ & Hp). destruct (one_piece_bounds _ _ _ _ _ Hok Hp). lia. }
      destruct (Hx2 x) as [[-> _]|[(i & r & Hi & Hxr) _]]; [done|].
      destruct (Hh1 _ _ Hi) as (b & _ & Hp). destruct (one_piece_bounds _ _ _ _ _ Hok Hp). lia.
    - intros i x Hx. split.
      + intros Hi. destruct (Hx3 x) as [[_ Hc]|(j & r & Hj & Hxr & ->)]; [by destruct Hc; eapply Hs2|].
        destruct (Hs1 _ _ Hj) as (b & _ & Hp).
        pose proof (one_piece_len _ _ _ _ Hp) as Hlen.
        pose proof (one_piece_recorded _ _ _ _ (j + (x - v_base r)) Hp ltac:(lia)) as Hrec.
        replace (v_base r + (j + (x - v_base r) - j)) with x in Hrec by lia.
        f_equal. exact (layout_injective _ _ _ _ _ Hok Hrec Hx).
      + intros Hi. destruct (Hx3 x) as [[-> _]|(j & r & Hj & Hxr & _)].
        2: { exfalso. destruct (Hs1 _ _ Hj) as (b & Hb & Hp).
             pose proof (one_piece_len _ _ _ _ Hp) as Hlen.
             pose proof (one_piece_recorded _ _ _ _ (j + (x - v_base r)) Hp ltac:(lia)) as Hrec.
             replace (v_base r + (j + (x - v_base r) - j)) with x in Hrec by lia.
             pose proof (layout_injective _ _ _ _ _ Hok Hx Hrec) as ->. apply Hi.
             apply Exists_exists. exists (j, b). split; [done|]. unfold in_range. simpl. lia. }
        destruct (Hx2 x) as [[_ Hc]|[_ ->]]; [|done]. destruct Hc. apply (Hh2 i); [|done].
        apply in_rs_diff; [done|]. split; [|done].
        pose proof (recorded_in _ _ _ _ Hok Hx) as Hu%in_union. tauto.
  Qed.
End Phase.

(** Assigning every piece of a layout. *)
Lemma assign_layout m plain ranges : rs_ok ranges -> rs_end ranges <= length plain ->
  exists m2, assign_plain (m ++ replicate (rs_len ranges) 0%N) plain (layout (length m) ranges) = Ok m2 /\
    m `prefix_of` m2 /\ length m2 = length m + rs_len ranges /\
    forall i x, recorded (layout (length m) ranges) i x -> m2 !! x = plain !! i.
Proof.
  intros Hok Hend. set (m1 := m ++ replicate (rs_len ranges) 0%N).
  assert (Hl1 : length m1 = length m + rs_len ranges).
  { unfold m1. by rewrite app_length, replicate_length. }
  assert (Hlt : forall i, in_rs i ranges -> i < length plain) by (by apply rs_end_le_ok).
  assert (Hrec : forall i r x, (i, r) ∈ layout (length m) ranges -> v_base r <= x < v_base r + v_len r ->
    recorded (layout (length m) ranges) (i + (x - v_base r)) x).
  { intros i r x Hi Hx. exists i, r. split_and!; [done|lia|lia|lia]. }
  destruct (assign_plain_spec (layout (length m) ranges) m1 plain) as (m2 & Hm2 & Hl2 & Hx2).
  { intros i r Hi. destruct (layout_bounds _ _ _ _ Hok Hi). split; [lia|].
    destruct (decide (v_len r = 0)) as [Hz|Hz].
    - (* no empty pieces *) exfalso. assert (Hne := rs_ok_nonempty 0 _ Hok).
      clear - Hi Hz Hne. revert Hi. generalize (length m). induction ranges as [|[a b] t IH]; intros p Hi;
        [by apply elem_of_nil in Hi|]. apply Forall_cons in Hne as [Hab Hne]. cbn [layout] in Hi.
      apply elem_of_cons in Hi as [[= -> ->]|Hi]; [simpl in *; lia|]. by eapply IH.
    - pose proof (Hrec i r (v_base r + (v_len r - 1)) Hi ltac:(lia)) as Hr.
      pose proof (Hlt _ (recorded_in _ _ _ _ Hok Hr)). lia. }
  exists m2. split_and!; [done| |lia|].
  - apply prefix_of_lookup; [lia|]. intros x Hx.
    assert (Hm1x : m1 !! x = m !! x) by (unfold m1; by rewrite lookup_app_l).
    destruct (Hx2 x) as [[-> _]|(i & r & Hi & Hxr & _)]; [done|].
    destruct (layout_bounds _ _ _ _ Hok Hi). lia.
  - intros i x Hx. destruct (Hx2 x) as [[_ Hc]|(j & r & Hj & Hxr & ->)].
    + destruct Hc. destruct Hx as (base & r & Hin & Hi & ->). exists base, r. split; [done|lia].
    + f_equal. eapply layout_injective; [done| |done]. by apply Hrec.
Qed.

(** ** Reading a layout *)
Lemma vm_read_in m p n : p + n <= length m -> vm_read m (VRef p n) = Ok (take n (drop p m)).
Proof. intros H. by apply vm_read_ok. Qed.

Lemma read_layout m p ranges : p + rs_len ranges <= length m ->
  vm_read_all m (map snd (layout p ranges)) = Ok (take (rs_len ranges) (drop p m)).
Proof.
  revert p. induction ranges as [|[a b] t IH]; intros p Hl; [done|]. rewrite rs_len_cons in Hl.
  cbn [layout map snd vm_read_all]. rewrite vm_read_in by lia.
  cbn [obind v_len v_base]. rewrite IH by lia. cbn [obind]. f_equal. rewrite rs_len_cons.
  rewrite <- drop_drop. apply list_eq. intros k.
  destruct (decide (k < b - a)).
  - rewrite lookup_app_l by (rewrite take_length, drop_length; lia). by rewrite !lookup_take by lia.
  - rewrite lookup_app_r by (rewrite take_length, drop_length; lia). rewrite take_length, drop_length.
    replace (min (b - a) (length m - p)) with (b - a) by lia.
    destruct (decide (k < b - a + rs_len t)).
    + rewrite !lookup_take by lia. rewrite !lookup_drop. f_equal. lia.
    + rewrite !lookup_take_ge by lia. done.
Qed.

Lemma expected_layout m ct ranges q : rs_ok ranges -> rs_end ranges <= length ct -> q + rs_len ranges <= length m ->
  exists ex, expected_cts ct (layout q ranges) = Ok ex /\
    forall m'', m `prefix_of` m'' ->
    (verify_cts m'' ex = Ok tt \/ verify_cts m'' ex = Err AInvalidPlaintext) /\
    (verify_cts m'' ex = Ok tt <-> forall i x, recorded (layout q ranges) i x -> ct !! i = m !! x).
Proof.
  intros Hok. assert (Hne := rs_ok_nonempty 0 _ Hok).
  intros Hend Hq. pose proof (proj1 (rs_end_le_ok _ _ Hok) Hend) as Hlt. clear Hok Hend. rename Hlt into Hend. revert q Hq.
  induction ranges as [|[a b] t IH]; intros q Hq.
  { exists []. split; [done|]. intros m'' _. split; [by left|]. split; [|done].
    intros _ i x (? & ? & []%elem_of_nil & _). }
  apply Forall_cons in Hne as [Hab Hne]. simpl in Hab. rewrite rs_len_cons in Hq. cbn [layout expected_cts v_len].
  assert (Hb : b <= length ct).
  { assert (b - 1 < length ct); [|lia]. apply Hend, in_rs_cons. left. unfold in_range. simpl. lia. }
  replace (a + (b - a)) with b by lia. rewrite slice_Some by lia. cbn [or_panic obind].
  destruct (IH Hne) with (q := q + (b - a)) as (ex & -> & Hex); [intros i Hi; apply Hend, in_rs_cons; by right|lia|].
  eexists. split; [done|]. intros m'' Hp. destruct (Hex m'' Hp) as [Hor Hiff]. cbn [verify_cts].
  pose proof (vm_read_prefix m m'' (VRef q (b - a)) _ Hp (vm_read_in m q (b - a) ltac:(lia))) as Hr.
  rewrite Hr. cbn [obind v_len v_base].
  case_bool_decide as Heq.
  - split; [done|]. rewrite Hiff. split.
    + intros Hall i x (base & r & [[= -> ->]|Hin]%elem_of_cons & Hi & ->).
      * simpl in *. pose proof (f_equal (fun l => l !! (i - a)) Heq) as He. simpl in He.
        rewrite !lookup_take, !lookup_drop in He by lia. rewrite He. f_equal. lia.
      * apply Hall. by exists base, r.
    + intros Hall i x (base & r & Hin & Hi & ->). apply Hall. exists base, r. split_and!; [by right|lia|lia|done].
  - split; [by right|]. split; [done|]. intros Hall. exfalso. apply Heq. apply list_eq. intros k.
    destruct (decide (k < b - a)).
    + rewrite !lookup_take, !lookup_drop by lia. symmetry. apply Hall.
      exists a, (VRef q (b - a)). simpl. split_and!; [by left|lia|lia|lia].
    + rewrite !lookup_take_ge by lia. done.
Qed.

(** ** Decrypting with the key *)
Section Key.
  Context (aes : list N -> list N -> list N) (key iv : list N) (Haes : aes_ok aes).

  Lemma ctr_stream_lookup fuel n c i : i < 16 * fuel ->
    ctr_stream aes key iv fuel n (N.of_nat c) !! i =
    aes key (iv ++ n ++ be 4 (N.of_nat (c + i / 16))) !! (i mod 16).
  Proof.
    revert c i. induction fuel as [|fuel IH]; intros c i Hi; [lia|]. cbn [ctr_stream].
    destruct (decide (i < 16)).
    - rewrite lookup_app_l by (rewrite Haes; lia). rewrite Nat.div_small, Nat.mod_small by lia.
      by rewrite Nat.add_0_r.
    - rewrite lookup_app_r by (rewrite Haes; lia). rewrite Haes.
      replace (N.of_nat c + 1)%N with (N.of_nat (S c)) by lia. rewrite IH by lia.
      replace i with (i - 16 + 1 * 16) at 3 4 by lia.
      rewrite Nat.div_add, Nat.mod_add by lia. do 5 f_equal. lia.
  Qed.

  Lemma ctr_stream_length fuel n c : length (ctr_stream aes key iv fuel n c) = 16 * fuel.
  Proof. revert c. induction fuel as [|fuel IH]; intros c; [done|]. cbn [ctr_stream]. rewrite app_length, Haes, IH. lia. Qed.

  Lemma apply_keystream_ok n input : length n = 8 ->
    exists out, apply_keystream aes key iv n input = Ok out /\ length out = length input /\
    forall i p, input !! i = Some p -> exists k, byte_of aes key iv n i = Some k /\ out !! i = Some (N.lxor p k).
  Proof.
    intros Hn. unfold apply_keystream. rewrite slice_Some by lia. cbn [or_panic obind].
    rewrite drop_0, take_ge by lia. eexists. split; [done|].
    assert (Hdiv := Nat.div_mod_eq (length input) 16).
    assert (Hmod := Nat.mod_upper_bound (length input) 16 ltac:(lia)).
    split.
    - unfold xor_bytes. rewrite zip_with_length, ctr_stream_length. lia.
    - intros i p Hp. pose proof (lookup_lt_Some _ _ _ Hp) as Hi.
      assert (Hk : ctr_stream aes key iv (length input / 16 + 1) n 2 !! i = byte_of aes key iv n i).
      { change 2%N with (N.of_nat 2). rewrite ctr_stream_lookup by lia. unfold byte_of, block_of.
        do 5 f_equal. lia. }
      destruct (lookup_lt_is_Some_2 (ctr_stream aes key iv (length input / 16 + 1) n 2) i) as [k Hkk].
      { rewrite ctr_stream_length. lia. }
      exists k. split; [by rewrite <- Hk|]. unfold xor_bytes. by rewrite lookup_zip_with, Hp, Hkk.
  Qed.

  Lemma verify_with_key_spec rs : nonces_ok rs -> forall pos plain ct,
    pos + length (all_ct rs) <= length plain -> length ct = length plain -> drop pos ct = all_ct rs ++ drop (pos + length (all_ct rs)) ct ->
    (verify_with_key aes key iv pos (rec_params_of rs) plain ct = Ok tt \/
     verify_with_key aes key iv pos (rec_params_of rs) plain ct = Err AInvalidPlaintext) /\
    (verify_with_key aes key iv pos (rec_params_of rs) plain ct = Ok tt <->
      forall i p, i < length (all_ct rs) -> plain !! (pos + i) = Some p -> encrypts aes key iv rs i p).
  Proof.
    induction rs as [|r rs IH]; intros Hn pos plain ct Hl Hlc Hd.
    { split; [by left|]. split; [|done]. intros _ i p Hi. simpl in Hi. lia. }
    apply Forall_cons in Hn as [Hr Hn].
    assert (Hct : all_ct (r :: rs) = r_ct r ++ all_ct rs) by done.
    rewrite Hct, app_length in Hl. cbn [rec_params_of map verify_with_key rp_len rp_nonce].
    change (map (fun r0 => RecParams (r_nonce r0) (length (r_ct r0))) rs) with (rec_params_of rs).
    rewrite (slice_Some plain) by lia. cbn [or_panic obind].
    replace (pos + length (r_ct r) - pos) with (length (r_ct r)) by lia.
    set (text := take (length (r_ct r)) (drop pos plain)).
    assert (Htl : length text = length (r_ct r)) by (unfold text; rewrite take_length, drop_length; lia).
    destruct (apply_keystream_ok (r_nonce r) text Hr) as (out & -> & Hol & Hout). cbn [lift_panic obind].
    rewrite (slice_Some ct) by lia. cbn [or_panic obind].
    replace (pos + length (r_ct r) - pos) with (length (r_ct r)) by lia.
    assert (Hc : take (length (r_ct r)) (drop pos ct) = r_ct r).
    { rewrite Hd, Hct, <- app_assoc. by rewrite take_app. }
    rewrite Hc.
    destruct (IH Hn (pos + length (r_ct r)) plain ct) as [Hor Hiff]; [lia|done| |].
    { rewrite <- drop_drop, Hd, Hct, <- app_assoc, drop_app. do 2 f_equal. rewrite app_length. lia. }
    assert (Hloc : forall i p, i < length (r_ct r) -> plain !! (pos + i) = Some p ->
      encrypts aes key iv (r :: rs) i p <-> out !! i = r_ct r !! i).
    { intros i p Hi Hp. destruct (Hout i p) as (k & Hk & Ho).
      { unfold text. by rewrite lookup_take, lookup_drop by lia. }
      destruct (lookup_lt_is_Some_2 (r_ct r) i Hi) as [c Hcc].
      unfold encrypts. cbn [keystream_at]. replace (i <? length (r_ct r)) with true by lia.
      rewrite Hct, lookup_app_l, Hcc, Ho by lia. split.
      - intros (k' & c' & Hk' & [= <-] & ->). unfold byte_of, block_of in Hk. rewrite Hk in Hk'.
        injection Hk' as <-. done.
      - intros [= <-]. exists k, (N.lxor p k). done. }
    assert (Hrest : forall i p, encrypts aes key iv rs i p <-> encrypts aes key iv (r :: rs) (length (r_ct r) + i) p).
    { intros i p. unfold encrypts. cbn [keystream_at].
      replace (length (r_ct r) + i <? length (r_ct r)) with false by lia.
      replace (length (r_ct r) + i - length (r_ct r)) with i by lia.
      rewrite Hct, lookup_app_r by lia. by replace (length (r_ct r) + i - length (r_ct r)) with i by lia. }
    case_bool_decide as Heq.
    - split; [done|]. rewrite Hiff. rewrite Hct, app_length. split.
      + intros Hall i p Hi Hp. destruct (decide (i < length (r_ct r))).
        * apply Hloc; [done|done|]. by rewrite Heq.
        * replace i with (length (r_ct r) + (i - length (r_ct r))) by lia. apply Hrest.
          apply Hall; [lia|]. rewrite <- Hp. f_equal. lia.
      + intros Hall i p Hi Hp. apply Hrest. apply Hall; [lia|]. rewrite <- Hp. f_equal. lia.
    - split; [by right|]. split; [done|]. intros Hall. exfalso. apply Heq. apply list_eq. intros i.
      destruct (decide (i < length (r_ct r))) as [Hi|Hi].
      + destruct (lookup_lt_is_Some_2 plain (pos + i)) as [p Hp]; [lia|].
        apply (Hloc i p Hi Hp). apply Hall; [|done]. rewrite Hct, app_length. lia.
      + rewrite !lookup_ge_None_2 by lia. done.
  Qed.
End Key.
