(** Property lemmas about transcripts (C01-C06). *)
From Verif.Lib Require Import Base Ranges RangesFacts.
From Verif Require Import TranscriptModel TranscriptProofs TranscriptSpec.

Lemma valid_idx_bounded n idx : valid_idx n idx -> rs_bounded n idx.
Proof. intros [? ?]. by apply rs_ok_in_bounded. Qed.
Lemma valid_idx_end n idx : valid_idx n idx <-> rs_ok idx /\ rs_end idx <= n.
Proof.
  unfold valid_idx. split; intros [Hok ?]; split; try done; by apply rs_end_le_ok.
Qed.
Lemma panicky_cases {A} (m : panicky A) : (exists a, m = Ok a) \/ m = Panic.
Proof. destruct m as [|[]|]; eauto. Qed.

Lemma shows_unique full idx x y : shows full idx x -> shows full idx y -> x = y.
Proof.
  intros [Hx1 Hx2] [Hy1 Hy2]. apply list_eq_same_length with (n := length full); [done|congruence|].
  intros i a b Hi Ha Hb.
  destruct (lookup_lt_is_Some_2 full i) as [c Hc]; [done|].
  specialize (Hx2 _ _ Hc). specialize (Hy2 _ _ Hc). congruence.
Qed.

Lemma copy_zero_shows full idx r :
  copy_ranges (replicate (length full) 0%N) full idx = Ok r -> shows full idx r.
Proof.
  intros (Hl & _ & _ & Hlk)%copy_ranges_spec. rewrite replicate_length in Hl. split; [done|].
  intros i b Hb. rewrite Hlk. case_decide; [done|]. apply lookup_replicate_2.
  by apply lookup_lt_Some in Hb.
Qed.

(** ** C01 *)
Lemma to_partial_ok t si ri :
  valid_idx (length (t_sent t)) si -> valid_idx (length (t_recv t)) ri ->
  exists p, to_partial t si ri = Ok p /\ p_sent_idx p = si /\ p_recv_idx p = ri /\
            shows (t_sent t) si (p_sent p) /\ shows (t_recv t) ri (p_recv p).
Proof.
  intros Hs Hr. unfold to_partial.
  destruct (copy_ranges_ok (replicate (length (t_sent t)) 0%N) (t_sent t) si) as [s Es];
    rewrite ?replicate_length; [done|by apply valid_idx_bounded|].
  destruct (copy_ranges_ok (replicate (length (t_recv t)) 0%N) (t_recv t) ri) as [r Er];
    rewrite ?replicate_length; [done|by apply valid_idx_bounded|].
  rewrite Es; simpl. rewrite Er; simpl. eexists; split; [done|]. simpl.
  split_and!; try done; by apply copy_zero_shows.
Qed.
Lemma to_partial_inv t si ri p :
  rs_ok si -> rs_ok ri -> to_partial t si ri = Ok p ->
  valid_idx (length (t_sent t)) si /\ valid_idx (length (t_recv t)) ri /\
  p_sent_idx p = si /\ p_recv_idx p = ri /\
  shows (t_sent t) si (p_sent p) /\ shows (t_recv t) ri (p_recv p).
Proof.
  intros Hs Hr. unfold to_partial.
  intros (s & Es & (r & Er & [= <-])%obind_Ok)%obind_Ok. simpl.
  split_and!; try done; try by apply copy_zero_shows.
  - apply copy_ranges_spec in Es as (_&_&Hb&_). split; [done|]. intros i. by apply rs_bounded_in.
  - apply copy_ranges_spec in Er as (_&_&Hb&_). split; [done|]. intros i. by apply rs_bounded_in.
Qed.
Lemma to_partial_panic t si ri :
  rs_ok si -> rs_ok ri ->
  to_partial t si ri = Panic <->
  (exists i, in_rs i si /\ length (t_sent t) <= i) \/ (exists i, in_rs i ri /\ length (t_recv t) <= i).
Proof.
  intros Hs Hr. split.
  - intros Hp.
    destruct (decide (rs_end si <= length (t_sent t))) as [H1|H1].
    + destruct (decide (rs_end ri <= length (t_recv t))) as [H2|H2].
      * destruct (to_partial_ok t si ri) as (p & Ep & _); [by apply valid_idx_end..|]. congruence.
      * right. destruct (decide (Exists (fun i => length (t_recv t) <= i) (rs_values ri))) as [He|He].
        -- apply Exists_exists in He as (i & Hi & ?). exists i. by rewrite <-in_rs_values.
        -- exfalso. apply H2. apply rs_end_le_ok; [done|]. intros i Hi%in_rs_values.
           destruct (decide (i < length (t_recv t))); [done|]. exfalso. apply He.
           apply Exists_exists. exists i. split; [done|lia].
    + left. destruct (decide (Exists (fun i => length (t_sent t) <= i) (rs_values si))) as [He|He].
      * apply Exists_exists in He as (i & Hi & ?). exists i. by rewrite <-in_rs_values.
      * exfalso. apply H1. apply rs_end_le_ok; [done|]. intros i Hi%in_rs_values.
        destruct (decide (i < length (t_sent t))); [done|]. exfalso. apply He.
        apply Exists_exists. exists i. split; [done|lia].
  - intros Hex. destruct (panicky_cases (to_partial t si ri)) as [[p Ep]|?]; [exfalso|done].
    apply to_partial_inv in Ep as ([_ H1] & [_ H2] & _); [|done..].
    destruct Hex as [(i & Hi & ?)|(i & Hi & ?)]; [apply H1 in Hi|apply H2 in Hi]; lia.
Qed.
Lemma shows_agree full full' idx x :
  length full = length full' -> (forall i, in_rs i idx -> full !! i = full' !! i) ->
  shows full idx x -> shows full' idx x.
Proof.
  intros Hl Hag [H1 H2]. split; [congruence|]. intros i b Hb.
  destruct (lookup_lt_is_Some_2 full i) as [c Hc]; [rewrite Hl; by eapply lookup_lt_Some|].
  rewrite (H2 _ _ Hc). case_decide as Hi; [|done]. rewrite Hag in Hc by done. congruence.
Qed.
Lemma to_partial_hides t t' si ri :
  rs_ok si -> rs_ok ri ->
  length (t_sent t) = length (t_sent t') -> length (t_recv t) = length (t_recv t') ->
  (forall i, in_rs i si -> t_sent t !! i = t_sent t' !! i) ->
  (forall i, in_rs i ri -> t_recv t !! i = t_recv t' !! i) ->
  to_partial t si ri = to_partial t' si ri.
Proof.
  intros Hs Hr Hl1 Hl2 Ha1 Ha2.
  destruct (panicky_cases (to_partial t si ri)) as [[p Ep]|Ep]; rewrite Ep.
  - apply to_partial_inv in Ep as (V1 & V2 & E1 & E2 & S1 & S2); [|done..].
    destruct (to_partial_ok t' si ri) as (q & Eq & F1 & F2 & T1 & T2);
      [by rewrite <-Hl1|by rewrite <-Hl2|]. rewrite Eq. f_equal.
    destruct p as [ps pr psi pri], q as [qs qr qsi qri]; simpl in *. subst.
    f_equal; (eapply shows_unique; [|done]); by eapply shows_agree.
  - symmetry. apply to_partial_panic; [done..|]. apply to_partial_panic in Ep; [|done..].
    by rewrite <-Hl1, <-Hl2.
Qed.
Lemma to_partial_discloses t si ri p :
  rs_ok si -> rs_ok ri -> to_partial t si ri = Ok p -> discloses t p.
Proof.
  intros Hs Hr (V1 & V2 & E1 & E2 & S1 & S2)%to_partial_inv; [|done..].
  split.
  - destruct S1 as [L1 _], S2 as [L2 _].
    intros []; simpl; rewrite ?E1, ?E2, ?L1, ?L2; done.
  - intros []; simpl; rewrite ?E1, ?E2; done.
Qed.
Lemma discloses_to_partial t p : discloses t p -> to_partial t (p_sent_idx p) (p_recv_idx p) = Ok p.
Proof.
  intros [Hwf Hs]. pose proof (Hs Sent) as Hs1. pose proof (Hs Received) as Hs2.
  pose proof (Hwf Sent) as Hw1. pose proof (Hwf Received) as Hw2. simpl in *.
  destruct (to_partial_ok t (p_sent_idx p) (p_recv_idx p)) as (q & Eq & F1 & F2 & T1 & T2).
  { destruct Hs1 as [<- _]. done. }
  { destruct Hs2 as [<- _]. done. }
  rewrite Eq. f_equal. destruct p as [ps pr psi pri], q as [qs qr qsi qri]; simpl in *. subst.
  f_equal; by eapply shows_unique.
Qed.

(** ** C02 / C03 *)
Lemma packed_roundtrip data idx bs r :
  rs_ok idx -> index_concat data idx = Ok bs ->
  copy_packed (replicate (length data) 0%N) bs 0 idx = Ok r -> shows data idx r.
Proof.
  intros Hok Hi Hc.
  pose proof (index_concat_length _ _ _ Hi) as Hlen.
  apply index_concat_spec in Hi.
  apply (copy_packed_spec 0) in Hc as (Hl & Hb & _ & Hout & Hin); [|done].
  rewrite replicate_length in *. split; [done|]. intros i b Hib. case_decide as Hd.
  - rewrite drop_0, take_ge in Hin by lia.
    apply in_rs_values, elem_of_list_lookup in Hd as [k Hk].
    destruct (Forall2_lookup_l _ _ _ _ _ Hi Hk) as (x & Hx & Hx1).
    destruct (Forall2_lookup_l _ _ _ _ _ Hin Hk) as (y & Hy & Hy1). congruence.
  - rewrite Hout by done. apply lookup_replicate_2. by apply lookup_lt_Some in Hib.
Qed.
Lemma compress_ok p : partial_wf p -> exists c, compress p = Ok c.
Proof.
  intros Hwf. unfold compress.
  destruct (index_concat_ok (p_sent p) (p_sent_idx p)) as [s Es].
  { apply valid_idx_bounded, (Hwf Sent). }
  destruct (index_concat_ok (p_recv p) (p_recv_idx p)) as [r Er].
  { apply valid_idx_bounded, (Hwf Received). }
  rewrite Es; simpl. rewrite Er; simpl. eauto.
Qed.
Lemma compress_inv p c : compress p = Ok c ->
  index_concat (p_sent p) (p_sent_idx p) = Ok (c_sent_authed c) /\
  index_concat (p_recv p) (p_recv_idx p) = Ok (c_recv_authed c) /\
  c_sent_idx c = p_sent_idx p /\ c_recv_idx c = p_recv_idx p /\
  c_sent_total c = length (p_sent p) /\ c_recv_total c = length (p_recv p).
Proof. unfold compress. intros (s & Es & (r & Er & [= <-])%obind_Ok)%obind_Ok. simpl. done. Qed.

Definition compressed_consistent (c : compressed) : Prop :=
  length (c_sent_authed c) = rs_len (c_sent_idx c) /\
  length (c_recv_authed c) = rs_len (c_recv_idx c) /\
  rs_end (c_sent_idx c) <= c_sent_total c /\ rs_end (c_recv_idx c) <= c_recv_total c.
Lemma validate_spec c : (exists e, validate c = Err e /\ ~ compressed_consistent c) \/
                        (validate c = Ok c /\ compressed_consistent c).
Proof.
  unfold validate, compressed_consistent.
  destruct (Nat.eqb_spec (length (c_sent_authed c)) (rs_len (c_sent_idx c))); simpl; [|left; eexists; split; [done|lia]].
  destruct (Nat.eqb_spec (length (c_recv_authed c)) (rs_len (c_recv_idx c))); simpl; [|left; eexists; split; [done|lia]].
  destruct (Nat.ltb_spec (c_sent_total c) (rs_end (c_sent_idx c))); simpl; [left; eexists; split; [done|lia]|].
  destruct (Nat.ltb_spec (c_recv_total c) (rs_end (c_recv_idx c))); simpl; [left; eexists; split; [done|lia]|].
  right. split; [done|lia].
Qed.
Lemma decompress_ok c : rs_ok (c_sent_idx c) -> rs_ok (c_recv_idx c) -> compressed_consistent c ->
  exists p, decompress c = Ok p.
Proof.
  intros Hs Hr (L1 & L2 & E1 & E2). unfold decompress.
  destruct (copy_packed_ok (replicate (c_sent_total c) 0%N) (c_sent_authed c) 0 (c_sent_idx c)) as [s Es];
    [rewrite replicate_length; by eapply rs_ok_bounded|lia|].
  destruct (copy_packed_ok (replicate (c_recv_total c) 0%N) (c_recv_authed c) 0 (c_recv_idx c)) as [r Er];
    [rewrite replicate_length; by eapply rs_ok_bounded|lia|].
  rewrite Es; simpl. rewrite Er; simpl. eauto.
Qed.
Lemma decompress_inv c p : decompress c = Ok p ->
  copy_packed (replicate (c_sent_total c) 0%N) (c_sent_authed c) 0 (c_sent_idx c) = Ok (p_sent p) /\
  copy_packed (replicate (c_recv_total c) 0%N) (c_recv_authed c) 0 (c_recv_idx c) = Ok (p_recv p) /\
  p_sent_idx p = c_sent_idx c /\ p_recv_idx p = c_recv_idx c.
Proof. unfold decompress. intros (s & Es & (r & Er & [= <-])%obind_Ok)%obind_Ok. simpl. done. Qed.

Lemma compress_deserialize p : partial_wf p ->
  exists c q, compress p = Ok c /\ deserialize c = Ok q /\
    p_sent_idx q = p_sent_idx p /\ p_recv_idx q = p_recv_idx p /\
    (forall d, shows (p_data p d) (p_idx p d) (p_data q d)).
Proof.
  intros Hwf. destruct (compress_ok p Hwf) as [c Hc]. exists c.
  pose proof (compress_inv _ _ Hc) as (I1 & I2 & E1 & E2 & T1 & T2).
  pose proof (Hwf Sent) as W1. pose proof (Hwf Received) as W2. simpl in *.
  assert (Hcons : compressed_consistent c).
  { unfold compressed_consistent. rewrite E1, E2, T1, T2.
    apply index_concat_length in I1, I2. apply valid_idx_end in W1, W2. tauto. }
  destruct (decompress_ok c) as [q Hq]; [rewrite E1; apply W1|rewrite E2; apply W2|done|].
  exists q. split; [done|]. split.
  { unfold deserialize. destruct (validate_spec c) as [(e&_&?)|[-> _]]; [done|]. simpl. by rewrite Hq. }
  apply decompress_inv in Hq as (C1 & C2 & F1 & F2). rewrite E1 in *. rewrite E2 in *. rewrite T1, T2 in *.
  split_and!; try done.
  intros []; simpl; eapply packed_roundtrip; try done; [apply W1|apply W2].
Qed.
Lemma compress_exact p : partial_wf p ->
  (forall d i, i < length (p_data p d) -> ~ in_rs i (p_idx p d) -> p_data p d !! i = Some 0%N) ->
  exists c, compress p = Ok c /\ deserialize c = Ok p.
Proof.
  intros Hwf Hz. destruct (compress_deserialize p Hwf) as (c & q & Hc & Hd & E1 & E2 & Hs).
  exists c. split; [done|]. rewrite Hd. f_equal.
  assert (Hself : forall d, shows (p_data p d) (p_idx p d) (p_data p d)).
  { intros d. split; [done|]. intros i b Hb. case_decide; [done|].
    rewrite (Hz d i) in Hb |- *; try done; by apply lookup_lt_Some in Hb. }
  pose proof (shows_unique _ _ _ _ (Hs Sent) (Hself Sent)) as Q1.
  pose proof (shows_unique _ _ _ _ (Hs Received) (Hself Received)) as Q2.
  destruct p, q; simpl in *. congruence.
Qed.

Lemma deserialize_accepts c : rs_ok (c_sent_idx c) -> rs_ok (c_recv_idx c) ->
  (exists p, deserialize c = Ok p) <-> compressed_consistent c.
Proof.
  intros Hs Hr. unfold deserialize. destruct (validate_spec c) as [(e & -> & Hno)|[-> Hc]]; simpl.
  - split; [intros [p [=]]|done].
  - destruct (decompress_ok c) as [p ->]; [done..|]. split; eauto.
Qed.
Lemma deserialize_no_panic c : rs_ok (c_sent_idx c) -> rs_ok (c_recv_idx c) -> deserialize c <> Panic.
Proof.
  intros Hs Hr. unfold deserialize. destruct (validate_spec c) as [(e & -> & Hno)|[-> Hc]]; simpl; [done|].
  destruct (decompress_ok c) as [p ->]; done.
Qed.
Lemma shows_index_concat_packed n packed idx r bs :
  rs_ok idx -> length packed = rs_len idx ->
  copy_packed (replicate n 0%N) packed 0 idx = Ok r -> index_concat r idx = Ok bs -> bs = packed.
Proof.
  intros Hok Hlen Hc Hi. apply index_concat_spec in Hi.
  apply (copy_packed_spec 0) in Hc as (_ & _ & _ & _ & Hin); [|done].
  rewrite drop_0, take_ge in Hin by lia. by eapply Forall2_lookup_det.
Qed.
Lemma deserialize_wf c p : rs_ok (c_sent_idx c) -> rs_ok (c_recv_idx c) -> deserialize c = Ok p ->
  partial_wf p /\ length (p_sent p) = c_sent_total c /\ length (p_recv p) = c_recv_total c /\
  compress p = Ok c.
Proof.
  intros Hs Hr. unfold deserialize. destruct (validate_spec c) as [(e & -> & Hno)|[-> Hc]]; simpl; [done|].
  destruct (decompress c) as [p'|[]|] eqn:Ed; try done. intros [= ->].
  destruct Hc as (L1 & L2 & E1 & E2).
  apply decompress_inv in Ed as (C1 & C2 & F1 & F2).
  pose proof (copy_packed_spec 0 _ _ _ _ _ Hs C1) as (Q1 & B1 & _).
  pose proof (copy_packed_spec 0 _ _ _ _ _ Hr C2) as (Q2 & B2 & _).
  rewrite replicate_length in *.
  assert (Hwf : partial_wf p).
  { intros []; simpl; rewrite ?Q1, ?Q2, ?F1, ?F2; by apply valid_idx_end. }
  split_and!; try done.
  destruct (compress_ok p Hwf) as [c' Hc']. rewrite Hc'. f_equal.
  apply compress_inv in Hc' as (I1 & I2 & G1 & G2 & T1 & T2). rewrite F1, F2 in *.
  eapply shows_index_concat_packed in I1; [|done..]. eapply shows_index_concat_packed in I2; [|done..].
  destruct c, c'; simpl in *. congruence.
Qed.

(** ** C04 *)
Lemma bytes_at_of_values data idx bs :
  rs_ok idx -> Forall2 (fun i b => data !! i = Some b) (rs_values idx) bs -> bytes_at data idx bs.
Proof.
  intros Hok HF. exists (rs_values idx). split_and!; [by eapply rs_values_sorted| |done].
  intros i. apply in_rs_values.
Qed.
Lemma t_get_spec t d idx : rs_ok idx ->
  (rs_end idx <= t_len t d /\ exists s, t_get t d idx = Ok (Some s) /\ sq_idx s = idx /\
     bytes_at (t_data t d) idx (sq_data s)) \/
  (t_len t d < rs_end idx /\ t_get t d idx = Ok None).
Proof.
  intros Hok. unfold t_get, t_len. destruct (Nat.ltb_spec (length (t_data t d)) (rs_end idx)); [by right|].
  left. split; [lia|].
  destruct (index_concat_ok (t_data t d) idx) as [bs Hbs]; [by eapply rs_ok_bounded|].
  rewrite Hbs. simpl. unfold subseq_new. rewrite (index_concat_length _ _ _ Hbs), Nat.eqb_refl. simpl.
  eexists; split_and!; [done|done|]. simpl. apply bytes_at_of_values; [done|]. by apply index_concat_spec.
Qed.
Lemma sorted_lt_unique (ps qs : list nat) :
  StronglySorted lt ps -> StronglySorted lt qs -> (forall i, i ∈ ps <-> i ∈ qs) -> ps = qs.
Proof.
  intros Hs. revert qs. induction Hs as [|a ps Hps IH HFa]; intros qs Hq Hm.
  - destruct qs as [|b qs]; [done|]. assert (b ∈ []) as Hb by (apply Hm; left). by apply elem_of_nil in Hb.
  - destruct Hq as [|b qs Hqs HFb]; [assert (a ∈ []) as Ha by (apply Hm; left); by apply elem_of_nil in Ha|].
    rewrite Forall_forall in HFa, HFb.
    assert (a = b) as ->.
    { assert (a ∈ b :: qs) as Ha by (apply Hm; left).
      assert (b ∈ a :: ps) as Hb by (apply Hm; left).
      apply elem_of_cons in Ha as [->|Ha]; [done|]. apply elem_of_cons in Hb as [->|Hb]; [done|].
      specialize (HFa _ Hb). specialize (HFb _ Ha). lia. }
    f_equal. apply IH; [done|]. intros i. specialize (Hm i). rewrite !elem_of_cons in Hm.
    split; intros Hi.
    + destruct (proj1 Hm (or_intror Hi)) as [->|?]; [|done]. specialize (HFa _ Hi). lia.
    + destruct (proj2 Hm (or_intror Hi)) as [->|?]; [|done]. specialize (HFb _ Hi). lia.
Qed.
Lemma bytes_at_det data idx x y : bytes_at data idx x -> bytes_at data idx y -> x = y.
Proof.
  intros (ps & Hs & Hm & Hx) (qs & Hs' & Hm' & Hy).
  assert (ps = qs) as -> by (apply sorted_lt_unique; [done..|]; intros i; by rewrite Hm, Hm').
  by eapply Forall2_lookup_det.
Qed.
Lemma get_copy_back t d idx s dst :
  rs_ok idx -> t_get t d idx = Ok (Some s) -> rs_end idx <= length dst ->
  exists r, subseq_copy_to s dst = Ok r /\ length r = length dst /\
    forall i, r !! i = if decide (in_rs i idx) then t_data t d !! i else dst !! i.
Proof.
  intros Hok Hg Hend. unfold t_get in Hg.
  destruct (Nat.ltb_spec (length (t_data t d)) (rs_end idx)); [done|].
  apply obind_Ok in Hg as (bs & Hbs & Hg). unfold subseq_new in Hg.
  rewrite (index_concat_length _ _ _ Hbs), Nat.eqb_refl in Hg. simpl in Hg. injection Hg as <-.
  unfold subseq_copy_to; simpl.
  pose proof (index_concat_length _ _ _ Hbs) as Hlen.
  destruct (copy_packed_ok dst bs 0 idx) as [r Hr]; [by eapply rs_ok_bounded|lia|].
  exists r. split; [done|]. apply (copy_packed_spec 0) in Hr as (Hl & _ & _ & Hout & Hin); [|done].
  split; [done|]. intros i. case_decide as Hi; [|by apply Hout].
  rewrite drop_0, take_ge in Hin by lia. apply index_concat_spec in Hbs.
  apply in_rs_values, elem_of_list_lookup in Hi as [k Hk].
  destruct (Forall2_lookup_l _ _ _ _ _ Hbs Hk) as (x & Hx & Hx1).
  destruct (Forall2_lookup_l _ _ _ _ _ Hin Hk) as (y & Hy & Hy1). congruence.
Qed.

(** ** C05 *)
Lemma union_transcript_ok p q :
  partial_wf p -> partial_wf q ->
  (forall d, length (p_data p d) = length (p_data q d)) ->
  exists r, union_transcript p q = Ok r /\ partial_wf r /\
  forall d, p_idx r d = rs_union (p_idx p d) (p_idx q d) /\
    length (p_data r d) = length (p_data p d) /\
    forall i, p_data r d !! i =
      if decide (in_rs i (p_idx q d) /\ ~ in_rs i (p_idx p d)) then p_data q d !! i else p_data p d !! i.
Proof.
  intros Wp Wq Hlen. pose proof (Hlen Sent) as L1. pose proof (Hlen Received) as L2. simpl in *.
  pose proof (Wp Sent) as [Op1 Bp1]. pose proof (Wp Received) as [Op2 Bp2].
  pose proof (Wq Sent) as [Oq1 Bq1]. pose proof (Wq Received) as [Oq2 Bq2]. simpl in *.
  unfold union_transcript. rewrite (proj2 (Nat.eqb_eq _ _) L1), (proj2 (Nat.eqb_eq _ _) L2). simpl.
  destruct (copy_ranges_ok (p_sent p) (p_sent q) (rs_diff (p_sent_idx q) (p_sent_idx p))) as [s Es]; [done| |].
  { apply rs_ok_in_bounded; [by apply rs_diff_ok|]. intros i. rewrite in_rs_diff by done. intros [? _].
    rewrite L1. auto. }
  destruct (copy_ranges_ok (p_recv p) (p_recv q) (rs_diff (p_recv_idx q) (p_recv_idx p))) as [r Er]; [done| |].
  { apply rs_ok_in_bounded; [by apply rs_diff_ok|]. intros i. rewrite in_rs_diff by done. intros [? _].
    rewrite L2. auto. }
  rewrite Es; simpl. rewrite Er; simpl.
  apply copy_ranges_spec in Es as (Ls & _ & _ & Ks). apply copy_ranges_spec in Er as (Lr & _ & _ & Kr).
  eexists; split_and!; [done| |].
  - intros []; simpl; (split; [by apply rs_union_ok|]); intros i; rewrite in_rs_union by done; intros [?|?];
      rewrite ?Ls, ?Lr; auto; rewrite ?L1, ?L2; auto.
  - intros []; simpl; split_and!; try done; intros i.
    + rewrite Ks. apply decide_ext. by rewrite in_rs_diff.
    + rewrite Kr. apply decide_ext. by rewrite in_rs_diff.
Qed.
Lemma union_transcript_panic p q :
  (length (p_sent p) <> length (p_sent q) \/ length (p_recv p) <> length (p_recv q)) ->
  union_transcript p q = Panic.
Proof.
  intros H. unfold union_transcript.
  destruct (Nat.eqb_spec (length (p_sent p)) (length (p_sent q))); simpl; [|done].
  destruct (Nat.eqb_spec (length (p_recv p)) (length (p_recv q))); simpl; [|done]. tauto.
Qed.
Lemma to_partial_union t si ri si' ri' p q :
  rs_ok si -> rs_ok ri -> rs_ok si' -> rs_ok ri' ->
  to_partial t si ri = Ok p -> to_partial t si' ri' = Ok q ->
  union_transcript p q = to_partial t (rs_union si si') (rs_union ri ri').
Proof.
  intros O1 O2 O3 O4 Hp Hq.
  pose proof (to_partial_discloses _ _ _ _ O1 O2 Hp) as [Wp Sp].
  pose proof (to_partial_discloses _ _ _ _ O3 O4 Hq) as [Wq Sq].
  apply to_partial_inv in Hp as (_ & _ & I1 & I2 & _); [|done..].
  apply to_partial_inv in Hq as (_ & _ & I3 & I4 & _); [|done..].
  destruct (union_transcript_ok p q Wp Wq) as (r & Er & Wr & Hr).
  { intros d. destruct (Sp d) as [-> _], (Sq d) as [-> _]. done. }
  rewrite Er. symmetry.
  assert (Hd : discloses t r).
  { split; [done|]. intros d. destruct (Hr d) as (Ei & El & Ek). destruct (Sp d) as [Lp Kp], (Sq d) as [Lq Kq].
    pose proof (Wp d) as [Okp _]. pose proof (Wq d) as [Okq _].
    split; [by rewrite El|]. intros i b Hb. rewrite Ek, Ei. rewrite (Kp _ _ Hb), (Kq _ _ Hb).
    assert (Hu := in_rs_union i (p_idx p d) (p_idx q d) Okp).
    destruct (decide (in_rs i (p_idx q d))), (decide (in_rs i (p_idx p d)));
      repeat case_decide; try done; tauto. }
  apply discloses_to_partial in Hd. destruct (Hr Sent) as [Es _], (Hr Received) as [Ee _]. simpl in *.
  rewrite <-Hd, Es, Ee. by subst.
Qed.
Lemma union_subsequence_ok p d s :
  partial_wf p -> valid_idx (length (p_data p d)) (sq_idx s) -> rs_len (sq_idx s) = length (sq_data s) ->
  exists r, union_subsequence p d s = Ok r /\ partial_wf r /\
    p_idx r d = rs_union (p_idx p d) (sq_idx s) /\ length (p_data r d) = length (p_data p d) /\
    bytes_at (p_data r d) (sq_idx s) (sq_data s) /\
    (forall i, ~ in_rs i (sq_idx s) -> p_data r d !! i = p_data p d !! i) /\
    (forall d', d' <> d -> p_data r d' = p_data p d' /\ p_idx r d' = p_idx p d').
Proof.
  intros Wp [Os Bs] Hl.
  destruct (copy_packed_ok (p_data p d) (sq_data s) 0 (sq_idx s)) as [x Ex]; [by apply rs_ok_in_bounded|lia|].
  pose proof (copy_packed_spec 0 _ _ _ _ _ Os Ex) as (Lx & _ & _ & Hout & Hin).
  rewrite drop_0, take_ge in Hin by lia.
  pose proof (Wp Sent) as [Op1 Bp1]. pose proof (Wp Received) as [Op2 Bp2].
  unfold union_subsequence, subseq_copy_to. destruct d; simpl in *; rewrite Ex; simpl;
    (eexists; split_and!; [done| |done|done|by apply bytes_at_of_values|done| ]).
  - intros []; simpl; rewrite ?Lx; split; try done; [by apply rs_union_ok|].
    intros i. rewrite in_rs_union by done. intros [?|?]; auto.
  - intros []; done.
  - intros []; simpl; rewrite ?Lx; split; try done; [by apply rs_union_ok|].
    intros i. rewrite in_rs_union by done. intros [?|?]; auto.
  - intros []; done.
Qed.

(** ** C06 *)
Lemma in_unauthed p d i : in_rs i (unauthed p d) <-> i < length (p_data p d) /\ ~ in_rs i (p_idx p d).
Proof. unfold unauthed. rewrite in_rs_diff by apply rs_single_ok. rewrite in_rs_single. split; intros []; split; try done; lia. Qed.
Lemma unauthed_ok p d : rs_ok (unauthed p d).
Proof. apply rs_diff_ok, rs_single_ok. Qed.
Lemma set_unauthed_ok p v :
  exists r, set_unauthed p v = Ok r /\
  forall d, p_idx r d = p_idx p d /\ length (p_data r d) = length (p_data p d) /\
    forall i b, p_data p d !! i = Some b ->
      p_data r d !! i = Some (if decide (in_rs i (p_idx p d)) then b else v).
Proof.
  unfold set_unauthed.
  destruct (fill_ranges_ok (p_sent p) v (unauthed p Sent)) as [s Es].
  { apply rs_ok_in_bounded; [apply unauthed_ok|]. intros i. rewrite in_unauthed. by intros []. }
  destruct (fill_ranges_ok (p_recv p) v (unauthed p Received)) as [r Er].
  { apply rs_ok_in_bounded; [apply unauthed_ok|]. intros i. rewrite in_unauthed. by intros []. }
  rewrite Es; simpl. rewrite Er; simpl. eexists; split; [done|].
  apply fill_ranges_spec in Es as (L1 & _ & K1). apply fill_ranges_spec in Er as (L2 & _ & K2).
  intros []; simpl; split_and!; try done; intros i b Hb; rewrite ?K1, ?K2;
    pose proof (in_unauthed p Sent i) as Hu1; pose proof (in_unauthed p Received i) as Hu2; simpl in *;
    apply lookup_lt_Some in Hb as Hlt; repeat case_decide; try done; tauto.
Qed.
Lemma set_unauthed_range_ok p v d a b :
  b <= length (p_data p d) ->
  exists r, set_unauthed_range p v d a b = Ok r /\
  (forall d', d' <> d -> p_data r d' = p_data p d') /\ (forall d', p_idx r d' = p_idx p d') /\
  length (p_data r d) = length (p_data p d) /\
  forall i x, p_data p d !! i = Some x ->
      p_data r d !! i = Some (if decide (a <= i < b /\ ~ in_rs i (p_idx p d)) then v else x).
Proof.
  intros Hb.
  destruct (fill_ranges_ok (p_data p d) v (rs_diff (rs_single a b) (p_idx p d))) as [s Es].
  { apply rs_ok_in_bounded; [apply rs_diff_ok, rs_single_ok|]. intros i.
    rewrite in_rs_diff by apply rs_single_ok. rewrite in_rs_single. lia. }
  pose proof (fill_ranges_spec _ _ _ _ Es) as (L & _ & K).
  assert (Hspec : forall i x, p_data p d !! i = Some x ->
      s !! i = Some (if decide (a <= i < b /\ ~ in_rs i (p_idx p d)) then v else x)).
  { intros i x Hx. rewrite K.
    assert (Hu : in_rs i (rs_diff (rs_single a b) (p_idx p d)) <-> a <= i < b /\ ~ in_rs i (p_idx p d)).
    { rewrite in_rs_diff by apply rs_single_ok. by rewrite in_rs_single. }
    repeat case_decide; try done; tauto. }
  unfold set_unauthed_range. destruct d; simpl in *; rewrite Es; simpl;
    (eexists; split_and!; [done|by intros []|by intros []|done|done]).
Qed.
Lemma is_complete_spec p : partial_wf p ->
  is_complete p = true <-> forall d i, i < length (p_data p d) -> in_rs i (p_idx p d).
Proof.
  intros W. pose proof (W Sent) as [O1 B1]. pose proof (W Received) as [O2 B2]. simpl in *.
  unfold is_complete. rewrite andb_true_iff, !Nat.eqb_eq, !rs_len_full by done.
  split; [intros [H1 H2] []; done|]. intros H. split; [apply (H Sent)|apply (H Received)].
Qed.

Lemma idx_size_spec idx n : rs_ok idx -> idx_size idx n <-> n = rs_len idx.
Proof.
  intros Hok. split.
  - intros (ps & Hs & Hm & <-).
    assert (ps = rs_values idx) as ->.
    { apply sorted_lt_unique; [done|by eapply rs_values_sorted|]. intros i. by rewrite Hm, in_rs_values. }
    apply rs_values_length.
  - intros ->. exists (rs_values idx). split_and!; [by eapply rs_values_sorted| |apply rs_values_length].
    intros i. apply in_rs_values.
Qed.
Lemma compressed_wf_spec c : rs_ok (c_sent_idx c) -> rs_ok (c_recv_idx c) ->
  compressed_wf c <-> compressed_consistent c.
Proof.
  intros Hs Hr. unfold compressed_wf, compressed_consistent.
  rewrite !idx_size_spec by done. rewrite <-!rs_end_le_ok by done. done.
Qed.

Lemma C03_lemma c : rs_ok (c_sent_idx c) -> rs_ok (c_recv_idx c) ->
  (compressed_wf c -> exists p, deserialize c = Ok p /\ partial_wf p /\
       length (p_sent p) = c_sent_total c /\ length (p_recv p) = c_recv_total c /\ compress p = Ok c) /\
  (~ compressed_wf c -> exists e, deserialize c = Err e).
Proof.
  intros Hs Hr. rewrite compressed_wf_spec by done. split.
  - intros H. apply deserialize_accepts in H as [p Hp]; [|done..]. exists p. split; [done|].
    by apply deserialize_wf.
  - intros H. destruct (deserialize c) as [p|e|] eqn:E; eauto.
    + exfalso. apply H. apply deserialize_accepts; eauto.
    + by apply deserialize_no_panic in E.
Qed.

Lemma C05_idem p : partial_wf p -> union_transcript p p = Ok p.
Proof.
  intros W. destruct (union_transcript_ok p p W W) as (r & -> & _ & Hr); [done|]. f_equal.
  assert (Hd : forall d, p_data r d = p_data p d /\ p_idx r d = p_idx p d).
  { intros d. destruct (Hr d) as (Hi & _ & Hk). split.
    - apply list_eq. intros i. rewrite Hk. by case_decide.
    - rewrite Hi. pose proof (W d) as [? _]. by apply rs_union_idemp. }
  destruct (Hd Sent) as [A1 A2], (Hd Received) as [B1 B2]. destruct p, r; simpl in *. congruence.
Qed.
Lemma C05_same_plaintext t p q : discloses t p -> discloses t q ->
  exists r, union_transcript p q = Ok r /\ discloses t r /\ union_transcript q p = Ok r /\
    (forall d i, in_rs i (p_idx r d) <-> in_rs i (p_idx p d) \/ in_rs i (p_idx q d)).
Proof.
  intros Hp Hq. pose proof (discloses_to_partial _ _ Hp) as Ep. pose proof (discloses_to_partial _ _ Hq) as Eq.
  destruct Hp as [Wp Sp], Hq as [Wq Sq].
  pose proof (Wp Sent) as [O1 _]. pose proof (Wp Received) as [O2 _].
  pose proof (Wq Sent) as [O3 _]. pose proof (Wq Received) as [O4 _]. simpl in *.
  destruct (union_transcript_ok p q Wp Wq) as (r & Er & Wr & Hr).
  { intros d. destruct (Sp d) as [-> _], (Sq d) as [-> _]. done. }
  exists r. split; [done|].
  pose proof (to_partial_union _ _ _ _ _ _ _ O1 O2 O3 O4 Ep Eq) as E. rewrite Er in E.
  pose proof (to_partial_union _ _ _ _ _ _ _ O3 O4 O1 O2 Eq Ep) as E'.
  split; [|split].
  - symmetry in E. eapply to_partial_discloses; [| |exact E]; by apply rs_union_ok.
  - rewrite E', E. f_equal; by apply rs_union_comm.
  - intros d i. destruct (Hr d) as (-> & _). destruct d; simpl; by apply in_rs_union.
Qed.
Lemma C05_assoc t p q r pq qr : discloses t p -> discloses t q -> discloses t r ->
  union_transcript p q = Ok pq -> union_transcript q r = Ok qr ->
  exists x, union_transcript pq r = Ok x /\ union_transcript p qr = Ok x.
Proof.
  intros Hp Hq Hr E1 E2.
  destruct (C05_same_plaintext t p q Hp Hq) as (pq' & F1 & Dpq & _). rewrite E1 in F1. injection F1 as <-.
  destruct (C05_same_plaintext t q r Hq Hr) as (qr' & F2 & Dqr & _). rewrite E2 in F2. injection F2 as <-.
  destruct (C05_same_plaintext t pq r Dpq Hr) as (x & G1 & Dx & _ & I1).
  destruct (C05_same_plaintext t p qr Hp Dqr) as (y & G2 & Dy & _ & I2).
  exists x. split; [done|]. rewrite G2.
  apply discloses_to_partial in Dx as Tx. apply discloses_to_partial in Dy as Ty.
  destruct (C05_same_plaintext t p q Hp Hq) as (a & A1 & _ & _ & I3). rewrite E1 in A1. injection A1 as <-.
  destruct (C05_same_plaintext t q r Hq Hr) as (b & B1 & _ & _ & I4). rewrite E2 in B1. injection B1 as <-.
  assert (Hidx : forall d, p_idx x d = p_idx y d).
  { intros d. apply rs_ext; [apply (proj1 Dx)|apply (proj1 Dy)|]. intros i.
    rewrite I1, I2, I3, I4. tauto. }
  pose proof (Hidx Sent) as X1. pose proof (Hidx Received) as X2. simpl in *.
  rewrite X1, X2, Ty in Tx. congruence.
Qed.
Lemma set_unauthed_complete p v r : set_unauthed p v = Ok r -> is_complete r = is_complete p.
Proof.
  intros E. destruct (set_unauthed_ok p v) as (r' & E' & H). rewrite E in E'. injection E' as <-.
  destruct (H Sent) as (A & B & _), (H Received) as (C & D & _). simpl in *.
  unfold is_complete. congruence.
Qed.
Lemma set_unauthed_range_complete p v d a b r :
  b <= length (p_data p d) -> set_unauthed_range p v d a b = Ok r -> is_complete r = is_complete p.
Proof.
  intros Hb E. destruct (set_unauthed_range_ok p v d a b Hb) as (r' & E' & H1 & H2 & H3 & _).
  rewrite E in E'. injection E' as <-.
  pose proof (H2 Sent) as A. pose proof (H2 Received) as B. simpl in *. unfold is_complete.
  rewrite A, B. destruct d; simpl in *.
  - rewrite H3. specialize (H1 Received). simpl in H1. by rewrite H1.
  - rewrite H3. specialize (H1 Sent). simpl in H1. by rewrite H1.
Qed.

Lemma C04_lemma t d idx : rs_ok idx ->
  (valid_idx (t_len t d) idx -> exists s, t_get t d idx = Ok (Some s) /\ sq_idx s = idx /\
     bytes_at (t_data t d) idx (sq_data s)) /\
  (~ valid_idx (t_len t d) idx -> t_get t d idx = Ok None).
Proof.
  intros Hok. rewrite valid_idx_end. destruct (t_get_spec t d idx Hok) as [[H1 H2]|[H1 H2]].
  - split; [done|]. intros []. done.
  - split; [|done]. intros []. lia.
Qed.
