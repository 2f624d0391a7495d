(** Facts about range sets: each operation has its set meaning and preserves
    canonical form; canonical form is unique. *)
From Verif.Lib Require Import Base Ranges.

Lemma in_rs_nil i : in_rs i [] <-> False.
Proof. unfold in_rs. split; [apply Exists_nil|done]. Qed.
Lemma in_rs_cons i r t : in_rs i (r :: t) <-> in_range i r \/ in_rs i t.
Proof. unfold in_rs. apply Exists_cons. Qed.
Lemma in_rs_app i x y : in_rs i (x ++ y) <-> in_rs i x \/ in_rs i y.
Proof. unfold in_rs. apply Exists_app. Qed.
Lemma in_rangeb_spec i r : in_rangeb i r = true <-> in_range i r.
Proof. unfold in_rangeb, in_range. lia. Qed.
Lemma in_rsb_spec i rs : in_rsb i rs = true <-> in_rs i rs.
Proof.
  induction rs as [|r t IH]; simpl.
  - rewrite in_rs_nil. split; [discriminate|done].
  - rewrite in_rs_cons, orb_true_iff, IH, in_rangeb_spec. done.
Qed.
Global Instance in_range_dec i r : Decision (in_range i r).
Proof. unfold in_range. apply _. Defined.
Global Instance in_rs_dec i rs : Decision (in_rs i rs).
Proof. unfold in_rs. apply _. Defined.

Lemma rs_ok_fromb_spec lo rs : rs_ok_fromb lo rs = true <-> rs_ok_from lo rs.
Proof.
  revert lo. induction rs as [|[a b] t IH]; intros lo; simpl; [done|].
  rewrite !andb_true_iff, IH, Nat.leb_le, Nat.ltb_lt. tauto.
Qed.

Lemma rs_ok_from_mono lo lo' rs : lo' <= lo -> rs_ok_from lo rs -> rs_ok_from lo' rs.
Proof. destruct rs as [|[a b] t]; simpl; [done|]. intros ? (?&?&?). split_and!; try done; lia. Qed.
Lemma rs_ok_from_ok lo rs : rs_ok_from lo rs -> rs_ok rs.
Proof. apply rs_ok_from_mono. lia. Qed.
Lemma rs_ok_from_lb lo rs i : rs_ok_from lo rs -> in_rs i rs -> lo <= i.
Proof.
  revert lo. induction rs as [|[a b] t IH]; intros lo; simpl.
  - by rewrite in_rs_nil.
  - intros (?&?&Ht). rewrite in_rs_cons. unfold in_range; simpl. intros [?|Hi]; [lia|].
    specialize (IH _ Ht Hi). lia.
Qed.
Lemma rs_ok_cons_inv a b t : rs_ok ((a, b) :: t) -> a < b /\ rs_ok_from (S b) t.
Proof. unfold rs_ok; simpl. tauto. Qed.

(** ** insert / union *)
Lemma in_rs_insert i a b rs lo :
  rs_ok_from lo rs -> a < b ->
  in_rs i (rs_insert a b rs) <-> (a <= i < b) \/ in_rs i rs.
Proof.
  revert a b lo. induction rs as [|[c d] t IH]; intros a b lo Hok Hab; simpl.
  - rewrite in_rs_cons, in_rs_nil. unfold in_range; simpl. tauto.
  - destruct Hok as (H1 & H2 & H3).
    destruct (Nat.ltb_spec b c).
    + rewrite !in_rs_cons. unfold in_range; simpl. tauto.
    + destruct (Nat.ltb_spec d a).
      * rewrite !in_rs_cons. rewrite (IH _ _ _ H3 Hab). unfold in_range; simpl. tauto.
      * rewrite (IH (Nat.min a c) (Nat.max b d) _ H3) by lia.
        rewrite in_rs_cons. unfold in_range; simpl. split; intros [?|?]; try tauto.
        -- destruct (decide (a <= i < b)); [tauto|]. right; left. lia.
        -- left; lia.
        -- destruct H4; [|tauto]. left; lia.
Qed.

Lemma rs_insert_ok lo lo' a b rs :
  rs_ok_from lo rs -> a < b -> lo' <= lo -> lo' <= a -> rs_ok_from lo' (rs_insert a b rs).
Proof.
  revert lo lo' a b. induction rs as [|[c d] t IH]; intros lo lo' a b Hok Hab Hlo Ha; simpl.
  - split_and!; lia.
  - destruct Hok as (H1 & H2 & H3).
    destruct (Nat.ltb_spec b c).
    + simpl. split_and!; try lia. done.
    + destruct (Nat.ltb_spec d a).
      * simpl. split_and!; try lia. eapply IH; [done|lia..].
      * eapply IH; [done|lia..].
Qed.

Lemma rs_add_ok r rs : rs_ok rs -> rs_ok (rs_add r rs).
Proof.
  unfold rs_add. destruct (Nat.ltb_spec (fst r) (snd r)); [|done].
  intros. eapply rs_insert_ok; try done; lia.
Qed.
Lemma in_rs_add i r rs : rs_ok rs -> in_rs i (rs_add r rs) <-> in_range i r \/ in_rs i rs.
Proof.
  intros Hok. unfold rs_add, in_range. destruct (Nat.ltb_spec (fst r) (snd r)).
  - erewrite in_rs_insert by done. done.
  - split; [tauto|]. intros [?|?]; [lia|done].
Qed.

Lemma rs_union_ok x y : rs_ok x -> rs_ok (rs_union x y).
Proof. intros Hx. unfold rs_union. induction y as [|r t IH]; simpl; [done|]. by apply rs_add_ok. Qed.
Lemma in_rs_union i x y : rs_ok x -> in_rs i (rs_union x y) <-> in_rs i x \/ in_rs i y.
Proof.
  intros Hx. unfold rs_union. induction y as [|r t IH]; simpl.
  - rewrite in_rs_nil. tauto.
  - rewrite in_rs_add by (apply (rs_union_ok x t Hx)). rewrite IH, in_rs_cons. tauto.
Qed.
Lemma rs_from_ok l : rs_ok (rs_from l).
Proof. induction l; simpl; [done|]. by apply rs_add_ok. Qed.
Lemma in_rs_from i l : in_rs i (rs_from l) <-> in_rs i l.
Proof.
  induction l as [|r t IH]; simpl; [done|].
  rewrite in_rs_add by apply rs_from_ok. by rewrite IH, in_rs_cons.
Qed.

(** ** remove / difference *)
Lemma rs_remove_ok lo a b rs : a < b -> rs_ok_from lo rs -> rs_ok_from lo (rs_remove a b rs).
Proof.
  intros Hab. revert lo. induction rs as [|[c d] t IH]; intros lo; simpl; [done|].
  intros (H1 & H2 & H3).
  destruct (Nat.leb_spec d a); [simpl; auto|].
  destruct (Nat.leb_spec b c); [simpl; auto|].
  destruct (Nat.ltb_spec c a), (Nat.ltb_spec b d); simpl.
  - split_and!; try lia. done.
  - split_and!; [lia|lia|]. eapply (rs_ok_from_mono (S d)); [lia|]. auto.
  - split_and!; try lia. done.
  - eapply (rs_ok_from_mono (S d)); [lia|]. auto.
Qed.
Lemma in_rs_remove i lo a b rs :
  a < b -> rs_ok_from lo rs -> in_rs i (rs_remove a b rs) <-> in_rs i rs /\ ~ (a <= i < b).
Proof.
  intros Hab. revert lo. induction rs as [|[c d] t IH]; intros lo; simpl.
  - rewrite in_rs_nil. tauto.
  - intros (H1 & H2 & H3). specialize (IH _ H3).
    destruct (Nat.leb_spec d a).
    { rewrite !in_rs_cons, IH. unfold in_range; simpl. split; [|tauto].
      intros [?|?]; split; [tauto|lia|tauto|tauto]. }
    destruct (Nat.leb_spec b c).
    { rewrite !in_rs_cons. unfold in_range; simpl. split; [|tauto].
      intros [?|Hi]; split; [tauto|lia|tauto|].
      pose proof (rs_ok_from_lb _ _ _ H3 Hi). lia. }
    rewrite in_rs_app.
    destruct (Nat.ltb_spec c a), (Nat.ltb_spec b d);
      rewrite ?in_rs_cons, ?in_rs_nil, ?IH; unfold in_range; simpl.
    + split.
      * intros [[?|[]]|[?|Hi]]; split; try tauto; try lia.
        -- pose proof (rs_ok_from_lb _ _ _ H3 Hi). lia.
      * intros [[?|?] ?]; [|tauto]. destruct (decide (i < a)); [left; left; lia|right; left; lia].
    + split.
      * intros [[?|[]]|[Hi ?]]; split; try tauto; try lia.
      * intros [[?|?] ?]; [left; left; lia|tauto].
    + split.
      * intros [[]|[?|Hi]]; split; try tauto; try lia.
        pose proof (rs_ok_from_lb _ _ _ H3 Hi). lia.
      * intros [[?|?] ?]; [right; left; lia|tauto].
    + split.
      * intros [[]|[Hi ?]]; tauto.
      * intros [[?|?] ?]; [lia|tauto].
Qed.
Lemma rs_sub_ok rs r : rs_ok rs -> rs_ok (rs_sub rs r).
Proof. unfold rs_sub. destruct (Nat.ltb_spec (fst r) (snd r)); [|done]. by apply rs_remove_ok. Qed.
Lemma in_rs_sub i rs r : rs_ok rs -> in_rs i (rs_sub rs r) <-> in_rs i rs /\ ~ in_range i r.
Proof.
  intros Hok. unfold rs_sub, in_range. destruct (Nat.ltb_spec (fst r) (snd r)).
  - by erewrite in_rs_remove.
  - split; [|tauto]. intros ?; split; [done|lia].
Qed.
Lemma rs_diff_ok x y : rs_ok x -> rs_ok (rs_diff x y).
Proof. revert x. induction y as [|r t IH]; intros x Hx; simpl; [done|]. by apply IH, rs_sub_ok. Qed.
Lemma in_rs_diff i x y : rs_ok x -> in_rs i (rs_diff x y) <-> in_rs i x /\ ~ in_rs i y.
Proof.
  revert x. induction y as [|r t IH]; intros x Hx; simpl.
  - rewrite in_rs_nil. tauto.
  - rewrite IH by by apply rs_sub_ok. rewrite in_rs_sub by done. rewrite in_rs_cons. tauto.
Qed.

(** ** canonical form is unique *)
Lemma rs_ok_head_in a b t : a < b -> in_rs a ((a, b) :: t).
Proof. rewrite in_rs_cons. unfold in_range; simpl. lia. Qed.
Lemma rs_ext_from lo x y :
  rs_ok_from lo x -> rs_ok_from lo y -> (forall i, in_rs i x <-> in_rs i y) -> x = y.
Proof.
  revert lo y. induction x as [|[a b] t IH]; intros lo [|[c d] u]; simpl.
  - done.
  - intros _ (?&?&?) Hi. exfalso. apply (in_rs_nil c), Hi, rs_ok_head_in. lia.
  - intros (?&?&?) _ Hi. exfalso. apply (in_rs_nil a), Hi, rs_ok_head_in. lia.
  - intros (H1&H2&H3) (H4&H5&H6) Hi.
    assert (Hac : a = c).
    { pose proof (proj1 (Hi a) (rs_ok_head_in a b t H2)) as Ha.
      pose proof (proj2 (Hi c) (rs_ok_head_in c d u H5)) as Hc.
      rewrite in_rs_cons in Ha, Hc. unfold in_range in *; simpl in *.
      destruct Ha as [?|Ha]; destruct Hc as [?|Hc]; try lia.
      - pose proof (rs_ok_from_lb _ _ _ H3 Hc). lia.
      - pose proof (rs_ok_from_lb _ _ _ H6 Ha). lia.
      - pose proof (rs_ok_from_lb _ _ _ H3 Hc). pose proof (rs_ok_from_lb _ _ _ H6 Ha). lia. }
    subst c.
    assert (Hbd : b = d).
    { destruct (Nat.lt_total b d) as [Hlt|[?|Hlt]]; [|done|].
      - pose proof (proj2 (Hi b)) as Hb. rewrite !in_rs_cons in Hb. unfold in_range in Hb; simpl in Hb.
        destruct Hb as [?|Hb]; [left; lia|lia|]. pose proof (rs_ok_from_lb _ _ _ H3 Hb). lia.
      - pose proof (proj1 (Hi d)) as Hb. rewrite !in_rs_cons in Hb. unfold in_range in Hb; simpl in Hb.
        destruct Hb as [?|Hb]; [left; lia|lia|]. pose proof (rs_ok_from_lb _ _ _ H6 Hb). lia. }
    subst d. f_equal. eapply IH; [done..|].
    intros i. specialize (Hi i). rewrite !in_rs_cons in Hi. unfold in_range in Hi; simpl in Hi.
    split; intros Hx.
    + destruct (proj1 Hi) as [?|?]; [tauto| |done]. pose proof (rs_ok_from_lb _ _ _ H3 Hx). lia.
    + destruct (proj2 Hi) as [?|?]; [tauto| |done]. pose proof (rs_ok_from_lb _ _ _ H6 Hx). lia.
Qed.
Lemma rs_ext x y : rs_ok x -> rs_ok y -> (forall i, in_rs i x <-> in_rs i y) -> x = y.
Proof. apply rs_ext_from. Qed.

Lemma rs_nil_iff x : rs_ok x -> x = [] <-> forall i, ~ in_rs i x.
Proof.
  intros Hx. split.
  - intros -> i Hi. by apply in_rs_nil in Hi.
  - intros H. apply rs_ext; [done|done|]. intros i. rewrite in_rs_nil. specialize (H i). tauto.
Qed.
Lemma rs_subset_spec x y : rs_ok x -> rs_subset x y = true <-> forall i, in_rs i x -> in_rs i y.
Proof.
  intros Hx. unfold rs_subset.
  pose proof (rs_nil_iff _ (rs_diff_ok x y Hx)) as Hn.
  destruct (rs_diff x y) as [|r t] eqn:E.
  - split; [|done]. intros _ i Hi. pose proof (proj1 Hn eq_refl i) as Hno. rewrite <-E in Hno.
    rewrite in_rs_diff in Hno by done. destruct (decide (in_rs i y)); tauto.
  - split; [discriminate|]. intros Hsub. exfalso.
    assert (Hnil : r :: t = []); [|done]. apply Hn. intros i. rewrite <-E, in_rs_diff by done.
    intros [? ?]. auto.
Qed.

Lemma rs_eqb_spec x y : rs_eqb x y = true <-> x = y.
Proof. unfold rs_eqb. apply bool_decide_eq_true. Qed.

(** ** values, length, end *)
Lemma in_rs_values i x : i ∈ rs_values x <-> in_rs i x.
Proof.
  unfold rs_values. induction x as [|[a b] t IH]; simpl.
  - rewrite in_rs_nil. split; [apply not_elem_of_nil|done].
  - rewrite elem_of_app, IH, in_rs_cons, elem_of_nat_seq. unfold in_range; simpl.
    split; (intros [?|?]; [left; lia|tauto]).
Qed.
Lemma rs_values_length x : length (rs_values x) = rs_len x.
Proof.
  unfold rs_values, rs_len. induction x as [|[a b] t IH]; simpl; [done|].
  by rewrite app_length, seq_length, IH.
Qed.
Lemma rs_values_cons a b t : rs_values ((a, b) :: t) = seq a (b - a) ++ rs_values t.
Proof. done. Qed.
Lemma rs_values_sorted lo x : rs_ok_from lo x -> StronglySorted lt (rs_values x).
Proof.
  revert lo. induction x as [|[a b] t IH]; intros lo; simpl; [constructor|].
  intros (H1 & H2 & H3). specialize (IH _ H3).
  assert (Hlb : forall i, i ∈ rs_values t -> S b <= i).
  { intros i Hi%in_rs_values. by eapply rs_ok_from_lb. }
  unfold rs_values in *. simpl. clear H1 H3.
  remember (b - a) as n. clear -IH Hlb Heqn H2.
  assert (Hn : a + n <= b) by lia. clear H2 Heqn. revert a Hn.
  induction n as [|n IHn]; intros a Hn; simpl; [done|].
  constructor; [apply IHn; lia|]. apply Forall_forall. intros i.
  rewrite elem_of_app, elem_of_nat_seq. intros [?|Hi]; [lia|]. specialize (Hlb _ Hi). lia.
Qed.
Lemma rs_values_NoDup x : rs_ok x -> NoDup (rs_values x).
Proof.
  intros Hx%rs_values_sorted. induction Hx as [|i l Hl IH HF]; [constructor|].
  constructor; [|done]. intros Hi. rewrite Forall_forall in HF.
  specialize (HF i Hi). lia.
Qed.

Lemma rs_end_cons a b t : rs_end ((a, b) :: t) = match t with [] => b | _ => rs_end t end.
Proof. destruct t; done. Qed.
Lemma rs_end_lb lo a b t : rs_ok_from lo ((a, b) :: t) -> b <= rs_end ((a, b) :: t).
Proof.
  revert lo a b. induction t as [|[c d] t IH]; intros lo a b; simpl; [unfold rs_end; simpl; lia|].
  intros (?&?&?&?&?). rewrite rs_end_cons.
  transitivity d; [lia|]. eapply (IH (S b)). simpl. split_and!; done.
Qed.
Lemma rs_end_le lo x n : rs_ok_from lo x -> rs_end x <= n <-> forall i, in_rs i x -> i < n.
Proof.
  revert lo. induction x as [|[a b] t IH]; intros lo Hok.
  - unfold rs_end; simpl. split; [|lia]. intros _ i Hi. by apply in_rs_nil in Hi.
  - pose proof Hok as (H1 & H2 & H3). destruct t as [|r t].
    + unfold rs_end; simpl. split.
      * intros Hb i. rewrite in_rs_cons, in_rs_nil. unfold in_range; simpl. lia.
      * intros Hi. specialize (Hi (b - 1)). rewrite in_rs_cons in Hi. unfold in_range in Hi; simpl in Hi. lia.
    + rewrite rs_end_cons, (IH _ H3). split.
      * intros Hi i. rewrite in_rs_cons. intros [Hr|?]; [|auto].
        destruct r as [c d]. pose proof H3 as (?&?&?).
        assert (c < n). { apply Hi, rs_ok_head_in. done. } unfold in_range in Hr; simpl in Hr. lia.
      * intros Hi i Hin. apply Hi. rewrite in_rs_cons. tauto.
Qed.
Lemma rs_end_le_ok x n : rs_ok x -> rs_end x <= n <-> forall i, in_rs i x -> i < n.
Proof. apply rs_end_le. Qed.

Lemma in_rs_single i a b : in_rs i (rs_single a b) <-> a <= i < b.
Proof.
  unfold rs_single. destruct (Nat.ltb_spec a b).
  - rewrite in_rs_cons, in_rs_nil. unfold in_range; simpl. tauto.
  - rewrite in_rs_nil. lia.
Qed.
Lemma rs_single_ok a b : rs_ok (rs_single a b).
Proof. unfold rs_single. destruct (Nat.ltb_spec a b); [|done]. unfold rs_ok; simpl. lia. Qed.

(** a set contained in [0..n) has at most [n] elements, and exactly [n] iff it is everything *)
Lemma rs_len_le lo x n : rs_ok_from lo x -> (forall i, in_rs i x -> i < n) -> rs_len x + lo <= Nat.max n lo.
Proof.
  revert lo. induction x as [|[a b] t IH]; intros lo Hok Hin; simpl; [lia|].
  pose proof Hok as (H1 & H2 & H3).
  assert (b - 1 < n). { apply Hin. rewrite in_rs_cons. unfold in_range; simpl. lia. }
  assert (rs_len t + S b <= Nat.max n (S b)).
  { apply IH; [done|]. intros i Hi. apply Hin. rewrite in_rs_cons. tauto. }
  lia.
Qed.
Lemma rs_len_full x n : rs_ok x -> (forall i, in_rs i x -> i < n) ->
  rs_len x = n <-> forall i, i < n -> in_rs i x.
Proof.
  intros Hok Hin. split.
  - destruct x as [|[a b] t]; simpl; [intros <-; lia|]. intros Hlen.
    pose proof Hok as (H1 & H2 & H3).
    assert (b - 1 < n). { apply Hin. rewrite in_rs_cons. unfold in_range; simpl. lia. }
    assert (Ht : rs_len t + S b <= Nat.max n (S b)).
    { apply (rs_len_le _ _ n H3). intros i Hi. apply Hin. rewrite in_rs_cons. tauto. }
    assert (Hnt : t = []).
    { destruct t as [|[c d] t]; [done|]. exfalso. pose proof H3 as (?&?&?).
      assert (S b < n \/ S b >= n) as [?|?] by lia; [lia|].
      assert (c < n). { apply Hin. rewrite in_rs_cons. right. apply rs_ok_head_in. done. } lia. }
    subst t. simpl in *. intros i Hi. rewrite in_rs_cons. unfold in_range; simpl. left. lia.
  - intros Hall. assert (Hx : x = rs_single 0 n).
    { apply rs_ext; [done|apply rs_single_ok|]. intros i. rewrite in_rs_single. split; [|intros; apply Hall; lia].
      intros Hi%Hin. lia. }
    subst. unfold rs_single. destruct (Nat.ltb_spec 0 n); simpl; lia.
Qed.

(** ** equality laws as used by the transcript code *)
Lemma rs_union_nil_r x : rs_union x [] = x.
Proof. done. Qed.
Lemma rs_union_assoc x y z : rs_ok x -> rs_ok y ->
  rs_union (rs_union x y) z = rs_union x (rs_union y z).
Proof.
  intros. apply rs_ext; [by apply rs_union_ok, rs_union_ok|by apply rs_union_ok|].
  intros i. rewrite !in_rs_union by (try apply rs_union_ok; done). tauto.
Qed.
Lemma rs_union_comm x y : rs_ok x -> rs_ok y -> rs_union x y = rs_union y x.
Proof.
  intros. apply rs_ext; [by apply rs_union_ok|by apply rs_union_ok|].
  intros i. rewrite !in_rs_union by done. tauto.
Qed.
Lemma rs_union_idemp x : rs_ok x -> rs_union x x = x.
Proof.
  intros. apply rs_ext; [by apply rs_union_ok|done|].
  intros i. rewrite !in_rs_union by done. tauto.
Qed.

Lemma rs_len_cons a b t : rs_len ((a, b) :: t) = (b - a) + rs_len t.
Proof. done. Qed.
Lemma rs_len_nil : rs_len [] = 0.
Proof. done. Qed.
Global Arguments rs_values : simpl never.
Global Arguments rs_len : simpl never.
Global Arguments rs_end : simpl never.
Global Opaque in_rs_dec in_range_dec.
