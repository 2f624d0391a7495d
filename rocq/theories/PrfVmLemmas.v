From Verif.Lib Require Import Base.
From Verif Require Import CodecModel CodecLemmas PrfModel.

(** ** Values *)
Lemma vm_values_snoc cs c : vm_values (cs ++ [c]) = vm_values cs ++ [cell_value (vm_values cs) c].
Proof. unfold vm_values. by rewrite fold_left_app. Qed.
Lemma vm_values_length cs : length (vm_values cs) = length cs.
Proof. induction cs as [|c cs IH] using rev_ind; [done|]. rewrite vm_values_snoc, !app_length, IH. done. Qed.
Lemma vm_values_lookup cs i c :
  cs !! i = Some c -> vm_values cs !! i = Some (cell_value (take i (vm_values cs)) c).
Proof.
  revert i c. induction cs as [|d cs IH] using rev_ind; intros i c H; [done|].
  rewrite vm_values_snoc. apply lookup_app_Some in H as [H|[Hl H]].
  - pose proof (lookup_lt_Some _ _ _ H). rewrite lookup_app_l by (rewrite vm_values_length; done).
    rewrite (IH _ _ H). do 2 f_equal. rewrite take_app_le; [done|]. rewrite vm_values_length. lia.
  - destruct (i - length cs) as [|k] eqn:Hk; [|done]. injection H as ->.
    assert (i = length cs) as -> by lia.
    rewrite lookup_app_r by (rewrite vm_values_length; done). rewrite vm_values_length, Nat.sub_diag. cbn.
    do 2 f_equal. rewrite take_app_alt; [done|]. by rewrite vm_values_length.
Qed.

(** Cells are added and inputs without a value are given one. *)
Definition grows (cs cs' : list cell) : Prop :=
  forall i c, cs !! i = Some c -> cs' !! i = Some c \/ (c = Given None /\ exists v, cs' !! i = Some (Given (Some v))).
Lemma grows_refl cs : grows cs cs.
Proof. intros i c H. by left. Qed.
Lemma grows_trans a b c : grows a b -> grows b c -> grows a c.
Proof.
  intros H1 H2 i x Hx. destruct (H1 i x Hx) as [H|(-> & v & H)].
  - destruct (H2 _ _ H) as [?|?]; [by left|by right].
  - right. split; [done|]. destruct (H2 _ _ H) as [?|[? _]]; [eauto|done].
Qed.
Lemma grows_prefix a b : a `prefix_of` b -> grows a b.
Proof. intros [k ->] i c H. left. by apply lookup_app_l_Some. Qed.
Lemma grows_app a b : grows a (a ++ b).
Proof. apply grows_prefix. by exists b. Qed.
Lemma grows_given cs cs' i v : grows cs cs' -> cs !! i = Some (Given (Some v)) -> cs' !! i = Some (Given (Some v)).
Proof. intros H Hi. destruct (H _ _ Hi) as [?|[? _]]; done. Qed.
Lemma grows_computed cs cs' i f args : grows cs cs' -> cs !! i = Some (Computed f args) -> cs' !! i = Some (Computed f args).
Proof. intros H Hi. destruct (H _ _ Hi) as [?|[? _]]; done. Qed.

(** A cell has a value. *)
Definition avail (cs : list cell) (i : nat) : Prop := exists v, vm_values cs !! i = Some (Some v).
(** A cell has a value whenever others have. *)
Definition needs (cs : list cell) (i : nat) (js : list nat) : Prop :=
  forall cs', grows cs cs' -> Forall (avail cs') js -> avail cs' i.
Lemma needs_grows cs cs' i js : grows cs cs' -> needs cs i js -> needs cs' i js.
Proof. intros H Hn cs'' H'. apply Hn. by eapply grows_trans. Qed.
Lemma needs_use cs i js : needs cs i js -> Forall (avail cs) js -> avail cs i.
Proof. intros H. apply H, grows_refl. Qed.
Lemma needs_given cs i v : cs !! i = Some (Given (Some v)) -> needs cs i [].
Proof.
  intros H cs' Hg _. pose proof (grows_given _ _ _ _ Hg H) as H'. exists v. by rewrite (vm_values_lookup _ _ _ H').
Qed.
Lemma needs_computed cs i f args : cs !! i = Some (Computed f args) -> Forall (fun a => a < i) args -> needs cs i args.
Proof.
  intros H Hlt cs' Hg Ha. pose proof (grows_computed _ _ _ _ _ Hg H) as H'.
  unfold avail. rewrite (vm_values_lookup _ _ _ H'). cbn [cell_value].
  assert (is_Some (mapM (fun a => mjoin (take i (vm_values cs') !! a)) args)) as [ws ->].
  { apply mapM_is_Some. clear -Hlt Ha. induction Hlt as [|a args Hi Hlt IH]; [done|].
    inversion_clear Ha as [|? ? [v Hv] Ha']. constructor; [|by apply IH].
    unfold compose. rewrite lookup_take by done. rewrite Hv. by exists v. }
  eexists. done.
Qed.
(** Cutting: what is needed for what is needed. *)
Lemma needs_trans cs i js ks : needs cs i js -> Forall (fun j => needs cs j ks) js -> needs cs i ks.
Proof.
  intros H Hj cs' Hg Hk. apply H; [done|]. eapply Forall_impl; [exact Hj|]. cbn. intros j Hn. by apply Hn.
Qed.
Lemma needs_in cs j ks : j ∈ ks -> needs cs j ks.
Proof. intros H cs' _ Hk. rewrite Forall_forall in Hk. by apply Hk. Qed.
Lemma needs_weaken cs i js ks : needs cs i js -> js ⊆ ks -> needs cs i ks.
Proof. intros H Hs cs' Hg Hk. apply H; [done|]. rewrite Forall_forall in *. intros x Hx. apply Hk. by apply Hs. Qed.

(** ** Expected values *)
Definition cell_ok (E : list (list N)) (c : cell) (v : list N) : Prop :=
  match c with
  | Given (Some w) => w = v
  | Given None => True
  | Computed f args => exists ws, mapM (fun a => E !! a) args = Some ws /\ f ws = v
  end.
Definition consistent (cs : list cell) (E : list (list N)) : Prop :=
  length cs = length E /\ forall i c v, cs !! i = Some c -> E !! i = Some v -> cell_ok E c v.

Lemma mapM_lookup_prefix (E E' : list (list N)) args ws :
  E `prefix_of` E' -> mapM (fun a => E !! a) args = Some ws -> mapM (fun a => E' !! a) args = Some ws.
Proof.
  intros Hp H. apply mapM_Some in H. apply mapM_Some. induction H as [|a w args ws Hw H IH]; constructor; [|done].
  by eapply prefix_lookup.
Qed.
Lemma cell_ok_prefix E E' c v : E `prefix_of` E' -> cell_ok E c v -> cell_ok E' c v.
Proof. destruct c as [[w|]|f args]; cbn; [done|done|]. intros Hp (ws & H & Hf). exists ws. split; [|done]. by eapply mapM_lookup_prefix. Qed.
Lemma consistent_snoc cs E c v : consistent cs E -> cell_ok E c v -> consistent (cs ++ [c]) (E ++ [v]).
Proof.
  intros [Hl H] Hc. split; [rewrite !app_length, Hl; done|]. intros i d w Hd Hw.
  apply (cell_ok_prefix E); [by exists [v]|].
  destruct (decide (i < length cs)) as [Hi|Hi].
  - rewrite lookup_app_l in Hd by done. rewrite lookup_app_l in Hw by lia. by eapply H.
  - rewrite lookup_app_r in Hd by lia. rewrite lookup_app_r in Hw by lia. rewrite <- Hl in Hw.
    destruct (i - length cs); [|done]. cbn in Hd, Hw. by simplify_eq.
Qed.
Lemma consistent_assign cs E i v :
  consistent cs E -> E !! i = Some v -> consistent (<[i := Given (Some v)]> cs) E.
Proof.
  intros [Hl H] Hv. split; [by rewrite insert_length|]. intros j d w Hd Hw.
  destruct (decide (i = j)) as [->|Hne].
  - destruct (decide (j < length cs)).
    + rewrite list_lookup_insert in Hd by done. simplify_eq. cbn. congruence.
    + apply lookup_lt_Some in Hd. rewrite insert_length in Hd. done.
  - rewrite list_lookup_insert_ne in Hd by done. by eapply H.
Qed.
Lemma values_expected cs E i v : consistent cs E -> vm_values cs !! i = Some (Some v) -> E !! i = Some v.
Proof.
  intros [Hl H]. revert v. induction (lt_wf i) as [i _ IH]. intros v Hv.
  pose proof (lookup_lt_Some _ _ _ Hv) as Hi. rewrite vm_values_length in Hi.
  destruct (lookup_lt_is_Some_2 cs i Hi) as [c Hc]. rewrite Hl in Hi. destruct (lookup_lt_is_Some_2 E i Hi) as [w Hw].
  rewrite (vm_values_lookup _ _ _ Hc) in Hv. injection Hv as Hv. specialize (H _ _ _ Hc Hw). rewrite Hw.
  destruct c as [o|f args]; cbn in Hv, H.
  - subst o. cbn in H. congruence.
  - apply fmap_Some in Hv as (ws & Hm & ->). destruct H as (ws' & Hm' & <-). do 2 f_equal.
    apply mapM_Some in Hm, Hm'. symmetry. clear Hw Hc. revert ws' Hm'.
    induction Hm as [|a w0 args ws Ha Hm IHm]; intros ws' Hm'; inversion_clear Hm' as [|? w1 ? ws1 Ha1 Hm1]; [done|].
    f_equal; [|by apply IHm].
    destruct (take i (vm_values cs) !! a) as [o|] eqn:Ho; [|done]. cbn in Ha. subst o.
    assert (a < i). { apply lookup_lt_Some in Ho. rewrite take_length in Ho. lia. }
    rewrite lookup_take in Ho by done. rewrite (IH a) with (v := w0) in Ha1 by done. congruence.
Qed.
(** Values seen. *)
Definition seen_ok (E : list (list N)) (m : vm) : Prop := forall i v, vm_decoded m i = Some v -> E !! i = Some v.
Lemma decoded_value m i v : vm_seen m = vm_values (vm_cells m) -> vm_values (vm_cells m) !! i = Some (Some v) -> vm_decoded m i = Some v.
Proof. intros Hs H. unfold vm_decoded. rewrite Hs, H. done. Qed.
Lemma decoded_avail m i : vm_seen m = vm_values (vm_cells m) -> avail (vm_cells m) i -> exists v, vm_decoded m i = Some v.
Proof. intros Hs [v H]. exists v. by eapply decoded_value. Qed.
Lemma seen_execute E m : consistent (vm_cells m) E -> seen_ok E (vm_execute m).
Proof.
  intros H i v Hd. unfold vm_decoded in Hd. cbn in Hd.
  destruct (vm_values (vm_cells m) !! i) as [o|] eqn:Ho; [|done]. cbn in Hd. subst o. by eapply values_expected.
Qed.

(** ** Growing by additions *)
Record ext (m : vm) (E : list (list N)) (m' : vm) (E' : list (list N)) : Prop := {
  ext_seen : vm_seen m' = vm_seen m;
  ext_consistent : consistent (vm_cells m') E';
  ext_expected : E `prefix_of` E';
  ext_cells : vm_cells m `prefix_of` vm_cells m' }.
Lemma ext_refl m E : consistent (vm_cells m) E -> ext m E m E.
Proof. by split. Qed.
Lemma ext_trans m1 E1 m2 E2 m3 E3 : ext m1 E1 m2 E2 -> ext m2 E2 m3 E3 -> ext m1 E1 m3 E3.
Proof. intros [] []. split; [congruence|done|by etrans|by etrans]. Qed.
Lemma ext_add m E c v : consistent (vm_cells m) E -> cell_ok E c v -> ext m E (fst (vm_add m c)) (E ++ [v]).
Proof.
  intros H Hc. split; [done|by apply consistent_snoc|by exists [v]|by exists [c]].
Qed.
Lemma ext_grows m E m' E' : ext m E m' E' -> grows (vm_cells m) (vm_cells m').
Proof. intros []. by apply grows_prefix. Qed.
Lemma ext_lookup m E m' E' i v : ext m E m' E' -> E !! i = Some v -> E' !! i = Some v.
Proof. intros [] H. by eapply prefix_lookup. Qed.
Lemma ext_length m E m' E' : ext m E m' E' -> length (vm_cells m) <= length (vm_cells m').
Proof. intros []. by apply prefix_length. Qed.
Lemma consistent_length m E : consistent (vm_cells m) E -> length E = length (vm_cells m).
Proof. by intros [-> _]. Qed.

(** Adding a cell, with all that is known of it. *)
Lemma vm_add_given m E o v m' i :
  consistent (vm_cells m) E -> o = None \/ o = Some v -> vm_add m (Given o) = (m', i) ->
  exists E', ext m E m' E' /\ E' !! i = Some v /\ vm_cells m' !! i = Some (Given o) /\
    i = length (vm_cells m) /\ length (vm_cells m') = S i.
Proof.
  intros Hc Ho [= <- <-]. exists (E ++ [v]). split_and!.
  - apply (ext_add m E (Given o)); [done|]. destruct Ho as [->| ->]; done.
  - rewrite <- (consistent_length _ _ Hc). apply list_lookup_middle. done.
  - apply list_lookup_middle. done.
  - done.
  - cbn. rewrite app_length. cbn. lia.
Qed.
Lemma vm_add_computed m E f args ws m' i :
  consistent (vm_cells m) E -> mapM (fun a => E !! a) args = Some ws -> vm_add m (Computed f args) = (m', i) ->
  exists E', ext m E m' E' /\ E' !! i = Some (f ws) /\ needs (vm_cells m') i args /\
    i = length (vm_cells m) /\ length (vm_cells m') = S i /\ vm_cells m' !! i = Some (Computed f args).
Proof.
  intros Hc Hm [= <- <-]. exists (E ++ [f ws]).
  assert ((vm_cells m ++ [Computed f args]) !! length (vm_cells m) = Some (Computed f args)) as Hl
    by (by apply list_lookup_middle).
  split_and!.
  - apply (ext_add m E (Computed f args)); [done|]. cbn. eauto.
  - rewrite <- (consistent_length _ _ Hc). apply list_lookup_middle. done.
  - eapply needs_computed; [exact Hl|]. rewrite <- (consistent_length _ _ Hc).
    apply mapM_Some in Hm. clear -Hm. induction Hm as [|a w args ws Ha Hm IH]; constructor; [|done].
    by eapply lookup_lt_Some.
  - done.
  - cbn. rewrite app_length. cbn. lia.
  - done.
Qed.

(** Assigning. *)
Lemma vm_assign_ok m i v :
  vm_cells m !! i = Some (Given None) ->
  exists m', vm_assign m i v = Ok m' /\ m' = Vm (<[i := Given (Some v)]> (vm_cells m)) (vm_seen m) /\
    grows (vm_cells m) (vm_cells m') /\ vm_cells m' !! i = Some (Given (Some v)) /\
    (forall j, j <> i -> vm_cells m' !! j = vm_cells m !! j).
Proof.
  intros H. unfold vm_assign. rewrite H. eexists. split_and!; [done|done| | |]; cbn.
  - intros j c Hc. destruct (decide (i = j)) as [->|Hne].
    + right. rewrite H in Hc. injection Hc as <-. split; [done|]. exists v. apply list_lookup_insert.
      by eapply lookup_lt_Some.
    + left. by rewrite list_lookup_insert_ne.
  - apply list_lookup_insert. by eapply lookup_lt_Some.
  - intros j Hj. by rewrite list_lookup_insert_ne.
Qed.
Lemma vm_assign_inv m i v m' :
  vm_assign m i v = Ok m' -> vm_cells m !! i = Some (Given None) /\ m' = Vm (<[i := Given (Some v)]> (vm_cells m)) (vm_seen m).
Proof. unfold vm_assign. destruct (vm_cells m !! i) as [[[]|]|]; intros [= <-]; done. Qed.
