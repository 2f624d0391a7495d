From Verif.Lib Require Import Base.
From Verif Require Import CodecModel CodecLemmas PrfModel PrfVmLemmas VdCheckModel VdCheckSpec.

(** ** What was seen *)
Definition seen_from (m : vm) : Prop := exists cs0, vm_seen m = vm_values cs0 /\ grows cs0 (vm_cells m).
Lemma seen_given m i v w : seen_from m -> vm_decoded m i = Some v -> vm_cells m !! i = Some (Given (Some w)) -> v = w.
Proof.
  intros (cs0 & Hs & Hg) Hd Hi. unfold vm_decoded in Hd. rewrite Hs in Hd.
  destruct (cs0 !! i) as [c|] eqn:Hc.
  - rewrite (vm_values_lookup _ _ _ Hc) in Hd. cbn in Hd. destruct (Hg _ _ Hc) as [H|(-> & _)]; [|done].
    rewrite Hi in H. injection H as <-. by injection Hd.
  - rewrite (lookup_ge_None_2 (vm_values cs0)) in Hd; [done|]. rewrite vm_values_length. by apply lookup_ge_None.
Qed.
Lemma seen_computed m i v f args :
  seen_from m -> vm_decoded m i = Some v -> vm_cells m !! i = Some (Computed f args) ->
  exists ws, v = f ws /\ Forall2 (fun a w => vm_decoded m a = Some w) args ws.
Proof.
  intros (cs0 & Hs & Hg) Hd Hi. unfold vm_decoded in *. rewrite Hs in *.
  destruct (cs0 !! i) as [c|] eqn:Hc.
  - rewrite (vm_values_lookup _ _ _ Hc) in Hd. cbn in Hd. destruct (Hg _ _ Hc) as [H|(-> & w & H)]; [|congruence].
    rewrite Hi in H. injection H as <-. cbn in Hd. apply fmap_Some in Hd as (ws & Hw & ->). exists ws. split; [done|].
    apply mapM_Some in Hw. eapply Forall2_impl; [exact Hw|]. cbn. intros a w Ha.
    destruct (decide (a < i)); [by rewrite lookup_take in Ha by done|]. by rewrite lookup_take_ge in Ha by lia.
  - rewrite (lookup_ge_None_2 (vm_values cs0)) in Hd; [done|]. rewrite vm_values_length. by apply lookup_ge_None.
Qed.
Lemma execute_computed m i f args ws :
  vm_cells m !! i = Some (Computed f args) -> Forall (fun a => a < i) args ->
  Forall2 (fun a w => vm_decoded (vm_execute m) a = Some w) args ws -> vm_decoded (vm_execute m) i = Some (f ws).
Proof.
  intros Hi Hlt Hw. unfold vm_decoded in *. cbn in *. rewrite (vm_values_lookup _ _ _ Hi). cbn.
  assert (mapM (fun a => mjoin (take i (vm_values (vm_cells m)) !! a)) args = Some ws) as ->; [|done].
  apply mapM_Some. clear Hi. induction Hw as [|a w args ws Ha Hw IH]; [done|]. inversion_clear Hlt. constructor; [|by apply IH].
  by rewrite lookup_take.
Qed.
Lemma execute_given m i v : vm_cells m !! i = Some (Given (Some v)) -> vm_decoded (vm_execute m) i = Some v.
Proof. intros H. unfold vm_decoded. cbn. by rewrite (vm_values_lookup _ _ _ H). Qed.

(** ** Growth *)
Lemma vm_add_grows m c : grows (vm_cells m) (vm_cells (vm_add m c).1) /\ vm_seen (vm_add m c).1 = vm_seen m.
Proof. split; [|done]. apply grows_prefix. by exists [c]. Qed.
Lemma vm_assign_grows m i v m' : vm_assign m i v = Ok m' ->
  grows (vm_cells m) (vm_cells m') /\ vm_seen m' = vm_seen m /\ vm_cells m' !! i = Some (Given (Some v)).
Proof.
  intros H. pose proof (vm_assign_inv _ _ _ _ H) as [Hi ->]. destruct (vm_assign_ok m i v Hi) as (m2 & E & -> & Hg & Hv & _). done.
Qed.
Lemma grows_computed cs cs' i f args : grows cs cs' -> cs !! i = Some (Computed f args) -> cs' !! i = Some (Computed f args).
Proof. intros Hg H. destruct (Hg _ _ H) as [?|[? _]]; done. Qed.

Section VdLemmas.
  Context (aes : list N -> list N -> list N).

  (** The cells of a check. *)
  Definition laid (cs : list cell) (key iv nonce ctr ct actual : nat) : Prop :=
    exists ks, cs !! ks = Some (Computed (circ_block_cipher aes) [key; iv; nonce; ctr]) /\
      cs !! actual = Some (Computed circ_apply [ks; ct]) /\
      key < ks /\ iv < ks /\ nonce < ks /\ ctr < ks /\ ks < actual /\ ct < actual.
  Lemma laid_grows cs cs' key iv nonce ctr ct actual :
    grows cs cs' -> laid cs key iv nonce ctr ct actual -> laid cs' key iv nonce ctr ct actual.
  Proof. intros Hg (ks & H1 & H2 & H). exists ks. split_and!; try lia; by eapply grows_computed. Qed.

  Definition no_alloc (cs : list vd_call) os d : Prop := forall i key iv e, ~ did cs os i (VcAlloc d key iv e).
  Definition no_assign (cs : list vd_call) os d : Prop := forall i nonce ct, ~ did cs os i (VcAssign d nonce ct).
  Definition one_alloc (cs : list vd_call) os d i0 : Prop := forall i key iv e, did cs os i (VcAlloc d key iv e) -> i = i0.
  Definition one_assign (cs : list vd_call) os d j0 : Prop := forall j nonce ct, did cs os j (VcAssign d nonce ct) -> j = j0.
  Definition side_ok (cs : list vd_call) (os : list (outcome vd_error unit)) (m : vm) (s : vd_state) (d : vd_side) : Prop :=
    match s with
    | VdInit => no_alloc cs os d /\ no_assign cs os d
    | VdAlloc nonce ctr ct e actual =>
        exists i key iv, did cs os i (VcAlloc d key iv e) /\ one_alloc cs os d i /\ no_assign cs os d /\
          laid (vm_cells m) key iv nonce ctr ct actual
    | VdAssigned e a =>
        exists i j key iv n c nonce ctr ct actual,
          did cs os i (VcAlloc d key iv e) /\ one_alloc cs os d i /\ did cs os j (VcAssign d n c) /\ one_assign cs os d j /\ i < j /\
          laid (vm_cells m) key iv nonce ctr ct actual /\ length n = 8 /\ length c = 16 /\
          vm_cells m !! nonce = Some (Given (Some n)) /\ vm_cells m !! ctr = Some (Given (Some (start_counter))) /\
          vm_cells m !! ct = Some (Given (Some c)) /\
          vm_cells m !! a = Some (Computed (circ_slice 4 12) [actual]) /\ actual < a
    end.

  Lemma did_snoc cs os c o i x : length os = length cs ->
    did (cs ++ [c]) (os ++ [o]) i x <-> did cs os i x \/ (i = length cs /\ c = x /\ o = Ok tt).
  Proof.
    intros Hl. unfold did. destruct (lt_eq_lt_dec i (length cs)) as [[Hi| ->]|Hi].
    - rewrite !lookup_app_l by lia. split; [by left|]. intros [?|[? _]]; [done|lia].
    - rewrite !lookup_app_r by lia. rewrite Hl, Nat.sub_diag. cbn. split.
      + intros [[= ->] [= ->]]. by right.
      + intros [[H _]|(_ & -> & ->)]; [|done]. apply lookup_lt_Some in H. lia.
    - rewrite !lookup_ge_None_2 by (rewrite app_length; cbn; lia). split; [by intros [? _]|].
      intros [[H _]|[? _]]; [|lia]. apply lookup_lt_Some in H. lia.
  Qed.
  (** A call that does not concern the direction. *)
  Definition other (d : vd_side) (c : vd_call) (o : outcome vd_error unit) : Prop :=
    o = Ok tt -> match c with VcAlloc d' _ _ _ | VcAssign d' _ _ => d' <> d | _ => True end.
  Lemma side_ok_other cs os m m' s d c o :
    length os = length cs -> other d c o -> grows (vm_cells m) (vm_cells m') ->
    side_ok cs os m s d -> side_ok (cs ++ [c]) (os ++ [o]) m' s d.
  Proof.
    intros Hl Ho Hg H.
    assert (forall i key iv e, did (cs ++ [c]) (os ++ [o]) i (VcAlloc d key iv e) <-> did cs os i (VcAlloc d key iv e)) as Ha.
    { intros. rewrite did_snoc by done. split; [|by left]. intros [?|(_ & -> & Hok)]; [done|]. by destruct (Ho Hok). }
    assert (forall i n t, did (cs ++ [c]) (os ++ [o]) i (VcAssign d n t) <-> did cs os i (VcAssign d n t)) as Hb.
    { intros. rewrite did_snoc by done. split; [|by left]. intros [?|(_ & -> & Hok)]; [done|]. by destruct (Ho Hok). }
    destruct s as [|nonce ctr ct e actual|e a]; cbn in *.
    - destruct H as [H1 H2]. split; [intros i key iv e; rewrite Ha; apply H1|intros i n t; rewrite Hb; apply H2].
    - destruct H as (i & key & iv & H1 & H2 & H3 & H4). exists i, key, iv. split_and!.
      + by apply Ha.
      + intros i' ? ? ?. rewrite Ha. apply H2.
      + intros i' ? ?. rewrite Hb. apply H3.
      + by eapply laid_grows.
    - destruct H as (i & j & key & iv & n & t & nonce & ctr & ct & actual & H1 & H2 & H3 & H4 & H5 & H6 & H7 & H8 & H9 & H10 & H11 & H12 & H13).
      exists i, j, key, iv, n, t, nonce, ctr, ct, actual. split_and!; try done.
      + by apply Ha.
      + intros i' ? ? ?. rewrite Ha. apply H2.
      + by apply Hb.
      + intros i' ? ?. rewrite Hb. apply H4.
      + by eapply laid_grows.
      + by eapply grows_given.
      + by eapply grows_given.
      + by eapply grows_given.
      + by eapply grows_computed.
  Qed.

  Lemma vd_alloc_grows m s key iv e m' s' o : vd_alloc aes m s key iv e = (m', s', o) ->
    grows (vm_cells m) (vm_cells m') /\ vm_seen m' = vm_seen m.
  Proof.
    intros H. destruct s; cbn in H; try (injection H as <- _ _; split; [apply grows_refl|done]).
    destruct (negb _); injection H as <- _ _; (split; [|done]); cbn; rewrite <- ?app_assoc; apply grows_prefix; by eexists.
  Qed.
  Lemma vd_assign_grows m s n c m' s' o : vd_assign m s n c = (m', s', o) ->
    grows (vm_cells m) (vm_cells m') /\ vm_seen m' = vm_seen m.
  Proof.
    intros H. destruct s as [|nonce ctr ct e a|]; cbn [vd_assign vm_add] in H; try (injection H as <- _ _; split; [apply grows_refl|done]).
    destruct (negb _); [injection H as <- _ _; split; [apply grows_refl|done]|].
    destruct (negb _); [injection H as <- _ _; split; [apply grows_refl|done]|].
    destruct (vm_assign m nonce n) as [m1| |] eqn:E1; try (injection H as <- _ _; split; [apply grows_refl|done]).
    apply vm_assign_grows in E1 as (G1 & S1 & _).
    destruct (vm_assign m1 ctr start_counter) as [m2| |] eqn:E2; try (injection H as <- _ _; done).
    apply vm_assign_grows in E2 as (G2 & S2 & _).
    destruct (vm_assign m2 ct c) as [m3| |] eqn:E3; try (injection H as <- _ _; split; [by eapply grows_trans|congruence]).
    apply vm_assign_grows in E3 as (G3 & S3 & _). injection H as <- _ _. cbn. split; [|congruence].
    eapply grows_trans; [exact G1|]. eapply grows_trans; [exact G2|]. eapply grows_trans; [exact G3|]. apply grows_prefix. by eexists.
  Qed.
  (** What a call does to the direction it concerns. *)
  Lemma vd_alloc_side cs os m s key iv e m' s' o d :
    length os = length cs -> side_ok cs os m s d -> vd_alloc aes m s key iv e = (m', s', o) ->
    side_ok (cs ++ [VcAlloc d key iv e]) (os ++ [o]) m' s' d.
  Proof.
    intros Hl Hs H. pose proof (vd_alloc_grows _ _ _ _ _ _ _ _ H) as [Hg _].
    destruct s; cbn in H; try (injection H as <- <- <-; by eapply side_ok_other).
    destruct (negb _) eqn:Hn; [injection H as <- <- <-; by eapply side_ok_other|].
    apply negb_false_iff, andb_true_iff in Hn as [Hk Hi]. apply Nat.ltb_lt in Hk, Hi.
    injection H as <- <- <-. cbn in Hs. destruct Hs as [H1 H2]. cbn [side_ok].
    exists (length cs), key, iv. split_and!.
    - apply did_snoc; [done|]. by right.
    - intros i' ? ? ? Hd. apply did_snoc in Hd as [Hd|[? _]]; [|done|done]. by apply H1 in Hd.
    - intros i' ? ? Hd. apply did_snoc in Hd as [Hd|(_ & ? & _)]; [|done|done]. by apply H2 in Hd.
    - unfold laid. exists (length (vm_cells m) + 3). cbn. rewrite !app_length, <- !app_assoc. cbn.
      split_and!; [rewrite lookup_app_r by lia; replace (_ - _) with 3 by lia; cbn; repeat f_equal; lia
                  |rewrite lookup_app_r by lia; replace (_ - _) with 4 by lia; cbn; apply f_equal, f_equal; apply (f_equal2 cons); [lia|apply (f_equal2 cons); [lia|done]]|lia..].
  Qed.
  Lemma vd_assign_side cs os m s n c m' s' o d :
    length os = length cs -> side_ok cs os m s d -> vd_assign m s n c = (m', s', o) ->
    side_ok (cs ++ [VcAssign d n c]) (os ++ [o]) m' s' d.
  Proof.
    intros Hl Hs H. pose proof (vd_assign_grows _ _ _ _ _ _ _ H) as [Hg _].
    destruct s as [|nonce ctr ct e a|]; cbn [vd_assign vm_add] in H; try (injection H as <- <- <-; by eapply side_ok_other).
    destruct (negb (length n =? 8)) eqn:Hn8; [injection H as <- <- <-; by eapply side_ok_other|].
    destruct (negb (length c =? 16)) eqn:Hc16; [injection H as <- <- <-; by eapply side_ok_other|].
    apply negb_false_iff, Nat.eqb_eq in Hn8, Hc16.
    destruct (vm_assign m nonce n) as [m1| |] eqn:E1; try (injection H as <- <- <-; by eapply side_ok_other).
    apply vm_assign_grows in E1 as (G1 & S1 & V1).
    destruct (vm_assign m1 ctr start_counter) as [m2| |] eqn:E2; try (injection H as <- <- <-; by eapply side_ok_other).
    apply vm_assign_grows in E2 as (G2 & S2 & V2).
    destruct (vm_assign m2 ct c) as [m3| |] eqn:E3; try (injection H as <- <- <-; by eapply side_ok_other).
    apply vm_assign_grows in E3 as (G3 & S3 & V3). injection H as <- <- <-.
    cbn [side_ok] in Hs. destruct Hs as (i & key & iv & H1 & H2 & H3 & H4).
    assert (grows (vm_cells m3) (vm_cells (Vm (vm_cells m3 ++ [Computed (circ_slice 4 12) [a]]) (vm_seen m3)))) as G4
      by (apply grows_prefix; by eexists).
    cbn [side_ok]. exists i, (length cs), key, iv, n, c, nonce, ctr, ct, a. split_and!; try done.
    - apply did_snoc; [done|]. by left.
    - intros i' ? ? ? Hd. apply did_snoc in Hd as [Hd|(_ & ? & _)]; [|done|done]. by eapply H2.
    - apply did_snoc; [done|]. by right.
    - intros i' ? ? Hd. apply did_snoc in Hd as [Hd|[? _]]; [|done|done]. by apply H3 in Hd.
    - destruct H1 as [H1 _]. by apply lookup_lt_Some in H1.
    - eapply laid_grows; [exact Hg|exact H4].
    - eapply grows_given; [|exact V1]. eapply grows_trans; [exact G2|]. by eapply grows_trans.
    - eapply grows_given; [|exact V2]. by eapply grows_trans.
    - by eapply grows_given.
    - cbn. rewrite lookup_app_r by lia. by rewrite Nat.sub_diag.
    - destruct H4 as (ks & _ & Ha & _). apply lookup_lt_Some in Ha.
      assert (forall cs cs' j, grows cs cs' -> j < length cs -> j < length cs') as Hlen.
      { intros cs1 cs2 j Gj Hj. destruct (lookup_lt_is_Some_2 _ _ Hj) as [x Hx].
        destruct (Gj _ _ Hx) as [?|(_ & ? & ?)]; by eapply lookup_lt_Some. }
      eapply Hlen; [exact G3|]. eapply Hlen; [exact G2|]. eapply Hlen; [exact G1|]. done.
  Qed.

  Definition vd_inv (cs : list vd_call) (os : list (outcome vd_error unit)) (b : vd_both) : Prop :=
    length os = length cs /\ seen_from (vb_vm b) /\ forall d, side_ok cs os (vb_vm b) (vb_get b d) d.
  Lemma seen_grows m m' : seen_from m -> grows (vm_cells m) (vm_cells m') -> vm_seen m' = vm_seen m -> seen_from m'.
  Proof. intros (cs0 & H1 & H2) Hg Hs. exists cs0. split; [congruence|]. by eapply grows_trans. Qed.
  Lemma vb_set_get b d m s d' : vb_get (vb_set b d m s) d' = (match d, d' with ClientFin, ClientFin | ServerFin, ServerFin => s | _, _ => vb_get b d' end).
  Proof. by destruct d, d'. Qed.
  Lemma vb_set_vm b d m s : vb_vm (vb_set b d m s) = m.
  Proof. by destruct d. Qed.
  Lemma vd_step_inv cs os b c b' o : vd_inv cs os b -> vd_step aes b c = (b', o) -> vd_inv (cs ++ [c]) (os ++ [o]) b'.
  Proof.
    intros (Hl & Hsn & Hs) H. unfold vd_inv. split; [rewrite !app_length; cbn; lia|].
    destruct c as [d key iv e|d n t|c|i v|]; cbn [vd_step] in H.
    - destruct (vd_alloc aes (vb_vm b) (vb_get b d) key iv e) as [[m s] o'] eqn:E. injection H as <- <-. rewrite vb_set_vm.
      pose proof (vd_alloc_grows _ _ _ _ _ _ _ _ E) as [G S]. split; [by eapply seen_grows|].
      intros d'. rewrite vb_set_get. destruct d, d'; try (by eapply vd_alloc_side);
        (eapply side_ok_other; [done| |exact G|apply Hs]; intros _; done).
    - destruct (vd_assign (vb_vm b) (vb_get b d) n t) as [[m s] o'] eqn:E. injection H as <- <-. rewrite vb_set_vm.
      pose proof (vd_assign_grows _ _ _ _ _ _ _ E) as [G S]. split; [by eapply seen_grows|].
      intros d'. rewrite vb_set_get. destruct d, d'; try (by eapply vd_assign_side);
        (eapply side_ok_other; [done| |exact G|apply Hs]; intros _; done).
    - injection H as <- <-. destruct (vm_add_grows (vb_vm b) c) as [G S]. split; [by eapply seen_grows|].
      intros d. eapply side_ok_other; [done| |exact G|]; [done|]. specialize (Hs d). by destruct d.
    - destruct (vm_assign (vb_vm b) i v) as [m| |] eqn:E; injection H as <- <-.
      + apply vm_assign_grows in E as (G & S & _). split; [by eapply seen_grows|].
        intros d. eapply side_ok_other; [done| |exact G|]; [done|]. specialize (Hs d). by destruct d.
      + split; [done|]. intros d. eapply side_ok_other; [done|done|apply grows_refl|apply Hs].
      + split; [done|]. intros d. eapply side_ok_other; [done|done|apply grows_refl|apply Hs].
    - injection H as <- <-. split; [exists (vm_cells (vb_vm b)); split; [done|apply grows_refl]|].
      intros d. eapply (side_ok_other _ _ (vb_vm b)); [done|done|apply grows_refl|]. specialize (Hs d). by destruct d.
  Qed.
  Lemma vd_run_inv cs2 : forall cs os b b' os2,
    vd_inv cs os b -> vd_run aes b cs2 = (b', os2) -> vd_inv (cs ++ cs2) (os ++ os2) b'.
  Proof.
    induction cs2 as [|c cs2 IH]; intros cs os b b' os2 Hi H; cbn in H.
    - injection H as <- <-. by rewrite !app_nil_r.
    - destruct (vd_step aes b c) as [b1 o] eqn:E. destruct (vd_run aes b1 cs2) as [b2 os3] eqn:E2. injection H as <- <-.
      pose proof (vd_step_inv _ _ _ _ _ _ Hi E) as H1. specialize (IH _ _ _ _ _ H1 E2).
      by rewrite <- !app_assoc in IH.
  Qed.
  Lemma vd_new_inv : vd_inv [] [] vd_new.
  Proof. split_and!; [done|by exists []|]. intros []; (split; [intros i ? ? ? [? _]; done|intros i ? ? [? _]; done]). Qed.
  Lemma vd_run_new_inv cs b os : vd_run aes vd_new cs = (b, os) -> vd_inv cs os b.
  Proof. intros H. apply (vd_run_inv cs [] [] vd_new b os vd_new_inv H). Qed.

  Lemma C47_order_lemma cs b os :
    vd_run aes vd_new cs = (b, os) ->
    (forall d i i' key iv e key' iv' e', did cs os i (VcAlloc d key iv e) -> did cs os i' (VcAlloc d key' iv' e') -> i = i') /\
    (forall d j j' n c n' c', did cs os j (VcAssign d n c) -> did cs os j' (VcAssign d n' c') -> j = j') /\
    (forall d j n c, did cs os j (VcAssign d n c) ->
       length n = 8 /\ length c = 16 /\ exists i key iv e, i < j /\ did cs os i (VcAlloc d key iv e)).
  Proof.
    intros H. apply vd_run_new_inv in H as (_ & _ & Hs). split_and!.
    - intros d i i' key iv e key' iv' e' H1 H2. specialize (Hs d). destruct (vb_get b d); cbn in Hs.
      + destruct Hs as [Hs _]. by apply Hs in H1.
      + destruct Hs as (i0 & ? & ? & _ & Ho & _). apply Ho in H1, H2. congruence.
      + destruct Hs as (i0 & ? & ? & ? & ? & ? & ? & ? & ? & ? & _ & Ho & _). apply Ho in H1, H2. congruence.
    - intros d i i' n c n' c' H1 H2. specialize (Hs d). destruct (vb_get b d); cbn in Hs.
      + destruct Hs as [_ Hs]. by apply Hs in H1.
      + destruct Hs as (i0 & ? & ? & _ & _ & Ho & _). by apply Ho in H1.
      + destruct Hs as (i0 & ? & ? & ? & ? & ? & ? & ? & ? & ? & _ & _ & _ & Ho & _). apply Ho in H1, H2. congruence.
    - intros d j n c H1. specialize (Hs d). destruct (vb_get b d); cbn in Hs.
      + destruct Hs as [_ Hs]. by apply Hs in H1.
      + destruct Hs as (i0 & ? & ? & _ & _ & Ho & _). by apply Ho in H1.
      + destruct Hs as (i0 & j0 & key & iv & n0 & c0 & ? & ? & ? & ? & A1 & _ & A2 & Ho & Hlt & _ & L1 & L2 & _).
        pose proof (Ho _ _ _ H1) as ->. destruct A2 as [A2 _], H1 as [H1 _]. rewrite H1 in A2. injection A2 as -> ->.
        split_and!; try done. eexists i0, _, _, _. split; [exact Hlt|exact A1].
  Qed.

  Context (aes_length : forall k b, length (aes k b) = 16).
  (** ** The check *)
  Lemma slice_decrypts k v n c : length n = 8 -> length c = 16 ->
    decrypts aes k v n c (circ_slice 4 12 [circ_apply [circ_block_cipher aes [k; v; n; start_counter]; c]]).
  Proof.
    intros Hn Hc. cbn. change start_counter with [0; 0; 0; 2]%N.
    assert (length (zip_with N.lxor (aes k (v ++ n ++ [0; 0; 0; 2]%N)) c) = 16) as Hz.
    { rewrite zip_with_length, aes_length. lia. }
    set (z := zip_with _ _ _) in *.
    exists (take 4 z). split_and!; [rewrite take_length; lia| |done|].
    - change (drop 0) with (@id (list N)). rewrite take_length, drop_length. lia.
    - fold z. rewrite (take_ge (drop 4 z)) by (rewrite drop_length; lia). by rewrite take_drop.
  Qed.
  Lemma decrypts_unique k v n c w w' : decrypts aes k v n c w -> decrypts aes k v n c w' -> w = w'.
  Proof.
    intros (h & H1 & _ & _ & H2) (h' & H3 & _ & _ & H4). rewrite H2 in H4. by apply app_inj_1 in H4 as [_ ->]; [|lia].
  Qed.
  Lemma check_sound cs os m s d :
    seen_from m -> side_ok cs os m s d -> vd_check m s = Ok tt -> finished_ok aes cs os m d.
  Proof.
    intros Hsn Hs H. destruct s as [| |e a]; try done. cbn in H.
    destruct (vm_decoded m e) as [w|] eqn:He; [|done]. destruct (vm_decoded m a) as [w'|] eqn:Ha; [|done].
    destruct (decide (w = w')) as [<-|]; [|done]. clear H.
    destruct Hs as (i & j & key & iv & n & c & nonce & ctr & ct & actual & H1 & _ & H2 & _ & Hij & (ks & Hks & Hac & _) & Ln & Lc & Vn & Vr & Vc & Va & _).
    destruct (seen_computed _ _ _ _ _ Hsn Ha Va) as (ws & -> & Hw). apply Forall2_cons_inv_l in Hw as (x & ? & Hx & Hw & ->).
    apply Forall2_nil_inv_l in Hw as ->.
    destruct (seen_computed _ _ _ _ _ Hsn Hx Hac) as (ws & -> & Hw). apply Forall2_cons_inv_l in Hw as (y & ? & Hy & Hw & ->).
    apply Forall2_cons_inv_l in Hw as (z & ? & Hz & Hw & ->). apply Forall2_nil_inv_l in Hw as ->.
    destruct (seen_computed _ _ _ _ _ Hsn Hy Hks) as (ws & -> & Hw). apply Forall2_cons_inv_l in Hw as (k & ? & Hk & Hw & ->).
    apply Forall2_cons_inv_l in Hw as (v & ? & Hv & Hw & ->). apply Forall2_cons_inv_l in Hw as (n' & ? & Hn' & Hw & ->).
    apply Forall2_cons_inv_l in Hw as (r & ? & Hr & Hw & ->). apply Forall2_nil_inv_l in Hw as ->.
    pose proof (seen_given _ _ _ _ Hsn Hn' Vn) as ->. pose proof (seen_given _ _ _ _ Hsn Hr Vr) as ->.
    pose proof (seen_given _ _ _ _ Hsn Hz Vc) as ->.
    exists i, j, key, iv, e, n, c, k, v. eexists. split_and!; try done. by apply slice_decrypts.
  Qed.
  Lemma C47_sound_lemma cs b os :
    vd_run aes vd_new cs = (b, os) -> vd_verify b = Ok tt -> forall d, finished_ok aes cs os (vb_vm b) d.
  Proof.
    intros H Hv. apply vd_run_new_inv in H as (_ & Hsn & Hs). unfold vd_verify in Hv. apply obind_Ok in Hv as ([] & H1 & H2).
    intros []; (eapply check_sound; [done|apply Hs|done]).
  Qed.
  Lemma check_complete cs os m s d :
    side_ok cs os (vm_execute m) s d -> finished_ok aes cs os (vm_execute m) d -> vd_check (vm_execute m) s = Ok tt.
  Proof.
    intros Hs (i & j & key & iv & e & n & c & k & v & w & _ & D1 & D2 & Hk & Hv & He & _ & Hd).
    destruct s as [|? ? ? ? ?|e' a]; cbn [side_ok] in Hs.
    - destruct Hs as [Hs _]. by apply Hs in D1.
    - destruct Hs as (? & ? & ? & _ & _ & Hs & _). by apply Hs in D2.
    - destruct Hs as (i' & j' & key' & iv' & n' & c' & nonce & ctr & ct & actual & H1 & O1 & H2 & O2 & _ &
                      (ks & Hks & Hac & K1 & K2 & K3 & K4 & K5 & K6) & Ln & Lc & Vn & Vr & Vc & Va & Hlt).
      pose proof (O1 _ _ _ _ D1) as ->. pose proof (O2 _ _ _ D2) as ->.
      destruct D1 as [D1 _], D2 as [D2 _], H1 as [H1 _], H2 as [H2 _]. rewrite D1 in H1. rewrite D2 in H2.
      injection H1 as <- <- <-. injection H2 as <- <-.
      assert (vm_decoded (vm_execute m) ks = Some (circ_block_cipher aes [k; v; n; start_counter])) as E1.
      { eapply execute_computed; [exact Hks|repeat (constructor; [done|]); constructor|].
        constructor; [done|]. constructor; [done|]. constructor; [by apply execute_given|]. constructor; [by apply execute_given|constructor]. }
      assert (vm_decoded (vm_execute m) actual = Some (circ_apply [circ_block_cipher aes [k; v; n; start_counter]; c])) as E2.
      { eapply execute_computed; [exact Hac|repeat (constructor; [done|]); constructor|].
        constructor; [done|]. constructor; [by apply execute_given|constructor]. }
      assert (vm_decoded (vm_execute m) a = Some (circ_slice 4 12 [circ_apply [circ_block_cipher aes [k; v; n; start_counter]; c]])) as E3.
      { eapply execute_computed; [exact Va|repeat (constructor; [done|]); constructor|].
        constructor; [done|constructor]. }
      unfold vd_check. rewrite He, E3. rewrite decide_True; [done|].
      eapply decrypts_unique; [exact Hd|]. by apply slice_decrypts.
  Qed.
  Lemma C47_complete_lemma cs b os :
    vd_run aes vd_new (cs ++ [VcExecute]) = (b, os) -> (forall d, finished_ok aes (cs ++ [VcExecute]) os (vb_vm b) d) ->
    vd_verify b = Ok tt.
  Proof.
    intros H Hf. pose proof H as Hi. apply vd_run_new_inv in Hi as (_ & _ & Hs).
    assert (exists m, vb_vm b = vm_execute m) as [m Hm].
    { clear -H. revert H. generalize vd_new. revert os. induction cs as [|c cs IH]; intros os b0 H; cbn in H.
      - injection H as <- _. cbn. eauto.
      - destruct (vd_step aes b0 c) as [b1 o]. destruct (vd_run aes b1 _) as [b2 os2] eqn:E. injection H as <- _. by eapply IH. }
    unfold vd_verify. rewrite Hm in *.
    pose proof (check_complete _ _ _ _ _ (Hs ClientFin) (Hf ClientFin)) as E1. cbn [vb_get] in E1. rewrite E1. cbn [obind].
    exact (check_complete _ _ _ _ _ (Hs ServerFin) (Hf ServerFin)).
  Qed.
End VdLemmas.

(** ** The traffic *)
Lemma inspect_copy_bytes xs : forall r r' fwd fin, inspect_copy r xs = (r', fwd, fin) -> in_buf r' = in_buf r ++ fwd.
Proof.
  induction xs as [|[bs now|] xs IH]; intros r r' fwd fin H; cbn in H.
  - injection H as <- <- _. by rewrite app_nil_r.
  - destruct bs as [|x bs].
    + injection H as <- <- _. cbn. done.
    + destruct (inspect_copy _ xs) as [[r1 f1] b1] eqn:E. injection H as <- <- _. apply IH in E. rewrite E. cbn. by rewrite <- app_assoc.
  - injection H as <- <- _. by rewrite app_nil_r.
Qed.
Lemma inspect_copy_first xs : forall r r' fwd fin t, inspect_copy r xs = (r', fwd, fin) -> in_first r = Some t -> in_first r' = Some t.
Proof.
  induction xs as [|[bs now|] xs IH]; intros r r' fwd fin t H Ht; cbn in H.
  - by injection H as <- _ _.
  - destruct bs as [|x bs].
    + injection H as <- _ _. cbn. by rewrite Ht.
    + destruct (inspect_copy _ xs) as [[r1 f1] b1] eqn:E. injection H as <- _ _. eapply IH; [exact E|]. cbn. by rewrite Ht.
  - by injection H as <- _ _.
Qed.
Lemma inspect_copy_time xs r' fwd fin :
  inspect_copy inspect_new xs = (r', fwd, fin) ->
  match in_first r' with Some t => first_time xs t | None => fwd = [] end.
Proof.
  intros H. destruct xs as [|[[|x bs] now|] xs]; cbn in H; try (by injection H as <- <- _).
  destruct (inspect_copy _ xs) as [[r1 f1] b1] eqn:E. injection H as <- <- _.
  rewrite (inspect_copy_first _ _ _ _ _ now E eq_refl). by eexists _, _, _.
Qed.
Lemma inspect_copy_stream xs bs r : stream_of xs bs -> exists r', inspect_copy r xs = (r', bs, true).
Proof.
  intros H. revert r. induction H as [now rest|bs now rest ys Hne H IH]; intros r.
  - by eexists.
  - destruct bs as [|x bs]; [done|]. cbn.
    destruct (IH (Inspect (in_buf r ++ x :: bs) (match in_first r with Some t => Some t | None => Some now end))) as (r' & E).
    exists r'. by rewrite E.
Qed.
Lemma inspect_copy_fin xs : forall r r' fwd, inspect_copy r xs = (r', fwd, true) -> stream_of xs fwd.
Proof.
  induction xs as [|[bs now|] xs IH]; intros r r' fwd H; [done| |done].
  cbn in H. destruct bs as [|x bs].
  - injection H as _ <-. constructor.
  - destruct (inspect_copy _ xs) as [[r1 f1] b1] eqn:E. injection H as _ <- ->.
    apply (stream_more (x :: bs)); [done|]. by eapply IH.
Qed.
Lemma C55_recorded_lemma xs r fwd fin : inspect_copy inspect_new xs = (r, fwd, fin) -> in_buf r = fwd.
Proof. apply inspect_copy_bytes. Qed.
Lemma C55_traffic_lemma prover server a b t :
  proxy_traffic prover server = Some (Ok (a, b, t)) -> stream_of prover a /\ stream_of server b /\ first_time prover t.
Proof.
  unfold proxy_traffic. destruct (inspect_copy inspect_new prover) as [[p fp] pf] eqn:Ep.
  destruct (inspect_copy inspect_new server) as [[s fs] sf] eqn:Es. destruct (pf && sf) eqn:Hf; [|done].
  apply andb_true_iff in Hf as [-> ->]. intros [= H]. apply obind_Ok in H as (t' & Ht & [= <- <- <-]).
  pose proof (inspect_copy_fin _ _ _ _ Ep) as Sp. pose proof (inspect_copy_fin _ _ _ _ Es) as Ss.
  apply inspect_copy_bytes in Ep as Bp. apply inspect_copy_bytes in Es as Bs. cbn in Bp, Bs. rewrite Bp, Bs.
  apply inspect_copy_time in Ep as Tp. destruct (in_first p) as [t2|]; [|done]. injection Ht as <-. done.
Qed.
Lemma C55_goes_on_lemma prover server a b :
  stream_of prover a -> stream_of server b -> a <> [] -> exists t, proxy_traffic prover server = Some (Ok (a, b, t)).
Proof.
  intros Ha Hb Hne. destruct (inspect_copy_stream _ _ inspect_new Ha) as (p & Ep).
  destruct (inspect_copy_stream _ _ inspect_new Hb) as (s & Es).
  apply inspect_copy_bytes in Ep as Bp. apply inspect_copy_bytes in Es as Bs. cbn in Bp, Bs.
  unfold proxy_traffic. rewrite Ep, Es. cbn [andb]. rewrite Bp, Bs.
  apply inspect_copy_time in Ep as Tp. destruct (in_first p) as [t|]; [by exists t|done].
Qed.
Lemma C55_empty_lemma prover server b :
  stream_of prover [] -> stream_of server b -> proxy_traffic prover server = Some Panic.
Proof.
  intros Ha Hb. destruct (inspect_copy_stream _ _ inspect_new Ha) as (p & Ep).
  destruct (inspect_copy_stream _ _ inspect_new Hb) as (s & Es). unfold proxy_traffic. rewrite Ep, Es. cbn [andb].
  apply inspect_copy_time in Ep as Tp. destruct (in_first p) as [t|] eqn:E; [|done].
  destruct Tp as (x & bs & rest & ->). cbn in Ep. by destruct (inspect_copy _ rest) as [[? ?] ?].
Qed.
