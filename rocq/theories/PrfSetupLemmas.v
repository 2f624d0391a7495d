From Verif.Lib Require Import Base.
From Verif Require Import CodecModel CodecLemmas PrfModel PrfSpec PrfShaLemmas PrfVmLemmas PrfFnLemmas PrfExpLemmas PrfRunLemmas.

Local Arguments iterations_of : simpl never.

(** ** What the key derivation consists of *)
Record lay := Lay {
  ly_op : nat; ly_ip : nat; ly_om : nat; ly_im : nat;
  ly_ms : list nat; ly_ke : list nat; ly_cf : list nat; ly_sf : list nat }.
Definition master_from (k : ms_mode) (y : lay) : list nat := match k with MsDirect => [0] | _ => ly_ms y end.
Definition lay_ok (k : ms_mode) (y : lay) (out : prf_output) (cs : list cell) : Prop :=
  (k <> MsDirect -> needs cs (ly_op y) [0] /\ needs cs (ly_ip y) [0]) /\
  needs cs (ly_om y) (master_from k y) /\ needs cs (ly_im y) (master_from k y) /\
  needs cs (po_ck out) (ly_ke y) /\ needs cs (po_sk out) (ly_ke y) /\
  needs cs (po_civ out) (ly_ke y) /\ needs cs (po_siv out) (ly_ke y) /\
  needs cs (po_cf out) (ly_cf y) /\ needs cs (po_sf out) (ly_sf y).
Lemma lay_ok_grows k y out cs cs' : grows cs cs' -> lay_ok k y out cs -> lay_ok k y out cs'.
Proof.
  intros Hg (H0 & H1 & H2 & H3 & H4 & H5 & H6 & H7 & H8). split_and!; try (by eapply needs_grows).
  intros Hk. destruct (H0 Hk). split; by eapply needs_grows.
Qed.

Record fns := Fns { g_ms : option inner_prf; g_ke : inner_prf; g_cf : inner_prf; g_sf : inner_prf }.
Definition opend (o : option inner_prf) : list nat := match o with Some f => fn_pend f | None => [] end.
Definition fns_pend (g : fns) : list nat := opend (g_ms g) ++ fn_pend (g_ke g) ++ fn_pend (g_cf g) ++ fn_pend (g_sf g).
Definition fns_ok (k : ms_mode) (y : lay) (cs : list cell) (g : fns) : Prop :=
  (match g_ms g with Some f => k <> MsDirect /\ fn_shape cs (ly_op y) (ly_ip y) 2 (ly_ms y) f | None => k = MsDirect end) /\
  fn_shape cs (ly_om y) (ly_im y) 2 (ly_ke y) (g_ke g) /\
  fn_shape cs (ly_om y) (ly_im y) 1 (ly_cf y) (g_cf g) /\
  fn_shape cs (ly_om y) (ly_im y) 1 (ly_sf y) (g_sf g) /\
  NoDup (0 :: fns_pend g).
Definition odone (o : option inner_prf) : bool := match o with Some f => fn_done f | None => true end.
Definition fns_done (g : fns) : Prop :=
  odone (g_ms g) = true /\ fn_done (g_ke g) = true /\ fn_done (g_cf g) = true /\ fn_done (g_sf g) = true.
Definition prf_has (p : prf) (g : fns) : Prop :=
  pf_state p = PSetup (g_ms g) (g_ke g) (g_cf g) (g_sf g) \/ (pf_state p = PComplete /\ fns_done g).
(** The invariant that does not mention values. *)
Definition prf_ok (k : ms_mode) (y : lay) (out : prf_output) (m : vm) (p : prf) (g : fns) : Prop :=
  lay_ok k y out (vm_cells m) /\ fns_ok k y (vm_cells m) g /\ prf_has p g /\ pf_ms p = k /\
  (exists o, vm_cells m !! 0 = Some (Given o)).

Section Setup.
  Context (iv : list N) (compress : list N -> list N -> list N).
  Context (compress_length : forall s b, length (compress s b) = 8).
  Notation rfc_master := (rfc_master iv compress).

  Lemma be_words_length l : length (concat (map (be 4) l)) = 4 * length l.
  Proof. induction l as [|x l IH]; [done|]. cbn [map concat]. rewrite app_length, be_length, IH. cbn. lia. Qed.
  Lemma fold_compress_length bs s : length s = 8 -> length (fold_left compress bs s) = 8.
  Proof. revert s. induction bs as [|b bs IH]; intros s H; [done|]. cbn. apply IH. apply compress_length. Qed.
  Lemma fips_length msg : length (fips_sha256 iv compress msg) = 32.
  Proof.
    unfold fips_sha256. rewrite be_words_length.
    assert (exists b bs, blocks_of (length (fips_pad msg)) (fips_pad msg) = b :: bs) as (b & bs & ->).
    { assert (exists x l, fips_pad msg = x :: l) as (x & l & E).
      { unfold fips_pad. destruct msg as [|x l]; eexists _, _; reflexivity. }
      rewrite E. cbn [length blocks_of]. eauto. }
    cbn [fold_left]. rewrite fold_compress_length; [done|apply compress_length].
  Qed.
  Lemma hmac_length K x : length (rfc_hmac iv compress K x) = 32.
  Proof. apply fips_length. Qed.
  Lemma p_hash_length K s n : length (rfc_p_hash iv compress K s n) = 32 * n.
  Proof.
    unfold rfc_p_hash.
    assert (forall j, length (concat (map (fun i => rfc_hmac iv compress K (rfc_a iv compress K s i ++ s)) (seq j n))) = 32 * n)
      as H; [|apply H].
    induction n as [|n IH]; intros j; [done|]. cbn [seq map concat]. rewrite app_length, hmac_length, IH. lia.
  Qed.
  Lemma rfc_prf_length K l s n : length (rfc_prf iv compress K l s n) = n.
  Proof.
    unfold rfc_prf. rewrite take_length, p_hash_length.
    pose proof (Nat.div_mod (n + 31) 32 ltac:(lia)). pose proof (Nat.mod_upper_bound (n + 31) 32 ltac:(lia)). lia.
  Qed.
  Lemma master_length k v : length (tv_secret v) = secret_length k -> length (rfc_master k v) = 48.
  Proof. destruct k; intros H; [apply rfc_prf_length|apply rfc_prf_length|exact H]. Qed.

  (** The seeds, with their labels. *)
  Definition seed_ms (k : ms_mode) (v : tls_values) : list N :=
    match k with
    | MsExtended => rfc_extended_master_secret ++ tv_session_hash v
    | _ => rfc_master_secret ++ tv_client_random v ++ tv_server_random v
    end.
  Definition seed_ke (v : tls_values) : list N := rfc_key_expansion ++ tv_server_random v ++ tv_client_random v.
  Definition seed_cf (v : tls_values) : list N := rfc_client_finished ++ tv_cf_hash v.
  Definition seed_sf (v : tls_values) : list N := rfc_server_finished ++ tv_sf_hash v.
  Notation so K := (key_state iv compress K 92).
  Notation si K := (key_state iv compress K 54).
  Definition fn_is (K seed label : list N) (E : list (list N)) (f : inner_prf) : Prop :=
    fn_expected compress (so K) (si K) seed E f /\ fn_label f = label.
  Definition exp_ok (k : ms_mode) (v : tls_values) (E : list (list N)) (g : fns) : Prop :=
    (forall f, g_ms g = Some f ->
       fn_is (tv_secret v) (seed_ms k v) (match k with MsExtended => rfc_extended_master_secret | _ => rfc_master_secret end) E f) /\
    fn_is (rfc_master k v) (seed_ke v) rfc_key_expansion E (g_ke g) /\
    fn_is (rfc_master k v) (seed_cf v) rfc_client_finished E (g_cf g) /\
    fn_is (rfc_master k v) (seed_sf v) rfc_server_finished E (g_sf g).
  Definition out_ok (k : ms_mode) (v : tls_values) (E : list (list N)) (out : prf_output) : Prop :=
    exists d, is_derived iv compress k v d /\
      E !! po_ck out = Some (d_client_key d) /\ E !! po_sk out = Some (d_server_key d) /\
      E !! po_civ out = Some (d_client_iv d) /\ E !! po_siv out = Some (d_server_iv d) /\
      E !! po_cf out = Some (d_cf d) /\ E !! po_sf out = Some (d_sf d).

  Lemma fn_is_prefix K s l E E' f : E `prefix_of` E' -> fn_is K s l E f -> fn_is K s l E' f.
  Proof. intros Hp [H1 H2]. split; [by eapply fn_expected_prefix|done]. Qed.
  Lemma fn_shape_prefix cs cs' o i n outs f : cs `prefix_of` cs' -> fn_shape cs o i n outs f -> fn_shape cs' o i n outs f.
  Proof.
    intros Hp H. eapply fn_shape_grows; [by apply grows_prefix| |exact H].
    eapply Forall_impl; [by eapply fn_pend_none|]. cbn. intros j Hj. by eapply prefix_lookup.
  Qed.
  Lemma needs_prefix cs cs' i js : cs `prefix_of` cs' -> needs cs i js -> needs cs' i js.
  Proof. intros Hp. apply needs_grows. by apply grows_prefix. Qed.

  Lemma four_parts (l : list N) :
    length l = 40 -> take 16 l ++ take 16 (drop 16 l) ++ take 4 (drop 32 l) ++ take 4 (drop 36 l) = l.
  Proof.
    intros H. rewrite (take_ge (drop 36 l)) by (rewrite drop_length; lia).
    replace (drop 36 l) with (drop 4 (drop 32 l)) by (by rewrite drop_drop). rewrite take_drop.
    replace (drop 32 l) with (drop 16 (drop 16 l)) by (by rewrite drop_drop). rewrite take_drop. apply take_drop.
  Qed.
  Lemma NoDup_intervals (l1 l2 : list nat) a : NoDup l1 -> NoDup l2 -> Forall (fun i => i < a) l1 -> Forall (fun i => a <= i) l2 -> NoDup (l1 ++ l2).
  Proof.
    intros H1 H2 B1 B2. apply NoDup_app. split_and!; [done| |done]. rewrite Forall_forall in *. intros x Hx Hx'.
    apply B1 in Hx. apply B2 in Hx'. lia.
  Qed.

  Lemma post_ms_added m E p ms MS k v mso m' p' out :
    consistent (vm_cells m) E -> E !! ms = Some MS -> MS = rfc_master k v -> length MS = 48 ->
    alloc_post_ms iv compress m p ms mso = (m', p', out) ->
    exists E' om im ke cf sf,
      ext m E m' E' /\ p' = Prf (pf_net p) (pf_ms p) (PSetup mso ke cf sf) (pf_random p) /\
      needs (vm_cells m') om [ms] /\ needs (vm_cells m') im [ms] /\
      fn_shape (vm_cells m') om im 2 (fn_output ke) ke /\ fn_shape (vm_cells m') om im 1 (fn_output cf) cf /\
      fn_shape (vm_cells m') om im 1 (fn_output sf) sf /\
      fn_is MS (seed_ke v) rfc_key_expansion E' ke /\ fn_is MS (seed_cf v) rfc_client_finished E' cf /\
      fn_is MS (seed_sf v) rfc_server_finished E' sf /\
      NoDup (fn_pend ke ++ fn_pend cf ++ fn_pend sf) /\
      Forall (fun i => length (vm_cells m) <= i) (fn_pend ke ++ fn_pend cf ++ fn_pend sf) /\
      (needs (vm_cells m') (po_ck out) (fn_output ke) /\ needs (vm_cells m') (po_sk out) (fn_output ke) /\
       needs (vm_cells m') (po_civ out) (fn_output ke) /\ needs (vm_cells m') (po_siv out) (fn_output ke) /\
       needs (vm_cells m') (po_cf out) (fn_output cf) /\ needs (vm_cells m') (po_sf out) (fn_output sf)) /\
      out_ok k v E' out.
  Proof.
    intros Hc Hms HMS Hl H. unfold alloc_post_ms in H.
    destruct (compute_partial _ _ m _ _ opad) as [m1 om] eqn:H1.
    destruct (compute_partial_added iv compress m E ms 48 MS 92%N opad m1 om Hc Hms Hl eq_refl H1) as (E1 & X1 & V1 & N1).
    destruct (compute_partial _ _ m1 _ _ ipad) as [m2 im] eqn:H2.
    destruct (compute_partial_added iv compress m1 E1 ms 48 MS 54%N ipad m2 im (ext_consistent _ _ _ _ X1)
      (ext_lookup _ _ _ _ _ _ X1 Hms) Hl eq_refl H2) as (E2 & X2 & V2 & N2).
    destruct (fn_alloc _ _ m2 label_key _ _ _) as [m3 ke] eqn:H3.
    destruct (fn_alloc_added compress (so MS) (si MS) (seed_ke v) om im (pf_net p) m2 E2 label_key 40 m3 ke)
      as (E3 & X3 & S3 & F3 & O3 & L3 & D3 & B3 & _ & LB3);
      [apply X2|exact (ext_lookup _ _ _ _ _ _ X2 V1)|exact V2|vm_compute; lia|exact H3|].
    pose proof (ext_trans _ _ _ _ _ _ X2 X3) as X23.
    destruct (fn_alloc _ _ m3 label_cf _ _ _) as [m4 cf] eqn:H4.
    destruct (fn_alloc_added compress (so MS) (si MS) (seed_cf v) om im (pf_net p) m3 E3 label_cf 12 m4 cf)
      as (E4 & X4 & S4 & F4 & O4 & L4 & D4 & B4 & _ & LB4);
      [apply X3|exact (ext_lookup _ _ _ _ _ _ X23 V1)|exact (ext_lookup _ _ _ _ _ _ X3 V2)|vm_compute; lia|exact H4|].
    pose proof (ext_trans _ _ _ _ _ _ X23 X4) as X24. pose proof (ext_trans _ _ _ _ _ _ X3 X4) as X34.
    destruct (fn_alloc _ _ m4 label_sf _ _ _) as [m5 sf] eqn:H5.
    destruct (fn_alloc_added compress (so MS) (si MS) (seed_sf v) om im (pf_net p) m4 E4 label_sf 12 m5 sf)
      as (E5 & X5 & S5 & F5 & O5 & L5 & D5 & B5 & _ & LB5);
      [apply X4|exact (ext_lookup _ _ _ _ _ _ X24 V1)|exact (ext_lookup _ _ _ _ _ _ X34 V2)|vm_compute; lia|exact H5|].
    pose proof (ext_trans _ _ _ _ _ _ X4 X5) as X45.
    unfold get_session_keys in H.
    destruct (merge_outputs m5 (fn_output ke) 40) as [m6 keys] eqn:H6.
    destruct (merge_added iv compress m5 E5 (fn_output ke) MS (seed_ke v) (iterations_of 40) 40 m6 keys)
      as (E6 & X6 & V6 & N6);
      [apply X5|lia|eapply outs_ok_prefix; [apply X45|exact O3]|exact L3|exact H6|].
    change (iterations_of 40) with 2 in *. change (iterations_of 12) with 1 in *.
    destruct (vm_add m6 _) as [m7 siv] eqn:H7.
    destruct (slice_added m6 E6 keys _ 36 4 m7 siv (ext_consistent _ _ _ _ X6) V6 H7) as (E7 & X7 & V7 & N7).
    pose proof (ext_lookup _ _ _ _ _ _ X7 V6) as V6a.
    destruct (vm_add m7 _) as [m8 civ] eqn:H8.
    destruct (slice_added m7 E7 keys _ 32 4 m8 civ (ext_consistent _ _ _ _ X7) V6a H8) as (E8 & X8 & V8 & N8).
    pose proof (ext_lookup _ _ _ _ _ _ X8 V6a) as V6b.
    destruct (vm_add m8 _) as [m9 sk] eqn:H9.
    destruct (slice_added m8 E8 keys _ 16 16 m9 sk (ext_consistent _ _ _ _ X8) V6b H9) as (E9 & X9 & V9 & N9).
    pose proof (ext_lookup _ _ _ _ _ _ X9 V6b) as V6c.
    destruct (vm_add m9 _) as [m10 ck] eqn:H10.
    destruct (slice_added m9 E9 keys _ 0 16 m10 ck (ext_consistent _ _ _ _ X9) V6c H10) as (E10 & X10 & V10 & N10).
    assert (ext m6 E6 m10 E10) as X610.
    { eapply ext_trans; [exact X7|]. eapply ext_trans; [exact X8|]. by eapply ext_trans. }
    assert (ext m5 E5 m10 E10) as X510 by (by eapply ext_trans).
    pose proof (ext_trans _ _ _ _ _ _ X5 X510) as X410.
    destruct (merge_outputs m10 (fn_output cf) 12) as [m11 cfv] eqn:H11.
    destruct (merge_added iv compress m10 E10 (fn_output cf) MS (seed_cf v) 1 12 m11 cfv)
      as (E11 & X11 & V11 & N11);
      [apply X10|lia|eapply outs_ok_prefix; [apply X410|exact O4]|exact L4|exact H11|].
    destruct (merge_outputs m11 (fn_output sf) 12) as [m12 sfv] eqn:H12.
    destruct (merge_added iv compress m11 E11 (fn_output sf) MS (seed_sf v) 1 12 m12 sfv)
      as (E12 & X12 & V12 & N12);
      [apply X11|lia|eapply outs_ok_prefix; [apply (ext_trans _ _ _ _ _ _ X510 X11)|exact O5]|exact L5|exact H12|].
    injection H as <- <- <-.
    pose proof (ext_trans _ _ _ _ _ _ X11 X12) as X1012.
    pose proof (ext_trans _ _ _ _ _ _ X510 X1012) as X512.
    pose proof (ext_trans _ _ _ _ _ _ X5 X512) as X412.
    pose proof (ext_trans _ _ _ _ _ _ X4 X412) as X312.
    pose proof (ext_trans _ _ _ _ _ _ X3 X312) as X212.
    pose proof (ext_trans _ _ _ _ _ _ X2 X212) as X112.
    pose proof (ext_trans _ _ _ _ _ _ X1 X112) as X012.
    pose proof (ext_trans _ _ _ _ _ _ X10 X1012) as X912.
    pose proof (ext_trans _ _ _ _ _ _ X9 X912) as X812.
    pose proof (ext_trans _ _ _ _ _ _ X8 X812) as X712.
    pose proof (ext_trans _ _ _ _ _ _ X7 X712) as X612.
    exists E12, om, im, ke, cf, sf.
    assert (forall i, needs (vm_cells m12) i [keys] -> needs (vm_cells m12) i (fn_output ke)) as Hkeys.
    { intros i Hi. eapply needs_trans; [exact Hi|]. constructor; [|done].
      exact (needs_grows _ _ _ _ (ext_grows _ _ _ _ X612) N6). }
    split_and!; try done.
    - exact (needs_grows _ _ _ _ (ext_grows _ _ _ _ X112) N1).
    - exact (needs_grows _ _ _ _ (ext_grows _ _ _ _ X212) N2).
    - eapply fn_shape_prefix; [apply X312|exact S3].
    - eapply fn_shape_prefix; [apply X412|exact S4].
    - eapply fn_shape_prefix; [apply X512|exact S5].
    - split; [|done]. eapply fn_expected_prefix; [apply X312|exact F3].
    - split; [|done]. eapply fn_expected_prefix; [apply X412|exact F4].
    - split; [|done]. eapply fn_expected_prefix; [apply X512|exact F5].
    - eapply (NoDup_intervals _ _ (length (vm_cells m3))); [done| | |].
      + eapply (NoDup_intervals _ _ (length (vm_cells m4))); [done|done| |].
        * eapply Forall_impl; [exact B4|]. cbn. lia.
        * eapply Forall_impl; [exact B5|]. cbn. lia.
      + eapply Forall_impl; [exact B3|]. cbn. lia.
      + apply Forall_app. pose proof (ext_length _ _ _ _ X4). split; (eapply Forall_impl; [eassumption|]); cbn; lia.
    - pose proof (ext_length _ _ _ _ X1). pose proof (ext_length _ _ _ _ X2). pose proof (ext_length _ _ _ _ X3).
      pose proof (ext_length _ _ _ _ X4).
      rewrite !Forall_app. split_and!; (eapply Forall_impl; [eassumption|]); cbn; lia.
    - apply Hkeys. exact (needs_grows _ _ _ _ (ext_grows _ _ _ _ X1012) N10).
    - apply Hkeys. exact (needs_grows _ _ _ _ (ext_grows _ _ _ _ X912) N9).
    - apply Hkeys. exact (needs_grows _ _ _ _ (ext_grows _ _ _ _ X812) N8).
    - apply Hkeys. exact (needs_grows _ _ _ _ (ext_grows _ _ _ _ X712) N7).
    - exact (needs_grows _ _ _ _ (ext_grows _ _ _ _ X12) N11).
    - set (kb := take 40 (rfc_p_hash iv compress MS (seed_ke v) 2)) in *.
      assert (length kb = 40) as Hkb. { unfold kb. rewrite take_length, p_hash_length. lia. }
      exists (Derived (take 16 (drop 0 kb)) (take 16 (drop 16 kb)) (take 4 (drop 32 kb)) (take 4 (drop 36 kb))
                (take 12 (rfc_p_hash iv compress MS (seed_cf v) 1)) (take 12 (rfc_p_hash iv compress MS (seed_sf v) 1))).
      split.
      + unfold is_derived. cbn [d_client_key d_server_key d_client_iv d_server_iv d_cf d_sf].
        rewrite !take_length, !drop_length, Hkb. split_and!; try (cbn; lia).
        * unfold rfc_key_block, rfc_prf. rewrite <- HMS. change (take 40 _) with kb. rewrite drop_0.
          apply (four_parts kb Hkb).
        * unfold rfc_vd, rfc_prf. rewrite <- HMS. done.
        * unfold rfc_vd, rfc_prf. rewrite <- HMS. done.
      + cbn [po_ck po_sk po_civ po_siv po_cf po_sf d_client_key d_server_key d_client_iv d_server_iv d_cf d_sf].
        split_and!.
        * exact (ext_lookup _ _ _ _ _ _ X1012 V10).
        * exact (ext_lookup _ _ _ _ _ _ X912 V9).
        * exact (ext_lookup _ _ _ _ _ _ X812 V8).
        * exact (ext_lookup _ _ _ _ _ _ X712 V7).
        * exact (ext_lookup _ _ _ _ _ _ X12 V11).
        * exact V12.
  Qed.

  Definition unseeded (g : fns) : Prop :=
    (forall f, g_ms g = Some f -> fn_seed f = None) /\ fn_seed (g_ke g) = None /\ fn_seed (g_cf g) = None /\ fn_seed (g_sf g) = None.
  Lemma setup_ok net k v m p out :
    length (tv_secret v) = secret_length k -> prf_setup iv compress net k = Ok (m, p, out) ->
    exists E y g, prf_ok k y out m p g /\ consistent (vm_cells m) E /\ E !! 0 = Some (tv_secret v) /\ exp_ok k v E g /\
      out_ok k v E out /\ vm_seen m = [] /\ vm_cells m !! 0 = Some (Given None).
  Proof.
    intros Hl H. unfold prf_setup in H. destruct (vm_add vm_new _) as [m1 s] eqn:H1.
    destruct (vm_add_given vm_new [] None (tv_secret v) m1 s) as (E1 & X1 & V1 & C1 & L1 & S1);
      [by split|by left|exact H1|].
    cbn in L1. subst s.
    assert (k = MsDirect \/ k <> MsDirect) as [->|Hk]; [destruct k; (by left) || (by right)| |].
    - change (Ok (E := prf_error) (alloc_post_ms iv compress m1 (prf_new net MsDirect) 0 None) = Ok (m, p, out)) in H.
      destruct (alloc_post_ms _ _ _ _ _ _) as [[m2 p2] out2] eqn:H2. injection H as <- <- <-.
      destruct (post_ms_added m1 E1 (prf_new net MsDirect) 0 (tv_secret v) MsDirect v None m2 p2 out2) as
        (E2 & om & im & ke & cf & sf & X2 & -> & N1 & N2 & S3 & S4 & S5 & F3 & F4 & F5 & D & B & NN & O);
        [apply X1|done|done|done|exact H2|].
      exists E2, (Lay 0 0 om im [] (fn_output ke) (fn_output cf) (fn_output sf)), (Fns None ke cf sf).
      unfold prf_ok. split_and!; try done.
      + split_and!; try done. cbn. constructor; [|done]. rewrite Forall_forall in B. intros Hin. apply B in Hin. lia.
      + by left.
      + exists None. eapply prefix_lookup; [exact C1|apply X2].
      + apply X2.
      + exact (ext_lookup _ _ _ _ _ _ X2 V1).
      + rewrite (ext_seen _ _ _ _ X2). by injection H1 as <-.
      + eapply prefix_lookup; [exact C1|apply X2].
    - assert (alloc_pms iv compress m1 (prf_new net k) 0 = Ok (m, p, out)) as H'. { by destruct k. }
      clear H. unfold alloc_pms in H'. cbn [pf_ms prf_new pf_state pf_net] in H'.
      assert (length (tv_secret v) = 32) as Hl32. { by destruct k. }
      set (lb := match k with MsExtended => label_ems | _ => label_ms end) in H'.
      assert ((let '(m0, outer) := compute_partial iv compress m1 0 32 opad in
               let '(m0, inner) := compute_partial iv compress m0 0 32 ipad in
               let '(m0, f) := fn_alloc compress net m0 lb outer inner 48 in
               let '(m0, ms) := merge_outputs m0 (fn_output f) 48 in
               alloc_post_ms iv compress m0 (prf_new net k) ms (Some f)) = (m, p, out)) as H.
      { revert H'. unfold lb. destruct (compute_partial iv compress m1 0 32 opad) as [a1 a2].
        destruct (compute_partial iv compress a1 0 32 ipad) as [b1 b2].
        destruct k; [| |done]; (destruct (fn_alloc _ _ _ _ _ _ _) as [c1 c2]); (destruct (merge_outputs _ _ _) as [d1 d2]);
          intros H'; congruence. }
      clear H'.
      destruct (compute_partial _ _ m1 _ _ opad) as [m2 op] eqn:H2.
      destruct (compute_partial_added iv compress m1 E1 0 32 (tv_secret v) 92%N opad m2 op (ext_consistent _ _ _ _ X1) V1 Hl32 eq_refl H2)
        as (E2 & X2 & V2 & N2).
      destruct (compute_partial _ _ m2 _ _ ipad) as [m3 ip] eqn:H3.
      destruct (compute_partial_added iv compress m2 E2 0 32 (tv_secret v) 54%N ipad m3 ip (ext_consistent _ _ _ _ X2)
        (ext_lookup _ _ _ _ _ _ X2 V1) Hl32 eq_refl H3) as (E3 & X3 & V3 & N3).
      destruct (fn_alloc _ _ m3 lb _ _ _) as [m4 f] eqn:H4.
      destruct (fn_alloc_added compress (so (tv_secret v)) (si (tv_secret v)) (seed_ms k v) op ip net m3 E3 lb 48 m4 f)
        as (E4 & X4 & S4 & F4 & O4 & L4 & D4 & B4 & _ & LB4);
        [apply X3|exact (ext_lookup _ _ _ _ _ _ X3 V2)|exact V3|vm_compute; lia|exact H4|].
      destruct (merge_outputs m4 (fn_output f) 48) as [m5 ms] eqn:H5.
      destruct (merge_added iv compress m4 E4 (fn_output f) (tv_secret v) (seed_ms k v) (iterations_of 48) 48 m5 ms)
        as (E5 & X5 & V5 & N5); [apply X4|lia|exact O4|exact L4|exact H5|].
      change (iterations_of 48) with 2 in *.
      assert (take 48 (rfc_p_hash iv compress (tv_secret v) (seed_ms k v) 2) = rfc_master k v) as Hms.
      { destruct k; [| |done]; reflexivity. }
      destruct (post_ms_added m5 E5 (prf_new net k) ms (rfc_master k v) k v (Some f) m p out) as
        (E6 & om & im & ke & cf & sf & X6 & -> & M1 & M2 & S6 & S7 & S8 & F6 & F7 & F8 & D & B & NN & O);
        [apply X5|by rewrite V5, Hms|done|by apply master_length|exact H|].
      pose proof (ext_trans _ _ _ _ _ _ X5 X6) as X46. pose proof (ext_trans _ _ _ _ _ _ X4 X46) as X36.
      pose proof (ext_trans _ _ _ _ _ _ X3 X36) as X26. pose proof (ext_trans _ _ _ _ _ _ X2 X26) as X16.
      exists E6, (Lay op ip om im (fn_output f) (fn_output ke) (fn_output cf) (fn_output sf)), (Fns (Some f) ke cf sf).
      assert (forall i, needs (vm_cells m) i [ms] -> needs (vm_cells m) i (fn_output f)) as Hn.
      { intros i Hi. eapply needs_trans; [exact Hi|]. constructor; [|done].
        exact (needs_grows _ _ _ _ (ext_grows _ _ _ _ X6) N5). }
      assert (master_from k (Lay op ip om im (fn_output f) (fn_output ke) (fn_output cf) (fn_output sf)) = fn_output f) as Hmf
        by (by destruct k).
      pose proof (ext_length _ _ _ _ X2). pose proof (ext_length _ _ _ _ X3). pose proof (ext_length _ _ _ _ X4).
      pose proof (ext_length _ _ _ _ X5).
      unfold prf_ok. split_and!; try done.
      + destruct NN as (? & ? & ? & ? & ? & ?). unfold lay_ok. rewrite Hmf. cbn [ly_op ly_ip ly_om ly_im ly_ke ly_cf ly_sf].
        split_and!; try done; [|by apply Hn|by apply Hn].
        intros _. split; [exact (needs_grows _ _ _ _ (ext_grows _ _ _ _ X26) N2)|exact (needs_grows _ _ _ _ (ext_grows _ _ _ _ X36) N3)].
      + split_and!; cbn [g_ms g_ke g_cf g_sf ly_op ly_ip ly_om ly_im ly_ms ly_ke ly_cf ly_sf]; try done.
        * split; [done|]. eapply fn_shape_prefix; [apply X46|exact S4].
        * unfold fns_pend. cbn [opend g_ms g_ke g_cf g_sf]. rewrite Forall_forall in B, B4. constructor.
          -- intros [Hin|Hin]%elem_of_app; [apply B4 in Hin; lia|apply B in Hin; lia].
          -- eapply (NoDup_intervals _ _ (length (vm_cells m4))); [done|done| |]; rewrite Forall_forall; intros x Hx.
             ++ apply B4 in Hx. lia.
             ++ apply B in Hx. lia.
      + by left.
      + exists None. eapply prefix_lookup; [exact C1|apply X16].
      + apply X6.
      + exact (ext_lookup _ _ _ _ _ _ X16 V1).
      + split_and!; [|done|done|done]. intros f0 [= <-]. split; [eapply fn_expected_prefix; [apply X46|exact F4]|]. rewrite LB4. unfold lb. by destruct k.
      + rewrite (ext_seen _ _ _ _ X16). by injection H1 as <-.
      + eapply prefix_lookup; [exact C1|apply X16].
  Qed.
End Setup.
