(** Lemmas about GHASH on shares. *)
From Verif.Lib Require Import Base.
From Verif Require Import CodecModel CodecSpec CodecLemmas TagModel TagSpec TagLemmas RecordModel GhashModel GhashSpec GhashFieldLemmas.

(** ** Bytes *)
Lemma be_lxor n a b : be n (N.lxor a b) = zip_with N.lxor (be n a) (be n b).
Proof.
  induction n as [|n IH]; [done|]. cbn [be zip_with]. rewrite <- IH. f_equal.
  replace (256 ^ N.of_nat n)%N with (2 ^ (8 * N.of_nat n))%N by (rewrite N.pow_mul_r; done).
  change 256%N with (2 ^ 8)%N. rewrite <- !N.shiftr_div_pow2, <- !N.land_ones.
  apply N.bits_inj. intros i. rewrite !N.lxor_spec, !N.land_spec, !N.shiftr_spec', N.lxor_spec.
  by destruct (N.testbit (N.ones 8) i); rewrite ?andb_true_r, ?andb_false_r.
Qed.
Lemma of_be_ok16 l : bytes_ok l -> length l = 16 -> gf_ok (of_be l).
Proof. intros Hb Hl. pose proof (of_be_lt l Hb) as H. rewrite Hl in H. exact H. Qed.
Lemma of_be_lxor a b : bytes_ok a -> bytes_ok b -> length a = 16 -> length b = 16 ->
  of_be (zip_with N.lxor a b) = N.lxor (of_be a) (of_be b).
Proof.
  intros Ha Hb La Lb. rewrite <- (be_of_be a Ha) at 1. rewrite <- (be_of_be b Hb) at 1. rewrite La, Lb, <- be_lxor, of_be_be.
  apply N.mod_small. change (256 ^ N.of_nat 16)%N with (2 ^ 128)%N. apply lxor_lt; by apply of_be_ok16.
Qed.
Lemma to_block_lxor a b : gf_to_block (N.lxor a b) = zip_with N.lxor (gf_to_block a) (gf_to_block b).
Proof. unfold gf_to_block. by rewrite rev_lxor, be_lxor. Qed.

(** ** Powers *)
Lemma power_ok h n : gf_ok h -> gf_ok (gf_power h n).
Proof. intros Hh. destruct n; [done|]. induction n as [|n IH]; cbn [gf_power]; apply gf_ok_mul; done. Qed.
Lemma power_1 h : gf_ok h -> gf_power h 1 = h.
Proof. intros Hh. cbn [gf_power]. by apply mul_1_l. Qed.
Lemma power_add h a b : gf_ok h -> gf_power h (a + b) = gf_mul (gf_power h a) (gf_power h b).
Proof.
  intros Hh. induction b as [|b IH].
  - rewrite Nat.add_0_r. cbn [gf_power]. by rewrite mul_1_r.
  - rewrite Nat.add_succ_r. cbn [gf_power]. rewrite IH. symmetry. apply mul_assoc; [by apply power_ok..|done].
Qed.
Lemma power_mul a b n : gf_ok a -> gf_ok b -> gf_power (gf_mul a b) n = gf_mul (gf_power a n) (gf_power b n).
Proof.
  intros Ha Hb. pose proof (power_ok a) as Oa. pose proof (power_ok b) as Ob.
  induction n as [|n IH]; cbn [gf_power]; [done|]. rewrite IH.
  rewrite (mul_assoc (gf_mul (gf_power a n) (gf_power b n)) a b) by (try apply gf_ok_mul; auto). rewrite (mul_swap (gf_power b n) a).
  symmetry. apply mul_assoc; [apply gf_ok_mul|..]; auto.
Qed.
Lemma scan_lookup n m k acc i : acc = gf_power m k -> i < n -> scan_powers n acc m !! i = Some (gf_power m (k + i)).
Proof.
  revert k acc i. induction n as [|n IH]; intros k acc i -> Hi; [lia|]. cbn [scan_powers].
  destruct i; [by rewrite Nat.add_0_r|]. cbn. rewrite (IH (S k)) by (done || lia). do 2 f_equal. lia.
Qed.
Lemma scan_length n acc m : length (scan_powers n acc m) = n.
Proof. revert acc. induction n; intros; cbn; auto. Qed.
Lemma every_other_lookup l j : every_other l !! j = l !! (2 * j).
Proof.
  revert j. induction l as [l IH] using (induction_ltof1 _ length). unfold ltof in IH. intros j.
  destruct l as [|x [|y l]]; [done| |].
  - destruct j; done.
  - cbn [every_other]. destruct j; [done|]. rewrite lookup_cons_ne_0 by done. cbn [pred]. rewrite IH by (cbn; lia).
    replace (2 * S j) with (S (S (2 * j))) by lia. done.
Qed.
Lemma odd_powers_lookup m j : gf_ok m -> j < 512 -> odd_powers m !! j = Some (gf_power m (2 * j + 3)).
Proof.
  intros Hm Hj. unfold odd_powers. rewrite every_other_lookup, lookup_drop. rewrite (scan_lookup _ _ 1); [do 2 f_equal; lia|by rewrite power_1|unfold max_power; lia].
Qed.
Lemma odd_powers_length m : length (odd_powers m) = 512.
Proof.
  assert (odd_powers m !! 512 = None) as H1.
  { unfold odd_powers. rewrite every_other_lookup. apply lookup_ge_None. rewrite drop_length, scan_length. unfold max_power. lia. }
  assert (is_Some (odd_powers m !! 511)) as H2.
  { unfold odd_powers. rewrite every_other_lookup. apply lookup_lt_is_Some. rewrite drop_length, scan_length. unfold max_power. lia. }
  apply lookup_ge_None in H1. apply lookup_lt_is_Some in H2. lia.
Qed.

(** ** Shares of the powers *)
Definition powers_shared (h : N) (l f : list N) : Prop :=
  length l = length f /\ forall i, i < length l -> exists a b, l !! i = Some a /\ f !! i = Some b /\ shares_of (gf_power h (i + 1)) a b.
Lemma powers_snoc h l f a b : powers_shared h l f -> shares_of (gf_power h (length l + 1)) a b -> powers_shared h (l ++ [a]) (f ++ [b]).
Proof.
  intros [Hl H] Hab. split; [rewrite !app_length; cbn; lia|]. intros i Hi. rewrite app_length in Hi. cbn in Hi.
  destruct (decide (i < length l)) as [Hlt|].
  - destruct (H i Hlt) as (x & y & Hx & Hy & Hs). exists x, y. rewrite !lookup_app_l by (done || lia). done.
  - replace i with (length l) by lia. exists a, b. rewrite Hl at 2. rewrite !lookup_app_r, !Nat.sub_diag by lia. done.
Qed.
Lemma shares_loop_spec h n : gf_ok h -> forall i ol of_ l f,
  2 <= i -> length l = i - 1 -> powers_shared h l f ->
  (forall j, j < (i + n) / 2 - i / 2 -> exists a b, ol !! j = Some a /\ of_ !! j = Some b /\ shares_of (gf_power h (2 * (i / 2 + j) + 1)) a b) ->
  exists l' f', shares_loop n i ol l = Ok l' /\ shares_loop n i of_ f = Ok f' /\ length l' = i - 1 + n /\ powers_shared h l' f'.
Proof.
  intros Hh. induction n as [|n IH]; intros i ol of_ l f Hi Hl Hp Ho; cbn [shares_loop].
  { exists l, f. split_and!; [done|done|lia|done]. }
  pose proof (Nat.div_mod_eq i 2) as Hdm. pose proof (Nat.mod_upper_bound i 2 ltac:(lia)) as Hm.
  destruct (Nat.eqb_spec (i mod 2) 0) as [He|He].
  - destruct (proj2 Hp (i / 2 - 1)) as (a & b & Ha & Hb & Oa & Ob & Hs); [lia|].
    rewrite Ha, Hb. cbn [or_panic obind].
    destruct (IH (i + 1) ol of_ (l ++ [gf_mul a a]) (f ++ [gf_mul b b])) as (l' & f' & H1 & H2 & H3 & H4).
    + lia.
    + rewrite app_length. cbn. lia.
    + apply powers_snoc; [done|]. split; [by apply gf_ok_mul|]. split; [by apply gf_ok_mul|].
      rewrite <- square_lxor, Hs, <- power_add by done. f_equal. lia.
    + intros j Hj. replace ((i + 1) / 2) with (i / 2) in * by lia. apply Ho. replace (i + S n) with (i + 1 + n) by lia. done.
    + exists l', f'. split_and!; [done|done|lia|done].
  - destruct (Ho 0) as (a & b & Ha & Hb & Hs).
    { assert ((i + 1) / 2 <= (i + S n) / 2) by (apply Nat.div_le_mono; lia). lia. }
    destruct ol as [|a' ol]; [done|]. destruct of_ as [|b' of_]; [done|]. injection Ha as ->. injection Hb as ->.
    destruct (IH (i + 1) ol of_ (l ++ [a]) (f ++ [b])) as (l' & f' & H1 & H2 & H3 & H4).
    + lia.
    + rewrite app_length. cbn. lia.
    + apply powers_snoc; [done|]. rewrite Hl. replace (i - 1 + 1) with (2 * (i / 2 + 0) + 1) by lia. done.
    + intros j Hj. replace ((i + 1) / 2) with (i / 2 + 1) in * by lia.
      destruct (Ho (S j)) as (x & y & Hx & Hy & Hxy); [replace (i + S n) with (i + 1 + n) by lia; lia|].
      exists x, y. split_and!; [done|done|]. replace (i / 2 + 1 + j) with (i / 2 + S j) by lia. done.
    + exists l', f'. split_and!; [done|done|lia|done].
Qed.
Lemma honest_odd k1 k2 m1 m2 add1 add2 j : honest_conversion k1 k2 m1 m2 add1 add2 -> j < 512 ->
  exists a b, add1 !! j = Some a /\ add2 !! j = Some b /\ shares_of (gf_power (N.lxor k1 k2) (2 * j + 3)) a b.
Proof.
  intros (O1 & O2 & Hm & H & L1 & L2) Hj. rewrite odd_powers_length in L1, L2.
  destruct (lookup_lt_is_Some_2 add1 j) as [a Ha]; [lia|]. destruct (lookup_lt_is_Some_2 add2 j) as [b Hb]; [lia|].
  exists a, b. split; [done|]. split; [done|].
  eapply Forall2_lookup_lr in H; [|apply lookup_zip_with_Some; eexists _, _; split; [reflexivity|split; apply odd_powers_lookup; done]
    |apply lookup_zip_with_Some; eexists _, _; split; [reflexivity|split; done]].
  cbn [fst snd] in H. rewrite <- Hm, power_mul by done. exact H.
Qed.
Lemma compute_shares_spec k1 k2 m1 m2 add1 add2 : gf_elem k1 -> gf_elem k2 -> honest_conversion k1 k2 m1 m2 add1 add2 ->
  exists l f, compute_shares k1 add1 = Ok l /\ compute_shares k2 add2 = Ok f /\ length l = max_power /\ powers_shared (N.lxor k1 k2) l f.
Proof.
  intros O1 O2 H. assert (gf_ok (N.lxor k1 k2)) as Oh by (by apply gf_ok_lxor). unfold compute_shares.
  destruct (shares_loop_spec (N.lxor k1 k2) (max_power - 1) Oh 2 add1 add2 [k1] [k2]) as (l & f & H1 & H2 & H3 & H4).
  - lia.
  - done.
  - split; [done|]. intros i Hi. cbn in Hi. replace i with 0 by lia. exists k1, k2. split_and!; try done. by rewrite power_1.
  - intros j Hj. assert (j < 512) as Hj' by (unfold max_power in Hj; change ((2 + (1026 - 1)) / 2) with 513 in Hj; change (2 / 2) with 1 in Hj; lia).
    destruct (honest_odd _ _ _ _ _ _ j H Hj') as (a & b & Ha & Hb & Hs). exists a, b. split_and!; try done.
    replace (2 * (2 / 2 + j) + 1) with (2 * j + 3) by (change (2 / 2) with 1; lia). done.
  - exists l, f. split_and!; try done.
Qed.

(** ** The hash *)
Fixpoint dot (bs : list (list N)) (ss : list N) : N :=
  match bs, ss with b :: bs', s :: ss' => N.lxor (gf_mul (gf_of_block b) s) (dot bs' ss') | _, _ => 0%N end.
Lemma fold_dot bs ss acc : fold_left (fun acc p => N.lxor acc (gf_mul (gf_of_block (fst p)) (snd p))) (zip bs ss) acc = N.lxor acc (dot bs ss).
Proof.
  revert ss acc. induction bs as [|b bs IH]; intros [|s ss] acc; cbn; rewrite ?N.lxor_0_r; try done.
  rewrite IH, N.lxor_assoc. done.
Qed.
Fixpoint dot_powers (h : N) (bs : list (list N)) : N :=
  match bs with b :: bs' => N.lxor (gf_mul (gf_of_block b) (gf_power h (S (length bs')))) (dot_powers h bs') | [] => 0%N end.
Lemma dot_shared h l f bs : powers_shared h l f -> length bs <= length l ->
  N.lxor (dot bs (reverse (take (length bs) l))) (dot bs (reverse (take (length bs) f))) = dot_powers h bs.
Proof.
  intros Hp. induction bs as [|b bs IH]; intros Hl; [done|]. cbn [length] in *.
  destruct (proj2 Hp (length bs)) as (x & y & Hx & Hy & _ & _ & Hs); [lia|].
  rewrite (take_S_r _ _ _ Hx), (take_S_r _ _ _ Hy), !reverse_snoc. cbn [dot dot_powers].
  rewrite lxor_swap4, IH by lia. rewrite <- mul_lxor_r, Hs. do 3 f_equal. lia.
Qed.
Lemma power_S h n : gf_power h (S n) = gf_mul (gf_power h n) h.
Proof. done. Qed.
Lemma dot_powers_cons h b bs : dot_powers h (b :: bs) = N.lxor (gf_mul (gf_of_block b) (gf_power h (S (length bs)))) (dot_powers h bs).
Proof. done. Qed.
Lemma ghash_step h y b p : gf_ok h -> gf_ok p -> gf_mul (rev128 (nist_mul (N.lxor y (of_be b)) h)) p =
  N.lxor (gf_mul (rev128 y) (gf_mul p (rev128 h))) (gf_mul (gf_of_block b) (gf_mul p (rev128 h))).
Proof.
  intros Hh Hpp. rewrite nist_mul_rev by done. rewrite rev_lxor. unfold gf_of_block. pose proof (rev_ok h) as Or.
  generalize dependent (rev128 h). intros r Or. pose proof (rev_ok y) as Oy. pose proof (rev_ok (of_be b)) as Ob.
  generalize dependent (rev128 y). intros y' Oy. generalize dependent (rev128 (of_be b)). intros b' Ob.
  rewrite <- mul_lxor_l. rewrite (mul_comm p) by done. symmetry. apply mul_assoc; [by apply gf_ok_lxor|done..].
Qed.
Definition horner (h : N) (bs : list (list N)) (y : N) : N := fold_left (fun y x => nist_mul (N.lxor y x) h) (map of_be bs) y.
Lemma fold_map_cons {A B C} (F : C -> B -> C) (g : A -> B) b bs y : fold_left F (map g (b :: bs)) y = fold_left F (map g bs) (F y (g b)).
Proof. done. Qed.
Lemma horner_nil h y : horner h [] y = y.
Proof. unfold horner. exact (eq_refl y). Qed.
Lemma horner_cons h b bs y : horner h (b :: bs) y = horner h bs (nist_mul (N.lxor y (of_be b)) h).
Proof. unfold horner. exact (fold_map_cons (fun y x => nist_mul (N.lxor y x) h) of_be b bs y). Qed.
Lemma dot_base h y : rev128 y = N.lxor (gf_mul (rev128 y) (gf_power (rev128 h) 0)) (dot_powers (rev128 h) []).
Proof. generalize (rev128 y). intros z. cbn [gf_power dot_powers]. rewrite mul_1_r, N.lxor_0_r. reflexivity. Qed.
Lemma horner_dot h bs y : gf_ok h -> gf_ok y -> Forall (fun b => gf_ok (of_be b)) bs ->
  rev128 (horner h bs y) = N.lxor (gf_mul (rev128 y) (gf_power (rev128 h) (length bs))) (dot_powers (rev128 h) bs).
Proof.
  intros Hh Hy H. revert y Hy. induction H as [|b bs Hb H IH]; intros y Hy.
  - rewrite horner_nil. apply dot_base.
  - rewrite dot_powers_cons, horner_cons. rewrite IH by (apply nist_mul_ok; exact Hh).
    rewrite ghash_step by (done || apply power_ok, rev_ok). rewrite N.lxor_assoc. reflexivity.
Qed.
Lemma ghash_dot h bs y : gf_ok h -> gf_ok y -> Forall (fun b => gf_ok (of_be b)) bs ->
  rev128 (fold_left (fun y x => nist_mul (N.lxor y x) h) (map of_be bs) y) =
  N.lxor (gf_mul (rev128 y) (gf_power (rev128 h) (length bs))) (dot_powers (rev128 h) bs).
Proof. exact (horner_dot h bs y). Qed.
Lemma fold_ok (F : N -> N -> N) xs y : (forall y x, gf_ok (F y x)) -> gf_ok y -> gf_ok (fold_left F xs y).
Proof. intros HF. revert y. induction xs as [|x xs IH]; intros y Hy; [done|]. apply IH, HF. Qed.
Lemma nist_fold_ok h xs y : gf_ok h -> gf_ok y -> gf_ok (fold_left (fun y x => nist_mul (N.lxor y x) h) xs y).
Proof. intros Hh. apply (fold_ok (fun y x => nist_mul (N.lxor y x) h)). intros a b. apply nist_mul_ok. exact Hh. Qed.
Lemma chunks16_spec n l : length l = n * 16 -> concat (chunks16 n l) = l /\ Forall (fun b => length b = 16) (chunks16 n l) /\ length (chunks16 n l) = n.
Proof.
  revert l. induction n as [|n IH]; intros l Hl; cbn [chunks16].
  - destruct l; [done|cbn in Hl; lia].
  - destruct (IH (drop 16 l)) as (H1 & H2 & H3); [rewrite drop_length; lia|]. cbn [concat length]. rewrite H1, H3, take_drop. split; [done|].
    split; [|done]. constructor; [rewrite take_length; lia|done].
Qed.
Lemma bytes_ok_concat bs : bytes_ok (concat bs) -> Forall bytes_ok bs.
Proof. induction bs as [|b bs IH]; intros H; [constructor|]. apply Forall_app in H as [H1 H2]. constructor; auto. Qed.
Lemma pad_bytes input : bytes_ok input -> bytes_ok (pad_blocks input).
Proof. intros H. rewrite pad_blocks_eq. apply Forall_app. split; [done|]. apply Forall_replicate. unfold byte_ok. lia. Qed.

Lemma gh_compute_sum h l f input : powers_shared h l f -> length l = max_power -> block_count (length input) <= max_power ->
  exists a b, gh_compute (GHReadyShares l) input = Ok a /\ gh_compute (GHReadyShares f) input = Ok b /\
    zip_with N.lxor a b = gf_to_block (dot_powers h (chunks16 (block_count (length input)) (pad_blocks input))) /\ length a = 16 /\ length b = 16.
Proof.
  intros Hp Hl Hc. pose proof (proj1 Hp) as Hlf. unfold gh_compute. fold (pad_blocks input).
  destruct (chunks16_spec (block_count (length input)) (pad_blocks input) (pad_blocks_length input)) as (_ & _ & H3).
  set (bs := chunks16 _ _) in *. destruct (Nat.ltb_spec max_power (block_count (length input))); [lia|].
  rewrite <- Hlf, Hl. destruct (Nat.ltb_spec max_power (length bs)); [lia|].
  eexists _, _. split; [done|]. split; [done|]. rewrite !fold_dot, !N.lxor_0_l, <- to_block_lxor.
  split; [|unfold gf_to_block; by rewrite !be_length]. f_equal.
  assert (forall s : list N, length s = max_power -> drop (max_power - length bs) (reverse s) = reverse (take (length bs) s)) as Hr.
  { intros s Hs. rewrite <- (take_drop (length bs) s) at 1. rewrite reverse_app. rewrite drop_app_alt; [done|]. rewrite reverse_length, drop_length. lia. }
  rewrite !Hr by lia. apply dot_shared; [done|lia].
Qed.

Lemma set_up_shared a2ml m2al a2mf m2af kl kf : length kl = 16 -> length kf = 16 ->
  honest_conversion (gf_of_block kl) (gf_of_block kf) (a2ml (gf_of_block kl)) (a2mf (gf_of_block kf))
    (m2al (odd_powers (a2ml (gf_of_block kl)))) (m2af (odd_powers (a2mf (gf_of_block kf)))) ->
  exists l f, set_up a2ml m2al kl = (GHReadyShares l, Ok tt) /\ set_up a2mf m2af kf = (GHReadyShares f, Ok tt) /\
    length l = max_power /\ powers_shared (N.lxor (gf_of_block kl) (gf_of_block kf)) l f.
Proof.
  intros Ll Lf H. apply compute_shares_spec in H as (l & f & H1 & H2 & H3 & H4); [|apply rev_ok..].
  exists l, f. unfold set_up, gh_set_key. rewrite Ll, Lf. cbn [Nat.eqb negb]. unfold gh_setup. rewrite H1, H2. done.
Qed.
Lemma C45_powers_lemma a2ml m2al a2mf m2af kl kf : length kl = 16 -> length kf = 16 ->
  honest_conversion (gf_of_block kl) (gf_of_block kf) (a2ml (gf_of_block kl)) (a2mf (gf_of_block kf))
    (m2al (odd_powers (a2ml (gf_of_block kl)))) (m2af (odd_powers (a2mf (gf_of_block kf)))) ->
  exists l f, set_up a2ml m2al kl = (GHReadyShares l, Ok tt) /\ set_up a2mf m2af kf = (GHReadyShares f, Ok tt) /\
    length l = 1026 /\ length f = 1026 /\
    forall i, 1 <= i <= 1026 -> exists a b, l !! (i - 1) = Some a /\ f !! (i - 1) = Some b /\
      shares_of (gf_power (N.lxor (gf_of_block kl) (gf_of_block kf)) i) a b.
Proof.
  intros Ll Lf H. destruct (set_up_shared _ _ _ _ _ _ Ll Lf H) as (l & f & H1 & H2 & H3 & H4 & H5).
  exists l, f. split_and!; [done|done|done|rewrite <- H4; exact H3|]. intros i Hi. destruct (H5 (i - 1)) as (a & b & Ha & Hb & Hs).
  { rewrite H3. unfold max_power. lia. }
  exists a, b. split_and!; [done|done|]. by replace (i - 1 + 1) with i in Hs by lia.
Qed.

Lemma shared_ghash kl kf l f input : bytes_ok kl -> bytes_ok kf -> length kl = 16 -> length kf = 16 -> bytes_ok input ->
  length l = max_power -> powers_shared (N.lxor (gf_of_block kl) (gf_of_block kf)) l f -> block_count (length input) <= max_power ->
  exists a b, gh_compute (GHReadyShares l) input = Ok a /\ gh_compute (GHReadyShares f) input = Ok b /\ length a = 16 /\ length b = 16 /\
    is_ghash (zip_with N.lxor kl kf) input (zip_with N.lxor a b).
Proof.
  intros Okl Okf Ll Lf Oi H3 Hp Hc. destruct (gh_compute_sum _ _ _ input Hp H3 Hc) as (a & b & Ha & Hb & Hab & La & Lb).
  exists a, b. split_and!; try done. rewrite Hab.
  destruct (chunks16_spec (block_count (length input)) (pad_blocks input) (pad_blocks_length input)) as (C1 & C2 & C3).
  set (bs := chunks16 _ _) in *. exists (map of_be bs). split.
  { exists bs. split_and!; [rewrite C1; apply pad_blocks_padded|done|done]. }
  assert (Forall (fun b => gf_ok (of_be b)) bs) as Hbs.
  { pose proof (pad_bytes _ Oi) as Hb'. rewrite <- C1 in Hb'. apply bytes_ok_concat in Hb'.
    apply Forall_forall. intros x Hx. rewrite Forall_forall in C2, Hb'. apply of_be_ok16; [by apply Hb'|by apply C2]. }
  assert (gf_ok (of_be (zip_with N.lxor kl kf))) as Oh.
  { rewrite of_be_lxor by done. apply gf_ok_lxor; by apply of_be_ok16. }
  unfold gf_of_block. rewrite <- rev_lxor, <- of_be_lxor by done. unfold gf_to_block, nist_ghash.
  pose proof (ghash_dot _ bs 0 Oh ltac:(done) Hbs) as Hg. rewrite rev_0, mul_0_l, N.lxor_0_l in Hg. rewrite <- Hg.
  assert (gf_ok (fold_left (fun y x => nist_mul (N.lxor y x) (of_be (zip_with N.lxor kl kf))) (map of_be bs) 0%N)) as Of.
  { by apply nist_fold_ok. }
  rewrite rev_rev by done. apply is_be_be. exact Of.
Qed.
