From Coq Require Import ZArith Znumtheory Zpow_facts.
From Verif.Lib Require Import Base PrimeCert.
From Verif Require Import CodecModel CodecLemmas RecordModel PrfModel PrfVmLemmas VdCheckLemmas KeyExchangeModel KeyExchangeSpec.

(** ** The field *)
Lemma p256_prime : prime p256.
Proof. exact prime_115792089210356248762697446949407573530086143415290314195533631308867097853951. Qed.
Lemma p256_pos : (2 < p256)%Z.
Proof. done. Qed.
Lemma p256_value : p256 = 115792089210356248762697446949407573530086143415290314195533631308867097853951%Z.
Proof. reflexivity. Qed.
Local Opaque p256.
Local Notation "a ≈ b" := (cong p256 a b) (at level 70).
Local Instance cong_equiv : Equivalence (cong p256).
Proof. split; [exact (cong_refl p256)|exact (cong_sym p256)|exact (cong_trans p256)]. Qed.
Local Instance cong_add_proper : Proper (cong p256 ==> cong p256 ==> cong p256) Z.add.
Proof. intros a b H c d H'. by apply cong_add. Qed.
Local Instance cong_sub_proper : Proper (cong p256 ==> cong p256 ==> cong p256) Z.sub.
Proof. intros a b H c d H'. by apply cong_sub. Qed.
Local Instance cong_mul_proper : Proper (cong p256 ==> cong p256 ==> cong p256) Z.mul.
Proof. intros a b H c d H'. by apply cong_mul. Qed.
Lemma mod_cong a : (a mod p256)%Z ≈ a.
Proof. apply cong_mod. pose proof p256_pos. lia. Qed.
Lemma mod_field a : field (a mod p256)%Z.
Proof. apply Z.mod_pos_bound. pose proof p256_pos. lia. Qed.
Lemma field_cong a b : field a -> field b -> a ≈ b -> a = b.
Proof.
  intros Ha Hb H. pose proof p256_pos. apply cong_mod_eq in H; [|lia]. by rewrite !Z.mod_small in H.
Qed.
Lemma field_not_zero a : field a -> a <> 0%Z -> ~ (p256 | a)%Z.
Proof. intros Ha H0. apply small_not_div. destruct Ha. lia. Qed.
Lemma fp_inv_ok b i : field b -> fp_inv b = Some i -> (b * i)%Z ≈ 1%Z.
Proof.
  intros Hb. unfold fp_inv. destruct (b =? 0)%Z eqn:E; [done|]. intros [= <-]. apply Z.eqb_neq in E. pose proof p256_pos.
  rewrite Zpow_mod_correct by lia. rewrite mod_cong.
  rewrite <- Z.pow_succ_r by lia. replace (Z.succ (p256 - 2)) with (p256 - 1)%Z by lia.
  apply fermat; [exact p256_prime|by apply field_not_zero].
Qed.
Lemma fp_inv_some b : b <> 0%Z -> exists i, fp_inv b = Some i.
Proof. intros H. unfold fp_inv. destruct (b =? 0)%Z eqn:E; [apply Z.eqb_eq in E; lia|eauto]. Qed.

(** ** Shares *)
Lemma two_shares (l : list Z) : length l = 2 -> exists a b, l = [a; b].
Proof. destruct l as [|a [|b [|]]]; try done. eauto. Qed.
Lemma one_share (l : list Z) : length l = 1 -> exists a, l = [a].
Proof. destruct l as [|a [|]]; try done. eauto. Qed.
Lemma mult_shares cv x1 x2 y1 y2 us vs :
  honest_converter cv -> field x1 -> field x2 -> field y1 -> field y2 ->
  cv_to_multiplicative cv [x1; x2] [y1; y2] = (us, vs) ->
  exists u1 u2 v1 v2, us = [u1; u2] /\ vs = [v1; v2] /\ field u1 /\ field u2 /\ field v1 /\ field v2 /\
    (u1 * v1)%Z ≈ (x1 + y1)%Z /\ (u2 * v2)%Z ≈ (x2 + y2)%Z.
Proof.
  intros Hc F1 F2 F3 F4 E. specialize (Hc [x1; x2] [y1; y2] eq_refl).
  assert (Forall field [x1; x2]) as A by (repeat apply List.Forall_cons; done).
  assert (Forall field [y1; y2]) as B by (repeat apply List.Forall_cons; done).
  specialize (Hc A B). rewrite E in Hc. destruct (cv_to_additive cv _ _) as [us' vs'].
  destruct Hc as (L1 & L2 & Fu & Fv & _ & _ & _ & _ & H).
  destruct (two_shares us L1) as (u1 & u2 & ->). destruct (two_shares vs L2) as (v1 & v2 & ->).
  apply Forall_cons in Fu as [Fu1 Fu]. apply Forall_cons in Fu as [Fu2 _]. apply Forall_cons in Fv as [Fv1 Fv]. apply Forall_cons in Fv as [Fv2 _].
  destruct (H 0 x1 y1 eq_refl eq_refl) as [(u & v & Hu & Hv & H0) _]. injection Hu as <-. injection Hv as <-.
  destruct (H 1 x2 y2 eq_refl eq_refl) as [(u & v & Hu & Hv & H1) _]. injection Hu as <-. injection Hv as <-.
  exists u1, u2, v1, v2. done.
Qed.
Lemma add_shares cv x y us vs :
  honest_converter cv -> field x -> field y -> cv_to_additive cv [x] [y] = (us, vs) ->
  exists u v, us = [u] /\ vs = [v] /\ (u + v)%Z ≈ (x * y)%Z.
Proof.
  intros Hc F1 F2 E. specialize (Hc [x] [y] eq_refl).
  assert (Forall field [x]) as A by (repeat apply List.Forall_cons; done).
  assert (Forall field [y]) as B by (repeat apply List.Forall_cons; done).
  specialize (Hc A B). rewrite E in Hc. destruct (cv_to_multiplicative cv _ _) as [us' vs'].
  destruct Hc as (_ & _ & _ & _ & L1 & L2 & _ & _ & H).
  destruct (one_share us L1) as (u1 & ->). destruct (one_share vs L2) as (v1 & ->).
  destruct (H 0 x y eq_refl eq_refl) as [_ (u & v & Hu & Hv & H0)]. injection Hu as <-. injection Hv as <-.
  exists u1, v1. done.
Qed.
Lemma derive_ok cv ql qf :
  honest_converter cv -> field ql.1 -> field ql.2 -> field qf.1 -> field qf.2 -> ql.1 <> qf.1 ->
  exists sl sf, derive_x_coord_shares cv ql qf = Ok (sl, sf) /\ sum_x ql qf ((sl + sf) mod p256)%Z.
Proof.
  intros Hc F1 F2 F3 F4 Hne. destruct ql as [x1 y1], qf as [x2 y2]. cbn [fst snd] in *.
  unfold derive_x_coord_shares. cbn [kx_inputs fst snd].
  destruct (cv_to_multiplicative cv [y1; x1] [fp_neg y2; fp_neg x2]) as [us vs] eqn:E1.
  destruct (mult_shares _ _ _ _ _ _ _ Hc F2 F1 (mod_field _) (mod_field _) E1) as (al & bl & af & bf & -> & -> & Ga & Gb & Gc & Gd & P1 & P2).
  unfold fp_neg in P1, P2. rewrite mod_cong in P1, P2.
  assert (~ ((bl * bf)%Z ≈ 0%Z)) as Hnz.
  { intros H. rewrite P2 in H. apply Hne, field_cong; [done|done|]. unfold cong in *. by replace (x1 - x2)%Z with (x1 + - x2 - 0)%Z by lia. }
  assert (bl <> 0%Z) as Hbl by (intros ->; apply Hnz; reflexivity).
  assert (bf <> 0%Z) as Hbf by (intros ->; apply Hnz; rewrite Z.mul_0_r; reflexivity).
  destruct (fp_inv_some _ Hbl) as [il Il]. destruct (fp_inv_some _ Hbf) as [jf If].
  unfold kx_square. rewrite Il, If. cbn [obind or_panic].
  apply fp_inv_ok in Il; [|done]. apply fp_inv_ok in If; [|done].
  set (cl := fp_mul (fp_mul al il) (fp_mul al il)). set (cf := fp_mul (fp_mul af jf) (fp_mul af jf)).
  assert (field cl) as Fcl by apply mod_field. assert (field cf) as Fcf by apply mod_field.
  destruct (cv_to_additive cv [cl] [cf]) as [ds es] eqn:E2.
  destruct (add_shares _ _ _ _ _ Hc Fcl Fcf E2) as (dl & df & -> & -> & P3).
  unfold kx_output. cbn [lookup list_lookup or_panic obind fst].
  eexists _, _. split; [reflexivity|]. split; [apply mod_field|]. exists (al * af * (il * jf))%Z. cbn [fst snd].
  split.
  - change (((al * af * (il * jf)) * (x2 - x1))%Z ≈ (y2 - y1)%Z).
    replace (y2 - y1)%Z with (0 - (y1 + - y2))%Z by lia. rewrite <- P1.
    replace (x2 - x1)%Z with (0 - (x1 + - x2))%Z by lia. rewrite <- P2.
    replace (al * af * (il * jf) * (0 - bl * bf))%Z with (0 - (al * af) * ((bl * il) * (bf * jf)))%Z by ring.
    rewrite Il, If. replace (al * af * (1 * 1))%Z with (al * af)%Z by ring. reflexivity.
  - set (lam := (al * af * (il * jf))%Z).
    change (((fp_add dl (fp_neg x1) + fp_add df (fp_neg x2)) mod p256)%Z ≈ (lam * lam - x1 - x2)%Z).
    rewrite mod_cong. unfold fp_add, fp_neg. rewrite !mod_cong.
    replace (dl + - x1 + (df + - x2))%Z with ((dl + df) - x1 - x2)%Z by ring. rewrite P3.
    assert ((cl * cf)%Z ≈ (lam * lam)%Z) as ->; [|reflexivity].
    unfold cl, cf, fp_mul. rewrite !mod_cong. unfold lam.
    replace (al * il * (al * il) * (af * jf * (af * jf)))%Z with (al * af * (il * jf) * (al * af * (il * jf)))%Z by ring. reflexivity.
Qed.
Lemma sum_x_unique q1 q2 x x' : field q1.1 -> field q2.1 -> q1.1 <> q2.1 -> sum_x q1 q2 x -> sum_x q1 q2 x' -> x = x'.
Proof.
  intros F1 F2 Hne (Fx & l & L1 & L2) (Fx' & l' & L1' & L2'). destruct q1 as [x1 y1], q2 as [x2 y2]. cbn [fst snd] in *.
  apply field_cong; [done|done|].
  assert (l ≈ l') as Hl.
  { apply (cong_cancel p256 (x2 - x1)%Z); [exact p256_prime| |].
    - intros H. apply Hne. symmetry. by apply field_cong.
    - rewrite (Z.mul_comm _ l), (Z.mul_comm _ l'). transitivity (y2 - y1)%Z; [exact L1|]. symmetry. exact L1'. }
  transitivity (l * l - x1 - x2)%Z; [exact L2|]. rewrite Hl. symmetry. exact L2'.
Qed.
(** Points with the same x-coordinate. *)
Lemma derive_equal cv ql qf :
  honest_converter cv -> field ql.1 -> field ql.2 -> field qf.1 -> field qf.2 -> ql.1 = qf.1 ->
  derive_x_coord_shares cv ql qf = Panic.
Proof.
  intros Hc F1 F2 F3 F4 Heq. destruct ql as [x1 y1], qf as [x2 y2]. cbn [fst snd] in *. subst x2.
  unfold derive_x_coord_shares. cbn [kx_inputs fst snd].
  destruct (cv_to_multiplicative cv [y1; x1] [fp_neg y2; fp_neg x1]) as [us vs] eqn:E1.
  destruct (mult_shares _ _ _ _ _ _ _ Hc F2 F1 (mod_field _) (mod_field _) E1) as (al & bl & af & bf & -> & -> & Ga & Gb & Gc & Gd & P1 & P2).
  unfold fp_neg in P2. rewrite mod_cong in P2.
  assert (p256 | bl * bf)%Z as Hd.
  { assert ((bl * bf)%Z ≈ 0%Z) as H by (rewrite P2; replace (x1 + - x1)%Z with 0%Z by lia; reflexivity).
    unfold cong in H. by rewrite Z.sub_0_r in H. }
  unfold kx_square. destruct (decide (bl = 0%Z)) as [->|Hbl]; [done|].
  destruct (decide (bf = 0%Z)) as [->|Hbf].
  - destruct (fp_inv_some _ Hbl) as [il ->]. done.
  - exfalso. destruct (prime_mult _ p256_prime _ _ Hd) as [H|H]; by apply field_not_zero in H.
Qed.
Lemma derive_field cv ql qf sl sf : derive_x_coord_shares cv ql qf = Ok (sl, sf) -> field sl /\ field sf.
Proof.
  unfold derive_x_coord_shares. destruct (cv_to_multiplicative cv _ _) as [us vs]. intros H.
  apply obind_Ok in H as (cl & _ & H). apply obind_Ok in H as (cf & _ & H). destruct (cv_to_additive cv _ _) as [ds es].
  apply obind_Ok in H as (xl & Hl & H). apply obind_Ok in H as (xf & Hf & [= <- <-]).
  apply obind_Ok in Hl as (d & _ & [= <-]). apply obind_Ok in Hf as (e & _ & [= <-]). split; apply mod_field.
Qed.

(** ** The circuit *)
Definition p256N : N := Z.to_N p256.
Lemma P_bytes_value : of_be P_bytes = Z.to_N p256.
Proof. rewrite p256_value. by vm_compute. Qed.
Lemma share_value x : field x -> of_be (share_bytes x) = Z.to_N x.
Proof.
  intros [H1 H2]. rewrite p256_value in H2. unfold share_bytes. rewrite of_be_be. apply N.mod_small.
  apply N2Z.inj_lt. rewrite Z2N.id by done. eapply Z.lt_trans; [exact H2|]. by vm_compute.
Qed.
Lemma circ_pms_shares a b : field a -> field b ->
  circ_pms [share_bytes a; share_bytes b; P_bytes] = share_bytes ((a + b) mod p256)%Z.
Proof.
  intros Ha Hb. unfold circ_pms. rewrite !share_value, P_bytes_value by done. unfold share_bytes. f_equal.
  unfold add_mod. unfold field in *. rewrite <- Z2N.inj_add by lia. rewrite <- Z2N.inj_sub by lia.
  destruct (N.leb_spec (Z.to_N p256) (Z.to_N (a + b))) as [H|H].
  - f_equal. apply Z2N.inj_le in H; [|lia|lia]. rewrite (Z.mod_eq (a + b) p256) by lia.
    assert ((a + b) / p256 = 1)%Z as ->; [|lia]. symmetry. apply (Z.div_unique (a + b) p256 1 (a + b - p256))%Z; lia.
  - apply Z2N.inj_lt in H; [|lia|lia]. by rewrite Z.mod_small by lia.
Qed.
Lemma zip_lxor_zero (a b : list N) : length a = length b -> zip_with N.lxor a b = replicate (length a) 0%N <-> a = b.
Proof.
  revert b. induction a as [|x a IH]; intros [|y b] Hl; try done. cbn. injection Hl as Hl. split.
  - intros [= H1 H2]. apply N.lxor_eq in H1 as ->. f_equal. by apply IH.
  - intros [= <- <-]. rewrite N.lxor_nilpotent. f_equal. by apply IH.
Qed.
Lemma circ_eq_shares x y : field x -> field y ->
  circ_eq [share_bytes x; share_bytes y] = replicate 32 0%N <-> x = y.
Proof.
  intros Hx Hy. unfold circ_eq.
  assert (forall z, length (reverse (share_bytes z)) = 32) as Hl by (intros z; rewrite reverse_length; apply be_length).
  rewrite <- (Hl x) at 1. rewrite zip_lxor_zero by (by rewrite !Hl). split; [|by intros ->].
  intros H. apply (f_equal reverse) in H. rewrite !reverse_involutive in H. apply (f_equal of_be) in H.
  rewrite !share_value in H by done. destruct Hx, Hy. by apply Z2N.inj in H.
Qed.
