(** GF(2^128): the multiplication of the model is that of a commutative ring, and it is the multiplication of NIST SP 800-38D
    on reflected blocks. *)
From Verif.Lib Require Import Base.
From Verif Require Import CodecModel TagModel RecordModel GhashModel GhashSpec.
Local Open Scope N_scope.

Lemma lxor_swap4 a b c d : N.lxor (N.lxor a b) (N.lxor c d) = N.lxor (N.lxor a c) (N.lxor b d).
Proof. rewrite !N.lxor_assoc. f_equal. rewrite <- !N.lxor_assoc. f_equal. apply N.lxor_comm. Qed.
Lemma double_lxor a b : N.double (N.lxor a b) = N.lxor (N.double a) (N.double b).
Proof. by destruct a, b. Qed.

Lemma mulx_lxor a b : gf_mulx (N.lxor a b) = N.lxor (gf_mulx a) (gf_mulx b).
Proof.
  unfold gf_mulx. rewrite double_lxor, N.lxor_spec.
  destruct (N.testbit (N.double a) 128), (N.testbit (N.double b) 128); cbn [xorb].
  - rewrite lxor_swap4, N.lxor_nilpotent, N.lxor_0_r. done.
  - rewrite !N.lxor_assoc. f_equal. apply N.lxor_comm.
  - by rewrite N.lxor_assoc.
  - done.
Qed.
Lemma mulx_0 : gf_mulx 0 = 0.
Proof. done. Qed.

(** Multiplication by a number with one more bit. *)
Definition sel (b : bool) (a : N) : N := if b then a else 0.
Lemma mul_0_r a : gf_mul a 0 = 0.
Proof. done. Qed.
Lemma mul_double a b : gf_mul a (N.double b) = gf_mulx (gf_mul a b).
Proof. by destruct b. Qed.
Lemma mul_succ_double a b : gf_mul a (N.succ_double b) = N.lxor (gf_mulx (gf_mul a b)) a.
Proof. destruct b; [cbn [gf_mul gf_mul_pos N.succ_double]; by rewrite mulx_0, N.lxor_0_l|done]. Qed.
Lemma mul_1_r a : gf_mul a 1 = a.
Proof. done. Qed.

Lemma mul_0_l b : gf_mul 0 b = 0.
Proof.
  induction b as [|b IH|b IH] using N.binary_ind; [done|..].
  - by rewrite mul_double, IH.
  - by rewrite mul_succ_double, IH.
Qed.
Lemma mul_lxor_l a b c : gf_mul (N.lxor a b) c = N.lxor (gf_mul a c) (gf_mul b c).
Proof.
  induction c as [|c IH|c IH] using N.binary_ind; [done|..].
  - by rewrite !mul_double, IH, mulx_lxor.
  - by rewrite !mul_succ_double, IH, mulx_lxor, lxor_swap4.
Qed.
Lemma lxor_double_double a b : N.lxor (N.double a) (N.double b) = N.double (N.lxor a b).
Proof. by rewrite double_lxor. Qed.
Lemma succ_double_lxor a : N.succ_double a = N.lxor (N.double a) 1.
Proof. by destruct a. Qed.
Lemma mul_lxor_r a b c : gf_mul a (N.lxor b c) = N.lxor (gf_mul a b) (gf_mul a c).
Proof.
  revert c. induction b as [|b IH|b IH] using N.binary_ind; intros c; [by rewrite N.lxor_0_l, mul_0_r, N.lxor_0_l|..];
    induction c as [|c _|c _] using N.binary_ind; rewrite ?N.lxor_0_r, ?mul_0_r, ?N.lxor_0_r; try done.
  - by rewrite lxor_double_double, !mul_double, IH, mulx_lxor.
  - rewrite (succ_double_lxor c), <- N.lxor_assoc, lxor_double_double, <- !succ_double_lxor, !mul_succ_double, mul_double, IH, mulx_lxor.
    by rewrite N.lxor_assoc.
  - rewrite (succ_double_lxor b), N.lxor_assoc, (N.lxor_comm 1), <- N.lxor_assoc, lxor_double_double, <- !succ_double_lxor, !mul_succ_double, mul_double, IH, mulx_lxor.
    rewrite !N.lxor_assoc. f_equal. apply N.lxor_comm.
  - rewrite (succ_double_lxor b), (succ_double_lxor c), lxor_swap4, N.lxor_nilpotent, N.lxor_0_r, lxor_double_double.
    rewrite <- !succ_double_lxor, !mul_succ_double, mul_double, IH, mulx_lxor.
    by rewrite lxor_swap4, N.lxor_nilpotent, N.lxor_0_r.
Qed.
Lemma mul_mulx_l a b : gf_mul (gf_mulx a) b = gf_mulx (gf_mul a b).
Proof.
  induction b as [|b IH|b IH] using N.binary_ind; [done|..].
  - by rewrite !mul_double, IH.
  - by rewrite !mul_succ_double, IH, mulx_lxor.
Qed.
Lemma mul_swap a b c : gf_mul (gf_mul c a) b = gf_mul (gf_mul c b) a.
Proof.
  induction a as [|a IH|a IH] using N.binary_ind; [by rewrite !mul_0_r, mul_0_l|..].
  - by rewrite !mul_double, mul_mulx_l, IH.
  - by rewrite !mul_succ_double, mul_lxor_l, mul_mulx_l, IH.
Qed.

Definition gf_ok (a : N) : Prop := a < 2 ^ 128.
Lemma lxor_lt n a b : a < 2 ^ n -> b < 2 ^ n -> N.lxor a b < 2 ^ n.
Proof.
  intros Ha Hb. destruct (N.eq_dec (N.lxor a b) 0) as [->|Hne]; [lia|].
  apply N.log2_lt_pow2; [lia|]. pose proof (N.log2_lxor a b).
  assert (0 < n) as Hn. { destruct (N.eq_dec n 0) as [->|]; [|lia]. change (2 ^ 0) with 1 in *. replace a with 0 in Hne by lia. replace b with 0 in Hne by lia. done. }
  assert (forall x, x < 2 ^ n -> N.log2 x < n) as Hl.
  { intros x Hx. destruct (N.eq_dec x 0) as [->|]; [done|]. apply N.log2_lt_pow2; [lia|done]. }
  pose proof (Hl _ Ha). pose proof (Hl _ Hb). lia.
Qed.
Lemma gf_ok_lxor a b : gf_ok a -> gf_ok b -> gf_ok (N.lxor a b).
Proof. apply lxor_lt. Qed.
Lemma testbit_small a n : a < 2 ^ n -> N.testbit a n = false.
Proof. intros H. rewrite <- (N.mod_small a (2 ^ n)) by done. apply N.mod_pow2_bits_high. lia. Qed.
Lemma mulx_small a : N.double a < 2 ^ 128 -> gf_mulx a = N.double a.
Proof. intros H. unfold gf_mulx. by rewrite testbit_small. Qed.
Lemma testbit_top a n : 2 ^ n <= a < 2 ^ (n + 1) -> N.testbit a n = true.
Proof.
  intros H. apply N.testbit_true. rewrite N.add_1_r, N.pow_succ_r' in H.
  replace (a / 2 ^ n) with 1; [done|]. apply N.div_unique with (a - 2 ^ n); lia.
Qed.
Lemma gf_ok_mulx a : gf_ok a -> gf_ok (gf_mulx a).
Proof.
  unfold gf_ok. intros H. assert (N.double a < 2 ^ 129) as Hd by (rewrite N.double_spec; change (2 ^ 129) with (2 * 2 ^ 128); lia).
  unfold gf_mulx. destruct (N.testbit (N.double a) 128) eqn:E.
  - assert (2 ^ 128 <= N.double a) as Hge.
    { destruct (N.le_gt_cases (2 ^ 128) (N.double a)) as [|Hlt]; [done|]. by rewrite (testbit_small _ _ Hlt) in E. }
    (* remove the top bit on both sides *)
    assert (forall x, 2 ^ 128 <= x < 2 ^ 129 -> x = N.lxor (2 ^ 128) (x - 2 ^ 128)) as Hx.
    { intros x Hx. assert (N.land (2 ^ 128) (x - 2 ^ 128) = 0) as Hl.
      { apply N.bits_inj. intros i. rewrite N.land_spec, N.bits_0, N.pow2_bits_eqb.
        destruct (N.eqb_spec 128 i) as [<-|]; [|done]. rewrite testbit_small; [done|]. change (2 ^ 129) with (2 * 2 ^ 128) in Hx. lia. }
      rewrite <- N.add_nocarry_lxor by done. lia. }
    rewrite (Hx (N.double a)), (Hx gf_poly) by (split; [done|exact Hd] || done).
    rewrite lxor_swap4, N.lxor_nilpotent, N.lxor_0_l. apply lxor_lt; [change (2 ^ 129) with (2 * 2 ^ 128) in Hd; lia|done].
  - destruct (N.le_gt_cases (2 ^ 128) (N.double a)) as [Hge|]; [|done].
    rewrite testbit_top in E; [done|]. split; [done|exact Hd].
Qed.
Lemma gf_ok_mul a b : gf_ok a -> gf_ok (gf_mul a b).
Proof.
  intros Ha. induction b as [|b IH|b IH] using N.binary_ind; [done|..].
  - rewrite mul_double. by apply gf_ok_mulx.
  - rewrite mul_succ_double. by apply gf_ok_lxor; [apply gf_ok_mulx|].
Qed.
Lemma mul_1_l b : gf_ok b -> gf_mul 1 b = b.
Proof.
  unfold gf_ok. induction b as [|b IH|b IH] using N.binary_ind; intros H; [done|..].
  - rewrite mul_double, IH by (rewrite N.double_spec in H; lia). by apply mulx_small.
  - rewrite N.succ_double_spec in H. rewrite mul_succ_double, IH by lia. rewrite mulx_small by (rewrite N.double_spec; lia). by rewrite succ_double_lxor.
Qed.
Lemma mul_comm a b : gf_ok a -> gf_ok b -> gf_mul a b = gf_mul b a.
Proof. intros Ha Hb. rewrite <- (mul_1_l a) at 1 by done. rewrite mul_swap, mul_1_l by done. done. Qed.
Lemma mul_assoc a b c : gf_ok a -> gf_ok b -> gf_ok c -> gf_mul a (gf_mul b c) = gf_mul (gf_mul a b) c.
Proof.
  intros Ha Hb Hc. rewrite (mul_comm a) by (done || by apply gf_ok_mul). rewrite mul_swap. by rewrite (mul_comm b a).
Qed.
(** Squaring is additive. *)
Lemma square_lxor a b : gf_ok a -> gf_ok b -> gf_mul (N.lxor a b) (N.lxor a b) = N.lxor (gf_mul a a) (gf_mul b b).
Proof.
  intros Ha Hb. rewrite mul_lxor_l, !mul_lxor_r, (mul_comm b a) by done.
  apply N.bits_inj. intros i. rewrite !N.lxor_spec. destruct (N.testbit (gf_mul a a) i), (N.testbit (gf_mul b b) i), (N.testbit (gf_mul a b) i); done.
Qed.

(** ** Reflection *)
Lemma rev_bits_spec n a i : N.testbit (rev_bits n a) i = (i <? N.of_nat n) && N.testbit a (N.of_nat n - 1 - i).
Proof.
  revert a. induction n as [|n IH]; intros a; [rewrite N.bits_0; destruct (N.ltb_spec i (N.of_nat 0)); [lia|done]|].
  cbn [rev_bits].
  assert (rev_bits n (N.div2 a) < 2 ^ N.of_nat n) as Hlt.
  { clear. generalize (N.div2 a). induction n as [|n IH]; intros b; [done|]. cbn [rev_bits].
    rewrite Nat2N.inj_succ, N.pow_succ_r'. pose proof (IH (N.div2 b)). destruct (N.odd b); lia. }
  assert ((if N.odd a then 2 ^ N.of_nat n else 0) + rev_bits n (N.div2 a) = N.lxor (if N.odd a then 2 ^ N.of_nat n else 0) (rev_bits n (N.div2 a))) as ->.
  { apply N.add_nocarry_lxor. destruct (N.odd a); [|done]. apply N.bits_inj. intros k.
    rewrite N.land_spec, N.bits_0, N.pow2_bits_eqb. destruct (N.eqb_spec (N.of_nat n) k) as [<-|]; [|done]. by rewrite testbit_small. }
  rewrite N.lxor_spec, IH, N.div2_spec, N.shiftr_spec by lia.
  destruct (N.eq_dec i (N.of_nat n)) as [->|Hne].
  - replace (N.of_nat n <? N.of_nat n) with false by (symmetry; apply N.ltb_irrefl).
    replace (N.of_nat n <? N.of_nat (S n)) with true by (symmetry; apply N.ltb_lt; lia).
    replace (N.of_nat (S n) - 1 - N.of_nat n) with 0 by lia. cbn [andb]. rewrite xorb_false_r, N.bit0_odd.
    destruct (N.odd a); [apply N.pow2_bits_true|apply N.bits_0].
  - assert (N.testbit (if N.odd a then 2 ^ N.of_nat n else 0) i = false) as ->.
    { destruct (N.odd a); [|apply N.bits_0]. apply N.pow2_bits_false. done. }
    rewrite xorb_false_l. destruct (N.ltb_spec i (N.of_nat n)), (N.ltb_spec i (N.of_nat (S n))); try (exfalso; lia); [|done].
    cbn [andb]. f_equal. lia.
Qed.
Lemma rev_spec a i : N.testbit (rev128 a) i = (i <? 128) && N.testbit a (127 - i).
Proof. unfold rev128. rewrite rev_bits_spec. change (N.of_nat 128) with 128. by replace (128 - 1 - i) with (127 - i) by lia. Qed.
Lemma rev_ok a : gf_ok (rev128 a).
Proof.
  unfold gf_ok. destruct (N.eq_dec (rev128 a) 0) as [->|Hne]; [done|]. apply N.log2_lt_pow2; [lia|].
  pose proof (N.bit_log2 _ Hne) as H. rewrite rev_spec in H. apply andb_true_iff in H as [H _]. by apply N.ltb_lt.
Qed.
Lemma testbit_high a i : gf_ok a -> 128 <= i -> N.testbit a i = false.
Proof. intros Ha Hi. apply testbit_small. eapply N.lt_le_trans; [exact Ha|]. apply N.pow_le_mono_r; lia. Qed.
Lemma rev_rev a : gf_ok a -> rev128 (rev128 a) = a.
Proof.
  intros Ha. apply N.bits_inj. intros i. rewrite !rev_spec.
  destruct (N.ltb_spec i 128).
  - destruct (N.ltb_spec (127 - i) 128); [|lia]. cbn [andb]. f_equal. lia.
  - cbn [andb]. symmetry. by apply testbit_high.
Qed.
Lemma rev_lxor a b : rev128 (N.lxor a b) = N.lxor (rev128 a) (rev128 b).
Proof. apply N.bits_inj. intros i. rewrite N.lxor_spec, !rev_spec, N.lxor_spec. by destruct (i <? 128). Qed.
Lemma rev_0 : rev128 0 = 0.
Proof. by vm_compute. Qed.

Lemma double_bit a i : N.testbit (N.double a) i = (0 <? i) && N.testbit a (i - 1).
Proof.
  destruct (N.ltb_spec 0 i).
  - replace i with (N.succ (i - 1)) at 1 by lia. rewrite N.double_spec. apply N.testbit_even_succ. lia.
  - replace i with 0 by lia. rewrite N.double_spec. apply N.testbit_even_0.
Qed.
(** Shifting a block to the right is multiplying by x. *)
Lemma rev_shift v : gf_ok v -> rev128 (nist_shift v) = gf_mulx (rev128 v).
Proof.
  intros Hv. unfold nist_shift, gf_mulx.
  assert (N.testbit (N.double (rev128 v)) 128 = N.odd v) as -> by (rewrite double_bit, rev_spec; cbn [andb]; by rewrite <- N.bit0_odd).
  assert (forall i, i < 128 -> N.testbit (rev128 (N.shiftr v 1)) i = N.testbit (N.double (rev128 v)) i) as Hs.
  { intros i Hi. rewrite rev_spec, double_bit, N.shiftr_spec', rev_spec. destruct (N.ltb_spec i 128); [|lia]. cbn [andb].
    destruct (N.ltb_spec 0 i).
    - destruct (N.ltb_spec (i - 1) 128); [|lia]. cbn [andb]. f_equal. lia.
    - replace (127 - i + 1) with 128 by lia. cbn [andb]. by apply testbit_high. }
  destruct (N.odd v) eqn:Eo; [rewrite rev_lxor|]; apply N.bits_inj; intros i; rewrite ?N.lxor_spec.
  - destruct (N.ltb_spec i 128) as [Hi|Hi].
    + rewrite Hs by done. f_equal. assert (rev128 nist_r = gf_poly - 2 ^ 128) as -> by (by vm_compute).
      assert (gf_poly = N.lxor (2 ^ 128) (gf_poly - 2 ^ 128)) as Hp by (by vm_compute). set (q := gf_poly - 2 ^ 128) in *. clearbody q. rewrite Hp, N.lxor_spec, N.pow2_bits_false by lia. by rewrite xorb_false_l.
    + rewrite !(testbit_high (rev128 _)) by (apply rev_ok || done).
      rewrite double_bit. destruct (N.ltb_spec 0 i); [|lia]. cbn [andb]. destruct (N.eq_dec i 128) as [->|].
      * rewrite rev_spec. change (128 - 1 <? 128) with true. change (127 - (128 - 1)) with 0. rewrite N.bit0_odd, Eo. done.
      * rewrite testbit_high by (apply rev_ok || lia). rewrite testbit_small; [done|]. eapply N.lt_le_trans; [|apply (N.pow_le_mono_r _ 129); lia]. done.
  - destruct (N.ltb_spec i 128) as [Hi|Hi]; [by apply Hs|].
    rewrite (testbit_high (rev128 _)) by (apply rev_ok || done). rewrite double_bit. destruct (N.ltb_spec 0 i); [|lia]. cbn [andb].
    destruct (N.eq_dec i 128) as [->|].
    + rewrite rev_spec. change (128 - 1 <? 128) with true. change (127 - (128 - 1)) with 0. by rewrite N.bit0_odd, Eo.
    + by rewrite testbit_high by (apply rev_ok || lia).
Qed.
Lemma shift_ok v : gf_ok v -> gf_ok (nist_shift v).
Proof.
  unfold gf_ok, nist_shift. intros H. assert (N.shiftr v 1 < 2 ^ 128) as Hs by (rewrite N.shiftr_div_pow2; change (2 ^ 1) with 2; apply N.le_lt_trans with v; [apply N.div_le_upper_bound; lia|done]).
  destruct (N.odd v); [|done]. by apply lxor_lt.
Qed.

(** The steps of the NIST multiplication: bit by bit from the left, with V = y x^i. *)
Fixpoint low_mul (n i : nat) (x v : N) : N :=
  match n with
  | O => 0
  | S n' => N.lxor (if N.testbit x (N.of_nat i) then v else 0) (low_mul n' (i + 1) x (gf_mulx v))
  end.
Lemma nist_steps_rev n i x z v : gf_ok v -> (i + n <= 128)%nat ->
  rev128 (nist_steps n i x z v) = N.lxor (rev128 z) (low_mul n i (rev128 x) (rev128 v)).
Proof.
  revert i z v. induction n as [|n IH]; intros i z v Hv Hi; cbn [nist_steps low_mul]; [by rewrite N.lxor_0_r|].
  rewrite IH by (lia || by apply shift_ok). rewrite rev_shift by done.
  assert (N.testbit (rev128 x) (N.of_nat i) = block_bit x i) as ->.
  { rewrite rev_spec. unfold block_bit. destruct (N.ltb_spec (N.of_nat i) 128); [done|lia]. }
  rewrite <- N.lxor_assoc. f_equal. destruct (block_bit x i); [apply rev_lxor|by rewrite N.lxor_0_r].
Qed.
(** Low bits first gives the same as Horner. *)
Lemma low_mul_shift n i x v : low_mul n i x v = low_mul n 0 (N.shiftr x (N.of_nat i)) v.
Proof.
  revert i x v. assert (forall n i x v, low_mul n (i + 1) x v = low_mul n i (N.div2 x) v) as H1.
  { clear n. intros n. induction n as [|n IH]; intros i x v; cbn [low_mul]; [done|]. rewrite IH. f_equal.
    rewrite N.div2_spec, N.shiftr_spec'. by replace (N.of_nat (i + 1)) with (N.of_nat i + 1) by lia. }
  induction i as [|i IH]; intros x v; [change (N.of_nat 0) with 0; by rewrite N.shiftr_0_r|].
  replace (S i) with (i + 1)%nat by lia. rewrite H1, IH. f_equal.
  rewrite N.div2_spec, N.shiftr_shiftr. f_equal. lia.
Qed.
Lemma low_mul_mul n x v : x < 2 ^ N.of_nat n -> low_mul n 0 x v = gf_mul v x.
Proof.
  revert x v. induction n as [|n IH]; intros x v Hx; cbn [low_mul].
  - replace x with 0 by (change (2 ^ N.of_nat 0) with 1 in Hx; lia). done.
  - rewrite low_mul_shift. change (N.of_nat (0 + 1)) with 1. rewrite IH.
    2:{ rewrite N.shiftr_div_pow2. change (2 ^ 1) with 2. rewrite Nat2N.inj_succ, N.pow_succ_r' in Hx. apply N.div_lt_upper_bound; lia. }
    rewrite mul_mulx_l. change (N.of_nat 0) with 0. rewrite N.bit0_odd, <- N.div2_spec.
    induction x as [|x _|x _] using N.binary_ind; [done|..].
    + rewrite N.div2_double, mul_double. destruct x; cbn [N.double N.odd]; by rewrite N.lxor_0_l.
    + rewrite N.div2_succ_double, mul_succ_double, N.lxor_comm. by destruct x.
Qed.
Lemma nist_mul_rev x y : gf_ok y -> rev128 (nist_mul x y) = gf_mul (rev128 x) (rev128 y).
Proof.
  intros Hy. unfold nist_mul. rewrite nist_steps_rev by (done || lia). rewrite rev_0, N.lxor_0_l, low_mul_mul by apply rev_ok.
  apply mul_comm; apply rev_ok.
Qed.
Lemma nist_mul_ok x y : gf_ok y -> gf_ok (nist_mul x y).
Proof.
  intros Hy. unfold nist_mul. assert (forall n i z y, gf_ok z -> gf_ok y -> gf_ok (nist_steps n i x z y)) as H; [|by apply H].
  clear y Hy. intros n. induction n as [|n IH]; intros i z y Hz Hy; cbn [nist_steps]; [done|]. apply IH; [|by apply shift_ok].
  destruct (block_bit x i); [by apply gf_ok_lxor|done].
Qed.
