(** Fermat's little theorem and Pocklington's criterion, to show that the modulus of P-256 is prime. *)
From Coq Require Import ZArith Znumtheory Zpow_facts Lia.
From stdpp Require Import base list numbers list_numbers.
Local Open Scope Z_scope.

(** ** Congruence *)
Definition cong (m a b : Z) : Prop := (m | a - b).
Lemma cong_refl m a : cong m a a.
Proof. exists 0. lia. Qed.
Lemma cong_sym m a b : cong m a b -> cong m b a.
Proof. intros [k H]. exists (- k). lia. Qed.
Lemma cong_trans m a b c : cong m a b -> cong m b c -> cong m a c.
Proof. intros [k H] [l H']. exists (k + l). lia. Qed.
Lemma cong_mul m a b a' b' : cong m a a' -> cong m b b' -> cong m (a * b) (a' * b').
Proof. intros [k H] [l H']. exists (k * b + a' * l). nia. Qed.
Lemma cong_add m a b a' b' : cong m a a' -> cong m b b' -> cong m (a + b) (a' + b').
Proof. intros [k H] [l H']. exists (k + l). lia. Qed.
Lemma cong_sub m a b a' b' : cong m a a' -> cong m b b' -> cong m (a - b) (a' - b').
Proof. intros [k H] [l H']. exists (k - l). lia. Qed.
Lemma cong_mod m a : m <> 0 -> cong m (a mod m) a.
Proof. intros Hm. exists (- (a / m)). pose proof (Z.div_mod a m Hm). lia. Qed.
Lemma cong_mod_eq m a b : 0 < m -> cong m a b <-> a mod m = b mod m.
Proof.
  intros Hm. split.
  - intros [k H]. replace a with (b + k * m) by lia. apply Z_mod_plus_full.
  - intros H. eapply cong_trans; [apply cong_sym, cong_mod; lia|]. rewrite H. apply cong_mod. lia.
Qed.
Lemma cong_pow m a b n : 0 <= n -> cong m a b -> cong m (a ^ n) (b ^ n).
Proof.
  intros Hn H. revert n Hn. apply (natlike_ind (fun n => cong m (a ^ n) (b ^ n))); [apply cong_refl|].
  intros n Hn IH. rewrite !Z.pow_succ_r by done. by apply cong_mul.
Qed.
Lemma cong_div m n a b : (n | m) -> cong m a b -> cong n a b.
Proof. intros H1 H2. unfold cong in *. by eapply Z.divide_trans. Qed.
Lemma cong_cancel p a b c : prime p -> ~ (p | a) -> cong p (a * b) (a * c) -> cong p b c.
Proof.
  intros Hp Ha H. unfold cong in *. replace (a * b - a * c) with (a * (b - c)) in H by lia.
  by destruct (prime_mult p Hp _ _ H).
Qed.

(** ** Fermat *)
Definition zprod (l : list Z) : Z := foldr Z.mul 1 l.
Lemma zprod_perm l l' : l ≡ₚ l' -> zprod l = zprod l'.
Proof. intros H. unfold zprod. induction H; cbn; [done|by rewrite IHPermutation|lia|congruence]. Qed.
Lemma zprod_map p a l : cong p (zprod (map (fun x => (a * x) mod p) l)) (a ^ Z.of_nat (length l) * zprod l) \/ p = 0.
Proof.
  destruct (decide (p = 0)) as [|Hp]; [by right|left]. induction l as [|x l IH]; cbn [map zprod foldr length].
  - apply cong_refl.
  - fold (zprod l). fold (zprod (map (fun x => (a * x) mod p) l)).
    rewrite Nat2Z.inj_succ, Z.pow_succ_r by lia.
    eapply cong_trans; [apply cong_mul; [by apply cong_mod|exact IH]|]. replace (a * x * (a ^ Z.of_nat (length l) * zprod l))
      with (a * a ^ Z.of_nat (length l) * (x * zprod l)) by lia. apply cong_refl.
Qed.
Lemma zprod_not_div p l : prime p -> Forall (fun x => ~ (p | x)) l -> ~ (p | zprod l).
Proof.
  intros Hp. induction 1 as [|x l Hx Hl IH]; cbn.
  - intros H. apply Z.divide_1_r in H. destruct Hp. lia.
  - intros H. by destruct (prime_mult p Hp _ _ H).
Qed.
Lemma small_not_div p x : 0 < x < p -> ~ (p | x).
Proof. intros H Hd. apply Z.divide_pos_le in Hd; lia. Qed.
Lemma fermat p a : prime p -> ~ (p | a) -> cong p (a ^ (p - 1)) 1.
Proof.
  intros Hp Ha. assert (1 < p) as Hp1 by (by destruct Hp).
  set (l := (fun n => Z.of_nat (S n)) <$> seq 0 (Z.to_nat (p - 1))).
  assert (length l = Z.to_nat (p - 1)) as Hlen by (unfold l; by rewrite fmap_length, seq_length).
  assert (forall x, x ∈ l <-> 0 < x < p) as Hin.
  { intros x. unfold l. rewrite elem_of_list_fmap. split.
    - intros (n & -> & Hn). apply elem_of_seq in Hn. lia.
    - intros Hx. exists (Z.to_nat (x - 1)). split; [lia|]. apply elem_of_seq. lia. }
  assert (NoDup l) as Hnd.
  { unfold l. apply NoDup_fmap_2; [|apply NoDup_seq]. intros x y H. lia. }
  set (f := fun x => (a * x) mod p).
  assert (map f l ≡ₚ l) as Hperm.
  { apply submseteq_Permutation_length_eq; [by rewrite map_length|]. apply NoDup_submseteq.
    - change (map f l) with (f <$> l). apply NoDup_fmap_2_strong; [|done].
      intros x y Hx Hy Hf. apply Hin in Hx, Hy. unfold f in Hf. apply cong_mod_eq in Hf; [|lia].
      apply cong_cancel in Hf; [|done|done]. apply cong_mod_eq in Hf; [|lia]. by rewrite !Z.mod_small in Hf by lia.
    - intros y Hy. change (map f l) with (f <$> l) in Hy. apply elem_of_list_fmap in Hy as (x & -> & Hx). apply Hin in Hx. apply Hin.
      unfold f. pose proof (Z.mod_pos_bound (a * x) p ltac:(lia)).
      assert ((a * x) mod p <> 0); [|lia]. intros H0. apply Z.mod_divide in H0; [|lia].
      destruct (prime_mult p Hp _ _ H0) as [?|Hd]; [done|]. by apply small_not_div in Hd. }
  destruct (zprod_map p a l) as [Hc|]; [|lia]. fold f in Hc. rewrite (zprod_perm _ _ Hperm) in Hc.
  rewrite Hlen, Z2Nat.id in Hc by lia.
  apply (cong_cancel p (zprod l)); [done| |].
  - apply zprod_not_div; [done|]. apply Forall_forall. intros x Hx. apply Hin in Hx. by apply small_not_div.
  - apply cong_sym in Hc. eapply cong_trans; [|rewrite Z.mul_1_r; exact Hc]. rewrite Z.mul_comm. apply cong_refl.
Qed.

(** ** Pocklington *)
Lemma pow_1_cong m b n : 0 <= n -> cong m b 1 -> cong m (b ^ n) 1.
Proof. intros Hn H. eapply cong_trans; [by apply cong_pow|]. rewrite Z.pow_1_l by done. apply cong_refl. Qed.
(** If [b^q = 1] and [b <> 1] modulo a prime [r], for a prime [q], then [q] divides [r - 1]. *)
Lemma order_divides r q b : prime r -> prime q -> cong r (b ^ q) 1 -> ~ cong r b 1 -> (q | r - 1).
Proof.
  intros Hr Hq H1 Hn. assert (1 < r /\ 1 < q) as [Hr1 Hq1] by (destruct Hr, Hq; done).
  destruct (Zdivide_dec q (r - 1)) as [|Hd]; [done|exfalso].
  assert (~ (r | b)) as Hb.
  { intros [k ->]. destruct H1 as [j H1]. apply (small_not_div r 1); [lia|].
    exists (k * (k * r) ^ (q - 1) - j). replace ((k * r) ^ q) with ((k * r) * (k * r) ^ (q - 1)) in H1; [lia|].
    rewrite <- Z.pow_succ_r by lia. f_equal. lia. }
  pose proof (prime_rel_prime q Hq (r - 1) Hd) as Hrel. apply rel_prime_bezout in Hrel. destruct Hrel as [u v Huv].
  set (u' := u mod (r - 1) + (r - 1)). pose proof (Z.mod_pos_bound u (r - 1) ltac:(lia)) as Hu.
  pose proof (Z.div_mod u (r - 1) ltac:(lia)) as Hdm.
  assert (exists v', u' * q = 1 + v' * (r - 1)) as [v' Hv'].
  { exists (- v - (u / (r - 1) - 1) * q). unfold u'. nia. }
  assert (0 <= v') as Hv0 by nia.
  apply Hn. assert (cong r (b ^ (u' * q)) 1) as E1.
  { rewrite Z.mul_comm, Z.pow_mul_r by lia. apply pow_1_cong; [lia|done]. }
  rewrite Hv', Z.pow_add_r, Z.pow_1_r in E1 by nia. eapply cong_trans; [|exact E1]. apply cong_sym.
  assert (cong r (b * b ^ (v' * (r - 1))) (b * 1)) as E2; [|by rewrite Z.mul_1_r in E2].
  apply cong_mul; [apply cong_refl|]. rewrite Z.mul_comm, Z.pow_mul_r by lia. apply pow_1_cong; [lia|]. by apply fermat.
Qed.
(** Every number above 1 has a prime divisor. *)
Lemma prime_divisor n : 1 < n -> exists r, prime r /\ (r | n).
Proof.
  intros Hn. assert (0 <= n) as Hn0 by lia. revert Hn. pattern n. apply (Z_lt_induction); [|done]. clear n Hn0. intros n IH Hn.
  destruct (prime_dec n) as [|Hp]; [exists n; split; [done|apply Z.divide_refl]|].
  destruct (not_prime_divide n Hn Hp) as (m & Hm & Hd). destruct (IH m ltac:(lia) ltac:(lia)) as (r & Hr & Hrd).
  exists r. split; [done|]. by eapply Z.divide_trans.
Qed.
(** A number whose prime divisors are all greater than its root is prime. *)
Lemma prime_by_divisors n : 1 < n -> (forall r, prime r -> (r | n) -> n < r * r) -> prime n.
Proof.
  intros Hn H. destruct (prime_dec n) as [|Hp]; [done|exfalso].
  destruct (not_prime_divide n Hn Hp) as (m & Hm & k & Hk).
  assert (1 < k) as Hk1 by nia.
  destruct (prime_divisor m ltac:(lia)) as (r & Hr & Hrd). destruct (prime_divisor k ltac:(lia)) as (r' & Hr' & Hrd').
  pose proof (H r Hr (Z.divide_trans _ _ _ Hrd ltac:(exists k; exact Hk))).
  pose proof (H r' Hr' (Z.divide_trans _ _ _ Hrd' ltac:(exists m; rewrite Z.mul_comm; exact Hk))).
  assert (r <= m) by (apply Z.divide_pos_le; [lia|done]). assert (r' <= k) by (apply Z.divide_pos_le; [lia|done]).
  assert (1 < r /\ 1 < r') as [? ?] by (destruct Hr, Hr'; done).
  assert (k < m) by nia. assert (m < k) by nia. lia.
Qed.
Fixpoint pairwise_coprime (qs : list Z) : Prop :=
  match qs with [] => True | q :: qs' => Forall (rel_prime q) qs' /\ pairwise_coprime qs' end.
Lemma rel_prime_prod q qs : Forall (rel_prime q) qs -> rel_prime q (zprod qs).
Proof. induction 1; cbn; [apply rel_prime_sym, rel_prime_1|]. by apply rel_prime_mult. Qed.
Lemma prod_divides qs n : pairwise_coprime qs -> Forall (fun q => (q | n)) qs -> (zprod qs | n).
Proof.
  induction qs as [|q qs IH]; cbn; [intros; apply Z.divide_1_l|]. intros [Hc Hp] Hd. inversion_clear Hd.
  destruct (IH Hp H0) as [k Hk]. fold (zprod qs). rewrite Hk in H. apply rel_prime_prod in Hc.
  rewrite Z.mul_comm in H. apply Gauss in H as [j Hj]; [|done]. exists j. nia.
Qed.
(** The check for one factor [q] of [n - 1] with witness [a]. *)
Definition pock_ok (n : Z) (qa : Z * Z) : bool :=
  let '(q, a) := qa in
  ((n - 1) mod q =? 0) && (Zpow_mod a (n - 1) n =? 1) && (Z.gcd (Zpow_mod a ((n - 1) / q) n - 1) n =? 1).
Definition coprimes (qs : list Z) : bool :=
  (fix go qs := match qs with [] => true | q :: qs' => forallb (fun q' => Z.gcd q q' =? 1) qs' && go qs' end) qs.
Lemma coprimes_ok qs : coprimes qs = true -> pairwise_coprime qs.
Proof.
  induction qs as [|q qs IH]; [done|]. cbn. intros H. apply andb_true_iff in H as [H1 H2]. split; [|by apply IH].
  apply Forall_forall. intros x Hx. rewrite forallb_forall in H1. apply elem_of_list_In in Hx. apply H1, Z.eqb_eq in Hx.
  by apply Zgcd_1_rel_prime.
Qed.
Lemma pocklington n qas :
  1 < n -> Forall (fun qa => prime qa.1) qas -> forallb (pock_ok n) qas = true -> coprimes (map fst qas) = true ->
  (n <? zprod (map fst qas) * zprod (map fst qas)) = true -> prime n.
Proof.
  intros Hn Hq Hok Hco Hbig. apply Z.ltb_lt in Hbig. apply prime_by_divisors; [done|]. intros r Hr Hrn.
  assert (1 < r) as Hr1 by (by destruct Hr).
  assert (zprod (map fst qas) | r - 1) as Hd.
  { apply prod_divides; [by apply coprimes_ok|]. rewrite Forall_map. rewrite Forall_forall in Hq |- *. intros [q a] Hin. cbn.
    specialize (Hq _ Hin). cbn in Hq. apply elem_of_list_In in Hin. rewrite forallb_forall in Hok. specialize (Hok _ Hin). cbn in Hok.
    apply andb_true_iff in Hok as [Hok H3]. apply andb_true_iff in Hok as [H1 H2]. apply Z.eqb_eq in H1, H2, H3.
    assert (1 < q) as Hq1 by (by destruct Hq).
    rewrite Zpow_mod_correct in H2, H3 by lia.
    apply Z.mod_divide in H1 as [k Hk]; [|lia].
    assert ((n - 1) / q = k) as Hdiv by (rewrite Hk; apply Z.div_mul; lia). rewrite Hdiv in H3.
    assert (0 <= k) by nia.
    apply (order_divides r q (a ^ k)); [done|done| |].
    - rewrite <- Z.pow_mul_r by lia. rewrite <- Hk. apply (cong_div n r); [done|].
      apply cong_mod_eq; [lia|]. rewrite H2, Z.mod_small by lia. done.
    - intros Hc. apply Zgcd_1_rel_prime in H3.
      assert (r | a ^ k mod n - 1) as Hr'.
      { apply (cong_trans r _ (a ^ k)); [|done]. apply (cong_div n r); [done|]. apply cong_mod. lia. }
      destruct H3 as [_ _ H3]. specialize (H3 r Hr' Hrn). apply Z.divide_1_r in H3. lia. }
  assert (0 < zprod (map fst qas)) as Hpos.
  { clear -Hq. induction Hq as [|[q a] l [H1 _] _ IH]; cbn in *; [lia|]. fold (zprod (map fst l)) in *. nia. }
  apply Z.divide_pos_le in Hd; [|lia]. nia.
Qed.
(** Small primes, by trial. *)
Fixpoint no_divisor (fuel : nat) (d n : Z) : bool :=
  match fuel with
  | O => false
  | S fuel => if n <? d * d then true else if n mod d =? 0 then false else no_divisor fuel (d + 1) n
  end.
Lemma no_divisor_ok fuel : forall d n, 1 < d -> no_divisor fuel d n = true -> forall r, d <= r -> (r | n) -> 0 < n -> n < r * r.
Proof.
  induction fuel as [|fuel IH]; intros d n Hd H r Hr Hrn Hn; [done|]. cbn in H.
  destruct (n <? d * d) eqn:E1; [apply Z.ltb_lt in E1; nia|]. destruct (n mod d =? 0) eqn:E2; [done|].
  destruct (decide (r = d)) as [->|].
  - apply Z.mod_divide in Hrn; [|lia]. apply Z.eqb_neq in E2. done.
  - apply (IH (d + 1) n); try done; lia.
Qed.
Lemma prime_by_trial n : (1 <? n) && no_divisor 2000 2 n = true -> prime n.
Proof.
  intros H. apply andb_true_iff in H as [H1 H2]. apply Z.ltb_lt in H1. apply prime_by_divisors; [done|].
  intros r Hr Hrn. assert (1 < r) by (by destruct Hr). eapply (no_divisor_ok 2000 2); try done; lia.
Qed.
Lemma prime_704251 : prime 704251.
Proof. apply prime_by_trial. by vm_compute. Qed.
Lemma prime_78283 : prime 78283.
Proof. apply prime_by_trial. by vm_compute. Qed.
Lemma prime_46076956964474543 : prime 46076956964474543.
Proof.
  apply (pocklington _ [(704251, 2); (78283, 2)]); [done| |by vm_compute..].
  constructor; [apply prime_704251|]. constructor; [apply prime_78283|]. constructor.
Qed.
Lemma prime_3677 : prime 3677.
Proof. apply prime_by_trial. by vm_compute. Qed.
Lemma prime_197 : prime 197.
Proof. apply prime_by_trial. by vm_compute. Qed.
Lemma prime_66417393611 : prime 66417393611.
Proof.
  apply (pocklington _ [(3677, 2); (197, 2)]); [done| |by vm_compute..].
  constructor; [apply prime_3677|]. constructor; [apply prime_197|]. constructor.
Qed.
Lemma prime_11290956913871 : prime 11290956913871.
Proof.
  apply (pocklington _ [(66417393611, 2)]); [done| |by vm_compute..].
  constructor; [apply prime_66417393611|]. constructor.
Qed.
Lemma prime_774023187263532362759620327192479577272145303 : prime 774023187263532362759620327192479577272145303.
Proof.
  apply (pocklington _ [(46076956964474543, 2); (11290956913871, 2)]); [done| |by vm_compute..].
  constructor; [apply prime_46076956964474543|]. constructor; [apply prime_11290956913871|]. constructor.
Qed.
Lemma prime_835945042244614951780389953367877943453916927241 : prime 835945042244614951780389953367877943453916927241.
Proof.
  apply (pocklington _ [(774023187263532362759620327192479577272145303, 2)]); [done| |by vm_compute..].
  constructor; [apply prime_774023187263532362759620327192479577272145303|]. constructor.
Qed.
Lemma prime_115792089210356248762697446949407573530086143415290314195533631308867097853951 : prime 115792089210356248762697446949407573530086143415290314195533631308867097853951.
Proof.
  apply (pocklington _ [(835945042244614951780389953367877943453916927241, 2)]); [done| |by vm_compute..].
  constructor; [apply prime_835945042244614951780389953367877943453916927241|]. constructor.
Qed.
