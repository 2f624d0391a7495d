(** The BCS format (the [bcs] crate), as far as attestations use it, and the fact that
    encodings can be told apart: no encoding is a prefix of another one of the same type. *)
From Verif.Lib Require Import Base.

(** ULEB128 of a [u32]: seven bits per byte, least significant first, the top bit marks
    that more follow. [fuel] bytes suffice for [n < 128 ^ fuel]. *)
Fixpoint uleb (fuel : nat) (n : N) : list N :=
  match fuel with
  | O => []
  | S f => if (n <? 128)%N then [n] else (n mod 128 + 128)%N :: uleb f (n / 128)%N
  end.
(** Sequence lengths and enum variants. BCS refuses lengths of 2^31 and more. *)
Definition bcs_len (n : nat) : list N := uleb 5 (N.of_nat n).
Definition bcs_max_len : N := (2 ^ 31)%N.
(** Fixed-size integers: [k] bytes, little endian. *)
Fixpoint le (k : nat) (n : N) : list N :=
  match k with O => [] | S k' => (n mod 256)%N :: le k' (n / 256)%N end.
(** [Vec<u8>], and sequences of other elements. *)
Definition bcs_bytes (l : list N) : list N := bcs_len (length l) ++ l.
Definition bcs_seq {A} (f : A -> list N) (l : list A) : list N := bcs_len (length l) ++ concat (map f l).

(** The encodings of [ok] values are prefix free (hence injective). *)
Definition prefix_free {A} (ok : A -> Prop) (f : A -> list N) : Prop :=
  forall a b r s, ok a -> ok b -> f a ++ r = f b ++ s -> a = b /\ r = s.

Lemma prefix_free_inj {A} (ok : A -> Prop) f a b : prefix_free ok f -> ok a -> ok b -> f a = f b -> a = b.
Proof. intros Hf Ha Hb E. apply (Hf a b [] []); [done..|]. by rewrite E. Qed.

Lemma uleb_prefix_free k : prefix_free (fun n => n < 128 ^ N.of_nat k)%N (uleb k).
Proof.
  induction k as [|k IH]; intros a b r s Ha Hb E.
  { change (128 ^ N.of_nat 0)%N with 1%N in *. simpl in E. split; [lia|done]. }
  rewrite Nat2N.inj_succ, N.pow_succ_r' in Ha, Hb. simpl in E.
  assert (forall n, n < 128 * 128 ^ N.of_nat k -> n / 128 < 128 ^ N.of_nat k)%N as Hdiv.
  { intros n Hn. apply N.div_lt_upper_bound; lia. }
  destruct (N.ltb_spec a 128) as [Ha'|Ha'], (N.ltb_spec b 128) as [Hb'|Hb']; simpl in E; injection E as E1 E2.
  - done.
  - exfalso. pose proof (N.mod_lt b 128). lia.
  - exfalso. pose proof (N.mod_lt a 128). lia.
  - apply IH in E2 as [E2 ->]; [|by apply Hdiv..]. split; [|done].
    rewrite (N.div_mod a 128), (N.div_mod b 128) by done. lia.
Qed.
Definition len_ok (n : nat) : Prop := (N.of_nat n < bcs_max_len)%N.
Lemma bcs_len_prefix_free : prefix_free len_ok bcs_len.
Proof.
  intros a b r s Ha Hb E. unfold bcs_len in E.
  assert (bcs_max_len <= 128 ^ N.of_nat 5)%N as Hm by done. unfold len_ok in *.
  eapply uleb_prefix_free in E as [E ->]; [split; [lia|done]|simpl in *; lia..].
Qed.
Lemma le_length k n : length (le k n) = k.
Proof. revert n. induction k as [|k IH]; intros n; simpl; [done|]. by rewrite IH. Qed.
Lemma le_prefix_free k : prefix_free (fun n => n < 256 ^ N.of_nat k)%N (le k).
Proof.
  induction k as [|k IH]; intros a b r s Ha Hb E.
  { change (256 ^ N.of_nat 0)%N with 1%N in *. simpl in E. split; [lia|done]. }
  rewrite Nat2N.inj_succ, N.pow_succ_r' in Ha, Hb. simpl in E. injection E as E1 E2.
  apply IH in E2 as [E2 ->]; [|apply N.div_lt_upper_bound; lia..]. split; [|done].
  rewrite (N.div_mod a 256), (N.div_mod b 256) by done. lia.
Qed.
Lemma bcs_bytes_prefix_free : prefix_free (fun l => len_ok (length l)) bcs_bytes.
Proof.
  intros a b r s Ha Hb E. unfold bcs_bytes in E. rewrite <- !app_assoc in E.
  apply bcs_len_prefix_free in E as [El E]; [|done..]. by apply app_inj_1 in E.
Qed.
Lemma bcs_seq_prefix_free {A} (ok : A -> Prop) f : prefix_free ok f ->
  prefix_free (fun l => len_ok (length l) /\ Forall ok l) (bcs_seq f).
Proof.
  intros Hf a b r s [Ha Fa] [Hb Fb] E. unfold bcs_seq in E. rewrite <- !app_assoc in E.
  apply bcs_len_prefix_free in E as [El E]; [|done..]. clear Ha Hb.
  revert b r s Fb El E. induction Fa as [|x a Hx Fa IH]; intros [|y b] r s Fb El E; try done.
  inversion Fb; subst. simpl in E. rewrite <- !app_assoc in E.
  apply Hf in E as [-> E]; [|done..]. injection El as El. apply IH in E as [-> ->]; done.
Qed.
(** A fixed number of bytes without a length. *)
Lemma fixed_prefix_free k : prefix_free (fun l : list N => length l = k) (fun l => l).
Proof. intros a b r s Ha Hb E. apply app_inj_1 in E; [done|congruence]. Qed.
Lemma byte_prefix_free : prefix_free (fun _ : N => True) (fun b => [b]).
Proof. intros a b r s _ _ E. simpl in E. by injection E as -> ->. Qed.
