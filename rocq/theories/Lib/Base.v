(** Common conventions of the model: outcomes, bytes, checked slices. *)
From Coq Require Export Sorted ZArith Lia ZifyBool ZifyNat ZifyN.
From stdpp Require Export numbers list_numbers list.

(** Result of a Rust call: a value, a returned error, or a panic. *)
Inductive outcome (E A : Type) : Type :=
| Ok (a : A)
| Err (e : E)
| Panic.
Arguments Ok {E A} _.
Arguments Err {E A} _.
Arguments Panic {E A}.

Definition obind {E A B} (m : outcome E A) (k : A -> outcome E B) : outcome E B :=
  match m with
  | Ok a => k a
  | Err e => Err e
  | Panic => Panic
  end.
Notation "'let!' x := m 'in' k" := (obind m (fun x => k))
  (at level 200, x pattern, m at level 100, k at level 200, right associativity).

Definition omap_ok {E A B} (f : A -> B) (m : outcome E A) : outcome E B :=
  match m with Ok a => Ok (f a) | Err e => Err e | Panic => Panic end.

(** A function that can only return or panic. *)
Notation panicky A := (outcome Empty_set A).

(** A byte is an [N]; [byte_ok] says that it is in range. *)
Notation byte := N (only parsing).
Notation bytes := (list N) (only parsing).
Definition byte_ok (b : N) : Prop := (b < 256)%N.
Definition bytes_ok (l : list N) : Prop := Forall byte_ok l.

(** Rust [&l[a..b]]: panics unless [a <= b <= len]. *)
Definition slice {A} (l : list A) (a b : nat) : option (list A) :=
  if (a <=? b) && (b <=? length l) then Some (take (b - a) (drop a l)) else None.

(** Rust [l[a..b].copy_from_slice(d)]: panics unless the range is valid and as
    long as [d]. *)
Definition put {A} (l : list A) (a b : nat) (d : list A) : option (list A) :=
  if (a <=? b) && (b <=? length l) && (length d =? b - a)
  then Some (take a l ++ d ++ drop b l) else None.

Definition or_panic {E A} (o : option A) : outcome E A :=
  match o with Some a => Ok a | None => Panic end.

Lemma slice_Some {A} (l : list A) a b :
  a <= b -> b <= length l -> slice l a b = Some (take (b - a) (drop a l)).
Proof. intros H1 H2. unfold slice. by rewrite (proj2 (Nat.leb_le _ _) H1), (proj2 (Nat.leb_le _ _) H2). Qed.

Lemma slice_inv {A} (l : list A) a b s :
  slice l a b = Some s -> a <= b /\ b <= length l /\ s = take (b - a) (drop a l) /\ length s = b - a.
Proof.
  unfold slice. destruct (a <=? b) eqn:E1, (b <=? length l) eqn:E2; simpl; intros [= <-].
  split_and!; [lia|lia|done|]. rewrite take_length, drop_length. lia.
Qed.

Lemma slice_lookup {A} (l : list A) a b s i :
  slice l a b = Some s -> s !! i = if decide (i < b - a) then l !! (a + i) else None.
Proof.
  intros (H1 & H2 & -> & _)%slice_inv.
  case_decide.
  - by rewrite lookup_take, lookup_drop by lia.
  - apply lookup_take_ge. lia.
Qed.

Lemma put_inv {A} (l : list A) a b d l' :
  put l a b d = Some l' ->
  a <= b /\ b <= length l /\ length d = b - a /\ l' = take a l ++ d ++ drop b l.
Proof.
  unfold put. destruct (a <=? b) eqn:E1, (b <=? length l) eqn:E2, (length d =? b - a) eqn:E3;
    simpl; intros [= <-].
  split_and!; try lia. done.
Qed.

Lemma put_Some {A} (l : list A) a b d :
  a <= b -> b <= length l -> length d = b - a ->
  put l a b d = Some (take a l ++ d ++ drop b l).
Proof.
  intros H1 H2 H3. unfold put.
  by rewrite (proj2 (Nat.leb_le _ _) H1), (proj2 (Nat.leb_le _ _) H2), (proj2 (Nat.eqb_eq _ _) H3).
Qed.

Lemma put_length {A} (l : list A) a b d l' : put l a b d = Some l' -> length l' = length l.
Proof.
  intros (H1 & H2 & H3 & ->)%put_inv. rewrite !app_length, take_length, drop_length. lia.
Qed.

Lemma put_lookup {A} (l : list A) a b d l' i :
  put l a b d = Some l' ->
  l' !! i = if decide (a <= i < b) then d !! (i - a) else l !! i.
Proof.
  intros (H1 & H2 & H3 & ->)%put_inv.
  destruct (decide (i < a)).
  { rewrite lookup_app_l by (rewrite take_length; lia). rewrite lookup_take by lia.
    by rewrite decide_False by lia. }
  rewrite lookup_app_r by (rewrite take_length; lia).
  rewrite take_length. replace (a `min` length l) with a by lia.
  destruct (decide (i < b)).
  - rewrite decide_True by lia. rewrite lookup_app_l by lia. done.
  - rewrite decide_False by lia. rewrite lookup_app_r by lia. rewrite lookup_drop.
    f_equal. lia.
Qed.

Lemma obind_Ok {E A B} (m : outcome E A) (k : A -> outcome E B) b :
  obind m k = Ok b <-> exists a, m = Ok a /\ k a = Ok b.
Proof. destruct m; simpl; split; intros; naive_solver. Qed.

Lemma or_panic_Ok {E A} (o : option A) (a : A) : @or_panic E A o = Ok a <-> o = Some a.
Proof. destruct o; simpl; split; congruence. Qed.

Lemma elem_of_nat_seq i a n : i ∈ List.seq a n <-> a <= i < a + n.
Proof. by rewrite elem_of_list_In, in_seq. Qed.
