(** What is asked of the key exchange. *)
From Coq Require Import ZArith.
From Verif.Lib Require Import Base.
From Verif Require Import RecordModel KeyExchangeModel.

Definition field (x : Z) : Prop := (0 <= x < p256)%Z.
(** The x-coordinate [x3] of the sum of two points with different x-coordinates (SEC 1, 2.2.1): the slope [l] is
    [(y2 - y1) / (x2 - x1)] and [x3] is [l^2 - x1 - x2]. *)
Definition sum_x (q1 q2 : Z * Z) (x3 : Z) : Prop :=
  field x3 /\ exists l, (p256 | l * (q2.1 - q1.1) - (q2.2 - q1.2))%Z /\ (p256 | x3 - (l * l - q1.1 - q2.1))%Z.

(** Share conversion: from shares of a sum to shares of a product of the same value, and back. *)
Definition honest_converter (cv : converter) : Prop :=
  forall xs ys, length xs = length ys -> Forall field xs -> Forall field ys ->
  let '(us, vs) := cv_to_multiplicative cv xs ys in
  let '(us', vs') := cv_to_additive cv xs ys in
  length us = length xs /\ length vs = length xs /\ Forall field us /\ Forall field vs /\
  length us' = length xs /\ length vs' = length xs /\ Forall field us' /\ Forall field vs' /\
  forall i x y, xs !! i = Some x -> ys !! i = Some y ->
    (exists u v, us !! i = Some u /\ vs !! i = Some v /\ (p256 | u * v - (x + y))%Z) /\
    (exists u v, us' !! i = Some u /\ vs' !! i = Some v /\ (p256 | u + v - x * y)%Z).

(** The points of the curve: a commutative group in which points with different x-coordinates are added as above. *)
Record curve_ok {point : Type} (padd : point -> point -> point) (pzero : point) (coords : point -> option (Z * Z)) : Prop := {
  curve_assoc : forall a b c, padd a (padd b c) = padd (padd a b) c;
  curve_comm : forall a b, padd a b = padd b a;
  curve_zero : forall a, padd pzero a = a;
  curve_identity : forall a, coords a = None <-> a = pzero;
  curve_field : forall a x y, coords a = Some (x, y) -> field x /\ field y;
  curve_sum : forall a b q1 q2, coords a = Some q1 -> coords b = Some q2 -> q1.1 <> q2.1 ->
    exists x3 y3, coords (padd a b) = Some (x3, y3) /\ sum_x q1 q2 x3 }.

Section History.
  Context {point : Type}.
  (** The call number [i] of a list and its result. *)
  Definition ok_at (cs : list (ke_call (point := point))) (os : list (outcome ke_error nat)) (i : nat) (c : ke_call) (v : nat) : Prop :=
    cs !! i = Some c /\ os !! i = Some (Ok v).
  (** The server key a party was last given. *)
  Definition server_key (cs : list (ke_call (point := point))) (r : role) : option point :=
    last (omap (fun c => match c, r with
                         | KcServerKey Leader q, Leader | KcServerKey Follower q, Follower => Some q
                         | _, _ => None
                         end) cs).
  (** The shares computed by a call number [j] with the server keys the parties had then. *)
  Definition shares_at (padd : point -> point -> point) (pzero : point) (coords : point -> option (Z * Z)) (cv0 cv1 : converter) (kl kf : N)
      (cs : list (ke_call (point := point))) (j : nat) (l0 f0 l1 f1 : Z) : Prop :=
    exists sl sf ql qf, server_key (take j cs) Leader = Some sl /\ server_key (take j cs) Follower = Some sf /\
      coords (pmul padd pzero kl sl) = Some ql /\ coords (pmul padd pzero kf sf) = Some qf /\
      derive_x_coord_shares cv0 ql qf = Ok (l0, f0) /\ derive_x_coord_shares cv1 ql qf = Ok (l1, f1).
  (** An exchange from start to end. *)
  Definition exchange_calls (sl sf : point) : list (ke_call (point := point)) :=
    [KcAlloc; KcSetup; KcServerKey Leader sl; KcServerKey Follower sf; KcCompute; KcAssign Leader; KcAssign Follower; KcExecute;
     KcFinalize Leader; KcFinalize Follower].
End History.
