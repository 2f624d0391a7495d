(** Model of crates/components/key-exchange: the two parties derive the x-coordinate of the sum of two points twice, as additive
    shares, and compare the two results.

    The machine is that of PrfModel.v. The steps in which the parties talk to each other (allocation, setup, share
    computation) are taken by both at once; if one of them is not ready for a step, both end in the error state. *)
From Coq Require Import ZArith Zpow_facts.
From Verif.Lib Require Import Base.
From Verif Require Import CodecModel RecordModel PrfModel.

(** ** The field (crate mpz_fields, p256): numbers below the prime. *)
Definition p256 : Z := (2 ^ 256 - 2 ^ 224 + 2 ^ 192 + 2 ^ 96 - 1)%Z.
Definition fp_add (a b : Z) : Z := ((a + b) mod p256)%Z.
Definition fp_neg (a : Z) : Z := ((- a) mod p256)%Z.
Definition fp_mul (a b : Z) : Z := ((a * b) mod p256)%Z.
Definition fp_inv (a : Z) : option Z := if (a =? 0)%Z then None else Some (Zpow_mod a (p256 - 2) p256).

Inductive ke_error := KeState | KeKey | KeVm | KeShareConversion | KeRole.

(** ** point_addition.rs *)
(** A share converter, as both parties see it: from the inputs of the leader and the follower to their outputs. *)
Record converter := Converter {
  cv_to_multiplicative : list Z -> list Z -> list Z * list Z;
  cv_to_additive : list Z -> list Z -> list Z * list Z }.
(** point_addition.rs:32-35; a point is given by its coordinates. *)
Definition kx_inputs (r : role) (xy : Z * Z) : list Z :=
  match r with Leader => [xy.2; xy.1] | Follower => [fp_neg xy.2; fp_neg xy.1] end.
(** point_addition.rs:46-56. *)
Definition kx_square (shares : list Z) : panicky Z :=
  match shares with
  | [a; b] => let! i := or_panic (fp_inv b) in let c := fp_mul a i in Ok (fp_mul c c)
  | _ => Panic
  end.
(** point_addition.rs:67-72. *)
Definition kx_output (shares : list Z) (xy : Z * Z) : panicky Z :=
  let! d := or_panic (shares !! 0) in Ok (fp_add d (fp_neg xy.1)).
(** point_addition.rs:18-75 [derive_x_coord_share], run by both. *)
Definition derive_x_coord_shares (cv : converter) (pl pf : Z * Z) : panicky (Z * Z) :=
  let '(ml, mf) := cv_to_multiplicative cv (kx_inputs Leader pl) (kx_inputs Follower pf) in
  let! cl := kx_square ml in
  let! cf := kx_square mf in
  let '(dl, df) := cv_to_additive cv [cl] [cf] in
  let! xl := kx_output dl pl in
  let! xf := kx_output df pf in
  Ok (xl, xf).

(** ** circuit.rs:20-78; numbers are big-endian. *)
(** mpz_circuits [add_mod]: one conditional subtraction. *)
Definition add_mod (a b m : N) : N := (if m <=? a + b then a + b - m else a + b)%N.
Definition circ_pms (vs : list (list N)) : list N :=
  match vs with [a; b; m] => be 32 (add_mod (of_be a) (of_be b) (of_be m)) | _ => [] end.
(** The bits are compared in little-endian order. *)
Definition circ_eq (vs : list (list N)) : list N :=
  match vs with [p0; p1] => zip_with N.lxor (reverse p0) (reverse p1) | _ => [] end.
(** exchange.rs:28-31 [P]. *)
Definition P_bytes : list N :=
  [255;255;255;255;0;0;0;1;0;0;0;0;0;0;0;0;0;0;0;0;255;255;255;255;255;255;255;255;255;255;255;255]%N.
(** exchange.rs:357-364. *)
Definition share_bytes (x : Z) : list N := be 32 (Z.to_N x).

Section KeyExchange.
  (** The curve (crate p256): addition and, for points other than the identity, the coordinates. *)
  Context {point : Type} (padd : point -> point -> point) (pzero : point) (coords : point -> option (Z * Z)) (base : point).
  (** Two instances of the converter, exchange.rs:74-76. *)
  Context (cv0 cv1 : converter).

  Definition pmul (k : N) (q : point) : point := N.iter k (padd q) pzero.
  (** [PublicKey::from_affine] refuses the identity. *)
  Definition from_affine (q : point) : outcome ke_error point :=
    match coords q with None => Err KeKey | Some _ => Ok q end.

  (** ** exchange.rs:33-64 [State] *)
  Record ke_cells := KeCells { kc_a0 : nat; kc_b0 : nat; kc_a1 : nat; kc_b1 : nat; kc_eq : nat }.
  Inductive ke_state :=
  | KsInitialized
  | KsSetup (c : ke_cells)
  | KsFollowerKey (c : ke_cells) (follower_key : point)
  | KsComputed (c : ke_cells) (pms_0 pms_1 : Z)
  | KsEqualityCheck (eq : nat)
  | KsComplete
  | KsError.
  (** exchange.rs:72-89 [MpcKeyExchange]. *)
  Record party := Party { kp_role : role; kp_state : ke_state; kp_private : N; kp_server : option point }.
  Definition kp_with (k : party) (s : ke_state) : party := Party (kp_role k) s (kp_private k) (kp_server k).
  Definition kp_new (r : role) (private_key : N) : party := Party r KsInitialized private_key None.

  (** exchange.rs:119-204 [alloc], without the machine: [c] are the cells. *)
  Definition kp_alloc (k : party) (c : ke_cells) : party * outcome ke_error unit :=
    match kp_state k with KsInitialized => (kp_with k (KsSetup c), Ok tt) | _ => (kp_with k KsError, Err KeState) end.
  (** exchange.rs:206-211 [set_server_key]. *)
  Definition kp_set_server_key (k : party) (q : point) : party := Party (kp_role k) (kp_state k) (kp_private k) (Some q).
  (** exchange.rs:217-238 [client_key]. *)
  Definition kp_client_key (k : party) : outcome ke_error point :=
    match kp_role k with
    | Follower => Err KeRole
    | Leader =>
        match kp_state k with
        | KsFollowerKey _ follower_key => from_affine (padd (pmul (kp_private k) base) follower_key)
        | _ => Err KeState
        end
    end.
  (** exchange.rs:430-442 in [compute_ec_shares], with exchange.rs:318-320: this party's point. *)
  Definition kp_point (k : party) : outcome ke_error (Z * Z) :=
    let! server_key := opt_err KeRole (kp_server k) in
    let! q := from_affine (pmul (kp_private k) server_key) in
    opt_err KeKey (coords q).
  (** exchange.rs:345-401 [assign]; a failure leaves what was assigned before. *)
  Definition kp_assign (m : vm) (k : party) : vm * party * outcome ke_error unit :=
    match kp_state k with
    | KsComputed c s0 s1 =>
        let '(i0, i1) := match kp_role k with Leader => (kc_a0 c, kc_a1 c) | Follower => (kc_b0 c, kc_b1 c) end in
        match vm_assign m i0 (share_bytes s0) with
        | Ok m1 =>
            match vm_assign m1 i1 (share_bytes s1) with
            | Ok m2 => (m2, kp_with k (KsEqualityCheck (kc_eq c)), Ok tt)
            | _ => (m1, kp_with k KsError, Err KeVm)
            end
        | _ => (m, kp_with k KsError, Err KeVm)
        end
    | _ => (m, kp_with k KsError, Err KeState)
    end.
  (** exchange.rs:403-423 [finalize]. Waiting for a value that was not computed is an error. *)
  Definition kp_finalize (m : vm) (k : party) : party * outcome ke_error unit :=
    match kp_state k with
    | KsEqualityCheck eq =>
        match vm_decoded m eq with
        | None => (kp_with k KsError, Err KeVm)
        | Some v =>
            if decide (v = replicate 32 0%N) then (kp_with k KsComplete, Ok tt)
            else (kp_with k KsError, Err KeShareConversion)
        end
    | _ => (kp_with k KsError, Err KeState)
    end.

  (** ** Both parties *)
  Record ke := Ke { ke_vm : vm; ke_l : party; ke_f : party }.
  Definition ke_get (k : ke) (r : role) : party := match r with Leader => ke_l k | Follower => ke_f k end.
  Definition ke_put (k : ke) (r : role) (m : vm) (x : party) : ke :=
    match r with Leader => Ke m x (ke_f k) | Follower => Ke m (ke_l k) x end.
  Definition ke_new (kl kf : N) : ke := Ke vm_new (kp_new Leader kl) (kp_new Follower kf).
  Definition ke_fail (k : ke) (m : vm) : ke := Ke m (kp_with (ke_l k) KsError) (kp_with (ke_f k) KsError).

  (** exchange.rs:119-204; the result is the cell of the pre-master secret. *)
  Definition ke_alloc (k : ke) : ke * outcome ke_error nat :=
    let '(m, a0) := vm_add (ke_vm k) (Given None) in
    let '(m, b0) := vm_add m (Given None) in
    let '(m, a1) := vm_add m (Given None) in
    let '(m, b1) := vm_add m (Given None) in
    let '(m, p) := vm_add m (Given (Some P_bytes)) in
    let '(m, pms) := vm_add m (Computed circ_pms [a0; b0; p]) in
    let '(m, pms_1) := vm_add m (Computed circ_pms [a1; b1; p]) in
    let '(m, eq) := vm_add m (Computed circ_eq [pms; pms_1]) in
    let c := KeCells a0 b0 a1 b1 eq in
    match kp_alloc (ke_l k) c, kp_alloc (ke_f k) c with
    | (l, Ok _), (f, Ok _) => (Ke m l f, Ok pms)
    | _, _ => (ke_fail k (ke_vm k), Err KeState)
    end.
  (** exchange.rs:240-299 [setup]: the follower sends its public key. *)
  Definition ke_setup (k : ke) : ke * outcome ke_error unit :=
    match kp_state (ke_l k), kp_state (ke_f k) with
    | KsSetup cl, KsSetup cf =>
        let key := pmul (kp_private (ke_f k)) base in
        (Ke (ke_vm k) (kp_with (ke_l k) (KsFollowerKey cl key)) (kp_with (ke_f k) (KsFollowerKey cf key)), Ok tt)
    | _, _ => (ke_fail k (ke_vm k), Err KeState)
    end.
  (** exchange.rs:301-343 [compute_shares]. *)
  Definition ke_compute (k : ke) : ke * outcome ke_error unit :=
    match kp_state (ke_l k), kp_state (ke_f k) with
    | KsFollowerKey cl _, KsFollowerKey cf _ =>
        match kp_point (ke_l k), kp_point (ke_f k) with
        | Ok ql, Ok qf =>
            match derive_x_coord_shares cv0 ql qf, derive_x_coord_shares cv1 ql qf with
            | Ok (l0, f0), Ok (l1, f1) =>
                (Ke (ke_vm k) (kp_with (ke_l k) (KsComputed cl l0 l1)) (kp_with (ke_f k) (KsComputed cf f0 f1)), Ok tt)
            | _, _ => (ke_fail k (ke_vm k), Panic)
            end
        | Err e, _ => (ke_fail k (ke_vm k), Err e)
        | _, Err e => (ke_fail k (ke_vm k), Err e)
        | _, _ => (ke_fail k (ke_vm k), Panic)
        end
    | _, _ => (ke_fail k (ke_vm k), Err KeState)
    end.

  (** ** Use *)
  (** The machine is used by others as well. *)
  Inductive ke_call :=
  | KcAlloc
  | KcSetup
  | KcServerKey (r : role) (q : point)
  | KcCompute
  | KcAssign (r : role)
  | KcFinalize (r : role)
  | KcOtherAdd (c : cell)
  | KcOtherAssign (i : nat) (v : list N)
  | KcExecute.
  Definition ke_step (k : ke) (c : ke_call) : ke * outcome ke_error nat :=
    match c with
    | KcAlloc => ke_alloc k
    | KcSetup => let '(k, o) := ke_setup k in (k, omap_ok (fun _ => 0) o)
    | KcServerKey r q => (ke_put k r (ke_vm k) (kp_set_server_key (ke_get k r) q), Ok 0)
    | KcCompute => let '(k, o) := ke_compute k in (k, omap_ok (fun _ => 0) o)
    | KcAssign r => let '(m, x, o) := kp_assign (ke_vm k) (ke_get k r) in (ke_put k r m x, omap_ok (fun _ => 0) o)
    | KcFinalize r => let '(x, o) := kp_finalize (ke_vm k) (ke_get k r) in (ke_put k r (ke_vm k) x, omap_ok (fun _ => 0) o)
    | KcOtherAdd c => (Ke (vm_add (ke_vm k) c).1 (ke_l k) (ke_f k), Ok 0)
    | KcOtherAssign i v =>
        match vm_assign (ke_vm k) i v with
        | Ok m => (Ke m (ke_l k) (ke_f k), Ok 0)
        | _ => (k, Err KeVm)
        end
    | KcExecute => (Ke (vm_execute (ke_vm k)) (ke_l k) (ke_f k), Ok 0)
    end.
  Fixpoint ke_run (k : ke) (cs : list ke_call) : ke * list (outcome ke_error nat) :=
    match cs with
    | [] => (k, [])
    | c :: cs' => let '(k, o) := ke_step k c in let '(k, os) := ke_run k cs' in (k, o :: os)
    end.
End KeyExchange.
