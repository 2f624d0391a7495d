(** Model of crates/components/deap/src/lib.rs: dual execution with asymmetric privacy.

    Two virtual machines run side by side. Both are modelled as a memory of cells (a bit each), which are inputs or output bits of calls
    to circuits. What the first machine (MPC) decodes is not computed but given ([mpc_get]): its other party may be
    malicious. The second machine (ZK) is ideal: what it decodes is what the circuits compute from the inputs that are committed, those
    of the other party being given by [wit]. A machine refuses to mark an input twice, to assign to an input that is not
    marked as public or private or that has a value, and to commit to an input that is not marked or has no value
    though it should; committing twice is allowed. Locks are never held by anyone else. A run ends with the first call that
    fails; what callers may do after a failure is not modelled. *)
From Verif.Lib Require Import Base Ranges.
From Verif Require Import AttestModel ProofModel DeapMapModel.

(** A circuit: the sizes of its inputs, the size of its output and its function. *)
Record circuit := Circuit { ci_in : list nat; ci_out : nat; ci_fn : list bool -> list bool }.
Definition ci_eval (f : circuit) (x : list bool) : list bool := take (ci_out f) (ci_fn f x ++ replicate (ci_out f) false).

(** ** Machines *)
Inductive vis := Public | Private | Blind.
(** An input with its mark, its value and whether it is committed to, or the [i]-th output bit of a call. *)
Inductive cell := In (v : option vis) (x : option bool) (committed : bool) | Bit (f : circuit) (args : list nat) (i : nat).
Notation machine := (list cell).
Inductive dp_error := EVm | EMap | EExecute | EEquality.

Definition addrs (s : slice) : list nat := seq (sl_ptr s) (sl_size s).
(** Changes cells; [None] is refusal. *)
Fixpoint on_cells (l : list (nat * (cell -> option cell))) (m : machine) : outcome dp_error machine :=
  match l with
  | [] => Ok m
  | (a, g) :: l' => match m !! a with Some c => match g c with Some c' => on_cells l' (<[a := c']> m) | None => Err EVm end | None => Err EVm end
  end.
Definition mark_cell (v : vis) (c : cell) : option cell := match c with In None None false => Some (In (Some v) None false) | _ => None end.
Definition assign_cell (b : bool) (c : cell) : option cell :=
  match c with In (Some Public) None false => Some (In (Some Public) (Some b) false) | In (Some Private) None false => Some (In (Some Private) (Some b) false) | _ => None end.
Definition commit_cell (c : cell) : option cell :=
  match c with In (Some Blind) x _ => Some (In (Some Blind) x true) | In (Some v) (Some b) _ => Some (In (Some v) (Some b) true) | _ => None end.

Definition vm_alloc (m : machine) (n : nat) : machine * slice := (m ++ replicate n (In None None false), Slice (length m) n).
Definition vm_mark (v : vis) (s : slice) (m : machine) : outcome dp_error machine := on_cells (map (fun a => (a, mark_cell v)) (addrs s)) m.
Definition vm_assign (s : slice) (bits : list bool) (m : machine) : outcome dp_error machine :=
  if length bits =? sl_size s then on_cells (zip_with (fun a b => (a, assign_cell b)) (addrs s) bits) m else Err EVm.
Definition vm_commit (s : slice) (m : machine) : outcome dp_error machine := on_cells (map (fun a => (a, commit_cell)) (addrs s)) m.
(** Whether a slice is allocated. *)
Definition vm_has (m : machine) (s : slice) : bool := sl_end s <=? length m.
Definition vm_call (f : circuit) (args : list slice) (m : machine) : outcome dp_error (machine * slice) :=
  if forallb (vm_has m) args then Ok (m ++ map (Bit f (concat (map addrs args))) (seq 0 (ci_out f)), Slice (length m) (ci_out f)) else Err EVm.

(** The values of the cells after an execution. *)
Definition cell_value (wit : nat -> bool) (env : list (option bool)) (c : cell) : option bool :=
  match c with
  | In v x com => if com then match v with Some Blind => Some (wit (length env)) | _ => x end else None
  | Bit f args i => match mapM (fun a => mjoin (env !! a)) args with Some xs => ci_eval f xs !! i | None => None end
  end.
Fixpoint values_from (wit : nat -> bool) (env : list (option bool)) (m : machine) : list (option bool) :=
  match m with
  | [] => env
  | c :: m' => values_from wit (env ++ [cell_value wit env c]) m'
  end.
Definition vm_values (wit : nat -> bool) (m : machine) (s : slice) : option (list bool) :=
  mapM (fun a => mjoin (values_from wit [] m !! a)) (addrs s).

(** ** lib.rs *)
(** lib.rs:24-29. *)
Inductive role := Leader | Follower.
(** lib.rs:33-46; an output is kept with the slice of the ZK machine whose decoding was asked for. *)
Record deap := Deap {
  dp_mpc : machine; dp_zk : machine; dp_map : memory_map; dp_ranges : rangeset; dp_inputs : list slice; dp_outputs : list (slice * slice) }.
(** lib.rs:50-60. *)
Definition dp_new : deap := Deap [] [] mm_new [] [] [].
Definition set_vms (mpc zk : machine) (d : deap) : deap := Deap mpc zk (dp_map d) (dp_ranges d) (dp_inputs d) (dp_outputs d).

(** lib.rs:90-92 [translate]. *)
Definition translate (d : deap) (s : slice) : outcome dp_error slice := map_err (fun _ => EMap) (mm_try_get rust_search (dp_map d) s).
(** lib.rs:183-190 [alloc_raw]. *)
Definition dp_alloc (n : nat) (d : deap) : outcome dp_error deap :=
  let (mpc, ms) := vm_alloc (dp_mpc d) n in
  let (zk, zs) := vm_alloc (dp_zk d) n in
  let! mm := lift_panic (mm_insert (dp_map d) ms zs) in
  Ok (Deap mpc zk mm (dp_ranges d) (dp_inputs d) (dp_outputs d)).
(** lib.rs:196-206 [assign_raw]. *)
Definition dp_assign (s : slice) (bits : list bool) (d : deap) : outcome dp_error deap :=
  let! mpc := vm_assign s bits (dp_mpc d) in
  let! z := translate d s in
  let! zk := vm_assign z bits (dp_zk d) in
  Ok (set_vms mpc zk d).
(** lib.rs:218-223: the loop of [commit_raw]. *)
Fixpoint commit_ranges (d : deap) (rs : rangeset) (zk : machine) : outcome dp_error machine :=
  match rs with
  | [] => Ok zk
  | (a, b) :: rs' =>
      let! z := translate d (Slice a (b - a)) in
      let! zk := vm_commit z zk in
      commit_ranges d rs' zk
  end.
(** lib.rs:212-226 [commit_raw]. *)
Definition dp_commit (s : slice) (d : deap) : outcome dp_error deap :=
  let! zk := commit_ranges d (rs_diff (rs_single (sl_ptr s) (sl_end s)) (dp_ranges d)) (dp_zk d) in
  let! mpc := vm_commit s (dp_mpc d) in
  Ok (set_vms mpc zk d).
(** lib.rs:232-241 [decode_raw]. *)
Definition dp_decode (s : slice) (d : deap) : outcome dp_error deap :=
  let! z := translate d s in
  if negb (vm_has (dp_zk d) z) then Err EVm
  else if negb (vm_has (dp_mpc d) s) then Err EVm
  else Ok (Deap (dp_mpc d) (dp_zk d) (dp_map d) (dp_ranges d) (dp_inputs d) (dp_outputs d ++ [(s, z)])).
(** lib.rs:252-256: marks in both machines. *)
Definition mark_both (v v' : vis) (s : slice) (d : deap) : outcome dp_error deap :=
  let! mpc := vm_mark v s (dp_mpc d) in
  let! z := translate d s in
  let! zk := vm_mark v' z (dp_zk d) in
  Ok (set_vms mpc zk d).
(** lib.rs:271-272 and 287-288: the follower's private inputs will become public during finalization. *)
Definition follower_input (s : slice) (d : deap) : deap :=
  Deap (dp_mpc d) (dp_zk d) (dp_map d) (rs_union (dp_ranges d) (rs_single (sl_ptr s) (sl_end s))) (dp_inputs d ++ [s]) (dp_outputs d).
(** lib.rs:251-257 [mark_public_raw], 259-277 [mark_private_raw], 279-297 [mark_blind_raw]. *)
Definition dp_mark (r : role) (v : vis) (s : slice) (d : deap) : outcome dp_error deap :=
  match v, r with
  | Public, _ => mark_both Public Public s d
  | Private, Leader => mark_both Private Private s d
  | Private, Follower => let! d := mark_both Private Public s d in Ok (follower_input s d)
  | Blind, Leader => let! d := mark_both Blind Public s d in Ok (follower_input s d)
  | Blind, Follower => mark_both Blind Blind s d
  end.
Fixpoint translate_all (d : deap) (ss : list slice) : outcome dp_error (list slice) :=
  match ss with
  | [] => Ok []
  | s :: ss' => let! z := translate d s in let! zs := translate_all d ss' in Ok (z :: zs)
  end.
(** lib.rs:305-321 [call_raw]; building a call fails if the sizes of the arguments are not those of the circuit's inputs. *)
Definition dp_call (f : circuit) (args : list slice) (d : deap) : outcome dp_error deap :=
  let! zargs := translate_all d args in
  if negb (bool_decide (map sl_size zargs = ci_in f)) then Panic
  else
    let! (mpc, ms) := vm_call f args (dp_mpc d) in
    let! (zk, zs) := vm_call f zargs (dp_zk d) in
    let! mm := lift_panic (mm_insert (dp_map d) ms zs) in
    Ok (Deap mpc zk mm (dp_ranges d) (dp_inputs d) (dp_outputs d)).

(** The calls of a user. [DZk] is an allocation in the ZK machine only, which can be done through [zk()]. *)
Inductive dop :=
| DAlloc (n : nat) | DZk (n : nat) | DMark (v : vis) (s : slice) | DAssign (s : slice) (bits : list bool) | DCommit (s : slice)
| DCall (f : circuit) (args : list slice) | DDecode (s : slice).
Definition dp_step (r : role) (o : dop) (d : deap) : outcome dp_error deap :=
  match o with
  | DAlloc n => dp_alloc n d
  | DZk n => Ok (set_vms (dp_mpc d) (fst (vm_alloc (dp_zk d) n)) d)
  | DMark v s => dp_mark r v s d
  | DAssign s bits => dp_assign s bits d
  | DCommit s => dp_commit s d
  | DCall f args => dp_call f args d
  | DDecode s => dp_decode s d
  end.
Fixpoint dp_run (r : role) (os : list dop) (d : deap) : outcome dp_error deap :=
  match os with
  | [] => Ok d
  | o :: os' => let! d := dp_step r o d in dp_run r os' d
  end.

Section Finalize.
  (** What the MPC machine decodes; whether executions of the two machines succeed; the other party's inputs in the ZK machine. *)
  Context (mpc_get : slice -> option (list bool)) (mpc_runs zk_runs : bool) (wit : nat -> bool).
  (** lib.rs:129-143: the follower's inputs are assigned and committed to in the ZK machine. *)
  Fixpoint open_inputs (r : role) (d : deap) (ss : list slice) (zk : machine) : outcome dp_error machine :=
    match ss with
    | [] => Ok zk
    | s :: ss' =>
        let! z := translate d s in
        let! zk := (match r with
          | Leader => let! value := or_panic (mpc_get s) in vm_assign z value zk
          | Follower => Ok zk
          end) in
        let! zk := vm_commit z zk in
        open_inputs r d ss' zk
    end.
  (** lib.rs:148-166: the follower compares outputs. *)
  Fixpoint check_outputs (zk : machine) (os : list (slice * slice)) : outcome dp_error unit :=
    match os with
    | [] => Ok tt
    | (s, z) :: os' =>
        match mpc_get s with
        | Some x =>
            let! y := or_panic (vm_values wit zk z) in
            if bool_decide (y = x) then check_outputs zk os' else Err EEquality
        | None => check_outputs zk os'
        end
    end.
  (** lib.rs:108-169 [finalize]. *)
  Definition dp_finalize (r : role) (d : deap) : outcome dp_error deap :=
    if negb (forallb (vm_has (dp_mpc d)) (dp_inputs d)) then Err EVm
    else if negb mpc_runs then Err EExecute
    else
      let! zk := open_inputs r d (dp_inputs d) (dp_zk d) in
      if negb zk_runs then Err EExecute
      else
        match r with
        | Leader => Ok (set_vms (dp_mpc d) zk d)
        | Follower =>
            let! _ := check_outputs zk (dp_outputs d) in
            Ok (Deap (dp_mpc d) zk (dp_map d) (dp_ranges d) (dp_inputs d) [])
        end.
End Finalize.
