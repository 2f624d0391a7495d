(** Model of crates/tlsn/src/proxy.rs: the check of the Finished messages ([VerifyDataCheck]) in the virtual machine of
    PrfModel.v. A value that an execution has computed can be seen by [vm.get]. *)
From Verif.Lib Require Import Base.
From Verif Require Import CodecModel PrfModel.

Inductive vd_error := VdState | VdLength | VdVm | VdMissing | VdFailed.

Section VdCheck.
  (** AES-128 on a key and a block. *)
  Context (aes : list N -> list N -> list N).

  (** components/cipher: the block of keystream for a key, an IV, an explicit nonce and a counter. *)
  Definition circ_block_cipher (args : list (list N)) : list N :=
    match args with [key; iv; nonce; ctr] => aes key (iv ++ nonce ++ ctr) | _ => [] end.
  (** components/cipher [Keystream::apply]. *)
  Definition circ_apply (args : list (list N)) : list N :=
    match args with [keystream; text] => zip_with N.lxor keystream text | _ => [] end.

  (** proxy.rs:172-192. The fields of [VdAlloc] are the cells of the explicit nonce and the counter, of the ciphertext, of the
      expected verify data and of the decrypted record. *)
  Inductive vd_state :=
  | VdInit
  | VdAlloc (nonce ctr ct expected actual : nat)
  | VdAssigned (expected actual : nat).

  (** proxy.rs:197-235 [alloc]; [key] and [iv] are the cells of the cipher, which have to be allocated. *)
  Definition vd_alloc (m : vm) (s : vd_state) (key iv expected : nat) : vm * vd_state * outcome vd_error unit :=
    match s with
    | VdInit =>
        let '(m, ct) := vm_add m (Given None) in
        if negb ((key <? ct) && (iv <? ct)) then (m, s, Err VdVm)
        else
          let '(m, nonce) := vm_add m (Given None) in
          let '(m, ctr) := vm_add m (Given None) in
          let '(m, keystream) := vm_add m (Computed circ_block_cipher [key; iv; nonce; ctr]) in
          let '(m, actual) := vm_add m (Computed circ_apply [keystream; ct]) in
          (m, VdAlloc nonce ctr ct expected actual, Ok tt)
    | _ => (m, s, Err VdState)
    end.

  (** proxy.rs:22. *)
  Definition start_counter : list N := be 4 2.
  (** proxy.rs:237-281 [assign]. An error of the machine leaves what was assigned before. *)
  Definition vd_assign (m : vm) (s : vd_state) (explicit_nonce ciphertext : list N) : vm * vd_state * outcome vd_error unit :=
    match s with
    | VdAlloc nonce ctr ct expected actual =>
        if negb (length explicit_nonce =? 8) then (m, s, Err VdLength)
        else if negb (length ciphertext =? 16) then (m, s, Err VdLength)
        else
          match vm_assign m nonce explicit_nonce with
          | Ok m1 =>
              match vm_assign m1 ctr start_counter with
              | Ok m2 =>
                  match vm_assign m2 ct ciphertext with
                  | Ok m3 =>
                      (* split off the handshake header *)
                      let '(m4, vd) := vm_add m3 (Computed (circ_slice 4 12) [actual]) in
                      (m4, VdAssigned expected vd, Ok tt)
                  | _ => (m2, s, Err VdVm)
                  end
              | _ => (m1, s, Err VdVm)
              end
          | _ => (m, s, Err VdVm)
          end
    | _ => (m, s, Err VdState)
    end.

  (** proxy.rs:283-309 [check]. *)
  Definition vd_check (m : vm) (s : vd_state) : outcome vd_error unit :=
    match s with
    | VdAssigned expected actual =>
        match vm_decoded m expected with
        | None => Err VdMissing
        | Some e =>
            match vm_decoded m actual with
            | None => Err VdMissing
            | Some a => if decide (e = a) then Ok tt else Err VdFailed
            end
        end
    | _ => Err VdState
    end.

  (** ** Use *)
  (** The machine is used by others as well: they may add cells, assign inputs and execute. *)
  Inductive vd_side := ClientFin | ServerFin.
  Inductive vd_call :=
  | VcAlloc (d : vd_side) (key iv expected : nat)
  | VcAssign (d : vd_side) (nonce ct : list N)
  | VcOtherAdd (c : cell)
  | VcOtherAssign (i : nat) (v : list N)
  | VcExecute.
  Record vd_both := VdBoth { vb_vm : vm; vb_cf : vd_state; vb_sf : vd_state }.
  Definition vb_get (b : vd_both) (d : vd_side) : vd_state := match d with ClientFin => vb_cf b | ServerFin => vb_sf b end.
  Definition vb_set (b : vd_both) (d : vd_side) (m : vm) (s : vd_state) : vd_both :=
    match d with ClientFin => VdBoth m s (vb_sf b) | ServerFin => VdBoth m (vb_cf b) s end.
  Definition vd_step (b : vd_both) (c : vd_call) : vd_both * outcome vd_error unit :=
    match c with
    | VcAlloc d key iv expected => let '(m, s, o) := vd_alloc (vb_vm b) (vb_get b d) key iv expected in (vb_set b d m s, o)
    | VcAssign d nonce ct => let '(m, s, o) := vd_assign (vb_vm b) (vb_get b d) nonce ct in (vb_set b d m s, o)
    | VcOtherAdd c => (VdBoth (vm_add (vb_vm b) c).1 (vb_cf b) (vb_sf b), Ok tt)
    | VcOtherAssign i v =>
        match vm_assign (vb_vm b) i v with
        | Ok m => (VdBoth m (vb_cf b) (vb_sf b), Ok tt)
        | _ => (b, Err VdVm)
        end
    | VcExecute => (VdBoth (vm_execute (vb_vm b)) (vb_cf b) (vb_sf b), Ok tt)
    end.
  (** Calls may fail and the caller may go on. *)
  Fixpoint vd_run (b : vd_both) (cs : list vd_call) : vd_both * list (outcome vd_error unit) :=
    match cs with
    | [] => (b, [])
    | c :: cs' => let '(b, o) := vd_step b c in let '(b, os) := vd_run b cs' in (b, o :: os)
    end.
  Definition vd_new : vd_both := VdBoth vm_new VdInit VdInit.
  (** verifier.rs:393-394: both checks have to pass. *)
  Definition vd_verify (b : vd_both) : outcome vd_error unit :=
    let! _ := vd_check (vb_vm b) (vb_cf b) in vd_check (vb_vm b) (vb_sf b).
End VdCheck.

(** ** proxy.rs:126-169 [InspectReader] *)
(** What a read of the inner reader may give: bytes (none at the end of the stream) or an error. Reads that are not ready
    do nothing. [now] is the system's time. *)
Inductive read_result := ReadBytes (bs : list N) (now : N) | ReadError.
Record inspect := Inspect { in_buf : list N; in_first : option N }.
Definition inspect_new : inspect := Inspect [] None.
(** The result is what is handed on. *)
Definition inspect_read (r : inspect) (x : read_result) : inspect * option (list N) :=
  match x with
  | ReadBytes bs now =>
      let first := match in_first r with None => if 0 <? length bs then Some now else None | Some t => Some t end in
      (Inspect (in_buf r ++ bs) first, Some bs)
  | ReadError => (r, None)
  end.
(** [futures::io::copy]: reads until the end of the stream or an error; the result is what was forwarded, and [false] if an
    error or more reads are to come. *)
Fixpoint inspect_copy (r : inspect) (xs : list read_result) : inspect * list N * bool :=
  match xs with
  | [] => (r, [], false)
  | x :: xs' =>
      match inspect_read r x with
      | (r, None) => (r, [], false)
      | (r, Some []) => (r, [], true)
      | (r, Some bs) => let '(r, fwd, fin) := inspect_copy r xs' in (r, bs ++ fwd, fin)
      end
  end.
(** verifier.rs:318-356: what the verifier goes on with after the traffic: what it saw in both directions and the time. [None]
    means that it does not get there. *)
Definition proxy_traffic (prover server : list read_result) : option (panicky (list N * list N * N)) :=
  let '(p, _, pfin) := inspect_copy inspect_new prover in
  let '(s, _, sfin) := inspect_copy inspect_new server in
  if pfin && sfin then Some (let! t := or_panic (in_first p) in Ok (in_buf p, in_buf s, t)) else None.
