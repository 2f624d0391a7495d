(** Model of crates/components/cipher: aes/mod.rs [Aes128] and lib.rs [Keystream]. The virtual machine is a list of definitions, a reference is
    an index into it; what both parties compute is [value] below. Marking and committing are not modelled, nor errors of the machine other
    than assigning twice. *)
From Verif.Lib Require Import Base.

(** An input, with its value once assigned; the key schedule of a key; AES after the key schedule, on the concatenation of the arguments; the
    xor of a block with 16 bytes of an input; the concatenation of blocks. *)
Inductive cdef :=
| CIn (v : option (list N))
| CKs (key : nat)
| CAes (ks : nat) (args : list nat)
| CXor (block inp pos : nat)
| CFlat (blocks : list nat).
Notation cvm := (list cdef) (only parsing).
Definition vm_add (vm : cvm) (d : cdef) : cvm * nat := (vm ++ [d], length vm).
(** [vm.assign]: only inputs, only once. *)
Definition vm_assign (vm : cvm) (r : nat) (v : list N) : option cvm :=
  match vm !! r with Some (CIn None) => Some (<[r := CIn (Some v)]> vm) | _ => None end.

(** aes/mod.rs:20-24. *)
Record aes128 := Aes128 { ac_key : option nat; ac_ks : option nat; ac_iv : option nat }.
Definition aes_new : aes128 := Aes128 None None None.
(** aes/mod.rs:53-59 *)
Definition set_key (c : aes128) (k : nat) : aes128 := Aes128 (Some k) (ac_ks c) (ac_iv c).
Definition set_iv (c : aes128) (i : nat) : aes128 := Aes128 (ac_key c) (ac_ks c) (Some i).

Inductive cerr := CKeyNotSet | CIvNotSet | CInsufficient | CLength | CNoMaterial | CVm.
Record ctr_block := CtrBlock { cb_nonce : nat; cb_ctr : nat; cb_out : nat }.

(** aes/mod.rs:77-79, 117-119, 175-177: the key schedule is made when it is first needed. *)
Definition need_ks (vm : cvm) (c : aes128) (key : nat) : cvm * aes128 * nat :=
  match ac_ks c with
  | Some ks => (vm, c, ks)
  | None => let (vm', ks) := vm_add vm (CKs key) in (vm', Aes128 (ac_key c) (Some ks) (ac_iv c), ks)
  end.
(** aes/mod.rs:69-93 *)
Definition alloc_block (vm : cvm) (c : aes128) (input : nat) : outcome cerr (cvm * aes128 * nat) :=
  match ac_key c with
  | None => Err CKeyNotSet
  | Some key =>
      let '(vm1, c1, ks) := need_ks vm c key in
      let (vm2, out) := vm_add vm1 (CAes ks [input]) in Ok (vm2, c1, out)
  end.
(** aes/mod.rs:95-139 *)
Definition alloc_ctr_block (vm : cvm) (c : aes128) : outcome cerr (cvm * aes128 * ctr_block) :=
  match ac_key c, ac_iv c with
  | None, _ => Err CKeyNotSet
  | _, None => Err CIvNotSet
  | Some key, Some iv =>
      let (vm1, nonce) := vm_add vm (CIn None) in
      let (vm2, ctr) := vm_add vm1 (CIn None) in
      let '(vm3, c3, ks) := need_ks vm2 c key in
      let (vm4, out) := vm_add vm3 (CAes ks [iv; nonce; ctr]) in
      Ok (vm4, c3, CtrBlock nonce ctr out)
  end.
(** aes/mod.rs:154-170, for each block *)
Fixpoint alloc_inputs (vm : cvm) (n : nat) : cvm * list (nat * nat) :=
  match n with
  | O => (vm, [])
  | S n' =>
      let (vm1, nonce) := vm_add vm (CIn None) in
      let (vm2, ctr) := vm_add vm1 (CIn None) in
      let (vm3, l) := alloc_inputs vm2 n' in (vm3, (nonce, ctr) :: l)
  end.
(** aes/mod.rs:172-198, for each block *)
Fixpoint alloc_outputs (vm : cvm) (c : aes128) (key iv : nat) (l : list (nat * nat)) : cvm * aes128 * list ctr_block :=
  match l with
  | [] => (vm, c, [])
  | (nonce, ctr) :: l' =>
      let '(vm1, c1, ks) := need_ks vm c key in
      let (vm2, out) := vm_add vm1 (CAes ks [iv; nonce; ctr]) in
      let '(vm3, c3, bs) := alloc_outputs vm2 c1 key iv l' in (vm3, c3, CtrBlock nonce ctr out :: bs)
  end.
(** [usize::div_ceil] *)
Definition div_ceil (a b : nat) : nat := a / b + (if a mod b =? 0 then 0 else 1).
(** aes/mod.rs:141-201 *)
Definition alloc_keystream (vm : cvm) (c : aes128) (len : nat) : outcome cerr (cvm * aes128 * list ctr_block) :=
  match ac_key c, ac_iv c with
  | None, _ => Err CKeyNotSet
  | _, None => Err CIvNotSet
  | Some key, Some iv =>
      let (vm1, inputs) := alloc_inputs vm (div_ceil len 16) in
      Ok (alloc_outputs vm1 c key iv inputs)
  end.

(** lib.rs:133-144 [consume]: what stays and what is taken. *)
Definition ks_consume (blocks : list ctr_block) (len : nat) : outcome cerr (list ctr_block * list ctr_block) :=
  let n := div_ceil len 16 in
  if length blocks <? n then Err CInsufficient
  else Ok (take (length blocks - n) blocks, drop (length blocks - n) blocks).
(** lib.rs:216-236 [assign]; the [i]-th call of [ctr] gives [ctr i]. *)
Fixpoint ks_assign (vm : cvm) (blocks : list ctr_block) (nonce : list N) (ctr : nat -> list N) (i : nat) : outcome cerr cvm :=
  match blocks with
  | [] => Ok vm
  | b :: bs =>
      match vm_assign vm (cb_nonce b) nonce with
      | None => Err CVm
      | Some vm1 =>
          match vm_assign vm1 (cb_ctr b) (ctr i) with
          | None => Err CVm
          | Some vm2 => ks_assign vm2 bs nonce ctr (S i)
          end
      end
  end.
(** lib.rs:166-179 [apply], the loop *)
Fixpoint xor_blocks (vm : cvm) (blocks : list ctr_block) (inp pos : nat) : cvm * list nat :=
  match blocks with
  | [] => (vm, [])
  | b :: bs =>
      let (vm1, o) := vm_add vm (CXor (cb_out b) inp pos) in
      let (vm2, os) := xor_blocks vm1 bs inp (pos + 16) in (vm2, o :: os)
  end.
(** lib.rs:151-184 [apply] to an input of [len] bytes. *)
Definition ks_apply (vm : cvm) (blocks : list ctr_block) (inp len : nat) : outcome cerr (cvm * nat) :=
  if negb (len =? 16 * length blocks) then Err CLength
  else match blocks with
  | [] => Err CNoMaterial
  | _ => let (vm1, os) := xor_blocks vm blocks inp 0 in Ok (vm_add vm1 (CFlat os))
  end.
(** lib.rs:185-208 [to_vector]: a reference of which [len] bytes are used. *)
Definition ks_to_vector (vm : cvm) (blocks : list ctr_block) (len : nat) : outcome cerr (cvm * (nat * nat)) :=
  if len =? 0 then Err CLength
  else match blocks with
  | [] => Err CNoMaterial
  | _ => if negb (div_ceil len 16 =? length blocks) then Err CLength
         else let (vm1, r) := vm_add vm (CFlat (map cb_out blocks)) in Ok (vm1, (r, len))
  end.

(** What the machine computes, with the circuits [AES128_KS] and [AES128_POST_KS] as functions. *)
Section value.
Context {K : Type} (aes_ks : list N -> K) (aes_post : K -> list N -> list N).
Definition in_value (vm : cvm) (r : nat) : option (list N) := match vm !! r with Some (CIn v) => v | _ => None end.
Definition ks_value (vm : cvm) (r : nat) : option K := match vm !! r with Some (CKs k) => aes_ks <$> in_value vm k | _ => None end.
Fixpoint collect {A} (l : list (option (list A))) : option (list A) :=
  match l with
  | [] => Some []
  | Some a :: l' => match collect l' with Some r => Some (a ++ r) | None => None end
  | None :: _ => None
  end.
Definition aes_value (vm : cvm) (r : nat) : option (list N) :=
  match vm !! r with
  | Some (CAes ks args) =>
      match ks_value vm ks, collect (map (in_value vm) args) with Some k, Some a => Some (aes_post k a) | _, _ => None end
  | _ => None
  end.
Definition xor_value (vm : cvm) (r : nat) : option (list N) :=
  match vm !! r with
  | Some (CXor b inp pos) =>
      match aes_value vm b, in_value vm inp with Some x, Some m => Some (zip_with N.lxor x (take 16 (drop pos m))) | _, _ => None end
  | _ => aes_value vm r
  end.
Definition value (vm : cvm) (r : nat) : option (list N) :=
  match vm !! r with
  | Some (CFlat bs) => collect (map (xor_value vm) bs)
  | _ => xor_value vm r
  end.
End value.
