(** Model of crates/mpc-tls/src/decode.rs and of the decryption of records in crates/mpc-tls/src/record_layer/decrypt.rs,
    as run by both parties. The virtual machine is ideal: it holds one value for both parties, and an operation
    happens if the two parties ask for its two halves. *)
From Verif.Lib Require Import Base.
From Verif Require Import RecordModel.

Inductive share_error := SHPadExceeded | SHNotReady | SHKeystreamLength | SHVm.

(** ** decode.rs *)
(** The masking operations of the VM: one party gives the mask, the other takes part without knowing it. *)
Inductive mask := MaskPrivate (otp : list N) | MaskBlind.
(** decode.rs:33-56 [OneTimePadShared::new]: what each party asks the VM to do, before the result is opened to both. *)
Definition otp_masks (r : role) (otp : list N) : list mask :=
  match r with
  | Leader => [MaskPrivate otp; MaskBlind]
  | Follower => [MaskBlind; MaskPrivate otp]
  end.
(** The ideal VM. *)
Fixpoint vm_masks (v : list N) (l f : list mask) : outcome share_error (list N) :=
  match l, f with
  | [], [] => Ok v
  | MaskPrivate o :: l', MaskBlind :: f' => vm_masks (zip_with N.lxor v o) l' f'
  | MaskBlind :: l', MaskPrivate o :: f' => vm_masks (zip_with N.lxor v o) l' f'
  | _, _ => Err SHVm
  end.
(** decode.rs:59-72 [poll]. *)
Definition otp_share (r : role) (otp opened : list N) : list N :=
  match r with Leader => otp | Follower => zip_with N.lxor opened otp end.
(** Both parties: what is opened to them, and their shares. *)
Definition otp_both (v otp_l otp_f : list N) : outcome share_error (list N * list N * list N) :=
  let! opened := vm_masks v (otp_masks Leader otp_l) (otp_masks Follower otp_f) in
  Ok (opened, otp_share Leader otp_l opened, otp_share Follower otp_f opened).

(** ** decrypt.rs *)
(** What a party is asked to decrypt. *)
Record dec_request := DecRequest { dr_private : bool; dr_ct : list N }.
Inductive pending := PendPrivate (otp : option (list N)) (ct : list N) | PendPublic (ct : list N).

(** decrypt.rs:15-51 [private_mpc]: the leader takes the end of its pad. *)
Definition private_mpc (otp : option (list N)) (ct : list N) : outcome share_error (pending * option (list N)) :=
  match otp with
  | None => Ok (PendPrivate None ct, None)
  | Some o =>
      if length o <? length ct then Err SHPadExceeded
      else Ok (PendPrivate (Some (drop (length o - length ct) o)) ct, Some (take (length o - length ct) o))
  end.
(** decrypt.rs:71-94 [decrypt_mpc]. *)
Fixpoint decrypt_mpc (otp : option (list N)) (rs : list dec_request) : outcome share_error (list pending * option (list N)) :=
  match rs with
  | [] => Ok ([], otp)
  | r :: rs' =>
      let! (p, otp) := (if dr_private r then private_mpc otp (dr_ct r) else Ok (PendPublic (dr_ct r), otp)) in
      let! (ps, otp) := decrypt_mpc otp rs' in
      Ok (p :: ps, otp)
  end.
(** What the ideal VM opens to both parties: the keystream masked by the pad piece that the leader assigns and the follower does not
    know, or the keystream itself. *)
Fixpoint vm_open (l f : list pending) (kss : list (list N)) : outcome share_error (list (list N)) :=
  match l, f, kss with
  | [], [], [] => Ok []
  | PendPrivate (Some o) _ :: l', PendPrivate None _ :: f', ks :: kss' =>
      let! os := vm_open l' f' kss' in Ok (zip_with N.lxor ks o :: os)
  | PendPublic _ :: l', PendPublic _ :: f', ks :: kss' => let! os := vm_open l' f' kss' in Ok (ks :: os)
  | _, _, _ => Err SHVm
  end.
(** [for ((a, b), c) in plaintext.zip(otp).zip(masked) { a ^= b ^ c }]: what is not paired stays as it is. *)
Definition xor_onto (l m : list N) : list N := zip_with N.lxor l m ++ drop (length m) l.
(** decrypt.rs:235-257 and 266-287 [try_decrypt]. *)
Definition try_decrypt (p : pending) (opened : list N) : outcome share_error (option (list N)) :=
  match p with
  | PendPrivate None _ => Ok None
  | PendPrivate (Some o) ct => Ok (Some (xor_onto ct (zip_with N.lxor o opened)))
  | PendPublic ct =>
      if negb (length opened =? length ct) then Err SHKeystreamLength else Ok (Some (xor_onto ct opened))
  end.
Fixpoint try_all (ps : list pending) (os : list (list N)) : outcome share_error (list (option (list N))) :=
  match ps, os with
  | p :: ps', o :: os' => let! x := try_decrypt p o in let! xs := try_all ps' os' in Ok (x :: xs)
  | [], _ => Ok []
  | _, [] => Err SHNotReady
  end.

Record both_result := BothResult {
  br_leader : list (option (list N));
  br_follower : list (option (list N));
  br_opened : list (list N);  (** what the VM opened to both *)
  br_pad : option (list N)    (** the rest of the leader's pad *)
}.
(** Both parties decrypt the same records; [kss] are the keystreams inside of the VM. *)
Definition decrypt_both (pad : list N) (rs : list dec_request) (kss : list (list N)) : outcome share_error both_result :=
  let! (l, pad) := decrypt_mpc (Some pad) rs in
  let! (f, _) := decrypt_mpc None rs in
  let! opened := vm_open l f kss in
  let! outl := try_all l opened in
  let! outf := try_all f opened in
  Ok (BothResult outl outf opened pad).
