(** Vocabulary for the theorems about secret sharing and decryption (C44). *)
From Verif.Lib Require Import Base.
From Verif Require Import ShareModel.

(** Byte strings of the same length, byte by byte. *)
Notation "a ⊕ b" := (zip_with N.lxor a b) (at level 50, left associativity).

(** The keystreams are as long as the ciphertexts. *)
Definition fitting (rs : list dec_request) (kss : list (list N)) : Prop :=
  Forall2 (fun r ks => length ks = length (dr_ct r)) rs kss.
(** The bytes of pad that the records need. *)
Definition pad_need (rs : list dec_request) : nat :=
  sum_list (map (fun r => if dr_private r then length (dr_ct r) else 0) rs).
(** Other keystreams, except that those of the public records are the same. *)
Definition same_public (rs : list dec_request) (kss kss' : list (list N)) : Prop :=
  Forall2 (fun r x => dr_private r = false -> fst x = snd x) rs (zip kss kss').
