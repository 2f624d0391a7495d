(** Vocabulary for C89. *)
From Verif.Lib Require Import Base.
From Verif Require Import CipherModel.

(** The machine [vm'] has come from [vm] by adding definitions and assigning inputs that had no value. *)
Definition later (vm vm' : cvm) : Prop :=
  (forall r d, vm !! r = Some d -> d <> CIn None -> vm' !! r = Some d) /\
  (forall r, vm !! r = Some (CIn None) -> exists v, vm' !! r = Some (CIn v)).
(** The cipher has this key and this IV, and has not been used with another key. *)
Definition ready (vm : cvm) (c : aes128) (key iv : nat) : Prop :=
  ac_key c = Some key /\ ac_iv c = Some iv /\ (forall ks, ac_ks c = Some ks -> vm !! ks = Some (CKs key)).
(** The inputs of blocks: explicit nonces and counters. *)
Definition inputs (bs : list ctr_block) : list nat := concat (map (fun b => [cb_nonce b; cb_ctr b]) bs).
Definition unassigned (vm : cvm) (bs : list ctr_block) : Prop := NoDup (inputs bs) /\ forall r, r ∈ inputs bs -> vm !! r = Some (CIn None).
(** [n] blocks are just enough for [len] bytes. *)
Definition enough (n len : nat) : Prop := len <= 16 * n < len + 16.
(** The output of a block is computed by the block cipher. *)
Definition cipher_block (vm : cvm) (b : ctr_block) : Prop := exists ks args, vm !! cb_out b = Some (CAes ks args).

Section spec.
Context {K : Type} (aes_ks : list N -> K) (aes_post : K -> list N -> list N).
(** AES-128. *)
Definition AES (key block : list N) : list N := aes_post (aes_ks key) block.
(** Counter mode: [n] blocks with the counters [ctr 0], [ctr 1], ... *)
Definition keystream (key iv nonce : list N) (ctr : nat -> list N) (n : nat) : list N :=
  concat (map (fun j => AES key (iv ++ nonce ++ ctr j)) (seq 0 n)).
End spec.
