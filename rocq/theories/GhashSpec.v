(** Vocabulary for the theorems about GHASH (C45): the definitions of NIST SP 800-38D, sections 6.3 and 6.4. Blocks are numbers of 128
    bits, the leftmost bit is the most significant one. *)
From Verif.Lib Require Import Base.
From Verif Require Import CodecModel CodecSpec TagSpec GhashModel.

(** Bit [i] of a block, from the left. *)
Definition block_bit (x : N) (i : nat) : bool := N.testbit x (127 - N.of_nat i).
(** 11100001 followed by 120 zeros. *)
Definition nist_r : N := (225 * 2 ^ 120)%N.
(** V_(i+1) from V_i. *)
Definition nist_shift (v : N) : N := if N.odd v then N.lxor (N.shiftr v 1) nist_r else N.shiftr v 1.
(** Algorithm 1, the steps from [i] on, with [n] steps to go: Z_i and V_i to Z_128. *)
Fixpoint nist_steps (n i : nat) (x z v : N) : N :=
  match n with
  | O => z
  | S n' => nist_steps n' (i + 1) x (if block_bit x i then N.lxor z v else z) (nist_shift v)
  end.
Definition nist_mul (x y : N) : N := nist_steps 128 0 x 0%N y.
(** Algorithm 2: Y_i = (Y_(i-1) + X_i) * H. *)
Definition nist_ghash (h : N) (xs : list N) : N := fold_left (fun y x => nist_mul (N.lxor y x) h) xs 0%N.

(** The bytes of the input, padded with zeros, as blocks. *)
Definition input_blocks (input : list N) (xs : list N) : Prop :=
  exists bs, padded input (concat bs) /\ Forall (fun b => length b = 16) bs /\ xs = map of_be bs.
(** GHASH on bytes: [out] are the 16 bytes of the hash of the input under the key. *)
Definition is_ghash (key input out : list N) : Prop :=
  exists xs, input_blocks input xs /\ is_be 16 (nist_ghash (of_be key) xs) out.

(** ** Shares *)
(** Field elements are numbers of 128 bits. *)
Definition gf_elem (a : N) : Prop := (a < 2 ^ 128)%N.
(** Powers in the field. *)
Fixpoint gf_power (h : N) (n : nat) : N := match n with O => 1%N | S n' => gf_mul (gf_power h n') h end.
(** Two numbers are an additive sharing of a third. *)
Definition shares_of (v a b : N) : Prop := gf_elem a /\ gf_elem b /\ N.lxor a b = v.
(** The converters did their work: the multiplicative shares multiply to the sum of the additive key shares, and the additive shares
    that come back for the odd powers add up to the products. *)
Definition honest_conversion (k1 k2 m1 m2 : N) (add1 add2 : list N) : Prop :=
  gf_elem m1 /\ gf_elem m2 /\ gf_mul m1 m2 = N.lxor k1 k2 /\
  Forall2 (fun p a => shares_of (gf_mul (fst p) (snd p)) (fst a) (snd a)) (zip (odd_powers m1) (odd_powers m2)) (zip add1 add2) /\
  length add1 = length (odd_powers m1) /\ length add2 = length (odd_powers m2).
(** Both parties set their key shares and set up GHASH. *)
Definition set_up (a2m : N -> N) (m2a : list N -> list N) (key_share : list N) : ghash_state * outcome ghash_error unit :=
  let (s, r) := gh_set_key key_share GHInit in
  match r with Ok _ => gh_setup a2m m2a s | _ => (s, r) end.
(** The converters did their work when the parties' key shares are [kl] and [kf]. *)
Definition conversion_done (a2ml : N -> N) (m2al : list N -> list N) (a2mf : N -> N) (m2af : list N -> list N) (kl kf : list N) : Prop :=
  honest_conversion (gf_of_block kl) (gf_of_block kf) (a2ml (gf_of_block kl)) (a2mf (gf_of_block kf))
    (m2al (odd_powers (a2ml (gf_of_block kl)))) (m2af (odd_powers (a2mf (gf_of_block kf)))).

(** ** Tags *)
(** The tag of AES-GCM: the GHASH of the additional data and the ciphertext, masked with the encrypted counter block. *)
Definition is_gcm_tag (hash_key j0 aad ct tag : list N) : Prop :=
  exists input g, gcm_input aad ct input /\ is_ghash hash_key input g /\ tag = zip_with N.lxor g j0.
(** The parties have the same additional data and ciphertexts, and shares of the encrypted counter blocks. *)
Definition shared_data : list (list N) -> list tag_data -> list tag_data -> Prop :=
  Forall3 (fun j0 a b => td_aad a = td_aad b /\ td_ct a = td_ct b /\ bytes_ok (td_aad a) /\ bytes_ok (td_ct a) /\
    length (td_j0 a) = 16 /\ length (td_j0 b) = 16 /\ zip_with N.lxor (td_j0 a) (td_j0 b) = j0).
(** The input of the hash has at most 1026 blocks of 16 bytes. *)
Definition within_limit (d : tag_data) : Prop := exists input, gcm_input (td_aad d) (td_ct d) input /\ length input <= 1026 * 16.
