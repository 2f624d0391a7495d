(** Vocabulary for the theorems about tags (C36). *)
From Verif.Lib Require Import Base Ranges.
From Verif Require Import TranscriptModel ProofModel CodecModel CodecSpec AttestModel TlsModel.

(** [l] padded with zeros to a multiple of 16 bytes. *)
Definition padded (l p : list N) : Prop :=
  exists n k, p = l ++ replicate n 0%N /\ n < 16 /\ length p = 16 * k.
(** The input of GHASH in AES-GCM (NIST SP 800-38D): additional data and ciphertext, each padded, and
    their lengths in bits as 64 bit numbers. *)
Definition gcm_input (aad ct input : list N) : Prop :=
  exists pa pc la lc, input = pa ++ pc ++ la ++ lc /\ padded aad pa /\ padded ct pc /\
    is_be 8 (8 * N.of_nat (length aad)) la /\ is_be 8 (8 * N.of_nat (length ct)) lc.
(** The additional data of a TLS 1.2 record (RFC 5246): sequence number, type, version and length. *)
Definition tls_aad (vers : N) (r : tls_record) (aad : list N) : Prop :=
  exists s v l, aad = s ++ [ct_u8 (r_typ r)] ++ v ++ l /\
    is_be 8 (r_seq r) s /\ is_be 2 vers v /\ is_be 2 (N.of_nat (length (r_ct r)) mod 2 ^ 16) l.
Definition version_number (v : tls_version) : N := match v with V1_2 => 0x0303 | V1_3 => 0x0304 end.

(** The tag of a record is right: the GHASH of its additional data and ciphertext, masked with the
    block of its own nonce and counter 1. *)
Definition tag_right (aes ghash_fn : list N -> list N -> list N) (key iv mac_key : list N) (v : tls_version)
    (r : tls_record) : Prop :=
  length (r_nonce r) = 8 /\
  exists aad input, tls_aad (version_number v) r aad /\ gcm_input aad (r_ct r) input /\
    r_tag r = Some (zip_with N.lxor (ghash_fn mac_key input) (aes key (iv ++ r_nonce r ++ [0;0;0;1]%N))).
(** Sequence numbers are u64, and a ciphertext fits into memory. *)
Definition record_sizes_ok (r : tls_record) : Prop :=
  (r_seq r < 2 ^ 64)%N /\ (N.of_nat (length (r_ct r)) < 2 ^ 61)%N.
