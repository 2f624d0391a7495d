(** Model of crates/tlsn/src/tag.rs, crates/tlsn/src/ghash.rs and of make_tls12_aad in
    crates/tls-core/src/cipher.rs: the verification of the authentication tags of records. The GHASH
    function itself is in an external crate; it is a parameter, applied to the padded data. *)
From Verif.Lib Require Import Base Ranges.
From Verif Require Import TranscriptModel ProofModel CodecModel AttestModel TlsModel AuthModel.

(** tls-core cipher.rs:3-10 [make_tls12_aad]: the length is truncated to 16 bits. *)
Definition make_aad (seq : N) (typ : content_type) (vers : protocol_version) (len : nat) : list N :=
  be 8 seq ++ [ct_u8 typ] ++ be 2 (pv_u16 vers) ++ be 2 (N.of_nat len mod 2 ^ 16).

(** [Vec::resize(n, 0)]. *)
Definition resize_zero (l : list N) (n : nat) : list N := take n l ++ replicate (n - length l) 0%N.
(** ghash.rs:26-33: the number of blocks, and padding to it. *)
Definition block_count (n : nat) : nat := n / 16 + (if n mod 16 =? 0 then 0 else 1).
Definition pad_blocks (l : list N) : list N := resize_zero l (block_count (length l) * 16).
(** ghash.rs:19-39 [build_ghash_data]: bit lengths are u64, the last block is a u128. *)
Definition build_ghash_data (aad ct : list N) : list N :=
  let aad_bits := ((N.of_nat (length aad) * 8) mod 2 ^ 64)%N in
  let ct_bits := ((N.of_nat (length ct) * 8) mod 2 ^ 64)%N in
  let len_block := ((aad_bits * 2 ^ 64) mod 2 ^ 128 + ct_bits)%N in
  pad_blocks aad ++ pad_blocks ct ++ be 16 len_block.

(** tag.rs:150-164 [ErrorRepr], without the values that never become available. *)
Inductive tag_error := TInvalidTag | TUnknownTag | TNonceLength.

Section Tag.
  Context (aes : list N -> list N -> list N).
  Context (ghash_fn : list N -> list N -> list N).
  Context (key iv mac_key : list N).

  (** tag.rs:36-63: the counter block of each record, with counter 1. The machine evaluates at once. *)
  Fixpoint j0_blocks (rs : list tls_record) : outcome tag_error (list (list N)) :=
    match rs with
    | [] => Ok []
    | r :: rs' =>
        if negb (length (r_nonce r) =? 8) then Err TNonceLength
        else
          let! t := j0_blocks rs' in
          Ok (aes key (iv ++ r_nonce r ++ be 4 1) :: t)
    end.
  (** tag.rs:75-83 [TagProof]. *)
  Record tag_proof := TagProof { tg_version : tls_version; tg_j0s : list (list N); tg_records : list tls_record }.
  (** tag.rs:25-74 [verify_tags]. *)
  Definition verify_tags (v : tls_version) (rs : list tls_record) : outcome tag_error tag_proof :=
    let! j0s := j0_blocks rs in Ok (TagProof v j0s rs).

  (** ghash.rs:11-16 [ghash]. *)
  Definition ghash (aad ct : list N) : list N := ghash_fn mac_key (build_ghash_data aad ct).

  (** tag.rs:87-139 [TagProof::verify]. *)
  Definition version_of (v : tls_version) : protocol_version := match v with V1_2 => TLSv1_2 | V1_3 => TLSv1_3 end.
  Fixpoint check_tags (vers : protocol_version) (prs : list (list N * tls_record)) : outcome tag_error unit :=
    match prs with
    | [] => Ok tt
    | (j0, r) :: prs' =>
        let aad := make_aad (r_seq r) (r_typ r) vers (length (r_ct r)) in
        match r_tag r with
        | None => Err TUnknownTag
        | Some t =>
            if bool_decide (t = zip_with N.lxor (ghash aad (r_ct r)) j0) then check_tags vers prs' else Err TInvalidTag
        end
    end.
  Definition tag_proof_verify (p : tag_proof) : outcome tag_error unit :=
    check_tags (version_of (tg_version p)) (zip (tg_j0s p) (tg_records p)).
  (** verifier.rs:252-283 and 344-370: both steps. *)
  Definition check_record_tags (v : tls_version) (rs : list tls_record) : outcome tag_error unit :=
    let! p := verify_tags v rs in tag_proof_verify p.
End Tag.
