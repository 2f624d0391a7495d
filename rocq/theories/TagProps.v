(** Theorem C36 about authentication tags. The vocabulary is in TagSpec.v, the model is TagModel.v.
    [aes] is any block function, [ghash_fn] any function of the hash key and the padded input. *)
From Verif.Lib Require Import Base Ranges.
From Verif Require Import TranscriptModel ProofModel CodecModel CodecSpec CodecLemmas AttestModel TlsModel AuthModel TagModel TagSpec TagLemmas.

(** ** C36 *)
(** The tag check of a list of records succeeds exactly if all tags are right. *)
Theorem C36_all_tags_are_checked : forall aes ghash_fn key iv mac_key v rs,
  Forall record_sizes_ok rs ->
  check_record_tags aes ghash_fn key iv mac_key v rs = Ok tt <->
  Forall (tag_right aes ghash_fn key iv mac_key v) rs.
Proof. exact check_record_tags_iff. Qed.
Print Assumptions C36_all_tags_are_checked.

Theorem C36_check_does_not_panic : forall aes ghash_fn key iv mac_key v rs,
  check_record_tags aes ghash_fn key iv mac_key v rs <> Panic.
Proof. exact check_record_tags_no_panic. Qed.
Print Assumptions C36_check_does_not_panic.

(** The input of GHASH determines additional data and ciphertext. *)
Theorem C36_ghash_input_is_unambiguous : forall aad ct aad' ct',
  (N.of_nat (length aad) < 2 ^ 61)%N -> (N.of_nat (length ct) < 2 ^ 61)%N ->
  (N.of_nat (length aad') < 2 ^ 61)%N -> (N.of_nat (length ct') < 2 ^ 61)%N ->
  build_ghash_data aad ct = build_ghash_data aad' ct' -> aad = aad' /\ ct = ct'.
Proof. exact (fun _ _ _ _ H1 H2 H3 H4 E => gcm_input_inj _ _ _ _ _ (ghash_data_gcm _ _ H1 H2)
  (eq_ind_r (gcm_input _ _) (ghash_data_gcm _ _ H3 H4) E)). Qed.
Print Assumptions C36_ghash_input_is_unambiguous.

(** Records that differ in sequence number, type, version or ciphertext have different GHASH inputs. *)
Theorem C36_records_have_distinct_inputs : forall v v' r r' aad aad' input,
  tls_aad (version_number v) r aad -> tls_aad (version_number v') r' aad' ->
  gcm_input aad (r_ct r) input -> gcm_input aad' (r_ct r') input ->
  r_seq r = r_seq r' /\ ct_u8 (r_typ r) = ct_u8 (r_typ r') /\ v = v' /\ r_ct r = r_ct r'.
Proof. exact C36_distinct_lemma. Qed.
Print Assumptions C36_records_have_distinct_inputs.

Definition sum_ghash (k d : list N) : list N := replicate 16 (foldr N.add 0%N (k ++ d) mod 256)%N.
Definition fixed_aes (k b : list N) : list N := take 16 (rev b ++ replicate 16 1%N).
Definition tag_of (r : tls_record) : list N :=
  zip_with N.lxor (ghash sum_ghash [3]%N (make_aad (r_seq r) (r_typ r) TLSv1_2 (length (r_ct r))) (r_ct r))
    (fixed_aes [] ([1;2;3;4]%N ++ r_nonce r ++ be 4 1)).
Definition rec_a : tls_record := TlsRecord 0 Handshake None (replicate 8 1%N) [1;2;3]%N (Some (replicate 16 0%N)).
Definition rec_b : tls_record := TlsRecord 1 ApplicationData None (replicate 8 2%N) (replicate 17 9%N) (Some (replicate 16 0%N)).
Definition with_tag (r : tls_record) : tls_record := TlsRecord (r_seq r) (r_typ r) None (r_nonce r) (r_ct r) (Some (tag_of r)).
Example C36_ex :
  Forall record_sizes_ok [with_tag rec_a; with_tag rec_b] /\
  check_record_tags fixed_aes sum_ghash [] [1;2;3;4]%N [3]%N V1_2 [with_tag rec_a; with_tag rec_b] = Ok tt /\
  check_record_tags fixed_aes sum_ghash [] [1;2;3;4]%N [3]%N V1_2 [with_tag rec_a; rec_b] = Err TInvalidTag.
Proof. split_and!; [|vm_compute; reflexivity..]. repeat constructor. Qed.
