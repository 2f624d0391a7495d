(** Theorems C87 and C88 about the names of trusted roots and the client's signing keys. The vocabulary is in KeySpec.v, the model is
    KeyModel.v. Lengths are below 2^64 because they are of type [usize]; a vector has fewer than 2^63 bytes. *)
From Verif.Lib Require Import Base.
From Verif Require Import KeyModel KeySpec KeyLemmas.
Local Open Scope N_scope.

(** ** C87 *)
(** Wrapping never fails and gives the DER encoding of a SEQUENCE with these contents, whatever their length. *)
Theorem C87_sequences_are_der : forall l, N.of_nat (length l) < 2 ^ 64 -> exists w, wrap_in_sequence l = Ok w /\ der_value 0x30 l w.
Proof. exact C87_value_lemma. Qed.
Print Assumptions C87_sequences_are_der.
(** From what follows after it, the encoding and so the contents can be told in one way only. *)
Theorem C87_sequences_are_read_back : forall l l' w w' r r', N.of_nat (length l) < 2 ^ 64 -> N.of_nat (length l') < 2 ^ 64 ->
  wrap_in_sequence l = Ok w -> wrap_in_sequence l' = Ok w' -> w ++ r = w' ++ r' -> l = l' /\ r = r'.
Proof. exact C87_back_lemma. Qed.
Print Assumptions C87_sequences_are_read_back.
(** The names of the roots are the encodings of their subjects, in order; *)
Theorem C87_subjects_are_named : forall roots, Forall (fun s => N.of_nat (length s) < 2 ^ 64) roots ->
  exists names, subjects roots = Ok names /\ Forall2 (der_value 0x30) roots names.
Proof. exact C87_subjects_lemma. Qed.
Print Assumptions C87_subjects_are_named.
(** different subjects have different names. *)
Theorem C87_subjects_differ : forall roots roots' names, Forall (fun s => N.of_nat (length s) < 2 ^ 64) roots ->
  Forall (fun s => N.of_nat (length s) < 2 ^ 64) roots' -> subjects roots = Ok names -> subjects roots' = Ok names -> roots = roots'.
Proof. exact C87_distinct_lemma. Qed.
Print Assumptions C87_subjects_differ.
(** Contents of 3, 127, 128 and 1000 bytes. *)
Example C87_ex : subjects [[1;2;3]; replicate 127 9; replicate 128 9; replicate 1000 9] =
  Ok [[48;3;1;2;3]; 48 :: 127 :: replicate 127 9; 48 :: 129 :: 128 :: replicate 128 9; 48 :: 130 :: 3 :: 232 :: replicate 1000 9].
Proof. vm_compute. reflexivity. Qed.

(** ** C88 *)
(** A private key is what the first of these parsers makes of it: as an RSA key (PKCS #1, then PKCS #8), as an ECDSA key on P-256 and then on
    P-384 (PKCS #8, then SEC 1, which is read as part of the PKCS #8 document for that curve), as an Ed25519 key. Loading never panics. *)
Theorem C88_keys_are_loaded : forall (RK EK DK : Type) (rsa_from_der rsa_from_pkcs8 : list N -> option RK)
    (ec_from_pkcs8 : ec_alg -> list N -> option EK) (ed_from_pkcs8 : list N -> option DK) der,
  N.of_nat (length der) < 2 ^ 63 ->
  exists d256 d384, pkcs8_of EcP256Sha256 der d256 /\ pkcs8_of EcP384Sha384 der d384 /\
    any_supported_type rsa_from_der rsa_from_pkcs8 ec_from_pkcs8 ed_from_pkcs8 der = Ok (first_some
      [RsaKey <$> rsa_from_der der; RsaKey <$> rsa_from_pkcs8 der;
       EcKey 0x0403 EcP256Sha256 <$> ec_from_pkcs8 EcP256Sha256 der; EcKey 0x0403 EcP256Sha256 <$> ec_from_pkcs8 EcP256Sha256 d256;
       EcKey 0x0503 EcP384Sha384 <$> ec_from_pkcs8 EcP384Sha384 der; EcKey 0x0503 EcP384Sha384 <$> ec_from_pkcs8 EcP384Sha384 d384;
       EdKey 0x0807 <$> ed_from_pkcs8 der]).
Proof. exact @C88_load_lemma. Qed.
Print Assumptions C88_keys_are_loaded.
(** Choosing a scheme with a loaded key never panics. The scheme is one that was offered and that the key can do, what is signed is signed by
    the algorithm that the scheme means, and no scheme that was offered would be preferred; nothing is chosen only if nothing usable was
    offered. *)
Theorem C88_schemes_are_right : forall (RK EK DK : Type) (rsa_from_der rsa_from_pkcs8 : list N -> option RK)
    (ec_from_pkcs8 : ec_alg -> list N -> option EK) (ed_from_pkcs8 : list N -> option DK) der k offered,
  any_supported_type rsa_from_der rsa_from_pkcs8 ec_from_pkcs8 ed_from_pkcs8 der = Ok (Some k) ->
  exists r, choose_scheme k offered = Ok r /\
  match r with
  | Some sg => sg_scheme sg ∈ offered /\ exists a, scheme_means (sg_scheme sg) a /\ key_does k a /\ signs_by k a (sg_ring sg) /\
      forall s' a', s' ∈ offered -> scheme_means s' a' -> key_does k a' -> not_preferred a' a
  | None => forall s a, s ∈ offered -> scheme_means s a -> ~ key_does k a
  end.
Proof. exact @C88_choose_lemma. Qed.
Print Assumptions C88_schemes_are_right.
(** A client that is asked for a certificate answers with the configured chain and a signature by the configured key if the server offered a
    scheme for that key, whatever issuers it accepts; else with no certificate and no signature. *)
Theorem C88_client_authentication : forall (RK EK DK : Type) (rsa_from_der rsa_from_pkcs8 : list N -> option RK)
    (ec_from_pkcs8 : ec_alg -> list N -> option EK) (ed_from_pkcs8 : list N -> option DK) auth issuers schemes cfg,
  client_auth_config rsa_from_der rsa_from_pkcs8 ec_from_pkcs8 ed_from_pkcs8 auth = Ok cfg ->
  exists a, resolve cfg issuers schemes = Ok a /\
  match auth with
  | None => auth_messages a = ([], None)
  | Some (chain, der) => exists k, any_supported_type rsa_from_der rsa_from_pkcs8 ec_from_pkcs8 ed_from_pkcs8 der = Ok (Some k) /\
      ((exists sg al, sg_scheme sg ∈ schemes /\ scheme_means (sg_scheme sg) al /\ key_does k al /\ signs_by k al (sg_ring sg) /\
          auth_messages a = (chain, Some sg)) \/
       ((forall s al, s ∈ schemes -> scheme_means s al -> ~ key_does k al) /\ auth_messages a = ([], None)))
  end.
Proof. exact @C88_auth_lemma. Qed.
Print Assumptions C88_client_authentication.
(** A CertificateVerify message is not always preceded by a certificate (RFC 5246, 7.4.8): the configured chain may be empty. *)
Theorem C88_signed_only_with_certificate_refuted :
  ~ (forall (RK EK DK : Type) (f1 f2 : list N -> option RK) (f3 : ec_alg -> list N -> option EK) (f4 : list N -> option DK)
    auth issuers schemes cfg a certs sg,
  client_auth_config f1 f2 f3 f4 auth = Ok cfg -> resolve cfg issuers schemes = Ok a -> auth_messages a = (certs, Some sg) -> certs <> []).
Proof. exact C88_chain_lemma. Qed.
Print Assumptions C88_signed_only_with_certificate_refuted.
(** A SEC 1 key that ring reads only as part of a PKCS #8 document, a server that offers RSA and ECDSA; and the choices of an RSA key. *)
Example C88_ex :
  let cfg := client_auth_config (RK:=N) (DK:=N) (fun _ => None) (fun _ => None) k_ec (fun _ => None) (Some ([[1;2]], k_sec1)) in
  cfg = Ok (Some ([[1;2]], EcKey 0x0403 EcP256Sha256 5)) /\
  resolve (RK:=N) (DK:=N) (Some ([[1;2]], EcKey 0x0403 EcP256Sha256 5)) [[8]] [0x0804; 0x0403; 0x0401] =
    Ok (AuthVerify [[1;2]] (Signer 0x0403 (SignEc 5 EcP256Sha256))) /\
  resolve (RK:=N) (DK:=N) (Some ([[1;2]], EcKey 0x0403 EcP256Sha256 5)) [] [0x0804; 0x0503] = Ok AuthEmpty /\
  choose_scheme (EK:=N) (DK:=N) (RsaKey 3) [0x0601; 0x0403; 0x0804; 0x0805] = Ok (Some (Signer 0x0805 (SignRsa 3 (RsaPss 384)))).
Proof. vm_compute. split_and!; reflexivity. Qed.
