(** What is said about the server's signature. *)
From Verif.Lib Require Import Base.
From Verif Require Import CodecModel TlsModel HandshakeModel AttestModel SigAlgModel.

(** A signature scheme of TLS 1.2 that the client offers, the kind of key it is used with, and the
    algorithm that is meant. An ECDSA scheme names the hash function only, so that it is used with keys
    of either curve. *)
Inductive scheme_means : N -> key_kind -> webpki_alg -> Prop :=
| sm_ecdsa_sha256_p256 : scheme_means 0x0403 KeyP256 W_P256_SHA256
| sm_ecdsa_sha256_p384 : scheme_means 0x0403 KeyP384 W_P384_SHA256
| sm_ecdsa_sha384_p256 : scheme_means 0x0503 KeyP256 W_P256_SHA384
| sm_ecdsa_sha384_p384 : scheme_means 0x0503 KeyP384 W_P384_SHA384
| sm_ed25519 : scheme_means 0x0807 KeyEd25519 W_ED25519
| sm_rsa_sha256 : scheme_means 0x0401 KeyRsa W_RSA_SHA256
| sm_rsa_sha384 : scheme_means 0x0501 KeyRsa W_RSA_SHA384
| sm_rsa_sha512 : scheme_means 0x0601 KeyRsa W_RSA_SHA512
| sm_pss_sha256 : scheme_means 0x0804 KeyRsa W_PSS_SHA256
| sm_pss_sha384 : scheme_means 0x0805 KeyRsa W_PSS_SHA384
| sm_pss_sha512 : scheme_means 0x0806 KeyRsa W_PSS_SHA512.

(** The server signed: the end entity certificate has a key for which the scheme means an algorithm, and
    the signature of the two randoms and of the parameters of the key exchange (named curve, curve, and
    the key with its length) verifies with this algorithm. *)
Definition server_signed (cert_key : bytes -> option key_kind)
    (sig_valid : bytes -> webpki_alg -> bytes -> bytes -> bool)
    (leaf cr sr : bytes) (group : N) (key : bytes) (scheme : N) (sig : bytes) : Prop :=
  exists kind a, cert_key leaf = Some kind /\ scheme_means scheme kind a /\
    sig_valid leaf a (cr ++ sr ++ [3%N] ++ be 2 group ++ be 1 (N.of_nat (length key)) ++ key) sig = true.
