(** Model of crates/tls-core/src/x509.rs, of [RootCertStore::subjects] (crates/tls-core/src/anchors.rs) and of the client's signing keys
    (crates/mpc-tls/src/client/sign.rs, client/config.rs, client/hs.rs). Signature schemes are their TLS code points. *)
From Verif.Lib Require Import Base.
Local Open Scope N_scope.

(** tls-core/src/x509.rs:12-18, the loop: [bytes.insert(1, byte)], [bytes[0] += 1], which panics above 255. A [usize] has eight bytes, so the
    loop is entered at most eight times. *)
Fixpoint len_loop (fuel : nat) (left : N) (bytes : list N) : panicky (list N) :=
  match fuel with
  | O => Panic
  | S f =>
      if left =? 0 then Ok bytes
      else match bytes with
      | [] => Panic
      | b0 :: rest => if 255 <? b0 + 1 then Panic else len_loop f (N.shiftr left 8) ((b0 + 1) :: N.land left 255 :: rest)
      end
  end.
(** tls-core/src/x509.rs:5-20. *)
Definition wrap_in_asn1_len (bytes : list N) : panicky (list N) :=
  let len := N.of_nat (length bytes) in
  if len <=? 127 then Ok (len :: bytes) else len_loop 9 len (128 :: bytes).
(** tls-core/src/x509.rs:23-26; [der::Tag::Sequence] is 0x30. *)
Definition wrap_in_sequence (bytes : list N) : panicky (list N) :=
  let! w := wrap_in_asn1_len bytes in Ok (48 :: w).
(** tls-core/src/anchors.rs:33-44: of the roots only the subjects. *)
Fixpoint subjects (roots : list (list N)) : panicky (list (list N)) :=
  match roots with
  | [] => Ok []
  | s :: roots' => let! w := wrap_in_sequence s in let! r := subjects roots' in Ok (w :: r)
  end.

(** ring's ECDSA algorithms, with their hashes. *)
Inductive ec_alg := EcP256Sha256 | EcP384Sha384.
(** ring's RSA encodings: by the bits of the hash. *)
Inductive rsa_encoding := RsaPkcs1 (bits : N) | RsaPss (bits : N).

(** sign.rs:269-287 [PKCS8_PREFIX_ECDSA_NISTP256], [PKCS8_PREFIX_ECDSA_NISTP384]. *)
Definition prefix_p256 : list N :=
  [2;1;0; 48;19; 6;7;42;134;72;206;61;2;1; 6;8;42;134;72;206;61;3;1;7].
Definition prefix_p384 : list N :=
  [2;1;0; 48;16; 6;7;42;134;72;206;61;2;1; 6;5;43;129;4;0;34].

Section keys.
(** ring: key pairs and the parsers of them. *)
Context {RK EK DK : Type}.
Context (rsa_from_der rsa_from_pkcs8 : list N -> option RK) (ec_from_pkcs8 : ec_alg -> list N -> option EK)
        (ed_from_pkcs8 : list N -> option DK).

(** sign.rs:125 [RsaSigningKey], 215 [EcdsaSigningKey] with the algorithm that ring's key pair holds, 337 [Ed25519SigningKey]. *)
Inductive signing_key := RsaKey (k : RK) | EcKey (scheme : N) (alg : ec_alg) (k : EK) | EdKey (scheme : N) (k : DK).

(** sign.rs:141-146 [RsaSigningKey::new]. *)
Definition rsa_new (der : list N) : option signing_key :=
  match rsa_from_der der with
  | Some k => Some (RsaKey k)
  | None => match rsa_from_pkcs8 der with Some k => Some (RsaKey k) | None => None end
  end.
(** sign.rs:242-266: the document that [convert_sec1_to_pkcs8] hands to ring; [der::Tag::OctetString] is 4. *)
Definition sec1_to_pkcs8 (scheme : N) (der : list N) : panicky (list N) :=
  let! prefix := (if scheme =? 1027 then Ok prefix_p256 else if scheme =? 1283 then Ok prefix_p384 else Panic) in
  let! w := wrap_in_asn1_len der in
  wrap_in_sequence (prefix ++ 4 :: w).
(** sign.rs:224-238 [EcdsaSigningKey::new]. *)
Definition ecdsa_new (der : list N) (scheme : N) (alg : ec_alg) : panicky (option signing_key) :=
  match ec_from_pkcs8 alg der with
  | Some k => Ok (Some (EcKey scheme alg k))
  | None =>
      let! d := sec1_to_pkcs8 scheme der in
      Ok (match ec_from_pkcs8 alg d with Some k => Some (EcKey scheme alg k) | None => None end)
  end.
(** sign.rs:92-110. *)
Definition any_ecdsa_type (der : list N) : panicky (option signing_key) :=
  let! r := ecdsa_new der 1027 EcP256Sha256 in
  match r with
  | Some k => Ok (Some k)
  | None => ecdsa_new der 1283 EcP384Sha384
  end.
(** sign.rs:113-121. *)
Definition any_eddsa_type (der : list N) : option signing_key :=
  match ed_from_pkcs8 der with Some k => Some (EdKey 2055 k) | None => None end.
(** sign.rs:78-86. *)
Definition any_supported_type (der : list N) : panicky (option signing_key) :=
  match rsa_new der with
  | Some k => Ok (Some k)
  | None =>
      let! r := any_ecdsa_type der in
      Ok (match r with Some k => Some k | None => any_eddsa_type der end)
  end.

(** What a [Signer] asks of ring. *)
Inductive ring_signer := SignRsa (k : RK) (enc : rsa_encoding) | SignEc (k : EK) (alg : ec_alg) | SignEd (k : DK).
(** A [Signer]: sign.rs:162-203, 307-324, 373-386. *)
Record signer := Signer { sg_scheme : N; sg_ring : ring_signer }.

(** sign.rs:129-136. *)
Definition all_rsa_schemes : list N := [2054; 2053; 2052; 1537; 1281; 1025].
Fixpoint contains (offered : list N) (s : N) : bool :=
  match offered with [] => false | o :: os => (o =? s) || contains os s end.
(** sign.rs:169-185 [RsaSigner::new_boxed]. *)
Definition rsa_signer (k : RK) (scheme : N) : panicky signer :=
  let! enc :=
    (if scheme =? 1025 then Ok (RsaPkcs1 256) else if scheme =? 1281 then Ok (RsaPkcs1 384) else if scheme =? 1537 then Ok (RsaPkcs1 512)
     else if scheme =? 2052 then Ok (RsaPss 256) else if scheme =? 2053 then Ok (RsaPss 384) else if scheme =? 2054 then Ok (RsaPss 512)
     else Panic) in
  Ok (Signer scheme (SignRsa k enc)).
(** sign.rs:150-155, 290-299, 356-365 [choose_scheme]. *)
Definition choose_scheme (key : signing_key) (offered : list N) : panicky (option signer) :=
  match key with
  | RsaKey k =>
      match List.find (contains offered) all_rsa_schemes with
      | Some s => let! sg := rsa_signer k s in Ok (Some sg)
      | None => Ok None
      end
  | EcKey scheme alg k => Ok (if contains offered scheme then Some (Signer scheme (SignEc k alg)) else None)
  | EdKey scheme k => Ok (if contains offered scheme then Some (Signer scheme (SignEd k)) else None)
  end.

(** config.rs:99-118: [new] (no certificate) and [new_with_client_auth], which fails if the key cannot be read. *)
Definition client_auth_config (auth : option (list (list N) * list N)) : outcome unit (option (list (list N) * signing_key)) :=
  match auth with
  | None => Ok None
  | Some (chain, der) =>
      match any_supported_type der with
      | Ok (Some k) => Ok (Some (chain, k))
      | Ok None => Err ()
      | Err e => match e with end
      | Panic => Panic
      end
  end.
(** hs.rs:624-663 [ClientAuthDetails] and [resolve]; the resolvers ignore the acceptable issuers (config.rs:203-241). *)
Inductive client_auth := AuthEmpty | AuthVerify (chain : list (list N)) (sg : signer).
Definition resolve (cfg : option (list (list N) * signing_key)) (issuers : list (list N)) (sigschemes : list N) : panicky client_auth :=
  match cfg with
  | None => Ok AuthEmpty
  | Some (chain, k) =>
      let! r := choose_scheme k sigschemes in
      Ok (match r with Some sg => AuthVerify chain sg | None => AuthEmpty end)
  end.
(** tls12.rs:640-677: the certificates of the [Certificate] message that answers a [CertificateRequest], and who signs the
    [CertificateVerify] message, if one is sent. *)
Definition auth_messages (a : client_auth) : list (list N) * option signer :=
  match a with AuthEmpty => ([], None) | AuthVerify chain sg => (chain, Some sg) end.
End keys.
Arguments signing_key : clear implicits. Arguments ring_signer : clear implicits. Arguments signer : clear implicits.
Arguments client_auth : clear implicits.
