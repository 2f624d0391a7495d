(** Model of the server's signature: how the client checks it (crates/tls-core/src/verify.rs), which
    algorithm the prover records for it (crates/mpc-tls/src/leader.rs) and with which algorithm the
    handshake data are verified (crates/core/src/connection.rs).

    The webpki crate is not part of the code. Of it, the following is taken as given: an algorithm of
    its [ring] module is for one kind of public key and carries an identifier, the [AlgorithmIdentifier]
    of X.509 certificates that is compared in [from_alg]; for ECDSA that identifier names the hash
    function and not the curve (RFC 5758 section 3.2: ecdsa-with-SHA256, ecdsa-with-SHA384).
    [verify_signature] refuses with [UnsupportedSignatureAlgorithmForPublicKey] a key of another kind
    and otherwise checks the signature. *)
From Verif.Lib Require Import Base.
From Verif Require Import CodecModel TlsModel HandshakeModel AttestModel.

(** ** webpki *)
Inductive webpki_alg :=
| W_P256_SHA256 | W_P256_SHA384 | W_P384_SHA256 | W_P384_SHA384 | W_ED25519
| W_RSA_SHA256 | W_RSA_SHA384 | W_RSA_SHA512 | W_PSS_SHA256 | W_PSS_SHA384 | W_PSS_SHA512.
Inductive key_kind := KeyP256 | KeyP384 | KeyEd25519 | KeyRsa | KeyOther.
Global Instance key_kind_eq_dec : EqDecision key_kind.
Proof. solve_decision. Defined.
Definition walg_key (a : webpki_alg) : key_kind :=
  match a with
  | W_P256_SHA256 | W_P256_SHA384 => KeyP256
  | W_P384_SHA256 | W_P384_SHA384 => KeyP384
  | W_ED25519 => KeyEd25519
  | _ => KeyRsa
  end.
(** [signature_alg_id]: numbers for the identifiers ecdsa-with-SHA256 (0), ecdsa-with-SHA384 (1),
    id-Ed25519 (2), sha*WithRSAEncryption (3, 4, 5) and id-RSASSA-PSS with its three hash functions. *)
Definition walg_id (a : webpki_alg) : N :=
  match a with
  | W_P256_SHA256 | W_P384_SHA256 => 0
  | W_P256_SHA384 | W_P384_SHA384 => 1
  | W_ED25519 => 2
  | W_RSA_SHA256 => 3 | W_RSA_SHA384 => 4 | W_RSA_SHA512 => 5
  | W_PSS_SHA256 => 6 | W_PSS_SHA384 => 7 | W_PSS_SHA512 => 8
  end%N.

(** verify.rs:471-483 [SignatureAlgorithm] *)
Inductive tls_sig_alg :=
| T_P256_SHA256 | T_P256_SHA384 | T_P384_SHA256 | T_P384_SHA384 | T_ED25519
| T_RSA_SHA256 | T_RSA_SHA384 | T_RSA_SHA512 | T_PSS_SHA256 | T_PSS_SHA384 | T_PSS_SHA512.
(** verify.rs:486-514 [SignatureAlgorithm::from_alg]: the first algorithm with the same identifier;
    [unreachable!] is [Panic]. *)
Definition from_alg (a : webpki_alg) : panicky tls_sig_alg :=
  let is (b : webpki_alg) := (walg_id a =? walg_id b)%N in
  if is W_P256_SHA256 then Ok T_P256_SHA256
  else if is W_P256_SHA384 then Ok T_P256_SHA384
  else if is W_P384_SHA256 then Ok T_P384_SHA256
  else if is W_P384_SHA384 then Ok T_P384_SHA384
  else if is W_ED25519 then Ok T_ED25519
  else if is W_RSA_SHA256 then Ok T_RSA_SHA256
  else if is W_RSA_SHA384 then Ok T_RSA_SHA384
  else if is W_RSA_SHA512 then Ok T_RSA_SHA512
  else if is W_PSS_SHA256 then Ok T_PSS_SHA256
  else if is W_PSS_SHA384 then Ok T_PSS_SHA384
  else if is W_PSS_SHA512 then Ok T_PSS_SHA512
  else Panic.

(** core connection.rs:167-191 [From<tls_core::verify::SignatureAlgorithm>]; the algorithms of core are
    numbered in the order of their declaration (123-135). *)
Definition core_alg (a : tls_sig_alg) : sig_alg :=
  match a with
  | T_P256_SHA256 => 0 | T_P256_SHA384 => 1 | T_P384_SHA256 => 2 | T_P384_SHA384 => 3 | T_ED25519 => 4
  | T_RSA_SHA256 => 5 | T_RSA_SHA384 => 6 | T_RSA_SHA512 => 7
  | T_PSS_SHA256 => 8 | T_PSS_SHA384 => 9 | T_PSS_SHA512 => 10
  end%N.
(** core connection.rs:344-362: the algorithm used by [HandshakeData::verify]. *)
Definition webpki_of_core (a : sig_alg) : option webpki_alg :=
  (match a with
   | 0 => Some W_P256_SHA256 | 1 => Some W_P256_SHA384 | 2 => Some W_P384_SHA256 | 3 => Some W_P384_SHA384
   | 4 => Some W_ED25519 | 5 => Some W_RSA_SHA256 | 6 => Some W_RSA_SHA384 | 7 => Some W_RSA_SHA512
   | 8 => Some W_PSS_SHA256 | 9 => Some W_PSS_SHA384 | 10 => Some W_PSS_SHA512
   | _ => None
   end)%N.

(** verify.rs:426-443 the tables and 445-466 [convert_scheme]; schemes by number (enums.rs). *)
Definition convert_scheme (scheme : N) : option (list webpki_alg) :=
  (if scheme =? 0x0403 then Some [W_P256_SHA256; W_P384_SHA256]
   else if scheme =? 0x0503 then Some [W_P256_SHA384; W_P384_SHA384]
   else if scheme =? 0x0807 then Some [W_ED25519]
   else if scheme =? 0x0401 then Some [W_RSA_SHA256]
   else if scheme =? 0x0501 then Some [W_RSA_SHA384]
   else if scheme =? 0x0601 then Some [W_RSA_SHA512]
   else if scheme =? 0x0804 then Some [W_PSS_SHA256]
   else if scheme =? 0x0805 then Some [W_PSS_SHA384]
   else if scheme =? 0x0806 then Some [W_PSS_SHA512]
   else None)%N.

(** verify.rs:333-346 [verification_schemes], offered in the client hello. *)
Definition verification_schemes : list N :=
  [0x0503; 0x0403; 0x0807; 0x0806; 0x0805; 0x0804; 0x0601; 0x0501; 0x0401]%N.

Inductive sig_error := SNotOffered | SBadCert | SUnsupportedForKey | SUnsupported | SInvalid.

Section SigAlg.
  (** The kind of a certificate's key, [None] if [EndEntityCert::try_from] refuses the certificate, and
      whether a signature of a message verifies with the certificate's key. *)
  Context (cert_key : bytes -> option key_kind) (sig_valid : bytes -> webpki_alg -> bytes -> bytes -> bool).

  (** webpki [EndEntityCert::verify_signature] *)
  Definition verify_signature (cert : bytes) (kind : key_kind) (a : webpki_alg) (msg sig : bytes)
    : outcome sig_error () :=
    if negb (bool_decide (walg_key a = kind)) then Err SUnsupportedForKey
    else if sig_valid cert a msg sig then Ok () else Err SInvalid.

  (** verify.rs:529-552 [verify_sig_using_any_alg] *)
  Fixpoint verify_any (cert : bytes) (kind : key_kind) (algs : list webpki_alg) (msg sig : bytes)
    : outcome sig_error tls_sig_alg :=
    match algs with
    | [] => Err SUnsupported
    | a :: algs =>
        match verify_signature cert kind a msg sig with
        | Ok _ => match from_alg a with Ok t => Ok t | _ => Panic end
        | Err SUnsupportedForKey => verify_any cert kind algs msg sig
        | Err e => Err e
        | Panic => Panic
        end
    end.

  (** verify.rs:517-527 [verify_sig_determine_alg] *)
  Definition verify_determine (cert msg : bytes) (d : signed) : outcome sig_error tls_sig_alg :=
    let! kind := opt_err SBadCert (cert_key cert) in
    let! algs := opt_err SNotOffered (convert_scheme (ds_scheme d)) in
    verify_any cert kind algs msg (ds_sig d).
  (** verify.rs:554-567 [verify_signed_struct], by which the client checks the signature of the server
      key exchange (219-226 [verify_tls12_signature]). *)
  Definition verify_struct (msg cert : bytes) (d : signed) : outcome sig_error () :=
    let! algs := opt_err SNotOffered (convert_scheme (ds_scheme d)) in
    let! kind := opt_err SBadCert (cert_key cert) in
    let! _ := verify_any cert kind algs msg (ds_sig d) in
    Ok ().

  (** tls12.rs:305-307 of the client and ke.rs:10-25: the parameters of the key exchange. *)
  Definition enc_params (k : ecdhe) : bytes :=
    enc_uint 1 3 ++ enc_uint 2 (ke_group k) ++ enc_payload 1 (ke_public k).
  (** tls12.rs:606-640: the client checks the signature of the server key exchange with the end entity
      certificate. *)
  Definition client_accepts (certs : list bytes) (cr sr : bytes) (k : ecdhe) : outcome sig_error () :=
    match certs with
    | [] => Err SBadCert
    | leaf :: _ => verify_struct (cr ++ sr ++ enc_params k) leaf (ke_dss k)
    end.
  (** leader.rs:692-727 [close_connection]: what the prover records of the handshake. Indexing an empty
      chain and the two [expect]s are [Panic]; of the key, the group must be secp256r1 (23). *)
  Definition leader_data (certs : list bytes) (cr sr : bytes) (k : ecdhe) : panicky handshake_data :=
    match certs with
    | [] => Panic
    | leaf :: _ =>
        match verify_determine leaf (cr ++ sr ++ enc_params k) (ke_dss k) with
        | Ok t =>
            if (ke_group k =? 23)%N
            then Ok (HandshakeData certs (core_alg t) (ds_sig (ke_dss k)) cr sr (EphemKey (ke_public k)))
            else Panic
        | _ => Panic
        end
    end.

  (** core webpki.rs and connection.rs:364-370: the verifier of handshake data. [chain] stands for the
      check of the chain. *)
  Definition webpki_verifier (chain : bytes -> list bytes -> server_name -> N -> bool) : cert_verifier :=
    {| cv_chain := chain;
       cv_parses c := bool_decide (is_Some (cert_key c));
       cv_signature leaf a msg sig :=
         match cert_key leaf, webpki_of_core a with
         | Some kind, Some w => match verify_signature leaf kind w msg sig with Ok _ => true | _ => false end
         | _, _ => false
         end |}.

  (** core transcript/tls/builder.rs:565-582 [extract_ec_curve_oid]: secp256r1 is 0 and secp384r1 is 1;
      the parameters of keys of another kind name no curve. *)
  Definition curve_of (cert : bytes) : option N :=
    match cert_key cert with Some KeyP256 => Some 0%N | Some KeyP384 => Some 1%N | _ => None end.
End SigAlg.
