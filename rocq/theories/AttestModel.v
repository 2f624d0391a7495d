(** Model of crates/attestation/src (lib.rs, builder.rs, proof.rs, presentation.rs, request.rs,
    request/builder.rs, connection.rs, extension.rs, config.rs, secrets.rs, serialize.rs, hash.rs,
    signing.rs) and of the verification of handshake data in crates/core/src/connection.rs.
    Signature schemes and X.509 are oracles (fields of the provider). *)
From Verif.Lib Require Import Base Bcs Ranges.
From Verif Require Import TranscriptModel ProofModel MerkleModel CodecModel.

(** ** Attested data *)

(** signing.rs:226-231 [VerifyingKey]. *)
Record verifying_key := VerifyingKey { vk_alg : N; vk_data : list N }.
(** core connection.rs:14-19 [TlsVersion]. *)
Inductive tls_version := V1_2 | V1_3.
(** core connection.rs:242-249 [ConnectionInfo]. *)
Record conn_info := ConnInfo { ci_time : N; ci_version : tls_version; ci_length : transcript_length }.
(** core connection.rs:203-209 [ServerEphemKey] ([KeyType] has one value, secp256r1). *)
Record ephem_key := EphemKey { ek_key : list N }.
(** connection.rs:59 [ServerCertCommitment] is a typed hash; extension.rs:9-14 [Extension]. *)
Record extension := Extension { ext_id : list N; ext_value : list N }.

Global Instance extension_eq_dec : EqDecision extension.
Proof. solve_decision. Defined.
Global Instance ephem_key_eq_dec : EqDecision ephem_key.
Proof. solve_decision. Defined.

(** core connection.rs:123-135 [SignatureAlgorithm]: eleven variants, by number. *)
Definition sig_alg := N.
(** core connection.rs:194-199, 262-269, 287-294 [ServerSignature], [CertBindingV1_2] (the only
    binding), [HandshakeData]. Certificates are their DER bytes. *)
Record handshake_data := HandshakeData {
  hd_certs : list (list N);
  hd_sig_alg : sig_alg;
  hd_sig : list N;
  hd_client_random : list N;
  hd_server_random : list N;
  hd_ephem_key : ephem_key }.
(** connection.rs:33 [ServerCertOpening]: the data and a blinder (core hash.rs:264-267). *)
Record cert_opening := CertOpening { co_data : handshake_data; co_blinder : list N }.
(** core connection.rs:35-38 [ServerName]: a DNS name. *)
Definition server_name := list N.

(** ** Serialization (serialize.rs:9-18: BCS) *)
Definition ser_vk (k : verifying_key) : list N := vk_alg k :: bcs_bytes (vk_data k).
Definition ser_version (v : tls_version) : list N := bcs_len (match v with V1_2 => 0 | V1_3 => 1 end).
Definition ser_ci (c : conn_info) : list N :=
  le 8 (ci_time c) ++ ser_version (ci_version c) ++ le 4 (tl_sent (ci_length c)) ++ le 4 (tl_recv (ci_length c)).
Definition ser_ek (k : ephem_key) : list N := bcs_len 0 ++ bcs_bytes (ek_key k).
(** A [TypedHash]; core hash.rs:124-131 writes a [Hash] as a sequence of bytes. *)
Definition ser_th (t : typed_hash) : list N := th_alg t :: bcs_bytes (th_value t).
Definition ser_ext (e : extension) : list N := bcs_bytes (ext_id e) ++ bcs_bytes (ext_value e).
Definition ser_dir (d : direction) : list N := bcs_len (match d with Sent => 0 | Received => 1 end).
Definition ser_range (r : range) : list N := le 8 (N.of_nat (fst r)) ++ le 8 (N.of_nat (snd r)).
(** [TranscriptCommitment::Hash(PlaintextHash)]: variant 0. *)
Definition ser_tc (c : commitment) : list N :=
  bcs_len 0 ++ ser_dir (cm_dir c) ++ bcs_seq ser_range (cm_idx c) ++ ser_th (cm_hash c).
Definition ser_opening (o : cert_opening) : list N :=
  let d := co_data o in
  bcs_seq bcs_bytes (hd_certs d) ++ bcs_len (N.to_nat (hd_sig_alg d)) ++ bcs_bytes (hd_sig d) ++
  bcs_len 0 ++ hd_client_random d ++ hd_server_random d ++ ser_ek (hd_ephem_key d) ++ co_blinder o.

(** The data of a body field. *)
Inductive fdata :=
| FVk (k : verifying_key) | FCi (c : conn_info) | FEk (k : ephem_key)
| FCc (c : typed_hash) | FExt (e : extension) | FTc (c : commitment).
Definition ser_fdata (f : fdata) : list N :=
  match f with
  | FVk k => ser_vk k | FCi c => ser_ci c | FEk k => ser_ek k
  | FCc c => ser_th c | FExt e => ser_ext e | FTc c => ser_tc c
  end.

(** serialize.rs:27-55: the 16 byte domain separator of a type is taken from the BLAKE3 hash of its
    name; here any assignment of domains to types. *)
Inductive domain_type := DVk | DCi | DEk | DCc | DExt | DTc | DOpening.
Definition domains := domain_type -> list N.
Definition fdata_domain (f : fdata) : domain_type :=
  match f with FVk _ => DVk | FCi _ => DCi | FEk _ => DEk | FCc _ => DCc | FExt _ => DExt | FTc _ => DTc end.

(** ** Body and header (lib.rs) *)
(** lib.rs:279-302 [Field] and [FieldId]: pairs of an identifier (a u32) and data. *)
Notation field A := (nat * A)%type (only parsing).
Section Attest.
  Context (dom : domains).

  (** hash.rs:14-16 [hash_separated]: the string that is hashed for a field. *)
  Definition field_input (f : fdata) : list N := dom (fdata_domain f) ++ ser_fdata f.
  Definition hash_field (h : hasher) (f : fdata) : list N := h_hash h (field_input f).
  Definition opening_input (o : cert_opening) : list N := dom DOpening ++ ser_opening o.

  (** lib.rs:336-343 [Body]. *)
  Record body := Body {
    b_vk : field verifying_key;
    b_ci : field conn_info;
    b_ek : field ephem_key;
    b_cc : field typed_hash;
    b_exts : list (field extension);
    b_tcs : list (field commitment) }.
  (** lib.rs:323-330 [Header]: a 16 byte identifier, the version and the root. *)
  Record header := Header { hd_id : list N; hd_version : N; hd_root : typed_hash }.
  Definition ser_header (h : header) : list N := hd_id h ++ le 4 (hd_version h) ++ ser_th (hd_root h).
  (** signing.rs:250-255 [Signature]; lib.rs:438-445 [Attestation]. *)
  Record signature := Signature { s_alg : N; s_data : list N }.
  Record attestation := Attestation { a_sig : signature; a_header : header; a_body : body }.

  (** The fields in the order in which they are listed in lib.rs:390-409. *)
  Definition body_fields (b : body) : list (field fdata) :=
    [(fst (b_vk b), FVk (snd (b_vk b))); (fst (b_ci b), FCi (snd (b_ci b)));
     (fst (b_ek b), FEk (snd (b_ek b))); (fst (b_cc b), FCc (snd (b_cc b)))] ++
    map (fun f => (fst f, FExt (snd f))) (b_exts b) ++
    map (fun f => (fst f, FTc (snd f))) (b_tcs b).
  (** lib.rs:378-413 [hash_fields]: hashed with the domain separator, sorted by identifier. *)
  Definition hash_fields (h : hasher) (b : body) : list (nat * list N) :=
    sort_by (map (fun f => (fst f, hash_field h (snd f))) (body_fields b)).
  (** lib.rs:359-368 [root]. *)
  Definition body_root (h : hasher) (b : body) : panicky typed_hash :=
    let! r := merkle_root (h_hash h) (map snd (hash_fields h b)) in
    Ok (TypedHash (h_id h) r).

  (** ** Providers *)
  (** signing.rs:158-167 [Signer], 216-222 [SignatureVerifier]. *)
  Record signer := Signer { sg_alg : N; sg_sign : list N -> option signature; sg_vk : verifying_key }.
  Definition sig_verifier := verifying_key -> list N -> list N -> bool.
  (** Certificates: core webpki.rs [ServerCertVerifier::verify_server_cert] on the leaf, the
      intermediates, the name and the time; [EndEntityCert::try_from] and [verify_signature]. *)
  Record cert_verifier := CertVerifier {
    cv_chain : list N -> list (list N) -> server_name -> N -> bool;
    cv_parses : list N -> bool;
    cv_signature : list N -> sig_alg -> list N -> list N -> bool }.
  (** provider.rs:20-36 [CryptoProvider]. *)
  Record crypto_provider := CryptoProvider {
    cp_hash : hash_provider;
    cp_cert : cert_verifier;
    cp_signer : N -> option signer;
    cp_sigver : N -> option sig_verifier }.

  (** ** Requests (request.rs, request/builder.rs, secrets.rs) *)
  (** request.rs:33-38 [Request]. *)
  Record request := Request {
    rq_sig_alg : N; rq_hash_alg : alg_id; rq_cc : typed_hash; rq_exts : list extension }.
  (** secrets.rs:12-18 [Secrets]. *)
  Record secrets := Secrets {
    se_name : server_name; se_opening : cert_opening; se_transcript : transcript;
    se_commitments : list commitment; se_secrets : list secret }.
  (** connection.rs:44-49 [ServerCertOpening::commit]. *)
  Definition opening_commit (h : hasher) (o : cert_opening) : typed_hash :=
    TypedHash (h_id h) (h_hash h (opening_input o)).
  (** request/builder.rs:13-20 [RequestBuilder] after its setters; [rb_blinder] is the random blinder
      of connection.rs:40-42. *)
  Record req_builder := ReqBuilder {
    rb_sig_alg : N; rb_hash_alg : alg_id; rb_exts : list extension;
    rb_name : option server_name; rb_handshake : option handshake_data; rb_transcript : option transcript;
    rb_commitments : list commitment; rb_secrets : list secret }.
  (** request/builder.rs:65-116 [build]; errors are [None]. *)
  Definition req_build (P : crypto_provider) (b : req_builder) (blinder : list N) : option (request * secrets) :=
    match cp_hash P (rb_hash_alg b), rb_name b, rb_handshake b, rb_transcript b with
    | Some h, Some name, Some hd, Some t =>
        let o := CertOpening hd blinder in
        Some (Request (rb_sig_alg b) (rb_hash_alg b) (opening_commit h o) (rb_exts b),
              Secrets name o t (rb_commitments b) (rb_secrets b))
    | _, _, _, _ => None
    end.

  (** request.rs:47-102 [validate]. *)
  Inductive validation_error := Inconsistent | ValProvider.
  Definition validate (rq : request) (a : attestation) (P : crypto_provider) : outcome validation_error unit :=
    if negb (s_alg (a_sig a) =? rq_sig_alg rq)%N then Err Inconsistent
    else if negb (th_alg (hd_root (a_header a)) =? rq_hash_alg rq)%N then Err Inconsistent
    else if negb (bool_decide (snd (b_cc (a_body a)) = rq_cc rq)) then Err Inconsistent
    else if negb (forallb (fun e => existsb (fun e' => bool_decide (e' = e)) (map snd (b_exts (a_body a)))) (rq_exts rq))
    then Err Inconsistent
    else match cp_sigver P (s_alg (a_sig a)) with
         | None => Err ValProvider
         | Some v =>
             if v (snd (b_vk (a_body a))) (ser_header (a_header a)) (s_data (a_sig a)) then Ok ()
             else Err Inconsistent
         end.

  (** ** Building attestations (config.rs, builder.rs) *)
  (** config.rs:47-51 [AttestationConfig]. *)
  Record att_config := AttConfig {
    ac_sig_algs : list N; ac_hash_algs : list alg_id; ac_validator : option (list extension -> bool) }.
  (** config.rs:86-102 the default configuration: no signature algorithm, no extension allowed. *)
  Definition att_config_default : att_config :=
    AttConfig [] [SHA256; BLAKE3; KECCAK256] (Some (fun es => match es with [] => true | _ => false end)).
  Inductive att_build_error := BRequest | BConfig | BField | BSignature | BExtension.
  (** builder.rs:22-30 [Sign]. *)
  Record sign_state := SignState {
    st_sig_alg : N; st_hash_alg : alg_id; st_ci : option conn_info; st_ek : option ephem_key;
    st_cc : typed_hash; st_exts : list extension; st_tcs : list commitment }.
  (** builder.rs:49-93 [accept_request]. *)
  Definition accept_request (c : att_config) (rq : request) : outcome att_build_error sign_state :=
    if negb (existsb (N.eqb (rq_sig_alg rq)) (ac_sig_algs c)) then Err BRequest
    else if negb (existsb (N.eqb (rq_hash_alg rq)) (ac_hash_algs c)) then Err BRequest
    else
      let ok := SignState (rq_sig_alg rq) (rq_hash_alg rq) None None (rq_cc rq) (rq_exts rq) [] in
      match ac_validator c with
      | Some v => if v (rq_exts rq) then Ok ok else Err BExtension
      | None => Ok ok
      end.
  (** builder.rs:98-122: the setters. *)
  Inductive sign_call :=
  | SetConnInfo (c : conn_info) | SetEphemKey (k : ephem_key)
  | AddExtension (e : extension) | SetCommitments (cs : list commitment).
  Definition sign_step (s : sign_state) (c : sign_call) : sign_state :=
    match c with
    | SetConnInfo ci => SignState (st_sig_alg s) (st_hash_alg s) (Some ci) (st_ek s) (st_cc s) (st_exts s) (st_tcs s)
    | SetEphemKey k => SignState (st_sig_alg s) (st_hash_alg s) (st_ci s) (Some k) (st_cc s) (st_exts s) (st_tcs s)
    | AddExtension e =>
        SignState (st_sig_alg s) (st_hash_alg s) (st_ci s) (st_ek s) (st_cc s) (st_exts s ++ [e]) (st_tcs s)
    | SetCommitments cs => SignState (st_sig_alg s) (st_hash_alg s) (st_ci s) (st_ek s) (st_cc s) (st_exts s) cs
    end.
  (** lib.rs:293-298 [FieldId::next] over a list, as in builder.rs:160-167. *)
  Fixpoint number {A} (id : nat) (l : list A) : list (field A) :=
    match l with [] => [] | x :: l' => (id, x) :: number (S id) l' end.
  (** builder.rs:149-168: the body. *)
  Definition make_body (vk : verifying_key) (ci : conn_info) (ek : ephem_key) (cc : typed_hash)
      (exts : list extension) (tcs : list commitment) : body :=
    Body (0, vk) (1, ci) (2, ek) (3, cc) (number 4 exts) (number (4 + length exts) tcs).
  (** builder.rs:125-185 [build]; [uid] is the random identifier (171). lib.rs:253 [VERSION] is 0. *)
  Definition att_build (s : sign_state) (P : crypto_provider) (uid : list N) : outcome att_build_error attestation :=
    match cp_hash P (st_hash_alg s) with
    | None => Err BConfig
    | Some h =>
        match cp_signer P (st_sig_alg s) with
        | None => Err BConfig
        | Some sg =>
            match st_ci s with
            | None => Err BField
            | Some ci =>
                match st_ek s with
                | None => Err BField
                | Some ek =>
                    let b := make_body (sg_vk sg) ci ek (st_cc s) (st_exts s) (st_tcs s) in
                    let! root := lift_panic (body_root h b) in
                    let hd := Header uid 0 root in
                    match sg_sign sg (ser_header hd) with
                    | None => Err BSignature
                    | Some sig => Ok (Attestation sig hd b)
                    end
                end
            end
        end
    end.

  (** ** Attestation proofs (proof.rs) *)
  (** proof.rs:82-87 [BodyProof], 17-22 [AttestationProof]. *)
  Record body_proof := BodyProof { bp_body : body; bp_proof : merkle_proof }.
  Record att_proof := AttProof { ap_sig : signature; ap_header : header; ap_body : body_proof }.
  Inductive att_error := AProvider | ASignature | ABody.
  (** proof.rs:93-109 [BodyProof::new]. *)
  Definition body_proof_new (h : hasher) (b : body) : panicky body_proof :=
    let hf := hash_fields h b in
    let! p := merkle_proof_of (h_hash h) (map snd hf) (map fst hf) in
    Ok (BodyProof b p).
  (** proof.rs:25-41 [AttestationProof::new]. *)
  Definition att_proof_new (P : crypto_provider) (a : attestation) : outcome att_error att_proof :=
    match cp_hash P (th_alg (hd_root (a_header a))) with
    | None => Err AProvider
    | Some h =>
        let! bp := lift_panic (body_proof_new h (a_body a)) in
        Ok (AttProof (a_sig a) (a_header a) bp)
    end.
  (** proof.rs:116-137 [BodyProof::verify_with_provider]. *)
  Definition body_proof_verify (P : crypto_provider) (bp : body_proof) (hd : header) : outcome att_error body :=
    match cp_hash P (th_alg (hd_root hd)) with
    | None => Err AProvider
    | Some h =>
        match merkle_verify (h_hash h) (bp_proof bp) (th_value (hd_root hd)) (hash_fields h (bp_body bp)) with
        | Ok _ => Ok (bp_body bp)
        | Err _ => Err ABody
        | Panic => Panic
        end
    end.
  (** proof.rs:54-77 [AttestationProof::verify]. *)
  Definition att_proof_verify (P : crypto_provider) (ap : att_proof) : outcome att_error attestation :=
    match cp_sigver P (s_alg (ap_sig ap)) with
    | None => Err AProvider
    | Some v =>
        let! b := body_proof_verify P (ap_body ap) (ap_header ap) in
        if v (snd (b_vk b)) (ser_header (ap_header ap)) (s_data (ap_sig ap))
        then Ok (Attestation (ap_sig ap) (ap_header ap) b)
        else Err ASignature
    end.

  (** ** Server identity (core connection.rs:296-373, connection.rs) *)
  (** core connection.rs:211-223 [kx_params]: curve type 3 (named curve), secp256r1 (23), and the key
      with a one byte length. *)
  Definition kx_params (k : ephem_key) : list N := [3%N] ++ enc_uint 2 23 ++ enc_payload 1 (ek_key k).
  Inductive handshake_error :=
  | InvalidEndEntityCertificate | MissingCerts | InvalidServerSignature | InvalidServerEphemeralKey | ServerCertErr.
  (** core connection.rs:305-373 [HandshakeData::verify]. *)
  Definition handshake_verify (hd : handshake_data) (cv : cert_verifier) (time : N) (ek : ephem_key)
      (name : server_name) : outcome handshake_error unit :=
    if negb (bool_decide (ek = hd_ephem_key hd)) then Err InvalidServerEphemeralKey
    else match hd_certs hd with
         | [] => Err MissingCerts
         | leaf :: inter =>
             if negb (cv_chain cv leaf inter name time) then Err ServerCertErr
             else
               let message := hd_client_random hd ++ hd_server_random hd ++ kx_params ek in
               if negb (cv_parses cv leaf) then Err InvalidEndEntityCertificate
               else if negb (cv_signature cv leaf (hd_sig_alg hd) message (hd_sig hd)) then Err InvalidServerSignature
               else Ok ()
         end.
  (** connection.rs:65-69 [ServerIdentityProof], secrets.rs:34-36. *)
  Record identity_proof := IdentityProof { ip_name : server_name; ip_opening : cert_opening }.
  Definition secrets_identity_proof (s : secrets) : identity_proof := IdentityProof (se_name s) (se_opening s).
  Inductive identity_error := IProvider | ICommitment | ICertificate.
  (** connection.rs:83-106 [verify_with_provider]. *)
  Definition identity_verify (P : crypto_provider) (ip : identity_proof) (time : N) (ek : ephem_key)
      (cc : typed_hash) : outcome identity_error server_name :=
    match cp_hash P (th_alg cc) with
    | None => Err IProvider
    | Some h =>
        if negb (bool_decide (th_value cc = h_hash h (opening_input (ip_opening ip)))) then Err ICommitment
        else match handshake_verify (co_data (ip_opening ip)) (cp_cert P) time ek (ip_name ip) with
             | Ok _ => Ok (ip_name ip)
             | Err _ => Err ICertificate
             | Panic => Panic
             end
    end.

  (** ** Presentations (presentation.rs) *)
  (** presentation.rs:45-49 [Presentation]. *)
  Record presentation := Presentation {
    pr_att : att_proof; pr_identity : option identity_proof; pr_transcript : option tproof }.
  (** presentation.rs:116-127 [PresentationOutput]. *)
  Record pres_output := PresOutput {
    po_att : attestation; po_name : option server_name; po_ci : conn_info;
    po_transcript : option partial; po_exts : list extension }.
  Inductive pres_error := PAttestation (e : att_error) | PIdentity (e : identity_error) | PTranscript (e : proof_error).
  Definition map_err {E E' A} (f : E -> E') (m : outcome E A) : outcome E' A :=
    match m with Ok a => Ok a | Err e => Err (f e) | Panic => Panic end.
  (** [Option::map(..).transpose()]. *)
  Definition transpose {E A} (o : option (outcome E A)) : outcome E (option A) :=
    match o with None => Ok None | Some m => omap_ok Some m end.
  (** presentation.rs:160-168 [PresentationBuilder::build]. *)
  Definition pres_build (P : crypto_provider) (a : attestation) (ip : option identity_proof) (tp : option tproof)
    : outcome att_error presentation :=
    let! ap := att_proof_new P a in Ok (Presentation ap ip tp).
  (** presentation.rs:66-111 [Presentation::verify]. *)
  Definition pres_verify (P : crypto_provider) (pr : presentation) : outcome pres_error pres_output :=
    let! a := map_err PAttestation (att_proof_verify P (pr_att pr)) in
    let ci := snd (b_ci (a_body a)) in
    let! name := map_err PIdentity (transpose (option_map (fun ip =>
      identity_verify P ip (ci_time ci) (snd (b_ek (a_body a))) (snd (b_cc (a_body a)))) (pr_identity pr))) in
    let! t := map_err PTranscript (transpose (option_map (fun tp =>
      verify_tproof (cp_hash P) (ci_length ci) (map snd (b_tcs (a_body a))) tp) (pr_transcript pr))) in
    Ok (PresOutput a name ci t (map snd (b_exts (a_body a)))).
End Attest.

(** ** Algorithm registration (core hash.rs:35-46, signing.rs:28-32, 74-78, 115-117, 191-193) *)
(** [KeyAlgId::new] and [SignatureAlgId::new]: panic in the reserved range. *)
Definition key_alg_new (id : N) : panicky N := if (128 <=? id)%N then Ok id else Panic.
Definition sig_alg_new (id : N) : panicky N := if (128 <=? id)%N then Ok id else Panic.
(** signing.rs:18-20, 55-62. *)
Definition K256 : N := 1%N.
Definition P256 : N := 2%N.
Definition SECP256K1 : N := 1%N.
Definition SECP256R1 : N := 2%N.
Definition SECP256K1ETH : N := 3%N.
(** signing.rs:115-117 [set_signer]: under the algorithm of the signer. *)
Definition set_signer (p : N -> option signer) (s : signer) : N -> option signer :=
  fun a => if (a =? sg_alg s)%N then Some s else p a.
(** signing.rs:191-193 [set_verifier]; a verifier comes with its algorithm. *)
Definition set_verifier (p : N -> option sig_verifier) (v : N * sig_verifier) : N -> option sig_verifier :=
  fun a => if (a =? fst v)%N then Some (snd v) else p a.
(** signing.rs:174-188 the default verifiers, 311-335, 387-411, 486-520: each first checks the
    algorithm of the key ([ecdsa_*] are the primitives; the Ethereum one also checks the length and drops
    the last byte of the signature). *)
Definition default_verifiers (ecdsa_k256 ecdsa_p256 ecdsa_k256_keccak : list N -> list N -> list N -> bool)
  : N -> option sig_verifier := fun a =>
  if (a =? SECP256K1)%N then Some (fun k m s => (vk_alg k =? K256)%N && ecdsa_k256 (vk_data k) m s)
  else if (a =? SECP256R1)%N then Some (fun k m s => (vk_alg k =? P256)%N && ecdsa_p256 (vk_data k) m s)
  else if (a =? SECP256K1ETH)%N then
    Some (fun k m s => (vk_alg k =? K256)%N && (length s =? 65) && ecdsa_k256_keccak (vk_data k) m (take 64 s))
  else None.
