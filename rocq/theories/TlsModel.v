(** Model of TLS transcripts: crates/core/src/transcript/tls.rs and
    crates/core/src/transcript/tls/builder.rs.

    Parsing the body of a handshake message ([HandshakeMessagePayload::read_version] after the
    header) and reading the curve of an X.509 certificate are parameters; see HandshakeModel.v for
    the former. *)
From Verif.Lib Require Import Base.
From Verif Require Import TranscriptModel ProofModel CodecModel AttestModel.

(** tls.rs:189-204 [Record]. tls.rs:208-249 [ContentType] mirrors the type of tls-core. *)
Record tls_record := TlsRecord {
  r_seq : N;
  r_typ : content_type;
  r_plain : option (list N);
  r_nonce : list N;
  r_ct : list N;
  r_tag : option (list N) }.

(** tls.rs:270-280 [ErrorRepr]; the texts of parse and validation errors are dropped. *)
Inductive missing_field := MTime | MSent | MRecv | MCcs | MVersion | MBinding.
Inductive tls_error :=
| TParse | TMissing (f : missing_field) | TIncomplete (d : direction) (seq : N) | TValidation.

(** core connection.rs:260-269 [CertBindingV1_2], 194-199 [ServerSignature]. *)
Record cert_binding := CertBinding { cb_client : list N; cb_server : list N; cb_key : ephem_key }.
Record server_signature := ServerSignature { ss_alg : sig_alg; ss_sig : list N }.

(** builder.rs:222-228 [SfHashInput]. *)
Record sf_input := SfInput {
  sf_sent : list N; sf_recv : list N; sf_ch_end : nat; sf_shd_end : nat }.

(** tls.rs:24-36 [TlsTranscript]. *)
Record tls_transcript := TlsTranscript {
  tt_time : N;
  tt_version : tls_version;
  tt_signature : option server_signature;
  tt_certs : option (list (list N));
  tt_binding : cert_binding;
  tt_sent : list tls_record;
  tt_recv : list tls_record;
  tt_cf_hash : option (list N);
  tt_session_hash : option (list N);
  tt_sf : option sf_input }.

(** builder.rs:28-40 [TlsTranscriptBuilder]; its setters (44-108) assign one field each. *)
Record tls_builder := TlsBuilder {
  tb_time : option N;
  tb_version : option tls_version;
  tb_tls_sent : option (list N);
  tb_tls_recv : option (list N);
  tb_app_sent : option (list N);
  tb_app_recv : option (list N);
  tb_records_sent : option (list tls_record);
  tb_records_recv : option (list tls_record);
  tb_signature : option server_signature;
  tb_certs : option (list (list N));
  tb_binding : option cert_binding }.

(** The handshake messages that are looked at; handshake.rs [HandshakePayload]. *)
Inductive hs_payload :=
| HsClientHello (random : list N)
| HsServerHello (legacy_version : protocol_version) (random : list N)
| HsCertificate (certs : list (list N))
| HsServerKeyExchange (body : list N)
| HsFinished (verify_data : list N)
| HsOther.

(** Handshake types, enums.rs:128-156. *)
Definition CLIENT_HELLO : N := 1%N.
Definition SERVER_HELLO : N := 2%N.
Definition SERVER_HELLO_DONE : N := 14%N.
Definition CLIENT_KEY_EXCHANGE : N := 16%N.

(** builder.rs:234-243 [parse_raw_records]. Every record read takes at least its header from the
    stream, so that the fuel (the length of the stream) suffices; running out of it, which would
    mean looping forever, is shown as [Panic] and excluded by theorem C22. *)
Fixpoint parse_raw_records (fuel : nat) (l : list N) : outcome tls_error (list message) :=
  match l with
  | [] => Ok []
  | _ :: _ =>
      match fuel with
      | O => Panic
      | S fuel' =>
          match message_read l with
          | Ok (m, l') => let! ms := parse_raw_records fuel' l' in Ok (m :: ms)
          | Err _ => Err TParse
          | Panic => Panic
          end
      end
  end.

(** builder.rs:329-340 [collect_handshake_bytes_pre_ccs]. *)
Fixpoint collect_pre_ccs (rs : list message) : list N :=
  match rs with
  | [] => []
  | r :: rs' =>
      match m_typ r with
      | ChangeCipherSpec => []
      | Handshake => m_payload r ++ collect_pre_ccs rs'
      | _ => collect_pre_ccs rs'
      end
  end.

(** builder.rs:344-372 [HandshakeMsgInfo], [scan_handshake_messages]: the type and the end offset of
    each message. [l] is the rest of the stream at offset [pos]. *)
Record msg_info := MsgInfo { mi_typ : N; mi_end : nat }.
Fixpoint scan_messages (fuel : nat) (pos : nat) (l : list N) : outcome tls_error (list msg_info) :=
  match l with
  | [] => Ok []
  | typ :: l1 =>
      match fuel with
      | O => Panic
      | S fuel' =>
          if length l <? 4 then Err TParse
          else
            let len := N.to_nat (of_be (take 3 l1)) in
            if length l <? 4 + len then Err TParse
            else
              let! rest := scan_messages fuel' (pos + (4 + len)) (drop (4 + len) l) in
              Ok (MsgInfo typ (pos + (4 + len)) :: rest)
      end
  end.

Section Tls.
  (** SHA-256. *)
  Context (sha256 : list N -> list N).
  (** [read_version] after type and length were read, including the check that nothing is left. *)
  Context (parse_body : protocol_version -> N -> list N -> option hs_payload).
  (** [extract_ec_curve_oid], builder.rs:565-581: the curve of a certificate, 0 for P-256, 1 for
      P-384. *)
  Context (ec_curve : list N -> option N).

  Notation read_handshake := (hs_read parse_body TLSv1_2).
  (** builder.rs:247-260 [parse_handshake_stream] (the loop). *)
  Fixpoint parse_messages (fuel : nat) (l : list N) : outcome tls_error (list hs_payload) :=
    match l with
    | [] => Ok []
    | _ :: _ =>
        match fuel with
        | O => Panic
        | S fuel' =>
            match read_handshake l with
            | None => Err TParse
            | Some (p, l') => let! ps := parse_messages fuel' l' in Ok (p :: ps)
            end
        end
    end.

  (** builder.rs:265-324 [compute_handshake_hashes]: client finished hash, session hash, and the
      data for the server finished hash. Slices out of range panic. *)
  Definition compute_hashes (sent recv : list N) (sent_msgs recv_msgs : list msg_info)
    : outcome tls_error (list N * list N * sf_input) :=
    match sent_msgs with
    | [] => Err TParse
    | ch :: _ =>
        if negb (mi_typ ch =? CLIENT_HELLO)%N then Err TParse
        else match List.find (fun m => mi_typ m =? CLIENT_KEY_EXCHANGE)%N sent_msgs with
        | None => Err TParse
        | Some ckx =>
            if negb (existsb (fun m => mi_typ m =? SERVER_HELLO)%N recv_msgs) then Err TParse
            else match List.find (fun m => mi_typ m =? SERVER_HELLO_DONE)%N recv_msgs with
            | None => Err TParse
            | Some shd =>
                let! s1 := or_panic (slice sent 0 (mi_end ch)) in
                let! s2 := or_panic (slice sent (mi_end ch) (mi_end ckx)) in
                let session_hash := sha256 (s1 ++ recv ++ s2) in
                let! r1 := or_panic (slice recv 0 (mi_end shd)) in
                let! s3 := or_panic (slice sent (mi_end ch) (length sent)) in
                let cf_hash := sha256 (s1 ++ r1 ++ s3) in
                Ok (cf_hash, session_hash, SfInput sent recv (mi_end ch) (mi_end shd))
            end
        end
    end.

  (** builder.rs:422-468: the first message of each kind. *)
  Fixpoint find_map {A B} (f : A -> option B) (l : list A) : option B :=
    match l with
    | [] => None
    | a :: l' => match f a with Some b => Some b | None => find_map f l' end
    end.
  Definition get_server_hello (p : hs_payload) : option (protocol_version * list N) :=
    match p with HsServerHello v r => Some (v, r) | _ => None end.
  Definition get_client_hello (p : hs_payload) : option (list N) :=
    match p with HsClientHello r => Some r | _ => None end.
  Definition get_certificate (p : hs_payload) : option (list (list N)) :=
    match p with HsCertificate c => Some c | _ => None end.
  Definition get_ske (p : hs_payload) : option (list N) :=
    match p with HsServerKeyExchange b => Some b | _ => None end.
  (** connection.rs:21-31. *)
  Definition version_of (v : protocol_version) : option tls_version :=
    match v with TLSv1_2 => Some V1_2 | TLSv1_3 => Some V1_3 | _ => None end.

  (** handshake.rs:1500-1714: [ECDHEServerKeyExchange::read] through [unwrap_given_kxa]: the curve
      type must be [NamedCurve] (3); group, public key, scheme and signature; nothing may follow. *)
  Definition parse_ecdhe (l : list N) : option (N * list N * N * list N) :=
    match read_uint 1 l with
    | None => None
    | Some (ct, l1) =>
        if negb (ct =? 3)%N then None else
        match read_uint 2 l1 with
        | None => None
        | Some (group, l2) =>
            match read_payload 1 l2 with
            | None => None
            | Some (public, l3) =>
                match read_uint 2 l3 with
                | None => None
                | Some (scheme, l4) =>
                    match read_payload 2 l4 with
                    | Some (sig, []) => Some (group, public, scheme, sig)
                    | _ => None
                    end
                end
            end
        end
    end.

  (** builder.rs:510-562 [map_signature_scheme]; the algorithms are numbered as in core
      connection.rs:123-135. *)
  Definition map_scheme (scheme : N) (certs : list (list N)) : outcome tls_error sig_alg :=
    let curve := match certs with [] => None | c :: _ => ec_curve c end in
    let by_curve (p256 p384 : N) : outcome tls_error sig_alg :=
      match curve with
      | Some 0%N => Ok p256
      | Some 1%N => Ok p384
      | _ => Err TParse
      end in
    (if scheme =? 0x0401 then Ok 5        (* RSA_PKCS1_SHA256 *)
     else if scheme =? 0x0501 then Ok 6   (* RSA_PKCS1_SHA384 *)
     else if scheme =? 0x0601 then Ok 7   (* RSA_PKCS1_SHA512 *)
     else if scheme =? 0x0804 then Ok 8   (* RSA_PSS_SHA256 *)
     else if scheme =? 0x0805 then Ok 9   (* RSA_PSS_SHA384 *)
     else if scheme =? 0x0806 then Ok 10  (* RSA_PSS_SHA512 *)
     else if scheme =? 0x0807 then Ok 4   (* ED25519 *)
     else if scheme =? 0x0403 then by_curve 0 2  (* ECDSA_NISTP256_SHA256 *)
     else if scheme =? 0x0503 then by_curve 1 3  (* ECDSA_NISTP384_SHA384 *)
     else Err TParse)%N.

  (** builder.rs:397-504 [extract_handshake]. Group 23 is secp256r1. *)
  Definition extract_handshake (sent recv : list hs_payload)
    : outcome tls_error (tls_version * list (list N) * server_signature * cert_binding) :=
    let! (v, server_random) := opt_err TParse (find_map get_server_hello recv) in
    let! version := opt_err TParse (version_of v) in
    let! client_random := opt_err TParse (find_map get_client_hello sent) in
    let! certs := opt_err TParse (find_map get_certificate recv) in
    let! ske := opt_err TParse (find_map get_ske recv) in
    let! (group, public, scheme, sig) := opt_err TParse (parse_ecdhe ske) in
    if negb (group =? 23)%N then Err TParse
    else
      let! alg := map_scheme scheme certs in
      Ok (version, certs, ServerSignature alg sig, CertBinding client_random server_random (EphemKey public)).

  (** builder.rs:375-394 [split_into_record]; NONCE_LEN = 8 and TAG_LEN = 16 (230-231). *)
  Definition split_into_record (seq : N) (typ : content_type) (payload : list N) : outcome tls_error tls_record :=
    if length payload <? 24 then Err TParse
    else
      let! nonce := or_panic (slice payload 0 8) in
      let! ct := or_panic (slice payload 8 (length payload - 16)) in
      let! tag := or_panic (slice payload (length payload - 16) (length payload)) in
      Ok (TlsRecord seq typ None nonce ct (Some tag)).

  (** builder.rs:665-683: the records after the Finished; [app] is what is left of the plaintext. *)
  Fixpoint parse_traffic (seq : N) (rs : list message) (app : option (list N)) : outcome tls_error (list tls_record) :=
    match rs with
    | [] => Ok []
    | r :: rs' =>
        let! rec := split_into_record seq (m_typ r) (m_payload r) in
        match r_typ rec, app with
        | ApplicationData, Some data =>
            if length (r_ct rec) <=? length data then
              let n := length (r_ct rec) in
              let! rest := parse_traffic (seq + 1) rs' (Some (drop n data)) in
              Ok (TlsRecord (r_seq rec) (r_typ rec) (Some (take n data)) (r_nonce rec) (r_ct rec) (r_tag rec) :: rest)
            else Err TParse
        | _, _ => let! rest := parse_traffic (seq + 1) rs' app in Ok (rec :: rest)
        end
    end.

  (** builder.rs:632-635: the position of the first ChangeCipherSpec. *)
  Fixpoint ccs_position (rs : list message) : option nat :=
    match rs with
    | [] => None
    | r :: rs' =>
        match m_typ r with
        | ChangeCipherSpec => Some 0
        | _ => option_map S (ccs_position rs')
        end
    end.

  (** builder.rs:625-687 [parse_records]. The length is checked before the type. *)
  Definition parse_records (rs : list message) (app : option (list N)) : outcome tls_error (list tls_record) :=
    match ccs_position rs with
    | None => Err (TMissing MCcs)
    | Some ccs =>
        match rs !! (ccs + 1) with
        | None => Err TParse
        | Some raw =>
            let! fin := split_into_record 0 (m_typ raw) (m_payload raw) in
            if negb (bool_decide (m_typ raw = Handshake)) then Err TValidation
            else
              let! rest := parse_traffic 1 (drop (ccs + 2) rs) app in
              Ok (fin :: rest)
        end
    end.

  (** builder.rs:583-610 [validate_finished_record]. *)
  Definition validate_finished (r : tls_record) : outcome tls_error unit :=
    if negb (bool_decide (r_typ r = Handshake)) then Err TValidation
    else if negb (r_seq r =? 0)%N then Err TValidation
    else match r_plain r with
    | None => Ok tt
    | Some p =>
        match read_handshake p with
        | Some (HsFinished _, _) => Ok tt
        | _ => Err TValidation
        end
    end.
  (** builder.rs:612-622 [validate_seq]. *)
  Fixpoint validate_seq (rs : list tls_record) : outcome tls_error unit :=
    match rs with
    | a :: (b :: _) as rs' => if (r_seq b <=? r_seq a)%N then Err TValidation else validate_seq rs'
    | _ => Ok tt
    end.

  Definition parse_opt (o : option (list N)) : outcome tls_error (option (list message)) :=
    match o with
    | Some l => let! rs := parse_raw_records (length l) l in Ok (Some rs)
    | None => Ok None
    end.

  Definition or_else {A} (a : option A) (b : A) : option A := match a with Some _ => a | None => Some b end.

  (** builder.rs:140-164: the records of one direction. *)
  Definition build_records (given : option (list tls_record)) (raw : option (list message))
    (app : option (list N)) (f : missing_field) : outcome tls_error (list tls_record) :=
    let! rs :=
      match given with
      | Some rs =>
          match rs with
          | [] => Panic
          | first :: _ => let! _ := validate_finished first in Ok rs
          end
      | None =>
          match raw with
          | Some raw => parse_records raw app
          | None => Err (TMissing f)
          end
      end in
    let! _ := validate_seq rs in
    Ok rs.

  (** builder.rs:190-219 [parse_handshake_components], without the assignments to the builder. *)
  Definition handshake_components (sent_raw recv_raw : list message) :=
    let sent := collect_pre_ccs sent_raw in
    let! sent_hs := parse_messages (length sent) sent in
    let recv := collect_pre_ccs recv_raw in
    let! recv_hs := parse_messages (length recv) recv in
    let! hs := extract_handshake sent_hs recv_hs in
    let! sent_msgs := scan_messages (length sent) 0 sent in
    let! recv_msgs := scan_messages (length recv) 0 recv in
    let! hashes := compute_hashes sent recv sent_msgs recv_msgs in
    Ok (hs, hashes).

  (** builder.rs:113-187 [build]. *)
  Definition tls_build (b : tls_builder) : outcome tls_error tls_transcript :=
    let! time := opt_err (TMissing MTime) (tb_time b) in
    let! sent_raw := parse_opt (tb_tls_sent b) in
    let! recv_raw := parse_opt (tb_tls_recv b) in
    let! (version, signature, certs, binding, hashes) :=
      match sent_raw, recv_raw with
      | Some s, Some r =>
          let! (v, c, sg, bd, h) := handshake_components s r in
          Ok (or_else (tb_version b) v, or_else (tb_signature b) sg, or_else (tb_certs b) c,
              or_else (tb_binding b) bd, Some h)
      | _, _ => Ok (tb_version b, tb_signature b, tb_certs b, tb_binding b, None)
      end in
    let! sent := build_records (tb_records_sent b) sent_raw (tb_app_sent b) MSent in
    let! recv := build_records (tb_records_recv b) recv_raw (tb_app_recv b) MRecv in
    let! version := opt_err (TMissing MVersion) version in
    let! binding := opt_err (TMissing MBinding) binding in
    Ok (TlsTranscript time version signature certs binding sent recv
          (option_map (fun h => fst (fst h)) hashes) (option_map (fun h => snd (fst h)) hashes)
          (option_map snd hashes)).

  (** tls.rs:125-146 [sf_hash]; a slice out of range panics. *)
  Definition tls_sf_hash (t : tls_transcript) (cf_vd : list N) : panicky (option (list N)) :=
    match tt_sf t with
    | None => Ok None
    | Some i =>
        let! s1 := or_panic (slice (sf_sent i) 0 (sf_ch_end i)) in
        let! r1 := or_panic (slice (sf_recv i) 0 (sf_shd_end i)) in
        let! s2 := or_panic (slice (sf_sent i) (sf_ch_end i) (length (sf_sent i))) in
        let! r2 := or_panic (slice (sf_recv i) (sf_shd_end i) (length (sf_recv i))) in
        Ok (Some (sha256 (s1 ++ r1 ++ s2 ++ [0x14; 0x00; 0x00; 0x0c]%N ++ cf_vd ++ r2)))
    end.
End Tls.

(** tls.rs:80-107 [client_finished]/[cf_vd] and [server_finished]/[sf_vd]: the plaintext of the
    first record without the four byte message header. *)
Definition first_vd (rs : list tls_record) : panicky (option (list N)) :=
  match rs with
  | [] => Panic
  | r :: _ =>
      Ok (match r_plain r with
          | Some p => if 4 <=? length p then Some (drop 4 p) else None
          | None => None
          end)
  end.
Definition tls_cf_vd (t : tls_transcript) : panicky (option (list N)) := first_vd (tt_sent t).
Definition tls_sf_vd (t : tls_transcript) : panicky (option (list N)) := first_vd (tt_recv t).

(** tls.rs:149-186 [to_transcript]. *)
Fixpoint collect_plain (d : direction) (rs : list tls_record) : outcome tls_error (list N) :=
  match rs with
  | [] => Ok []
  | r :: rs' =>
      match r_typ r with
      | ApplicationData =>
          match r_plain r with
          | None => Err (TIncomplete d (r_seq r))
          | Some p => let! rest := collect_plain d rs' in Ok (p ++ rest)
          end
      | _ => collect_plain d rs'
      end
  end.
Definition to_transcript (t : tls_transcript) : outcome tls_error transcript :=
  let! sent := collect_plain Sent (tt_sent t) in
  let! recv := collect_plain Received (tt_recv t) in
  Ok (Transcript sent recv).
