(** Vocabulary for the theorems about TLS transcripts (C21-C24). *)
From Verif.Lib Require Import Base.
From Verif Require Import TranscriptModel CodecModel CodecSpec AttestModel TlsModel.

(** ** C21: what the records of one direction must look like *)

(** The bytes a record had on the wire, behind the record header. *)
Definition wire_payload (r : tls_record) : list N := r_nonce r ++ r_ct r ++ default [] (r_tag r).

(** The plaintexts of the records agree with the plaintext stream [app] of the application:
    nothing is known if there is none. Otherwise each application data record, and no other,
    holds a plaintext, as long as its ciphertext, and these are a prefix of [app]. *)
Definition plaintexts_from (app : option (list N)) (rs : list tls_record) : Prop :=
  match app with
  | None => Forall (fun r => r_plain r = None) rs
  | Some data =>
      Forall (fun r =>
        match r_typ r with
        | ApplicationData => exists p, r_plain r = Some p /\ length p = length (r_ct r)
        | _ => r_plain r = None
        end) rs /\
      exists unused, data = concat (map (fun r => default [] (r_plain r)) rs) ++ unused
  end.

(** [rs] are the encrypted records of a stream of records [ms]: the stream is split at the first
    ChangeCipherSpec, the next record is the Finished message, and the others follow. *)
Record records_of (ms : list message) (app : option (list N)) (rs : list tls_record) : Prop := {
  ro_split : exists before ccs fin after,
    ms = before ++ [ccs; fin] ++ after /\
    Forall (fun m => m_typ m <> ChangeCipherSpec) before /\ m_typ ccs = ChangeCipherSpec /\
    m_typ fin = Handshake /\
    map r_typ rs = map m_typ (fin :: after) /\
    map wire_payload rs = map m_payload (fin :: after);
  ro_seq : map r_seq rs = map N.of_nat (seq 0 (length rs));
  ro_sizes : Forall (fun r => length (r_nonce r) = 8 /\ exists tag, r_tag r = Some tag /\ length tag = 16) rs;
  ro_plain : plaintexts_from app rs;
}.

(** The streams that can be split this way. *)
Definition can_be_split (ms : list message) (app : option (list N)) : Prop :=
  exists before ccs fin after,
    ms = before ++ [ccs; fin] ++ after /\
    Forall (fun m => m_typ m <> ChangeCipherSpec) before /\ m_typ ccs = ChangeCipherSpec /\
    m_typ fin = Handshake /\
    Forall (fun m => 24 <= length (m_payload m)) (fin :: after) /\
    match app with
    | None => True
    | Some data =>
        sum_list_with (fun m => length (m_payload m) - 24)
          (List.filter (fun m => bool_decide (m_typ m = ApplicationData)) after) <= length data
    end.

(** ** C22 *)
(** The records of one direction of a transcript: sequence numbers increase strictly, and the first
    is the Finished record: of type handshake, with number 0, and holding a Finished message if its
    plaintext is known. *)
Definition well_sequenced (rs : list tls_record) : Prop :=
  StronglySorted (fun a b => (r_seq a < r_seq b)%N) rs /\
  exists fin rest, rs = fin :: rest /\ r_typ fin = Handshake /\ r_seq fin = 0%N /\
    forall p, r_plain fin = Some p ->
      exists verify_data trailing, p = hs_wire 20 verify_data ++ trailing.

(** What the theorems need to know of the parser of handshake messages: the only message that is
    recognized as Finished is number 20, and its body is the verify data. *)
Definition finished_is_20 (parse_body : protocol_version -> N -> list N -> option hs_payload) : Prop :=
  forall v typ body vd, parse_body v typ body = Some (HsFinished vd) -> typ = 20%N /\ vd = body.

(** ** C23: a full handshake *)
(** A handshake message is its type and its body. *)
Notation hs_message := (N * list N)%type.
Definition msg_wire (m : hs_message) : list N := hs_wire (fst m) (snd m).
Definition msgs_wire (ms : list hs_message) : list N := concat (map msg_wire ms).

(** The messages of a full TLS 1.2 handshake (RFC 5246, section 7.3) up to the Finished messages.
    The client flight comes after ServerHelloDone: an optional Certificate, then ClientKeyExchange,
    then an optional CertificateVerify. The server may send a NewSessionTicket just before its
    ChangeCipherSpec (RFC 5077, section 3.3), that is after the Finished message of the client. *)
Record full_handshake := FullHandshake {
  fh_client_hello : list N;
  fh_server_flight : list hs_message;      (* ServerHello, Certificate, ServerKeyExchange, ... *)
  fh_client_cert : list hs_message;
  fh_cke : list N;
  fh_cert_verify : list hs_message;
  fh_ticket : list hs_message;
}.
Definition CH (h : full_handshake) : hs_message := (1%N, fh_client_hello h).
Definition SHD : hs_message := (14%N, []).
Definition CKE (h : full_handshake) : hs_message := (16%N, fh_cke h).
Definition FIN (vd : list N) : hs_message := (20%N, vd).

Record full_handshake_ok (h : full_handshake) : Prop := {
  fho_sizes : Forall (fun m => (N.of_nat (length (snd m)) < 2 ^ 24)%N)
     (CH h :: fh_server_flight h ++ fh_client_cert h ++ [CKE h] ++ fh_cert_verify h ++ fh_ticket h);
  fho_server_hello : exists sh rest, fh_server_flight h = (2%N, sh) :: rest;
  fho_server_flight : Forall (fun m => fst m ∈ [2; 11; 22; 12; 13]%N) (fh_server_flight h);
  fho_client_cert : Forall (fun m => fst m = 11%N) (fh_client_cert h);
  fho_cert_verify : Forall (fun m => fst m = 15%N) (fh_cert_verify h);
  fho_ticket : Forall (fun m => fst m = 4%N) (fh_ticket h);
}.

(** The messages of each direction before its ChangeCipherSpec. *)
Definition client_messages (h : full_handshake) : list hs_message :=
  CH h :: fh_client_cert h ++ [CKE h] ++ fh_cert_verify h.
Definition server_messages (h : full_handshake) : list hs_message :=
  fh_server_flight h ++ [SHD] ++ fh_ticket h.

(** All messages in the order in which they are exchanged, up to the one before the Finished message
    of the client, and with it and the ticket. *)
Definition until_key_exchange (h : full_handshake) : list hs_message :=
  [CH h] ++ fh_server_flight h ++ [SHD] ++ fh_client_cert h ++ [CKE h].
Definition until_client_finished (h : full_handshake) : list hs_message :=
  until_key_exchange h ++ fh_cert_verify h.
Definition until_server_finished (h : full_handshake) (cf_vd : list N) : list hs_message :=
  until_client_finished h ++ [FIN cf_vd] ++ fh_ticket h.

(** The stream [raw] carries the messages [ms] before its first ChangeCipherSpec, fragmented into
    handshake records in any way (messages may share records), possibly with records of other types
    in between. *)
Definition carries (raw : list N) (ms : list hs_message) : Prop :=
  exists before rest,
    raw = concat (map wire (before ++ rest)) /\ Forall record_ok (before ++ rest) /\
    Forall (fun m => m_typ m <> ChangeCipherSpec) before /\
    (exists ccs rest', rest = ccs :: rest' /\ m_typ ccs = ChangeCipherSpec) /\
    concat (map m_payload (List.filter (fun m => bool_decide (m_typ m = Handshake)) before)) = msgs_wire ms.

(** ** C24 *)
Definition tls_dir (t : tls_transcript) (d : direction) : list tls_record :=
  match d with Sent => tt_sent t | Received => tt_recv t end.
Definition app_records (rs : list tls_record) : list tls_record :=
  List.filter (fun r => bool_decide (r_typ r = ApplicationData)) rs.
(** The plaintexts of the application data records are all known, and are [ps]. *)
Definition app_plaintexts (rs : list tls_record) (ps : list (list N)) : Prop :=
  map r_plain (app_records rs) = map Some ps.
(** [r] is the first application data record whose plaintext is unknown. *)
Definition first_unknown (rs : list tls_record) (r : tls_record) : Prop :=
  exists l1 l2 ps, app_records rs = l1 ++ r :: l2 /\ map r_plain l1 = map Some ps /\ r_plain r = None.

(** ** The inputs of a builder by direction *)
Definition b_raw (b : tls_builder) (d : direction) : option (list N) :=
  match d with Sent => tb_tls_sent b | Received => tb_tls_recv b end.
Definition b_app (b : tls_builder) (d : direction) : option (list N) :=
  match d with Sent => tb_app_sent b | Received => tb_app_recv b end.
Definition b_given (b : tls_builder) (d : direction) : option (list tls_record) :=
  match d with Sent => tb_records_sent b | Received => tb_records_recv b end.
(** Everything handed to the builder consists of bytes. *)
Definition builder_bytes_ok (b : tls_builder) : Prop := forall d,
  (forall l, b_raw b d = Some l -> bytes_ok l) /\
  (forall rs r p, b_given b d = Some rs -> r ∈ rs -> r_plain r = Some p -> bytes_ok p).

(** Input from which the records of a direction can be built: records that are well sequenced, or a
    stream that can be split. *)
Definition dir_input_ok (b : tls_builder) (d : direction) : Prop :=
  match b_given b d with
  | Some rs => well_sequenced rs /\ (forall fin p vd trailing, head rs = Some fin -> r_plain fin = Some p ->
                 p = hs_wire 20 vd ++ trailing -> (N.of_nat (length vd) < 2 ^ 24)%N)
  | None => exists l ms, b_raw b d = Some l /\ l = concat (map wire ms) /\ Forall record_ok ms /\
              can_be_split ms (b_app b d)
  end.

(** ** C53: what the handshake says *)
(** The body of a ServerKeyExchange message with ephemeral elliptic curve Diffie-Hellman parameters
    over a named curve (RFC 8422, section 5.4): the group, the public key of the server, the
    signature scheme, and the signature. *)
Definition ske_wire (group : N) (key : list N) (scheme : N) (sig : list N) : list N :=
  [3%N] ++ be 2 group ++ be 1 (N.of_nat (length key)) ++ key ++
  be 2 scheme ++ be 2 (N.of_nat (length sig)) ++ sig.
Record ske_sizes (group : N) (key : list N) (scheme : N) (sig : list N) : Prop := {
  sks_group : (group < 2 ^ 16)%N;
  sks_key : length key < 256;
  sks_scheme : (scheme < 2 ^ 16)%N;
  sks_sig : (N.of_nat (length sig) < 2 ^ 16)%N;
}.

(** Signature algorithms of core, connection.rs:123-135, in the order of their declaration; the
    schemes are those of the TLS registry. An ECDSA scheme of TLS 1.2 names only the hash function,
    the curve is that of the end entity certificate. *)
Inductive algorithm_is (curve : option N) : N -> N -> Prop :=
| alg_ecdsa_p256_sha256 : curve = Some 0%N -> algorithm_is curve 0x0403 0
| alg_ecdsa_p256_sha384 : curve = Some 0%N -> algorithm_is curve 0x0503 1
| alg_ecdsa_p384_sha256 : curve = Some 1%N -> algorithm_is curve 0x0403 2
| alg_ecdsa_p384_sha384 : curve = Some 1%N -> algorithm_is curve 0x0503 3
| alg_ed25519 : algorithm_is curve 0x0807 4
| alg_rsa_sha256 : algorithm_is curve 0x0401 5
| alg_rsa_sha384 : algorithm_is curve 0x0501 6
| alg_rsa_sha512 : algorithm_is curve 0x0601 7
| alg_pss_sha256 : algorithm_is curve 0x0804 8
| alg_pss_sha384 : algorithm_is curve 0x0805 9
| alg_pss_sha512 : algorithm_is curve 0x0806 10.

(** [p] is the first element of [l] that has the shape [f]. *)
Definition first_is {A} (f : A -> hs_payload) (l : list hs_payload) (a : A) : Prop :=
  exists before after, l = before ++ f a :: after /\ forall a', f a' ∉ before.
Definition supported (v : protocol_version) (version : tls_version) : Prop :=
  (v = TLSv1_2 /\ version = V1_2) \/ (v = TLSv1_3 /\ version = V1_3).

(** What client and server said: [sent] and [recv] are the parsed messages of either direction. *)
Record handshake_says (ec_curve : list N -> option N) (sent recv : list hs_payload)
  (version : tls_version) (certs : list (list N)) (alg : N) (sig : list N)
  (client_random server_random key : list N) : Prop := {
  hy_client_hello : first_is HsClientHello sent client_random;
  hy_server_hello : exists v, first_is (fun x => HsServerHello (fst x) (snd x)) recv (v, server_random) /\
    supported v version;
  hy_certs : first_is HsCertificate recv certs;
  hy_key_exchange : exists scheme, first_is HsServerKeyExchange recv (ske_wire 23 key scheme sig) /\
    ske_sizes 23 key scheme sig /\
    algorithm_is (match certs with [] => None | c :: _ => ec_curve c end) scheme alg;
}.
(** The messages parse. *)
Definition messages_parse (parse_body : protocol_version -> N -> list N -> option hs_payload)
  (ms : list hs_message) (ps : list hs_payload) : Prop :=
  Forall2 (fun m p => parse_body TLSv1_2 (fst m) (snd m) = Some p) ms ps.
(** The parser hands out bytes when it is given bytes. *)
Definition parses_to_bytes (parse_body : protocol_version -> N -> list N -> option hs_payload) : Prop :=
  forall v typ body b, bytes_ok body -> parse_body v typ body = Some (HsServerKeyExchange b) -> bytes_ok b.
