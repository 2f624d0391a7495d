(** Model of the handshake messages: crates/tls-core/src/msgs/handshake.rs.

    A value of an enumeration made by [enum_builder] (macros.rs) is its number: reading gives the
    number's value and encoding writes the number back. [Unknown(x)] for an [x] that has a name is
    thereby the same as the name; reading never gives it.

    A read is [Ok] with the value and the unread bytes, [Err tt] for [None]; [Panic] stands for a loop
    that never ends (excluded by theorem C60). *)
From Verif.Lib Require Import Base.
From Verif Require Import CodecModel TlsModel.

Definition rd (A : Type) := bytes -> outcome unit (A * bytes).
(** codec.rs:74-174 and macros.rs: integers and enumerations of [n] bytes. *)
Definition rd_int (n : nat) : rd N := fun l => opt_err tt (read_uint n l).
(** base.rs:38-156: bytes behind a length of [n] bytes. *)
Definition rd_pay (n : nat) : rd bytes := fun l => opt_err tt (read_payload n l).
(** codec.rs:23-31 [take]. *)
Definition rd_take (n : nat) : rd bytes := fun l => opt_err tt (take_bytes n l).
(** base.rs:12-36 [Payload::read]: everything left. *)
Definition rd_rest : rd bytes := fun l => Ok (l, []).
(** codec.rs:223-225: [while sub.any_left() { ret.push(T::read(&mut sub)?) }]. *)
Fixpoint rd_items {A} (item : bytes -> outcome unit (A * bytes)) (fuel : nat) (sub : bytes) : outcome unit (list A) :=
  match sub with
  | [] => Ok []
  | _ :: _ =>
      match fuel with
      | O => Panic
      | S fuel' =>
          let! (x, sub') := item sub in
          let! xs := rd_items item fuel' sub' in
          Ok (x :: xs)
      end
  end.
(** codec.rs:218-256 [read_vec_u8], [read_vec_u16], [read_vec_u24_limited]. *)
Definition rd_vec {A} (n : nat) (limit : option N) (item : bytes -> outcome unit (A * bytes)) : rd (list A) := fun l =>
  let! (len, l1) := rd_int n l in
  if match limit with Some m => (m <? len)%N | None => false end then Err tt
  else
    let! (sub, l2) := rd_take (N.to_nat len) l1 in
    let! xs := rd_items item (length sub) sub in
    Ok (xs, l2).
(** [if sub.any_left() { None } else { Some(_) }]. *)
Definition whole {A} (r : outcome unit (A * bytes)) : outcome unit A :=
  let! (x, l) := r in
  match l with [] => Ok x | _ :: _ => Err tt end.

(** handshake.rs:65-75 [Random]. *)
Definition rd_random : rd bytes := rd_take 32.
(** handshake.rs:127-147 [SessionID]: [data[..len]]. *)
Definition rd_sid : rd bytes := fun l =>
  let! (len, l) := rd_int 1 l in
  if (32 <? len)%N then Err tt else rd_take (N.to_nat len) l.
Definition enc_sid (s : bytes) : bytes := enc_payload 1 s.

(** The frame of all extensions: type, u16 length, body; the body must be read completely. E.g.
    handshake.rs:592-693. *)
Definition rd_ext {A} (body : N -> bytes -> outcome unit (A * bytes)) : rd A := fun l =>
  let! (typ, l) := rd_int 2 l in
  let! (len, l) := rd_int 2 l in
  let! (sub, l) := rd_take (N.to_nat len) l in
  let! x := whole (body typ sub) in
  Ok (x, l).
Definition enc_ext (typ : N) (body : bytes) : bytes := enc_uint 2 typ ++ enc_payload 2 body.

(** enums.rs:227-267 [ExtensionType]: the ones with a meaning here. *)
Definition X_SERVER_NAME : N := 0x0000%N.
Definition X_STATUS_REQUEST : N := 0x0005%N.
Definition X_GROUPS : N := 0x000a%N.
Definition X_POINT_FORMATS : N := 0x000b%N.
Definition X_SIG_ALGS : N := 0x000d%N.
Definition X_ALPN : N := 0x0010%N.
Definition X_SCT : N := 0x0012%N.
Definition X_EMS : N := 0x0017%N.
Definition X_TICKET : N := 0x0023%N.
Definition X_PSK : N := 0x0029%N.
Definition X_EARLY_DATA : N := 0x002a%N.
Definition X_VERSIONS : N := 0x002b%N.
Definition X_COOKIE : N := 0x002c%N.
Definition X_PSK_MODES : N := 0x002d%N.
Definition X_AUTHORITIES : N := 0x002f%N.
Definition X_KEY_SHARE : N := 0x0033%N.
Definition X_TRANSPORT : N := 0x0039%N.
Definition X_RENEGOTIATION : N := 0xff01%N.
Definition X_TRANSPORT_DRAFT : N := 0xffa5%N.

(** handshake.rs:241-302 [ServerName]: a host name has type 0, its bytes are a [DnsName]; any other type
    takes all that is left. *)
Inductive server_name := HostName (raw : bytes) | OtherName (typ : N) (payload : bytes).
Definition enc_server_name (s : server_name) : bytes :=
  match s with
  | HostName raw => enc_uint 1 0 ++ enc_payload 2 raw
  | OtherName typ p => enc_uint 1 typ ++ p
  end.

(** handshake.rs:376-413 [KeyShareEntry]. *)
Record key_share := KeyShare { ks_group : N; ks_payload : bytes }.
Definition rd_key_share : rd key_share := fun l =>
  let! (g, l) := rd_int 2 l in let! (p, l) := rd_pay 2 l in Ok (KeyShare g p, l).
Definition enc_key_share (k : key_share) : bytes := enc_uint 2 (ks_group k) ++ enc_payload 2 (ks_payload k).

(** handshake.rs:416-483 [PresharedKeyIdentity], [PresharedKeyOffer]. *)
Record psk_identity := PskIdentity { pi_identity : bytes; pi_age : N }.
Definition rd_psk_identity : rd psk_identity := fun l =>
  let! (i, l) := rd_pay 2 l in let! (a, l) := rd_int 4 l in Ok (PskIdentity i a, l).
Definition enc_psk_identity (i : psk_identity) : bytes := enc_payload 2 (pi_identity i) ++ enc_uint 4 (pi_age i).
Record psk_offer := PskOffer { po_identities : list psk_identity; po_binders : list bytes }.
Definition rd_psk_offer : rd psk_offer := fun l =>
  let! (i, l) := rd_vec 2 None rd_psk_identity l in let! (b, l) := rd_vec 2 None (rd_pay 1) l in Ok (PskOffer i b, l).
Definition enc_psk_offer (o : psk_offer) : bytes :=
  enc_vec 2 enc_psk_identity (po_identities o) ++ enc_vec 2 (enc_payload 1) (po_binders o).

(** handshake.rs:486-552 [CertificateStatusRequest]. *)
Inductive status_request := OcspRequest (responders : list bytes) (extensions : bytes) | OtherStatus (typ : N) (payload : bytes).
Definition rd_status_request : rd status_request := fun l =>
  let! (typ, l) := rd_int 1 l in
  if (typ =? 1)%N then
    let! (r, l) := rd_vec 2 None (rd_pay 2) l in let! (e, l) := rd_pay 2 l in Ok (OcspRequest r e, l)
  else let! (p, l) := rd_rest l in Ok (OtherStatus typ p, l).
Definition enc_status_request (s : status_request) : bytes :=
  match s with
  | OcspRequest r e => enc_uint 1 1 ++ enc_vec 2 (enc_payload 2) r ++ enc_payload 2 e
  | OtherStatus typ p => enc_uint 1 typ ++ p
  end.

(** handshake.rs:570-615 [ClientExtension]; the two [ClientSessionTicket] (726-730) are two cases. *)
Inductive client_ext :=
| CxPointFormats (fs : list N) | CxGroups (gs : list N) | CxSigAlgs (ss : list N) | CxServerName (ns : list server_name)
| CxTicketRequest | CxTicketOffer (t : bytes) | CxProtocols (ps : list bytes) | CxVersions (vs : list N)
| CxKeyShare (ks : list key_share) | CxPskModes (ms : list N) | CxPsk (o : psk_offer) | CxCookie (c : bytes)
| CxEms | CxStatus (s : status_request) | CxSct | CxTransport (t : bytes) | CxTransportDraft (t : bytes) | CxEarlyData
| CxUnknown (typ : N) (payload : bytes).
(** handshake.rs:593-615 [get_type]. *)
Definition cx_type (x : client_ext) : N :=
  match x with
  | CxPointFormats _ => X_POINT_FORMATS | CxGroups _ => X_GROUPS | CxSigAlgs _ => X_SIG_ALGS
  | CxServerName _ => X_SERVER_NAME | CxTicketRequest | CxTicketOffer _ => X_TICKET | CxProtocols _ => X_ALPN
  | CxVersions _ => X_VERSIONS | CxKeyShare _ => X_KEY_SHARE | CxPskModes _ => X_PSK_MODES | CxPsk _ => X_PSK
  | CxCookie _ => X_COOKIE | CxEms => X_EMS | CxStatus _ => X_STATUS_REQUEST | CxSct => X_SCT
  | CxTransport _ => X_TRANSPORT | CxTransportDraft _ => X_TRANSPORT_DRAFT | CxEarlyData => X_EARLY_DATA
  | CxUnknown t _ => t
  end.
(** handshake.rs:618-650 [encode]. *)
Definition cx_body (x : client_ext) : bytes :=
  match x with
  | CxPointFormats l => enc_vec 1 (enc_uint 1) l
  | CxGroups l | CxSigAlgs l => enc_vec 2 (enc_uint 2) l
  | CxServerName l => enc_vec 2 enc_server_name l
  | CxTicketRequest | CxEms | CxSct | CxEarlyData => []
  | CxTicketOffer t => t
  | CxProtocols l => enc_vec 2 (enc_payload 1) l
  | CxVersions l => enc_vec 1 (enc_uint 2) l
  | CxKeyShare l => enc_vec 2 enc_key_share l
  | CxPskModes l => enc_vec 1 (enc_uint 1) l
  | CxPsk o => enc_psk_offer o
  | CxCookie c => enc_payload 2 c
  | CxStatus s => enc_status_request s
  | CxTransport t | CxTransportDraft t => t
  | CxUnknown _ p => p
  end.
Definition enc_client_ext (x : client_ext) : bytes := enc_ext (cx_type x) (cx_body x).
Definition any_left (l : bytes) : bool := match l with [] => false | _ => true end.

(** handshake.rs:732-749 [ServerExtension] and 751-771 [get_type]. *)
Inductive server_ext :=
| SxPointFormats (fs : list N) | SxServerName | SxTicket | SxRenegotiation (p : bytes) | SxProtocols (ps : list bytes)
| SxKeyShare (k : key_share) | SxPsk (index : N) | SxEms | SxStatus | SxSct (l : list bytes) | SxVersions (v : N)
| SxTransport (t : bytes) | SxTransportDraft (t : bytes) | SxEarlyData | SxUnknown (typ : N) (payload : bytes).
Definition sx_type (x : server_ext) : N :=
  match x with
  | SxPointFormats _ => X_POINT_FORMATS | SxServerName => X_SERVER_NAME | SxTicket => X_TICKET
  | SxRenegotiation _ => X_RENEGOTIATION | SxProtocols _ => X_ALPN | SxKeyShare _ => X_KEY_SHARE | SxPsk _ => X_PSK
  | SxEms => X_EMS | SxStatus => X_STATUS_REQUEST | SxSct _ => X_SCT | SxVersions _ => X_VERSIONS
  | SxTransport _ => X_TRANSPORT | SxTransportDraft _ => X_TRANSPORT_DRAFT | SxEarlyData => X_EARLY_DATA
  | SxUnknown t _ => t
  end.
(** handshake.rs:774-802 [encode]. *)
Definition sx_body (x : server_ext) : bytes :=
  match x with
  | SxPointFormats l => enc_vec 1 (enc_uint 1) l
  | SxServerName | SxTicket | SxEms | SxStatus | SxEarlyData => []
  | SxRenegotiation p => enc_payload 1 p
  | SxProtocols l => enc_vec 2 (enc_payload 1) l
  | SxKeyShare k => enc_key_share k
  | SxPsk i => enc_uint 2 i
  | SxSct l => enc_vec 2 (enc_payload 2) l
  | SxVersions v => enc_uint 2 v
  | SxTransport t | SxTransportDraft t => t
  | SxUnknown _ p => p
  end.
Definition enc_server_ext (x : server_ext) : bytes := enc_ext (sx_type x) (sx_body x).
(** handshake.rs:804-847 [read]. *)
Definition rd_server_ext : rd server_ext := rd_ext (fun typ l => (
  if typ =? X_POINT_FORMATS then let! (x, l) := rd_vec 1 None (rd_int 1) l in Ok (SxPointFormats x, l)
  else if typ =? X_SERVER_NAME then Ok (SxServerName, l)
  else if typ =? X_TICKET then Ok (SxTicket, l)
  else if typ =? X_STATUS_REQUEST then Ok (SxStatus, l)
  else if typ =? X_RENEGOTIATION then let! (x, l) := rd_pay 1 l in Ok (SxRenegotiation x, l)
  else if typ =? X_ALPN then let! (x, l) := rd_vec 2 None (rd_pay 1) l in Ok (SxProtocols x, l)
  else if typ =? X_KEY_SHARE then let! (x, l) := rd_key_share l in Ok (SxKeyShare x, l)
  else if typ =? X_PSK then let! (x, l) := rd_int 2 l in Ok (SxPsk x, l)
  else if typ =? X_EMS then Ok (SxEms, l)
  else if typ =? X_SCT then let! (x, l) := rd_vec 2 None (rd_pay 2) l in Ok (SxSct x, l)
  else if typ =? X_VERSIONS then let! (x, l) := rd_int 2 l in Ok (SxVersions x, l)
  else if typ =? X_TRANSPORT then let! (x, l) := rd_rest l in Ok (SxTransport x, l)
  else if typ =? X_TRANSPORT_DRAFT then let! (x, l) := rd_rest l in Ok (SxTransportDraft x, l)
  else if typ =? X_EARLY_DATA then Ok (SxEarlyData, l)
  else let! (x, l) := rd_rest l in Ok (SxUnknown typ x, l))%N).

(** handshake.rs:1036-1105 [HelloRetryExtension]. *)
Inductive retry_ext := RxKeyShare (group : N) | RxCookie (c : bytes) | RxVersions (v : N) | RxUnknown (typ : N) (payload : bytes).
Definition rx_type (x : retry_ext) : N :=
  match x with RxKeyShare _ => X_KEY_SHARE | RxCookie _ => X_COOKIE | RxVersions _ => X_VERSIONS | RxUnknown t _ => t end.
Definition rx_body (x : retry_ext) : bytes :=
  match x with RxKeyShare g => enc_uint 2 g | RxCookie c => enc_payload 2 c | RxVersions v => enc_uint 2 v | RxUnknown _ p => p end.
Definition enc_retry_ext (x : retry_ext) : bytes := enc_ext (rx_type x) (rx_body x).
Definition rd_retry_ext : rd retry_ext := rd_ext (fun typ l => (
  if typ =? X_KEY_SHARE then let! (x, l) := rd_int 2 l in Ok (RxKeyShare x, l)
  else if typ =? X_COOKIE then let! (x, l) := rd_pay 2 l in Ok (RxCookie x, l)
  else if typ =? X_VERSIONS then let! (x, l) := rd_int 2 l in Ok (RxVersions x, l)
  else let! (x, l) := rd_rest l in Ok (RxUnknown typ x, l))%N).

(** handshake.rs:1107-1143 [HelloRetryRequest]; the version is read before. *)
Record retry_request := RetryRequest { rr_version : N; rr_sid : bytes; rr_suite : N; rr_exts : list retry_ext }.
(** handshake.rs:59-62. *)
Definition RETRY_RANDOM : bytes := [
  0xcf; 0x21; 0xad; 0x74; 0xe5; 0x9a; 0x61; 0x11; 0xbe; 0x1d; 0x8c; 0x02; 0x1e; 0x65; 0xb8; 0x91;
  0xc2; 0xa2; 0x11; 0x16; 0x7a; 0xbb; 0x8c; 0x5e; 0x07; 0x9e; 0x09; 0xe2; 0xc8; 0xa8; 0x33; 0x9c]%N.
Definition rd_retry_request (version : N) : rd retry_request := fun l =>
  let! (s, l) := rd_sid l in
  let! (c, l) := rd_int 2 l in
  let! (k, l) := rd_int 1 l in
  if negb (k =? 0)%N then Err tt
  else let! (x, l) := rd_vec 2 None rd_retry_ext l in Ok (RetryRequest version s c x, l).
Definition enc_retry_request (r : retry_request) : bytes :=
  enc_uint 2 (rr_version r) ++ RETRY_RANDOM ++ enc_sid (rr_sid r) ++ enc_uint 2 (rr_suite r) ++ enc_uint 1 0
  ++ enc_vec 2 enc_retry_ext (rr_exts r).

(** handshake.rs:1191-1236 [ServerHelloPayload]; version and random are read before. *)
Record server_hello := ServerHello {
  sh_version : N; sh_random : bytes; sh_sid : bytes; sh_suite : N; sh_compression : N; sh_exts : list server_ext }.
Definition rd_server_hello (version : N) (random : bytes) : rd server_hello := fun l =>
  let! (s, l) := rd_sid l in
  let! (c, l) := rd_int 2 l in
  let! (k, l) := rd_int 1 l in
  let! (x, l) := rd_vec 2 None rd_server_ext l in
  if any_left l then Err tt else Ok (ServerHello version random s c k x, l).
Definition enc_server_hello (h : server_hello) : bytes :=
  enc_uint 2 (sh_version h) ++ sh_random h ++ enc_sid (sh_sid h) ++ enc_uint 2 (sh_suite h)
  ++ enc_uint 1 (sh_compression h) ++ enc_vec 2 enc_server_ext (sh_exts h).

(** handshake.rs:1302-1312 [CertificatePayload]. *)
Definition rd_certificates : rd (list bytes) := rd_vec 3 (Some 0x10000%N) (rd_pay 3).
Definition enc_certificates (cs : list bytes) : bytes := enc_vec 3 (enc_payload 3) cs.

(** handshake.rs:2026-2063 [CertificateStatus]. *)
Definition rd_cert_status : rd bytes := fun l =>
  let! (typ, l) := rd_int 1 l in if (typ =? 1)%N then rd_pay 3 l else Err tt.
Definition enc_cert_status (s : bytes) : bytes := enc_uint 1 1 ++ enc_payload 3 s.

(** handshake.rs:1318-1402 [CertificateExtension]. *)
Inductive cert_ext := TxStatus (s : bytes) | TxSct (l : list bytes) | TxUnknown (typ : N) (payload : bytes).
Definition tx_type (x : cert_ext) : N :=
  match x with TxStatus _ => X_STATUS_REQUEST | TxSct _ => X_SCT | TxUnknown t _ => t end.
Definition tx_body (x : cert_ext) : bytes :=
  match x with TxStatus s => enc_cert_status s | TxSct l => enc_vec 2 (enc_payload 2) l | TxUnknown _ p => p end.
Definition enc_cert_ext (x : cert_ext) : bytes := enc_ext (tx_type x) (tx_body x).
Definition rd_cert_ext : rd cert_ext := rd_ext (fun typ l => (
  if typ =? X_STATUS_REQUEST then let! (x, l) := rd_cert_status l in Ok (TxStatus x, l)
  else if typ =? X_SCT then let! (x, l) := rd_vec 2 None (rd_pay 2) l in Ok (TxSct x, l)
  else let! (x, l) := rd_rest l in Ok (TxUnknown typ x, l))%N).

(** handshake.rs:1404-1424 [CertificateEntry], 1464-1481 [CertificatePayloadTLS13]. *)
Record cert_entry := CertEntry { ce_cert : bytes; ce_exts : list cert_ext }.
Definition rd_cert_entry : rd cert_entry := fun l =>
  let! (c, l) := rd_pay 3 l in let! (x, l) := rd_vec 2 None rd_cert_ext l in Ok (CertEntry c x, l).
Definition enc_cert_entry (e : cert_entry) : bytes := enc_payload 3 (ce_cert e) ++ enc_vec 2 enc_cert_ext (ce_exts e).
Record certs13 := Certs13 { c13_context : bytes; c13_entries : list cert_entry }.
Definition rd_certs13 : rd certs13 := fun l =>
  let! (c, l) := rd_pay 1 l in let! (e, l) := rd_vec 3 (Some 0x10000%N) rd_cert_entry l in Ok (Certs13 c e, l).
Definition enc_certs13 (c : certs13) : bytes := enc_payload 1 (c13_context c) ++ enc_vec 3 enc_cert_entry (c13_entries c).

(** handshake.rs:1582-1607 [DigitallySignedStruct]. *)
Record signed := Signed { ds_scheme : N; ds_sig : bytes }.
Definition rd_signed : rd signed := fun l =>
  let! (s, l) := rd_int 2 l in let! (p, l) := rd_pay 2 l in Ok (Signed s p, l).
Definition enc_signed (d : signed) : bytes := enc_uint 2 (ds_scheme d) ++ enc_payload 2 (ds_sig d).

(** handshake.rs:1543-1571 [ECParameters], 1624-1660 [ServerECDHParams], 1662-1681
    [ECDHEServerKeyExchange]; the curve type is always [NamedCurve]. *)
Record ecdhe := Ecdhe { ke_group : N; ke_public : bytes; ke_dss : signed }.
Definition rd_ecdhe : rd ecdhe := fun l =>
  let! (t, l) := rd_int 1 l in
  if negb (t =? 3)%N then Err tt
  else
    let! (g, l) := rd_int 2 l in
    let! (p, l) := rd_pay 1 l in
    let! (d, l) := rd_signed l in
    Ok (Ecdhe g p d, l).
Definition enc_ecdhe (k : ecdhe) : bytes :=
  enc_uint 1 3 ++ enc_uint 2 (ke_group k) ++ enc_payload 1 (ke_public k) ++ enc_signed (ke_dss k).
(** handshake.rs:1706-1723 [unwrap_given_kxa] for [ECDHE]. *)
Definition unwrap_ecdhe (body : bytes) : outcome unit ecdhe := whole (rd_ecdhe body).

(** handshake.rs:1774-1812 [CertificateRequestPayload]. *)
Record cert_request := CertRequest { cq_types : list N; cq_schemes : list N; cq_names : list bytes }.
Definition rd_cert_request : rd cert_request := fun l =>
  let! (t, l) := rd_vec 1 None (rd_int 1) l in
  let! (s, l) := rd_vec 2 None (rd_int 2) l in
  let! (n, l) := rd_vec 2 None (rd_pay 2) l in
  match s with [] => Err tt | _ => Ok (CertRequest t s n, l) end.
Definition enc_cert_request (r : cert_request) : bytes :=
  enc_vec 1 (enc_uint 1) (cq_types r) ++ enc_vec 2 (enc_uint 2) (cq_schemes r) ++ enc_vec 2 (enc_payload 2) (cq_names r).

(** handshake.rs:1814-1880 [CertReqExtension]. *)
Inductive certreq_ext := QxSigAlgs (l : list N) | QxNames (l : list bytes) | QxUnknown (typ : N) (payload : bytes).
Definition qx_type (x : certreq_ext) : N :=
  match x with QxSigAlgs _ => X_SIG_ALGS | QxNames _ => X_AUTHORITIES | QxUnknown t _ => t end.
Definition qx_body (x : certreq_ext) : bytes :=
  match x with QxSigAlgs l => enc_vec 2 (enc_uint 2) l | QxNames l => enc_vec 2 (enc_payload 2) l | QxUnknown _ p => p end.
Definition enc_certreq_ext (x : certreq_ext) : bytes := enc_ext (qx_type x) (qx_body x).
Definition rd_certreq_ext : rd certreq_ext := rd_ext (fun typ l => (
  if typ =? X_SIG_ALGS then
    let! (x, l) := rd_vec 2 None (rd_int 2) l in
    match x with [] => Err tt | _ => Ok (QxSigAlgs x, l) end
  else if typ =? X_AUTHORITIES then let! (x, l) := rd_vec 2 None (rd_pay 2) l in Ok (QxNames x, l)
  else let! (x, l) := rd_rest l in Ok (QxUnknown typ x, l))%N).
(** handshake.rs:1884-1906 [CertificateRequestPayloadTLS13]. *)
Record cert_request13 := CertRequest13 { q13_context : bytes; q13_exts : list certreq_ext }.
Definition rd_cert_request13 : rd cert_request13 := fun l =>
  let! (c, l) := rd_pay 1 l in let! (x, l) := rd_vec 2 None rd_certreq_ext l in Ok (CertRequest13 c x, l).
Definition enc_cert_request13 (r : cert_request13) : bytes :=
  enc_payload 1 (q13_context r) ++ enc_vec 2 enc_certreq_ext (q13_exts r).

(** handshake.rs:1929-1960 [NewSessionTicketPayload]. *)
Record ticket := Ticket { tk_lifetime : N; tk_ticket : bytes }.
Definition rd_ticket : rd ticket := fun l =>
  let! (t, l) := rd_int 4 l in let! (p, l) := rd_pay 2 l in Ok (Ticket t p, l).
Definition enc_ticket (t : ticket) : bytes := enc_uint 4 (tk_lifetime t) ++ enc_payload 2 (tk_ticket t).
(** handshake.rs:1962-2011 [NewSessionTicketExtension]. *)
Inductive ticket_ext := NxEarlyData (size : N) | NxUnknown (typ : N) (payload : bytes).
Definition nx_type (x : ticket_ext) : N := match x with NxEarlyData _ => X_EARLY_DATA | NxUnknown t _ => t end.
Definition nx_body (x : ticket_ext) : bytes := match x with NxEarlyData s => enc_uint 4 s | NxUnknown _ p => p end.
Definition enc_ticket_ext (x : ticket_ext) : bytes := enc_ext (nx_type x) (nx_body x).
Definition rd_ticket_ext : rd ticket_ext := rd_ext (fun typ l => (
  if typ =? X_EARLY_DATA then let! (x, l) := rd_int 4 l in Ok (NxEarlyData x, l)
  else let! (x, l) := rd_rest l in Ok (NxUnknown typ x, l))%N).
(** handshake.rs:2015-2083 [NewSessionTicketPayloadTLS13]. *)
Record ticket13 := Ticket13 { t13_lifetime : N; t13_age_add : N; t13_nonce : bytes; t13_ticket : bytes; t13_exts : list ticket_ext }.
Definition rd_ticket13 : rd ticket13 := fun l =>
  let! (t, l) := rd_int 4 l in
  let! (a, l) := rd_int 4 l in
  let! (n, l) := rd_pay 1 l in
  let! (p, l) := rd_pay 2 l in
  let! (x, l) := rd_vec 2 None rd_ticket_ext l in
  Ok (Ticket13 t a n p x, l).
Definition enc_ticket13 (t : ticket13) : bytes :=
  enc_uint 4 (t13_lifetime t) ++ enc_uint 4 (t13_age_add t) ++ enc_payload 1 (t13_nonce t) ++ enc_payload 2 (t13_ticket t)
  ++ enc_vec 2 enc_ticket_ext (t13_exts t).

(** handshake.rs:860-911 [ClientHelloPayload]. *)
Record client_hello := ClientHello {
  ch_version : N; ch_random : bytes; ch_sid : bytes; ch_suites : list N; ch_compressions : list N; ch_exts : list client_ext }.
Definition enc_client_hello (h : client_hello) : bytes :=
  enc_uint 2 (ch_version h) ++ ch_random h ++ enc_sid (ch_sid h) ++ enc_vec 2 (enc_uint 2) (ch_suites h)
  ++ enc_vec 1 (enc_uint 1) (ch_compressions h)
  ++ match ch_exts h with [] => [] | _ => enc_vec 2 enc_client_ext (ch_exts h) end.

(** handshake.rs:2085-2140 [HandshakePayload], with the type of [HandshakeMessagePayload] (2142-2146)
    where the payload does not determine it. *)
Inductive handshake :=
| HHelloRequest | HClientHello (h : client_hello) | HServerHello (h : server_hello) | HRetryRequest (r : retry_request)
| HCertificate (cs : list bytes) | HCertificate13 (c : certs13) | HServerKeyExchange (p : bytes)
| HCertRequest (r : cert_request) | HCertRequest13 (r : cert_request13) | HCertVerify (d : signed) | HServerHelloDone
| HEndOfEarlyData | HClientKeyExchange (p : bytes) | HTicket (t : ticket) | HTicket13 (t : ticket13)
| HEncryptedExts (xs : list server_ext) | HKeyUpdate (u : N) | HFinished (p : bytes) | HCertStatus (s : bytes)
| HUnknown (typ : N) (p : bytes).

(** The type that is written, handshake.rs:2155-2160: a retry request is sent as a server hello. *)
Definition hs_type (h : handshake) : N :=
  match h with
  | HHelloRequest => 0x00 | HClientHello _ => 0x01 | HServerHello _ | HRetryRequest _ => 0x02
  | HTicket _ | HTicket13 _ => 0x04 | HEndOfEarlyData => 0x05 | HEncryptedExts _ => 0x08
  | HCertificate _ | HCertificate13 _ => 0x0b | HServerKeyExchange _ => 0x0c
  | HCertRequest _ | HCertRequest13 _ => 0x0d | HServerHelloDone => 0x0e | HCertVerify _ => 0x0f
  | HClientKeyExchange _ => 0x10 | HFinished _ => 0x14 | HCertStatus _ => 0x16 | HKeyUpdate _ => 0x18
  | HUnknown t _ => t
  end%N.
(** handshake.rs:2113-2139 [HandshakePayload::encode]. *)
Definition hs_body (h : handshake) : bytes :=
  match h with
  | HHelloRequest | HServerHelloDone | HEndOfEarlyData => []
  | HClientHello x => enc_client_hello x
  | HServerHello x => enc_server_hello x
  | HRetryRequest x => enc_retry_request x
  | HCertificate x => enc_certificates x
  | HCertificate13 x => enc_certs13 x
  | HServerKeyExchange x | HClientKeyExchange x | HFinished x | HUnknown _ x => x
  | HCertRequest x => enc_cert_request x
  | HCertRequest13 x => enc_cert_request13 x
  | HCertVerify x => enc_signed x
  | HTicket x => enc_ticket x
  | HTicket13 x => enc_ticket13 x
  | HEncryptedExts x => enc_vec 2 enc_server_ext x
  | HKeyUpdate x => enc_uint 1 x
  | HCertStatus x => enc_cert_status x
  end.
(** handshake.rs:2148-2164 [HandshakeMessagePayload::encode]. *)
Definition hs_encode (h : handshake) : bytes := enc_uint 1 (hs_type h) ++ enc_payload 3 (hs_body h).

Section Handshake.
  (** [pki_types::DnsName::try_from]: the byte strings that are host names. *)
  Context (dns_ok : bytes -> bool).

  (** handshake.rs:291-302. *)
  Definition rd_server_name : rd server_name := fun l =>
    let! (typ, l) := rd_int 1 l in
    if (typ =? 0)%N then
      let! (raw, l) := rd_pay 2 l in
      if dns_ok raw then Ok (HostName raw, l) else Err tt
    else let! (p, l) := rd_rest l in Ok (OtherName typ p, l).

  (** handshake.rs:652-698 [ClientExtension::read]. *)
  Definition rd_client_ext : rd client_ext := rd_ext (fun typ l => (
    if typ =? X_POINT_FORMATS then let! (x, l) := rd_vec 1 None (rd_int 1) l in Ok (CxPointFormats x, l)
    else if typ =? X_GROUPS then let! (x, l) := rd_vec 2 None (rd_int 2) l in Ok (CxGroups x, l)
    else if typ =? X_SIG_ALGS then let! (x, l) := rd_vec 2 None (rd_int 2) l in Ok (CxSigAlgs x, l)
    else if typ =? X_SERVER_NAME then let! (x, l) := rd_vec 2 None rd_server_name l in Ok (CxServerName x, l)
    else if typ =? X_TICKET then
      if any_left l then let! (x, l) := rd_rest l in Ok (CxTicketOffer x, l) else Ok (CxTicketRequest, l)
    else if typ =? X_ALPN then let! (x, l) := rd_vec 2 None (rd_pay 1) l in Ok (CxProtocols x, l)
    else if typ =? X_VERSIONS then let! (x, l) := rd_vec 1 None (rd_int 2) l in Ok (CxVersions x, l)
    else if typ =? X_KEY_SHARE then let! (x, l) := rd_vec 2 None rd_key_share l in Ok (CxKeyShare x, l)
    else if typ =? X_PSK_MODES then let! (x, l) := rd_vec 1 None (rd_int 1) l in Ok (CxPskModes x, l)
    else if typ =? X_PSK then let! (x, l) := rd_psk_offer l in Ok (CxPsk x, l)
    else if typ =? X_COOKIE then let! (x, l) := rd_pay 2 l in Ok (CxCookie x, l)
    else if (typ =? X_EMS) && negb (any_left l) then Ok (CxEms, l)
    else if typ =? X_STATUS_REQUEST then let! (x, l) := rd_status_request l in Ok (CxStatus x, l)
    else if (typ =? X_SCT) && negb (any_left l) then Ok (CxSct, l)
    else if typ =? X_TRANSPORT then let! (x, l) := rd_rest l in Ok (CxTransport x, l)
    else if typ =? X_TRANSPORT_DRAFT then let! (x, l) := rd_rest l in Ok (CxTransportDraft x, l)
    else if (typ =? X_EARLY_DATA) && negb (any_left l) then Ok (CxEarlyData, l)
    else let! (x, l) := rd_rest l in Ok (CxUnknown typ x, l))%N).

  (** handshake.rs:884-911 [ClientHelloPayload::read]. *)
  Definition rd_client_hello : rd client_hello := fun l =>
    let! (v, l) := rd_int 2 l in
    let! (r, l) := rd_random l in
    let! (s, l) := rd_sid l in
    let! (c, l) := rd_vec 2 None (rd_int 2) l in
    let! (k, l) := rd_vec 1 None (rd_int 1) l in
    let! (x, l) := if any_left l then rd_vec 2 None rd_client_ext l else Ok ([], l) in
    if any_left l || match x with [] => true | _ => false end then Err tt
    else Ok (ClientHello v r s c k x, l).

  (** handshake.rs:2188-2280 [read_version] after type and length: the body [l] of a message of type
      [typ]; [tls13] is [vers == TLSv1_3]. *)
  Definition rd_body (tls13 : bool) (typ : N) : rd handshake := fun l => (
    if (typ =? 0x00) && negb (any_left l) then Ok (HHelloRequest, l)
    else if typ =? 0x01 then let! (x, l) := rd_client_hello l in Ok (HClientHello x, l)
    else if typ =? 0x02 then
      let! (v, l) := rd_int 2 l in
      let! (r, l) := rd_random l in
      if bool_decide (r = RETRY_RANDOM) then let! (x, l) := rd_retry_request v l in Ok (HRetryRequest x, l)
      else let! (x, l) := rd_server_hello v r l in Ok (HServerHello x, l)
    else if (typ =? 0x0b) && tls13 then let! (x, l) := rd_certs13 l in Ok (HCertificate13 x, l)
    else if typ =? 0x0b then let! (x, l) := rd_certificates l in Ok (HCertificate x, l)
    else if typ =? 0x0c then let! (x, l) := rd_rest l in Ok (HServerKeyExchange x, l)
    else if typ =? 0x0e then if any_left l then Err tt else Ok (HServerHelloDone, l)
    else if typ =? 0x10 then let! (x, l) := rd_rest l in Ok (HClientKeyExchange x, l)
    else if (typ =? 0x0d) && tls13 then let! (x, l) := rd_cert_request13 l in Ok (HCertRequest13 x, l)
    else if typ =? 0x0d then let! (x, l) := rd_cert_request l in Ok (HCertRequest x, l)
    else if typ =? 0x0f then let! (x, l) := rd_signed l in Ok (HCertVerify x, l)
    else if (typ =? 0x04) && tls13 then let! (x, l) := rd_ticket13 l in Ok (HTicket13 x, l)
    else if typ =? 0x04 then let! (x, l) := rd_ticket l in Ok (HTicket x, l)
    else if typ =? 0x08 then let! (x, l) := rd_vec 2 None rd_server_ext l in Ok (HEncryptedExts x, l)
    else if typ =? 0x18 then let! (x, l) := rd_int 1 l in Ok (HKeyUpdate x, l)
    else if typ =? 0x05 then if any_left l then Err tt else Ok (HEndOfEarlyData, l)
    else if typ =? 0x14 then let! (x, l) := rd_rest l in Ok (HFinished x, l)
    else if typ =? 0x16 then let! (x, l) := rd_cert_status l in Ok (HCertStatus x, l)
    else if typ =? 0xfe then Err tt
    else if typ =? 0x06 then Err tt
    else let! (x, l) := rd_rest l in Ok (HUnknown typ x, l))%N.

  (** handshake.rs:2182-2281 [read_version]. *)
  Definition hs_parse (tls13 : bool) : rd handshake := fun l =>
    let! (typ, l) := rd_int 1 l in
    let! (len, l) := rd_int 3 l in
    let! (sub, l) := rd_take (N.to_nat len) l in
    let! x := whole (rd_body tls13 typ sub) in
    Ok (x, l).

  (** The parser that TlsModel.v and CodecModel.v take as a parameter: the parts of a message that are
      looked at there. *)
  Definition hs_view (h : handshake) : hs_payload :=
    match h with
    | HClientHello x => HsClientHello (ch_random x)
    | HServerHello x => HsServerHello (pv_of (sh_version x)) (sh_random x)
    | HCertificate cs => HsCertificate cs
    | HServerKeyExchange p => HsServerKeyExchange p
    | HFinished p => HsFinished p
    | _ => HsOther
    end.
  Definition real_parse_body (v : protocol_version) (typ : N) (body : bytes) : option hs_payload :=
    match whole (rd_body (bool_decide (v = TLSv1_3)) typ body) with
    | Ok h => Some (hs_view h)
    | _ => None
    end.
End Handshake.
