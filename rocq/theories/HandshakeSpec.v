(** Vocabulary for the theorems about handshake messages (C60). *)
From Verif.Lib Require Import Base.
From Verif Require Import CodecModel CodecSpec TlsModel HandshakeModel.

(** ** Which messages can be written

    Numbers and lengths fit into their fields, and no value is written in two ways: "unknown" stands
    only for what has no other reading. *)
Definition int_ok (n : nat) (v : N) : Prop := (v < 256 ^ N.of_nat n)%N.
Definition pay_ok (n : nat) (p : list N) : Prop := (N.of_nat (length p) < 256 ^ N.of_nat n)%N.
Definition vec_ok {A} (n : nat) (enc : A -> list N) (ok : A -> Prop) (xs : list A) : Prop :=
  Forall ok xs /\ pay_ok n (concat (map enc xs)).
(** A list whose length is also limited to [limit] bytes. *)
Definition vec_limited {A} (n : nat) (limit : N) (enc : A -> list N) (ok : A -> Prop) (xs : list A) : Prop :=
  vec_ok n enc ok xs /\ (N.of_nat (length (concat (map enc xs))) <= limit)%N.

(** Names of a list: a name of another type takes all the rest, so there is one at most, at the end. *)
Fixpoint names_ok (dns_ok : list N -> bool) (ns : list server_name) : Prop :=
  match ns with
  | [] => True
  | HostName raw :: ns' => pay_ok 2 raw /\ dns_ok raw = true /\ names_ok dns_ok ns'
  | OtherName typ _ :: ns' => int_ok 1 typ /\ typ <> 0%N /\ ns' = []
  end.
Definition share_ok (k : key_share) : Prop := int_ok 2 (ks_group k) /\ pay_ok 2 (ks_payload k).
Definition identity_ok (i : psk_identity) : Prop := pay_ok 2 (pi_identity i) /\ int_ok 4 (pi_age i).
Definition offer_ok (o : psk_offer) : Prop :=
  vec_ok 2 enc_psk_identity identity_ok (po_identities o) /\ vec_ok 2 (enc_payload 1) (pay_ok 1) (po_binders o).
Definition status_ok (s : status_request) : Prop :=
  match s with
  | OcspRequest r e => vec_ok 2 (enc_payload 2) (pay_ok 2) r /\ pay_ok 2 e
  | OtherStatus typ _ => int_ok 1 typ /\ typ <> 1%N
  end.
Definition client_ext_ok (dns_ok : list N -> bool) (x : client_ext) : Prop :=
  pay_ok 2 (cx_body x) /\
  match x with
  | CxPointFormats l | CxPskModes l => vec_ok 1 (enc_uint 1) (int_ok 1) l
  | CxGroups l | CxSigAlgs l => vec_ok 2 (enc_uint 2) (int_ok 2) l
  | CxServerName l => names_ok dns_ok l /\ pay_ok 2 (concat (map enc_server_name l))
  | CxTicketRequest | CxEms | CxSct | CxEarlyData | CxTransport _ | CxTransportDraft _ => True
  | CxTicketOffer t => t <> []
  | CxProtocols l => vec_ok 2 (enc_payload 1) (pay_ok 1) l
  | CxVersions l => vec_ok 1 (enc_uint 2) (int_ok 2) l
  | CxKeyShare l => vec_ok 2 enc_key_share share_ok l
  | CxPsk o => offer_ok o
  | CxCookie c => pay_ok 2 c
  | CxStatus s => status_ok s
  | CxUnknown typ p => int_ok 2 typ /\
      typ ∉ [0x0000; 0x0005; 0x000a; 0x000b; 0x000d; 0x0010; 0x0023; 0x0029; 0x002b; 0x002c; 0x002d; 0x0033; 0x0039; 0xffa5]%N /\
      (typ ∈ [0x0012; 0x0017; 0x002a]%N -> p <> [])
  end.
Definition server_ext_ok (x : server_ext) : Prop :=
  pay_ok 2 (sx_body x) /\
  match x with
  | SxPointFormats l => vec_ok 1 (enc_uint 1) (int_ok 1) l
  | SxServerName | SxTicket | SxEms | SxStatus | SxEarlyData | SxTransport _ | SxTransportDraft _ => True
  | SxRenegotiation p => pay_ok 1 p
  | SxProtocols l => vec_ok 2 (enc_payload 1) (pay_ok 1) l
  | SxKeyShare k => share_ok k
  | SxPsk i => int_ok 2 i
  | SxSct l => vec_ok 2 (enc_payload 2) (pay_ok 2) l
  | SxVersions v => int_ok 2 v
  | SxUnknown typ _ => int_ok 2 typ /\
      typ ∉ [0x0000; 0x0005; 0x000b; 0x0010; 0x0012; 0x0017; 0x0023; 0x0029; 0x002a; 0x002b; 0x0033; 0x0039; 0xff01; 0xffa5]%N
  end.
Definition retry_ext_ok (x : retry_ext) : Prop :=
  pay_ok 2 (rx_body x) /\
  match x with
  | RxKeyShare v | RxVersions v => int_ok 2 v
  | RxCookie c => pay_ok 2 c
  | RxUnknown typ _ => int_ok 2 typ /\ typ ∉ [0x002b; 0x002c; 0x0033]%N
  end.
Definition cert_ext_ok (x : cert_ext) : Prop :=
  pay_ok 2 (tx_body x) /\
  match x with
  | TxStatus s => pay_ok 3 s
  | TxSct l => vec_ok 2 (enc_payload 2) (pay_ok 2) l
  | TxUnknown typ _ => int_ok 2 typ /\ typ ∉ [0x0005; 0x0012]%N
  end.
Definition entry_ok (e : cert_entry) : Prop := pay_ok 3 (ce_cert e) /\ vec_ok 2 enc_cert_ext cert_ext_ok (ce_exts e).
Definition certreq_ext_ok (x : certreq_ext) : Prop :=
  pay_ok 2 (qx_body x) /\
  match x with
  | QxSigAlgs l => l <> [] /\ vec_ok 2 (enc_uint 2) (int_ok 2) l
  | QxNames l => vec_ok 2 (enc_payload 2) (pay_ok 2) l
  | QxUnknown typ _ => int_ok 2 typ /\ typ ∉ [0x000d; 0x002f]%N
  end.
Definition ticket_ext_ok (x : ticket_ext) : Prop :=
  pay_ok 2 (nx_body x) /\
  match x with
  | NxEarlyData s => int_ok 4 s
  | NxUnknown typ _ => int_ok 2 typ /\ typ <> 0x002a%N
  end.
Definition signed_ok (d : signed) : Prop := int_ok 2 (ds_scheme d) /\ pay_ok 2 (ds_sig d).
Definition sid_ok (s : list N) : Prop := length s <= 32.

Definition client_hello_ok (dns_ok : list N -> bool) (h : client_hello) : Prop :=
  int_ok 2 (ch_version h) /\ length (ch_random h) = 32 /\ sid_ok (ch_sid h) /\
  vec_ok 2 (enc_uint 2) (int_ok 2) (ch_suites h) /\ vec_ok 1 (enc_uint 1) (int_ok 1) (ch_compressions h) /\
  vec_ok 2 enc_client_ext (client_ext_ok dns_ok) (ch_exts h) /\ ch_exts h <> [].
Definition server_hello_ok (h : server_hello) : Prop :=
  int_ok 2 (sh_version h) /\ length (sh_random h) = 32 /\ sh_random h <> RETRY_RANDOM /\ sid_ok (sh_sid h) /\
  int_ok 2 (sh_suite h) /\ int_ok 1 (sh_compression h) /\ vec_ok 2 enc_server_ext server_ext_ok (sh_exts h).
Definition retry_request_ok (r : retry_request) : Prop :=
  int_ok 2 (rr_version r) /\ sid_ok (rr_sid r) /\ int_ok 2 (rr_suite r) /\ vec_ok 2 enc_retry_ext retry_ext_ok (rr_exts r).

(** The messages that can be written in TLS 1.3 ([tls13]) or before. *)
Definition handshake_ok (dns_ok : list N -> bool) (tls13 : bool) (h : handshake) : Prop :=
  pay_ok 3 (hs_body h) /\
  match h with
  | HHelloRequest | HServerKeyExchange _ | HServerHelloDone | HEndOfEarlyData | HClientKeyExchange _ | HFinished _ => True
  | HClientHello x => client_hello_ok dns_ok x
  | HServerHello x => server_hello_ok x
  | HRetryRequest x => retry_request_ok x
  | HCertificate cs => tls13 = false /\ vec_limited 3 0x10000 (enc_payload 3) (pay_ok 3) cs
  | HCertificate13 c => tls13 = true /\ pay_ok 1 (c13_context c) /\ vec_limited 3 0x10000 enc_cert_entry entry_ok (c13_entries c)
  | HCertRequest r => tls13 = false /\ vec_ok 1 (enc_uint 1) (int_ok 1) (cq_types r) /\ cq_schemes r <> [] /\
      vec_ok 2 (enc_uint 2) (int_ok 2) (cq_schemes r) /\ vec_ok 2 (enc_payload 2) (pay_ok 2) (cq_names r)
  | HCertRequest13 r => tls13 = true /\ pay_ok 1 (q13_context r) /\ vec_ok 2 enc_certreq_ext certreq_ext_ok (q13_exts r)
  | HCertVerify d => signed_ok d
  | HTicket t => tls13 = false /\ int_ok 4 (tk_lifetime t) /\ pay_ok 2 (tk_ticket t)
  | HTicket13 t => tls13 = true /\ int_ok 4 (t13_lifetime t) /\ int_ok 4 (t13_age_add t) /\ pay_ok 1 (t13_nonce t) /\
      pay_ok 2 (t13_ticket t) /\ vec_ok 2 enc_ticket_ext ticket_ext_ok (t13_exts t)
  | HEncryptedExts xs => vec_ok 2 enc_server_ext server_ext_ok xs
  | HKeyUpdate u => int_ok 1 u
  | HCertStatus s => pay_ok 3 s
  | HUnknown typ p => int_ok 1 typ /\
      typ ∉ [0x01; 0x02; 0x04; 0x05; 0x06; 0x08; 0x0b; 0x0c; 0x0d; 0x0e; 0x0f; 0x10; 0x14; 0x16; 0x18; 0xfe]%N /\
      (typ = 0%N -> p <> [])
  end.

(** ** What the transcript of a connection takes from a message (RFC 5246, section 7.4)

    [body_says typ body p]: the body of a message of type [typ] says [p]. *)
Inductive certs_wire : list (list N) -> list N -> Prop :=
| certs_nil : certs_wire [] []
| certs_cons c cs len l : is_be 3 (N.of_nat (length c)) len -> certs_wire cs l -> certs_wire (c :: cs) (len ++ c ++ l).
Inductive body_says : N -> list N -> hs_payload -> Prop :=
| says_client_hello version random rest :
    length version = 2 -> length random = 32 -> body_says 1 (version ++ random ++ rest) (HsClientHello random)
| says_server_hello v version random rest :
    is_be 2 (pv_u16 v) version -> version_wf v -> length random = 32 -> random <> RETRY_RANDOM ->
    body_says 2 (version ++ random ++ rest) (HsServerHello v random)
| says_certificate cs len l :
    is_be 3 (N.of_nat (length l)) len -> certs_wire cs l -> body_says 11 (len ++ l) (HsCertificate cs)
| says_key_exchange body : body_says 12 body (HsServerKeyExchange body)
| says_finished body : body_says 20 body (HsFinished body)
| says_retry version rest : length version = 2 -> body_says 2 (version ++ RETRY_RANDOM ++ rest) HsOther
| says_other typ body : typ ∉ [1; 2; 11; 12; 20]%N -> body_says typ body HsOther.
