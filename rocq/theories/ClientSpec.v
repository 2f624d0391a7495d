(** What is said about the TLS client, in terms of its log. *)
From Verif.Lib Require Import Base.
From Verif Require Import CodecModel CodecSpec TlsModel HandshakeModel AttestModel SigAlgModel SigAlgSpec ClientModel.

(** ** Reading a log *)
Definition opt_list {A B} (f : A -> B) (o : option A) : list B := match o with Some a => [f a] | None => [] end.
Definition hs_part (m : message) : list N := if bool_decide (m_typ m = Handshake) then m_payload m else [].
Definition app_part (m : message) : list N := if bool_decide (m_typ m = ApplicationData) then m_payload m else [].
(** The bytes of handshake messages that the server sent as they are, and those decrypted. *)
Definition heard (log : list cev) : list N := concat (map (fun e => match e with ClearIn m => hs_part m | _ => [] end) log).
Definition heard_enc (log : list cev) : list N := concat (map (fun e => match e with Decrypted m => hs_part m | _ => [] end) log).
(** The bytes of handshake messages that the client sent as they are, and those it had encrypted. *)
Definition said (log : list cev) : list N := concat (map (fun e => match e with ClearOut m => hs_part m | _ => [] end) log).
Definition said_enc (log : list cev) : list N := concat (map (fun e => match e with PushOut m => hs_part m | _ => [] end) log).
(** What the backend was asked about keys. *)
Definition key_calls (log : list cev) : list cev :=
  concat (map (fun e => match e with Prepare _ _ _ _ _ _ _ _ | ClientVd _ _ | ServerVd _ _ => [e] | _ => [] end) log).
(** Application data: taken from the application, given to the backend to be encrypted, decrypted, given to
    the application. *)
Definition accepted (log : list cev) : list N := concat (map (fun e => match e with Accepted p => p | _ => [] end) log).
Definition app_sent (log : list cev) : list N := concat (map (fun e => match e with PushOut m => app_part m | _ => [] end) log).
Definition app_received (log : list cev) : list N := concat (map (fun e => match e with Decrypted m => app_part m | _ => [] end) log).
Definition delivered (log : list cev) : list N := concat (map (fun e => match e with Delivered p => p | _ => [] end) log).
(** Application data is touched: traffic is started, data is encrypted, or data is given to the
    application. *)
Definition app_event (e : cev) : bool :=
  match e with
  | StartTraffic => true
  | PushOut m => bool_decide (m_typ m = ApplicationData)
  | Delivered p => match p with [] => false | _ => true end
  | _ => false
  end.
(** Records of the server in the order in which they are taken up, with whether they are to be decrypted;
    records of the client. *)
Definition records_in (log : list cev) : list (bool * message) :=
  concat (map (fun e => match e with ClearIn m => [(false, m)] | PushIn m => [(true, m)] | _ => [] end) log).
Definition records_out (log : list cev) : list (bool * message) :=
  concat (map (fun e => match e with ClearOut m => [(false, m)] | PushOut m => [(true, m)] | _ => [] end) log).
Definition wire_in (log : list cev) : list N := concat (map (fun e => match e with WireIn b => b | _ => [] end) log).
Definition wire_out (log : list cev) : list N := concat (map (fun e => match e with WireOut b => b | _ => [] end) log).
(** The bytes of the records of the client, those it sends as they are and those the backend encrypted, in
    the order in which they are to be written to the socket. *)
Definition queued (log : list cev) : list N :=
  concat (map (fun e => match e with ClearOut m | Encrypted m => message_encode m | _ => [] end) log).
(** Records that the client took from the backend, and those that the backend made available: its answers
    to the flushes. *)
Definition decrypted (log : list cev) : list message := concat (map (fun e => match e with Decrypted m => [m] | _ => [] end) log).
Definition encrypted (log : list cev) : list message := concat (map (fun e => match e with Encrypted m => [m] | _ => [] end) log).
Fixpoint flushed (E : env) (before log : list cev) : list (list message * list message) :=
  match log with
  | [] => []
  | e :: log' =>
      let now := before ++ [e] in
      match e with Flush => opt_list id (b_flush E now) | _ => [] end ++ flushed E now log'
  end.
Definition answers_in (E : env) (log : list cev) : list message := concat (map fst (flushed E [] log)).
Definition answers_out (E : env) (log : list cev) : list message := concat (map snd (flushed E [] log)).

(** What still happens after a failure: bytes are read and written, data are taken and given, the
    connection is closed and alerts are sent. *)
Definition outer (e : cev) : Prop :=
  match e with
  | WireIn _ | WireOut _ | Accepted _ | Delivered _ | CloseConnection => True
  | ClearOut m | PushOut m => m_typ m = Alert
  | _ => False
  end.

(** ** A full handshake (RFC 5246, 7.3) *)
Record session := Session {
  ss_hello : client_hello;
  ss_server : server_hello; ss_chain : list (list N); ss_status : option (list N); ss_kx : ecdhe; ss_request : option cert_request;
  ss_cert : option (list (list N)); ss_key : list N; ss_verify : option signed;
  ss_client_vd : list N; ss_server_vd : list N }.
Definition server_flight (s : session) : list handshake :=
  [HServerHello (ss_server s); HCertificate (ss_chain s)] ++ opt_list HCertStatus (ss_status s)
  ++ [HServerKeyExchange (enc_ecdhe (ss_kx s))] ++ opt_list HCertRequest (ss_request s) ++ [HServerHelloDone].
Definition client_flight (s : session) : list handshake :=
  opt_list HCertificate (ss_cert s) ++ [HClientKeyExchange (enc_payload 1 (ss_key s))]
  ++ opt_list HCertVerify (ss_verify s).
Definition written (hs : list handshake) : list N := concat (map hs_encode hs).
(** What the two Finished messages confirm. *)
Definition before_client_finished (s : session) : list N :=
  written (HClientHello (ss_hello s) :: server_flight s ++ client_flight s).
Definition before_server_finished (s : session) : list N :=
  before_client_finished s ++ hs_encode (HFinished (ss_client_vd s)).

(** The server's hello answers the client's. *)
Definition answers (E : env) (ch : client_hello) (sh : server_hello) : Prop :=
  sh_version sh = 0x0303%N /\ sh_suite sh ∈ [0xc02b; 0xc02f]%N /\ sh_compression sh = 0%N /\
  NoDup (map sx_type (sh_exts sh)) /\
  (forall x, x ∈ sh_exts sh -> sx_type x ∈ map cx_type (ch_exts ch) \/ sx_type x = 0xff01%N) /\
  (forall v, SxVersions v ∉ sh_exts sh) /\
  (forall p, SxProtocols [p] ∈ sh_exts sh -> p ∈ e_alpn E) /\
  (forall fs, SxPointFormats fs ∈ sh_exts sh -> 0%N ∈ fs) /\
  (forall l, SxSct l ∈ sh_exts sh -> l <> [] /\ [] ∉ l).
(** The SCTs and the OCSP response that the certificate verifier sees. *)
Definition scts_of (sh : server_hello) (scts : option (list (list N))) : Prop :=
  match scts with Some l => SxSct l ∈ sh_exts sh | None => forall l, SxSct l ∉ sh_exts sh end.
(** A status is sent only if it was announced. *)
Definition status_announced (s : session) : Prop :=
  is_Some (ss_status s) -> exists x, x ∈ sh_exts (ss_server s) /\ sx_type x = 5%N.

(** The client authenticates itself if it is asked to: with the chain it was given and a signature of all
    handshake messages before, or, having none, with an empty chain. *)
Definition client_authenticates (E : env) (s : session) : Prop :=
  match ss_request s with
  | None => ss_cert s = None /\ ss_verify s = None
  | Some r =>
      match e_resolve E (cq_names r) (cq_schemes r) with
      | None => ss_cert s = Some [] /\ ss_verify s = None
      | Some (chain, scheme, sign) =>
          ss_cert s = Some chain /\
          exists sig, ss_verify s = Some (Signed scheme sig) /\
            sign (written (HClientHello (ss_hello s) :: server_flight s
                           ++ [HCertificate chain; HClientKeyExchange (enc_payload 1 (ss_key s))])) = Some sig
      end
  end.

(** The server is authenticated in the handshake [s]: its chain is valid for the name it was asked for, it
    signed both randoms and its key with the key of the end entity certificate, and that key is of the
    kind the suite says. *)
Definition server_authentic (E : env) (s : session) : Prop :=
  exists leaf inter scts time kind,
    ss_chain s = leaf :: inter /\ scts_of (ss_server s) scts /\
    e_verify_cert E leaf inter (e_name E) (default [] scts) (default [] (ss_status s)) time = true /\
    server_signed (e_cert_key E) (e_sig_valid E) leaf (ch_random (ss_hello s)) (sh_random (ss_server s))
      (ke_group (ss_kx s)) (ke_public (ss_kx s)) (ds_scheme (ke_dss (ss_kx s))) (ds_sig (ke_dss (ss_kx s))) /\
    e_cert_key E leaf = Some kind /\ (sh_suite (ss_server s) = 0xc02f%N <-> kind = KeyRsa).

(** The log shows the handshake [s]: the handshake bytes of both sides are those of its messages; the
    client's random and key are the backend's; the backend was given the server's random, key, chain,
    parameters and signature, and gave both verify data for the messages exchanged; the server's verify
    data are what the server sent as the first message it encrypted. *)
Definition shows (E : env) (s : session) (log : list cev) : Prop :=
  (exists random sid, ss_hello s = hello E random sid /\ GetRandom random ∈ log) /\
  GetKeyShare (ke_group (ss_kx s)) (ss_key s) ∈ log /\
  said log = hs_encode (HClientHello (ss_hello s)) ++ written (client_flight s) /\
  heard log = written (server_flight s) /\
  said_enc log = hs_encode (HFinished (ss_client_vd s)) /\
  (exists rest, heard_enc log = hs_encode (HFinished (ss_server_vd s)) ++ rest) /\
  exists scts params, scts_of (ss_server s) scts /\
    params = [3%N] ++ be 2 (ke_group (ss_kx s)) ++ be 1 (N.of_nat (length (ke_public (ss_kx s)))) ++ ke_public (ss_kx s) /\
    key_calls log =
      [Prepare (sh_random (ss_server s)) (ke_group (ss_kx s)) (ke_public (ss_kx s)) (ss_chain s)
         (default [] (ss_status s)) scts params (ke_dss (ss_kx s));
       ClientVd (e_sha256 E (before_client_finished s)) (Some (ss_client_vd s));
       ServerVd (e_sha256 E (before_server_finished s)) (Some (ss_server_vd s))].

Definition authenticated (E : env) (log : list cev) : Prop :=
  exists s, answers E (ss_hello s) (ss_server s) /\ status_announced s /\ server_authentic E s /\
    client_authenticates E s /\ shows E s log.

(** ** What is assumed of the surroundings *)
(** Bytes are bytes. *)
Definition reads_bytes (ks : list call) : Prop :=
  Forall (fun k => match k with CallReadTls chunk => bytes_ok chunk | _ => True end) ks.
(** The backend decrypts to bytes, and nothing before it is given something. *)
Record backend_ok (E : env) : Prop := {
  bo_bytes : forall log ins outs, b_flush E log = Some (ins, outs) -> Forall (fun m => bytes_ok (m_payload m)) ins;
  bo_given : forall log ins outs, b_flush E log = Some (ins, outs) -> (forall m, PushIn m ∉ log) -> ins = [] }.
(** Connections that a history of calls leads to. *)
Definition reached (E : env) (c : conn) : Prop := exists ks os, reads_bytes ks /\ run E conn_new ks = (c, os).
