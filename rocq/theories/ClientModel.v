(** Model of the TLS client of the prover: crates/mpc-tls/src/client/conn.rs, hs.rs, tls12.rs, hash_hs.rs,
    vecbuf.rs and config.rs.

    The client's suites and versions are fixed (config.rs:129-139, tls-core suites/mod.rs and versions.rs:
    only TLS 1.2, only the two suites with AES-128-GCM and SHA-256), so that the branches for TLS 1.3
    (hello retry requests, dropped change-cipher-specs, the downgrade marker) are never entered; they are
    left out. Await points are not: a call runs to its end before the next one.

    What the client does to its surroundings is written to a log: the bytes from and to the socket, the
    records it takes up, what it asks of the backend (the leader of the MPC protocol) with the answer, and
    the data of the application. What surroundings answer may depend on all that happened before. *)
From Verif.Lib Require Import Base.
From Verif Require Import ProofModel CodecModel TlsModel HandshakeModel AttestModel SigAlgModel RecordModel.

(** error.rs [Error]; of strings, where they differ, a number. *)
Inductive cl_error :=
| EInappropriate | EInappropriateHs | EMisbehaved (why : N) | EIncompatible | ECorrupt | ECorruptPayload
| ENoCerts | ECore | EBackend | EDecryptError | EAlert (d : N) | EGeneral | ENotComplete | EIo.

(** The log. *)
Inductive cev :=
(** bytes read from and written to the socket *)
| WireIn (b : bytes) | WireOut (b : bytes)
(** a record of the server taken up as it is, or handed to the backend to be decrypted *)
| ClearIn (m : message) | PushIn (m : message)
(** a record of the backend, decrypted *)
| Decrypted (m : message)
(** a record put into the queue for the socket as it is, or handed to the backend to be encrypted *)
| ClearOut (m : message) | PushOut (m : message)
(** an encrypted record of the backend put into the queue for the socket *)
| Encrypted (m : message)
(** calls of the backend *)
| GetRandom (r : bytes) | GetKeyShare (group : N) (key : bytes)
| Prepare (random : bytes) (group : N) (key : bytes) (certs : list bytes) (ocsp : bytes) (scts : option (list bytes))
    (params : bytes) (dss : signed)
| ClientVd (hash : bytes) (vd : option bytes) | ServerVd (hash : bytes) (vd : option bytes)
| StartTraffic | Flush | CloseConnection
(** data taken from the application, data given to it *)
| Accepted (p : bytes) | Delivered (p : bytes).

(** What the client is given: its configuration (config.rs:63-92), libraries and the backend. *)
Record env := Env {
  (** the server's name; the host name for the SNI extension, if one is to be sent *)
  e_name : bytes; e_sni : option bytes;
  e_alpn : list bytes;
  (** the fragmenter's limit *)
  e_frag : N;
  (** [client_auth_cert_resolver] with [choose_scheme]: chain, scheme and signer *)
  e_has_certs : bool; e_resolve : list bytes -> list N -> option (list bytes * N * (bytes -> option bytes));
  (** [verify_server_cert]: end entity, intermediates, name, SCTs, OCSP response, time *)
  e_verify_cert : bytes -> list bytes -> bytes -> list bytes -> bytes -> N -> bool;
  e_cert_key : bytes -> option key_kind; e_sig_valid : bytes -> webpki_alg -> bytes -> bytes -> bool;
  e_sha256 : bytes -> bytes; e_dns_ok : bytes -> bool;
  (** [debug_assert!] is checked *)
  e_debug : bool;
  (** the clock and the random session id *)
  b_now : list cev -> N; b_sid : list cev -> option bytes;
  (** the backend *)
  b_random : list cev -> option bytes; b_key_share : list cev -> option (N * bytes);
  b_prepare : list cev -> bool; b_cf : list cev -> option bytes; b_sf : list cev -> option bytes;
  b_push_in : list cev -> bool; b_push_out : list cev -> bool; b_start : list cev -> bool; b_close : list cev -> bool;
  (** the records that become available by a flush, decrypted and encrypted *)
  b_flush : list cev -> option (list message * list message) }.

(** conn.rs:76-82 [ClientConnection] and 329-350 [CommonState]; the queues [x_in] and [x_out] are those of
    the backend's record layer (leader.rs:458-486 [next_incoming], 534-560 [next_outgoing]). *)
Record cx := Cx {
  x_version : option N;
  x_enc : bool;
  x_dec : bool;
  x_suite : option N;
  x_alpn : option bytes;
  x_aligned : bool;
  x_may_send : bool;
  x_may_recv : bool;
  x_sent_alert : bool;
  x_close : bool;
  x_received : list bytes;
  x_sendable : list bytes;
  x_tls : list bytes;
  x_in : list message;
  x_out : list message;
  x_df : deframer;
  x_joiner : @joiner handshake;
  x_log : list cev }.
Definition set_version (v : option N) (x : cx) : cx :=
  Cx v (x_enc x) (x_dec x) (x_suite x) (x_alpn x) (x_aligned x) (x_may_send x) (x_may_recv x) (x_sent_alert x) (x_close x) (x_received x) (x_sendable x) (x_tls x) (x_in x) (x_out x) (x_df x) (x_joiner x) (x_log x).
Definition set_enc (v : bool) (x : cx) : cx :=
  Cx (x_version x) v (x_dec x) (x_suite x) (x_alpn x) (x_aligned x) (x_may_send x) (x_may_recv x) (x_sent_alert x) (x_close x) (x_received x) (x_sendable x) (x_tls x) (x_in x) (x_out x) (x_df x) (x_joiner x) (x_log x).
Definition set_dec (v : bool) (x : cx) : cx :=
  Cx (x_version x) (x_enc x) v (x_suite x) (x_alpn x) (x_aligned x) (x_may_send x) (x_may_recv x) (x_sent_alert x) (x_close x) (x_received x) (x_sendable x) (x_tls x) (x_in x) (x_out x) (x_df x) (x_joiner x) (x_log x).
Definition set_suite (v : option N) (x : cx) : cx :=
  Cx (x_version x) (x_enc x) (x_dec x) v (x_alpn x) (x_aligned x) (x_may_send x) (x_may_recv x) (x_sent_alert x) (x_close x) (x_received x) (x_sendable x) (x_tls x) (x_in x) (x_out x) (x_df x) (x_joiner x) (x_log x).
Definition set_alpn (v : option bytes) (x : cx) : cx :=
  Cx (x_version x) (x_enc x) (x_dec x) (x_suite x) v (x_aligned x) (x_may_send x) (x_may_recv x) (x_sent_alert x) (x_close x) (x_received x) (x_sendable x) (x_tls x) (x_in x) (x_out x) (x_df x) (x_joiner x) (x_log x).
Definition set_aligned (v : bool) (x : cx) : cx :=
  Cx (x_version x) (x_enc x) (x_dec x) (x_suite x) (x_alpn x) v (x_may_send x) (x_may_recv x) (x_sent_alert x) (x_close x) (x_received x) (x_sendable x) (x_tls x) (x_in x) (x_out x) (x_df x) (x_joiner x) (x_log x).
Definition set_may_send (v : bool) (x : cx) : cx :=
  Cx (x_version x) (x_enc x) (x_dec x) (x_suite x) (x_alpn x) (x_aligned x) v (x_may_recv x) (x_sent_alert x) (x_close x) (x_received x) (x_sendable x) (x_tls x) (x_in x) (x_out x) (x_df x) (x_joiner x) (x_log x).
Definition set_may_recv (v : bool) (x : cx) : cx :=
  Cx (x_version x) (x_enc x) (x_dec x) (x_suite x) (x_alpn x) (x_aligned x) (x_may_send x) v (x_sent_alert x) (x_close x) (x_received x) (x_sendable x) (x_tls x) (x_in x) (x_out x) (x_df x) (x_joiner x) (x_log x).
Definition set_sent_alert (v : bool) (x : cx) : cx :=
  Cx (x_version x) (x_enc x) (x_dec x) (x_suite x) (x_alpn x) (x_aligned x) (x_may_send x) (x_may_recv x) v (x_close x) (x_received x) (x_sendable x) (x_tls x) (x_in x) (x_out x) (x_df x) (x_joiner x) (x_log x).
Definition set_close (v : bool) (x : cx) : cx :=
  Cx (x_version x) (x_enc x) (x_dec x) (x_suite x) (x_alpn x) (x_aligned x) (x_may_send x) (x_may_recv x) (x_sent_alert x) v (x_received x) (x_sendable x) (x_tls x) (x_in x) (x_out x) (x_df x) (x_joiner x) (x_log x).
Definition set_received (v : list bytes) (x : cx) : cx :=
  Cx (x_version x) (x_enc x) (x_dec x) (x_suite x) (x_alpn x) (x_aligned x) (x_may_send x) (x_may_recv x) (x_sent_alert x) (x_close x) v (x_sendable x) (x_tls x) (x_in x) (x_out x) (x_df x) (x_joiner x) (x_log x).
Definition set_sendable (v : list bytes) (x : cx) : cx :=
  Cx (x_version x) (x_enc x) (x_dec x) (x_suite x) (x_alpn x) (x_aligned x) (x_may_send x) (x_may_recv x) (x_sent_alert x) (x_close x) (x_received x) v (x_tls x) (x_in x) (x_out x) (x_df x) (x_joiner x) (x_log x).
Definition set_tls (v : list bytes) (x : cx) : cx :=
  Cx (x_version x) (x_enc x) (x_dec x) (x_suite x) (x_alpn x) (x_aligned x) (x_may_send x) (x_may_recv x) (x_sent_alert x) (x_close x) (x_received x) (x_sendable x) v (x_in x) (x_out x) (x_df x) (x_joiner x) (x_log x).
Definition set_in (v : list message) (x : cx) : cx :=
  Cx (x_version x) (x_enc x) (x_dec x) (x_suite x) (x_alpn x) (x_aligned x) (x_may_send x) (x_may_recv x) (x_sent_alert x) (x_close x) (x_received x) (x_sendable x) (x_tls x) v (x_out x) (x_df x) (x_joiner x) (x_log x).
Definition set_out (v : list message) (x : cx) : cx :=
  Cx (x_version x) (x_enc x) (x_dec x) (x_suite x) (x_alpn x) (x_aligned x) (x_may_send x) (x_may_recv x) (x_sent_alert x) (x_close x) (x_received x) (x_sendable x) (x_tls x) (x_in x) v (x_df x) (x_joiner x) (x_log x).
Definition set_df (v : deframer) (x : cx) : cx :=
  Cx (x_version x) (x_enc x) (x_dec x) (x_suite x) (x_alpn x) (x_aligned x) (x_may_send x) (x_may_recv x) (x_sent_alert x) (x_close x) (x_received x) (x_sendable x) (x_tls x) (x_in x) (x_out x) v (x_joiner x) (x_log x).
Definition set_joiner (v : @joiner handshake) (x : cx) : cx :=
  Cx (x_version x) (x_enc x) (x_dec x) (x_suite x) (x_alpn x) (x_aligned x) (x_may_send x) (x_may_recv x) (x_sent_alert x) (x_close x) (x_received x) (x_sendable x) (x_tls x) (x_in x) (x_out x) (x_df x) v (x_log x).
Definition set_log (v : list cev) (x : cx) : cx :=
  Cx (x_version x) (x_enc x) (x_dec x) (x_suite x) (x_alpn x) (x_aligned x) (x_may_send x) (x_may_recv x) (x_sent_alert x) (x_close x) (x_received x) (x_sendable x) (x_tls x) (x_in x) (x_out x) (x_df x) (x_joiner x) v.
(** conn.rs:91-98 [new_inner] and 353-377 [CommonState::new] *)
Definition cx_new : cx :=
  Cx None false false None None true false false false false [] [] [] [] [] df_new j_new [].

(** ** vecbuf.rs: buffers of chunks *)
Definition DEFAULT_BUFFER_LIMIT : N := 65536%N.
(** vecbuf.rs:65-73 [append] *)
Definition cvb_append (cs : list bytes) (b : bytes) : list bytes := match b with [] => cs | _ => cs ++ [b] end.
(** vecbuf.rs:47-62 [apply_limit], [append_limited_copy]: the buffer and how much was taken *)
Definition cvb_append_limited (cs : list bytes) (b : bytes) : list bytes * nat :=
  let space := (DEFAULT_BUFFER_LIMIT - N.of_nat (length (concat cs)))%N in
  let n := N.to_nat (N.min (N.of_nat (length b)) space) in
  (cvb_append cs (take n b), n).
(** vecbuf.rs:96-105 [consume] *)
Fixpoint cvb_consume (used : nat) (cs : list bytes) : list bytes :=
  match cs with
  | [] => []
  | c :: cs => if used <? length c then drop used c :: cs else cvb_consume (used - length c) cs
  end.
(** vecbuf.rs:83-94 [read]: what is read into a buffer of [n] bytes. Each turn of the loop takes from the
    first chunk and consumes it, or fills the buffer. *)
Fixpoint cvb_read (n : nat) (cs : list bytes) : bytes * list bytes :=
  match cs with
  | [] => ([], [])
  | c :: cs' =>
      if n =? 0 then ([], cs)
      else if n <? length c then (take n c, drop n c :: cs')
      else let (b, cs'') := cvb_read (n - length c) cs' in (c ++ b, cs'')
  end.
(** vecbuf.rs:108-122 [write_to]: the writer is offered 64 chunks and takes [n] bytes of them at most *)
Definition cvb_write (n : nat) (cs : list bytes) : bytes * list bytes :=
  let offered := concat (take 64 cs) in
  let n := Nat.min n (length offered) in
  (take n offered, cvb_consume n cs).

(** ** hash_hs.rs: the bytes hashed so far, and those kept for client authentication. Both suites use
    SHA-256. *)
Record hs_hash := HsHash { t_bytes : bytes; t_auth : option bytes }.
(** hash_hs.rs:46-51, 59-68: before the hash is started [t_auth] tells whether the buffer will be kept *)
Definition tr_new (client_auth : bool) : hs_hash := HsHash [] (if client_auth then Some [] else None).
(** hash_hs.rs:95-112 [add_message] *)
Definition tr_add (t : hs_hash) (h : handshake) : hs_hash :=
  HsHash (t_bytes t ++ hs_encode h) (option_map (fun b => b ++ hs_encode h) (t_auth t)).
(** hash_hs.rs:90-92 [abandon_client_auth] *)
Definition tr_abandon (t : hs_hash) : hs_hash := HsHash (t_bytes t) None.
(** hash_hs.rs:133-135 [take_handshake_buf] *)
Definition tr_take (t : hs_hash) : option bytes * hs_hash := (t_auth t, HsHash (t_bytes t) None).

(** ** The states (hs.rs, tls12.rs). Randoms are the client's and the server's. *)
Record cert_details := CertDetails { sc_chain : list bytes; sc_ocsp : bytes; sc_scts : option (list bytes) }.
(** ke.rs:10-25 [ServerKxDetails] *)
Record kx_details := KxDetails { kd_params : bytes; kd_sig : signed }.
(** hs.rs:624-633 [ClientAuthDetails] *)
Inductive client_auth := AuthEmpty | AuthVerify (chain : list bytes) (scheme : N) (sign : bytes -> option bytes).
Inductive cstate :=
| CsInit
| CsHello (random : bytes) (sent : list N) (tr : hs_hash)
| CsCert (cr sr : bytes) (tr : hs_hash) (suite : N) (may_status : bool) (scts : option (list bytes))
| CsStatusOrKx (cr sr : bytes) (tr : hs_hash) (suite : N) (scts : option (list bytes)) (chain : list bytes)
| CsKx (cr sr : bytes) (tr : hs_hash) (suite : N) (cert : cert_details)
| CsDoneOrReq (cr sr : bytes) (tr : hs_hash) (suite : N) (cert : cert_details) (kx : kx_details)
| CsDone (cr sr : bytes) (tr : hs_hash) (suite : N) (cert : cert_details) (kx : kx_details) (auth : option client_auth)
| CsCcs (tr : hs_hash)
| CsFinished (tr : hs_hash)
| CsTraffic.

Notation cm := (stm cx cl_error).
Definition smodify {E} (f : cx -> cx) : stm cx E unit := fun s => (f s, Ok tt).
Definition sgets {E A} (f : cx -> A) : stm cx E A := fun s => (s, Ok (f s)).
Definition emit {E} (e : cev) : stm cx E unit := smodify (fun x => set_log (x_log x ++ [e]) x).
(** [if !b { return Err(e) }] *)
Definition require (b : bool) (e : cl_error) : cm unit := if b then sret tt else sfail e.
Definition scatch {E F A} (m : stm cx E A) (h : E -> stm cx F A) : stm cx F A := fun s =>
  match m s with
  | (s', Ok a) => (s', Ok a)
  | (s', Err e) => h e s'
  | (s', Panic) => (s', Panic)
  end.
Fixpoint sfor {A} (l : list A) (f : A -> cm unit) : cm unit :=
  match l with
  | [] => sret tt
  | a :: l => do! _ := f a in sfor l f
  end.

(** tls-core suites/tls12.rs:104-120 and handshake.rs:216-230 [sign]: RSA is 1, ECDSA 3, others 0 *)
Definition SUITE_ECDSA : N := 0xc02b%N.
Definition SUITE_RSA : N := 0xc02f%N.
Definition CLIENT_SUITES : list N := [SUITE_ECDSA; SUITE_RSA].
Definition scheme_sign (s : N) : N :=
  if bool_decide (s ∈ [0x0201; 0x0401; 0x0501; 0x0601; 0x0804; 0x0805; 0x0806]%N) then 1%N
  else if bool_decide (s ∈ [0x0403; 0x0503; 0x0603]%N) then 3%N else 0%N.
Definition suite_schemes (suite : N) : list N :=
  if (suite =? SUITE_ECDSA)%N then [0x0807; 0x0603; 0x0503; 0x0403]%N
  else [0x0806; 0x0805; 0x0804; 0x0601; 0x0501; 0x0401]%N.
(** suites/mod.rs:148-156 [usable_for_signature_algorithm] *)
Definition suite_usable (suite sign : N) : bool :=
  existsb (fun s => scheme_sign s =? sign)%N (suite_schemes suite).

(** tls-core suites/tls12.rs:196-203 [decode_ecdh_params] *)
Definition decode_params (l : bytes) : option (N * bytes) :=
  match whole (let! (t, l) := rd_int 1 l in
               if negb (t =? 3)%N then Err tt
               else let! (g, l) := rd_int 2 l in let! (p, l) := rd_pay 1 l in Ok ((g, p), l)) with
  | Ok r => Some r
  | _ => None
  end.

(** handshake.rs:1725-1750: extensions of the server hello *)
Fixpoint has_duplicate (ts : list N) : bool :=
  match ts with [] => false | t :: ts => bool_decide (t ∈ ts) || has_duplicate ts end.
Definition find_ext (typ : N) (xs : list server_ext) : option server_ext :=
  List.find (fun x => sx_type x =? typ)%N xs.
Definition sh_versions (h : server_hello) : option N :=
  match find_ext X_VERSIONS (sh_exts h) with Some (SxVersions v) => Some v | _ => None end.
Definition sh_alpn (h : server_hello) : option bytes :=
  match find_ext X_ALPN (sh_exts h) with Some (SxProtocols [p]) => Some p | _ => None end.
Definition sh_points (h : server_hello) : option (list N) :=
  match find_ext X_POINT_FORMATS (sh_exts h) with Some (SxPointFormats l) => Some l | _ => None end.
Definition sh_scts (h : server_hello) : option (list bytes) :=
  match find_ext X_SCT (sh_exts h) with Some (SxSct l) => Some l | _ => None end.
Definition sh_status (h : server_hello) : bool :=
  match find_ext X_STATUS_REQUEST (sh_exts h) with Some _ => true | None => false end.

Section Client.
  Context (E : env).

  (** hs.rs:124-165: the extensions of the client hello, in this order. WebPkiVerifier asks for SCTs
      (verify.rs:149-151). *)
  Definition hello_exts : list client_ext :=
    [CxVersions [0x0303]%N; CxPointFormats [0%N]; CxGroups [23%N]; CxSigAlgs verification_schemes;
     CxStatus (OcspRequest [] [])]
    ++ match e_sni E with Some n => [CxServerName [HostName n]] | None => [] end
    ++ [CxSct]
    ++ match e_alpn E with [] => [] | ps => [CxProtocols ps] end.
  (** hs.rs:168-184 *)
  Definition hello (random sid : bytes) : client_hello :=
    ClientHello 0x0303 random sid (CLIENT_SUITES ++ [0x00ff]%N) [0%N] hello_exts.

  (** conn.rs:561-563 [queue_tls_message] *)
  Definition queue (m : message) : cm unit :=
    smodify (fun x => set_tls (cvb_append (x_tls x) (message_encode m)) x).
  (** conn.rs:517-522 [send_single_fragment] and leader.rs:488-532 [push_outgoing] *)
  Definition push_out (m : message) : cm unit :=
    do! enc := sgets x_enc in
    if e_debug E && negb enc then slift Panic
    else
      do! _ := emit (PushOut m) in
      do! log := sgets x_log in
      require (b_push_out E log) EBackend.
  (** conn.rs:566-577 [send_msg] and 488-496 [send_msg_encrypt] *)
  Definition send_msg (m : message) (must_encrypt : bool) : cm unit :=
    do! ms := slift (lift_panic (fragment (e_frag E) m)) in
    if must_encrypt then sfor ms push_out
    else sfor ms (fun m => do! _ := emit (ClearOut m) in queue m).
  Definition hs_message (v : protocol_version) (h : handshake) : message := Message Handshake v (hs_encode h).
  (** message.rs:216-224 [build_alert] *)
  Definition alert (level desc : N) : message := Message Alert TLSv1_2 [level; desc].
  (** conn.rs:617-624 [send_fatal_alert] *)
  Definition send_fatal (desc : N) : cm unit :=
    do! sent := sgets x_sent_alert in
    if e_debug E && sent then slift Panic
    else
      do! enc := sgets x_enc in
      do! _ := send_msg (alert 2 desc) enc in
      smodify (set_sent_alert true).
  (** conn.rs:635-638 [send_warning_alert_no_log] *)
  Definition send_warning (desc : N) : cm unit :=
    do! enc := sgets x_enc in send_msg (alert 1 desc) enc.
  (** [send_fatal_alert(_).await?; return Err(_)] *)
  Definition refuse {A} (desc : N) (e : cl_error) : cm A := do! _ := send_fatal desc in sfail e.
  (** conn.rs:445-455 [check_aligned_handshake] *)
  Definition check_aligned : cm unit :=
    do! a := sgets x_aligned in if a then sret tt else refuse 10 (EMisbehaved 1).

  (** conn.rs:548-558 [flush_plaintext] with 499-515 [send_appdata_encrypt]; [cs] is the buffer *)
  Fixpoint flush_chunks (cs : list bytes) : cm unit :=
    match cs with
    | [] => sret tt
    | c :: cs =>
        do! _ := smodify (set_sendable cs) in
        do! _ := send_msg (Message ApplicationData TLSv1_2 c) true in
        flush_chunks cs
    end.
  Definition flush_plaintext : cm unit :=
    do! may := sgets x_may_send in
    if negb may then sret tt else do! cs := sgets x_sendable in flush_chunks cs.
  (** conn.rs:536-545 [start_traffic] *)
  Definition start_traffic : cm unit :=
    do! _ := smodify (set_may_recv true) in
    do! _ := emit StartTraffic in
    do! log := sgets x_log in
    do! _ := require (b_start E log) EBackend in
    do! _ := smodify (set_may_send true) in
    flush_plaintext.

  (** ** hs.rs *)
  (** hs.rs:34-228 [start_handshake], [emit_client_hello_for_retry] *)
  Definition start_handshake : cm cstate :=
    do! log := sgets x_log in
    match b_sid E log with
    | None => sfail EGeneral
    | Some sid =>
        match b_random E log with
        | None => sfail EBackend
        | Some random =>
            do! _ := emit (GetRandom random) in
            let h := HClientHello (hello random sid) in
            do! _ := send_msg (hs_message TLSv1_0 h) false in
            sret (CsHello random (map cx_type hello_exts) (tr_add (tr_new (e_has_certs E)) h))
        end
    end.

  (** check.rs:66-82 [inappropriate_handshake_message] *)
  Definition inappropriate_hs {A} (m : message_payload handshake) : cm A :=
    sfail match m with MPHandshake _ => EInappropriateHs | _ => EInappropriate end.

  (** hs.rs:230-253 [process_alpn_protocol] *)
  Definition process_alpn (proto : option bytes) : cm unit :=
    do! _ := smodify (set_alpn proto) in
    match proto with
    | Some p => if bool_decide (p ∈ e_alpn E) then sret tt else refuse 47 (EMisbehaved 4)
    | None => sret tt
    end.
  (** hs.rs:260-417 [ExpectServerHello] and tls12.rs:50-103 [handle_server_hello] *)
  Definition on_server_hello (random : bytes) (sent : list N) (tr : hs_hash) (h : server_hello) : cm cstate :=
    let version := if (sh_version h =? 0x0303)%N then default (sh_version h) (sh_versions h) else sh_version h in
    if negb (version =? 0x0303)%N then refuse 70 EIncompatible
    else if match sh_versions h with Some _ => true | None => false end then refuse 47 (EMisbehaved 2)
    else if negb (sh_compression h =? 0)%N then refuse 47 (EMisbehaved 3)
    else if has_duplicate (map sx_type (sh_exts h)) then refuse 50 (EMisbehaved 5)
    else if existsb (fun x => negb (bool_decide (sx_type x ∈ sent)) && negb (sx_type x =? X_RENEGOTIATION)%N) (sh_exts h)
    then refuse 110 (EMisbehaved 6)
    else
      do! _ := smodify (set_version (Some 0x0303%N)) in
      do! _ := process_alpn (sh_alpn h) in
      if match sh_points h with Some fs => negb (bool_decide (0%N ∈ fs)) | None => false end
      then refuse 40 (EMisbehaved 7)
      else if negb (bool_decide (sh_suite h ∈ CLIENT_SUITES)) then refuse 40 (EMisbehaved 8)
      else
        do! _ := smodify (set_suite (Some (sh_suite h))) in
        if match sh_scts h with Some l => match l with [] => true | _ => existsb (fun s => match s with [] => true | _ => false end) l end
           | None => false end
        then sfail (EMisbehaved 9)
        else sret (CsCert random (sh_random h) (tr_add tr (HServerHello h)) (sh_suite h) (sh_status h) (sh_scts h)).

  (** ** tls12.rs *)
  (** tls12.rs:280-322 [ExpectServerKx] *)
  Definition on_server_kx (cr sr : bytes) (tr : hs_hash) (suite : N) (cert : cert_details) (m : message_payload handshake)
    : cm cstate :=
    match m with
    | MPHandshake (HServerKeyExchange p) =>
        match unwrap_ecdhe p with
        | Ok k => sret (CsDoneOrReq cr sr (tr_add tr (HServerKeyExchange p)) suite cert (KxDetails (enc_params k) (ke_dss k)))
        | Err _ => refuse 50 ECorruptPayload
        | Panic => slift Panic
        end
    | _ => inappropriate_hs m
    end.

  (** tls12.rs:325-418: a handshake message is hashed and sent *)
  Definition emit_hs (tr : hs_hash) (h : handshake) (must_encrypt : bool) : cm hs_hash :=
    do! _ := send_msg (hs_message TLSv1_2 h) must_encrypt in sret (tr_add tr h).
  (** tls12.rs:365-388 [emit_certverify] *)
  Definition emit_certverify (tr : hs_hash) (scheme : N) (sign : bytes -> option bytes) : cm hs_hash :=
    match tr_take tr with
    | (None, _) => sfail EGeneral
    | (Some msg, tr) =>
        match sign msg with
        | None => sfail EGeneral
        | Some sig => emit_hs tr (HCertVerify (Signed scheme sig)) false
        end
    end.

  (** tls12.rs:539-708 [ExpectServerDone] *)
  Definition on_server_done (cr sr : bytes) (tr : hs_hash) (suite : N) (cert : cert_details) (kx : kx_details)
      (auth : option client_auth) (m : message_payload handshake) : cm cstate :=
    match m with
    | MPHandshake HServerHelloDone =>
        let tr := tr_add tr HServerHelloDone in
        do! _ := check_aligned in
        match sc_chain cert with
        | [] => sfail ENoCerts
        | leaf :: inter =>
            do! log := sgets x_log in
            if negb (e_verify_cert E leaf inter (e_name E) (default [] (sc_scts cert)) (sc_ocsp cert) (b_now E log))
            then refuse 42 ECore
            else if negb (suite_usable suite (scheme_sign (ds_scheme (kd_sig kx)))) then sfail (EMisbehaved 10)
            else
              match verify_struct (e_cert_key E) (e_sig_valid E) (cr ++ sr ++ kd_params kx) leaf (kd_sig kx) with
              | Panic => slift Panic
              | Err _ => refuse 42 ECore
              | Ok _ =>
                  do! tr := match auth with
                            | Some a => emit_hs tr (HCertificate (match a with AuthEmpty => [] | AuthVerify c _ _ => c end)) false
                            | None => sret tr
                            end in
                  match decode_params (kd_params kx) with
                  | None => refuse 50 ECorruptPayload
                  | Some (group, key) =>
                      do! log := sgets x_log in
                      match b_key_share E log with
                      | None => sfail EBackend
                      | Some (my_group, my_key) =>
                          do! _ := emit (GetKeyShare my_group my_key) in
                          if negb (my_group =? group)%N then sfail (EMisbehaved 11)
                          else
                            do! tr := emit_hs tr (HClientKeyExchange (enc_payload 1 my_key)) false in
                            do! tr := match auth with
                                      | Some (AuthVerify _ scheme sign) => emit_certverify tr scheme sign
                                      | _ => sret tr
                                      end in
                            do! _ := send_msg (Message ChangeCipherSpec TLSv1_2 [1%N]) false in
                            do! _ := emit (Prepare sr group key (sc_chain cert) (sc_ocsp cert) (sc_scts cert) (kd_params kx) (kd_sig kx)) in
                            do! log := sgets x_log in
                            do! _ := require (b_prepare E log) EBackend in
                            do! _ := smodify (set_enc true) in
                            let hash := e_sha256 E (t_bytes tr) in
                            do! log := sgets x_log in
                            do! _ := emit (ClientVd hash (b_cf E log)) in
                            match b_cf E log with
                            | None => sfail EBackend
                            | Some vd =>
                                do! tr := emit_hs tr (HFinished vd) true in
                                sret (CsCcs tr)
                            end
                      end
                  end
              end
        end
    | _ => inappropriate_hs m
    end.

  (** [State::handle] of the states, conn.rs:690-695; config.rs:171-177 is [unreachable!]. *)
  Definition handle (st : cstate) (m : message_payload handshake) : cm cstate :=
    match st with
    | CsInit => slift Panic
    | CsHello random sent tr =>
        match m with MPHandshake (HServerHello h) => on_server_hello random sent tr h | _ => inappropriate_hs m end
    (** tls12.rs:117-154 [ExpectCertificate] *)
    | CsCert cr sr tr suite may_status scts =>
        match m with
        | MPHandshake (HCertificate chain) =>
            let tr := tr_add tr (HCertificate chain) in
            sret (if may_status then CsStatusOrKx cr sr tr suite scts chain
                  else CsKx cr sr tr suite (CertDetails chain [] scts))
        | _ => inappropriate_hs m
        end
    (** tls12.rs:167-268 [ExpectCertificateStatusOrServerKx], [ExpectCertificateStatus] *)
    | CsStatusOrKx cr sr tr suite scts chain =>
        match m with
        | MPHandshake (HServerKeyExchange _) => on_server_kx cr sr tr suite (CertDetails chain [] scts) m
        | MPHandshake (HCertStatus ocsp) => sret (CsKx cr sr (tr_add tr (HCertStatus ocsp)) suite (CertDetails chain ocsp scts))
        | _ => inappropriate_hs m
        end
    | CsKx cr sr tr suite cert => on_server_kx cr sr tr suite cert m
    (** tls12.rs:432-525 [ExpectServerDoneOrCertReq], [ExpectCertificateRequest] and hs.rs:635-663 [resolve] *)
    | CsDoneOrReq cr sr tr suite cert kx =>
        match m with
        | MPHandshake (HCertRequest r) =>
            let auth := match e_resolve E (cq_names r) (cq_schemes r) with
                        | Some (chain, scheme, sign) => AuthVerify chain scheme sign
                        | None => AuthEmpty
                        end in
            sret (CsDone cr sr (tr_add tr (HCertRequest r)) suite cert kx (Some auth))
        | _ => on_server_done cr sr (tr_abandon tr) suite cert kx None m
        end
    | CsDone cr sr tr suite cert kx auth => on_server_done cr sr tr suite cert kx auth m
    (** tls12.rs:717-745 [ExpectCcs] *)
    | CsCcs tr =>
        match m with
        | MPCcs =>
            do! _ := check_aligned in
            do! _ := smodify (set_dec true) in
            sret (CsFinished tr)
        | _ => sfail EInappropriate
        end
    (** tls12.rs:754-798 [ExpectFinished] *)
    | CsFinished tr =>
        match m with
        | MPHandshake (HFinished p) =>
            do! _ := check_aligned in
            let hash := e_sha256 E (t_bytes tr) in
            do! log := sgets x_log in
            do! _ := emit (ServerVd hash (b_sf E log)) in
            match b_sf E log with
            | None => sfail EBackend
            | Some vd =>
                if negb (bool_decide (vd = p)) then refuse 51 EDecryptError
                else
                  do! _ := start_traffic in
                  sret CsTraffic
            end
        | _ => inappropriate_hs m
        end
    (** tls12.rs:807-824 [ExpectTraffic] and conn.rs:579-581 [take_received_plaintext] *)
    | CsTraffic =>
        match m with
        | MPApp p =>
            do! _ := smodify (fun x => set_received (cvb_append (x_received x) p) x) in
            sret CsTraffic
        | _ => sfail EInappropriate
        end
    end.

  (** ** conn.rs *)
  (** conn.rs:410-438 [process_main_protocol] *)
  Definition process_main (st : cstate) (m : message_payload handshake) : cm cstate :=
    do! may := sgets x_may_recv in
    if may && match m with MPHandshake h => (hs_type h =? 0)%N | _ => false end then
      do! _ := send_warning 100 in sret st
    else
      scatch (handle st m) (fun e =>
        match e with
        | EInappropriate | EInappropriateHs => refuse 10 e
        | _ => sfail e
        end).

  (** conn.rs:588-615 [process_alert] *)
  Definition process_alert (level desc : N) : cm unit :=
    do! _ := if (level =? 1)%N || (level =? 2)%N then sret tt else send_fatal 47 in
    if (desc =? 0)%N then smodify (set_close true)
    else if (level =? 1)%N then sret tt
    else sfail (EAlert desc).

  Definition body_read (v : protocol_version) (typ : N) (body : bytes) : option handshake :=
    match whole (rd_body (e_dns_ok E) (bool_decide (v = TLSv1_3)) typ body) with Ok h => Some h | _ => None end.

  (** conn.rs:270-280 [process_new_handshake_messages]; [fs] are the frames of the joiner *)
  Fixpoint process_frames (fs : list (protocol_version * handshake)) (st : cstate) : cm cstate :=
    match fs with
    | [] => sret st
    | (_, h) :: fs =>
        do! _ := smodify (fun x => set_joiner (Joiner fs (j_buf (x_joiner x))) x) in
        do! st := process_main st (MPHandshake h) in
        process_frames fs st
    end.

  (** conn.rs:168-200 [process_incoming_plain]; a loop that never ends (excluded by C27) is [Panic] *)
  Definition process_plain (m : message) (st : cstate) : cm cstate :=
    match m_typ m with
    | Handshake =>
        do! j := sgets x_joiner in
        match take_message body_read j m with
        | None => slift Panic
        | Some (r, j) =>
            do! _ := smodify (set_joiner j) in
            match r with
            | None => refuse 50 ECorruptPayload
            | Some _ =>
                do! _ := smodify (set_aligned (j_is_empty j)) in
                process_frames (j_frames j) st
            end
        end
    | _ =>
        match message_payload_new body_read (m_typ m) (m_version m) (m_payload m) with
        | None => sfail ECore
        | Some (MPAlert level desc) => do! _ := process_alert level desc in sret st
        | Some p => process_main st p
        end
    end.

  (** Errors of [process_new_packets] that are kept as the state, and those that are not because of [?]. *)
  Definition kept {A} (m : cm A) : stm cx (bool * cl_error) A := scatch m (fun e => sfail (true, e)).
  Definition passed {A} (m : cm A) : stm cx (bool * cl_error) A := scatch m (fun e => sfail (false, e)).

  (** conn.rs:130-166 [process_incoming_opaque] for one record of the deframer, and 240-251 *)
  Definition process_record (m : message) (st : cstate) : stm cx (bool * cl_error) cstate :=
    do! dec := sgets x_dec in
    if dec then
      do! _ := emit (PushIn m) in
      do! log := sgets x_log in
      do! _ := passed (require (b_push_in E log) EBackend) in
      sret st
    else
      do! _ := emit (ClearIn m) in
      kept (process_plain m st).
  (** conn.rs:237-251; [ms] are the frames of the deframer *)
  Fixpoint process_records (ms : list message) (st : cstate) : stm cx (bool * cl_error) cstate :=
    match ms with
    | [] => sret st
    | m :: ms =>
        do! _ := smodify (fun x => set_df (Deframer ms (df_desynced (x_df x)) (df_buf (x_df x))) x) in
        do! st := process_record m st in
        process_records ms st
    end.
  (** conn.rs:254-263; [ms] is the queue of decrypted records *)
  Fixpoint process_decrypted (ms : list message) (st : cstate) : stm cx (bool * cl_error) cstate :=
    match ms with
    | [] => sret st
    | m :: ms =>
        do! _ := smodify (set_in ms) in
        do! _ := emit (Decrypted m) in
        do! st := kept (process_plain m st) in
        process_decrypted ms st
    end.
  (** conn.rs:265-267; [ms] is the queue of encrypted records *)
  Fixpoint queue_encrypted (ms : list message) : cm unit :=
    match ms with
    | [] => sret tt
    | m :: ms =>
        do! _ := smodify (set_out ms) in
        do! _ := emit (Encrypted m) in
        do! _ := queue m in
        queue_encrypted ms
    end.
  (** leader.rs:563-604 [flush] *)
  Definition backend_flush : cm unit :=
    do! _ := emit Flush in
    do! log := sgets x_log in
    match b_flush E log with
    | None => sfail EBackend
    | Some (ins, outs) => smodify (fun x => set_in (x_in x ++ ins) (set_out (x_out x ++ outs) x))
    end.
  (** conn.rs:218-268 [process_new_packets] between taking the state and putting it back *)
  Definition process_body (st : cstate) : stm cx (bool * cl_error) cstate :=
    do! df := sgets x_df in
    if df_desynced df then sfail (false, ECorrupt)
    else
      do! _ := passed flush_plaintext in
      do! st := process_records (df_frames df) st in
      do! _ := passed backend_flush in
      do! ms := sgets x_in in
      do! st := process_decrypted ms st in
      do! ms := sgets x_out in
      do! _ := passed (queue_encrypted ms) in
      sret st.

  (** ** The calls of the user *)
  Record conn := Conn { c_state : cl_error + cstate; c_x : cx }.
  Definition conn_new : conn := Conn (inr CsInit) cx_new.
  Inductive call :=
  | CallStart | CallReadTls (chunk : bytes) | CallProcess | CallWriteTls (n : nat) | CallWrite (p : bytes)
  | CallRead (n : nat) | CallCloseNotify | CallServerClosed.

  Definition on_x (c : conn) (m : cm unit) : conn * outcome cl_error unit :=
    let (x, o) := m (c_x c) in (Conn (c_state c) x, o).
  (** conn.rs:218-268 *)
  Definition process_new_packets (c : conn) : conn * outcome cl_error unit :=
    match c_state c with
    | inl e => (c, Err e)
    | inr st =>
        match process_body st (c_x c) with
        | (x, Ok st) => (Conn (inr st) x, Ok tt)
        | (x, Err (keep, e)) => (Conn (inl (if keep : bool then e else ENotComplete)) x, Err e)
        | (x, Panic) => (Conn (inl ENotComplete) x, Panic)
        end
    end.
  (** conn.rs:112-122 [start]; 686-688: only the first state can be started *)
  Definition start (c : conn) : conn * outcome cl_error unit :=
    match c_state c with
    | inl e => (c, Err e)
    | inr CsInit =>
        match start_handshake (c_x c) with
        | (x, Ok st) => (Conn (inr st) x, Ok tt)
        | (x, Err e) => (Conn (inl e) x, Ok tt)
        | (x, Panic) => (Conn (inl ENotComplete) x, Panic)
        end
    | inr _ => (Conn (inl ENotComplete) (c_x c), Panic)
    end.
  (** [read_tls] (309-311) with what the socket gives: more than fits is refused; [write_tls] (532-534);
      [write_plaintext] (284-292); [read_plaintext] (102-104); [send_close_notify] (629-633);
      [server_closed] (125-128). *)
  Definition step (c : conn) (k : call) : conn * outcome cl_error unit :=
    match k with
    | CallStart => start c
    | CallProcess => process_new_packets c
    | CallReadTls chunk => on_x c (
        do! df := sgets x_df in
        match df_read df chunk with
        | None => sfail EIo
        | Some df => do! _ := smodify (set_df df) in emit (WireIn chunk)
        end)
    | CallWriteTls n => on_x c (
        do! cs := sgets x_tls in
        let (b, cs) := cvb_write n cs in
        do! _ := smodify (set_tls cs) in emit (WireOut b))
    | CallWrite p => on_x c (
        match p with
        | [] => sret tt
        | _ =>
            do! cs := sgets x_sendable in
            let (cs, n) := cvb_append_limited cs p in
            do! _ := smodify (set_sendable cs) in emit (Accepted (take n p))
        end)
    | CallRead n => on_x c (
        do! cs := sgets x_received in
        let (b, cs) := cvb_read n cs in
        do! _ := smodify (set_received cs) in emit (Delivered b))
    | CallCloseNotify => on_x c (send_warning 0)
    | CallServerClosed => on_x c (
        do! _ := emit CloseConnection in
        do! log := sgets x_log in require (b_close E log) EBackend)
    end.
  (** A history of calls: the connection at the end and what the calls returned. A panic ends it. *)
  Fixpoint run (c : conn) (ks : list call) : conn * list (outcome cl_error unit) :=
    match ks with
    | [] => (c, [])
    | k :: ks =>
        match step c k with
        | (c, Panic) => (c, [Panic])
        | (c, o) => let (c, os) := run c ks in (c, o :: os)
        end
    end.
  Definition log_of (c : conn) : list cev := x_log (c_x c).
End Client.
