(** Model of crates/mpc-tls/src/follower.rs: how the follower answers the messages of the leader.

    The key derivation and its virtual machine are those of PrfModel.v, the record layer that of RecordModel.v, the
    transcript is built by TlsModel.v and checked by PartsModel.v. The key exchange is an oracle (KeyExchangeModel.v models it):
    the pre-master secret that is assigned, if there is one, and whether the final check succeeds. The key exchange has its share of
    the pre-master secret in the machine at the first cell. Messages come with the reading of the clock when they are handled.
    Locks are never held by anyone else, and the preprocessing of the machine has no effect on what is computed. *)
From Verif.Lib Require Import Base.
From Verif Require Import TranscriptModel ProofModel CodecModel AttestModel TlsModel AuthModel TagModel RecordModel PartsModel PrfModel.

(** msg.rs:39-47 [ServerHello]; the key has a group (enums.rs [NamedGroup]) and bytes. *)
Record server_params := ServerParams { sp_time : N; sp_random : list N; sp_group : N; sp_key : list N }.
(** msg.rs:9-36 [Message], 50-66 [Decrypt], [Encrypt]. *)
Inductive fmsg :=
| MClientRandom (r : list N)
| MServerHello (h : server_params)
| MCfVd (hash : list N)
| MSfVd (hash : list N)
| MEncrypt (typ : content_type) (v : protocol_version) (len : N) (plain : option (list N))
| MDecrypt (typ : content_type) (v : protocol_version) (nonce ct tag : list N)
| MStart
| MFlush (is_decrypting : bool)
| MClose.

(** error.rs [MpcTlsError]; [FHang] stands for a loop that has not ended. *)
Inductive fo_error :=
| FIo | FRandomTwice | FHelloTwice | FTime | FGroup | FKey | FExchange | FFinalize | FCfTwice | FSfTwice | FNoVd | FHang
| FMissing | FPrf (e : prf_error) | FRl (e : rl_error) | FBuild (e : tls_error) | FParts (e : parts_error).

(** enums.rs: [NamedGroup::secp256r1]. *)
Definition secp256r1 : N := 23%N.
(** follower.rs:33. *)
Definition max_time_diff : N := 5%N.
(** [u64::abs_diff]. *)
Definition abs_diff (a b : N) : N := if (a <? b)%N then (b - a)%N else (a - b)%N.

(** config.rs: the limits. *)
Record fo_config := FoConfig {
  fc_sent_records : N; fc_recv_records : N; fc_sent : N; fc_recv_online : N; fc_recv : N; fc_net : net_mode }.

(** The variables of [run], follower.rs:202-218. *)
Record fo := Fo {
  fo_vm : vm; fo_prf : prf; fo_rl : rl;
  fo_random : option (list N); fo_hello : option server_params; fo_cf : option (list N); fo_sf : option (list N) }.
Definition set_prf (m : vm) (p : prf) (s : fo) : fo := Fo m p (fo_rl s) (fo_random s) (fo_hello s) (fo_cf s) (fo_sf s).
Definition set_rl (r : rl) (s : fo) : fo := Fo (fo_vm s) (fo_prf s) r (fo_random s) (fo_hello s) (fo_cf s) (fo_sf s).
Definition set_random (r : list N) (s : fo) : fo := Fo (fo_vm s) (fo_prf s) (fo_rl s) (Some r) (fo_hello s) (fo_cf s) (fo_sf s).
Definition set_hello (h : server_params) (s : fo) : fo := Fo (fo_vm s) (fo_prf s) (fo_rl s) (fo_random s) (Some h) (fo_cf s) (fo_sf s).
Definition set_cf (v : list N) (s : fo) : fo := Fo (fo_vm s) (fo_prf s) (fo_rl s) (fo_random s) (fo_hello s) (Some v) (fo_sf s).
Definition set_sf (v : list N) (s : fo) : fo := Fo (fo_vm s) (fo_prf s) (fo_rl s) (fo_random s) (fo_hello s) (fo_cf s) (Some v).

(** connection.rs:225-238 [TryFrom<PublicKey> for ServerEphemKey]. *)
Definition ephem_of (h : server_params) : option ephem_key :=
  if (sp_group h =? secp256r1)%N then Some (EphemKey (sp_key h)) else None.

Section Follower.
  (** SHA-256 in the key derivation. *)
  Context (iv : list N) (compress : list N -> list N -> list N).
  (** The record layer, see RecordModel.v. *)
  Context (aes : list N -> list N -> list N) (ghash_fn : list N -> list N -> list N) (checked : bool) (blind : N -> nat -> N) (pad_rng : nat -> N).
  (** The transcript builder, see TlsModel.v. *)
  Context (sha256 : list N -> list N) (parse_body : protocol_version -> N -> list N -> option hs_payload) (ec_curve : list N -> option N).
  (** [p256::PublicKey::from_sec1_bytes] succeeds. *)
  Context (parse_key : list N -> bool).
  (** [set_server_key], [compute_shares] and [assign]: the pre-master secret for a server key. [finalize]. *)
  Context (exchange : list N -> option (list N)) (finalize : list N -> bool).
  (** How many rounds [flush_prf] is followed. *)
  Context (rounds : nat).

  (** The keys in the machine, utils.rs:61-66; the record layer executes the machine. Without a value the record layer is not ready
      to use them. *)
  Definition key_of (m : vm) (i : nat) : list N := default [] (vm_decoded (vm_execute m) i).
  (** A call to the record layer. *)
  Definition rl_exec (out : prf_output) (c : rl_call) (s : fo) : outcome fo_error (rl_result * fo) :=
    let m := fo_vm s in
    match rl_step aes ghash_fn checked (key_of m (po_ck out)) (key_of m (po_civ out)) (key_of m (po_sk out)) (key_of m (po_siv out))
            blind pad_rng c (fo_rl s) with
    | (r, Ok x) => Ok (x, set_rl r s)
    | (_, Err e) => Err (FRl e)
    | (_, Panic) => Panic
    end.
  (** utils.rs:92-105 [flush_prf]. *)
  Definition flush_prf (s : fo) : outcome fo_error fo :=
    let! o := map_err FPrf (flush_all compress rounds (fo_vm s) (fo_prf s)) in
    match o with
    | Some (m, p) => Ok (set_prf m p s)
    | None => Err FHang
    end.
  Definition with_prf (s : fo) (o : outcome prf_error prf) : outcome fo_error fo :=
    let! p := map_err FPrf o in Ok (set_prf (fo_vm s) p s).

  (** follower.rs:230-268. *)
  Definition on_hello (out : prf_output) (now : N) (h : server_params) (s : fo) : outcome fo_error fo :=
    if bool_decide (is_Some (fo_hello s)) then Err FHelloTwice
    else if (max_time_diff <? abs_diff (sp_time h) now)%N then Err FTime
    else
      let! s := with_prf s (set_server_random (fo_prf s) (sp_random h)) in
      if negb (sp_group h =? secp256r1)%N then Err FGroup
      else if negb (parse_key (sp_key h)) then Err FKey
      else
        let! pms := opt_err FExchange (exchange (sp_key h)) in
        let! m := map_err FPrf (vm_assign (fo_vm s) 0 pms) in
        let! s := flush_prf (set_prf m (fo_prf s) s) in
        if negb (finalize (sp_key h)) then Err FFinalize
        else
          let! (_, s) := rl_exec out CSetup s in
          Ok (set_hello h s).
  (** follower.rs:269-287 and 288-306. *)
  Definition on_cf (out : prf_output) (hash : list N) (s : fo) : outcome fo_error fo :=
    if bool_decide (is_Some (fo_cf s)) then Err FCfTwice
    else
      let! s := with_prf s (set_cf_hash (fo_prf s) hash) in
      let! s := flush_prf s in
      let! vd := opt_err FNoVd (vm_decoded (fo_vm s) (po_cf out)) in
      Ok (set_cf vd s).
  Definition on_sf (out : prf_output) (hash : list N) (s : fo) : outcome fo_error fo :=
    if bool_decide (is_Some (fo_sf s)) then Err FSfTwice
    else
      let! s := with_prf s (set_sf_hash (fo_prf s) hash) in
      let! s := flush_prf s in
      let! vd := opt_err FNoVd (vm_decoded (fo_vm s) (po_sf out)) in
      Ok (set_sf vd s).
  (** follower.rs:221-336, but for [CloseConnection]. *)
  Definition fo_step (out : prf_output) (now : N) (x : fmsg) (s : fo) : outcome fo_error fo :=
    match x with
    | MClientRandom r =>
        if bool_decide (is_Some (fo_random s)) then Err FRandomTwice
        else Ok (set_random r (set_prf (fo_vm s) (set_client_random (fo_prf s) r) s))
    | MServerHello h => on_hello out now h s
    | MCfVd hash => on_cf out hash s
    | MSfVd hash => on_sf out hash s
    | MEncrypt t v n p => let! (_, s) := rl_exec out (CEncrypt t v n p) s in Ok s
    | MDecrypt t v n c g => let! (_, s) := rl_exec out (CDecrypt t v n c g) s in Ok s
    | MStart => let! (_, s) := rl_exec out CStart s in Ok s
    | MFlush b => let! (_, s) := rl_exec out (CFlush b) s in Ok s
    | MClose => Ok s
    end.
  (** follower.rs:219-337: messages are handled until the connection is closed; it is an error if there is no further message. *)
  Fixpoint fo_loop (out : prf_output) (ms : list (N * fmsg)) (s : fo) : outcome fo_error fo :=
    match ms with
    | [] => Err FIo
    | (_, MClose) :: _ => Ok s
    | (now, x) :: ms' => let! s := fo_step out now x s in fo_loop out ms' s
    end.
  (** follower.rs:339-373. *)
  Definition fo_finish (out : prf_output) (s : fo) : outcome fo_error tls_transcript :=
    let! (l, s) := rl_exec out CCommit s in
    let! (sent, recv) := (match l with RLogs a b => Ok (a, b) | _ => Panic end) in
    let! h := opt_err FMissing (fo_hello s) in
    let! r := opt_err FMissing (fo_random s) in
    let! cf := opt_err FMissing (fo_cf s) in
    let! sf := opt_err FMissing (fo_sf s) in
    let! ek := or_panic (ephem_of h) in
    let! t := map_err FBuild (tls_build sha256 parse_body ec_curve
      (TlsBuilder (Some (sp_time h)) (Some V1_2) None None None None (Some sent) (Some recv) None None
        (Some (CertBinding r (sp_random h) ek)))) in
    let! _ := map_err FParts (verify_transcript t cf sf) in
    Ok t.
  (** follower.rs:69-134 and utils.rs:46-90 [alloc_session]. *)
  Definition fo_alloc (c : fo_config) : outcome fo_error (prf_output * fo) :=
    let! (m, p, out) := map_err FPrf (prf_setup iv compress (fc_net c) MsStandard) in
    let! (_, s) := rl_exec out (CAlloc (fc_sent_records c) (fc_recv_records c) (fc_sent c) (fc_recv_online c) (fc_recv c))
      (Fo m p (rl_new Follower) None None None None) in
    Ok (out, s).
  (** [alloc], [preprocess] and [run]. *)
  Definition fo_run (c : fo_config) (ms : list (N * fmsg)) : outcome fo_error tls_transcript :=
    let! (out, s) := fo_alloc c in
    let! s := fo_loop out ms s in
    fo_finish out s.
End Follower.
