(** Model of crates/mpc-tls/src/leader.rs: the prover's side of the protocol, which the TLS client drives and which tells the
    follower (FollowerModel.v) what to do.

    The key derivation and its virtual machine, the record layer and the transcript are those of FollowerModel.v, here with the
    leader's role; the key exchange is an oracle in the same way. The variables of a connection are kept in the record [fo] of that
    model: what the follower learns from a message is here what was sent in it. Locks are never held by anyone else, and the
    preprocessing of the machine has no effect on what is computed. Every call comes with the reading of the clock and with whether
    the follower can be reached during it; a call that cannot send its message fails there. *)
From Verif.Lib Require Import Base.
From Verif Require Import TranscriptModel ProofModel CodecModel AttestModel TlsModel AuthModel TagModel RecordModel PartsModel PrfModel
  HandshakeModel SigAlgModel FollowerModel.

(** leader.rs:768-779 [HandshakeData]: of the details of the certificate only the chain is used. *)
Record hs_data := HsData {
  hs_random : list N; hs_group : N; hs_key : list N; hs_certs : list (list N); hs_params : list N; hs_dss : signed }.

(** leader.rs:790-827 [State]. In [Active], [fo_hello] has the time, the server's random and its key. *)
Inductive ld_state :=
| LInit
| LSetup (out : prf_output) (s : fo) (random : list N)
| LReady (out : prf_output) (s : fo)
| LActive (out : prf_output) (s : fo) (hs : hs_data)
| LClosed (r : rl) (t : tls_transcript)
| LError.
(** leader.rs:44-52 [MpcTlsLeader]. *)
Record ld := Ld { ld_st : ld_state; ld_decrypting : bool }.
Definition goto (st : ld_state) (l : ld) : ld := Ld st (ld_decrypting l).

(** The calls, and what they return. The client's random number comes from the generator. *)
Inductive lcall :=
| LAlloc (random : list N) | LPreprocess
| LGetRandom | LGetKeyShare
| LPrepare (hs : hs_data) | LClientVd (hash : list N) | LServerVd (hash : list N)
| LPushIn (m : message) | LNextIn | LPushOut (m : message) | LNextOut
| LStart | LFlush | LIsEmpty | LCloseConn | LEnable (b : bool) | LFinish.
Inductive lres :=
| LUnit | LBytes (b : list N) | LKey (group : N) (key : list N) | LMsg (m : option message) | LBool (b : bool) | LDone (t : option tls_transcript).
(** error.rs [MpcTlsError]: not the right state; a hash of the wrong length; otherwise as for the follower. *)
Inductive ld_error := LdState | LdHash | LdGroup | LdParts (e : parts_error) | LdFo (e : fo_error).

(** record_layer.rs:270-279 [is_empty], [wants_flush]. *)
Definition rl_wants_flush (r : rl) : bool := match rl_encrypt r, rl_decrypt r with [], [] => false | _, _ => true end.
Definition rl_is_empty (r : rl) : bool :=
  match rl_encrypt r, rl_decrypt r, rl_encrypted r, rl_decrypted r with [], [], [], [] => true | _, _, _, _ => false end.

Section Leader.
  (** As in FollowerModel.v. [blind] is not used by the leader's record layer. *)
  Context (iv : list N) (compress : list N -> list N -> list N).
  Context (aes : list N -> list N -> list N) (ghash_fn : list N -> list N -> list N) (checked : bool) (blind : N -> nat -> N) (pad_rng : nat -> N).
  Context (sha256 : list N -> list N) (parse_body : protocol_version -> N -> list N -> option hs_payload) (ec_curve : list N -> option N).
  Context (parse_key : list N -> bool) (exchange : list N -> option (list N)) (finalize : list N -> bool) (rounds : nat).
  (** webpki, see SigAlgModel.v. *)
  Context (cert_key : bytes -> option key_kind) (sig_valid : bytes -> webpki_alg -> bytes -> bytes -> bool).
  (** The client's key of the key exchange, once it is set up. *)
  Context (client_key : option (list N)).
  Context (c : fo_config).

  (** The new state, the messages sent, and the result. *)
  Notation L := (ld * list fmsg * outcome ld_error lres)%type.

  (** A call to the record layer; its state changes even if the call fails. *)
  Definition ld_exec (out : prf_output) (cl : rl_call) (s : fo) : fo * outcome ld_error rl_result :=
    let m := fo_vm s in
    let (r, o) := rl_step aes ghash_fn checked (key_of m (po_ck out)) (key_of m (po_civ out)) (key_of m (po_sk out)) (key_of m (po_siv out))
                    blind pad_rng cl (fo_rl s) in
    (set_rl r s, map_err (fun e => LdFo (FRl e)) o).
  Definition unit_of {E A} (o : outcome E A) : outcome E lres := let! _ := o in Ok LUnit.

  (** leader.rs:116-148 [alloc], with utils.rs:45-90 [alloc_session]. *)
  Definition ld_alloc (random : list N) (l : ld) : L :=
    match ld_st l with
    | LInit =>
        match map_err FPrf (prf_setup iv compress (fc_net c) MsStandard) with
        | Ok (m, p, out) =>
            match ld_exec out (CAlloc (fc_sent_records c) (fc_recv_records c) (fc_sent c) (fc_recv_online c) (fc_recv c))
                    (Fo m p (rl_new Leader) None None None None) with
            | (s, Ok _) => (goto (LSetup out s random) l, [], Ok LUnit)
            | (_, Err e) => (goto LError l, [], Err e)
            | (_, Panic) => (goto LError l, [], Panic)
            end
        | Err e => (goto LError l, [], Err (LdFo e))
        | Panic => (goto LError l, [], Panic)
        end
    | _ => (goto LError l, [], Err LdState)
    end.
  (** leader.rs:150-226 [preprocess]. *)
  Definition ld_preprocess (io : bool) (l : ld) : L :=
    match ld_st l with
    | LSetup out s random =>
        if io
        then (goto (LReady out (set_random random (set_prf (fo_vm s) (set_client_random (fo_prf s) random) s))) l,
              [MClientRandom random], Ok LUnit)
        else (goto LError l, [], Err (LdFo FIo))
    | _ => (goto LError l, [], Err LdState)
    end.
  (** leader.rs:236-244 [client_random]. *)
  Definition ld_random (l : ld) : L :=
    match ld_st l with
    | LReady _ s => (l, [], match fo_random s with Some r => Ok (LBytes r) | None => Err LdState end)
    | _ => (l, [], Err LdState)
    end.
  (** leader.rs:247-260 [client_key_share]. *)
  Definition ld_key_share (l : ld) : L :=
    match ld_st l with
    | LReady _ _ => (l, [], match client_key with Some k => Ok (LKey secp256r1 k) | None => Err (LdFo FKey) end)
    | _ => (l, [], Err LdState)
    end.
  (** leader.rs:299-326: after the message to the follower. *)
  Definition prepare_keys (out : prf_output) (h : server_params) (s : fo) : outcome fo_error fo :=
    let! s := with_prf s (set_server_random (fo_prf s) (sp_random h)) in
    if negb (parse_key (sp_key h)) then Err FKey
    else
      let! pms := opt_err FExchange (exchange (sp_key h)) in
      let! m := map_err FPrf (vm_assign (fo_vm s) 0 pms) in
      let! s := flush_prf compress rounds (set_prf m (fo_prf s) s) in
      if negb (finalize (sp_key h)) then Err FFinalize
      else
        let! (_, s) := rl_exec aes ghash_fn checked blind pad_rng out CSetup s in
        Ok (set_hello h s).
  (** leader.rs:265-346 [prepare_encryption]. *)
  Definition ld_prepare (now : N) (io : bool) (hs : hs_data) (l : ld) : L :=
    match ld_st l with
    | LReady out s =>
        if negb (hs_group hs =? secp256r1)%N then (goto LError l, [], Err LdGroup)
        else if negb io then (goto LError l, [], Err (LdFo FIo))
        else
          let h := ServerParams now (hs_random hs) (hs_group hs) (hs_key hs) in
          match prepare_keys out h s with
          | Ok s => (goto (LActive out s hs) l, [MServerHello h], Ok LUnit)
          | Err e => (goto LError l, [MServerHello h], Err (LdFo e))
          | Panic => (goto LError l, [MServerHello h], Panic)
          end
    | _ => (goto LError l, [], Err LdState)
    end.

  (** The key derivation after an error (prf.rs:309-352). Simplified: what had been assigned in the machine until then is forgotten. *)
  Definition broken (s : fo) : fo :=
    set_prf (fo_vm s) (Prf (pf_net (fo_prf s)) (pf_ms (fo_prf s)) PError (pf_random (fo_prf s))) s.
  (** leader.rs:376-393 and 425-442: [set] gives the hash, [cell] is the verify data and [known] says whether they were taken
      before, for they are handed out once. *)
  Definition vd_of (set : prf -> list N -> outcome prf_error prf) (cell : nat) (known : bool) (hash : list N) (s : fo)
    : fo * outcome ld_error (list N) :=
    match with_prf s (set (fo_prf s) hash) with
    | Ok s1 =>
        match flush_prf compress rounds s1 with
        | Ok s2 =>
            if known then (s2, Err (LdFo FNoVd))
            else (s2, match vm_decoded (fo_vm s2) cell with Some vd => Ok vd | None => Err (LdFo FNoVd) end)
        | Err e => (broken s1, Err (LdFo e))
        | Panic => (broken s1, Panic)
        end
    | Err e => (s, Err (LdFo e))
    | Panic => (s, Panic)
    end.
  (** leader.rs:349-396 [get_client_finished_vd]. *)
  Definition ld_cf (io : bool) (hash : list N) (l : ld) : L :=
    match ld_st l with
    | LActive out s hs =>
        if negb (length hash =? 32) then (l, [], Err LdHash)
        else if negb io then (l, [], Err (LdFo FIo))
        else
          match vd_of set_cf_hash (po_cf out) (bool_decide (is_Some (fo_cf s))) hash s with
          | (s, Ok vd) => (goto (LActive out (set_cf vd s) hs) l, [MCfVd hash], Ok (LBytes vd))
          | (s, Err e) => (goto (LActive out s hs) l, [MCfVd hash], Err e)
          | (s, Panic) => (goto (LActive out s hs) l, [MCfVd hash], Panic)
          end
    | _ => (l, [], Err LdState)
    end.
  (** leader.rs:398-445 [get_server_finished_vd]. *)
  Definition ld_sf (io : bool) (hash : list N) (l : ld) : L :=
    match ld_st l with
    | LActive out s hs =>
        if negb (length hash =? 32) then (l, [], Err LdHash)
        else if negb io then (l, [], Err (LdFo FIo))
        else
          match vd_of set_sf_hash (po_sf out) (bool_decide (is_Some (fo_sf s))) hash s with
          | (s, Ok vd) => (goto (LActive out (set_sf vd s) hs) l, [MSfVd hash], Ok (LBytes vd))
          | (s, Err e) => (goto (LActive out s hs) l, [MSfVd hash], Err e)
          | (s, Panic) => (goto (LActive out s hs) l, [MSfVd hash], Panic)
          end
    | _ => (l, [], Err LdState)
    end.

  (** A call of the record layer, and then a message; if the follower is not reached, the call has had its effect. *)
  Definition then_send (io : bool) (out : prf_output) (hs : hs_data) (x : fo * outcome ld_error rl_result) (m : fmsg) (l : ld) : L :=
    let (s, o) := x in
    match o with
    | Ok _ => if io then (goto (LActive out s hs) l, [m], Ok LUnit) else (goto (LActive out s hs) l, [], Err (LdFo FIo))
    | Err e => (goto (LActive out s hs) l, [], Err e)
    | Panic => (goto (LActive out s hs) l, [], Panic)
    end.
  (** leader.rs:447-489 [push_incoming]. *)
  Definition ld_push_in (io : bool) (m : message) (l : ld) : L :=
    match ld_st l with
    | LActive out s hs =>
        match opaque_into_parts (m_payload m) with
        | Ok (nonce, ct, tag) =>
            then_send io out hs (ld_exec out (CDecrypt (m_typ m) (m_version m) nonce ct tag) s)
              (MDecrypt (m_typ m) (m_version m) nonce ct tag) l
        | Err e => (l, [], Err (LdParts e))
        | Panic => (l, [], Panic)
        end
    | _ => (l, [], Err LdState)
    end.
  (** leader.rs:519-561 [push_outgoing]. *)
  Definition ld_push_out (io : bool) (m : message) (l : ld) : L :=
    match ld_st l with
    | LActive out s hs =>
        let public := match m_typ m with ApplicationData => None | _ => Some (m_payload m) end in
        let len := N.of_nat (length (m_payload m)) in
        then_send io out hs (ld_exec out (CEncrypt (m_typ m) (m_version m) len (Some (m_payload m))) s)
          (MEncrypt (m_typ m) (m_version m) len public) l
    | _ => (l, [], Err LdState)
    end.
  (** leader.rs:500-507: the plaintext must be known. *)
  Definition incoming (o : option plain_record) : outcome ld_error lres :=
    match o with
    | None => Ok (LMsg None)
    | Some r => match pr_plain r with Some p => Ok (LMsg (Some (Message (pr_typ r) (pr_version r) p))) | None => Panic end
    end.
  (** leader.rs:574-583: the tag must be known. *)
  Definition outgoing (o : option enc_record) : outcome ld_error lres :=
    match o with
    | None => Ok (LMsg None)
    | Some r => match outgoing_payload r with Ok p => Ok (LMsg (Some (Message (er_typ r) (er_version r) p))) | _ => Panic end
    end.
  (** leader.rs:491-517 [next_incoming]; the record is gone even if the call panics. *)
  Definition ld_next_in (l : ld) : L :=
    let next r k := match next_decrypted r with (r, Ok o) => (goto (k r) l, [], incoming o) | (r, _) => (goto (k r) l, [], Panic) end in
    match ld_st l with
    | LReady out s => next (fo_rl s) (fun r => LReady out (set_rl r s))
    | LActive out s hs => next (fo_rl s) (fun r => LActive out (set_rl r s) hs)
    | LClosed r t => next r (fun r => LClosed r t)
    | _ => (l, [], Err LdState)
    end.
  (** leader.rs:563-594 [next_outgoing]. *)
  Definition ld_next_out (l : ld) : L :=
    let next r k := match next_encrypted r with (r, Ok o) => (goto (k r) l, [], outgoing o) | (r, _) => (goto (k r) l, [], Panic) end in
    match ld_st l with
    | LReady out s => next (fo_rl s) (fun r => LReady out (set_rl r s))
    | LActive out s hs => next (fo_rl s) (fun r => LActive out (set_rl r s) hs)
    | LClosed r t => next r (fun r => LClosed r t)
    | _ => (l, [], Err LdState)
    end.
  (** leader.rs:596-608 [start_traffic]. *)
  Definition ld_start (io : bool) (l : ld) : L :=
    match ld_st l with
    | LActive out s hs => then_send io out hs (ld_exec out CStart s) MStart l
    | _ => (l, [], Err LdState)
    end.
  (** leader.rs:610-645 [flush]. *)
  Definition ld_flush (io : bool) (l : ld) : L :=
    match ld_st l with
    | LReady _ _ | LClosed _ _ => (l, [], Ok LUnit)
    | LActive out s hs =>
        if negb (rl_wants_flush (fo_rl s)) then (l, [], Ok LUnit)
        else if negb io then (l, [], Err (LdFo FIo))
        else
          let (s, o) := ld_exec out (CFlush (ld_decrypting l)) s in
          (goto (LActive out s hs) l, [MFlush (ld_decrypting l)], unit_of o)
    | _ => (l, [], Err LdState)
    end.
  (** leader.rs:648-654 [is_empty]. *)
  Definition ld_is_empty (l : ld) : L :=
    (l, [], Ok (LBool (match ld_st l with LActive _ s _ => rl_is_empty (fo_rl s) | LClosed r _ => rl_is_empty r | _ => true end))).

  (** leader.rs:699-717: which algorithm verifies the server's signature. Indexing an empty chain, and the [expect], panic. *)
  Definition server_sig (cr : list N) (hs : hs_data) : panicky server_signature :=
    match hs_certs hs with
    | [] => Panic
    | leaf :: _ =>
        match verify_determine cert_key sig_valid leaf (cr ++ hs_random hs ++ hs_params hs) (hs_dss hs) with
        | Ok t => Ok (ServerSignature (core_alg t) (ds_sig (hs_dss hs)))
        | _ => Panic
        end
    end.
  (** leader.rs:683-739: after the message to the follower. *)
  Definition close_transcript (out : prf_output) (s : fo) (hs : hs_data) : outcome ld_error (rl * tls_transcript) :=
    let (s, o) := ld_exec out CCommit s in
    let! l := o in
    let! (sent, recv) := (match l with RLogs a b => Ok (a, b) | _ => Panic end) in
    let! cf := opt_err LdState (fo_cf s) in
    let! sf := opt_err LdState (fo_sf s) in
    let! r := or_panic (fo_random s) in
    let! h := or_panic (fo_hello s) in
    let! sg := lift_panic (server_sig r hs) in
    let! ek := or_panic (ephem_of h) in
    let! t := map_err (fun e => LdFo (FBuild e)) (tls_build sha256 parse_body ec_curve
      (TlsBuilder (Some (sp_time h)) (Some V1_2) None None None None (Some sent) (Some recv) (Some sg) (Some (hs_certs hs))
        (Some (CertBinding r (sp_random h) ek)))) in
    let! _ := map_err LdParts (verify_transcript t cf sf) in
    Ok (fo_rl s, t).
  (** leader.rs:657-746 [close_connection]. *)
  Definition ld_close (io : bool) (l : ld) : L :=
    match ld_st l with
    | LActive out s hs =>
        if negb io then (goto LError l, [], Err (LdFo FIo))
        else
          match close_transcript out s hs with
          | Ok (r, t) => (goto (LClosed r t) l, [MClose], Ok LUnit)
          | Err e => (goto LError l, [MClose], Err e)
          | Panic => (goto LError l, [MClose], Panic)
          end
    | _ => (goto LError l, [], Err LdState)
    end.
  (** leader.rs:752-763 [finish]. *)
  Definition ld_finish (l : ld) : L :=
    match ld_st l with
    | LClosed _ t => (goto LError l, [], Ok (LDone (Some t)))
    | _ => (l, [], Ok (LDone None))
    end.

  Definition ld_step (now : N) (io : bool) (x : lcall) (l : ld) : L :=
    match x with
    | LAlloc r => ld_alloc r l
    | LPreprocess => ld_preprocess io l
    | LGetRandom => ld_random l
    | LGetKeyShare => ld_key_share l
    | LPrepare hs => ld_prepare now io hs l
    | LClientVd h => ld_cf io h l
    | LServerVd h => ld_sf io h l
    | LPushIn m => ld_push_in io m l
    | LNextIn => ld_next_in l
    | LPushOut m => ld_push_out io m l
    | LNextOut => ld_next_out l
    | LStart => ld_start io l
    | LFlush => ld_flush io l
    | LIsEmpty => ld_is_empty l
    | LCloseConn => ld_close io l
    (** leader.rs:748-750 [enable_decryption]. *)
    | LEnable b => (Ld (ld_st l) b, [], Ok LUnit)
    | LFinish => ld_finish l
    end.
  (** Calls one after the other, each with the clock and whether the follower is reached: the final state, all messages, the results.
      A panic ends the run. *)
  Fixpoint ld_run (xs : list (N * bool * lcall)) (l : ld) : ld * list fmsg * list (outcome ld_error lres) :=
    match xs with
    | [] => (l, [], [])
    | (now, io, x) :: xs' =>
        match ld_step now io x l with
        | (l1, ms, Panic) => (l1, ms, [Panic])
        | (l1, ms, o) => match ld_run xs' l1 with (l2, ms', os) => (l2, ms ++ ms', o :: os) end
        end
    end.
  (** leader.rs:56-113 [new]: the configuration says whether decryption is deferred. *)
  Definition ld_new (defer : bool) : ld := Ld LInit (negb defer).
End Leader.
