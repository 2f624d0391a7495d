(** Model of the parties of a proxied connection after the traffic has ended: crates/tlsn/src/proxy.rs:24-116
    [alloc_proxy_refs], proxy/prover.rs, proxy/verifier.rs, verifier.rs:301-409 (the verifier's [run]), prover.rs:338-394 (the
    prover's [finish]) and verifier.rs:411-555 (any number of proofs afterwards). The virtual machine is that of PrfModel.v,
    ideal and shared by both parties: the prover puts a master secret of 48 bytes into it, of its choice. The transcript
    comes from TlsModel.v, the key derivation from PrfModel.v, the check of the Finished messages and the traffic from
    VdCheckModel.v, the check of the tags from TagModel.v and the proofs from AuthModel.v. *)
From Verif.Lib Require Import Base Ranges.
From Verif Require Import TranscriptModel ProofModel CodecModel AttestModel TlsModel AuthModel TagModel PrfModel VdCheckModel.

(** The errors, by where they come from. [PvHang]: a loop has not ended after 11 rounds. *)
Inductive pv_error :=
| PvTranscript (e : tls_error) | PvPrf (e : prf_error) | PvVd (e : vd_error) | PvTag (e : tag_error)
| PvMissing | PvSecretLength | PvHang.
Definition of_panicky {E A} (o : panicky A) : outcome E A :=
  match o with Ok a => Ok a | Err e => match e with end | Panic => Panic end.

Section ProxVer.
  (** SHA-256's initial state and compression function in the machine, SHA-256 outside of it, the parsers of TlsModel.v,
      AES-128 on a block, and GHASH on a key and padded data. *)
  Context (sha_iv : list N) (compress : list N -> list N -> list N).
  Context (hash : list N -> list N).
  Context (parse_body : protocol_version -> N -> list N -> option hs_payload) (ec_curve : list N -> option N).
  Context (aes ghash_fn : list N -> list N -> list N).

  (** components/cipher [alloc_block]. *)
  Definition circ_ecb (args : list (list N)) : list N :=
    match args with [key; block] => aes key block | _ => [] end.

  (** proxy/verifier.rs:12-19 and proxy/prover.rs:12-20; the machine's first cell is the master secret. *)
  Record prox := Prox { px_vm : vm; px_prf : prf; px_out : prf_output; px_mac : nat; px_cf : vd_state; px_sf : vd_state }.

  (** proxy.rs:54-109 [alloc_proxy_refs], called by [alloc]; proxy.rs:24-43 is the key of GHASH. Who may see the master secret
      (62-66) makes no difference to its value. *)
  Definition prox_alloc : outcome pv_error prox :=
    let! (m, p, out) := map_err PvPrf (prf_setup sha_iv compress NetNormal MsDirect) in
    let '(m, zero) := vm_add m (Given (Some (replicate 16 0%N))) in
    let '(m, mac) := vm_add m (Computed circ_ecb [po_sk out; zero]) in
    let '(m, cf, r) := vd_alloc aes m VdInit (po_ck out) (po_civ out) (po_cf out) in
    let! _ := map_err PvVd r in
    let '(m, sf, r) := vd_alloc aes m VdInit (po_sk out) (po_siv out) (po_sf out) in
    let! _ := map_err PvVd r in
    Ok (Prox m p out mac cf sf).

  (** The loops of verifier.rs:104-113 and 131-140. *)
  Definition prox_flush (m : vm) (p : prf) : outcome pv_error (vm * prf) :=
    let! r := map_err PvPrf (flush_all compress 11 m p) in
    opt_err PvHang r.

  (** tls.rs:71-80 and 94-103 [client_finished], [server_finished]. *)
  Definition first_record (rs : list tls_record) : outcome pv_error tls_record :=
    match rs with r :: _ => Ok r | [] => Panic end.

  (** proxy/verifier.rs:67-160 and proxy/prover.rs:73-171 [finalize], after the transcript was built. The master secret [ms] is
      assigned by the prover, which checks its length. *)
  Definition prox_finalize (x : prox) (ms : list N) (t : tls_transcript) : outcome pv_error prox :=
    if negb (length ms =? 48) then Err PvSecretLength
    else
      let! cf_hash := or_panic (tt_cf_hash t) in
      let! m := map_err PvPrf (vm_assign (px_vm x) 0 ms) in
      let p := set_client_random (px_prf x) (cb_client (tt_binding t)) in
      let! p := map_err PvPrf (set_server_random p (cb_server (tt_binding t))) in
      let! p := map_err PvPrf (set_cf_hash p cf_hash) in
      let! (m, p) := prox_flush m p in
      let! cf_vd := opt_err PvMissing (vm_decoded m (po_cf (px_out x))) in
      let! sf_hash := of_panicky (tls_sf_hash hash t cf_vd) in
      let! sf_hash := or_panic sf_hash in
      let! p := map_err PvPrf (set_sf_hash p sf_hash) in
      let! (m, p) := prox_flush m p in
      let! cf_rec := first_record (tt_sent t) in
      let '(m, cf, r) := vd_assign m (px_cf x) (r_nonce cf_rec) (r_ct cf_rec) in
      let! _ := map_err PvVd r in
      let! sf_rec := first_record (tt_recv t) in
      let '(m, sf, r) := vd_assign m (px_sf x) (r_nonce sf_rec) (r_ct sf_rec) in
      let! _ := map_err PvVd r in
      Ok (Prox m p (px_out x) (px_mac x) cf sf).

  (** proxy/verifier.rs:67-76: the verifier's transcript; proxy/prover.rs:59-71: the prover's, with the plaintext. *)
  Definition prox_builder (time : N) (sent recv : list N) (app : option (list N * list N)) : tls_builder :=
    TlsBuilder (Some time) None (Some sent) (Some recv) (fst <$> app) (snd <$> app) None None None None None.

  (** The values of the keys once the machine was executed (verifier.rs:360-389, prover.rs:354-373). *)
  Definition prox_keys (m : vm) (x : prox) : outcome pv_error (session_keys * list N) :=
    let! ck := opt_err PvMissing (vm_decoded m (po_ck (px_out x))) in
    let! civ := opt_err PvMissing (vm_decoded m (po_civ (px_out x))) in
    let! sk := opt_err PvMissing (vm_decoded m (po_sk (px_out x))) in
    let! siv := opt_err PvMissing (vm_decoded m (po_siv (px_out x))) in
    let! mac := opt_err PvMissing (vm_decoded m (px_mac x)) in
    Ok (SessionKeys ck civ sk siv, mac).

  (** verifier.rs:357-409: after the traffic. *)
  Definition prox_commit (ms : list N) (time : N) (sent recv : list N) : outcome pv_error (session_keys * tls_transcript) :=
    let! x := prox_alloc in
    let! t := map_err PvTranscript (tls_build hash parse_body ec_curve (prox_builder time sent recv None)) in
    let! x := prox_finalize x ms t in
    let m := vm_execute (px_vm x) in
    let! (keys, mac) := prox_keys m x in
    let! _ := map_err PvTag (check_record_tags aes ghash_fn (sk_server_key keys) (sk_server_iv keys) mac (tt_version t) (tt_recv t)) in
    let! _ := map_err PvVd (vd_check m (px_cf x)) in
    let! _ := map_err PvVd (vd_check m (px_sf x)) in
    Ok (keys, t).
  (** verifier.rs:301-409: from the reads of both sockets on. [None]: the traffic has not ended, or with an error. *)
  Definition prox_run (ms : list N) (prover server : list read_result) : option (outcome pv_error (session_keys * tls_transcript)) :=
    (fun o => let! (sent, recv, time) := of_panicky o in prox_commit ms time sent recv) <$> proxy_traffic prover server.

  (** proxy/prover.rs:55-171 and prover.rs:338-394: the prover, which does not look at the checks. [verify_tags] fails for
      nonces of a wrong length. *)
  Definition prox_prover (ms : list N) (time : N) (sent recv app_sent app_recv : list N)
      : outcome pv_error (session_keys * tls_transcript * transcript) :=
    let! x := prox_alloc in
    let! t := map_err PvTranscript (tls_build hash parse_body ec_curve (prox_builder time sent recv (Some (app_sent, app_recv)))) in
    let! x := prox_finalize x ms t in
    let m := vm_execute (px_vm x) in
    let! (keys, _) := prox_keys m x in
    let! _ := map_err PvTag (verify_tags aes (sk_server_key keys) (sk_server_iv keys) (tt_version t) (tt_recv t)) in
    let! data := map_err PvTranscript (to_transcript t) in
    Ok (keys, t, data).
End ProxVer.

(** ** Proofs (verifier.rs:411-555) *)
Section Proofs.
  Context (aes : list N -> list N -> list N) (empty_eq : bool) (vm_hash : alg_id -> option (list N -> list N)).
  Context (cv : cert_verifier) (keys : session_keys) (t : tls_transcript).
  (** A request, what comes with it, what the prover puts into the machine, and whether the application accepts it. *)
  Record proof_try := ProofTry {
    pt_accept : bool; pt_request : prove_request; pt_handshake : option (server_name * handshake_data);
    pt_partial : option partial; pt_wit : nat -> N }.
  (** Requests one after the other: the outputs, in order. An error ends the session, a rejection does not; the memory of the
      machine is kept. *)
  Fixpoint verify_all (m : mem) (xs : list proof_try) : outcome verify_error (list (proof_try * verifier_output)) :=
    match xs with
    | [] => Ok []
    | x :: xs' =>
        if pt_accept x then
          let! (m, out) := verify aes empty_eq vm_hash (pt_wit x) cv keys m t (pt_request x) (pt_handshake x) (pt_partial x) in
          let! outs := verify_all m xs' in Ok ((x, out) :: outs)
        else verify_all m xs'
    end.
End Proofs.
