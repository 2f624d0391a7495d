(** Model of the prover's part of the proofs of a session (crates/tlsn/src/prover.rs:527-591 [prove], prover/prove.rs). *)
From Verif.Lib Require Import Base Ranges.
From Verif Require Import TranscriptModel ProofModel CodecModel AttestModel TlsModel AuthModel PrfModel ProxVerModel.

(** core config/prove.rs:17-52 [ProveConfig]; and the blinders drawn for the commitments, and what the application of the verifier
    decides about the request. *)
Record prove_cfg := ProveCfg {
  pg_identity : bool; pg_reveal : option (rangeset * rangeset); pg_commits : option (list commit_entry);
  pg_blinders : nat -> list N; pg_accept : bool }.
(** config/prove.rs:42-51 [to_request]. *)
Definition cfg_request (g : prove_cfg) : prove_request := ProveRequest (pg_identity g) (pg_reveal g) (pg_commits g).
(** prover.rs:541-556. *)
Definition cfg_handshake (name : server_name) (t : tls_transcript) (g : prove_cfg) : panicky (option (server_name * handshake_data)) :=
  if pg_identity g then
    let! certs := or_panic (tt_certs t) in
    let! s := or_panic (tt_signature t) in
    let b := tt_binding t in
    Ok (Some (name, HandshakeData certs (ss_alg s) (ss_sig s) (cb_client b) (cb_server b) (cb_key b)))
  else Ok None.
(** prover.rs:558-560. *)
Definition cfg_partial (data : transcript) (g : prove_cfg) : panicky (option partial) :=
  match pg_reveal g with
  | Some (s, r) => let! p := to_partial data s r in Ok (Some p)
  | None => Ok None
  end.

Section Prove.
  Context (aes : list N -> list N -> list N) (empty_eq : bool) (vm_hash : alg_id -> option (list N -> list N)).
  Context (keys : session_keys) (t : tls_transcript) (data : transcript) (name : server_name).
  (** prover.rs:527-591 again and again: the messages, with what the prover then puts into the machine, and the commitments returned,
      [None] if the verifier has rejected the request (581-586); then nothing is put into the machine. *)
  Fixpoint prove_all (m : mem) (gs : list prove_cfg) : outcome verify_error (list (proof_try * option (list commitment))) :=
    match gs with
    | [] => Ok []
    | g :: gs' =>
        let! hs := of_panicky (cfg_handshake name t g) in
        let! p := of_panicky (cfg_partial data g) in
        if pg_accept g then
          let! (mf, cs, _) := prove aes empty_eq vm_hash keys m t data (pg_reveal g) (match pg_commits g with Some c => c | None => [] end) (pg_blinders g) in
          let! rest := prove_all mf gs' in
          Ok ((ProofTry true (cfg_request g) hs p (fun x => default 0%N (mf !! x)), Some cs) :: rest)
        else
          let! rest := prove_all m gs' in
          Ok ((ProofTry false (cfg_request g) hs p (fun _ => 0%N), None) :: rest)
    end.
End Prove.
