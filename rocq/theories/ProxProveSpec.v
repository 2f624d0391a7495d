(** What an honest prover asks to prove (C84). *)
From Verif.Lib Require Import Base Ranges.
From Verif Require Import TranscriptModel TranscriptSpec ProofModel CodecModel AttestModel AttestSpec TlsModel AuthModel AuthSpec ProxVerModel ProxProveModel.

(** What the prover's TLS client has sent and received is what the traffic decrypts to. *)
Definition data_right (aes : list N -> list N -> list N) (keys : session_keys) (t : tls_transcript) (data : transcript) : Prop :=
  forall d, length (t_data data d) = data_length t d /\
    forall i b, t_data data d !! i = Some b -> data_at aes keys t d i = Some b.

(** A request about existing data, as the builders of the configurations return it, with hash functions that the machine has and blinders
    of 16 bytes; and the server is asked to be identified only if its certificates and its signature are right at [time]. *)
Record cfg_ok (vm_hash : alg_id -> option (list N -> list N)) (cv : cert_verifier) (name : server_name) (time : N)
    (t : tls_transcript) (data : transcript) (g : prove_cfg) : Prop := {
  co_reveal : forall s r, pg_reveal g = Some (s, r) -> valid_idx (length (t_sent data)) s /\ valid_idx (length (t_recv data)) r;
  co_commits : forall cs d idx a, pg_commits g = Some cs -> (d, idx, a) ∈ cs ->
    valid_idx (length (t_data data d)) idx /\ vm_hash a <> None;
  co_blinders : forall n, length (pg_blinders g n) = 16;
  co_identity : pg_identity g = true -> exists certs sig,
    tt_certs t = Some certs /\ tt_signature t = Some sig /\
    handshake_ok cv (HandshakeData certs (ss_alg sig) (ss_sig sig) (cb_client (tt_binding t)) (cb_server (tt_binding t)) (cb_key (tt_binding t)))
      time (cb_key (tt_binding t)) name }.
(** The output for a request: the server's name and the partial transcript if asked for, and the commitments the prover has. *)
Definition output_for (name : server_name) (data : transcript) (g : prove_cfg) (cs : list commitment) (out : verifier_output) : Prop :=
  vo_name out = (if pg_identity g then Some name else None) /\
  match pg_reveal g with
  | None => vo_transcript out = None
  | Some (s, r) => exists p, vo_transcript out = Some p /\ p_sent_idx p = s /\ p_recv_idx p = r /\
      shows (t_sent data) s (p_sent p) /\ shows (t_recv data) r (p_recv p)
  end /\
  vo_commitments out = cs.
