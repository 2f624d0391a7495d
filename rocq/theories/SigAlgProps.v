(** C61: the signature of the server that the client accepts is the one the prover hands on. *)
From Verif.Lib Require Import Base.
From Verif Require Import CodecModel TlsModel HandshakeModel AttestModel SigAlgModel SigAlgSpec SigAlgLemmas.

(** A certificate is its first byte here: a P-256, a P-384 or an RSA key. A signature is valid if it
    repeats the message. *)
Definition ex_kind (c : bytes) : option key_kind :=
  match c with 0%N :: _ => Some KeyP256 | 1%N :: _ => Some KeyP384 | 2%N :: _ => Some KeyRsa | _ => None end.
Definition ex_valid (c : bytes) (a : webpki_alg) (msg sig : bytes) : bool := bool_decide (msg = sig).
Definition ex_kx (scheme : N) : ecdhe :=
  Ecdhe 23 [4;4]%N (Signed scheme ([7] ++ [8] ++ [3; 0; 23; 2; 4; 4])%N).

(** The client accepts the server's key exchange exactly if the holder of the end entity certificate
    signed the randoms and the parameters; the schemes accepted are those offered; nothing panics. *)
Theorem C61_client_accepts_what_the_server_signed cert_key sig_valid :
  (forall leaf rest cr sr k, (length (ke_public k) < 256)%nat ->
    client_accepts cert_key sig_valid (leaf :: rest) cr sr k = Ok () <->
    server_signed cert_key sig_valid leaf cr sr (ke_group k) (ke_public k) (ds_scheme (ke_dss k)) (ds_sig (ke_dss k))) /\
  (forall certs cr sr k, client_accepts cert_key sig_valid certs cr sr k <> Panic) /\
  (forall scheme, is_Some (convert_scheme scheme) <-> scheme ∈ verification_schemes).
Proof. exact (conj (accepts_iff cert_key sig_valid) (conj (accepts_no_panic cert_key sig_valid) offered_lemma)). Qed.
Print Assumptions C61_client_accepts_what_the_server_signed.
Example C61_ex_accepts : client_accepts ex_kind ex_valid [[0]; [9]]%N [7]%N [8]%N (ex_kx 0x0403) = Ok () /\
  client_accepts ex_kind ex_valid [[1]; [9]]%N [7]%N [8]%N (ex_kx 0x0403) = Ok () /\
  client_accepts ex_kind ex_valid [[2]; [9]]%N [7]%N [8]%N (ex_kx 0x0403) = Err SUnsupported /\
  client_accepts ex_kind ex_valid [[2]; [9]]%N [7]%N [8]%N (ex_kx 0x0804) = Ok () /\
  client_accepts ex_kind ex_valid [[0]]%N [8]%N [7]%N (ex_kx 0x0403) = Err SInvalid.
Proof. by vm_compute. Qed.

(** A prover whose client accepted the key exchange records the handshake without a panic when it closes
    the connection: the certificates, the randoms, the key and the signature are those accepted. *)
Theorem C61_accepted_handshakes_are_recorded cert_key sig_valid certs cr sr k :
  client_accepts cert_key sig_valid certs cr sr k = Ok () -> ke_group k = 23%N ->
  exists alg, leader_data cert_key sig_valid certs cr sr k =
    Ok (HandshakeData certs alg (ds_sig (ke_dss k)) cr sr (EphemKey (ke_public k))).
Proof. exact (recorded_lemma cert_key sig_valid certs cr sr k). Qed.
Print Assumptions C61_accepted_handshakes_are_recorded.

(** The recorded handshake should verify wherever the chain is trusted. Part of it: it does if the
    server's key is not on the curve P-384. Missing: servers with a P-384 key (next theorem). *)
Theorem C61_recorded_handshakes_verify_partial cert_key sig_valid chain certs cr sr k hd time name :
  client_accepts cert_key sig_valid certs cr sr k = Ok () -> ke_group k = 23%N ->
  leader_data cert_key sig_valid certs cr sr k = Ok hd ->
  (forall leaf rest, certs = leaf :: rest -> chain leaf rest name time = true) ->
  (forall leaf, head certs = Some leaf -> cert_key leaf <> Some KeyP384) ->
  handshake_verify hd (webpki_verifier cert_key sig_valid chain) time (EphemKey (ke_public k)) name = Ok ().
Proof. exact (verifies_lemma cert_key sig_valid chain certs cr sr k hd time name). Qed.
Print Assumptions C61_recorded_handshakes_verify_partial.
Example C61_ex_verify : exists hd, leader_data ex_kind ex_valid [[0]; [9]]%N [7]%N [8]%N (ex_kx 0x0503) = Ok hd /\
  hd_sig_alg hd = 1%N /\
  handshake_verify hd (webpki_verifier ex_kind ex_valid (fun _ _ _ _ => true)) 5 (EphemKey [4;4]%N) [1]%N = Ok ().
Proof. eexists. split_and!; [vm_compute; reflexivity|by vm_compute|by vm_compute]. Qed.

(** Every handshake with a server whose certificate has a P-384 key is recorded with an algorithm for
    P-256 keys, so that a verifier refuses the handshake data of the honest prover. *)
Theorem C61_recorded_handshakes_verify_refuted cert_key sig_valid chain leaf rest cr sr k time name :
  client_accepts cert_key sig_valid (leaf :: rest) cr sr k = Ok () -> ke_group k = 23%N ->
  cert_key leaf = Some KeyP384 -> chain leaf rest name time = true ->
  exists hd, leader_data cert_key sig_valid (leaf :: rest) cr sr k = Ok hd /\
    (hd_sig_alg hd = 0%N \/ hd_sig_alg hd = 1%N) /\
    handshake_verify hd (webpki_verifier cert_key sig_valid chain) time (EphemKey (ke_public k)) name =
      Err InvalidServerSignature.
Proof. exact (p384_lemma cert_key sig_valid chain leaf rest cr sr k time name). Qed.
Print Assumptions C61_recorded_handshakes_verify_refuted.
Example C61_ex_refuted : exists hd, leader_data ex_kind ex_valid [[1]; [9]]%N [7]%N [8]%N (ex_kx 0x0503) = Ok hd /\
  hd_sig_alg hd = 1%N /\
  handshake_verify hd (webpki_verifier ex_kind ex_valid (fun _ _ _ _ => true)) 5 (EphemKey [4;4]%N) [1]%N =
    Err InvalidServerSignature.
Proof. eexists. split_and!; [vm_compute; reflexivity|by vm_compute|by vm_compute]. Qed.

(** The algorithm that the transcript builder determines for the same messages verifies whatever the key. *)
Theorem C61_built_handshakes_verify cert_key sig_valid chain certs cr sr k time name :
  client_accepts cert_key sig_valid certs cr sr k = Ok () -> ke_group k = 23%N ->
  (forall leaf rest, certs = leaf :: rest -> chain leaf rest name time = true) ->
  exists alg, map_scheme (curve_of cert_key) (ds_scheme (ke_dss k)) certs = Ok alg /\
  handshake_verify (HandshakeData certs alg (ds_sig (ke_dss k)) cr sr (EphemKey (ke_public k)))
    (webpki_verifier cert_key sig_valid chain) time (EphemKey (ke_public k)) name = Ok ().
Proof. exact (C61_builder_lemma cert_key sig_valid chain certs cr sr k time name). Qed.
Print Assumptions C61_built_handshakes_verify.
Example C61_ex_built : map_scheme (curve_of ex_kind) 0x0503 [[1]; [9]]%N = Ok 3%N.
Proof. by vm_compute. Qed.

(** Handshake data that verify were signed by the holder of a certificate whose chain is trusted for the
    name at the time, with a scheme that the client would have accepted for them. *)
Theorem C61_verified_handshakes_were_signed cert_key sig_valid chain certs alg sig cr sr key ek time name :
  (length (ek_key ek) < 256)%nat ->
  handshake_verify (HandshakeData certs alg sig cr sr key) (webpki_verifier cert_key sig_valid chain) time ek name = Ok () ->
  ek = key /\ exists leaf rest scheme, certs = leaf :: rest /\ chain leaf rest name time = true /\
    server_signed cert_key sig_valid leaf cr sr 23 (ek_key key) scheme sig /\
    map_scheme (curve_of cert_key) scheme certs = Ok alg.
Proof. exact (C61_sound_lemma cert_key sig_valid chain certs alg sig cr sr key ek time name). Qed.
Print Assumptions C61_verified_handshakes_were_signed.
Example C61_ex_sound :
  handshake_verify (HandshakeData [[1]; [9]]%N 3%N [7; 8; 3; 0; 23; 2; 4; 4]%N [7]%N [8]%N (EphemKey [4;4]%N))
    (webpki_verifier ex_kind ex_valid (fun _ _ _ _ => true)) 5 (EphemKey [4;4]%N) [1]%N = Ok ().
Proof. by vm_compute. Qed.
