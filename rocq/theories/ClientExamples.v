(** A connection of the TLS client, for the examples beside the theorems about it. *)
From Verif.Lib Require Import Base.
From Verif Require Import ProofModel CodecModel TlsModel HandshakeModel AttestModel SigAlgModel RecordModel ClientModel.
Local Open Scope N_scope.

(** A certificate is its first byte here: a P-256, a P-384 or an RSA key. A signature is valid if it
    repeats the message. A chain is good if the intermediate certificate is [9]. The hash is the sum and
    the number of bytes. Encrypting and decrypting adds nothing. *)
Definition xk (c : bytes) : option key_kind :=
  match c with 0 :: _ => Some KeyP256 | 1 :: _ => Some KeyP384 | 2 :: _ => Some KeyRsa | _ => None end.
Definition xsha (b : bytes) : bytes := [foldr N.add 0 b; N.of_nat (length b)].
(** The records handed over since the last flush; the log ends with this flush. *)
Fixpoint xsince (log : list cev) (ins outs : list message) : list message * list message :=
  match log with
  | [] => (ins, outs)
  | [Flush] => (ins, outs)
  | Flush :: log => xsince log [] []
  | PushIn m :: log => xsince log (ins ++ [m]) outs
  | PushOut m :: log => xsince log ins (outs ++ [m])
  | _ :: log => xsince log ins outs
  end.
Definition x_clamp (m : message) : message := Message (m_typ m) (m_version m) (map (fun b => b mod 256) (m_payload m)).
Definition x_env (debug : bool) (certs : bool) : env := {|
  e_name := [101; 120]; e_sni := Some [101; 120]; e_alpn := [[104; 50]]; e_frag := 64;
  e_has_certs := certs;
  e_resolve := fun _ schemes => if certs then Some ([[5; 5]], 0x0403, fun m => Some (77 :: m)) else None;
  e_verify_cert := fun leaf inter name scts ocsp now => bool_decide (inter = [[9]]) && (now =? 5);
  e_cert_key := xk; e_sig_valid := fun c a msg sig => bool_decide (msg = sig);
  e_sha256 := xsha; e_dns_ok := fun _ => true; e_debug := debug;
  b_now := fun _ => 5; b_sid := fun _ => Some (replicate 32 6);
  b_random := fun _ => Some (replicate 32 7); b_key_share := fun _ => Some (23, [4; 9; 9]);
  b_prepare := fun _ => true; b_cf := fun _ => Some (replicate 12 11); b_sf := fun _ => Some (replicate 12 12);
  b_push_in := fun _ => true; b_push_out := fun _ => true; b_start := fun _ => true; b_close := fun _ => true;
  b_flush := fun log => let (ins, outs) := xsince log [] [] in Some (map x_clamp ins, outs) |}.

Definition x_params : bytes := [3; 0; 23; 3; 4; 1; 1].
Definition x_sh (suite : N) : server_hello :=
  ServerHello 0x0303 (replicate 32 8) [] suite 0 [SxRenegotiation []; SxPointFormats [0]; SxProtocols [[104; 50]]; SxStatus].
Definition x_kx (scheme : N) : ecdhe :=
  Ecdhe 23 [4; 1; 1] (Signed scheme (replicate 32 7 ++ replicate 32 8 ++ x_params)).
Definition x_flight (suite scheme : N) (leaf : bytes) (req : option cert_request) : list handshake :=
  [HServerHello (x_sh suite); HCertificate [leaf; [9]]; HCertStatus [1; 2; 3]; HServerKeyExchange (enc_ecdhe (x_kx scheme))]
  ++ match req with Some r => [HCertRequest r] | None => [] end ++ [HServerHelloDone].
(** Handshake messages in records of 50 bytes. *)
Definition x_records (hs : list handshake) : list message :=
  match fragment 50 (Message Handshake TLSv1_2 (concat (map hs_encode hs))) with Ok ms => ms | _ => [] end.
Definition x_wire (ms : list message) : bytes := concat (map message_encode ms).
Definition x_last (vd : bytes) (p : list bytes) : bytes :=
  x_wire (Message ChangeCipherSpec TLSv1_2 [1] :: Message Handshake TLSv1_2 (hs_encode (HFinished vd))
          :: map (Message ApplicationData TLSv1_2) p).
Definition x_calls (suite scheme : N) (leaf : bytes) (req : option cert_request) (vd : bytes) (p : list bytes) : list call :=
  [CallStart; CallWrite [71; 69; 84]; CallWriteTls 1000; CallReadTls (x_wire (x_records (x_flight suite scheme leaf req)));
   CallProcess; CallWriteTls 1000; CallReadTls (x_last vd p); CallProcess; CallProcess; CallWriteTls 1000; CallRead 2; CallRead 100].
Definition x_good : list call := x_calls 0xc02b 0x0403 [0] None (replicate 12 12) [[1; 2; 3]; [4]; []; [5; 6]].
