(** What is said about a connection of the prover in proxy mode, in terms of what happens outside of it (ConnSpec.v)
    and of the calls that its client makes. *)
From Verif.Lib Require Import Base.
From Verif Require Import CodecModel ConnModel ConnSpec ProxConnModel.

(** ** The calls made *)
(** Bytes that the TLS library took from and gave to the network, and bytes it took from and gave to the
    application. *)
Definition wire_in (l : list xev) : list N := concat (map (fun e => match e with XReadTls b => b | _ => [] end) l).
Definition wire_out (l : list xev) : list N := concat (map (fun e => match e with XWriteTls b => b | _ => [] end) l).
Definition data_in (l : list xev) : list N := concat (map (fun e => match e with XWrite b => b | _ => [] end) l).
Definition data_out (l : list xev) : list N := concat (map (fun e => match e with XRead b => b | _ => [] end) l).
Definition finalized (l : list xev) : Prop := exists ms t, XFinalize ms t ∈ l.
(** One is a prefix of the other. *)
Definition in_line (a b : list N) : Prop := (exists r, a = b ++ r) \/ (exists r, b = a ++ r).

(** ** What may be assumed of the TLS library *)
(** It never reports an error. *)
Record never_fails {R} (L : lib R) : Prop := {
  nf_read_tls : forall r b, snd (l_read_tls L r b) <> None;
  nf_write_tls : forall r n, snd (l_write_tls L r n) <> None;
  nf_read : forall r n, snd (l_read L r n) <> None;
  nf_write : forall r b, snd (l_write L r b) <> None;
  nf_process : forall r, snd (l_process L r) = true }.
(** A handshake that is over stays over, and its master secret has been logged. *)
Record stays_connected {R} (L : lib R) : Prop := {
  sc_read_tls : forall r b, l_handshaking L r = false -> l_handshaking L (fst (l_read_tls L r b)) = false;
  sc_write_tls : forall r n, l_handshaking L r = false -> l_handshaking L (fst (l_write_tls L r n)) = false;
  sc_read : forall r n, l_handshaking L r = false -> l_handshaking L (fst (l_read L r n)) = false;
  sc_write : forall r b, l_handshaking L r = false -> l_handshaking L (fst (l_write L r b)) = false;
  sc_process : forall r, l_handshaking L r = false -> l_handshaking L (fst (l_process L r)) = false;
  sc_notify : forall r, l_handshaking L r = false -> l_handshaking L (l_notify L r) = false;
  sc_ms : forall r, l_handshaking L r = false -> l_ms L r <> [] }.

(** What a history leads to. *)
Definition yleads {R} (L : lib R) (r0 : R) (ks : list pstep) (st : fut) (v : px R) (rs : list pres) : Prop :=
  yplay L ks (ybegin r0) = (st, v, rs).
