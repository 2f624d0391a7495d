(** What is said about a connection of the prover, in terms of what happens outside of it and of the log of
    its TLS client (ClientSpec.v). *)
From Verif.Lib Require Import Base.
From Verif Require Import CodecModel CodecSpec TlsModel ClientModel ClientSpec ConnModel.

(** ** Reading a trace *)
(** Bytes that the application wrote, bytes it got, bytes that the socket gave and bytes it took. *)
Definition app_wrote (t : list pev) : list N := concat (map (fun e => match e with AppWrote b => b | _ => [] end) t).
Definition app_got (t : list pev) : list N := concat (map (fun e => match e with AppGot b => b | _ => [] end) t).
Definition sock_gave (t : list pev) : list N := concat (map (fun e => match e with SockGave b => b | _ => [] end) t).
Definition sock_took (t : list pev) : list N := concat (map (fun e => match e with SockTook b => b | _ => [] end) t).
(** The log of the TLS client. *)
Definition tls_log (v : pv) : list cev := log_of (i_tls (v_i v)).

(** ** What is assumed of the surroundings *)
(** Bytes are bytes. *)
Definition gives_bytes (ks : list pstep) : Prop :=
  Forall (fun k => match k with SPoll n => match n_read n with RData b => bytes_ok b | _ => True end | _ => True end) ks.
(** The socket gives nothing after its end. *)
Definition ends_once (t : list pev) : Prop := forall l1 l2, t = l1 ++ SockEnded :: l2 -> sock_gave l2 = [].
(** What a history leads to: the future, the connection and the results of the polls. *)
Definition leads E b_empty fuel (ks : list pstep) (st : fut) (v : pv) (rs : list pres) : Prop :=
  play E b_empty fuel ks begin = (st, v, rs).
