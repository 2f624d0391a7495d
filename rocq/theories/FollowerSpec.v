(** Vocabulary for the theorems about the follower (C52, C58). *)
From Verif.Lib Require Import Base.
From Verif Require Import TranscriptModel CodecModel AttestModel TlsModel RecordModel RecordSpec PrfModel PrfSpec FollowerModel.

(** ** Messages *)
Notation messages := (list (N * fmsg)) (only parsing).
(** The messages [ms] up to the first one that closes the connection are [pre]. *)
Definition handled (ms pre : messages) : Prop :=
  exists now post, ms = pre ++ (now, MClose) :: post /\ Forall (fun x => snd x <> MClose) pre.
Definition client_randoms (ms : messages) : list (list N) :=
  omap (fun x => match snd x with MClientRandom r => Some r | _ => None end) ms.
(** With the reading of the clock. *)
Definition hellos (ms : messages) : list (N * server_params) :=
  omap (fun x => match snd x with MServerHello h => Some (fst x, h) | _ => None end) ms.
Definition cf_hashes (ms : messages) : list (list N) :=
  omap (fun x => match snd x with MCfVd h => Some h | _ => None end) ms.
Definition sf_hashes (ms : messages) : list (list N) :=
  omap (fun x => match snd x with MSfVd h => Some h | _ => None end) ms.
Definition encrypts (ms : messages) : list enc_call :=
  omap (fun x => match snd x with MEncrypt t v n p => Some (t, v, n, p) | _ => None end) ms.
Definition decrypts (ms : messages) : list dec_call :=
  omap (fun x => match snd x with MDecrypt t v n c g => Some (t, v, n, c, g) | _ => None end) ms.

(** Lengths are machine words, and vectors are shorter than 2^63 bytes. *)
Definition msg_ok (x : fmsg) : Prop :=
  match x with
  | MEncrypt _ _ n _ => (n < 2 ^ 64)%N
  | MDecrypt _ _ _ ct _ => (N.of_nat (length ct) < 2 ^ 63)%N
  | _ => True
  end.
Definition config_ok (c : fo_config) : Prop :=
  Forall (fun x => x < 2 ^ 64)%N [fc_sent_records c; fc_recv_records c; fc_sent c; fc_recv_online c; fc_recv c].

(** At most [n] seconds apart. *)
Definition within (n a b : N) : Prop := (a <= b + n /\ b <= a + n)%N.

(** The values of a connection, without an extended master secret. *)
Definition connection_values (pms r : list N) (h : server_params) (hc hs : list N) : tls_values :=
  TlsValues pms r (sp_random h) [] hc hs.

(** The handshake's messages come in an order that makes sense: a hello after the client's random, and hashes after the hello. *)
Definition in_order_of_handshake (ms : messages) : Prop :=
  forall a now x b, ms = a ++ (now, x) :: b ->
    match x with
    | MServerHello _ => client_randoms a <> []
    | MCfVd _ | MSfVd _ => hellos a <> []
    | _ => True
    end.
