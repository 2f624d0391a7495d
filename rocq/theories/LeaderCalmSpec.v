(** When the leader may close the connection. *)
From Verif.Lib Require Import Base.
From Verif Require Import TranscriptModel ProofModel CodecModel AttestModel TlsModel HandshakeModel SigAlgModel SigAlgSpec LeaderModel.

(** The server signed the randoms and its parameters with the key of its certificate, in the way its message says. *)
Definition vouched (cert_key : bytes -> option key_kind) (sig_valid : bytes -> webpki_alg -> bytes -> bytes -> bool) (random : list N) (hs : hs_data) : Prop :=
  exists leaf rest kind a, hs_certs hs = leaf :: rest /\ cert_key leaf = Some kind /\ scheme_means (ds_scheme (hs_dss hs)) kind a /\
    sig_valid leaf a (random ++ hs_random hs ++ hs_params hs) (ds_sig (hs_dss hs)) = true.
