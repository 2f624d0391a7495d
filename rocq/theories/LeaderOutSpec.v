(** What the leader hands to the TLS client, in order. *)
From Verif.Lib Require Import Base.
From Verif Require Import TranscriptModel ProofModel CodecModel CodecSpec AttestModel TlsModel AuthModel AuthSpec TagModel RecordModel RecordSpec
  PartsModel PartsSpec PrfModel HandshakeModel SigAlgModel FollowerModel FollowerSpec LeaderModel LeaderSpec.


(** The records handed out to be sent, and those handed out decrypted, in order. *)
Definition put_out (xs : calls) (os : list (outcome ld_error lres)) : list message :=
  omap (fun xo => match xo with (LNextOut, Ok (LMsg (Some m))) => Some m | _ => None end) (zip (map snd xs) os).
Definition handed_in (xs : calls) (os : list (outcome ld_error lres)) : list message :=
  omap (fun xo => match xo with (LNextIn, Ok (LMsg (Some m))) => Some m | _ => None end) (zip (map snd xs) os).
(** Type and version of a record. *)
Definition kind (m : message) : content_type * protocol_version := (m_typ m, m_version m).
(** [m] is, as it goes to the socket, the record [r] of the transcript; [m] has the contents of [r]. *)
Definition on_wire (m : message) (r : tls_record) : Prop :=
  exists tag, m_typ m = r_typ r /\ r_tag r = Some tag /\ m_payload m = r_nonce r ++ r_ct r ++ tag.
Definition in_clear (m : message) (r : tls_record) : Prop := m_typ m = r_typ r /\ r_plain r = Some (m_payload m).
(** [ms] are the first of [rs]. *)
Definition first_of {A B} (P : A -> B -> Prop) (ms : list A) (rs : list B) : Prop := exists rs1 rs2, rs = rs1 ++ rs2 /\ Forall2 P ms rs1.

(** ** What the follower is told of *)
(** The records that the leader took, that is those whose call did not fail, in order. *)
Definition taken_out (xs : calls) (os : list (outcome ld_error lres)) : list message :=
  omap (fun xo => match xo with (LPushOut m, Ok _) => Some m | _ => None end) (zip (map snd xs) os).
Definition taken_in (xs : calls) (os : list (outcome ld_error lres)) : list message :=
  omap (fun xo => match xo with (LPushIn m, Ok _) => Some m | _ => None end) (zip (map snd xs) os).
(** What the messages say of records to be sent and of records that came in. *)
Definition told_out (ms : list fmsg) : list (content_type * protocol_version * N) :=
  omap (fun x => match x with MEncrypt t v n _ => Some (t, v, n) | _ => None end) ms.
Definition told_in (ms : list fmsg) : list message :=
  omap (fun x => match x with MDecrypt t v nonce ct tag => Some (Message t v (nonce ++ ct ++ tag)) | _ => None end) ms.
