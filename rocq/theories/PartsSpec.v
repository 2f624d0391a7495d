(** Vocabulary for the theorems about splitting records and closing connections (C42, C43). *)
From Verif.Lib Require Import Base.
From Verif Require Import CodecModel AttestModel TlsModel.

(** The parts of an encrypted record on the wire: a nonce of 8 bytes, the ciphertext, a tag of 16 bytes. *)
Definition is_split (payload nonce ct tag : list N) : Prop :=
  payload = nonce ++ ct ++ tag /\ length nonce = 8 /\ length tag = 16.

(** An alert message is a level and a description; the description of close_notify is 0 (RFC 5246, 7.2). *)
Definition close_notify (p : list N) : Prop := exists level, p = [level; 0%N].

(** Records that end properly: there are none, or the last is application data, or the last is a
    close_notify alert whose contents are known. *)
Definition ends_properly (rs : list tls_record) : Prop :=
  rs = [] \/
  exists front r, rs = front ++ [r] /\
    (r_typ r = ApplicationData \/
     r_typ r = Alert /\ exists p, r_plain r = Some p /\ close_notify p).
(** What is accepted: more bytes may follow the alert. *)
Definition ends_acceptably (rs : list tls_record) : Prop :=
  rs = [] \/
  exists front r, rs = front ++ [r] /\
    (r_typ r = ApplicationData \/
     r_typ r = Alert /\ exists p more, r_plain r = Some (p ++ more) /\ close_notify p).

(** The first record is the Finished message with this verify data: a header of four bytes comes before it. *)
Definition finished_with (rs : list tls_record) (vd : list N) : Prop :=
  exists r rest header, rs = r :: rest /\ r_plain r = Some (header ++ vd) /\ length header = 4.
(** Its contents are known. *)
Definition finished_known (rs : list tls_record) : Prop := exists vd, finished_with rs vd.
