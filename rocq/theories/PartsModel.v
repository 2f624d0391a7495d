(** Model of crates/mpc-tls/src/utils.rs, and of how the leader puts outgoing records together. *)
From Verif.Lib Require Import Base.
From Verif Require Import TranscriptModel ProofModel CodecModel AttestModel TlsModel RecordModel.

(** [Vec::split_off]: what comes before and after the index; an index beyond the end panics. *)
Definition split_off {E} (l : list N) (at_ : nat) : outcome E (list N * list N) :=
  if length l <? at_ then Panic else Ok (take at_ l, drop at_ l).

Inductive parts_error := PTooShort | PClientVd | PServerVd | PHidden | PMalformed | PNotClose | PContentType.

(** utils.rs:16-37 [opaque_into_parts]. EXPLICIT_NONCE_LEN = 8, TAG_LEN = 16. *)
Definition opaque_into_parts (msg : list N) : outcome parts_error (list N * list N * list N) :=
  if length msg <? 8 + 16 then Err PTooShort
  else
    let! (msg, tag) := split_off msg (length msg - 16) in
    let! (nonce, ct) := split_off msg 8 in
    Ok (nonce, ct, tag).

(** leader.rs:574-583: the payload of an outgoing record; the tag is expected to be there. *)
Definition outgoing_payload (r : enc_record) : panicky (list N) :=
  let! tag := or_panic (er_tag r) in Ok (er_nonce r ++ er_ct r ++ tag).

(** utils.rs:133-163 [check_close_notify]. [AlertMessagePayload::read] (tls-core msgs/alert.rs:18-23) reads a level
    and a description of one byte each, of any value; what follows is not looked at. CloseNotify is 0. *)
Definition check_close_notify (rs : list tls_record) : outcome parts_error unit :=
  match last rs with
  | None => Ok tt
  | Some r =>
      match r_typ r with
      | ApplicationData => Ok tt
      | Alert =>
          match r_plain r with
          | None => Err PHidden
          | Some payload =>
              match payload with
              | _ :: description :: _ => if (description =? 0)%N then Ok tt else Err PNotClose
              | _ => Err PMalformed
              end
          end
      | _ => Err PContentType
      end
  end.

(** utils.rs:108-131 [verify_transcript]; missing verify data panics. *)
Definition verify_transcript (t : tls_transcript) (cf sf : list N) : outcome parts_error unit :=
  let! cf_opt := lift_panic (tls_cf_vd t) in
  let! cf_vd := or_panic cf_opt in
  if negb (bool_decide (cf_vd = cf)) then Err PClientVd
  else
    let! sf_opt := lift_panic (tls_sf_vd t) in
    let! sf_vd := or_panic sf_opt in
    if negb (bool_decide (sf_vd = sf)) then Err PServerVd
    else
      let! _ := check_close_notify (tt_sent t) in
      check_close_notify (tt_recv t).
