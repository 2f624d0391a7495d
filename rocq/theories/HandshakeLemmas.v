(** Reading handshake messages: what is read encodes to the bytes that were read (C60). *)
From Verif.Lib Require Import Base.
From Verif Require Import CodecModel CodecSpec CodecLemmas TlsModel TlsSpec HandshakeModel HandshakeSpec.

(** [o], read from [l0], is a value whose encoding was in front, or an error; never a panic. *)
Definition ends {A} (enc : A -> list N) (l0 : list N) (o : outcome unit (A * list N)) : Prop :=
  match o with
  | Ok (x, l') => l0 = enc x ++ l'
  | Err _ => True
  | Panic => False
  end.
Definition good {A} (r : list N -> outcome unit (A * list N)) (enc : A -> list N) : Prop :=
  forall l, bytes_ok l -> ends enc l (r l).

Lemma bytes_ok_app l l' : bytes_ok (l ++ l') <-> bytes_ok l /\ bytes_ok l'.
Proof. apply Forall_app. Qed.
Lemma good_bind {A B} (r : list N -> outcome unit (A * list N)) encA (enc : B -> list N) l0 l k :
  good r encA -> bytes_ok l ->
  (forall x l', l = encA x ++ l' -> bytes_ok l' -> ends enc l0 (k (x, l'))) ->
  ends enc l0 (obind (r l) k).
Proof.
  intros Hr Hl Hk. specialize (Hr l Hl). destruct (r l) as [[x l']| |]; cbn [obind ends] in *; [|done|done].
  apply Hk; [done|]. rewrite Hr in Hl. apply bytes_ok_app in Hl; apply Hl.
Qed.

Lemma good_int n : good (rd_int n) (enc_uint n).
Proof.
  intros l Hl. unfold rd_int. destruct (read_uint n l) as [[v l']|] eqn:E; [|done]. cbn.
  apply read_uint_Some in E. destruct E as (b & -> & Hb & ->).
  apply bytes_ok_app in Hl. destruct Hl as [Hb' _]. unfold enc_uint. f_equal. subst n. by rewrite be_of_be.
Qed.
Lemma good_pay n : good (rd_pay n) (enc_payload n).
Proof.
  intros l Hl. unfold rd_pay. destruct (read_payload n l) as [[p l']|] eqn:E; [|done]. cbn.
  pose proof (read_payload_fits _ _ _ _ Hl E) as Hf.
  apply read_payload_Some in E. destruct E as (b & -> & Hb & Hp). rewrite enc_payload_small by done.
  rewrite <- app_assoc. f_equal. rewrite Hp, <- Hb. apply bytes_ok_app in Hl. by rewrite be_of_be by apply Hl.
Qed.
Lemma good_take n : good (rd_take n) (fun b => b).
Proof.
  intros l Hl. unfold rd_take. destruct (take_bytes n l) as [[b l']|] eqn:E; [|done]. cbn.
  apply take_bytes_Some in E. apply E.
Qed.
Lemma good_rest : good rd_rest (fun b => b).
Proof. intros l Hl. cbn. by rewrite app_nil_r. Qed.

Lemma good_items {A} item (enc : A -> list N) : good item enc -> (forall x, enc x <> []) ->
  forall fuel l, bytes_ok l -> length l <= fuel ->
  match rd_items item fuel l with
  | Ok xs => l = concat (map enc xs)
  | Err _ => True
  | Panic => False
  end.
Proof.
  intros Hi Hne. induction fuel as [|fuel IH]; intros l Hl Hle.
  { destruct l; [done|]. cbn in Hle. lia. }
  destruct l as [|b l]; [done|]. cbn [rd_items]. pose proof (Hi _ Hl) as Hx.
  destruct (item (b :: l)) as [[x l']| |]; cbn [obind ends] in *; [|done|done].
  assert (bytes_ok l') as Hl'. { rewrite Hx in Hl. apply bytes_ok_app in Hl; apply Hl. }
  assert (length l' <= fuel).
  { pose proof (f_equal length Hx) as E. rewrite app_length in E. specialize (Hne x). destruct (enc x); [done|].
    cbn in E, Hle. lia. }
  specialize (IH l' Hl' ltac:(done)). destruct (rd_items item fuel l') as [xs| |]; cbn [obind]; [|done|done].
  rewrite Hx, IH. done.
Qed.
(** The length of a prefix is that of the bytes it is in front of. *)
Lemma good_vec {A} n limit item (enc : A -> list N) : good item enc -> (forall x, enc x <> []) ->
  good (rd_vec n limit item) (enc_vec n enc).
Proof.
  intros Hi Hne l Hl. unfold rd_vec, rd_int, rd_take. destruct (read_uint n l) as [[len l1]|] eqn:E; [|done].
  cbn [opt_err obind]. destruct (match limit with Some m => _ | None => _ end); [done|].
  destruct (take_bytes (N.to_nat len) l1) as [[sub l2]|] eqn:E2; [|done]. cbn [opt_err obind].
  assert (read_payload n l = Some (sub, l2)) as Hp. { unfold read_payload. by rewrite E. }
  pose proof (good_pay n l Hl) as Hg. unfold rd_pay in Hg. rewrite Hp in Hg. cbn in Hg.
  assert (bytes_ok sub) as Hs.
  { rewrite Hg in Hl. apply bytes_ok_app in Hl. destruct Hl as [Hl _]. unfold enc_payload in Hl.
    apply bytes_ok_app in Hl; apply Hl. }
  pose proof (good_items item enc Hi Hne (length sub) sub Hs ltac:(done)) as Hx.
  destruct (rd_items item (length sub) sub) as [xs| |]; cbn [obind ends]; [|done|done].
  unfold enc_vec. by rewrite <- Hx.
Qed.

(** [o], read from all of [l0]. *)
Definition ends_whole {A} (P : A -> Prop) (o : outcome unit A) : Prop :=
  match o with Ok x => P x | Err _ => True | Panic => False end.
Lemma whole_good {A} (enc : A -> list N) l o : ends enc l o -> ends_whole (fun x => l = enc x) (whole o).
Proof.
  unfold whole. destruct o as [[x [|b l']]| |]; cbn; try done. by rewrite app_nil_r.
Qed.
Lemma whole_imp {A} (P Q : A -> Prop) o : ends_whole P o -> (forall x, P x -> Q x) -> ends_whole Q o.
Proof. destruct o; cbn; auto. Qed.
Lemma good_ext {A} body (typ : A -> N) (enc : A -> list N) :
  (forall t sub, bytes_ok sub -> ends (fun x => enc x) sub (body t sub) /\
    forall x l, body t sub = Ok (x, l) -> typ x = t) ->
  good (rd_ext body) (fun x => enc_ext (typ x) (enc x)).
Proof.
  intros Hb l Hl. unfold rd_ext. eapply good_bind; [apply good_int|done|]. intros t l1 -> Hl1.
  unfold rd_int, rd_take. destruct (read_uint 2 l1) as [[len l2]|] eqn:E; [|done]. cbn [opt_err obind].
  destruct (take_bytes (N.to_nat len) l2) as [[sub l3]|] eqn:E2; [|done]. cbn [opt_err obind].
  assert (read_payload 2 l1 = Some (sub, l3)) as Hp. { unfold read_payload. by rewrite E. }
  pose proof (good_pay 2 l1 Hl1) as Hg. unfold rd_pay in Hg. rewrite Hp in Hg. cbn [opt_err ends] in Hg.
  assert (bytes_ok sub) as Hs.
  { rewrite Hg in Hl1. apply bytes_ok_app in Hl1. destruct Hl1 as [Hl1 _]. unfold enc_payload in Hl1.
    apply bytes_ok_app in Hl1; apply Hl1. }
  destruct (Hb t sub Hs) as [H1 H2]. apply whole_good in H1. unfold whole in *.
  destruct (body t sub) as [[x [|? l4]]| |]; cbn [obind ends ends_whole] in *; [|done|done|done].
  rewrite (H2 x [] eq_refl). unfold enc_ext. rewrite <- H1, Hg. by rewrite <- app_assoc.
Qed.
Lemma enc_uint_ne n v l : n <> 0 -> enc_uint n v ++ l <> [].
Proof. destruct n; [done|]. done. Qed.
Lemma enc_ext_ne t b : enc_ext t b <> [].
Proof. done. Qed.
Lemma enc_payload_ne n p : n <> 0 -> enc_payload n p <> [].
Proof. intros. by apply enc_uint_ne. Qed.

(** One step of a reader. *)
Ltac fin := cbn [ends]; rewrite ?app_nil_r, <- ?app_assoc; first [done|reflexivity].
Ltac rstep g := eapply good_bind; [apply g|done|]; let x := fresh "x" in let l' := fresh "l'" in
  let E := fresh "E" in let H := fresh "Hl" in intros x l' E H; rewrite ?E; cbv beta iota.

Lemma good_sid : good rd_sid enc_sid.
Proof.
  intros l Hl. unfold rd_sid. rewrite <- (app_nil_l l) at 1. unfold rd_int, rd_take.
  destruct (read_uint 1 l) as [[len l2]|] eqn:E; [|done]. cbn [opt_err obind]. destruct (32 <? len)%N; [done|].
  destruct (take_bytes (N.to_nat len) l2) as [[sub l3]|] eqn:E2; [|done]. cbn [opt_err ends].
  assert (read_payload 1 l = Some (sub, l3)) as Hp. { unfold read_payload. by rewrite E. }
  pose proof (good_pay 1 l Hl) as Hg. unfold rd_pay in Hg. by rewrite Hp in Hg.
Qed.
Lemma good_key_share : good rd_key_share enc_key_share.
Proof. intros l Hl. unfold rd_key_share. rstep good_int. rstep good_pay. unfold enc_key_share. fin. Qed.
Lemma good_psk_identity : good rd_psk_identity enc_psk_identity.
Proof. intros l Hl. unfold rd_psk_identity. rstep good_pay. rstep good_int. unfold enc_psk_identity. fin. Qed.
Lemma good_u8s n : good (rd_vec n None (rd_int 1)) (enc_vec n (enc_uint 1)).
Proof. apply good_vec; [apply good_int|done]. Qed.
Lemma good_u16s n : good (rd_vec n None (rd_int 2)) (enc_vec n (enc_uint 2)).
Proof. apply good_vec; [apply good_int|done]. Qed.
Lemma good_p8s n : good (rd_vec n None (rd_pay 1)) (enc_vec n (enc_payload 1)).
Proof. apply good_vec; [apply good_pay|done]. Qed.
Lemma good_p16s n : good (rd_vec n None (rd_pay 2)) (enc_vec n (enc_payload 2)).
Proof. apply good_vec; [apply good_pay|done]. Qed.
Lemma good_shares n : good (rd_vec n None rd_key_share) (enc_vec n enc_key_share).
Proof. apply good_vec; [apply good_key_share|done]. Qed.
Lemma good_identities n : good (rd_vec n None rd_psk_identity) (enc_vec n enc_psk_identity).
Proof. apply good_vec; [apply good_psk_identity|done]. Qed.
Lemma good_psk_offer : good rd_psk_offer enc_psk_offer.
Proof. intros l Hl. unfold rd_psk_offer. rstep good_identities. rstep good_p8s. unfold enc_psk_offer. fin. Qed.
Lemma good_status_request : good rd_status_request enc_status_request.
Proof.
  intros l Hl. unfold rd_status_request. rstep good_int. destruct (N.eqb_spec x 1) as [->|_].
  - rstep good_p16s. rstep good_pay. unfold enc_status_request. fin.
  - rstep good_rest. unfold enc_status_request. fin.
Qed.

Ltac by_type := repeat match goal with
  | |- context [(?t =? ?k)%N] => is_var t; destruct (N.eqb_spec t k) as [->|?]
  | |- context [(?t =? ?k)%N] => let b := eval vm_compute in (t =? k)%N in change (t =? k)%N with b
  end; cbn [andb negb any_left].
Ltac ext_case := first
  [ done
  | split; [|let x := fresh in let l' := fresh in intros x l'];
    [ first [rstep good_u8s|rstep good_u16s|rstep good_p8s|rstep good_p16s|rstep good_shares|rstep good_key_share|rstep good_psk_offer
            |rstep good_status_request|rstep good_pay|rstep good_int|rstep good_rest]; fin
    | match goal with |- obind ?o _ = _ -> _ => destruct o as [[? ?]| |]; cbn [obind]; try done; by intros [= <- _] end ] ].
Lemma good_server_ext : good rd_server_ext enc_server_ext.
Proof.
  apply (good_ext _ sx_type sx_body). intros t sub Hs. cbv beta.
  by_type; try (split; [done|by intros x l [= <- _]]); ext_case.
Qed.
Lemma good_retry_ext : good rd_retry_ext enc_retry_ext.
Proof.
  apply (good_ext _ rx_type rx_body). intros t sub Hs. cbv beta. by_type; ext_case.
Qed.
Lemma good_cert_status : good rd_cert_status enc_cert_status.
Proof.
  intros l Hl. unfold rd_cert_status. rstep good_int. destruct (N.eqb_spec x 1) as [->|_]; [|done].
  pose proof (good_pay 3 l' Hl0) as H. destruct (rd_pay 3 l') as [[p l2]| |]; cbn [ends] in *; try done.
  unfold enc_cert_status. rewrite H. by rewrite <- app_assoc.
Qed.
Lemma good_cert_ext : good rd_cert_ext enc_cert_ext.
Proof.
  apply (good_ext _ tx_type tx_body). intros t sub Hs. cbv beta. by_type; try ext_case.
  split.
  - rstep good_cert_status. fin.
  - intros x l. destruct (rd_cert_status sub) as [[? ?]| |]; cbn [obind]; try done. by intros [= <- _].
Qed.
Lemma good_ticket_ext : good rd_ticket_ext enc_ticket_ext.
Proof.
  apply (good_ext _ nx_type nx_body). intros t sub Hs. cbv beta. by_type; ext_case.
Qed.
Lemma good_certreq_ext : good rd_certreq_ext enc_certreq_ext.
Proof.
  apply (good_ext _ qx_type qx_body). intros t sub Hs. cbv beta. by_type; try ext_case.
  split.
  - rstep good_u16s. destruct x; [done|]. fin.
  - intros x l. destruct (rd_vec 2 None (rd_int 2) sub) as [[[|? ?] ?]| |]; cbn [obind]; try done. by intros [= <- _].
Qed.
Lemma good_retry_exts : good (rd_vec 2 None rd_retry_ext) (enc_vec 2 enc_retry_ext).
Proof. apply good_vec; [apply good_retry_ext|done]. Qed.
Lemma good_server_exts : good (rd_vec 2 None rd_server_ext) (enc_vec 2 enc_server_ext).
Proof. apply good_vec; [apply good_server_ext|done]. Qed.
Lemma good_cert_exts : good (rd_vec 2 None rd_cert_ext) (enc_vec 2 enc_cert_ext).
Proof. apply good_vec; [apply good_cert_ext|done]. Qed.
Lemma good_ticket_exts : good (rd_vec 2 None rd_ticket_ext) (enc_vec 2 enc_ticket_ext).
Proof. apply good_vec; [apply good_ticket_ext|done]. Qed.
Lemma good_certreq_exts : good (rd_vec 2 None rd_certreq_ext) (enc_vec 2 enc_certreq_ext).
Proof. apply good_vec; [apply good_certreq_ext|done]. Qed.
Lemma good_certificates : good rd_certificates enc_certificates.
Proof. apply good_vec; [apply good_pay|done]. Qed.
Lemma good_cert_entry : good rd_cert_entry enc_cert_entry.
Proof. intros l Hl. unfold rd_cert_entry. rstep good_pay. rstep good_cert_exts. unfold enc_cert_entry. fin. Qed.
Lemma good_entries : good (rd_vec 3 (Some 0x10000%N) rd_cert_entry) (enc_vec 3 enc_cert_entry).
Proof. apply good_vec; [apply good_cert_entry|done]. Qed.
Lemma good_certs13 : good rd_certs13 enc_certs13.
Proof. intros l Hl. unfold rd_certs13. rstep good_pay. rstep good_entries. unfold enc_certs13. fin. Qed.
Lemma good_signed : good rd_signed enc_signed.
Proof. intros l Hl. unfold rd_signed. rstep good_int. rstep good_pay. unfold enc_signed. fin. Qed.
Lemma good_ecdhe : good rd_ecdhe enc_ecdhe.
Proof.
  intros l Hl. unfold rd_ecdhe. rstep good_int. destruct (N.eqb_spec x 3) as [->|_]; cbn [negb]; [|done].
  rstep good_int. rstep good_pay. rstep good_signed. unfold enc_ecdhe. fin.
Qed.
Lemma good_cert_request : good rd_cert_request enc_cert_request.
Proof.
  intros l Hl. unfold rd_cert_request. rstep good_u8s. rstep good_u16s. rstep good_p16s.
  destruct x0; [done|]. unfold enc_cert_request. fin.
Qed.
Lemma good_cert_request13 : good rd_cert_request13 enc_cert_request13.
Proof. intros l Hl. unfold rd_cert_request13. rstep good_pay. rstep good_certreq_exts. unfold enc_cert_request13. fin. Qed.
Lemma good_ticket : good rd_ticket enc_ticket.
Proof. intros l Hl. unfold rd_ticket. rstep good_int. rstep good_pay. unfold enc_ticket. fin. Qed.
Lemma good_ticket13 : good rd_ticket13 enc_ticket13.
Proof.
  intros l Hl. unfold rd_ticket13. rstep good_int. rstep good_int. rstep good_pay. rstep good_pay. rstep good_ticket_exts.
  unfold enc_ticket13. fin.
Qed.

Section Hs.
  Context (dns_ok : list N -> bool).
  Lemma good_server_name : good (rd_server_name dns_ok) enc_server_name.
  Proof.
    intros l Hl. unfold rd_server_name. rstep good_int. destruct (N.eqb_spec x 0) as [->|_].
    - rstep good_pay. destruct (dns_ok x); [|done]. unfold enc_server_name. fin.
    - rstep good_rest. unfold enc_server_name. fin.
  Qed.
  Lemma good_server_names : good (rd_vec 2 None (rd_server_name dns_ok)) (enc_vec 2 enc_server_name).
  Proof. apply good_vec; [apply good_server_name|]. by intros []. Qed.
  Lemma any_left_false l : any_left l = false -> l = [].
  Proof. by destruct l. Qed.
  Lemma good_client_ext : good (rd_client_ext dns_ok) enc_client_ext.
  Proof.
    apply (good_ext _ cx_type cx_body). intros t sub Hs. cbv beta.
    destruct (any_left sub) eqn:Ea; [|apply any_left_false in Ea; subst sub];
    by_type; try (split; [done|by intros x l [= <- _]]); try ext_case.
    all: split; [rstep good_server_names; fin|intros x l;
      destruct (rd_vec 2 None (rd_server_name dns_ok) _) as [[? ?]| |]; cbn [obind]; try done; by intros [= <- _]].
  Qed.
  Lemma good_client_exts : good (rd_vec 2 None (rd_client_ext dns_ok)) (enc_vec 2 enc_client_ext).
  Proof. apply good_vec; [apply good_client_ext|done]. Qed.
  Lemma good_random : good rd_random (fun b => b).
  Proof. apply good_take. Qed.
  Lemma good_client_hello : good (rd_client_hello dns_ok) enc_client_hello.
  Proof.
    intros l Hl. unfold rd_client_hello. rstep good_int. rstep good_random. rstep good_sid. rstep good_u16s. rstep good_u8s.
    destruct (any_left l'3) eqn:Ea; [|cbn [obind]; by rewrite orb_true_r].
    rstep good_client_exts. destruct (any_left l'4) eqn:Eb; [done|]. apply any_left_false in Eb. subst l'4.
    destruct x4; [done|]. unfold enc_client_hello. cbn [orb ch_version ch_random ch_sid ch_suites ch_compressions ch_exts]. fin.
  Qed.
  Lemma good_body tls13 t : forall l, bytes_ok l -> ends hs_body l (rd_body dns_ok tls13 t l) /\
    forall x l', rd_body dns_ok tls13 t l = Ok (x, l') -> hs_type x = t.
  Proof.
    intros l Hl. unfold rd_body.
    destruct (N.eqb_spec t 0x00) as [->|_]; cbn [andb].
    { destruct (any_left l) eqn:Ea; cbn [negb]; [|apply any_left_false in Ea; subst l].
      - cbn [N.eqb]. split; [rstep good_rest; fin|by intros x l' [= <- _]].
      - split; [done|by intros x l' [= <- _]]. }
    destruct (N.eqb_spec t 0x01) as [->|_].
    { split; [rstep good_client_hello; fin|].
      intros x l'. destruct (rd_client_hello dns_ok l) as [[? ?]| |]; cbn [obind]; try done. by intros [= <- _]. }
    destruct (N.eqb_spec t 0x02) as [->|_].
    { split.
      - rstep good_int. rstep good_random. destruct (bool_decide_reflect (x0 = RETRY_RANDOM)) as [->|_].
        + unfold rd_retry_request. cbv beta.
          assert (forall o, ends (enc_retry_request) (enc_uint 2 x ++ RETRY_RANDOM ++ l'0) o ->
            ends hs_body (enc_uint 2 x ++ RETRY_RANDOM ++ l'0) (let! (x0, l) := o in Ok (HRetryRequest x0, l))) as Hk.
          { intros [[y ly]| |]; done. }
          apply Hk. clear Hk. subst.
          rstep good_sid. rstep good_int. rstep good_int. destruct (N.eqb_spec x2 0) as [->|_]; cbn [negb]; [|done].
          rstep good_retry_exts. cbn [ends]. unfold enc_retry_request.
          cbn [rr_version rr_sid rr_suite rr_exts]. by rewrite <- !app_assoc.
        + unfold rd_server_hello. cbv beta.
          assert (forall o, ends (enc_server_hello) (enc_uint 2 x ++ x0 ++ l'0) o ->
            ends hs_body (enc_uint 2 x ++ x0 ++ l'0) (let! (x0, l) := o in Ok (HServerHello x0, l))) as Hk.
          { intros [[y ly]| |]; done. }
          apply Hk. clear Hk. subst.
          rstep good_sid. rstep good_int. rstep good_int. rstep good_server_exts.
          destruct (any_left l'3) eqn:Eb; [done|]. apply any_left_false in Eb. subst l'3.
          unfold enc_server_hello. cbn [sh_version sh_random sh_sid sh_suite sh_compression sh_exts]. fin.
      - intros x l'. destruct (rd_int 2 l) as [[? ?]| |]; cbn [obind]; try done.
        destruct (rd_random _) as [[? ?]| |]; cbn [obind]; try done. case_bool_decide.
        + destruct (rd_retry_request _ _) as [[? ?]| |]; cbn [obind]; try done. by intros [= <- _].
        + destruct (rd_server_hello _ _ _) as [[? ?]| |]; cbn [obind]; try done. by intros [= <- _]. }
    destruct (N.eqb_spec t 0x0b) as [->|_]; cbn [andb].
    { destruct tls13; (split; [first [rstep good_certs13|rstep good_certificates]; fin|]);
      intros x l'; [destruct (rd_certs13 l) as [[? ?]| |]|destruct (rd_certificates l) as [[? ?]| |]]; cbn [obind]; try done; by intros [= <- _]. }
    destruct (N.eqb_spec t 0x0c) as [->|_]; [split; [rstep good_rest; fin|by intros x l' [= <- _]]|].
    destruct (N.eqb_spec t 0x0e) as [->|_].
    { destruct (any_left l) eqn:Ea; [done|]. apply any_left_false in Ea. subst l. split; [done|by intros x l' [= <- _]]. }
    destruct (N.eqb_spec t 0x10) as [->|_]; [split; [rstep good_rest; fin|by intros x l' [= <- _]]|].
    destruct (N.eqb_spec t 0x0d) as [->|_]; cbn [andb].
    { destruct tls13; (split; [first [rstep good_cert_request13|rstep good_cert_request]; fin|]);
      intros x l'; [destruct (rd_cert_request13 l) as [[? ?]| |]|destruct (rd_cert_request l) as [[? ?]| |]]; cbn [obind]; try done; by intros [= <- _]. }
    destruct (N.eqb_spec t 0x0f) as [->|_].
    { split; [rstep good_signed; fin|]. intros x l'. destruct (rd_signed l) as [[? ?]| |]; cbn [obind]; try done; by intros [= <- _]. }
    destruct (N.eqb_spec t 0x04) as [->|_]; cbn [andb].
    { destruct tls13; (split; [first [rstep good_ticket13|rstep good_ticket]; fin|]);
      intros x l'; [destruct (rd_ticket13 l) as [[? ?]| |]|destruct (rd_ticket l) as [[? ?]| |]]; cbn [obind]; try done; by intros [= <- _]. }
    destruct (N.eqb_spec t 0x08) as [->|_].
    { split; [rstep good_server_exts; fin|].
      intros x l'. destruct (rd_vec 2 None rd_server_ext l) as [[? ?]| |]; cbn [obind]; try done; by intros [= <- _]. }
    destruct (N.eqb_spec t 0x18) as [->|_].
    { split; [rstep good_int; fin|]. intros x l'. destruct (rd_int 1 l) as [[? ?]| |]; cbn [obind]; try done; by intros [= <- _]. }
    destruct (N.eqb_spec t 0x05) as [->|_].
    { destruct (any_left l) eqn:Ea; [done|]. apply any_left_false in Ea. subst l. split; [done|by intros x l' [= <- _]]. }
    destruct (N.eqb_spec t 0x14) as [->|_]; [split; [rstep good_rest; fin|by intros x l' [= <- _]]|].
    destruct (N.eqb_spec t 0x16) as [->|_].
    { split; [rstep good_cert_status; fin|]. intros x l'. destruct (rd_cert_status l) as [[? ?]| |]; cbn [obind]; try done; by intros [= <- _]. }
    destruct (N.eqb_spec t 0xfe) as [->|_]; [done|].
    destruct (N.eqb_spec t 0x06) as [->|_]; [done|].
    split; [rstep good_rest; fin|by intros x l' [= <- _]].
  Qed.
  Lemma good_parse tls13 : good (hs_parse dns_ok tls13) hs_encode.
  Proof.
    intros l Hl. unfold hs_parse. eapply good_bind; [apply good_int|done|]. intros t l1 -> Hl1.
    unfold rd_int, rd_take. destruct (read_uint 3 l1) as [[len l2]|] eqn:E; [|done]. cbn [opt_err obind].
    destruct (take_bytes (N.to_nat len) l2) as [[sub l3]|] eqn:E2; [|done]. cbn [opt_err obind].
    assert (read_payload 3 l1 = Some (sub, l3)) as Hp. { unfold read_payload. by rewrite E. }
    pose proof (good_pay 3 l1 Hl1) as Hg. unfold rd_pay in Hg. rewrite Hp in Hg. cbn [opt_err ends] in Hg.
    assert (bytes_ok sub) as Hs.
    { rewrite Hg in Hl1. apply bytes_ok_app in Hl1. destruct Hl1 as [Hl1 _]. unfold enc_payload in Hl1.
      apply bytes_ok_app in Hl1; apply Hl1. }
    destruct (good_body tls13 t sub Hs) as [H1 H2]. apply whole_good in H1. unfold whole in *.
    destruct (rd_body dns_ok tls13 t sub) as [[x [|? l4]]| |]; cbn [obind ends ends_whole] in *; [|done|done|done].
    unfold hs_encode. rewrite (H2 x [] eq_refl). rewrite <- H1, Hg. by rewrite <- app_assoc.
  Qed.
End Hs.
