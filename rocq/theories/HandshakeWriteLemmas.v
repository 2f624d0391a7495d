(** Messages that were written are read back (C60), and what the transcript takes from a message. *)
From Verif.Lib Require Import Base.
From Verif Require Import CodecModel CodecSpec CodecLemmas TlsModel TlsSpec HandshakeModel HandshakeSpec HandshakeLemmas.

Lemma rd_int_enc n v l : int_ok n v -> rd_int n (enc_uint n v ++ l) = Ok (v, l).
Proof. intros H. unfold rd_int. by rewrite read_uint_enc. Qed.
Lemma rd_pay_enc n p l : pay_ok n p -> rd_pay n (enc_payload n p ++ l) = Ok (p, l).
Proof. intros H. unfold rd_pay. by rewrite read_payload_enc. Qed.
Lemma rd_take_app n b l : length b = n -> rd_take n (b ++ l) = Ok (b, l).
Proof. intros <-. unfold rd_take, take_bytes. rewrite app_length. 
  destruct (Nat.ltb_spec (length b + length l) (length b)); [lia|]. by rewrite take_app, drop_app. Qed.
Lemma rd_take_all n b : length b = n -> rd_take n b = Ok (b, []).
Proof. intros H. rewrite <- (app_nil_r b) at 1. by apply rd_take_app. Qed.

(** A payload, read as length and content. *)
Lemma rd_payload_split n p l : pay_ok n p ->
  rd_int n (enc_payload n p ++ l) = Ok (N.of_nat (length p), p ++ l).
Proof. intros H. rewrite enc_payload_small by done. rewrite <- app_assoc. by apply rd_int_enc. Qed.

Lemma rd_items_enc {A} item (enc : A -> list N) : forall xs fuel,
  (forall pre x post, xs = pre ++ x :: post ->
     item (enc x ++ concat (map enc post)) = Ok (x, concat (map enc post)) /\ enc x <> []) ->
  length (concat (map enc xs)) <= fuel -> rd_items item fuel (concat (map enc xs)) = Ok xs.
Proof.
  induction xs as [|x xs IH]; intros fuel Hx Hle; [by destruct fuel|].
  destruct (Hx [] x xs eq_refl) as [Hi Hne]. cbn [map concat] in *. rewrite app_length in Hle.
  destruct (enc x) as [|b e] eqn:E; [done|]. cbn [length] in Hle. destruct fuel as [|fuel]; [lia|].
  cbn [app rd_items]. change (b :: e ++ concat (map enc xs)) with ((b :: e) ++ concat (map enc xs)). rewrite Hi. cbn [obind].
  rewrite IH; [done| |lia].
  intros pre y post ->. apply (Hx (x :: pre)). done.
Qed.
Lemma rd_vec_enc_gen {A} n limit item (enc : A -> list N) xs l :
  (forall pre x post, xs = pre ++ x :: post ->
     item (enc x ++ concat (map enc post)) = Ok (x, concat (map enc post)) /\ enc x <> []) ->
  pay_ok n (concat (map enc xs)) ->
  match limit with Some m => (N.of_nat (length (concat (map enc xs))) <= m)%N | None => True end ->
  rd_vec n limit item (enc_vec n enc xs ++ l) = Ok (xs, l).
Proof.
  intros Hx Hf Hm. unfold rd_vec, enc_vec. rewrite rd_payload_split by done. cbn [obind].
  replace (match limit with Some m => _ | None => _ end) with false.
  2:{ destruct limit; [|done]. symmetry. by apply N.ltb_ge. }
  rewrite Nat2N.id, rd_take_app by done. cbn [obind]. by rewrite rd_items_enc.
Qed.
Lemma rd_vec_enc {A} n limit item (enc : A -> list N) (ok : A -> Prop) xs l :
  (forall x l, ok x -> item (enc x ++ l) = Ok (x, l)) -> (forall x, enc x <> []) -> vec_ok n enc ok xs ->
  match limit with Some m => (N.of_nat (length (concat (map enc xs))) <= m)%N | None => True end ->
  rd_vec n limit item (enc_vec n enc xs ++ l) = Ok (xs, l).
Proof.
  intros Hi Hne [Hok Hf] Hm. apply rd_vec_enc_gen; [|done|done]. intros pre x post ->. split; [|done].
  apply Hi. apply Forall_app in Hok. destruct Hok as [_ Hok]. apply Forall_cons in Hok. apply Hok.
Qed.
Lemma rd_ext_enc {A} body (x : A) t b l : int_ok 2 t -> pay_ok 2 b -> body t b = Ok (x, []) ->
  rd_ext body (enc_ext t b ++ l) = Ok (x, l).
Proof.
  intros Ht Hb Hx. unfold rd_ext, enc_ext. rewrite <- app_assoc, rd_int_enc by done. cbn [obind].
  rewrite rd_payload_split by done. cbn [obind]. rewrite Nat2N.id, rd_take_app by done. cbn [obind].
  rewrite Hx. done.
Qed.
(** The same with nothing behind. *)
Lemma at_end {A} (r : list N -> outcome unit (A * list N)) b x :
  r (b ++ []) = Ok (x, []) -> r b = Ok (x, []).
Proof. by rewrite app_nil_r. Qed.

Lemma w_u8s n xs l : vec_ok n (enc_uint 1) (int_ok 1) xs -> rd_vec n None (rd_int 1) (enc_vec n (enc_uint 1) xs ++ l) = Ok (xs, l).
Proof. intros. eapply rd_vec_enc; [intros; by apply rd_int_enc|done|done|done]. Qed.
Lemma w_u16s n xs l : vec_ok n (enc_uint 2) (int_ok 2) xs -> rd_vec n None (rd_int 2) (enc_vec n (enc_uint 2) xs ++ l) = Ok (xs, l).
Proof. intros. eapply rd_vec_enc; [intros; by apply rd_int_enc|done|done|done]. Qed.
Lemma w_p8s n xs l : vec_ok n (enc_payload 1) (pay_ok 1) xs -> rd_vec n None (rd_pay 1) (enc_vec n (enc_payload 1) xs ++ l) = Ok (xs, l).
Proof. intros. eapply rd_vec_enc; [intros; by apply rd_pay_enc|done|done|done]. Qed.
Lemma w_p16s n xs l : vec_ok n (enc_payload 2) (pay_ok 2) xs -> rd_vec n None (rd_pay 2) (enc_vec n (enc_payload 2) xs ++ l) = Ok (xs, l).
Proof. intros. eapply rd_vec_enc; [intros; by apply rd_pay_enc|done|done|done]. Qed.
Ltac wr := repeat (first [rewrite rd_int_enc by (done || assumption)|rewrite rd_pay_enc by (done || assumption)|rewrite w_u8s by assumption
  |rewrite w_u16s by assumption|rewrite w_p8s by assumption|rewrite w_p16s by assumption]; cbn [obind]).
Lemma w_key_share k l : share_ok k -> rd_key_share (enc_key_share k ++ l) = Ok (k, l).
Proof. intros [H1 H2]. unfold rd_key_share, enc_key_share. rewrite <- app_assoc. wr. by destruct k. Qed.
Lemma w_psk_identity i l : identity_ok i -> rd_psk_identity (enc_psk_identity i ++ l) = Ok (i, l).
Proof. intros [H1 H2]. unfold rd_psk_identity, enc_psk_identity. rewrite <- app_assoc. wr. by destruct i. Qed.
Lemma w_shares n xs l : vec_ok n enc_key_share share_ok xs -> rd_vec n None rd_key_share (enc_vec n enc_key_share xs ++ l) = Ok (xs, l).
Proof. intros. eapply rd_vec_enc; [intros; by apply w_key_share|done|done|done]. Qed.
Lemma w_identities n xs l : vec_ok n enc_psk_identity identity_ok xs ->
  rd_vec n None rd_psk_identity (enc_vec n enc_psk_identity xs ++ l) = Ok (xs, l).
Proof. intros. eapply rd_vec_enc; [intros; by apply w_psk_identity|done|done|done]. Qed.
Lemma w_psk_offer o l : offer_ok o -> rd_psk_offer (enc_psk_offer o ++ l) = Ok (o, l).
Proof.
  intros [H1 H2]. unfold rd_psk_offer, enc_psk_offer. rewrite <- app_assoc. rewrite w_identities by done. cbn [obind]. wr.
  by destruct o.
Qed.
Lemma int_ok_lit n v : (v <? 256 ^ N.of_nat n)%N = true -> int_ok n v.
Proof. intros H. by apply N.ltb_lt. Qed.
Lemma w_status_request s : status_ok s -> rd_status_request (enc_status_request s) = Ok (s, []).
Proof.
  unfold rd_status_request, enc_status_request. destruct s as [r e|typ p]; intros [H1 H2].
  - rewrite rd_int_enc by (by apply int_ok_lit). cbn [obind N.eqb Pos.eqb]. wr. rewrite <- (app_nil_r (enc_payload 2 e)). by wr.
  - rewrite rd_int_enc by done. cbn [obind]. by rewrite (proj2 (N.eqb_neq _ _) H2).
Qed.
Lemma w_sid s l : sid_ok s -> rd_sid (enc_sid s ++ l) = Ok (s, l).
Proof.
  unfold sid_ok. intros H. unfold rd_sid, enc_sid. rewrite rd_payload_split.
  2:{ unfold pay_ok. change (256 ^ N.of_nat 1)%N with 256%N. lia. }
  cbn [obind]. destruct (N.ltb_spec 32 (N.of_nat (length s))); [lia|]. by rewrite Nat2N.id, rd_take_app.
Qed.
Lemma w_cert_status s l : pay_ok 3 s -> rd_cert_status (enc_cert_status s ++ l) = Ok (s, l).
Proof.
  intros H. unfold rd_cert_status, enc_cert_status. rewrite <- app_assoc, rd_int_enc by (by apply int_ok_lit).
  cbn [obind N.eqb Pos.eqb]. by wr.
Qed.

Ltac lits := repeat match goal with
  | |- context [(?t =? ?k)%N] => let b := eval vm_compute in (t =? k)%N in
      first [constr_eq b true|constr_eq b false]; change (t =? k)%N with b
  end; cbn [andb negb].
(** [typ] is none of the listed types. *)
Ltac not_in H := repeat match goal with
  | |- context [(?t =? ?k)%N] => is_var t; destruct (N.eqb_spec t k) as [->|?];
      [exfalso; apply H; apply (bool_decide_unpack _); vm_compute; exact I|]
  end.
Ltac known := unfold sx_type, rx_type, tx_type, qx_type, nx_type, sx_body, rx_body, tx_body, qx_body, nx_body; lits; apply at_end;
  rewrite ?app_nil_l; rewrite ?app_nil_r;
  first [done|apply at_end; wr; done|idtac].
Ltac end_rw := match goal with |- (let! _ := ?r ?b in _) = _ => rewrite <- (app_nil_r b) end.
Lemma w_server_ext x l : server_ext_ok x -> rd_server_ext (enc_server_ext x ++ l) = Ok (x, l).
Proof.
  intros [Hb H]. unfold rd_server_ext, enc_server_ext. apply rd_ext_enc; [|done|].
  { destruct x; try (by apply int_ok_lit). apply H. }
  destruct x; cbn [sx_type sx_body]; lits; try done; try (end_rw; wr; done).
  - end_rw. by rewrite w_key_share.
  - destruct H as [_ H]. not_in H. done.
Qed.
Lemma w_retry_ext x l : retry_ext_ok x -> rd_retry_ext (enc_retry_ext x ++ l) = Ok (x, l).
Proof.
  intros [Hb H]. unfold rd_retry_ext, enc_retry_ext. apply rd_ext_enc; [|done|].
  { destruct x; try (by apply int_ok_lit). apply H. }
  destruct x; cbn [rx_type rx_body]; lits; try done; try (end_rw; wr; done).
  destruct H as [_ H]. not_in H. done.
Qed.
Lemma w_cert_ext x l : cert_ext_ok x -> rd_cert_ext (enc_cert_ext x ++ l) = Ok (x, l).
Proof.
  intros [Hb H]. unfold rd_cert_ext, enc_cert_ext. apply rd_ext_enc; [|done|].
  { destruct x; try (by apply int_ok_lit). apply H. }
  destruct x; cbn [tx_type tx_body]; lits; try done; try (end_rw; wr; done).
  - end_rw. by rewrite w_cert_status.
  - destruct H as [_ H]. not_in H. done.
Qed.
Lemma w_certreq_ext x l : certreq_ext_ok x -> rd_certreq_ext (enc_certreq_ext x ++ l) = Ok (x, l).
Proof.
  intros [Hb H]. unfold rd_certreq_ext, enc_certreq_ext. apply rd_ext_enc; [|done|].
  { destruct x; try (by apply int_ok_lit). apply H. }
  destruct x; cbn [qx_type qx_body]; lits; try done; try (end_rw; wr; done).
  - destruct H as [Hne H]. end_rw. wr. by destruct l0.
  - destruct H as [_ H]. not_in H. done.
Qed.
Lemma w_ticket_ext x l : ticket_ext_ok x -> rd_ticket_ext (enc_ticket_ext x ++ l) = Ok (x, l).
Proof.
  intros [Hb H]. unfold rd_ticket_ext, enc_ticket_ext. apply rd_ext_enc; [|done|].
  { destruct x; try (by apply int_ok_lit). apply H. }
  destruct x; cbn [nx_type nx_body]; lits; try done; try (end_rw; wr; done).
  destruct H as [_ H]. by destruct (N.eqb_spec typ X_EARLY_DATA).
Qed.
Lemma w_cert_entry e l : entry_ok e -> rd_cert_entry (enc_cert_entry e ++ l) = Ok (e, l).
Proof.
  intros [H1 H2]. unfold rd_cert_entry, enc_cert_entry. rewrite <- app_assoc. wr.
  erewrite rd_vec_enc; [|intros; by apply w_cert_ext|done|done|done]. by destruct e.
Qed.
Lemma w_signed d l : signed_ok d -> rd_signed (enc_signed d ++ l) = Ok (d, l).
Proof. intros [H1 H2]. unfold rd_signed, enc_signed. rewrite <- app_assoc. wr. by destruct d. Qed.
Lemma w_server_exts xs l : vec_ok 2 enc_server_ext server_ext_ok xs ->
  rd_vec 2 None rd_server_ext (enc_vec 2 enc_server_ext xs ++ l) = Ok (xs, l).
Proof. intros. eapply rd_vec_enc; [intros; by apply w_server_ext|done|done|done]. Qed.

Section Hs.
  Context (dns_ok : list N -> bool).
  Lemma w_server_names ns l : names_ok dns_ok ns -> pay_ok 2 (concat (map enc_server_name ns)) ->
    rd_vec 2 None (rd_server_name dns_ok) (enc_vec 2 enc_server_name ns ++ l) = Ok (ns, l).
  Proof.
    intros Hn Hp. apply rd_vec_enc_gen; [|done|done]. intros pre x post ->. split; [|by destruct x].
    clear Hp. induction pre as [|[raw|typ p] pre IH]; cbn [app names_ok] in Hn.
    - destruct x as [raw|typ p]; unfold rd_server_name, enc_server_name at 1.
      + destruct Hn as (H1 & H2 & _). rewrite <- app_assoc, rd_int_enc by (by apply int_ok_lit).
        cbn [obind N.eqb]. wr. by rewrite H2.
      + destruct Hn as (H1 & H2 & ->). rewrite <- app_assoc, rd_int_enc by done. cbn [obind map concat].
        rewrite (proj2 (N.eqb_neq _ _) H2), app_nil_r. done.
    - apply IH. apply Hn.
    - destruct Hn as (_ & _ & Hn). by destruct pre.
  Qed.
  Lemma w_client_ext x l : client_ext_ok dns_ok x -> rd_client_ext dns_ok (enc_client_ext x ++ l) = Ok (x, l).
  Proof.
    intros [Hb H]. unfold rd_client_ext, enc_client_ext. apply rd_ext_enc; [|done|].
    { destruct x; try (by apply int_ok_lit). apply H. }
    destruct x; cbn [cx_type cx_body]; lits; try done; try (end_rw; wr; done).
    - destruct H. end_rw. by rewrite w_server_names.
    - by destruct t.
    - end_rw. by rewrite w_shares.
    - end_rw. by rewrite w_psk_offer.
    - by rewrite w_status_request.
    - destruct H as (_ & H1 & H2). cbn [cx_body] in Hb. clear Hb.
      destruct (any_left payload) eqn:Ea; cbn [negb]; rewrite ?andb_false_r, ?andb_true_r.
      + not_in H1. done.
      + apply any_left_false in Ea. subst payload.
        destruct (N.eqb_spec typ X_EMS) as [->|?]; [exfalso; apply H2; [apply (bool_decide_unpack _); vm_compute; exact I|done]|].
        destruct (N.eqb_spec typ X_SCT) as [->|?]; [exfalso; apply H2; [apply (bool_decide_unpack _); vm_compute; exact I|done]|].
        destruct (N.eqb_spec typ X_EARLY_DATA) as [->|?]; [exfalso; apply H2; [apply (bool_decide_unpack _); vm_compute; exact I|done]|].
        not_in H1. done.
  Qed.
  Lemma w_client_hello h : client_hello_ok dns_ok h -> rd_client_hello dns_ok (enc_client_hello h) = Ok (h, []).
  Proof.
    intros (H1 & H2 & H3 & H4 & H5 & H6 & H7). unfold rd_client_hello, enc_client_hello, rd_random.
    wr. rewrite rd_take_app by done. cbn [obind]. rewrite w_sid by done. cbn [obind]. wr.
    destruct (ch_exts h) as [|x xs] eqn:E; [done|]. rewrite <- E in *. clear x xs E.
    replace (any_left (enc_vec 2 enc_client_ext (ch_exts h))) with true by done.
    rewrite <- (app_nil_r (enc_vec 2 enc_client_ext (ch_exts h))).
    erewrite rd_vec_enc; [|intros; by apply w_client_ext|done|done|done]. cbn [obind any_left orb].
    destruct h as [v r s c k x]. cbn [ch_exts] in *. by destruct x.
  Qed.
  Lemma w_body tls13 h : handshake_ok dns_ok tls13 h -> rd_body dns_ok tls13 (hs_type h) (hs_body h) = Ok (h, []).
  Proof.
    intros [_ H]. unfold rd_body. destruct h; cbn [hs_type hs_body]; lits; try done.
    - by rewrite w_client_hello.
    - destruct H as (H1 & H2 & H3 & H4 & H5 & H6 & H7). unfold enc_server_hello, rd_random. wr.
      rewrite rd_take_app by done. cbn [obind]. rewrite bool_decide_eq_false_2 by done. unfold rd_server_hello.
      rewrite w_sid by done. cbn [obind]. wr. rewrite <- (app_nil_r (enc_vec 2 enc_server_ext (sh_exts h))).
      rewrite w_server_exts by done. cbn [obind any_left]. by destruct h.
    - destruct H as (H1 & H2 & H3 & H4). unfold enc_retry_request, rd_random. wr.
      rewrite rd_take_app by done. cbn [obind]. rewrite bool_decide_eq_true_2 by done. unfold rd_retry_request.
      rewrite w_sid by done. cbn [obind]. wr. cbn [obind N.eqb negb].
      rewrite <- (app_nil_r (enc_vec 2 enc_retry_ext (rr_exts r))).
      erewrite rd_vec_enc; [|intros; by apply w_retry_ext|done|done|done]. by destruct r.
    - destruct H as (-> & H1 & H2). end_rw. unfold rd_certificates, enc_certificates.
      erewrite rd_vec_enc; [done|intros; by apply rd_pay_enc|done|done|done].
    - destruct H as (-> & H1 & H2 & H3). end_rw. unfold rd_certs13, enc_certs13. rewrite <- app_assoc. wr.
      erewrite rd_vec_enc; [|intros; by apply w_cert_entry|done|done|done]. by destruct c.
    - destruct H as (-> & H1 & H2 & H3 & H4). end_rw. unfold rd_cert_request, enc_cert_request. rewrite <- !app_assoc. wr.
      destruct r as [t s n]. cbn [cq_schemes] in *. by destruct s.
    - destruct H as (-> & H1 & H2). end_rw. unfold rd_cert_request13, enc_cert_request13. rewrite <- app_assoc. wr.
      erewrite rd_vec_enc; [|intros; by apply w_certreq_ext|done|done|done]. by destruct r.
    - end_rw. by rewrite w_signed.
    - destruct H as (-> & H1 & H2). end_rw. unfold rd_ticket, enc_ticket. rewrite <- app_assoc. wr. by destruct t.
    - destruct H as (-> & H1 & H2 & H3 & H4 & H5). end_rw. unfold rd_ticket13, enc_ticket13. rewrite <- !app_assoc. wr.
      erewrite rd_vec_enc; [|intros; by apply w_ticket_ext|done|done|done]. by destruct t.
    - end_rw. by rewrite w_server_exts.
    - end_rw. by wr.
    - end_rw. by rewrite w_cert_status.
    - destruct H as (_ & H1 & H2). destruct (any_left p) eqn:Ea; cbn [negb]; rewrite ?andb_false_r, ?andb_true_r.
      + destruct (N.eqb_spec typ 0x0b) as [->|?]; [exfalso; apply H1; apply (bool_decide_unpack _); vm_compute; exact I|].
        destruct (N.eqb_spec typ 0x0d) as [->|?]; [exfalso; apply H1; apply (bool_decide_unpack _); vm_compute; exact I|].
        destruct (N.eqb_spec typ 0x04) as [->|?]; [exfalso; apply H1; apply (bool_decide_unpack _); vm_compute; exact I|].
        cbn [andb]. not_in H1. done.
      + apply any_left_false in Ea. subst p. destruct (N.eqb_spec typ 0x00) as [->|?]; [by specialize (H2 eq_refl)|].
        destruct (N.eqb_spec typ 0x0b) as [->|?]; [exfalso; apply H1; apply (bool_decide_unpack _); vm_compute; exact I|].
        destruct (N.eqb_spec typ 0x0d) as [->|?]; [exfalso; apply H1; apply (bool_decide_unpack _); vm_compute; exact I|].
        destruct (N.eqb_spec typ 0x04) as [->|?]; [exfalso; apply H1; apply (bool_decide_unpack _); vm_compute; exact I|].
        cbn [andb]. not_in H1. done.
  Qed.
  Lemma hs_type_fits tls13 h : handshake_ok dns_ok tls13 h -> int_ok 1 (hs_type h).
  Proof. intros [_ H]. destruct h; try (by apply int_ok_lit). apply H. Qed.
  Lemma w_parse tls13 h l : handshake_ok dns_ok tls13 h -> hs_parse dns_ok tls13 (hs_encode h ++ l) = Ok (h, l).
  Proof.
    intros H. unfold hs_parse, hs_encode. rewrite <- app_assoc, rd_int_enc by (by apply (hs_type_fits tls13)). cbn [obind].
    rewrite rd_payload_split by apply H. cbn [obind]. rewrite Nat2N.id, rd_take_app by done. cbn [obind].
    rewrite w_body by done. done.
  Qed.
End Hs.
