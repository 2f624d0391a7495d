(** A concrete TLS session for the examples beside the theorems C21-C24. *)
From Verif.Lib Require Import Base.
From Verif Require Import TranscriptModel CodecModel CodecSpec AttestModel TlsModel TlsSpec.

Definition ex_sha (l : list N) : list N := l.
Definition ex_parse_body (v : protocol_version) (typ : N) (body : list N) : option hs_payload :=
  (if typ =? 1 then Some (HsClientHello body)
   else if typ =? 2 then Some (HsServerHello TLSv1_2 body)
   else if typ =? 11 then Some (HsCertificate [body])
   else if typ =? 12 then Some (HsServerKeyExchange body)
   else if typ =? 20 then Some (HsFinished body)
   else Some HsOther)%N.
Definition ex_curve (c : list N) : option N := Some 0%N.

(** secp256r1, a key of two bytes, RSA_PKCS1_SHA256, a signature of one byte. *)
Definition ex_ske : list N := [3; 0;23; 2;7;8; 4;1; 0;1;9]%N.
Definition ex_hs (ticket : list hs_message) : full_handshake :=
  FullHandshake [1;2;3]%N [(2, [4;5]); (11, [6]); (12, ex_ske)]%N [] [9;9]%N [] ticket.
Definition ex_ticket : list hs_message := [(4, [5;5;5])]%N.

Definition hs_rec (p : list N) : message := Message Handshake TLSv1_2 p.
Definition ccs_rec : message := Message ChangeCipherSpec TLSv1_2 [1%N].
Definition enc_rec (t : content_type) (n : nat) : message := Message t TLSv1_2 (replicate 8 1 ++ replicate n 2 ++ replicate 16 3)%N.

(** The stream is cut into records of five bytes, across message boundaries. *)
Fixpoint cut (fuel : nat) (l : list N) : list message :=
  match fuel, l with
  | S fuel', _ :: _ => hs_rec (take 5 l) :: cut fuel' (drop 5 l)
  | _, _ => []
  end.
Definition ex_stream (ms : list hs_message) (app : list nat) : list message :=
  cut 100 (msgs_wire ms) ++ [ccs_rec; enc_rec Handshake 16] ++ map (enc_rec ApplicationData) app ++ [enc_rec Alert 2].
Definition ex_sent (h : full_handshake) : list N := concat (map wire (ex_stream (client_messages h) [3;4])).
Definition ex_recv (h : full_handshake) : list N := concat (map wire (ex_stream (server_messages h) [2])).

Definition ex_builder (h : full_handshake) : tls_builder :=
  TlsBuilder (Some 10%N) None (Some (ex_sent h)) (Some (ex_recv h)) (Some [1;2;3;4;5;6;7]%N) (Some [8;9]%N)
    None None None None None.

Definition ex_built (h : full_handshake) : outcome tls_error tls_transcript :=
  tls_build ex_sha ex_parse_body ex_curve (ex_builder h).
Definition ex_tt (h : full_handshake) : tls_transcript :=
  match ex_built h with
  | Ok t => t
  | _ => TlsTranscript 0 V1_2 None None (CertBinding [] [] (EphemKey [])) [] [] None None None
  end.

Lemma ex_builds : ex_built (ex_hs []) = Ok (ex_tt (ex_hs [])).
Proof. vm_compute. reflexivity. Qed.
Lemma ex_builds_ticket : ex_built (ex_hs ex_ticket) = Ok (ex_tt (ex_hs ex_ticket)).
Proof. vm_compute. reflexivity. Qed.

Lemma ex_hs_ok ticket : ticket = [] \/ ticket = ex_ticket -> full_handshake_ok (ex_hs ticket).
Proof.
  intros Ht. split.
  - destruct Ht as [->| ->]; cbn; repeat constructor.
  - by eexists _, _.
  - repeat constructor; vm_compute; repeat (by left || right).
  - constructor.
  - constructor.
  - destruct Ht as [->| ->]; repeat constructor.
Qed.

Lemma ex_record_ok t p : (t = Handshake \/ t = ChangeCipherSpec \/ t = ApplicationData \/ t = Alert) ->
  p <> [] -> (N.of_nat (length p) < 18432)%N -> record_ok (Message t TLSv1_2 p).
Proof.
  intros Ht Hp Hl. split; simpl; try done; [by destruct Ht as [->|[->|[->| ->]]]|by left|by right].
Qed.
Lemma cut_ok fuel l : Forall (fun m => record_ok m /\ m_typ m = Handshake) (cut fuel l).
Proof.
  revert l. induction fuel as [|fuel IH]; intros l; [by destruct l; constructor|].
  destruct l as [|x l]; [constructor|]. cbn [cut]. constructor; [|apply IH]. split; [|done].
  apply ex_record_ok; [by left|done|]. rewrite take_length. lia.
Qed.
Lemma cut_concat fuel l : length l <= 5 * fuel ->
  concat (map m_payload (List.filter (fun m => bool_decide (m_typ m = Handshake)) (cut fuel l))) = l.
Proof.
  revert l. induction fuel as [|fuel IH]; intros l Hl; destruct l as [|x l]; try done; [simpl in Hl; lia|].
  cbn [cut List.filter m_typ hs_rec]. rewrite bool_decide_eq_true_2 by done. cbn [map concat m_payload].
  rewrite IH; [apply (take_drop 5)|]. rewrite drop_length. simpl in *. lia.
Qed.
Lemma ex_stream_ok ms app : Forall (fun n => n < 1000) app -> Forall record_ok (ex_stream ms app).
Proof.
  intros Happ. unfold ex_stream. rewrite !Forall_app. split_and!.
  - eapply Forall_impl; [apply cut_ok|]. intros m [? _]. done.
  - constructor; [apply ex_record_ok; [by right; left|done|done]|].
    constructor; [apply ex_record_ok; [by left|done|done]|constructor].
  - induction Happ as [|n app Hn _ IH]; [constructor|]. cbn [map]. constructor; [|done].
    apply ex_record_ok; [by right; right; left|done|]. rewrite !app_length, !replicate_length. lia.
  - constructor; [apply ex_record_ok; [by right; right; right|done|done]|constructor].
Qed.
Lemma ex_carries ms app : length (msgs_wire ms) <= 500 -> Forall (fun n => n < 1000) app ->
  carries (concat (map wire (ex_stream ms app))) ms.
Proof.
  intros Hl Happ. exists (cut 100 (msgs_wire ms)), ([ccs_rec; enc_rec Handshake 16] ++ map (enc_rec ApplicationData) app ++ [enc_rec Alert 2]).
  split_and!.
  - done.
  - by apply ex_stream_ok.
  - eapply Forall_impl; [apply cut_ok|]. intros m [_ H] Hc. congruence.
  - by eexists _, _.
  - by apply cut_concat.
Qed.

(** A builder that is given the records of one direction. *)
Definition ex_fin : tls_record := TlsRecord 0 Handshake (Some (hs_wire 20 (replicate 12 7%N))) (replicate 8 1%N) (replicate 16 2%N) (Some (replicate 16 3%N)).
Definition ex_app (seq : N) (p : option (list N)) : tls_record :=
  TlsRecord seq ApplicationData p (replicate 8 1%N) (replicate 2 2%N) (Some (replicate 16 3%N)).
Definition ex_alert (seq : N) : tls_record := TlsRecord seq Alert None (replicate 8 1%N) (replicate 2 2%N) None.
Definition ex_given : list tls_record := [ex_fin; ex_app 1 (Some [5;6]%N); ex_alert 2; ex_app 4 (Some [7;8]%N)].
Definition ex_binding : cert_binding := CertBinding (replicate 32 1%N) (replicate 32 2%N) (EphemKey [4%N]).
Definition ex_builder2 : tls_builder :=
  TlsBuilder (Some 10%N) (Some V1_2) (Some (ex_sent (ex_hs []))) None (Some [1;2;3;4;5;6;7]%N) None
    None (Some ex_given) None None (Some ex_binding).
Lemma ex_given_sequenced : well_sequenced ex_given.
Proof.
  split.
  - repeat constructor.
  - exists ex_fin, (tail ex_given). split_and!; [done|done|done|]. intros p [= <-].
    exists (replicate 12 7%N), []. by rewrite app_nil_r.
Qed.
Lemma ex_finished_is_20 : finished_is_20 ex_parse_body.
Proof.
  intros v typ body vd. unfold ex_parse_body.
  do 4 (destruct (_ =? _)%N; [done|]). destruct (N.eqb_spec typ 20); [|done]. by intros [= <-].
Qed.
Lemma ex_sent_bytes : bytes_ok (ex_sent (ex_hs [])).
Proof. unfold bytes_ok, byte_ok. apply (bool_decide_unpack _). vm_compute. exact I. Qed.
Lemma ex_stream_split ms app data : Forall (fun n => n < 1000) app ->
  sum_list_with (fun m => length (m_payload m) - 24)
      (List.filter (fun m => bool_decide (m_typ m = ApplicationData)) (map (enc_rec ApplicationData) app ++ [enc_rec Alert 2])) <= length data ->
  can_be_split (ex_stream ms app) (Some data).
Proof.
  intros Happ Hd.
  exists (cut 100 (msgs_wire ms)), ccs_rec, (enc_rec Handshake 16), (map (enc_rec ApplicationData) app ++ [enc_rec Alert 2]).
  split_and!; try done.
  - eapply Forall_impl; [apply cut_ok|]. intros m [_ H] Hc. congruence.
  - constructor; [vm_compute; lia|]. apply Forall_app. split; [|repeat constructor; vm_compute; lia].
    apply Forall_forall. intros m (n & -> & _)%elem_of_list_fmap. cbn [enc_rec m_payload].
    rewrite !app_length, !replicate_length. lia.
Qed.
Lemma ex_builder_input h d : dir_input_ok (ex_builder h) d.
Proof.
  destruct d.
  - exists (ex_sent h), (ex_stream (client_messages h) [3;4]). split_and!; [done|done|apply ex_stream_ok; repeat constructor; lia|].
    apply ex_stream_split; [repeat constructor; lia|vm_compute; lia].
  - exists (ex_recv h), (ex_stream (server_messages h) [2]). split_and!; [done|done|apply ex_stream_ok; repeat constructor; lia|].
    apply ex_stream_split; [repeat constructor; lia|vm_compute; lia].
Qed.
