(** Theorems C52 and C58 about the follower. The vocabulary is in FollowerSpec.v (and in RecordSpec.v, PartsSpec.v and PrfSpec.v), the
    model is FollowerModel.v. The messages [ms], each with the time when it is handled, are any list: the leader may send whatever it
    wants. SHA-256's compression function, AES, GHASH, the key exchange, the parsers of keys and of handshake messages, and the random
    numbers are any functions. *)
From Verif.Lib Require Import Base.
From Verif Require Import TranscriptModel CodecModel CodecSpec AttestModel TlsModel AuthModel AuthSpec TagModel RecordModel RecordSpec PartsModel PartsSpec
  PrfModel PrfSpec Sha256 FollowerModel FollowerSpec FollowerRunLemmas FollowerRobustLemmas TlsSpec TlsExamples.

(** ** C52 *)
(** The follower completes only if exactly one client random [r], one hello [h] and one hash for each Finished message were handled, the
    hello at a time that is no more than 5 seconds off. The transcript carries these values. Its Finished messages have the verify data
    of the keys that RFC 5246 derives from them, and its records are, one to one and in order, those that were encrypted and decrypted
    under these keys. *)
Theorem C52_follower_completes_only_with_a_consistent_connection : forall iv compress aes ghash_fn checked blind pad_rng
  sha256 parse_body ec_curve parse_key exchange finalize rounds,
  (forall s b, length (compress s b) = 8) -> forall c ms t,
  aes_ok aes -> (forall k x, exchange k = Some x -> length x = 32) -> config_ok c ->
  Forall (fun x => msg_ok (snd x)) ms -> (N.of_nat (length ms) < 2 ^ 62)%N ->
  fo_run iv compress aes ghash_fn checked blind pad_rng sha256 parse_body ec_curve parse_key exchange finalize rounds c ms = Ok t ->
  exists pre r now h hc hs pms d,
    handled ms pre /\ client_randoms pre = [r] /\ hellos pre = [(now, h)] /\ cf_hashes pre = [hc] /\ sf_hashes pre = [hs] /\
    within 5 (sp_time h) now /\ sp_group h = secp256r1 /\ exchange (sp_key h) = Some pms /\
    tt_time t = sp_time h /\ tt_version t = V1_2 /\ tt_binding t = CertBinding r (sp_random h) (EphemKey (sp_key h)) /\
    tt_signature t = None /\ tt_certs t = None /\
    is_derived iv compress MsStandard (connection_values pms r h hc hs) d /\
    finished_with (tt_sent t) (d_cf d) /\ finished_with (tt_recv t) (d_sf d) /\ ends_acceptably (tt_sent t) /\ ends_acceptably (tt_recv t) /\
    one_to_one (logged_sent aes (d_client_key d) (d_client_iv d) blind) (encrypts pre) (tt_sent t) /\
    one_to_one (logged_recv aes (d_server_key d) (d_server_iv d) Follower) (decrypts pre) (tt_recv t).
Proof. exact C52_lemma. Qed.
Print Assumptions C52_follower_completes_only_with_a_consistent_connection.

(** ** C58 *)
(** The full statement would be that the follower ends with a result or an error, neither panicking nor looping forever, whatever the
    leader sends. It does so if a hello comes only after a client random, hashes only after a hello, and records of both
    directions before the connection is closed; with arithmetic that wraps around, as in release builds. *)
Theorem C58_follower_ends_with_a_result_or_an_error_partial : forall iv compress aes ghash_fn blind pad_rng
  sha256 parse_body ec_curve parse_key exchange finalize rounds,
  (forall s b, length (compress s b) = 8) -> forall c ms,
  (forall k x, exchange k = Some x -> length x = 32) -> aes_ok aes -> config_ok c ->
  Forall (fun x => msg_ok (snd x)) ms -> (N.of_nat (length ms) < 2 ^ 62)%N -> 11 <= rounds -> in_order_of_handshake ms ->
  fo_run iv compress aes ghash_fn false blind pad_rng sha256 parse_body ec_curve parse_key exchange finalize rounds c ms <> Err FHang /\
  (fo_run iv compress aes ghash_fn false blind pad_rng sha256 parse_body ec_curve parse_key exchange finalize rounds c ms = Panic ->
   exists pre, handled ms pre /\ (encrypts pre = [] \/ decrypts pre = [])).
Proof. exact C58_lemma. Qed.
Print Assumptions C58_follower_ends_with_a_result_or_an_error_partial.

(** What a leader can do otherwise. In the reduced network mode two messages keep the follower busy forever: however many rounds are
    followed, the loop has not ended. *)
Theorem C58_two_messages_keep_the_follower_busy_refuted : forall iv compress aes ghash_fn blind pad_rng
  sha256 parse_body ec_curve parse_key exchange finalize rounds,
  (forall s b, length (compress s b) = 8) -> forall checked c t1 t2 r h post out s,
  fc_net c = NetReduced -> fo_alloc iv compress aes ghash_fn checked blind pad_rng c = Ok (out, s) ->
  fo_run iv compress aes ghash_fn checked blind pad_rng sha256 parse_body ec_curve parse_key exchange finalize rounds c
    ((t1, MClientRandom r) :: (t2, MCfVd h) :: post) = Err FHang.
Proof. exact C58_hang_lemma. Qed.
Print Assumptions C58_two_messages_keep_the_follower_busy_refuted.

(** A hello as the first message is a panic. *)
Theorem C58_first_message_panics_refuted : forall iv compress aes ghash_fn blind pad_rng
  sha256 parse_body ec_curve parse_key exchange finalize rounds checked c now h post out s,
  fo_alloc iv compress aes ghash_fn checked blind pad_rng c = Ok (out, s) -> within 5 (sp_time h) now ->
  fo_run iv compress aes ghash_fn checked blind pad_rng sha256 parse_body ec_curve parse_key exchange finalize rounds c
    ((now, MServerHello h) :: post) = Panic.
Proof. exact C58_hello_lemma. Qed.
Print Assumptions C58_first_message_panics_refuted.

(** ** Examples *)
Definition toy_compress (s b : list N) : list N :=
  map (fun i => ((nth i s 7 * 31 + foldr (fun x y => x + 5 * y) (N.of_nat i) b) mod 2 ^ 32)%N) (seq 0 8).
Definition toy_aes (k b : list N) : list N := take 16 (rev b ++ k ++ replicate 16 1%N).
Definition toy_ghash (k d : list N) : list N := replicate 16 (foldr N.add 0%N (k ++ d) mod 256)%N.
Definition toy_exchange (k : list N) : option (list N) := if bool_decide (k = []) then None else Some (replicate 32 (foldr N.add 0%N k)).
Definition ex_config (net : net_mode) : fo_config := FoConfig 8 8 256 128 256 net.
Definition ex_fo_run (rounds : nat) (c : fo_config) (ms : list (N * fmsg)) : outcome fo_error tls_transcript :=
  fo_run sha_iv toy_compress toy_aes toy_ghash false (fun i j => N.of_nat j) (fun i => N.of_nat (i mod 7)) ex_sha ex_parse_body ex_curve
    (fun _ => true) toy_exchange (fun _ => true) rounds c ms.

Definition ex_hello : server_params := ServerParams 1000 (replicate 32 2%N) secp256r1 [4; 5; 6]%N.
Definition ex_conn : tls_values := connection_values (replicate 32 15%N) (replicate 32 1%N) ex_hello (replicate 32 8%N) (replicate 32 9%N).
Definition ex_ms : list N := rfc_master sha_iv toy_compress MsStandard ex_conn.
Definition ex_kb : list N := rfc_key_block sha_iv toy_compress ex_ms (replicate 32 1%N) (replicate 32 2%N).
Definition ex_cf : list N := rfc_vd sha_iv toy_compress ex_ms rfc_client_finished (replicate 32 8%N).
Definition ex_sf : list N := rfc_vd sha_iv toy_compress ex_ms rfc_server_finished (replicate 32 9%N).
(** A record of the server. *)
Definition ex_from_server (seq : N) (t : content_type) (text : list N) : fmsg :=
  let key := take 16 (drop 16 ex_kb) in let iv := drop 36 ex_kb in let nonce := be 8 (seq + 100)%N in
  let ct := xor_bytes text (ctr_stream toy_aes key iv (length text) nonce 2) in
  MDecrypt t TLSv1_2 nonce ct (gcm_tag toy_aes toy_ghash key iv nonce (make_aad seq t TLSv1_2 (length ct)) ct).
Definition ex_to_server (t : content_type) (text : list N) : fmsg := MEncrypt t TLSv1_2 (N.of_nat (length text)) (Some text).
Definition ex_messages : list (N * fmsg) :=
  [(998, MClientRandom (replicate 32 1)); (1003, MServerHello ex_hello); (1003, MCfVd (replicate 32 8));
   (1003, ex_to_server Handshake (hs_wire 20 ex_cf)); (1003, MFlush false); (1004, MSfVd (replicate 32 9));
   (1004, ex_from_server 0 Handshake (hs_wire 20 ex_sf)); (1004, MFlush true); (1004, MStart);
   (1005, MEncrypt ApplicationData TLSv1_2 3 None); (1005, MFlush false);
   (1006, ex_from_server 1 ApplicationData [7; 7]); (1006, MFlush true);
   (1007, ex_to_server Alert [1; 0]); (1007, MFlush false); (1007, MClose)]%N.
Definition ex_result (rounds : nat) (net : net_mode) : option (N * cert_binding * list (content_type * option (list N)) * list (content_type * option (list N))) :=
  match ex_fo_run rounds (ex_config net) ex_messages with
  | Ok t => Some (tt_time t, tt_binding t, map (fun r => (r_typ r, r_plain r)) (tt_sent t), map (fun r => (r_typ r, r_plain r)) (tt_recv t))
  | _ => None
  end.
Example C52_completes_ex :
  ex_result 11 NetReduced =
    Some (1000%N, CertBinding (replicate 32 1%N) (replicate 32 2%N) (EphemKey [4; 5; 6]%N),
      [(Handshake, Some (hs_wire 20 ex_cf)); (ApplicationData, None); (Alert, Some [1; 0]%N)],
      [(Handshake, Some (hs_wire 20 ex_sf)); (ApplicationData, None)]).
Proof. vm_compute. reflexivity. Qed.
(** Its hypotheses, and those of C58, hold. *)
Lemma toy_aes_ok : aes_ok toy_aes.
Proof. intros k b. unfold toy_aes. rewrite take_length, !app_length, replicate_length. lia. Qed.
Lemma toy_exchange_ok k x : toy_exchange k = Some x -> length x = 32.
Proof. unfold toy_exchange. destruct (bool_decide _); [discriminate|]. intros [= <-]. reflexivity. Qed.
Definition messages_ok (ms : list (N * fmsg)) : bool :=
  forallb (fun x => match snd x with MEncrypt _ _ n _ => n <? 2 ^ 64 | MDecrypt _ _ _ ct _ => N.of_nat (length ct) <? 2 ^ 63 | _ => true end)%N ms.
Lemma messages_ok_spec ms : messages_ok ms = true -> Forall (fun x => msg_ok (snd x)) ms.
Proof.
  unfold messages_ok. intros H. rewrite forallb_forall in H. apply Forall_forall. intros x Hx%elem_of_list_In. apply H in Hx.
  destruct x as [t x]. cbn [snd] in *. destruct x; cbn [msg_ok]; try exact I; by apply N.ltb_lt in Hx.
Qed.
Example C52_C58_hypotheses_ex :
  (forall s b, length (toy_compress s b) = 8) /\ aes_ok toy_aes /\ (forall k x, toy_exchange k = Some x -> length x = 32) /\
  config_ok (ex_config NetReduced) /\ Forall (fun x => msg_ok (snd x)) ex_messages /\ (N.of_nat (length ex_messages) < 2 ^ 62)%N.
Proof.
  split; [intros s b; unfold toy_compress; by rewrite map_length, seq_length|]. split; [exact toy_aes_ok|]. split; [exact toy_exchange_ok|].
  split; [unfold config_ok; repeat constructor|]. split; [apply messages_ok_spec; vm_compute; reflexivity|].
  vm_compute. reflexivity.
Qed.
(** [in_order_of_handshake], checked from the left. *)
Fixpoint ordered (random hello : bool) (ms : list (N * fmsg)) : bool :=
  match ms with
  | [] => true
  | (_, x) :: ms' =>
      match x with
      | MClientRandom _ => ordered true hello ms'
      | MServerHello _ => random && ordered random true ms'
      | MCfVd _ | MSfVd _ => hello && ordered random hello ms'
      | _ => ordered random hello ms'
      end
  end.
Lemma ordered_spec ms pre : ordered (negb (bool_decide (client_randoms pre = []))) (negb (bool_decide (hellos pre = []))) ms = true ->
  in_order_of_handshake pre -> in_order_of_handshake (pre ++ ms).
Proof.
  revert pre. induction ms as [|[now x] ms IH]; intros pre H Hpre; [by rewrite app_nil_r|].
  assert ((match x with MServerHello _ => client_randoms pre <> [] | MCfVd _ | MSfVd _ => hellos pre <> [] | _ => True end) /\
    ordered (negb (bool_decide (client_randoms (pre ++ [(now, x)]) = []))) (negb (bool_decide (hellos (pre ++ [(now, x)]) = []))) ms = true) as [H1 H2].
  { unfold client_randoms, hellos in *. rewrite !omap_app.
    destruct x; cbn [ordered] in H; csimpl; rewrite ?app_nil_r; try done;
      try (apply andb_true_iff in H as [Hb H]; apply negb_true_iff, bool_decide_eq_false in Hb); try done.
    - rewrite bool_decide_eq_false_2 by (intros E; by apply app_eq_nil in E as [_ E]). done.
    - split; [done|]. rewrite (bool_decide_eq_false_2 (_ ++ _ = [])) by (intros E; by apply app_eq_nil in E as [_ E]). done. }
  replace (pre ++ (now, x) :: ms) with ((pre ++ [(now, x)]) ++ ms) by (by rewrite <- app_assoc). apply IH; [exact H2|].
  intros a n y b E. destruct b as [|b0 b] using rev_ind.
  - apply app_inj_tail in E as [-> [= -> ->]]. exact H1.
  - rewrite app_comm_cons, app_assoc in E. apply app_inj_tail in E as [-> _]. by eapply Hpre.
Qed.
Example C58_in_order_ex : in_order_of_handshake ex_messages.
Proof.
  apply (ordered_spec ex_messages []); [vm_compute; reflexivity|]. intros a n x b E. by destruct a.
Qed.
(** In the other network mode too; but not if a Finished message has other verify data, nor if the hello comes too late. *)
Example C52_completes_normal_ex : ex_result 11 NetNormal = ex_result 11 NetReduced.
Proof. vm_compute. reflexivity. Qed.
Example C52_wrong_hash_ex :
  ex_fo_run 11 (ex_config NetNormal) (map (fun x => match snd x with MSfVd _ => (fst x, MSfVd (replicate 32 7%N)) | _ => x end) ex_messages)
    = Err (FParts PServerVd).
Proof. vm_compute. reflexivity. Qed.
Example C52_late_ex : ex_fo_run 11 (ex_config NetNormal) [(998%N, MClientRandom (replicate 32 1%N)); (1006%N, MServerHello ex_hello)] = Err FTime.
Proof. vm_compute. reflexivity. Qed.
(** The setup that the theorems about panics and endless loops assume. *)
Example C58_alloc_ex :
  match fo_alloc sha_iv toy_compress toy_aes toy_ghash false (fun i j => N.of_nat j) (fun i => N.of_nat (i mod 7)) (ex_config NetReduced) with
  | Ok _ => true
  | _ => false
  end = true.
Proof. vm_compute. reflexivity. Qed.

(** A third way to panic: closing a connection on which nothing was sent, or nothing received, after the Finished messages'
    hashes were given. *)
Definition closing_early : list (N * fmsg) :=
  [(998, MClientRandom (replicate 32 1)); (1003, MServerHello ex_hello); (1003, MCfVd (replicate 32 8)); (1004, MSfVd (replicate 32 9));
   (1004, MStart); (1007, MClose)]%N.
Theorem C58_closing_early_panics_refuted : in_order_of_handshake closing_early /\ ex_fo_run 11 (ex_config NetNormal) closing_early = Panic.
Proof.
  split; [|vm_compute; reflexivity]. apply (ordered_spec closing_early []); [vm_compute; reflexivity|]. intros a n x b E. by destruct a.
Qed.
Print Assumptions C58_closing_early_panics_refuted.
