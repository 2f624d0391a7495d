(** Theorems C65 to C67 about the leader. The vocabulary is in LeaderSpec.v (and in FollowerSpec.v, RecordSpec.v, PartsSpec.v, PrfSpec.v and
    SigAlgSpec.v), the models are LeaderModel.v and FollowerModel.v. The calls [xs], each with the time and with whether the follower is reached
    during it, are any list, in any order. SHA-256's compression function, AES, GHASH, the key exchange, the parsers of keys, of certificates
    and of handshake messages, and the random numbers are any functions. *)
From Verif.Lib Require Import Base.
From Verif Require Import TranscriptModel CodecModel CodecSpec AttestModel TlsModel AuthModel AuthSpec TagModel RecordModel RecordSpec PartsModel PartsSpec
  PrfModel PrfSpec Sha256 HandshakeModel SigAlgModel SigAlgSpec FollowerModel FollowerSpec LeaderModel LeaderSpec LeaderRun LeaderBlind LeaderOrder LeaderLog
  TlsSpec TlsExamples FollowerProps SigAlgProps.

(** ** C65 *)
(** If every call to the leader succeeds and the leader hands out a transcript, then the follower, once it has got the leader's messages in
    order and the hello in time, completes too, and the two transcripts agree in everything but the contents of application data and the tags of
    outgoing records, which the follower does not know. The parties may differ in their random numbers; the final check of the key exchange
    succeeds for both or fails for the leader, and the machine they share has the leader's data as its input. *)
Theorem C65_follower_completes_with_the_leader : forall iv compress aes ghash_fn checked blind_l blind_f pad_l pad_f
  sha256 parse_body ec_curve parse_key exchange fin_l fin_f rounds cert_key sig_valid client_key c,
  (forall k, fin_l k = true -> fin_f k = true) -> forall xs defer l' ms os fms t,
  ld_run iv compress aes ghash_fn checked blind_l pad_l sha256 parse_body ec_curve parse_key exchange fin_l rounds cert_key sig_valid
    client_key c xs (ld_new defer) = (l', ms, os) ->
  all_succeed os -> Ok (LDone (Some t)) ∈ os -> received ms fms -> shared_input blind_f (pushed xs) ->
  exists t', fo_run iv compress aes ghash_fn checked blind_f pad_f sha256 parse_body ec_curve parse_key exchange fin_f rounds c fms = Ok t' /\
    agree t t'.
Proof. exact C65_lemma. Qed.
Print Assumptions C65_follower_completes_with_the_leader.

(** ** C66 *)
(** What the leader tells the follower does not depend on the contents of application data: two runs whose calls differ only there send the
    same messages, also if calls fail. *)
Theorem C66_leader_does_not_tell_application_data : forall iv compress aes ghash_fn checked blind pad_rng
  sha256 parse_body ec_curve parse_key exchange fin rounds cert_key sig_valid client_key c xs ys defer a ms os a' ms' os',
  differ_in_contents xs ys ->
  ld_run iv compress aes ghash_fn checked blind pad_rng sha256 parse_body ec_curve parse_key exchange fin rounds cert_key sig_valid
    client_key c xs (ld_new defer) = (a, ms, os) ->
  ld_run iv compress aes ghash_fn checked blind pad_rng sha256 parse_body ec_curve parse_key exchange fin rounds cert_key sig_valid
    client_key c ys (ld_new defer) = (a', ms', os') ->
  ms' = ms.
Proof. exact C66_blind_lemma. Qed.
Print Assumptions C66_leader_does_not_tell_application_data.

(** Whatever calls are made, and whether they fail or not, the messages come in the order that the follower expects: the client's random, the
    server's key, then what happens on the connection, then its end, each at most once but for the third; and application data comes without
    its contents. *)
Theorem C66_leader_follows_the_protocol : forall iv compress aes ghash_fn checked blind pad_rng
  sha256 parse_body ec_curve parse_key exchange fin rounds cert_key sig_valid client_key c xs defer l' ms os,
  ld_run iv compress aes ghash_fn checked blind pad_rng sha256 parse_body ec_curve parse_key exchange fin rounds cert_key sig_valid
    client_key c xs (ld_new defer) = (l', ms, os) ->
  in_protocol ms /\ Forall discreet ms.
Proof. exact C66_order_lemma. Qed.
Print Assumptions C66_leader_follows_the_protocol.

(** ** C67 *)
(** The transcript that the leader hands out after calls that succeeded. Exactly one random number [r] was drawn, the server's parameters [hs]
    were given once, at the time [now], and one hash for each Finished message. The transcript carries these values, the server's certificates
    and its signature of the parameters, which verifies with the key of the first certificate; for keys that are not on the curve P-384 (see
    C61) it also carries the algorithm that verified it. The Finished messages have the verify data of the keys that RFC 5246 derives. The
    records are, one to one and in order, those that were to be sent, encrypted under the client's key, and those that came in, decrypted under
    the server's. *)
Theorem C67_transcript_is_of_what_was_asked : forall iv compress aes ghash_fn checked blind pad_rng
  sha256 parse_body ec_curve parse_key exchange fin rounds cert_key sig_valid client_key c,
  (forall s b, length (compress s b) = 8) -> aes_ok aes -> (forall k x, exchange k = Some x -> length x = 32) -> config_ok c ->
  forall xs defer l' ms os t, sizes_ok xs -> (N.of_nat (length xs) < 2 ^ 62)%N ->
  ld_run iv compress aes ghash_fn checked blind pad_rng sha256 parse_body ec_curve parse_key exchange fin rounds cert_key sig_valid
    client_key c xs (ld_new defer) = (l', ms, os) ->
  all_succeed os -> Ok (LDone (Some t)) ∈ os ->
  exists r now hs hc hsf pms d leaf rest kind a alg,
    allocated xs = [r] /\ prepared xs = [(now, hs)] /\ cf_asked xs = [hc] /\ sf_asked xs = [hsf] /\
    hs_group hs = secp256r1 /\ exchange (hs_key hs) = Some pms /\
    is_derived iv compress MsStandard (TlsValues pms r (hs_random hs) [] hc hsf) d /\
    tt_time t = now /\ tt_version t = V1_2 /\ tt_binding t = CertBinding r (hs_random hs) (EphemKey (hs_key hs)) /\
    tt_certs t = Some (hs_certs hs) /\ tt_signature t = Some (ServerSignature alg (ds_sig (hs_dss hs))) /\
    hs_certs hs = leaf :: rest /\ cert_key leaf = Some kind /\ scheme_means (ds_scheme (hs_dss hs)) kind a /\
    sig_valid leaf a (r ++ hs_random hs ++ hs_params hs) (ds_sig (hs_dss hs)) = true /\ (kind <> KeyP384 -> webpki_of_core alg = Some a) /\
    finished_with (tt_sent t) (d_cf d) /\ finished_with (tt_recv t) (d_sf d) /\ ends_acceptably (tt_sent t) /\ ends_acceptably (tt_recv t) /\
    one_to_one (sent_as aes (d_client_key d) (d_client_iv d)) (pushed xs) (tt_sent t) /\
    one_to_one (received_as aes (d_server_key d) (d_server_iv d)) (arrived xs) (tt_recv t).
Proof. exact C67_lemma. Qed.
Print Assumptions C67_transcript_is_of_what_was_asked.

(** ** Examples *)
Definition ex_hs : hs_data :=
  HsData (replicate 32 2%N) secp256r1 [4; 5; 6]%N [[0]; [9]]%N [3; 0; 23]%N
    (Signed 0x0403 (replicate 32 1%N ++ replicate 32 2%N ++ [3; 0; 23]%N)).
Definition ex_wire (x : fmsg) : message :=
  match x with MDecrypt t v nonce ct tag => Message t v (nonce ++ ct ++ tag) | _ => Message Alert TLSv1_2 [] end.
Definition ex_calls (app : list N) : list (N * bool * lcall) :=
  map (fun x => (fst x, true, snd x))
  [(990, LAlloc (replicate 32 1)); (991, LPreprocess); (992, LGetRandom); (992, LGetKeyShare); (1000, LPrepare ex_hs);
   (1000, LClientVd (replicate 32 8)); (1001, LPushOut (Message Handshake TLSv1_2 (hs_wire 20 ex_cf))); (1001, LFlush); (1001, LNextOut);
   (1002, LServerVd (replicate 32 9)); (1002, LPushIn (ex_wire (ex_from_server 0 Handshake (hs_wire 20 ex_sf)))); (1002, LFlush); (1002, LNextIn);
   (1003, LStart); (1003, LPushOut (Message ApplicationData TLSv1_2 app)); (1003, LFlush); (1003, LNextOut);
   (1004, LPushIn (ex_wire (ex_from_server 1 ApplicationData [7; 7]))); (1004, LFlush); (1004, LNextIn); (1004, LIsEmpty);
   (1005, LPushOut (Message Alert TLSv1_2 [1; 0])); (1005, LFlush); (1005, LNextOut); (1006, LCloseConn); (1006, LFinish)]%N.
Definition ex_ld_run (net : net_mode) (xs : list (N * bool * lcall)) : ld * list fmsg * list (outcome ld_error lres) :=
  ld_run sha_iv toy_compress toy_aes toy_ghash false (fun i j => 77%N) (fun i => N.of_nat (i mod 7)) ex_sha ex_parse_body ex_curve
    (fun _ => true) toy_exchange (fun _ => true) 11 ex_kind ex_valid (Some [1; 2]%N) (ex_config net) xs (ld_new false).
(** What was sent and returned in the run with [app] as application data, in the network mode [net]. *)
Definition ex_seen (net : net_mode) (app : list N) : list fmsg * list (outcome ld_error lres) := let '(_, ms, os) := ex_ld_run net (ex_calls app) in (ms, os).
Definition ex_ran : list fmsg * list (outcome ld_error lres) := Eval vm_compute in ex_seen NetNormal [0; 1; 2]%N.
Lemma ex_ran_eq : ex_seen NetNormal [0; 1; 2]%N = ex_ran.
Proof. vm_cast_no_check (eq_refl ex_ran). Qed.
Lemma ex_ran_run : exists l, ex_ld_run NetNormal (ex_calls [0; 1; 2]%N) = (l, fst ex_ran, snd ex_ran).
Proof. rewrite <- ex_ran_eq. unfold ex_seen. destruct (ex_ld_run _ _) as [[l ms] os]. by exists l. Qed.
Definition ex_ok {E A} (o : outcome E A) : bool := match o with Ok _ => true | _ => false end.
Definition ex_transcript (os : list (outcome ld_error lres)) : option tls_transcript :=
  match last os with Some (Ok (LDone t)) => t | _ => None end.
Definition ex_view (t : tls_transcript) :=
  (tt_time t, tt_binding t, tt_certs t, tt_signature t, map (fun r => (r_typ r, r_plain r)) (tt_sent t), map (fun r => (r_typ r, r_plain r)) (tt_recv t)).
(** The leader completes. *)
Example C67_completes_ex :
  option_map ex_view (ex_transcript (snd ex_ran)) =
    Some (1000%N, CertBinding (replicate 32 1%N) (replicate 32 2%N) (EphemKey [4; 5; 6]%N), Some [[0]; [9]]%N,
      Some (ServerSignature 0%N (replicate 32 1%N ++ replicate 32 2%N ++ [3; 0; 23]%N)),
      [(Handshake, Some (hs_wire 20 ex_cf)); (ApplicationData, Some [0; 1; 2]%N); (Alert, Some [1; 0]%N)],
      [(Handshake, Some (hs_wire 20 ex_sf)); (ApplicationData, Some [7; 7]%N)]).
Proof. vm_compute. reflexivity. Qed.
(** Its hypotheses hold, and those of C65. *)
Definition sizes_b (xs : list (N * bool * lcall)) : bool := forallb (fun m => N.of_nat (length (m_payload m)) <? 2 ^ 63)%N (pushed xs ++ arrived xs).
Lemma sizes_spec xs : sizes_b xs = true -> sizes_ok xs.
Proof.
  unfold sizes_b, sizes_ok. intros H. rewrite forallb_forall in H. apply Forall_forall. intros x Hx%elem_of_list_In. apply H in Hx. by apply N.ltb_lt in Hx.
Qed.
Lemma succeed_spec {E A} (os : list (outcome E A)) : forallb ex_ok os = true -> all_succeed os.
Proof.
  intros H. rewrite forallb_forall in H. apply Forall_forall. intros x Hx%elem_of_list_In. apply H in Hx. destruct x as [a|e|]; try done. by exists a.
Qed.
Example C65_C67_sizes_ex : sizes_ok (ex_calls [0; 1; 2]%N) /\ (N.of_nat (length (ex_calls [0; 1; 2]%N)) < 2 ^ 62)%N.
Proof. split; [apply sizes_spec; vm_compute; reflexivity|vm_compute; reflexivity]. Qed.
Example C65_C67_succeed_ex : all_succeed (snd ex_ran) /\ length (fst ex_ran) = 16 /\ exists t, Ok (LDone (Some t)) ∈ snd ex_ran.
Proof.
  split; [apply succeed_spec; vm_compute; reflexivity|]. split; [reflexivity|]. destruct (ex_transcript (snd ex_ran)) as [t|] eqn:E; [|discriminate E].
  exists t. unfold ex_transcript in E. destruct (last (snd ex_ran)) as [[[]| |]|] eqn:El; try discriminate E. subst. by apply last_Some_elem_of in El.
Qed.
Example C65_shared_ex : shared_input (fun i j => N.of_nat j) (pushed (ex_calls [0; 1; 2]%N)).
Proof.
  intros i m Hm Ha. destruct i as [|[|[|i]]]; [injection Hm as <-; discriminate Ha|injection Hm as <-; reflexivity|injection Hm as <-; discriminate Ha|discriminate Hm].
Qed.
(** The follower that gets the messages two seconds later. *)
Definition ex_received : list (N * fmsg) := map (fun x => (1002%N, x)) (fst ex_ran).
Example C65_follower_ex :
  match ex_fo_run 11 (ex_config NetNormal) ex_received with
  | Ok t => Some (tt_time t, tt_binding t, map (fun r => (r_typ r, r_plain r)) (tt_sent t), map (fun r => (r_typ r, r_plain r)) (tt_recv t))
  | _ => None
  end =
    Some (1000%N, CertBinding (replicate 32 1%N) (replicate 32 2%N) (EphemKey [4; 5; 6]%N),
      [(Handshake, Some (hs_wire 20 ex_cf)); (ApplicationData, None); (Alert, Some [1; 0]%N)],
      [(Handshake, Some (hs_wire 20 ex_sf)); (ApplicationData, None)]).
Proof. vm_compute. reflexivity. Qed.
Example C65_received_ex : received (fst ex_ran) ex_received.
Proof.
  unfold ex_received. split; [rewrite map_map; apply map_id|]. intros now h Hin. apply elem_of_list_In, in_map_iff in Hin as (x & [= <- ->] & Hx).
  assert (forallb (fun m => match m with MServerHello h => (sp_time h =? 1000)%N | _ => true end) (fst ex_ran) = true) as Hb by (vm_compute; reflexivity).
  rewrite forallb_forall in Hb. apply Hb, N.eqb_eq in Hx. unfold within. lia.
Qed.
(** Other application data, the same messages; but the transcripts differ. *)
Example C66_differ_ex : differ_in_contents (ex_calls [0; 1; 2]%N) (ex_calls [9; 8; 7]%N).
Proof.
  unfold differ_in_contents, ex_calls. cbn [map fst snd].
  repeat (apply Forall2_cons; split; [split; [reflexivity|]; cbn [hides snd m_typ m_version m_payload];
    first [reflexivity|split_and!; try reflexivity; intros Hn; first [reflexivity|by destruct Hn]]|]). constructor.
Qed.
Definition ex_ran2 : list fmsg * list (outcome ld_error lres) := Eval vm_compute in ex_seen NetNormal [9; 8; 7]%N.
Example C66_same_messages_ex : fst ex_ran2 = fst ex_ran /\ ex_transcript (snd ex_ran2) <> ex_transcript (snd ex_ran).
Proof. split; [vm_compute; reflexivity|]. vm_compute. discriminate. Qed.
