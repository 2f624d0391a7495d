(** Theorem C68, and more of C66 and C67, about what the leader hands to the TLS client and tells the follower. The vocabulary is in LeaderOutSpec.v and LeaderSpec.v, the model is
    LeaderModel.v. As in LeaderProps.v, the calls [xs] are any list, in any order, and may fail. *)
From Verif.Lib Require Import Base.
From Verif Require Import TranscriptModel CodecModel CodecSpec AttestModel TlsModel AuthModel AuthSpec TagModel RecordModel RecordSpec PartsModel PartsSpec
  PrfModel PrfSpec Sha256 HandshakeModel SigAlgModel SigAlgSpec FollowerModel FollowerSpec LeaderModel LeaderSpec LeaderOutSpec LeaderOut
  TlsSpec TlsExamples FollowerProps SigAlgProps LeaderProps.

(** ** C68 *)
(** What was handed out to be sent are, in order, the first records of the transcript's sent ones, as they go over the wire; what was handed out
    decrypted has the contents of the first received ones. *)
Theorem C68_handed_out_is_what_the_transcript_has : forall iv compress aes ghash_fn checked blind pad_rng
  sha256 parse_body ec_curve parse_key exchange fin rounds cert_key sig_valid client_key c,
  aes_ok aes -> config_ok c -> forall xs defer l' ms os t, sizes_ok xs ->
  ld_run iv compress aes ghash_fn checked blind pad_rng sha256 parse_body ec_curve parse_key exchange fin rounds cert_key sig_valid
    client_key c xs (ld_new defer) = (l', ms, os) ->
  Ok (LDone (Some t)) ∈ os ->
  first_of on_wire (put_out xs os) (tt_sent t) /\ first_of in_clear (handed_in xs os) (tt_recv t).
Proof. exact C68_logs_lemma. Qed.
Print Assumptions C68_handed_out_is_what_the_transcript_has.

(** If the leader said that nothing is left before it handed out the transcript, then all of its records were handed out. If besides no call
    failed, these are as many as were given to it and of the same types and versions. *)
Theorem C68_all_of_it_is_handed_out : forall iv compress aes ghash_fn checked blind pad_rng
  sha256 parse_body ec_curve parse_key exchange fin rounds cert_key sig_valid client_key c,
  aes_ok aes -> config_ok c -> forall xs now io now' io' defer l' ms os t, sizes_ok xs ->
  ld_run iv compress aes ghash_fn checked blind pad_rng sha256 parse_body ec_curve parse_key exchange fin rounds cert_key sig_valid
    client_key c (xs ++ [(now, io, LIsEmpty); (now', io', LFinish)]) (ld_new defer) = (l', ms, os ++ [Ok (LBool true); Ok (LDone (Some t))]) ->
  Forall2 on_wire (put_out xs os) (tt_sent t) /\ Forall2 in_clear (handed_in xs os) (tt_recv t) /\
  (all_succeed os -> map kind (put_out xs os) = map kind (pushed xs) /\ map kind (handed_in xs os) = map kind (arrived xs)).
Proof. exact C68_all_lemma. Qed.
Print Assumptions C68_all_of_it_is_handed_out.

(** In any run, also one without a transcript, what is handed out is in the order of what was given, none of it twice, with the same types and
    versions; records are left out only if a call failed. *)
Theorem C68_handed_out_in_order : forall iv compress aes ghash_fn checked blind pad_rng
  sha256 parse_body ec_curve parse_key exchange fin rounds cert_key sig_valid client_key c,
  aes_ok aes -> config_ok c -> forall xs defer l' ms os, sizes_ok xs ->
  ld_run iv compress aes ghash_fn checked blind pad_rng sha256 parse_body ec_curve parse_key exchange fin rounds cert_key sig_valid
    client_key c xs (ld_new defer) = (l', ms, os) ->
  map kind (put_out xs os) `sublist_of` map kind (pushed xs) /\ map kind (handed_in xs os) `sublist_of` map kind (arrived xs) /\
  (all_succeed os -> map kind (put_out xs os) `prefix_of` map kind (pushed xs) /\ map kind (handed_in xs os) `prefix_of` map kind (arrived xs)).
Proof. exact C68_order_lemma. Qed.
Print Assumptions C68_handed_out_in_order.

(** Fetching a record does not panic. *)
Theorem C68_fetching_does_not_panic : forall iv compress aes ghash_fn checked blind pad_rng
  sha256 parse_body ec_curve parse_key exchange fin rounds cert_key sig_valid client_key c,
  aes_ok aes -> config_ok c -> forall xs defer l' ms os i now io x, sizes_ok xs ->
  ld_run iv compress aes ghash_fn checked blind pad_rng sha256 parse_body ec_curve parse_key exchange fin rounds cert_key sig_valid
    client_key c xs (ld_new defer) = (l', ms, os) ->
  xs !! i = Some (now, io, x) -> os !! i = Some Panic -> x <> LNextIn /\ x <> LNextOut.
Proof. exact C68_panic_lemma. Qed.
Print Assumptions C68_fetching_does_not_panic.

(** ** C66 and C67, further *)
(** The follower is told of exactly the records that the leader took, in order: of those to be sent type, version and length, of those that came
    in everything. *)
Theorem C66_told_of_the_records_taken : forall iv compress aes ghash_fn checked blind pad_rng
  sha256 parse_body ec_curve parse_key exchange fin rounds cert_key sig_valid client_key c xs l l' ms os,
  ld_run iv compress aes ghash_fn checked blind pad_rng sha256 parse_body ec_curve parse_key exchange fin rounds cert_key sig_valid
    client_key c xs l = (l', ms, os) ->
  told_out ms = map (fun m => (m_typ m, m_version m, N.of_nat (length (m_payload m)))) (taken_out xs os) /\ told_in ms = taken_in xs os.
Proof. exact C66_told_lemma. Qed.
Print Assumptions C66_told_of_the_records_taken.

(** A transcript is handed out at most once. *)
Theorem C67_transcript_is_handed_out_once : forall iv compress aes ghash_fn checked blind pad_rng
  sha256 parse_body ec_curve parse_key exchange fin rounds cert_key sig_valid client_key c xs l l' ms os i j t t',
  ld_run iv compress aes ghash_fn checked blind pad_rng sha256 parse_body ec_curve parse_key exchange fin rounds cert_key sig_valid
    client_key c xs l = (l', ms, os) ->
  os !! i = Some (Ok (LDone (Some t))) -> os !! j = Some (Ok (LDone (Some t'))) -> i = j.
Proof. exact C67_once_lemma. Qed.
Print Assumptions C67_transcript_is_handed_out_once.

(** ** Examples *)
(** A run in which every record is fetched, one in which a call fails and two records are left, and one in which a record that was changed on
    the way is refused, and with it what was to be sent. *)
Definition ex_fetch : list (N * bool * lcall) := removelast (ex_calls [0; 1; 2]%N) ++ [(1007, true, LIsEmpty); (1007, true, LFinish)]%N.
Definition ex_fetched : list fmsg * list (outcome ld_error lres) :=
  Eval vm_compute in let '(_, ms, os) := ex_ld_run NetNormal ex_fetch in (ms, os).
Lemma ex_fetched_run : exists l, ex_ld_run NetNormal ex_fetch = (l, fst ex_fetched, snd ex_fetched).
Proof.
  assert ((let '(_, ms, os) := ex_ld_run NetNormal ex_fetch in (ms, os)) = ex_fetched) as <- by vm_cast_no_check (eq_refl ex_fetched).
  destruct (ex_ld_run _ _) as [[l ms] os]. by exists l.
Qed.
Example C68_all_ex : sizes_ok ex_fetch /\ all_succeed (snd ex_fetched) /\
  exists os t, snd ex_fetched = os ++ [Ok (LBool true); Ok (LDone (Some t))] /\ length (tt_sent t) = 3 /\ length (tt_recv t) = 2.
Proof.
  split; [apply sizes_spec; vm_compute; reflexivity|]. split; [apply succeed_spec; vm_compute; reflexivity|].
  destruct (ex_transcript (snd ex_fetched)) as [t|] eqn:E; [|discriminate E]. exists (take 25 (snd ex_fetched)), t.
  vm_compute in E. injection E as <-. split; [reflexivity|]. split; reflexivity.
Qed.
Example C68_all_view_ex :
  (map kind (put_out ex_fetch (snd ex_fetched)), map (fun m => (m_typ m, m_payload m)) (handed_in ex_fetch (snd ex_fetched))) =
  ([(Handshake, TLSv1_2); (ApplicationData, TLSv1_2); (Alert, TLSv1_2)], [(Handshake, hs_wire 20 ex_sf); (ApplicationData, [7; 7]%N)]).
Proof. vm_compute. reflexivity. Qed.
Definition ex_kept : list (N * bool * lcall) :=
  map (fun x => (1000%N, true, x))
  [LAlloc (replicate 32 1); LPreprocess; LPrepare ex_hs; LNextOut; LClientVd []; LClientVd (replicate 32 8); LServerVd (replicate 32 9);
   LPushOut (Message Handshake TLSv1_2 (hs_wire 20 ex_cf)); LPushIn (ex_wire (ex_from_server 0 Handshake (hs_wire 20 ex_sf))); LFlush; LStart;
   LPushOut (Message ApplicationData TLSv1_2 [5; 6]); LFlush; LNextOut; LPushIn (ex_wire (ex_from_server 1 ApplicationData [7; 7]));
   LPushOut (Message Alert TLSv1_2 [1; 0]); LFlush; LNextIn; LNextOut; LCloseConn; LFinish]%N.
Definition ex_kept_seen : list (outcome ld_error lres) := Eval vm_compute in snd (ex_ld_run NetNormal ex_kept).
Lemma ex_kept_run : exists l ms, ex_ld_run NetNormal ex_kept = (l, ms, ex_kept_seen).
Proof.
  assert (snd (ex_ld_run NetNormal ex_kept) = ex_kept_seen) as <- by vm_cast_no_check (eq_refl ex_kept_seen).
  destruct (ex_ld_run _ _) as [[l ms] os]. by exists l, ms.
Qed.
Example C68_kept_ex : sizes_ok ex_kept /\
  (option_map (fun t => (map r_typ (tt_sent t), map r_typ (tt_recv t))) (ex_transcript ex_kept_seen), map m_typ (put_out ex_kept ex_kept_seen), map m_typ (handed_in ex_kept ex_kept_seen)) =
  (Some ([Handshake; ApplicationData; Alert], [Handshake; ApplicationData]), [Handshake; ApplicationData], [Handshake]) /\
  map ex_ok ex_kept_seen = repeat true 4 ++ [false] ++ repeat true 16.
Proof. split; [apply sizes_spec; vm_compute; reflexivity|]. split; vm_compute; reflexivity. Qed.
Definition ex_changed (m : message) : message := Message (m_typ m) (m_version m) (map (fun b => (b + 1) mod 256)%N (m_payload m)).
Definition ex_left : list (N * bool * lcall) :=
  map (fun x => (1000%N, true, x))
  [LAlloc (replicate 32 1); LPreprocess; LPrepare ex_hs; LNextOut; LClientVd (replicate 32 8); LServerVd (replicate 32 9);
   LPushOut (Message Handshake TLSv1_2 (hs_wire 20 ex_cf)); LPushIn (ex_wire (ex_from_server 0 Handshake (hs_wire 20 ex_sf))); LFlush; LStart;
   LPushOut (Message ApplicationData TLSv1_2 [5; 6]); LFlush; LNextOut;
   LPushOut (Message Alert TLSv1_2 [1; 0]); LPushIn (ex_changed (ex_wire (ex_from_server 1 ApplicationData [7; 7]))); LFlush;
   LNextIn; LNextIn; LNextOut; LNextOut; LCloseConn; LNextOut; LFinish]%N.
Definition ex_left_seen : list (outcome ld_error lres) := Eval vm_compute in snd (ex_ld_run NetNormal ex_left).
Lemma ex_left_run : exists l ms, ex_ld_run NetNormal ex_left = (l, ms, ex_left_seen).
Proof.
  assert (snd (ex_ld_run NetNormal ex_left) = ex_left_seen) as <- by vm_cast_no_check (eq_refl ex_left_seen).
  destruct (ex_ld_run _ _) as [[l ms] os]. by exists l, ms.
Qed.
Example C68_left_ex : sizes_ok ex_left /\
  (map kind (pushed ex_left), map kind (put_out ex_left ex_left_seen), map kind (handed_in ex_left ex_left_seen)) =
  ([(Handshake, TLSv1_2); (ApplicationData, TLSv1_2); (Alert, TLSv1_2)], [(Handshake, TLSv1_2); (ApplicationData, TLSv1_2)], [(Handshake, TLSv1_2)]) /\
  map ex_ok ex_left_seen = repeat true 15 ++ [false] ++ repeat true 4 ++ [false; false; true].
Proof. split; [apply sizes_spec; vm_compute; reflexivity|]. split; vm_compute; reflexivity. Qed.
(** In the first run the follower is told of five records. *)
Example C66_told_ex :
  (told_out (fst ex_fetched), map m_typ (told_in (fst ex_fetched))) =
  ([(Handshake, TLSv1_2, 16); (ApplicationData, TLSv1_2, 3); (Alert, TLSv1_2, 2)]%N, [Handshake; ApplicationData]).
Proof. vm_compute. reflexivity. Qed.
(** After the transcript there is none. *)
Example C67_once_ex :
  (match snd (ex_ld_run NetNormal (ex_fetch ++ [(1008%N, true, LFinish)])) !! 27 with Some (Ok (LDone None)) => true | _ => false end) = true.
Proof. vm_compute. reflexivity. Qed.
