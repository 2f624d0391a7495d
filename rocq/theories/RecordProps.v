(** Theorems C37-C41 about the record layer. The vocabulary is in RecordSpec.v, the model is RecordModel.v.
    [aes] is any block function with 16 byte results, [ghash_fn] any function of the hash key and the padded
    input, [blind] any contents of the leader's inputs as far as the follower is concerned, [pad_rng] any
    one-time pad; [checked] says whether integer overflows are checked. The list [cs] is any list of calls, [os] are
    their results: calls may fail and the caller may go on. *)
From Verif.Lib Require Import Base Ranges.
From Verif Require Import TranscriptModel ProofModel CodecModel CodecSpec CodecLemmas AttestModel TlsModel AuthModel AuthSpec
  TagModel TagSpec RecordModel RecordSpec RecordHistLemmas RecordFwdLemmas.

(** ** C37 *)
(** No two records that are handed out to be sent have the same nonce, whatever calls were made. *)
Theorem C37_nonces_are_unique : forall aes ghash_fn checked enc_key enc_iv dec_key dec_iv blind pad_rng,
  aes_ok aes -> forall r cs s' os,
  rl_run aes ghash_fn checked enc_key enc_iv dec_key dec_iv blind pad_rng cs (rl_new r) = (s', os) ->
  Forall call_ok cs -> (N.of_nat (length cs) < 2 ^ 64)%N ->
  NoDup (map er_nonce (handed_enc os)) /\ Forall (fun x => length (er_nonce x) = 8) (handed_enc os).
Proof. exact C37_nonces_lemma. Qed.
Print Assumptions C37_nonces_are_unique.

(** In a committed log the sequence numbers increase, an outgoing record's nonce is its sequence number, and an
    incoming record's sequence number is its position among the accepted records. *)
Theorem C37_log_is_in_sequence : forall aes ghash_fn checked enc_key enc_iv dec_key dec_iv blind pad_rng,
  aes_ok aes -> forall r cs s' os ls lr,
  rl_run aes ghash_fn checked enc_key enc_iv dec_key dec_iv blind pad_rng cs (rl_new r) = (s', os) ->
  Forall call_ok cs -> (N.of_nat (length cs) < 2 ^ 64)%N -> Ok (RLogs ls lr) ∈ os ->
  increasing (map r_seq ls) /\ Forall (fun x => is_be 8 (r_seq x) (r_nonce x)) ls /\
  increasing (map r_seq lr) /\
  Forall (fun x => exists v tag, accepted_dec cs os !! N.to_nat (r_seq x) = Some (r_typ x, v, r_nonce x, r_ct x, tag) /\
    r_tag x = Some tag) lr.
Proof. exact C37_log_lemma. Qed.
Print Assumptions C37_log_is_in_sequence.

(** As long as no call fails, the sequence numbers are 0, 1, 2 and so on. *)
Theorem C37_numbers_are_consecutive : forall aes ghash_fn checked enc_key enc_iv dec_key dec_iv blind pad_rng,
  aes_ok aes -> forall r cs s' os,
  rl_run aes ghash_fn checked enc_key enc_iv dec_key dec_iv blind pad_rng cs (rl_new r) = (s', os) ->
  Forall call_ok cs -> (N.of_nat (length cs) < 2 ^ 64)%N -> no_failure os ->
  (forall i x, handed_enc os !! i = Some x -> is_be 8 (N.of_nat i) (er_nonce x)) /\
  (forall ls lr i x, Ok (RLogs ls lr) ∈ os -> ls !! i = Some x \/ lr !! i = Some x -> r_seq x = N.of_nat i).
Proof. exact C37_consecutive_lemma. Qed.
Print Assumptions C37_numbers_are_consecutive.

(** ** C38 *)
(** What was accepted for receiving is within the agreed limit. *)
Theorem C38_received_within_limit : forall aes ghash_fn checked enc_key enc_iv dec_key dec_iv blind pad_rng,
  aes_ok aes -> forall r cs s' os,
  rl_run aes ghash_fn checked enc_key enc_iv dec_key dec_iv blind pad_rng cs (rl_new r) = (s', os) ->
  Forall call_ok cs -> (agreed_recv cs os <= 2 ^ 63)%N ->
  (sum_N (map (fun c => let '(_, _, _, ct, _) := c in N.of_nat (length ct)) (accepted_dec cs os)) <= agreed_recv cs os)%N.
Proof. exact C38_recv_lemma. Qed.
Print Assumptions C38_received_within_limit.

Theorem C38_buffers_are_bounded : forall aes ghash_fn checked enc_key enc_iv dec_key dec_iv blind pad_rng,
  aes_ok aes -> forall r cs s' os,
  rl_run aes ghash_fn checked enc_key enc_iv dec_key dec_iv blind pad_rng cs (rl_new r) = (s', os) ->
  Forall call_ok cs -> length (rl_encrypt s') <= 1022 /\ length (rl_decrypt s') <= 1022.
Proof. exact C38_buffer_lemma. Qed.
Print Assumptions C38_buffers_are_bounded.

(** What was accepted for sending is within the agreed limit, if lengths do not overflow: with overflow checks,
    or with announced lengths of at most 2^63. *)
Theorem C38_accepted_within_limit_partial : forall aes ghash_fn checked enc_key enc_iv dec_key dec_iv blind pad_rng,
  aes_ok aes -> forall r cs s' os,
  rl_run aes ghash_fn checked enc_key enc_iv dec_key dec_iv blind pad_rng cs (rl_new r) = (s', os) ->
  Forall call_ok cs -> (agreed_sent cs os < 2 ^ 63)%N ->
  Forall (fun c => forall t v n pl, c = CEncrypt t v n pl -> checked = true \/ (n <= 2 ^ 63)%N) cs ->
  (sum_N (map call_len (accepted_enc cs os)) <= agreed_sent cs os)%N.
Proof. exact C38_accepted_lemma. Qed.
Print Assumptions C38_accepted_within_limit_partial.

(** In all builds: as long as no call fails, what is handed out and what is logged is within the limit. *)
Theorem C38_sent_within_limit : forall aes ghash_fn checked enc_key enc_iv dec_key dec_iv blind pad_rng,
  aes_ok aes -> forall r cs s' os,
  rl_run aes ghash_fn checked enc_key enc_iv dec_key dec_iv blind pad_rng cs (rl_new r) = (s', os) ->
  Forall call_ok cs -> no_failure os ->
  (total_len (map er_ct (handed_enc os)) <= agreed_sent cs os)%N /\
  (forall ls lr, Ok (RLogs ls lr) ∈ os -> total_len (map r_ct ls) <= agreed_sent cs os)%N.
Proof. exact C38_sent_lemma. Qed.
Print Assumptions C38_sent_within_limit.

(** In all builds and histories: what is handed out is within the limit, up to the padding of the last block. *)
Theorem C38_handed_within_blocks : forall aes ghash_fn checked enc_key enc_iv dec_key dec_iv blind pad_rng,
  aes_ok aes -> forall r cs s' os,
  rl_run aes ghash_fn checked enc_key enc_iv dec_key dec_iv blind pad_rng cs (rl_new r) = (s', os) ->
  Forall call_ok cs -> (total_len (map er_ct (handed_enc os)) < agreed_sent cs os + 16)%N.
Proof. exact C38_sent_any_lemma. Qed.
Print Assumptions C38_handed_within_blocks.

(** Finding: without overflow checks a second record of 2^64 - 1 bytes is accepted although 32 bytes were agreed
    on. With overflow checks the same call panics. *)
Definition ex_aes (k b : list N) : list N := take 16 (rev b ++ replicate 16 1%N).
Definition ex_ghash (k d : list N) : list N := replicate 16 (foldr N.add 0%N (k ++ d) mod 256)%N.
Definition ex_run (checked : bool) (cs : list rl_call) (r : role) : rl * list (outcome rl_error rl_result) :=
  rl_run ex_aes ex_ghash checked [1]%N [2; 2; 2; 2]%N [3]%N [4; 4; 4; 4]%N (fun i j => N.of_nat j) (fun i => N.of_nat (i mod 7)) cs (rl_new r).
Definition wrapping : list rl_call :=
  [CAlloc 4 4 32 32 32; CSetup; CEncrypt ApplicationData TLSv1_2 1 None; CEncrypt ApplicationData TLSv1_2 (2 ^ 64 - 1) None].
Theorem C38_refuted :
  Forall call_ok wrapping /\ no_failure (snd (ex_run false wrapping Follower)) /\
  agreed_sent wrapping (snd (ex_run false wrapping Follower)) = 32%N /\
  sum_N (map call_len (accepted_enc wrapping (snd (ex_run false wrapping Follower)))) = (2 ^ 64)%N /\
  last (snd (ex_run true wrapping Follower)) = Some Panic.
Proof.
  split_and!; [repeat constructor; done| |by vm_compute..].
  assert (snd (ex_run false wrapping Follower) = [Ok RUnit; Ok RUnit; Ok RUnit; Ok RUnit]) as -> by (by vm_compute).
  repeat constructor; by eexists.
Qed.
Print Assumptions C38_refuted.

(** ** C39 *)
(** Before traffic is started no application data is handed out. *)
Theorem C39_application_data_is_withheld : forall aes ghash_fn checked enc_key enc_iv dec_key dec_iv blind pad_rng,
  aes_ok aes -> forall r cs s' os,
  rl_run aes ghash_fn checked enc_key enc_iv dec_key dec_iv blind pad_rng cs (rl_new r) = (s', os) ->
  Forall call_ok cs -> CStart ∉ cs ->
  Forall (fun x => er_typ x <> ApplicationData) (handed_enc os) /\ Forall (fun x => pr_typ x <> ApplicationData) (handed_dec os).
Proof. exact C39_withheld_lemma. Qed.
Print Assumptions C39_application_data_is_withheld.

(** What is handed out is the encryption or decryption of accepted records, in the order of acceptance, and none
    of them twice. *)
Theorem C39_records_come_out_in_order : forall aes ghash_fn checked enc_key enc_iv dec_key dec_iv blind pad_rng,
  aes_ok aes -> forall r cs s' os,
  rl_run aes ghash_fn checked enc_key enc_iv dec_key dec_iv blind pad_rng cs (rl_new r) = (s', os) ->
  Forall call_ok cs ->
  in_order (comes_out_enc aes enc_key enc_iv) (accepted_enc cs os) (handed_enc os) /\
  in_order (comes_out_dec aes dec_key dec_iv r) (accepted_dec cs os) (handed_dec os).
Proof. exact C39_order_lemma. Qed.
Print Assumptions C39_records_come_out_in_order.

(** ** C40 *)
(** The committed log has an entry for every accepted record. *)
Theorem C40_log_is_complete : forall aes ghash_fn checked enc_key enc_iv dec_key dec_iv blind pad_rng,
  aes_ok aes -> forall r pre s' os ls lr,
  rl_run aes ghash_fn checked enc_key enc_iv dec_key dec_iv blind pad_rng (pre ++ [CCommit]) (rl_new r) = (s', os) ->
  Forall call_ok pre -> (N.of_nat (length pre) < 2 ^ 63)%N -> no_failure os -> last os = Some (Ok (RLogs ls lr)) ->
  one_to_one (logged_sent aes enc_key enc_iv blind) (accepted_enc (pre ++ [CCommit]) os) ls /\
  one_to_one (logged_recv aes dec_key dec_iv r) (accepted_dec (pre ++ [CCommit]) os) lr.
Proof. exact C40_commit_lemma. Qed.
Print Assumptions C40_log_is_complete.

(** The tags in the leader's log are right: of outgoing records, and of application data received. *)
Theorem C40_leader_tags_are_right : forall aes ghash_fn checked enc_key enc_iv dec_key dec_iv blind pad_rng,
  aes_ok aes -> forall pre s' os ls lr,
  rl_run aes ghash_fn checked enc_key enc_iv dec_key dec_iv blind pad_rng (pre ++ [CCommit]) (rl_new Leader) = (s', os) ->
  Forall call_ok pre -> (N.of_nat (length pre) < 2 ^ 63)%N -> no_failure os -> last os = Some (Ok (RLogs ls lr)) ->
  one_to_one (fun _ c x => call_version c = TLSv1_2 -> record_sizes_ok x ->
    tag_right aes ghash_fn enc_key enc_iv (aes enc_key (replicate 16 0%N)) V1_2 x) (accepted_enc (pre ++ [CCommit]) os) ls /\
  one_to_one (fun _ c x => dec_version c = TLSv1_2 -> r_typ x = ApplicationData -> record_sizes_ok x ->
    tag_right aes ghash_fn dec_key dec_iv (aes dec_key (replicate 16 0%N)) V1_2 x) (accepted_dec (pre ++ [CCommit]) os) lr.
Proof. exact C40_tags_lemma. Qed.
Print Assumptions C40_leader_tags_are_right.

(** The outgoing records handed out are those in the log, with the same tags. *)
Theorem C40_handed_records_are_logged : forall aes ghash_fn checked enc_key enc_iv dec_key dec_iv blind pad_rng,
  aes_ok aes -> forall r cs s' os ls lr i x,
  rl_run aes ghash_fn checked enc_key enc_iv dec_key dec_iv blind pad_rng cs (rl_new r) = (s', os) ->
  Forall call_ok cs -> Ok (RLogs ls lr) ∈ os -> handed_enc os !! i = Some x ->
  exists y, ls !! i = Some y /\ r_typ y = er_typ x /\ r_nonce y = er_nonce x /\ r_ct y = er_ct x /\ r_tag y = er_tag x.
Proof. exact C40_handed_lemma. Qed.
Print Assumptions C40_handed_records_are_logged.
(** The leader, and not the follower, has the tags of outgoing records. *)
Theorem C40_leader_has_the_tags : forall aes ghash_fn checked enc_key enc_iv dec_key dec_iv blind pad_rng,
  aes_ok aes -> forall r cs s' os,
  rl_run aes ghash_fn checked enc_key enc_iv dec_key dec_iv blind pad_rng cs (rl_new r) = (s', os) -> Forall call_ok cs ->
  Forall (fun x => er_tag x = None <-> r = Follower) (handed_enc os) /\
  forall ls lr, Ok (RLogs ls lr) ∈ os -> Forall (fun y => r_tag y = None <-> r = Follower) ls.
Proof. exact C40_who_knows_lemma. Qed.
Print Assumptions C40_leader_has_the_tags.

(** If the two parties process the same records their logs agree in sequence numbers, types, nonces and ciphertexts.
    The contents of the follower's blind inputs are what the leader put in. *)
Theorem C40_logs_agree : forall aes ghash_fn checked enc_key enc_iv dec_key dec_iv pad_l pad_f,
  aes_ok aes -> forall blind_l blind_f pre_l pre_f s_l s_f os_l os_f ls lr fs fr,
  rl_run aes ghash_fn checked enc_key enc_iv dec_key dec_iv blind_l pad_l (pre_l ++ [CCommit]) (rl_new Leader) = (s_l, os_l) ->
  rl_run aes ghash_fn checked enc_key enc_iv dec_key dec_iv blind_f pad_f (pre_f ++ [CCommit]) (rl_new Follower) = (s_f, os_f) ->
  Forall call_ok pre_l -> Forall call_ok pre_f -> (N.of_nat (length pre_l) < 2 ^ 63)%N -> (N.of_nat (length pre_f) < 2 ^ 63)%N ->
  no_failure os_l -> no_failure os_f ->
  Forall2 same_sent (accepted_enc (pre_l ++ [CCommit]) os_l) (accepted_enc (pre_f ++ [CCommit]) os_f) ->
  accepted_dec (pre_l ++ [CCommit]) os_l = accepted_dec (pre_f ++ [CCommit]) os_f ->
  (forall i t v n p, accepted_enc (pre_l ++ [CCommit]) os_l !! i = Some (t, v, n, p) ->
    exists text, p = Some text /\ (t = ApplicationData -> map (blind_f (N.of_nat i)) (seq 0 (length text)) = text)) ->
  last os_l = Some (Ok (RLogs ls lr)) -> last os_f = Some (Ok (RLogs fs fr)) ->
  Forall2 same_record ls fs /\ Forall2 same_record lr fr.
Proof. exact C40_agree_lemma. Qed.
Print Assumptions C40_logs_agree.

(** A session: one handshake record each way, then one record of application data each way. *)
Definition ex_in (seq : N) (t : content_type) (ct : list N) : rl_call :=
  let nonce := be 8 (seq + 100)%N in
  CDecrypt t TLSv1_2 nonce ct (gcm_tag ex_aes ex_ghash [3]%N [4; 4; 4; 4]%N nonce (make_aad seq t TLSv1_2 (length ct)) ct).
Definition ex_pre (app : option (list N)) : list rl_call :=
  [CAlloc 4 4 64 64 64; CSetup; CEncrypt Handshake TLSv1_2 2 (Some [7; 8]%N); ex_in 0 Handshake [5; 6]%N; CFlush false; CNextEnc; CNextDec;
   CEncrypt ApplicationData TLSv1_2 3 app; ex_in 1 ApplicationData [9]%N; CFlush false; CNextEnc; CStart; CNextEnc].
Definition ex_leader := ex_run false (ex_pre (Some [0; 1; 2]%N) ++ [CCommit]) Leader.
Definition ex_follower := ex_run false (ex_pre None ++ [CCommit]) Follower.
Definition all_ok (os : list (outcome rl_error rl_result)) : bool := forallb (fun o => match o with Ok _ => true | _ => false end) os.
Lemma all_ok_no_failure os : all_ok os = true -> no_failure os.
Proof.
  unfold all_ok, no_failure. intros H. rewrite forallb_forall in H. apply Forall_forall. intros o Ho%elem_of_list_In. apply H in Ho.
  destruct o; [by eexists|done..].
Qed.
Lemma ex_aes_ok : aes_ok ex_aes.
Proof. intros k b. unfold ex_aes. rewrite take_length, app_length, replicate_length. lia. Qed.
(** The hypotheses of the theorems above are met, two records are handed out, and the logs have two entries each. *)
Example C37_C40_ex :
  aes_ok ex_aes /\ Forall call_ok (ex_pre (Some [0; 1; 2]%N)) /\ Forall call_ok (ex_pre None) /\
  no_failure (snd ex_leader) /\ no_failure (snd ex_follower) /\
  map er_nonce (handed_enc (snd ex_leader)) = [be 8 0; be 8 1] /\
  (exists ls lr fs fr, last (snd ex_leader) = Some (Ok (RLogs ls lr)) /\ last (snd ex_follower) = Some (Ok (RLogs fs fr)) /\
     map r_seq ls = [0; 1]%N /\ map r_seq fr = [0; 1]%N /\ map r_typ lr = [Handshake; ApplicationData]) /\
  Forall2 same_sent (accepted_enc (ex_pre (Some [0; 1; 2]%N)) (snd ex_leader)) (accepted_enc (ex_pre None) (snd ex_follower)) /\
  accepted_dec (ex_pre (Some [0; 1; 2]%N)) (snd ex_leader) = accepted_dec (ex_pre None) (snd ex_follower) /\
  map (fun j => N.of_nat j) (seq 0 3) = [0; 1; 2]%N.
Proof.
  split_and!; [exact ex_aes_ok| | | | | | | | |done].
  - repeat constructor; done.
  - repeat constructor; done.
  - apply all_ok_no_failure. by vm_compute.
  - apply all_ok_no_failure. by vm_compute.
  - by vm_compute.
  - eexists _, _, _, _. split; [vm_compute; reflexivity|]. split; [vm_compute; reflexivity|]. done.
  - vm_compute. repeat constructor.
  - by vm_compute.
Qed.
(** Application data is held back: the second [CNextEnc] hands out nothing. *)
Example C39_ex : snd ex_leader !! 10 = Some (Ok (REncrypted None)) /\
  exists x, snd ex_leader !! 12 = Some (Ok (REncrypted (Some x))) /\ er_typ x = ApplicationData.
Proof. split; [by vm_compute|]. eexists. split; [vm_compute; reflexivity|done]. Qed.

(** ** C41 *)
(** Every traffic whose records are of at most 16384 bytes and whose number and size are within the agreed limits,
    also after rounding every record up to whole blocks, is encrypted and comes out. What is missing from the full
    property is the case that only the sum of the lengths is within the limit, and empty records. *)
Theorem C41_traffic_is_encrypted_partial : forall aes ghash_fn checked enc_key enc_iv dec_key dec_iv blind pad_rng,
  aes_ok aes -> forall me n m L o rv f bs,
  (n < 2 ^ 64)%N -> (m < 2 ^ 64)%N -> (L < 2 ^ 64 - 16)%N -> (o < 2 ^ 64 - 16)%N -> (rv < 2 ^ 64 - 16)%N ->
  Forall (Forall (fun c => sendable me c /\ 0 < call_len c <= 16384)%N) bs -> Forall (fun l => length l <= 1022) bs ->
  (sum_N (map call_len (concat bs)) <= L)%N -> (N.of_nat (length (concat bs)) <= n)%N ->
  (sum_N (map (fun c => (call_len c + 15) / 16) (concat bs)) <= (L + 15) / 16)%N ->
  exists s' os, rl_run aes ghash_fn checked enc_key enc_iv dec_key dec_iv blind pad_rng (traffic n m L o rv f bs) (rl_new me) = (s', os) /\
    no_failure os /\ Forall2 (comes_out_enc aes enc_key enc_iv) (concat bs) (handed_enc os).
Proof. exact C41_lemma. Qed.
Print Assumptions C41_traffic_is_encrypted_partial.

(** It suffices that the limit leaves 15 spare bytes for all but one record, or that records are whole blocks. *)
Theorem C41_spare_bytes_suffice_partial : forall aes ghash_fn checked enc_key enc_iv dec_key dec_iv blind pad_rng,
  aes_ok aes -> forall me n m L o rv f bs,
  (n < 2 ^ 64)%N -> (m < 2 ^ 64)%N -> (L < 2 ^ 64 - 16)%N -> (o < 2 ^ 64 - 16)%N -> (rv < 2 ^ 64 - 16)%N ->
  Forall (Forall (fun c => sendable me c /\ 0 < call_len c <= 16384)%N) bs -> Forall (fun l => length l <= 1022) bs ->
  (N.of_nat (length (concat bs)) <= n)%N ->
  (sum_N (map call_len (concat bs)) + 15 * N.of_nat (length (concat bs)) <= L + 15)%N \/
    (sum_N (map call_len (concat bs)) <= L)%N /\ Forall (fun c => call_len c mod 16 = 0)%N (concat bs) ->
  exists s' os, rl_run aes ghash_fn checked enc_key enc_iv dec_key dec_iv blind pad_rng (traffic n m L o rv f bs) (rl_new me) = (s', os) /\
    no_failure os /\ Forall2 (comes_out_enc aes enc_key enc_iv) (concat bs) (handed_enc os).
Proof. exact C41_slack_lemma. Qed.
Print Assumptions C41_spare_bytes_suffice_partial.

Definition small (n : nat) : enc_call := (ApplicationData, TLSv1_2, N.of_nat n, Some (replicate n 1%N)).
Example C41_ex :
  Forall (Forall (fun c => sendable Leader c /\ 0 < call_len c <= 16384)%N) [[small 1; small 17]; [small 14]] /\
  (sum_N (map call_len (concat [[small 1; small 17]; [small 14]])) = 32)%N /\
  (sum_N (map (fun c => (call_len c + 15) / 16) (concat [[small 1; small 17]; [small 14]])) <= (49 + 15) / 16)%N.
Proof. split; [|by vm_compute]. repeat constructor; try done; by intros [? ?]. Qed.

(** Finding: three records of one byte each cannot be encrypted although 32 bytes were agreed on. *)
Theorem C41_refuted :
  Forall (Forall (fun c => sendable Leader c /\ 0 < call_len c <= 16384)%N) [[small 1]; [small 1]; [small 1]] /\
  sum_N (map call_len (concat [[small 1]; [small 1]; [small 1]])) = 3%N /\
  snd (ex_run false (traffic 8 8 32 32 32 false [[small 1]; [small 1]; [small 1]]) Leader) !! 8 = Some (Err RInputExceeded) /\
  length (handed_enc (snd (ex_run false (traffic 8 8 32 32 32 false [[small 1]; [small 1]; [small 1]]) Leader))) = 2.
Proof. split; [|by vm_compute]. repeat constructor; try done; by intros [? ?]. Qed.
Print Assumptions C41_refuted.
(** Finding: an empty record cannot be encrypted. *)
Theorem C41_empty_record_refuted :
  snd (ex_run false (traffic 8 8 32 32 32 false [[small 0]]) Leader) !! 4 = Some (Err REmptyRecord).
Proof. by vm_compute. Qed.
Print Assumptions C41_empty_record_refuted.
