(** Theorems C46 and C54 about configurations. The vocabulary is in ConfigSpec.v, the model is ConfigModel.v. *)
From Verif.Lib Require Import Base.
From Verif Require Import RecordModel ConfigModel ConfigSpec ConfigLemmas.

(** ** C46 *)
(** A series of builder calls succeeds exactly if it asks for a configuration whose online limit is within the total. *)
Theorem C46_builder_gives_what_was_asked : forall xs c,
  build_config (set_fields xs) = Ok c <-> asks_for xs c /\ (mc_max_recv_online c <= mc_max_recv c)%N.
Proof. exact build_iff. Qed.
Print Assumptions C46_builder_gives_what_was_asked.
(** A peer's message is accepted exactly if its online limit is within the total, and unchanged. *)
Theorem C46_messages_are_checked : forall m c,
  receive_config m = Ok c <-> states m c /\ (mm_max_recv_online m <= mm_max_recv m)%N.
Proof. exact receive_iff. Qed.
Print Assumptions C46_messages_are_checked.
Theorem C46_online_within_total : forall c, obtained c -> (mc_max_recv_online c <= mc_max_recv c)%N.
Proof. exact obtained_valid. Qed.
Print Assumptions C46_online_within_total.
(** The translation succeeds, in debug and in release builds, if the totals are at least 32 below the largest usize.
    What is missing for the property is that condition. *)
Theorem C46_translation_partial : forall checked c, obtained c -> leaves_room (mc_max_sent c) (mc_max_recv c) ->
  exists t, translate_config checked c = Ok t /\ translated c t /\ (tc_max_recv_online t <= tc_max_recv t)%N.
Proof. exact C46_translation_lemma. Qed.
Print Assumptions C46_translation_partial.
(** Without it the translation of a peer's message panics in a debug build, and gives an online limit above the
    total in a release build. *)
Theorem C46_translation_refuted : exists m c t,
  (mm_max_sent m < 2 ^ 64)%N /\ (mm_max_recv_online m < 2 ^ 64)%N /\ (mm_max_recv m < 2 ^ 64)%N /\
  receive_config m = Ok c /\ translate_config true c = Panic /\
  translate_config false c = Ok t /\ (tc_max_recv t < tc_max_recv_online t)%N.
Proof.
  exists (MpcMessage 4096 None 4096 (2 ^ 64 - 1) None true Latency). do 2 eexists.
  split_and!; try reflexivity.
Qed.
Print Assumptions C46_translation_refuted.

Example C46_ex : exists c t,
  build_config (set_fields [SetMaxSent 5; SetMaxRecv 100; SetMaxSent 40000; SetMaxRecvRecords 7; SetNetwork Bandwidth]) = Ok c /\
  obtained c /\ mc_max_sent c = 40000%N /\ mc_max_recv_online c = 32%N /\ leaves_room (mc_max_sent c) (mc_max_recv c) /\
  translate_config true c = Ok t /\ tc_max_sent_records t = 19%N /\ tc_max_recv_records t = 7%N /\
  (exists m, receive_config m = Ok c) /\
  build_config (set_fields [SetMaxSent 5; SetMaxRecv 31]) = Err InvalidOnline.
Proof.
  exists (MpcConfig 40000 None 32 100 (Some 7%N) true Bandwidth). eexists. split; [reflexivity|].
  split; [left; exists [SetMaxSent 40000; SetMaxRecv 100; SetMaxRecvRecords 7; SetNetwork Bandwidth]; reflexivity|]. split; [reflexivity|]. split; [reflexivity|].
  split; [done|]. split; [reflexivity|]. split; [reflexivity|]. split; [reflexivity|]. split; [|reflexivity].
  by exists (MpcMessage 40000 None 32 100 (Some 7%N) true Bandwidth).
Qed.

(** ** C54 *)
(** If the SDK's verifier goes on with a prover's message, its limits on the data hold. *)
Theorem C54_data_limits_hold : forall checked l m t, sdk_setup checked l m = Ok (Some t) ->
  leaves_room (sl_max_sent l) (sl_max_recv l) ->
  tc_max_sent t = (mm_max_sent m + 32)%N /\ (mm_max_sent m <= sl_max_sent l)%N /\
  tc_max_recv t = (mm_max_recv m + 32)%N /\ (mm_max_recv m <= sl_max_recv l)%N /\
  (tc_max_recv_online t <= tc_max_recv t)%N.
Proof. exact C54_data_lemma. Qed.
Print Assumptions C54_data_limits_hold.
Theorem C54_messages_do_not_panic : forall checked l m,
  leaves_room (sl_max_sent l) (sl_max_recv l) -> sdk_setup checked l m <> Panic.
Proof. exact C54_panic_lemma. Qed.
Print Assumptions C54_messages_do_not_panic.
(** Its limits on the numbers of records hold if the message states the numbers. What is missing: if it does not, the
    usual number is used whatever the limit. *)
Theorem C54_record_limits_partial : forall checked l m t, sdk_setup checked l m = Ok (Some t) ->
  leaves_room (sl_max_sent l) (sl_max_recv l) ->
  (forall n, mm_max_sent_records m = Some n -> tc_max_sent_records t = n /\ exists k, sl_max_sent_records l = Some k /\ (n <= k)%N) /\
  (forall n, mm_max_recv_records m = Some n -> tc_max_recv_records t = n /\ exists k, sl_max_recv_records l = Some k /\ (n <= k)%N) /\
  (mm_max_sent_records m = None -> tc_max_sent_records t = usual_records (mm_max_sent m + 32)) /\
  (mm_max_recv_records m = None -> tc_max_recv_records t = usual_records (mm_max_recv_online m + 32)).
Proof. exact C54_records_lemma. Qed.
Print Assumptions C54_record_limits_partial.
(** A prover that does not state the numbers gets more records than the verifier's limits. *)
Theorem C54_record_limits_refuted : exists l m t ks kr, sdk_setup true l m = Ok (Some t) /\
  leaves_room (sl_max_sent l) (sl_max_recv l) /\
  sl_max_sent_records l = Some ks /\ sl_max_recv_records l = Some kr /\
  (ks < tc_max_sent_records t)%N /\ (kr < tc_max_recv_records t)%N.
Proof.
  exists (SdkLimits 4096 16384 (Some 5%N) (Some 5%N)), (MpcMessage 4096 None 32 16384 None true Latency).
  do 3 eexists. by split_and!.
Qed.
Print Assumptions C54_record_limits_refuted.
(** A message within the limits is accepted. What is missing: a message that states a number of records is refused where
    the verifier has set no limit, as the next theorem shows. *)
Theorem C54_messages_within_are_accepted_partial : forall checked l m,
  message_within l m -> (mm_max_recv_online m <= mm_max_recv m)%N ->
  leaves_room (sl_max_sent l) (sl_max_recv l) ->
  (mm_max_sent_records m <> None -> sl_max_sent_records l <> None) ->
  (mm_max_recv_records m <> None -> sl_max_recv_records l <> None) ->
  exists t, sdk_setup checked l m = Ok (Some t).
Proof. exact C54_accepts_lemma. Qed.
Print Assumptions C54_messages_within_are_accepted_partial.
Theorem C54_messages_within_are_accepted_refuted : exists l m,
  message_within l m /\ (mm_max_recv_online m <= mm_max_recv m)%N /\ leaves_room (sl_max_sent l) (sl_max_recv l) /\
  sl_max_sent_records l = None /\ sdk_setup true l m = Ok None.
Proof.
  exists (SdkLimits 4096 16384 None None), (MpcMessage 4096 (Some 3%N) 32 16384 None true Latency). by split_and!.
Qed.
Print Assumptions C54_messages_within_are_accepted_refuted.

Example C54_ex : exists t,
  let l := SdkLimits 4096 16384 (Some 5%N) (Some 5%N) in
  let m := MpcMessage 1000 (Some 4%N) 32 16384 (Some 5%N) true Latency in
  sdk_setup true l m = Ok (Some t) /\ leaves_room (sl_max_sent l) (sl_max_recv l) /\ message_within l m /\
  tc_max_sent_records t = 4%N /\ tc_max_sent t = 1032%N.
Proof. eexists. cbv zeta. split; [reflexivity|]. by split_and!. Qed.
