(** Proofs about ConfigModel.v. *)
From Verif.Lib Require Import Base.
From Verif Require Import ProofModel CodecModel RecordModel RecordLemmas ConfigModel ConfigSpec.

Lemma fold_set xs b :
  let r := fold_left set_field xs b in
  mb_max_sent r = match last (sent_values xs) with Some n => Some n | None => mb_max_sent b end /\
  mb_max_sent_records r = match last (sent_records_values xs) with Some n => Some n | None => mb_max_sent_records b end /\
  mb_max_recv_online r = match last (online_values xs) with Some n => Some n | None => mb_max_recv_online b end /\
  mb_max_recv r = match last (recv_values xs) with Some n => Some n | None => mb_max_recv b end /\
  mb_max_recv_records r = match last (recv_records_values xs) with Some n => Some n | None => mb_max_recv_records b end /\
  mb_defer r = match last (defer_values xs) with Some n => Some n | None => mb_defer b end /\
  mb_network r = match last (network_values xs) with Some n => Some n | None => mb_network b end.
Proof.
  revert b. induction xs as [|x xs IH] using rev_ind; intros b; [by destruct b|].
  cbv zeta in IH |- *. rewrite fold_left_app. cbn [fold_left].
  unfold sent_values, sent_records_values, online_values, recv_values, recv_records_values, defer_values, network_values in *.
  rewrite !omap_app.
  destruct (IH b) as (H1 & H2 & H3 & H4 & H5 & H6 & H7).
  destruct x; csimpl; rewrite ?last_snoc, ?app_nil_r; split_and!; done.
Qed.

Lemma match_opt {A} (o : option A) : match o with Some n => Some n | None => None end = o.
Proof. by destruct o. Qed.
Lemma build_iff xs c : build_config (set_fields xs) = Ok c <-> asks_for xs c /\ (mc_max_recv_online c <= mc_max_recv c)%N.
Proof.
  destruct (fold_set xs builder_default) as (H1 & H2 & H3 & H4 & H5 & H6 & H7). cbv zeta in *.
  unfold build_config, asks_for. fold (set_fields xs) in *. rewrite H1, H2, H3, H4, H5, H6, H7.
  cbn [builder_default mb_max_sent mb_max_sent_records mb_max_recv_online mb_max_recv mb_max_recv_records mb_defer mb_network].
  rewrite !match_opt. unfold default_max_recv_online.
  destruct (last (sent_values xs)) as [s|]; cbn [opt_err obind]; [|naive_solver].
  destruct (last (recv_values xs)) as [r|]; cbn [opt_err obind]; [|naive_solver].
  unfold validate. cbn [mc_max_recv mc_max_recv_online]. split.
  - destruct (N.ltb_spec r (default 32%N (last (online_values xs)))); [done|].
    intros [= <-]. done.
  - intros [(A & B & C & D & E & F & G) L]. injection A as ->. injection B as ->.
    destruct c as [s' sr o r' rr d n]. cbn in *. subst.
    by rewrite (proj2 (N.ltb_ge _ _)) by done.
Qed.
Lemma build_no_panic b : build_config b <> Panic.
Proof.
  unfold build_config. destruct (mb_max_sent b); [|done]. destruct (mb_max_recv b); [|done].
  unfold validate; cbn [opt_err obind]. by case_match.
Qed.
Lemma receive_iff m c : receive_config m = Ok c <-> states m c /\ (mm_max_recv_online m <= mm_max_recv m)%N.
Proof.
  unfold receive_config, validate, states. cbn [mc_max_recv mc_max_recv_online]. split.
  - destruct (N.ltb_spec (mm_max_recv m) (mm_max_recv_online m)); [done|]. by intros [= <-].
  - intros [(A & B & C & D & E & F & G) L]. rewrite (proj2 (N.ltb_ge _ _)) by done. destruct c; cbn in *. by subst.
Qed.
Lemma receive_no_panic m : receive_config m <> Panic.
Proof. unfold receive_config, validate. by case_match. Qed.

Lemma obtained_valid c : obtained c -> (mc_max_recv_online c <= mc_max_recv c)%N.
Proof.
  intros [[xs H]|[m H]].
  - by apply build_iff in H as [_ H].
  - apply receive_iff in H as [(A & B & C & _) H]. by rewrite B, C.
Qed.

Lemma div_ceil_eq n : div_ceil_4096 n = ((n + 4095) / 4096)%N.
Proof.
  unfold div_ceil_4096. destruct (N.eqb_spec (n mod 4096) 0) as [E|E].
  - rewrite N.add_0_r. pose proof (N.div_mod n 4096 ltac:(done)).
    apply (N.div_unique _ _ _ 4095%N); lia.
  - pose proof (N.div_mod n 4096 ltac:(done)). pose proof (N.mod_lt n 4096 ltac:(done)).
    apply (N.div_unique _ _ _ (n mod 4096 - 1)%N); lia.
Qed.
Lemma usual_small n : (n < 2 ^ 64 -> (n - 4096 + 4095) / 4096 < 2 ^ 63)%N.
Proof. intros H. apply N.div_lt_upper_bound; [done|]. lia. Qed.
Lemma record_count_eq checked n : (n < 2 ^ 64)%N ->
  default_record_count checked n = Ok (8 + (n - 4096 + 4095) / 4096)%N.
Proof.
  intros H. unfold default_record_count. rewrite div_ceil_eq. apply uadd_fits. pose proof (usual_small n H). lia.
Qed.

Lemma translate_ok checked c : (mc_max_recv_online c <= mc_max_recv c)%N -> leaves_room (mc_max_sent c) (mc_max_recv c) ->
  exists t, translate_config checked c = Ok t /\ translated c t.
Proof.
  intros Hv [Hs Hr]. unfold translate_config, build_tls_config.
  cbn [tb_max_sent tb_max_recv_online tb_max_recv tb_max_sent_records tb_max_recv_records tb_defer tb_prf opt_err obind].
  unfold protocol_data_sent, protocol_data_recv, protocol_records_sent, protocol_records_recv.
  rewrite (proj2 (N.ltb_ge _ _)) by done.
  rewrite !uadd_fits by lia. cbn [lift_panic obind].
  rewrite (record_count_eq checked (32 + mc_max_sent c)) by lia.
  rewrite (record_count_eq checked (mc_max_recv_online c + 32)) by lia. cbn [lift_panic obind].
  pose proof (usual_small (32 + mc_max_sent c) ltac:(lia)). pose proof (usual_small (mc_max_recv_online c + 32) ltac:(lia)).
  rewrite !uadd_fits by lia. cbn [lift_panic obind].
  assert (forall a, 2 + (8 + a) = 10 + a)%N as E by lia.
  unfold translated, usual_records.
  destruct (mc_max_sent_records c), (mc_max_recv_records c); cbn [lift_panic obind]; eexists; (split; [reflexivity|]);
    cbn [tc_max_sent tc_max_recv_online tc_max_recv tc_max_sent_records tc_max_recv_records tc_defer tc_prf];
    rewrite ?(N.add_comm 32 (mc_max_sent c)); split_and!; try done; try (cbn [default from_option]; lia);
    by destruct (mc_network c).
Qed.
Lemma C46_translation_lemma checked c : obtained c -> leaves_room (mc_max_sent c) (mc_max_recv c) ->
  exists t, translate_config checked c = Ok t /\ translated c t /\ (tc_max_recv_online t <= tc_max_recv t)%N.
Proof.
  intros Ho Hr. apply obtained_valid in Ho. destruct (translate_ok checked c Ho Hr) as (t & H & T). exists t. split; [done|].
  split; [done|]. destruct T as (_ & -> & -> & _). lia.
Qed.

Lemma opt_gtb_spec a b : opt_gtb a b = false <-> match a, b with
  | None, _ => True | Some _, None => False | Some x, Some y => (x <= y)%N end.
Proof. destruct a, b; cbn; try done. apply N.ltb_ge. Qed.
Lemma accepts_iff l c : sdk_accepts l c = true <->
  (mc_max_sent c <= sl_max_sent l)%N /\ (mc_max_recv c <= sl_max_recv l)%N /\
  match mc_max_sent_records c, sl_max_sent_records l with None, _ => True | Some _, None => False | Some x, Some y => (x <= y)%N end /\
  match mc_max_recv_records c, sl_max_recv_records l with None, _ => True | Some _, None => False | Some x, Some y => (x <= y)%N end.
Proof.
  unfold sdk_accepts. rewrite <-!opt_gtb_spec.
  destruct (N.ltb_spec (sl_max_sent l) (mc_max_sent c)); [split; [done|]; intros (H1 & _); lia|].
  destruct (N.ltb_spec (sl_max_recv l) (mc_max_recv c)); [split; [done|]; intros (_ & H1 & _); lia|].
  destruct (opt_gtb (mc_max_sent_records c) (sl_max_sent_records l)); [naive_solver|].
  destruct (opt_gtb (mc_max_recv_records c) (sl_max_recv_records l)); cbn; naive_solver.
Qed.

Lemma C54_data_lemma checked l m t : sdk_setup checked l m = Ok (Some t) ->
  leaves_room (sl_max_sent l) (sl_max_recv l) ->
  tc_max_sent t = (mm_max_sent m + 32)%N /\ (mm_max_sent m <= sl_max_sent l)%N /\
  tc_max_recv t = (mm_max_recv m + 32)%N /\ (mm_max_recv m <= sl_max_recv l)%N /\
  (tc_max_recv_online t <= tc_max_recv t)%N.
Proof.
  unfold sdk_setup. destruct (receive_config m) as [c|e|] eqn:Er; [|done|done].
  destruct (sdk_accepts l c) eqn:Ea; [|done]. apply accepts_iff in Ea as (A1 & A2 & _).
  intros H [R1 R2]. pose proof (proj1 (receive_iff m c) Er) as [(S1 & S2 & S3 & _) _].
  destruct (C46_translation_lemma checked c) as (t' & Ht & T & L); [right; by exists m|split; lia|].
  rewrite Ht in H. cbn [obind] in H. injection H as <-. destruct T as (-> & _ & T3 & _). rewrite T3 in *.
  rewrite S1, S2 in *. done.
Qed.
Lemma C54_panic_lemma checked l m : leaves_room (sl_max_sent l) (sl_max_recv l) -> sdk_setup checked l m <> Panic.
Proof.
  intros [R1 R2]. unfold sdk_setup. destruct (receive_config m) as [c|e|] eqn:Er; [|done|by apply receive_no_panic in Er].
  destruct (sdk_accepts l c) eqn:Ea; [|done]. apply accepts_iff in Ea as (A1 & A2 & _).
  destruct (C46_translation_lemma checked c) as (t' & Ht & T & L); [right; by exists m|split; lia|]. by rewrite Ht.
Qed.
Lemma C54_records_lemma checked l m t : sdk_setup checked l m = Ok (Some t) ->
  leaves_room (sl_max_sent l) (sl_max_recv l) ->
  (forall n, mm_max_sent_records m = Some n -> tc_max_sent_records t = n /\ exists k, sl_max_sent_records l = Some k /\ (n <= k)%N) /\
  (forall n, mm_max_recv_records m = Some n -> tc_max_recv_records t = n /\ exists k, sl_max_recv_records l = Some k /\ (n <= k)%N) /\
  (mm_max_sent_records m = None -> tc_max_sent_records t = usual_records (mm_max_sent m + 32)) /\
  (mm_max_recv_records m = None -> tc_max_recv_records t = usual_records (mm_max_recv_online m + 32)).
Proof.
  unfold sdk_setup. destruct (receive_config m) as [c|e|] eqn:Er; [|done|done].
  destruct (sdk_accepts l c) eqn:Ea; [|done]. apply accepts_iff in Ea as (A1 & A2 & A3 & A4).
  intros H [R1 R2]. pose proof (proj1 (receive_iff m c) Er) as [(S1 & S2 & S3 & S4 & S5 & _) _].
  destruct (C46_translation_lemma checked c) as (t' & Ht & T & L); [right; by exists m|split; lia|].
  rewrite Ht in H. cbn [obind] in H. injection H as <-. destruct T as (T1 & T2 & _ & T4 & T5 & _).
  rewrite S1 in T1. rewrite S3 in T2. rewrite T1, S4 in T4. rewrite T2, S5 in T5. rewrite S4 in A3. rewrite S5 in A4.
  split_and!.
  - intros n E. rewrite E in *. split; [done|]. destruct (sl_max_sent_records l) as [k|]; [by exists k|done].
  - intros n E. rewrite E in *. split; [done|]. destruct (sl_max_recv_records l) as [k|]; [by exists k|done].
  - intros E. by rewrite E in T4.
  - intros E. by rewrite E in T5.
Qed.
(** The only messages within the limits that are not accepted state a number of records where no limit is set. *)
Lemma C54_accepts_lemma checked l m : message_within l m -> (mm_max_recv_online m <= mm_max_recv m)%N ->
  leaves_room (sl_max_sent l) (sl_max_recv l) ->
  (mm_max_sent_records m <> None -> sl_max_sent_records l <> None) ->
  (mm_max_recv_records m <> None -> sl_max_recv_records l <> None) ->
  exists t, sdk_setup checked l m = Ok (Some t).
Proof.
  intros (W1 & W2 & W3 & W4) Hv [R1 R2] N1 N2.
  set (c := MpcConfig (mm_max_sent m) (mm_max_sent_records m) (mm_max_recv_online m) (mm_max_recv m)
    (mm_max_recv_records m) (mm_defer m) (mm_network m)).
  assert (receive_config m = Ok c) as Er by (apply receive_iff; done).
  unfold sdk_setup. rewrite Er.
  assert (sdk_accepts l c = true) as ->.
  { apply accepts_iff. subst c. cbn. split_and!; [done|done| |].
    - destruct (mm_max_sent_records m), (sl_max_sent_records l); try done. by apply N1.
    - destruct (mm_max_recv_records m), (sl_max_recv_records l); try done. by apply N2. }
  destruct (C46_translation_lemma checked c) as (t & Ht & _); [right; by exists m|subst c; cbn; split; lia|].
  exists t. by rewrite Ht.
Qed.
