(** Proofs about tags (C36). *)
From Verif.Lib Require Import Base Ranges.
From Verif Require Import TranscriptModel ProofModel CodecModel CodecSpec CodecLemmas AttestModel TlsModel AuthModel
  TagModel TagSpec.

Lemma block_count_spec n : n <= block_count n * 16 < n + 16.
Proof.
  unfold block_count. pose proof (Nat.div_mod_eq n 16). pose proof (Nat.mod_upper_bound n 16 ltac:(lia)).
  destruct (n mod 16 =? 0) eqn:E; lia.
Qed.
Lemma pad_blocks_eq l : pad_blocks l = l ++ replicate (block_count (length l) * 16 - length l) 0%N.
Proof.
  unfold pad_blocks, resize_zero. pose proof (block_count_spec (length l)). rewrite take_ge by lia. done.
Qed.
Lemma pad_blocks_length l : length (pad_blocks l) = block_count (length l) * 16.
Proof. rewrite pad_blocks_eq, app_length, replicate_length. pose proof (block_count_spec (length l)). lia. Qed.
Lemma pad_blocks_padded l : padded l (pad_blocks l).
Proof.
  exists (block_count (length l) * 16 - length l), (block_count (length l)). rewrite pad_blocks_length.
  pose proof (block_count_spec (length l)). split_and!; [apply pad_blocks_eq|lia|lia].
Qed.
Lemma padded_eq l p : padded l p -> p = pad_blocks l.
Proof.
  intros (n & k & -> & Hn & Hk). rewrite pad_blocks_eq. do 2 f_equal.
  rewrite app_length, replicate_length in Hk. pose proof (block_count_spec (length l)). lia.
Qed.

Lemma be_split n k v w : (w < 256 ^ N.of_nat k)%N ->
  be (n + k) (v * 256 ^ N.of_nat k + w) = be n v ++ be k w.
Proof.
  intros Hw. assert (forall j a, be j (a * 256 ^ N.of_nat j + w)%N = be j w) as Hlow.
  { clear. induction j as [|j IH]; intros a; [done|]. cbn [be]. f_equal.
    - rewrite Nat2N.inj_succ, N.pow_succ_r'. replace (a * (256 * 256 ^ N.of_nat j) + w)%N with (w + (a * 256) * 256 ^ N.of_nat j)%N by lia.
      rewrite N.div_add by (apply N.pow_nonzero; lia). rewrite N.mod_add by lia. done.
    - rewrite Nat2N.inj_succ, N.pow_succ_r'. replace (a * (256 * 256 ^ N.of_nat j))%N with ((a * 256) * 256 ^ N.of_nat j)%N by lia.
      apply IH. }
  induction n as [|n IH]; [apply Hlow|]. cbn [Nat.add be Datatypes.app]. f_equal; [|done].
  f_equal. rewrite Nat2N.inj_add, N.pow_add_r, (N.mul_comm (256 ^ N.of_nat n)), <- N.div_div by (apply N.pow_nonzero; lia).
  f_equal. rewrite N.div_add_l by (apply N.pow_nonzero; lia). rewrite N.div_small by done. lia.
Qed.

Lemma ghash_data_gcm aad ct : (N.of_nat (length aad) < 2 ^ 61)%N -> (N.of_nat (length ct) < 2 ^ 61)%N ->
  gcm_input aad ct (build_ghash_data aad ct).
Proof.
  intros Ha Hc. exists (pad_blocks aad), (pad_blocks ct), (be 8 (8 * N.of_nat (length aad))), (be 8 (8 * N.of_nat (length ct))).
  assert (H64 : (2 ^ 64 = 256 ^ N.of_nat 8)%N) by done.
  assert (H61 : (8 * 2 ^ 61 = 2 ^ 64)%N) by done.
  split_and!; [|apply pad_blocks_padded|apply pad_blocks_padded|apply is_be_be; lia|apply is_be_be; lia].
  unfold build_ghash_data. rewrite !(N.mod_small (_ * 8)) by lia.
  rewrite N.mod_small.
  2: { replace (2 ^ 128)%N with (2 ^ 64 * 2 ^ 64)%N by done. apply N.mul_lt_mono_pos_r; lia. }
  do 2 f_equal. change 16 with (8 + 8). rewrite H64, be_split by lia. f_equal; f_equal; lia.
Qed.
Lemma gcm_input_eq aad ct input : gcm_input aad ct input ->
  (N.of_nat (length aad) < 2 ^ 61)%N -> (N.of_nat (length ct) < 2 ^ 61)%N ->
  input = build_ghash_data aad ct.
Proof.
  intros (pa & pc & la & lc & -> & Hpa & Hpc & Hla & Hlc) Ha Hc.
  destruct (ghash_data_gcm aad ct Ha Hc) as (pa' & pc' & la' & lc' & -> & Hpa' & Hpc' & Hla' & Hlc').
  rewrite (padded_eq _ _ Hpa), (padded_eq _ _ Hpa'), (padded_eq _ _ Hpc), (padded_eq _ _ Hpc').
  by rewrite (is_be_eq _ _ _ Hla), (is_be_eq _ _ _ Hlc), (is_be_eq _ _ _ Hla'), (is_be_eq _ _ _ Hlc').
Qed.

Lemma padded_inj l l' p : length l = length l' -> padded l p -> padded l' p -> l = l'.
Proof.
  intros Hl (n & _ & -> & _) (n' & _ & H & _). by apply app_inj_1 in H as [-> _].
Qed.
Lemma is_be_inj n v v' l : is_be n v l -> is_be n v' l -> v = v'.
Proof. intros (_ & _ & <-)%is_be_ok (_ & _ & <-)%is_be_ok. done. Qed.

Lemma gcm_input_inj aad ct aad' ct' input : gcm_input aad ct input -> gcm_input aad' ct' input -> aad = aad' /\ ct = ct'.
Proof.
  intros (pa & pc & la & lc & -> & Hpa & Hpc & Hla & Hlc) (pa' & pc' & la' & lc' & Heq & Hpa' & Hpc' & Hla' & Hlc').
  destruct (is_be_ok _ _ _ Hla) as (Hl1 & _ & _). destruct (is_be_ok _ _ _ Hlc) as (Hl2 & _ & _).
  destruct (is_be_ok _ _ _ Hla') as (Hl1' & _ & _). destruct (is_be_ok _ _ _ Hlc') as (Hl2' & _ & _).
  rewrite !app_assoc in Heq. apply app_inj_2 in Heq as [Heq ->]; [|lia].
  apply app_inj_2 in Heq as [Heq ->]; [|lia].
  pose proof (is_be_inj _ _ _ _ Hla Hla') as Ha. pose proof (is_be_inj _ _ _ _ Hlc Hlc') as Hc.
  assert (Hal : length aad = length aad') by lia. assert (Hcl : length ct = length ct') by lia.
  assert (Hpl : length pa = length pa').
  { rewrite (padded_eq _ _ Hpa), (padded_eq _ _ Hpa'), !pad_blocks_length. by rewrite Hal. }
  apply app_inj_1 in Heq as [-> ->]; [|done].
  split; by eapply padded_inj.
Qed.

Lemma tls_aad_length vers r aad : tls_aad vers r aad -> length aad = 13.
Proof.
  intros (s & v & l & -> & (H1 & _)%is_be_ok & (H2 & _)%is_be_ok & (H3 & _)%is_be_ok). rewrite !app_length. simpl. lia.
Qed.
Lemma tls_aad_inj vers vers' r r' aad : tls_aad vers r aad -> tls_aad vers' r' aad ->
  r_seq r = r_seq r' /\ ct_u8 (r_typ r) = ct_u8 (r_typ r') /\ vers = vers'.
Proof.
  intros (s & v & l & -> & Hs & Hv & Hl) (s' & v' & l' & Heq & Hs' & Hv' & Hl').
  destruct (is_be_ok _ _ _ Hs) as (H1 & _). destruct (is_be_ok _ _ _ Hs') as (H1' & _).
  destruct (is_be_ok _ _ _ Hv) as (H2 & _). destruct (is_be_ok _ _ _ Hv') as (H2' & _).
  apply app_inj_1 in Heq as [-> Heq]; [|lia]. injection Heq as -> Heq.
  apply app_inj_1 in Heq as [-> _]; [|lia]. split_and!; [by eapply is_be_inj|done|by eapply is_be_inj].
Qed.
Lemma make_aad_tls v r : (r_seq r < 2 ^ 64)%N ->
  tls_aad (version_number v) r (make_aad (r_seq r) (r_typ r) (version_of v) (length (r_ct r))).
Proof.
  intros Hs. eexists _, _, _. split; [done|]. split_and!.
  - by apply is_be_be.
  - replace (pv_u16 (version_of v)) with (version_number v) by (by destruct v). apply is_be_be. by destruct v.
  - apply is_be_be. apply N.mod_lt. done.
Qed.
Lemma tls_aad_eq v r aad : tls_aad (version_number v) r aad ->
  aad = make_aad (r_seq r) (r_typ r) (version_of v) (length (r_ct r)).
Proof.
  intros (s & w & l & -> & ->%is_be_eq & ->%is_be_eq & ->%is_be_eq). unfold make_aad.
  by replace (pv_u16 (version_of v)) with (version_number v) by (by destruct v).
Qed.

Section Check.
  Context (aes ghash_fn : list N -> list N -> list N) (key iv mac_key : list N) (v : tls_version).

  Lemma tag_right_eq r : record_sizes_ok r ->
    tag_right aes ghash_fn key iv mac_key v r <->
    length (r_nonce r) = 8 /\
    r_tag r = Some (zip_with N.lxor (ghash ghash_fn mac_key (make_aad (r_seq r) (r_typ r) (version_of v) (length (r_ct r))) (r_ct r))
                     (aes key (iv ++ r_nonce r ++ be 4 1))).
  Proof.
    intros [Hs Hc]. unfold tag_right, ghash. split.
    - intros (Hn & aad & input & Ha & Hi & ->). split; [done|].
      pose proof (tls_aad_length _ _ _ Ha) as Hl.
      rewrite (gcm_input_eq _ _ _ Hi) by (rewrite ?Hl; done). rewrite (tls_aad_eq _ _ _ Ha). done.
    - intros (Hn & ->). split; [done|]. pose proof (make_aad_tls v r Hs) as Ha.
      eexists _, _. split; [exact Ha|]. split; [|done]. apply ghash_data_gcm; [|done].
      by rewrite (tls_aad_length _ _ _ Ha).
  Qed.

  Lemma check_record_tags_iff rs : Forall record_sizes_ok rs ->
    check_record_tags aes ghash_fn key iv mac_key v rs = Ok tt <-> Forall (tag_right aes ghash_fn key iv mac_key v) rs.
  Proof.
    unfold check_record_tags, verify_tags, tag_proof_verify.
    induction rs as [|r rs IH]; intros Hs; [simpl; split; [constructor|done]|].
    apply Forall_cons in Hs as [Hr Hs]. specialize (IH Hs). rewrite Forall_cons, tag_right_eq by done. cbn [j0_blocks].
    destruct (length (r_nonce r) =? 8) eqn:En; cbn [negb].
    2: { split; [done|]. intros [[H _] _]. lia. }
    destruct (j0_blocks aes key iv rs) as [js|e|] eqn:Ej; cbn [obind tg_version tg_j0s tg_records] in *.
    - cbn [zip zip_with check_tags]. destruct (r_tag r) as [t|] eqn:Et.
      + case_bool_decide as Hb.
        * rewrite IH. subst t. split; [|tauto]. intros H. split; [|done]. split; [lia|done].
        * split; [done|]. intros [[_ [= ->]] _]. done.
      + split; [done|]. intros [[_ ?] _]. done.
    - split; [done|]. intros [_ Hf]. by apply IH in Hf.
    - split; [done|]. intros [_ Hf]. by apply IH in Hf.
  Qed.

  Lemma check_record_tags_no_panic rs : check_record_tags aes ghash_fn key iv mac_key v rs <> Panic.
  Proof.
    unfold check_record_tags, verify_tags, tag_proof_verify.
    assert (Hj : j0_blocks aes key iv rs <> Panic).
    { induction rs as [|r rs IH]; [done|]. cbn [j0_blocks]. destruct (negb _); [done|].
      by destruct (j0_blocks aes key iv rs). }
    destruct (j0_blocks aes key iv rs) as [js| |]; [|done|done]. cbn [obind]. clear Hj.
    cbn [tg_version tg_j0s tg_records].
    generalize (zip js rs). intros l. induction l as [|[j r] l IH]; [done|]. cbn [check_tags].
    destruct (r_tag r); [|done]. by case_bool_decide.
  Qed.
End Check.

Lemma C36_distinct_lemma v v' r r' aad aad' input :
  tls_aad (version_number v) r aad -> tls_aad (version_number v') r' aad' ->
  gcm_input aad (r_ct r) input -> gcm_input aad' (r_ct r') input ->
  r_seq r = r_seq r' /\ ct_u8 (r_typ r) = ct_u8 (r_typ r') /\ v = v' /\ r_ct r = r_ct r'.
Proof.
  intros Ha Ha' Hi Hi'. destruct (gcm_input_inj _ _ _ _ _ Hi Hi') as [<- Hc].
  destruct (tls_aad_inj _ _ _ _ _ Ha Ha') as (H1 & H2 & H3). split_and!; try done. by destruct v, v'.
Qed.
