(** Lemmas about tags made from shares. *)
From Verif.Lib Require Import Base.
From Verif Require Import CodecModel CodecSpec CodecLemmas TagModel TagSpec TagLemmas RecordModel ShareLemmas GhashModel GhashSpec GhashFieldLemmas GhashLemmas.

Lemma block_count_16 k : block_count (k * 16) = k.
Proof. unfold block_count. rewrite Nat.div_mul, Nat.mod_mul by lia. cbn. lia. Qed.
Lemma data_length aad ct : length (build_ghash_data aad ct) = (block_count (length aad) + block_count (length ct) + 1) * 16.
Proof. unfold build_ghash_data. rewrite !app_length, !pad_blocks_length, be_length. lia. Qed.
Lemma data_blocks aad ct : block_count (length (build_ghash_data aad ct)) = block_count (length aad) + block_count (length ct) + 1.
Proof. rewrite data_length. apply block_count_16. Qed.
Lemma data_bytes aad ct : bytes_ok aad -> bytes_ok ct -> bytes_ok (build_ghash_data aad ct).
Proof. intros Ha Hc. apply Forall_app. split; [by apply pad_bytes|]. apply Forall_app. split; [by apply pad_bytes|]. apply be_ok. Qed.
Lemma data_gcm aad ct : block_count (length aad) + block_count (length ct) + 1 <= max_power -> gcm_input aad ct (build_ghash_data aad ct).
Proof.
  intros H. pose proof (block_count_spec (length aad)). pose proof (block_count_spec (length ct)). unfold max_power in H.
  apply ghash_data_gcm; lia.
Qed.
Lemma within_limit_iff d : within_limit d <-> block_count (length (build_ghash_data (td_aad d) (td_ct d))) <= max_power.
Proof.
  rewrite data_blocks. unfold within_limit, max_power. split.
  - intros (input & (pa & pc & la & lc & -> & Ha%padded_eq & Hc%padded_eq & Hla & Hlc) & Hl). subst.
    apply is_be_ok in Hla as (Hla & _). apply is_be_ok in Hlc as (Hlc & _).
    rewrite !app_length, Hla, Hlc, !pad_blocks_length in Hl. lia.
  - intros H. exists (build_ghash_data (td_aad d) (td_ct d)). split; [by apply data_gcm|]. rewrite data_length. lia.
Qed.

Section Shared.
  Context (kl kf l f : list N).
  Hypothesis (Okl : bytes_ok kl) (Okf : bytes_ok kf) (Ll : length kl = 16) (Lf : length kf = 16).
  Hypothesis (Hlen : length l = max_power) (Hp : powers_shared (N.lxor (gf_of_block kl) (gf_of_block kf)) l f).
  Let key := zip_with N.lxor kl kf.

  Lemma tag_shares_sum j0s dl df : shared_data j0s dl df -> Forall within_limit dl ->
    exists a b, tag_shares (GHReadyShares l) dl = Ok a /\ tag_shares (GHReadyShares f) df = Ok b /\ length a = length dl /\ length b = length dl /\
      Forall (fun x => length x = 16) a /\ Forall (fun x => length x = 16) b /\
      Forall3 (fun j0 d t => is_gcm_tag key j0 (td_aad d) (td_ct d) t) j0s dl (zip_with (zip_with N.lxor) a b).
  Proof.
    induction 1 as [|j0 x y j0s dl df (Ea & Ec & Ha & Hc & Lx & Ly & Hj) H IH]; intros Hw.
    { exists [], []. split_and!; try done; constructor. }
    apply Forall_cons in Hw as [Hw1 Hw]. destruct (IH Hw) as (a & b & H1 & H2 & L1 & L2 & F1 & F2 & H3).
    pose proof (proj1 (within_limit_iff x) Hw1) as Hb.
    destruct (shared_ghash kl kf l f (build_ghash_data (td_aad x) (td_ct x))) as (g & g' & G1 & G2 & Lg & Lg' & Hg); try done.
    { by apply data_bytes. }
    exists (zip_with N.lxor (td_j0 x) g :: a), (zip_with N.lxor (td_j0 y) g' :: b).
    cbn [tag_shares]. rewrite <- Ea, <- Ec, G1, G2, H1, H2. cbn [obind length].
    split_and!; [done|done|congruence|congruence| | |].
    - constructor; [|done]. rewrite zip_with_length. lia.
    - constructor; [|done]. rewrite zip_with_length. lia.
    - cbn [zip_with]. constructor; [|done]. exists (build_ghash_data (td_aad x) (td_ct x)), (zip_with N.lxor g g').
      split; [apply data_gcm; rewrite <- data_blocks; done|]. split; [done|]. rewrite <- Hj.
      clear -Lx Ly Lg Lg'. revert Lx Ly Lg Lg'. generalize (td_j0 x), (td_j0 y), 16. intros p q n. revert p q g g'.
      induction n as [|n IH]; intros [|p0 p] [|q0 q] [|g0 g] [|h0 h] E1 E2 E3 E4; try done.
      cbn [zip_with]. f_equal; [|apply IH; cbn in *; lia].
      apply N.bits_inj. intros i. rewrite !N.lxor_spec.
      destruct (N.testbit p0 i), (N.testbit q0 i), (N.testbit g0 i), (N.testbit h0 i); done.
  Qed.
  Lemma leader_tags_right j0s dl df : dl <> [] -> shared_data j0s dl df -> Forall within_limit dl ->
    exists peer tags, tag_shares (GHReadyShares f) df = Ok peer /\ leader_tags (GHReadyShares l) dl peer = Ok (Some tags) /\
      Forall3 (fun j0 d t => is_gcm_tag key j0 (td_aad d) (td_ct d) t) j0s dl tags.
  Proof.
    intros Hne H Hw. destruct (tag_shares_sum _ _ _ H Hw) as (a & b & H1 & H2 & L1 & L2 & _ & _ & H3).
    exists b. eexists. split; [done|]. split; [|exact H3]. unfold leader_tags. destruct dl as [|d dl]; [done|].
    rewrite H1. cbn [obind]. by rewrite L1, L2, Nat.eqb_refl.
  Qed.
  Lemma leader_verify_right j0s dl df tags deltas : length tags = length dl -> length deltas = length dl ->
    Forall (fun x => length x = 16) deltas -> shared_data j0s dl df -> Forall within_limit dl ->
    exists peer right, tag_shares (GHReadyShares f) df = Ok peer /\
      Forall3 (fun j0 d t => is_gcm_tag key j0 (td_aad d) (td_ct d) t) j0s dl right /\
      (leader_verify (GHReadyShares l) (zip dl tags) (zip_with (zip_with N.lxor) peer deltas) = Ok tt <->
       tags = zip_with (zip_with N.lxor) right deltas).
  Proof.
    intros Lt Ld Fd H Hw. destruct (tag_shares_sum _ _ _ H Hw) as (a & b & H1 & H2 & L1 & L2 & F1 & F2 & H3).
    exists b. eexists. split; [done|]. split; [exact H3|].
    assert (zip_with (zip_with N.lxor) a (zip_with (zip_with N.lxor) b deltas) = zip_with (zip_with N.lxor) (zip_with (zip_with N.lxor) a b) deltas) as E.
    { clear. revert b deltas. induction a as [|x a IH]; intros [|y b] [|z ds]; try done. cbn [zip_with]. by rewrite IH, xor_assoc. }
    unfold leader_verify. destruct dl as [|d dl].
    { destruct tags; [|done]. cbn. destruct deltas; [|done]. split; [|done]. intros _. destruct a; [done|]. by destruct b. }
    destruct tags as [|t tags]; [done|]. cbn [zip zip_with]. change ((d, t) :: zip_with pair dl tags) with (zip (d :: dl) (t :: tags)).
    assert (map fst (zip (d :: dl) (t :: tags)) = d :: dl) as -> by (rewrite fst_zip; [done|lia]).
    assert (map snd (zip (d :: dl) (t :: tags)) = t :: tags) as -> by (rewrite snd_zip; [done|lia]).
    rewrite H1. cbn [obind]. rewrite zip_with_length, L1, L2, Ld. rewrite Nat.min_id, Nat.eqb_refl. cbn [negb]. rewrite E.
    case_bool_decide; split; done.
  Qed.
End Shared.
Lemma gh_compute_no_panic s input : length s = max_power -> gh_compute (GHReadyShares s) input <> Panic.
Proof.
  intros Hs. unfold gh_compute. fold (pad_blocks input). destruct (Nat.ltb_spec max_power (block_count (length input))); [done|].
  destruct (chunks16_spec (block_count (length input)) (pad_blocks input) (pad_blocks_length input)) as (_ & _ & ->).
  destruct (Nat.ltb_spec (length s) (block_count (length input))); [lia|done].
Qed.
Lemma tag_shares_limit s ds d : length s = max_power -> d ∈ ds -> ~ within_limit d ->
  tag_shares (GHReadyShares s) ds = Err (GTGhash GHInputLength).
Proof.
  intros Hs Hd Hn. induction Hd as [x ds|x y ds Hx IH]; cbn [tag_shares].
  - unfold gh_compute. rewrite within_limit_iff in Hn.
    destruct (Nat.ltb_spec max_power (block_count (length (build_ghash_data (td_aad x) (td_ct x))))); [done|lia].
  - pose proof (gh_compute_no_panic s (build_ghash_data (td_aad y) (td_ct y)) Hs). destruct (gh_compute _ _) as [g|e|] eqn:E; [| |done].
    + by rewrite (IH Hn).
    + unfold gh_compute in E. destruct (_ <? _); [by injection E as <-|]. by destruct (_ <? _).
Qed.

(** ** What the theorems state *)
Lemma C45_ghash_lemma a2ml m2al a2mf m2af kl kf sl sf ol of_ input :
  bytes_ok kl -> bytes_ok kf -> length kl = 16 -> length kf = 16 -> conversion_done a2ml m2al a2mf m2af kl kf ->
  set_up a2ml m2al kl = (sl, ol) -> set_up a2mf m2af kf = (sf, of_) -> bytes_ok input -> length input <= 1026 * 16 ->
  exists a b, gh_compute sl input = Ok a /\ gh_compute sf input = Ok b /\ length a = 16 /\ length b = 16 /\
    is_ghash (zip_with N.lxor kl kf) input (zip_with N.lxor a b).
Proof.
  intros Okl Okf Ll Lf H Hl Hf Oi Li. destruct (set_up_shared _ _ _ _ _ _ Ll Lf H) as (l & f & H1 & H2 & H3 & H4).
  rewrite H1 in Hl. rewrite H2 in Hf. injection Hl as <- <-. injection Hf as <- <-.
  apply shared_ghash; try done. pose proof (block_count_spec (length input)). unfold max_power. lia.
Qed.
Lemma C45_limit2_lemma a2ml m2al a2mf m2af kl kf sl sf ol of_ input : length kl = 16 -> length kf = 16 -> conversion_done a2ml m2al a2mf m2af kl kf ->
  set_up a2ml m2al kl = (sl, ol) -> set_up a2mf m2af kf = (sf, of_) -> 1026 * 16 < length input ->
  gh_compute sl input = Err GHInputLength /\ gh_compute sf input = Err GHInputLength.
Proof.
  intros Ll Lf H Hl Hf Li. destruct (set_up_shared _ _ _ _ _ _ Ll Lf H) as (l & f & H1 & H2 & H3 & H4).
  rewrite H1 in Hl. rewrite H2 in Hf. injection Hl as <- <-. injection Hf as <- <-. pose proof (block_count_spec (length input)).
  unfold gh_compute. destruct (Nat.ltb_spec max_power (block_count (length input))); [done|unfold max_power in *; lia].
Qed.
Lemma C45_tags_lemma a2ml m2al a2mf m2af kl kf sl sf ol of_ j0s dl df :
  bytes_ok kl -> bytes_ok kf -> length kl = 16 -> length kf = 16 -> conversion_done a2ml m2al a2mf m2af kl kf ->
  set_up a2ml m2al kl = (sl, ol) -> set_up a2mf m2af kf = (sf, of_) -> dl <> [] -> shared_data j0s dl df -> Forall within_limit dl ->
  exists peer tags, tag_shares sf df = Ok peer /\ leader_tags sl dl peer = Ok (Some tags) /\
    Forall3 (fun j0 d t => is_gcm_tag (zip_with N.lxor kl kf) j0 (td_aad d) (td_ct d) t) j0s dl tags.
Proof.
  intros Okl Okf Ll Lf H Hl Hf. destruct (set_up_shared _ _ _ _ _ _ Ll Lf H) as (l & f & H1 & H2 & H3 & H4).
  rewrite H1 in Hl. rewrite H2 in Hf. injection Hl as <- <-. injection Hf as <- <-. by apply leader_tags_right.
Qed.
Lemma C45_verify_lemma a2ml m2al a2mf m2af kl kf sl sf ol of_ j0s dl df tags deltas :
  bytes_ok kl -> bytes_ok kf -> length kl = 16 -> length kf = 16 -> conversion_done a2ml m2al a2mf m2af kl kf ->
  set_up a2ml m2al kl = (sl, ol) -> set_up a2mf m2af kf = (sf, of_) -> length tags = length dl -> length deltas = length dl ->
  Forall (fun x => length x = 16) deltas -> shared_data j0s dl df -> Forall within_limit dl ->
  exists peer right, tag_shares sf df = Ok peer /\
    Forall3 (fun j0 d t => is_gcm_tag (zip_with N.lxor kl kf) j0 (td_aad d) (td_ct d) t) j0s dl right /\
    (leader_verify sl (zip dl tags) (zip_with (zip_with N.lxor) peer deltas) = Ok tt <-> tags = zip_with (zip_with N.lxor) right deltas).
Proof.
  intros Okl Okf Ll Lf H Hl Hf. destruct (set_up_shared _ _ _ _ _ _ Ll Lf H) as (l & f & H1 & H2 & H3 & H4).
  rewrite H1 in Hl. rewrite H2 in Hf. injection Hl as <- <-. injection Hf as <- <-. by apply leader_verify_right.
Qed.
Lemma leader_verify_length sl ds peer : ds <> [] -> length peer <> length ds -> leader_verify sl ds peer <> Ok tt.
Proof.
  intros Hne Hl. unfold leader_verify. destruct ds as [|d ds]; [done|]. destruct (tag_shares sl (map fst (d :: ds))) as [own|e|] eqn:E; try done.
  cbn [obind]. assert (length own = length (d :: ds)) as Ho.
  { rewrite <- (map_length fst (d :: ds)). clear -E. revert own E. generalize (map fst (d :: ds)). intros l. induction l as [|x l IH]; intros own; cbn [tag_shares].
    - by intros [= <-].
    - destruct (gh_compute _ _); try done. intros (t & Ht & [= <-])%obind_Ok. cbn. f_equal. by apply IH. }
  rewrite Ho. by rewrite (proj2 (Nat.eqb_neq _ _) Hl).
Qed.
(** A conversion in which the leader's multiplicative share is 1. *)
Lemma trivial_conversion kl kf : conversion_done (fun _ => 1%N) (fun l => replicate 512 0%N)
  (fun _ => N.lxor (gf_of_block kl) (gf_of_block kf)) (fun l => l) kl kf.
Proof.
  set (h := N.lxor (gf_of_block kl) (gf_of_block kf)). assert (gf_ok h) as Oh by (apply gf_ok_lxor; apply rev_ok).
  unfold conversion_done, honest_conversion. fold h. split_and!; [done|done|by apply mul_1_l| |by rewrite odd_powers_length|done].
  apply Forall2_same_length_lookup. split; [by rewrite !zip_with_length, !odd_powers_length|].
  intros i p a (x & y & -> & Hx & Hy)%lookup_zip_with_Some (u & v & -> & Hu & Hv)%lookup_zip_with_Some. cbn [fst snd].
  assert (i < 512) as Hi by (apply lookup_lt_Some in Hu; by rewrite replicate_length in Hu).
  rewrite odd_powers_lookup in Hx, Hy, Hv by done. apply (inj Some) in Hx, Hy, Hv.
  apply lookup_replicate in Hu as [-> _]. subst x y v.
  assert (gf_power 1 (2 * i + 3) = 1%N) as ->.
  { generalize (2 * i + 3). intros n. induction n as [|n IH]; [done|]. cbn [gf_power]. by rewrite IH. }
  split; [done|]. split; [by apply power_ok|]. rewrite mul_1_l by (by apply power_ok). apply N.lxor_0_l.
Qed.
