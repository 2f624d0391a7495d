(** Proofs about the verification of plaintext, the hash commitments and the output of the verifier
    (C33-C35). *)
From Verif.Lib Require Import Base Ranges RangesFacts.
From Verif Require Import TranscriptModel TranscriptProofs ProofModel CodecModel AttestModel TlsModel
  AuthModel AuthSpec AuthMapLemmas AuthKsLemmas AuthLemmas.

Lemma all_ct_nil_nonempty rs i : i < length (all_ct rs) -> rs <> [].
Proof. intros H ->. simpl in H. lia. Qed.

Lemma lookup_prefix_eq (m m' : list N) x v : m `prefix_of` m' -> m !! x = Some v -> m' !! x = Some v.
Proof. intros [e ->] H. by apply lookup_app_l_Some. Qed.

Section Ct.
  Context (aes : list N -> list N -> list N) (empty_eq : bool) (key iv : list N) (Haes : aes_ok aes).

  Lemma alloc_ciphertext_ok m p ranges rs : rs_ok ranges -> nonces_ok rs ->
    rs_end ranges <= length (all_ct rs) -> p + rs_len ranges <= length m ->
    exists m' q, alloc_ciphertext aes key iv m (layout p ranges) (rec_params_of rs) = Ok (m', layout q ranges) /\
      m `prefix_of` m' /\ q + rs_len ranges <= length m' /\
      forall i x y, recorded (layout p ranges) i x -> recorded (layout q ranges) i y ->
        exists k v, keystream_at aes key iv rs i = Some k /\ m !! x = Some v /\ m' !! y = Some (N.lxor v k).
  Proof.
    intros Hok Hn Hend Hp. assert (Hne := rs_ok_nonempty 0 _ Hok).
    pose proof (proj1 (rs_end_le_ok _ _ Hok) Hend) as Hlt.
    destruct (decide (ranges = [])) as [->|Hr].
    { exists m, p. cbn [layout alloc_ciphertext]. split_and!; [done|done|done|].
      intros i x y (? & ? & []%elem_of_nil & _). }
    unfold alloc_ciphertext. destruct (layout p ranges) as [|e l] eqn:El; [by apply layout_nil in El|].
    rewrite <- El. clear e l El. rewrite layout_keys by done. rewrite rs_from_canonical by done.
    destruct (alloc_keystream_spec aes key iv Haes rs Hn 0 m [] ranges) as (m1 & new & d & Hk & Hpre & Hrd & HF);
      [done| |done|].
    { destruct ranges as [|[a b] t]; [done|]. destruct Hok as (_ & Hab & _).
      eapply (all_ct_nil_nonempty rs a), Hlt, in_rs_cons. left. unfold in_range. simpl. lia. }
    rewrite Hk. cbn [obind]. pose proof (Forall2_length _ _ _ HF) as Hdl. rewrite rs_values_length in Hdl.
    pose proof (prefix_length _ _ Hpre) as Hlen.
    rewrite read_layout by lia. cbn [obind]. rewrite app_nil_l, Hrd. cbn [obind].
    rewrite take_length, drop_length, <- Hdl.
    replace (min (rs_len ranges) (length m1 - p)) with (rs_len ranges) by lia.
    rewrite !Nat.eqb_refl. cbn [andb negb vm_push].
    set (pt := take (rs_len ranges) (drop p m1)).
    assert (Hptl : length pt = rs_len ranges) by (unfold pt; rewrite take_length, drop_length; lia).
    assert (Hxl : length (xor_bytes pt d) = rs_len ranges).
    { unfold xor_bytes. rewrite zip_with_length. lia. }
    rewrite Hxl, piece_map_layout by done. cbn [lift_panic obind].
    eexists _, _. split; [done|]. split_and!.
    - by apply prefix_app_r.
    - rewrite app_length. lia.
    - intros i x y Hx Hy. rewrite layout_recorded in Hx by done. rewrite layout_recorded in Hy by done.
      destruct Hx as (k & Hki & ->), Hy as (k' & Hki' & ->).
      assert (k' = k) as -> by (eapply NoDup_lookup; [by apply rs_values_NoDup|done|done]).
      destruct (Forall2_lookup_l _ _ _ _ _ HF Hki) as (b & Hb & Hks). rewrite Nat.sub_0_r in Hks.
      assert (Hkl : k < rs_len ranges) by (rewrite <- rs_values_length; by eapply lookup_lt_Some).
      destruct (lookup_lt_is_Some_2 m (p + k)) as [v Hv]; [lia|].
      exists b, v. split_and!; [done|done|].
      rewrite lookup_app_r by lia. replace (length m1 + k - length m1) with k by lia.
      unfold xor_bytes. rewrite lookup_zip_with, Hb. unfold pt.
      rewrite lookup_take, lookup_drop by lia. rewrite (lookup_prefix_eq _ _ _ _ Hpre Hv). done.
  Qed.

  Lemma alloc_ciphertext_oob m p ranges rs : rs_ok ranges -> nonces_ok rs -> length (all_ct rs) < rs_end ranges ->
    alloc_ciphertext aes key iv m (layout p ranges) (rec_params_of rs) = Err AOutOfBounds.
  Proof.
    intros Hok Hn Hend. assert (Hne := rs_ok_nonempty 0 _ Hok).
    destruct (decide (ranges = [])) as [->|Hr].
    { unfold rs_end in Hend. simpl in Hend. lia. }
    unfold alloc_ciphertext. destruct (layout p ranges) as [|e l] eqn:El; [by apply layout_nil in El|].
    rewrite <- El. clear e l El. rewrite layout_keys by done. rewrite rs_from_canonical by done.
    rewrite (alloc_keystream_oob aes key iv Haes rs Hn); [done|done|].
    destruct (decide (Forall (fun i => i < length (all_ct rs)) (rs_values ranges))) as [Hall|Hnot].
    - exfalso. assert (rs_end ranges <= length (all_ct rs)); [|lia]. apply rs_end_le_ok; [done|].
      intros i Hi. rewrite Forall_forall in Hall. apply Hall. by apply in_rs_values.
    - apply not_Forall_Exists in Hnot; [|apply _]. apply Exists_exists in Hnot as (i & Hi & Hge).
      exists i. split; [by apply in_rs_values|]. simpl in Hge. lia.
  Qed.

  (** ** [verify_plaintext] *)
  Definition vp_good (rs : list tls_record) (wit : nat -> N) (m : mem) (plain : list N)
      (reveal commit : rangeset) (m' : mem) (refs : refmap) (pf : plain_proof) : Prop :=
    m `prefix_of` m' /\
    (exists ranges, rs_ok ranges /\ refs = layout (length m) ranges /\
      (forall i, in_rs i commit -> in_rs i ranges) /\ length m + rs_len ranges <= length m') /\
    (forall i x, recorded refs i x -> in_rs i reveal \/ in_rs i commit) /\
    (forall i x, recorded refs i x ->
      (in_rs i reveal -> m' !! x = plain !! i) /\ (~ in_rs i reveal -> m' !! x = Some (wit x))) /\
    forall m'', m' `prefix_of` m'' ->
      (plain_proof_verify aes key iv m'' pf = Ok tt \/ plain_proof_verify aes key iv m'' pf = Err AInvalidPlaintext) /\
      (plain_proof_verify aes key iv m'' pf = Ok tt <->
        (forall i p, in_rs i reveal -> plain !! i = Some p -> encrypts aes key iv rs i p) /\
        (forall i v, in_rs i commit -> value_at m' refs i v -> encrypts aes key iv rs i v)).

  Lemma reveals_all_spec reveal n : reveals_all empty_eq reveal n = true ->
    forall i, in_rs i reveal <-> i < n.
  Proof.
    unfold reveals_all. intros [H|H]%orb_true_iff i.
    - apply bool_decide_eq_true in H as ->. rewrite in_rs_cons. unfold in_range. simpl. rewrite in_rs_nil. lia.
    - apply andb_true_iff in H as [[_ H]%andb_true_iff H2]. unfold rs_empty in H2.
      destruct reveal; [|done]. rewrite in_rs_nil. lia.
  Qed.

  Lemma verify_plaintext_in wit m plain rs reveal commit :
    nonces_ok rs -> rs_ok reveal -> rs_ok commit ->
    length plain = length (all_ct rs) -> rs_end reveal <= length plain -> rs_end commit <= length plain ->
    exists m' refs pf, verify_plaintext aes empty_eq key iv wit m plain (all_ct rs) rs reveal commit = Ok (m', refs, pf) /\
      vp_good rs wit m plain reveal commit m' refs pf.
  Proof.
    intros Hn Hrev Hcom Hlen Hre Hce. unfold verify_plaintext.
    destruct (reveals_all empty_eq reveal (length plain)) eqn:Eall.
    - pose proof (reveals_all_spec _ _ Eall) as Hin.
      rewrite alloc_plaintext_ok by done. cbn [obind].
      destruct (assign_layout m plain commit Hcom Hce) as (m2 & -> & Hpre & Hl2 & Hx2). cbn [obind].
      eexists _, _, _. split; [done|]. split_and!.
      + done.
      + exists commit. split_and!; [done|done|done|lia].
      + intros i x Hx. right. by eapply recorded_in.
      + intros i x Hx. split; [intros _; by apply Hx2|]. intros Hno. destruct Hno. apply Hin.
        apply (proj1 (rs_end_le_ok _ _ Hcom) Hce). by eapply recorded_in.
      + intros m'' Hp''. cbn [plain_proof_verify].
        destruct (verify_with_key_spec aes key iv Haes rs Hn 0 plain (all_ct rs)) as [Hor Hiff]; [lia|done| |].
        { rewrite drop_0, (drop_ge (all_ct rs)) by lia. by rewrite app_nil_r. }
        split; [done|]. rewrite Hiff. clear Hor Hiff. split.
        * intros Hall. split.
          -- intros i p Hi Hp. apply Hall; [|done]. rewrite <- Hlen. by apply Hin.
          -- intros i v Hi (x & Hx & Hv). rewrite (Hx2 _ _ Hx) in Hv.
             apply Hall; [|done]. rewrite <- Hlen. by eapply lookup_lt_Some.
        * intros [Hall _] i p Hi Hp. apply Hall; [|done]. apply Hin. lia.
    - assert (Hok : rs_ok (rs_union commit reveal)) by (by apply rs_union_ok).
      assert (Hin : forall i, in_rs i (rs_union commit reveal) <-> in_rs i commit \/ in_rs i reveal)
        by (intros i; by apply in_rs_union).
      assert (Hend : rs_end (rs_union commit reveal) <= length (all_ct rs)).
      { apply rs_end_le_ok; [done|]. intros i [Hi|Hi]%Hin.
        - rewrite <- Hlen. by apply (proj1 (rs_end_le_ok _ _ Hcom) Hce).
        - rewrite <- Hlen. by apply (proj1 (rs_end_le_ok _ _ Hrev) Hre). }
      rewrite alloc_plaintext_ok by done. cbn [obind].
      destruct (zk_phase wit m plain reveal commit Hrev Hcom Hre) as
        (hidden & shown & m2 & m3 & -> & H2 & H3 & H4 & Hpre & Hl3 & Hx3). cbn [obind].
      rewrite H2. cbn [obind]. rewrite H3. cbn [obind]. rewrite H4. cbn [obind].
      destruct (alloc_ciphertext_ok m3 (length m) (rs_union commit reveal) rs) as (m4 & q & -> & Hpre4 & Hq & Hct);
        [done|done|done|lia|]. cbn [obind].
      destruct (expected_layout m4 (all_ct rs) (rs_union commit reveal) q Hok Hend Hq) as (ex & -> & Hex).
      cbn [lift_panic obind]. eexists _, _, _. split; [done|].
      pose proof (prefix_length _ _ Hpre4) as Hlen4.
      assert (Hval : forall i x, recorded (layout (length m) (rs_union commit reveal)) i x ->
        m4 !! x = m3 !! x).
      { intros i x Hx. destruct (recorded_bounds _ _ _ _ Hok Hx).
        destruct (lookup_lt_is_Some_2 m3 x) as [v Hv]; [lia|]. rewrite Hv. by eapply lookup_prefix_eq. }
      split_and!.
      + by etrans.
      + exists (rs_union commit reveal). split_and!; [done|done| |lia]. intros i Hi. apply Hin. by left.
      + intros i x Hx. pose proof (recorded_in _ _ _ _ Hok Hx) as Hi%Hin. tauto.
      + intros i x Hx. rewrite (Hval _ _ Hx). by apply Hx3.
      + intros m'' Hp''. cbn [plain_proof_verify]. destruct (Hex m'' Hp'') as [Hor Hiff]. split; [done|].
        rewrite Hiff. clear Hor Hiff Hex.
        assert (Hkey : forall i x y v, recorded (layout (length m) (rs_union commit reveal)) i x ->
          recorded (layout q (rs_union commit reveal)) i y -> m3 !! x = Some v ->
          all_ct rs !! i = m4 !! y <-> encrypts aes key iv rs i v).
        { intros i x y v Hx Hy Hv. destruct (Hct i x y Hx Hy) as (k & v' & Hk & Hv' & Hy').
          rewrite Hv in Hv'. injection Hv' as <-. rewrite Hy'. unfold encrypts. rewrite Hk. split.
          - intros ->. by exists k, (N.lxor v k).
          - intros (k' & c & [= <-] & -> & ->). done. }
        assert (Hv3 : forall i x, recorded (layout (length m) (rs_union commit reveal)) i x -> exists v, m3 !! x = Some v).
        { intros i x Hx. destruct (recorded_bounds _ _ _ _ Hok Hx). apply lookup_lt_is_Some_2. lia. }
        split.
        * intros Hall. split.
          -- intros i p Hi Hp. destruct (recorded_total (length m) _ i Hok) as [x Hx]; [apply Hin; by right|].
             destruct (recorded_total q _ i Hok) as [y Hy]; [apply Hin; by right|].
             eapply Hkey; [done|done| |by apply Hall]. rewrite <- Hp. by apply (Hx3 i x Hx).
          -- intros i v Hi (x & Hx & Hv). rewrite (Hval _ _ Hx) in Hv.
             destruct (recorded_total q _ i Hok) as [y Hy]; [apply Hin; by left|].
             eapply Hkey; [done|done|done|by apply Hall].
        * intros [Ha Hb] i y Hy. pose proof (recorded_in _ _ _ _ Hok Hy) as Hi.
          destruct (recorded_total (length m) _ i Hok Hi) as [x Hx]. destruct (Hv3 _ _ Hx) as [v Hv].
          eapply Hkey; [done|done|done|]. apply Hin in Hi as [Hi|Hi].
          -- apply Hb; [done|]. exists x. split; [done|]. by rewrite (Hval _ _ Hx).
          -- apply Ha; [done|]. rewrite <- Hv. symmetry. by apply (Hx3 i x Hx).
  Qed.

  Lemma verify_plaintext_oob_zk wit m plain rs reveal commit :
    nonces_ok rs -> rs_ok reveal -> rs_ok commit ->
    length plain = length (all_ct rs) -> rs_end reveal <= length plain -> length plain < rs_end commit ->
    reveals_all empty_eq reveal (length plain) = false ->
    verify_plaintext aes empty_eq key iv wit m plain (all_ct rs) rs reveal commit = Err AOutOfBounds.
  Proof.
    intros Hn Hrev Hcom Hlen Hre Hce Eall. unfold verify_plaintext. rewrite Eall.
    assert (Hok : rs_ok (rs_union commit reveal)) by (by apply rs_union_ok).
    assert (Hend : length (all_ct rs) < rs_end (rs_union commit reveal)).
    { destruct (decide (rs_end (rs_union commit reveal) <= length (all_ct rs))) as [Hd|Hd]; [|lia].
      exfalso. assert (rs_end commit <= length plain); [|lia]. apply rs_end_le_ok; [done|].
      intros i Hi. rewrite Hlen. apply (proj1 (rs_end_le_ok _ _ Hok) Hd). apply in_rs_union; [done|by left]. }
    rewrite alloc_plaintext_ok by done. cbn [obind].
    destruct (zk_phase wit m plain reveal commit Hrev Hcom Hre) as
      (hidden & shown & m2 & m3 & -> & H2 & H3 & H4 & Hpre & Hl3 & Hx3). cbn [obind].
    rewrite H2. cbn [obind]. rewrite H3. cbn [obind]. rewrite H4. cbn [obind].
    rewrite alloc_ciphertext_oob by done. done.
  Qed.

  Lemma assign_plain_oob plain refs : forall m,
    (exists i r, (i, r) ∈ refs /\ length plain < i + v_len r) ->
    (forall i r, (i, r) ∈ refs -> v_base r + v_len r <= length m) ->
    assign_plain m plain refs = Panic.
  Proof.
    induction refs as [|[i r] refs IH]; intros m (j & s & Hj & Hlt) Hb; [by apply elem_of_nil in Hj|].
    cbn [assign_plain]. destruct (slice plain i (i + v_len r)) as [d|] eqn:E; [|done].
    apply slice_inv in E as (H1 & H2 & H3 & _). cbn [or_panic obind].
    destruct (vm_assign_ok m r d) as (m1 & -> & Hl1 & _); [apply (Hb i); by left| |].
    { rewrite H3, take_length, drop_length. lia. }
    cbn [obind]. apply IH.
    - apply elem_of_cons in Hj as [[= -> ->]|Hj]; [lia|]. by exists j, s.
    - intros k t Hk. rewrite Hl1. apply (Hb k). by right.
  Qed.

  Lemma verify_plaintext_oob_key wit m plain rs reveal commit :
    rs_ok commit -> length plain < rs_end commit -> reveals_all empty_eq reveal (length plain) = true ->
    verify_plaintext aes empty_eq key iv wit m plain (all_ct rs) rs reveal commit = Panic.
  Proof.
    intros Hcom Hce Eall. unfold verify_plaintext. rewrite Eall. rewrite alloc_plaintext_ok by done. cbn [obind].
    rewrite assign_plain_oob; [done| |].
    - assert (Hex : exists i, in_rs i commit /\ length plain <= i).
      { destruct (decide (Forall (fun i => i < length plain) (rs_values commit))) as [Hall|Hnot].
        - exfalso. assert (rs_end commit <= length plain); [|lia]. apply rs_end_le_ok; [done|].
          intros i Hi. rewrite Forall_forall in Hall. apply Hall. by apply in_rs_values.
        - apply not_Forall_Exists in Hnot; [|apply _]. apply Exists_exists in Hnot as (i & Hi & Hge).
          exists i. split; [by apply in_rs_values|]. simpl in Hge. lia. }
      destruct Hex as (i & Hi & Hge). destruct (recorded_total (length m) commit i Hcom Hi) as (x & j & r & Hj & Hr & _).
      exists j, r. split; [done|lia].
    - intros i r Hi. destruct (layout_bounds _ _ _ _ Hcom Hi). rewrite app_length, replicate_length. lia.
  Qed.

  Lemma verify_plaintext_cases wit m plain rs reveal commit :
    nonces_ok rs -> rs_ok reveal -> rs_ok commit ->
    length plain = length (all_ct rs) -> rs_end reveal <= length plain ->
    (rs_end commit <= length plain /\
     exists m' refs pf, verify_plaintext aes empty_eq key iv wit m plain (all_ct rs) rs reveal commit = Ok (m', refs, pf) /\
       vp_good rs wit m plain reveal commit m' refs pf) \/
    (length plain < rs_end commit /\ reveals_all empty_eq reveal (length plain) = false /\
     verify_plaintext aes empty_eq key iv wit m plain (all_ct rs) rs reveal commit = Err AOutOfBounds) \/
    (length plain < rs_end commit /\ reveals_all empty_eq reveal (length plain) = true /\
     verify_plaintext aes empty_eq key iv wit m plain (all_ct rs) rs reveal commit = Panic).
  Proof.
    intros Hn Hrev Hcom Hlen Hre. destruct (decide (rs_end commit <= length plain)) as [Hce|Hce].
    - left. split; [done|]. by apply verify_plaintext_in.
    - right. destruct (reveals_all empty_eq reveal (length plain)) eqn:E; [right|left]; (split_and!; [lia|done|]).
      + apply verify_plaintext_oob_key; [done|lia|done].
      + apply verify_plaintext_oob_zk; (done || lia).
  Qed.

  (** ** The honest prover *)
  Definition wit_of (m : mem) (x : nat) : N := default 0%N (m !! x).

  Lemma prove_plaintext_ok m plain rs reveal commit :
    nonces_ok rs -> rs_ok reveal -> rs_ok commit ->
    length plain = length (all_ct rs) -> rs_end reveal <= length plain -> rs_end commit <= length plain ->
    exists m' refs, prove_plaintext aes empty_eq key iv m plain rs reveal commit = Ok (m', refs) /\
      m `prefix_of` m' /\
      (forall i v, value_at m' refs i v -> plain !! i = Some v) /\
      forall mf wplain, m' `prefix_of` mf -> length wplain = length plain ->
        (forall i, in_rs i reveal -> wplain !! i = plain !! i) ->
        exists pf, verify_plaintext aes empty_eq key iv (wit_of mf) m wplain (all_ct rs) rs reveal commit = Ok (m', refs, pf).
  Proof.
    intros Hn Hrev Hcom Hlen Hre Hce. unfold prove_plaintext, verify_plaintext.
    destruct (reveals_all empty_eq reveal (length plain)) eqn:Eall.
    - rewrite alloc_plaintext_ok by done. cbn [obind].
      destruct (assign_layout m plain commit Hcom Hce) as (m2 & Hm2 & Hpre & Hl2 & Hx2). rewrite Hm2. cbn [obind].
      eexists _, _. split_and!; [done|done| |].
      { intros i v (x & Hx & Hv). by rewrite (Hx2 _ _ Hx) in Hv. }
      intros mf wplain Hmf Hwl Hw. rewrite Hwl, Eall. rewrite alloc_plaintext_ok by done. cbn [obind].
      assert (wplain = plain) as ->.
      { apply list_eq. intros i. destruct (decide (i < length plain)) as [Hi|Hi].
        - apply Hw. by apply (reveals_all_spec _ _ Eall).
        - rewrite !lookup_ge_None_2 by lia. done. }
      rewrite Hm2. cbn [obind]. by eexists.
    - assert (Hok : rs_ok (rs_union commit reveal)) by (by apply rs_union_ok).
      assert (Hin : forall i, in_rs i (rs_union commit reveal) <-> in_rs i commit \/ in_rs i reveal)
        by (intros i; by apply in_rs_union).
      assert (Hend : rs_end (rs_union commit reveal) <= length plain).
      { apply rs_end_le_ok; [done|]. intros i [Hi|Hi]%Hin.
        - by apply (proj1 (rs_end_le_ok _ _ Hcom) Hce).
        - by apply (proj1 (rs_end_le_ok _ _ Hrev) Hre). }
      rewrite alloc_plaintext_ok by done. cbn [obind].
      destruct (zk_phase (fun _ => 0%N) m plain reveal commit Hrev Hcom Hre) as
        (hidden & shown & _ & _ & -> & _ & -> & _). cbn [obind].
      destruct (assign_layout m plain (rs_union commit reveal) Hok Hend) as (m2 & Hm2 & Hpre & Hl2 & Hx2).
      rewrite Hm2. cbn [obind].
      destruct (alloc_ciphertext_ok m2 (length m) (rs_union commit reveal) rs) as (m4 & q & Hct & Hpre4 & Hq & _);
        [done|done|lia|lia|]. rewrite Hct. cbn [obind].
      eexists _, _. split_and!; [done|by etrans| |].
      { intros i v (x & Hx & Hv). destruct (recorded_bounds _ _ _ _ Hok Hx).
        destruct (lookup_lt_is_Some_2 m2 x) as [w Hw]; [lia|].
        rewrite (lookup_prefix_eq _ _ _ _ Hpre4 Hw) in Hv. injection Hv as <-. by rewrite <- (Hx2 _ _ Hx). }
      intros mf wplain Hmf Hwl Hw. rewrite Hwl, Eall. rewrite alloc_plaintext_ok by done. cbn [obind].
      destruct (zk_phase (wit_of mf) m wplain reveal commit Hrev Hcom ltac:(lia)) as
        (hidden' & shown' & w2 & w3 & -> & H2 & H3 & H4 & Hpre3 & Hl3 & Hx3). cbn [obind].
      rewrite H2. cbn [obind]. rewrite H3. cbn [obind]. rewrite H4. cbn [obind].
      assert (w3 = m2) as ->.
      { apply list_eq. intros x. destruct (decide (x < length m)) as [Hx|Hx].
        - destruct (lookup_lt_is_Some_2 m x Hx) as [v Hv].
          by rewrite (lookup_prefix_eq _ _ _ _ Hpre Hv), (lookup_prefix_eq _ _ _ _ Hpre3 Hv).
        - destruct (decide (x < length m + rs_len (rs_union commit reveal))) as [Hx'|Hx'].
          2: { rewrite !lookup_ge_None_2 by lia. done. }
          destruct (address_total (length m) _ x Hok ltac:(lia)) as [i Hi].
          rewrite (Hx2 _ _ Hi). destruct (Hx3 _ _ Hi) as [Ha Hb].
          destruct (in_rs_dec i reveal) as [Hr|Hr].
          + rewrite (Ha Hr). by apply Hw.
          + rewrite (Hb Hr). unfold wit_of.
            destruct (lookup_lt_is_Some_2 m2 x) as [v Hv]; [lia|].
            rewrite (lookup_prefix_eq _ _ _ _ Hmf (lookup_prefix_eq _ _ _ _ Hpre4 Hv)).
            rewrite <- (Hx2 _ _ Hi), Hv. done. }
      rewrite Hct. cbn [obind].
      destruct (expected_layout m4 (all_ct rs) (rs_union commit reveal) q Hok ltac:(lia) Hq) as (ex & -> & _).
      cbn [lift_panic obind]. by eexists.
  Qed.
End Ct.

(** ** Hash commitments *)
Lemma gather_ok p ranges idx : rs_ok ranges -> rs_ok idx -> (forall i, in_rs i idx -> in_rs i ranges) ->
  exists rs, gather (layout p ranges) idx = Ok rs /\
  forall mm, p + rs_len ranges <= length mm -> exists msg, vm_read_all mm rs = Ok msg /\
    Forall2 (fun i b => value_at mm (layout p ranges) i b) (rs_values idx) msg.
Proof.
  intros Hok Hidx Hsub. assert (Hne := rs_ok_nonempty 0 idx Hidx). clear Hidx.
  induction idx as [|[a b] idx IH].
  { exists []. split; [done|]. intros mm _. exists []. split; [done|constructor]. }
  apply Forall_cons in Hne as [Hab Hne]. simpl in Hab.
  destruct IH as (rs & Hg & Hrs); [intros i Hi; apply Hsub, in_rs_cons; by right|done|].
  destruct (layout_in_one_piece p ranges a b Hok Hab) as [q Hq].
  { intros i Hi. apply Hsub, in_rs_cons. left. done. }
  destruct (map_get_spec 0 _ a b (layout_laid_out 0 p ranges Hok)) as (o & Ho & Hspec).
  pose proof (proj2 (Hspec _) Hq) as ->.
  cbn [gather]. rewrite Ho. cbn [lift_panic obind or_panic]. rewrite Hg. cbn [obind].
  eexists. split; [done|]. intros mm Hmm. destruct (Hrs mm Hmm) as (msg & Hmsg & HF).
  destruct (one_piece_bounds _ _ _ _ _ Hok Hq) as [_ Hb]. cbn [v_base v_len] in Hb.
  cbn [vm_read_all]. rewrite vm_read_in by lia. cbn [obind]. rewrite Hmsg. cbn [obind].
  eexists. split; [done|]. rewrite rs_values_cons. apply Forall2_app; [|done].
  apply Forall2_same_length_lookup_2; [rewrite seq_length, take_length, drop_length; lia|].
  intros k i v [-> Hk]%lookup_seq Hv. rewrite lookup_take, lookup_drop in Hv by lia.
  exists (q + k). split; [|done].
  pose proof (one_piece_recorded _ _ _ _ (a + k) Hq ltac:(lia)) as Hr. cbn [v_base] in Hr.
  by replace (q + (a + k - a)) with (q + k) in Hr by lia.
Qed.

Lemma value_at_prefix m m' p ranges i v : rs_ok ranges -> m `prefix_of` m' -> p + rs_len ranges <= length m ->
  value_at m' (layout p ranges) i v <-> value_at m (layout p ranges) i v.
Proof.
  intros Hok Hp Hl. split.
  - intros (x & Hx & Hv). exists x. split; [done|]. destruct (recorded_bounds _ _ _ _ Hok Hx).
    destruct (lookup_lt_is_Some_2 m x) as [w Hw]; [lia|]. rewrite (lookup_prefix_eq _ _ _ _ Hp Hw) in Hv.
    congruence.
  - intros (x & Hx & Hv). exists x. split; [done|]. by eapply lookup_prefix_eq.
Qed.

Section Hash.
  Context (vm_hash : alg_id -> option (list N -> list N)).

  (** The commitment [c] answers the request [e], over bytes for which [V] holds. *)
  Definition answers (V : direction -> nat -> N -> Prop) (e : commit_entry) (c : commitment) : Prop :=
    exists h msg bl, cm_dir c = fst (fst e) /\ cm_idx c = snd (fst e) /\ vm_hash (snd e) = Some h /\
      cm_hash c = TypedHash (snd e) (h (msg ++ bl)) /\ length bl = 16 /\
      Forall2 (fun i b => V (fst (fst e)) i b) (rs_values (snd (fst e))) msg.

  Lemma verify_hash_spec wit ps pr gs gr idxs : forall m, rs_ok gs -> rs_ok gr ->
    entries_ok idxs ->
    Forall (fun e => forall i, in_rs i (snd (fst e)) -> in_rs i (match fst (fst e) with Sent => gs | Received => gr end)) idxs ->
    ps + rs_len gs <= length m -> pr + rs_len gr <= length m ->
    (exists m' cs, verify_hash vm_hash wit m (layout ps gs) (layout pr gr) idxs = Ok (m', cs) /\
      m `prefix_of` m' /\
      Forall2 (answers (fun d i b => value_at m (match d with Sent => layout ps gs | Received => layout pr gr end) i b))
        idxs cs) \/
    (verify_hash vm_hash wit m (layout ps gs) (layout pr gr) idxs = Err VHash /\
     exists e, e ∈ idxs /\ vm_hash (snd e) = None).
  Proof.
    induction idxs as [|[[d idx] a] idxs IH]; intros m Hgs Hgr Hok Hsub Hls Hlr.
    { left. exists m, []. split_and!; [done|done|constructor]. }
    apply Forall_cons in Hok as [Hidx Hok]. apply Forall_cons in Hsub as [Hi Hsub]. simpl in Hidx, Hi.
    cbn [verify_hash]. unfold vm_alloc, vm_push. rewrite replicate_length.
    unfold vm_blind. cbn [v_base v_len]. rewrite vm_assign_fresh by (by rewrite map_length, seq_length).
    cbn [auth_lift map_err obind].
    destruct (vm_hash a) as [h|] eqn:Eh.
    2: { right. split; [done|]. exists (d, idx, a). split; [by left|done]. }
    set (bl := map wit (seq (length m) 16)).
    assert (Hbl : length bl = 16) by (unfold bl; by rewrite map_length, seq_length).
    assert (Hp : m `prefix_of` m ++ bl) by (by apply prefix_app_r).
    assert (Hrb : vm_read (m ++ bl) (VRef (length m) 16) = Ok bl).
    { pose proof (vm_read_push m bl []) as Hr. by rewrite app_nil_r, Hbl in Hr. }
    assert (exists rs msg, gather (match d with Sent => layout ps gs | Received => layout pr gr end) idx = Ok rs /\
      vm_read_all (m ++ bl) rs = Ok msg /\
      Forall2 (fun i b => value_at m (match d with Sent => layout ps gs | Received => layout pr gr end) i b)
        (rs_values idx) msg) as (rs & msg & Hg & Hmsg & HF).
    { assert (forall p g, rs_ok g -> (forall i, in_rs i idx -> in_rs i g) -> p + rs_len g <= length m ->
        exists rs msg, gather (layout p g) idx = Ok rs /\ vm_read_all (m ++ bl) rs = Ok msg /\
        Forall2 (fun i b => value_at m (layout p g) i b) (rs_values idx) msg) as Hgen.
      { intros p g Hg Hig Hlg. destruct (gather_ok p g idx Hg Hidx Hig) as (rs & Hgt & Hread).
        destruct (Hread (m ++ bl)) as (msg & Hm & HF); [rewrite app_length; lia|].
        exists rs, msg. split_and!; [done|done|]. eapply Forall2_impl; [exact HF|].
        intros i b Hv. by apply (value_at_prefix m (m ++ bl)) in Hv. }
      destruct d; by apply Hgen. }
    rewrite Hg. cbn [auth_lift map_err obind]. rewrite Hmsg. cbn [auth_lift map_err obind]. rewrite Hrb. cbn [auth_lift map_err obind].
    set (m3 := (m ++ bl) ++ h (msg ++ bl)).
    assert (Hp3 : m `prefix_of` m3) by (unfold m3; by do 2 apply prefix_app_r).
    pose proof (prefix_length _ _ Hp3) as Hl3.
    destruct (IH m3 Hgs Hgr Hok Hsub) as [(m' & cs & -> & Hp' & HF')|[-> (e & He & Hn)]]; [lia|lia| |].
    - left. exists m', (Commitment d idx (TypedHash a (h (msg ++ bl))) :: cs). cbn [obind]. split_and!; [done|by etrans|].
      constructor.
      + exists h, msg, bl. done.
      + eapply Forall2_impl; [exact HF'|]. intros e c (h' & msg' & bl' & H1 & H2 & H3 & H4 & H5 & H6).
        exists h', msg', bl'. split_and!; [done..|]. eapply Forall2_impl; [exact H6|].
        intros i b Hv. cbn beta in *. destruct (fst (fst e)); by apply (value_at_prefix m m3) in Hv.
    - right. split; [done|]. exists e. split; [by right|done].
  Qed.

  Lemma prove_hash_spec ps pr gs gr blinders idxs : forall m, rs_ok gs -> rs_ok gr ->
    entries_ok idxs ->
    Forall (fun e => forall i, in_rs i (snd (fst e)) -> in_rs i (match fst (fst e) with Sent => gs | Received => gr end)) idxs ->
    ps + rs_len gs <= length m -> pr + rs_len gr <= length m ->
    (forall n, length (blinders n) = 16) -> (forall e, e ∈ idxs -> vm_hash (snd e) <> None) ->
    exists m' cs ss, prove_hash vm_hash m (layout ps gs) (layout pr gr) idxs blinders = Ok (m', cs, ss) /\
      m `prefix_of` m' /\
      forall mf, m' `prefix_of` mf ->
        verify_hash vm_hash (wit_of mf) m (layout ps gs) (layout pr gr) idxs = Ok (m', cs).
  Proof.
    induction idxs as [|[[d idx] a] idxs IH]; intros m Hgs Hgr Hok Hsub Hls Hlr Hbs Hsup.
    { exists m, [], []. done. }
    apply Forall_cons in Hok as [Hidx Hok]. apply Forall_cons in Hsub as [Hi Hsub]. simpl in Hidx, Hi.
    destruct (vm_hash a) as [h|] eqn:Eh.
    2: { destruct (Hsup (d, idx, a)); [by left|done]. }
    set (bl := blinders (length ((d, idx, a) :: idxs))).
    assert (Hbl : length bl = 16) by apply Hbs.
    assert (Hrb : vm_read (m ++ bl) (VRef (length m) 16) = Ok bl).
    { pose proof (vm_read_push m bl []) as Hr. by rewrite app_nil_r, Hbl in Hr. }
    assert (exists rs msg, gather (match d with Sent => layout ps gs | Received => layout pr gr end) idx = Ok rs /\
      vm_read_all (m ++ bl) rs = Ok msg) as (rs & msg & Hg & Hmsg).
    { destruct d.
      - destruct (gather_ok ps gs idx Hgs Hidx Hi) as (rs & Hgt & Hread).
        destruct (Hread (m ++ bl)) as (msg & Hm & HF); [rewrite app_length; lia|]. by exists rs, msg.
      - destruct (gather_ok pr gr idx Hgr Hidx Hi) as (rs & Hgt & Hread).
        destruct (Hread (m ++ bl)) as (msg & Hm & HF); [rewrite app_length; lia|]. by exists rs, msg. }
    set (m3 := (m ++ bl) ++ h (msg ++ bl)).
    assert (Hp3 : m `prefix_of` m3) by (unfold m3; by do 2 apply prefix_app_r).
    pose proof (prefix_length _ _ Hp3) as Hl3.
    destruct (IH m3 Hgs Hgr Hok Hsub) as (m' & cs & ss & Hpr & Hp' & Hver);
      [lia|lia|done|intros e He; apply Hsup; by right|].
    exists m', (Commitment d idx (TypedHash a (h (msg ++ bl))) :: cs), (Secret d idx a bl :: ss). split_and!.
    - cbn [prove_hash]. unfold vm_alloc, vm_push. rewrite replicate_length, Eh, Hg. cbn [auth_lift map_err obind].
      change (blinders (length ((d, idx, a) :: idxs))) with bl. rewrite vm_assign_fresh by done. cbn [auth_lift map_err obind].
      rewrite Hmsg. cbn [auth_lift map_err obind]. rewrite Hrb. cbn [auth_lift map_err obind]. fold m3. rewrite Hpr. done.
    - by etrans.
    - intros mf Hmf. cbn [verify_hash]. unfold vm_alloc, vm_push. rewrite replicate_length.
      unfold vm_blind. cbn [v_base v_len].
      assert (Hw : map (wit_of mf) (seq (length m) 16) = bl).
      { apply list_eq. intros k. destruct (decide (k < 16)) as [Hk|Hk].
        - rewrite list_lookup_fmap, lookup_seq_lt by done. cbn [fmap option_fmap option_map]. unfold wit_of.
          destruct (lookup_lt_is_Some_2 bl k) as [v Hv]; [lia|].
          assert (Hm3 : m3 !! (length m + k) = Some v).
          { unfold m3. rewrite <- app_assoc, lookup_app_r by lia.
            replace (length m + k - length m) with k by lia. by rewrite lookup_app_l by lia. }
          rewrite (lookup_prefix_eq _ _ _ _ Hmf (lookup_prefix_eq _ _ _ _ Hp' Hm3)), Hv. done.
        - rewrite !lookup_ge_None_2; [done|lia|rewrite map_length, seq_length; lia]. }
      rewrite Hw, vm_assign_fresh by done. cbn [auth_lift map_err obind]. rewrite Eh, Hg. cbn [auth_lift map_err obind].
      rewrite Hmsg. cbn [auth_lift map_err obind]. rewrite Hrb. cbn [auth_lift map_err obind]. fold m3. rewrite (Hver mf Hmf). done.
  Qed.
End Hash.
