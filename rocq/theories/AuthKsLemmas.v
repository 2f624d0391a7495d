(** Proofs about the memory of the machine and the key stream. *)
From Verif.Lib Require Import Base Ranges RangesFacts.
From Verif Require Import TranscriptModel ProofModel CodecModel AttestModel TlsModel AuthModel AuthSpec AuthMapLemmas.

(** ** Memory *)
Lemma vm_read_ok m r d : vm_read m r = Ok d <->
  v_base r + v_len r <= length m /\ d = take (v_len r) (drop (v_base r) m).
Proof.
  unfold vm_read. destruct (slice m _ _) as [d'|] eqn:E.
  - apply slice_inv in E as (H1 & H2 & H3 & _).
    replace (v_base r + v_len r - v_base r) with (v_len r) in H3 by lia. subst d'. split.
    + intros [= <-]. done.
    + intros [_ ->]. done.
  - split; [done|]. intros [H1 _]. by rewrite slice_Some in E by lia.
Qed.
Lemma vm_read_length m r d : vm_read m r = Ok d -> length d = v_len r.
Proof. intros [H ->]%vm_read_ok. rewrite take_length, drop_length. lia. Qed.
Lemma vm_read_prefix m m' r d : m `prefix_of` m' -> vm_read m r = Ok d -> vm_read m' r = Ok d.
Proof.
  intros [e ->] [H ->]%vm_read_ok. apply vm_read_ok. rewrite app_length. split; [lia|].
  rewrite drop_app_le by lia. rewrite take_app_le by (rewrite drop_length; lia). done.
Qed.
Lemma vm_read_lookup m r d k : vm_read m r = Ok d -> k < v_len r -> d !! k = m !! (v_base r + k).
Proof. intros [H ->]%vm_read_ok Hk. by rewrite lookup_take, lookup_drop by lia. Qed.
Lemma vm_read_push m d e : vm_read (m ++ d ++ e) (VRef (length m) (length d)) = Ok d.
Proof.
  apply vm_read_ok. simpl. rewrite !app_length. split; [lia|].
  by rewrite drop_app, take_app.
Qed.
Lemma vm_assign_fresh m n d : length d = n ->
  vm_assign (m ++ replicate n 0%N) (VRef (length m) n) d = Ok (m ++ d).
Proof.
  intros <-. unfold vm_assign. simpl.
  rewrite put_Some by (rewrite ?app_length, ?replicate_length; lia).
  rewrite take_app, drop_ge by (rewrite app_length, replicate_length; lia).
  by rewrite app_nil_r.
Qed.
Lemma vm_read_sub m r d a b s : vm_read m r = Ok d -> vref_get r a b = Some s ->
  vm_read m s = Ok (take (b - a) (drop a d)).
Proof.
  intros [H ->]%vm_read_ok (H1 & H2 & ->)%vref_get_spec. apply vm_read_ok. simpl. split; [lia|].
  rewrite skipn_firstn_comm, drop_drop, take_take. f_equal. lia.
Qed.
Lemma vm_read_all_prefix m m' rs d : m `prefix_of` m' -> vm_read_all m rs = Ok d -> vm_read_all m' rs = Ok d.
Proof.
  intros Hp. revert d. induction rs as [|r rs IH]; intros d; simpl; [done|].
  intros (d1 & H1 & (d2 & H2 & H3)%obind_Ok)%obind_Ok.
  rewrite (vm_read_prefix _ _ _ _ Hp H1). simpl. rewrite (IH _ H2). done.
Qed.
Lemma vm_read_all_app m xs ys a b : vm_read_all m xs = Ok a -> vm_read_all m ys = Ok b ->
  vm_read_all m (xs ++ ys) = Ok (a ++ b).
Proof.
  revert a. induction xs as [|x xs IH]; intros a; simpl.
  - intros [= <-]. done.
  - intros (d1 & H1 & (d2 & H2 & [= <-])%obind_Ok)%obind_Ok Hb. rewrite H1. simpl.
    rewrite (IH _ H2 Hb). simpl. by rewrite app_assoc.
Qed.

Lemma seq_split a n k : k <= n -> seq a n = seq a k ++ seq (a + k) (n - k).
Proof. intros H. rewrite <- seq_app. f_equal. lia. Qed.

Lemma be_length n v : length (be n v) = n.
Proof. induction n; simpl; lia. Qed.

Section Ks.
  Context (aes : list N -> list N -> list N) (key iv : list N).
  Context (Haes : aes_ok aes).

  Definition block_of (n : list N) (num : nat) : list N := aes key (iv ++ n ++ be 4 (2 + N.of_nat num)).
  Definition byte_of (n : list N) (o : nat) : option N := block_of n (o / 16) !! (o mod 16).

  Lemma alloc_nonce_ok m n : length n = 8 -> alloc_nonce m n = Ok (m ++ n, VRef (length m) 8).
  Proof.
    intros H. unfold alloc_nonce, vm_alloc, vm_push. rewrite replicate_length.
    rewrite vm_assign_fresh by done. done.
  Qed.

  Lemma alloc_block_ok m nr n num : vm_read m nr = Ok n ->
    exists m' bl, alloc_block aes key iv m nr num = Ok (m', bl) /\ m `prefix_of` m' /\
      v_len bl = 16 /\ vm_read m' bl = Ok (block_of n num).
  Proof.
    intros Hn. unfold alloc_block, vm_alloc. unfold vm_push at 1. rewrite replicate_length.
    rewrite vm_assign_fresh by apply be_length. cbn [obind].
    rewrite (vm_read_prefix m _ _ _ (prefix_app_r _ _ _ (reflexivity m)) Hn). cbn [obind].
    pose proof (vm_read_push m (be 4 (2 + N.of_nat num)) []) as Hc.
    rewrite app_nil_r, be_length in Hc. rewrite Hc. cbn [obind vm_push].
    eexists _, _. split; [done|]. rewrite <- !app_assoc. split_and!.
    - by apply prefix_app_r.
    - cbn [v_len]. apply Haes.
    - pose proof (vm_read_push (m ++ be 4 (2 + N.of_nat num)) (block_of n num) []) as Hr.
      rewrite app_nil_r, <- app_assoc in Hr. exact Hr.
  Qed.

  Lemma byte_of_piece n (o k : nat) : k < 16 - o mod 16 ->
    byte_of n (o + k) = block_of n (o / 16) !! (o mod 16 + k).
  Proof.
    intros Hk. unfold byte_of.
    pose proof (Nat.div_mod_eq o 16) as Ho. pose proof (Nat.mod_upper_bound o 16 ltac:(lia)).
    assert (Hd : (o + k) / 16 = o / 16).
    { symmetry. apply (Nat.div_unique _ _ _ (o mod 16 + k)); lia. }
    assert (Hm : (o + k) mod 16 = o mod 16 + k).
    { symmetry. apply (Nat.mod_unique _ _ (o / 16)); lia. }
    by rewrite Hd, Hm.
  Qed.

  Lemma ks_record_spec pos r : length (rp_nonce r) = 8 ->
    forall fuel nonce blk m ks ranges,
    rs_len ranges < fuel -> rs_ok_from pos ranges ->
    (forall n, nonce = Some n -> vm_read m n = Ok (rp_nonce r)) ->
    (forall num bl, blk = Some (num, bl) -> v_len bl = 16 /\ vm_read m bl = Ok (block_of (rp_nonce r) num)) ->
    exists dn m' new ranges' used d,
      ks_record aes key iv fuel pos r nonce blk m ks ranges = Ok (dn, m', ks ++ new, ranges') /\
      m `prefix_of` m' /\ vm_read_all m' new = Ok d /\
      rs_values ranges = used ++ rs_values ranges' /\
      Forall2 (fun i b => pos <= i < pos + rp_len r /\ byte_of (rp_nonce r) (i - pos) = Some b) used d /\
      (dn = true -> ranges' = []) /\
      (dn = false -> ranges' <> [] /\ rs_ok_from (pos + rp_len r) ranges').
  Proof.
    intros Hn8. induction fuel as [|fuel IH]; intros nonce blk m ks ranges Hf Hok Hnonce Hblk; [lia|].
    cbn [ks_record]. destruct ranges as [|[a b] t].
    { eexists true, m, [], [], [], []. rewrite app_nil_r. by split_and!. }
    destruct Hok as (Hpa & Hab & Ht).
    destruct (pos + rp_len r <=? a) eqn:E1.
    { eexists false, m, [], ((a, b) :: t), [], []. rewrite app_nil_r. split_and!; try done.
      intros _. split; [done|]. simpl. split_and!; [lia|lia|done]. }
    replace (a <? pos) with false by lia.
    (* the nonce *)
    assert (exists m1 n, match nonce with Some n => Ok (m, n) | None => alloc_nonce m (rp_nonce r) end = Ok (m1, n) /\
      m `prefix_of` m1 /\ vm_read m1 n = Ok (rp_nonce r)) as (m1 & n & -> & Hp1 & Hrn).
    { destruct nonce as [n|].
      - exists m, n. split_and!; [done|done|by apply Hnonce].
      - rewrite alloc_nonce_ok by done. eexists _, _. split; [done|]. split; [by apply prefix_app_r|].
        pose proof (vm_read_push m (rp_nonce r) []) as Hr. rewrite app_nil_r, Hn8 in Hr. done. }
    cbn [obind].
    (* the block *)
    set (num := (a - pos) / 16).
    assert (exists m2 bl blk', match blk with
        | Some (num', bl) => if num' =? num then Ok (m1, bl, None)
            else let! (m2, bl) := alloc_block aes key iv m1 n num in Ok (m2, bl, Some (num, bl))
        | None => let! (m2, bl) := alloc_block aes key iv m1 n num in Ok (m2, bl, Some (num, bl))
        end = Ok (m2, bl, blk') /\ m1 `prefix_of` m2 /\ v_len bl = 16 /\
        vm_read m2 bl = Ok (block_of (rp_nonce r) num) /\
        forall num' bl', blk' = Some (num', bl') -> num' = num /\ bl' = bl)
      as (m2 & bl & blk' & -> & Hp2 & Hl16 & Hrb & Hb').
    { assert (exists m2 bl blk', (let! (m2, bl) := alloc_block aes key iv m1 n num in Ok (m2, bl, Some (num, bl)))
         = Ok (m2, bl, blk') /\ m1 `prefix_of` m2 /\ v_len bl = 16 /\
        vm_read m2 bl = Ok (block_of (rp_nonce r) num) /\
        forall num' bl', blk' = Some (num', bl') -> num' = num /\ bl' = bl) as Halloc.
      { destruct (alloc_block_ok m1 n _ num Hrn) as (m2 & bl & -> & H1 & H2 & H3).
        exists m2, bl, (Some (num, bl)). split_and!; try done. by intros ?? [= <- <-]. }
      destruct blk as [[num' bl]|]; [|exact Halloc].
      destruct (num' =? num) eqn:En; [|exact Halloc].
      apply Nat.eqb_eq in En as ->. destruct (Hblk _ _ eq_refl) as [H1 H2].
      exists m1, bl, None. split_and!; try done. by eapply vm_read_prefix. }
    cbn [obind].
    pose proof (Nat.mod_upper_bound (a - pos) 16 ltac:(lia)) as Hmod.
    set (start := (a - pos) mod 16) in *.
    set (len := Nat.min (Nat.min b (pos + rp_len r) - a) (16 - start)).
    assert (Hlen : 1 <= len /\ len <= b - a /\ a + len <= pos + rp_len r /\ start + len <= 16) by lia.
    destruct (vref_get bl start (start + len)) as [piece|] eqn:Epiece.
    2: { exfalso. unfold vref_get in Epiece. destruct (_ && _) eqn:E'; [done|]. lia. }
    cbn [or_panic obind].
    set (ranges' := if a + len <? b then (a + len, b) :: t else t).
    assert (Hv : rs_values ((a, b) :: t) = seq a len ++ rs_values ranges').
    { rewrite rs_values_cons, (seq_split a (b - a) len) by lia. rewrite <- app_assoc. f_equal.
      unfold ranges'. destruct (a + len <? b) eqn:Eb.
      - rewrite rs_values_cons. do 2 f_equal. lia.
      - replace (b - a - len) with 0 by lia. done. }
    assert (Hr' : rs_ok_from pos ranges' /\ rs_len ranges' < fuel).
    { assert (Hs : rs_len ((a, b) :: t) = len + rs_len ranges').
      { rewrite <- !rs_values_length, Hv, app_length, seq_length. done. }
      split; [|lia]. unfold ranges'. destruct (a + len <? b) eqn:Eb.
      - simpl. split_and!; [lia|lia|done].
      - apply (rs_ok_from_mono (S b)); [lia|done]. }
    destruct (IH (Some n) blk' m2 (ks ++ [piece]) ranges') as
      (dn & m' & new & rg & used & d & Hk & Hp3 & Hrd & Hvv & HF & Hd1 & Hd2); [lia|tauto| | |].
    { intros ? [= <-]. by eapply vm_read_prefix. }
    { intros num' bl' H'. destruct (Hb' _ _ H') as [-> ->]. done. }
    rewrite Hk. exists dn, m', (piece :: new), rg, (seq a len ++ used).
    pose proof (vm_read_sub _ _ _ _ _ _ (vm_read_prefix _ _ _ _ Hp3 Hrb) Epiece) as Hpc.
    replace (start + len - start) with len in Hpc by lia.
    exists (take len (drop start (block_of (rp_nonce r) num)) ++ d).
    assert (Hbl : length (block_of (rp_nonce r) num) = 16) by apply Haes.
    split_and!; try done.
    - by rewrite <- app_assoc.
    - etransitivity; [|done]. by etransitivity.
    - cbn [vm_read_all]. rewrite Hpc. cbn [obind]. rewrite Hrd. done.
    - by rewrite Hv, Hvv, app_assoc.
    - apply Forall2_app; [|done]. apply Forall2_same_length_lookup. split.
      { rewrite seq_length, take_length, drop_length. lia. }
      intros k i v Hk1 Hk2. apply lookup_seq in Hk1 as [-> Hk1].
      split; [lia|]. replace (a + k - pos) with (a - pos + k) by lia.
      rewrite byte_of_piece by lia. rewrite lookup_take in Hk2 by lia. by rewrite lookup_drop in Hk2.
  Qed.

  (** ** All records *)
  Lemma alloc_keystream_spec rs : nonces_ok rs -> forall pos m ks ranges,
    rs_ok_from pos ranges -> rs <> [] ->
    (forall i, in_rs i ranges -> i < pos + length (all_ct rs)) ->
    exists m' new d, alloc_keystream aes key iv pos (rec_params_of rs) m ks ranges = Ok (m', ks ++ new) /\
      m `prefix_of` m' /\ vm_read_all m' new = Ok d /\
      Forall2 (fun i b => keystream_at aes key iv rs (i - pos) = Some b) (rs_values ranges) d.
  Proof.
    induction rs as [|r rs IH]; intros Hn pos m ks ranges Hok Hne Hin; [done|]. clear Hne.
    apply Forall_cons in Hn as [Hr Hn].
    cbn [rec_params_of map alloc_keystream].
    destruct (ks_record_spec pos (RecParams (r_nonce r) (length (r_ct r))) Hr
      (S (rs_len ranges)) None None m ks ranges) as
      (dn & m' & new & rg & used & d & Hk & Hp & Hrd & Hv & HF & Hd1 & Hd2); [lia|done|done|done|].
    change (map (fun r0 => RecParams (r_nonce r0) (length (r_ct r0))) rs) with (rec_params_of rs).
    rewrite Hk. cbn [obind rp_len rp_nonce] in *.
    assert (HF' : Forall2 (fun i b => keystream_at aes key iv (r :: rs) (i - pos) = Some b) used d).
    { eapply Forall2_impl; [exact HF|]. intros i b [Hi Hb]. cbn [keystream_at].
      replace (i - pos <? length (r_ct r)) with true by lia. exact Hb. }
    destruct dn.
    { rewrite (Hd1 eq_refl) in Hv. simpl in Hv. rewrite app_nil_r in Hv. rewrite Hv.
      exists m', new, d. done. }
    destruct (Hd2 eq_refl) as [Hrg Hokr].
    assert (Hct : length (all_ct (r :: rs)) = length (r_ct r) + length (all_ct rs)).
    { unfold all_ct. simpl. by rewrite app_length. }
    assert (Hin' : forall i, in_rs i rg -> pos + length (r_ct r) <= i < pos + length (r_ct r) + length (all_ct rs)).
    { intros i Hi. split; [by eapply rs_ok_from_lb|].
      assert (in_rs i ranges) as H%Hin; [|lia].
      apply in_rs_values. rewrite Hv. apply elem_of_app. right. by apply in_rs_values. }
    destruct rs as [|r' rs'].
    { exfalso. destruct rg as [|[x y] rg']; [done|]. destruct Hokr as (? & ? & _).
      specialize (Hin' x (rs_ok_head_in x y rg' ltac:(lia))). unfold all_ct in Hin'. simpl in Hin'. lia. }
    destruct (IH Hn (pos + length (r_ct r)) m' (ks ++ new) rg) as (m2 & new2 & d2 & Hk2 & Hp2 & Hrd2 & HF2);
      [done|done|intros i Hi; apply Hin' in Hi; lia|].
    rewrite Hk2. exists m2, (new ++ new2), (d ++ d2). split_and!.
    - by rewrite app_assoc.
    - by etransitivity.
    - apply vm_read_all_app; [|done]. by eapply vm_read_all_prefix.
    - rewrite Hv. apply Forall2_app; [done|]. apply Forall2_same_length_lookup. split.
      { by eapply Forall2_length. }
      intros k i b H1 H2. pose proof (Forall2_lookup_lr _ _ _ _ _ _ HF2 H1 H2) as H3.
      assert (in_rs i rg) as Hi%Hin' by (apply in_rs_values; by eapply elem_of_list_lookup_2).
      cbn [keystream_at] in H3 |- *. replace (i - pos <? length (r_ct r)) with false by lia.
      by replace (i - pos - length (r_ct r)) with (i - (pos + length (r_ct r))) by lia.
  Qed.

  Lemma alloc_keystream_oob rs : nonces_ok rs -> forall pos m ks ranges,
    rs_ok_from pos ranges ->
    (exists i, in_rs i ranges /\ pos + length (all_ct rs) <= i) ->
    alloc_keystream aes key iv pos (rec_params_of rs) m ks ranges = Err AOutOfBounds.
  Proof.
    induction rs as [|r rs IH]; intros Hn pos m ks ranges Hok (i & Hi & Hge); [done|].
    apply Forall_cons in Hn as [Hr Hn].
    cbn [rec_params_of map alloc_keystream].
    destruct (ks_record_spec pos (RecParams (r_nonce r) (length (r_ct r))) Hr
      (S (rs_len ranges)) None None m ks ranges) as
      (dn & m' & new & rg & used & d & Hk & Hp & Hrd & Hv & HF & Hd1 & Hd2); [lia|done|done|done|].
    change (map (fun r0 => RecParams (r_nonce r0) (length (r_ct r0))) rs) with (rec_params_of rs).
    rewrite Hk. cbn [obind rp_len rp_nonce] in *.
    assert (Hct : length (all_ct (r :: rs)) = length (r_ct r) + length (all_ct rs)).
    { unfold all_ct. simpl. by rewrite app_length. }
    apply in_rs_values in Hi. rewrite Hv in Hi. apply elem_of_app in Hi as [Hi|Hi].
    { apply elem_of_list_lookup in Hi as [k Hk1].
      destruct (Forall2_lookup_l _ _ _ _ _ HF Hk1) as (b & _ & ? & _). lia. }
    destruct dn; [rewrite (Hd1 eq_refl) in Hi; by apply elem_of_nil in Hi|].
    apply IH; [done|by apply Hd2|]. exists i. split; [by apply in_rs_values|lia].
  Qed.
End Ks.
