(** Traffic within the limits goes through (C41), and the two parties' logs agree (C40). *)
From Verif.Lib Require Import Base Ranges.
From Verif Require Import TranscriptModel ProofModel CodecModel CodecSpec CodecLemmas AttestModel TlsModel AuthModel AuthSpec
  TagModel TagSpec TagLemmas RecordModel RecordSpec RecordGcmLemmas RecordFlushLemmas RecordLemmas RecordHistLemmas.

Lemma umul_fits checked a b : (a * b < 2 ^ 64)%N -> umul checked a b = Ok (a * b)%N.
Proof. intros H. unfold umul, usize_max. destruct (N.ltb_spec (a * b) (2 ^ 64)); [done|lia]. Qed.
Lemma sbind_step {S E A B} (m : stm S E A) (k : A -> stm S E B) s s' a : m s = (s', Ok a) -> sbind m k s = k a s'.
Proof. intros H. unfold sbind. by rewrite H. Qed.
  Lemma ghash_fits_small aad ct : length aad = 13 -> (N.of_nat (length ct) <= 16384)%N -> ghash_fits aad ct = true.
  Proof.
    intros Ha Hc. unfold ghash_fits, build_ghash_data, pad_blocks, resize_zero. apply Nat.leb_le.
    assert (block_count 13 = 1) as Hb by done.
    pose proof (block_count_spec (length ct)) as Hs. rewrite Ha, Hb.
    rewrite !app_length, !take_length, !replicate_length, !be_length, Ha.
    assert (N.of_nat (block_count (length ct)) <= 1024)%N by lia.
    assert (forall n, (N.of_nat n <= 16416)%N -> block_count n <= 1026) as Hn by (intros n Hn; pose proof (block_count_spec n); lia).
    apply Hn. lia.
  Qed.

Section Fwd.
  Context (aes : list N -> list N -> list N) (ghash_fn : list N -> list N -> list N).
  Context (checked : bool).
  Context (enc_key enc_iv dec_key dec_iv : list N).
  Context (blind : N -> nat -> N) (pad_rng : nat -> N).
  Context (Haes : aes_ok aes).
  Notation rl_step := (rl_step aes ghash_fn checked enc_key enc_iv dec_key dec_iv blind pad_rng).
  Notation rl_run := (rl_run aes ghash_fn checked enc_key enc_iv dec_key dec_iv blind pad_rng).
  Notation encrypt_one := (encrypt_one aes checked enc_key enc_iv blind).
  Notation encrypt_loop := (encrypt_loop aes checked enc_key enc_iv blind).
  Notation encrypt_mpc := (encrypt_mpc aes checked enc_key enc_iv blind).

  Lemma apply_fwd nonce len i b j : length nonce = 8 -> (0 < len)%N -> (16 * blocks_of len < 2 ^ 64)%N ->
    (16 * blocks_of len <= i)%N -> (blocks_of len <= b)%N ->
    apply_keystream_mpc checked nonce len (GReady i b j) = (GReady (i - 16 * blocks_of len) (b - blocks_of len) j, Ok tt).
  Proof.
    intros Hn Hp H64 Hi Hb. unfold apply_keystream_mpc, check_nonce. rewrite Hn. cbn [Nat.eqb].
    pose proof (blocks_of_bounds len) as Hbb.
    unfold sbind at 1, sret at 1. rewrite umul_fits by lia. unfold sbind at 1, slift at 1, lift_panic.
    unfold usub. replace (len <=? blocks_of len * 16)%N with true by lia.
    unfold sbind at 1, slift at 1. unfold sbind at 1, check_input at 1. replace (i <? blocks_of len * 16)%N with false by lia.
    unfold sbind at 1, take_input at 1. unfold sbind at 1, consume at 1.
    assert (blocks_of (blocks_of len * 16) = blocks_of len) as -> by (rewrite N.mul_comm; apply blocks_of_mul).
    replace (b <? blocks_of len)%N with false by lia.
    replace (blocks_of len * 16 =? 16 * blocks_of len)%N with true by lia. cbn [negb].
    replace (blocks_of len =? 0)%N with false by lia. unfold sret. do 2 f_equal. lia.
  Qed.
  Lemma take_fwd nonce len i b j : length nonce = 8 -> (0 < len)%N -> (16 * blocks_of len < 2 ^ 64)%N ->
    (16 * blocks_of len <= i)%N -> (blocks_of len <= b)%N ->
    take_keystream_mpc checked nonce len (GReady i b j) = (GReady i (b - blocks_of len) j, Ok tt).
  Proof.
    intros Hn Hp H64 Hi Hb. unfold take_keystream_mpc, check_nonce. rewrite Hn. cbn [Nat.eqb].
    pose proof (blocks_of_bounds len) as Hbb.
    unfold sbind at 1, sret at 1. rewrite umul_fits by lia. unfold sbind at 1, slift at 1, lift_panic.
    unfold sbind at 1, check_input at 1. replace (i <? blocks_of len * 16)%N with false by lia.
    unfold sbind at 1, consume at 1. replace (b <? blocks_of len)%N with false by lia.
    replace (len =? 0)%N with false by lia. replace (blocks_of len =? 0)%N with false by lia. done.
  Qed.
  Lemma take_j0s_fwd ns i b j : Forall (fun n => length n = 8) ns ->
    take_j0s ns (GReady i b j) = (GReady i b (j - N.of_nat (length ns)), Ok tt).
  Proof.
    intros H. revert j. induction H as [|n ns Hn _ IH]; intros j; cbn [take_j0s].
    - unfold sret. cbn [length]. do 2 f_equal. lia.
    - unfold sbind at 1, check_nonce. rewrite Hn. cbn [Nat.eqb]. unfold sret at 1. unfold sbind at 1. rewrite IH.
      cbn [length]. do 2 f_equal. lia.
  Qed.

  Context (me : role) (L : N).
  Definition good_op (op : enc_op) : Prop :=
    length (eo_nonce op) = 8 /\ length (eo_aad op) = 13 /\ eo_private op = is_app (eo_typ op) /\ (0 < eo_len op <= 16384)%N /\
    match eo_plain op with
    | Some t => N.of_nat (length t) = eo_len op /\ ~ (me = Follower /\ eo_typ op = ApplicationData)
    | None => me = Follower /\ eo_typ op = ApplicationData
    end.
  Lemma encrypt_one_fwd op i b j : good_op op -> (blocks_of (eo_len op) <= b)%N -> (16 * b <= i)%N ->
    exists i' c, encrypt_one me op (GReady i b j) = (GReady i' (b - blocks_of (eo_len op)) j, Ok c) /\
      (16 * (b - blocks_of (eo_len op)) <= i')%N /\ N.of_nat (length c) = eo_len op.
  Proof.
    intros (Hn & Haad & Hpr & Hl & Hp) Hb Hi. pose proof (blocks_of_bounds (eo_len op)) as Hbb.
    unfold RecordModel.encrypt_one. rewrite Hpr.
    assert (forall text, N.of_nat (length text) = eo_len op ->
      N.of_nat (length (zip_with N.lxor text (ks_value aes enc_key enc_iv (eo_nonce op) (N.to_nat (eo_len op))))) = eo_len op) as Hlen.
    { intros text Ht. rewrite zip_with_length, ks_value_length by done. lia. }
    destruct (is_app (eo_typ op)) eqn:Ea.
    - apply is_app_spec in Ea. erewrite sbind_step by (apply apply_fwd; [done|lia..]).
      destruct (eo_plain op) as [text|].
      + destruct Hp as [Ht Hr]. destruct me; [|by destruct Hr]. eexists _, _. split; [reflexivity|]. split; [lia|]. by apply Hlen.
      + destruct Hp as [-> _]. eexists _, _. split; [reflexivity|]. split; [lia|]. apply Hlen. rewrite map_length, seq_length. lia.
    - apply is_app_false in Ea. destruct (eo_plain op) as [text|]; [|by destruct Hp].
      erewrite sbind_step by (apply take_fwd; [done|lia..]). destruct Hp as [Ht _].
      eexists _, _. split; [reflexivity|]. split; [lia|]. by apply Hlen.
  Qed.
  Lemma encrypt_loop_fwd ops i b j : Forall good_op ops -> (sum_blocks (map eo_len ops) <= b)%N -> (16 * b <= i)%N ->
    exists i' cs, encrypt_loop me ops (GReady i b j) = (GReady i' (b - sum_blocks (map eo_len ops)) j, Ok cs) /\
      (16 * (b - sum_blocks (map eo_len ops)) <= i')%N /\ Forall2 (fun op c => N.of_nat (length c) = eo_len op) ops cs.
  Proof.
    intros H. revert i b. induction H as [|op ops Ho Hops IH]; intros i b Hb Hi; cbn [RecordModel.encrypt_loop map].
    - change (sum_blocks []) with 0%N. exists i, []. unfold sret. split_and!; [|lia|constructor]. do 2 f_equal. lia.
    - cbn [map] in Hb. change (sum_blocks (eo_len op :: map eo_len ops)) with (blocks_of (eo_len op) + sum_blocks (map eo_len ops))%N in *.
      destruct (encrypt_one_fwd op i b j Ho) as (i1 & c & E1 & Hi1 & Hc); [lia..|].
      destruct (IH i1 (b - blocks_of (eo_len op))%N) as (i2 & cs & E2 & Hi2 & Hcs); [lia..|].
      exists i2, (c :: cs). split_and!; [|lia|by constructor].
      erewrite sbind_step by exact E1. erewrite sbind_step by exact E2. unfold sret. do 2 f_equal. lia.
  Qed.
  Lemma encrypt_mpc_fwd ops i b j : Forall good_op ops -> (sum_blocks (map eo_len ops) <= b)%N -> (16 * b <= i)%N ->
    (N.of_nat (length ops) <= j)%N ->
    exists i' cs, encrypt_mpc me ops (GReady i b j) =
        (GReady i' (b - sum_blocks (map eo_len ops)) (j - N.of_nat (length ops)), Ok cs) /\
      (16 * (b - sum_blocks (map eo_len ops)) <= i')%N /\ Forall2 (fun op c => N.of_nat (length c) = eo_len op) ops cs.
  Proof.
    intros H Hb Hi Hj. destruct (encrypt_loop_fwd ops i b j H Hb Hi) as (i' & cs & E & Hi' & Hcs).
    exists i', cs. split_and!; try done. unfold RecordModel.encrypt_mpc. erewrite sbind_step by exact E.
    erewrite sbind_step; [reflexivity|]. unfold gcm_tags. rewrite map_length.
    replace (j <? N.of_nat (length ops))%N with false by lia. rewrite take_j0s_fwd, map_length; [done|].
    apply Forall_map. eapply Forall_impl; [exact H|]. by intros op (Hn & _).
  Qed.

  Definition ready (s : rl) (b j sent : N) (ops : list enc_op) (q : nat) : Prop :=
    rl_role s = me /\ (exists otp x y, rl_st s = SOnline otp x y) /\ (exists i, rl_enc s = GReady i b j /\ (16 * b <= i)%N) /\
    (exists x y z, rl_dec s = GReady x y z) /\ rl_decrypt s = [] /\ rl_max_sent s = L /\ rl_recv_online s = 0%N /\
    rl_sent s = sent /\ rl_encrypt s = ops /\ length (rl_encrypted s) = q /\ rl_started s = true.
  Definition fine (c : enc_call) : Prop := sendable me c /\ (0 < call_len c <= 16384)%N.

  Lemma push_fwd c s b j sent ops q : ready s b j sent ops q -> fine c -> (sent + call_len c <= L)%N -> (L < 2 ^ 64)%N ->
    length ops < 1022 ->
    exists s' op, rl_step (push c) s = (s', Ok RUnit) /\ ready s' b j (sent + call_len c) (ops ++ [op]) q /\ good_op op /\
      eo_len op = call_len c.
  Proof.
    intros (Hr & Hst & He & Hd & Hdec & Hm & Ho & Hs & Hops & Hq & Hstd) [Hsend Hl] Hle HL Hn.
    destruct c as [[[t v] n] p]. cbn [call_len push RecordModel.rl_step] in *.
    set (op := EncOp (rl_write_seq s) t v n p (be 8 (rl_write_seq s)) (make_aad (rl_write_seq s) t v (N.to_nat (n mod 2 ^ 16))) (is_app t)).
    assert (enc_op_new (rl_write_seq s) t v n p (be 8 (rl_write_seq s)) (make_aad (rl_write_seq s) t v (N.to_nat (n mod 2 ^ 16))) (is_app t) = Ok op) as Hnew.
    { unfold enc_op_new. destruct p as [text|]; destruct Hsend as [H1 H2].
      - replace (N.of_nat (length text) =? n)%N with true by lia. done.
      - apply is_app_spec in H2. unfold op. by rewrite H2. }
    eexists _, op. split; [|split; [|split]].
    - unfold sbind, push_encrypt. rewrite Hops, Hs, Hm. unfold max_buffer.
      replace (1022 <=? length ops) with false by (symmetry; apply Nat.leb_gt; lia).
      rewrite uadd_fits by lia. replace (L <? sent + n)%N with false by lia. rewrite Hnew. reflexivity.
    - split_and!; cbn; try done; by rewrite Hops.
    - split_and!; cbn [eo_nonce eo_aad eo_private eo_typ eo_len eo_plain op]; try done; lia.
    - done.
  Qed.
  Lemma pushes_fwd l s b j sent ops q : ready s b j sent ops q -> Forall fine l ->
    (sent + sum_N (map call_len l) <= L)%N -> (L < 2 ^ 64)%N -> length ops + length l <= 1022 ->
    exists s' new os, (forall more, rl_run (map push l ++ more) s = let (s2, os2) := rl_run more s' in (s2, os ++ os2)) /\
      no_failure os /\ handed_enc os = [] /\ ready s' b j (sent + sum_N (map call_len l)) (ops ++ new) q /\ Forall good_op new /\
      map eo_len new = map call_len l.
  Proof.
    intros H Hl. revert s sent ops H. induction Hl as [|c l Hc _ IH]; intros s sent ops H Hsum HL Hn.
    - exists s, [], []. split; [intros more; cbn; by destruct (rl_run more s)|]. split; [constructor|]. split; [done|].
      split; [|by split; [constructor|]]. cbn. rewrite N.add_0_r, app_nil_r. done.
    - cbn [map length] in *. change (sum_N (call_len c :: map call_len l)) with (call_len c + sum_N (map call_len l))%N in *.
      destruct (push_fwd c s b j sent ops q H Hc) as (s1 & op & E1 & H1 & Ho1 & Ho2); [lia|done|lia|].
      destruct (IH s1 (sent + call_len c)%N (ops ++ [op]) H1) as (s2 & new & os & E2 & Hnf & Hh & H2 & Hg & Hlen); [lia|done|rewrite app_length; cbn; lia|].
      exists s2, (op :: new), (Ok RUnit :: os). split_and!.
      + intros more. cbn [app RecordModel.rl_run]. rewrite E1, E2. by destruct (rl_run more s2).
      + constructor; [by eexists|done].
      + done.
      + rewrite <- app_assoc in H2. cbn in H2. by rewrite N.add_assoc.
      + by constructor.
      + cbn. by rewrite Ho2, Hlen.
  Qed.
  Lemma flush_fwd f s b j sent ops q : ready s b j sent ops q -> Forall good_op ops ->
    (sum_blocks (map eo_len ops) <= b)%N -> (N.of_nat (length ops) <= j)%N ->
    exists s', rl_step (CFlush f) s = (s', Ok RUnit) /\
      ready s' (b - sum_blocks (map eo_len ops)) (j - N.of_nat (length ops)) sent [] (q + length ops).
  Proof.
    intros (Hr & (otp & x & y & Hst) & (i & He & Hi) & (x1 & x2 & x3 & Hd) & Hdec & Hm & Ho & Hs & Hops & Hq & Hstd) Hg Hb Hj.
    cbn [RecordModel.rl_step]. unfold sbind at 1, rl_flush. rewrite Hst, Hdec, Hops, Hr.
    assert ((if f then ([], []) else until_app []) = ([], [] : list dec_op)) as -> by (by destruct f).
    destruct ops as [|op ops].
    - eexists. split; [reflexivity|]. cbn [map length] in *. change (sum_blocks []) with 0%N.
      replace (b - 0)%N with b by lia. replace (j - N.of_nat 0)%N with j by lia. rewrite Nat.add_0_r.
      split_and!; cbn; eauto; done.
    - destruct (encrypt_mpc_fwd (op :: ops) i b j Hg Hb Hi Hj) as (i' & cs & E & Hi' & Hcs).
      set (all := op :: ops) in *.
      set (s1 := set_bufs [] [] s). 
      assert ((if f
        then
         let dlen := foldr N.add 0%N (map (fun op => N.of_nat (length (do_ct op))) []) in
         do! total := slift (lift_panic (uadd checked (rl_recv_online s1) dlen)) in
         if (rl_max_recv_online s1 <? total)%N then sfail ROnlineLimit else smod (set_online total)
        else sret tt) s1 = (s1, Ok tt)) as E0.
      { destruct f; [|done]. cbn [map foldr]. rewrite uadd_fits by (cbn; rewrite Ho; done). unfold sbind, slift, lift_panic.
        rewrite N.add_0_r. replace (rl_max_recv_online s1 <? rl_recv_online s1)%N with false by (cbn; lia).
        unfold smod. f_equal. }
      erewrite sbind_step by exact E0.
      assert (on_enc (encrypt_mpc me all) s1 =
        (set_enc (GReady i' (b - sum_blocks (map eo_len all)) (j - N.of_nat (length all))) s1, Ok cs)) as E1.
      { unfold on_enc. cbn [s1 set_bufs rl_enc]. rewrite He, E. done. }
      erewrite sbind_step by exact E1. cbn [RecordModel.decrypt_loop]. erewrite sbind_step by reflexivity.
      assert (forall s2, rl_dec s2 = GReady x1 x2 x3 -> on_dec (gcm_tags (map do_nonce [])) s2 = (s2, Ok tt)) as E2.
      { intros s2 Hs2. unfold on_dec, gcm_tags. rewrite Hs2. cbn. replace (x3 <? 0)%N with false by lia. unfold sret, set_dec.
        rewrite <- Hs2. by destruct s2. }
      erewrite sbind_step by (by apply E2). unfold tags_verified. cbn [forallb map].
      erewrite sbind_step with (a := tt); [|unfold slift; by destruct me].
      assert (tags_computed all cs = Ok tt) as E3.
      { unfold tags_computed. assert (forallb (fun x0 => ghash_fits (eo_aad (fst x0)) (snd x0)) (zip all cs) = true) as ->; [|done].
        clear -Hg Hcs. clearbody all. induction Hcs as [|op' c ops' cs' Hc _ IH]; [done|]. apply Forall_cons in Hg as [Hg1 Hg2].
        apply andb_true_iff. split; [|by apply IH]. cbn [fst snd]. destruct Hg1 as (_ & Ha & _ & Hl & _). apply ghash_fits_small; [done|lia]. }
      unfold slift at 1. erewrite sbind_step by (rewrite E3; reflexivity).
      erewrite sbind_step by reflexivity.
      eexists. split; [unfold sbind, get_otp; cbn [set_out set_enc s1 set_bufs rl_st]; rewrite Hst; reflexivity|].
      apply Forall2_length in Hcs. unfold all in Hcs. destruct cs as [|c cs]; [done|]. injection Hcs as Hcs.
      split_and!; cbn; eauto; try done. rewrite app_length. cbn. rewrite zip_with_length. lia.
  Qed.
  Lemma batches_fwd f bs s b j sent q : ready s b j sent [] q -> Forall (Forall fine) bs -> Forall (fun l => length l <= 1022) bs ->
    (sent + sum_N (map call_len (concat bs)) <= L)%N -> (L < 2 ^ 64)%N ->
    (sum_blocks (map call_len (concat bs)) <= b)%N -> (N.of_nat (length (concat bs)) <= j)%N ->
    exists s' os b' j' sent', (forall more, rl_run (batches f bs ++ more) s = let (s2, os2) := rl_run more s' in (s2, os ++ os2)) /\
      no_failure os /\ handed_enc os = [] /\ ready s' b' j' sent' [] (q + length (concat bs)).
  Proof.
    intros H Hf Hn. revert s b j sent q H. induction Hf as [|l bs Hl _ IH]; intros s b j sent q H Hs HL Hb Hj.
    - exists s, [], b, j, sent. split; [intros more; cbn; by destruct (rl_run more s)|].
      split; [constructor|]. split; [done|]. cbn. by rewrite Nat.add_0_r.
    - apply Forall_cons in Hn as [Hn1 Hn2]. cbn [concat] in Hs, Hb, Hj.
      assert (sum_blocks (map call_len (l ++ concat bs)) = sum_blocks (map call_len l) + sum_blocks (map call_len (concat bs)))%N as Hsb.
      { unfold sum_blocks. by rewrite !map_app, sum_N_app. }
      rewrite Hsb in Hb. rewrite map_app, sum_N_app in Hs. rewrite app_length in Hj.
      destruct (pushes_fwd l s b j sent [] q H Hl) as (s1 & new & os1 & E1 & Hnf1 & Hh1 & H1 & Hg & Hlen); [lia|done|cbn; lia|].
      cbn [app] in H1. assert (length new = length l) as Hlen' by (apply (f_equal length) in Hlen; by rewrite !map_length in Hlen).
      destruct (flush_fwd f s1 b j _ new q H1 Hg) as (s2 & E2 & H2); [rewrite Hlen; lia|lia|].
      rewrite Hlen, Hlen' in H2.
      destruct (IH Hn2 s2 _ _ _ _ H2) as (s3 & os3 & b' & j' & sent' & E3 & Hnf3 & Hh3 & H3); [lia|done|lia|lia|].
      exists s3, (os1 ++ Ok RUnit :: os3), b', j', sent'. split_and!.
      + intros more. unfold batches. cbn [map concat]. rewrite <- !app_assoc, E1. cbn [app RecordModel.rl_run]. rewrite E2.
        change (concat (map (fun l0 => map push l0 ++ [CFlush f]) bs)) with (batches f bs). rewrite E3.
        destruct (rl_run more s3). by rewrite <- app_assoc.
      + apply Forall_app. split; [done|]. constructor; [by eexists|done].
      + clear -Hh1 Hh3. induction os1 as [|o os1 IH1]; [done|]. cbn [app]. rewrite handed_enc_cons in *.
        apply app_eq_nil in Hh1 as [-> ?]. by rewrite IH1.
      + cbn [concat]. rewrite app_length, Nat.add_assoc. done.
  Qed.
  Lemma nexts_fwd q s b j sent : ready s b j sent [] q ->
    exists s' os, rl_run (replicate q CNextEnc) s = (s', os) /\ no_failure os /\ length (handed_enc os) = q.
  Proof.
    revert s. induction q as [|q IH]; intros s (Hr & Hst & He & Hd & Hdec & Hm & Ho & Hs & Hops & Hq & Hstd).
    - exists s, []. split_and!; try done. constructor.
    - destruct (rl_encrypted s) as [|x xs] eqn:Ex; [done|]. cbn in Hq.
      destruct (IH (set_out xs (rl_decrypted s) s)) as (s' & os & E & Hnf & Hh).
      { split_and!; cbn; try done. lia. }
      exists s', (Ok (REncrypted (Some x)) :: os). split_and!.
      + cbn. unfold sbind, next_encrypted. rewrite Ex, Hstd. cbn. rewrite E. done.
      + constructor; [by eexists|done].
      + cbn. by rewrite Hh.
  Qed.
End Fwd.

(** The accepted records of a history without failures. *)
Fixpoint pushed (cs : list rl_call) : list enc_call :=
  match cs with
  | [] => []
  | CEncrypt t v n p :: cs' => (t, v, n, p) :: pushed cs'
  | _ :: cs' => pushed cs'
  end.
Lemma pushed_app a b : pushed (a ++ b) = pushed a ++ pushed b.
Proof. induction a as [|c a IH]; [done|]. destruct c; cbn; by rewrite IH. Qed.
Lemma pushed_push l : pushed (map push l) = l.
Proof. induction l as [|[[[t v] n] p] l IH]; [done|]. cbn. by rewrite IH. Qed.
Lemma pushed_batches f bs : pushed (batches f bs) = concat bs.
Proof.
  induction bs as [|l bs IH]; [done|]. unfold batches in *. cbn [map concat]. rewrite !pushed_app, IH, pushed_push. cbn.
  by rewrite app_nil_r.
Qed.
Lemma pushed_nexts n : pushed (replicate n CNextEnc) = [].
Proof. by induction n. Qed.
Lemma sublist_same_length {A} (l k : list A) : l `sublist_of` k -> length l = length k -> l = k.
Proof.
  induction 1 as [|x l k Hs IH|x l k Hs IH]; intros Hl; [done|f_equal; apply IH; cbn in Hl; lia|].
  apply sublist_length in Hs. cbn in Hl. lia.
Qed.
  Lemma blocks_of_alt n : blocks_of n = ((n + 15) / 16)%N.
  Proof.
    pose proof (blocks_of_bounds n) as Hb. pose proof (N.div_mod (n + 15) 16 ltac:(lia)) as H1.
    pose proof (N.mod_lt (n + 15) 16 ltac:(lia)). lia.
  Qed.
  Lemma sum_slack (f : enc_call -> N) l : (16 * sum_N (map (fun c => (f c + 15) / 16) l) <= sum_N (map f l) + 15 * N.of_nat (length l))%N.
  Proof.
    induction l as [|c l IH]; [done|]. cbn [map length].
    change (sum_N ((f c + 15) / 16 :: map (fun c => (f c + 15) / 16) l))%N with ((f c + 15) / 16 + sum_N (map (fun c => (f c + 15) / 16) l))%N.
    change (sum_N (f c :: map f l))%N with (f c + sum_N (map f l))%N.
    pose proof (N.mul_div_le (f c + 15) 16 ltac:(lia)). lia.
  Qed.
  Lemma sum_whole (f : enc_call -> N) l : Forall (fun c => f c mod 16 = 0)%N l ->
    (16 * sum_N (map (fun c => (f c + 15) / 16) l) = sum_N (map f l))%N.
  Proof.
    induction 1 as [|c l Hc _ IH]; [done|]. cbn [map].
    change (sum_N ((f c + 15) / 16 :: map (fun c => (f c + 15) / 16) l))%N with ((f c + 15) / 16 + sum_N (map (fun c => (f c + 15) / 16) l))%N.
    change (sum_N (f c :: map f l))%N with (f c + sum_N (map f l))%N.
    pose proof (N.div_mod (f c) 16 ltac:(lia)) as Hd. rewrite Hc, N.add_0_r in Hd.
    assert ((f c + 15) / 16 = f c / 16)%N as ->; [|lia].
    symmetry. apply N.div_unique with (r := 15%N); lia.
  Qed.

Section Fwd2.
  Context (aes : list N -> list N -> list N) (ghash_fn : list N -> list N -> list N).
  Context (checked : bool).
  Context (enc_key enc_iv dec_key dec_iv : list N).
  Context (blind : N -> nat -> N) (pad_rng : nat -> N).
  Notation rl_step := (rl_step aes ghash_fn checked enc_key enc_iv dec_key dec_iv blind pad_rng).
  Notation rl_run := (rl_run aes ghash_fn checked enc_key enc_iv dec_key dec_iv blind pad_rng).
  Lemma accepted_all cs s s' os : rl_run cs s = (s', os) -> no_failure os -> accepted_enc cs os = pushed cs.
  Proof.
    revert s os. induction cs as [|c cs IH]; intros s os H Hnf; cbn [RecordModel.rl_run] in H; [by injection H as <- <-|].
    destruct (rl_step c s) as [s1 [x|e|]].
    - destruct (rl_run cs s1) as [s2 os'] eqn:Er. injection H as <- <-. apply Forall_cons in Hnf as [_ Hnf].
      apply IH in Er; [|done]. destruct c; cbn; by rewrite Er.
    - destruct (rl_run cs s1) as [s2 os'] eqn:Er. injection H as <- <-. by apply Forall_cons in Hnf as [[? [=]] _].
    - injection H as <- <-. by apply Forall_cons in Hnf as [[? [=]] _].
  Qed.
  Lemma gcm_alloc_fwd n L : (L < 2 ^ 64 - 16)%N ->
    gcm_alloc checked n L GInit = (GSetup (16 * blocks_of L) (blocks_of L) n, Ok tt).
  Proof.
    intros HL. unfold gcm_alloc. pose proof (blocks_of_bounds L). rewrite umul_fits by lia. by rewrite blocks_of_mul.
  Qed.
  Lemma start_fwd me L n m o rv : (L < 2 ^ 64 - 16)%N -> (o < 2 ^ 64 - 16)%N -> (rv < 2 ^ 64 - 16)%N ->
    exists s os, (forall more, rl_run ([CAlloc n m L o rv; CSetup; CStart] ++ more) (rl_new me) =
        let (s2, os2) := rl_run more s in (s2, os ++ os2)) /\ no_failure os /\ handed_enc os = [] /\
      ready me L s (blocks_of L) n 0 [] 0.
  Proof.
    intros HL Ho Hv.
    assert (exists s1, rl_step (CAlloc n m L o rv) (rl_new me) = (s1, Ok RUnit) /\
      s1 = RL me 0 0 (GSetup (16 * blocks_of L) (blocks_of L) n) (GSetup (16 * blocks_of o) (blocks_of o) m)
        (SOnline (match me with Leader => Some (map pad_rng (seq 0 (N.to_nat o))) | Follower => None end) [] [])
        false 0 0 0 L o rv [] [] [] []) as (s1 & E1 & Hs1).
    { eexists. split; [|reflexivity]. cbn [RecordModel.rl_step]. unfold sbind at 1, rl_alloc. cbn [rl_new rl_st].
      erewrite sbind_step by reflexivity.
      erewrite sbind_step by (unfold on_enc; cbn [set_st rl_enc]; rewrite gcm_alloc_fwd by done; reflexivity).
      erewrite sbind_step by (unfold on_dec; cbn [set_st set_enc rl_dec]; rewrite gcm_alloc_fwd by done; reflexivity).
      cbn [rl_new rl_max_sent rl_max_recv_online rl_max_recv]. rewrite !uadd_fits by lia. done. }
    set (s3 := RL me 0 0 (GReady (16 * blocks_of L) (blocks_of L) n) (GReady (16 * blocks_of o) (blocks_of o) m)
        (SOnline (match me with Leader => Some (map pad_rng (seq 0 (N.to_nat o))) | Follower => None end) [] [])
        true 0 0 0 L o rv [] [] [] []).
    exists s3, [Ok RUnit; Ok RUnit; Ok RUnit]. split_and!.
    - intros more. cbn [app RecordModel.rl_run]. rewrite E1, Hs1. cbn [RecordModel.rl_step].
      unfold sbind, rl_setup, on_enc, on_dec, rl_start, smod, sret, gcm_setup, sbind. cbn. by destruct (rl_run more _).
    - repeat (constructor; [by eexists|]). done.
    - done.
    - unfold ready, s3. cbn. split_and!; eauto; try done.
  Qed.
End Fwd2.

Section Fwd3.
  Context (aes : list N -> list N -> list N) (ghash_fn : list N -> list N -> list N).
  Context (checked : bool).
  Context (enc_key enc_iv dec_key dec_iv : list N).
  Context (blind : N -> nat -> N) (pad_rng : nat -> N).
  Context (Haes : aes_ok aes).
  Notation rl_run := (rl_run aes ghash_fn checked enc_key enc_iv dec_key dec_iv blind pad_rng).
  Lemma C41_lemma me n m L o rv f bs :
    (n < 2 ^ 64)%N -> (m < 2 ^ 64)%N -> (L < 2 ^ 64 - 16)%N -> (o < 2 ^ 64 - 16)%N -> (rv < 2 ^ 64 - 16)%N ->
    Forall (Forall (fun c => sendable me c /\ 0 < call_len c <= 16384)%N) bs -> Forall (fun l => length l <= 1022) bs ->
    (sum_N (map call_len (concat bs)) <= L)%N -> (N.of_nat (length (concat bs)) <= n)%N ->
    (sum_N (map (fun c => (call_len c + 15) / 16) (concat bs)) <= (L + 15) / 16)%N ->
    exists s' os, rl_run (traffic n m L o rv f bs) (rl_new me) = (s', os) /\ no_failure os /\
      Forall2 (comes_out_enc aes enc_key enc_iv) (concat bs) (handed_enc os).
  Proof.
    intros Hn Hm HL Ho Hv Hf Hb Hs Hc Hbl.
    destruct (start_fwd aes ghash_fn checked enc_key enc_iv dec_key dec_iv blind pad_rng me L n m o rv HL Ho Hv)
      as (s1 & os1 & E1 & Hnf1 & Hh1 & H1).
    assert (sum_blocks (map call_len (concat bs)) <= blocks_of L)%N as Hbl'.
    { unfold sum_blocks. rewrite map_map, blocks_of_alt. rewrite (map_ext _ (fun c => (call_len c + 15) / 16)%N); [done|]. intros c. apply blocks_of_alt. }
    destruct (batches_fwd aes ghash_fn checked enc_key enc_iv dec_key dec_iv blind pad_rng Haes me L f bs s1 (blocks_of L) n 0 0 H1)
      as (s2 & os2 & b' & j' & sent' & E2 & Hnf2 & Hh2 & H2); [done|done|lia|lia|done|done|].
    cbn [Nat.add] in H2.
    eapply (nexts_fwd aes ghash_fn checked enc_key enc_iv dec_key dec_iv blind pad_rng) in H2 as (s3 & os3 & E3 & Hnf3 & Hh3).
    exists s3, (os1 ++ os2 ++ os3).
    assert (rl_run (traffic n m L o rv f bs) (rl_new me) = (s3, os1 ++ os2 ++ os3)) as Er.
    { unfold traffic. rewrite E1, E2, E3. done. }
    assert (no_failure (os1 ++ os2 ++ os3)) as Hnf by (unfold no_failure; rewrite !Forall_app; done).
    split_and!; [done|done|].
    destruct (C39_order_lemma aes ghash_fn checked enc_key enc_iv dec_key dec_iv blind pad_rng Haes _ _ _ _ Er) as [(l & Hl & Hl2) _].
    { unfold traffic. apply Forall_app. split; [|apply Forall_app; split].
      - repeat constructor; lia.
      - unfold batches. apply Forall_concat, Forall_map. eapply Forall_impl; [exact Hf|]. intros l Hl. apply Forall_app. split; [|by repeat constructor].
        apply Forall_map. eapply Forall_impl; [exact Hl|]. intros [[[t v] x] p] [_ Hx]. cbn in *. lia.
      - apply Forall_replicate. done. }
    apply accepted_all in Er; [|done]. rewrite Er in Hl. unfold traffic in Hl. rewrite !pushed_app, pushed_batches, pushed_nexts, app_nil_r in Hl.
    cbn [pushed app] in Hl.
    assert (length (handed_enc (os1 ++ os2 ++ os3)) = length (concat bs)) as Hlen.
    { rewrite <- Hh3. clear -Hh1 Hh2. assert (forall a b, handed_enc (a ++ b) = handed_enc a ++ handed_enc b) as Ha.
      { intros a b. induction a as [|x a IH]; [done|]. cbn [app]. rewrite handed_enc_cons, (handed_enc_cons x a), IH. by rewrite app_assoc. }
      rewrite !Ha, Hh1, Hh2. done. }
    apply sublist_same_length in Hl; [by subst l|]. apply Forall2_length in Hl2. lia.
  Qed.

  Lemma C41_slack_lemma me n m L o rv f bs :
    (n < 2 ^ 64)%N -> (m < 2 ^ 64)%N -> (L < 2 ^ 64 - 16)%N -> (o < 2 ^ 64 - 16)%N -> (rv < 2 ^ 64 - 16)%N ->
    Forall (Forall (fun c => sendable me c /\ 0 < call_len c <= 16384)%N) bs -> Forall (fun l => length l <= 1022) bs ->
    (N.of_nat (length (concat bs)) <= n)%N ->
    (sum_N (map call_len (concat bs)) + 15 * N.of_nat (length (concat bs)) <= L + 15)%N \/
      (sum_N (map call_len (concat bs)) <= L)%N /\ Forall (fun c => call_len c mod 16 = 0)%N (concat bs) ->
    exists s' os, rl_run (traffic n m L o rv f bs) (rl_new me) = (s', os) /\ no_failure os /\
      Forall2 (comes_out_enc aes enc_key enc_iv) (concat bs) (handed_enc os).
  Proof.
    intros Hn Hm HL Ho Hv Hf Hb Hc Hs. apply C41_lemma; try done.
    - destruct Hs as [Hs|[Hs _]]; [|done]. destruct (concat bs) as [|c l]; [cbn; lia|]. cbn [length] in *. lia.
    - destruct Hs as [Hs|[Hs Hw]].
      + pose proof (sum_slack call_len (concat bs)). apply N.div_le_lower_bound; lia.
      + apply sum_whole in Hw. apply N.div_le_lower_bound; lia.
  Qed.
End Fwd3.

(** ** The logs of the two parties *)
Section Agree.
  Context (aes : list N -> list N -> list N).
  Lemma ctr_encrypts_det key iv nonce text c1 c2 :
    ctr_encrypts aes key iv nonce text c1 -> ctr_encrypts aes key iv nonce text c2 -> c1 = c2.
  Proof.
    intros [L1 H1] [L2 H2]. apply list_eq_same_length with (length c1); [congruence|done|]. intros i x y Hi Hx Hy.
    destruct (text !! i) as [b|] eqn:Eb; [|apply lookup_ge_None in Eb; lia].
    destruct (H1 _ _ Eb) as (k & Hk & E1). destruct (H2 _ _ Eb) as (k' & Hk' & E2). congruence.
  Qed.
  Lemma one_to_one_agree {A} (P Q : nat -> A -> tls_record -> Prop) (l : list A) ls lf :
    one_to_one P l ls -> one_to_one Q l lf -> (forall i c r r', l !! i = Some c -> P i c r -> Q i c r' -> same_record r r') ->
    Forall2 same_record ls lf.
  Proof.
    intros [L1 H1] [L2 H2] H. apply Forall2_same_length_lookup_2; [congruence|]. intros i x y Hx Hy.
    assert (is_Some (l !! i)) as [c Hc] by (apply lookup_lt_is_Some; apply lookup_lt_Some in Hx; lia).
    destruct (H1 _ _ Hc) as (x' & Hx' & Hp). destruct (H2 _ _ Hc) as (y' & Hy' & Hq).
    rewrite Hx in Hx'. rewrite Hy in Hy'. injection Hx' as <-. injection Hy' as <-. eauto.
  Qed.
End Agree.
Section Agree2.
  Context (aes : list N -> list N -> list N) (ghash_fn : list N -> list N -> list N).
  Context (checked : bool).
  Context (enc_key enc_iv dec_key dec_iv : list N).
  Context (pad_l pad_f : nat -> N).
  Context (Haes : aes_ok aes).
  Lemma C40_agree_lemma blind_l blind_f pre_l pre_f s_l s_f os_l os_f ls lr fs fr :
    rl_run aes ghash_fn checked enc_key enc_iv dec_key dec_iv blind_l pad_l (pre_l ++ [CCommit]) (rl_new Leader) = (s_l, os_l) ->
    rl_run aes ghash_fn checked enc_key enc_iv dec_key dec_iv blind_f pad_f (pre_f ++ [CCommit]) (rl_new Follower) = (s_f, os_f) ->
    Forall call_ok pre_l -> Forall call_ok pre_f -> (N.of_nat (length pre_l) < 2 ^ 63)%N -> (N.of_nat (length pre_f) < 2 ^ 63)%N ->
    no_failure os_l -> no_failure os_f ->
    Forall2 same_sent (accepted_enc (pre_l ++ [CCommit]) os_l) (accepted_enc (pre_f ++ [CCommit]) os_f) ->
    accepted_dec (pre_l ++ [CCommit]) os_l = accepted_dec (pre_f ++ [CCommit]) os_f ->
    (forall i t v n p, accepted_enc (pre_l ++ [CCommit]) os_l !! i = Some (t, v, n, p) ->
      exists text, p = Some text /\ (t = ApplicationData -> map (blind_f (N.of_nat i)) (seq 0 (length text)) = text)) ->
    last os_l = Some (Ok (RLogs ls lr)) -> last os_f = Some (Ok (RLogs fs fr)) ->
    Forall2 same_record ls fs /\ Forall2 same_record lr fr.
  Proof.
    intros Hl Hf Okl Okf Nl Nf Nfl Nff Hsame Hd Hbl Ll Lf.
    destruct (C40_commit_lemma aes ghash_fn checked enc_key enc_iv dec_key dec_iv blind_l pad_l Haes _ _ _ _ _ _ Hl Okl Nl Nfl Ll) as [[A1 A2] B].
    destruct (C40_commit_lemma aes ghash_fn checked enc_key enc_iv dec_key dec_iv blind_f pad_f Haes _ _ _ _ _ _ Hf Okf Nf Nff Lf) as [[C1 C2] D].
    split.
    - apply Forall2_same_length_lookup_2; [apply Forall2_length in Hsame; congruence|]. intros i x y Hx Hy.
      assert (is_Some (accepted_enc (pre_l ++ [CCommit]) os_l !! i)) as [[[[t v] n] p] Hc] by (apply lookup_lt_is_Some; apply lookup_lt_Some in Hx; lia).
      destruct (Forall2_lookup_l _ _ _ _ _ Hsame Hc) as (c' & Hc' & Hs). cbn in Hs. subst c'.
      destruct (A2 _ _ Hc) as (x' & Hx' & E1 & E2 & _ & E3 & E4 & E5). destruct (C2 _ _ Hc') as (y' & Hy' & F1 & F2 & _ & F3 & F4 & F5).
      rewrite Hx in Hx'. rewrite Hy in Hy'. injection Hx' as <-. injection Hy' as <-.
      destruct (Hbl _ _ _ _ _ Hc) as (text & -> & Htext).
      assert (r_nonce x = r_nonce y) as En by (apply is_be_eq in E3, F3; congruence).
      split_and!; [congruence|congruence|done|]. change (plaintext_of blind_l i (t, v, n, Some text)) with text in E5.
      eapply ctr_encrypts_det; [exact E5|]. rewrite En. unfold plaintext_of in F5. destruct (is_app t) eqn:Ea; [|done].
      apply is_app_spec in Ea. specialize (Htext Ea). destruct E5 as [E5 _].
      replace (length text) with (N.to_nat n) in Htext by lia. by rewrite Htext in F5.
    - rewrite Hd in B. eapply one_to_one_agree; [exact B|exact D|]. intros i [[[[t v] nonce] ct] tag] r r' _.
      intros (E1 & E2 & E3 & E4 & _) (F1 & F2 & F3 & F4 & _). split_and!; congruence.
  Qed.
End Agree2.
