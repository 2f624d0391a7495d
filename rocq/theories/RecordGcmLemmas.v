(** Lemmas about the encryption machinery below the record layer. *)
From Verif.Lib Require Import Base Ranges.
From Verif Require Import TranscriptModel ProofModel CodecModel CodecSpec CodecLemmas AttestModel TlsModel AuthModel
  TagModel TagLemmas RecordModel RecordSpec.

Lemma sbind_inv {S E A B} (m : stm S E A) (k : A -> stm S E B) s s' o :
  sbind m k s = (s', o) ->
  (exists s1 a, m s = (s1, Ok a) /\ k a s1 = (s', o)) \/
  (exists e, m s = (s', Err e) /\ o = Err e) \/ (m s = (s', Panic) /\ o = Panic).
Proof.
  unfold sbind. destruct (m s) as [s1 [a|e|]]; intros H; [left; eauto| |]; injection H as <- <-; right; [left|right]; eauto.
Qed.
Lemma sbind_Ok {S E A B} (m : stm S E A) (k : A -> stm S E B) s s' b :
  sbind m k s = (s', Ok b) <-> exists s1 a, m s = (s1, Ok a) /\ k a s1 = (s', Ok b).
Proof.
  split.
  - intros [H|[(e & _ & H)|(_ & H)]]%sbind_inv; done.
  - intros (s1 & a & H1 & H2). unfold sbind. by rewrite H1.
Qed.

Lemma blocks_of_bounds n : (n <= 16 * blocks_of n < n + 16)%N.
Proof.
  unfold blocks_of. pose proof (N.div_mod n 16 ltac:(lia)). pose proof (N.mod_lt n 16 ltac:(lia)).
  destruct (n mod 16 =? 0)%N eqn:E; lia.
Qed.
Lemma blocks_of_mul n : blocks_of (16 * n) = n.
Proof. pose proof (blocks_of_bounds (16 * n)). lia. Qed.
Lemma blocks_of_pos n : (0 < blocks_of n <-> 0 < n)%N.
Proof. pose proof (blocks_of_bounds n). lia. Qed.
Lemma blocks_of_nat n : blocks_of (N.of_nat n) = N.of_nat (block_count n).
Proof. pose proof (blocks_of_bounds (N.of_nat n)). pose proof (block_count_spec n). lia. Qed.

Section Gcm.
  Context (checked : bool).

  Lemma umul_cases a b x : umul checked a b = Ok x ->
    (a * b < 2 ^ 64 /\ x = a * b)%N \/ (2 ^ 64 <= a * b /\ x = (a * b) mod 2 ^ 64)%N.
  Proof.
    unfold umul, usize_max. destruct (N.ltb_spec (a * b) (2 ^ 64)); [intros [= <-]; by left|].
    destruct checked; [done|]. intros [= <-]. by right.
  Qed.
  (** Padding a length to whole blocks can only overflow to zero. *)
  Lemma padded_cases len x : (len < 2 ^ 64)%N -> umul checked (blocks_of len) 16 = Ok x ->
    x = (16 * blocks_of len)%N \/ x = 0%N.
  Proof.
    intros Hl [[H ->]|[H ->]]%umul_cases; [left; lia|right].
    assert (blocks_of len * 16 = 2 ^ 64)%N as ->; [|done].
    pose proof (blocks_of_bounds len) as Hb. assert (blocks_of len < 2 ^ 60 + 1)%N; lia.
  Qed.

  Lemma apply_ok nonce len g g' : (len < 2 ^ 64)%N -> apply_keystream_mpc checked nonce len g = (g', Ok tt) ->
    exists i b j, g = GReady i b j /\ length nonce = 8 /\ (0 < len /\ blocks_of len <= b /\ 16 * blocks_of len <= i)%N /\
      g' = GReady (i - 16 * blocks_of len) (b - blocks_of len) j.
  Proof.
    intros Hl. unfold apply_keystream_mpc. destruct g as [| |i b j|]; try done. intros H.
    apply sbind_Ok in H as (g1 & u1 & H1 & H). unfold check_nonce in H1.
    destruct (length nonce =? 8) eqn:En; [|done]. injection H1 as <- <-.
    apply sbind_Ok in H as (g2 & padded & H2 & H). unfold slift in H2.
    destruct (umul checked (blocks_of len) 16) as [x| |] eqn:Em; try done. cbn [lift_panic] in H2.
    injection H2 as <- <-. apply padded_cases in Em; [|done].
    apply sbind_Ok in H as (g3 & pl & H3 & H). unfold slift in H3. injection H3 as <- _.
    apply sbind_Ok in H as (g4 & u4 & H4 & H). unfold check_input in H4.
    destruct (i <? x)%N eqn:Ei; [done|]. injection H4 as <- <-.
    apply sbind_Ok in H as (g5 & u5 & H5 & H). cbn [take_input] in H5. injection H5 as <- <-.
    apply sbind_Ok in H as (g6 & cb & H6 & H). cbn [consume] in H6.
    destruct (b <? blocks_of x)%N eqn:Eb; [done|]. injection H6 as <- <-.
    destruct (negb (x =? 16 * blocks_of x)%N) eqn:E1; [done|].
    destruct (blocks_of x =? 0)%N eqn:E2; [done|]. injection H as <-.
    destruct Em as [->| ->]; [|by vm_compute in E2].
    rewrite blocks_of_mul in *. exists i, b, j. pose proof (blocks_of_pos len). split_and!; try done; lia.
  Qed.
  Lemma take_ok nonce len g g' : (len < 2 ^ 64)%N -> take_keystream_mpc checked nonce len g = (g', Ok tt) ->
    exists i b j, g = GReady i b j /\ length nonce = 8 /\ (0 < len /\ blocks_of len <= b)%N /\
      g' = GReady i (b - blocks_of len) j.
  Proof.
    intros Hl. unfold take_keystream_mpc. destruct g as [| |i b j|]; try done. intros H.
    apply sbind_Ok in H as (g1 & u1 & H1 & H). unfold check_nonce in H1.
    destruct (length nonce =? 8) eqn:En; [|done]. injection H1 as <- <-.
    apply sbind_Ok in H as (g2 & padded & H2 & H). unfold slift in H2.
    destruct (umul checked (blocks_of len) 16) as [x| |] eqn:Em; try done. cbn [lift_panic] in H2.
    injection H2 as <- <-.
    apply sbind_Ok in H as (g4 & u4 & H4 & H). unfold check_input in H4.
    destruct (i <? x)%N eqn:Ei; [done|]. injection H4 as <- <-.
    apply sbind_Ok in H as (g6 & cb & H6 & H). cbn [consume] in H6.
    destruct (b <? blocks_of len)%N eqn:Eb; [done|]. injection H6 as <- <-.
    destruct (len =? 0)%N eqn:E1; [done|].
    destruct (blocks_of len =? 0)%N eqn:E2; [done|]. injection H as <-.
    exists i, b, j. split_and!; try done; lia.
  Qed.
  Lemma take_j0s_ok ns g g' : take_j0s ns g = (g', Ok tt) ->
    Forall (fun n => length n = 8) ns /\
    (ns = [] /\ g' = g \/ exists i b j, g = GReady i b j /\ g' = GReady i b (j - N.of_nat (length ns))).
  Proof.
    revert g. induction ns as [|n ns IH]; intros g; cbn [take_j0s].
    - intros [= <-]. split; [constructor|by left].
    - intros H. apply sbind_Ok in H as (g1 & u1 & H1 & H). unfold check_nonce in H1.
      destruct (length n =? 8) eqn:En; [|done]. injection H1 as <- <-.
      apply sbind_Ok in H as (g2 & u2 & H2 & H). destruct g as [| |i b j|]; try done. injection H2 as <- <-.
      apply IH in H as [Hf Hg]. split; [constructor; [lia|done]|]. right. exists i, b, j. split; [done|].
      destruct Hg as [[-> ->]|(i' & b' & j' & [= <- <- <-] & ->)]; f_equal; cbn [length]; lia.
  Qed.
  Lemma gcm_tags_ok ns g g' : gcm_tags ns g = (g', Ok tt) ->
    exists i b j, g = GReady i b j /\ (N.of_nat (length ns) <= j)%N /\ Forall (fun n => length n = 8) ns /\
      g' = GReady i b (j - N.of_nat (length ns)).
  Proof.
    unfold gcm_tags. destruct g as [| |i b j|]; try done. destruct (j <? _)%N eqn:E; [done|]. intros H.
    apply take_j0s_ok in H as [Hf Hg]. exists i, b, j. split_and!; try done; [lia|].
    destruct Hg as [[-> ->]|(i' & b' & j' & [= <- <- <-] & ->)]; [|done]. cbn [length]. f_equal. lia.
  Qed.
End Gcm.

(** ** The keystream *)
Lemma otp_cancels (ct piece ks : list N) : length piece = length ct ->
  zip_with N.lxor ct (zip_with N.lxor piece (zip_with N.lxor piece ks)) = zip_with N.lxor ct ks.
Proof.
  revert piece ks. induction ct as [|c ct IH]; intros [|p piece] ks Hl; try done; try (cbn in Hl; lia).
  destruct ks as [|k ks]; [done|]. cbn. f_equal; [|apply IH; cbn in Hl; lia].
  by rewrite <- (N.lxor_assoc p p), N.lxor_nilpotent, N.lxor_0_l.
Qed.
Section Keystream.
  Context (aes : list N -> list N -> list N) (Haes : forall k b, length (aes k b) = 16).
  Lemma concat_blocks_length {A} (f : A -> list N) l : (forall x, length (f x) = 16) ->
    length (concat (map f l)) = 16 * length l.
  Proof. intros H. induction l as [|x l IH]; [done|]. cbn. rewrite app_length, H, IH. lia. Qed.
  Lemma concat_blocks_lookup {A} (f : A -> list N) l i : (forall x, length (f x) = 16) ->
    concat (map f l) !! i = l !! (i / 16) ≫= fun x => f x !! (i mod 16).
  Proof.
    intros H. revert i. induction l as [|x l IH]; intros i; [done|]. cbn [map concat].
    destruct (decide (i < 16)) as [Hi|Hi].
    - rewrite lookup_app_l by (rewrite H; lia). rewrite Nat.div_small, Nat.mod_small by done. done.
    - rewrite lookup_app_r by (rewrite H; lia). rewrite H, IH.
      assert (i = (i - 16) + 1 * 16) as Hi2 by lia.
      assert (i / 16 = S ((i - 16) / 16)) as -> by (rewrite Hi2 at 1; rewrite Nat.div_add by lia; lia).
      assert (i mod 16 = (i - 16) mod 16) as -> by (rewrite Hi2 at 1; by rewrite Nat.mod_add by lia).
      done.
  Qed.
  Lemma ks_value_length key iv nonce n : length (ks_value aes key iv nonce n) = n.
  Proof.
    unfold ks_value. rewrite take_length, concat_blocks_length by done. rewrite seq_length.
    pose proof (block_count_spec n). lia.
  Qed.
  Lemma ks_value_lookup key iv nonce n i : i < n ->
    exists k, aes key (iv ++ nonce ++ be 4 (2 + N.of_nat (i / 16))) !! (i mod 16) = Some k /\
      ks_value aes key iv nonce n !! i = Some k.
  Proof.
    intros Hi. destruct (lookup_lt_is_Some_2 (aes key (iv ++ nonce ++ be 4 (2 + N.of_nat (i / 16)))) (i mod 16)) as [k Hk].
    { rewrite Haes. apply Nat.mod_upper_bound. lia. }
    exists k. split; [done|]. unfold ks_value. rewrite lookup_take by done. rewrite concat_blocks_lookup by done.
    pose proof (block_count_spec n). pose proof (Nat.div_mod_eq i 16). pose proof (Nat.mod_upper_bound i 16 ltac:(lia)).
    rewrite lookup_seq_lt by lia. cbn [mbind option_bind].
    replace (N.of_nat (2 + (0 + i / 16))) with (2 + N.of_nat (i / 16))%N by lia. done.
  Qed.
  Lemma xor_encrypts key iv nonce text n : n = length text ->
    ctr_encrypts aes key iv nonce text (zip_with N.lxor text (ks_value aes key iv nonce n)).
  Proof.
    intros ->. split; [rewrite zip_with_length, ks_value_length; lia|]. intros i x Hx.
    destruct (ks_value_lookup key iv nonce (length text) i) as (k & Hk & Hv); [by eapply lookup_lt_Some|].
    exists k. split; [done|]. rewrite lookup_zip_with, Hx, Hv. done.
  Qed.
End Keystream.
