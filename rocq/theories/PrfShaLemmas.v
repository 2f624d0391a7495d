From Verif.Lib Require Import Base.
From Verif Require Import CodecModel CodecLemmas PrfModel PrfSpec.

Lemma be_mod n v : be n (v mod 256 ^ N.of_nat n) = be n v.
Proof.
  assert (forall k, (n <= k)%nat -> be n (v mod 256 ^ N.of_nat k) = be n v) as H; [|by apply H].
  induction n as [|n IH]; intros k Hk; [done|]. cbn [be]. rewrite IH by lia. f_equal.
  replace (256 ^ N.of_nat k)%N with (256 ^ N.of_nat n * (256 * 256 ^ N.of_nat (k - S n)))%N.
  2:{ rewrite <- N.pow_succ_r', <- N.pow_add_r. f_equal. lia. }
  assert (256 ^ N.of_nat n <> 0)%N as Hn by (apply N.pow_nonzero; done).
  assert (256 ^ N.of_nat (k - S n) <> 0)%N as Hn' by (apply N.pow_nonzero; done).
  rewrite N.mod_mul_r by lia. rewrite (N.mul_comm (256 ^ N.of_nat n)), N.div_add by done.
  rewrite (N.div_small (v mod _)) by (by apply N.mod_lt). rewrite N.add_0_l.
  rewrite N.mod_mul_r by lia.
  rewrite N.mul_comm, N.mod_add by done. apply N.mod_mod. done.
Qed.

Lemma blocks_of_more fuel fuel' l : (length l <= fuel)%nat -> (length l <= fuel')%nat -> blocks_of fuel l = blocks_of fuel' l.
Proof.
  revert fuel' l. induction fuel as [|fuel IH]; intros fuel' l H H'.
  { destruct l; [|simpl in H; lia]. by destruct fuel'. }
  destruct fuel' as [|fuel']. { destruct l; [done|simpl in H'; lia]. }
  destruct l as [|x l]; [done|]. cbn [blocks_of]. f_equal. apply IH; rewrite drop_length; simpl in *; lia.
Qed.
Lemma blocks_of_app b l fuel :
  length b = 64%nat -> (length (b ++ l) <= fuel)%nat -> blocks_of fuel (b ++ l) = b :: blocks_of fuel l.
Proof.
  intros Hb H. destruct fuel as [|fuel]. { rewrite app_length in H. lia. }
  assert (exists x t, b ++ l = x :: t) as (x & t & E). { destruct b as [|x b]; [done|]. by exists x, (b ++ l). }
  transitivity (take 64 (b ++ l) :: blocks_of fuel (drop 64 (b ++ l))); [by rewrite E|].
  rewrite take_app_alt, drop_app_alt by done. f_equal.
  apply blocks_of_more; rewrite app_length in H; lia.
Qed.
Lemma blocks_of_one b fuel : length b = 64%nat -> (64 <= fuel)%nat -> blocks_of fuel b = [b].
Proof.
  intros Hb H. rewrite <- (app_nil_r b). rewrite blocks_of_app; [|done|rewrite app_nil_r; lia].
  rewrite app_nil_r. destruct fuel; done.
Qed.

Section Sha.
  Context (iv : list N) (compress : list N -> list N -> list N).
  Notation digest_pad := (digest_pad compress).
  Notation digest_blocks := (digest_blocks compress).
  Notation sha256 := (sha256 compress).

  Lemma digest_pad_is s rest suffix :
    (length rest < 64)%nat -> length suffix = 8%nat ->
    let l := rest ++ [128%N] ++ replicate ((119 - length rest mod 64) mod 64) 0%N ++ suffix in
    digest_pad s rest suffix = fold_left compress (blocks_of (length l) l) s.
  Proof.
    intros Hr Hs. cbn zeta. unfold PrfModel.digest_pad. rewrite app_length. cbn [length].
    rewrite (Nat.mod_small (length rest)) by done.
    destruct (Nat.ltb_spec (64 - (length rest + 1)) 8) as [Hlt|Hge].
    - assert ((119 - length rest) mod 64 = (63 - length rest) + 56)%nat as ->.
      { rewrite Nat.mod_small by lia. lia. }
      rewrite replicate_add.
      replace (rest ++ [128%N] ++ (replicate (63 - length rest) 0%N ++ replicate 56 0%N) ++ suffix)
        with ((rest ++ [128%N] ++ replicate (63 - length rest) 0%N) ++ (replicate 56 0%N ++ suffix))
        by (rewrite <- !app_assoc; done).
      rewrite blocks_of_app; [|rewrite !app_length, replicate_length; cbn; lia|done].
      rewrite blocks_of_one; [|rewrite app_length, replicate_length; lia
                             |rewrite !app_length, !replicate_length; cbn; lia].
      cbn [fold_left]. rewrite <- app_assoc. do 3 f_equal. f_equal. f_equal. lia.
    - assert ((119 - length rest) mod 64 = 55 - length rest)%nat as ->.
      { replace (119 - length rest)%nat with (55 - length rest + 1 * 64)%nat by lia.
        rewrite Nat.mod_add by done. apply Nat.mod_small. lia. }
      rewrite blocks_of_one; [|rewrite !app_length, replicate_length; cbn; lia
                             |rewrite !app_length, !replicate_length; cbn; lia].
      cbn [fold_left]. rewrite <- app_assoc. do 3 f_equal. f_equal. f_equal. lia.
  Qed.

  Lemma digest_all n s msg suffix :
    (length msg <= n)%nat -> length suffix = 8%nat ->
    let l := msg ++ [128%N] ++ replicate ((119 - length msg mod 64) mod 64) 0%N ++ suffix in
    (let '(s', rest) := digest_blocks n s msg in digest_pad s' rest suffix)
    = fold_left compress (blocks_of (length l) l) s.
  Proof.
    revert s msg. induction n as [|n IH]; intros s msg Hn Hs.
    { destruct msg; [|simpl in Hn; lia]. cbn [PrfModel.digest_blocks]. apply digest_pad_is; simpl; lia. }
    cbn [PrfModel.digest_blocks]. destruct (Nat.ltb_spec (length msg) 64) as [Hlt|Hge].
    { apply digest_pad_is; done. }
    specialize (IH (compress s (take 64 msg)) (drop 64 msg)). cbn zeta in IH |- *.
    rewrite IH; [|rewrite drop_length; lia|done]. clear IH.
    assert (length msg mod 64 = length (drop 64 msg) mod 64)%nat as ->.
    { rewrite drop_length. replace (length msg)%nat with (length msg - 64 + 1 * 64)%nat at 1 by lia.
      by rewrite Nat.mod_add. }
    set (t := _ ++ suffix).
    set (t' := [128%N] ++ t).
    assert (msg ++ t' = take 64 msg ++ drop 64 msg ++ t') as ->. { by rewrite app_assoc, take_drop. }
    rewrite (blocks_of_app (take 64 msg)); [|rewrite take_length; lia|done]. cbn [fold_left].
    f_equal. apply blocks_of_more; [lia|]. rewrite (app_length (take 64 msg)). lia.
  Qed.

  (** Hashing what follows the first block. *)
  Lemma sha256_after_block b msg :
    length b = 64%nat ->
    state_to_bytes (sha256 (compress iv b) 64 msg) = fips_sha256 iv compress (b ++ msg).
  Proof.
    intros Hb. unfold PrfModel.sha256, fips_sha256, state_to_bytes. f_equal. f_equal.
    pose proof (digest_all (length msg) (compress iv b) msg
      (be 8 (((N.of_nat (length msg) + 64) * 8) mod 2 ^ 64)) ltac:(lia) (be_length _ _)) as H.
    cbn zeta in H. rewrite H. clear H. unfold fips_pad.
    replace (2 ^ 64)%N with (256 ^ N.of_nat 8)%N by done. rewrite be_mod.
    rewrite (app_length b msg), Hb.
    replace ((64 + length msg) mod 64)%nat with (length msg mod 64)%nat.
    2:{ replace (64 + length msg)%nat with (length msg + 1 * 64)%nat by lia. by rewrite Nat.mod_add. }
    replace (8 * N.of_nat (64 + length msg))%N with ((N.of_nat (length msg) + 64) * 8)%N
      by (rewrite Nat2N.inj_add; change (N.of_nat 64) with 64%N; ring).
    rewrite <- app_assoc. rewrite (blocks_of_app b) by (done || lia). cbn [fold_left]. f_equal.
    apply blocks_of_more; [lia|]. rewrite (app_length b). lia.
  Qed.

  Lemma zip_xor_map (k : list N) (c : N) : zip_with N.lxor k (replicate (length k) c) = map (N.lxor c) k.
  Proof. induction k as [|x k IH]; [done|]. simpl. rewrite N.lxor_comm. f_equal. done. Qed.

  (** The state after the padded key. *)
  Definition key_state (key : list N) (mask : N) : list N :=
    compress iv (zip_with N.lxor (key ++ replicate (64 - length key) 0%N) (replicate 64 mask)).
  Definition mac (key text : list N) : list N :=
    state_to_bytes (sha256 (key_state key 92) 64 (state_to_bytes (sha256 (key_state key 54) 64 text))).
  Lemma mac_is key text : (length key <= 64)%nat -> mac key text = rfc_hmac iv compress key text.
  Proof.
    intros Hk. unfold mac, key_state, rfc_hmac.
    assert (length (key ++ replicate (64 - length key) 0%N) = 64%nat) as Hl.
    { rewrite app_length, replicate_length. lia. }
    rewrite <- Hl at 2 4. rewrite !zip_xor_map.
    rewrite !sha256_after_block by (rewrite map_length; done). done.
  Qed.
End Sha.
