From Verif.Lib Require Import Base.
From Verif Require Import CipherModel CipherSpec.

Lemma later_refl vm : later vm vm.
Proof. split; [done|]. intros r H. by exists None. Qed.
Lemma later_trans a b c : later a b -> later b c -> later a c.
Proof.
  intros [H1 H2] [H3 H4]. split.
  - intros r d Hr Hd. apply H3; [by apply H1|done].
  - intros r Hr. destruct (H2 r Hr) as [v Hv]. destruct v as [v|]; [|by apply H4]. exists (Some v). by apply H3.
Qed.
Lemma later_app (vm l : cvm) : later vm (vm ++ l).
Proof.
  split.
  - intros r d Hr _. by apply lookup_app_l_Some.
  - intros r Hr. exists None. by apply lookup_app_l_Some.
Qed.
Lemma later_assign vm r v vm' : vm_assign vm r v = Some vm' -> later vm vm'.
Proof.
  unfold vm_assign. destruct (vm !! r) as [[[?|]| | | |]|] eqn:E; try done. intros [= <-]. split.
  - intros r' d Hr Hd. rewrite list_lookup_insert_ne; [done|]. intros <-. congruence.
  - intros r' Hr. destruct (decide (r = r')) as [<-|Hn].
    + exists (Some v). apply list_lookup_insert. by eapply lookup_lt_Some.
    + exists None. by rewrite list_lookup_insert_ne.
Qed.
Lemma later_in vm vm' r v : later vm vm' -> in_value vm r = Some v -> in_value vm' r = Some v.
Proof.
  unfold in_value. intros [H _] Hr. destruct (vm !! r) as [[[?|]| | | |]|] eqn:E; try done. injection Hr as ->.
  by rewrite (H r _ E).
Qed.
Lemma add_lookup (vm : cvm) (d : cdef) : (vm ++ [d]) !! length vm = Some d.
Proof. by apply list_lookup_middle. Qed.

Lemma div_ceil_enough len : enough (div_ceil len 16) len.
Proof.
  unfold enough, div_ceil. pose proof (Nat.div_mod len 16 ltac:(lia)). pose proof (Nat.mod_upper_bound len 16 ltac:(lia)).
  destruct (Nat.eqb_spec (len mod 16) 0); lia.
Qed.
Lemma enough_inj n n' len : enough n len -> enough n' len -> n = n'.
Proof. unfold enough. lia. Qed.

(** A block under a key and an IV. *)
Definition block_under (vm : cvm) (key iv : nat) (b : ctr_block) : Prop :=
  exists ks, vm !! cb_out b = Some (CAes ks [iv; cb_nonce b; cb_ctr b]) /\ vm !! ks = Some (CKs key).
Lemma block_later vm vm' key iv b : later vm vm' -> block_under vm key iv b -> block_under vm' key iv b.
Proof. intros [H _] (ks & H1 & H2). exists ks. split; by apply H. Qed.

Lemma need_ks_ok vm c key iv vm' c' ks : ready vm c key iv -> need_ks vm c key = (vm', c', ks) ->
  ready vm' c' key iv /\ vm' !! ks = Some (CKs key) /\ exists l, vm' = vm ++ l.
Proof.
  intros (H1 & H2 & H3). unfold need_ks. destruct (ac_ks c) as [k|] eqn:E.
  - intros [= <- <- <-]. split_and!; [by split_and!; [done|done|rewrite E]|by apply H3|exists []; by rewrite app_nil_r].
  - unfold vm_add. intros [= <- <- <-]. split_and!.
    + split_and!; cbn [ac_key ac_iv ac_ks]; [done|done|]. intros ? [= <-]. apply add_lookup.
    + apply add_lookup.
    + by eexists.
Qed.

Lemma alloc_inputs_ok n : forall vm vm' l, alloc_inputs vm n = (vm', l) ->
  vm' = vm ++ replicate (2 * n) (CIn None) /\ length l = n /\
  concat (map (fun p => [fst p; snd p]) l) = seq (length vm) (2 * n).
Proof.
  induction n as [|n IH]; intros vm vm' l H; cbn [alloc_inputs] in H.
  - injection H as <- <-. split_and!; [by rewrite app_nil_r|done|done].
  - unfold vm_add in H. destruct (alloc_inputs _ n) as [vm3 l3] eqn:E. injection H as <- <-.
    apply IH in E as (E1 & E2 & E3). split_and!.
    + rewrite E1, <-!app_assoc. replace (2 * S n) with (S (S (2 * n))) by lia. done.
    + cbn [length]. by rewrite E2.
    + cbn [map concat fst snd]. rewrite E3, !app_length. cbn [length]. replace (2 * S n) with (S (S (2 * n))) by lia. cbn [seq app].
      f_equal. f_equal; [lia|]. f_equal. lia.
Qed.

Lemma alloc_outputs_ok key iv l : forall vm c vm' c' bs, ready vm c key iv -> alloc_outputs vm c key iv l = (vm', c', bs) ->
  ready vm' c' key iv /\ (exists e, vm' = vm ++ e) /\ map (fun b => (cb_nonce b, cb_ctr b)) bs = l /\
  Forall (block_under vm' key iv) bs /\ Forall (fun b => length vm <= cb_out b) bs /\ NoDup (map cb_out bs).
Proof.
  induction l as [|[nonce ctr] l IH]; intros vm c vm' c' bs Hr H; cbn [alloc_outputs] in H.
  - injection H as <- <- <-. split_and!; [done|exists []; by rewrite app_nil_r|done|constructor|constructor|constructor].
  - destruct (need_ks vm c key) as [[vm1 c1] ks] eqn:E1. unfold vm_add in H.
    destruct (alloc_outputs (vm1 ++ [CAes ks [iv; nonce; ctr]]) c1 key iv l) as [[vm3 c3] bs3] eqn:E3. injection H as <- <- <-.
    destruct (need_ks_ok _ _ _ _ _ _ _ Hr E1) as (Hr1 & Hk & l1 & ->).
    apply IH in E3 as (Hr3 & (e & ->) & Hm & Hf & Hg & Hd).
    2: { destruct Hr1 as (? & ? & Hq). split_and!; [done|done|]. intros k0 Hk0. apply lookup_app_l_Some. by apply Hq. }
    split_and!.
    + done.
    + eexists. by rewrite <-!app_assoc.
    + cbn [map cb_nonce cb_ctr]. by rewrite Hm.
    + constructor; [|done]. exists ks. cbn [cb_out cb_nonce cb_ctr]. split.
      * apply lookup_app_l_Some. apply add_lookup.
      * apply lookup_app_l_Some, lookup_app_l_Some. done.
    + constructor; [cbn [cb_out]; rewrite app_length; lia|]. eapply Forall_impl; [exact Hg|]. cbn beta. intros b. rewrite !app_length. lia.
    + cbn [map cb_out]. constructor; [|done]. intros (b & Hb & Hin)%elem_of_list_fmap.
      rewrite Forall_forall in Hg. specialize (Hg b Hin). rewrite !app_length in *. cbn [length] in Hg. lia.
Qed.

Lemma inputs_pairs bs : inputs bs = concat (map (fun p => [fst p; snd p]) (map (fun b => (cb_nonce b, cb_ctr b)) bs)).
Proof. unfold inputs. by rewrite map_map. Qed.

Lemma C89_alloc vm c key iv len vm1 c1 bs : ready vm c key iv -> alloc_keystream vm c len = Ok (vm1, c1, bs) ->
  later vm vm1 /\ ready vm1 c1 key iv /\ enough (length bs) len /\ unassigned vm1 bs /\ (forall r, r ∈ inputs bs -> length vm <= r) /\
  NoDup (map cb_out bs) /\ Forall (block_under vm1 key iv) bs.
Proof.
  intros Hr H. unfold alloc_keystream in H. destruct Hr as (H1 & H2 & H3). rewrite H1, H2 in H.
  destruct (alloc_inputs vm (div_ceil len 16)) as [vm0 l] eqn:E. injection H as H.
  apply alloc_inputs_ok in E as (E1 & E2 & E3).
  assert (Hr : ready vm0 c key iv).
  { split_and!; [done|done|]. intros k Hk. subst vm0. apply lookup_app_l_Some. by apply H3. }
  destruct (alloc_outputs_ok _ _ _ _ _ _ _ _ Hr H) as (Hr1 & (e & Ee) & Hm & Hf & Hg & Hd).
  assert (Hin : inputs bs = seq (length vm) (2 * div_ceil len 16)) by (by rewrite inputs_pairs, Hm).
  split_and!; try done.
  - rewrite Ee, E1, <-app_assoc. apply later_app.
  - replace (length bs) with (div_ceil len 16); [apply div_ceil_enough|]. rewrite <-E2, <-Hm. by rewrite map_length.
  - split; [rewrite Hin; apply NoDup_seq|]. intros r Hrr. rewrite Hin in Hrr. apply elem_of_seq in Hrr.
    rewrite Ee. apply lookup_app_l_Some. rewrite E1. rewrite lookup_app_r by lia. apply lookup_replicate. split; [done|lia].
  - intros r Hrr. rewrite Hin in Hrr. apply elem_of_seq in Hrr. lia.
Qed.

Section value.
Context {K : Type} (aes_ks : list N -> K) (aes_post : K -> list N -> list N).
Notation AES := (AES aes_ks aes_post).
Notation val := (value aes_ks aes_post).

Lemma block_aes vm key iv b k i n ct : block_under vm key iv b ->
  in_value vm key = Some k -> in_value vm iv = Some i -> in_value vm (cb_nonce b) = Some n -> in_value vm (cb_ctr b) = Some ct ->
  aes_value aes_ks aes_post vm (cb_out b) = Some (AES k (i ++ n ++ ct)).
Proof.
  intros (ks & H1 & H2) Hk Hi Hn Hc. unfold aes_value. rewrite H1. unfold ks_value. rewrite H2, Hk. cbn [map collect fmap option_fmap option_map].
  rewrite Hi, Hn, Hc. cbn. by rewrite app_nil_r.
Qed.
Lemma cipher_val vm b : cipher_block vm b -> val vm (cb_out b) = aes_value aes_ks aes_post vm (cb_out b).
Proof. intros (ks & args & H). unfold value, xor_value. by rewrite H. Qed.
Lemma under_cipher vm key iv b : block_under vm key iv b -> cipher_block vm b.
Proof using Type.
  clear aes_ks aes_post K. intros (ks & H & _). by eexists _, _. Qed.
Lemma cipher_later vm vm' b : later vm vm' -> cipher_block vm b -> cipher_block vm' b.
Proof using Type.
  clear aes_ks aes_post K. intros [H _] (ks & args & Hb). exists ks, args. by apply H. Qed.

Lemma C89_alloc_lemma vm c key iv len vm1 c1 bs : ready vm c key iv -> alloc_keystream vm c len = Ok (vm1, c1, bs) ->
  later vm vm1 /\ ready vm1 c1 key iv /\ enough (length bs) len /\ unassigned vm1 bs /\ (forall r, r ∈ inputs bs -> length vm <= r) /\
  NoDup (map cb_out bs) /\ Forall (cipher_block vm1) bs /\
  forall vm' b k i n ct, later vm1 vm' -> b ∈ bs -> in_value vm' key = Some k -> in_value vm' iv = Some i ->
    in_value vm' (cb_nonce b) = Some n -> in_value vm' (cb_ctr b) = Some ct -> val vm' (cb_out b) = Some (AES k (i ++ n ++ ct)).
Proof.
  intros Hr H. destruct (C89_alloc _ _ _ _ _ _ _ _ Hr H) as (? & ? & ? & ? & ? & ? & Hf). split_and!; try done.
  - eapply Forall_impl; [exact Hf|]. intros b. apply under_cipher.
  - intros vm' b k i n ct Hl Hb Hk Hi Hn Hc. rewrite Forall_forall in Hf. specialize (Hf b Hb). apply (block_later _ _ _ _ _ Hl) in Hf.
    rewrite (cipher_val _ _ (under_cipher _ _ _ _ Hf)). by apply (block_aes vm' key iv).
Qed.

Lemma C89_consume_lemma bs len :
  (exists n, enough n len /\ length bs < n /\ ks_consume bs len = Err CInsufficient) \/
  (exists rest piece, ks_consume bs len = Ok (rest, piece) /\ bs = rest ++ piece /\ enough (length piece) len).
Proof using Type.
  clear aes_ks aes_post K.
  unfold ks_consume. pose proof (div_ceil_enough len) as He. destruct (Nat.ltb_spec (length bs) (div_ceil len 16)).
  - left. by exists (div_ceil len 16).
  - right. eexists _, _. split; [reflexivity|]. rewrite take_drop. split; [done|]. rewrite drop_length.
    by replace (length bs - (length bs - div_ceil len 16)) with (div_ceil len 16) by lia.
Qed.

Lemma assign_ok nonce ctr bs : forall vm i, unassigned vm bs -> exists vm', ks_assign vm bs nonce ctr i = Ok vm' /\ later vm vm' /\
  (forall j b, bs !! j = Some b -> in_value vm' (cb_nonce b) = Some nonce /\ in_value vm' (cb_ctr b) = Some (ctr (i + j))) /\
  (forall r, r ∉ inputs bs -> vm' !! r = vm !! r).
Proof using Type.
  clear aes_ks aes_post K.
  induction bs as [|b bs IH]; intros vm i [Hd Hu].
  { exists vm. split_and!; [done|apply later_refl|by intros j b Hj; destruct j|done]. }
  unfold inputs in Hd, Hu. cbn [map concat app] in Hd, Hu. fold (inputs bs) in Hd, Hu.
  apply NoDup_cons in Hd as [Hn1 Hd]. apply NoDup_cons in Hd as [Hn2 Hd].
  assert (Ha : vm !! cb_nonce b = Some (CIn None)) by (apply Hu; apply elem_of_list_here).
  assert (Hb : vm !! cb_ctr b = Some (CIn None)) by (apply Hu; apply elem_of_list_further, elem_of_list_here).
  assert (Hne : cb_nonce b <> cb_ctr b) by (intros E; apply Hn1; rewrite E; apply elem_of_list_here).
  set (vm1 := <[cb_nonce b := CIn (Some nonce)]> vm). set (vm2 := <[cb_ctr b := CIn (Some (ctr i))]> vm1).
  assert (A1 : vm_assign vm (cb_nonce b) nonce = Some vm1) by (unfold vm_assign; by rewrite Ha).
  assert (A2 : vm_assign vm1 (cb_ctr b) (ctr i) = Some vm2).
  { unfold vm_assign. unfold vm1 at 1. rewrite list_lookup_insert_ne by done. by rewrite Hb. }
  assert (Ho : forall r, r <> cb_nonce b -> r <> cb_ctr b -> vm2 !! r = vm !! r).
  { intros r ? ?. unfold vm2, vm1. by rewrite !list_lookup_insert_ne by done. }
  destruct (IH vm2 (S i)) as (vm' & He & Hl & Hv & Hother).
  { split; [done|]. intros r Hr. rewrite Ho.
    - apply Hu. by apply elem_of_list_further, elem_of_list_further.
    - intros ->. apply Hn1. by apply elem_of_list_further.
    - by intros ->. }
  assert (V1 : in_value vm2 (cb_nonce b) = Some nonce).
  { unfold in_value, vm2. rewrite list_lookup_insert_ne by done. unfold vm1. rewrite list_lookup_insert; [done|]. by eapply lookup_lt_Some. }
  assert (V2 : in_value vm2 (cb_ctr b) = Some (ctr i)).
  { unfold in_value, vm2. rewrite list_lookup_insert; [done|]. unfold vm1. rewrite insert_length. by eapply lookup_lt_Some. }
  exists vm'. cbn [ks_assign]. rewrite A1, A2. split_and!.
  - done.
  - apply (later_trans _ vm1); [by apply (later_assign vm (cb_nonce b) nonce)|].
    apply (later_trans _ vm2); [by apply (later_assign vm1 (cb_ctr b) (ctr i))|done].
  - intros j b' Hj. destruct j as [|j]; cbn in Hj.
    + injection Hj as <-. rewrite Nat.add_0_r. split; by apply (later_in vm2).
    + replace (i + S j) with (S i + j) by lia. by apply Hv.
  - intros r Hr. unfold inputs in Hr. cbn [map concat app] in Hr. fold (inputs bs) in Hr.
    rewrite Hother; [apply Ho|]; intros Hx; apply Hr.
    + subst. apply elem_of_list_here.
    + subst. apply elem_of_list_further, elem_of_list_here.
    + by apply elem_of_list_further, elem_of_list_further.
Qed.
Lemma C89_assign_lemma vm bs nonce ctr : unassigned vm bs -> exists vm', ks_assign vm bs nonce ctr 0 = Ok vm' /\ later vm vm' /\
  (forall j b, bs !! j = Some b -> in_value vm' (cb_nonce b) = Some nonce /\ in_value vm' (cb_ctr b) = Some (ctr j)) /\
  (forall r, r ∉ inputs bs -> vm' !! r = vm !! r).
Proof using Type.
  clear aes_ks aes_post K. intros H. exact (assign_ok nonce ctr bs vm 0 H). Qed.

Lemma xor_blocks_ok inp bs : forall vm pos vm' os, xor_blocks vm bs inp pos = (vm', os) ->
  (exists e, vm' = vm ++ e) /\ length os = length bs /\
  forall j b o, bs !! j = Some b -> os !! j = Some o -> vm' !! o = Some (CXor (cb_out b) inp (pos + 16 * j)).
Proof using Type.
  clear aes_ks aes_post K.
  induction bs as [|b bs IH]; intros vm pos vm' os H; cbn [xor_blocks] in H.
  - injection H as <- <-. split_and!; [exists []; by rewrite app_nil_r|done|]. intros j b o Hj. by destruct j.
  - unfold vm_add in H. destruct (xor_blocks _ bs inp (pos + 16)) as [vm2 os2] eqn:E. injection H as <- <-.
    apply IH in E as ((e & ->) & Hl & Hx). split_and!.
    + eexists. by rewrite <-app_assoc.
    + cbn [length]. by rewrite Hl.
    + intros j b' o Hj Ho. destruct j as [|j]; cbn in Hj, Ho.
      * injection Hj as <-. injection Ho as <-. rewrite Nat.mul_0_r, Nat.add_0_r. apply lookup_app_l_Some, add_lookup.
      * rewrite (Hx j b' o Hj Ho). do 2 f_equal. lia.
Qed.

Lemma collect_ok {A} (l : list (option (list A))) xs : l = map Some xs -> collect l = Some (concat xs).
Proof using Type.
  clear aes_ks aes_post K. intros ->. induction xs as [|x xs IH]; [done|]. cbn [map collect]. by rewrite IH. Qed.
Lemma zip_chunks (xs : list (list N)) : forall (m : list N), Forall (fun x => length x = 16) xs -> length m = 16 * length xs ->
  concat (imap (fun j x => zip_with N.lxor x (take 16 (drop (16 * j) m))) xs) = zip_with N.lxor (concat xs) m.
Proof using Type.
  clear aes_ks aes_post K.
  induction xs as [|x xs IH]; intros m Hf Hm; [done|].
  apply Forall_cons in Hf as [Hx Hf]. cbn [concat]. rewrite imap_cons. cbn [concat]. rewrite Nat.mul_0_r, drop_0.
  cbn [length] in Hm.
  assert (zip_with N.lxor (x ++ concat xs) m = zip_with N.lxor x (take 16 m) ++ zip_with N.lxor (concat xs) (drop 16 m)) as ->.
  { rewrite <-zip_with_app by (rewrite take_length; lia). by rewrite take_drop. }
  f_equal.
  rewrite <-(IH (drop 16 m)); [|done|rewrite drop_length; lia]. f_equal. apply imap_ext. intros j y _. cbn.
  rewrite drop_drop. do 2 f_equal. f_equal. lia.
Qed.

Lemma apply_parts vm bs inp len vm' out : ks_apply vm bs inp len = Ok (vm', out) -> len = 16 * length bs /\
  exists os vm0, xor_blocks vm bs inp 0 = (vm0, os) /\ vm' = vm0 ++ [CFlat os] /\ out = length vm0.
Proof using Type.
  clear aes_ks aes_post K.
  unfold ks_apply. destruct (Nat.eqb_spec len (16 * length bs)) as [->|]; [|done]. cbn [negb]. intros H. split; [done|].
  destruct bs as [|b bs]; [done|]. destruct (xor_blocks vm (b :: bs) inp 0) as [vm0 os]. unfold vm_add in H. injection H as <- <-.
  by exists os, vm0.
Qed.

Lemma C89_apply_lemma vm bs inp len vm' out : Forall (cipher_block vm) bs -> ks_apply vm bs inp len = Ok (vm', out) ->
  len = 16 * length bs /\ later vm vm' /\
  forall vm2 m xs, later vm' vm2 -> in_value vm2 inp = Some m -> length m = len ->
    Forall2 (fun b x => val vm2 (cb_out b) = Some x /\ length x = 16) bs xs ->
    val vm2 out = Some (zip_with N.lxor (concat xs) m).
Proof.
  intros Hc H. apply apply_parts in H as (-> & os & vm0 & Hx & -> & ->). split; [done|].
  destruct (xor_blocks_ok _ _ _ _ _ _ Hx) as ((e & ->) & Hl & Hxs). split.
  { rewrite <-app_assoc. apply later_app. }
  intros vm2 m xs Hlat Hm Hlen Hf.
  assert (Hlen2 : length bs = length xs) by (by eapply Forall2_length).
  unfold value at 1. rewrite (proj1 Hlat _ _ (add_lookup _ _)) by done.
  rewrite <-(zip_chunks xs m); [|apply Forall_forall; intros x (j & Hj)%elem_of_list_lookup; destruct (Forall2_lookup_r _ _ _ _ _ Hf Hj) as (b & _ & _ & ?); done|lia].
  apply collect_ok. apply list_eq. intros j. rewrite !list_lookup_fmap, list_lookup_imap.
  destruct (os !! j) as [o|] eqn:Eo.
  - assert (Hj : j < length bs) by (rewrite <-Hl; by eapply lookup_lt_Some).
    destruct (lookup_lt_is_Some_2 bs j Hj) as [b Hb]. destruct (Forall2_lookup_l _ _ _ _ _ Hf Hb) as (x & Hxj & Hv & _).
    rewrite Hxj. cbn [fmap option_fmap option_map]. f_equal.
    assert (Ho : vm2 !! o = Some (CXor (cb_out b) inp (16 * j))).
    { apply (proj1 Hlat); [|done]. apply lookup_app_l_Some. exact (Hxs j b o Hb Eo). }
    assert (Hcb : cipher_block vm2 b).
    { apply (cipher_later vm); [|rewrite Forall_forall in Hc; apply Hc; by eapply elem_of_list_lookup_2].
      eapply later_trans; [|exact Hlat]. rewrite <-app_assoc. apply later_app. }
    unfold xor_value. rewrite Ho. rewrite <-(cipher_val vm2 b Hcb), Hv, Hm. done.
  - assert (Hj : length xs <= j) by (rewrite <-Hlen2, <-Hl; by apply lookup_ge_None_1). by rewrite (lookup_ge_None_2 xs j Hj).
Qed.
Lemma C89_apply_iff vm bs inp len : (exists vm' out, ks_apply vm bs inp len = Ok (vm', out)) <-> len = 16 * length bs /\ bs <> [].
Proof using Type.
  clear aes_ks aes_post K.
  unfold ks_apply. destruct (Nat.eqb_spec len (16 * length bs)) as [->|Hn]; cbn [negb].
  - destruct bs as [|b bs]; [split; [by intros (? & ? & ?)|by intros [_ ?]]|].
    destruct (xor_blocks vm (b :: bs) inp 0) as [vm1 os]. split; [done|]. intros _. by eexists _, _.
  - split; [by intros (? & ? & ?)|by intros [? _]].
Qed.

Lemma C89_vector_lemma vm bs len : Forall (cipher_block vm) bs ->
  ((exists vm' r, ks_to_vector vm bs len = Ok (vm', r)) <-> 0 < len /\ enough (length bs) len) /\
  forall vm' r, ks_to_vector vm bs len = Ok (vm', r) -> snd r = len /\ later vm vm' /\
    forall vm2 xs, later vm' vm2 -> Forall2 (fun b x => val vm2 (cb_out b) = Some x) bs xs -> val vm2 (fst r) = Some (concat xs).
Proof.
  intros Hc. unfold ks_to_vector. pose proof (div_ceil_enough len) as He. destruct (Nat.eqb_spec len 0) as [->|Hz].
  { split; [split; [by intros (? & ? & ?)|lia]|done]. }
  destruct bs as [|b0 bs0].
  { split; [split; [by intros (? & ? & ?)|]|done]. cbn [length]. unfold enough. lia. }
  set (bs := b0 :: bs0) in *. destruct (Nat.eqb_spec (div_ceil len 16) (length bs)) as [Hd|Hd]; cbn [negb].
  2: { split; [split; [by intros (? & ? & ?)|]|done]. intros [_ H]. by destruct (Hd (enough_inj _ _ _ He H)). }
  unfold vm_add. rewrite <-Hd. split; [split; [intros _; split; [lia|done]|intros _; by eexists _, _]|].
  intros vm' r [= <- <-]. cbn [fst snd]. split; [done|]. split; [apply later_app|].
  intros vm2 xs Hlat Hf. unfold value. rewrite (proj1 Hlat _ _ (add_lookup _ _)) by done. apply collect_ok.
  change (cb_out b0 :: map cb_out bs0) with (map cb_out bs). rewrite map_map. apply list_eq. intros j. rewrite !list_lookup_fmap.
  destruct (bs !! j) as [b|] eqn:Eb.
  - destruct (Forall2_lookup_l _ _ _ _ _ Hf Eb) as (x & Hxj & Hv). rewrite Hxj. cbn [fmap option_fmap option_map]. f_equal. rewrite <-Hv.
    assert (Hcb : cipher_block vm2 b).
    { apply (cipher_later vm); [|rewrite Forall_forall in Hc; apply Hc; by eapply elem_of_list_lookup_2].
      eapply later_trans; [|exact Hlat]. apply later_app. }
    rewrite (cipher_val vm2 b Hcb). destruct Hcb as (k & a & Hk). unfold xor_value. by rewrite Hk.
  - rewrite (lookup_ge_None_2 xs j); [done|]. rewrite <-(Forall2_length _ _ _ Hf). by apply lookup_ge_None_1.
Qed.

Lemma C89_crypt_lemma vm c key iv k i total vm1 c1 bs len rest piece vm1' nonce ctr vm2 vm2' inp vm3 out vm4 m :
  (forall key block, length (AES key block) = 16) ->
  ready vm c key iv -> in_value vm key = Some k -> in_value vm iv = Some i ->
  alloc_keystream vm c total = Ok (vm1, c1, bs) -> ks_consume bs len = Ok (rest, piece) ->
  later vm1 vm1' -> ks_assign vm1' piece nonce ctr 0 = Ok vm2 -> unassigned vm1' piece ->
  later vm2 vm2' -> ks_apply vm2' piece inp (16 * length piece) = Ok (vm3, out) ->
  later vm3 vm4 -> in_value vm4 inp = Some m -> length m = 16 * length piece ->
  val vm4 out = Some (zip_with N.lxor (keystream aes_ks aes_post k i nonce ctr (length piece)) m).
Proof.
  intros H16 Hr Hk Hi Ha Hcons L1 Hass Hu L2 Happ L4 Hm Hlen.
  destruct (C89_alloc _ _ _ _ _ _ _ _ Hr Ha) as (L0 & _ & _ & _ & _ & _ & Hf).
  destruct (C89_consume_lemma bs len) as [(n & _ & _ & ?)|(rest' & piece' & Hc & Hbs & _)]; [congruence|].
  assert (rest' = rest /\ piece' = piece) as [-> ->] by (split; congruence).
  subst bs. apply Forall_app in Hf as [_ Hf].
  destruct (C89_assign_lemma vm1' piece nonce ctr Hu) as (vm2x & Hass' & L1' & Hv & _).
  assert (vm2x = vm2) as -> by congruence.
  assert (L12 : later vm1 vm2') by (eapply later_trans; [exact L1|]; eapply later_trans; [exact L1'|exact L2]).
  assert (Hf2 : Forall (cipher_block vm2') piece).
  { eapply Forall_impl; [exact Hf|]. intros b Hb. apply (under_cipher _ key iv). by apply (block_later vm1). }
  destruct (C89_apply_lemma _ _ _ _ _ _ Hf2 Happ) as (_ & L3 & Hval).
  assert (L24 : later vm2' vm4) by (by apply (later_trans _ vm3)).
  assert (L04 : later vm vm4) by (apply (later_trans _ vm1); [done|]; by apply (later_trans _ vm2')).
  unfold keystream. apply Hval; [done|done|done|].
  apply Forall2_same_length_lookup. split; [by rewrite map_length, seq_length|].
  intros j b x Hb Hx. apply list_lookup_fmap_inv in Hx as (j' & -> & Hj'). apply lookup_seq in Hj' as [-> _]. cbn [Nat.add].
  split; [|apply H16].
  rewrite Forall_forall in Hf. assert (Hb' : b ∈ piece) by (by eapply elem_of_list_lookup_2).
  pose proof (block_later _ vm4 _ _ _ (later_trans _ _ _ L12 L24) (Hf b Hb')) as Hu4.
  rewrite (cipher_val _ _ (under_cipher _ _ _ _ Hu4)).
  destruct (Hv j b Hb) as [Hv1 Hv2].
  apply (block_aes vm4 key iv); [done|by apply (later_in vm)|by apply (later_in vm)| |].
  - apply (later_in vm2); [by apply (later_trans _ vm2')|done].
  - apply (later_in vm2); [by apply (later_trans _ vm2')|done].
Qed.
End value.

Section blocks.
Context {K : Type} (aes_ks : list N -> K) (aes_post : K -> list N -> list N).
Notation AES := (AES aes_ks aes_post).
Notation val := (value aes_ks aes_post).

Lemma C89_block_lemma vm c key iv input : ready vm c key iv -> exists vm1 c1 out, alloc_block vm c input = Ok (vm1, c1, out) /\
  later vm vm1 /\ ready vm1 c1 key iv /\
  forall vm' k x, later vm1 vm' -> in_value vm' key = Some k -> in_value vm' input = Some x -> val vm' out = Some (AES k x).
Proof.
  intros Hr. unfold alloc_block. rewrite (proj1 Hr). destruct (need_ks vm c key) as [[vm1 c1] ks] eqn:E.
  destruct (need_ks_ok _ _ _ _ _ _ _ Hr E) as (Hr1 & Hk & l & ->). unfold vm_add. eexists _, _, _. split; [reflexivity|]. split_and!.
  - rewrite <-app_assoc. apply later_app.
  - destruct Hr1 as (? & ? & Hq). split_and!; [done|done|]. intros k0 Hk0. apply lookup_app_l_Some. by apply Hq.
  - intros vm' k x Hl Hkv Hx. unfold value, xor_value, aes_value. rewrite (proj1 Hl _ _ (add_lookup _ _)) by done.
    unfold ks_value. rewrite (proj1 Hl ks (CKs key)); [|by apply lookup_app_l_Some|done]. rewrite Hkv.
    cbn [map collect fmap option_fmap option_map]. rewrite Hx. by rewrite app_nil_r.
Qed.
Lemma C89_ctr_block_lemma vm c key iv : ready vm c key iv -> exists vm1 c1 b, alloc_ctr_block vm c = Ok (vm1, c1, b) /\
  later vm vm1 /\ ready vm1 c1 key iv /\ unassigned vm1 [b] /\
  forall vm' k i n ct, later vm1 vm' -> in_value vm' key = Some k -> in_value vm' iv = Some i ->
    in_value vm' (cb_nonce b) = Some n -> in_value vm' (cb_ctr b) = Some ct -> val vm' (cb_out b) = Some (AES k (i ++ n ++ ct)).
Proof.
  intros (H1 & H2 & H3). unfold alloc_ctr_block. rewrite H1, H2. unfold vm_add.
  set (vm2 := (vm ++ [CIn None]) ++ [CIn None]).
  assert (Hr : ready vm2 c key iv).
  { split_and!; [done|done|]. intros k Hk. apply lookup_app_l_Some, lookup_app_l_Some. by apply H3. }
  destruct (need_ks vm2 c key) as [[vm3 c3] ks] eqn:E.
  destruct (need_ks_ok _ _ _ _ _ _ _ Hr E) as (Hr3 & Hk & l & ->).
  assert (Hn : vm2 !! length vm = Some (CIn None)) by (apply lookup_app_l_Some, add_lookup).
  assert (Hc : vm2 !! length (vm ++ [CIn None]) = Some (CIn None)) by (apply add_lookup).
  eexists _, _, _. split; [reflexivity|]. cbn [cb_nonce cb_ctr cb_out]. split_and!.
  - unfold vm2. rewrite <-!app_assoc. apply later_app.
  - destruct Hr3 as (? & ? & Hq). split_and!; [done|done|]. intros k0 Hk0. apply lookup_app_l_Some. by apply Hq.
  - split.
    + unfold inputs. cbn [map concat app cb_nonce cb_ctr]. apply NoDup_cons. split; [|apply NoDup_singleton].
      rewrite elem_of_list_singleton, app_length. cbn [length]. lia.
    + unfold inputs. cbn [map concat app cb_nonce cb_ctr]. intros r Hin. apply lookup_app_l_Some, lookup_app_l_Some.
      apply elem_of_cons in Hin as [->|Hin]; [done|]. by apply elem_of_list_singleton in Hin as ->.
  - intros vm' k i n ct Hl Hkv Hi Hnv Hcv.
    assert (Hb : block_under vm' key iv (CtrBlock (length vm) (length (vm ++ [CIn None])) (length (vm2 ++ l)))).
    { exists ks. cbn [cb_nonce cb_ctr cb_out]. split; apply (proj1 Hl); [apply add_lookup|done|by apply lookup_app_l_Some|done]. }
    change (length (vm2 ++ l)) with (cb_out (CtrBlock (length vm) (length (vm ++ [CIn None])) (length (vm2 ++ l)))).
    rewrite (cipher_val aes_ks aes_post _ _ (under_cipher _ _ _ _ Hb)). by apply (block_aes aes_ks aes_post vm' key iv).
Qed.
End blocks.

Lemma C89_ready_lemma vm key iv : ready vm (set_iv (set_key aes_new key) iv) key iv.
Proof. done. Qed.
Lemma C89_unset_lemma vm c len : (exists r, alloc_keystream vm c len = Ok r) <-> ac_key c <> None /\ ac_iv c <> None.
Proof.
  unfold alloc_keystream. destruct (ac_key c), (ac_iv c); try (split; [by intros []|by intros [? ?]]).
  destruct (alloc_inputs vm (div_ceil len 16)). split; [done|]. intros _. by eexists.
Qed.

(** Two keys and an input; a block under the first key, then one after the second key was set. *)
Definition s_vm : cvm := [CIn (Some [1]%N); CIn (Some [2]%N); CIn (Some [9]%N)].
Lemma C89_stale_lemma : ~ (forall vm c1 c2 key key' input vm1 out1 vm2 out2 k x,
  alloc_block vm (set_key aes_new key) input = Ok (vm1, c1, out1) ->
  alloc_block vm1 (set_key c1 key') input = Ok (vm2, c2, out2) ->
  in_value vm2 key' = Some k -> in_value vm2 input = Some x ->
  value (fun l => l) (fun a b => a ++ b) vm2 out2 = Some (AES (fun l => l) (fun a b => a ++ b) k x)).
Proof.
  intros H.
  specialize (H s_vm (Aes128 (Some 0) (Some 3) None) (Aes128 (Some 1) (Some 3) None) 0 1 2 (s_vm ++ [CKs 0; CAes 3 [2]]) 4
    (s_vm ++ [CKs 0; CAes 3 [2]; CAes 3 [2]]) 5 [2]%N [9]%N eq_refl eq_refl eq_refl eq_refl).
  vm_compute in H. discriminate H.
Qed.

(** A toy cipher with blocks of 16 bytes. *)
Definition t_ks (k : list N) : list N := k.
Definition t_post (k b : list N) : list N := take 16 (k ++ b ++ replicate 16 0%N).
Definition t_vm : cvm := [CIn (Some [1;2]%N); CIn (Some [3;4]%N); CIn (Some (map N.of_nat (seq 0 32)))].
Definition t_c : aes128 := set_iv (set_key aes_new 0) 1.
Definition t_ctr (i : nat) : list N := [N.of_nat (i + 2)].
