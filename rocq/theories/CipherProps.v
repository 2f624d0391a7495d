(** Theorems C89 about the block cipher component. The vocabulary is in CipherSpec.v, the model is CipherModel.v. [vm] is the virtual machine
    that the parties share, [value] what they compute in it; the circuits for AES are two functions, [AES] is their composition. [later vm
    vm'] allows for anything that the parties may do in between. *)
From Verif.Lib Require Import Base.
From Verif Require Import CipherModel CipherSpec CipherLemmas.

(** A cipher that was given a key and an IV is [ready]. *)
Theorem C89_set_up : forall vm key iv, ready vm (set_iv (set_key aes_new key) iv) key iv.
Proof. exact C89_ready_lemma. Qed.
Print Assumptions C89_set_up.
Theorem C89_needs_key_and_iv : forall vm c len, (exists r, alloc_keystream vm c len = Ok r) <-> ac_key c <> None /\ ac_iv c <> None.
Proof. exact C89_unset_lemma. Qed.
Print Assumptions C89_needs_key_and_iv.
(** A keystream has just enough blocks. Their inputs are new, all different and without values; whatever values the parties will give them, each
    block is AES of the IV, its nonce and its counter, under the key. *)
Theorem C89_keystreams_are_fresh : forall (K : Type) (aes_ks : list N -> K) aes_post vm c key iv len vm1 c1 bs,
  ready vm c key iv -> alloc_keystream vm c len = Ok (vm1, c1, bs) ->
  later vm vm1 /\ ready vm1 c1 key iv /\ enough (length bs) len /\ unassigned vm1 bs /\ (forall r, r ∈ inputs bs -> length vm <= r) /\
  NoDup (map cb_out bs) /\ Forall (cipher_block vm1) bs /\
  forall vm' b k i n ct, later vm1 vm' -> b ∈ bs -> in_value vm' key = Some k -> in_value vm' iv = Some i ->
    in_value vm' (cb_nonce b) = Some n -> in_value vm' (cb_ctr b) = Some ct ->
    value aes_ks aes_post vm' (cb_out b) = Some (AES aes_ks aes_post k (i ++ n ++ ct)).
Proof. exact @C89_alloc_lemma. Qed.
Print Assumptions C89_keystreams_are_fresh.
(** Single blocks, in counter mode and without. *)
Theorem C89_counter_blocks : forall (K : Type) (aes_ks : list N -> K) aes_post vm c key iv, ready vm c key iv ->
  exists vm1 c1 b, alloc_ctr_block vm c = Ok (vm1, c1, b) /\ later vm vm1 /\ ready vm1 c1 key iv /\ unassigned vm1 [b] /\
  forall vm' k i n ct, later vm1 vm' -> in_value vm' key = Some k -> in_value vm' iv = Some i ->
    in_value vm' (cb_nonce b) = Some n -> in_value vm' (cb_ctr b) = Some ct ->
    value aes_ks aes_post vm' (cb_out b) = Some (AES aes_ks aes_post k (i ++ n ++ ct)).
Proof. exact @C89_ctr_block_lemma. Qed.
Print Assumptions C89_counter_blocks.
Theorem C89_plain_blocks : forall (K : Type) (aes_ks : list N -> K) aes_post vm c key iv input, ready vm c key iv ->
  exists vm1 c1 out, alloc_block vm c input = Ok (vm1, c1, out) /\ later vm vm1 /\ ready vm1 c1 key iv /\
  forall vm' k x, later vm1 vm' -> in_value vm' key = Some k -> in_value vm' input = Some x ->
    value aes_ks aes_post vm' out = Some (AES aes_ks aes_post k x).
Proof. exact @C89_block_lemma. Qed.
Print Assumptions C89_plain_blocks.
(** Consuming splits a keystream, so that no block is given out twice, and fails only if there are too few blocks. *)
Theorem C89_blocks_are_given_out_once : forall bs len,
  (exists n, enough n len /\ length bs < n /\ ks_consume bs len = Err CInsufficient) \/
  (exists rest piece, ks_consume bs len = Ok (rest, piece) /\ bs = rest ++ piece /\ enough (length piece) len).
Proof. exact C89_consume_lemma. Qed.
Print Assumptions C89_blocks_are_given_out_once.
(** Assigning gives every block the nonce and the next counter, and changes nothing else. *)
Theorem C89_counters_are_assigned : forall vm bs nonce ctr, unassigned vm bs ->
  exists vm', ks_assign vm bs nonce ctr 0 = Ok vm' /\ later vm vm' /\
  (forall j b, bs !! j = Some b -> in_value vm' (cb_nonce b) = Some nonce /\ in_value vm' (cb_ctr b) = Some (ctr j)) /\
  (forall r, r ∉ inputs bs -> vm' !! r = vm !! r).
Proof. exact C89_assign_lemma. Qed.
Print Assumptions C89_counters_are_assigned.
(** Applying works for inputs as long as the blocks; *)
Theorem C89_applied_to_matching_inputs : forall vm bs inp len,
  (exists vm' out, ks_apply vm bs inp len = Ok (vm', out)) <-> len = 16 * length bs /\ bs <> [].
Proof. exact C89_apply_iff. Qed.
Print Assumptions C89_applied_to_matching_inputs.
(** and a piece of a keystream, assigned and applied, encrypts in counter mode: the input is xored with AES of IV, nonce and counters. *)
Theorem C89_counter_mode : forall (K : Type) (aes_ks : list N -> K) aes_post vm c key iv k i total vm1 c1 bs len rest piece vm1' nonce ctr vm2
    vm2' inp vm3 out vm4 m,
  (forall key block, length (AES aes_ks aes_post key block) = 16) ->
  ready vm c key iv -> in_value vm key = Some k -> in_value vm iv = Some i ->
  alloc_keystream vm c total = Ok (vm1, c1, bs) -> ks_consume bs len = Ok (rest, piece) ->
  later vm1 vm1' -> ks_assign vm1' piece nonce ctr 0 = Ok vm2 -> unassigned vm1' piece ->
  later vm2 vm2' -> ks_apply vm2' piece inp (16 * length piece) = Ok (vm3, out) ->
  later vm3 vm4 -> in_value vm4 inp = Some m -> length m = 16 * length piece ->
  value aes_ks aes_post vm4 out = Some (zip_with N.lxor (keystream aes_ks aes_post k i nonce ctr (length piece)) m).
Proof. exact @C89_crypt_lemma. Qed.
Print Assumptions C89_counter_mode.
(** As a vector, a keystream is the concatenation of its blocks, of which the first [len] bytes are used. *)
Theorem C89_vectors : forall (K : Type) (aes_ks : list N -> K) aes_post vm bs len, Forall (cipher_block vm) bs ->
  ((exists vm' r, ks_to_vector vm bs len = Ok (vm', r)) <-> 0 < len /\ enough (length bs) len) /\
  forall vm' r, ks_to_vector vm bs len = Ok (vm', r) -> snd r = len /\ later vm vm' /\
    forall vm2 xs, later vm' vm2 -> Forall2 (fun b x => value aes_ks aes_post vm2 (cb_out b) = Some x) bs xs ->
      value aes_ks aes_post vm2 (fst r) = Some (concat xs).
Proof. exact @C89_vector_lemma. Qed.
Print Assumptions C89_vectors.
(** It is not so that blocks are always made under the last key set: the key schedule of the first key that was used is kept. *)
Theorem C89_last_key_is_used_refuted : ~ (forall vm c1 c2 key key' input vm1 out1 vm2 out2 k x,
  alloc_block vm (set_key aes_new key) input = Ok (vm1, c1, out1) ->
  alloc_block vm1 (set_key c1 key') input = Ok (vm2, c2, out2) ->
  in_value vm2 key' = Some k -> in_value vm2 input = Some x ->
  value (fun l => l) (fun a b => a ++ b) vm2 out2 = Some (AES (fun l => l) (fun a b => a ++ b) k x)).
Proof. exact C89_stale_lemma. Qed.
Print Assumptions C89_last_key_is_used_refuted.
(** A toy cipher: a keystream of 40 bytes has three blocks, two of which encrypt an input of 32 bytes. *)
Example C89_ex :
  let AESt := AES t_ks t_post in
  exists vm1 c1 bs rest piece vm2 vm3 out,
    alloc_keystream t_vm t_c 40 = Ok (vm1, c1, bs) /\ length bs = 3 /\ ks_consume bs 20 = Ok (rest, piece) /\ length piece = 2 /\
    ks_assign vm1 piece [5;6]%N t_ctr 0 = Ok vm2 /\ ks_apply vm2 piece 2 32 = Ok (vm3, out) /\
    value t_ks t_post vm3 out =
      Some (zip_with N.lxor (AESt [1;2] [3;4;5;6;2] ++ AESt [1;2] [3;4;5;6;3]) (map N.of_nat (seq 0 32)))%N /\
    (forall k b, length (t_post k b) = 16).
Proof.
  do 8 eexists. split; [vm_compute; reflexivity|]. split; [reflexivity|]. split; [vm_compute; reflexivity|]. split; [reflexivity|].
  split; [vm_compute; reflexivity|]. split; [vm_compute; reflexivity|]. split; [vm_compute; reflexivity|].
  intros k b. unfold t_post. rewrite take_length, !app_length, replicate_length. lia.
Qed.
