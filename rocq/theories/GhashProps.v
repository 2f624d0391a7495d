(** Theorems C45 about GHASH on shares and the tags made from it. The vocabulary is in GhashSpec.v, the model is GhashModel.v.
    [a2ml], [m2al] and [a2mf], [m2af] stand for what the share converters return to the leader and to the follower. *)
From Verif.Lib Require Import Base.
From Verif Require Import CodecModel CodecSpec CodecLemmas TagModel TagSpec TagLemmas RecordModel GhashModel GhashSpec GhashFieldLemmas GhashLemmas GhashTagLemmas.

(** The multiplication used is that of the standard, on reflected blocks. *)
Theorem C45_multiplication_is_nist : forall x y, gf_elem y -> rev128 (nist_mul x y) = gf_mul (rev128 x) (rev128 y).
Proof. exact nist_mul_rev. Qed.
Print Assumptions C45_multiplication_is_nist.

(** After the setup the parties have additive shares of all powers of the hash key from 1 to 1026, the even ones by local squaring. *)
Theorem C45_shares_of_all_powers : forall a2ml m2al a2mf m2af kl kf, length kl = 16 -> length kf = 16 ->
  conversion_done a2ml m2al a2mf m2af kl kf ->
  exists l f, set_up a2ml m2al kl = (GHReadyShares l, Ok tt) /\ set_up a2mf m2af kf = (GHReadyShares f, Ok tt) /\
    length l = 1026 /\ length f = 1026 /\
    forall i, 1 <= i <= 1026 -> exists a b, l !! (i - 1) = Some a /\ f !! (i - 1) = Some b /\
      shares_of (gf_power (N.lxor (gf_of_block kl) (gf_of_block kf)) i) a b.
Proof. exact C45_powers_lemma. Qed.
Print Assumptions C45_shares_of_all_powers.

(** For every input of at most 1026 blocks, the shares that the parties compute add up to the GHASH of the input. *)
Theorem C45_tag_shares_add_up : forall a2ml m2al a2mf m2af kl kf sl sf ol of_ input,
  bytes_ok kl -> bytes_ok kf -> length kl = 16 -> length kf = 16 -> conversion_done a2ml m2al a2mf m2af kl kf ->
  set_up a2ml m2al kl = (sl, ol) -> set_up a2mf m2af kf = (sf, of_) -> bytes_ok input -> length input <= 1026 * 16 ->
  exists a b, gh_compute sl input = Ok a /\ gh_compute sf input = Ok b /\ length a = 16 /\ length b = 16 /\
    is_ghash (zip_with N.lxor kl kf) input (zip_with N.lxor a b).
Proof. exact C45_ghash_lemma. Qed.
Print Assumptions C45_tag_shares_add_up.

(** Longer inputs are refused by both. *)
Theorem C45_longer_inputs_are_refused : forall a2ml m2al a2mf m2af kl kf sl sf ol of_ input,
  length kl = 16 -> length kf = 16 -> conversion_done a2ml m2al a2mf m2af kl kf ->
  set_up a2ml m2al kl = (sl, ol) -> set_up a2mf m2af kf = (sf, of_) -> 1026 * 16 < length input ->
  gh_compute sl input = Err GHInputLength /\ gh_compute sf input = Err GHInputLength.
Proof. exact C45_limit2_lemma. Qed.
Print Assumptions C45_longer_inputs_are_refused.

(** The tags that the leader computes with the help of the follower are those of AES-GCM. *)
Theorem C45_leader_tags_are_gcm_tags : forall a2ml m2al a2mf m2af kl kf sl sf ol of_ j0s dl df,
  bytes_ok kl -> bytes_ok kf -> length kl = 16 -> length kf = 16 -> conversion_done a2ml m2al a2mf m2af kl kf ->
  set_up a2ml m2al kl = (sl, ol) -> set_up a2mf m2af kf = (sf, of_) -> dl <> [] -> shared_data j0s dl df -> Forall within_limit dl ->
  exists peer tags, tag_shares sf df = Ok peer /\ leader_tags sl dl peer = Ok (Some tags) /\
    Forall3 (fun j0 d t => is_gcm_tag (zip_with N.lxor kl kf) j0 (td_aad d) (td_ct d) t) j0s dl tags.
Proof. exact C45_tags_lemma. Qed.
Print Assumptions C45_leader_tags_are_gcm_tags.

(** The leader accepts exactly the right tags, shifted by what the follower adds to its shares: with an honest follower ([deltas] are zeros)
    exactly the right tags. *)
Theorem C45_leader_accepts_the_shifted_tags : forall a2ml m2al a2mf m2af kl kf sl sf ol of_ j0s dl df tags deltas,
  bytes_ok kl -> bytes_ok kf -> length kl = 16 -> length kf = 16 -> conversion_done a2ml m2al a2mf m2af kl kf ->
  set_up a2ml m2al kl = (sl, ol) -> set_up a2mf m2af kf = (sf, of_) -> length tags = length dl -> length deltas = length dl ->
  Forall (fun x => length x = 16) deltas -> shared_data j0s dl df -> Forall within_limit dl ->
  exists peer right, tag_shares sf df = Ok peer /\
    Forall3 (fun j0 d t => is_gcm_tag (zip_with N.lxor kl kf) j0 (td_aad d) (td_ct d) t) j0s dl right /\
    (leader_verify sl (zip dl tags) (zip_with (zip_with N.lxor) peer deltas) = Ok tt <-> tags = zip_with (zip_with N.lxor) right deltas).
Proof. exact C45_verify_lemma. Qed.
Print Assumptions C45_leader_accepts_the_shifted_tags.
Theorem C45_missing_shares_are_refused : forall sl ds peer, ds <> [] -> length peer <> length ds -> leader_verify sl ds peer <> Ok tt.
Proof. exact leader_verify_length. Qed.
Print Assumptions C45_missing_shares_are_refused.

(** Test case 2 of the GCM specification, with the hash key shared at random. *)
Definition ex_h : list N := be 16 0x66e94bd4ef8a2c3b884cfa59ca342b2e.
Definition ex_ek : list N := be 16 0x58e2fccefa7e3061367f1d57a4e7455a.
Definition ex_c : list N := be 16 0x0388dace60b6a392f328c2b971b2fe78.
Definition ex_kl : list N := be 16 0x00112233445566778899aabbccddeeff.
Definition ex_kf : list N := zip_with N.lxor ex_h ex_kl.
Definition ex_sl : ghash_state := fst (set_up (fun _ => 1%N) (fun _ => replicate 512 0%N) ex_kl).
Definition ex_sf : ghash_state := fst (set_up (fun _ => N.lxor (gf_of_block ex_kl) (gf_of_block ex_kf)) (fun l => l) ex_kf).
Definition ex_dl : list tag_data := [TagData (replicate 16 7%N) [] ex_c].
Definition ex_df : list tag_data := [TagData (zip_with N.lxor ex_ek (replicate 16 7%N)) [] ex_c].
Example C45_ex :
  bytes_ok ex_kl /\ bytes_ok ex_kf /\ length ex_kl = 16 /\ length ex_kf = 16 /\
  conversion_done (fun _ => 1%N) (fun _ => replicate 512 0%N) (fun _ => N.lxor (gf_of_block ex_kl) (gf_of_block ex_kf)) (fun l => l) ex_kl ex_kf /\
  shared_data [ex_ek] ex_dl ex_df /\ Forall within_limit ex_dl /\
  (exists peer, tag_shares ex_sf ex_df = Ok peer /\
     leader_tags ex_sl ex_dl peer = Ok (Some [be 16 0xab6e47d42cec13bdf53a67b21257bddf])).
Proof.
  split; [apply be_ok|]. split; [unfold bytes_ok, byte_ok; apply (bool_decide_unpack _); vm_compute; exact I|].
  split; [done|]. split; [done|]. split; [apply trivial_conversion|]. split.
  { constructor; [|constructor]. cbn [td_aad td_ct td_j0]. split; [done|]. split; [done|]. split; [constructor|]. split; [apply be_ok|]. by vm_compute. }
  split; [constructor; [|constructor]; apply within_limit_iff, Nat.leb_le; by vm_compute|].
  eexists. split; vm_compute; reflexivity.
Qed.
