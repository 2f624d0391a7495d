(** Lemmas about secret sharing and decryption. *)
From Verif.Lib Require Import Base.
From Verif Require Import RecordModel ShareModel ShareSpec.

Lemma xor_length a b : length a = length b -> length (a ⊕ b) = length a.
Proof. rewrite zip_with_length. lia. Qed.
Lemma xor_comm (a b : list N) : a ⊕ b = b ⊕ a.
Proof. revert b. induction a as [|x a IH]; intros [|y b]; try done. cbn. by rewrite N.lxor_comm, IH. Qed.
Lemma xor_assoc (a b c : list N) : a ⊕ (b ⊕ c) = a ⊕ b ⊕ c.
Proof. revert b c. induction a as [|x a IH]; intros [|y b] [|z c]; try done. cbn. by rewrite N.lxor_assoc, IH. Qed.
Lemma xor_cancel (a b : list N) : length a = length b -> a ⊕ b ⊕ b = a.
Proof.
  intros H%Forall2_same_length. induction H; [done|]. cbn. by rewrite N.lxor_assoc, N.lxor_nilpotent, N.lxor_0_r, IHForall2.
Qed.
Lemma xor_cancel_l (a b : list N) : length a = length b -> b ⊕ (b ⊕ a) = a.
Proof. intros. rewrite (xor_comm b a), xor_comm. by apply xor_cancel. Qed.
Lemma xor_inj (a b c : list N) : length a = length c -> length b = length c -> a ⊕ c = b ⊕ c -> a = b.
Proof. intros Ha Hb H. rewrite <- (xor_cancel a c), <- (xor_cancel b c), H by done. done. Qed.
Lemma lxor_byte a b : byte_ok a -> byte_ok b -> byte_ok (N.lxor a b).
Proof.
  unfold byte_ok. intros Ha Hb. destruct (N.eq_dec (N.lxor a b) 0) as [->|Hne]; [lia|].
  change 256%N with (2 ^ 8)%N. apply N.log2_lt_pow2; [lia|]. pose proof (N.log2_lxor a b).
  assert (forall x, x < 256 -> N.log2 x < 8)%N as Hl.
  { intros x Hx. destruct (N.eq_dec x 0) as [->|]; [done|]. apply N.log2_lt_pow2; [lia|done]. }
  pose proof (Hl _ Ha). pose proof (Hl _ Hb). lia.
Qed.
Lemma xor_bytes a b : bytes_ok a -> bytes_ok b -> bytes_ok (a ⊕ b).
Proof.
  intros H. revert b. induction H as [|x a Hx H IH]; intros b Hb; [constructor|].
  destruct Hb as [|y b Hy Hb]; [constructor|]. constructor; [by apply lxor_byte|by apply IH].
Qed.
Lemma xor_onto_eq l m : length l = length m -> xor_onto l m = l ⊕ m.
Proof. intros H. unfold xor_onto. by rewrite drop_ge, app_nil_r by lia. Qed.

(** ** Shares *)
Lemma otp_both_eq v a b : length a = length v -> length b = length v ->
  otp_both v a b = Ok (v ⊕ a ⊕ b, a, v ⊕ a).
Proof. intros Ha Hb. unfold otp_both. cbn. rewrite xor_cancel; [done|]. rewrite xor_length; lia. Qed.

Lemma C44_shares_lemma v a b : length a = length v -> length b = length v ->
  exists opened sl sf, otp_both v a b = Ok (opened, sl, sf) /\ sl ⊕ sf = v /\ opened ⊕ b = v ⊕ a /\ length sl = length v /\ length sf = length v.
Proof.
  intros Ha Hb. eexists _, _, _. split; [by apply otp_both_eq|]. split_and!.
  - rewrite (xor_comm v). by apply xor_cancel_l.
  - apply xor_cancel. rewrite xor_length; lia.
  - done.
  - apply xor_length. lia.
Qed.
Lemma C44_secret_follower_lemma v v' a b opened sl sf : length a = length v -> length b = length v -> length v' = length v ->
  bytes_ok v -> bytes_ok v' -> bytes_ok a ->
  otp_both v a b = Ok (opened, sl, sf) ->
  exists! a', length a' = length v /\ bytes_ok a' /\ exists sl', otp_both v' a' b = Ok (opened, sl', sf).
Proof.
  intros Ha Hb Hv Ov Ov' Oa H. rewrite otp_both_eq in H by done. injection H as <- <- <-.
  assert (length (v ⊕ a) = length v) as L1 by (rewrite xor_length; lia).
  exists (v' ⊕ (v ⊕ a)). split.
  - split; [rewrite xor_length; lia|]. split; [by repeat apply xor_bytes|]. eexists.
    rewrite otp_both_eq by (rewrite ?xor_length; lia). by rewrite xor_cancel_l by lia.
  - intros a' (Hl & _ & sl' & H). rewrite otp_both_eq in H by lia. injection H as _ _ H. rewrite <- H, xor_cancel_l; [done|lia].
Qed.
Lemma C44_secret_leader_lemma v v' a b opened sl sf : length a = length v -> length b = length v -> length v' = length v ->
  bytes_ok v -> bytes_ok v' -> bytes_ok b ->
  otp_both v a b = Ok (opened, sl, sf) ->
  exists! b', length b' = length v /\ bytes_ok b' /\ exists sf', otp_both v' a b' = Ok (opened, sl, sf').
Proof.
  intros Ha Hb Hv Ov Ov' Ob H. rewrite otp_both_eq in H by done. injection H as <- <- <-.
  assert (length (v ⊕ a) = length v) as L1 by (rewrite xor_length; lia).
  assert (length (v' ⊕ a) = length v) as L2 by (rewrite xor_length; lia).
  assert (v ⊕ v' ⊕ b = (v' ⊕ a) ⊕ (v ⊕ a ⊕ b)) as E.
  { rewrite <- (xor_assoc v a b), (xor_comm v (a ⊕ b)), (xor_assoc (v' ⊕ a)). rewrite (xor_assoc (v' ⊕ a) a b), xor_cancel by lia.
    rewrite (xor_comm _ v), xor_assoc. done. }
  exists (v ⊕ v' ⊕ b). split.
  - split; [rewrite !xor_length; rewrite ?xor_length; lia|]. split; [by repeat apply xor_bytes|]. eexists.
    rewrite otp_both_eq by (rewrite ?xor_length; rewrite ?xor_length; lia). rewrite E, xor_cancel_l; [done|rewrite xor_length; lia].
  - intros b' (Hl & _ & sf' & H). rewrite otp_both_eq in H by lia. injection H as H _. rewrite E, <- H. apply xor_cancel_l. lia.
Qed.

(** ** Decryption *)
Fixpoint opens (pad : list N) (rs : list dec_request) (kss : list (list N)) : list (list N) :=
  match rs, kss with
  | r :: rs', ks :: kss' =>
      if dr_private r
      then (ks ⊕ drop (length pad - length (dr_ct r)) pad) :: opens (take (length pad - length (dr_ct r)) pad) rs' kss'
      else ks :: opens pad rs' kss'
  | _, _ => []
  end.
Fixpoint pends (pad : list N) (rs : list dec_request) : list pending :=
  match rs with
  | r :: rs' =>
      if dr_private r
      then PendPrivate (Some (drop (length pad - length (dr_ct r)) pad)) (dr_ct r) :: pends (take (length pad - length (dr_ct r)) pad) rs'
      else PendPublic (dr_ct r) :: pends pad rs'
  | [] => []
  end.
Definition pend_f (r : dec_request) : pending := if dr_private r then PendPrivate None (dr_ct r) else PendPublic (dr_ct r).

Lemma decrypt_mpc_leader rs pad : decrypt_mpc (Some pad) rs =
  if pad_need rs <=? length pad then Ok (pends pad rs, Some (take (length pad - pad_need rs) pad)) else Err SHPadExceeded.
Proof.
  revert pad. induction rs as [|r rs IH]; intros pad; cbn [decrypt_mpc].
  - change (pad_need []) with 0. cbn. by rewrite take_ge by lia.
  - change (pad_need (r :: rs)) with ((if dr_private r then length (dr_ct r) else 0) + pad_need rs). cbn [pends].
    destruct (dr_private r) eqn:Ep; cbn [obind]; [|rewrite IH; change (0 + pad_need rs) with (pad_need rs); by destruct (_ <=? _)].
    cbn [private_mpc]. destruct (Nat.ltb_spec (length pad) (length (dr_ct r))).
    + destruct (Nat.leb_spec (length (dr_ct r) + pad_need rs) (length pad)); [lia|done].
    + cbn [obind]. rewrite IH. rewrite take_length.
      destruct (Nat.leb_spec (pad_need rs) ((length pad - length (dr_ct r)) `min` length pad)),
        (Nat.leb_spec (length (dr_ct r) + pad_need rs) (length pad)); try lia; [|done].
      cbn [obind]. rewrite take_take. do 4 f_equal. lia.
Qed.
Lemma decrypt_mpc_follower rs : decrypt_mpc None rs = Ok (map pend_f rs, None).
Proof.
  induction rs as [|r rs IH]; [done|]. cbn [decrypt_mpc map]. unfold pend_f at 1.
  destruct (dr_private r); cbn [private_mpc obind]; by rewrite IH.
Qed.
Lemma vm_open_eq rs pad kss : length rs = length kss -> pad_need rs <= length pad ->
  vm_open (pends pad rs) (map pend_f rs) kss = Ok (opens pad rs kss).
Proof.
  revert pad kss. induction rs as [|r rs IH]; intros pad [|ks kss] Hl Hp; try done.
  change (pad_need (r :: rs)) with ((if dr_private r then length (dr_ct r) else 0) + pad_need rs) in Hp.
  cbn [pends map opens]. unfold pend_f at 1. destruct (dr_private r); cbn [vm_open]; (rewrite IH; [done|by injection Hl|]); [rewrite take_length; lia|lia].
Qed.
Definition dec_leader (r : dec_request) (ks : list N) : option (list N) := Some (dr_ct r ⊕ ks).
Definition dec_follower (r : dec_request) (ks : list N) : option (list N) := if dr_private r then None else Some (dr_ct r ⊕ ks).

Lemma try_all_leader rs pad kss : fitting rs kss -> pad_need rs <= length pad ->
  try_all (pends pad rs) (opens pad rs kss) = Ok (zip_with dec_leader rs kss).
Proof.
  intros H. revert pad. induction H as [|r ks rs kss Hk H IH]; intros pad Hp; [done|].
  change (pad_need (r :: rs)) with ((if dr_private r then length (dr_ct r) else 0) + pad_need rs) in Hp.
  cbn [pends opens zip_with]. destruct (dr_private r); cbn [try_all try_decrypt obind].
  - rewrite IH by (rewrite take_length; lia). cbn [obind]. unfold dec_leader. do 4 f_equal.
    assert (length (drop (length pad - length (dr_ct r)) pad) = length (dr_ct r)) as Hd by (rewrite drop_length; lia).
    rewrite (xor_comm ks), xor_cancel_l by lia. by apply xor_onto_eq.
  - rewrite Hk, Nat.eqb_refl. cbn [negb obind]. rewrite IH by lia. cbn [obind]. unfold dec_leader. do 3 f_equal. by rewrite xor_onto_eq.
Qed.
Lemma try_all_follower rs pad kss : fitting rs kss ->
  try_all (map pend_f rs) (opens pad rs kss) = Ok (zip_with dec_follower rs kss).
Proof.
  intros H. revert pad. induction H as [|r ks rs kss Hk H IH]; intros pad; [done|].
  cbn [map opens zip_with]. unfold pend_f at 1, dec_follower at 1. destruct (dr_private r); cbn [try_all try_decrypt obind].
  - rewrite IH. done.
  - rewrite Hk, Nat.eqb_refl. cbn [negb obind]. rewrite IH. cbn [obind]. by rewrite xor_onto_eq.
Qed.
Lemma decrypt_both_eq pad rs kss : fitting rs kss -> decrypt_both pad rs kss =
  if pad_need rs <=? length pad
  then Ok (BothResult (zip_with dec_leader rs kss) (zip_with dec_follower rs kss) (opens pad rs kss) (Some (take (length pad - pad_need rs) pad)))
  else Err SHPadExceeded.
Proof.
  intros H. unfold decrypt_both. rewrite decrypt_mpc_leader. destruct (Nat.leb_spec (pad_need rs) (length pad)); [|done].
  cbn [obind]. rewrite decrypt_mpc_follower. cbn [obind]. rewrite vm_open_eq by (done || by eapply Forall2_length). cbn [obind].
  rewrite try_all_leader by done. cbn [obind]. by rewrite try_all_follower.
Qed.

Lemma C44_private_lemma pad rs kss b : fitting rs kss -> decrypt_both pad rs kss = Ok b ->
  br_leader b = zip_with (fun r ks => Some (dr_ct r ⊕ ks)) rs kss /\
  br_follower b = zip_with (fun r ks => if dr_private r then None else Some (dr_ct r ⊕ ks)) rs kss.
Proof. intros Hf. rewrite decrypt_both_eq by done. destruct (_ <=? _); [|done]. by intros [= <-]. Qed.
Lemma C44_refuse_lemma pad rs kss : fitting rs kss ->
  (length pad < pad_need rs -> decrypt_both pad rs kss = Err SHPadExceeded) /\
  (pad_need rs <= length pad -> exists b, decrypt_both pad rs kss = Ok b).
Proof.
  intros Hf. rewrite decrypt_both_eq by done. destruct (Nat.leb_spec (pad_need rs) (length pad)); split; intros; try lia; eauto.
Qed.

(** *** Secrecy *)
Lemma opens_other rs kss kss' pad : fitting rs kss -> fitting rs kss' -> same_public rs kss kss' ->
  bytes_ok pad -> Forall bytes_ok kss -> Forall bytes_ok kss' -> pad_need rs <= length pad ->
  exists pad', length pad' = length pad /\ bytes_ok pad' /\ opens pad' rs kss' = opens pad rs kss /\
    take (length pad - pad_need rs) pad' = take (length pad - pad_need rs) pad.
Proof.
  intros H. revert kss' pad. induction H as [|r ks rs kss Hk H IH]; intros kss' pad H' Hs Ob Ok1 Ok2 Hp.
  { exists pad. apply Forall2_nil_inv_l in H' as ->. done. }
  apply Forall2_cons_inv_l in H' as (ks' & kss1 & Hk' & H' & ->). apply Forall2_cons in Hs as [Hs1 Hs].
  apply Forall_cons in Ok1 as [Oks Ok1], Ok2 as [Oks' Ok2].
  change (pad_need (r :: rs)) with ((if dr_private r then length (dr_ct r) else 0) + pad_need rs) in *.
  cbn [opens fst snd] in *. destruct (dr_private r) eqn:Ep.
  - set (n := length (dr_ct r)) in *. set (p0 := take (length pad - n) pad). set (p1 := drop (length pad - n) pad).
    assert (pad = p0 ++ p1) as Epad by (symmetry; apply take_drop).
    assert (length p0 = length pad - n) as L0 by (unfold p0; rewrite take_length; lia).
    assert (length p1 = n) as L1 by (unfold p1; rewrite drop_length; lia).
    assert (bytes_ok p0 /\ bytes_ok p1) as [O0 O1] by (rewrite Epad in Ob; by apply Forall_app in Ob).
    destruct (IH kss1 p0 H' Hs O0 Ok1 Ok2) as (q0 & Lq & Oq & Eq & Et); [lia|].
    exists (q0 ++ (ks' ⊕ (ks ⊕ p1))).
    assert (length (ks ⊕ p1) = n) as L2 by (rewrite xor_length; lia).
    assert (length (ks' ⊕ (ks ⊕ p1)) = n) as L3 by (rewrite xor_length; lia).
    assert (length (q0 ++ (ks' ⊕ (ks ⊕ p1))) = length pad) as L4 by (rewrite app_length; lia).
    rewrite L4. split; [done|]. split; [apply Forall_app; split; [done|by repeat apply xor_bytes]|].
    replace (length pad - n) with (length q0) by lia. rewrite take_app, drop_app. split.
    + rewrite xor_cancel_l by lia. f_equal. rewrite Eq. done.
    + rewrite take_app_le by lia.
      transitivity (take (length p0 - pad_need rs) q0); [f_equal; lia|]. rewrite Et, Epad, take_app_le by (rewrite app_length; lia).
      f_equal. rewrite app_length. lia.
  - destruct (IH kss1 pad H' Hs Ob Ok1 Ok2) as (q & Lq & Oq & Eq & Et); [lia|].
    exists q. split_and!; [done|done| |done]. by rewrite Eq, Hs1.
Qed.
Lemma opens_inj rs kss p q : fitting rs kss -> length p = length q -> pad_need rs <= length p ->
  opens p rs kss = opens q rs kss -> take (length p - pad_need rs) p = take (length q - pad_need rs) q -> p = q.
Proof.
  intros H. revert p q. induction H as [|r ks rs kss Hk H IH]; intros p q Hl Hp Ho Ht.
  { change (pad_need []) with 0 in Ht. by rewrite !take_ge in Ht by lia. }
  change (pad_need (r :: rs)) with ((if dr_private r then length (dr_ct r) else 0) + pad_need rs) in *.
  cbn [opens] in Ho. destruct (dr_private r).
  - injection Ho as Ho1 Ho2. set (n := length (dr_ct r)) in *.
    rewrite <- (take_drop (length p - n) p), <- (take_drop (length q - n) q). f_equal.
    + apply IH; [rewrite !take_length; lia|rewrite take_length; lia|done|].
      rewrite !take_take, !take_length. etransitivity; [|etransitivity; [exact Ht|]]; f_equal; lia.
    + rewrite !(xor_comm ks) in Ho1. apply xor_inj in Ho1; [done|rewrite drop_length; lia..].
  - injection Ho as Ho. apply IH; [done|lia|done|]. rewrite Hl in *. done.
Qed.
Lemma same_public_follower rs kss kss' : fitting rs kss -> fitting rs kss' -> same_public rs kss kss' ->
  zip_with dec_follower rs kss' = zip_with dec_follower rs kss.
Proof.
  intros H. revert kss'. induction H as [|r ks rs kss Hk H IH]; intros kss' H' Hs.
  { done. }
  apply Forall2_cons_inv_l in H' as (ks' & kss1 & Hk' & H' & ->). apply Forall2_cons in Hs as [Hs1 Hs]. cbn in Hs1.
  cbn [zip_with]. rewrite IH by done. f_equal. unfold dec_follower. destruct (dr_private r); [done|]. by rewrite Hs1.
Qed.
Lemma C44_secrecy_lemma pad rs kss kss' b : fitting rs kss -> fitting rs kss' -> same_public rs kss kss' ->
  bytes_ok pad -> Forall bytes_ok kss -> Forall bytes_ok kss' -> decrypt_both pad rs kss = Ok b ->
  exists! pad', length pad' = length pad /\ bytes_ok pad' /\
    exists b', decrypt_both pad' rs kss' = Ok b' /\ br_opened b' = br_opened b /\ br_follower b' = br_follower b /\ br_pad b' = br_pad b.
Proof.
  intros H H' Hs Ob O1 O2 Hb. rewrite decrypt_both_eq in Hb by done. destruct (Nat.leb_spec (pad_need rs) (length pad)) as [Hp|]; [|done].
  injection Hb as <-. cbn [br_opened br_follower br_pad].
  destruct (opens_other _ _ _ pad H H' Hs Ob O1 O2 Hp) as (q & Lq & Oq & Eq & Et).
  exists q. split.
  - split; [done|]. split; [done|]. eexists. split; [rewrite decrypt_both_eq by done; destruct (Nat.leb_spec (pad_need rs) (length q)); [done|lia]|].
    cbn. rewrite Lq, Et, Eq. split; [done|]. split; [by apply same_public_follower|done].
  - intros q' (Lq' & _ & b' & Hb & E1 & _ & E2). rewrite decrypt_both_eq in Hb by done.
    destruct (Nat.leb_spec (pad_need rs) (length q')); [|done]. injection Hb as <-. cbn in E1, E2. injection E2 as E2.
    eapply opens_inj; [exact H'|lia|lia|congruence|]. rewrite E2, Lq. done.
Qed.

(** *** Pad bytes are used once *)
Lemma pends_pad rs pad : pad_need rs <= length pad ->
  pad = take (length pad - pad_need rs) pad ++
    concat (reverse (omap (fun p => match p with PendPrivate o _ => o | PendPublic _ => None end) (pends pad rs))).
Proof.
  revert pad. induction rs as [|r rs IH]; intros pad Hp.
  { change (pad_need []) with 0. cbn. rewrite take_ge by lia. by rewrite app_nil_r. }
  change (pad_need (r :: rs)) with ((if dr_private r then length (dr_ct r) else 0) + pad_need rs) in *. cbn [pends].
  destruct (dr_private r).
  - csimpl. rewrite reverse_cons, concat_app. cbn [concat]. rewrite app_nil_r, app_assoc.
    set (n := length (dr_ct r)) in *. rewrite <- (take_drop (length pad - n) pad) at 1. f_equal.
    rewrite (IH (take (length pad - n) pad)) at 1 by (rewrite take_length; lia). f_equal.
    rewrite take_take, take_length. f_equal. lia.
  - csimpl. by apply IH.
Qed.
Lemma C44_pad_lemma pad rs ps rest : decrypt_mpc (Some pad) rs = Ok (ps, rest) ->
  exists rest', rest = Some rest' /\
  pad = rest' ++ concat (reverse (omap (fun p => match p with PendPrivate o _ => o | PendPublic _ => None end) ps)).
Proof.
  rewrite decrypt_mpc_leader. destruct (Nat.leb_spec (pad_need rs) (length pad)); [|done]. intros [= <- <-].
  eexists. split; [done|]. by apply pends_pad.
Qed.
