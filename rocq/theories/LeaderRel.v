(** Two record layers that differ only in what does not matter do the same. *)
From Verif.Lib Require Import Base.
From Verif Require Import TranscriptModel ProofModel CodecModel AttestModel TlsModel AuthModel TagModel RecordModel RecordSpec.

Definition orel {E A B} (R : A -> B -> Prop) (x : outcome E A) (y : outcome E B) : Prop :=
  match x, y with Ok a, Ok b => R a b | Err e, Err e' => e = e' | Panic, Panic => True | _, _ => False end.
Definition prel {S E A B} (RS : S -> S -> Prop) (RA : A -> B -> Prop) (x : S * outcome E A) (y : S * outcome E B) : Prop :=
  RS (fst x) (fst y) /\ orel RA (snd x) (snd y).
Lemma prel_bind {S E A B A' B'} (RS : S -> S -> Prop) (RA : A -> B -> Prop) (RB : A' -> B' -> Prop) (m1 : stm S E A) (m2 : stm S E B) k1 k2 s1 s2 :
  prel RS RA (m1 s1) (m2 s2) -> (forall a b s t, RA a b -> RS s t -> prel RS RB (k1 a s) (k2 b t)) -> prel RS RB (sbind m1 k1 s1) (sbind m2 k2 s2).
Proof.
  unfold sbind. destruct (m1 s1) as [s [a|e|]], (m2 s2) as [t [b|e'|]]; intros [H1 H2] Hk; cbn in *; try done; by apply Hk.
Qed.
Lemma prel_eq {S E A} (x : S * outcome E A) : prel eq eq x x.
Proof. destruct x as [s [a|e|]]; by split. Qed.
Lemma prel_refl {S E A} (R : A -> A -> Prop) (x : S * outcome E A) : (forall a, R a a) -> prel eq R x x.
Proof. intros H. destruct x as [s [a|e|]]; split; cbn; auto. Qed.

Section Like.
  Context (aes : list N -> list N -> list N) (ghash_fn : list N -> list N -> list N) (checked : bool).
  Context (ek ei dk di : list N) (blind : N -> nat -> N) (pad_rng : nat -> N).
  Notation step := (rl_step aes ghash_fn checked ek ei dk di blind pad_rng).
  Context (opr : enc_op -> enc_op -> Prop) (ctr : list N -> list N -> Prop) (logr : tls_record -> tls_record -> Prop).
  Context (outr : list enc_record -> list enc_record -> Prop) (decr : list plain_record -> list plain_record -> Prop).
  Context (H_one : forall r a b g, opr a b -> prel eq ctr (encrypt_one aes checked ek ei blind r a g) (encrypt_one aes checked ek ei blind r b g)).
  Context (H_nonce : forall a b, opr a b -> eo_nonce a = eo_nonce b).
  Context (H_fits : forall a b x y, opr a b -> ctr x y -> ghash_fits (eo_aad a) x = ghash_fits (eo_aad b) y).
  Context (H_log : forall r a b x y, opr a b -> ctr x y -> logr (log_enc aes ghash_fn ek ei r a x) (log_enc aes ghash_fn ek ei r b y)).
  Context (H_out : forall r q q' a b x y, outr q q' -> Forall2 opr a b -> Forall2 ctr x y ->
    outr (q ++ zip_with (out_enc aes ghash_fn ek ei r) a x) (q' ++ zip_with (out_enc aes ghash_fn ek ei r) b y)).
  Context (H_dec : forall q q' x, decr q q' -> decr (q ++ x) (q' ++ x)).
  Context (H_refl : forall r, logr r r).

  Definition like_st (a b : rl_state) : Prop :=
    match a, b with
    | SInit, SInit | SComplete, SComplete | SError, SError => True
    | SOnline o s r, SOnline o' s' r' => o = o' /\ Forall2 logr s s' /\ Forall2 logr r r'
    | _, _ => False
    end.
  Record like (a b : rl) : Prop := Like {
    lk_role : rl_role a = rl_role b; lk_wseq : rl_write_seq a = rl_write_seq b; lk_rseq : rl_read_seq a = rl_read_seq b;
    lk_enc : rl_enc a = rl_enc b; lk_dec : rl_dec a = rl_dec b; lk_st : like_st (rl_st a) (rl_st b); lk_started : rl_started a = rl_started b;
    lk_sent : rl_sent a = rl_sent b; lk_online : rl_recv_online a = rl_recv_online b; lk_recv : rl_recv a = rl_recv b;
    lk_max_sent : rl_max_sent a = rl_max_sent b; lk_max_online : rl_max_recv_online a = rl_max_recv_online b; lk_max_recv : rl_max_recv a = rl_max_recv b;
    lk_encrypt : Forall2 opr (rl_encrypt a) (rl_encrypt b); lk_decrypt : rl_decrypt a = rl_decrypt b;
    lk_encrypted : outr (rl_encrypted a) (rl_encrypted b); lk_decrypted : decr (rl_decrypted a) (rl_decrypted b) }.

  Lemma smod_like (f g : rl -> rl) {E} a b : like (f a) (g b) -> prel like eq (smod (E := E) f a) (smod g b).
  Proof. by split. Qed.
  Lemma on_enc_like {E A B} (R : A -> B -> Prop) (m1 : stm gcm E A) (m2 : stm gcm E B) a b : like a b ->
    (forall g, prel eq R (m1 g) (m2 g)) -> prel like R (on_enc m1 a) (on_enc m2 b).
  Proof.
    intros Hl Hm. unfold on_enc. rewrite <- (lk_enc _ _ Hl). specialize (Hm (rl_enc a)). destruct (m1 (rl_enc a)) as [g o], (m2 (rl_enc a)) as [g' o'].
    destruct Hm as [Hg Ho]. cbn in Hg. subst g'. split; [|done]. cbn. destruct Hl. by constructor.
  Qed.
  Lemma on_dec_like {E A} (m : stm gcm E A) a b : like a b -> prel like eq (on_dec m a) (on_dec m b).
  Proof.
    intros Hl. unfold on_dec. rewrite <- (lk_dec _ _ Hl). destruct (m (rl_dec a)) as [g o]. split; [cbn; destruct Hl; by constructor|]. by destruct o.
  Qed.
  Lemma slift_like {E A} (R : A -> A -> Prop) (x y : outcome E A) a b : like a b -> orel R x y -> prel like R (slift x a) (slift y b).
  Proof. by split. Qed.
  Lemma orel_eq {E A} (x : outcome E A) : orel eq x x.
  Proof. by destruct x. Qed.
  Lemma sret_like {E A B} (R : A -> B -> Prop) x y a b : like a b -> R x y -> prel like R (@sret rl E A x a) (sret y b).
  Proof. by split. Qed.
  Lemma sfail_like {E A} (R : A -> A -> Prop) (e : E) a b : like a b -> prel like R (sfail e a) (sfail e b).
  Proof. by split. Qed.
  Lemma get_otp_like a b : like a b -> prel like eq (get_otp a) (get_otp b).
  Proof.
    intros Hl. unfold get_otp. pose proof (lk_st _ _ Hl) as Hs. destruct (rl_st a), (rl_st b); try done. by destruct Hs as (-> & _).
  Qed.
  Lemma put_otp_like o a b : like a b -> prel like eq (put_otp o a) (put_otp o b).
  Proof.
    intros Hl. unfold put_otp. pose proof (lk_st _ _ Hl) as Hs. destruct (rl_st a), (rl_st b); try done. split; [|done]. destruct Hs as (_ & ? & ?). cbn.
    destruct Hl. by constructor.
  Qed.

  Lemma encrypt_loop_like r a b g : Forall2 opr a b -> prel eq (Forall2 ctr) (encrypt_loop aes checked ek ei blind r a g) (encrypt_loop aes checked ek ei blind r b g).
  Proof.
    intros H. revert g. induction H as [|o o' a b Ho _ IH]; intros g; cbn [encrypt_loop]; [split; [done|constructor]|].
    eapply prel_bind; [by apply H_one|]. intros c c' g1 ? Hc <-. eapply prel_bind; [apply IH|]. intros cs cs' g2 ? Hcs <-. split; [done|]. cbn. by constructor.
  Qed.
  Lemma nonces_like a b : Forall2 opr a b -> map eo_nonce a = map eo_nonce b.
  Proof. induction 1 as [|o o' a b Ho _ IH]; cbn; [done|]. by rewrite IH, (H_nonce _ _ Ho). Qed.
  Lemma encrypt_mpc_like r a b g : Forall2 opr a b -> prel eq (Forall2 ctr) (encrypt_mpc aes checked ek ei blind r a g) (encrypt_mpc aes checked ek ei blind r b g).
  Proof.
    intros H. unfold encrypt_mpc. eapply prel_bind; [by apply encrypt_loop_like|]. intros cs cs' g1 ? Hcs <-. rewrite (nonces_like _ _ H).
    eapply prel_bind; [apply prel_eq|]. intros ? ? g2 ? _ <-. by split.
  Qed.
  Lemma tags_like a b x y : Forall2 opr a b -> Forall2 ctr x y -> tags_computed a x = tags_computed b y.
  Proof.
    intros H. unfold tags_computed. intros Hx.
    enough (forallb (fun x => ghash_fits (eo_aad (fst x)) (snd x)) (zip a x) = forallb (fun x => ghash_fits (eo_aad (fst x)) (snd x)) (zip b y)) as -> by done.
    revert x y Hx. induction H as [|o o' a b Ho _ IH]; intros x y Hx; [done|]. destruct Hx as [|c c' x y Hc Hx]; [done|]. cbn. f_equal; [by apply H_fits|by apply IH].
  Qed.
  Lemma log_like r a b x y : Forall2 opr a b -> Forall2 ctr x y ->
    Forall2 logr (zip_with (log_enc aes ghash_fn ek ei r) a x) (zip_with (log_enc aes ghash_fn ek ei r) b y).
  Proof.
    intros H. revert x y. induction H as [|o o' a b Ho _ IH]; intros x y Hx; [constructor|]. destruct Hx as [|c c' x y Hc Hx]; constructor; [by apply H_log|by apply IH].
  Qed.
  Lemma Forall2_refl_log l : Forall2 logr l l.
  Proof. induction l; by constructor. Qed.

  Lemma decrypt_loop_like ops a b : like a b -> prel like eq (decrypt_loop aes checked dk di ops a) (decrypt_loop aes checked dk di ops b).
  Proof.
    revert a b. induction ops as [|op ops IH]; intros a b Hl; cbn [decrypt_loop]; [by apply sret_like|].
    eapply (prel_bind _ eq).
    { destruct (do_private op); [|by apply on_dec_like]. unfold decrypt_private. eapply prel_bind; [by apply get_otp_like|]. intros o wa1 a1 b1 <- Hl1.
      destruct o as [o|].
      - destruct (length o <? length (do_ct op)); [by apply sfail_like|]. eapply prel_bind; [by apply on_dec_like|]. intros u wa2 a2 b2 _ Hl2. cbn zeta.
        eapply prel_bind; [by apply put_otp_like|]. intros v wa3 a3 b3 _ Hl3. by apply sret_like.
      - eapply prel_bind; [by apply on_dec_like|]. intros u wa2 a2 b2 _ Hl2. by apply sret_like. }
    intros p wa1 a1 b1 <- Hl1. eapply prel_bind; [by apply IH|]. intros ps wa2 a2 b2 <- Hl2. by apply sret_like.
  Qed.

  (** The calls. *)
  Definition enc_like (t : content_type) (v : protocol_version) (n : N) (p p' : option (list N)) : Prop :=
    forall seq nonce aad, orel opr (enc_op_new seq t v n p nonce aad (is_app t)) (enc_op_new seq t v n p' nonce aad (is_app t)).
  Definition call_like (c c' : rl_call) : Prop :=
    match c, c' with
    | CEncrypt t v n p, CEncrypt t' v' n' p' => t' = t /\ v' = v /\ n' = n /\ enc_like t v n p p'
    | CNextEnc, _ | CNextDec, _ => False
    | _, _ => c' = c
    end.
  Definition res_like (x y : rl_result) : Prop :=
    match x, y with
    | RUnit, RUnit => True
    | RLogs s r, RLogs s' r' => Forall2 logr s s' /\ Forall2 logr r r'
    | _, _ => False
    end.
  Lemma alloc_like x1 x2 x3 x4 x5 a b : like a b -> prel like eq (rl_alloc checked pad_rng x1 x2 x3 x4 x5 a) (rl_alloc checked pad_rng x1 x2 x3 x4 x5 b).
  Proof.
    intros Hl. unfold rl_alloc. pose proof (lk_st _ _ Hl) as Hs. rewrite <- (lk_role _ _ Hl), <- (lk_max_sent _ _ Hl), <- (lk_max_online _ _ Hl), <- (lk_max_recv _ _ Hl).
    destruct (rl_st a), (rl_st b); try done; try (split; [|done]; cbn; destruct Hl; by constructor).
    eapply prel_bind; [apply smod_like; destruct Hl; by constructor|]. intros u1 wa1 a1 b1 _ H1.
    eapply prel_bind; [apply on_enc_like; [done|intros; apply prel_eq]|]. intros u2 wa2 a2 b2 _ H2.
    eapply prel_bind; [by apply on_dec_like|]. intros u3 wa3 a3 b3 _ H3. cbn zeta.
    eapply prel_bind; [apply slift_like; [done|apply orel_eq]|]. intros v1 wa4 a4 b4 <- H4.
    eapply prel_bind; [apply slift_like; [done|apply orel_eq]|]. intros v2 wa5 a5 b5 <- H5.
    eapply prel_bind; [apply slift_like; [done|apply orel_eq]|]. intros v3 wa6 a6 b6 <- H6.
    eapply prel_bind; [apply smod_like; destruct H6; by constructor|]. intros u7 wa7 a7 b7 _ H7.
    apply smod_like. destruct H7. by constructor.
  Qed.
  Lemma setup_like a b : like a b -> prel like eq (rl_setup a) (rl_setup b).
  Proof.
    intros Hl. unfold rl_setup. eapply prel_bind; [apply on_enc_like; [done|intros; apply prel_eq]|]. intros u wa1 a1 b1 _ H1. by apply on_dec_like.
  Qed.
  Lemma push_encrypt_like t v n p p' a b : like a b -> enc_like t v n p p' -> prel like eq (push_encrypt checked t v n p a) (push_encrypt checked t v n p' b).
  Proof.
    intros Hl Hp. unfold push_encrypt. rewrite <- (Forall2_length _ _ _ (lk_encrypt _ _ Hl)), <- (lk_sent _ _ Hl), <- (lk_max_sent _ _ Hl), <- (lk_wseq _ _ Hl).
    destruct (max_buffer <=? length (rl_encrypt a)); [by split|]. destruct (uadd checked (rl_sent a) n) as [total|[]|]; [|by split].
    destruct (rl_max_sent a <? total)%N; [by split|]. cbn zeta.
    specialize (Hp (rl_write_seq a) (be 8 (rl_write_seq a)) (make_aad (rl_write_seq a) t v (N.to_nat (n mod 2 ^ 16)))).
    destruct (enc_op_new _ t v n p _ _ _) as [o|e|], (enc_op_new _ t v n p' _ _ _) as [o'|e'|]; try done; cbn in Hp; (split; [|cbn; congruence]); cbn.
    - destruct Hl. constructor; cbn; try done. apply Forall2_app; [done|]. by repeat constructor.
    - destruct Hl. by constructor.
    - destruct Hl. by constructor.
  Qed.
  Lemma push_decrypt_like t v n ct g a b : like a b -> prel like eq (push_decrypt checked t v n ct g a) (push_decrypt checked t v n ct g b).
  Proof.
    intros Hl. unfold push_decrypt. rewrite <- (lk_decrypt _ _ Hl), <- (lk_recv _ _ Hl), <- (lk_max_recv _ _ Hl), <- (lk_rseq _ _ Hl).
    destruct (max_buffer <=? length (rl_decrypt a)); [by split|]. destruct (uadd checked (rl_recv a) _) as [total|[]|]; [|by split].
    destruct (rl_max_recv a <? total)%N; [by split|]. cbn zeta. split; [|done]. cbn. destruct Hl. constructor; cbn; try done. by f_equal.
  Qed.
  Lemma flush_like x a b : like a b ->
    prel like eq (rl_flush aes ghash_fn checked ek ei dk di blind x a) (rl_flush aes ghash_fn checked ek ei dk di blind x b).
  Proof.
    intros Hl. unfold rl_flush. pose proof (lk_st _ _ Hl) as Hs. destruct (rl_st a) as [|o s r| |], (rl_st b) as [|o' s' r'| |]; try done.
    destruct Hs as (<- & Hs & Hr). rewrite <- (lk_role _ _ Hl), <- (lk_decrypt _ _ Hl).
    destruct (if x then (rl_decrypt a, []) else until_app (rl_decrypt a)) as [dops rest].
    assert (like (set_bufs [] rest a) (set_bufs [] rest b)) as Hl1 by (destruct Hl; constructor; cbn; done || constructor).
    pose proof (lk_encrypt _ _ Hl) as Hops.
    assert (rl_encrypt a = [] /\ dops = [] \/ (forall A (x y : A), match rl_encrypt a, dops with [], [] => x | _, _ => y end = y) /\
      (forall A (x y : A), match rl_encrypt b, dops with [], [] => x | _, _ => y end = y)) as [[E1 ->]|[N1 N2]].
    { destruct Hops; destruct dops; auto. }
    { rewrite E1 in *. apply Forall2_nil_inv_l in Hops. rewrite Hops. by split. }
    rewrite N1, N2. clear N1 N2. generalize dependent (set_bufs [] rest a). intros a1 Hl1. generalize dependent (set_bufs [] rest b). intros b1 Hl1.
    eapply (prel_bind _ eq).
    { destruct x; [|by apply sret_like]. cbn zeta. rewrite <- (lk_online _ _ Hl1), <- (lk_max_online _ _ Hl1).
      eapply prel_bind; [apply slift_like; [done|apply orel_eq]|]. intros tot wa2 a2 b2 <- H2. destruct (_ <? tot)%N; [by apply sfail_like|].
      apply smod_like. destruct H2. by constructor. }
    intros u wa2 a2 b2 _ H2. eapply prel_bind; [apply on_enc_like; [done|intros; by apply encrypt_mpc_like]|]. intros cts cts' a3 b3 Hcts H3.
    eapply prel_bind; [by apply decrypt_loop_like|]. intros ps wa4 a4 b4 <- H4. eapply prel_bind; [by apply on_dec_like|]. intros u5 wa5 a5 b5 _ H5.
    eapply prel_bind; [apply slift_like; [done|apply orel_eq]|]. intros u6 wa6 a6 b6 _ H6.
    rewrite (tags_like _ _ _ _ Hops Hcts). eapply prel_bind; [apply slift_like; [done|apply orel_eq]|]. intros u7 wa7 a7 b7 _ H7.
    eapply prel_bind; [apply smod_like; destruct H7; constructor; cbn; try done; [by apply H_out|by apply H_dec]|]. intros u8 wa8 a8 b8 _ H8.
    eapply prel_bind; [by apply get_otp_like|]. intros o2 wa9 a9 b9 <- H9. apply smod_like. destruct H9. constructor; cbn; try done.
    split; [done|]. split; apply Forall2_app; try done; [by apply log_like|apply Forall2_refl_log].
  Qed.
  Lemma commit_like a b : like a b ->
    prel like (fun x y => Forall2 logr (fst x) (fst y) /\ Forall2 logr (snd x) (snd y)) (rl_commit aes ghash_fn checked dk di a) (rl_commit aes ghash_fn checked dk di b).
  Proof.
    intros Hl. unfold rl_commit. pose proof (lk_st _ _ Hl) as Hs. destruct (rl_st a) as [|o s r| |], (rl_st b) as [|o' s' r'| |]; try done;
      try (split; [|done]; cbn; destruct Hl; by constructor).
    destruct Hs as (<- & Hs & Hr). rewrite <- (lk_role _ _ Hl), <- (lk_decrypt _ _ Hl).
    eapply prel_bind; [apply smod_like; destruct Hl; by constructor|]. intros u1 wa1 a1 b1 _ H1.
    pose proof (lk_encrypt _ _ Hl) as Hops. destruct Hops as [|? ? ? ? ? ?]; [|by apply sfail_like].
    eapply prel_bind; [apply smod_like; destruct H1; constructor; cbn; done || constructor|]. intros u2 wa2 a2 b2 _ H2.
    eapply prel_bind; [by apply on_dec_like|]. intros ps wa3 a3 b3 <- H3.
    eapply prel_bind; [apply smod_like; destruct H3; constructor; cbn; try done; by apply H_dec|]. intros u4 wa4 a4 b4 _ H4.
    eapply prel_bind; [apply smod_like; destruct H4; by constructor|]. intros u5 wa5 a5 b5 _ H5. apply sret_like; [done|]. cbn.
    split; [done|]. apply Forall2_app; [done|apply Forall2_refl_log].
  Qed.
  Lemma step_like c c' a b : like a b -> call_like c c' -> prel like res_like (step c a) (step c' b).
  Proof.
    intros Hl Hc. destruct c as [x1 x2 x3 x4 x5| | |t v n p|t v n ct g|x| | |]; destruct c' as [y1 y2 y3 y4 y5| | |t' v' n' p'|t' v' n' ct' g'|y| | |]; cbn in Hc; try done;
      try (injection Hc as -> -> -> -> ->); cbn [rl_step].
    - eapply prel_bind; [by apply alloc_like|]. intros u wa1 a1 b1 _ H1. by apply sret_like.
    - eapply prel_bind; [by apply setup_like|]. intros u wa1 a1 b1 _ H1. by apply sret_like.
    - eapply (prel_bind _ eq); [apply smod_like; destruct Hl; by constructor|]. intros u wa1 a1 b1 _ H1. by apply sret_like.
    - destruct Hc as (-> & -> & -> & Hp). eapply prel_bind; [by apply push_encrypt_like|]. intros u wa1 a1 b1 _ H1. by apply sret_like.
    - eapply prel_bind; [by apply push_decrypt_like|]. intros u wa1 a1 b1 _ H1. by apply sret_like.
    - injection Hc as ->. eapply prel_bind; [by apply flush_like|]. intros u wa1 a1 b1 _ H1. by apply sret_like.
    - eapply prel_bind; [by apply commit_like|]. intros [s r] [s' r'] a1 b1 [H1 H2] Hl1. by apply sret_like.
  Qed.
End Like.
