(** What the leader hands to the TLS client. *)
From Verif.Lib Require Import Base.
From Verif Require Import TranscriptModel ProofModel CodecModel CodecSpec AttestModel TlsModel AuthModel AuthSpec TagModel RecordModel RecordSpec RecordFlushLemmas RecordLemmas
  PartsModel PartsSpec PartsLemmas PrfModel HandshakeModel SigAlgModel FollowerModel FollowerSpec LeaderModel LeaderSpec LeaderRun LeaderLog LeaderOutSpec.

Definition waits_out (e : enc_record) (y : tls_record) : Prop :=
  er_typ e = r_typ y /\ er_nonce e = r_nonce y /\ er_ct e = r_ct y /\ er_tag e = r_tag y /\ is_Some (r_tag y).
Definition waits_in (p : plain_record) (y : tls_record) : Prop := pr_typ p = r_typ y /\ pr_plain p = r_plain y /\ is_Some (r_plain y).
Definition ke (e : enc_record) := (er_typ e, er_version e).
Definition kp (p : plain_record) := (pr_typ p, pr_version p).
Definition keo (o : enc_op) := (eo_typ o, eo_version o).
Definition kdo (o : dec_op) := (do_typ o, do_version o).
Definition neat (o : dec_op) : Prop := length (do_nonce o) = 8 /\ length (do_tag o) = 16.

(** [mo] and [mi] were handed out, the logs are [sent] and [recv]. *)
Definition waiting (mo mi : list message) (r : rl) (sent recv : list tls_record) : Prop :=
  (exists s1 s2, sent = s1 ++ s2 /\ Forall2 on_wire mo s1 /\ Forall2 waits_out (rl_encrypted r) s2) /\
  (exists s1 s2, recv = s1 ++ s2 /\ Forall2 in_clear mi s1 /\ Forall2 waits_in (rl_decrypted r) s2).
(** [ok] says whether no call failed so far. *)
Definition among {A} (ok : Prop) (a b : list A) : Prop := a `sublist_of` b /\ (ok -> a = b).
Definition kinds (ok : Prop) (pre : calls) (mo mi : list message) (r : rl) : Prop :=
  among ok (map kind mo ++ map ke (rl_encrypted r) ++ map keo (rl_encrypt r)) (map kind (pushed pre)) /\
  among ok (map kind mi ++ map kp (rl_decrypted r) ++ map kdo (rl_decrypt r)) (map kind (arrived pre)).
Definition rl_ok (r : rl) : Prop :=
  rl_role r = Leader /\ Forall eop_wf (rl_encrypt r) /\ Forall dop_wf (rl_decrypt r) /\ Forall neat (rl_decrypt r).
Definition good (ok : Prop) (pre : calls) (mo mi : list message) (r : rl) : Prop :=
  rl_ok r /\ kinds ok pre mo mi r /\ exists otp sent recv, rl_st r = SOnline (Some otp) sent recv /\ waiting mo mi r sent recv.

Lemma among_mono {A} (ok ok' : Prop) (a b : list A) : among ok a b -> (ok' -> ok) -> among ok' a b.
Proof. intros [H1 H2] H. split; [done|]. auto. Qed.
Lemma among_snoc {A} ok (a b k : list A) : among ok a b -> among ok (a ++ k) (b ++ k).
Proof. intros [H1 H2]. split; [by apply sublist_app|]. intros Ho. by rewrite (H2 Ho). Qed.
Lemma among_skip {A} (ok ok' : Prop) (a b k : list A) : among ok a b -> ~ ok' -> among ok' a (b ++ k).
Proof. intros [H1 H2] H. split; [by apply sublist_inserts_r|done]. Qed.
Lemma among_less {A} (ok ok' : Prop) (a a' b : list A) : among ok a b -> a' `sublist_of` a -> ~ ok' -> among ok' a' b.
Proof. intros [H1 H2] Hs H. split; [by etrans|done]. Qed.

Section Out.
  Context (aes : list N -> list N -> list N) (ghash_fn : list N -> list N -> list N) (checked : bool) (blind : N -> nat -> N) (pad_rng : nat -> N).
  Context (Haes : aes_ok aes) (ek ei dk di : list N).
  Notation rstep := (rl_step aes ghash_fn checked ek ei dk di blind pad_rng).
  Notation oenc := (RecordModel.out_enc aes ghash_fn ek ei).
  Notation lenc := (RecordModel.log_enc aes ghash_fn ek ei).

  Lemma new_out ops cts : length ops = length cts -> Forall2 waits_out (zip_with (oenc Leader) ops cts) (zip_with (lenc Leader) ops cts) /\ map ke (zip_with (oenc Leader) ops cts) = map keo ops.
  Proof.
    revert cts. induction ops as [|op ops IH]; intros [|ct cts] H; try done; cbn in *; [split; [constructor|done]|].
    destruct (IH cts) as [H1 H2]; [lia|]. split; [constructor; [|exact H1]|by rewrite H2]. unfold waits_out. cbn. split_and!; try done; by eexists.
  Qed.
  Lemma new_in ops ps : Forall2 (dec_right aes ghash_fn dk di Leader) ops ps -> Forall2 waits_in (zip_with out_dec ops ps) (zip_with log_dec ops ps) /\ map kp (zip_with out_dec ops ps) = map kdo ops.
  Proof.
    induction 1 as [|op p ops ps H _ [H1 H2]]; cbn; [split; [constructor|done]|]. split; [|by rewrite H2]. constructor; [|done]. unfold waits_in. cbn. split_and!; try done.
    destruct p as [t|]; [by eexists|]. by destruct H as [[? ?] ?].
  Qed.

  (** A call that is not one of the client's records. *)
  Lemma flush_good b ok pre mo mi r r' o : good ok pre mo mi r -> rstep (CFlush b) r = (r', o) ->
    good (ok /\ is_Ok o) pre mo mi r'.
  Proof.
    intros ((Hr & He & Hd & Hn) & (Ko & Ki) & otp & sent & recv & Hst & (s1 & s2 & Es & W1 & W2) & (q1 & q2 & Eq & W3 & W4)) H.
    cbn [rl_step] in H. assert (exists o1, rl_flush aes ghash_fn checked ek ei dk di blind b r = (r', o1) /\ (is_Ok o <-> o1 = Ok tt)) as (o1 & Hf & Hok).
    { unfold sbind in H. destruct (rl_flush _ _ _ _ _ _ _ _ b r) as [r1 [[]|e|]] eqn:E; injection H as <- <-; eexists; (split; [reflexivity|]).
      - split; [done|]. intros _. by eexists.
      - split; [by intros [? ?]|done].
      - split; [by intros [? ?]|done]. }
    clear H. apply (flush_cases aes ghash_fn checked ek ei dk di blind Haes) in Hf; [|done..|].
    2: { intros ? ? ? E. rewrite Hst in E. injection E as <- _ _. split; [done|by eexists]. }
    destruct Hf as [(Hx & _)|(otp1 & sent1 & recv1 & dops & rest & otp' & ge & gd & online & E & Ed & Ho & Hc)]; [by apply Hx in Hst|].
    rewrite Hst in E. injection E as <- <- <-. destruct otp' as [otp'|]; [|by destruct Ho as [_ []]; [by eexists|]].
    rewrite Ed in *. apply Forall_app in Hd as [Hd1 Hd2]. apply Forall_app in Hn as [Hn1 Hn2].
    destruct Hc as [(cts & plains & -> & Hct & Hpl & _ & ->)|(Hno & _ & ->)].
    - rewrite Hr in *. destruct (new_out (rl_encrypt r) cts) as [N1 N2]; [by eapply Forall2_length|]. destruct (new_in _ _ Hpl) as [N3 N4].
      split; [split; [done|]; split; [constructor|]; by split|]. split.
      + split; cbn [flushed rl_encrypted rl_encrypt rl_decrypted rl_decrypt].
        * rewrite map_app, N2, app_nil_r. eapply among_mono; [exact Ko|tauto].
        * rewrite map_app, N4. rewrite map_app in Ki. rewrite <- !app_assoc. eapply among_mono; [exact Ki|tauto].
      + eexists otp', _, _. split; [reflexivity|]. split; cbn [flushed rl_encrypted rl_decrypted].
        * exists s1. eexists. split; [by rewrite Es, <- app_assoc|]. split; [done|]. by apply Forall2_app.
        * exists q1. eexists. split; [by rewrite Eq, <- app_assoc|]. split; [done|]. by apply Forall2_app.
    - assert (~ (ok /\ is_Ok o)) as Hf by (intros [_ Hx]; by apply Hok in Hx).
      split; [split; [done|]; split; [constructor|]; by split|]. split.
      + split; cbn [flushed rl_encrypted rl_encrypt rl_decrypted rl_decrypt]; rewrite app_nil_r.
        * eapply among_less; [exact Ko| |exact Hf]. apply sublist_app; [done|]. cbn. rewrite app_nil_r. by apply sublist_inserts_r.
        * eapply among_less; [exact Ki| |exact Hf]. apply sublist_app; [done|]. apply sublist_app; [done|]. rewrite map_app. by apply sublist_inserts_l.
      + eexists otp', _, _. split; [reflexivity|]. split; cbn [flushed rl_encrypted rl_decrypted]; rewrite app_nil_r.
        * exists s1, s2. done.
        * exists q1, q2. done.
  Qed.
  (** Only what the invariant is about matters. *)
  Lemma good_frame ok (ok' : Prop) pre mo mi r r' : good ok pre mo mi r -> (ok' -> ok) -> rl_role r' = rl_role r -> rl_st r' = rl_st r -> rl_encrypt r' = rl_encrypt r ->
    rl_decrypt r' = rl_decrypt r -> rl_encrypted r' = rl_encrypted r -> rl_decrypted r' = rl_decrypted r -> good ok' pre mo mi r'.
  Proof.
    intros (H1 & H2 & otp & sent & recv & H3 & H4) Ho Er Es E1 E2 E3 E4. unfold good, rl_ok, kinds, waiting in *. rewrite Er, Es, E1, E2, E3, E4. split; [done|].
    split; [destruct H2; split; (eapply among_mono; [eassumption|done])|]. by exists otp, sent, recv.
  Qed.
  Lemma pushed_snoc pre now io m : pushed (pre ++ [(now, io, LPushOut m)]) = pushed pre ++ [m].
  Proof. unfold pushed. by rewrite omap_app. Qed.
  Lemma arrived_snoc pre now io m : arrived (pre ++ [(now, io, LPushIn m)]) = arrived pre ++ [m].
  Proof. unfold arrived. by rewrite omap_app. Qed.
  Lemma encrypt_good ok (ok' : Prop) pre mo mi r r' o now io m : (N.of_nat (length (m_payload m)) < 2 ^ 64)%N -> good ok pre mo mi r ->
    rstep (CEncrypt (m_typ m) (m_version m) (N.of_nat (length (m_payload m))) (Some (m_payload m))) r = (r', o) -> (ok' -> ok /\ is_Ok o) ->
    good ok' (pre ++ [(now, io, LPushOut m)]) mo mi r'.
  Proof.
    intros Hl Hg H Hok. cbn [rl_step] in H. assert (exists o1, push_encrypt checked (m_typ m) (m_version m) (N.of_nat (length (m_payload m))) (Some (m_payload m)) r = (r', o1) /\ (is_Ok o <-> o1 = Ok tt)) as (o1 & Hf & Ho).
    { unfold sbind in H. destruct (push_encrypt _ _ _ _ _ r) as [r1 [[]|e|]] eqn:E; injection H as <- <-; eexists; (split; [reflexivity|]).
      - split; [done|]. intros _. by eexists.
      - split; [by intros [? ?]|done].
      - split; [by intros [? ?]|done]. }
    clear H. apply push_encrypt_cases in Hf; [|done].
    assert (pushed (pre ++ [(now, io, LPushOut m)]) = pushed pre ++ [m] /\ arrived (pre ++ [(now, io, LPushOut m)]) = arrived pre) as [P1 P2].
    { unfold pushed, arrived. rewrite !omap_app. cbn. by rewrite app_nil_r. }
    destruct Hf as [(Hno & Hr)|(-> & _ & total & op & _ & _ & Hwf & Hc & _ & ->)].
    - assert (~ ok') as Hf. { intros [_ Hx]%Hok. apply Hno. apply Ho in Hx as ->. by eexists. }
      assert (good ok' pre mo mi r') as (G1 & (K1 & K2) & G3).
      { eapply good_frame; [exact Hg|done|..]; destruct Hr as [->|(total & _ & ->)]; done. }
      split; [done|]. split; [|done]. unfold kinds. rewrite P1, P2, map_app. split; [|done]. by eapply among_skip.
    - destruct Hg as ((Hr & He & Hd & Hn) & (Ko & Ki) & otp & sent & recv & Hst & Hw). unfold eop_call in Hc. injection Hc as C1 C2 C3 C4.
      split; [split; [done|]; split; [|by split]; apply Forall_app; split; [done|by constructor]|]. split.
      + unfold kinds. cbn. rewrite P1, P2, !map_app. cbn. split; [|eapply among_mono; [exact Ki|tauto]]. rewrite !app_assoc.
        replace (keo op) with (kind m) by (unfold keo, kind; by rewrite C1, C2). apply among_snoc. rewrite <- app_assoc. eapply among_mono; [exact Ko|tauto].
      + by exists otp, sent, recv.
  Qed.
  Lemma decrypt_good ok (ok' : Prop) pre mo mi r r' o now io m nonce ct tag : (N.of_nat (length (m_payload m)) < 2 ^ 63)%N -> is_split (m_payload m) nonce ct tag -> good ok pre mo mi r ->
    rstep (CDecrypt (m_typ m) (m_version m) nonce ct tag) r = (r', o) -> (ok' -> ok /\ is_Ok o) ->
    good ok' (pre ++ [(now, io, LPushIn m)]) mo mi r'.
  Proof.
    intros Hl (Hp & Ln & Lt) Hg H Hok. cbn [rl_step] in H. assert (exists o1, push_decrypt checked (m_typ m) (m_version m) nonce ct tag r = (r', o1) /\ (is_Ok o <-> o1 = Ok tt)) as (o1 & Hf & Ho).
    { unfold sbind in H. destruct (push_decrypt _ _ _ _ _ _ r) as [r1 [[]|e|]] eqn:E; injection H as <- <-; eexists; (split; [reflexivity|]).
      - split; [done|]. intros _. by eexists.
      - split; [by intros [? ?]|done].
      - split; [by intros [? ?]|done]. }
    clear H. apply push_decrypt_cases in Hf; [|rewrite Hp, !app_length in Hl; lia].
    assert (pushed (pre ++ [(now, io, LPushIn m)]) = pushed pre /\ arrived (pre ++ [(now, io, LPushIn m)]) = arrived pre ++ [m]) as [P1 P2].
    { unfold pushed, arrived. rewrite !omap_app. cbn. by rewrite app_nil_r. }
    destruct Hf as [(Hno & ->)|(-> & _ & total & op & _ & _ & Hwf & Hc & _ & ->)].
    - assert (~ ok') as Hf. { intros [_ Hx]%Hok. apply Hno. apply Ho in Hx as ->. by eexists. }
      destruct Hg as (G1 & (K1 & K2) & G3). split; [done|]. split; [|done]. unfold kinds. rewrite P1, P2, map_app. split; [eapply among_mono; [exact K1|tauto]|]. by eapply among_skip.
    - destruct Hg as ((Hr & He & Hd & Hn) & (Ko & Ki) & otp & sent & recv & Hst & Hw). unfold dop_call in Hc. injection Hc as C1 C2 C3 C4 C5.
      split; [split; [done|]; split; [done|]; split; (apply Forall_app; split; [done|]); (constructor; [|constructor]); [done|unfold neat; by rewrite C3, C5]|]. split.
      + unfold kinds. cbn. rewrite P1, P2, !map_app. cbn. split; [eapply among_mono; [exact Ko|tauto]|]. rewrite !app_assoc.
        replace (kdo op) with (kind m) by (unfold kdo, kind; by rewrite C1, C2). apply among_snoc. rewrite <- app_assoc. eapply among_mono; [exact Ki|tauto].
      + by exists otp, sent, recv.
  Qed.
  (** The end of the connection. *)
  Lemma commit_good ok pre mo mi r r' sent recv : good ok pre mo mi r -> rstep CCommit r = (r', Ok (RLogs sent recv)) ->
    rl_encrypt r' = [] /\ rl_decrypt r' = [] /\ kinds ok pre mo mi r' /\ waiting mo mi r' sent recv.
  Proof.
    intros ((Hr & He & Hd & Hn) & (Ko & Ki) & otp & sent0 & recv0 & Hst & (s1 & s2 & Es & W1 & W2) & (q1 & q2 & Eq & W3 & W4)) H.
    cbn [rl_step] in H. unfold sbind in H. destruct (rl_commit _ _ _ _ _ r) as [r1 [[a b]|e|]] eqn:E; cbn in H; [|discriminate H..]. injection H as <- <- <-.
    apply (commit_cases aes ghash_fn checked dk di Haes) in E; [|done]. destruct E as [(otp1 & sent1 & recv1 & plains & g & E & E0 & Hpl & Eo & ->)|(Hno & _)]; [|by destruct Hno; eexists].
    rewrite Hst in E. injection E as <- <- <-. injection Eo as -> ->. rewrite Hr in Hpl. destruct (new_in _ _ Hpl) as [N3 N4]. split; [done|]. split; [done|]. split.
    - unfold kinds. cbn. rewrite map_app, N4, !app_nil_r. rewrite E0 in Ko. cbn in Ko. rewrite app_nil_r in Ko. by split.
    - split; cbn.
      + by exists s1, s2.
      + exists q1. eexists. split; [by rewrite Eq, <- app_assoc|]. split; [done|]. by apply Forall2_app.
  Qed.
End Out.

(** ** Fetching *)
Definition out1 (x : lcall) (o : outcome ld_error lres) : list message := match x, o with LNextOut, Ok (LMsg (Some m)) => [m] | _, _ => [] end.
Definition in1 (x : lcall) (o : outcome ld_error lres) : list message := match x, o with LNextIn, Ok (LMsg (Some m)) => [m] | _, _ => [] end.
Definition done1 (o : outcome ld_error lres) : list tls_transcript := match o with Ok (LDone (Some t)) => [t] | _ => [] end.
Lemma fetch_in r : exists r' x, next_decrypted r = (r', Ok x) /\ (exists d, r' = RecordModel.set_out (rl_encrypted r) d r) /\
  forall ok pre mo mi sent recv, kinds ok pre mo mi r -> waiting mo mi r sent recv ->
    is_Ok (incoming x) /\ kinds ok pre mo (mi ++ in1 LNextIn (incoming x)) r' /\ waiting mo (mi ++ in1 LNextIn (incoming x)) r' sent recv.
Proof.
  unfold next_decrypted. assert (exists r' (x : option plain_record), (r, Ok None : outcome rl_error (option plain_record)) = (r', Ok x) /\ (exists d, r' = RecordModel.set_out (rl_encrypted r) d r) /\
    forall ok pre mo mi sent recv, kinds ok pre mo mi r -> waiting mo mi r sent recv ->
    is_Ok (incoming x) /\ kinds ok pre mo (mi ++ in1 LNextIn (incoming x)) r' /\ waiting mo (mi ++ in1 LNextIn (incoming x)) r' sent recv) as H0.
  { exists r, None. split; [done|]. split; [exists (rl_decrypted r); by destruct r|]. intros. cbn. rewrite app_nil_r. split; [by eexists|done]. }
  destruct (rl_decrypted r) as [|y ys] eqn:E; [exact H0|destruct (_ && _); [exact H0|]]. clear H0.
  eexists _, (Some y). split; [done|]. split; [by eexists|]. intros ok pre mo mi sent recv [Ko Ki] [Ws (q1 & q2 & Eq & W3 & W4)]. rewrite E in *.
  apply Forall2_cons_inv_l in W4 as (z & q3 & (Y1 & Y2 & [p Hp]) & W4 & ->). unfold incoming. rewrite Y2, Hp. split; [by eexists|]. cbn [in1].
  split; [split|split].
  - exact Ko.
  - cbn. rewrite map_app, <- app_assoc. exact Ki.
  - exact Ws.
  - exists (q1 ++ [z]), q3. split; [by rewrite Eq, <- app_assoc|]. split; [|done]. apply Forall2_app; [done|]. constructor; [|constructor]. by split.
Qed.
Lemma fetch_out r : exists r' x, next_encrypted r = (r', Ok x) /\ (exists e, r' = RecordModel.set_out e (rl_decrypted r) r) /\
  forall ok pre mo mi sent recv, kinds ok pre mo mi r -> waiting mo mi r sent recv ->
    is_Ok (outgoing x) /\ kinds ok pre (mo ++ out1 LNextOut (outgoing x)) mi r' /\ waiting (mo ++ out1 LNextOut (outgoing x)) mi r' sent recv.
Proof.
  unfold next_encrypted. assert (exists r' (x : option enc_record), (r, Ok None : outcome rl_error (option enc_record)) = (r', Ok x) /\ (exists e, r' = RecordModel.set_out e (rl_decrypted r) r) /\
    forall ok pre mo mi sent recv, kinds ok pre mo mi r -> waiting mo mi r sent recv ->
    is_Ok (outgoing x) /\ kinds ok pre (mo ++ out1 LNextOut (outgoing x)) mi r' /\ waiting (mo ++ out1 LNextOut (outgoing x)) mi r' sent recv) as H0.
  { exists r, None. split; [done|]. split; [exists (rl_encrypted r); by destruct r|]. intros. cbn. rewrite app_nil_r. split; [by eexists|done]. }
  destruct (rl_encrypted r) as [|y ys] eqn:E; [exact H0|destruct (_ && _); [exact H0|]]. clear H0.
  eexists _, (Some y). split; [done|]. split; [by eexists|]. intros ok pre mo mi sent recv [Ko Ki] [(q1 & q2 & Eq & W3 & W4) Ws]. rewrite E in *.
  apply Forall2_cons_inv_l in W4 as (z & q3 & (Y1 & Y2 & Y3 & Y4 & [tag Hp]) & W4 & ->). unfold outgoing, outgoing_payload. rewrite Y4, Hp. cbn [or_panic obind]. split; [by eexists|]. cbn [out1].
  split; [split|split].
  - cbn. rewrite map_app, <- app_assoc. exact Ko.
  - exact Ki.
  - exists (q1 ++ [z]), q3. split; [by rewrite Eq, <- app_assoc|]. split; [|done]. apply Forall2_app; [done|]. constructor; [|constructor]. exists tag. cbn. by rewrite Y1, Y2, Y3.
  - exact Ws.
Qed.

Section Run.
  Context (iv : list N) (compress : list N -> list N -> list N).
  Context (aes : list N -> list N -> list N) (ghash_fn : list N -> list N -> list N) (checked : bool) (blind : N -> nat -> N) (pad_rng : nat -> N).
  Context (sha256 : list N -> list N) (parse_body : protocol_version -> N -> list N -> option hs_payload) (ec_curve : list N -> option N).
  Context (parse_key : list N -> bool) (exchange : list N -> option (list N)) (fin : list N -> bool) (rounds : nat).
  Context (cert_key : bytes -> option key_kind) (sig_valid : bytes -> webpki_alg -> bytes -> bytes -> bool).
  Context (client_key : option (list N)) (c : fo_config).
  Context (Haes : aes_ok aes) (Hcfg : config_ok c).
  Notation lstep := (ld_step iv compress aes ghash_fn checked blind pad_rng sha256 parse_body ec_curve parse_key exchange fin rounds cert_key sig_valid client_key c).
  Notation lrun := (ld_run iv compress aes ghash_fn checked blind pad_rng sha256 parse_body ec_curve parse_key exchange fin rounds cert_key sig_valid client_key c).
  Notation lexec := (ld_exec aes ghash_fn checked blind pad_rng).

  Definition inv3 (ok : Prop) (pre : calls) (mo mi : list message) (ts : list tls_transcript) (l : ld) : Prop :=
    match ld_st l with
    | LInit => ts = [] /\ mo = [] /\ mi = [] /\ among ok [] (map kind (pushed pre)) /\ among ok [] (map kind (arrived pre))
    | LSetup _ s _ | LReady _ s | LActive _ s _ => ts = [] /\ good ok pre mo mi (fo_rl s)
    | LClosed r t => ts = [] /\ rl_encrypt r = [] /\ rl_decrypt r = [] /\ kinds ok pre mo mi r /\ waiting mo mi r (tt_sent t) (tt_recv t)
    | LError => Forall (fun t => first_of on_wire mo (tt_sent t) /\ first_of in_clear mi (tt_recv t)) ts /\
        (exists r, among ok (map kind mo ++ r) (map kind (pushed pre))) /\ (exists r, among ok (map kind mi ++ r) (map kind (arrived pre)))
    end.
  Lemma waiting_first mo mi r sent recv : waiting mo mi r sent recv -> first_of on_wire mo sent /\ first_of in_clear mi recv.
  Proof. intros [(s1 & s2 & E & H & _) (q1 & q2 & E' & H' & _)]. split; [by exists s1, s2|by exists q1, q2]. Qed.
  (** The step on the calls asked for. *)
  Lemma pushed_app a b : pushed (a ++ b) = pushed a ++ pushed b.
  Proof. unfold pushed. by rewrite omap_app. Qed.
  Lemma arrived_app a b : arrived (a ++ b) = arrived a ++ arrived b.
  Proof. unfold arrived. by rewrite omap_app. Qed.
  Lemma among_more {A} (ok ok' : Prop) (a b k : list A) : among ok a b -> (ok' -> ok) -> (ok' -> k = []) -> among ok' a (b ++ k).
  Proof. intros [H1 H2] Ho Hk. split; [by apply sublist_inserts_r|]. intros H. rewrite (Hk H), app_nil_r. auto. Qed.
  Definition silent_if (ok : Prop) (x : N * bool * lcall) : Prop := ok -> pushed [x] = [] /\ arrived [x] = [].
  Lemma kinds_more ok (ok' : Prop) pre mo mi r x : kinds ok pre mo mi r -> (ok' -> ok) -> silent_if ok' x -> kinds ok' (pre ++ [x]) mo mi r.
  Proof.
    intros [H1 H2] Ho Hs. unfold kinds. rewrite pushed_app, arrived_app, !map_app. split; (eapply among_more; [eassumption|done|]); intros H; destruct (Hs H) as [E1 E2]; by rewrite ?E1, ?E2.
  Qed.
  Lemma good_more ok (ok' : Prop) pre mo mi r x : good ok pre mo mi r -> (ok' -> ok) -> silent_if ok' x -> good ok' (pre ++ [x]) mo mi r.
  Proof. intros (H1 & H2 & H3) Ho Hs. split; [done|]. split; [by eapply kinds_more|done]. Qed.
  (** Nothing of it changed. *)
  Lemma inv3_same ok (ok' : Prop) pre mo mi ts l l1 x : inv3 ok pre mo mi ts l -> ld_st l1 = ld_st l -> (ok' -> ok) -> silent_if ok' x -> inv3 ok' (pre ++ [x]) mo mi ts l1.
  Proof.
    intros Hi El Ho Hs. unfold inv3 in *. rewrite El. destruct (ld_st l) as [|out s rd|out s|out s hs|r t|].
    - destruct Hi as (-> & -> & -> & H1 & H2). split_and!; try done.
      + rewrite pushed_app, map_app. eapply among_more; [done|done|]. intros H. by destruct (Hs H) as [-> _].
      + rewrite arrived_app, map_app. eapply among_more; [done|done|]. intros H. by destruct (Hs H) as [_ ->].
    - destruct Hi as (-> & Hg). split; [done|]. by eapply good_more.
    - destruct Hi as (-> & Hg). split; [done|]. by eapply good_more.
    - destruct Hi as (-> & Hg). split; [done|]. by eapply good_more.
    - destruct Hi as (-> & H1 & H2 & H3 & H4). split_and!; try done. by eapply kinds_more.
    - destruct Hi as (H1 & (ra & H2) & (rb & H3)). split_and!; try done.
      + exists ra. rewrite pushed_app, map_app. eapply among_more; [done|done|]. intros H. by destruct (Hs H) as [-> _].
      + exists rb. rewrite arrived_app, map_app. eapply among_more; [done|done|]. intros H. by destruct (Hs H) as [_ ->].
  Qed.
  (** To the end. *)
  Lemma inv3_over ok (ok' : Prop) pre mo mi l l1 x t : inv3 ok pre mo mi [] l -> ld_st l1 = LError -> (ok' -> ok) -> silent_if ok' x ->
    (t = [] \/ exists r t', ld_st l = LClosed r t' /\ t = [t']) -> inv3 ok' (pre ++ [x]) mo mi t l1.
  Proof.
    intros Hi El Ho Hs Ht. assert (inv3 ok' (pre ++ [x]) mo mi [] l) as Hi' by (by eapply inv3_same). clear Hi. unfold inv3 in *. rewrite El. destruct (ld_st l) as [|out s rd|out s|out s hs|r t0|].
    - destruct Ht as [->|(? & ? & [=] & _)]. destruct Hi' as (_ & -> & -> & H1 & H2). split; [constructor|]. split; by exists [].
    - destruct Ht as [->|(? & ? & [=] & _)]. destruct Hi' as (_ & _ & (H1 & H2) & _). split; [constructor|]. split; by eexists.
    - destruct Ht as [->|(? & ? & [=] & _)]. destruct Hi' as (_ & _ & (H1 & H2) & _). split; [constructor|]. split; by eexists.
    - destruct Ht as [->|(? & ? & [=] & _)]. destruct Hi' as (_ & _ & (H1 & H2) & _). split; [constructor|]. split; by eexists.
    - destruct Hi' as (_ & _ & _ & (H1 & H2) & H3). split; [|split; by eexists]. destruct Ht as [->|(r' & t' & [= <- <-] & ->)]; [constructor|]. constructor; [|constructor]. by eapply waiting_first.
    - destruct Ht as [->|(? & ? & [=] & _)]. done.
  Qed.

  Lemma is_ok_unit {E A} (o : outcome E A) : is_Ok (unit_of o) <-> is_Ok o.
  Proof. destruct o; cbn; split; intros [? [=]]; by eexists. Qed.
  Lemma is_ok_map {E F A} (f : E -> F) (o : outcome E A) : is_Ok (map_err f o) <-> is_Ok o.
  Proof. destruct o; cbn; split; intros [? [=]]; by eexists. Qed.
  Lemma vd_rl set cell known hash s s1 o : vd_of compress rounds set cell known hash s = (s1, o) -> fo_rl s1 = fo_rl s.
  Proof.
    unfold vd_of, with_prf, flush_prf. destruct (map_err FPrf (set (fo_prf s) hash)) as [p|e|]; cbn [obind]; try by intros [= <- <-].
    destruct (map_err FPrf (flush_all _ _ _ _)) as [[[m q]|]|e|]; cbn [obind]; try by intros [= <- <-]. by destruct known; intros [= <- <-].
  Qed.
  Lemma prepare_rl out h s s1 : prepare_keys compress aes ghash_fn checked blind pad_rng parse_key exchange fin rounds out h s = Ok s1 ->
    exists ge gd, fo_rl s1 = RecordModel.set_dec gd (RecordModel.set_enc ge (fo_rl s)).
  Proof.
    unfold prepare_keys, with_prf, flush_prf. intros H. destruct (map_err FPrf (set_server_random _ _)) as [p|e|]; try discriminate H. cbn [obind] in H.
    destruct (negb (parse_key _)); [discriminate H|]. destruct (opt_err FExchange _) as [pms|e|]; try discriminate H. cbn [obind] in H.
    destruct (map_err FPrf (vm_assign _ _ _)) as [m|e|]; try discriminate H. cbn [obind] in H.
    destruct (map_err FPrf (flush_all _ _ _ _)) as [[[m2 q]|]|e|]; try discriminate H. cbn [obind] in H. destruct (negb (fin _)); [discriminate H|].
    unfold rl_exec in H. cbn [rl_step] in H. unfold sbind in H. cbn [fo_rl set_prf] in H. destruct (rl_setup _) as [r [[]|e|]] eqn:E; try discriminate H.
    cbn in H. injection H as <-. apply (setup_cases aes ghash_fn [] blind Haes) in E as (ge & gd & -> & _). by exists ge, gd.
  Qed.
  Lemma exec_start out s : lexec out CStart s = (set_rl (RecordModel.set_started (fo_rl s)) s, Ok RUnit).
  Proof. done. Qed.
  Lemma close_rl out s hs r t : close_transcript aes ghash_fn checked blind pad_rng sha256 parse_body ec_curve cert_key sig_valid out s hs = Ok (r, t) ->
    exists s1, lexec out CCommit s = (s1, Ok (RLogs (tt_sent t) (tt_recv t))) /\ r = fo_rl s1.
  Proof.
    intros H. pose proof H as H0. apply close_Ok in H0 as (sent & recv & h & rd & cf & sf & ek & sg & s1 & E & _ & _ & _ & _ & _ & _ & -> & _). exists s1. split; [done|].
    unfold close_transcript in H. rewrite E in H. cbn [obind] in H. destruct (fo_cf s1), (fo_sf s1); try discriminate H. cbn [opt_err obind] in H.
    destruct (fo_random s1), (fo_hello s1); try discriminate H. cbn [or_panic obind] in H. destruct (lift_panic (server_sig _ _ _ _)) as [sg'|e|]; try discriminate H. cbn [obind] in H.
    destruct (ephem_of s0) as [ek'|]; try discriminate H. cbn [or_panic obind] in H. destruct (map_err _ (tls_build _ _ _ _)) as [t|e|]; try discriminate H. cbn [obind] in H.
    destruct (map_err _ (verify_transcript _ _ _)) as [[]|e|]; try discriminate H. cbn [obind] in H. by injection H as <- _.
  Qed.
  Lemma alloc_good io now rd pre s0 r ox ek ei dk di : rl_step aes ghash_fn checked ek ei dk di blind pad_rng (CAlloc (fc_sent_records c) (fc_recv_records c) (fc_sent c) (fc_recv_online c) (fc_recv c)) (rl_new Leader) = (r, Ok ox) ->
    among s0 [] (map kind (pushed pre)) -> among s0 [] (map kind (arrived pre)) -> good s0 (pre ++ [(now, io, LAlloc rd)]) [] [] r.
  Proof.
    intros H H1 H2. cbn [rl_step] in H. unfold sbind in H. destruct (rl_alloc _ _ _ _ _ _ _ _) as [r1 [[]|e|]] eqn:E; try discriminate H. injection H as <- _.
    eapply (alloc_cases aes ghash_fn checked [] blind pad_rng Haes) in E; [|exact Hcfg]. destruct E as [(Hno & _)|(_ & _ & ge & gd & otp & x & y & z & -> & Ho & _)]; [by destruct Hno; eexists|].
    destruct otp as [otp|]; [|by destruct (proj2 Ho eq_refl)]. split; [split_and!; try done; constructor|]. split.
    - unfold kinds. rewrite pushed_app, arrived_app. cbn. by rewrite !app_nil_r.
    - exists otp, [], []. split; [done|]. split; exists [], []; (split; [done|]; split; constructor).
  Qed.

  Definition small (x : lcall) : Prop := match x with LPushOut m | LPushIn m => (N.of_nat (length (m_payload m)) < 2 ^ 63)%N | _ => True end.
  Lemma then_send_out l l1 ms o out hs io sx ox m : then_send io out hs (sx, ox) m l = (l1, ms, o) ->
    (is_Ok o -> is_Ok ox) /\ ld_st l1 = LActive out sx hs /\ done1 o = [].
  Proof.
    unfold then_send. destruct ox as [x|e|]; [destruct io|..]; intros [= <- <- <-]; (split; [|split; [done|]]); try done; try (by intros [? [=]]). by eexists.
  Qed.
  Lemma exec_step out cl s sx ox : lexec out cl s = (sx, ox) -> exists ek ei dk di r o, rl_step aes ghash_fn checked ek ei dk di blind pad_rng cl (fo_rl s) = (r, o) /\ sx = set_rl r s /\ ox = map_err (fun e => LdFo (FRl e)) o.
  Proof. unfold ld_exec. destruct (rl_step _ _ _ _ _ _ _ _ _ _ _) as [r o] eqn:E. intros [= <- <-]. eauto 10. Qed.
  Lemma sil_not (ok : Prop) o x : ~ is_Ok o -> silent_if (ok /\ @is_Ok ld_error lres o) x.
  Proof. intros H [_ H']. done. Qed.

  Lemma step3 now io x ok pre mo mi ts l l1 ms o : small x -> inv3 ok pre mo mi ts l -> lstep now io x l = (l1, ms, o) ->
    inv3 (ok /\ is_Ok o) (pre ++ [(now, io, x)]) (mo ++ out1 x o) (mi ++ in1 x o) (ts ++ done1 o) l1 /\ (x = LNextIn \/ x = LNextOut -> o <> Panic).
  Proof.
    intros Hx Hi H.
    assert (forall e, ld_st l1 = ld_st l -> o = Err e ->
      inv3 (ok /\ is_Ok o) (pre ++ [(now, io, x)]) (mo ++ out1 x o) (mi ++ in1 x o) (ts ++ done1 o) l1 /\ (x = LNextIn \/ x = LNextOut -> o <> Panic)) as Hsame.
    { intros e El ->. split; [|done]. replace (out1 x (Err e)) with (@nil message) by (by destruct x). replace (in1 x (Err e)) with (@nil message) by (by destruct x). cbn. rewrite !app_nil_r.
      eapply inv3_same; [exact Hi|done|tauto|]. intros [_ [? [=]]]. }
    assert (ld_st l <> LError -> ts = []) as Hts by (unfold inv3 in Hi; destruct (ld_st l); tauto).
    assert (ld_st l = LError -> ld_st l1 = LError) as Herr.
    { intros El. destruct x; cbn [ld_step] in H; unfold ld_alloc, ld_preprocess, ld_random, ld_key_share, ld_prepare, ld_cf, ld_sf, ld_push_in, ld_next_in, ld_push_out, ld_next_out, ld_start, ld_flush, ld_is_empty, ld_close, ld_finish in H;
        cbn zeta in H; rewrite El in H; by injection H as <- _ _. }
    assert (ld_st l1 = LError -> ~ is_Ok o -> x <> LNextIn -> x <> LNextOut ->
      inv3 (ok /\ is_Ok o) (pre ++ [(now, io, x)]) (mo ++ out1 x o) (mi ++ in1 x o) (ts ++ done1 o) l1 /\ (x = LNextIn \/ x = LNextOut -> o <> Panic)) as Hfail.
    { intros El Ho X1 X2. split; [|by intros [-> | ->]]. replace (out1 x o) with (@nil message) by (by destruct x). replace (in1 x o) with (@nil message) by (by destruct x).
      replace (done1 o) with (@nil tls_transcript) by (by destruct o as [a|e|]; [destruct Ho; eexists|..]). rewrite !app_nil_r. destruct (ld_st l) eqn:El0.
      1-5: rewrite Hts in Hi |- * by done; eapply inv3_over; [exact Hi|done|tauto|by apply sil_not|by left].
      eapply inv3_same; [exact Hi|congruence|tauto|by apply sil_not]. }
    assert (forall a, x <> LNextIn -> x <> LNextOut -> (forall t, a <> LDone (Some t)) -> ld_st l1 = ld_st l -> o = Ok a -> pushed [(now, io, x)] = [] -> arrived [(now, io, x)] = [] ->
      inv3 (ok /\ is_Ok o) (pre ++ [(now, io, x)]) (mo ++ out1 x o) (mi ++ in1 x o) (ts ++ done1 o) l1 /\ (x = LNextIn \/ x = LNextOut -> o <> Panic)) as Hread.
    { intros a X1 X2 X3 El -> P1 P2. split; [|done]. replace (out1 x (Ok a)) with (@nil message) by (by destruct x). replace (in1 x (Ok a)) with (@nil message) by (by destruct x).
      replace (done1 (Ok a)) with (@nil tls_transcript) by (destruct a as [| | | | |[t|]]; try done; by destruct (X3 t)). rewrite !app_nil_r. eapply inv3_same; [exact Hi|done|tauto|]. by intros _. }
    assert (forall out s hs s1, ld_st l = LActive out s hs -> ld_st l1 = LActive out s1 hs -> x <> LNextIn -> x <> LNextOut -> done1 o = [] ->
      good (ok /\ is_Ok o) (pre ++ [(now, io, x)]) mo mi (fo_rl s1) ->
      inv3 (ok /\ is_Ok o) (pre ++ [(now, io, x)]) (mo ++ out1 x o) (mi ++ in1 x o) (ts ++ done1 o) l1 /\ (x = LNextIn \/ x = LNextOut -> o <> Panic)) as Hact.
    { intros out s hs s1 El El1 X1 X2 Hd Hg. split; [|by intros [-> | ->]]. replace (out1 x o) with (@nil message) by (by destruct x). replace (in1 x o) with (@nil message) by (by destruct x).
      rewrite Hd, !app_nil_r. rewrite Hts by (by rewrite El). unfold inv3. by rewrite El1. }
    destruct x as [rd| | | |hs|h|h|m| |m| | | | | |b|]; cbn [ld_step] in H.
    - unfold ld_alloc in H. destruct (ld_st l) eqn:El; try (injection H as <- <- <-; apply Hfail; [done|by intros [? [=]]|done|done]).
      destruct (map_err FPrf _) as [[[m p] out]|e|]; try (injection H as <- <- <-; apply Hfail; [done|by intros [? [=]]|done|done]).
      destruct (ld_exec _ _ _ _ _ _ _ _) as [s1 [ox|e|]] eqn:E; injection H as <- <- <-; try (apply Hfail; [done|by intros [? [=]]|done|done]).
      split; [|done]. cbn. unfold inv3 in Hi |- *. rewrite El in Hi. cbn [goto ld_st]. destruct Hi as (-> & -> & -> & H1 & H2). split; [done|].
      apply exec_step in E as (ek & ei & dk & di & r & o & E & -> & Eo). destruct o as [o|e|]; try discriminate Eo. eapply alloc_good; [exact E|..]; (eapply among_mono; [eassumption|tauto]).
    - unfold ld_preprocess in H. destruct (ld_st l) eqn:El; try (injection H as <- <- <-; apply Hfail; [done|by intros [? [=]]|done|done]).
      destruct io; injection H as <- <- <-; [|apply Hfail; [done|by intros [? [=]]|done|done]]. split; [|done]. cbn. rewrite !app_nil_r. unfold inv3 in Hi |- *. rewrite El in Hi. cbn [goto ld_st].
      destruct Hi as (-> & Hg). split; [done|]. eapply good_more; [exact Hg|tauto|done].
    - unfold ld_random in H. destruct (ld_st l) eqn:El; try (injection H as <- <- <-; (eapply Hsame; [done|reflexivity])). destruct (fo_random s); injection H as <- <- <-; [|(eapply Hsame; [done|reflexivity])]. (eapply Hread; [done|done| |done|reflexivity|done|done]; done).
    - unfold ld_key_share in H. destruct (ld_st l) eqn:El; try (injection H as <- <- <-; (eapply Hsame; [done|reflexivity])). destruct client_key; injection H as <- <- <-; [|(eapply Hsame; [done|reflexivity])]. (eapply Hread; [done|done| |done|reflexivity|done|done]; done).
    - unfold ld_prepare in H. destruct (ld_st l) eqn:El; try (injection H as <- <- <-; apply Hfail; [done|by intros [? [=]]|done|done]).
      destruct (negb _); [injection H as <- <- <-; apply Hfail; [done|by intros [? [=]]|done|done]|]. destruct (negb io); [injection H as <- <- <-; apply Hfail; [done|by intros [? [=]]|done|done]|].
      destruct (prepare_keys _ _ _ _ _ _ _ _ _ _ _ _ _) as [s1|e|] eqn:E; injection H as <- <- <-; try (apply Hfail; [done|by intros [? [=]]|done|done]).
      split; [|done]. cbn. rewrite !app_nil_r. unfold inv3 in Hi |- *. rewrite El in Hi. cbn [goto ld_st]. destruct Hi as (-> & Hg). split; [done|].
      apply prepare_rl in E as (ge & gd & E). eapply good_more; [eapply good_frame; [exact Hg|..]; rewrite ?E; done|tauto|done].
    - unfold ld_cf in H. destruct (ld_st l) eqn:El; try (injection H as <- <- <-; (eapply Hsame; [done|reflexivity])).
      destruct (negb _); [injection H as <- <- <-; (eapply Hsame; [done|reflexivity])|]. destruct (negb io); [injection H as <- <- <-; (eapply Hsame; [done|reflexivity])|].
      destruct (vd_of _ _ _ _ _ _ _) as [s1 ov] eqn:E. pose proof (vd_rl _ _ _ _ _ _ _ E) as Er. unfold inv3 in Hi. rewrite El in Hi. destruct Hi as [_ Hg].
      destruct ov as [vd|e|]; injection H as <- <- <-; (eapply Hact; [done|done|done|done|done|]); cbn; rewrite ?Er; (eapply good_more; [exact Hg|tauto|done]).
    - unfold ld_sf in H. destruct (ld_st l) eqn:El; try (injection H as <- <- <-; (eapply Hsame; [done|reflexivity])).
      destruct (negb _); [injection H as <- <- <-; (eapply Hsame; [done|reflexivity])|]. destruct (negb io); [injection H as <- <- <-; (eapply Hsame; [done|reflexivity])|].
      destruct (vd_of _ _ _ _ _ _ _) as [s1 ov] eqn:E. pose proof (vd_rl _ _ _ _ _ _ _ E) as Er. unfold inv3 in Hi. rewrite El in Hi. destruct Hi as [_ Hg].
      destruct ov as [vd|e|]; injection H as <- <- <-; (eapply Hact; [done|done|done|done|done|]); cbn; rewrite ?Er; (eapply good_more; [exact Hg|tauto|done]).
    - unfold ld_push_in in H. destruct (ld_st l) eqn:El; try (injection H as <- <- <-; (eapply Hsame; [done|reflexivity])).
      destruct (opaque_into_parts _) as [[[nonce ct] tag]|e|] eqn:Ep.
      2: { injection H as <- <- <-. (eapply Hsame; [done|reflexivity]). }
      2: { destruct (parts_total (m_payload m)) as [Ep'|(? & ? & ? & Ep')]; congruence. }
      destruct (ld_exec _ _ _ _ _ _ _ _) as [s1 ox] eqn:E. apply then_send_out in H as (H1 & H2 & H3). eapply Hact; [done|done|done|done|done|].
      apply exec_step in E as (ek & ei & dk & di & r & o' & E & -> & Eo). unfold inv3 in Hi. rewrite El in Hi. destruct Hi as [_ Hg]. cbn [fo_rl set_rl].
      eapply decrypt_good; [exact Hx| |exact Hg|exact E|]; [by apply parts_ok|]. intros [G1 G2]. split; [done|]. apply H1 in G2. rewrite Eo in G2. by apply is_ok_map in G2.
    - unfold ld_next_in in H. cbn zeta in H. destruct (ld_st l) eqn:El; try (injection H as <- <- <-; (eapply Hsame; [done|reflexivity])).
      + destruct (fetch_in (fo_rl s)) as (r' & y & E & [d ->] & Hf). rewrite E in H. injection H as <- <- <-. unfold inv3 in Hi. rewrite El in Hi. destruct Hi as [-> (G1 & G2 & otp & sent & recv & G3 & G4)].
        destruct (Hf _ _ _ _ _ _ G2 G4) as (F1 & F2 & F3). split; [|by destruct F1 as [? ->]]. cbn [out1]. rewrite app_nil_r. unfold inv3. cbn [goto ld_st].
        replace (done1 (incoming y)) with (@nil tls_transcript) by (destruct y as [y|]; [|done]; cbn; by destruct (pr_plain y)). split; [done|]. split; [done|].
        split; [eapply kinds_more; [exact F2|tauto|done]|]. by exists otp, sent, recv.
      + destruct (fetch_in (fo_rl s)) as (r' & y & E & [d ->] & Hf). rewrite E in H. injection H as <- <- <-. unfold inv3 in Hi. rewrite El in Hi. destruct Hi as [-> (G1 & G2 & otp & sent & recv & G3 & G4)].
        destruct (Hf _ _ _ _ _ _ G2 G4) as (F1 & F2 & F3). split; [|by destruct F1 as [? ->]]. cbn [out1]. rewrite app_nil_r. unfold inv3. cbn [goto ld_st].
        replace (done1 (incoming y)) with (@nil tls_transcript) by (destruct y as [y|]; [|done]; cbn; by destruct (pr_plain y)). split; [done|]. split; [done|].
        split; [eapply kinds_more; [exact F2|tauto|done]|]. by exists otp, sent, recv.
      + destruct (fetch_in r) as (r' & y & E & [d ->] & Hf). rewrite E in H. injection H as <- <- <-. unfold inv3 in Hi. rewrite El in Hi. destruct Hi as (-> & G0 & G1 & G2 & G4).
        destruct (Hf _ _ _ _ _ _ G2 G4) as (F1 & F2 & F3). split; [|by destruct F1 as [? ->]]. cbn [out1]. rewrite app_nil_r. unfold inv3. cbn [goto ld_st].
        replace (done1 (incoming y)) with (@nil tls_transcript) by (destruct y as [y|]; [|done]; cbn; by destruct (pr_plain y)). split_and!; try done. eapply kinds_more; [exact F2|tauto|done].
    - unfold ld_push_out in H. destruct (ld_st l) eqn:El; try (injection H as <- <- <-; (eapply Hsame; [done|reflexivity])).
      destruct (ld_exec _ _ _ _ _ _ _ _) as [s1 ox] eqn:E. apply then_send_out in H as (H1 & H2 & H3). eapply Hact; [done|done|done|done|done|].
      apply exec_step in E as (ek & ei & dk & di & r & o' & E & -> & Eo). unfold inv3 in Hi. rewrite El in Hi. destruct Hi as [_ Hg]. cbn [fo_rl set_rl].
      eapply encrypt_good; [|exact Hg|exact E|]; [cbn in Hx; lia|]. intros [G1 G2]. split; [done|]. apply H1 in G2. rewrite Eo in G2. by apply is_ok_map in G2.
    - unfold ld_next_out in H. cbn zeta in H. destruct (ld_st l) eqn:El; try (injection H as <- <- <-; (eapply Hsame; [done|reflexivity])).
      + destruct (fetch_out (fo_rl s)) as (r' & y & E & [d ->] & Hf). rewrite E in H. injection H as <- <- <-. unfold inv3 in Hi. rewrite El in Hi. destruct Hi as [-> (G1 & G2 & otp & sent & recv & G3 & G4)].
        destruct (Hf _ _ _ _ _ _ G2 G4) as (F1 & F2 & F3). split; [|by destruct F1 as [? ->]]. cbn [in1]. rewrite app_nil_r. unfold inv3. cbn [goto ld_st].
        replace (done1 (outgoing y)) with (@nil tls_transcript) by (destruct y as [y|]; [|done]; cbn; by destruct (outgoing_payload y)). split; [done|]. split; [done|].
        split; [eapply kinds_more; [exact F2|tauto|done]|]. by exists otp, sent, recv.
      + destruct (fetch_out (fo_rl s)) as (r' & y & E & [d ->] & Hf). rewrite E in H. injection H as <- <- <-. unfold inv3 in Hi. rewrite El in Hi. destruct Hi as [-> (G1 & G2 & otp & sent & recv & G3 & G4)].
        destruct (Hf _ _ _ _ _ _ G2 G4) as (F1 & F2 & F3). split; [|by destruct F1 as [? ->]]. cbn [in1]. rewrite app_nil_r. unfold inv3. cbn [goto ld_st].
        replace (done1 (outgoing y)) with (@nil tls_transcript) by (destruct y as [y|]; [|done]; cbn; by destruct (outgoing_payload y)). split; [done|]. split; [done|].
        split; [eapply kinds_more; [exact F2|tauto|done]|]. by exists otp, sent, recv.
      + destruct (fetch_out r) as (r' & y & E & [d ->] & Hf). rewrite E in H. injection H as <- <- <-. unfold inv3 in Hi. rewrite El in Hi. destruct Hi as (-> & G0 & G1 & G2 & G4).
        destruct (Hf _ _ _ _ _ _ G2 G4) as (F1 & F2 & F3). split; [|by destruct F1 as [? ->]]. cbn [in1]. rewrite app_nil_r. unfold inv3. cbn [goto ld_st].
        replace (done1 (outgoing y)) with (@nil tls_transcript) by (destruct y as [y|]; [|done]; cbn; by destruct (outgoing_payload y)). split_and!; try done. eapply kinds_more; [exact F2|tauto|done].
    - unfold ld_start in H. destruct (ld_st l) eqn:El; try (injection H as <- <- <-; (eapply Hsame; [done|reflexivity])). rewrite exec_start in H.
      apply then_send_out in H as (H1 & H2 & H3). eapply Hact; [done|done|done|done|done|]. unfold inv3 in Hi. rewrite El in Hi. destruct Hi as [_ Hg]. cbn [fo_rl set_rl].
      eapply good_more; [eapply good_frame; [exact Hg|..]; done|tauto|done].
    - unfold ld_flush in H. destruct (ld_st l) eqn:El; try (injection H as <- <- <-; (eapply Hsame; [done|reflexivity])); try (injection H as <- <- <-; (eapply Hread; [done|done| |done|reflexivity|done|done]; done)).
      destruct (negb _); [injection H as <- <- <-; (eapply Hread; [done|done| |done|reflexivity|done|done]; done)|]. destruct (negb io); [injection H as <- <- <-; (eapply Hsame; [done|reflexivity])|].
      destruct (ld_exec _ _ _ _ _ _ _ _) as [s1 ox] eqn:E. injection H as <- <- <-. eapply Hact; [done|done|done|done|by destruct ox|].
      apply exec_step in E as (ek & ei & dk & di & r & o' & E & -> & ->). unfold inv3 in Hi. rewrite El in Hi. destruct Hi as [_ Hg]. cbn [fo_rl set_rl].
      eapply (flush_good aes ghash_fn checked blind pad_rng Haes) in E; [|exact Hg]. eapply good_more; [exact E| |done]. rewrite is_ok_unit, is_ok_map. tauto.
    - unfold ld_is_empty in H. injection H as <- <- <-. (eapply Hread; [done|done| |done|reflexivity|done|done]; done).
    - unfold ld_close in H. destruct (ld_st l) eqn:El; try (injection H as <- <- <-; apply Hfail; [done|by intros [? [=]]|done|done]).
      destruct (negb io); [injection H as <- <- <-; apply Hfail; [done|by intros [? [=]]|done|done]|].
      destruct (close_transcript _ _ _ _ _ _ _ _ _ _ _ _ _) as [[r t]|e|] eqn:E; injection H as <- <- <-; try (apply Hfail; [done|by intros [? [=]]|done|done]).
      split; [|done]. cbn. rewrite !app_nil_r. unfold inv3 in Hi |- *. rewrite El in Hi. cbn [goto ld_st]. destruct Hi as (-> & Hg). split; [done|].
      apply close_rl in E as (s1 & E & ->). apply exec_step in E as (ek & ei & dk & di & r & o' & E & -> & Eo). destruct o' as [y|e|]; try discriminate Eo. injection Eo as <-. cbn [fo_rl set_rl].
      eapply (commit_good aes ghash_fn checked blind pad_rng Haes) in E; [|exact Hg]. destruct E as (E1 & E2 & E3 & E4). split_and!; try done. eapply kinds_more; [exact E3|tauto|done].
    - injection H as <- <- <-. (eapply Hread; [done|done| |done|reflexivity|done|done]; done).
    - unfold ld_finish in H. destruct (ld_st l) as [|? ? ?|? ?|? ? ?|r t|] eqn:El; try (injection H as <- <- <-; (eapply Hread; [done|done| |done|reflexivity|done|done]; done)).
      injection H as <- <- <-. split; [|done]. cbn [out1 in1 done1]. rewrite !app_nil_r. rewrite Hts in Hi |- * by done. cbn [app]. eapply inv3_over; [exact Hi|done|tauto|done|]. right. by exists r, t.
  Qed.

  Lemma put_out_cons now io x xs o os : put_out ((now, io, x) :: xs) (o :: os) = out1 x o ++ put_out xs os.
  Proof. unfold put_out. cbn. destruct x; try done. by destruct o as [[| | |[?|]| |]|?|]. Qed.
  Lemma handed_in_cons now io x xs o os : handed_in ((now, io, x) :: xs) (o :: os) = in1 x o ++ handed_in xs os.
  Proof. unfold handed_in. cbn. destruct x; try done. by destruct o as [[| | |[?|]| |]|?|]. Qed.
  Lemma inv3_mono ok (ok' : Prop) pre mo mi ts l : inv3 ok pre mo mi ts l -> (ok' -> ok) -> inv3 ok' pre mo mi ts l.
  Proof.
    intros Hi Ho. unfold inv3 in *. assert (forall r, kinds ok pre mo mi r -> kinds ok' pre mo mi r) as Hk by (intros r [H1 H2]; split; (eapply among_mono; [eassumption|done])).
    assert (forall r, good ok pre mo mi r -> good ok' pre mo mi r) as Hg by (intros r (H1 & H2 & H3); split; [done|]; split; [by apply Hk|done]).
    destruct (ld_st l).
    - destruct Hi as (H1 & H2 & H3 & H4 & H5). split_and!; try done; (eapply among_mono; [eassumption|done]).
    - destruct Hi as [H1 H2]. split; [done|]. by apply Hg.
    - destruct Hi as [H1 H2]. split; [done|]. by apply Hg.
    - destruct Hi as [H1 H2]. split; [done|]. by apply Hg.
    - destruct Hi as (H1 & H2 & H3 & H4 & H5). split_and!; try done. by apply Hk.
    - destruct Hi as (H1 & (ra & H2) & (rb & H3)). split; [done|]. split; [exists ra|exists rb]; (eapply among_mono; [eassumption|done]).
  Qed.
  Lemma run3 xs ok pre mo mi ts l l' ms os : Forall small (map snd xs) -> inv3 ok pre mo mi ts l -> lrun xs l = (l', ms, os) ->
    inv3 (ok /\ all_succeed os) (pre ++ take (length os) xs) (mo ++ put_out xs os) (mi ++ handed_in xs os) (ts ++ concat (map done1 os)) l' /\
    (forall i now io x, xs !! i = Some (now, io, x) -> os !! i = Some Panic -> x <> LNextIn /\ x <> LNextOut) /\
    (all_succeed os -> length os = length xs).
  Proof.
    revert ok pre mo mi ts l ms os. induction xs as [|[[now io] x] xs IH]; intros ok pre mo mi ts l ms os Hs Hi H.
    { injection H as <- <- <-. cbn. rewrite !app_nil_r. split; [|done]. by eapply inv3_mono; [|intros [? _]]. }
    cbn [map snd] in Hs. apply Forall_cons in Hs as [Hx Hs]. cbn [ld_run] in H. destruct (lstep now io x l) as [[l1 ms1] o] eqn:E.
    destruct (step3 _ _ _ _ _ _ _ _ _ _ _ _ Hx Hi E) as [Hi1 Hp]. destruct o as [a|e|].
    - destruct (lrun xs l1) as [[l2 ms2] os'] eqn:E2. injection H as <- <- <-. destruct (IH _ _ _ _ _ _ _ _ Hs Hi1 E2) as (J1 & J2 & J3).
      rewrite put_out_cons, handed_in_cons. cbn [length take map concat]. rewrite <- !app_assoc in J1. cbn [app] in J1. split; [|split].
      + eapply inv3_mono; [exact J1|]. intros [G1 G2]. apply Forall_cons in G2 as [G2 G3]. by split.
      + intros [|i] nw i' y; [by intros _ [=]|]. cbn. apply J2.
      + intros G2. apply Forall_cons in G2 as [G2 G3]. by rewrite (J3 G3).
    - destruct (lrun xs l1) as [[l2 ms2] os'] eqn:E2. injection H as <- <- <-. destruct (IH _ _ _ _ _ _ _ _ Hs Hi1 E2) as (J1 & J2 & J3).
      rewrite put_out_cons, handed_in_cons. cbn [length take map concat]. rewrite <- !app_assoc in J1. cbn [app] in J1. split; [|split].
      + eapply inv3_mono; [exact J1|]. intros [G1 G2]. apply Forall_cons in G2 as [[? [=]] G3].
      + intros [|i] nw i' y; [by intros _ [=]|]. cbn. apply J2.
      + intros G2. apply Forall_cons in G2 as [[? [=]] G3].
    - injection H as <- <- <-. rewrite put_out_cons, handed_in_cons. cbn [length take map concat]. unfold put_out, handed_in. rewrite !zip_with_nil_r. cbn [omap list_omap]. rewrite !app_nil_r.
      split; [|split].
      + cbn [done1] in Hi1 |- *. rewrite app_nil_r in Hi1. rewrite ?app_nil_r, take_0. eapply inv3_mono; [exact Hi1|]. intros [G1 G2]. apply Forall_cons in G2 as [[? [=]] G3].
      + intros [|i] nw i' y; [|done]. intros [= -> -> ->] _. split; intros ->; destruct Hp; auto.
      + intros G2. apply Forall_cons in G2 as [[? [=]] G3].
  Qed.

  Lemma small_all xs : sizes_ok xs -> Forall small (map snd xs).
  Proof.
    unfold sizes_ok. rewrite Forall_app. intros [H1 H2]. induction xs as [|[[now io] x] xs IH]; [constructor|]. cbn [map snd].
    destruct x; csimpl in *; try (constructor; [exact I|by apply IH]).
    - apply Forall_cons in H2 as [H2 H3]. constructor; [done|by apply IH].
    - apply Forall_cons in H1 as [H1 H3]. constructor; [done|by apply IH].
  Qed.
  Lemma start3 defer : inv3 True [] [] [] [] (ld_new defer).
  Proof. unfold inv3. cbn. split_and!; done. Qed.
  Lemma from_new xs defer l' ms os : sizes_ok xs -> lrun xs (ld_new defer) = (l', ms, os) ->
    inv3 (all_succeed os) (take (length os) xs) (put_out xs os) (handed_in xs os) (concat (map done1 os)) l' /\
    (forall i now io x, xs !! i = Some (now, io, x) -> os !! i = Some Panic -> x <> LNextIn /\ x <> LNextOut) /\
    (all_succeed os -> length os = length xs).
  Proof.
    intros Hs H. apply small_all in Hs. destruct (run3 _ _ _ _ _ _ _ _ _ _ Hs (start3 defer) H) as (H1 & H2 & H3). split; [|done]. eapply inv3_mono; [exact H1|]. by split.
  Qed.
  Lemma done_in t os : Ok (LDone (Some t)) ∈ os -> t ∈ concat (map done1 os).
  Proof.
    induction os as [|o os IH]; intros H; [by apply elem_of_nil in H|]. cbn. apply elem_of_app. apply elem_of_cons in H as [<-|H]; [left|right; by apply IH]. by apply elem_of_list_singleton.
  Qed.
  Lemma C68_logs_lemma xs defer l' ms os t : sizes_ok xs -> lrun xs (ld_new defer) = (l', ms, os) -> Ok (LDone (Some t)) ∈ os ->
    first_of on_wire (put_out xs os) (tt_sent t) /\ first_of in_clear (handed_in xs os) (tt_recv t).
  Proof.
    intros Hs H Ht%done_in. destruct (from_new _ _ _ _ _ Hs H) as (Hi & _ & _). unfold inv3 in Hi. destruct (ld_st l').
    6: { destruct Hi as (Hi & _). rewrite Forall_forall in Hi. by apply Hi. }
    all: destruct Hi as [E _]; rewrite E in Ht; by apply elem_of_nil in Ht.
  Qed.
  Lemma pushed_take n xs : exists k, pushed xs = pushed (take n xs) ++ k.
  Proof. exists (pushed (drop n xs)). by rewrite <- pushed_app, take_drop. Qed.
  Lemma arrived_take n xs : exists k, arrived xs = arrived (take n xs) ++ k.
  Proof. exists (arrived (drop n xs)). by rewrite <- arrived_app, take_drop. Qed.
  Lemma kinds_end ok pre mo mi ts l : inv3 ok pre mo mi ts l -> (exists r, among ok (map kind mo ++ r) (map kind (pushed pre))) /\ (exists r, among ok (map kind mi ++ r) (map kind (arrived pre))).
  Proof.
    unfold inv3. intros Hi. destruct (ld_st l).
    - destruct Hi as (_ & -> & -> & H1 & H2). split; by exists [].
    - destruct Hi as (_ & _ & (H1 & H2) & _). split; by eexists.
    - destruct Hi as (_ & _ & (H1 & H2) & _). split; by eexists.
    - destruct Hi as (_ & _ & (H1 & H2) & _). split; by eexists.
    - destruct Hi as (_ & _ & _ & (H1 & H2) & _). split; by eexists.
    - tauto.
  Qed.
  Lemma C68_order_lemma xs defer l' ms os : sizes_ok xs -> lrun xs (ld_new defer) = (l', ms, os) ->
    map kind (put_out xs os) `sublist_of` map kind (pushed xs) /\ map kind (handed_in xs os) `sublist_of` map kind (arrived xs) /\
    (all_succeed os -> map kind (put_out xs os) `prefix_of` map kind (pushed xs) /\ map kind (handed_in xs os) `prefix_of` map kind (arrived xs)).
  Proof.
    intros Hs H. destruct (from_new _ _ _ _ _ Hs H) as (Hi & _ & Hl). apply kinds_end in Hi as [(ra & A1 & A2) (rb & B1 & B2)].
    destruct (pushed_take (length os) xs) as [ka Ka]. destruct (arrived_take (length os) xs) as [kb Kb]. split_and!.
    - rewrite Ka, map_app. apply sublist_inserts_r. etrans; [|exact A1]. by apply sublist_inserts_r.
    - rewrite Kb, map_app. apply sublist_inserts_r. etrans; [|exact B1]. by apply sublist_inserts_r.
    - intros Ho. rewrite Ka, Kb, !map_app, <- (A2 Ho), <- (B2 Ho), <- !app_assoc. split; by eexists.
  Qed.
  Lemma C68_panic_lemma xs defer l' ms os i now io x : sizes_ok xs -> lrun xs (ld_new defer) = (l', ms, os) -> xs !! i = Some (now, io, x) -> os !! i = Some Panic ->
    x <> LNextIn /\ x <> LNextOut.
  Proof. intros Hs H. destruct (from_new _ _ _ _ _ Hs H) as (_ & Hp & _). apply Hp. Qed.
  Lemma lrun_app xs ys l l' ms os : lrun (xs ++ ys) l = (l', ms, os) ->
    (exists l1 ms1 os1 ms2 os2, lrun xs l = (l1, ms1, os1) /\ length os1 = length xs /\ lrun ys l1 = (l', ms2, os2) /\ os = os1 ++ os2) \/ last os = Some Panic.
  Proof.
    revert l ms os. induction xs as [|[[now io] x] xs IH]; intros l ms os H.
    { left. exists l, [], [], ms, os. done. }
    cbn [app ld_run] in H. cbn [ld_run]. destruct (lstep now io x l) as [[l1 ms1] o]. destruct o as [a|e|].
    - destruct (lrun (xs ++ ys) l1) as [[l2 ms2] os'] eqn:E2. injection H as <- <- <-. destruct (IH _ _ _ E2) as [(l3 & m3 & o3 & m4 & o4 & -> & H2 & H3 & ->)|Hl].
      + left. eexists l3, _, _, m4, o4. split; [reflexivity|]. cbn. rewrite H2. done.
      + right. rewrite last_cons, Hl. done.
    - destruct (lrun (xs ++ ys) l1) as [[l2 ms2] os'] eqn:E2. injection H as <- <- <-. destruct (IH _ _ _ E2) as [(l3 & m3 & o3 & m4 & o4 & -> & H2 & H3 & ->)|Hl].
      + left. eexists l3, _, _, m4, o4. split; [reflexivity|]. cbn. rewrite H2. done.
      + right. rewrite last_cons, Hl. done.
    - injection H as <- <- <-. by right.
  Qed.
  Lemma put_out_app xs ys os os' : length os = length xs -> put_out (xs ++ ys) (os ++ os') = put_out xs os ++ put_out ys os'.
  Proof.
    revert os. induction xs as [|[[now io] x] xs IH]; intros [|o os] Hl; try done. cbn [app]. rewrite !put_out_cons, IH by (cbn in Hl; lia). by rewrite app_assoc.
  Qed.
  Lemma handed_in_app xs ys os os' : length os = length xs -> handed_in (xs ++ ys) (os ++ os') = handed_in xs os ++ handed_in ys os'.
  Proof.
    revert os. induction xs as [|[[now io] x] xs IH]; intros [|o os] Hl; try done. cbn [app]. rewrite !handed_in_cons, IH by (cbn in Hl; lia). by rewrite app_assoc.
  Qed.
  Lemma C68_all_lemma xs n1 i1 n2 i2 defer l' ms os t : sizes_ok xs ->
    lrun (xs ++ [(n1, i1, LIsEmpty); (n2, i2, LFinish)]) (ld_new defer) = (l', ms, os ++ [Ok (LBool true); Ok (LDone (Some t))]) ->
    Forall2 on_wire (put_out xs os) (tt_sent t) /\ Forall2 in_clear (handed_in xs os) (tt_recv t) /\
    (all_succeed os -> map kind (put_out xs os) = map kind (pushed xs) /\ map kind (handed_in xs os) = map kind (arrived xs)).
  Proof.
    intros Hs H. apply lrun_app in H as [(l1 & ms1 & os1 & ms2 & os2 & H1 & Hl & H2 & E)|H].
    2: { by rewrite last_app in H. }
    cbn [ld_run ld_step] in H2. unfold ld_is_empty in H2. destruct (ld_finish l1) as [[l2 ms3] o] eqn:Ef.
    assert (o <> Panic) as Ho by (unfold ld_finish in Ef; destruct (ld_st l1); by injection Ef as <- <- <-).
    assert (os2 = [Ok (LBool (match ld_st l1 with LActive _ s _ => rl_is_empty (fo_rl s) | LClosed r _ => rl_is_empty r | _ => true end)); o]) as ->.
    { destruct o; [..|done]; by injection H2 as <- <- <-. }
    apply (app_inj_2) in E as [-> E]; [|done]. injection E as E1 E2. subst o. unfold ld_finish in Ef. destruct (ld_st l1) as [|? ? ?|? ?|? ? ?|r t'|] eqn:El; try by injection Ef.
    assert (t' = t) as -> by (by injection Ef). destruct (from_new _ _ _ _ _ Hs H1) as (Hi & _ & _). unfold inv3 in Hi. rewrite El in Hi. destruct Hi as (_ & D1 & D2 & (K1 & K2) & (s1 & s2 & Es & W1 & W2) & (q1 & q2 & Eq & W3 & W4)).
    unfold rl_is_empty in E1. rewrite D1, D2 in *. destruct (rl_encrypted r); [|done]. destruct (rl_decrypted r); [|done].
    apply Forall2_nil_inv_l in W2 as ->. apply Forall2_nil_inv_l in W4 as ->. rewrite app_nil_r in Es, Eq. rewrite Es, Eq. split; [done|]. split; [done|].
    intros Ho'. destruct K1 as [_ K1]. destruct K2 as [_ K2]. specialize (K1 Ho'). specialize (K2 Ho'). cbn in K1, K2. rewrite !app_nil_r, Hl, firstn_all in *. done.
  Qed.

  (** ** What the follower is told of *)
  Lemma step_told now io x l l1 ms o : lstep now io x l = (l1, ms, o) ->
    told_out ms = (match x, o with LPushOut m, Ok _ => [(m_typ m, m_version m, N.of_nat (length (m_payload m)))] | _, _ => [] end) /\
    told_in ms = (match x, o with LPushIn m, Ok _ => [m] | _, _ => [] end).
  Proof.
    intros H. destruct x as [rd| | | |hs|h|h|m| |m| | | | | |b|]; cbn [ld_step] in H.
    - unfold ld_alloc in H. repeat case_match; by injection H as <- <- <-.
    - unfold ld_preprocess in H. repeat case_match; by injection H as <- <- <-.
    - unfold ld_random in H. repeat case_match; by injection H as <- <- <-.
    - unfold ld_key_share in H. repeat case_match; by injection H as <- <- <-.
    - unfold ld_prepare in H. repeat case_match; by injection H as <- <- <-.
    - unfold ld_cf in H. repeat case_match; by injection H as <- <- <-.
    - unfold ld_sf in H. repeat case_match; by injection H as <- <- <-.
    - unfold ld_push_in in H. destruct (ld_st l); try by injection H as <- <- <-. destruct (opaque_into_parts _) as [[[nonce ct] tag]|e|] eqn:Ep; try by injection H as <- <- <-.
      apply parts_ok in Ep as (Ep & _). unfold then_send in H. destruct (ld_exec _ _ _ _ _ _ _ _) as [s1 [y|e|]]; [destruct io|..]; injection H as <- <- <-; try done. split; [done|]. cbn. rewrite <- Ep. by destruct m.
    - unfold ld_next_in in H. cbn zeta in H. repeat case_match; by injection H as <- <- <-.
    - unfold ld_push_out in H. destruct (ld_st l); try by injection H as <- <- <-. unfold then_send in H. destruct (ld_exec _ _ _ _ _ _ _ _) as [s1 [y|e|]]; [destruct io|..]; by injection H as <- <- <-.
    - unfold ld_next_out in H. cbn zeta in H. repeat case_match; by injection H as <- <- <-.
    - unfold ld_start in H. destruct (ld_st l); try by injection H as <- <- <-. unfold then_send in H. destruct (ld_exec _ _ _ _ _ _ _ _) as [s1 [y|e|]]; [destruct io|..]; by injection H as <- <- <-.
    - unfold ld_flush in H. repeat case_match; by injection H as <- <- <-.
    - unfold ld_is_empty in H. by injection H as <- <- <-.
    - unfold ld_close in H. repeat case_match; by injection H as <- <- <-.
    - by injection H as <- <- <-.
    - unfold ld_finish in H. repeat case_match; by injection H as <- <- <-.
  Qed.
  Lemma C66_told_lemma xs l l' ms os : lrun xs l = (l', ms, os) ->
    told_out ms = map (fun m => (m_typ m, m_version m, N.of_nat (length (m_payload m)))) (taken_out xs os) /\ told_in ms = taken_in xs os.
  Proof.
    assert (forall a b, told_out (a ++ b) = told_out a ++ told_out b) as A1 by (intros; unfold told_out; by rewrite omap_app).
    assert (forall a b, told_in (a ++ b) = told_in a ++ told_in b) as A2 by (intros; unfold told_in; by rewrite omap_app).
    revert l ms os. induction xs as [|[[now io] x] xs IH]; intros l ms os H.
    { by injection H as <- <- <-. }
    cbn [ld_run] in H. destruct (lstep now io x l) as [[l1 ms1] o] eqn:E. apply step_told in E as [E1 E2]. destruct o as [a|e|].
    - destruct (lrun xs l1) as [[l2 ms2] os'] eqn:E3. injection H as <- <- <-. destruct (IH _ _ _ E3) as [J1 J2]. rewrite A1, A2, E1, E2, J1, J2. unfold taken_out, taken_in. by destruct x.
    - destruct (lrun xs l1) as [[l2 ms2] os'] eqn:E3. injection H as <- <- <-. destruct (IH _ _ _ E3) as [J1 J2]. rewrite A1, A2, E1, E2, J1, J2. unfold taken_out, taken_in. by destruct x.
    - injection H as <- <- <-. rewrite E1, E2. unfold taken_out, taken_in. cbn. rewrite zip_with_nil_r. by destruct x.
  Qed.
  (** ** One transcript *)
  Lemma step_done now io x l l1 ms o : lstep now io x l = (l1, ms, o) -> (ld_st l = LError -> ld_st l1 = LError /\ done1 o = []) /\ (done1 o <> [] -> ld_st l1 = LError).
  Proof.
    intros H. split.
    - intros El. destruct x; cbn [ld_step] in H; unfold ld_alloc, ld_preprocess, ld_random, ld_key_share, ld_prepare, ld_cf, ld_sf, ld_push_in, ld_next_in, ld_push_out, ld_next_out, ld_start, ld_flush, ld_is_empty, ld_close, ld_finish in H;
        cbn zeta in H; rewrite El in H; by injection H as <- _ <-.
    - intros Hd. destruct x as [rd| | | |hs|h|h|m| |m| | | | | |b|]; cbn [ld_step] in H.
      + unfold ld_alloc in H. repeat case_match; by injection H as <- <- <-.
      + unfold ld_preprocess in H. repeat case_match; by injection H as <- <- <-.
      + unfold ld_random in H. repeat case_match; by injection H as <- <- <-.
      + unfold ld_key_share in H. repeat case_match; by injection H as <- <- <-.
      + unfold ld_prepare in H. repeat case_match; by injection H as <- <- <-.
      + unfold ld_cf in H. repeat case_match; by injection H as <- <- <-.
      + unfold ld_sf in H. repeat case_match; by injection H as <- <- <-.
      + unfold ld_push_in, then_send in H. destruct (ld_st l); try by injection H as <- <- <-. destruct (opaque_into_parts _) as [[[nonce ct] tag]|e|]; try by injection H as <- <- <-. destruct (ld_exec _ _ _ _ _ _ _ _) as [s1 [y|e|]]; [destruct io|..]; by injection H as <- <- <-.
      + apply next_in_reads in H as (_ & _ & H). destruct o as [[| | | | |[t|]]|e|]; try done. by destruct (H (Some t)).
      + unfold ld_push_out, then_send in H. destruct (ld_st l); try by injection H as <- <- <-. destruct (ld_exec _ _ _ _ _ _ _ _) as [s1 [y|e|]]; [destruct io|..]; by injection H as <- <- <-.
      + apply next_out_reads in H as (_ & _ & H). destruct o as [[| | | | |[t|]]|e|]; try done. by destruct (H (Some t)).
      + unfold ld_start, then_send in H. destruct (ld_st l); try by injection H as <- <- <-. destruct (ld_exec _ _ _ _ _ _ _ _) as [s1 [y|e|]]; [destruct io|..]; by injection H as <- <- <-.
      + unfold ld_flush, unit_of in H. repeat case_match; injection H as <- <- <-; try done. by destruct o0.
      + unfold ld_is_empty in H. by injection H as <- <- <-.
      + unfold ld_close in H. repeat case_match; by injection H as <- <- <-.
      + by injection H as <- <- <-.
      + unfold ld_finish in H. repeat case_match; by injection H as <- <- <-.
  Qed.
  Lemma run_done xs l l' ms os : lrun xs l = (l', ms, os) -> length (concat (map done1 os)) <= 1 /\ (ld_st l = LError -> concat (map done1 os) = []).
  Proof.
    revert l ms os. induction xs as [|[[now io] x] xs IH]; intros l ms os H.
    { injection H as <- <- <-. cbn. split; [lia|done]. }
    cbn [ld_run] in H. destruct (lstep now io x l) as [[l1 ms1] o] eqn:E. apply step_done in E as [E1 E2]. destruct o as [a|e|].
    - destruct (lrun xs l1) as [[l2 ms2] os'] eqn:E3. injection H as <- <- <-. destruct (IH _ _ _ E3) as [J1 J2]. cbn [map concat].
      destruct (decide (done1 (Ok a) = [])) as [D|D].
      + rewrite D. split; [done|]. intros El. by apply J2, E1.
      + rewrite (J2 (E2 D)), app_nil_r. split; [by destruct a as [| | | | |[t|]]; cbn; lia|]. intros El. by apply E1.
    - destruct (lrun xs l1) as [[l2 ms2] os'] eqn:E3. injection H as <- <- <-. destruct (IH _ _ _ E3) as [J1 J2]. cbn [map concat done1 app]. split; [done|]. intros El. by apply J2, E1.
    - injection H as <- <- <-. cbn. split; [lia|done].
  Qed.
  Lemma C67_once_lemma xs l l' ms os i j t t' : lrun xs l = (l', ms, os) -> os !! i = Some (Ok (LDone (Some t))) -> os !! j = Some (Ok (LDone (Some t'))) -> i = j.
  Proof.
    intros H Hi Hj. apply run_done in H as [H _].
    assert (forall i j t t', os !! i = Some (Ok (LDone (Some t))) -> os !! j = Some (Ok (LDone (Some t'))) -> i < j -> False) as Hlt.
    { clear - H. intros i j t t' Hi Hj Hl. rewrite <- (take_drop j os), map_app, concat_app, app_length in H.
      assert (Ok (LDone (Some t)) ∈ take j os) as H1 by (apply elem_of_list_lookup; exists i; by rewrite lookup_take).
      assert (Ok (LDone (Some t')) ∈ drop j os) as H2 by (apply elem_of_list_lookup; exists 0; by rewrite lookup_drop, Nat.add_0_r).
      apply done_in in H1, H2. destruct (concat (map done1 (take j os))); [by apply elem_of_nil in H1|]. destruct (concat (map done1 (drop j os))); [by apply elem_of_nil in H2|]. cbn in H. lia. }
    destruct (lt_eq_lt_dec i j) as [[?|?]|?]; [|done|]; exfalso; eauto.
  Qed.
End Run.
