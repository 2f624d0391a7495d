(** What the leader tells the follower. *)
From Verif.Lib Require Import Base.
From Verif Require Import TranscriptModel ProofModel CodecModel AttestModel TlsModel AuthModel CodecLemmas TagModel TagLemmas RecordModel RecordSpec PartsModel PrfModel
  HandshakeModel SigAlgModel FollowerModel FollowerSpec LeaderModel LeaderSpec LeaderRel LeaderRun LeaderPair.

Definition opr (a b : enc_op) : Prop :=
  exists q, b = EncOp (eo_seq a) (eo_typ a) (eo_version a) (eo_len a) q (eo_nonce a) (eo_aad a) (eo_private a) /\
    match eo_plain a, q with Some x, Some y => length x = length y | None, None => True | _, _ => False end.
Definition ctr (x y : list N) : Prop := length x = length y.
Definition logr (x y : tls_record) : Prop := True.
Definition out1 (x y : enc_record) : Prop := er_typ x = er_typ y /\ (is_Some (er_tag x) <-> is_Some (er_tag y)).

Section Blind.
  Context (iv : list N) (compress : list N -> list N -> list N).
  Context (aes : list N -> list N -> list N) (ghash_fn : list N -> list N -> list N) (checked : bool) (blind : N -> nat -> N) (pad_rng : nat -> N).
  Context (sha256 : list N -> list N) (parse_body : protocol_version -> N -> list N -> option hs_payload) (ec_curve : list N -> option N).
  Context (parse_key : list N -> bool) (exchange : list N -> option (list N)) (fin : list N -> bool) (rounds : nat).
  Context (cert_key : bytes -> option key_kind) (sig_valid : bytes -> webpki_alg -> bytes -> bytes -> bool).
  Context (client_key : option (list N)) (c : fo_config).
  Notation lstep := (ld_step iv compress aes ghash_fn checked blind pad_rng sha256 parse_body ec_curve parse_key exchange fin rounds cert_key sig_valid client_key c).
  Notation lrun := (ld_run iv compress aes ghash_fn checked blind pad_rng sha256 parse_body ec_curve parse_key exchange fin rounds cert_key sig_valid client_key c).
  Notation lk := (like opr logr (Forall2 out1) eq).
  Notation clk := (call_like opr).

  Lemma one_blind ek ei r a b g : opr a b -> prel eq ctr (encrypt_one aes checked ek ei blind r a g) (encrypt_one aes checked ek ei blind r b g).
  Proof.
    intros (q & -> & Hq). unfold encrypt_one. cbn [eo_private eo_nonce eo_len eo_plain eo_seq].
    destruct (eo_private a).
    - eapply prel_bind; [apply prel_eq|]. intros u w s t _ <-. destruct r, (eo_plain a) as [x|], q as [y|]; try done.
      all: split; [done|]; cbn; unfold ctr; rewrite ?zip_with_length; lia.
    - destruct (eo_plain a) as [x|], q as [y|]; try done. eapply prel_bind; [apply prel_eq|]. intros u w s t _ <-. split; [done|]. cbn. unfold ctr. rewrite !zip_with_length. lia.
  Qed.
  Lemma fits_blind aad x y : length x = length y -> ghash_fits aad x = ghash_fits aad y.
  Proof.
    intros H. unfold ghash_fits, build_ghash_data. cbn zeta. rewrite !app_length, !pad_blocks_length, !be_length. by rewrite H.
  Qed.
  Lemma out_blind ek ei r q q' a b x y : Forall2 out1 q q' -> Forall2 opr a b -> Forall2 ctr x y ->
    Forall2 out1 (q ++ zip_with (out_enc aes ghash_fn ek ei r) a x) (q' ++ zip_with (out_enc aes ghash_fn ek ei r) b y).
  Proof.
    intros Hq Hab Hxy. apply Forall2_app; [done|]. revert x y Hxy. induction Hab as [|o o' a b (p & -> & _) _ IH]; intros x y Hxy; [constructor|].
    destruct Hxy as [|u v x y _ Hxy]; constructor; [|by apply IH]. split; [done|]. unfold out_enc, tag_known. cbn. destruct r; split; intros [? ?]; (by eexists) || done.
  Qed.
  Lemma step_blind ek ei dk di c1 c2 a b : lk a b -> clk c1 c2 ->
    prel lk (res_like logr) (rl_step aes ghash_fn checked ek ei dk di blind pad_rng c1 a) (rl_step aes ghash_fn checked ek ei dk di blind pad_rng c2 b).
  Proof.
    apply (step_like aes ghash_fn checked ek ei dk di blind pad_rng opr ctr logr (Forall2 out1) eq).
    - intros. by apply one_blind.
    - by intros ? ? (q & -> & _).
    - intros ? ? x y (q & -> & _) H. by apply fits_blind.
    - done.
    - intros. by apply out_blind.
    - by intros ? ? ? ->.
    - done.
  Qed.
  Notation fr := (frel lk).
  Definition lrel (l l' : ld) : Prop :=
    ld_decrypting l' = ld_decrypting l /\
    match ld_st l, ld_st l' with
    | LInit, LInit => True
    | LSetup out s r, LSetup out' s' r' => out' = out /\ r' = r /\ fr s s'
    | LReady out s, LReady out' s' => out' = out /\ fr s s'
    | LActive out s hs, LActive out' s' hs' => out' = out /\ hs' = hs /\ fr s s'
    | (LClosed _ _ | LError), (LClosed _ _ | LError) => True
    | _, _ => False
    end.
  Definition over (l : ld) : Prop := match ld_st l with LClosed _ _ | LError => True | _ => False end.
  Lemma op_refl a : opr a a.
  Proof. exists (eo_plain a). split; [by destruct a|]. by destruct (eo_plain a). Qed.
  Lemma clk_refl x : x <> CNextEnc -> x <> CNextDec -> clk x x.
  Proof. destruct x; try done. intros _ _. cbn. split_and!; try done. intros a b d. destruct (enc_op_new _ _ _ _ _ _ _ _); cbn; try done. apply op_refl. Qed.
  Lemma exec_blind out c1 c2 s s' : fr s s' -> clk c1 c2 ->
    prel fr (res_like logr) (ld_exec aes ghash_fn checked blind pad_rng out c1 s) (ld_exec aes ghash_fn checked blind pad_rng out c2 s').
  Proof. intros. apply (exec_rel aes ghash_fn checked blind pad_rng lk clk (res_like logr)); [|done|done]. intros. by apply step_blind. Qed.
  Lemma wants_blind s s' : fr s s' -> rl_wants_flush (fo_rl s') = rl_wants_flush (fo_rl s).
  Proof. intros [_ H]. unfold rl_wants_flush. rewrite (lk_decrypt _ _ _ _ _ _ H). by destruct (lk_encrypt _ _ _ _ _ _ H). Qed.
  Definition both (x y : ld * list fmsg * outcome ld_error lres) : Prop :=
    let '(l, ms, o) := x in let '(l', ms', o') := y in ms' = ms /\ lrel l l' /\ ((o = Panic <-> o' = Panic) \/ (over l /\ over l')).
  Lemma then_send_blind io out hs x x' m l l' : lrel l l' -> prel fr (res_like logr) x x' -> both (then_send io out hs x m l) (then_send io out hs x' m l').
  Proof.
    intros [Hd _] [Hs Ho]. unfold then_send. destruct x as [s o], x' as [s' o']. cbn in Hs, Ho.
    destruct o, o'; try done; [destruct io|..]; (split; [done|]); (split; [by split|]); left; done.
  Qed.
  Lemma next_dec_blind a b : lk a b -> prel lk eq (next_decrypted a) (next_decrypted b).
  Proof.
    intros H. unfold next_decrypted. rewrite <- (lk_decrypted _ _ _ _ _ _ H), <- (lk_started _ _ _ _ _ _ H).
    destruct (rl_decrypted a) as [|x xs] eqn:E; [by split|]. destruct (_ && _); [by split|]. split; [|done]. destruct H. by constructor.
  Qed.
  Lemma next_enc_blind a b : lk a b -> prel lk (option_Forall2 out1) (next_encrypted a) (next_encrypted b).
  Proof.
    intros H. unfold next_encrypted. rewrite <- (lk_started _ _ _ _ _ _ H). pose proof (lk_encrypted _ _ _ _ _ _ H) as Hq.
    destruct (rl_encrypted a) as [|x xs], (rl_encrypted b) as [|y ys]; try (by inversion Hq); [split; [done|constructor]|].
    apply Forall2_cons in Hq as [Hxy Hq]. rewrite <- (proj1 Hxy).
    destruct (_ && _); [split; [done|constructor]|]. split; [|by constructor]. destruct H. by constructor.
  Qed.
  Lemma outgoing_blind x y : option_Forall2 out1 x y -> outgoing x = Panic <-> outgoing y = Panic.
  Proof.
    destruct 1 as [a b [_ Ht]|]; [|done]. unfold outgoing, outgoing_payload. destruct (er_tag a) as [t|], (er_tag b) as [t'|]; cbn; try done.
    - destruct (proj1 Ht) as [? ?]; [by eexists|done].
    - destruct (proj2 Ht) as [? ?]; [by eexists|done].
  Qed.
  Lemma step_both now io x x' l l' : lrel l l' -> hides x x' -> both (lstep now io x l) (lstep now io x' l').
  Proof.
    intros Hl Hx. pose proof Hl as [Hd Hst].
    destruct (ld_st l) as [|out s rd|out s|out s hs|r t|] eqn:E, (ld_st l') as [|out' s' rd'|out' s'|out' s' hs'|r' t'|] eqn:E'; try done.
    all: destruct x as [rnd| | | |hsd|hash|hash|m| |m| | | | | |b|]; destruct x' as [rnd'| | | |hsd'|hash'|hash'|m'| |m'| | | | | |b'|]; cbn in Hx; try done;
      try injection Hx as ->;
      cbn [ld_step];
      unfold ld_alloc, ld_preprocess, ld_random, ld_key_share, ld_prepare, ld_cf, ld_sf, ld_push_in, ld_push_out, ld_start, ld_flush, ld_is_empty, ld_close, ld_finish, ld_next_in, ld_next_out;
      rewrite ?E, ?E'; try (split; [done|]; split; [unfold lrel; cbn; rewrite ?E, ?E'; by split|by left]).
    - (* alloc *)
      destruct (map_err FPrf _) as [[[m p] out]|e|]; try (split; [done|]; split; [by split|by left]).
      destruct (ld_exec _ _ _ _ _ out _ _) as [s [y|e|]] eqn:Ee; (split; [done|]); (split; [|by left]); split; cbn; try done. split_and!; try done.
      assert (forall k, ld_exec aes ghash_fn checked blind pad_rng out (CAlloc (fc_sent_records c) (fc_recv_records c) (fc_sent c) (fc_recv_online c) (fc_recv c))
        (Fo m p (rl_new Leader) None None None None) = k -> prel fr (res_like logr) k k) as Hk.
      { intros k <-. apply exec_blind; [|by apply clk_refl]. split; [done|]. cbn. constructor; try done. constructor. constructor. }
      destruct (Hk _ Ee) as [Hfr _]. exact Hfr.
    - (* preprocess *)
      destruct Hst as (-> & -> & Hs). destruct io; (split; [done|]); (split; [|by left]); split; cbn; try done. split; [done|].
      apply frel_inv in Hs as (r & -> & Hr). by split.
    - (* random *) destruct Hst as (-> & Hs). split; [done|]. split; [exact Hl|]. left. apply frel_inv in Hs as (r & -> & Hr). done.
    - (* prepare *)
      destruct Hst as (-> & Hs). destruct (negb (hs_group hsd =? secp256r1)%N); [split; [done|]; split; [by split|by left]|].
      destruct (negb io); [split; [done|]; split; [by split|by left]|].
      pose proof (prepare_rel compress aes ghash_fn checked blind pad_rng parse_key exchange fin rounds lk clk (res_like logr)
        (fun ek ei dk di c1 c2 a b => step_blind ek ei dk di c1 c2 a b) eq_refl out (ServerParams now (hs_random hsd) (hs_group hsd) (hs_key hsd)) s s' Hs) as Hp.
      destruct (prepare_keys _ _ _ _ _ _ _ _ _ _ out _ s) as [s1|e|], (prepare_keys _ _ _ _ _ _ _ _ _ _ out _ s') as [s1'|e'|]; try done;
        (split; [done|]); (split; [by split|by left]).
    - (* next in *)
      destruct Hst as (-> & Hs). pose proof (next_dec_blind _ _ (proj2 Hs)) as [H1 H2]. apply frel_inv in Hs as (rr & -> & Hr). cbn [fo_rl set_rl] in *.
      destruct (next_decrypted (fo_rl s)) as [r1 [o1|e|]], (next_decrypted rr) as [r2 [o2|e2|]]; try done; cbn in H1, H2; subst;
        (split; [done|]); (split; [by split|by left]).
    - (* next out *)
      destruct Hst as (-> & Hs). pose proof (next_enc_blind _ _ (proj2 Hs)) as [H1 H2]. apply frel_inv in Hs as (rr & -> & Hr). cbn [fo_rl set_rl] in *.
      destruct (next_encrypted (fo_rl s)) as [r1 [o1|e|]], (next_encrypted rr) as [r2 [o2|e2|]]; try done; cbn in H1, H2; subst;
        (split; [done|]); (split; [by split|left]); try done.
      by apply outgoing_blind.
    - (* cf *)
      destruct Hst as (-> & -> & Hs). destruct (negb (length hash =? 32)); [split; [done|]; split; [exact Hl|by left]|].
      destruct (negb io); [split; [done|]; split; [exact Hl|by left]|]. assert (fo_cf s' = fo_cf s) as -> by (by destruct Hs as [-> _]).
      pose proof (vd_rel compress rounds lk set_cf_hash (po_cf out) (bool_decide (is_Some (fo_cf s))) hash s s' Hs) as [H1 H2].
      destruct (vd_of _ _ _ _ _ hash s) as [s1 [v|e|]], (vd_of _ _ _ _ _ hash s') as [s1' [v'|e'|]]; try done; cbn in H1, H2; subst;
        (split; [done|]); (split; [split; [done|]|by left]); cbn; split_and!; try done.
      apply frel_inv in H1 as (r & -> & Hr). by split.
    - (* sf *)
      destruct Hst as (-> & -> & Hs). destruct (negb (length hash =? 32)); [split; [done|]; split; [exact Hl|by left]|].
      destruct (negb io); [split; [done|]; split; [exact Hl|by left]|]. assert (fo_sf s' = fo_sf s) as -> by (by destruct Hs as [-> _]).
      pose proof (vd_rel compress rounds lk set_sf_hash (po_sf out) (bool_decide (is_Some (fo_sf s))) hash s s' Hs) as [H1 H2].
      destruct (vd_of _ _ _ _ _ hash s) as [s1 [v|e|]], (vd_of _ _ _ _ _ hash s') as [s1' [v'|e'|]]; try done; cbn in H1, H2; subst;
        (split; [done|]); (split; [split; [done|]|by left]); cbn; split_and!; try done.
      apply frel_inv in H1 as (r & -> & Hr). by split.
    - (* push in *)
      destruct Hst as (-> & -> & Hs). destruct (opaque_into_parts (m_payload m)) as [[[nonce ct] tag]|e|]; try (split; [done|]; split; [exact Hl|by left]).
      apply then_send_blind; [done|]. apply exec_blind; [done|by apply clk_refl].
    - (* next in *)
      destruct Hst as (-> & -> & Hs). pose proof (next_dec_blind _ _ (proj2 Hs)) as [H1 H2]. apply frel_inv in Hs as (rr & -> & Hr). cbn [fo_rl set_rl] in *.
      destruct (next_decrypted (fo_rl s)) as [r1 [o1|e|]], (next_decrypted rr) as [r2 [o2|e2|]]; try done; cbn in H1, H2; subst;
        (split; [done|]); (split; [by split|by left]).
    - (* push out *)
      destruct Hst as (-> & -> & Hs). destruct Hx as (Ht & Hv & Hlen & Hp). cbn zeta. rewrite Ht, Hv, Hlen.
      assert ((match m_typ m with ApplicationData => None | _ => Some (m_payload m') end) = (match m_typ m with ApplicationData => None | _ => Some (m_payload m) end)) as ->.
      { destruct (m_typ m); try done; by rewrite Hp. }
      apply then_send_blind; [done|]. apply exec_blind; [done|]. cbn. split_and!; try done. intros sq nc aad. unfold enc_op_new. rewrite Hlen, N.eqb_refl. cbn.
      exists (Some (m_payload m')). by split.
    - (* next out *)
      destruct Hst as (-> & -> & Hs). pose proof (next_enc_blind _ _ (proj2 Hs)) as [H1 H2]. apply frel_inv in Hs as (rr & -> & Hr). cbn [fo_rl set_rl] in *.
      destruct (next_encrypted (fo_rl s)) as [r1 [o1|e|]], (next_encrypted rr) as [r2 [o2|e2|]]; try done; cbn in H1, H2; subst;
        (split; [done|]); (split; [by split|left]); try done.
      by apply outgoing_blind.
    - (* start *) destruct Hst as (-> & -> & Hs). apply then_send_blind; [done|]. apply exec_blind; [done|by apply clk_refl].
    - (* flush *)
      destruct Hst as (-> & -> & Hs). rewrite (wants_blind _ _ Hs). destruct (negb (rl_wants_flush (fo_rl s))); [split; [done|]; split; [exact Hl|by left]|].
      destruct (negb io); [split; [done|]; split; [exact Hl|by left]|]. rewrite Hd.
      pose proof (exec_blind out (CFlush (ld_decrypting l)) _ _ _ Hs eq_refl) as [H1 H2].
      destruct (ld_exec _ _ _ _ _ out _ s) as [s1 o1], (ld_exec _ _ _ _ _ out _ s') as [s2 o2]. cbn in H1, H2. split; [done|]. split; [by split|]. left. by destruct o1, o2.
    - (* close *)
      destruct Hst as (-> & -> & Hs). destruct (negb io); [split; [done|]; split; [by split|by left]|].
      destruct (close_transcript _ _ _ _ _ _ _ _ _ _ out s hs) as [[r t]|e|], (close_transcript _ _ _ _ _ _ _ _ _ _ out s' hs) as [[r' t']|e'|];
        (split; [done|]); (split; [by split|]); by right.
    - destruct (next_dec_out r) as (? & ? & ? & -> & _), (next_dec_out r') as (? & ? & ? & -> & _). split; [done|]. split; [by split|by right].
    - destruct (next_enc_out r) as (? & ? & ? & -> & _), (next_enc_out r') as (? & ? & ? & -> & _). split; [done|]. split; [by split|by right].
    - destruct (next_dec_out r) as (? & ? & ? & -> & _). split; [done|]. split; [split; [done|]; cbn; by rewrite E'|right; split; [done|]; unfold over; by rewrite E'].
    - destruct (next_enc_out r) as (? & ? & ? & -> & _). split; [done|]. split; [split; [done|]; cbn; by rewrite E'|right; split; [done|]; unfold over; by rewrite E'].
    - destruct (next_dec_out r') as (? & ? & ? & -> & _). split; [done|]. split; [split; [done|]; cbn; by rewrite E|right; split; [|done]; unfold over; by rewrite E].
    - destruct (next_enc_out r') as (? & ? & ? & -> & _). split; [done|]. split; [split; [done|]; cbn; by rewrite E|right; split; [|done]; unfold over; by rewrite E].
  Qed.

  Lemma over_ended l : over l -> exists t, ended t l.
  Proof. unfold over, ended. destruct (ld_st l) as [| | | |r t|]; try done; intros _; [by exists (Some t)|by exists None]. Qed.
  Lemma over_silent l xs l' ms os : over l -> lrun xs l = (l', ms, os) -> ms = [].
  Proof. intros [t Ht]%over_ended H. by eapply ended_run in H as [-> _]. Qed.
  Lemma run_blind xs ys l l' a ms os a' ms' os' : lrel l l' -> differ_in_contents xs ys -> lrun xs l = (a, ms, os) -> lrun ys l' = (a', ms', os') -> ms' = ms.
  Proof.
    intros Hl Hxy. revert l l' ms os ms' os' Hl. induction Hxy as [|[[now io] x] [[now' io'] y] xs ys [Hf Hh] _ IH]; intros l l' ms os ms' os' Hl H H'.
    { injection H as _ <- _. by injection H' as _ <- _. }
    cbn in Hf, Hh. injection Hf as -> ->. pose proof (step_both now io x y l l' Hl Hh) as Hb.
    destruct (lstep now io x l) as [[l1 m1] o1] eqn:E1, (lstep now io y l') as [[l2 m2] o2] eqn:E2. destruct Hb as (-> & Hl1 & Ho).
    destruct (lrun_cons _ _ _ _ _ _ _ _ _ _ _ _ _ _ _ _ _ _ _ _ _ _ _ _ _ _ _ _ _ E1 H) as [(-> & -> & -> & ->)|(N1 & ms2 & os2 & H2 & -> & ->)],
      (lrun_cons _ _ _ _ _ _ _ _ _ _ _ _ _ _ _ _ _ _ _ _ _ _ _ _ _ _ _ _ _ E2 H') as [(-> & -> & -> & ->)|(N2 & ms3 & os3 & H3 & -> & ->)].
    - done.
    - destruct Ho as [Ho|[_ Ho]]; [by destruct (N2 (proj1 Ho eq_refl))|]. rewrite (over_silent _ _ _ _ _ Ho H3). by rewrite app_nil_r.
    - destruct Ho as [Ho|[Ho _]]; [by destruct (N1 (proj2 Ho eq_refl))|]. rewrite (over_silent _ _ _ _ _ Ho H2). by rewrite app_nil_r.
    - f_equal. exact (IH _ _ _ _ _ _ Hl1 H2 H3).
  Qed.
  Lemma C66_blind_lemma xs ys defer a ms os a' ms' os' : differ_in_contents xs ys ->
    lrun xs (ld_new defer) = (a, ms, os) -> lrun ys (ld_new defer) = (a', ms', os') -> ms' = ms.
  Proof. intros Hxy H H'. exact (run_blind xs ys (ld_new defer) (ld_new defer) _ _ _ _ _ _ (conj eq_refl I) Hxy H H'). Qed.
End Blind.
