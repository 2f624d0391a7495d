(** In which order the leader's messages come, and what is in them. *)
From Verif.Lib Require Import Base.
From Verif Require Import TranscriptModel ProofModel CodecModel AttestModel TlsModel AuthModel TagModel RecordModel RecordSpec PartsModel PrfModel
  HandshakeModel SigAlgModel FollowerModel FollowerSpec LeaderModel LeaderSpec LeaderRun.

Section Order.
  Context (iv : list N) (compress : list N -> list N -> list N).
  Context (aes : list N -> list N -> list N) (ghash_fn : list N -> list N -> list N) (checked : bool) (blind : N -> nat -> N) (pad_rng : nat -> N).
  Context (sha256 : list N -> list N) (parse_body : protocol_version -> N -> list N -> option hs_payload) (ec_curve : list N -> option N).
  Context (parse_key : list N -> bool) (exchange : list N -> option (list N)) (fin : list N -> bool) (rounds : nat).
  Context (cert_key : bytes -> option key_kind) (sig_valid : bytes -> webpki_alg -> bytes -> bytes -> bool).
  Context (client_key : option (list N)) (c : fo_config).
  Notation lstep := (ld_step iv compress aes ghash_fn checked blind pad_rng sha256 parse_body ec_curve parse_key exchange fin rounds cert_key sig_valid client_key c).
  Notation lrun := (ld_run iv compress aes ghash_fn checked blind pad_rng sha256 parse_body ec_curve parse_key exchange fin rounds cert_key sig_valid client_key c).

  Definition active_msgs (pre : list fmsg) : Prop :=
    exists r h mid, pre = MClientRandom r :: MServerHello h :: mid /\ Forall on_connection mid.
  Definition phase (l : ld) (pre : list fmsg) : Prop :=
    match ld_st l with
    | LInit | LSetup _ _ _ => pre = []
    | LReady _ _ => exists r, pre = [MClientRandom r]
    | LActive _ _ _ => active_msgs pre
    | LClosed _ _ | LError => in_protocol pre
    end.
  Lemma active_in pre : active_msgs pre -> in_protocol pre.
  Proof. intros (r & h & mid & -> & Hm). right. exists r. right. exists h, mid, []. rewrite app_nil_r. split; [done|]. split; [done|]. by left. Qed.
  Lemma active_close pre : active_msgs pre -> in_protocol (pre ++ [MClose]).
  Proof. intros (r & h & mid & -> & Hm). right. exists r. right. exists h, mid, [MClose]. split; [done|]. split; [done|]. by right. Qed.
  Lemma active_more pre x : active_msgs pre -> on_connection x -> active_msgs (pre ++ [x]).
  Proof. intros (r & h & mid & -> & Hm) Hx. exists r, h, (mid ++ [x]). split; [done|]. apply Forall_app. split; [done|]. by constructor. Qed.
  Lemma phase_in l pre : phase l pre -> in_protocol pre.
  Proof.
    unfold phase. destruct (ld_st l); try done; try (intros ->; by left); [|by apply active_in]. intros [r ->]. right. exists r. by left.
  Qed.
  Lemma phase_goto l st pre : phase l pre -> match st with LClosed _ _ | LError => True | _ => False end -> phase (goto st l) (pre ++ []).
  Proof. intros H Hs. rewrite app_nil_r. apply phase_in in H. unfold phase. cbn. by destruct st. Qed.
  Lemma phase_reads l l1 pre : phase l pre -> reads l l1 -> phase l1 pre.
  Proof. intros Hp [->|(g & _ & _ & _ & Hl)]; [done|]. unfold phase in *. destruct (ld_st l); try done; by rewrite Hl. Qed.

  Lemma step_phase now io x l pre l1 ms o : phase l pre -> lstep now io x l = (l1, ms, o) -> phase l1 (pre ++ ms) /\ Forall discreet ms.
  Proof.
    intros Hp H. pose proof (phase_in _ _ Hp) as Hin.
    assert (forall out hs s1, active_msgs pre -> phase (goto (LActive out s1 hs) l) (pre ++ []) /\ Forall discreet []) as Hquiet.
    { intros out hs s1 Ha. rewrite app_nil_r. split; [done|constructor]. }
    assert (forall out hs s1 y, active_msgs pre -> on_connection y -> discreet y -> phase (goto (LActive out s1 hs) l) (pre ++ [y]) /\ Forall discreet [y]) as Hone.
    { intros out hs s1 y Ha Hy Hd. split; [by apply active_more|by constructor]. }
    assert (forall out hs z y, active_msgs pre -> on_connection y -> discreet y -> then_send io out hs z y l = (l1, ms, o) -> phase l1 (pre ++ ms) /\ Forall discreet ms) as Hsend.
    { intros out hs [s1 [u|e|]] y Ha Hy Hd E; unfold then_send in E; [destruct io|..]; injection E as <- <- <-; auto. }
    destruct (ld_st l) as [|out s rd|out s|out s hs|r t|] eqn:El.
    all: destruct x as [rnd| | | |hsd|hash|hash|m| |m| | | | | |b|]; cbn [ld_step] in H;
      unfold ld_alloc, ld_preprocess, ld_random, ld_key_share, ld_prepare, ld_cf, ld_sf, ld_push_in, ld_push_out, ld_start, ld_flush, ld_is_empty, ld_close, ld_finish in H;
      rewrite ?El in H;
      try (apply next_in_reads in H as (-> & Hr & _); rewrite app_nil_r; split; [by eapply phase_reads|constructor]);
      try (apply next_out_reads in H as (-> & Hr & _); rewrite app_nil_r; split; [by eapply phase_reads|constructor]);
      try (injection H as <- <- <-; rewrite app_nil_r; split; [unfold phase in *; cbn; rewrite ?El in *; exact Hp || exact Hin|constructor]).
    - (* alloc *)
      unfold phase in Hp. rewrite El in Hp. subst pre.
      destruct (map_err FPrf _) as [[[m p] out]|e|]; [|injection H as <- <- <-; split; [by left|constructor]..].
      destruct (ld_exec _ _ _ _ _ out _ _) as [s [y|e|]]; injection H as <- <- <-; (split; [|constructor]); [done|by left..].
    - (* preprocess *)
      unfold phase in Hp. rewrite El in Hp. subst pre. destruct io; injection H as <- <- <-; (split; [|by repeat constructor]); [by exists rd|by left].
    - (* prepare *)
      unfold phase in Hp. rewrite El in Hp. destruct Hp as [r ->].
      destruct (hs_group hsd =? secp256r1)%N eqn:Eg; cbn [negb] in H; [|injection H as <- <- <-; split; [exact Hin|constructor]]. apply N.eqb_eq in Eg.
      destruct io; cbn [negb] in H; [|injection H as <- <- <-; split; [exact Hin|constructor]].
      assert (active_msgs ([MClientRandom r] ++ [MServerHello (ServerParams now (hs_random hsd) (hs_group hsd) (hs_key hsd))])) as Ha.
      { eexists _, _, []. split; [reflexivity|constructor]. }
      destruct (prepare_keys _ _ _ _ _ _ _ _ _ _ out _ s) as [s1|e|]; injection H as <- <- <-; (split; [|by repeat constructor]); [exact Ha|by apply active_in..].
    - (* cf *)
      unfold phase in Hp. rewrite El in Hp.
      destruct (length hash =? 32) eqn:Eh; cbn [negb] in H; [|injection H as <- <- <-; rewrite app_nil_r; split; [unfold phase; by rewrite El|constructor]]. apply Nat.eqb_eq in Eh.
      destruct io; cbn [negb] in H; [|injection H as <- <- <-; rewrite app_nil_r; split; [unfold phase; by rewrite El|constructor]].
      destruct (vd_of _ _ _ _ _ hash s) as [s1 [vd|e|]]; injection H as <- <- <-; by apply Hone.
    - (* sf *)
      unfold phase in Hp. rewrite El in Hp.
      destruct (length hash =? 32) eqn:Eh; cbn [negb] in H; [|injection H as <- <- <-; rewrite app_nil_r; split; [unfold phase; by rewrite El|constructor]]. apply Nat.eqb_eq in Eh.
      destruct io; cbn [negb] in H; [|injection H as <- <- <-; rewrite app_nil_r; split; [unfold phase; by rewrite El|constructor]].
      destruct (vd_of _ _ _ _ _ hash s) as [s1 [vd|e|]]; injection H as <- <- <-; by apply Hone.
    - (* push in *)
      unfold phase in Hp. rewrite El in Hp.
      destruct (opaque_into_parts (m_payload m)) as [[[nonce ct] tag]|e|]; [|injection H as <- <- <-; rewrite app_nil_r; split; [unfold phase; by rewrite El|constructor]..].
      eapply Hsend; [done| | |exact H]; done.
    - (* push out *)
      unfold phase in Hp. rewrite El in Hp. cbn zeta in H. eapply Hsend; [done| | |exact H]; [done|]. cbn. by destruct (m_typ m).
    - (* start *) unfold phase in Hp. rewrite El in Hp. eapply Hsend; [done| | |exact H]; done.
    - (* flush *)
      unfold phase in Hp. rewrite El in Hp.
      destruct (negb (rl_wants_flush (fo_rl s))); [injection H as <- <- <-; rewrite app_nil_r; split; [unfold phase; by rewrite El|constructor]|].
      destruct io; cbn [negb] in H; [|injection H as <- <- <-; rewrite app_nil_r; split; [unfold phase; by rewrite El|constructor]].
      destruct (ld_exec _ _ _ _ _ out _ s) as [s1 o1]. injection H as <- <- <-. by apply Hone.
    - (* close *)
      unfold phase in Hp. rewrite El in Hp. destruct io; cbn [negb] in H; [|injection H as <- <- <-; rewrite app_nil_r; split; [by apply active_in|constructor]].
      destruct (close_transcript _ _ _ _ _ _ _ _ _ _ out s hs) as [[r t]|e|]; injection H as <- <- <-; (split; [by apply active_close|by constructor]).
  Qed.
  Lemma run_phase xs l pre l' ms os : phase l pre -> lrun xs l = (l', ms, os) -> phase l' (pre ++ ms) /\ Forall discreet ms.
  Proof.
    revert l pre ms os. induction xs as [|[[now io] x] xs IH]; intros l pre ms os Hp H.
    { injection H as <- <- <-. rewrite app_nil_r. split; [done|constructor]. }
    destruct (lstep now io x l) as [[l1 ms1] o] eqn:E. destruct (step_phase _ _ _ _ _ _ _ _ Hp E) as [Hp1 Hd1].
    destruct (lrun_cons _ _ _ _ _ _ _ _ _ _ _ _ _ _ _ _ _ _ _ _ _ _ _ _ _ _ _ _ _ E H) as [(-> & -> & -> & ->)|(_ & ms2 & os2 & H2 & -> & ->)]; [done|].
    destruct (IH _ _ _ _ Hp1 H2) as [Hp2 Hd2]. rewrite app_assoc. split; [done|]. by apply Forall_app.
  Qed.
  Lemma C66_order_lemma xs defer l' ms os : lrun xs (ld_new defer) = (l', ms, os) -> in_protocol ms /\ Forall discreet ms.
  Proof. intros H. destruct (run_phase xs (ld_new defer) [] l' ms os eq_refl H) as [Hp Hd]. split; [|done]. exact (phase_in _ _ Hp). Qed.
End Order.
