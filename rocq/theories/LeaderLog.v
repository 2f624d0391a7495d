(** What is in the leader's transcript. *)
From Verif.Lib Require Import Base.
From Verif Require Import TranscriptModel ProofModel CodecModel CodecSpec AttestModel TlsModel AuthModel AuthSpec TagModel TagSpec RecordModel RecordSpec PartsModel PartsSpec PartsLemmas PrfModel PrfSpec
  HandshakeModel SigAlgModel SigAlgSpec SigAlgLemmas FollowerModel FollowerSpec FollowerLemmas FollowerRunLemmas LeaderModel LeaderSpec LeaderRel LeaderRun LeaderPair.

(** ** Messages that stand for the calls *)
Definition hello_of (x : N * hs_data) : N * server_params := (fst x, ServerParams (fst x) (hs_random (snd x)) (hs_group (snd x)) (hs_key (snd x))).
Definition to_send (m : message) : enc_call := (m_typ m, m_version m, N.of_nat (length (m_payload m)), Some (m_payload m)).
Definition arrived_as (m : message) (d : dec_call) : Prop :=
  let '(t, v, nonce, ct, tag) := d in t = m_typ m /\ v = m_version m /\ is_split (m_payload m) nonce ct tag.
Definition matches (vms : list (N * fmsg)) (pre : calls) : Prop :=
  hellos vms = map hello_of (prepared pre) /\ cf_hashes vms = cf_asked pre /\ sf_hashes vms = sf_asked pre /\
  encrypts vms = map to_send (pushed pre) /\ Forall2 arrived_as (arrived pre) (decrypts vms).
Lemma matches_app v1 v2 p1 p2 : matches v1 p1 -> matches v2 p2 -> matches (v1 ++ v2) (p1 ++ p2).
Proof.
  intros (A1 & A2 & A3 & A4 & A5) (B1 & B2 & B3 & B4 & B5). unfold matches, hellos, cf_hashes, sf_hashes, encrypts, decrypts, prepared, cf_asked, sf_asked, pushed, arrived in *.
  rewrite !omap_app, !map_app. rewrite A1, B1, A2, B2, A3, B3, A4, B4. split_and!; try done. by apply Forall2_app.
Qed.
Definition quiet (xs : calls) : Prop :=
  allocated xs = [] /\ prepared xs = [] /\ cf_asked xs = [] /\ sf_asked xs = [] /\ pushed xs = [] /\ arrived xs = [].
Lemma quiet_app xs ys : quiet xs -> quiet ys -> quiet (xs ++ ys).
Proof.
  intros (A1 & A2 & A3 & A4 & A5 & A6) (B1 & B2 & B3 & B4 & B5 & B6). unfold quiet, allocated, prepared, cf_asked, sf_asked, pushed, arrived in *.
  rewrite !omap_app. split_and!; by rewrite ?A1, ?A2, ?A3, ?A4, ?A5, ?A6, ?B1, ?B2, ?B3, ?B4, ?B5, ?B6.
Qed.
Lemma quiet_matches xs : quiet xs -> matches [] xs.
Proof. intros (A1 & A2 & A3 & A4 & A5 & A6). unfold matches. rewrite A2, A3, A4, A5, A6. split_and!; try done; constructor. Qed.
Lemma msgs_ok vms : Forall (fun e : enc_call => let '(_, _, n, _) := e in n < 2 ^ 64)%N (encrypts vms) ->
  Forall (fun d : dec_call => let '(_, _, _, ct, _) := d in N.of_nat (length ct) < 2 ^ 63)%N (decrypts vms) -> Forall (fun x => msg_ok (snd x)) vms.
Proof.
  induction vms as [|[now x] vms IH]; [constructor|]. intros He Hd. destruct x; csimpl in *; try (constructor; [exact I|by apply IH]).
  - apply Forall_cons in He as [He1 He]. constructor; [done|by apply IH].
  - apply Forall_cons in Hd as [Hd1 Hd]. constructor; [done|by apply IH].
Qed.

Section Log.
  Context (iv : list N) (compress : list N -> list N -> list N).
  Context (aes : list N -> list N -> list N) (ghash_fn : list N -> list N -> list N) (checked : bool) (blind : N -> nat -> N) (pad_rng : nat -> N).
  Context (sha256 : list N -> list N) (parse_body : protocol_version -> N -> list N -> option hs_payload) (ec_curve : list N -> option N).
  Context (parse_key : list N -> bool) (exchange : list N -> option (list N)) (fin : list N -> bool) (rounds : nat).
  Context (cert_key : bytes -> option key_kind) (sig_valid : bytes -> webpki_alg -> bytes -> bytes -> bool).
  Context (client_key : option (list N)) (c : fo_config).
  Notation lstep := (ld_step iv compress aes ghash_fn checked blind pad_rng sha256 parse_body ec_curve parse_key exchange fin rounds cert_key sig_valid client_key c).
  Notation lrun := (ld_run iv compress aes ghash_fn checked blind pad_rng sha256 parse_body ec_curve parse_key exchange fin rounds cert_key sig_valid client_key c).
  Notation lexec := (ld_exec aes ghash_fn checked blind pad_rng).
  Notation fexec := (rl_exec aes ghash_fn checked blind pad_rng).
  Notation vstep := (fo_step compress aes ghash_fn checked blind pad_rng parse_key exchange fin rounds).
  Notation vsteps := (fo_steps compress aes ghash_fn checked blind pad_rng parse_key exchange fin rounds).
  Notation al := (CAlloc (fc_sent_records c) (fc_recv_records c) (fc_sent c) (fc_recv_online c) (fc_recv c)).

  (** ** Up to the records that wait to be fetched *)
  Notation lk := (like eq eq (fun _ _ : list enc_record => True) (fun _ _ : list plain_record => True)).
  Definition same_call (a b : rl_call) : Prop := b = a /\ a <> CNextEnc /\ a <> CNextDec.
  Lemma call_refl x : x <> CNextEnc -> x <> CNextDec -> call_like eq x x.
  Proof. destruct x; try done. intros _ _. cbn. split_and!; try done. intros a b d. by destruct (enc_op_new _ _ _ _ _ _ _ _). Qed.
  Lemma lk_refl r : lk r r.
  Proof.
    assert (forall A (x : list A), Forall2 eq x x) as He by (intros A x; induction x; constructor; done).
    constructor; try done. destruct (rl_st r); try done.
  Qed.
  Lemma forall2_eq {A} (x y : list A) : Forall2 eq x y -> x = y.
  Proof. by induction 1; subst. Qed.
  Lemma step_lk ek ei dk di c1 c2 a b : lk a b -> same_call c1 c2 ->
    prel lk (res_like eq) (rl_step aes ghash_fn checked ek ei dk di blind pad_rng c1 a) (rl_step aes ghash_fn checked ek ei dk di blind pad_rng c2 b).
  Proof.
    intros Hl (-> & H1 & H2). apply (step_like aes ghash_fn checked ek ei dk di blind pad_rng eq eq eq (fun _ _ => True) (fun _ _ => True)); try done.
    - intros r o ? g ->. apply prel_eq.
    - by intros ? ? ->.
    - by intros ? ? x y -> ->.
    - by intros r ? ? ? ? -> ->.
    - by apply call_refl.
  Qed.
  Notation fr := (frel lk).
  Lemma fr_out s s' e d : fr s s' -> fr (set_rl (RecordModel.set_out e d (fo_rl s)) s) s'.
  Proof. intros (r & -> & Hr)%frel_inv. split; [done|]. cbn. destruct Hr. by constructor. Qed.
  Lemma exec_v out cl s s1 y s' : fr s s' -> cl <> CNextEnc -> cl <> CNextDec -> lexec out cl s = (s1, Ok y) ->
    exists s1' y', fexec out cl s' = Ok (y', s1') /\ fr s1 s1' /\ res_like eq y y'.
  Proof.
    intros Hs H1 H2 E. pose proof (exec_rel aes ghash_fn checked blind pad_rng lk same_call (res_like eq) (fun ek ei dk di c1 c2 a b => step_lk ek ei dk di c1 c2 a b) out cl cl s s' Hs) as Hr.
    destruct Hr as [Ha Hb]; [by split|]. rewrite E in Ha, Hb. unfold ld_exec, rl_exec in *.
    destruct (rl_step _ _ _ _ _ _ _ _ _ cl (fo_rl s')) as [r [x|e|]]; cbn in *; try done. by exists (set_rl r s'), x.
  Qed.
  Lemma vsteps_app out a b s : vsteps out (a ++ b) s = (let! s := vsteps out a s in vsteps out b s).
  Proof.
    revert s. induction a as [|[now x] a IH]; intros s; [done|]. cbn [app fo_steps]. destruct (vstep out now x s) as [s1|e|]; cbn [obind]; [apply IH|done|done].
  Qed.

  Definition built (pre : calls) (out : prf_output) (s : fo) (rs : list (list N)) : Prop :=
    exists m p r0 x0 vms s', prf_setup iv compress (fc_net c) MsStandard = Ok (m, p, out) /\
      (forall ek ei dk di, rl_step aes ghash_fn checked ek ei dk di blind pad_rng al (rl_new Leader) = (r0, Ok x0)) /\
      vsteps out vms (Fo m p r0 None None None None) = Ok s' /\ fr s s' /\ Forall (fun x => snd x <> MClose) vms /\ length vms <= length pre /\
      matches vms pre /\ client_randoms vms = rs.
  Lemma built_ext pre out s rs new call s1 : built pre out s rs -> length new <= 1 -> Forall (fun x => snd x <> MClose) new ->
    (forall s', fr s s' -> exists s1', vsteps out new s' = Ok s1' /\ fr s1 s1') -> matches new [call] ->
    built (pre ++ [call]) out s1 (rs ++ client_randoms new).
  Proof.
    intros (m & p & r0 & x0 & vms & s' & H1 & H2 & H3 & H4 & H5 & H6 & H7 & <-) Hl Hc Hs Hm. destruct (Hs _ H4) as (s1' & H8 & H9).
    exists m, p, r0, x0, (vms ++ new), s1'. split; [done|]. split; [done|]. split; [rewrite vsteps_app, H3; exact H8|]. split; [done|].
    split; [by apply Forall_app|]. split; [rewrite !app_length; cbn; lia|]. split; [by apply matches_app|]. unfold client_randoms. by rewrite omap_app.
  Qed.
  Lemma built_quiet pre out s rs call s1 : built pre out s rs -> (forall s', fr s s' -> fr s1 s') -> matches [] [call] -> built (pre ++ [call]) out s1 rs.
  Proof.
    intros Hb Hs Hm. replace rs with (rs ++ client_randoms []) by (by rewrite app_nil_r). eapply built_ext; [exact Hb|cbn; lia|constructor| |exact Hm].
    intros s' Hf. exists s'. split; [done|]. by apply Hs.
  Qed.
  Lemma built_one pre out s rs now x call s1 : built pre out s rs -> x <> MClose ->
    (forall s', fr s s' -> exists s1', vstep out now x s' = Ok s1' /\ fr s1 s1') -> matches [(now, x)] [call] ->
    built (pre ++ [call]) out s1 (rs ++ client_randoms [(now, x)]).
  Proof.
    intros Hb Hx Hs Hm. eapply built_ext; [exact Hb|done|by constructor| |exact Hm]. intros s' Hf. destruct (Hs _ Hf) as (s1' & H1 & H2). exists s1'. split; [|done].
    cbn [fo_steps]. by rewrite H1.
  Qed.

  Definition inv2 (pre : calls) (l : ld) : Prop :=
    match ld_st l with
    | LInit => quiet pre
    | LSetup out s rd => built pre out s [] /\ allocated pre = [rd] /\ prepared pre = [] /\ fo_random s = None /\ fo_hello s = None
    | LReady out s => exists r, built pre out s [r] /\ allocated pre = [r] /\ prepared pre = [] /\ fo_hello s = None
    | LActive out s hs => exists r now, built pre out s [r] /\ allocated pre = [r] /\ prepared pre = [(now, hs)]
    | _ => False
    end.
  Lemma allocated_snoc pre call : allocated (pre ++ [call]) = allocated pre ++ allocated [call].
  Proof. unfold allocated. by rewrite omap_app. Qed.
  Lemma prepared_snoc pre call : prepared (pre ++ [call]) = prepared pre ++ prepared [call].
  Proof. unfold prepared. by rewrite omap_app. Qed.

  Lemma inv2_quiet pre l now io x : inv2 pre l -> quiet [(now, io, x)] -> inv2 (pre ++ [(now, io, x)]) l.
  Proof.
    intros Hi Hq. pose proof (quiet_matches _ Hq) as Hm. pose proof Hq as (Q1 & Q2 & _). unfold inv2 in *. rewrite allocated_snoc, prepared_snoc, Q1, Q2, !app_nil_r.
    destruct (ld_st l) as [|out s rd|out s|out s hs|r t|]; try done.
    - by apply quiet_app.
    - destruct Hi as (Hb & Hi). split; [|done]. by eapply built_quiet.
    - destruct Hi as (r & Hb & Hi). exists r. split; [|done]. by eapply built_quiet.
    - destruct Hi as (r & nw & Hb & Hi). exists r, nw. split; [|done]. by eapply built_quiet.
  Qed.
  Lemma inv2_next_in pre l now io l1 ms a : inv2 pre l -> ld_next_in l = (l1, ms, Ok a) -> inv2 (pre ++ [(now, io, LNextIn)]) l1.
  Proof.
    intros Hi H. unfold ld_next_in in H. cbn zeta in H. destruct (ld_st l) as [|out s rd|out s|out s hs|r t|] eqn:El; try discriminate H.
    - destruct (next_dec_out (fo_rl s)) as (r' & e & d & E & ->). rewrite E in H. injection H as <- _ _. apply (inv2_quiet _ _ now io LNextIn) in Hi; [|done].
      unfold inv2 in *. rewrite El in Hi. destruct Hi as (r & (m & p & r0 & x0 & vms & s' & H1 & H2 & H3 & H4 & H5) & Hi). exists r. split; [|done].
      exists m, p, r0, x0, vms, s'. split; [done|]. split; [done|]. split; [done|]. split; [by apply fr_out|done].
    - destruct (next_dec_out (fo_rl s)) as (r' & e & d & E & ->). rewrite E in H. injection H as <- _ _. apply (inv2_quiet _ _ now io LNextIn) in Hi; [|done].
      unfold inv2 in *. rewrite El in Hi. destruct Hi as (r & nw & (m & p & r0 & x0 & vms & s' & H1 & H2 & H3 & H4 & H5) & Hi). exists r, nw. split; [|done].
      exists m, p, r0, x0, vms, s'. split; [done|]. split; [done|]. split; [done|]. split; [by apply fr_out|done].
    - unfold inv2 in Hi. by rewrite El in Hi.
  Qed.
  Lemma inv2_next_out pre l now io l1 ms a : inv2 pre l -> ld_next_out l = (l1, ms, Ok a) -> inv2 (pre ++ [(now, io, LNextOut)]) l1.
  Proof.
    intros Hi H. unfold ld_next_out in H. cbn zeta in H. destruct (ld_st l) as [|out s rd|out s|out s hs|r t|] eqn:El; try discriminate H.
    - destruct (next_enc_out (fo_rl s)) as (r' & e & d & E & ->). rewrite E in H. injection H as <- _ _. apply (inv2_quiet _ _ now io LNextOut) in Hi; [|done].
      unfold inv2 in *. rewrite El in Hi. destruct Hi as (r & (m & p & r0 & x0 & vms & s' & H1 & H2 & H3 & H4 & H5) & Hi). exists r. split; [|done].
      exists m, p, r0, x0, vms, s'. split; [done|]. split; [done|]. split; [done|]. split; [by apply fr_out|done].
    - destruct (next_enc_out (fo_rl s)) as (r' & e & d & E & ->). rewrite E in H. injection H as <- _ _. apply (inv2_quiet _ _ now io LNextOut) in Hi; [|done].
      unfold inv2 in *. rewrite El in Hi. destruct Hi as (r & nw & (m & p & r0 & x0 & vms & s' & H1 & H2 & H3 & H4 & H5) & Hi). exists r, nw. split; [|done].
      exists m, p, r0, x0, vms, s'. split; [done|]. split; [done|]. split; [done|]. split; [by apply fr_out|done].
    - unfold inv2 in Hi. by rewrite El in Hi.
  Qed.
  Lemma hello_prepare out now h s : fo_hello s = None -> sp_time h = now -> sp_group h = secp256r1 ->
    vstep out now (MServerHello h) s = prepare_keys compress aes ghash_fn checked blind pad_rng parse_key exchange fin rounds out h s.
  Proof.
    intros Hn Ht Hg. cbn [fo_step]. unfold on_hello, prepare_keys. rewrite Hn, Ht, Hg. rewrite bool_decide_eq_false_2 by (by intros [? ?]).
    assert ((max_time_diff <? abs_diff now now)%N = false) as -> by (unfold abs_diff; rewrite N.ltb_irrefl, N.sub_diag; reflexivity).
    destruct (with_prf s _) as [s1|e|]; cbn [obind]; reflexivity.
  Qed.
  Lemma vd_on set cell known hash s s1 vd : vd_of compress rounds set cell known hash s = (s1, Ok vd) -> known = false /\
    (exists s0, with_prf s (set (fo_prf s) hash) = Ok s0 /\ flush_prf compress rounds s0 = Ok s1 /\ vm_decoded (fo_vm s1) cell = Some vd).
  Proof.
    unfold vd_of. destruct (with_prf s _) as [s0|e|]; try done. destruct (flush_prf compress rounds s0) as [s2|e|] eqn:E; try done. destruct known; [done|].
    destruct (vm_decoded (fo_vm s2) cell) as [v|] eqn:Ev; [|done]. intros [= <- <-]. split; [done|]. by exists s0.
  Qed.

  Lemma step_inv2 now io x pre l l1 ms a : inv2 pre l -> lstep now io x l = (l1, ms, Ok a) ->
    (inv2 (pre ++ [(now, io, x)]) l1 /\ forall t, a <> LDone (Some t)) \/
    (x = LCloseConn /\ a = LUnit /\ exists out s hs r t, ld_st l = LActive out s hs /\ ld_st l1 = LClosed r t /\
      close_transcript aes ghash_fn checked blind pad_rng sha256 parse_body ec_curve cert_key sig_valid out s hs = Ok (r, t)).
  Proof.
    intros Hi H.
    assert (forall out s hs cl s1 y r nw msg, built pre out s [r] -> allocated pre = [r] -> prepared pre = [(nw, hs)] -> lexec out cl s = (s1, Ok y) -> cl <> CNextEnc -> cl <> CNextDec -> msg <> MClose ->
      (forall s', vstep out now msg s' = (let! (_, s) := fexec out cl s' in Ok s)) -> matches [(now, msg)] [(now, io, x)] -> client_randoms [(now, msg)] = [] ->
      allocated [(now, io, x)] = [] -> prepared [(now, io, x)] = [] -> inv2 (pre ++ [(now, io, x)]) (goto (LActive out s1 hs) l)) as Hrl.
    { clear Hi H. intros out s hs cl s1 y r nw msg Hb Ha Hp E N1 N2 Nc Hstep Hm Hr A P. unfold inv2. cbn [goto ld_st]. exists r, nw. rewrite allocated_snoc, prepared_snoc, A, P, !app_nil_r. split; [|done].
      replace [r] with ([r] ++ client_randoms [(now, msg)]) by (by rewrite Hr). eapply built_one; [exact Hb|done| |done].
      intros s' Hf. destruct (exec_v _ _ _ _ _ _ Hf N1 N2 E) as (s1' & y' & H1 & H2 & _). exists s1'. split; [|done]. by rewrite Hstep, H1. }
    pose proof Hi as Hi'. unfold inv2 in Hi'. destruct (ld_st l) as [|out s rd|out s|out s hs|r0 t0|] eqn:El; try done.
    all: destruct x as [rnd| | | |hsd|hash|hash|m| |m| | | | | |b|]; cbn [ld_step] in H;
      try (left; split; [by eapply inv2_next_in|apply next_in_reads in H as (_ & _ & Hd); intros t ->; by eapply Hd]);
      try (left; split; [by eapply inv2_next_out|apply next_out_reads in H as (_ & _ & Hd); intros t ->; by eapply Hd]);
      unfold ld_alloc, ld_preprocess, ld_random, ld_key_share, ld_prepare, ld_cf, ld_sf, ld_push_in, ld_push_out, ld_start, ld_flush, ld_is_empty, ld_close, ld_finish in H;
      rewrite ?El in H; try discriminate H;
      try (left; injection H as <- <- <-; split; [|done]; apply inv2_quiet; [unfold inv2 in *; cbn; rewrite ?El in *; exact Hi|done]).
    - (* alloc *)
      destruct (prf_setup iv compress (fc_net c) MsStandard) as [[[m p] out]|e|] eqn:Ep; try discriminate H. cbn [map_err] in H.
      destruct (lexec out _ _) as [s1 [y|e|]] eqn:Ee; try discriminate H. injection H as <- <- <-. left. split; [|done]. unfold inv2. cbn [goto ld_st].
      unfold ld_exec in Ee. cbn [fo_vm fo_rl] in Ee.
      destruct (rl_step _ _ _ _ _ _ _ _ _ al (rl_new Leader)) as [r1 [x1|e1|]] eqn:Er; try discriminate Ee. cbn [map_err] in Ee. injection Ee as <- ->.
      pose proof Hi' as (Q1 & Q2 & Q3 & Q4 & Q5 & Q6). rewrite allocated_snoc, prepared_snoc, Q1, Q2. split; [|done].
      exists m, p, r1, y, [], (Fo m p r1 None None None None). split; [done|]. split.
      { intros ek ei dk di. erewrite step_keyless; [exact Er|done]. }
      split; [done|]. split; [split; [done|apply lk_refl]|]. split; [constructor|]. split; [cbn; lia|]. split; [|done].
      change (@nil (N * fmsg)) with (@nil (N * fmsg) ++ []). apply matches_app; [by apply quiet_matches|]. unfold matches. cbn. split_and!; try done; constructor.
    - (* preprocess *)
      destruct io; [|discriminate H]. injection H as <- <- <-. left. split; [|done]. destruct Hi' as (Hb & Ha & Hp & Hr & Hh). unfold inv2. cbn [goto ld_st]. exists rd.
      rewrite allocated_snoc, prepared_snoc, Ha, Hp. split; [|done]. change [rd] with ([] ++ client_randoms [(now, MClientRandom rd)]).
      eapply built_one; [exact Hb|done| |].
      + intros s' (r & -> & Hl)%frel_inv. cbn [fo_step]. change (fo_random (set_rl r s)) with (fo_random s). rewrite Hr. rewrite bool_decide_eq_false_2 by (by intros [? ?]).
        eexists. split; [reflexivity|]. by split.
      + unfold matches. cbn. split_and!; try done; constructor.
    - (* random *) left. destruct (fo_random s); [|discriminate H]. injection H as <- <- <-. split; [|done]. by apply inv2_quiet.
    - (* key share *) left. destruct client_key; [|discriminate H]. injection H as <- <- <-. split; [|done]. by apply inv2_quiet.
    - (* prepare *)
      destruct (hs_group hsd =? secp256r1)%N eqn:Eg; [|discriminate H]. apply N.eqb_eq in Eg. destruct io; [|discriminate H]. cbn [negb] in H.
      destruct (prepare_keys _ _ _ _ _ _ _ _ _ _ out _ s) as [s1|e|] eqn:E; try discriminate H. injection H as <- <- <-. left. split; [|done].
      destruct Hi' as (r & Hb & Ha & Hp & Hh). unfold inv2. cbn [goto ld_st]. exists r, now. rewrite allocated_snoc, prepared_snoc, Ha, Hp. split; [|done].
      change [r] with ([r] ++ client_randoms [(now, MServerHello (ServerParams now (hs_random hsd) (hs_group hsd) (hs_key hsd)))]). eapply built_one; [exact Hb|done| |].
      + intros s' Hf. rewrite hello_prepare; [|destruct Hf as [-> _]; exact Hh|done|exact Eg].
        pose proof (prepare_rel compress aes ghash_fn checked blind pad_rng parse_key exchange fin rounds lk same_call (res_like eq)
          (fun ek ei dk di c1 c2 a b => step_lk ek ei dk di c1 c2 a b) ltac:(by split) out (ServerParams now (hs_random hsd) (hs_group hsd) (hs_key hsd)) s s' Hf) as Hpr.
        rewrite E in Hpr. destruct (prepare_keys _ _ _ _ _ _ _ _ _ _ out _ s') as [s1'|e|]; try done. by exists s1'.
      + unfold matches. cbn. split_and!; try done; constructor.
    - (* cf *)
      destruct (length hash =? 32); [|discriminate H]. destruct io; [|discriminate H]. cbn [negb] in H.
      destruct (vd_of _ _ _ _ _ hash s) as [s1 [vd|e|]] eqn:E; try discriminate H. injection H as <- <- <-. left. split; [|done].
      destruct Hi' as (r & nw & Hb & Ha & Hp). unfold inv2. cbn [goto ld_st]. exists r, nw. rewrite allocated_snoc, prepared_snoc, Ha, Hp. split; [|done].
      change [r] with ([r] ++ client_randoms [(now, MCfVd hash)]). eapply built_one; [exact Hb|done| |].
      + intros s' Hf. pose proof (vd_rel compress rounds lk set_cf_hash (po_cf out) (bool_decide (is_Some (fo_cf s))) hash s s' Hf) as [H1 H2].
        rewrite E in H1, H2. destruct (vd_of _ _ _ _ _ hash s') as [s1' [v|e|]] eqn:E'; try done. cbn in H1, H2. subst v.
        apply vd_on in E' as (Ek & s0 & E1 & E2 & E3). cbn [fo_step]. unfold on_cf. assert (fo_cf s' = fo_cf s) as -> by (by destruct Hf as [-> _]). rewrite Ek, E1. cbn [obind]. rewrite E2. cbn [obind].
        rewrite E3. cbn [opt_err obind]. eexists. split; [reflexivity|]. apply frel_inv in H1 as (r' & -> & Hr'). by split.
      + unfold matches. cbn. split_and!; try done; constructor.
    - (* sf *)
      destruct (length hash =? 32); [|discriminate H]. destruct io; [|discriminate H]. cbn [negb] in H.
      destruct (vd_of _ _ _ _ _ hash s) as [s1 [vd|e|]] eqn:E; try discriminate H. injection H as <- <- <-. left. split; [|done].
      destruct Hi' as (r & nw & Hb & Ha & Hp). unfold inv2. cbn [goto ld_st]. exists r, nw. rewrite allocated_snoc, prepared_snoc, Ha, Hp. split; [|done].
      change [r] with ([r] ++ client_randoms [(now, MSfVd hash)]). eapply built_one; [exact Hb|done| |].
      + intros s' Hf. pose proof (vd_rel compress rounds lk set_sf_hash (po_sf out) (bool_decide (is_Some (fo_sf s))) hash s s' Hf) as [H1 H2].
        rewrite E in H1, H2. destruct (vd_of _ _ _ _ _ hash s') as [s1' [v|e|]] eqn:E'; try done. cbn in H1, H2. subst v.
        apply vd_on in E' as (Ek & s0 & E1 & E2 & E3). cbn [fo_step]. unfold on_sf. assert (fo_sf s' = fo_sf s) as -> by (by destruct Hf as [-> _]). rewrite Ek, E1. cbn [obind]. rewrite E2. cbn [obind].
        rewrite E3. cbn [opt_err obind]. eexists. split; [reflexivity|]. apply frel_inv in H1 as (r' & -> & Hr'). by split.
      + unfold matches. cbn. split_and!; try done; constructor.
    - (* push in *)
      destruct Hi' as (r & nw & Hb & Ha & Hp). destruct (opaque_into_parts (m_payload m)) as [[[nonce ct] tag]|e|] eqn:Eo; try discriminate H. unfold then_send in H.
      destruct (lexec out _ s) as [s1 [y|e|]] eqn:E; try discriminate H. destruct io; [|discriminate H]. injection H as <- <- <-. left. split; [|done].
      eapply (Hrl _ _ _ _ _ _ _ _ (MDecrypt (m_typ m) (m_version m) nonce ct tag) Hb Ha Hp E); try done. unfold matches. cbn. split_and!; try done.
      constructor; [|constructor]. cbn. split_and!; try done; by apply parts_ok in Eo as (? & ? & ?).
    - (* push out *)
      destruct Hi' as (r & nw & Hb & Ha & Hp). unfold then_send in H. cbn zeta in H.
      destruct (lexec out _ s) as [s1 [y|e|]] eqn:E; try discriminate H. destruct io; [|discriminate H]. injection H as <- <- <-. left. split; [|done].
      eapply (Hrl _ _ _ _ _ _ _ _ (MEncrypt (m_typ m) (m_version m) (N.of_nat (length (m_payload m))) (Some (m_payload m))) Hb Ha Hp E); try done.
      unfold matches. cbn. split_and!; try done; constructor.
    - (* start *)
      destruct Hi' as (r & nw & Hb & Ha & Hp). unfold then_send in H.
      destruct (lexec out _ s) as [s1 [y|e|]] eqn:E; try discriminate H. destruct io; [|discriminate H]. injection H as <- <- <-. left. split; [|done].
      eapply (Hrl _ _ _ _ _ _ _ _ MStart Hb Ha Hp E); try done. unfold matches. cbn. split_and!; try done; constructor.
    - (* flush *)
      destruct (rl_wants_flush (fo_rl s)); cbn [negb] in H; [|left; injection H as <- <- <-; split; [|done]; by apply inv2_quiet].
      destruct io; [|discriminate H]. cbn [negb] in H. destruct Hi' as (r & nw & Hb & Ha & Hp).
      destruct (lexec out _ s) as [s1 [y|e|]] eqn:E; try discriminate H. injection H as <- <- <-. left. split; [|done].
      eapply (Hrl _ _ _ _ _ _ _ _ (MFlush (ld_decrypting l)) Hb Ha Hp E); try done. unfold matches. cbn. split_and!; try done; constructor.
    - (* close *)
      destruct io; [|discriminate H]. cbn [negb] in H. right. split; [done|].
      destruct (close_transcript _ _ _ _ _ _ _ _ _ _ out s hs) as [[r t]|e|] eqn:E; try discriminate H. injection H as <- <- <-. split; [done|]. by exists out, s, hs, r, t.
  Qed.

  (** ** The transcript *)
  Definition content (xs : calls) (t : tls_transcript) : Prop :=
    exists r now hs hc hsf pms d leaf rest kind a alg,
      allocated xs = [r] /\ prepared xs = [(now, hs)] /\ cf_asked xs = [hc] /\ sf_asked xs = [hsf] /\
      hs_group hs = secp256r1 /\ exchange (hs_key hs) = Some pms /\
      is_derived iv compress MsStandard (TlsValues pms r (hs_random hs) [] hc hsf) d /\
      tt_time t = now /\ tt_version t = V1_2 /\ tt_binding t = CertBinding r (hs_random hs) (EphemKey (hs_key hs)) /\
      tt_certs t = Some (hs_certs hs) /\ tt_signature t = Some (ServerSignature alg (ds_sig (hs_dss hs))) /\
      hs_certs hs = leaf :: rest /\ cert_key leaf = Some kind /\ scheme_means (ds_scheme (hs_dss hs)) kind a /\
      sig_valid leaf a (r ++ hs_random hs ++ hs_params hs) (ds_sig (hs_dss hs)) = true /\ (kind <> KeyP384 -> webpki_of_core alg = Some a) /\
      finished_with (tt_sent t) (d_cf d) /\ finished_with (tt_recv t) (d_sf d) /\ ends_acceptably (tt_sent t) /\ ends_acceptably (tt_recv t) /\
      one_to_one (sent_as aes (d_client_key d) (d_client_iv d)) (pushed xs) (tt_sent t) /\
      one_to_one (received_as aes (d_server_key d) (d_server_iv d)) (arrived xs) (tt_recv t).
  Lemma close_Ok out s hs rr t : close_transcript aes ghash_fn checked blind pad_rng sha256 parse_body ec_curve cert_key sig_valid out s hs = Ok (rr, t) ->
    exists sent recv h r cf sf ek sg s1, lexec out CCommit s = (s1, Ok (RLogs sent recv)) /\
      fo_hello s = Some h /\ fo_random s = Some r /\ fo_cf s = Some cf /\ fo_sf s = Some sf /\ ephem_of h = Some ek /\
      server_sig cert_key sig_valid r hs = Ok sg /\
      t = TlsTranscript (sp_time h) V1_2 (Some sg) (Some (hs_certs hs)) (CertBinding r (sp_random h) ek) sent recv None None None /\
      verify_transcript t cf sf = Ok tt.
  Proof.
    intros H. unfold close_transcript in H. destruct (lexec out CCommit s) as [s1 o] eqn:E. apply obind_Ok in H as (l & -> & H).
    assert (exists r1, s1 = set_rl r1 s) as [r1 ->] by (unfold ld_exec in E; destruct (rl_step _ _ _ _ _ _ _ _ _ _ _) as [r1 o1]; injection E as <- _; by exists r1).
    apply obind_Ok in H as ([sent recv] & H1 & H). destruct l as [| | |a b]; try discriminate H1. injection H1 as -> ->.
    apply obind_Ok in H as (cf & H2 & H). apply opt_err_Ok in H2. apply obind_Ok in H as (sf & H3 & H). apply opt_err_Ok in H3.
    apply obind_Ok in H as (rd & H4 & H). apply obind_Ok in H as (h & H5 & H). apply obind_Ok in H as (sg & H6 & H). apply obind_Ok in H as (ek & H7 & H).
    apply obind_Ok in H as (t1 & H8 & H). apply map_err_Ok in H8. apply obind_Ok in H as ([] & H9 & H). apply map_err_Ok in H9. injection H as <- <-.
    cbn [set_rl fo_cf fo_sf fo_random fo_hello] in *.
    destruct (fo_random s) as [rd'|]; [|discriminate H4]. injection H4 as ->. destruct (fo_hello s) as [h'|]; [|discriminate H5]. injection H5 as ->.
    destruct (ephem_of h) as [ek'|] eqn:Eek; [|discriminate H7]. injection H7 as ->.
    exists sent, recv, h, rd, cf, sf, ek, sg, (set_rl r1 s). 
    assert (server_sig cert_key sig_valid rd hs = Ok sg) as Hsg by (destruct (server_sig cert_key sig_valid rd hs) as [u|[]|]; try discriminate H6; injection H6 as ->; done).
    split_and!; try done.
    unfold tls_build in H8. cbn [tb_time opt_err obind tb_tls_sent tb_tls_recv parse_opt tb_version tb_signature tb_certs tb_binding tb_records_sent tb_records_recv tb_app_sent tb_app_recv] in H8.
    apply obind_Ok in H8 as (a & Ha & H8). apply obind_Ok in H8 as (b & Hb & H8). injection H8 as <-.
    assert (forall rs o f a, build_records parse_body (Some rs) None o f = Ok a -> a = rs) as Hbr.
    { clear. intros rs o f a H. unfold build_records in H. apply obind_Ok in H as (rs' & H1 & H). apply obind_Ok in H as (? & _ & H). injection H as <-.
      destruct rs; [discriminate H1|]. apply obind_Ok in H1 as (? & _ & H1). by injection H1 as <-. }
    apply Hbr in Ha as ->. by apply Hbr in Hb as ->.
  Qed.
  Lemma recorded_alg a t kind : from_alg a = Ok t -> (exists n, scheme_means n kind a) -> kind <> KeyP384 -> webpki_of_core (core_alg t) = Some a.
  Proof. intros H [n Hn] Hk. destruct Hn; try done; by injection H as <-. Qed.
  Lemma one_to_one_map {A B C} (P : nat -> B -> C -> Prop) (Q : nat -> A -> C -> Prop) (f : A -> B) xs rs :
    (forall i x r, P i (f x) r -> Q i x r) -> one_to_one P (map f xs) rs -> one_to_one Q xs rs.
  Proof.
    intros H [Hl Ho]. split; [by rewrite Hl, map_length|]. intros i x Hx. destruct (Ho i (f x)) as (r & Hr & Hp); [|exists r; split; [done|by apply H]].
    change (map f xs) with (f <$> xs). by rewrite list_lookup_fmap, Hx.
  Qed.
  Lemma one_to_one_rel {A B C} (R : A -> B -> Prop) (P : nat -> B -> C -> Prop) (Q : nat -> A -> C -> Prop) xs ys rs :
    (forall i x y r, R x y -> P i y r -> Q i x r) -> Forall2 R xs ys -> one_to_one P ys rs -> one_to_one Q xs rs.
  Proof.
    intros H Hf [Hl Ho]. split; [by rewrite Hl, (Forall2_length _ _ _ Hf)|]. intros i x Hx. destruct (Forall2_lookup_l _ _ _ _ _ Hf Hx) as (y & Hy & HR).
    destruct (Ho i y Hy) as (r & Hr & Hp). exists r. split; [done|]. by eapply H.
  Qed.

  Context (Hcompress : forall s b, length (compress s b) = 8).
  Context (Haes : aes_ok aes) (Hex : forall k x, exchange k = Some x -> length x = 32) (Hc : config_ok c).
  Lemma close_content pre l out s hs rr t : inv2 pre l -> ld_st l = LActive out s hs -> sizes_ok pre -> (N.of_nat (length pre) + 1 < 2 ^ 62)%N ->
    close_transcript aes ghash_fn checked blind pad_rng sha256 parse_body ec_curve cert_key sig_valid out s hs = Ok (rr, t) -> content pre t.
  Proof.
    intros Hi El Hz Hlen H. unfold inv2 in Hi. rewrite El in Hi. destruct Hi as (r & now & (m & p & r0 & x0 & vms & s' & H1 & H2 & H3 & Hf & H5 & H6 & Hm & H8) & Ha & Hp).
    destruct (close_Ok _ _ _ _ _ H) as (sent & recv & h & r' & cf & sf & ek & sg & s1 & E & Eh & Er & Ecf & Esf & Eek & Esg & -> & Hver).
    destruct (exec_v out CCommit s s1 _ _ Hf ltac:(done) ltac:(done) E) as (s1' & y' & E' & _ & Hy). destruct y' as [| | |sent' recv']; try done.
    destruct Hy as [Hy1 Hy2]. apply forall2_eq in Hy1 as <-. apply forall2_eq in Hy2 as <-. apply exec_Ok in E' as (r1 & E' & _).
    pose proof Hm as (M1 & M2 & M3 & M4 & M5). unfold sizes_ok in Hz. apply Forall_app in Hz as [Z1 Z2].
    assert (Forall (fun x => msg_ok (snd x)) vms) as Hok.
    { apply msgs_ok; [rewrite M4; apply Forall_fmap; eapply Forall_impl; [exact Z1|]; intros u Hu; cbn in *; lia|]. clear -M5 Z2.
      induction M5 as [|u d us ds Hd _ IH]; [constructor|]. apply Forall_cons in Z2 as [Z Z2]. constructor; [|by apply IH]. destruct d as [[[[? ?] ?] ct] ?].
      destruct Hd as (_ & _ & Hs & _). rewrite Hs, !app_length in Z. lia. }
    assert (s' = set_rl (fo_rl s') s) as Es' by (by destruct Hf).
    destruct (logs_lemma iv compress aes ghash_fn checked blind pad_rng sha256 parse_body ec_curve parse_key exchange fin rounds Hcompress Leader c (vms ++ [(0%N, MClose)]) vms m p out r0 x0 s' h r' cf sf r1 sent recv)
      as (now' & hc & hsf & pms & d & C1 & C2 & C3 & C4 & Cw & Cg & Ce & Hd & -> & -> & L1 & L2 & _); try done; try (by rewrite Es').
    { apply Forall_app. split; [done|]. by repeat constructor. }
    { rewrite app_length. cbn. lia. }
    { by exists 0%N, []. }
    rewrite C1 in H8. injection H8 as ->. rewrite M1, Hp in C2. injection C2 as <- <-. cbn [sp_random sp_group sp_key sp_time fst snd] in *.
    apply verify_iff in Hver as (V1 & V2 & V3 & V4). cbn [tt_sent tt_recv] in *. unfold ephem_of in Eek. cbn [sp_group sp_key] in Eek. rewrite Cg, N.eqb_refl in Eek. injection Eek as <-.
    unfold server_sig in Esg. destruct (hs_certs hs) as [|leaf rest] eqn:Ecerts; [done|].
    destruct (verify_determine _ _ leaf _ _) as [al'|e|] eqn:Ev; try discriminate Esg. injection Esg as <-.
    destruct (determine_means _ _ _ _ _ _ Ev) as (kind & a & K1 & K2 & K3 & K4).
    exists r, now, hs, hc, hsf, pms, d, leaf, rest, kind, a, (core_alg al'). cbn [tt_time tt_version tt_binding tt_certs tt_signature tt_sent tt_recv].
    split_and!; try done.
    - by rewrite <- M2.
    - by rewrite <- M3.
    - by rewrite Ecerts.
    - intros Hk. eapply recorded_alg; [exact K4|by eexists|done].
    - rewrite M4 in L1. eapply one_to_one_map; [|exact L1]. intros i x rc (R1 & R2 & R3 & R4 & R5 & R6). split_and!; try done. apply Nat2N.inj. exact R5.
    - eapply one_to_one_rel; [|exact M5|exact L2]. intros i x [[[[ty v] nonce] ct] tag] rc (-> & -> & Hs) (R1 & R2 & R3 & R4 & R5 & R6). subst nonce ct.
      destruct (r_plain rc) as [text|] eqn:Et; [|by destruct R6]. destruct R6 as [R6 _]. exists tag, text. split_and!; try done; apply Hs.
  Qed.

  Lemma ended_quiet now io x l l1 ms a : match ld_st l with LClosed _ _ | LError => True | _ => False end -> lstep now io x l = (l1, ms, Ok a) ->
    quiet [(now, io, x)].
  Proof.
    intros He H. destruct (ld_st l) as [| | | |r t|] eqn:El; try done; destruct x; try done; cbn [ld_step] in H;
      unfold ld_alloc, ld_prepare, ld_cf, ld_sf, ld_push_in, ld_push_out in H; rewrite El in H; discriminate H.
  Qed.
  Lemma ended_quiet_run xs t l l' ms os : ended t l -> lrun xs l = (l', ms, os) -> all_succeed os -> quiet xs.
  Proof.
    revert l ms os. induction xs as [|[[now io] x] xs IH]; intros l ms os He H Hs; [done|].
    destruct (lstep now io x l) as [[l1 ms1] o] eqn:E. destruct (ended_step _ _ _ _ _ _ _ _ _ _ _ _ _ _ _ _ _ _ _ _ _ _ _ _ _ _ He E) as (_ & He1 & _).
    destruct (lrun_cons _ _ _ _ _ _ _ _ _ _ _ _ _ _ _ _ _ _ _ _ _ _ _ _ _ _ _ _ _ E H) as [(-> & -> & -> & ->)|(_ & ms2 & os2 & H2 & -> & ->)].
    { apply Forall_cons in Hs as [[? ?] _]. done. }
    apply Forall_cons in Hs as [[a ->] Hs]. change ((now, io, x) :: xs) with ([(now, io, x)] ++ xs). apply quiet_app; [|exact (IH _ _ _ He1 H2 Hs)].
    eapply ended_quiet; [|exact E]. unfold ended in He. by destruct (ld_st l).
  Qed.
  Lemma content_quiet pre post t : quiet post -> content pre t -> content (pre ++ post) t.
  Proof.
    intros (Q1 & Q2 & Q3 & Q4 & Q5 & Q6). unfold content, allocated, prepared, cf_asked, sf_asked, pushed, arrived in *. rewrite !omap_app, Q1, Q2, Q3, Q4, Q5, Q6, !app_nil_r. done.
  Qed.
  Lemma sizes_left a b : sizes_ok (a ++ b) -> sizes_ok a.
  Proof.
    unfold sizes_ok, pushed, arrived. rewrite !omap_app, !Forall_app. intros [[? _] [? _]]. done.
  Qed.
  Lemma run_content xs pre l l' ms os t : inv2 pre l -> sizes_ok (pre ++ xs) -> (N.of_nat (length (pre ++ xs)) < 2 ^ 62)%N ->
    lrun xs l = (l', ms, os) -> all_succeed os -> Ok (LDone (Some t)) ∈ os -> content (pre ++ xs) t.
  Proof.
    revert pre l ms os. induction xs as [|[[now io] x] xs IH]; intros pre l ms os Hi Hz Hn H Ha Ht.
    { injection H as <- <- <-. by apply elem_of_nil in Ht. }
    destruct (lstep now io x l) as [[l1 ms1] o] eqn:E.
    destruct (lrun_cons _ _ _ _ _ _ _ _ _ _ _ _ _ _ _ _ _ _ _ _ _ _ _ _ _ _ _ _ _ E H) as [(-> & -> & -> & ->)|(_ & ms2 & os2 & H2 & -> & ->)].
    { apply elem_of_list_singleton in Ht. done. }
    apply Forall_cons in Ha as [[a ->] Ha]. destruct (step_inv2 _ _ _ _ _ _ _ _ Hi E) as [[Hi1 Hd]|(-> & -> & out & s & hs & r & t' & El & El1 & Hcl)].
    - replace (pre ++ (now, io, x) :: xs) with ((pre ++ [(now, io, x)]) ++ xs) in * by (by rewrite <- app_assoc). apply (IH _ _ _ _ Hi1 Hz Hn H2 Ha).
      apply elem_of_cons in Ht as [Ht|Ht]; [|done]. injection Ht as <-. by destruct (Hd t).
    - assert (ended (Some t') l1) as He by (unfold ended; by rewrite El1). apply elem_of_cons in Ht as [Ht|Ht]; [done|].
      destruct (ended_run _ _ _ _ _ _ _ _ _ _ _ _ _ _ _ _ _ _ _ _ _ _ _ _ He H2) as (_ & _ & Ht'). apply Ht' in Ht as [= ->].
      apply content_quiet.
      + change ((now, io, LCloseConn) :: xs) with ([(now, io, LCloseConn)] ++ xs). apply quiet_app; [done|]. exact (ended_quiet_run _ _ _ _ _ _ He H2 Ha).
      + eapply close_content; [exact Hi|exact El|by eapply sizes_left| |exact Hcl]. rewrite app_length in Hn. cbn in Hn. lia.
  Qed.
  Lemma C67_lemma xs defer l' ms os t : sizes_ok xs -> (N.of_nat (length xs) < 2 ^ 62)%N ->
    lrun xs (ld_new defer) = (l', ms, os) -> all_succeed os -> Ok (LDone (Some t)) ∈ os -> content xs t.
  Proof. intros Hz Hn. exact (run_content xs [] (ld_new defer) l' ms os t ltac:(done) Hz Hn). Qed.
End Log.
