(** Proofs about whole runs of the follower. *)
From Verif.Lib Require Import Base.
From Verif Require Import TranscriptModel ProofModel CodecModel AttestModel TlsModel AuthModel AuthSpec TagModel TagSpec RecordModel RecordSpec RecordLemmas RecordFlushLemmas RecordHistLemmas PartsModel PartsSpec PartsLemmas
  PrfModel PrfSpec PrfMainLemmas PrfFlushLemmas FollowerModel FollowerSpec FollowerLemmas.

Lemma setup_idle iv compress net m p out : prf_setup iv compress net MsStandard = Ok (m, p, out) -> prf_wants_flush p = false /\ pf_random p = None.
Proof. intros H. destruct net; vm_compute in H; injection H as _ <- _; split; reflexivity. Qed.

Section Accepted.
  Context (aes : list N -> list N -> list N) (ghash_fn : list N -> list N -> list N) (checked : bool) (ek ei dk di : list N) (blind : N -> nat -> N) (pad_rng : nat -> N).
  Notation run := (rl_run aes ghash_fn checked ek ei dk di blind pad_rng).
  Lemma accepted_all cs s s' os : run cs s = (s', os) -> no_failure os ->
    accepted_enc cs os = omap (fun c => match c with CEncrypt t v n p => Some (t, v, n, p) | _ => None end) cs /\
    accepted_dec cs os = omap (fun c => match c with CDecrypt t v n c g => Some (t, v, n, c, g) | _ => None end) cs.
  Proof.
    revert s os. induction cs as [|c cs IH]; intros s os; cbn [rl_run]; [by intros [= <- <-]|].
    destruct (rl_step _ _ _ _ _ _ _ _ _ c s) as [s1 [x|e|]].
    - destruct (run cs s1) as [s2 os2] eqn:E. intros [= <- <-] Hn. apply Forall_cons in Hn as [_ Hn]. destruct (IH _ _ E Hn) as [H1 H2].
      split; destruct c; csimpl; by rewrite ?H1, ?H2.
    - destruct (run cs s1) as [s2 os2]. intros [= <- <-] Hn. apply Forall_cons in Hn as [[? ?] _]. discriminate.
    - intros [= <- <-] Hn. apply Forall_cons in Hn as [[? ?] _]. discriminate.
  Qed.
End Accepted.
Lemma calls_encrypts (pre : list (N * fmsg)) : omap (fun c => match c with CEncrypt t v n p => Some (t, v, n, p) | _ => None end) (concat (map (fun x => rl_calls (snd x)) pre)) = encrypts pre.
Proof.
  induction pre as [|[now x] pre IH]; [done|]. cbn [map concat snd]. rewrite omap_app, IH. by destruct x.
Qed.
Lemma calls_decrypts (pre : list (N * fmsg)) : omap (fun c => match c with CDecrypt t v n c g => Some (t, v, n, c, g) | _ => None end) (concat (map (fun x => rl_calls (snd x)) pre)) = decrypts pre.
Proof.
  induction pre as [|[now x] pre IH]; [done|]. cbn [map concat snd]. rewrite omap_app, IH. by destruct x.
Qed.
Lemma calls_ok (pre : list (N * fmsg)) : Forall (fun x => msg_ok (snd x)) pre -> Forall call_ok (concat (map (fun x => rl_calls (snd x)) pre)).
Proof.
  induction 1 as [|[now x] pre Hx _ IH]; [constructor|]. cbn [map concat snd]. apply Forall_app. split; [|done]. by destruct x; repeat constructor.
Qed.
Lemma calls_length (pre : list (N * fmsg)) : length (concat (map (fun x => rl_calls (snd x)) pre)) <= length pre.
Proof. induction pre as [|[now x] pre IH]; [done|]. cbn [map concat snd]. rewrite app_length. destruct x; cbn; lia. Qed.

Section Run.
  Context (iv : list N) (compress : list N -> list N -> list N).
  Context (aes : list N -> list N -> list N) (ghash_fn : list N -> list N -> list N) (checked : bool) (blind : N -> nat -> N) (pad_rng : nat -> N).
  Context (sha256 : list N -> list N) (parse_body : protocol_version -> N -> list N -> option hs_payload) (ec_curve : list N -> option N).
  Context (parse_key : list N -> bool) (exchange : list N -> option (list N)) (finalize : list N -> bool) (rounds : nat).
  Notation step := (fo_step compress aes ghash_fn checked blind pad_rng parse_key exchange finalize rounds).
  Notation loop := (fo_loop compress aes ghash_fn checked blind pad_rng parse_key exchange finalize rounds).
  Notation alloc := (fo_alloc iv compress aes ghash_fn checked blind pad_rng).
  Notation finish := (fo_finish aes ghash_fn checked blind pad_rng sha256 parse_body ec_curve).
  Notation run := (fo_run iv compress aes ghash_fn checked blind pad_rng sha256 parse_body ec_curve parse_key exchange finalize rounds).
  Notation counted := (counted exchange).
  Notation kept := (kept compress aes ghash_fn checked blind pad_rng).

  Fixpoint fo_steps (out : prf_output) (ms : list (N * fmsg)) (s : fo) : outcome fo_error fo :=
    match ms with
    | [] => Ok s
    | (now, x) :: ms' => let! s := step out now x s in fo_steps out ms' s
    end.
  Lemma fo_steps_snoc out pre now x s : fo_steps out (pre ++ [(now, x)]) s = (let! s := fo_steps out pre s in step out now x s).
  Proof.
    revert s. induction pre as [|[now' x'] pre IH]; intros s; cbn [app fo_steps].
    - cbn [obind]. by destruct (step out now x s).
    - destruct (step out now' x' s) as [s1|e|]; cbn [obind]; [apply IH|done|done].
  Qed.
  Lemma loop_Ok out ms s s' : loop out ms s = Ok s' -> exists pre, handled ms pre /\ fo_steps out pre s = Ok s'.
  Proof.
    revert s. induction ms as [|[now x] ms IH]; intros s H; [discriminate H|].
    assert (x = MClose \/ x <> MClose) as [->|Hx] by (destruct x; (by left) || (by right)).
    { cbn in H. injection H as <-. exists []. split; [|done]. exists now, ms. by split. }
    assert (loop out ((now, x) :: ms) s = (let! s := step out now x s in loop out ms s)) as Hl by (by destruct x).
    rewrite Hl in H. apply obind_Ok in H as (s1 & H1 & H). apply IH in H as (pre & (nw & post & -> & Hpre) & H).
    exists ((now, x) :: pre). split; [exists nw, post; split; [done|by constructor]|]. cbn [fo_steps]. by rewrite H1.
  Qed.
  Lemma counted_steps out pre s0 s : counted [] s0 -> fo_steps out pre s0 = Ok s -> counted pre s.
  Proof.
    intros H0. revert s. induction pre as [|[now x] pre IH] using rev_ind; intros s H; [by injection H as <-|].
    rewrite fo_steps_snoc in H. apply obind_Ok in H as (s1 & H1 & H). eapply counted_step; [by apply IH|exact H].
  Qed.

  Lemma alloc_Ok c out s : alloc c = Ok (out, s) -> exists m p r x,
    prf_setup iv compress (fc_net c) MsStandard = Ok (m, p, out) /\
    (forall ek ei dk di, rl_step aes ghash_fn checked ek ei dk di blind pad_rng
      (CAlloc (fc_sent_records c) (fc_recv_records c) (fc_sent c) (fc_recv_online c) (fc_recv c)) (rl_new Follower) = (r, Ok x)) /\
    s = Fo m p r None None None None.
  Proof.
    unfold fo_alloc. intros H. apply obind_Ok in H as ([[m p] out'] & H1 & H). apply map_err_Ok in H1. apply obind_Ok in H as ([x s1] & H2 & H).
    injection H as -> <-. apply exec_Ok in H2 as (r & H2 & ->). exists m, p, r, x. split; [done|]. split; [|done].
    intros ek ei dk di. erewrite step_keyless; [exact H2|done].
  Qed.
  Lemma counted_start m p r net out : prf_setup iv compress net MsStandard = Ok (m, p, out) -> counted [] (Fo m p r None None None None).
  Proof. intros H. apply setup_idle in H as [_ H]. unfold FollowerLemmas.counted. by cbn. Qed.

  Context (Hcompress : forall s b, length (compress s b) = 8).
  Lemma kept_start ro c m p out r x v d : prf_setup iv compress (fc_net c) MsStandard = Ok (m, p, out) ->
    let al := CAlloc (fc_sent_records c) (fc_recv_records c) (fc_sent c) (fc_recv_online c) (fc_recv c) in
    (forall ek ei dk di, rl_step aes ghash_fn checked ek ei dk di blind pad_rng al (rl_new ro) = (r, Ok x)) ->
    kept m p ro al v d [] (Fo m p r None None None None).
  Proof.
    intros Hs al Hr. split; [|split; [exact (proj1 (setup_idle _ _ _ _ _ _ Hs))|split; [done|split; [done|]]]].
    - exists []. split; [done|]. split; [constructor|]. cbn. split; [|constructor].
      eapply (step_cold aes ghash_fn checked blind pad_rng [] [] [] [] [] [] [] []); [|..|exact (Hr [] [] [] [])]; done.
    - exists [Ok x]. cbn [map concat rl_run]. rewrite Hr. split; [done|]. repeat constructor. by eexists.
  Qed.
  Lemma kept_steps ro c m p out al v d pre s0 s : prf_setup iv compress (fc_net c) MsStandard = Ok (m, p, out) ->
    length (tv_secret v) = 32 -> is_derived iv compress MsStandard v d -> kept m p ro al v d [] s0 ->
    Forall (fun x => msg_agrees exchange v (snd x)) pre -> fo_steps out pre s0 = Ok s -> kept m p ro al v d pre s.
  Proof.
    intros Hs Hl Hd H0. revert s. induction pre as [|[now x] pre IH] using rev_ind; intros s Hpre H; [by injection H as <-|].
    apply Forall_app in Hpre as [Hpre Hx]. apply Forall_cons in Hx as [Hx _].
    rewrite fo_steps_snoc in H. apply obind_Ok in H as (s1 & H1 & H). eapply kept_step; [exact Hcompress|exact Hs|exact Hl|exact Hd|by apply IH|exact Hx|exact H].
  Qed.
  (** Some derived values exist. *)
  Lemma derived_exist v : length (tv_secret v) = 32 -> exists d, is_derived iv compress MsStandard v d.
  Proof.
    intros Hl. destruct (C49_setup_lemma iv compress NetNormal MsStandard) as (m & p & out & Hs).
    destruct (C49_sound iv compress Hcompress NetNormal MsStandard v [] m p out m p Hl Hs) as (d & Hd & _); [constructor|done|by exists d].
  Qed.

  Lemma finish_Ok out s t : finish out s = Ok t -> exists sent recv h r cf sf ek rr,
    rl_step aes ghash_fn checked (key_of (fo_vm s) (po_ck out)) (key_of (fo_vm s) (po_civ out)) (key_of (fo_vm s) (po_sk out))
      (key_of (fo_vm s) (po_siv out)) blind pad_rng CCommit (fo_rl s) = (rr, Ok (RLogs sent recv)) /\
    fo_hello s = Some h /\ fo_random s = Some r /\ fo_cf s = Some cf /\ fo_sf s = Some sf /\ ephem_of h = Some ek /\
    t = TlsTranscript (sp_time h) V1_2 None None (CertBinding r (sp_random h) ek) sent recv None None None /\
    verify_transcript t cf sf = Ok tt.
  Proof.
    unfold fo_finish. intros H. apply obind_Ok in H as ([l s1] & H1 & H). apply exec_Ok in H1 as (rr & H1 & ->).
    apply obind_Ok in H as ([sent recv] & H2 & H). destruct l as [| | |a b]; try discriminate H2. injection H2 as -> ->.
    apply obind_Ok in H as (h & H3 & H). apply opt_err_Ok in H3. apply obind_Ok in H as (r & H4 & H). apply opt_err_Ok in H4.
    apply obind_Ok in H as (cf & H5 & H). apply opt_err_Ok in H5. apply obind_Ok in H as (sf & H6 & H). apply opt_err_Ok in H6.
    apply obind_Ok in H as (ek & H7 & H). destruct (ephem_of h) as [ek'|] eqn:Ek; [|discriminate H7]. injection H7 as ->.
    apply obind_Ok in H as (t' & H8 & H). apply map_err_Ok in H8. apply obind_Ok in H as ([] & H9 & H). apply map_err_Ok in H9. injection H as ->.
    exists sent, recv, h, r, cf, sf, ek, rr. split_and!; try done.
    unfold tls_build in H8. cbn [tb_time opt_err obind tb_tls_sent tb_tls_recv parse_opt tb_version tb_signature tb_certs tb_binding tb_records_sent tb_records_recv tb_app_sent tb_app_recv] in H8.
    apply obind_Ok in H8 as (a & Ha & H8). apply obind_Ok in H8 as (b & Hb & H8). injection H8 as <-.
    assert (forall rs o f a, build_records parse_body (Some rs) None o f = Ok a -> a = rs) as Hbr.
    { clear. intros rs o f a H. unfold build_records in H. apply obind_Ok in H as (rs' & H1 & H). apply obind_Ok in H as (? & _ & H). injection H as <-.
      destruct rs; [discriminate H1|]. apply obind_Ok in H1 as (? & _ & H1). by injection H1 as <-. }
    apply Hbr in Ha as ->. apply Hbr in Hb as ->. done.
  Qed.

  (** What was agreed on and logged, when the record layer has been committed. *)
  Lemma logs_lemma ro c ms pre m p out r0 x0 s h r cf sf rr sent recv : aes_ok aes -> (forall k x, exchange k = Some x -> length x = 32) -> config_ok c ->
    Forall (fun x => msg_ok (snd x)) ms -> (N.of_nat (length ms) < 2 ^ 62)%N -> handled ms pre ->
    prf_setup iv compress (fc_net c) MsStandard = Ok (m, p, out) ->
    (forall ek ei dk di, rl_step aes ghash_fn checked ek ei dk di blind pad_rng
      (CAlloc (fc_sent_records c) (fc_recv_records c) (fc_sent c) (fc_recv_online c) (fc_recv c)) (rl_new ro) = (r0, Ok x0)) ->
    fo_steps out pre (Fo m p r0 None None None None) = Ok s ->
    rl_step aes ghash_fn checked (key_of (fo_vm s) (po_ck out)) (key_of (fo_vm s) (po_civ out)) (key_of (fo_vm s) (po_sk out))
      (key_of (fo_vm s) (po_siv out)) blind pad_rng CCommit (fo_rl s) = (rr, Ok (RLogs sent recv)) ->
    fo_hello s = Some h -> fo_random s = Some r -> fo_cf s = Some cf -> fo_sf s = Some sf ->
    exists now hc hs pms d, client_randoms pre = [r] /\ hellos pre = [(now, h)] /\ cf_hashes pre = [hc] /\ sf_hashes pre = [hs] /\
      within 5 (sp_time h) now /\ sp_group h = secp256r1 /\ exchange (sp_key h) = Some pms /\
      is_derived iv compress MsStandard (connection_values pms r h hc hs) d /\ cf = d_cf d /\ sf = d_sf d /\
      one_to_one (logged_sent aes (d_client_key d) (d_client_iv d) blind) (encrypts pre) sent /\
      one_to_one (logged_recv aes (d_server_key d) (d_server_iv d) ro) (decrypts pre) recv /\
      exists ek ei dk di s' os, rl_run aes ghash_fn checked ek ei dk di blind pad_rng
        (CAlloc (fc_sent_records c) (fc_recv_records c) (fc_sent c) (fc_recv_online c) (fc_recv c) ::
         concat (map (fun x => rl_calls (snd x)) pre)) (rl_new ro) = (s', os) /\ no_failure os.
  Proof.
    intros Haes Hex Hc Hms Hlen Hpre Hs Hr0 H1 Hcommit Eh Er Ecf Esf.
    pose proof (counted_steps _ _ _ _ (counted_start _ _ r0 _ _ Hs) H1) as Hcount. pose proof (counted_agrees _ _ _ Hcount) as Hagree.
    destruct Hcount as (_ & C1 & C2 & C3 & C4). rewrite Er in C1. rewrite Eh in C2. rewrite Ecf in C3. rewrite Esf in C4. cbn in C1.
    destruct C2 as (now & pms & C2 & Cw & Cg & Ce & _). destruct C3 as [hc C3]. destruct C4 as [hs C4].
    assert (values_of exchange pre = connection_values pms r h hc hs) as Hv by (unfold values_of, connection_values; rewrite C1, C2, C3, C4; cbn; by rewrite Ce).
    rewrite Hv in Hagree. set (v := connection_values pms r h hc hs) in *.
    assert (length (tv_secret v) = 32) as Hl by (eapply Hex; exact Ce). destruct (derived_exist v Hl) as [d Hd].
    assert (kept m p ro (CAlloc (fc_sent_records c) (fc_recv_records c) (fc_sent c) (fc_recv_online c) (fc_recv c)) v d pre s) as Hk.
    { eapply kept_steps; [exact Hs|exact Hl|exact Hd|eapply kept_start; [exact Hs|exact Hr0]|exact Hagree|exact H1]. }
    destruct (keys_known iv compress aes ghash_fn checked blind pad_rng _ _ _ _ Hcompress Hs _ _ _ _ _ _ _ Hl Hd Hk Eh) as (K1 & K2 & K3 & K4). rewrite K1, K2, K3, K4 in Hcommit.
    destruct Hk as (_ & _ & Kcf & Ksf & os & Hrl & Hos). apply Kcf in Ecf as ->. apply Ksf in Esf as ->.
    set (al := CAlloc (fc_sent_records c) (fc_recv_records c) (fc_sent c) (fc_recv_online c) (fc_recv c)) in *.
    pose proof (rl_run_snoc _ _ _ _ _ _ _ _ _ _ _ _ _ _ _ _ Hrl Hos Hcommit) as Hfull.
    assert (no_failure (os ++ [Ok (RLogs sent recv)])) as Hnf by (apply Forall_app; split; [done|repeat constructor; by eexists]).
    pose proof Hpre as (nw & post & Ems & _).
    assert (Forall (fun x => msg_ok (snd x)) pre) as Hmp by (rewrite Ems in Hms; by apply Forall_app in Hms as [? _]).
    assert (length pre <= length ms) as Hlp by (rewrite Ems, app_length; lia).
    destruct (C40_commit_lemma aes ghash_fn checked _ _ _ _ blind pad_rng Haes ro _ _ _ sent recv Hfull) as [L1 L2].
    { constructor; [|by apply calls_ok]. exact Hc. }
    { cbn [length]. pose proof (calls_length pre). lia. }
    { exact Hnf. }
    { by rewrite last_snoc. }
    destruct (accepted_all _ _ _ _ _ _ _ _ _ _ _ _ _ Hfull Hnf) as [A1 A2]. rewrite A1 in L1. rewrite A2 in L2.
    change (al :: concat (map (fun x : N * fmsg => rl_calls (snd x)) pre)) with ([al] ++ concat (map (fun x : N * fmsg => rl_calls (snd x)) pre)) in L1, L2.
    rewrite !omap_app, calls_encrypts in L1. rewrite !omap_app, calls_decrypts in L2. cbn [omap list_omap app al] in L1, L2. rewrite app_nil_r in L1, L2.
    exists now, hc, hs, pms, d. split_and!; try done. do 6 eexists. split; [exact Hrl|exact Hos].
  Qed.

  Lemma C52_lemma c ms t : aes_ok aes -> (forall k x, exchange k = Some x -> length x = 32) -> config_ok c ->
    Forall (fun x => msg_ok (snd x)) ms -> (N.of_nat (length ms) < 2 ^ 62)%N -> run c ms = Ok t ->
    exists pre r now h hc hs pms d, handled ms pre /\ client_randoms pre = [r] /\ hellos pre = [(now, h)] /\ cf_hashes pre = [hc] /\ sf_hashes pre = [hs] /\
      within 5 (sp_time h) now /\ sp_group h = secp256r1 /\ exchange (sp_key h) = Some pms /\
      tt_time t = sp_time h /\ tt_version t = V1_2 /\ tt_binding t = CertBinding r (sp_random h) (EphemKey (sp_key h)) /\
      tt_signature t = None /\ tt_certs t = None /\
      is_derived iv compress MsStandard (connection_values pms r h hc hs) d /\
      finished_with (tt_sent t) (d_cf d) /\ finished_with (tt_recv t) (d_sf d) /\ ends_acceptably (tt_sent t) /\ ends_acceptably (tt_recv t) /\
      one_to_one (logged_sent aes (d_client_key d) (d_client_iv d) blind) (encrypts pre) (tt_sent t) /\
      one_to_one (logged_recv aes (d_server_key d) (d_server_iv d) Follower) (decrypts pre) (tt_recv t).
  Proof.
    intros Haes Hex Hc Hms Hlen H. unfold fo_run in H. apply obind_Ok in H as ([out s0] & H0 & H). apply obind_Ok in H as (s & H1 & H).
    apply alloc_Ok in H0 as (m & p & rl0 & x0 & Hs & Hr0 & ->). apply loop_Ok in H1 as (pre & Hpre & H1).
    apply finish_Ok in H as (sent & recv & h & r & cf & sf & ek & rr & Hcommit & Eh & Er & Ecf & Esf & Eek & Et & Hver).
    destruct (logs_lemma Follower c ms pre m p out rl0 x0 s h r cf sf rr sent recv) as (now & hc & hs & pms & d & C1 & C2 & C3 & C4 & Cw & Cg & Ce & Hd & -> & -> & L1 & L2 & _); try done.
    apply verify_iff in Hver as (V1 & V2 & V3 & V4). unfold ephem_of in Eek. rewrite Cg, N.eqb_refl in Eek. injection Eek as <-.
    exists pre, r, now, h, hc, hs, pms, d. subst t. cbn in *. split_and!; done.
  Qed.
End Run.
