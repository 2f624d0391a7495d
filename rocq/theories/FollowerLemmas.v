(** Proofs about the follower. *)
From Verif.Lib Require Import Base.
From Verif Require Import TranscriptModel ProofModel CodecModel AttestModel TlsModel AuthModel TagModel TagSpec RecordModel RecordSpec PartsModel PartsSpec PartsLemmas
  PrfModel PrfSpec PrfMainLemmas PrfFlushLemmas FollowerModel FollowerSpec.

(** ** Lists of messages *)
Lemma client_randoms_app a b : client_randoms (a ++ b) = client_randoms a ++ client_randoms b.
Proof. apply omap_app. Qed.
Lemma hellos_app a b : hellos (a ++ b) = hellos a ++ hellos b.
Proof. apply omap_app. Qed.
Lemma cf_hashes_app a b : cf_hashes (a ++ b) = cf_hashes a ++ cf_hashes b.
Proof. apply omap_app. Qed.
Lemma sf_hashes_app a b : sf_hashes (a ++ b) = sf_hashes a ++ sf_hashes b.
Proof. apply omap_app. Qed.
Lemma encrypts_app a b : encrypts (a ++ b) = encrypts a ++ encrypts b.
Proof. apply omap_app. Qed.
Lemma decrypts_app a b : decrypts (a ++ b) = decrypts a ++ decrypts b.
Proof. apply omap_app. Qed.

Lemma map_err_Ok {E E' A} (f : E -> E') (o : outcome E A) a : map_err f o = Ok a <-> o = Ok a.
Proof. destruct o; cbn; split; congruence. Qed.
Lemma opt_err_Ok {E A} (e : E) (o : option A) a : opt_err e o = Ok a <-> o = Some a.
Proof. destruct o; cbn; split; congruence. Qed.

Lemma abs_diff_within a b : (max_time_diff <? abs_diff a b)%N = false <-> within 5 a b.
Proof. unfold abs_diff, max_time_diff, within. rewrite N.ltb_ge. destruct (a <? b)%N eqn:E; [apply N.ltb_lt in E|apply N.ltb_ge in E]; lia. Qed.

(** ** Flushing the key derivation *)
Section Flush.
  Context (compress : list N -> list N -> list N).
  Definition flushes (cs : list prf_call) : Prop := Forall (fun c => c = CPrfFlush \/ c = CExecute) cs.
  Lemma prf_run_app cs cs' m p : prf_run compress (cs ++ cs') m p = (let! (m, p) := prf_run compress cs m p in prf_run compress cs' m p).
  Proof.
    revert m p. induction cs as [|c cs IH]; intros m p; [done|]. cbn [app prf_run].
    destruct (prf_call_step compress c m p) as [[m1 p1]|e|]; cbn [obind]; [apply IH|done|done].
  Qed.
  Lemma flush_all_calls n m p m' p' : flush_all compress n m p = Ok (Some (m', p')) ->
    prf_wants_flush p' = false /\ exists cs, flushes cs /\ prf_run compress cs m p = Ok (m', p').
  Proof.
    revert m p. induction n as [|n IH]; intros m p; cbn [flush_all]; destruct (prf_wants_flush p) eqn:E; intros H; try discriminate H.
    - injection H as <- <-. split; [done|]. exists []. split; [constructor|done].
    - apply obind_Ok in H as ([m1 p1] & H1 & H2). apply IH in H2 as (Hw & cs & Hcs & H2). split; [done|].
      exists (CPrfFlush :: CExecute :: cs). split; [apply Forall_cons_2; [by left|apply Forall_cons_2; [by right|done]]|]. cbn [prf_run prf_call_step]. rewrite H1. cbn [obind]. exact H2.
    - injection H as <- <-. split; [done|]. exists []. split; [constructor|done].
  Qed.
  Lemma flush_all_idle n m p : prf_wants_flush p = false -> flush_all compress n m p = Ok (Some (m, p)).
  Proof. intros H. destruct n; cbn [flush_all]; by rewrite H. Qed.
  Lemma flush_all_mono n n' m p x : n <= n' -> flush_all compress n m p = Ok (Some x) -> flush_all compress n' m p = Ok (Some x).
  Proof.
    revert n' m p. induction n as [|n IH]; intros n' m p Hn; cbn [flush_all]; destruct (prf_wants_flush p) eqn:E; intros H; try discriminate H.
    - destruct n'; cbn [flush_all]; by rewrite E.
    - destruct n' as [|n']; [lia|]. cbn [flush_all]. rewrite E. apply obind_Ok in H as ([m1 p1] & H1 & H2). rewrite H1. cbn [obind]. apply IH; [lia|done].
    - destruct n'; cbn [flush_all]; by rewrite E.
  Qed.
End Flush.
Lemma flushes_agree v cs : flushes cs -> Forall (call_agrees v) cs.
Proof. intros H. eapply Forall_impl; [exact H|]. intros c [-> | ->]; exact I. Qed.

(** ** Derived values are unique *)
Lemma derived_unique iv compress k v d d' : is_derived iv compress k v d -> is_derived iv compress k v d' -> d = d'.
Proof.
  destruct d as [ck sk ci si cf sf], d' as [ck' sk' ci' si' cf' sf']. unfold is_derived. cbn.
  intros (A1 & A2 & A3 & A4 & A5 & -> & ->) (B1 & B2 & B3 & B4 & B5 & -> & ->). rewrite <- B5 in A5.
  apply app_inj_1 in A5 as [-> A5]; [|lia]. apply app_inj_1 in A5 as [-> A5]; [|lia]. apply app_inj_1 in A5 as [-> ->]; [|lia]. done.
Qed.

(** ** The record layer *)
Section Rl.
  Context (aes : list N -> list N -> list N) (ghash_fn : list N -> list N -> list N) (checked : bool) (blind : N -> nat -> N) (pad_rng : nat -> N).
  Notation run ek ei dk di := (rl_run aes ghash_fn checked ek ei dk di blind pad_rng).
  Notation step ek ei dk di := (rl_step aes ghash_fn checked ek ei dk di blind pad_rng).
  Lemma rl_run_snoc ek ei dk di cs c s s1 os s2 x : run ek ei dk di cs s = (s1, os) -> no_failure os ->
    step ek ei dk di c s1 = (s2, Ok x) -> run ek ei dk di (cs ++ [c]) s = (s2, os ++ [Ok x]).
  Proof.
    revert s os. induction cs as [|c' cs IH]; intros s os; cbn [rl_run app].
    - intros [= <- <-] _ H. by rewrite H.
    - intros H Hn Hs. destruct (step ek ei dk di c' s) as [s' o] eqn:E. destruct o as [y|e|].
      + destruct (run ek ei dk di cs s') as [s'' os'] eqn:E'. injection H as <- <-. apply Forall_cons in Hn as [_ Hn].
        by rewrite (IH s' os' E' Hn Hs).
      + destruct (run ek ei dk di cs s') as [s'' os'] eqn:E'. injection H as <- <-. apply Forall_cons in Hn as [[? ?] _]. discriminate.
      + injection H as <- <-. apply Forall_cons in Hn as [[? ?] _]. discriminate.
  Qed.
  Definition gcm_cold (g : gcm) : Prop := match g with GReady _ _ _ => False | _ => True end.
  (** Not set up. *)
  Definition rl_cold (s : rl) : Prop := gcm_cold (rl_enc s) /\ gcm_cold (rl_dec s).

  Lemma encrypt_cold ek ei r ops g g' x : gcm_cold g -> encrypt_mpc aes checked ek ei blind r ops g <> (g', Ok x).
  Proof.
    intros Hg H. destruct ops as [|op ops].
    - unfold encrypt_mpc, sbind in H. cbn in H. destruct g; try discriminate H. contradiction Hg.
    - assert (exists o g1, encrypt_one aes checked ek ei blind r op g = (g1, o) /\ (o = Panic \/ exists e, o = Err e)) as (o & g1 & Ho & Hb).
      { unfold encrypt_one, apply_keystream_mpc, take_keystream_mpc, sbind. destruct g; try contradiction Hg;
        (destruct (eo_private op); [|destruct (eo_plain op)]; do 2 eexists; (split; [reflexivity|right; by eexists])). }
      unfold encrypt_mpc, sbind in H. cbn [encrypt_loop] in H. unfold sbind in H. rewrite Ho in H.
      destruct Hb as [->|[e ->]]; discriminate H.
  Qed.
  Lemma flush_cold ek ei dk di ek' ei' dk' di' b s s' : rl_cold s ->
    rl_flush aes ghash_fn checked ek ei dk di blind b s = (s', Ok tt) ->
    rl_flush aes ghash_fn checked ek' ei' dk' di' blind b s = (s', Ok tt) /\ rl_cold s'.
  Proof.
    intros [He Hd]. unfold rl_flush. destruct (rl_st s) as [|otp sent recv| |]; try discriminate.
    destruct (if b then (rl_decrypt s, []) else until_app (rl_decrypt s)) as [dops rest].
    assert (rl_enc (set_bufs [] rest s) = rl_enc s) as Hes by done.
    destruct (rl_encrypt s) as [|op ops] eqn:Eo; destruct dops as [|dop dops].
    1: { intros [= <-]. split; [done|]. split; assumption. }
    all: (intros H; exfalso; revert H; generalize dependent (set_bufs [] rest s); intros s1 Hes; unfold sbind at 1;
      match goal with |- context [match ?m s1 with _ => _ end] => destruct (m s1) as [s2 [u|e|]] eqn:E2 end; [|discriminate..]).
    all: assert (rl_enc s2 = rl_enc s1) as Hes2 by
      (destruct b; [|by injection E2 as <-]; cbn zeta in E2; unfold sbind, slift in E2;
       destruct (lift_panic _) as [tot|e2|]; try discriminate E2; destruct (_ <? tot)%N; [discriminate E2|]; by injection E2 as <-).
    all: (unfold sbind at 1; unfold on_enc; destruct (encrypt_mpc _ _ _ _ _ _ _ (rl_enc s2)) as [g [u'|e|]] eqn:Ee; [|discriminate..]).
    all: (exfalso; eapply encrypt_cold; [|exact Ee]; by rewrite Hes2, Hes).
  Qed.

  (** Calls that need no keys. *)
  Definition keyless (c : rl_call) : bool := match c with CFlush _ | CCommit => false | _ => true end.
  Lemma step_keyless ek ei dk di ek' ei' dk' di' c s : keyless c = true -> step ek ei dk di c s = step ek' ei' dk' di' c s.
  Proof. destruct c; intros H; (reflexivity || discriminate H). Qed.
  Lemma step_flush ek ei dk di b s s' x : step ek ei dk di (CFlush b) s = (s', Ok x) ->
    x = RUnit /\ rl_flush aes ghash_fn checked ek ei dk di blind b s = (s', Ok tt).
  Proof.
    cbn [rl_step]. unfold sbind. destruct (rl_flush _ _ _ _ _ _ _ _ b s) as [s1 [[]|e|]]; intros H; try discriminate H.
    injection H as <- <-. done.
  Qed.
  (** Before the set up, calls do not depend on the keys. *)
  Lemma step_cold ek ei dk di ek' ei' dk' di' c s s' x : rl_cold s -> c <> CSetup -> c <> CCommit ->
    step ek ei dk di c s = (s', Ok x) -> step ek' ei' dk' di' c s = (s', Ok x) /\ rl_cold s'.
  Proof.
    intros Hc Hs Hm H. split.
    - destruct (keyless c) eqn:E; [by rewrite (step_keyless ek' ei' dk' di' ek ei dk di)|]. destruct c; try discriminate E; [|done].
      apply step_flush in H as [-> H]. apply (flush_cold _ _ _ _ ek' ei' dk' di') in H as [H _]; [|done]. cbn [rl_step]. unfold sbind. by rewrite H.
    - destruct Hc as [He Hd]. destruct c; try done.
      + cbn [rl_step] in H. unfold sbind at 1 in H. destruct (rl_alloc _ _ _ _ _ _ _ s) as [s1 [u|e|]] eqn:E; try discriminate H. injection H as <- _.
        unfold rl_alloc in E. destruct (rl_st s); try discriminate E. unfold smod, sbind, on_enc, on_dec, slift in E.
        cbn [set_st rl_enc rl_dec set_enc] in E.
        destruct (gcm_alloc checked sent_records sent_len (rl_enc s)) as [g1 [u1|e1|]] eqn:E1; try discriminate E.
        cbn [set_st rl_enc rl_dec set_enc] in E.
        destruct (gcm_alloc checked recv_records recv_online (rl_dec s)) as [g2 [u2|e2|]] eqn:E2; try discriminate E.
        repeat (match type of E with context [lift_panic ?m] => destruct (lift_panic m); try discriminate E end).
        injection E as <- _. split; cbn; [clear -E1|clear -E2].
        * unfold gcm_alloc in E1. destruct (rl_enc s); try (injection E1 as <- _; exact I). destruct (umul _ _ _) as [|[]|]; by injection E1 as <- _.
        * unfold gcm_alloc in E2. destruct (rl_dec s); try (injection E2 as <- _; exact I). destruct (umul _ _ _) as [|[]|]; by injection E2 as <- _.
      + cbn [rl_step] in H. unfold rl_start, smod, sbind, sret in H. injection H as <- _. done.
      + cbn [rl_step] in H. unfold sbind in H. destruct (push_encrypt _ _ _ _ _ s) as [s1 [u|e|]] eqn:E; try discriminate H. injection H as <- _.
        unfold push_encrypt in E. destruct (_ <=? _); [discriminate E|]. destruct (uadd _ _ _) as [tot|[]|]; try discriminate E.
        destruct (_ <? _)%N; [discriminate E|]. destruct (enc_op_new _ _ _ _ _ _ _ _); try discriminate E. injection E as <- _. done.
      + cbn [rl_step] in H. unfold sbind in H. destruct (push_decrypt _ _ _ _ _ _ s) as [s1 [u|e|]] eqn:E; try discriminate H. injection H as <- _.
        unfold push_decrypt in E. destruct (_ <=? _); [discriminate E|]. destruct (uadd _ _ _) as [tot|[]|]; try discriminate E.
        destruct (_ <? _)%N; [discriminate E|]. injection E as <- _. done.
      + apply step_flush in H as [_ H]. apply (flush_cold ek ei dk di ek ei dk di) in H as [_ H]; done.
      + cbn [rl_step] in H. unfold sbind, next_encrypted in H. destruct (rl_encrypted s); [by injection H as <- _|].
        destruct (_ && _); by injection H as <- _.
      + cbn [rl_step] in H. unfold sbind, next_decrypted in H. destruct (rl_decrypted s); [by injection H as <- _|].
        destruct (_ && _); by injection H as <- _.
  Qed.
End Rl.

(** ** The invariant *)
Section Inv.
  Context (iv : list N) (compress : list N -> list N -> list N).
  Context (aes : list N -> list N -> list N) (ghash_fn : list N -> list N -> list N) (checked : bool) (blind : N -> nat -> N) (pad_rng : nat -> N).
  Context (sha256 : list N -> list N) (parse_body : protocol_version -> N -> list N -> option hs_payload) (ec_curve : list N -> option N).
  Context (parse_key : list N -> bool) (exchange : list N -> option (list N)) (finalize : list N -> bool) (rounds : nat).
  Notation exec := (rl_exec aes ghash_fn checked blind pad_rng).
  Notation step := (fo_step compress aes ghash_fn checked blind pad_rng parse_key exchange finalize rounds).
  Notation loop := (fo_loop compress aes ghash_fn checked blind pad_rng parse_key exchange finalize rounds).
  Notation flush := (flush_prf compress rounds).

  (** What the handshake's messages were, as far as they are remembered. *)
  Definition counted (pre : list (N * fmsg)) (s : fo) : Prop :=
    pf_random (fo_prf s) = fo_random s /\ client_randoms pre = option_list (fo_random s) /\
    match fo_hello s with
    | None => hellos pre = []
    | Some h => exists now pms, hellos pre = [(now, h)] /\ within 5 (sp_time h) now /\ sp_group h = secp256r1 /\ exchange (sp_key h) = Some pms /\ fo_random s <> None
    end /\
    match fo_cf s with None => cf_hashes pre = [] | Some _ => exists h, cf_hashes pre = [h] end /\
    match fo_sf s with None => sf_hashes pre = [] | Some _ => exists h, sf_hashes pre = [h] end.

  Lemma exec_Ok out c s x s' : exec out c s = Ok (x, s') ->
    exists r, rl_step aes ghash_fn checked (key_of (fo_vm s) (po_ck out)) (key_of (fo_vm s) (po_civ out)) (key_of (fo_vm s) (po_sk out))
      (key_of (fo_vm s) (po_siv out)) blind pad_rng c (fo_rl s) = (r, Ok x) /\ s' = set_rl r s.
  Proof. unfold rl_exec. destruct (rl_step _ _ _ _ _ _ _ _ _ _ _) as [r [y|e|]]; intros H; try discriminate H. injection H as <- <-. by exists r. Qed.
  Lemma flush_Ok s s' : flush s = Ok s' -> exists m p, flush_all compress rounds (fo_vm s) (fo_prf s) = Ok (Some (m, p)) /\ s' = set_prf m p s.
  Proof.
    unfold flush_prf. intros H. apply obind_Ok in H as ([[m p]|] & H & H2); [|discriminate H2]. apply map_err_Ok in H. injection H2 as <-. by exists m, p.
  Qed.
  (** One hello. *)
  Lemma on_hello_Ok out now h s s' : on_hello compress aes ghash_fn checked blind pad_rng parse_key exchange finalize rounds out now h s = Ok s' ->
    fo_hello s = None /\ within 5 (sp_time h) now /\ sp_group h = secp256r1 /\
    exists p pms m m2 p2 r x, set_server_random (fo_prf s) (sp_random h) = Ok p /\ exchange (sp_key h) = Some pms /\
      vm_assign (fo_vm s) 0 pms = Ok m /\ flush_all compress rounds m p = Ok (Some (m2, p2)) /\
      rl_step aes ghash_fn checked (key_of m2 (po_ck out)) (key_of m2 (po_civ out)) (key_of m2 (po_sk out))
        (key_of m2 (po_siv out)) blind pad_rng CSetup (fo_rl s) = (r, Ok x) /\
      s' = Fo m2 p2 r (fo_random s) (Some h) (fo_cf s) (fo_sf s).
  Proof.
    unfold on_hello. destruct (bool_decide (is_Some (fo_hello s))) eqn:E1; [discriminate|]. destruct (max_time_diff <? _)%N eqn:E2; [discriminate|].
    intros H. apply obind_Ok in H as (s1 & H1 & H). unfold with_prf in H1. apply obind_Ok in H1 as (p & H1 & H1'). apply map_err_Ok in H1. injection H1' as <-.
    destruct (sp_group h =? secp256r1)%N eqn:E3; [|discriminate H]. destruct (parse_key (sp_key h)); [|discriminate H]. cbn [negb] in H.
    apply obind_Ok in H as (pms & H2 & H). apply opt_err_Ok in H2. apply obind_Ok in H as (m & H3 & H). apply map_err_Ok in H3.
    apply obind_Ok in H as (s2 & H4 & H). apply flush_Ok in H4 as (m2 & p2 & H4 & ->). destruct (finalize (sp_key h)); [|discriminate H]. cbn [negb] in H.
    apply obind_Ok in H as ([x s3] & H5 & H). apply exec_Ok in H5 as (r & H5 & ->). injection H as <-.
    apply bool_decide_eq_false in E1. apply N.eqb_eq in E3. apply abs_diff_within in E2.
    split; [by destruct (fo_hello s); [destruct E1|]|]. split; [done|]. split; [done|]. by exists p, pms, m, m2, p2, r, x.
  Qed.
  Lemma on_cf_Ok out hash s s' : on_cf compress rounds out hash s = Ok s' ->
    fo_cf s = None /\ exists p m2 p2 vd, set_cf_hash (fo_prf s) hash = Ok p /\ flush_all compress rounds (fo_vm s) p = Ok (Some (m2, p2)) /\
      vm_decoded m2 (po_cf out) = Some vd /\ s' = Fo m2 p2 (fo_rl s) (fo_random s) (fo_hello s) (Some vd) (fo_sf s).
  Proof.
    unfold on_cf. destruct (bool_decide (is_Some (fo_cf s))) eqn:E1; [discriminate|]. intros H.
    apply obind_Ok in H as (s1 & H1 & H). unfold with_prf in H1. apply obind_Ok in H1 as (p & H1 & H1'). apply map_err_Ok in H1. injection H1' as <-.
    apply obind_Ok in H as (s2 & H4 & H). apply flush_Ok in H4 as (m2 & p2 & H4 & ->). apply obind_Ok in H as (vd & H5 & H). apply opt_err_Ok in H5.
    injection H as <-. apply bool_decide_eq_false in E1. split; [by destruct (fo_cf s); [destruct E1|]|]. by exists p, m2, p2, vd.
  Qed.
  Lemma on_sf_Ok out hash s s' : on_sf compress rounds out hash s = Ok s' ->
    fo_sf s = None /\ exists p m2 p2 vd, set_sf_hash (fo_prf s) hash = Ok p /\ flush_all compress rounds (fo_vm s) p = Ok (Some (m2, p2)) /\
      vm_decoded m2 (po_sf out) = Some vd /\ s' = Fo m2 p2 (fo_rl s) (fo_random s) (fo_hello s) (fo_cf s) (Some vd).
  Proof.
    unfold on_sf. destruct (bool_decide (is_Some (fo_sf s))) eqn:E1; [discriminate|]. intros H.
    apply obind_Ok in H as (s1 & H1 & H). unfold with_prf in H1. apply obind_Ok in H1 as (p & H1 & H1'). apply map_err_Ok in H1. injection H1' as <-.
    apply obind_Ok in H as (s2 & H4 & H). apply flush_Ok in H4 as (m2 & p2 & H4 & ->). apply obind_Ok in H as (vd & H5 & H). apply opt_err_Ok in H5.
    injection H as <-. apply bool_decide_eq_false in E1. split; [by destruct (fo_sf s); [destruct E1|]|]. by exists p, m2, p2, vd.
  Qed.
  (** The calls to the record layer that a message makes. *)
  Definition rl_calls (x : fmsg) : list rl_call :=
    match x with
    | MServerHello _ => [CSetup]
    | MEncrypt t v n p => [CEncrypt t v n p]
    | MDecrypt t v n c g => [CDecrypt t v n c g]
    | MStart => [CStart]
    | MFlush b => [CFlush b]
    | _ => []
    end.
  Lemma step_rl_Ok out now x s s' c : rl_calls x = [c] -> (forall h, x <> MServerHello h) -> step out now x s = Ok s' ->
    exists r y, rl_step aes ghash_fn checked (key_of (fo_vm s) (po_ck out)) (key_of (fo_vm s) (po_civ out)) (key_of (fo_vm s) (po_sk out))
      (key_of (fo_vm s) (po_siv out)) blind pad_rng c (fo_rl s) = (r, Ok y) /\ s' = set_rl r s /\ c <> CSetup /\ c <> CCommit.
  Proof.
    destruct x; cbn [rl_calls]; intros Hc; try discriminate Hc; intros Hh H; [by destruct (Hh h)|..].
    all: injection Hc as <-; cbn [fo_step] in H; apply obind_Ok in H as ([y s1] & H & H2); injection H2 as <-;
      apply exec_Ok in H as (r & H & ->); by exists r, y.
  Qed.

  Lemma prf_flush_random m p m' p' : prf_flush compress m p = Ok (m', p') -> pf_random p' = pf_random p.
  Proof.
    unfold prf_flush. destruct (pf_state p); try (by intros [= _ <-]). intros H.
    apply obind_Ok in H as ([m1 f1] & _ & H). apply obind_Ok in H as ([m2 f2] & _ & H). apply obind_Ok in H as ([m3 f3] & _ & H).
    apply obind_Ok in H as ([m4 f4] & _ & H). by injection H as _ <-.
  Qed.
  Lemma flush_all_random n m p m' p' : flush_all compress n m p = Ok (Some (m', p')) -> pf_random p' = pf_random p.
  Proof.
    revert m p. induction n as [|n IH]; intros m p; cbn [flush_all]; destruct (prf_wants_flush p); intros H; try discriminate H;
      try (by injection H as _ <-). apply obind_Ok in H as ([m1 p1] & H1 & H2). apply IH in H2. apply prf_flush_random in H1. congruence.
  Qed.
  Lemma set_server_random_Ok p r p' : set_server_random p r = Ok p' -> pf_random p <> None /\ pf_random p' = pf_random p.
  Proof.
    unfold set_server_random. destruct (pf_state p); try discriminate. destruct (pf_random p) as [c|]; [|discriminate]. cbn [or_panic obind].
    intros H. split; [done|]. apply obind_Ok in H as (f & _ & H). by injection H as <-.
  Qed.
  Lemma set_cf_hash_Ok p h p' : set_cf_hash p h = Ok p' -> pf_random p' = pf_random p.
  Proof. unfold set_cf_hash. destruct (pf_state p); try discriminate. by intros [= <-]. Qed.
  Lemma set_sf_hash_Ok p h p' : set_sf_hash p h = Ok p' -> pf_random p' = pf_random p.
  Proof. unfold set_sf_hash. destruct (pf_state p); try discriminate. by intros [= <-]. Qed.

  Lemma counted_step out pre now x s s' : counted pre s -> step out now x s = Ok s' -> counted (pre ++ [(now, x)]) s'.
  Proof.
    unfold counted. rewrite client_randoms_app, hellos_app, cf_hashes_app, sf_hashes_app. intros (H0 & H1 & H2 & H3 & H4) H.
    destruct x as [r|h|hash|hash|t v n p|t v nn c g| |b|].
    - cbn [fo_step] in H. destruct (fo_random s) eqn:E; cbn in H; [discriminate H|]. injection H as <-. cbn. rewrite H1, !app_nil_r.
      split_and!; try done. destruct (fo_hello s); [|done]. destruct H2 as (?&?&?&?&?&?&H2). done.
    - cbn [fo_step] in H. apply on_hello_Ok in H as (Hn & Hw & Hg & p & pms & m & m2 & p2 & r & x & A1 & A2 & A3 & A4 & A5 & ->).
      rewrite Hn in H2. apply set_server_random_Ok in A1 as [A1 A1']. apply flush_all_random in A4. cbn. rewrite H1, H2, !app_nil_r.
      split_and!; try done; [congruence|]. exists now, pms. split_and!; try done. congruence.
    - cbn [fo_step] in H. apply on_cf_Ok in H as (Hn & p & m2 & p2 & vd & A1 & A2 & A3 & ->). rewrite Hn in H3. apply set_cf_hash_Ok in A1. apply flush_all_random in A2.
      cbn. rewrite H3, !app_nil_r. split_and!; try done; [congruence|]. by exists hash.
    - cbn [fo_step] in H. apply on_sf_Ok in H as (Hn & p & m2 & p2 & vd & A1 & A2 & A3 & ->). rewrite Hn in H4. apply set_sf_hash_Ok in A1. apply flush_all_random in A2.
      cbn. rewrite H4, !app_nil_r. split_and!; try done; [congruence|]. by exists hash.
    - eapply step_rl_Ok in H as (r & y & _ & -> & _); [|done|done]. cbn. by rewrite !app_nil_r.
    - eapply step_rl_Ok in H as (r & y & _ & -> & _); [|done|done]. cbn. by rewrite !app_nil_r.
    - eapply step_rl_Ok in H as (r & y & _ & -> & _); [|done|done]. cbn. by rewrite !app_nil_r.
    - eapply step_rl_Ok in H as (r & y & _ & -> & _); [|done|done]. cbn. by rewrite !app_nil_r.
    - injection H as <-. cbn. by rewrite !app_nil_r.
  Qed.
  (** Messages give the values of a connection. *)
  Definition msg_agrees (v : tls_values) (x : fmsg) : Prop :=
    match x with
    | MClientRandom r => r = tv_client_random v
    | MServerHello h => sp_random h = tv_server_random v /\ exchange (sp_key h) = Some (tv_secret v)
    | MCfVd h => h = tv_cf_hash v
    | MSfVd h => h = tv_sf_hash v
    | _ => True
    end.
  Definition values_of (pre : list (N * fmsg)) : tls_values :=
    TlsValues (match hellos pre with (_, h) :: _ => default [] (exchange (sp_key h)) | [] => [] end)
      (default [] (head (client_randoms pre))) (match hellos pre with (_, h) :: _ => sp_random h | [] => [] end) []
      (default [] (head (cf_hashes pre))) (default [] (head (sf_hashes pre))).
  Lemma counted_agrees pre s : counted pre s -> Forall (fun x => msg_agrees (values_of pre) (snd x)) pre.
  Proof.
    intros (_ & H1 & H2 & H3 & H4). apply Forall_forall. intros [now x] Hx. cbn [snd]. destruct x as [r|h|hash|hash| | | | |]; cbn [msg_agrees]; try done.
    - assert (r ∈ client_randoms pre) as Hr by (apply elem_of_list_omap; by exists (now, MClientRandom r)).
      unfold values_of. cbn. rewrite H1 in *. destruct (fo_random s); cbn in *; [by apply elem_of_list_singleton in Hr|by apply elem_of_nil in Hr].
    - assert ((now, h) ∈ hellos pre) as Hr by (apply elem_of_list_omap; by exists (now, MServerHello h)).
      destruct (fo_hello s) as [h'|]; [|rewrite H2 in Hr; by apply elem_of_nil in Hr]. destruct H2 as (now' & pms & H2 & _ & _ & He & _).
      unfold values_of. cbn. rewrite H2 in *. apply elem_of_list_singleton in Hr as [= -> ->]. by rewrite He.
    - assert (hash ∈ cf_hashes pre) as Hr by (apply elem_of_list_omap; by exists (now, MCfVd hash)).
      unfold values_of. cbn. destruct (fo_cf s); [destruct H3 as [h H3]|]; rewrite H3 in *; [by apply elem_of_list_singleton in Hr|by apply elem_of_nil in Hr].
    - assert (hash ∈ sf_hashes pre) as Hr by (apply elem_of_list_omap; by exists (now, MSfVd hash)).
      unfold values_of. cbn. destruct (fo_sf s); [destruct H4 as [h H4]|]; rewrite H4 in *; [by apply elem_of_list_singleton in Hr|by apply elem_of_nil in Hr].
  Qed.

  (** The run up to now, for given values. *)
  Context (net : net_mode) (m0 : vm) (p0 : prf) (out : prf_output).
  Definition kept (ro : role) (al : rl_call) (v : tls_values) (d : derived) (pre : list (N * fmsg)) (s : fo) : Prop :=
    (exists cs, prf_run compress cs m0 p0 = Ok (fo_vm s, fo_prf s) /\ Forall (call_agrees v) cs /\
      match fo_hello s with
      | Some h => CServerRandom (sp_random h) ∈ cs /\ CSecret (tv_secret v) ∈ cs
      | None => rl_cold (fo_rl s) /\ Forall (fun c => forall r, c <> CServerRandom r) cs
      end) /\
    prf_wants_flush (fo_prf s) = false /\
    (forall w, fo_cf s = Some w -> w = d_cf d) /\ (forall w, fo_sf s = Some w -> w = d_sf d) /\
    exists os, rl_run aes ghash_fn checked (d_client_key d) (d_client_iv d) (d_server_key d) (d_server_iv d) blind pad_rng
      (al :: concat (map (fun x => rl_calls (snd x)) pre)) (rl_new ro) = (fo_rl s, os) /\ no_failure os.

  Context (Hcompress : forall s b, length (compress s b) = 8) (Hsetup : prf_setup iv compress net MsStandard = Ok (m0, p0, out)).
  Lemma keys_known ro v d al pre s h : length (tv_secret v) = 32 -> is_derived iv compress MsStandard v d -> kept ro al v d pre s -> fo_hello s = Some h ->
    key_of (fo_vm s) (po_ck out) = d_client_key d /\ key_of (fo_vm s) (po_civ out) = d_client_iv d /\
    key_of (fo_vm s) (po_sk out) = d_server_key d /\ key_of (fo_vm s) (po_siv out) = d_server_iv d.
  Proof.
    intros Hl Hd ((cs & Hrun & Hcs & Hh) & Hw & _) E. rewrite E in Hh. destruct Hh as [Hr Hs].
    destruct (C49_complete_lemma iv compress Hcompress net MsStandard v cs m0 p0 out (fo_vm s) (fo_prf s) Hl Hsetup Hcs Hrun)
      as (m2 & p2 & d' & Hf & Hd' & Hk & _); [by eexists|by eexists|].
    rewrite flush_all_idle in Hf; [|done]. injection Hf as <- <-. rewrite (derived_unique _ _ _ _ _ _ Hd' Hd) in Hk.
    destruct Hk as (K1 & K2 & K3 & K4); [by eexists|]. unfold key_of. by rewrite K1, K2, K3, K4.
  Qed.
  Lemma calls_snoc (pre : list (N * fmsg)) now x :
    concat (map (fun x => rl_calls (snd x)) (pre ++ [(now, x)])) = concat (map (fun x => rl_calls (snd x)) pre) ++ rl_calls x.
  Proof. rewrite map_app, concat_app. cbn. by rewrite app_nil_r. Qed.
  Lemma no_random_flushes cs : flushes cs -> Forall (fun c => forall r, c <> CServerRandom r) cs.
  Proof. intros H. eapply Forall_impl; [exact H|]. intros c [-> | ->] r; discriminate. Qed.
  Lemma kept_rl ro al v d pre s now x c : length (tv_secret v) = 32 -> is_derived iv compress MsStandard v d ->
    kept ro al v d pre s -> rl_calls x = [c] -> (forall h, x <> MServerHello h) -> forall s', step out now x s = Ok s' -> kept ro al v d (pre ++ [(now, x)]) s'.
  Proof.
    intros Hl Hd Hk Hc Hh s' H. pose proof Hk as (HP & Hw & Hcf & Hsf & os & Hrl & Hos).
    eapply step_rl_Ok in H as (r & y & Hr & -> & Hn1 & Hn2); [|exact Hc|exact Hh].
    assert (rl_step aes ghash_fn checked (d_client_key d) (d_client_iv d) (d_server_key d) (d_server_iv d) blind pad_rng c (fo_rl s) = (r, Ok y) /\
      (fo_hello s = None -> rl_cold r)) as [Hr' Hcold].
    { destruct HP as (cs & Hcs & Hag & Hhello). destruct (fo_hello s) as [h|] eqn:E.
      - destruct (keys_known ro v d al pre s h Hl Hd Hk E) as (K1 & K2 & K3 & K4). rewrite K1, K2, K3, K4 in Hr. split; [exact Hr|discriminate].
      - destruct Hhello as [Hcold _]. eapply step_cold in Hr as [Hr Hc2]; [|exact Hcold|exact Hn1|exact Hn2]. split; [exact Hr|by intros _]. }
    split; [|split; [exact Hw|split; [exact Hcf|split; [exact Hsf|]]]].
    - destruct HP as (cs & Hcs & Hag & Hhello). exists cs. split; [exact Hcs|]. split; [exact Hag|]. cbn [fo_hello set_rl fo_rl].
      destruct (fo_hello s); [exact Hhello|]. split; [by apply Hcold|exact (proj2 Hhello)].
    - exists (os ++ [Ok y]). rewrite calls_snoc, Hc. split; [|apply Forall_app; split; [exact Hos|repeat constructor; by eexists]].
      cbn [fo_rl set_rl]. rewrite app_comm_cons. eapply rl_run_snoc; [exact Hrl|exact Hos|exact Hr'].
  Qed.
  Lemma decoded_sound v d cs m p (f : prf_output -> nat) (g : derived -> list N) w : length (tv_secret v) = 32 -> is_derived iv compress MsStandard v d ->
    prf_run compress cs m0 p0 = Ok (m, p) -> Forall (call_agrees v) cs ->
    (f = po_cf /\ g = d_cf \/ f = po_sf /\ g = d_sf) -> vm_decoded m (f out) = Some w -> w = g d.
  Proof.
    intros Hl Hd Hrun Hag Hfg Hw.
    destruct (C49_sound iv compress Hcompress net MsStandard v cs m0 p0 out m p Hl Hsetup Hag Hrun) as (d' & Hd' & _ & _ & _ & _ & Hcf & Hsf).
    rewrite (derived_unique _ _ _ _ _ _ Hd' Hd) in *. destruct Hfg as [[-> ->]|[-> ->]]; auto.
  Qed.
  Lemma kept_step ro al v d pre s now x s' : length (tv_secret v) = 32 -> is_derived iv compress MsStandard v d ->
    kept ro al v d pre s -> msg_agrees v x -> step out now x s = Ok s' -> kept ro al v d (pre ++ [(now, x)]) s'.
  Proof.
    intros Hl Hd Hk Hx H. pose proof Hk as ((cs & Hcs & Hag & Hhello) & Hw & Hcf & Hsf & os & Hrl & Hos).
    destruct x as [r|h|hash|hash|t ve n p|t ve nn c g| |b|].
    - cbn [fo_step] in H. destruct (bool_decide _); [discriminate H|]. injection H as <-. cbn [msg_agrees] in Hx.
      split; [|split; [exact Hw|split; [exact Hcf|split; [exact Hsf|]]]].
      + exists (cs ++ [CClientRandom r]). rewrite prf_run_app, Hcs. split; [done|]. split; [by apply Forall_app; split; [|repeat constructor]|].
        cbn. destruct (fo_hello s); [|split; [exact (proj1 Hhello)|]; apply Forall_app; split; [exact (proj2 Hhello)|by repeat constructor]].
        rewrite !elem_of_app. destruct Hhello; auto.
      + exists os. rewrite calls_snoc. cbn [rl_calls]. rewrite app_nil_r. done.
    - cbn [fo_step] in H. apply on_hello_Ok in H as (Hn & _ & _ & p & pms & m & m2 & p2 & r & x & A1 & A2 & A3 & A4 & A5 & ->).
      rewrite Hn in Hhello. destruct Hx as [X1 X2]. rewrite X2 in A2. injection A2 as <-.
      apply flush_all_calls in A4 as (Hw2 & cf & Hcf2 & A4).
      split; [|split; [exact Hw2|split; [exact Hcf|split; [exact Hsf|]]]].
      + exists (cs ++ [CServerRandom (sp_random h); CSecret (tv_secret v)] ++ cf). split; [|split].
        * rewrite prf_run_app, Hcs. cbn [obind]. rewrite prf_run_app. cbn [prf_run prf_call_step]. unfold keep_vm. rewrite A1. cbn [obind]. rewrite A3. cbn [obind]. exact A4.
        * apply Forall_app; split; [done|]. apply Forall_app; split; [by repeat constructor|by apply flushes_agree].
        * cbn [fo_hello]. rewrite !elem_of_app, !elem_of_cons. auto 10.
      + exists (os ++ [Ok x]). rewrite calls_snoc. cbn [rl_calls fo_rl]. split; [|apply Forall_app; split; [exact Hos|repeat constructor; by eexists]].
        rewrite app_comm_cons. eapply rl_run_snoc; [exact Hrl|exact Hos|]. erewrite step_keyless; [exact A5|done].
    - cbn [fo_step] in H. apply on_cf_Ok in H as (Hn & p & m2 & p2 & vd & A1 & A2 & A3 & ->). cbn [msg_agrees] in Hx.
      apply flush_all_calls in A2 as (Hw2 & cf & Hcf2 & A2).
      assert (prf_run compress (cs ++ [CCfHash hash] ++ cf) m0 p0 = Ok (m2, p2)) as Hrun2.
      { rewrite prf_run_app, Hcs. cbn [obind]. rewrite prf_run_app. cbn [prf_run prf_call_step]. unfold keep_vm. rewrite A1. cbn [obind]. exact A2. }
      assert (Forall (call_agrees v) (cs ++ [CCfHash hash] ++ cf)) as Hag2.
      { apply Forall_app; split; [done|]. apply Forall_app; split; [by repeat constructor|by apply flushes_agree]. }
      split; [|split; [exact Hw2|split; [|split; [exact Hsf|]]]].
      + exists (cs ++ [CCfHash hash] ++ cf). split; [exact Hrun2|]. split; [exact Hag2|]. cbn [fo_hello fo_rl]. destruct (fo_hello s).
        * rewrite !elem_of_app. destruct Hhello; auto.
        * split; [exact (proj1 Hhello)|]. apply Forall_app; split; [exact (proj2 Hhello)|]. apply Forall_app; split; [by repeat constructor|by apply no_random_flushes].
      + cbn [fo_cf]. intros w [= <-]. eapply (decoded_sound v d _ _ _ po_cf d_cf); eauto.
      + exists os. rewrite calls_snoc. cbn [rl_calls]. rewrite app_nil_r. done.
    - cbn [fo_step] in H. apply on_sf_Ok in H as (Hn & p & m2 & p2 & vd & A1 & A2 & A3 & ->). cbn [msg_agrees] in Hx.
      apply flush_all_calls in A2 as (Hw2 & cf & Hcf2 & A2).
      assert (prf_run compress (cs ++ [CSfHash hash] ++ cf) m0 p0 = Ok (m2, p2)) as Hrun2.
      { rewrite prf_run_app, Hcs. cbn [obind]. rewrite prf_run_app. cbn [prf_run prf_call_step]. unfold keep_vm. rewrite A1. cbn [obind]. exact A2. }
      assert (Forall (call_agrees v) (cs ++ [CSfHash hash] ++ cf)) as Hag2.
      { apply Forall_app; split; [done|]. apply Forall_app; split; [by repeat constructor|by apply flushes_agree]. }
      split; [|split; [exact Hw2|split; [exact Hcf|split; [|]]]].
      + exists (cs ++ [CSfHash hash] ++ cf). split; [exact Hrun2|]. split; [exact Hag2|]. cbn [fo_hello fo_rl]. destruct (fo_hello s).
        * rewrite !elem_of_app. destruct Hhello; auto.
        * split; [exact (proj1 Hhello)|]. apply Forall_app; split; [exact (proj2 Hhello)|]. apply Forall_app; split; [by repeat constructor|by apply no_random_flushes].
      + cbn [fo_sf]. intros w [= <-]. eapply (decoded_sound v d _ _ _ po_sf d_sf); eauto.
      + exists os. rewrite calls_snoc. cbn [rl_calls]. rewrite app_nil_r. done.
    - eapply kept_rl; [exact Hl|exact Hd|exact Hk|done|done|exact H].
    - eapply kept_rl; [exact Hl|exact Hd|exact Hk|done|done|exact H].
    - eapply kept_rl; [exact Hl|exact Hd|exact Hk|done|done|exact H].
    - eapply kept_rl; [exact Hl|exact Hd|exact Hk|done|done|exact H].
    - injection H as <-. split; [by exists cs|]. split_and!; try done. exists os. rewrite calls_snoc. cbn [rl_calls]. by rewrite app_nil_r.
  Qed.
End Inv.
