From Verif.Lib Require Import Base.
From Verif Require Import SdkLifeModel SdkLifeSpec.
Section proofs.
Context {T R O : Type}.
Notation entry := (sdk_op T R O * list (sdk_event T) * call_res (sdk_value T R O))%type.
Implicit Types (s : sdk_state T) (log : list entry) (c : sdk_config).

Lemma run_snoc c os o : forall s, sdk_run (T:=T) (R:=R) (O:=O) c s (os ++ [o]) =
  let (s1, log) := sdk_run c s os in let '(s2, es, r) := sdk_step c s1 o in (s2, log ++ [(o, es, r)]).
Proof.
  induction os as [|o' os IH]; intros s; cbn [sdk_run app].
  - by destruct (sdk_step c s o) as [[s2 es] r].
  - destruct (sdk_step c s o') as [[s1 es1] r1]. rewrite IH. destruct (sdk_run c s1 os) as [s2 log]. by destruct (sdk_step c s2 o) as [[? ?] ?].
Qed.
Lemma events_snoc log o es r : all_events (log ++ [(o, es, r)]) = all_events log ++ es.
Proof. unfold all_events. rewrite map_app, concat_app. cbn. by rewrite app_nil_r. Qed.

(** What has happened, by the state. *)
Definition life_inv c s log : Prop :=
  let m := sc_mode c in
  match s with
  | SInitialized => all_events log = []
  | SAcceptedMpc => m = SdkMpc /\ all_events log = [EvCommit m]
  | SAcceptedProxy => m = SdkProxy /\ all_events log = [EvCommit m]
  | SCommitted t => all_events log = [EvCommit m; EvConnect m] /\ connected m t log
  | SComplete => finished log /\ exists t, all_events log = [EvCommit m; EvConnect m; EvProve t; EvClose] /\ connected m t log
  | SError => in_order m log
  end.
Lemma connected_app m t log log' : connected m t log -> connected m t (log ++ log').
Proof. intros (r & es & H). exists r, es. apply elem_of_app. by left. Qed.
Lemma finished_app log log' : finished log -> finished (log ++ log').
Proof. intros (o & out & es & r & H & He). exists o, out, es, r. split; [apply elem_of_app; by left|done]. Qed.
Lemma in_order_snoc m log o r : in_order m log -> in_order m (log ++ [(o, [], r)]).
Proof.
  unfold in_order. rewrite events_snoc, app_nil_r. intros [H|(t & Hc & H)]; [by left|right]. exists t. split; [by apply connected_app|done].
Qed.
Lemma inv_order c s log : life_inv c s log -> in_order (sc_mode c) log.
Proof.
  unfold life_inv, in_order. destruct s.
  - intros ->. left. apply prefix_nil.
  - intros [-> ->]. left. by exists [EvConnect SdkMpc].
  - intros [-> ->]. left. by exists [EvConnect SdkProxy].
  - intros [-> _]. left. done.
  - intros (_ & t & -> & H). right. exists t. split; [done|]. by right.
  - done.
Qed.
Lemma inv_step c s log o s' es r : life_inv c s log -> sdk_step c s o = (s', es, r) -> life_inv c s' (log ++ [(o, es, r)]).
Proof.
  intros Hi H.
  assert (Hbad : s' = SError -> es = [] -> life_inv c s' (log ++ [(o, es, r)])).
  { intros -> ->. cbn [life_inv]. apply in_order_snoc. exact (inv_order c s log Hi). }
  destruct o as [pre commit|m cfg connect run| |build prove close out]; cbn [sdk_step] in H.
  - destruct s; cbn [sdk_setup] in H; try (injection H as <- <- <-; by apply Hbad).
    destruct pre; [|injection H as <- <- <-; by apply Hbad]. cbn [life_inv] in Hi.
    destruct commit; injection H as <- <- <-.
    + destruct (sc_mode c) eqn:Em; cbn [life_inv]; rewrite events_snoc, Hi, Em; done.
    + left. rewrite events_snoc, Hi. by exists [EvConnect (sc_mode c)].
    + left. rewrite events_snoc, Hi. by exists [EvConnect (sc_mode c)].
  - assert (Hcon : sc_mode c = m -> all_events log = [EvCommit m] -> sdk_connect m cfg connect run = (s', es, r) ->
      life_inv c s' (log ++ [(OpSend m cfg connect run, es, r)])).
    { intros Em He Hc. unfold sdk_connect in Hc. destruct cfg; [|injection Hc as <- <- <-; by apply Hbad].
      destruct connect; [|injection Hc as <- <- <-; left; rewrite events_snoc, He, Em; done].
      destruct run as [[rr t]| |]; injection Hc as <- <- <-.
      - cbn [life_inv]. rewrite events_snoc, He, Em. split; [done|]. exists rr, [EvConnect m]. apply elem_of_app. right. apply elem_of_list_here.
      - left. rewrite events_snoc, He, Em. done.
      - left. rewrite events_snoc, He, Em. done. }
    destruct m, s; cbn [sdk_send] in H; try (injection H as <- <- <-; by apply Hbad).
    + destruct Hi as [Em Hi]. rewrite Em in Hi. by apply Hcon.
    + destruct Hi as [Em Hi]. rewrite Em in Hi. by apply Hcon.
  - assert (s' = s /\ es = []) as [-> ->] by (unfold sdk_transcript in H; destruct s; by injection H as <- <- <-).
    clear H Hbad. unfold life_inv in *. destruct s; rewrite ?events_snoc, ?app_nil_r.
    + done.
    + done.
    + done.
    + destruct Hi as [H1 H2]. split; [done|by apply connected_app].
    + destruct Hi as (H1 & t & H2 & H3). split; [by apply finished_app|]. exists t. split; [done|by apply connected_app].
    + by apply in_order_snoc.
  - destruct s as [| | |t| |]; cbn [sdk_reveal] in H; try (injection H as <- <- <-; by apply Hbad).
    destruct build; [|injection H as <- <- <-; by apply Hbad]. destruct Hi as [He Hc].
    destruct prove as [o| |].
    + destruct close as [[]| |]; injection H as <- <- <-.
      * cbn [life_inv]. rewrite events_snoc, He. split.
        -- eexists o, out, _, _. split; [apply elem_of_app; right; apply elem_of_list_here|]. apply elem_of_list_further, elem_of_list_here.
        -- exists t. split; [done|by apply connected_app].
      * right. exists t. split; [by apply connected_app|]. right. by rewrite events_snoc, He.
      * right. exists t. split; [by apply connected_app|]. right. by rewrite events_snoc, He.
    + injection H as <- <- <-. right. exists t. split; [by apply connected_app|]. left. by rewrite events_snoc, He.
    + injection H as <- <- <-. right. exists t. split; [by apply connected_app|]. left. by rewrite events_snoc, He.
Qed.
Lemma new_initial c s : sdk_new (T:=T) c = Some s -> s = SInitialized.
Proof. unfold sdk_new. repeat case_match; congruence. Qed.
Lemma inv_run c s0 os : sdk_new c = Some s0 -> forall s log, sdk_run c s0 os = (s, log) -> life_inv c s log.
Proof.
  intros H0. apply new_initial in H0 as ->. induction os as [|o os IH] using rev_ind; intros s log H.
  - injection H as <- <-. done.
  - rewrite run_snoc in H. destruct (sdk_run c SInitialized os) as [s1 log1] eqn:E.
    destruct (sdk_step c s1 o) as [[s2 es] r] eqn:E2. injection H as <- <-. eapply inv_step; [|exact E2]. by apply IH.
Qed.

Lemma C90_order_lemma c s0 os s log : sdk_new c = Some s0 -> sdk_run c s0 os = (s, log) -> in_order (sc_mode c) log.
Proof. intros H0 H. exact (inv_order c s log (inv_run c s0 os H0 s log H)). Qed.
Lemma C90_complete_lemma c s0 os s log : sdk_new c = Some s0 -> sdk_run c s0 os = (s, log) -> sdk_is_complete s = true -> finished log.
Proof. intros H0 H Hc. pose proof (inv_run c s0 os H0 s log H) as Hi. destruct s; try done. by destruct Hi. Qed.
Lemma C90_transcript_lemma c s0 os s log s' es r : sdk_new c = Some s0 -> sdk_run c s0 os = (s, log) ->
  sdk_step (R:=R) (O:=O) c s OpTranscript = (s', es, r) -> s' = s /\ es = [] /\
  (r = RInvalidState \/ exists t, r = ROk (VTranscript t) /\ connected (sc_mode c) t log /\ forall t', EvProve t' ∉ all_events log).
Proof.
  intros H0 H Hs. pose proof (inv_run c s0 os H0 s log H) as Hi. cbn [sdk_step] in Hs. unfold sdk_transcript in Hs.
  destruct s as [| | |t| |]; injection Hs as <- <- <-; split; try done; (split; [done|]); try (by left).
  right. exists t. destruct Hi as [He Hc]. split; [done|]. split; [done|]. intros t' Hin. rewrite He in Hin.
  apply elem_of_cons in Hin as [Hin|Hin]; [done|]. apply elem_of_cons in Hin as [Hin|Hin]; [done|]. by apply elem_of_nil in Hin.
Qed.

Definition dead s : Prop := s = SComplete \/ s = SError.
Lemma dead_step c s o s' es r : dead s -> sdk_step (R:=R) (O:=O) c s o = (s', es, r) -> dead s' /\ es = [] /\ r = RInvalidState.
Proof.
  intros Hd H. destruct o as [pre commit|m cfg connect run| |build prove close out]; cbn [sdk_step] in H.
  - destruct Hd as [-> | ->]; cbn [sdk_setup] in H; injection H as <- <- <-; split; [by right|done|by right|done].
  - destruct Hd as [-> | ->]; destruct m; cbn [sdk_send] in H; injection H as <- <- <-; (split; [by right|done]).
  - destruct Hd as [-> | ->]; cbn [sdk_transcript] in H; injection H as <- <- <-; [split; [by left|done]|split; [by right|done]].
  - destruct Hd as [-> | ->]; cbn [sdk_reveal] in H; injection H as <- <- <-; split; [by right|done|by right|done].
Qed.
Lemma failed_dead c s o s' es r : sdk_step (R:=R) (O:=O) c s o = (s', es, r) -> changing o -> ~ succeeded r -> dead s'.
Proof.
  intros H Ho Hr. assert (Hok : forall v, r <> ROk v) by (intros v ->; apply Hr; by exists v). clear Hr.
  destruct o as [pre commit|m cfg connect run| |build prove close out]; cbn [sdk_step] in H; [| |done|].
  - destruct s; cbn [sdk_setup] in H; repeat case_match; injection H as <- <- <-; try (by right); by destruct (Hok VUnit).
  - unfold sdk_send, sdk_connect in H. repeat case_match; injection H as <- <- <-; try (by right); by destruct (Hok _ eq_refl).
  - destruct s; cbn [sdk_reveal] in H; repeat case_match; injection H as <- <- <-; try (by right); by left.
Qed.
Lemma dead_run c os : forall s s' log, dead s -> sdk_run (R:=R) (O:=O) c s os = (s', log) -> dead s'.
Proof.
  induction os as [|o os IH]; intros s s' log Hd H; cbn [sdk_run] in H; [by injection H as <- <-|].
  destruct (sdk_step c s o) as [[s1 es] r] eqn:E. destruct (sdk_run c s1 os) as [s2 log2] eqn:E2. injection H as <- <-.
  apply (IH s1 s2 log2); [|done]. by apply (dead_step c s o s1 es r).
Qed.
Lemma C90_final_lemma c os o es r o' s' es' r' : forall s0 s log, sdk_run c s0 os = (s, log) -> (o, es, r) ∈ log -> changing o -> ~ succeeded r ->
  sdk_step (R:=R) (O:=O) c s o' = (s', es', r') -> es' = [] /\ r' = RInvalidState.
Proof.
  intros s0 s log H Hin Ho Hr Hs. cut (dead s); [intros Hd; by apply (dead_step c s o' s')|]. clear Hs. revert s0 s log H Hin.
  induction os as [|o1 os IH]; intros s0 s log H Hin; cbn [sdk_run] in H; [injection H as <- <-; by apply elem_of_nil in Hin|].
  destruct (sdk_step c s0 o1) as [[s1 es1] r1] eqn:E. destruct (sdk_run c s1 os) as [s2 log2] eqn:E2. injection H as <- <-.
  apply elem_of_cons in Hin as [Hin|Hin].
  - injection Hin as -> -> ->. apply (dead_run c os s1 s2 log2); [|done]. by apply (failed_dead c s0 o1 s1 es1 r1).
  - by apply (IH s1 s2 log2).
Qed.
Lemma C90_success_lemma c s0 r t o : sdk_new c = Some s0 -> exists s log,
  sdk_run (T:=T) (R:=R) (O:=O) c s0
    [OpSetup true (FOk tt); OpSend (sc_mode c) true true (FOk (r, t)); OpTranscript; OpReveal true (FOk o) (FOk tt) true] = (s, log) /\
  map snd log = [ROk VUnit; ROk (VResponse r); ROk (VTranscript t); ROk (VOutput o)] /\ sdk_is_complete s = true.
Proof. intros H. apply new_initial in H as ->. destruct c as [nm [] a b]; eexists _, _; (split; [cbn; reflexivity|done]). Qed.
Lemma C90_new_lemma c : (exists s, sdk_new (T:=T) c = Some s) <->
  sc_name c <> [] /\ (sc_mode c = SdkMpc -> (0 < sc_max_sent c)%N /\ (0 < sc_max_recv c)%N).
Proof.
  unfold sdk_new. destruct (sc_name c) as [|b l]; cbn [length].
  { split; [by intros [? ?]|by intros [? _]]. }
  change (S (length l) =? 0) with false. cbv iota. destruct (decide (sc_mode c = SdkMpc)) as [Hm|Hm].
  - destruct (N.eqb_spec (sc_max_sent c) 0) as [E1|E1]; [split; [by intros [? ?]|intros [_ H]; specialize (H Hm); lia]|].
    destruct (N.eqb_spec (sc_max_recv c) 0) as [E2|E2]; [split; [by intros [? ?]|intros [_ H]; specialize (H Hm); lia]|].
    split; [intros _; split; [done|lia]|intros _; by eexists].
  - split; [intros _; done|intros _; by eexists].
Qed.
Lemma C90_results_step c s o s' es r : sdk_step (T:=T) (R:=R) (O:=O) c s o = (s', es, r) -> (forall v, r = ROk v -> all_ok o v) /\ Forall (caused o) es.
Proof.
  intros H. destruct o; cbn [sdk_step] in H; unfold sdk_setup, sdk_send, sdk_connect, sdk_transcript, sdk_reveal in H;
    repeat case_match; injection H as <- <- <-; (split; [intros v Hv; try discriminate Hv; injection Hv as <-; reflexivity || exact I|]);
    repeat constructor.
Qed.
Lemma C90_results_lemma c (os : list (sdk_op T R O)) o es r : forall s0 s log, sdk_run c s0 os = (s, log) -> (o, es, r) ∈ log ->
  (forall v, r = ROk v -> all_ok o v) /\ Forall (caused o) es.
Proof.
  induction os as [|o1 os IH]; intros s0 s log H Hin; cbn [sdk_run] in H; [injection H as <- <-; by apply elem_of_nil in Hin|].
  destruct (sdk_step c s0 o1) as [[s1 es1] r1] eqn:E. destruct (sdk_run c s1 os) as [s2 log2] eqn:E2. injection H as <- <-.
  apply elem_of_cons in Hin as [Hin|Hin].
  - injection Hin as -> -> ->. exact (C90_results_step c s0 o1 s1 es1 r1 E).
  - exact (IH s1 s2 log2 E2 Hin).
Qed.
End proofs.

Definition x_cfg : sdk_config := SdkConfig [101%N] SdkMpc 10 20.
Lemma C90_refused_lemma : ~ (forall c s0 (os : list (sdk_op nat nat nat)) s log (o : sdk_op nat nat nat) s' es r,
  sdk_new c = Some s0 -> sdk_run c s0 os = (s, log) -> sdk_step c s o = (s', es, r) -> r = RInvalidState -> s' = s).
Proof.
  intros H. specialize (H x_cfg SInitialized [OpSetup true (FOk tt)] SAcceptedMpc [(OpSetup true (FOk tt), [EvCommit SdkMpc], ROk VUnit)]
    (OpSetup true (FOk tt)) SError [] RInvalidState eq_refl eq_refl eq_refl eq_refl). discriminate H.
Qed.
Lemma C90_stays_lemma : ~ (forall c s0 (os : list (sdk_op nat nat nat)) s log (o : sdk_op nat nat nat) s' es r,
  sdk_new c = Some s0 -> sdk_run c s0 os = (s, log) -> sdk_is_complete s = true -> sdk_step c s o = (s', es, r) -> sdk_is_complete s' = true).
Proof.
  intros H. pose (os := [OpSetup true (FOk tt); OpSend SdkMpc true true (FOk (1, 2)); OpReveal true (FOk 3) (FOk tt) true] : list (sdk_op nat nat nat)).
  specialize (H x_cfg SInitialized os SComplete (snd (sdk_run x_cfg SInitialized os)) (OpReveal true (FOk 3) (FOk tt) true) SError [] RInvalidState
    eq_refl eq_refl eq_refl eq_refl). discriminate H.
Qed.
