(** Proofs about streams over a JavaScript object (C85, C86). *)
From Verif.Lib Require Import Base.
From Verif Require Import JsIoModel JsIoSpec.

Definition b2n (b : bool) : nat := if b then 1 else 0.
Record inv (s : js_state) (log : list js_event) : Prop := {
  i_bytes : delivered log = read_bytes log ++ js_buf s;
  i_eof : js_eof s = true <-> ended log;
  i_error : js_error s = true <-> failed log;
  i_open : promises log = settled log + b2n (js_open s);
  i_given : given log = accepted log;
  i_closes : closes log = b2n (js_closed s);
  i_closed : js_closed s = true <-> DidClose (IoOk tt) ∈ log;
  i_none : js_error s = true -> js_buf s = [] }.
Lemma inv_new : inv js_new [].
Proof. split; try done; unfold ended, failed; rewrite ?elem_of_nil; naive_solver. Qed.

Lemma delivered_app a b : delivered (a ++ b) = delivered a ++ delivered b.
Proof. unfold delivered. by rewrite map_app, concat_app. Qed.
Lemma read_app a b : read_bytes (a ++ b) = read_bytes a ++ read_bytes b.
Proof. unfold read_bytes. by rewrite map_app, concat_app. Qed.
Lemma given_app a b : given (a ++ b) = given a ++ given b.
Proof. unfold given. by rewrite map_app, concat_app. Qed.
Lemma accepted_app a b : accepted (a ++ b) = accepted a ++ accepted b.
Proof. unfold accepted. by rewrite map_app, concat_app. Qed.
Lemma promises_app a b : promises (a ++ b) = promises a + promises b.
Proof. unfold promises. by rewrite List.filter_app, app_length. Qed.
Lemma settled_app a b : settled (a ++ b) = settled a + settled b.
Proof. unfold settled. by rewrite List.filter_app, app_length. Qed.
Lemma closes_app a b : closes (a ++ b) = closes a + closes b.
Proof. unfold closes. by rewrite List.filter_app, app_length. Qed.
Lemma ended_app a b : ended (a ++ b) <-> ended a \/ ended b.
Proof. unfold ended. rewrite !elem_of_app. tauto. Qed.
Lemma failed_app a b : failed (a ++ b) <-> failed a \/ failed b.
Proof. unfold failed. rewrite !elem_of_app. tauto. Qed.

(** One step, from what its events are. *)
Lemma inv_more s log s' es : inv s log ->
  js_buf s ++ delivered es = read_bytes es ++ js_buf s' ->
  (js_eof s' = true <-> js_eof s = true \/ ended es) ->
  (js_error s' = true <-> js_error s = true \/ failed es) ->
  b2n (js_open s) + promises es = settled es + b2n (js_open s') ->
  given es = accepted es ->
  b2n (js_closed s') = b2n (js_closed s) + closes es ->
  (js_closed s' = true <-> js_closed s = true \/ DidClose (IoOk tt) ∈ es) ->
  (js_error s' = true -> js_buf s' = []) -> inv s' (log ++ es).
Proof.
  intros [H1 H2 H3 H4 H5 H6 H7 H8] G1 G2 G3 G4 G5 G6 G7 G8. split; [..|exact G8].
  - by rewrite delivered_app, read_app, H1, <- !app_assoc, G1.
  - rewrite ended_app, <- H2. exact G2.
  - rewrite failed_app, <- H3. exact G3.
  - rewrite promises_app, settled_app. lia.
  - by rewrite given_app, accepted_app, H5, G5.
  - rewrite closes_app. lia.
  - rewrite elem_of_app, <- H7. exact G7.
Qed.
Ltac pairs := repeat match goal with H : (_, _) = (_, _) |- _ => injection H as <- <- end.
Ltac mem := unfold ended, failed; rewrite ?elem_of_cons, ?elem_of_nil; intuition congruence.
Lemma inv_step s log o s' es : inv s log -> js_step s o = (s', es) -> inv s' (log ++ es).
Proof.
  intros H Hs. assert (Hn := i_none _ _ H). apply (inv_more s log s' es H); clear H log; revert Hs; destruct s as [buf eof op cl er]; destruct o as [n th p|l c| |c]; cbn [js_step] in *;
    unfold js_poll_read, js_poll_write, js_poll_close, poll_promise; cbn [js_buf js_eof js_open js_closed js_error] in *;
    repeat (case_match; subst; cbn [js_buf js_eof js_open js_closed js_error] in *; try discriminate); pairs;
    intros [= <- <-]; cbn [js_buf js_eof js_open js_closed js_error b2n].
  all: try (unfold delivered, read_bytes; cbn; rewrite ?app_nil_r, ?take_drop; done).
  all: try (unfold promises, settled, closes; cbn; done).
  all: try (unfold given, accepted; cbn; rewrite ?firstn_all; done).
  all: try mem.
  all: try (intros He; specialize (Hn He); discriminate).
Qed.
Lemma inv_run os : forall s log s' es, inv s log -> js_run s os = (s', es) -> inv s' (log ++ es).
Proof.
  induction os as [|o os IH]; intros s log s' es Hi; cbn [js_run].
  - intros [= <- <-]. by rewrite app_nil_r.
  - destruct (js_step s o) as [s1 es1] eqn:E1. destruct (js_run s1 os) as [s2 es2] eqn:E2. intros [= <- <-].
    rewrite app_assoc. eapply IH; [|exact E2]. by eapply inv_step.
Qed.
Lemma run_inv os s log : js_run js_new os = (s, log) -> inv s log.
Proof. intros H. exact (inv_run os js_new [] s log inv_new H). Qed.

Lemma C85_prefix_lemma os s log : js_run js_new os = (s, log) -> read_bytes log `prefix_of` delivered log.
Proof. intros H%run_inv. rewrite (i_bytes _ _ H). by exists (js_buf s). Qed.
Lemma C85_promise_lemma os s log : js_run js_new os = (s, log) -> settled log <= promises log <= settled log + 1.
Proof. intros H%run_inv. rewrite (i_open _ _ H). destruct (js_open s); cbn; lia. Qed.

Lemma C85_read_lemma os s log n throws p s' es : js_run js_new os = (s, log) -> js_step s (OpRead n throws p) = (s', es) ->
  exists es0 r, es = es0 ++ [DidRead n r] /\
    match r with
    | IoOk [] => n = 0 \/ (ended (log ++ es) /\ read_bytes (log ++ es) = delivered (log ++ es))
    | IoOk l => length l <= n
    | IoErr => failed (log ++ es) /\ read_bytes (log ++ es) = delivered (log ++ es)
    | IoPending => promises (log ++ es) = settled (log ++ es) + 1 /\ read_bytes (log ++ es) = delivered (log ++ es)
    end.
Proof.
  intros H Hs. apply run_inv in H. pose proof (inv_step _ _ _ _ _ H Hs) as H'.
  assert (Hn := i_none _ _ H).
  assert (forall es0 r, es = es0 ++ [DidRead n r] ->
    match r with
    | IoOk [] => n = 0 \/ (js_eof s' = true /\ js_buf s' = [])
    | IoOk l => length l <= n
    | IoErr => js_error s' = true
    | IoPending => js_open s' = true /\ js_buf s' = []
    end -> exists es0 r, es = es0 ++ [DidRead n r] /\
    match r with
    | IoOk [] => n = 0 \/ (ended (log ++ es) /\ read_bytes (log ++ es) = delivered (log ++ es))
    | IoOk l => length l <= n
    | IoErr => failed (log ++ es) /\ read_bytes (log ++ es) = delivered (log ++ es)
    | IoPending => promises (log ++ es) = settled (log ++ es) + 1 /\ read_bytes (log ++ es) = delivered (log ++ es)
    end) as K.
  { intros es0 r E Hr. exists es0, r. split; [done|]. destruct r as [[|x l]| |].
    - destruct Hr as [?|[H1 H2]]; [by left|right]. split; [by apply (i_eof _ _ H')|]. by rewrite (i_bytes _ _ H'), H2, app_nil_r.
    - done.
    - split; [by apply (i_error _ _ H')|]. by rewrite (i_bytes _ _ H'), (i_none _ _ H' Hr), app_nil_r.
    - destruct Hr as [H1 H2]. split; [by rewrite (i_open _ _ H'), H1|]. by rewrite (i_bytes _ _ H'), H2, app_nil_r. }
  assert (forall (l : list N) x, match take n (x :: l) with
    | [] => n = 0 \/ (js_eof s' = true /\ js_buf s' = []) | l' => length l' <= n end) as T.
  { intros l x. destruct n as [|n]; [by left|]. cbn [take]. cbn. rewrite take_length. lia. }
  clear H H'. revert Hs T K. destruct s as [buf eof op cl er]. cbn [js_step]. unfold js_poll_read, poll_promise.
  cbn [js_buf js_eof js_open js_closed js_error] in *.
  repeat (case_match; subst; cbn [js_buf js_eof js_open js_closed js_error] in *; try discriminate); pairs;
    intros [= <- <-] T K; cbn [js_buf js_eof js_open js_closed js_error] in *.
  all: try (eapply (K [] _ eq_refl)).
  all: try (eapply (K [_] _ eq_refl)).
  all: try (eapply (K [_; _] _ eq_refl)).
  all: clear K T; first [reflexivity|by right|by split|destruct n as [|n]; [by left|cbn; rewrite take_length; lia]].
Qed.
Lemma C85_after_lemma os s log o s' es : js_run js_new os = (s, log) -> js_step s o = (s', es) ->
  (ended log \/ failed log -> forall t, CallRead t ∉ es) /\
  (failed log -> (forall n t p, o = OpRead n t p -> es = [DidRead n IoErr]) /\ (forall l c, o = OpWrite l c -> es = [DidWrite l IoErr])).
Proof.
  intros H Hs. apply run_inv in H. rewrite <- (i_eof _ _ H), <- (i_error _ _ H). pose proof (i_none _ _ H) as Hn. clear H. split.
  - intros He t. revert Hs. destruct s as [buf eof op cl er]; destruct o as [n th p|l c| |c]; cbn [js_step];
    unfold js_poll_read, js_poll_write, js_poll_close, poll_promise; cbn [js_buf js_eof js_open js_closed js_error] in *;
    repeat (case_match; subst; cbn [js_buf js_eof js_open js_closed js_error] in *; try discriminate); pairs;
    intros [= <- <-]; rewrite ?elem_of_cons, ?elem_of_nil; intuition congruence.
  - intros He. split.
    + intros n t p ->. cbn [js_step] in Hs. unfold js_poll_read in Hs. rewrite He in Hs. by injection Hs as _ <-.
    + intros l c ->. cbn [js_step] in Hs. unfold js_poll_write in Hs. rewrite He in Hs. by injection Hs as _ <-.
Qed.

Lemma C86_given_lemma os s log : js_run js_new os = (s, log) ->
  given log = accepted log /\ (forall l k, DidWrite l (IoOk k) ∈ log -> k = length l).
Proof.
  intros H. split; [apply run_inv in H; apply (i_given _ _ H)|]. revert s log H. generalize js_new.
  induction os as [|o os IH]; intros s0 s log; cbn [js_run]; [intros [= <- <-] l k []%elem_of_nil|].
  destruct (js_step s0 o) as [s1 es1] eqn:E1. destruct (js_run s1 os) as [s2 es2] eqn:E2. intros [= <- <-] l k.
  rewrite elem_of_app. intros [Hin|Hin]; [|by eapply IH]. revert E1 Hin. clear.
  destruct s0 as [buf eof op cl er]; destruct o as [n th p|l' c| |c]; cbn [js_step];
    unfold js_poll_read, js_poll_write, js_poll_close, poll_promise; cbn [js_buf js_eof js_open js_closed js_error];
    repeat (case_match; subst; cbn [js_buf js_eof js_open js_closed js_error] in *; try discriminate); pairs;
    intros [= <- <-]; rewrite ?elem_of_cons, ?elem_of_nil; intuition congruence.
Qed.
Lemma C86_write_lemma os s log l c s' es : js_run js_new os = (s, log) -> js_step s (OpWrite l c) = (s', es) ->
  ~ failed log -> DidClose (IoOk tt) ∉ log ->
  es = [CallWrite l c; DidWrite l (match c with Returns _ => IoOk (length l) | Throws => IoErr end)].
Proof.
  intros H Hs Hf Hc. apply run_inv in H. rewrite <- (i_error _ _ H) in Hf. rewrite <- (i_closed _ _ H) in Hc.
  cbn [js_step] in Hs. unfold js_poll_write in Hs.
  rewrite (not_true_is_false _ Hf), (not_true_is_false _ Hc) in Hs. cbn [orb] in Hs. by destruct c; injection Hs as _ <-.
Qed.
Lemma C86_close_lemma os s log o s' es : js_run js_new os = (s, log) -> js_step s o = (s', es) ->
  closes (log ++ es) <= 1 /\
  (DidClose (IoOk tt) ∈ log -> closes log = 1 /\ (forall l c, CallWrite l c ∉ es) /\ (forall c, CallClose c ∉ es) /\
    (forall l c, o = OpWrite l c -> es = [DidWrite l IoErr]) /\ (forall c, o = OpClose c -> es = [DidClose (IoOk tt)])).
Proof.
  intros H Hs. apply run_inv in H. pose proof (inv_step _ _ _ _ _ H Hs) as H'. split.
  - rewrite (i_closes _ _ H'). destruct (js_closed s'); cbn; lia.
  - rewrite <- (i_closed _ _ H), (i_closes _ _ H). intros Hc. rewrite Hc. split; [done|]. clear H H'.
    assert (forall l c, o = OpWrite l c -> es = [DidWrite l IoErr]) as W.
    { intros l c ->. cbn [js_step] in Hs. unfold js_poll_write in Hs. rewrite Hc, orb_true_r in Hs. by injection Hs as _ <-. }
    assert (forall c, o = OpClose c -> es = [DidClose (IoOk tt)]) as C.
    { intros c ->. cbn [js_step] in Hs. unfold js_poll_close in Hs. rewrite Hc in Hs. by injection Hs as _ <-. }
    assert (forall n t p, o = OpRead n t p -> (forall l c, CallWrite l c ∉ es) /\ (forall c, CallClose c ∉ es)) as R.
    { intros n t p ->. revert Hs. clear. destruct s as [buf eof op cl er]; cbn [js_step];
      unfold js_poll_read, poll_promise; cbn [js_buf js_eof js_open js_closed js_error];
      repeat (case_match; subst; cbn [js_buf js_eof js_open js_closed js_error] in *; try discriminate); pairs;
      intros [= <- <-]; split; intros; rewrite ?elem_of_cons, ?elem_of_nil; intuition congruence. }
    split; [|split; [|split; [exact W|exact C]]].
    + intros l c. destruct o as [n t p|l' c'| |c']; [by apply (R n t p)|rewrite (W _ _ eq_refl)| |rewrite (C _ eq_refl)];
        try (injection Hs as _ <-); rewrite ?elem_of_cons, ?elem_of_nil; intuition congruence.
    + intros c. destruct o as [n t p|l' c'| |c']; [by apply (R n t p)|rewrite (W _ _ eq_refl)| |rewrite (C _ eq_refl)];
        try (injection Hs as _ <-); rewrite ?elem_of_cons, ?elem_of_nil; intuition congruence.
Qed.

(** ** A stream *)
Definition j_ops : list js_op :=
  [OpRead 4 false JsPending; OpWrite [1;2;3]%N (Returns true); OpRead 4 false (JsBytes [7;8;9;10;11;12]%N); OpRead 1 false JsPending;
   OpFlush; OpRead 4 false JsPending; OpWrite [4]%N (Returns false); OpClose (Returns true); OpRead 4 false JsPending; OpRead 4 true (JsBytes [13]%N);
   OpWrite [5]%N (Returns true); OpRead 4 false JsNull; OpRead 4 false JsPending].
Definition j_log : list js_event := Eval vm_compute in snd (js_run js_new j_ops).
Lemma lost_lemma : exists os s log, js_run js_new os = (s, log) /\ Forall (fun e => ~ failure e) log /\
  CallWrite [1;2;3]%N (Returns false) ∈ log /\ DidFlush ∈ log /\ DidClose (IoOk tt) ∈ log.
Proof.
  exists [OpWrite [1;2;3]%N (Returns false); OpFlush; OpClose (Returns true)]. eexists _, _. split; [reflexivity|].
  split; [repeat (constructor; [cbn; tauto|]); constructor|]. rewrite ?elem_of_cons. split; [by left|]. split; [right; right; by left|right; right; right; right; by left].
Qed.
