From Verif.Lib Require Import Base.
From Verif Require Import SdkLifeModel ConfigModel SdkVerModel SdkVerSpec.
Section proofs.
Context {S T O : Type}.
Notation entry := (ver_op S T O * list (ver_event S T) * call_res (ver_value T O))%type.
Implicit Types (s : ver_state S T) (log : list entry) (c : sdk_limits).

Lemma calls_snoc c os o : forall s, ver_calls (S:=S) (T:=T) (O:=O) c s (os ++ [o]) =
  let (s1, log) := ver_calls c s os in let '(s2, es, r) := ver_step c s1 o in (s2, log ++ [(o, es, r)]).
Proof.
  induction os as [|o' os IH]; intros s; cbn [ver_calls app].
  - by destruct (ver_step c s o) as [[s2 es] r].
  - destruct (ver_step c s o') as [[s1 es1] r1]. rewrite IH. destruct (ver_calls c s1 os) as [s2 log]. by destruct (ver_step c s2 o) as [[? ?] ?].
Qed.
Lemma ver_events_snoc log o es r : ver_events (log ++ [(o, es, r)]) = ver_events log ++ es.
Proof. unfold ver_events. rewrite map_app, concat_app. cbn. by rewrite app_nil_r. Qed.
Lemma last_socket_snoc log e : last_socket (log ++ [e]) = match socket_set e with Some k => Some k | None => last_socket log end.
Proof. unfold last_socket. rewrite omap_app. cbn. destruct (socket_set e); [apply last_snoc|by rewrite app_nil_r]. Qed.
Lemma socket_app st sock log e : socket_set e = None -> socket_for st sock log -> socket_for st sock (log ++ [e]).
Proof. intros He. destruct st; cbn; [done|]. by rewrite last_socket_snoc, He. Qed.
Lemma ran_app t log log' : ran t log -> ran t (log ++ log').
Proof. intros (es & r & H & Hs). exists es, r. split; [apply elem_of_app; by left|done]. Qed.
Lemma accepted_app st log log' : accepted st log -> accepted st (log ++ log').
Proof. intros (es & r & H & Hs). exists es, r. split; [apply elem_of_app; by left|done]. Qed.
Lemma verified_app log log' : verified log -> verified (log ++ log').
Proof. intros (x & a & k & es & r & H & Hs). exists x, a, k, es, r. split; [apply elem_of_app; by left|done]. Qed.
Lemma gtb_spec n k : opt_gtb n k = false <-> records_within n k.
Proof.
  unfold records_within. destruct n as [n|], k as [k|]; cbn; rewrite ?N.ltb_ge; split; intros H; try done.
  - intros x [= <-]. by exists k.
  - by destruct (H n eq_refl) as (y & [= <-] & Hy).
  - by destruct (H n eq_refl) as (y & ? & _).
Qed.
Lemma accepts_spec c l : sdk_accepts c l = true <-> acceptable c (StMpc l).
Proof.
  unfold sdk_accepts, acceptable. rewrite <- !gtb_spec, <- !N.ltb_ge. repeat case_match; rewrite ?negb_true_iff; naive_solver.
Qed.

Definition ver_inv c s log : Prop :=
  match s with
  | VInitialized => ver_events log = [] /\ last_socket log = None
  | VConnected => ver_events log = [VNew] /\ last_socket log = None
  | VAcceptedMpc => exists l, acceptable c (StMpc l) /\ accepted (StMpc l) log /\ ver_events log = [VNew; VCommit; VAccept (StMpc l)]
  | VAcceptedProxy sock => exists name, accepted (StProxy name) log /\ ver_events log = [VNew; VCommit; VAccept (StProxy name)] /\
      sock = last_socket log
  | VCommitted t => exists st sock, acceptable c st /\ accepted st log /\ socket_for st sock log /\ ran t log /\ ver_events log = [VNew; VCommit; VAccept st; VRun sock]
  | VComplete => exists t, whole c t log
  | VError => ver_order c log
  end.
Definition outs c log : Prop := forall o es t x, (o, es, ROk (VvOutput t x)) ∈ log ->
  o = VOpVerify (FOk x) (FOk tt) (FOk tt) /\ whole c t log.

Lemma order_snoc c log o r : socket_set (o, [], r) = None -> ver_order c log -> ver_order c (log ++ [(o, [], r)]).
Proof.
  unfold ver_order. rewrite ver_events_snoc, app_nil_r. intros He [H|[H|[H|H]]].
  - by left.
  - right; by left.
  - right; right; left. destruct H as (st & sock & ? & ? & ? & ?). exists st, sock. split; [done|]. split; [by apply accepted_app|]. split; [by apply socket_app|done].
  - right; right; right. destruct H as (st & sock & t & ? & ? & ? & ? & p & ? & Hv & ?). exists st, sock, t. split; [done|]. split; [by apply accepted_app|].
    split; [by apply socket_app|]. split; [by apply ran_app|]. exists p. split; [done|]. split; [|done]. intros Hp. apply verified_app. by apply Hv.
Qed.
Lemma whole_snoc c t log o r : socket_set (o, [], r) = None -> whole c t log -> whole c t (log ++ [(o, [], r)]).
Proof.
  intros He (st & sock & ? & ? & ? & ? & ? & ?). exists st, sock. rewrite ver_events_snoc, app_nil_r.
  split; [done|]. split; [by apply accepted_app|]. split; [by apply socket_app|]. split; [by apply ran_app|]. split; [by apply verified_app|done].
Qed.
Lemma ver_inv_order c s log : ver_inv c s log -> ver_order c log.
Proof.
  unfold ver_inv, ver_order. destruct s as [| | |sock|t| |].
  - intros [-> _]. left. apply prefix_nil.
  - intros [-> _]. left. by exists [VCommit; VReject].
  - intros (l & Hl & _ & ->). right; left. by exists (StMpc l).
  - intros (name & _ & -> & _). right; left. by exists (StProxy name).
  - intros (st & sock & ? & ? & ? & ? & ?). right; right; left. by exists st, sock.
  - intros (t & st & sock & Ha & Hc & Hs & Hr & Hv & He). right; right; right. exists st, sock, t. do 4 (split; [done|]).
    exists [VAcceptProof; VClose]. split; [done|]. split; [done|]. by rewrite He.
  - done.
Qed.
Lemma ver_inv_step c s log o s' es r : ver_inv c s log -> ver_step c s o = (s', es, r) ->
  ver_inv c s' (log ++ [(o, es, r)]) /\
  (forall t x, r = ROk (VvOutput t x) -> o = VOpVerify (FOk x) (FOk tt) (FOk tt) /\ whole c t (log ++ [(o, es, r)])) /\
  (forall t, whole c t log -> es = [] /\ socket_set (o, es, r) = None).
Proof.
  intros Hi H.
  assert (Hbad : s' = VError -> es = [] -> (forall v, r <> ROk v) -> ver_inv c s' (log ++ [(o, es, r)]) /\
    (forall t x, r = ROk (VvOutput t x) -> o = VOpVerify (FOk x) (FOk tt) (FOk tt) /\ whole c t (log ++ [(o, es, r)])) /\
    (forall t, whole c t log -> es = [] /\ socket_set (o, es, r) = None)).
  { intros -> -> Hr. assert (socket_set (o, [], r) = None) as Hnone by (destruct o; try done; destruct r; try done; by destruct (Hr _ eq_refl)).
    split; [cbn [ver_inv]; apply order_snoc; [done|exact (ver_inv_order c s log Hi)]|]. split; [intros t x E; by destruct (Hr _ E)|done]. }
  assert (Hnw : True -> forall t : T, whole c t log -> length (ver_events log) = 7).
  { intros _ t (st & sock & _ & _ & _ & _ & _ & ->). done. }
  destruct o as [pre|commit reply|sock0|run|verify accept close]; cbn [ver_step] in H.
  - destruct s; cbn [ver_connect] in H; try (injection H as <- <- <-; by apply Hbad).
    destruct pre; [|injection H as <- <- <-; by apply Hbad]. cbn [ver_inv] in Hi. destruct Hi as [Hi Hl]. injection H as <- <- <-. split; [|split; [done|]].
    + cbn [ver_inv]. by rewrite ver_events_snoc, last_socket_snoc, Hi.
    + intros t Hw. specialize (Hnw I t Hw). by rewrite Hi in Hnw.
  - destruct s; cbn [ver_setup] in H; try (injection H as <- <- <-; by apply Hbad). cbn [ver_inv] in Hi. destruct Hi as [Hi Hl].
    assert (Hw : forall t, whole c t log -> es = [] /\ socket_set (VOpSetup (O:=O) commit reply, es, r) = None) by (intros t Hw; specialize (Hnw I t Hw); by rewrite Hi in Hnw).
    assert (Hacc : forall st v, accepted st (log ++ [(VOpSetup (FOk st) (FOk tt), [VCommit; VAccept st], v)])).
    { intros st v. exists [VCommit; VAccept st], v. split; [apply elem_of_app; right; apply elem_of_list_here|].
      apply elem_of_list_further, elem_of_list_here. }
    unfold await in H. destruct commit as [[l|name]| |].
    + destruct (sdk_accepts c l) eqn:E.
      2: { assert (s' = VError /\ es = [VCommit; VReject] /\ forall v, r <> ROk v) as (-> & -> & Hr)
          by (destruct reply; by injection H as <- <- <-).
        split; [|split; [intros t x Ex; by destruct (Hr _ Ex)|done]]. left. rewrite ver_events_snoc, Hi. done. }
      * apply accepts_spec in E. destruct reply as [[]| |]; injection H as <- <- <-; (split; [|split; [done|done]]).
        -- exists l. split; [done|]. split; [apply Hacc|]. by rewrite ver_events_snoc, Hi.
        -- right; left. exists (StMpc l). split; [done|]. by rewrite ver_events_snoc, Hi.
        -- right; left. exists (StMpc l). split; [done|]. by rewrite ver_events_snoc, Hi.
    + destruct reply as [[]| |]; injection H as <- <- <-; (split; [|split; [done|done]]).
      * exists name. split; [apply Hacc|]. rewrite ver_events_snoc, last_socket_snoc, Hi, Hl. done.
      * right; left. exists (StProxy name). split; [done|]. by rewrite ver_events_snoc, Hi.
      * right; left. exists (StProxy name). split; [done|]. by rewrite ver_events_snoc, Hi.
    + injection H as <- <- <-. split; [|split; [done|done]]. left. rewrite ver_events_snoc, Hi. by exists [VReject].
    + injection H as <- <- <-. split; [|split; [done|done]]. left. rewrite ver_events_snoc, Hi. by exists [VReject].
  - assert (es = [] /\ (forall t x, r <> ROk (VvOutput t x)) /\ (s' = s /\ r = RInvalidState /\ (forall k, s <> VAcceptedProxy k) \/
      exists k, s = VAcceptedProxy k /\ s' = VAcceptedProxy (Some sock0) /\ r = ROk VvUnit)) as (-> & Hr & Hs).
    { unfold ver_socket in H. destruct s; injection H as <- <- <-; split; try done; (split; [done|]); first [by left|right; by eexists]. }
    split; [|split; [intros t x E; by destruct (Hr _ _ E)|]].
    2: { intros t Hw. split; [done|]. destruct Hs as [(_ & -> & _) | (k & -> & _)]; [done|].
         destruct Hi as (name & _ & He & _). specialize (Hnw I t Hw). by rewrite He in Hnw. }
    clear H Hbad Hnw. destruct Hs as [(-> & -> & Hnp) | (k & -> & -> & ->)].
    + unfold ver_inv in *. destruct s as [| | |sock|t| |]; rewrite ?ver_events_snoc, ?app_nil_r, ?last_socket_snoc.
      * done.
      * done.
      * destruct Hi as (l & ? & ? & He). exists l. split; [done|]. split; [by apply accepted_app|done].
      * by destruct (Hnp sock).
      * destruct Hi as (st & sock & H1 & H0 & H2 & H3 & H4). exists st, sock. split; [done|]. split; [by apply accepted_app|]. split; [by apply socket_app|]. split; [by apply ran_app|].
        done.
      * destruct Hi as (t & Hw). exists t. by apply whole_snoc.
      * by apply order_snoc.
    + destruct Hi as (name & ? & He & _). exists name. split; [by apply accepted_app|]. rewrite ver_events_snoc, app_nil_r. split; [done|]. by rewrite last_socket_snoc.
  - assert (Hcon : forall st sock, acceptable c st -> accepted st log -> socket_for st sock log -> ver_events log = [VNew; VCommit; VAccept st] ->
      await run [VRun sock] (fun t => (VCommitted t, [VRun sock], ROk VvUnit)) = (s', es, r) ->
      ver_inv c s' (log ++ [(VOpRun run, es, r)]) /\
      (forall t x, r = ROk (VvOutput t x) -> VOpRun (O:=O) (S:=S) run = VOpVerify (FOk x) (FOk tt) (FOk tt) /\ whole c t (log ++ [(VOpRun run, es, r)])) /\
      (forall t, whole c t log -> es = [] /\ socket_set (VOpRun (O:=O) run, es, r) = None)).
    { intros st sock Ha Hac Hs He Hc.
      assert (Hw : forall t, whole c t log -> es = [] /\ socket_set (VOpRun (O:=O) run, es, r) = None) by (intros t Hw; specialize (Hnw I t Hw); by rewrite He in Hnw).
      unfold await in Hc. destruct run as [t| |]; injection Hc as <- <- <-; (split; [|split; [done|done]]).
      - exists st, sock. split; [done|]. split; [by apply accepted_app|]. split; [by apply socket_app|]. split; [|by rewrite ver_events_snoc, He].
        exists [VRun sock], (ROk VvUnit). split; [apply elem_of_app; right; apply elem_of_list_here|]. exists sock. apply elem_of_list_here.
      - right; right; left. exists st, sock. split; [done|]. split; [by apply accepted_app|]. split; [by apply socket_app|]. by rewrite ver_events_snoc, He.
      - right; right; left. exists st, sock. split; [done|]. split; [by apply accepted_app|]. split; [by apply socket_app|]. by rewrite ver_events_snoc, He. }
    destruct s as [| | |[k|]|t| |]; cbn [ver_run] in H; try (injection H as <- <- <-; by apply Hbad).
    + destruct Hi as (l & Ha & Hac & He). by apply (Hcon (StMpc l) None).
    + destruct Hi as (name & Hac & He & Hk). by apply (Hcon (StProxy name) (Some k)).
  - destruct s as [| | |k|t| |]; cbn [ver_verify] in H; try (injection H as <- <- <-; by apply Hbad).
    destruct Hi as (st & sock & Ha & Hac & Hs & Hr & He).
    assert (Hw : forall t, whole c t log -> es = [] /\ socket_set (VOpVerify verify accept close, es, r) = None) by (intros t0 Hw; specialize (Hnw I t0 Hw); by rewrite He in Hnw).
    assert (Hord : forall p e, p `prefix_of` [VAcceptProof; VClose] -> es = VVerify t :: p -> (p <> [] -> exists x, verify = FOk x) ->
      ver_order c (log ++ [(VOpVerify verify accept close, es, e)])).
    { intros p e Hp -> Hv. right; right; right. exists st, sock, t. split; [done|]. split; [by apply accepted_app|]. split; [by apply socket_app|].
      split; [by apply ran_app|]. exists p. split; [done|]. split; [|by rewrite ver_events_snoc, He].
      intros Hne. destruct (Hv Hne) as [x ->]. exists x, accept, close, (VVerify t :: p), e. split; [apply elem_of_app; right; apply elem_of_list_here|].
      exists t. apply elem_of_list_here. }
    unfold await in H. destruct verify as [o| |].
    2: { injection H as <- <- <-. split; [|split; [done|done]]. apply (Hord []); [apply prefix_nil|done|done]. }
    2: { injection H as <- <- <-. split; [|split; [done|done]]. apply (Hord []); [apply prefix_nil|done|done]. }
    destruct accept as [[]| |].
    2: { injection H as <- <- <-. split; [|split; [done|done]]. apply (Hord [VAcceptProof]); [by exists [VClose]|done|by exists o]. }
    2: { injection H as <- <- <-. split; [|split; [done|done]]. apply (Hord [VAcceptProof]); [by exists [VClose]|done|by exists o]. }
    destruct close as [[]| |].
    2: { injection H as <- <- <-. split; [|split; [done|done]]. apply (Hord [VAcceptProof; VClose]); [done|done|by exists o]. }
    2: { injection H as <- <- <-. split; [|split; [done|done]]. apply (Hord [VAcceptProof; VClose]); [done|done|by exists o]. }
    injection H as <- <- <-.
    assert (Hwh : whole c t (log ++ [(VOpVerify (FOk o) (FOk tt) (FOk tt), [VVerify t; VAcceptProof; VClose], ROk (VvOutput t o))])).
    { exists st, sock. split; [done|]. split; [by apply accepted_app|]. split; [by apply socket_app|]. split; [by apply ran_app|].
      split; [|by rewrite ver_events_snoc, He]. exists o, (FOk tt), (FOk tt), [VVerify t; VAcceptProof; VClose], (ROk (VvOutput t o)).
      split; [apply elem_of_app; right; apply elem_of_list_here|]. exists t. apply elem_of_list_here. }
    split; [by exists t|]. split; [|done]. intros t0 x [= <- <-]. done.
Qed.
Lemma ver_inv_calls c os : forall s log, ver_calls c VInitialized os = (s, log) -> ver_inv c s log /\ outs c log.
Proof.
  induction os as [|o os IH] using rev_ind; intros s log H.
  - injection H as <- <-. split; [done|]. intros o es t x Hin. by apply elem_of_nil in Hin.
  - rewrite calls_snoc in H. destruct (ver_calls c VInitialized os) as [s1 log1] eqn:E.
    destruct (ver_step c s1 o) as [[s2 es] r] eqn:E2. injection H as <- <-. destruct (IH s1 log1 eq_refl) as [Hi Ho].
    destruct (ver_inv_step c s1 log1 o s2 es r Hi E2) as (H1 & H2 & H3). split; [done|].
    intros o' es' t x Hin. apply elem_of_app in Hin as [Hin|Hin].
    + destruct (Ho o' es' t x Hin) as [-> Hw]. split; [done|]. destruct (H3 t Hw) as [-> ?]. by apply whole_snoc.
    + apply elem_of_list_singleton in Hin. injection Hin as -> -> Hr. split; [by apply (H2 t x)|]. by apply (H2 t x).
Qed.

Lemma C91_order_lemma c os s log : ver_calls c VInitialized os = (s, log) -> ver_order c log.
Proof. intros H. exact (ver_inv_order c s log (proj1 (ver_inv_calls c os s log H))). Qed.
Lemma C91_output_lemma c os s log o es t x : ver_calls c VInitialized os = (s, log) -> (o, es, ROk (VvOutput t x)) ∈ log ->
  o = VOpVerify (FOk x) (FOk tt) (FOk tt) /\ whole c t log.
Proof. intros H. exact (proj2 (ver_inv_calls c os s log H) o es t x). Qed.
Lemma C91_complete_lemma c (os : list (ver_op S T O)) s log : ver_calls c VInitialized os = (s, log) -> ver_is_complete s = true -> exists t, whole c t log.
Proof. intros H Hc. destruct (ver_inv_calls c os s log H) as [Hi _]. by destruct s. Qed.

Definition ver_dead s : Prop := s = VComplete \/ s = VError.
Lemma ver_dead_step c s o s' es r : ver_dead s -> ver_step (O:=O) c s o = (s', es, r) -> ver_dead s' /\ es = [] /\ r = RInvalidState.
Proof.
  intros Hd H. destruct o; cbn [ver_step] in H; destruct Hd as [-> | ->]; cbn in H; injection H as <- <- <-; (split; [|done]); first [by right|by left].
Qed.
Lemma ver_failed_dead c s o s' es r : ver_step (O:=O) c s o = (s', es, r) -> ver_changing o -> (forall v, r <> ROk v) -> ver_dead s'.
Proof.
  intros H Ho Hok. destruct o; cbn [ver_step] in H; [| |done| |].
  all: unfold ver_connect, ver_setup, ver_run, ver_verify, await in H; repeat case_match; injection H as <- <- <-; try (by right); by destruct (Hok _ eq_refl).
Qed.
Lemma ver_dead_calls c os : forall s s' log, ver_dead s -> ver_calls (O:=O) c s os = (s', log) -> ver_dead s'.
Proof.
  induction os as [|o os IH]; intros s s' log Hd H; cbn [ver_calls] in H; [by injection H as <- <-|].
  destruct (ver_step c s o) as [[s1 es] r] eqn:E. destruct (ver_calls c s1 os) as [s2 log2] eqn:E2. injection H as <- <-.
  apply (IH s1 s2 log2); [|done]. by apply (ver_dead_step c s o s1 es r).
Qed.
Lemma C91_final_lemma c (os : list (ver_op S T O)) o es r o' s' es' r' : forall s0 s log, ver_calls c s0 os = (s, log) -> (o, es, r) ∈ log ->
  ver_changing o -> (forall v, r <> ROk v) -> ver_step (O:=O) c s o' = (s', es', r') -> es' = [] /\ r' = RInvalidState.
Proof.
  intros s0 s log H Hin Ho Hr Hs. cut (ver_dead s); [intros Hd; by apply (ver_dead_step c s o' s')|]. clear Hs. revert s0 s log H Hin.
  induction os as [|o1 os IH]; intros s0 s log H Hin; cbn [ver_calls] in H; [injection H as <- <-; by apply elem_of_nil in Hin|].
  destruct (ver_step c s0 o1) as [[s1 es1] r1] eqn:E. destruct (ver_calls c s1 os) as [s2 log2] eqn:E2. injection H as <- <-.
  apply elem_of_cons in Hin as [Hin|Hin].
  - injection Hin as -> -> ->. apply (ver_dead_calls c os s1 s2 log2); [|done]. by apply (ver_failed_dead c s0 o1 s1 es1 r1).
  - by apply (IH s1 s2 log2).
Qed.
Lemma C91_refused_socket_lemma c s k s' es r : ver_step (O:=O) c s (VOpSocket k) = (s', es, r) -> es = [] /\
  (r = RInvalidState /\ s' = s /\ (forall k', s <> VAcceptedProxy k') \/ r = ROk VvUnit /\ exists k', s = VAcceptedProxy k').
Proof. cbn [ver_step]. unfold ver_socket. destruct s; intros H; injection H as <- <- <-; (split; [done|]); first [by left|right; split; [done|by eexists]]. Qed.
Lemma C91_mpc_lemma c l t (x : O) : acceptable c (StMpc l) -> exists log, ver_calls (S:=S) c VInitialized
    [VOpConnect true; VOpSetup (FOk (StMpc l)) (FOk tt); VOpRun (FOk t); VOpVerify (FOk x) (FOk tt) (FOk tt)] = (VComplete, log) /\
  map snd log = [ROk VvUnit; ROk (VvName None); ROk VvUnit; ROk (VvOutput t x)].
Proof.
  intros H. apply accepts_spec in H. eexists. cbn [ver_calls ver_step ver_connect ver_setup await]. rewrite H. cbn. done.
Qed.
Lemma C91_proxy_lemma c name (k : S) t (x : O) : exists log, ver_calls c VInitialized
    [VOpConnect true; VOpSetup (FOk (StProxy name)) (FOk tt); VOpSocket k; VOpRun (FOk t); VOpVerify (FOk x) (FOk tt) (FOk tt)] = (VComplete, log) /\
  map snd log = [ROk VvUnit; ROk (VvName (Some name)); ROk VvUnit; ROk VvUnit; ROk (VvOutput t x)].
Proof. eexists. cbn. done. Qed.
End proofs.

Definition y_lim : sdk_limits := SdkLimits 100 200 (Some 10%N) (Some 20%N).
Lemma C91_socket_lemma : ~ (forall c (os : list (ver_op nat nat nat)) s log t s' es r,
  ver_calls c VInitialized os = (s, log) -> ver_step (O:=nat) c s (VOpRun (FOk t)) = (s', es, r) -> r = RInvalidState -> s' = s).
Proof.
  intros H. pose (os := [VOpConnect true; VOpSetup (FOk (StProxy [1%N])) (FOk tt)] : list (ver_op nat nat nat)).
  specialize (H y_lim os (VAcceptedProxy None) (snd (ver_calls y_lim VInitialized os)) 5 VError [] RInvalidState eq_refl eq_refl eq_refl).
  discriminate H.
Qed.
