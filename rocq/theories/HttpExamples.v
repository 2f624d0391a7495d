(** Concrete parse results for the HTTP committer. *)
From Verif.Lib Require Import Base Ranges RangesFacts.
From Verif Require Import TranscriptModel TranscriptSpec ProofModel ProofSpec ProofLemmas HttpModel HttpSpec HttpLemmas.

(** A request line of 16 bytes with the target at 4..6, two headers (one without a value), a
    blank line, a body of unknown type; a response with a JSON body
    [{"a":12,"b":{"c":"xy","d":[1,2]}}] sent in two chunks. *)
Definition ex_q : request :=
  Request [(0,40)] [(4,6)] [Header [(16,26)] [(20,24)]; Header [(26,30)] []] (Some (Body [(32,40)] COther)).
Definition ex_j : json :=
  JObject [(30,50);(54,70)]
    [([(31,37)], JNumber [(35,37)]);
     ([(38,50);(54,69)],
      JObject [(42,50);(54,69)]
        [([(43,50)], JString [(48,50)]);
         ([(55,64)], JArray [(59,64)] [(59,60);(63,64)] [JNumber [(60,61)]; JNumber [(62,63)]])])].
Definition ex_p : response :=
  Response [(0,70)] [Header [(16,24)] [(20,22)]] (Some (Body [(30,50);(54,70)] (CJson ex_j))).
Definition ex_h : http := Http [ex_q] [ex_p].
Definition ex_tr : transcript := Transcript (replicate 40 1%N) (replicate 80 2%N).

Lemma all_apart_nil : all_apart [].
Proof. intros k1 k2 x y H. by rewrite lookup_nil in H. Qed.
Lemma all_apart_cons x l : (forall y, y ∈ l -> apart x y) -> all_apart l -> all_apart (x :: l).
Proof.
  intros H1 H2 [|k1] [|k2] y z Hy Hz Hne; cbn in Hy, Hz; [done| | |].
  - injection Hy as ->. apply H1. by eapply elem_of_list_lookup_2.
  - injection Hz as ->. intros i Hi1 Hi2. apply (H1 y) with i; [by eapply elem_of_list_lookup_2|done|done].
  - apply (H2 k1 k2); [done|done|lia].
Qed.
Ltac rsl := unfold apart, within; intros;
  repeat match goal with H : context [in_rs] |- _ => revert H end;
  rewrite ?in_rs_cons, ?in_rs_nil; unfold in_range; cbn [fst snd]; lia.
Ltac els := repeat (let E := fresh "E" in intros E;
  repeat (apply elem_of_cons in E as [E|E]; [injection E as ?; subst|]); try (by apply elem_of_nil in E)).
Ltac each_in := repeat match goal with
  | H : _ ∈ _ :: _ |- _ => apply elem_of_cons in H as [H|H]; [try (injection H as H); subst|]
  | H : _ ∈ [] |- _ => by apply elem_of_nil in H end.
Ltac aparts := repeat (apply all_apart_cons; [intros; each_in; rsl|]); apply all_apart_nil.
Ltac oks := first [apply rs_ok_fromb_spec; reflexivity | cbn; lia].

Lemma ex_j_wf : json_wf ex_j.
Proof.
  constructor; [oks|cbn [map fst]; aparts| |].
  - intros ksp v Hin. unfold ex_j in Hin. each_in; simplify_eq; cbn [j_span]; (split; [oks|]); split; rsl.
  - intros ksp v Hin. each_in; simplify_eq; [constructor; oks|]. constructor; [oks|cbn [map fst]; aparts| |].
    + intros ksp v Hin. each_in; simplify_eq; cbn [j_span]; (split; [oks|]); split; rsl.
    + intros ksp v Hin. each_in; simplify_eq; constructor; try oks. rsl.
Qed.
Lemma ex_wf : http_wf ex_h.
Proof.
  split; cbn [requests responses ex_h].
  - intros q Hin. each_in. unfold request_wf, message_wf. cbn. split; [oks|]. split; [aparts|]. split_and!.
    + intros x Hin. each_in; (split; [oks|rsl]).
    + intros h Hin. each_in; (split; [oks|]; split; [oks|]; cbn; rsl).
    + intros b [= <-]. split; [oks|done].
  - intros p Hin. each_in. unfold response_wf, message_wf. cbn. split; [oks|]. split; [aparts|]. split_and!.
    + intros x Hin. each_in; (split; [oks|rsl]).
    + intros h Hin. each_in; (split; [oks|]; split; [oks|]; cbn; rsl).
    + intros b [= <-]. split; [oks|]. cbn. split; [apply ex_j_wf|]. cbn. rsl.
Qed.
Lemma ex_bounds : http_in_bounds ex_tr ex_h.
Proof. split; intros x i Hin Hi; cbn in Hin; each_in; cbn in *; revert Hi; rsl. Qed.

(** The builder after committing. *)
Definition ex_b : cfg_builder := Eval vm_compute in
  match commit_transcript (cfg_default_kind (cfg_new ex_tr) BLAKE3) ex_h with Some b => b | None => cfg_new ex_tr end.
Lemma ex_b_eq : commit_transcript (cfg_default_kind (cfg_new ex_tr) BLAKE3) ex_h = Some ex_b.
Proof. reflexivity. Qed.
Definition opens (es : list commit_entry) : list secret :=
  map (fun '(d, idx, a) => Secret d idx a (replicate 16 7%N)) es.
Lemma opens_of es : openings_of es (opens es).
Proof.
  intros d idx a. unfold opens. split.
  - intros H. exists (Secret d idx a (replicate 16 7%N)). split_and!; [|done..].
    apply elem_of_list_fmap. by exists (d, idx, a).
  - intros (s & ([[d' i'] a'] & -> & H)%elem_of_list_fmap & <- & <- & <-). done.
Qed.

Lemma ex_solid : http_solid ex_h.
Proof.
  split; cbn [requests responses ex_h].
  - intros q Hin. each_in. split; [done|]. split_and!.
    + exists 0. split; [cbn; rsl|]. intros x Hin. cbn in Hin. each_in; rsl.
    + intros h Hin. cbn in Hin. each_in; [exists 16|exists 26]; split; cbn; rsl.
    + by intros b [= <-].
  - intros p Hin. each_in. split_and!.
    + exists 0. split; [cbn; rsl|]. intros x Hin. cbn in Hin. each_in; rsl.
    + intros h Hin. cbn in Hin. each_in. exists 16; split; cbn; rsl.
    + intros b [= <-]. unfold body_solid. cbn. constructor.
      * exists 30. split; [rsl|]. intros k v Hin. each_in; simplify_eq; rsl.
      * intros k v Hin. each_in; simplify_eq; [exists 31|exists 38]; split; cbn; rsl.
      * intros k v Hin. each_in; simplify_eq; [by constructor|]. constructor.
        -- exists 42. split; [rsl|]. intros k v Hin. each_in; simplify_eq; rsl.
        -- intros k v Hin. each_in; simplify_eq; [exists 43|exists 55]; split; cbn; rsl.
        -- intros k v Hin. each_in; simplify_eq; by constructor.
Qed.

(** Hiding the value of the first header and the target of the request, and the string and
    the contents of the array of the response. *)
Definition ex_r1 : rangeset := [(0,4);(6,20);(24,40)].
Definition ex_r2 : rangeset := [(0,48);(50,60);(63,70)].
Definition ex_rcalls : list tb_call := [TBReveal ex_r1 Sent; TBReveal ex_r2 Received].
Lemma ex_red1 : redacted ex_h Sent ex_r1.
Proof.
  apply (RedactedRequest ex_h ex_q (fun P => P = set_of [(4,6)] \/ P = set_of [(20,24)])).
  - by left.
  - intros P [->| ->]; [apply SecretTarget|]. apply SecretInRequest.
    apply (SecretHeaderValue _ _ (Header [(16,26)] [(20,24)])). by left.
  - by left.
  - intros sp root [=].
  - intros i. unfold ex_r1. cbn [q_span ex_q]. split.
    + intros Hi. split; [rsl|]. intros P [->| ->]; unfold set_of; intros ?; rsl.
    + intros [Hi Hn]. pose proof (Hn _ (or_introl eq_refl)) as H1. pose proof (Hn _ (or_intror eq_refl)) as H2.
      unfold set_of in *. clear Hn. revert H1 H2. rsl.
Qed.
Lemma ex_red2 : redacted ex_h Received ex_r2.
Proof.
  apply (RedactedResponse ex_h ex_p (fun P => P = set_of [(48,50)] \/ P = (fun i => in_rs i [(59,64)] /\ ~ in_rs i [(59,60);(63,64)]))).
  - by left.
  - intros P HP. unfold response_secret. eapply SecretInBody; [reflexivity|].
    destruct HP as [->| ->].
    + eapply SecretMember; [right; left|]. eapply SecretMember; [left|]. apply (SecretValue (JString [(48,50)])).
    + eapply SecretMember; [right; left|]. eapply SecretMember; [right; left|]. by apply SecretContents.
  - intros sp root [= <- <-]. cbn. rsl.
  - intros i. unfold ex_r2. cbn [p_span ex_p]. split.
    + intros Hi. split; [rsl|]. intros P [->| ->]; [unfold set_of; intros ?; rsl|]. intros [? Hb]. revert Hb. rsl.
    + intros [Hi Hn]. pose proof (Hn _ (or_introl eq_refl)) as H1. pose proof (Hn _ (or_intror eq_refl)) as H2.
      unfold set_of in *. cbn beta in H2. clear Hn. revert H1 H2. rsl.
Qed.
Lemma ex_calls_redacted c : c ∈ ex_rcalls -> exists r d, c = TBReveal r d /\ redacted ex_h d r.
Proof.
  intros Hc. apply elem_of_cons in Hc as [->|Hc]; [eauto using ex_red1|].
  apply elem_of_list_singleton in Hc as ->. eauto using ex_red2.
Qed.

(** ** Messages whose pieces cannot be cut out *)
(** A request of a line only. *)
Definition line_q : request := Request [(0,18)] [(4,6)] [] None.
Definition line_h : http := Http [line_q] [].
Lemma line_wf : http_wf line_h.
Proof.
  split; cbn [requests responses line_h]; [|by intros p ?%elem_of_nil].
  intros q Hin. each_in. unfold request_wf, message_wf. cbn. split; [oks|]. split; [aparts|]. split_and!.
  - intros x Hin. each_in; (split; [oks|rsl]).
  - by intros h ?%elem_of_nil.
  - by intros b [=].
Qed.
(** A response with the body [{"a":1} ], a blank after the value. *)
Definition pad_j : json := JObject [(20,27)] [([(21,26)], JNumber [(25,26)])].
Definition pad_p : response := Response [(0,28)] [Header [(8,18)] [(14,16)]] (Some (Body [(20,28)] (CJson pad_j))).
Definition pad_h : http := Http [] [pad_p].
Lemma pad_wf : http_wf pad_h.
Proof.
  split; cbn [requests responses pad_h]; [by intros p ?%elem_of_nil|].
  intros p Hin. each_in. unfold response_wf, message_wf. cbn. split; [oks|]. split; [aparts|]. split_and!.
  - intros x Hin. each_in; (split; [oks|rsl]).
  - intros h Hin. each_in; (split; [oks|]; split; [oks|]; cbn; rsl).
  - intros b [= <-]. split; [oks|]. cbn. split; [|rsl]. constructor; [oks|cbn [map fst]; aparts| |].
    + intros ksp v Hin. each_in; simplify_eq; cbn [j_span]; (split; [oks|]); split; rsl.
    + intros ksp v Hin. each_in; simplify_eq. constructor; oks.
Qed.
(** A response with the body [[1,2]]. *)
Definition arr_j : json := JArray [(20,25)] [(20,21);(24,25)] [JNumber [(21,22)]; JNumber [(23,24)]].
Definition arr_p : response := Response [(0,25)] [Header [(8,18)] [(14,16)]] (Some (Body [(20,25)] (CJson arr_j))).
Definition arr_h : http := Http [] [arr_p].
Lemma arr_wf : http_wf arr_h.
Proof.
  split; cbn [requests responses arr_h]; [by intros p ?%elem_of_nil|].
  intros p Hin. each_in. unfold response_wf, message_wf. cbn. split; [oks|]. split; [aparts|]. split_and!.
  - intros x Hin. each_in; (split; [oks|rsl]).
  - intros h Hin. each_in; (split; [oks|]; split; [oks|]; cbn; rsl).
  - intros b [= <-]. split; [oks|]. cbn. split; [|rsl]. constructor; [oks|oks|rsl].
Qed.

(** Committing [h] and opening everything does not help to reveal [r]. *)
Lemma stuck_by cover t a h b ss r d i : cover_ok cover -> http_wf h ->
  commit_transcript (cfg_default_kind (cfg_new t) a) h = Some b -> openings_of (cb_commits b) ss ->
  revealable t ss r d -> in_rs i r ->
  (forall e, e ∈ cb_commits b -> in_rsb i e.1.2 = true -> rs_subset e.1.2 r = false) ->
  forall pr, tb_build cover (tb_run t ss [TBReveal r d]) <> Ok pr.
Proof.
  intros Hcov Hw Hc Ho Hr Hi Hne pr Hpr. destruct (openings_parts t a h b ss Hw Hc Ho) as (_ & Hss & Hps).
  destruct (only_unions cover t a h b ss r d pr Hcov Hw Hc Ho Hpr Hr i Hi) as (P & HP & Pi & Psub).
  destruct (Hps d P HP) as (s & Hs & Hd & Ha & E). assert (Hin : (d, sc_idx s, a) ∈ cb_commits b) by (apply Ho; eauto).
  pose proof (Hne _ Hin (proj2 (in_rsb_spec i (sc_idx s)) (proj2 (E i) Pi))) as Hf. cbn [fst snd] in Hf.
  assert (rs_subset (sc_idx s) r = true); [|congruence]. apply rs_subset_spec; [by apply Hss|].
  intros j Hj. by apply Psub, E.
Qed.
Definition committed (t : transcript) (h : http) : cfg_builder :=
  match commit_transcript (cfg_default_kind (cfg_new t) BLAKE3) h with Some b => b | None => cfg_new t end.
Definition line_b : cfg_builder := Eval vm_compute in committed ex_tr line_h.
Definition pad_b : cfg_builder := Eval vm_compute in committed ex_tr pad_h.
Definition arr_b : cfg_builder := Eval vm_compute in committed ex_tr arr_h.

Lemma target_stuck cover : cover_ok cover -> exists t a h b ss q r,
  http_wf h /\ commit_transcript (cfg_default_kind (cfg_new t) a) h = Some b /\ openings_of (cb_commits b) ss /\
  requests h = [q] /\ (forall i, in_rs i r <-> in_rs i (q_span q) /\ ~ in_rs i (q_target q)) /\
  revealable t ss r Sent /\ forall pr, tb_build cover (tb_run t ss [TBReveal r Sent]) <> Ok pr.
Proof.
  intros Hcov. exists ex_tr, BLAKE3, line_h, line_b, (opens (cb_commits line_b)), line_q, [(0,4);(6,18)].
  assert (Hr : revealable ex_tr (opens (cb_commits line_b)) [(0,4);(6,18)] Sent).
  { intros i Hi. split; [cbn; rsl|]. exists (Secret Sent [(0,18)] BLAKE3 (replicate 16 7%N)).
    split; [by right; left|]. split; [done|]. cbn. rsl. }
  split; [apply line_wf|]. split; [reflexivity|]. split; [apply opens_of|]. split; [done|]. split.
  { intros i. cbn. split; [intros ?; split; [rsl|intros ?; rsl]|]. intros [? Hn]. revert Hn. rsl. }
  split; [done|]. eapply (stuck_by cover ex_tr BLAKE3 line_h line_b _ _ _ 0 Hcov line_wf); [reflexivity|apply opens_of|done|rsl|].
  intros e He. cbn in He. each_in; cbn; done.
Qed.
Lemma padding_stuck cover : cover_ok cover -> exists t a h b ss p r sp root ksp v,
  http_wf h /\ commit_transcript (cfg_default_kind (cfg_new t) a) h = Some b /\ openings_of (cb_commits b) ss /\
  responses h = [p] /\ p_body p = Some (Body sp (CJson (JObject root [(ksp, v)]))) /\
  (forall i, in_rs i r <-> in_rs i (p_span p) /\ ~ in_rs i (j_span v)) /\
  revealable t ss r Received /\ forall pr, tb_build cover (tb_run t ss [TBReveal r Received]) <> Ok pr.
Proof.
  intros Hcov. exists ex_tr, BLAKE3, pad_h, pad_b, (opens (cb_commits pad_b)), pad_p, [(0,25);(26,28)].
  exists [(20,28)], [(20,27)], [(21,26)], (JNumber [(25,26)]).
  assert (Hr : revealable ex_tr (opens (cb_commits pad_b)) [(0,25);(26,28)] Received).
  { intros i Hi. split; [cbn; rsl|]. exists (Secret Received [(0,28)] BLAKE3 (replicate 16 7%N)).
    split; [apply (elem_of_list_fmap_1 (fun '(d, idx, a) => Secret d idx a (replicate 16 7%N)) (cb_commits pad_b) (Received, [(0,28)], BLAKE3)); by repeat constructor|].
    split; [done|]. cbn. rsl. }
  split; [apply pad_wf|]. split; [reflexivity|]. split; [apply opens_of|]. split; [done|]. split; [done|]. split.
  { intros i. cbn. split; [intros ?; split; [rsl|intros ?; rsl]|]. intros [? Hn]. revert Hn. rsl. }
  split; [done|]. eapply (stuck_by cover ex_tr BLAKE3 pad_h pad_b _ _ _ 27 Hcov pad_wf); [reflexivity|apply opens_of|done|rsl|].
  intros e He. cbn in He. each_in; cbn; done.
Qed.
Lemma element_stuck cover : cover_ok cover -> exists t a h b ss p r sp root brackets e1 e2,
  http_wf h /\ commit_transcript (cfg_default_kind (cfg_new t) a) h = Some b /\ openings_of (cb_commits b) ss /\
  responses h = [p] /\ p_body p = Some (Body sp (CJson (JArray root brackets [e1; e2]))) /\ sp = root /\
  (forall i, in_rs i r <-> in_rs i (p_span p) /\ ~ in_rs i (j_span e1)) /\
  revealable t ss r Received /\ forall pr, tb_build cover (tb_run t ss [TBReveal r Received]) <> Ok pr.
Proof.
  intros Hcov. exists ex_tr, BLAKE3, arr_h, arr_b, (opens (cb_commits arr_b)), arr_p, [(0,21);(22,25)].
  exists [(20,25)], [(20,25)], [(20,21);(24,25)], (JNumber [(21,22)]), (JNumber [(23,24)]).
  assert (Hr : revealable ex_tr (opens (cb_commits arr_b)) [(0,21);(22,25)] Received).
  { intros i Hi. split; [cbn; rsl|]. exists (Secret Received [(0,25)] BLAKE3 (replicate 16 7%N)).
    split; [apply (elem_of_list_fmap_1 (fun '(d, idx, a) => Secret d idx a (replicate 16 7%N)) (cb_commits arr_b) (Received, [(0,25)], BLAKE3)); by repeat constructor|].
    split; [done|]. cbn. rsl. }
  split; [apply arr_wf|]. split; [reflexivity|]. split; [apply opens_of|]. split; [done|]. split; [done|]. split; [done|]. split.
  { intros i. cbn. split; [intros ?; split; [rsl|intros ?; rsl]|]. intros [? Hn]. revert Hn. rsl. }
  split; [done|]. eapply (stuck_by cover ex_tr BLAKE3 arr_h arr_b _ _ _ 22 Hcov arr_wf); [reflexivity|apply opens_of|done|rsl|].
  intros e He. cbn in He. each_in; cbn; done.
Qed.
