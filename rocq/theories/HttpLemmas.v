(** Lemmas about the HTTP and JSON committers. *)
From Verif.Lib Require Import Base Ranges RangesFacts.
From Verif Require Import TranscriptModel TranscriptSpec ProofModel ProofSpec ProofLemmas HttpModel HttpSpec.

(** ** Structural induction on JSON values *)
Section JsonInd.
  Context (P : json -> Prop).
  Context (HO : forall sp pairs, (forall ksp v, (ksp, v) ∈ pairs -> P v) -> P (JObject sp pairs)).
  Context (HA : forall sp br es, P (JArray sp br es)).
  Context (HS : forall sp, P (JString sp)) (HN : forall sp, P (JNumber sp))
          (HB : forall sp, P (JBool sp)) (HU : forall sp, P (JNull sp)).
  Fixpoint json_ind2 (v : json) : P v :=
    match v with
    | JObject sp pairs =>
        HO sp pairs
          ((fix go (l : list (rangeset * json)) : forall ksp v, (ksp, v) ∈ l -> P v :=
              match l with
              | [] => fun ksp v H => False_ind _ (not_elem_of_nil _ H)
              | kv :: l' => fun ksp v H =>
                  match proj1 (elem_of_cons l' (ksp, v) kv) H with
                  | or_introl e => eq_ind_r (fun w => P w) (json_ind2 kv.2) (f_equal snd e)
                  | or_intror H' => go l' ksp v H'
                  end
              end) pairs)
    | JArray sp br es => HA sp br es
    | JString sp => HS sp | JNumber sp => HN sp | JBool sp => HB sp | JNull sp => HU sp
    end.
End JsonInd.

(** ** The committers are sequences of commit calls *)
Definition pairs_calls (f : json -> list rangeset) (pairs : list (rangeset * json)) : list rangeset :=
  flat_map (fun kv => rs_diff kv.1 (j_span kv.2) :: f kv.2) pairs.
Fixpoint value_calls (v : json) : list rangeset :=
  match v with
  | JObject sp pairs =>
      object_without_pairs sp pairs ::
        (fix go pairs := match pairs with
                         | [] => []
                         | (ksp, v) :: pairs => (rs_diff ksp (j_span v) :: value_calls v) ++ go pairs
                         end) pairs
  | JArray sp brackets elems => sp :: match elems with [] => [] | _ => [brackets] end
  | JString sp => if rs_empty sp then [] else [sp]
  | JNumber sp | JBool sp | JNull sp => [sp]
  end.
Lemma value_calls_object sp pairs :
  value_calls (JObject sp pairs) = object_without_pairs sp pairs :: pairs_calls value_calls pairs.
Proof.
  cbn [value_calls]. f_equal. induction pairs as [|[ksp v] pairs IH]; [done|].
  cbn [pairs_calls flat_map fst snd] in *. by rewrite IH.
Qed.
Definition header_calls (h : header) : list rangeset :=
  h_span h :: if rs_empty (h_value h) then [] else [header_without_value h].
Definition body_calls (y : body) : list rangeset :=
  match b_content y with CJson root => value_calls root | COther => [b_span y] end.
Definition skeleton_calls (hs : list header) (y : option body) (x : rangeset) : list rangeset :=
  if has_data hs y then [x] else [].
Definition request_calls (q : request) : list rangeset :=
  q_span q :: skeleton_calls (q_headers q) (q_body q) (request_without_data q) ++
  q_target q :: flat_map header_calls (q_headers q) ++ flat_map body_calls (opt_list (q_body q)).
Definition response_calls (p : response) : list rangeset :=
  p_span p :: skeleton_calls (p_headers p) (p_body p) (response_without_data p) ++
  flat_map header_calls (p_headers p) ++ flat_map body_calls (opt_list (p_body p)).
Definition http_calls (t : http) : list (direction * rangeset) :=
  map (pair Sent) (flat_map request_calls (requests t)) ++
  map (pair Received) (flat_map response_calls (responses t)).

Definition call1 (d : direction) (b : cfg_builder) (r : rangeset) := cfg_commit b r d.
Definition call2 (b : cfg_builder) (x : direction * rangeset) := cfg_commit b x.2 x.1.

Lemma each_app {A B} (f : B -> A -> option B) b xs ys :
  each f b (xs ++ ys) = match each f b xs with Some b => each f b ys | None => None end.
Proof. revert b. induction xs as [|x xs IH]; intros b; [done|]. simpl. destruct (f b x); [apply IH|done]. Qed.
Lemma each_flat {A B C} (f : B -> A -> option B) (g : B -> C -> option B) (h : C -> list A) :
  (forall b c, g b c = each f b (h c)) -> forall b cs, each g b cs = each f b (flat_map h cs).
Proof.
  intros E b cs. revert b. induction cs as [|c cs IH]; intros b; [done|]. simpl. rewrite each_app, E.
  destruct (each f b (h c)); [apply IH|done].
Qed.
Lemma each_map {A B C} (f : B -> A -> option B) (h : C -> A) b cs :
  each f b (map h cs) = each (fun b c => f b (h c)) b cs.
Proof. revert b. induction cs as [|c cs IH]; intros b; [done|]. simpl. destruct (f b (h c)); [apply IH|done]. Qed.

Lemma commit_value_calls v : forall b d, commit_value b v d = each (call1 d) b (value_calls v).
Proof.
  induction v as [sp pairs IH|sp br es|sp|sp|sp|sp] using json_ind2; intros b d.
  - cbn [commit_value value_calls each]. change (call1 d b (object_without_pairs sp pairs)) with (cfg_commit b (object_without_pairs sp pairs) d).
    destruct (cfg_commit b (object_without_pairs sp pairs) d) as [b1|]; [|done]. clear b. revert b1.
    induction pairs as [|[ksp v] pairs IHp]; intros b; [done|]. cbn [app each].
    unfold call1 at 1. destruct (cfg_commit b (rs_diff ksp (j_span v)) d) as [b1|]; [|done].
    rewrite each_app, <-(IH ksp v) by (by left). destruct (commit_value b1 v d) as [b2|]; [|done].
    apply IHp. intros ksp' v' H. apply (IH ksp' v'). by right.
  - cbn [commit_value value_calls each]. unfold call1. destruct (cfg_commit b sp d) as [b1|]; [|done].
    destruct es; [done|]. cbn [each]. by destruct (cfg_commit b1 br d).
  - cbn [commit_value value_calls]. destruct (rs_empty sp); [done|]. cbn [each]. unfold call1. by destruct (cfg_commit b sp d).
  - cbn [commit_value value_calls each]. unfold call1. by destruct (cfg_commit b sp d).
  - cbn [commit_value value_calls each]. unfold call1. by destruct (cfg_commit b sp d).
  - cbn [commit_value value_calls each]. unfold call1. by destruct (cfg_commit b sp d).
Qed.
Lemma commit_header_calls d b h : commit_header d b h = each (call1 d) b (header_calls h).
Proof.
  unfold commit_header, header_calls. cbn [each]. unfold call1 at 1. destruct (cfg_commit b (h_span h) d) as [b1|]; [|done].
  destruct (rs_empty (h_value h)); [done|]. cbn [each]. unfold call1. by destruct (cfg_commit b1 _ d).
Qed.
Lemma commit_body_calls d b y : commit_body d b y = each (call1 d) b (body_calls y).
Proof.
  unfold commit_body, body_calls. destruct (b_content y); [apply commit_value_calls|].
  cbn [each]. unfold call1. by destruct (cfg_commit b _ d).
Qed.
Lemma skeleton_each d b hs y x :
  (if has_data hs y then cfg_commit b x d else Some b) = each (call1 d) b (skeleton_calls hs y x).
Proof.
  unfold skeleton_calls. destruct (has_data hs y); [|done]. cbn [each]. unfold call1. by destruct (cfg_commit b x d).
Qed.
Lemma opt_body_each d b y :
  match y with None => Some b | Some y => commit_body d b y end =
  each (call1 d) b (flat_map body_calls (opt_list y)).
Proof. destruct y as [y|]; [|done]. cbn. by rewrite app_nil_r, <-commit_body_calls. Qed.
Lemma commit_request_calls d b q : commit_request d b q = each (call1 d) b (request_calls q).
Proof.
  unfold commit_request, request_calls. cbn [each]. unfold call1 at 1.
  destruct (cfg_commit b (q_span q) d) as [b1|]; [|done]. rewrite each_app, skeleton_each.
  destruct (each (call1 d) b1 _) as [b2|]; [|done]. cbn [each]. unfold commit_target. unfold call1 at 1.
  destruct (cfg_commit b2 (q_target q) d) as [b3|]; [|done].
  rewrite each_app, <-(each_flat (call1 d) (commit_header d)) by (intros; apply commit_header_calls).
  destruct (each (commit_header d) b3 _) as [b4|]; [|done]. apply opt_body_each.
Qed.
Lemma commit_response_calls d b p : commit_response d b p = each (call1 d) b (response_calls p).
Proof.
  unfold commit_response, response_calls. cbn [each]. unfold call1 at 1.
  destruct (cfg_commit b (p_span p) d) as [b1|]; [|done]. rewrite each_app, skeleton_each.
  destruct (each (call1 d) b1 _) as [b2|]; [|done].
  rewrite each_app, <-(each_flat (call1 d) (commit_header d)) by (intros; apply commit_header_calls).
  destruct (each (commit_header d) b2 _) as [b4|]; [|done]. apply opt_body_each.
Qed.
Lemma commit_transcript_calls b t : commit_transcript b t = each call2 b (http_calls t).
Proof.
  unfold commit_transcript, http_calls. rewrite each_app, !each_map.
  rewrite (each_flat (fun b c => call2 b (Sent, c)) (commit_request Sent) request_calls);
    [|intros; apply commit_request_calls].
  destruct (each _ b (flat_map request_calls (requests t))) as [b1|]; [|done]. rewrite each_map.
  rewrite (each_flat (fun b c => call2 b (Received, c)) (commit_response Received) response_calls);
    [done|intros; apply commit_response_calls].
Qed.

(** ** What a sequence of calls does *)
Lemma elem_set_insert {A} `{EqDecision A} (x y : A) l : y ∈ set_insert x l <-> y = x \/ y ∈ l.
Proof. unfold set_insert. case_bool_decide; [|apply elem_of_cons]. naive_solver. Qed.
Lemma call2_each b xs b' : each call2 b xs = Some b' ->
  cb_transcript b' = cb_transcript b /\ cb_default b' = cb_default b /\
  (forall d idx a, (d, idx, a) ∈ cb_commits b' <->
     (d, idx, a) ∈ cb_commits b \/ (a = cb_default b /\ exists r, (d, r) ∈ xs /\ idx = rs_from r)) /\
  (forall d r i, (d, r) ∈ xs -> in_rs i r -> i < t_len (cb_transcript b) d).
Proof.
  revert b. induction xs as [|[d r] xs IH]; intros b.
  - intros [= <-]. split_and!; [done|done| |by intros d r i ?%elem_of_nil].
    intros. split; [by left|]. intros [?|(_ & r & ?%elem_of_nil & _)]; done.
  - cbn [each]. unfold call2 at 1. cbn [fst snd]. unfold cfg_commit, cfg_commit_inner.
    destruct (t_len (cb_transcript b) d <? rs_end (rs_from r)) eqn:E; [done|].
    apply Nat.ltb_ge in E. rewrite rs_end_le_ok in E by apply rs_from_ok. intros H. apply IH in H as (-> & -> & Hc & Hb).
    cbn [cb_transcript cb_default cb_commits] in *. split_and!; [done|done| |].
    + intros d' idx a. rewrite Hc, elem_set_insert. split.
      * intros [[[= -> -> ->]|?]|(-> & r' & Hr & ->)]; [right|by left|right].
        -- split; [done|]. exists r. split; [by left|done].
        -- split; [done|]. exists r'. split; [by right|done].
      * intros [?|(-> & r' & [[= -> ->]|Hr]%elem_of_cons & ->)]; [left; by right|left; by left|right; eauto].
    + intros d' r' i [[= -> ->]|Hr]%elem_of_cons Hi; [apply E; by rewrite in_rs_from|by apply (Hb d' r')].
Qed.
Lemma call2_some b xs :
  (forall d r i, (d, r) ∈ xs -> in_rs i r -> i < t_len (cb_transcript b) d) -> is_Some (each call2 b xs).
Proof.
  revert b. induction xs as [|[d r] xs IH]; intros b H; [eauto|].
  cbn [each]. unfold call2 at 1. cbn [fst snd]. unfold cfg_commit, cfg_commit_inner.
  destruct (t_len (cb_transcript b) d <? rs_end (rs_from r)) eqn:E.
  - apply Nat.ltb_lt in E. assert (rs_end (rs_from r) <= t_len (cb_transcript b) d); [|lia].
    apply rs_end_le_ok; [apply rs_from_ok|]. intros i Hi. apply (H d r); [by left|]. by apply in_rs_from.
  - apply IH. cbn [cb_transcript]. intros d' r' i Hr. apply (H d' r'). by right.
Qed.

(** ** The calls are the parts *)
Lemma rs_ok_minus x ys : rs_ok x -> rs_ok (minus_all x ys).
Proof. unfold minus_all. revert x. induction ys as [|y ys IH]; intros x H; [done|]. simpl. apply IH. by apply rs_diff_ok. Qed.
Lemma in_minus_all i x ys : rs_ok x -> in_rs i (minus_all x ys) <-> in_rs i x /\ forall y, y ∈ ys -> ~ in_rs i y.
Proof.
  unfold minus_all. revert x. induction ys as [|y ys IH]; intros x H; simpl.
  - split; [|by intros [? _]]. intros ?. split; [done|]. by intros y ?%elem_of_nil.
  - rewrite IH, in_rs_diff by auto using rs_diff_ok. setoid_rewrite elem_of_cons. naive_solver.
Qed.
Definition same (r : rangeset) (P : pset) : Prop := forall i, in_rs i r <-> P i.
Lemma same_set r : same r (set_of r).
Proof. done. Qed.
Lemma rs_empty_in r : rs_ok r -> rs_empty r = true <-> forall i, ~ in_rs i r.
Proof. intros H. rewrite <-rs_nil_iff by done. by destruct r. Qed.
Lemma rs_nonempty_in r : rs_ok r -> rs_empty r = false -> exists i, in_rs i r.
Proof.
  destruct r as [|[a b] r]; [done|]. intros (Hab & _)%rs_ok_cons_inv _. exists a. by apply rs_ok_head_in.
Qed.
Lemma json_ok v : json_wf v -> rs_ok (j_span v).
Proof. by destruct 1. Qed.

Lemma value_call_part v : json_wf v -> forall r, r ∈ value_calls v -> exists P, json_part v P /\ same r P.
Proof.
  induction v as [sp pairs IH|sp br es|sp|sp|sp|sp] using json_ind2; inversion 1; subst; intros r.
  - rewrite value_calls_object. intros [->|Hr]%elem_of_cons.
    + eexists. split; [apply PartBraces|]. intros i. unfold object_without_pairs. rewrite in_minus_all by done.
      split; intros [? Hn]; (split; [done|]).
      * intros ksp v Hk. apply Hn. apply elem_of_list_fmap. by exists (ksp, v).
      * intros y ([ksp v] & -> & Hk)%elem_of_list_fmap. by apply (Hn ksp v).
    + unfold pairs_calls in Hr. apply elem_of_list_In, in_flat_map in Hr as ([ksp v] & Hk & Hr).
      apply elem_of_list_In in Hk, Hr. cbn [fst snd] in Hr. apply elem_of_cons in Hr as [->|Hr].
      * eexists. split; [by apply (PartKey _ _ ksp v)|]. intros i. apply in_rs_diff. by apply (H4 ksp v).
      * destruct (IH ksp v Hk (H5 ksp v Hk) r Hr) as (P & HP & E). exists P. split; [|done]. by apply (PartMember _ _ ksp v).
  - cbn [value_calls]. intros [->|Hr]%elem_of_cons; [eexists; split; [apply PartArray|done]|].
    destruct es; [by apply elem_of_nil in Hr|]. apply elem_of_list_singleton in Hr as ->.
    eexists; split; [by apply PartBrackets|done].
  - cbn [value_calls]. destruct (rs_empty sp) eqn:E; [by intros ?%elem_of_nil|].
    intros ->%elem_of_list_singleton. destruct (rs_nonempty_in sp) as [i Hi]; [done|done|].
    eexists. split; [by apply (PartString _ i)|done].
  - intros ->%elem_of_list_singleton. eexists; split; [constructor|done].
  - intros ->%elem_of_list_singleton. eexists; split; [constructor|done].
  - intros ->%elem_of_list_singleton. eexists; split; [constructor|done].
Qed.
Lemma value_part_call v P : json_wf v -> json_part v P -> exists r, r ∈ value_calls v /\ same r P.
Proof.
  intros Hw HP. revert Hw. induction HP as [sp pairs|sp pairs ksp v Hk|sp pairs ksp v P Hk HP IH|sp br es|sp br es Hne|sp i Hi|sp|sp|sp]; inversion 1; subst.
  - rewrite value_calls_object. eexists. split; [left|]. intros i. unfold object_without_pairs. rewrite in_minus_all by done.
    split; intros [? Hn]; (split; [done|]).
    + intros ksp v Hk. apply Hn. apply elem_of_list_fmap. by exists (ksp, v).
    + intros y ([ksp v] & -> & Hk)%elem_of_list_fmap. by apply (Hn ksp v).
  - rewrite value_calls_object. exists (rs_diff ksp (j_span v)). split.
    + right. unfold pairs_calls. apply elem_of_list_In, in_flat_map. exists (ksp, v).
      split; [by apply elem_of_list_In|]. by left.
    + intros i. apply in_rs_diff. by apply (H3 ksp v).
  - destruct (IH (H4 ksp v Hk)) as (r & Hr & E). exists r. split; [|done]. rewrite value_calls_object. right.
    unfold pairs_calls. apply elem_of_list_In, in_flat_map. exists (ksp, v).
    split; [by apply elem_of_list_In|]. right. by apply elem_of_list_In.
  - eexists. split; [left|done].
  - exists br. split; [|done]. cbn [value_calls]. right. destruct es; [done|]. by left.
  - exists sp. split; [|done]. cbn [value_calls]. destruct (rs_empty sp) eqn:E; [|by left].
    rewrite rs_empty_in in E by done. by destruct (E i).
  - eexists. split; [left|done].
  - eexists. split; [left|done].
  - eexists. split; [left|done].
Qed.
Lemma header_call_part h r : header_wf h -> r ∈ header_calls h -> exists P, header_part h P /\ same r P.
Proof.
  intros (H1 & H2 & H3). unfold header_calls. intros [->|Hr]%elem_of_cons; [eexists; split; [constructor|done]|].
  destruct (rs_empty (h_value h)) eqn:E; [by apply elem_of_nil in Hr|]. apply elem_of_list_singleton in Hr as ->.
  destruct (rs_nonempty_in (h_value h)) as [i Hi]; [done|done|].
  eexists; split; [by apply (PartHeaderName h i)|]. intros j. by apply in_rs_diff.
Qed.
Lemma header_part_call h P : header_wf h -> header_part h P -> exists r, r ∈ header_calls h /\ same r P.
Proof.
  intros (H1 & H2 & H3). intros [|i Hi]; unfold header_calls; [eexists; split; [left|done]|].
  exists (header_without_value h). split; [|intros j; by apply in_rs_diff]. right.
  destruct (rs_empty (h_value h)) eqn:E; [|by left]. rewrite rs_empty_in in E by done. by destruct (E i).
Qed.
Lemma body_call_part y r : body_wf y -> r ∈ body_calls y -> exists P, body_part y P /\ same r P.
Proof.
  destruct y as [sp [root|]]; unfold body_wf, body_calls; cbn [b_content b_span].
  - intros (H1 & H2 & H3) Hr. destruct (value_call_part root H2 r Hr) as (P & HP & E). exists P. split; [by constructor|done].
  - intros _ ->%elem_of_list_singleton. eexists. split; [constructor|done].
Qed.
Lemma body_part_call y P : body_wf y -> body_part y P -> exists r, r ∈ body_calls y /\ same r P.
Proof.
  intros Hw HB. revert Hw. destruct HB as [sp root P' HP|sp]; intros Hw; unfold body_wf, body_calls in *; cbn [b_content b_span] in *.
  - destruct Hw as (H1 & H2 & H3). by apply value_part_call.
  - exists sp. split; [by left|done].
Qed.
Lemma elem_flat_map {A B} (f : A -> list B) l y : y ∈ flat_map f l <-> exists x, x ∈ l /\ y ∈ f x.
Proof. rewrite elem_of_list_In, in_flat_map. by setoid_rewrite elem_of_list_In. Qed.
Lemma elem_opt {A} (o : option A) x : x ∈ opt_list o <-> o = Some x.
Proof. destruct o; cbn; rewrite ?elem_of_list_singleton, ?elem_of_nil; naive_solver. Qed.
Lemma skeleton_elem hs y x r : r ∈ skeleton_calls hs y x <-> r = x /\ (hs <> [] \/ y <> None).
Proof. destruct hs, y; cbn; rewrite ?elem_of_list_singleton, ?elem_of_nil; naive_solver. Qed.

Lemma request_line_same q : rs_ok (q_span q) ->
  same (request_without_data q) (fun i => in_rs i (q_span q) /\ ~ in_rs i (q_target q) /\
      (forall h, h ∈ q_headers q -> ~ in_rs i (h_span h)) /\
      (forall b, q_body q = Some b -> ~ in_rs i (b_span b))).
Proof.
  intros Hok i. unfold request_without_data. rewrite in_minus_all by done. split.
  - intros [? Hn]. split_and!; [done|apply Hn; by left| |].
    + intros h Hh. apply Hn. right. apply elem_of_app. left. apply elem_of_list_fmap. eauto.
    + intros b Hb. apply Hn. right. apply elem_of_app. right. apply elem_of_list_fmap. exists b. by rewrite elem_opt.
  - intros (? & Ht & Hh & Hb). split; [done|].
    intros y [->|[(h & -> & ?)%elem_of_list_fmap|(b & -> & ?%elem_opt)%elem_of_list_fmap]%elem_of_app]%elem_of_cons; auto.
Qed.
Lemma status_line_same p : rs_ok (p_span p) ->
  same (response_without_data p) (fun i => in_rs i (p_span p) /\
      (forall h, h ∈ p_headers p -> ~ in_rs i (h_span h)) /\
      (forall b, p_body p = Some b -> ~ in_rs i (b_span b))).
Proof.
  intros Hok i. unfold response_without_data. rewrite in_minus_all by done. split.
  - intros [? Hn]. split_and!; [done| |].
    + intros h Hh. apply Hn. apply elem_of_app. left. apply elem_of_list_fmap. eauto.
    + intros b Hb. apply Hn. apply elem_of_app. right. apply elem_of_list_fmap. exists b. by rewrite elem_opt.
  - intros (? & Hh & Hb). split; [done|].
    intros y [(h & -> & ?)%elem_of_list_fmap|(b & -> & ?%elem_opt)%elem_of_list_fmap]%elem_of_app; auto.
Qed.
Lemma request_calls_parts q : request_wf q ->
  (forall r, r ∈ request_calls q -> exists P, request_part q P /\ same r P) /\
  (forall P, request_part q P -> exists r, r ∈ request_calls q /\ same r P).
Proof.
  intros (Hok & _ & _ & Hh & Hb). split.
  - intros r. unfold request_calls. rewrite elem_of_cons, elem_of_app, skeleton_elem, elem_of_cons, elem_of_app, !elem_flat_map.
    intros [->|[[-> Hne]|[->|[(h & Hin & Hr)|(b & Hin%elem_opt & Hr)]]]].
    + eexists. split; [constructor|done].
    + eexists. split; [by apply PartRequestLine|]. by apply request_line_same.
    + eexists. split; [apply PartTarget|done].
    + destruct (header_call_part h r (Hh h Hin) Hr) as (P & ? & ?). exists P. split; [by eapply PartRequestHeader|done].
    + destruct (body_call_part b r (Hb b Hin) Hr) as (P & ? & ?). exists P. split; [by eapply PartRequestBody|done].
  - intros P HP. unfold request_calls. setoid_rewrite elem_of_cons. setoid_rewrite elem_of_app.
    setoid_rewrite skeleton_elem. setoid_rewrite elem_of_cons. setoid_rewrite elem_of_app. setoid_rewrite elem_flat_map.
    destruct HP as [|Hne| |h P Hin HP|b P Hin HP].
    + eexists. split; [by left|done].
    + eexists. split; [right; left; done|]. by apply request_line_same.
    + eexists. split; [by right; right; left|done].
    + destruct (header_part_call h P (Hh h Hin) HP) as (r & ? & ?). exists r. split; [|done]. right; right; right; left. eauto.
    + destruct (body_part_call b P (Hb b Hin) HP) as (r & ? & ?). exists r. split; [|done]. right; right; right; right.
      exists b. by rewrite elem_opt.
Qed.
Lemma response_calls_parts p : response_wf p ->
  (forall r, r ∈ response_calls p -> exists P, response_part p P /\ same r P) /\
  (forall P, response_part p P -> exists r, r ∈ response_calls p /\ same r P).
Proof.
  intros (Hok & _ & _ & Hh & Hb). split.
  - intros r. unfold response_calls. rewrite elem_of_cons, elem_of_app, skeleton_elem, elem_of_app, !elem_flat_map.
    intros [->|[[-> Hne]|[(h & Hin & Hr)|(b & Hin%elem_opt & Hr)]]].
    + eexists. split; [constructor|done].
    + eexists. split; [by apply PartStatusLine|]. by apply status_line_same.
    + destruct (header_call_part h r (Hh h Hin) Hr) as (P & ? & ?). exists P. split; [by eapply PartResponseHeader|done].
    + destruct (body_call_part b r (Hb b Hin) Hr) as (P & ? & ?). exists P. split; [by eapply PartResponseBody|done].
  - intros P HP. unfold response_calls. setoid_rewrite elem_of_cons. setoid_rewrite elem_of_app.
    setoid_rewrite skeleton_elem. setoid_rewrite elem_of_app. setoid_rewrite elem_flat_map.
    destruct HP as [|Hne|h P Hin HP|b P Hin HP].
    + eexists. split; [by left|done].
    + eexists. split; [right; left; done|]. by apply status_line_same.
    + destruct (header_part_call h P (Hh h Hin) HP) as (r & ? & ?). exists r. split; [|done]. right; right; left. eauto.
    + destruct (body_part_call b P (Hb b Hin) HP) as (r & ? & ?). exists r. split; [|done]. right; right; right.
      exists b. by rewrite elem_opt.
Qed.
Lemma http_calls_elem t d r : (d, r) ∈ http_calls t <->
  (d = Sent /\ exists q, q ∈ requests t /\ r ∈ request_calls q) \/
  (d = Received /\ exists p, p ∈ responses t /\ r ∈ response_calls p).
Proof.
  unfold http_calls. rewrite elem_of_app, !elem_of_list_fmap. setoid_rewrite elem_flat_map. split.
  - intros [(? & [= -> ->] & ?)|(? & [= -> ->] & ?)]; [left|right]; eauto.
  - intros [(-> & ?)|(-> & ?)]; [left|right]; eauto.
Qed.
Lemma http_calls_parts t : http_wf t ->
  (forall d r, (d, r) ∈ http_calls t -> exists P, http_part t d P /\ same r P) /\
  (forall d P, http_part t d P -> exists r, (d, r) ∈ http_calls t /\ same r P).
Proof.
  intros [Hq Hp]. split.
  - intros d r [(-> & q & Hin & Hr)|(-> & p & Hin & Hr)]%http_calls_elem.
    + destruct (proj1 (request_calls_parts q (Hq q Hin)) r Hr) as (P & ? & ?). exists P. split; [by eapply PartSent|done].
    + destruct (proj1 (response_calls_parts p (Hp p Hin)) r Hr) as (P & ? & ?). exists P. split; [by eapply PartReceived|done].
  - intros d P [q P' Hin HP|p P' Hin HP].
    + destruct (proj2 (request_calls_parts q (Hq q Hin)) P' HP) as (r & ? & ?). exists r. split; [|done].
      apply http_calls_elem. left. eauto.
    + destruct (proj2 (response_calls_parts p (Hp p Hin)) P' HP) as (r & ? & ?). exists r. split; [|done].
      apply http_calls_elem. right. eauto.
Qed.

(** ** C77 *)
Lemma exact_lemma b t b' : http_wf t -> commit_transcript b t = Some b' ->
  cb_transcript b' = cb_transcript b /\ cb_default b' = cb_default b /\
  forall d idx a, (d, idx, a) ∈ cb_commits b' <->
    (d, idx, a) ∈ cb_commits b \/
    (a = cb_default b /\ rs_ok idx /\ exists P, http_part t d P /\ forall i, in_rs i idx <-> P i).
Proof.
  intros Hw H. rewrite commit_transcript_calls in H. apply call2_each in H as (? & ? & Hc & _).
  split_and!; [done|done|]. intros d idx a. rewrite Hc. destruct (http_calls_parts t Hw) as [H1 H2]. split.
  - intros [?|(-> & r & Hr & ->)]; [by left|right]. split; [done|]. split; [apply rs_from_ok|].
    destruct (H1 d r Hr) as (P & ? & E). exists P. split; [done|]. intros i. rewrite in_rs_from. apply E.
  - intros [?|(-> & Hok & P & HP & E)]; [by left|right]. split; [done|].
    destruct (H2 d P HP) as (r & Hr & E'). exists r. split; [done|].
    apply rs_ext; [done|apply rs_from_ok|]. intros i. by rewrite in_rs_from, E, (E' i).
Qed.

Lemma json_part_within v P : json_wf v -> json_part v P -> forall i, P i -> in_rs i (j_span v).
Proof.
  intros Hw HP. revert Hw. induction HP as [sp pairs|sp pairs ksp v Hk|sp pairs ksp v P Hk HP IH|sp br es|sp br es Hne|sp i Hi|sp|sp|sp]; inversion 1; subst; cbn [j_span]; intros j Hj; try done.
  - apply Hj.
  - destruct (H3 ksp v Hk) as (_ & Hk1 & _). apply Hk1, Hj.
  - destruct (H3 ksp v Hk) as (_ & Hk1 & Hk2). apply Hk1, Hk2, IH; [by apply (H4 ksp v)|done].
  - by apply H4.
Qed.
Lemma header_part_within h P : header_part h P -> forall i, P i -> in_rs i (h_span h).
Proof. intros [|? ?] k Hk; [done|apply Hk]. Qed.
Lemma body_part_within y P : body_wf y -> body_part y P -> forall i, P i -> in_rs i (b_span y).
Proof.
  intros Hw HP i Hi. revert Hw. destruct HP as [sp root P HP|sp]; intros [H1 H2]; cbn in *; [|done].
  destruct H2 as [H2 H3]. apply H3. by eapply json_part_within.
Qed.
Lemma request_part_within q P : request_wf q -> request_part q P -> forall i, P i -> in_rs i (q_span q).
Proof.
  intros (Hok & _ & Hin & Hh & Hb) HP i Hi. destruct HP as [|Hne| |h P Hl HP|b P Hl HP].
  - done.
  - apply Hi.
  - apply (Hin (q_target q)); [by left|done].
  - apply (Hin (h_span h)); [|by eapply header_part_within]. right. apply elem_of_app. left. apply elem_of_list_fmap. eauto.
  - apply (Hin (b_span b)); [|eapply body_part_within; eauto]. right. apply elem_of_app. right. apply elem_of_list_fmap.
    exists b. by rewrite elem_opt.
Qed.
Lemma response_part_within p P : response_wf p -> response_part p P -> forall i, P i -> in_rs i (p_span p).
Proof.
  intros (Hok & _ & Hin & Hh & Hb) HP i Hi. destruct HP as [|Hne|h P Hl HP|b P Hl HP].
  - done.
  - apply Hi.
  - apply (Hin (h_span h)); [|by eapply header_part_within]. apply elem_of_app. left. apply elem_of_list_fmap. eauto.
  - apply (Hin (b_span b)); [|eapply body_part_within; eauto]. apply elem_of_app. right. apply elem_of_list_fmap.
    exists b. by rewrite elem_opt.
Qed.
Lemma bounds_lemma b t : http_wf t ->
  (exists b', commit_transcript b t = Some b') <-> http_in_bounds (cb_transcript b) t.
Proof.
  intros Hw. rewrite commit_transcript_calls. destruct (http_calls_parts t Hw) as [H1 H2]. destruct Hw as [Hq Hp]. split.
  - intros [b' H]. apply call2_each in H as (_ & _ & _ & Hb). split.
    + intros q i Hin Hi. apply (Hb Sent (q_span q)); [|done]. apply http_calls_elem. left. split; [done|].
      exists q. split; [done|]. by left.
    + intros p i Hin Hi. apply (Hb Received (p_span p)); [|done]. apply http_calls_elem. right. split; [done|].
      exists p. split; [done|]. by left.
  - intros [B1 B2]. apply call2_some. intros d r i Hr Hi. destruct (H1 d r Hr) as (P & HP & E). apply E in Hi.
    destruct HP as [q P Hin HP|p P Hin HP].
    + apply (B1 q i Hin). eapply request_part_within; eauto.
    + apply (B2 p i Hin). eapply response_part_within; eauto.
Qed.

(** Nothing empty is committed. *)
Lemma ne_in (x : rangeset) : rs_ok x -> x <> [] -> exists i, in_rs i x.
Proof. intros ? ?. apply rs_nonempty_in; [done|]. by destruct x. Qed.
Lemma json_part_solid v P : json_wf v -> json_solid v -> json_part v P -> exists i, P i.
Proof.
  intros Hw Hs HP. revert Hw Hs. induction HP as [sp pairs|sp pairs ksp v Hk|sp pairs ksp v P Hk HP IH|sp br es|sp br es Hne|sp i Hi|sp|sp|sp]; inversion 1; subst; inversion 1; subst; try (by apply ne_in); eauto.
Qed.
Lemma header_part_solid h P : header_solid h -> header_part h P -> exists i, P i.
Proof. intros [k [? ?]] [|j Hj]; exists k; done. Qed.
Lemma body_part_solid y P : body_wf y -> body_solid y -> body_part y P -> exists i, P i.
Proof.
  intros Hw Hs HP. revert Hw Hs. destruct HP as [sp root P HP|sp]; intros [Hw1 Hw2] Hs; unfold body_solid in *; cbn in *.
  - eapply json_part_solid; eauto. apply Hw2.
  - by apply ne_in.
Qed.
Lemma http_part_solid t d P : http_wf t -> http_solid t -> http_part t d P -> exists i, P i.
Proof.
  intros [Hq Hp] [Sq Sp] HP. destruct HP as [q P Hin HP|p P Hin HP].
  - destruct (Hq q Hin) as (Hok & _ & Hi & Hh & Hb). destruct (Sq q Hin) as (St & (i & Hi1 & Hi2) & Sh & Sb).
    destruct HP as [|Hne| |h P Hl HP|b P Hl HP].
    + by exists i.
    + exists i. split_and!; [done|apply Hi2; by left| |].
      * intros h Hh'. apply Hi2. right. apply elem_of_app. left. apply elem_of_list_fmap. eauto.
      * intros b Hb'. apply Hi2. right. apply elem_of_app. right. apply elem_of_list_fmap. exists b. by rewrite elem_opt.
    + apply ne_in; [|done]. apply (Hi (q_target q)). by left.
    + eapply header_part_solid; eauto.
    + eapply body_part_solid; eauto.
  - destruct (Hp p Hin) as (Hok & _ & Hi & Hh & Hb). destruct (Sp p Hin) as ((i & Hi1 & Hi2) & Sh & Sb).
    destruct HP as [|Hne|h P Hl HP|b P Hl HP].
    + by exists i.
    + exists i. split_and!; [done| |].
      * intros h Hh'. apply Hi2. apply elem_of_app. left. apply elem_of_list_fmap. eauto.
      * intros b Hb'. apply Hi2. apply elem_of_app. right. apply elem_of_list_fmap. exists b. by rewrite elem_opt.
    + eapply header_part_solid; eauto.
    + eapply body_part_solid; eauto.
Qed.
Lemma nonempty_lemma b t b' d idx a : http_wf t -> http_solid t -> commit_transcript b t = Some b' ->
  (d, idx, a) ∈ cb_commits b' -> (d, idx, a) ∈ cb_commits b \/ exists i, in_rs i idx.
Proof.
  intros Hw Hs H Hin. destruct (exact_lemma b t b' Hw H) as (_ & _ & E). apply E in Hin as [?|(_ & _ & P & HP & Ei)]; [by left|].
  right. destruct (http_part_solid t d P Hw Hs HP) as [i Hi]. exists i. by apply Ei.
Qed.

(** ** C78: any choice of secrets can be cut out *)
Lemma all_apart_elem l x y i : all_apart l -> x ∈ l -> y ∈ l -> in_rs i x -> in_rs i y -> x = y.
Proof.
  intros H [k1 H1]%elem_of_list_lookup [k2 H2]%elem_of_list_lookup Hx Hy.
  destruct (decide (k1 = k2)) as [->|Hne]; [congruence|]. by destruct (H k1 k2 x y H1 H2 Hne i).
Qed.
Lemma all_apart_fmap {A} (f : A -> rangeset) l x y i :
  all_apart (map f l) -> x ∈ l -> y ∈ l -> in_rs i (f x) -> in_rs i (f y) -> x = y.
Proof.
  intros H [k1 H1]%elem_of_list_lookup [k2 H2]%elem_of_list_lookup Hx Hy.
  destruct (decide (k1 = k2)) as [->|Hne]; [congruence|].
  destruct (H k1 k2 (f x) (f y)) with i; rewrite ?list_lookup_fmap; rewrite ?H1, ?H2; done.
Qed.
Lemma in_rs_dec i x : in_rs i x \/ ~ in_rs i x.
Proof. rewrite <-in_rsb_spec. destruct (in_rsb i x); [by left|by right]. Qed.
Lemma json_secret_within v P : json_wf v -> json_secret v P -> forall i, P i -> in_rs i (j_span v).
Proof.
  intros Hw HP. revert Hw. induction HP as [v|sp pairs ksp v Hk|sp pairs ksp v P Hk HP IH|sp br es Hne]; intros Hw i Hi.
  - done.
  - inversion Hw; subst. destruct (H3 ksp v Hk) as (_ & Hk1 & _). by apply Hk1.
  - inversion Hw; subst. destruct (H3 ksp v Hk) as (_ & Hk1 & Hk2). apply Hk1, Hk2, IH; [by apply (H4 ksp v)|done].
  - apply Hi.
Qed.
Lemma json_secret_object sp pairs P : json_secret (JObject sp pairs) P ->
  P = set_of sp \/ (exists ksp v, (ksp, v) ∈ pairs /\ P = set_of ksp) \/
  (exists ksp v, (ksp, v) ∈ pairs /\ json_secret v P).
Proof. inversion 1; subst; naive_solver. Qed.
Lemma json_secret_array sp br es P : json_secret (JArray sp br es) P ->
  P = set_of sp \/ (es <> [] /\ P = (fun i => in_rs i sp /\ ~ in_rs i br)).
Proof. inversion 1; subst; naive_solver. Qed.
Lemma json_secret_scalar v P : json_secret v P ->
  match v with JObject _ _ | JArray _ _ _ => True | _ => P = set_of (j_span v) end.
Proof. destruct 1 as [[]| | |]; done. Qed.
Lemma some_pair i (pairs : list (rangeset * json)) :
  (exists kv, kv ∈ pairs /\ in_rs i kv.1) \/ forall ksp v, (ksp, v) ∈ pairs -> ~ in_rs i ksp.
Proof.
  induction pairs as [|[k v] ps IH]; [right; by intros k v ?%elem_of_nil|].
  destruct (in_rs_dec i k) as [Hk|Hk].
  - left. exists (k, v). split; [by left|done].
  - destruct IH as [(kv & ? & ?)|Hno]; [left; exists kv; split; [by right|done]|right].
    intros k' v' [[= -> ->]|?]%elem_of_cons; [done|eauto].
Qed.
Lemma json_redact v : json_wf v -> forall (H : pset -> Prop) i, (forall P, H P -> json_secret v P) ->
  in_rs i (j_span v) -> (forall P, H P -> ~ P i) ->
  exists Q, json_part v Q /\ Q i /\ forall j P, Q j -> H P -> ~ P j.
Proof.
  induction v as [sp pairs IH|sp br es|sp|sp|sp|sp] using json_ind2; inversion 1; subst; intros HH i Hs Hi Hn;
    cbn [j_span] in Hi.
  - destruct (some_pair i pairs) as [([ksp v] & Hk & Hik)|Hno].
    + cbn [fst] in Hik. destruct (H4 ksp v Hk) as (K1 & K2 & K3).
      assert (Huniq : forall k' v' j, (k', v') ∈ pairs -> in_rs j k' -> in_rs j ksp -> (k', v') = (ksp, v)).
      { intros k' v' j Hk' Hj Hj'. by apply (all_apart_fmap fst pairs _ _ j H3). }
      destruct (in_rs_dec i (j_span v)) as [Hiv|Hiv].
      * destruct (IH ksp v Hk (H5 ksp v Hk) (fun P => HH P /\ json_secret v P) i) as (Q & HQ & Qi & Qn).
        { by intros P [_ ?]. } { done. } { intros P [? _]. by apply Hn. }
        exists Q. split; [by apply (PartMember _ _ ksp v)|]. split; [done|]. intros j P Qj HP Pj.
        assert (Hj : in_rs j ksp). { apply K3. eapply json_part_within; [by apply (H5 ksp v)|done|done]. }
        destruct (json_secret_object _ _ _ (Hs P HP)) as [->|[(k' & v' & Hk' & ->)|(k' & v' & Hk' & HP')]].
        -- by apply (Hn _ HP).
        -- pose proof (Huniq k' v' j Hk' Pj Hj) as [= -> ->]. by apply (Hn _ HP).
        -- destruct (H4 k' v' Hk') as (_ & _ & K3').
           pose proof (Huniq k' v' j Hk' (K3' _ (json_secret_within v' P (H5 k' v' Hk') HP' _ Pj)) Hj) as [= -> ->].
           by apply (Qn j P).
      * exists (fun i => in_rs i ksp /\ ~ in_rs i (j_span v)). split; [by apply PartKey|]. split; [done|].
        intros j P [Hj Hjv] HP Pj.
        destruct (json_secret_object _ _ _ (Hs P HP)) as [->|[(k' & v' & Hk' & ->)|(k' & v' & Hk' & HP')]].
        -- by apply (Hn _ HP).
        -- pose proof (Huniq k' v' j Hk' Pj Hj) as [= -> ->]. by apply (Hn _ HP).
        -- destruct (H4 k' v' Hk') as (_ & _ & K3'). pose proof (json_secret_within v' P (H5 k' v' Hk') HP' _ Pj) as Hjv'.
           pose proof (Huniq k' v' j Hk' (K3' _ Hjv') Hj) as [= -> ->]. done.
    + eexists. split; [apply PartBraces|]. split; [done|]. intros j P [Hj Hjn] HP Pj.
      destruct (json_secret_object _ _ _ (Hs P HP)) as [->|[(k' & v' & Hk' & ->)|(k' & v' & Hk' & HP')]].
      * by apply (Hn _ HP).
      * by apply (Hjn k' v').
      * destruct (H4 k' v' Hk') as (_ & _ & K3'). apply (Hjn k' v' Hk'). apply K3'.
        by apply (json_secret_within v' P (H5 k' v' Hk') HP').
  - destruct (in_rs_dec i br) as [Hb|Hb]; [destruct es as [|e es]|].
    + exists (set_of sp). split; [constructor|]. split; [done|]. intros j P Hj HP Pj.
      destruct (json_secret_array _ _ _ _ (Hs P HP)) as [->|[? _]]; [|done]. by apply (Hn _ HP).
    + exists (set_of br). split; [by apply PartBrackets|]. split; [done|]. intros j P Hj HP Pj.
      destruct (json_secret_array _ _ _ _ (Hs P HP)) as [->|[_ ->]]; [by apply (Hn _ HP)|]. by destruct Pj.
    + exists (set_of sp). split; [constructor|]. split; [done|]. intros j P Hj HP Pj.
      destruct (json_secret_array _ _ _ _ (Hs P HP)) as [->|[_ ->]]; [by apply (Hn _ HP)|]. by apply (Hn _ HP).
  - exists (set_of sp). split; [by apply (PartString _ i)|]. split; [done|]. intros j P Hj HP Pj.
    pose proof (json_secret_scalar _ _ (Hs P HP)) as ->. by apply (Hn _ HP).
  - exists (set_of sp). split; [constructor|]. split; [done|]. intros j P Hj HP Pj.
    pose proof (json_secret_scalar _ _ (Hs P HP)) as ->. by apply (Hn _ HP).
  - exists (set_of sp). split; [constructor|]. split; [done|]. intros j P Hj HP Pj.
    pose proof (json_secret_scalar _ _ (Hs P HP)) as ->. by apply (Hn _ HP).
  - exists (set_of sp). split; [constructor|]. split; [done|]. intros j P Hj HP Pj.
    pose proof (json_secret_scalar _ _ (Hs P HP)) as ->. by apply (Hn _ HP).
Qed.

(** A message whose pieces are [pre] (the target, or nothing), the headers and the body. *)
Lemma message_secret_where hs y P : (forall h, h ∈ hs -> header_wf h) -> (forall b, y = Some b -> body_wf b) ->
  message_secret hs y P -> forall i, P i ->
  (exists h, h ∈ hs /\ in_rs i (h_span h) /\ (P = set_of (h_span h) \/ P = set_of (h_value h))) \/
  (exists b, y = Some b /\ in_rs i (b_span b) /\
     (P = set_of (b_span b) \/ exists root, b_content b = CJson root /\ json_secret root P)).
Proof.
  intros Hh Hb HP i Pi. destruct HP as [h Hin|h Hin|b Hin|sp root P Hin HP].
  - left. eauto.
  - left. exists h. split_and!; [done|apply (Hh h Hin), Pi|by right].
  - right. eauto.
  - right. exists (Body sp (CJson root)). destruct (Hb _ Hin) as (H1 & H2 & H3). cbn in *. split_and!; [done| |by right; eauto].
    apply H3. by eapply json_secret_within.
Qed.
Lemma in_pieces_header hs y (h : header) : h ∈ hs -> h_span h ∈ map h_span hs ++ map b_span (opt_list y).
Proof. intros. apply elem_of_app. left. apply elem_of_list_fmap. eauto. Qed.
Lemma in_pieces_body hs y (b : body) : y = Some b -> b_span b ∈ map h_span hs ++ map b_span (opt_list y).
Proof. intros. apply elem_of_app. right. apply elem_of_list_fmap. exists b. by rewrite elem_opt. Qed.
Lemma all_apart_app l1 l2 : all_apart (l1 ++ l2) -> all_apart l1 /\ all_apart l2 /\
  forall x y, x ∈ l1 -> y ∈ l2 -> apart x y.
Proof.
  intros H. split_and!.
  - intros k1 k2 x y H1 H2. apply (H k1 k2); by apply lookup_app_l_Some.
  - intros k1 k2 x y H1 H2 Hne. apply (H (length l1 + k1) (length l1 + k2)); [| |lia]; rewrite lookup_app_r by lia.
    + by replace (length l1 + k1 - length l1) with k1 by lia.
    + by replace (length l1 + k2 - length l1) with k2 by lia.
  - intros x y [k1 H1]%elem_of_list_lookup [k2 H2]%elem_of_list_lookup.
    apply (H k1 (length l1 + k2)); [by apply lookup_app_l_Some| |apply lookup_lt_Some in H1; lia].
    rewrite lookup_app_r by lia. by replace (length l1 + k2 - length l1) with k2 by lia.
Qed.
(** The part of a header or a body that shows [i] and no secret. *)
Lemma header_redact hs y (H : pset -> Prop) h i :
  (forall h, h ∈ hs -> header_wf h) -> (forall b, y = Some b -> body_wf b) ->
  all_apart (map h_span hs ++ map b_span (opt_list y)) ->
  (forall P j, H P -> P j -> in_rs j (h_span h) -> message_secret hs y P) -> (forall P, H P -> ~ P i) ->
  h ∈ hs -> in_rs i (h_span h) ->
  exists Q, header_part h Q /\ Q i /\ forall j P, Q j -> H P -> ~ P j.
Proof.
  intros Hh Hb Ha Hs Hn Hin Hi. destruct (all_apart_app _ _ Ha) as (Ha1 & Ha2 & Ha3). destruct (Hh h Hin) as (W1 & W2 & W3).
  assert (Hone : forall j P, in_rs j (h_span h) -> H P -> P j -> P = set_of (h_value h)).
  { intros j P Hj HP Pj.
    destruct (message_secret_where hs y P Hh Hb (Hs P j HP Pj Hj) j Pj) as [(h' & Hin' & Hj' & E)|(b & Hb' & Hj' & _)].
    - pose proof (all_apart_fmap h_span hs h' h j Ha1 Hin' Hin Hj' Hj) as ->. destruct E as [->| ->]; [|done].
      by destruct (Hn _ HP).
    - exfalso. apply (Ha3 (h_span h) (b_span b)) with j; [apply elem_of_list_fmap; eauto| |done|done].
      apply elem_of_list_fmap. exists b. by rewrite elem_opt. }
  destruct (in_rs_dec i (h_value h)) as [Hv|Hv].
  - exists (set_of (h_span h)). split; [constructor|]. split; [done|]. intros j P Hj HP Pj.
    pose proof (Hone j P Hj HP Pj) as ->. by apply (Hn _ HP).
  - destruct (rs_empty (h_value h)) eqn:E.
    + rewrite rs_empty_in in E by done. exists (set_of (h_span h)). split; [constructor|]. split; [done|].
      intros j P Hj HP Pj. pose proof (Hone j P Hj HP Pj) as ->. by apply (E j).
    + destruct (rs_nonempty_in (h_value h)) as [k Hk]; [done|done|].
      eexists. split; [by apply (PartHeaderName h k)|]. split; [done|].
      intros j P [Hj Hjv] HP Pj. pose proof (Hone j P Hj HP Pj) as ->. done.
Qed.
Lemma body_redact hs y (H : pset -> Prop) b i :
  (forall h, h ∈ hs -> header_wf h) -> (forall b, y = Some b -> body_wf b) ->
  all_apart (map h_span hs ++ map b_span (opt_list y)) -> body_exact y ->
  (forall P j, H P -> P j -> in_rs j (b_span b) -> message_secret hs y P) -> (forall P, H P -> ~ P i) ->
  y = Some b -> in_rs i (b_span b) ->
  exists Q, body_part b Q /\ Q i /\ forall j P, Q j -> H P -> ~ P j.
Proof.
  intros Hh Hb Ha He Hs Hn Hin Hi. destruct (all_apart_app _ _ Ha) as (Ha1 & Ha2 & Ha3). destruct (Hb b Hin) as (W1 & W2).
  assert (Hone : forall j P, in_rs j (b_span b) -> H P -> P j -> exists root, b_content b = CJson root /\ json_secret root P).
  { intros j P Hj HP Pj.
    destruct (message_secret_where hs y P Hh Hb (Hs P j HP Pj Hj) j Pj) as [(h' & Hin' & Hj' & _)|(b' & Hb' & Hj' & E)].
    - exfalso. apply (Ha3 (h_span h') (b_span b)) with j; [apply elem_of_list_fmap; eauto| |done|done].
      apply elem_of_list_fmap. exists b. by rewrite elem_opt.
    - assert (b' = b) as -> by congruence. destruct E as [->|E]; [|done]. by destruct (Hn _ HP). }
  destruct b as [sp [root|]]; cbn in *.
  - destruct W2 as [W2 W3].
    destruct (json_redact root W2 (fun P => H P /\ json_secret root P) i) as (Q & HQ & Qi & Qn).
    { by intros P [_ ?]. } { by apply (He sp root). } { intros P [? _]. by apply Hn. }
    exists Q. split; [by constructor|]. split; [done|]. intros j P Qj HP Pj.
    destruct (Hone j P) as (root' & [= <-] & HP'); [|done|done|]; [|by apply (Qn j P)].
    apply W3. by eapply json_part_within.
  - exists (set_of sp). split; [constructor|]. split; [done|]. intros j P Hj HP Pj.
    destruct (Hone j P Hj HP Pj) as (root' & [=] & _).
Qed.
Lemma some_header i (hs : list header) :
  (exists h, h ∈ hs /\ in_rs i (h_span h)) \/ forall h, h ∈ hs -> ~ in_rs i (h_span h).
Proof.
  induction hs as [|h hs IH]; [right; by intros h ?%elem_of_nil|].
  destruct (in_rs_dec i (h_span h)) as [Hk|Hk].
  - left. exists h. split; [by left|done].
  - destruct IH as [(h' & ? & ?)|Hno]; [left; exists h'; split; [by right|done]|right].
    intros h' [->|?]%elem_of_cons; [done|eauto].
Qed.
Lemma some_body i (y : option body) :
  (exists b, y = Some b /\ in_rs i (b_span b)) \/ forall b, y = Some b -> ~ in_rs i (b_span b).
Proof.
  destruct y as [b|]; [|by right]. destruct (in_rs_dec i (b_span b)); [left; eauto|right]. by intros ? [= <-].
Qed.

Lemma request_redact q (H : pset -> Prop) i : request_wf q -> (forall P, H P -> request_secret q P) ->
  q_headers q <> [] \/ q_body q <> None \/ (forall P, ~ H P) -> body_exact (q_body q) ->
  in_rs i (q_span q) -> (forall P, H P -> ~ P i) ->
  exists Q, request_part q Q /\ Q i /\ forall j P, Q j -> H P -> ~ P j.
Proof.
  intros (Hok & Ha & Hp & Hh & Hb) Hs Hd He Hi Hn.
  destruct (all_apart_app [q_target q] _ Ha) as (_ & Ha2 & Ha3).
  assert (Hd' : (forall P, ~ H P) \/ (q_headers q <> [] \/ q_body q <> None)) by tauto. clear Hd.
  destruct Hd' as [Hno|Hd].
  { exists (set_of (q_span q)). split; [constructor|]. split; [done|]. intros j P _ HP. by destruct (Hno P). }
  destruct (in_rs_dec i (q_target q)) as [Ht|Ht].
  { exists (set_of (q_target q)). split; [constructor|]. split; [done|]. intros j P Hj HP Pj.
    destruct (Hs P HP) as [|P HP']; [by apply (Hn _ HP)|].
    destruct (message_secret_where _ _ P Hh Hb HP' j Pj) as [(h' & Hin' & Hj' & _)|(b' & Hb' & Hj' & E)].
    - apply (Ha3 (q_target q) (h_span h')) with j; [by left|by apply in_pieces_header|done|done].
    - apply (Ha3 (q_target q) (b_span b')) with j; [by left|by apply in_pieces_body|done|done]. }
  destruct (some_header i (q_headers q)) as [(h & Hin & Hih)|Hnh].
  { destruct (header_redact (q_headers q) (q_body q) H h i) as (Q & HQ & Qi & Qn); [done..| |done|done|done|].
    - intros P j HP Pj Hj. destruct (Hs P HP) as [|P HP']; [|done].
      exfalso. apply (Ha3 (q_target q) (h_span h)) with j; [by left|by apply in_pieces_header|done|done].
    - exists Q. split; [by eapply PartRequestHeader|done]. }
  destruct (some_body i (q_body q)) as [(b & Hin & Hib)|Hnb].
  { destruct (body_redact (q_headers q) (q_body q) H b i) as (Q & HQ & Qi & Qn); [done..| |done|done|done|].
    - intros P j HP Pj Hj. destruct (Hs P HP) as [|P HP']; [|done].
      exfalso. apply (Ha3 (q_target q) (b_span b)) with j; [by left|by apply in_pieces_body|done|done].
    - exists Q. split; [by eapply PartRequestBody|done]. }
  eexists. split; [by apply PartRequestLine|]. split; [done|]. intros j P (Hj & Hjt & Hjh & Hjb) HP Pj.
  destruct (Hs P HP) as [|P HP']; [done|].
  destruct (message_secret_where _ _ P Hh Hb HP' j Pj) as [(h' & Hin' & Hj' & _)|(b' & Hb' & Hj' & E)].
  - by apply (Hjh h').
  - by apply (Hjb b').
Qed.
Lemma response_redact p (H : pset -> Prop) i : response_wf p -> (forall P, H P -> response_secret p P) ->
  body_exact (p_body p) -> in_rs i (p_span p) -> (forall P, H P -> ~ P i) ->
  exists Q, response_part p Q /\ Q i /\ forall j P, Q j -> H P -> ~ P j.
Proof.
  intros (Hok & Ha & Hp & Hh & Hb) Hs He Hi Hn.
  assert (Hd' : (p_headers p = [] /\ p_body p = None) \/ (p_headers p <> [] \/ p_body p <> None)).
  { destruct (p_headers p), (p_body p); naive_solver. }
  destruct Hd' as [[E1 E2]|Hd].
  { exists (set_of (p_span p)). split; [constructor|]. split; [done|]. intros j P _ HP _. apply Hs in HP.
    unfold response_secret in HP. rewrite E1, E2 in HP. inversion HP; subst; try done;
    match goal with X : _ ∈ [] |- _ => by apply elem_of_nil in X end. }
  destruct (some_header i (p_headers p)) as [(h & Hin & Hih)|Hnh].
  { destruct (header_redact (p_headers p) (p_body p) H h i) as (Q & HQ & Qi & Qn); [done..| |done|done|done|].
    - intros P j HP Pj Hj. by apply Hs.
    - exists Q. split; [by eapply PartResponseHeader|done]. }
  destruct (some_body i (p_body p)) as [(b & Hin & Hib)|Hnb].
  { destruct (body_redact (p_headers p) (p_body p) H b i) as (Q & HQ & Qi & Qn); [done..| |done|done|done|].
    - intros P j HP Pj Hj. by apply Hs.
    - exists Q. split; [by eapply PartResponseBody|done]. }
  eexists. split; [by apply PartStatusLine|]. split; [done|]. intros j P (Hj & Hjh & Hjb) HP Pj.
  destruct (message_secret_where _ _ P Hh Hb (Hs P HP) j Pj) as [(h' & Hin' & Hj' & _)|(b' & Hb' & Hj' & E)].
  - by apply (Hjh h').
  - by apply (Hjb b').
Qed.
(** A redacted message is a union of parts. *)
Lemma redacted_union t d r : http_wf t -> redacted t d r -> forall i, in_rs i r ->
  exists Q, http_part t d Q /\ Q i /\ forall j, Q j -> in_rs j r.
Proof.
  intros [Hq Hp] [q H r' Hin Hs Hd He E|p H r' Hin Hs He E] i [Hi Hn]%E.
  - destruct (request_redact q H i) as (Q & HQ & Qi & Qn); [by apply Hq|done..|]. exists Q.
    split; [by eapply PartSent|]. split; [done|]. intros j Qj. apply E. split.
    + eapply request_part_within; eauto.
    + intros P HP. by apply (Qn j P).
  - destruct (response_redact p H i) as (Q & HQ & Qi & Qn); [by apply Hp|done..|]. exists Q.
    split; [by eapply PartReceived|]. split; [done|]. intros j Qj. apply E. split.
    + eapply response_part_within; eauto.
    + intros P HP. by apply (Qn j P).
Qed.

(** The openings made for the configuration. *)
Lemma openings_parts t a h b ss : http_wf h ->
  commit_transcript (cfg_default_kind (cfg_new t) a) h = Some b -> openings_of (cb_commits b) ss ->
  http_in_bounds t h /\
  (forall s, s ∈ ss -> rs_ok (sc_idx s) /\ sc_alg s = a /\ exists P, http_part h (sc_dir s) P /\ same (sc_idx s) P) /\
  (forall d P, http_part h d P -> exists s, s ∈ ss /\ sc_dir s = d /\ sc_alg s = a /\ same (sc_idx s) P).
Proof.
  intros Hw H Ho. destruct (exact_lemma _ _ _ Hw H) as (_ & _ & E). cbn in E. split_and!.
  - apply (bounds_lemma (cfg_default_kind (cfg_new t) a) h Hw). eauto.
  - intros s Hs. assert ((sc_dir s, sc_idx s, sc_alg s) ∈ cb_commits b) as Hin by (apply Ho; eauto).
    apply E in Hin as [?%elem_of_nil|(-> & Hok & P & HP & EP)]; [done|]. split_and!; [done|done|]. exists P. done.
  - intros d P HP. destruct (proj2 (http_calls_parts h Hw) d P HP) as (r & Hr & Er).
    assert ((d, rs_from r, a) ∈ cb_commits b) as Hin.
    { apply E. right. split; [done|]. split; [apply rs_from_ok|]. exists P. split; [done|]. intros i. by rewrite in_rs_from, (Er i). }
    apply Ho in Hin as (s & ? & ? & Ei & ?). exists s. split_and!; [done..|]. intros i. by rewrite Ei, in_rs_from, (Er i).
Qed.
Lemma reveal_lemma cover t a h b ss cs : cover_ok cover -> http_wf h ->
  commit_transcript (cfg_default_kind (cfg_new t) a) h = Some b -> openings_of (cb_commits b) ss ->
  a ∈ [SHA256; BLAKE3; KECCAK256] ->
  (forall c, c ∈ cs -> exists r d, c = TBReveal r d /\ redacted h d r) ->
  exists pr, tb_build cover (tb_run t ss cs) = Ok pr /\
    forall d i, in_rs i (p_idx (tp_transcript pr) d) <-> exists r, TBReveal r d ∈ cs /\ in_rs i r.
Proof.
  intros Hcov Hw H Ho Ha Hcs. destruct (openings_parts t a h b ss Hw H Ho) as ([B1 B2] & Hss & Hps).
  assert (Hrev : forall r d, TBReveal r d ∈ cs -> revealable t ss r d /\
     forall i, in_rs i r -> exists s, s ∈ ss /\ sc_dir s = d /\ sc_alg s = a /\ in_rs i (sc_idx s) /\ forall j, in_rs j (sc_idx s) -> in_rs j r).
  { intros r d Hr. destruct (Hcs _ Hr) as (? & ? & [= <- <-] & Hred).
    assert (Hu : forall i, in_rs i r -> exists s, s ∈ ss /\ sc_dir s = d /\ sc_alg s = a /\ in_rs i (sc_idx s) /\ forall j, in_rs j (sc_idx s) -> in_rs j r).
    { intros i Hi. destruct (redacted_union h d r Hw Hred i Hi) as (Q & HQ & Qi & Qr).
      destruct (Hps d Q HQ) as (s & ? & ? & ? & Es). exists s. split_and!; [done..|by apply Es|]. intros j Hj. by apply Qr, Es. }
    split; [|done]. intros i Hi. split.
    - destruct Hred as [q HH r Hin _ _ _ E|p HH r Hin _ _ E]; apply E in Hi as [Hi _]; eauto.
    - destruct (Hu i Hi) as (s & ? & ? & _ & ? & _). eauto. }
  assert (Hk : kinds_given cs [SHA256; BLAKE3; KECCAK256] = [SHA256; BLAKE3; KECCAK256]).
  { clear -Hcs. induction cs as [|c cs IH]; [done|]. destruct (Hcs c) as (r & d & -> & _); [by left|]. cbn [kinds_given].
    apply IH. intros c Hc. apply Hcs. by right. }
  destruct (C12_only_kind_lemma cover t ss cs a) as [pr Hpr].
  - done.
  - intros s Hs. by apply Hss.
  - intros s Hs. by apply Hss.
  - by rewrite Hk.
  - intros d i Hi. apply tb_run_query in Hi as (r & Hr & _ & Hi).
    destruct (Hrev r d Hr) as (R1 & R2). destruct (R2 i Hi) as (s & ? & ? & ? & ? & Hsub). exists s. split_and!; [done..|].
    intros j Hj. apply tb_run_query. exists r. split_and!; [done|done|by apply Hsub].
  - exists pr. split; [done|]. intros d i. rewrite (C08_union_lemma cover t ss cs pr Hcov) by (first [done|intros s Hs; by apply Hss]).
    split.
    + intros (r & ? & _ & ?). eauto.
    + intros (r & Hr & ?). exists r. split_and!; [done|by apply Hrev|done].
Qed.
(** What is not a union of parts cannot be revealed. *)
Lemma only_unions cover t a h b ss r d pr : cover_ok cover -> http_wf h ->
  commit_transcript (cfg_default_kind (cfg_new t) a) h = Some b -> openings_of (cb_commits b) ss ->
  tb_build cover (tb_run t ss [TBReveal r d]) = Ok pr -> revealable t ss r d ->
  forall i, in_rs i r -> exists P, http_part h d P /\ P i /\ forall j, P j -> in_rs j r.
Proof.
  intros Hcov Hw H Ho Hpr Hr i Hi. destruct (openings_parts t a h b ss Hw H Ho) as (_ & Hss & _).
  assert (Hok : forall s, s ∈ ss -> rs_ok (sc_idx s)) by (intros s Hs; by apply Hss).
  destruct (tb_build_inv cover t ss _ pr Hcov Hok Hpr) as (_ & Hidx & Hsub & Hun).
  pose proof (C08_union_lemma cover t ss _ pr Hcov Hok Hpr) as Hq.
  assert (Hin : in_rs i (p_idx (tp_transcript pr) d)).
  { apply Hq. exists r. split_and!; [by left|done|done]. }
  apply Hun in Hin as (s & Hs & Hd & His). destruct (Hss s (Hsub s Hs)) as (_ & _ & P & HP & E). rewrite Hd in HP.
  exists P. split; [done|]. split; [by apply E|]. intros j Pj. apply E in Pj.
  assert (Hj : in_rs j (p_idx (tp_transcript pr) d)) by (apply Hun; eauto).
  apply Hq in Hj as (r' & Hr' & _ & Hj). apply elem_of_list_singleton in Hr' as [= ->]. done.
Qed.
