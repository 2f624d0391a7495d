(** Lemmas for C51, C56 and C57. *)
From Verif.Lib Require Import Base Ranges RangesFacts.
From Verif Require Import TranscriptModel CodecModel SdkModel SdkSpec.

Lemma in_rs_flat_map {A} (f : A -> list range) l i :
  in_rs i (flat_map f l) <-> exists x, x ∈ l /\ in_rs i (f x).
Proof.
  induction l as [|x l IH]; simpl.
  - rewrite in_rs_nil. split; [done|]. intros (x & Hx & _). by apply elem_of_nil in Hx.
  - rewrite in_rs_app, IH. setoid_rewrite elem_of_cons. split.
    + intros [H|(y & Hy & H)]; eauto.
    + intros (y & [->|Hy] & H); eauto.
Qed.

Section Sdk.
  Context (parse_request : list N -> option request) (parse_response : list N -> option response).
  Context (name_eq : list N -> list N -> bool) (json_get : json -> list N -> option json).
  Context (regex_find : list N -> list N -> option (list range)).
  Local Notation extract_ranges := (extract_ranges name_eq json_get regex_find).
  Local Notation run_handlers := (run_handlers name_eq json_get regex_find).
  Local Notation compute_reveal := (compute_reveal parse_request parse_response name_eq json_get regex_find).

  Definition of_dir {A} (d : direction) (s r : A) : A := match d with Sent => s | Received => r end.

  (** ** Accumulation *)
  Definition ac_reveal (d : direction) (a : acc) := of_dir d (ac_rs a) (ac_rr a).
  Definition ac_commit (d : direction) (a : acc) := of_dir d (ac_cs a) (ac_cr a).
  Definition ac_annot (d : direction) (a : acc) := of_dir d (ac_as a) (ac_ar a).

  Lemma acc_step_reveal a h rs d :
    ac_reveal d (acc_step a h rs) = ac_reveal d a ++ (if decide (reveals d h) then rs else []).
  Proof.
    unfold acc_step, ac_reveal, of_dir. case_decide as E.
    - destruct E as [<- ->]. by destruct (hn_type h).
    - destruct (hn_action h) eqn:Ea, (hn_type h) eqn:Et, d; simpl; rewrite ?app_nil_r; try done;
        exfalso; apply E; split; done.
  Qed.
  Lemma acc_step_commit a h rs d :
    ac_commit d (acc_step a h rs) =
    ac_commit d a ++ (if decide (hn_type h = d) then wanted_commits h rs else []).
  Proof.
    unfold acc_step, ac_commit, of_dir, wanted_commits.
    destruct (hn_action h), (hn_type h), d; simpl; rewrite ?app_nil_r; done.
  Qed.
  Lemma acc_step_annot a h rs d :
    ac_annot d (acc_step a h rs) =
    ac_annot d a ++ (if decide (hn_type h = d) then map (fun r => (r, h)) rs else []).
  Proof.
    unfold acc_step, ac_annot, of_dir.
    destruct (hn_action h), (hn_type h), d; simpl; rewrite ?app_nil_r; done.
  Qed.

  Definition ext_of (sm rm : message) (sent recv : list N) (h : handler) : outcome sdk_error (list range) :=
    match hn_type h with Sent => extract_ranges h sm sent | Received => extract_ranges h rm recv end.
  Definition ranges_of (sm rm : message) (sent recv : list N) (h : handler) : list range :=
    match ext_of sm rm sent recv h with Ok rs => rs | _ => [] end.

  Lemma run_handlers_Ok sm rm sent recv hs a a' :
    run_handlers sm rm sent recv hs a = Ok a' ->
    let ext := ranges_of sm rm sent recv in
    (forall h, h ∈ hs -> ext_of sm rm sent recv h = Ok (ext h)) /\
    forall d,
      ac_reveal d a' = ac_reveal d a ++ flat_map ext (filter (reveals d) hs) /\
      ac_commit d a' = ac_commit d a ++
        flat_map (fun h => wanted_commits h (ext h)) (filter (fun h => hn_type h = d) hs) /\
      ac_annot d a' = ac_annot d a ++
        flat_map (fun h => map (fun r => (r, h)) (ext h)) (filter (fun h => hn_type h = d) hs).
  Proof.
    revert a. induction hs as [|h hs IH]; intros a; cbn [SdkModel.run_handlers].
    - intros [= <-]. split; [intros h Hh; by apply elem_of_nil in Hh|].
      intros d. by rewrite !filter_nil; simpl; rewrite !app_nil_r.
    - intros (rs & Hrs & Hrun)%obind_Ok.
      assert (ext_of sm rm sent recv h = Ok rs) as Hx by exact Hrs.
      assert (ranges_of sm rm sent recv h = rs) as Hr by (unfold ranges_of; by rewrite Hx).
      apply IH in Hrun as [Hall Hd]. split.
      { intros h' [->|Hh']%elem_of_cons; [by rewrite Hr|by apply Hall]. }
      intros d. destruct (Hd d) as (H1 & H2 & H3). rewrite H1, H2, H3.
      rewrite acc_step_reveal, acc_step_commit, acc_step_annot, <- !app_assoc. split_and!; f_equal.
      + rewrite filter_cons. case_decide; simpl; [by rewrite Hr|done].
      + rewrite filter_cons. case_decide; simpl; [by rewrite Hr|done].
      + rewrite filter_cons. case_decide; simpl; [by rewrite Hr|done].
  Qed.

  Lemma run_handlers_total sm rm sent recv hs a :
    (forall h, h ∈ hs -> exists rs, ext_of sm rm sent recv h = Ok rs) ->
    exists a', run_handlers sm rm sent recv hs a = Ok a'.
  Proof.
    revert a. induction hs as [|h hs IH]; intros a Hall; cbn [SdkModel.run_handlers]; [eauto|].
    destruct (Hall h) as [rs Hrs]; [apply elem_of_list_here|].
    unfold ext_of in Hrs. rewrite Hrs. simpl. apply IH. intros h' Hh'. apply Hall. by apply elem_of_list_further.
  Qed.

  Lemma opt_err_Ok {E A} (e : E) (o : option A) a : opt_err e o = Ok a <-> o = Some a.
  Proof. destruct o; simpl; split; congruence. Qed.

  (** ** C51: the computed reveal *)
  Lemma compute_reveal_exact sent recv hs o :
    compute_reveal sent recv hs = Ok o ->
    exists rq rp ext,
      parse_request sent = Some rq /\ parse_response recv = Some rp /\
      (forall h, h ∈ hs ->
         (hn_type h = Sent -> extract_ranges h (ReqMsg rq) sent = Ok (ext h)) /\
         (hn_type h = Received -> extract_ranges h (RespMsg rp) recv = Ok (ext h))) /\
      (forall d,
         revealed_ranges d (ro_reveal o) = flat_map ext (filter (reveals d) hs) /\
         committed_ranges d (ro_commit o) =
           flat_map (fun h => wanted_commits h (ext h)) (filter (fun h => hn_type h = d) hs) /\
         annotations d o =
           flat_map (fun h => map (fun r => (r, h)) (ext h)) (filter (fun h => hn_type h = d) hs)) /\
      (ro_commit o = None <-> forall d, committed_ranges d (ro_commit o) = []) /\
      rv_identity (ro_reveal o) = true.
  Proof.
    unfold compute_reveal. intros (rq & Hq%opt_err_Ok & H)%obind_Ok.
    apply obind_Ok in H as (rp & Hp%opt_err_Ok & H).
    apply obind_Ok in H as (a & Ha & [= <-]).
    apply run_handlers_Ok in Ha as [Hall Hd].
    exists rq, rp, (ranges_of (ReqMsg rq) (RespMsg rp) sent recv). split_and!; [done|done| | | |done].
    - intros h Hh. specialize (Hall h Hh). unfold ext_of at 1 in Hall.
      split; intros Ht; rewrite Ht in Hall; exact Hall.
    - intros d. destruct (Hd d) as (H1 & H2 & H3).
      split_and!.
      + destruct d; simpl in *; by rewrite ?H1.
      + rewrite <- (app_nil_l (flat_map _ _)).
        replace (@nil commit_range) with (ac_commit d (Acc [] [] [] [] [] [])) by by destruct d.
        rewrite <- H2. unfold committed_ranges, ac_commit; simpl.
        destruct (ac_cs a) as [|c cs] eqn:Ec, (ac_cr a) as [|c' cs'] eqn:Ec'; simpl; rewrite ?Ec, ?Ec'; by destruct d.
      + destruct d; simpl in *; by rewrite ?H3.
    - simpl. split; [by intros ->|]. intros Hn. pose proof (Hn Sent) as Hs. pose proof (Hn Received) as Hr.
      destruct (ac_cs a), (ac_cr a); simpl in *; done.
  Qed.

  Lemma compute_reveal_succeeds sent recv hs :
    (exists o, compute_reveal sent recv hs = Ok o) <->
    exists rq rp, parse_request sent = Some rq /\ parse_response recv = Some rp /\
      forall h, h ∈ hs -> exists rs,
        (match hn_type h with
         | Sent => extract_ranges h (ReqMsg rq) sent
         | Received => extract_ranges h (RespMsg rp) recv
         end) = Ok rs.
  Proof.
    split.
    - intros [o H]. apply compute_reveal_exact in H as (rq & rp & ext & Hq & Hp & Hall & _).
      exists rq, rp. split_and!; [done|done|]. intros h Hh. exists (ext h).
      destruct (hn_type h) eqn:Et; by apply Hall.
    - intros (rq & rp & Hq & Hp & Hall). unfold compute_reveal. rewrite Hq, Hp. simpl.
      destruct (run_handlers_total (ReqMsg rq) (RespMsg rp) sent recv hs (Acc [] [] [] [] [] [])) as [a ->];
        [exact Hall|]. simpl. eauto.
  Qed.
End Sdk.

(** ** The configuration built from a reveal *)
Definition shown_b (d : direction) (b : option (rangeset * rangeset)) : rangeset :=
  match b with None => [] | Some (s, r) => of_dir d s r end.
Definition b_ok (b : option (rangeset * rangeset)) : Prop := forall d, rs_ok (shown_b d b).

Lemma reveal_inner_Ok t d r b b' :
  reveal_inner t d r b = Ok b' -> b_ok b ->
  b_ok b' /\ forall d' i, in_rs i (shown_b d' b') <-> in_rs i (shown_b d' b) \/ (d' = d /\ in_range i r).
Proof.
  unfold reveal_inner. destruct (_ <? _); [done|].
  intros H Hok. assert (rs_ok (shown_b Sent b) /\ rs_ok (shown_b Received b)) as [Hs Hr] by (split; apply Hok).
  assert (exists s v, default ([], []) b = (s, v) /\ shown_b Sent b = s /\ shown_b Received b = v) as (s & v & E & E1 & E2).
  { destruct b as [[s v]|]; simpl; eauto. }
  rewrite E in H. injection H as <-. rewrite E1 in Hs. rewrite E2 in Hr. split.
  - intros []; destruct d; simpl; try done; by apply rs_union_ok.
  - assert (forall i x, rs_ok x -> in_rs i (rs_union x (rs_from [r])) <-> in_rs i x \/ in_range i r) as Hu.
    { intros i x Hx. rewrite in_rs_union by done. rewrite in_rs_from, in_rs_cons, in_rs_nil. tauto. }
    intros [] i; destruct d; simpl; rewrite ?Hu by done; rewrite ?E1, ?E2; intuition congruence.
Qed.

Lemma reveal_all_Ok t d rs b b' :
  reveal_all t d rs b = Ok b' -> b_ok b ->
  b_ok b' /\ forall d' i, in_rs i (shown_b d' b') <-> in_rs i (shown_b d' b) \/ (d' = d /\ in_rs i rs).
Proof.
  revert b. induction rs as [|r rs IH]; intros b; cbn [reveal_all].
  - intros [= <-] Hok. split; [done|]. intros d' i. rewrite in_rs_nil. tauto.
  - intros (b1 & H1 & H2)%obind_Ok Hok.
    destruct (reveal_inner_Ok _ _ _ _ _ H1 Hok) as [Hok1 Hin1].
    destruct (IH _ H2 Hok1) as [Hok2 Hin2]. split; [done|].
    intros d' i. rewrite Hin2, Hin1, in_rs_cons. tauto.
Qed.

Lemma commit_all_Ok t d crs s s' :
  commit_all t d crs s = Ok s' -> NoDup s ->
  NoDup s' /\
  (forall c, c ∈ crs -> rs_end (rs_from [(cr_start c, cr_end c)]) <= t_len t d) /\
  exists new, s' = s ++ new /\
  (forall x, x ∈ new -> exists c, c ∈ crs /\ x = item_of d c) /\
  forall c, c ∈ crs -> item_of d c ∈ s'.
Proof.
  revert s. induction crs as [|c crs IH]; intros s; cbn [commit_all].
  - intros [= <-] Hnd. split; [done|]. split; [intros c Hc; by apply elem_of_nil in Hc|].
    exists []. rewrite app_nil_r. split_and!; [done|intros x Hx; by apply elem_of_nil in Hx|].
    intros c Hc; by apply elem_of_nil in Hc.
  - intros (s1 & H1 & H2)%obind_Ok Hnd. unfold commit_inner in H1.
    destruct (t_len t d <? _) eqn:Hle; [done|]. injection H1 as <-.
    fold (item_of d c) in H2.
    case_bool_decide as Hin.
    + destruct (IH _ H2 Hnd) as (Hnd' & Hb & new & -> & Hnew & Hall). split; [done|]. split.
      { intros c' [->|Hc']%elem_of_cons; [lia|by apply Hb]. }
      exists new. split_and!; [done| |].
      * intros x Hx. destruct (Hnew x Hx) as (c' & Hc' & ->). exists c'. split; [by apply elem_of_list_further|done].
      * intros c' [->|Hc']%elem_of_cons; [by apply elem_of_app; left|by apply Hall].
    + assert (NoDup (s ++ [item_of d c])) as Hnd1.
      { apply NoDup_app. split_and!; [done| |apply NoDup_singleton].
        intros x Hx ->%elem_of_list_singleton. done. }
      destruct (IH _ H2 Hnd1) as (Hnd' & Hb & new & -> & Hnew & Hall). split; [done|]. split.
      { intros c' [->|Hc']%elem_of_cons; [lia|by apply Hb]. }
      exists (item_of d c :: new). split_and!.
      * by rewrite <- app_assoc.
      * intros x [->|Hx]%elem_of_cons; [exists c; split; [apply elem_of_list_here|done]|].
        destruct (Hnew x Hx) as (c' & Hc' & ->). exists c'. split; [by apply elem_of_list_further|done].
      * intros c' [->|Hc']%elem_of_cons; [|by apply Hall].
        apply elem_of_app; left. apply elem_of_app; right. apply elem_of_list_here.
Qed.

Lemma item_of_dir d c d' c' : item_of d c = item_of d' c' -> d = d'.
Proof. by intros [= -> _ _]. Qed.

Section Config.
  Context (arrange : list commit_item -> list commit_item).
  Local Notation sdk_prove_config := (sdk_prove_config arrange).

  Lemma prove_config_shown t rv cm c :
    sdk_prove_config t rv cm = Ok c ->
    pc_identity c = rv_identity rv /\
    forall d i, in_rs i (shown d c) <-> in_rs i (revealed_ranges d rv).
  Proof.
    unfold SdkModel.sdk_prove_config. intros (b1 & H1 & H)%obind_Ok.
    apply obind_Ok in H as (b2 & H2 & H). apply obind_Ok in H as (cc & _ & [= <-]). split; [done|].
    assert (b_ok None) as H0 by by intros [].
    destruct (reveal_all_Ok _ _ _ _ _ H1 H0) as [Hok1 Hin1].
    destruct (reveal_all_Ok _ _ _ _ _ H2 Hok1) as [_ Hin2].
    intros d i. change (shown d _) with (shown_b d b2). rewrite Hin2, Hin1. simpl.
    rewrite in_rs_nil. destruct d; simpl; intuition congruence.
  Qed.

  (** The entries that are committed to: one for each different request. *)
  Lemma prove_config_items t rv cm c :
    sdk_prove_config t rv cm = Ok c ->
    (cm = None /\ pc_commit c = None) \/
    exists k sent recv,
      cm = Some k /\ pc_commit c = Some (arrange (sent ++ recv)) /\ NoDup (sent ++ recv) /\
      (forall x, x ∈ sent -> exists cr, cr ∈ cm_sent k /\ x = item_of Sent cr) /\
      (forall x, x ∈ recv -> exists cr, cr ∈ cm_recv k /\ x = item_of Received cr) /\
      (forall cr, cr ∈ cm_sent k -> item_of Sent cr ∈ sent ++ recv) /\
      (forall cr, cr ∈ cm_recv k -> item_of Received cr ∈ sent ++ recv) /\
      commit_all t Sent (cm_sent k) [] = Ok sent /\
      (forall cr, cr ∈ cm_sent k -> rs_end (rs_from [(cr_start cr, cr_end cr)]) <= t_len t Sent) /\
      (forall cr, cr ∈ cm_recv k -> rs_end (rs_from [(cr_start cr, cr_end cr)]) <= t_len t Received).
  Proof.
    unfold SdkModel.sdk_prove_config. intros (b1 & _ & H)%obind_Ok.
    apply obind_Ok in H as (b2 & _ & H). apply obind_Ok in H as (cc & Hc & [= <-]). simpl.
    destruct cm as [k|]; [|injection Hc as <-; by left]. right.
    apply obind_Ok in Hc as (s1 & H1 & Hc). apply obind_Ok in Hc as (s2 & H2 & [= <-]).
    destruct (commit_all_Ok _ _ _ _ _ H1 (NoDup_nil_2)) as (Hnd1 & Hb1 & new1 & E1 & Hnew1 & Hall1).
    simpl in E1. subst new1.
    destruct (commit_all_Ok _ _ _ _ _ H2 Hnd1) as (Hnd2 & Hb2 & new2 & -> & Hnew2 & Hall2).
    exists k, s1, new2. split_and!; try done.
    intros cr Hcr. apply elem_of_app. left. by apply Hall1.
  Qed.

  Lemma prove_config_commits t rv cm c :
    iterates arrange -> sdk_prove_config t rv cm = Ok c ->
    NoDup (default [] (pc_commit c)) /\
    forall d idx alg,
      (d, idx, alg) ∈ default [] (pc_commit c) <->
      exists cr, cr ∈ committed_ranges d cm /\ idx = rs_from [(cr_start cr, cr_end cr)] /\
                 alg = alg_id_of (cr_alg cr).
  Proof.
    intros Hit H.
    destruct (prove_config_items _ _ _ _ H)
      as [[-> ->]|(k & s & r & -> & -> & Hnd & Hs & Hr & Hs' & Hr' & _)]; simpl.
    - split; [apply NoDup_nil_2|]. intros d idx alg. split; [intros Hx; by apply elem_of_nil in Hx|].
      intros (cr & Hx & _). by apply elem_of_nil in Hx.
    - pose proof (Hit _ Hnd) as Hp. split; [by rewrite Hp|]. intros d idx alg. rewrite Hp. split.
      + intros [Hx|Hx]%elem_of_app.
        * apply Hs in Hx as (cr & Hcr & [= -> -> ->]). exists cr. done.
        * apply Hr in Hx as (cr & Hcr & [= -> -> ->]). exists cr. done.
      + intros (cr & Hcr & -> & ->). destruct d; [by apply Hs'|by apply Hr'].
  Qed.
End Config.

(** ** Openings *)
Section Openings.
  Context (arrange : list commit_item -> list commit_item) (hash : N -> list N -> list N).
  Local Notation prove_hashes := (prove_hashes hash).
  Local Notation sdk_reveal := (sdk_reveal arrange hash).

  (** [o] is made for entry [x]. *)
  Definition made_for (t : transcript) (x : commit_item) (o : opening) : Prop :=
    let '(d, idx, alg) := x in
    exists data, index_concat (t_data t d) idx = Ok data /\ op_hash o = hash alg (data ++ op_blinder o).

  Lemma prove_hashes_Ok t cs blinders hs ss o0 o :
    prove_hashes t cs blinders = Ok (hs, ss) ->
    length hs = length cs /\ length ss = length cs /\
    (pair_openings (combine hs ss) o0 = Ok o ->
     exists news, Forall2 (made_for t) cs news /\
       forall d, openings_of d o = openings_of d o0 ++
         map snd (filter (fun y : commit_item * opening => y.1.1.1 = d) (combine cs news))).
  Proof.
    revert blinders hs ss o0. induction cs as [|[[d idx] alg] cs IH]; intros blinders hs ss o0;
      cbn [SdkModel.prove_hashes].
    - intros [= <- <-]. split_and!; [done|done|]. simpl. intros [= <-].
      exists []. split; [constructor|]. intros d. simpl. by rewrite app_nil_r.
    - intros (b & Hb & H)%obind_Ok. apply obind_Ok in H as (data & Hdata & H).
      apply obind_Ok in H as ([hs' ss'] & Hrec & [= <- <-]).
      destruct (IH _ _ _ o0 Hrec) as (Hl1 & Hl2 & _). split_and!; [simpl; lia|simpl; lia|].
      cbn [combine pair_openings ph_dir hs_dir ph_idx hs_idx].
      rewrite !bool_decide_eq_true_2 by done. simpl. intros Hp.
      match type of Hp with pair_openings _ ?o1 = _ => destruct (IH _ _ _ o1 Hrec) as (_ & _ & Hx) end.
      destruct (Hx Hp) as (news & Hf & Hd). clear Hx.
      exists (Opening (hash alg (data ++ b)) b :: news). split.
      { constructor; [|done]. simpl. exists data. done. }
      intros d'. rewrite Hd. cbn [combine]. rewrite filter_cons. simpl.
      destruct (decide (d = d')) as [->|Hne].
      + destruct d'; simpl; by rewrite <- app_assoc.
      + destruct d, d'; simpl; done.
  Qed.

  Lemma sdk_reveal_items t rv cm blinders c o :
    sdk_reveal t rv cm blinders = Ok (c, o) ->
    sdk_prove_config arrange t rv cm = Ok c /\
    exists news, Forall2 (made_for t) (default [] (pc_commit c)) news /\
      forall d, openings_of d o =
        map snd (filter (fun y : commit_item * opening => y.1.1.1 = d) (combine (default [] (pc_commit c)) news)).
  Proof.
    unfold SdkModel.sdk_reveal. intros (c' & Hc & H)%obind_Ok.
    destruct (prove_hashes t _ blinders) as [[hs ss]|[]|] eqn:Hph; [|done].
    apply obind_Ok in H as (o' & Ho & [= -> ->]). split; [done|].
    unfold build_reveal_output in Ho.
    destruct (prove_hashes_Ok _ _ _ _ _ (Openings [] []) o Hph) as (Hl1 & Hl2 & Hx).
    destruct (negb _); [done|]. destruct (Hx Ho) as (news & Hf & Hd).
    exists news. split; [done|]. intros d. rewrite Hd. by destruct d.
  Qed.

  Lemma index_concat_single data a b x :
    index_concat data (rs_from [(a, b)]) = Ok x -> x = take (b - a) (drop a data).
  Proof.
    unfold rs_from, rs_add; simpl. destruct (a <? b) eqn:E; simpl.
    - intros (s & Hs%or_panic_Ok & [= <-])%obind_Ok. apply slice_inv in Hs as (_ & _ & -> & _).
      by rewrite app_nil_r.
    - intros [= <-]. replace (b - a) with 0 by lia. done.
  Qed.
  Lemma made_for_opens t d cr o : made_for t (item_of d cr) o -> opens hash t d cr o.
  Proof. intros (data & Hd & Ho). apply index_concat_single in Hd as ->. exact Ho. Qed.

  Lemma in_openings t cs news d :
    Forall2 (made_for t) cs news ->
    (forall o, o ∈ map snd (filter (fun y : commit_item * opening => y.1.1.1 = d) (combine cs news)) ->
       exists idx alg, (d, idx, alg) ∈ cs /\ made_for t (d, idx, alg) o) /\
    (forall idx alg, (d, idx, alg) ∈ cs ->
       exists o, o ∈ map snd (filter (fun y : commit_item * opening => y.1.1.1 = d) (combine cs news)) /\
                 made_for t (d, idx, alg) o).
  Proof.
    induction 1 as [|x o cs news Hm Hf [IH1 IH2]]; cbn [combine].
    - split; [intros o Ho; by apply elem_of_nil in Ho|intros idx alg Hx; by apply elem_of_nil in Hx].
    - rewrite filter_cons. destruct x as [[d' idx'] alg']. split.
      + intros o' Ho. cbn [fst] in Ho.
        destruct (decide (d' = d)) as [->|]; [|destruct (IH1 o' Ho) as (i & a & ? & ?); exists i, a; split; [by apply elem_of_list_further|done]].
        cbn [map snd] in Ho. apply elem_of_cons in Ho as [->|Ho].
        * exists idx', alg'. split; [apply elem_of_list_here|done].
        * destruct (IH1 o' Ho) as (i & a & ? & ?). exists i, a. split; [by apply elem_of_list_further|done].
      + intros idx alg [[= <- <- <-]|Hin]%elem_of_cons.
        * exists o. split; [|done]. cbn [fst]. rewrite decide_True by done. apply elem_of_list_here.
        * destruct (IH2 _ _ Hin) as (o' & Ho' & Hm'). exists o'. split; [|done]. cbn [fst].
          case_decide; [by apply elem_of_list_further|done].
  Qed.

  (** Every requested range has an opening, and every opening opens a requested range. *)
  Lemma openings_complete t rv cm blinders c o :
    iterates arrange -> sdk_reveal t rv cm blinders = Ok (c, o) ->
    forall d,
      (forall cr, cr ∈ committed_ranges d cm -> exists x, x ∈ openings_of d o /\ opens hash t d cr x) /\
      (forall x, x ∈ openings_of d o -> exists cr, cr ∈ committed_ranges d cm /\ opens hash t d cr x).
  Proof.
    intros Hit H d. apply sdk_reveal_items in H as (Hc & news & Hf & Hd).
    destruct (prove_config_commits _ _ _ _ _ Hit Hc) as [_ Hin].
    destruct (in_openings _ _ _ d Hf) as [H1 H2]. rewrite Hd. split.
    - intros cr Hcr. destruct (H2 (rs_from [(cr_start cr, cr_end cr)]) (alg_id_of (cr_alg cr))) as (x & Hx & Hm).
      { apply Hin. eauto. }
      exists x. split; [done|]. by apply made_for_opens.
    - intros x Hx. destruct (H1 x Hx) as (idx & alg & Hi & Hm).
      apply Hin in Hi as (cr & Hcr & -> & ->). exists cr. split; [done|]. by apply made_for_opens.
  Qed.

  Lemma filter_length_items t cs news d :
    Forall2 (made_for t) cs news ->
    length (filter (fun y : commit_item * opening => y.1.1.1 = d) (combine cs news)) =
    length (filter (fun x : commit_item => x.1.1 = d) cs).
  Proof.
    induction 1 as [|x o cs news _ _ IH]; [done|]. cbn [combine]. rewrite !filter_cons.
    cbn [fst]. case_decide; simpl; [by rewrite IH|done].
  Qed.

  Lemma openings_count t rv cm blinders c o :
    iterates arrange -> sdk_reveal t rv cm blinders = Ok (c, o) ->
    forall d, length (openings_of d o) = length (remove_dups (map (item_of d) (committed_ranges d cm))).
  Proof.
    intros Hit H d. apply sdk_reveal_items in H as (Hc & news & Hf & Hd).
    destruct (prove_config_commits _ _ _ _ _ Hit Hc) as [Hnd Hin].
    rewrite Hd, map_length, (filter_length_items t) by done.
    apply Permutation_length. apply NoDup_Permutation.
    - by apply NoDup_filter.
    - apply NoDup_remove_dups.
    - intros [[d' idx] alg]. rewrite elem_of_list_filter, elem_of_remove_dups. cbn [fst].
      change (map (item_of d)) with (fmap (M:=list) (item_of d)). rewrite elem_of_list_fmap. split.
      + intros [-> (cr & Hcr & -> & ->)%Hin]. exists cr. done.
      + intros (cr & [= -> -> ->] & Hcr). split; [done|]. apply Hin. eauto.
  Qed.

  Lemma openings_single t rv cm blinders c o d cr :
    iterates arrange -> sdk_reveal t rv cm blinders = Ok (c, o) ->
    committed_ranges d cm = [cr] ->
    exists x, openings_of d o = [x] /\ opens hash t d cr x.
  Proof.
    intros Hit H Hone. pose proof (openings_count _ _ _ _ _ _ Hit H d) as Hlen.
    rewrite Hone in Hlen. change (map (item_of d) [cr]) with [item_of d cr] in Hlen.
    assert (length (remove_dups [item_of d cr]) = 1) as E.
    { cbn [remove_dups]. destruct (decide_rel _ _ _) as [Hx|_]; [by apply elem_of_nil in Hx|done]. }
    rewrite E in Hlen. destruct (openings_of d o) as [|x [|]] eqn:Eo; try (simpl in Hlen; lia).
    exists x. split; [done|].
    destruct (openings_complete _ _ _ _ _ _ Hit H d) as [_ H2].
    destruct (H2 x) as (cr' & Hcr' & Hop); [rewrite Eo; apply elem_of_list_here|].
    rewrite Hone in Hcr'. by apply elem_of_list_singleton in Hcr' as ->.
  Qed.
End Openings.

(** If the set were iterated in the order of insertion, and no request were repeated, the openings
    would come in the order of the requests. *)
Section Ordered.
  Context (hash : N -> list N -> list N).
  Lemma commit_all_ordered t d crs s s' :
    commit_all t d crs s = Ok s' -> NoDup (s ++ map (item_of d) crs) -> s' = s ++ map (item_of d) crs.
  Proof.
    revert s. induction crs as [|c crs IH]; intros s; cbn [commit_all].
    - intros [= <-] _. simpl. by rewrite app_nil_r.
    - intros (s1 & H1 & H2)%obind_Ok Hnd. unfold commit_inner in H1.
      destruct (t_len t d <? _); [done|]. injection H1 as <-. fold (item_of d c) in H2.
      rewrite bool_decide_eq_false_2 in H2.
      + cbn [map]. rewrite cons_middle, app_assoc. apply IH; [done|]. cbn [map] in Hnd.
        by rewrite cons_middle, app_assoc in Hnd.
      + intros Hin. apply NoDup_app in Hnd as (_ & Hd & _). apply (Hd _ Hin). simpl. apply elem_of_list_here.
  Qed.

  Lemma ordered_filter t d (crs : list commit_range) news :
    Forall2 (made_for hash t) (map (item_of d) crs) news ->
    (forall d', map snd (filter (fun y : commit_item * opening => y.1.1.1 = d') (combine (map (item_of d) crs) news)) =
      if decide (d' = d) then news else []) /\
    Forall2 (opens hash t d) crs news.
  Proof.
    revert news. induction crs as [|c crs IH]; intros news; cbn [map].
    - intros ->%Forall2_nil_inv_l. split; [|constructor]. intros d'. simpl. by case_decide.
    - intros (o & news' & Hm & Hf & ->)%Forall2_cons_inv_l. destruct (IH _ Hf) as [H1 H2]. split.
      + intros d'. specialize (H1 d'). cbn [combine]. rewrite filter_cons. cbn [fst item_of].
        destruct (decide (d' = d)) as [->|Hne].
        * rewrite decide_True by done. cbn [map snd]. by rewrite H1.
        * rewrite decide_False by done. exact H1.
      + constructor; [by apply made_for_opens|done].
  Qed.

  Lemma combine_app_filter t d d' (c1 c2 : list commit_range) news :
    Forall2 (made_for hash t) (map (item_of d) c1 ++ map (item_of d') c2) news -> d <> d' ->
    Forall2 (opens hash t d) c1
      (map snd (filter (fun y : commit_item * opening => y.1.1.1 = d)
        (combine (map (item_of d) c1 ++ map (item_of d') c2) news))) /\
    Forall2 (opens hash t d') c2
      (map snd (filter (fun y : commit_item * opening => y.1.1.1 = d')
        (combine (map (item_of d) c1 ++ map (item_of d') c2) news))).
  Proof.
    intros Hf Hne. apply Forall2_app_inv_l in Hf as (n1 & n2 & Hf1 & Hf2 & ->).
    assert (combine (map (item_of d) c1 ++ map (item_of d') c2) (n1 ++ n2) =
            combine (map (item_of d) c1) n1 ++ combine (map (item_of d') c2) n2) as ->.
    { clear Hf2. apply Forall2_length in Hf1. revert n1 Hf1. induction (map (item_of d) c1) as [|x l IH]; intros [|y n1]; try done.
      simpl. intros [= Hl]. by rewrite IH. }
    rewrite !filter_app. change (map snd (?x ++ ?y)) with (map snd (x ++ y)).
    rewrite !map_app.
    destruct (ordered_filter _ _ _ _ Hf1) as [A1 A2]. destruct (ordered_filter _ _ _ _ Hf2) as [B1 B2].
    rewrite !A1, !B1. rewrite (decide_True _ _ (eq_refl d)), (decide_True _ _ (eq_refl d')).
    rewrite !decide_False by done. by rewrite app_nil_r.
  Qed.

  Lemma openings_ordered t rv cm blinders c o :
    sdk_reveal (fun s => s) hash t rv cm blinders = Ok (c, o) ->
    (forall d, NoDup (map (item_of d) (committed_ranges d cm))) ->
    forall d, Forall2 (opens hash t d) (committed_ranges d cm) (openings_of d o).
  Proof.
    intros H Hnd. apply sdk_reveal_items in H as (Hc & news & Hf & Hd).
    unfold sdk_prove_config in Hc. apply obind_Ok in Hc as (b1 & _ & Hc).
    apply obind_Ok in Hc as (b2 & _ & Hc). apply obind_Ok in Hc as (cc & Hcc & [= <-]). cbn [pc_commit] in *.
    destruct cm as [k|].
    - apply obind_Ok in Hcc as (s1 & H1 & Hcc). apply obind_Ok in Hcc as (s2 & H2 & [= <-]).
      apply commit_all_ordered in H1; [|exact (Hnd Sent)]. simpl in H1. subst s1.
      apply commit_all_ordered in H2.
      2:{ apply NoDup_app. split_and!; [exact (Hnd Sent)| |exact (Hnd Received)].
          change (map (item_of ?d)) with (fmap (M:=list) (item_of d)).
          intros x (a & -> & _)%elem_of_list_fmap (b & Hx & _)%elem_of_list_fmap. discriminate Hx. }
      subst s2. cbn [default] in *. apply combine_app_filter in Hf as [Hs Hr]; [|done].
      intros []; rewrite Hd; [exact Hs|exact Hr].
    - injection Hcc as <-. cbn [default] in *. intros d. rewrite Hd.
      apply Forall2_nil_inv_l in Hf as ->. constructor.
  Qed.
End Ordered.
