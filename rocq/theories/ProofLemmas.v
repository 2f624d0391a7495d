(** Lemmas for C07-C12. *)
From Verif.Lib Require Import Base Ranges RangesFacts.
From Verif Require Import TranscriptModel TranscriptProofs TranscriptSpec TranscriptLemmas
  ProofModel ProofSpec.

(** ** C07 *)
Lemma elem_of_set_insert {A} `{EqDecision A} (x y : A) l : y ∈ set_insert x l <-> y = x \/ y ∈ l.
Proof.
  unfold set_insert. case_bool_decide as H.
  - split; [tauto|]. intros [->|?]; done.
  - apply elem_of_cons.
Qed.
Lemma NoDup_set_insert {A} `{EqDecision A} (x : A) l : NoDup l -> NoDup (set_insert x l).
Proof. unfold set_insert. case_bool_decide; [done|]. by constructor. Qed.

(** What a call adds, given the default kind at the time. *)
Definition cfg_call_entry (t : transcript) (def : alg_id) (c : cfg_call) : option commit_entry :=
  match c with
  | CfgDefault _ => None
  | CfgCommit r d => if bool_decide (rs_end (rs_from r) <= t_len t d) then Some (d, rs_from r, def) else None
  | CfgCommitKind r d a => if bool_decide (rs_end (rs_from r) <= t_len t d) then Some (d, rs_from r, a) else None
  end.
Lemma cfg_commit_inner_spec b idx d a :
  cfg_commit_inner b idx d a =
  if bool_decide (rs_end idx <= t_len (cb_transcript b) d)
  then Some (CfgBuilder (cb_transcript b) (cb_default b) (set_insert (d, idx, a) (cb_commits b)))
  else None.
Proof.
  unfold cfg_commit_inner. destruct (Nat.ltb_spec (t_len (cb_transcript b) d) (rs_end idx));
  case_bool_decide; try lia; done.
Qed.
Lemma cfg_step_transcript b c : cb_transcript (cfg_step b c) = cb_transcript b.
Proof.
  destruct c; simpl; unfold cfg_commit, cfg_commit_with_kind; rewrite ?cfg_commit_inner_spec; try done;
    by case_bool_decide.
Qed.
Lemma cfg_step_default b c : cb_default (cfg_step b c) = default_after (cb_default b) c.
Proof.
  destruct c; simpl; unfold cfg_commit, cfg_commit_with_kind; rewrite ?cfg_commit_inner_spec; try done;
    by case_bool_decide.
Qed.
Lemma cfg_step_commits b c e :
  e ∈ cb_commits (cfg_step b c) <->
  e ∈ cb_commits b \/ cfg_call_entry (cb_transcript b) (cb_default b) c = Some e.
Proof.
  destruct c; simpl; unfold cfg_commit, cfg_commit_with_kind; rewrite ?cfg_commit_inner_spec.
  - split; [tauto|]. intros [?|?]; done.
  - case_bool_decide; simpl; [rewrite elem_of_set_insert|].
    + split; [intros [->|?]; tauto|]. intros [?|[= <-]]; tauto.
    + split; [tauto|]. intros [?|?]; done.
  - case_bool_decide; simpl; [rewrite elem_of_set_insert|].
    + split; [intros [->|?]; tauto|]. intros [?|[= <-]]; tauto.
    + split; [tauto|]. intros [?|?]; done.
Qed.
Lemma cfg_step_NoDup b c : NoDup (cb_commits b) -> NoDup (cb_commits (cfg_step b c)).
Proof.
  intros H. destruct c; simpl; unfold cfg_commit, cfg_commit_with_kind; rewrite ?cfg_commit_inner_spec; try done;
    case_bool_decide; simpl; try done; by apply NoDup_set_insert.
Qed.

Section CfgRun.
  Context (t : transcript).
  Lemma cfg_run_snoc cs c : cfg_run t (cs ++ [c]) = cfg_step (cfg_run t cs) c.
  Proof. unfold cfg_run. by rewrite fold_left_app. Qed.
  Lemma cfg_run_transcript cs : cb_transcript (cfg_run t cs) = t.
  Proof. induction cs as [|c cs IH] using rev_ind; [done|]. by rewrite cfg_run_snoc, cfg_step_transcript. Qed.
  Lemma cfg_run_NoDup cs : NoDup (cb_commits (cfg_run t cs)).
  Proof.
    induction cs as [|c cs IH] using rev_ind; [constructor|]. rewrite cfg_run_snoc. by apply cfg_step_NoDup.
  Qed.
  Lemma cfg_run_default cs : cb_default (cfg_run t cs) = fold_left default_after cs BLAKE3.
  Proof.
    induction cs as [|c cs IH] using rev_ind; [done|].
    rewrite cfg_run_snoc, cfg_step_default, IH. by rewrite fold_left_app.
  Qed.
  Lemma cfg_run_commits cs e : e ∈ cb_commits (cfg_run t cs) <->
    exists pre c post, cs = pre ++ c :: post /\
      cfg_call_entry t (fold_left default_after pre BLAKE3) c = Some e.
  Proof.
    induction cs as [|c cs IH] using rev_ind.
    - split; [by intros ?%elem_of_nil|]. intros (pre & c & post & H & _). by destruct pre.
    - rewrite cfg_run_snoc, cfg_step_commits, IH, cfg_run_transcript, cfg_run_default. split.
      + intros [(pre & c' & post & -> & H)|H].
        * exists pre, c', (post ++ [c]). split; [|done]. by rewrite <-app_assoc.
        * by exists cs, c, [].
      + intros (pre & c' & post & H & He). destruct post as [|x post _] using rev_ind.
        * apply app_inj_tail in H as [-> ->]. by right.
        * left. rewrite app_comm_cons, app_assoc in H. apply app_inj_tail in H as [-> ->].
          by exists pre, c', post.
  Qed.
End CfgRun.

Lemma rs_from_end ranges n : rs_end (rs_from ranges) <= n <-> forall i, in_rs i ranges -> i < n.
Proof. rewrite rs_end_le_ok by apply rs_from_ok. by setoid_rewrite in_rs_from. Qed.

Lemma cfg_call_entry_args t def c e :
  cfg_call_entry t def c = Some e <->
  exists r d a, call_args def c = Some (r, d, a) /\ (forall i, in_rs i r -> i < t_len t d) /\
    e = (d, rs_from r, a).
Proof.
  split.
  - destruct c; simpl; try done; case_bool_decide as H; intros [= <-]; eexists _, _, _; split_and!; try done;
      by apply rs_from_end.
  - intros (r & d & a & Hc & Hb & ->). apply rs_from_end in Hb.
    destruct c; simpl in *; try done; injection Hc as <- <- <-; by rewrite bool_decide_true.
Qed.
Lemma C07_entries_lemma t cs cfg e : cfg_build (cfg_run t cs) cfg ->
  e ∈ cfg <-> exists pre c post r d a, cs = pre ++ c :: post /\
    call_args (fold_left default_after pre BLAKE3) c = Some (r, d, a) /\
    (forall i, in_rs i r -> i < t_len t d) /\ e = (d, rs_from r, a).
Proof.
  unfold cfg_build. intros ->. rewrite cfg_run_commits. split.
  - intros (pre & c & post & -> & (r & d & a & H)%cfg_call_entry_args). by exists pre, c, post, r, d, a.
  - intros (pre & c & post & r & d & a & -> & H). exists pre, c, post. split; [done|].
    apply cfg_call_entry_args. eauto.
Qed.
Lemma C07_bounds_lemma t cs cfg d idx a : cfg_build (cfg_run t cs) cfg ->
  (d, idx, a) ∈ cfg -> valid_idx (t_len t d) idx.
Proof.
  intros Hb. rewrite C07_entries_lemma by done. intros (_ & _ & _ & r & d' & a' & _ & _ & H & [= -> -> ->]).
  split; [apply rs_from_ok|]. intros i. rewrite in_rs_from. auto.
Qed.
Lemma C07_nodup_lemma t cs cfg : cfg_build (cfg_run t cs) cfg -> NoDup cfg.
Proof. unfold cfg_build. intros ->. apply cfg_run_NoDup. Qed.
Lemma C07_rejected_lemma b r d a :
  (cfg_commit_with_kind b r d a = None <-> exists i, in_rs i r /\ t_len (cb_transcript b) d <= i) /\
  (cfg_commit_with_kind b r d a = None -> cfg_step b (CfgCommitKind r d a) = b).
Proof.
  split; [|by simpl; intros ->].
  unfold cfg_commit_with_kind. rewrite cfg_commit_inner_spec. case_bool_decide as H.
  - split; [done|]. intros (i & Hi & Hl). apply rs_from_end with (i := i) in H; [lia|done].
  - split; [|done]. intros _.
    destruct (decide (Exists (fun i => t_len (cb_transcript b) d <= i) (rs_values r))) as [He|He].
    + apply Exists_exists in He as (i & Hi & ?). exists i. by rewrite <-in_rs_values.
    + exfalso. apply H, rs_from_end. intros i Hi%in_rs_values.
      destruct (decide (i < t_len (cb_transcript b) d)); [done|]. exfalso. apply He, Exists_exists.
      exists i. split; [done|lia].
Qed.
Lemma C07_request_lemma cfg : cfg_to_request cfg = cfg.
Proof. unfold cfg_to_request. induction cfg as [|[[d i] a] l IH]; simpl; [done|]. by rewrite IH. Qed.

(** ** C10 *)
Lemma rs_eq_iff x y : rs_ok x -> rs_ok y -> x = y <-> forall i, in_rs i x <-> in_rs i y.
Proof. intros. split; [by intros ->|by apply rs_ext]. Qed.

Lemma lift_panic_Ok {E A} (m : panicky A) (a : A) : lift_panic (E := E) m = Ok a <-> m = Ok a.
Proof. destruct m as [|[]|]; simpl; split; intros H; first [done|by injection H as ->]. Qed.

Lemma committed_union_ok d ss acc : rs_ok acc -> rs_ok (committed_union d ss acc).
Proof. revert acc. induction ss as [|s ss IH]; intros acc H; simpl; [done|]. apply IH. case_bool_decide; [by apply rs_union_ok|done]. Qed.
Lemma in_committed_union d ss acc i : rs_ok acc ->
  in_rs i (committed_union d ss acc) <-> in_rs i acc \/ exists s, s ∈ ss /\ sc_dir s = d /\ in_rs i (sc_idx s).
Proof.
  revert acc. induction ss as [|s ss IH]; intros acc H; simpl.
  - split; [tauto|]. intros [?|(s & Hs & _)]; [done|]. by apply elem_of_nil in Hs.
  - rewrite IH by (case_bool_decide; [by apply rs_union_ok|done]).
    case_bool_decide as Hd.
    + rewrite in_rs_union by done. split.
      * intros [[?|?]|(s' & ? & ?)]; [by left| |right].
        -- right. exists s. split; [left|done].
        -- exists s'. split; [by right|done].
      * intros [?|(s' & Hs' & ? & ?)]; [tauto|]. apply elem_of_cons in Hs' as [->|Hs']; [tauto|]. right. eauto.
    + split.
      * intros [?|(s' & ? & ?)]; [by left|right]. exists s'. split; [by right|done].
      * intros [?|(s' & Hs' & ? & ?)]; [tauto|]. apply elem_of_cons in Hs' as [->|Hs']; [done|]. right. eauto.
Qed.

Lemma verify_secrets_spec P cs p ss as_ ar :
  (forall s, s ∈ ss -> rs_ok (sc_idx s)) ->
  ((forall s, s ∈ ss -> opening_ok P cs p s) /\
   verify_secrets P cs p ss as_ ar = Ok (committed_union Sent ss as_, committed_union Received ss ar)) \/
  (~ (forall s, s ∈ ss -> opening_ok P cs p s) /\ verify_secrets P cs p ss as_ ar = Err HashError).
Proof.
  revert as_ ar. induction ss as [|s ss IH]; intros as_ ar Hok.
  - left. split; [|done]. by intros s ?%elem_of_nil.
  - simpl. assert (Hs : rs_ok (sc_idx s)) by (apply Hok; left).
    destruct (P (sc_alg s)) as [h|] eqn:Eh.
    2:{ right. split; [|done]. intros H. destruct (H s) as (h & msg & ? & _); [left|]. congruence. }
    destruct (Nat.ltb_spec (length (p_data p (sc_dir s))) (rs_end (sc_idx s))) as [Hlt|Hge].
    { right. split; [|done]. intros H. destruct (H s) as (h' & msg & _ & Hv & _); [left|].
      apply valid_idx_end in Hv as [_ ?]. lia. }
    destruct (index_concat_ok (p_data p (sc_dir s)) (sc_idx s)) as [bs Hbs]; [by eapply rs_ok_bounded|].
    rewrite Hbs. simpl.
    assert (Hopen : opened_message (p_data p (sc_dir s)) s (bs ++ sc_blinder s)).
    { exists bs. split; [|done]. apply bytes_at_of_values; [done|]. by apply index_concat_spec. }
    case_bool_decide as Hin.
    + assert (Hthis : opening_ok P cs p s).
      { exists h, (bs ++ sc_blinder s). split_and!; [done|by apply valid_idx_end|done|exact Hin]. }
      assert (Hcons : (forall s0, s0 ∈ s :: ss -> opening_ok P cs p s0) <-> (forall s0, s0 ∈ ss -> opening_ok P cs p s0)).
      { split; [intros H s0 ?; apply H; by right|]. intros H s0 [->|?]%elem_of_cons; auto. }
      rewrite Hcons.
      assert (Hok' : forall s0, s0 ∈ ss -> rs_ok (sc_idx s0)) by (intros; apply Hok; by right).
      destruct (sc_dir s) eqn:Ed; simpl; apply IH; done.
    + right. split; [|done]. intros H. destruct (H s) as (h' & msg & Eh' & _ & (bs' & Hbs' & ->) & Hin'); [left|].
      rewrite Eh in Eh'. injection Eh' as <-.
      destruct Hopen as (bs'' & Hb'' & Heq). apply app_inj_tail_iff in Heq || idtac.
      assert (bs' = bs) as ->.
      { eapply bytes_at_det; [exact Hbs'|]. apply bytes_at_of_values; [done|]. by apply index_concat_spec. }
      done.
Qed.

Lemma verify_tproof_spec P len cs pr :
  (forall s, s ∈ tp_secrets pr -> rs_ok (sc_idx s)) ->
  (forall d, rs_ok (p_idx (tp_transcript pr) d)) ->
  (proof_accepts P len cs pr /\ verify_tproof P len cs pr = Ok (tp_transcript pr)) \/
  (~ proof_accepts P len cs pr /\ exists e, verify_tproof P len cs pr = Err e).
Proof.
  intros Hs Hp. unfold verify_tproof, proof_accepts.
  destruct (N.eqb_spec (N.of_nat (length (p_sent (tp_transcript pr)))) (tl_sent len)) as [E1|E1]; simpl.
  2:{ right. split; [tauto|eauto]. }
  destruct (N.eqb_spec (N.of_nat (length (p_recv (tp_transcript pr)))) (tl_recv len)) as [E2|E2]; simpl.
  2:{ right. split; [tauto|eauto]. }
  destruct (verify_secrets_spec P cs (tp_transcript pr) (tp_secrets pr) [] [] Hs) as [[Ho ->]|[Ho ->]]; simpl.
  2:{ right. split; [tauto|eauto]. }
  assert (Hidx : forall d,
     (committed_union d (tp_secrets pr) [] = p_idx (tp_transcript pr) d <->
      forall i, in_rs i (p_idx (tp_transcript pr) d) <->
        exists s, s ∈ tp_secrets pr /\ sc_dir s = d /\ in_rs i (sc_idx s))).
  { intros d. rewrite rs_eq_iff by (try apply committed_union_ok; done).
    setoid_rewrite in_committed_union; [|done]. setoid_rewrite in_rs_nil.
    split; intros H i; specialize (H i); tauto. }
  pose proof (Hidx Sent) as H1. pose proof (Hidx Received) as H2. simpl in H1, H2.
  unfold rs_eqb. case_bool_decide as B1; simpl; [case_bool_decide as B2; simpl|].
  - left. split_and!; try done. intros []; simpl; [by apply H1|by apply H2].
  - right. split; [|eauto]. intros (_ & _ & _ & H). apply B2, H2, (H Received).
  - right. split; [|eauto]. intros (_ & _ & _ & H). apply B1, H1, (H Sent).
Qed.
Lemma C10_lemma P len cs pr q :
  (forall s, s ∈ tp_secrets pr -> rs_ok (sc_idx s)) ->
  (forall d, rs_ok (p_idx (tp_transcript pr) d)) ->
  (verify_tproof P len cs pr = Ok q <-> q = tp_transcript pr /\ proof_accepts P len cs pr) /\
  (~ proof_accepts P len cs pr -> exists e, verify_tproof P len cs pr = Err e).
Proof.
  intros Hs Hp. destruct (verify_tproof_spec P len cs pr Hs Hp) as [[Ha ->]|[Ha [e ->]]].
  - split; [|done]. split; [by intros [= <-]|by intros [-> _]].
  - split; [|eauto]. split; [done|]. by intros [_ ?].
Qed.

(** ** C09 *)
Lemma bytes_at_agree data data' idx bs : bytes_at data idx bs -> bytes_at data' idx bs ->
  forall i, in_rs i idx -> data !! i = data' !! i /\ exists b, data !! i = Some b.
Proof.
  intros (ps & Hs & Hm & H1) (qs & Hs' & Hm' & H2) i Hi.
  assert (ps = qs) as -> by (apply sorted_lt_unique; [done..|]; intros j; by rewrite Hm, Hm').
  apply Hm', elem_of_list_lookup in Hi as [k Hk].
  destruct (Forall2_lookup_l _ _ _ _ _ H1 Hk) as (x & Hx & Hx1).
  destruct (Forall2_lookup_l _ _ _ _ _ H2 Hk) as (y & Hy & Hy1). split; [congruence|eauto].
Qed.
Lemma bytes_at_length data data' idx bs bs' :
  bytes_at data idx bs -> bytes_at data' idx bs' -> length bs = length bs'.
Proof.
  intros (ps & Hs & Hm & H1) (qs & Hs' & Hm' & H2).
  assert (ps = qs) as -> by (apply sorted_lt_unique; [done..|]; intros j; by rewrite Hm, Hm').
  apply Forall2_length in H1, H2. congruence.
Qed.

Lemma C09_lemma P t os cs len pr p :
  provider_ok P -> honest_commitments P t os cs ->
  (forall s, s ∈ tp_secrets pr -> secret_ok s) -> (forall o, o ∈ os -> secret_ok o) ->
  (forall d, rs_ok (p_idx (tp_transcript pr) d)) ->
  verify_tproof P len cs pr = Ok p ->
  N.of_nat (length (p_sent p)) = tl_sent len /\ N.of_nat (length (p_recv p)) = tl_recv len /\
  ((forall d i, in_rs i (p_idx p d) -> exists b, p_data p d !! i = Some b /\ t_data t d !! i = Some b)
   \/ opening_collision P t os pr).
Proof.
  intros HP Hh Hs Ho Hp Hv.
  apply C10_lemma in Hv as (-> & L1 & L2 & Hop & Hidx); [|intros; by apply Hs|done].
  split_and!; [done..|].
  set (p := tp_transcript pr) in *.
  assert (Hall : (forall s, s ∈ tp_secrets pr -> forall i, in_rs i (sc_idx s) ->
             exists b, p_data p (sc_dir s) !! i = Some b /\ t_data t (sc_dir s) !! i = Some b)
            \/ opening_collision P t os pr).
  { assert (Hone : forall s, s ∈ tp_secrets pr ->
             (forall i, in_rs i (sc_idx s) ->
               exists b, p_data p (sc_dir s) !! i = Some b /\ t_data t (sc_dir s) !! i = Some b)
             \/ opening_collision P t os pr).
    { intros s Hin. destruct (Hop s Hin) as (h & x & Eh & Hval & Hx & Hc).
      apply Hh in Hc as (o & Hoin & (h' & y & Eh' & Hy & Heq)). injection Heq as Ed Ei Ea Ehash.
      assert (h' = h) as ->. { rewrite (HP _ _ Eh) in Ea. rewrite <-Ea in Eh'. congruence. }
      destruct (decide (x = y)) as [->|Hne].
      - left. destruct Hx as (bs & Hbs & ->), Hy as (bs' & Hbs' & Happ).
        rewrite <-Ei, <-Ed in Hbs'.
        pose proof (bytes_at_length _ _ _ _ _ Hbs Hbs') as Hlen.
        apply app_inj_1 in Happ as [-> _]; [|done].
        intros i Hi. destruct (bytes_at_agree _ _ _ _ Hbs Hbs' i Hi) as [Hag [b Hb]].
        exists b. split; [done|]. by rewrite <-Hag.
      - right. exists s, o, h, x, y. split_and!; done. }
    clear -Hone. induction (tp_secrets pr) as [|s ss IH] in Hone |- *.
    - left. by intros s ?%elem_of_nil.
    - destruct (Hone s) as [H1|]; [left| |by right].
      destruct IH as [H2|]; [intros; apply Hone; by right| |by right].
      left. intros s' [->|?]%elem_of_cons; auto. }
  destruct Hall as [Hall|]; [left|by right].
  intros d i (s & Hin & <- & Hi)%Hidx. by apply Hall.
Qed.

(** ** C08 *)
Lemma dedup_kinds_elem seen ks a : a ∈ dedup_kinds seen ks <-> a ∈ ks /\ a ∉ seen.
Proof.
  revert seen. induction ks as [|k ks IH]; intros seen; simpl.
  - split; [by intros ?%elem_of_nil|]. by intros [?%elem_of_nil _].
  - case_bool_decide as Hk.
    + rewrite IH, elem_of_cons. split; [tauto|]. intros [[->|?] ?]; tauto.
    + rewrite !elem_of_cons, IH, not_elem_of_cons. split.
      * intros [->|[? [? ?]]]; tauto.
      * intros [[->|?] ?]; [tauto|]. destruct (decide (a = k)); tauto.
Qed.
Lemma dedup_kinds_NoDup seen ks : NoDup (dedup_kinds seen ks).
Proof.
  revert seen. induction ks as [|k ks IH]; intros seen; simpl; [constructor|].
  case_bool_decide; [apply IH|]. constructor; [|apply IH]. rewrite dedup_kinds_elem, elem_of_cons. tauto.
Qed.
Lemma dedup_kinds_sublist seen ks : sublist (dedup_kinds seen ks) ks.
Proof.
  revert seen. induction ks as [|k ks IH]; intros seen; simpl; [constructor|].
  case_bool_decide; constructor; apply IH.
Qed.

Definition tb_inv (t : transcript) (ss : list secret) (b : tp_builder) : Prop :=
  tb_transcript b = t /\ tb_secrets b = ss /\
  tb_committed_sent b = committed_union Sent ss [] /\ tb_committed_recv b = committed_union Received ss [] /\
  (forall d, rs_ok (tb_query b d)).
Lemma tb_new_inv t ss : tb_inv t ss (tb_new t ss).
Proof. unfold tb_inv. simpl. split_and!; try done. by intros []. Qed.
Lemma tb_set_kinds_inv t ss b ks : tb_inv t ss b -> tb_inv t ss (tb_set_kinds b ks).
Proof. by destruct ks. Qed.

Lemma tb_reveal_spec t ss b r d : tb_inv t ss b ->
  (revealable t ss r d /\ exists b', tb_reveal b r d = Ok b' /\ tb_inv t ss b' /\ tb_kinds b' = tb_kinds b /\
     forall d', tb_query b' d' = if decide (d' = d) then rs_union (tb_query b d') (rs_from r) else tb_query b d') \/
  (~ revealable t ss r d /\ exists e, tb_reveal b r d = Err e).
Proof.
  intros (Et & Es & E1 & E2 & Hq). unfold tb_reveal, tb_reveal_inner, revealable. rewrite Et.
  destruct (Nat.ltb_spec (t_len t d) (rs_end (rs_from r))) as [Hlt|Hge].
  { right. split; [|eauto]. intros H.
    assert (rs_end (rs_from r) <= t_len t d); [|lia]. apply rs_from_end. intros i Hi. by apply H. }
  assert (Hcm : match d with Sent => tb_committed_sent b | Received => tb_committed_recv b end
                = committed_union d ss []) by (by destruct d).
  rewrite Hcm.
  destruct (rs_subset (rs_from r) (committed_union d ss [])) eqn:Hsub.
  - left. rewrite rs_subset_spec in Hsub by apply rs_from_ok. split.
    + intros i Hi. split; [by apply rs_from_end with (i := i) in Hge|].
      apply in_rs_from, Hsub, in_committed_union in Hi as [Hi|?]; [by apply in_rs_nil in Hi|done|done].
    + pose proof (Hq Sent) as Q1. pose proof (Hq Received) as Q2. simpl in *.
      destruct d; (eexists; split_and!; [done| |done|]).
      * unfold tb_inv; simpl; split_and!; try done. intros []; simpl; [by apply rs_union_ok|done].
      * by intros [].
      * unfold tb_inv; simpl; split_and!; try done. intros []; simpl; [done|by apply rs_union_ok].
      * by intros [].
  - right. split; [|eauto]. intros H.
    assert (rs_subset (rs_from r) (committed_union d ss []) = true); [|congruence].
    apply rs_subset_spec; [apply rs_from_ok|]. intros i Hi. rewrite in_rs_from in Hi.
    apply in_committed_union; [done|]. right. by apply (H i Hi).
Qed.
Lemma tb_step_inv t ss b c : tb_inv t ss b -> tb_inv t ss (tb_step b c).
Proof.
  intros H. destruct c as [ks|r d]; simpl; [by apply tb_set_kinds_inv|].
  destruct (tb_reveal_spec t ss b r d H) as [[_ (b' & -> & ? & _)]|[_ [e ->]]]; done.
Qed.
Lemma tb_step_query t ss b c d i : tb_inv t ss b ->
  in_rs i (tb_query (tb_step b c) d) <->
  in_rs i (tb_query b d) \/ exists r, c = TBReveal r d /\ revealable t ss r d /\ in_rs i r.
Proof.
  intros H. destruct c as [ks|r d']; simpl.
  - split; [by destruct ks, d; simpl; tauto|]. intros [?|(r & [=] & _)]. by destruct ks, d.
  - pose proof H as (_ & _ & _ & _ & Hq).
    destruct (tb_reveal_spec t ss b r d' H) as [[Hr (b' & -> & _ & _ & Hb')]|[Hr [e ->]]].
    + rewrite Hb'. case_decide as Hd.
      * subst. rewrite in_rs_union, in_rs_from by done. split.
        -- intros [?|?]; [tauto|]. right. eauto.
        -- intros [?|(r' & [= <-] & _ & ?)]; tauto.
      * split; [tauto|]. intros [?|(r' & [= -> ->] & _)]; done.
    + split; [tauto|]. intros [?|(r' & [= -> ->] & ? & _)]; done.
Qed.
Lemma tb_run_snoc t ss cs c : tb_run t ss (cs ++ [c]) = tb_step (tb_run t ss cs) c.
Proof. unfold tb_run. by rewrite fold_left_app. Qed.
Lemma tb_run_inv t ss cs : tb_inv t ss (tb_run t ss cs).
Proof.
  induction cs as [|c cs IH] using rev_ind; [apply tb_new_inv|]. rewrite tb_run_snoc. by apply tb_step_inv.
Qed.
Lemma tb_run_query t ss cs d i :
  in_rs i (tb_query (tb_run t ss cs) d) <->
  exists r, TBReveal r d ∈ cs /\ revealable t ss r d /\ in_rs i r.
Proof.
  induction cs as [|c cs IH] using rev_ind.
  - split; [destruct d; by intros ?%in_rs_nil|]. by intros (r & ?%elem_of_nil & _).
  - rewrite tb_run_snoc, (tb_step_query t ss) by apply tb_run_inv. rewrite IH. split.
    + intros [(r & ? & ?)|(r & -> & ?)]; exists r; rewrite elem_of_app, elem_of_list_singleton; tauto.
    + intros (r & Hr & ?). rewrite elem_of_app, elem_of_list_singleton in Hr. destruct Hr as [?|?]; [left|right]; eauto.
Qed.
Lemma tb_run_query_valid t ss cs d : valid_idx (t_len t d) (tb_query (tb_run t ss cs) d).
Proof.
  pose proof (tb_run_inv t ss cs) as (_ & _ & _ & _ & Hq). split; [apply Hq|].
  intros i (r & _ & Hr & Hi)%tb_run_query. by apply Hr.
Qed.
Lemma C08_call_lemma t ss cs r d :
  (revealable t ss r d -> exists b', tb_reveal (tb_run t ss cs) r d = Ok b') /\
  (~ revealable t ss r d -> (exists e, tb_reveal (tb_run t ss cs) r d = Err e) /\
     tb_step (tb_run t ss cs) (TBReveal r d) = tb_run t ss cs).
Proof.
  pose proof (tb_run_inv t ss cs) as Hinv.
  destruct (tb_reveal_spec t ss _ r d Hinv) as [[Hr (b' & E & _)]|[Hr [e E]]].
  - split; [eauto|done].
  - split; [done|]. intros _. split; [eauto|]. simpl. by rewrite E.
Qed.

(** ** C11 / C12 : the cover loop *)
Section Cover.
  Context (cover : cover_fn) (Hcover : cover_ok cover).
  Context (ss : list secret) (Hss : forall s, s ∈ ss -> rs_ok (sc_idx s)).

  Lemma cover_loop_spec kinds us ur acc hs us' ur' :
    rs_ok us -> rs_ok ur ->
    cover_loop cover ss kinds us ur acc = (hs, (us', ur')) ->
    rs_ok us' /\ rs_ok ur' /\
    exists new, hs = acc ++ new /\
      (forall s, s ∈ new -> s ∈ ss /\ sc_alg s ∈ kinds /\
         forall i, in_rs i (sc_idx s) -> in_rs i (match sc_dir s with Sent => us | Received => ur end)) /\
      (forall i, in_rs i us' <-> in_rs i us /\ forall s, s ∈ new -> sc_dir s = Sent -> ~ in_rs i (sc_idx s)) /\
      (forall i, in_rs i ur' <-> in_rs i ur /\ forall s, s ∈ new -> sc_dir s = Received -> ~ in_rs i (sc_idx s)).
  Proof.
    revert us ur acc. induction kinds as [|a kinds IH]; intros us ur acc Hus Hur; simpl.
    - intros Heq. assert (acc = hs /\ us = us' /\ ur = ur') as (<- & <- & <-).
      { destruct (rs_empty us && rs_empty ur); by injection Heq. }
      split_and!; try done. exists []. rewrite app_nil_r. split_and!; try done.
      + by intros s ?%elem_of_nil.
      + intros i. split; [intros ?; split; [done|]; by intros s ?%elem_of_nil|tauto].
      + intros i. split; [intros ?; split; [done|]; by intros s ?%elem_of_nil|tauto].
    - destruct (rs_empty us && rs_empty ur) eqn:Hemp.
      { intros [= <- <- <-]. split_and!; try done. exists []. rewrite app_nil_r. split_and!; try done.
        + by intros s ?%elem_of_nil.
        + intros i. split; [intros ?; split; [done|]; by intros s ?%elem_of_nil|tauto].
        + intros i. split; [intros ?; split; [done|]; by intros s ?%elem_of_nil|tauto]. }
      destruct (cover us _) as [sh us1] eqn:C1. destruct (cover ur _) as [rh ur1] eqn:C2.
      apply Hcover in C1 as (Ok1 & Sel1 & Unc1 & _); [|done|intros c Hc; apply elem_of_list_filter in Hc as [_ ?]; auto].
      apply Hcover in C2 as (Ok2 & Sel2 & Unc2 & _); [|done|intros c Hc; apply elem_of_list_filter in Hc as [_ ?]; auto].
      intros (Ok3 & Ok4 & new & -> & Hnew & Hs & Hr)%IH; [|done..].
      split_and!; try done. exists (sh ++ rh ++ new). rewrite <-!app_assoc. split_and!; try done.
      + intros s Hs'. rewrite !elem_of_app in Hs'. destruct Hs' as [H|[H|H]].
        * apply Sel1 in H as [Hf Hsub]. apply elem_of_list_filter in Hf as [[Hd Ha] Hin]. rewrite Hd.
          split_and!; try done. rewrite <-Ha. left.
        * apply Sel2 in H as [Hf Hsub]. apply elem_of_list_filter in Hf as [[Hd Ha] Hin]. rewrite Hd.
          split_and!; try done. rewrite <-Ha. left.
        * apply Hnew in H as (Hin & Ha & Hsub). split_and!; [done|by right|].
          intros i Hi. apply Hsub in Hi. destruct (sc_dir s); [by apply Unc1 in Hi as [? _]|by apply Unc2 in Hi as [? _]].
      + intros i. rewrite Hs, Unc1. split.
        * intros [[Hq0 H1] H2]. split; [done|]. intros s Hs' Hd. rewrite !elem_of_app in Hs'.
          destruct Hs' as [H|[H|H]]; [by apply H1| |by apply H2].
          apply Sel2 in H as [Hf _]. apply elem_of_list_filter in Hf as [[Hd' _] _]. congruence.
        * intros [Hq0 H]. split; [split; [done|]|]; intros s Hs'.
          -- apply H; [rewrite !elem_of_app; tauto|]. apply Sel1 in Hs' as [H' _].
             by apply elem_of_list_filter in H' as [[? _] _].
          -- intros Hd. apply H; [rewrite !elem_of_app; tauto|done].
      + intros i. rewrite Hr, Unc2. split.
        * intros [[Hq0 H1] H2]. split; [done|]. intros s Hs' Hd. rewrite !elem_of_app in Hs'.
          destruct Hs' as [H|[H|H]]; [|by apply H1|by apply H2].
          apply Sel1 in H as [Hf _]. apply elem_of_list_filter in Hf as [[Hd' _] _]. congruence.
        * intros [Hq0 H]. split; [split; [done|]|]; intros s Hs'.
          -- apply H; [rewrite !elem_of_app; tauto|]. apply Sel2 in Hs' as [H' _].
             by apply elem_of_list_filter in H' as [[? _] _].
          -- intros Hd. apply H; [rewrite !elem_of_app; tauto|done].
  Qed.

  (** Kinds without candidates leave the query unchanged. *)
  Lemma cover_nil q unc sel : rs_ok q -> cover q [] = (sel, unc) -> sel = [] /\ unc = q.
  Proof.
    intros Hq C. apply Hcover in C as (Ok1 & Sel & Unc & _); [|done|by intros c ?%elem_of_nil].
    assert (sel = []) as ->.
    { destruct sel as [|c l]; [done|]. destruct (Sel c) as [H _]; [left|]. by apply elem_of_nil in H. }
    split; [done|]. apply rs_ext; [done..|]. intros i. rewrite Unc. split; [tauto|].
    intros ?. split; [done|]. by intros c ?%elem_of_nil.
  Qed.
  Lemma filter_none a d : (forall s, s ∈ ss -> sc_alg s <> a) ->
    filter (fun s => sc_dir s = d /\ sc_alg s = a) ss = [].
  Proof.
    intros H. destruct (filter _ ss) as [|s l] eqn:E; [done|].
    assert (Hs : s ∈ filter (fun s => sc_dir s = d /\ sc_alg s = a) ss) by (rewrite E; left).
    apply elem_of_list_filter in Hs as [[_ Ha] Hin]. by apply H in Ha.
  Qed.
  Lemma cover_full q cs sel unc : rs_ok q -> (forall c, c ∈ cs -> rs_ok (sc_idx c)) ->
    cover q cs = (sel, unc) ->
    (forall i, in_rs i q -> exists s, s ∈ cs /\ in_rs i (sc_idx s) /\ forall j, in_rs j (sc_idx s) -> in_rs j q) ->
    unc = [].
  Proof.
    intros Hq Hcs C Hu. apply Hcover in C as (Ok1 & Sel & Unc & Max); [|done..].
    apply rs_nil_iff; [done|]. intros i Hi. pose proof Hi as Hi'. apply Unc in Hi as [Hi _].
    destruct (Hu i Hi) as (s & Hin & Hsi & Hsub). by apply (Max s i).
  Qed.
  Lemma cover_loop_success pre a post us ur acc :
    rs_ok us -> rs_ok ur ->
    (forall s, s ∈ ss -> sc_alg s ∉ pre) ->
    union_of_kind ss a Sent us -> union_of_kind ss a Received ur ->
    exists hs, cover_loop cover ss (pre ++ a :: post) us ur acc = (hs, ([], [])).
  Proof.
    intros Hus Hur. revert acc. induction pre as [|k pre IH]; intros acc Hpre H1 H2; simpl.
    - destruct (rs_empty us && rs_empty ur) eqn:Hemp.
      { destruct us, ur; try done. eauto. }
      destruct (cover us _) as [sh us1] eqn:C1. destruct (cover ur _) as [rh ur1] eqn:C2.
      apply cover_full in C1 as ->;
        [|done|intros c Hc; apply elem_of_list_filter in Hc as [_ ?]; auto|].
      2:{ intros i Hi. destruct (H1 i Hi) as (s & ? & ? & ? & ? & ?). exists s. rewrite elem_of_list_filter. done. }
      apply cover_full in C2 as ->;
        [|done|intros c Hc; apply elem_of_list_filter in Hc as [_ ?]; auto|].
      2:{ intros i Hi. destruct (H2 i Hi) as (s & ? & ? & ? & ? & ?). exists s. rewrite elem_of_list_filter. done. }
      destruct post; simpl; eauto.
    - destruct (rs_empty us && rs_empty ur) eqn:Hemp.
      { destruct us, ur; try done. eauto. }
      assert (Hk : forall s, s ∈ ss -> sc_alg s <> k).
      { intros s Hs Hk. apply (Hpre s Hs). rewrite Hk. left. }
      rewrite !filter_none by done.
      destruct (cover us []) as [sh us1] eqn:C1. destruct (cover ur []) as [rh ur1] eqn:C2.
      apply cover_nil in C1 as [-> ->]; [|done]. apply cover_nil in C2 as [-> ->]; [|done].
      apply IH; [|done..]. intros s Hs Hin. apply (Hpre s Hs). by right.
  Qed.
End Cover.

Lemma simple_cover_go_spec q cs unc sel unc' :
  rs_ok q -> rs_ok unc -> (forall c, c ∈ cs -> rs_ok (sc_idx c)) ->
  simple_cover_go q cs unc = (sel, unc') ->
  rs_ok unc' /\
  (forall c, c ∈ sel -> c ∈ cs /\ forall i, in_rs i (sc_idx c) -> in_rs i q) /\
  (forall i, in_rs i unc' <-> in_rs i unc /\ forall c, c ∈ sel -> ~ in_rs i (sc_idx c)) /\
  (forall c i, c ∈ cs -> (forall j, in_rs j (sc_idx c) -> in_rs j q) ->
               in_rs i (sc_idx c) -> ~ in_rs i unc').
Proof.
  intros Hq. revert unc sel unc'. induction cs as [|c cs IH]; intros unc sel unc' Hunc Hok; simpl.
  - intros [= <- <-]. split_and!; try done.
    + by intros c ?%elem_of_nil.
    + intros i. split; [|tauto]. intros ?. split; [done|]. by intros c ?%elem_of_nil.
    + by intros c i ?%elem_of_nil.
  - assert (Hc : rs_ok (sc_idx c)) by (apply Hok; left).
    assert (Hok' : forall c0, c0 ∈ cs -> rs_ok (sc_idx c0)) by (intros; apply Hok; by right).
    destruct (rs_subset (sc_idx c) q) eqn:Hsub; simpl.
    2:{ intros (O & S & U & M)%IH; [|done..]. split_and!; try done.
        - intros c' H. apply S in H as [? ?]. split; [by right|done].
        - intros c' i [->|H]%elem_of_cons Hall Hi; [|by apply (M c' i)].
          exfalso. assert (rs_subset (sc_idx c) q = true) by (by apply rs_subset_spec). congruence. }
    rewrite rs_subset_spec in Hsub by done.
    destruct (rs_eqb (rs_diff unc (sc_idx c)) unc) eqn:Heq; simpl.
    + apply rs_eqb_spec in Heq. intros (O & S & U & M)%IH; [|done..]. split_and!; try done.
      * intros c' H. apply S in H as [? ?]. split; [by right|done].
      * intros c' i [->|H]%elem_of_cons Hall Hi Hu; [|by apply (M c' i)].
        apply U in Hu as [Hu _]. rewrite <-Heq in Hu. by apply in_rs_diff in Hu as [_ ?].
    + destruct (simple_cover_go q cs (rs_diff unc (sc_idx c))) as [sel' u] eqn:E.
      intros [= <- <-]. apply IH in E as (O & S & U & M); [|by apply rs_diff_ok|done].
      split_and!; try done.
      * intros c' [->|H]%elem_of_cons; [split; [left|done]|]. apply S in H as [? ?]. split; [by right|done].
      * intros i. rewrite U, in_rs_diff by done. split.
        -- intros [[Hx Hy] H]. split; [done|]. intros c' [->|?]%elem_of_cons; [done|by apply H].
        -- intros [Hx H]. split; [split; [done|]|]; [apply H; left|]. intros c' ?. apply H. by right.
      * intros c' i [->|H]%elem_of_cons Hall Hi Hu; [|by apply (M c' i)].
        apply U in Hu as [Hu _]. by apply in_rs_diff in Hu as [_ ?].
Qed.
Lemma simple_cover_ok : cover_ok simple_cover.
Proof. intros q cs sel unc Hq Hcs H. by apply simple_cover_go_spec in H. Qed.

(** ** C11 *)
Lemma tb_build_inv cover t ss cs pr : cover_ok cover -> (forall s, s ∈ ss -> rs_ok (sc_idx s)) ->
  tb_build cover (tb_run t ss cs) = Ok pr ->
  discloses t (tp_transcript pr) /\
  (forall d, p_idx (tp_transcript pr) d = tb_query (tb_run t ss cs) d) /\
  (forall s, s ∈ tp_secrets pr -> s ∈ ss) /\
  (forall d i, in_rs i (p_idx (tp_transcript pr) d) <->
     exists s, s ∈ tp_secrets pr /\ sc_dir s = d /\ in_rs i (sc_idx s)).
Proof.
  intros Hcov Hss. pose proof (tb_run_inv t ss cs) as (Et & Es & _ & _ & Hq).
  pose proof (tb_run_query_valid t ss cs Sent) as V1. pose proof (tb_run_query_valid t ss cs Received) as V2.
  set (b := tb_run t ss cs) in *. unfold tb_build. rewrite Et, Es. simpl in *.
  destruct (to_partial_ok t (tb_query_sent b) (tb_query_recv b)) as (p & Ep & I1 & I2 & _); [done..|].
  rewrite Ep. simpl. destruct (cover_loop _ _ _ _ _ _) as [hs [us ur]] eqn:Hloop.
  pose proof (Hq Sent) as Q1. pose proof (Hq Received) as Q2. simpl in *.
  apply cover_loop_spec in Hloop as (O1 & O2 & new & -> & Hnew & H1 & H2); [|done..]. simpl.
  destruct (rs_empty us && rs_empty ur) eqn:Hemp; simpl; [|done]. intros [= <-]. simpl.
  destruct us; [|done]. destruct ur; [|done].
  assert (Hidx : forall d, p_idx p d = tb_query b d) by (by intros []).
  split_and!; [exact (to_partial_discloses _ _ _ _ Q1 Q2 Ep)|done| |].
  - intros s Hs. by apply Hnew in Hs as [? _].
  - intros d i. rewrite Hidx. split.
    + intros Hi.
      destruct (decide (Exists (fun s => sc_dir s = d /\ in_rs i (sc_idx s)) new)) as [He|He].
      { apply Exists_exists in He as (s & ? & ? & ?). eauto. }
      exfalso. assert (Hn : forall s, s ∈ new -> sc_dir s = d -> ~ in_rs i (sc_idx s)).
      { intros s ? ? ?. apply He, Exists_exists. eauto. }
      destruct d; simpl in *.
      * specialize (H1 i). rewrite in_rs_nil in H1. tauto.
      * specialize (H2 i). rewrite in_rs_nil in H2. tauto.
    + intros (s & Hs & <- & Hi). apply Hnew in Hs as (_ & _ & Hsub). apply Hsub in Hi. by destruct (sc_dir s).
Qed.

Lemma C11_lemma cover P t ss cs cms pr :
  cover_ok cover -> provider_ok P ->
  (forall s, s ∈ ss -> secret_ok s) ->
  (forall s, s ∈ ss -> exists c, c ∈ cms /\ committed_by P t s c) ->
  (N.of_nat (length (t_sent t)) < 2 ^ 32)%N -> (N.of_nat (length (t_recv t)) < 2 ^ 32)%N ->
  tb_build cover (tb_run t ss cs) = Ok pr ->
  verify_tproof P (t_length t) cms pr = Ok (tp_transcript pr) /\
  discloses t (tp_transcript pr) /\
  (forall d i, in_rs i (p_idx (tp_transcript pr) d) <->
      exists r, TBReveal r d ∈ cs /\ revealable t ss r d /\ in_rs i r).
Proof.
  intros Hcov HP Hss Hcm L1 L2 Hb.
  apply tb_build_inv in Hb as (Hd & Hidx & Hsec & Hun); [|done|intros; by apply Hss].
  split_and!; [|done|].
  - apply C10_lemma; [intros s Hs; by apply Hss, Hsec| |].
    { intros d. by apply (proj1 Hd). }
    split; [done|]. destruct Hd as [Hwf Hsh].
    pose proof (Hsh Sent) as [E1 _]. pose proof (Hsh Received) as [E2 _]. simpl in *.
    split_and!.
    + rewrite E1. unfold t_length; simpl. unfold u32_of_usize. by rewrite N.mod_small.
    + rewrite E2. unfold t_length; simpl. unfold u32_of_usize. by rewrite N.mod_small.
    + intros s Hs. destruct (Hcm s (Hsec s Hs)) as (c & Hc & (h & msg & Eh & (bs & Hbs & ->) & ->)).
      exists h, (bs ++ sc_blinder s).
      assert (Hsubq : forall i, in_rs i (sc_idx s) -> in_rs i (p_idx (tp_transcript pr) (sc_dir s))).
      { intros i Hi. apply Hun. eauto. }
      pose proof (Hwf (sc_dir s)) as [_ Hbd].
      assert (Hv : valid_idx (length (p_data (tp_transcript pr) (sc_dir s))) (sc_idx s)).
      { split; [by apply Hss, Hsec|]. auto. }
      split_and!; [done|done| |].
      * exists bs. split; [|done]. destruct Hbs as (ps & Hps & Hm & HF). exists ps. split_and!; try done.
        apply Forall2_same_length_lookup_2; [by eapply Forall2_length|].
        intros k i b Hki Hkb. pose proof (Forall2_lookup_lr _ _ _ _ _ _ HF Hki Hkb) as Hib. simpl in Hib.
        assert (Hi : i ∈ ps) by (by eapply elem_of_list_lookup_2). apply Hm in Hi. destruct (Hsh (sc_dir s)) as [_ Hk].
        rewrite (Hk _ _ Hib). rewrite decide_True by auto. done.
      * rewrite (HP _ _ Eh). done.
    + done.
  - intros d i. rewrite Hidx. apply tb_run_query.
Qed.

(** ** C12 *)
Lemma C12_lemma cover t ss cs pre a post :
  cover_ok cover -> (forall s, s ∈ ss -> rs_ok (sc_idx s)) ->
  tb_kinds (tb_run t ss cs) = pre ++ a :: post ->
  (forall s, s ∈ ss -> sc_alg s ∉ pre) ->
  (forall d, union_of_kind ss a d (tb_query (tb_run t ss cs) d)) ->
  exists pr, tb_build cover (tb_run t ss cs) = Ok pr.
Proof.
  intros Hcov Hss Hk Hpre Hu. pose proof (tb_run_inv t ss cs) as (Et & Es & _ & _ & Hq).
  pose proof (tb_run_query_valid t ss cs Sent) as V1. pose proof (tb_run_query_valid t ss cs Received) as V2.
  set (b := tb_run t ss cs) in *. unfold tb_build. rewrite Et, Es, Hk. simpl in *.
  destruct (to_partial_ok t (tb_query_sent b) (tb_query_recv b)) as (p & Ep & _); [done..|].
  rewrite Ep. simpl.
  destruct (cover_loop_success cover Hcov ss Hss pre a post (tb_query_sent b) (tb_query_recv b) []) as [hs ->];
    [apply (Hq Sent)|apply (Hq Received)|done|apply (Hu Sent)|apply (Hu Received)|].
  simpl. eauto.
Qed.
Lemma tb_build_no_panic cover t ss cs :  tb_build cover (tb_run t ss cs) <> Panic.
Proof.
  pose proof (tb_run_inv t ss cs) as (Et & Es & _ & _ & Hq).
  pose proof (tb_run_query_valid t ss cs Sent) as V1. pose proof (tb_run_query_valid t ss cs Received) as V2.
  set (b := tb_run t ss cs) in *. unfold tb_build. rewrite Et. simpl in *.
  destruct (to_partial_ok t (tb_query_sent b) (tb_query_recv b)) as (p & Ep & _); [done..|].
  rewrite Ep. simpl. destruct (cover_loop _ _ _ _ _ _) as [hs [us ur]].
  by destruct (negb _).
Qed.

Lemma C12_refuted_lemma cover : cover_ok cover ->
  exists t ss cs, (forall s, s ∈ ss -> secret_ok s) /\
    (forall d, union_of_kind ss BLAKE3 d (tb_query (tb_run t ss cs) d)) /\
    BLAKE3 ∈ tb_kinds (tb_run t ss cs) /\
    in_rs 0 (tb_query (tb_run t ss cs) Received) /\
    exists us ur, tb_build cover (tb_run t ss cs) = Err (CoverErr us ur).
Proof.
  intros Hcov.
  set (s1 := Secret Received [(0,6)] SHA256 (replicate 16 1%N)).
  set (s2 := Secret Received [(0,10)] BLAKE3 (replicate 16 2%N)).
  exists (Transcript [] (replicate 10 7%N)), [s1; s2], [TBReveal [(0,10)] Received].
  assert (Hs : forall s, s ∈ [s1; s2] -> secret_ok s).
  { intros s Hs. rewrite !elem_of_cons in Hs. destruct Hs as [->|[->|Hs%elem_of_nil]]; [..|done];
      (split; [by apply rs_ok_fromb_spec|done]). }
  split; [done|]. split.
  { intros []; simpl; unfold union_of_kind; simpl.
    - by intros i Hi%in_rs_nil.
    - intros i Hi. exists s2. split_and!; try done. right. left. }
  split; [right; left|]. split; [by apply in_rsb_spec|].
  unfold tb_build.
  change (tb_query_recv _) with [(0,10)]. change (tb_query_sent _) with (@nil (nat*nat)).
  change (tb_secrets _) with [s1; s2]. change (tb_kinds _) with default_kinds.
  change (lift_panic _) with (Ok (E:=builder_error) (Partial [] (replicate 10 7%N) [] [(0,10)])).
  unfold default_kinds, cover_loop.
  change (filter (fun s => sc_dir s = Sent /\ sc_alg s = SHA256) [s1; s2]) with (@nil secret).
  change (filter (fun s => sc_dir s = Received /\ sc_alg s = SHA256) [s1; s2]) with [s1].
  change (filter (fun s => sc_dir s = Sent /\ sc_alg s = BLAKE3) [s1; s2]) with (@nil secret).
  change (filter (fun s => sc_dir s = Received /\ sc_alg s = BLAKE3) [s1; s2]) with [s2].
  change (filter (fun s => sc_dir s = Sent /\ sc_alg s = KECCAK256) [s1; s2]) with (@nil secret).
  change (filter (fun s => sc_dir s = Received /\ sc_alg s = KECCAK256) [s1; s2]) with (@nil secret).
  simpl.
  destruct (cover [] []) as [a0 u0] eqn:C0. apply (cover_nil _ Hcov) in C0 as [-> ->]; [|done].
  assert (Hok : forall c, c ∈ [s1] -> rs_ok (sc_idx c)).
  { intros c ->%elem_of_list_singleton. by apply rs_ok_fromb_spec. }
  assert (Hq : rs_ok [(0,10)]) by (by apply rs_ok_fromb_spec).
  destruct (cover [(0,10)] [s1]) as [a1 u1] eqn:C1.
  apply Hcov in C1 as (Ok1 & Sel1 & Unc1 & Max1); [|done..].
  assert (Hu1 : u1 = [(6,10)]).
  { apply rs_ext; [done|by apply rs_ok_fromb_spec|]. intros i. rewrite Unc1.
    rewrite !in_rs_cons, in_rs_nil. unfold in_range; simpl. split.
    - intros [[Hi|[]] Hn]. left. destruct (decide (i < 6)); [exfalso|lia].
      assert (Hi' : in_rs i [(0,6)]) by (apply in_rs_cons; left; unfold in_range; simpl; lia).
      assert (Hnu : ~ in_rs i u1).
      { apply (Max1 s1 i); [left| |done]. simpl. intros j.
        rewrite !in_rs_cons, !in_rs_nil. unfold in_range; simpl. intros [?|[]]. left; lia. }
      apply Hnu, Unc1. split; [|done]. rewrite in_rs_cons. left. unfold in_range; simpl; lia.
    - intros [Hi|[]]. split; [left; lia|]. intros c Hc.
      apply Sel1 in Hc as [Hc _]. apply elem_of_list_singleton in Hc as ->. simpl.
      rewrite in_rs_cons, in_rs_nil. unfold in_range; simpl. intros [?|[]]. lia. }
  subst u1. simpl.
  destruct (cover [] []) as [a2 u2] eqn:C2. apply (cover_nil _ Hcov) in C2 as [-> ->]; [|done].
  destruct (cover [(6,10)] [s2]) as [a3 u3] eqn:C3.
  apply Hcov in C3 as (Ok3 & Sel3 & Unc3 & Max3);
    [|by apply rs_ok_fromb_spec|intros c ->%elem_of_list_singleton; by apply rs_ok_fromb_spec].
  assert (Hin : in_rs 7 u3).
  { apply Unc3. split; [by apply in_rsb_spec|]. intros c Hc. apply Sel3 in Hc as [Hc Hsub].
    apply elem_of_list_singleton in Hc as ->. exfalso.
    assert (H0 : in_rs 0 [(6,10)]) by (apply Hsub; by apply in_rsb_spec).
    by apply in_rsb_spec in H0. }
  destruct u3 as [|r3 u3]; [by apply in_rs_nil in Hin|]. simpl.
  destruct (cover [] []) as [a4 u4] eqn:C4. apply (cover_nil _ Hcov) in C4 as [-> ->]; [|done].
  destruct (cover (r3 :: u3) []) as [a5 u5] eqn:C5. apply (cover_nil _ Hcov) in C5 as [-> ->]; [|done].
  simpl. eauto.
Qed.
Lemma C08_union_lemma cover t ss cs pr :
  cover_ok cover -> (forall s, s ∈ ss -> rs_ok (sc_idx s)) ->
  tb_build cover (tb_run t ss cs) = Ok pr ->
  forall d i, in_rs i (p_idx (tp_transcript pr) d) <->
    exists r, TBReveal r d ∈ cs /\ revealable t ss r d /\ in_rs i r.
Proof.
  intros Hcov Hss (_ & Hidx & _)%tb_build_inv; [|done..]. intros d i. rewrite Hidx. apply tb_run_query.
Qed.

Lemma dedup_kinds_order seen ks pre k post : dedup_kinds seen ks = pre ++ k :: post ->
  exists xpre xpost, ks = xpre ++ k :: xpost /\ k ∉ xpre /\ forall j, j ∉ seen -> j ∈ xpre <-> j ∈ pre.
Proof.
  revert seen pre. induction ks as [|x ks IH]; intros seen pre; cbn [dedup_kinds]; [by destruct pre|].
  case_bool_decide as Hs.
  - intros H. assert (k ∉ seen) as Hk.
    { apply (dedup_kinds_elem seen ks k). rewrite H. apply elem_of_app. right. by left. }
    destruct (IH _ _ H) as (xp & xq & -> & Hn & Hj). exists (x :: xp), xq. split; [done|].
    split; [rewrite elem_of_cons; intros [->|?]; done|]. intros j Hjs. rewrite elem_of_cons, <- Hj by done.
    split; [|tauto]. intros [->|?]; [done|tauto].
  - destruct pre as [|y pre]; intros [= -> H].
    + exists [], ks. split_and!; [done|apply not_elem_of_nil|done].
    + assert (k ∉ y :: seen) as Hk.
      { apply (dedup_kinds_elem (y :: seen) ks k). rewrite H. apply elem_of_app. right. by left. }
      destruct (IH _ _ H) as (xp & xq & -> & Hn & Hj). exists (y :: xp), xq. split; [done|].
      rewrite elem_of_cons in Hk. split; [rewrite elem_of_cons; tauto|]. intros j Hjs.
      rewrite !elem_of_cons. destruct (decide (j = y)) as [->|]; [tauto|].
      rewrite Hj by (rewrite elem_of_cons; tauto). tauto.
Qed.
Lemma first_occurrences_dedup ks : first_occurrences ks (dedup_kinds [] ks).
Proof.
  split_and!; [apply dedup_kinds_NoDup| |].
  - intros k. rewrite dedup_kinds_elem. split; [tauto|]. intros ?. split; [done|apply not_elem_of_nil].
  - intros pre k post (xp & xq & ? & ? & Hj)%dedup_kinds_order. exists xp, xq. split_and!; try done.
    intros j. apply Hj, not_elem_of_nil.
Qed.
Lemma tb_kinds_lemma t ss cs :
  first_occurrences (kinds_given cs [SHA256; BLAKE3; KECCAK256]) (tb_kinds (tb_run t ss cs)).
Proof.
  unfold tb_run. assert (forall xs b, first_occurrences xs (tb_kinds b) ->
    first_occurrences (kinds_given cs xs) (tb_kinds (fold_left tb_step cs b))) as H.
  { induction cs as [|c cs IH]; intros xs b Hb; [done|]. cbn [fold_left]. destruct c as [[|k ks]|r d]; cbn [kinds_given].
    - by apply IH.
    - apply IH. apply first_occurrences_dedup.
    - apply IH. cbn [tb_step]. unfold tb_reveal, tb_reveal_inner. destruct (_ <? _); [done|].
      destruct (rs_subset _ _); [|done]. by destruct d. }
  apply H. exact (first_occurrences_dedup [SHA256; BLAKE3; KECCAK256]).
Qed.
Lemma C12_only_kind_lemma cover t ss cs a :
  cover_ok cover -> (forall s, s ∈ ss -> rs_ok (sc_idx s)) ->
  (forall s, s ∈ ss -> sc_alg s = a) -> a ∈ kinds_given cs [SHA256; BLAKE3; KECCAK256] ->
  (forall d, union_of_kind ss a d (tb_query (tb_run t ss cs) d)) ->
  exists pr, tb_build cover (tb_run t ss cs) = Ok pr.
Proof.
  intros Hc Hok Ha Hk Hu. destruct (tb_kinds_lemma t ss cs) as (Hnd & Hel & _).
  apply Hel in Hk. destruct (elem_of_list_split _ _ Hk) as (pre & post & E).
  eapply C12_lemma; [done|done|exact E| |done]. intros s Hs Hin. rewrite (Ha s Hs) in Hin.
  rewrite E in Hnd. apply NoDup_app in Hnd as (_ & Hd & _). apply (Hd a Hin). by left.
Qed.
