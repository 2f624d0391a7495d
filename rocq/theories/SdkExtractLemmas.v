(** Lemmas for C56: the bytes extracted for a handler are those it names. *)
From Verif.Lib Require Import Base Ranges RangesFacts.
From Verif Require Import TranscriptModel CodecModel SdkModel SdkSpec SdkLemmas.

Lemma rsplit_dot_Some p a b :
  rsplit_dot p = Some (a, b) <-> p = a ++ [dot] ++ b /\ dot ∉ b.
Proof.
  revert a b. induction p as [|c p IH]; intros a b; cbn [rsplit_dot].
  - split; [done|]. intros [H _]. by destruct a.
  - destruct (rsplit_dot p) as [[a' b']|] eqn:E.
    + destruct (proj1 (IH a' b') eq_refl) as [-> Hb']. split.
      * intros [= <- <-]. done.
      * intros [H Hb]. destruct a as [|x a].
        { exfalso. injection H as -> H. apply Hb. rewrite <- H. apply elem_of_app. right. apply elem_of_list_here. }
        injection H as -> H.
        assert (Some (a', b') = Some (a, b)) as [= -> ->]; [|done].
        apply IH. done.
    + assert (dot ∉ p) as Hp.
      { intros (p1 & p2 & Hp)%elem_of_list_split.
        (* the last occurrence *)
        assert (forall q : list N, dot ∈ q -> exists a b, q = a ++ [dot] ++ b /\ dot ∉ b) as Hlast.
        { clear. induction q as [|x q IHq]; intros Hq; [by apply elem_of_nil in Hq|].
          destruct (decide (dot ∈ q)) as [Hin|Hn].
          - destruct (IHq Hin) as (a & b & -> & Hb). exists (x :: a), b. done.
          - apply elem_of_cons in Hq as [<-|]; [|done]. exists [], q. done. }
        destruct (Hlast p) as (a' & b' & Hq & Hb'); [rewrite Hp; apply elem_of_app; right; apply elem_of_list_here|].
        pose proof (proj2 (IH a' b') (conj Hq Hb')) as Hx. discriminate Hx. }
      destruct (N.eqb_spec c dot) as [->|Hc].
      * split; [by intros [= <- <-]|]. intros [H Hb]. destruct a as [|x a]; [by injection H as ->|].
        injection H as _ H. exfalso. apply Hp. rewrite H. apply elem_of_app. right. apply elem_of_list_here.
      * split; [done|]. intros [H Hb]. exfalso. destruct a as [|x a].
        { injection H as H _. done. }
        injection H as _ H. apply Hp. rewrite H. apply elem_of_app. right. apply elem_of_list_here.
Qed.
Lemma rsplit_dot_None p : rsplit_dot p = None <-> dot ∉ p.
Proof.
  induction p as [|c p IH]; cbn [rsplit_dot]; [split; [intros _; apply not_elem_of_nil|done]|].
  rewrite not_elem_of_cons. destruct (rsplit_dot p) as [[a b]|].
  - split; [done|]. intros [_ Hp]. pose proof (proj2 IH Hp) as Hx. discriminate Hx.
  - destruct (N.eqb_spec c dot) as [->|Hc].
    + split; [done|]. by intros [? _].
    + split; [|done]. intros _. split; [congruence|by apply IH].
Qed.

Section Extract.
  Context (name_eq : list N -> list N -> bool) (json_get : json -> list N -> option json).
  Context (regex_find : list N -> list N -> option (list range)).
  Local Notation extract_ranges := (extract_ranges name_eq json_get regex_find).
  Local Notation field_at := (field_at json_get).
  Local Notation find_kv := (find_kv json_get).
  Local Notation selects := (selects name_eq json_get regex_find).

  Lemma find_first {A} (P : A -> bool) l x :
    List.find P l = Some x <->
    exists before after, l = before ++ x :: after /\ P x = true /\ Forall (fun y => P y = false) before.
  Proof.
    induction l as [|y l IH]; simpl.
    - split; [done|]. intros (b & a & H & _). by destruct b.
    - destruct (P y) eqn:E.
      + split.
        * intros [= ->]. exists [], l. done.
        * intros (b & a & H & Hx & Hb). destruct b as [|z b]; [by injection H as -> _|].
          injection H as -> _. apply Forall_cons in Hb as [Hz _]. congruence.
      + rewrite IH. split.
        * intros (b & a & -> & Hx & Hb). exists (y :: b), a. split_and!; [done|done|by constructor].
        * intros (b & a & H & Hx & Hb). destruct b as [|z b]; [injection H as -> _; congruence|].
          injection H as -> ->. apply Forall_cons in Hb as [_ Hb]. eauto.
  Qed.

  Lemma split_path_spec p pp key :
    split_json_path p = Some (pp, key) <->
    dot ∉ key /\ ((p = key /\ p <> [] /\ pp = []) \/ p = pp ++ [dot] ++ key).
  Proof.
    unfold split_json_path. destruct p as [|c p].
    { split; [done|]. intros (_ & [(_ & H & _)|H]); [done|]. by destruct pp. }
    destruct (rsplit_dot (c :: p)) as [[a b]|] eqn:E.
    - pose proof (proj1 (rsplit_dot_Some _ _ _) E) as [Ep Eb]. split.
      + intros [= <- <-]. split; [done|]. by right.
      + intros (Hk & [(Hp & _ & ->)|Hp]).
        * exfalso. apply Hk. rewrite <- Hp, Ep. apply elem_of_app. right. apply elem_of_list_here.
        * rewrite <- E. apply rsplit_dot_Some. done.
    - apply rsplit_dot_None in E. split.
      + intros [= <- <-]. split; [done|]. by left.
      + intros (Hk & [(-> & _ & ->)|Hp]); [done|].
        exfalso. apply E. rewrite Hp. apply elem_of_app. right. apply elem_of_list_here.
  Qed.

  Lemma find_kv_spec root path x : find_kv root path = Some x <-> field_at root path x.
  Proof.
    unfold SdkModel.find_kv, SdkSpec.field_at. split.
    - destruct (split_json_path path) as [[pp key]|] eqn:Es; [|done].
      apply split_path_spec in Es as [Hk Hp].
      set (parent := match pp with [] => Some root | _ => json_get root pp end).
      destruct parent as [[idx elems| |]|] eqn:Epar; try done.
      intros (before & after & He & Hx & Hb)%find_first. apply bool_decide_eq_true in Hx.
      exists (JObject idx elems), key, idx, elems, before, after. split; [done|]. split.
      + destruct Hp as [(-> & Hne & ->)|Hp].
        * left. injection Epar as ->. done.
        * destruct pp as [|c pp]; [right; left|right; right].
          -- injection Epar as ->. done.
          -- exists (c :: pp). done.
      + split_and!; [done|done|done|]. eapply Forall_impl; [exact Hb|]. simpl. intros y Hy.
        by apply bool_decide_eq_false in Hy.
    - intros (parent & key & idx & elems & before & after & Hk & Hpath & -> & He & Hx & Hb).
      assert (exists pp, split_json_path path = Some (pp, key) /\
        (match pp with [] => Some root | _ => json_get root pp end) = Some (JObject idx elems)) as (pp & -> & ->).
      { destruct Hpath as [(-> & Hne & <-)|[(-> & <-)|(pp & Hpp & -> & Hg)]].
        - exists []. split; [|done]. apply split_path_spec. split; [done|]. by left.
        - exists []. split; [|done]. apply split_path_spec. split; [done|]. by right.
        - exists pp. split; [|by destruct pp]. apply split_path_spec. split; [done|]. by right. }
      apply find_first. exists before, after. split_and!; [done|by apply bool_decide_eq_true|].
      eapply Forall_impl; [exact Hb|]. intros y Hy. by apply bool_decide_eq_false.
  Qed.

  Lemma field_occurs root path x :
    get_ok json_get -> field_at root path x -> exists idx elems, occurs root (JObject idx elems) /\ x ∈ elems.
  Proof.
    intros Hget (parent & key & idx & elems & before & after & _ & Hpath & -> & -> & _).
    exists idx, (before ++ x :: after). split.
    - destruct Hpath as [(_ & _ & <-)|[(_ & <-)|(pp & _ & _ & Hg)]]; [constructor|constructor|by eapply Hget].
    - apply elem_of_app. right. apply elem_of_list_here.
  Qed.

  Lemma flag_asks h f : flag (hn_params h) f = true <-> asks f h.
  Proof.
    unfold flag, asks. destruct (hn_params h) as [p|]; [|by split; [|intros (? & ? & _)]].
    destruct (f p) as [[]|] eqn:E; simpl.
    - split; eauto.
    - split; [done|]. intros (q & [= <-] & H). congruence.
    - split; [done|]. intros (q & [= <-] & H). congruence.
  Qed.

  (** Hiding, in terms of bytes. *)
  Lemma kept_ranges h (whole value rest : rangeset) i hk hv :
    without whole value rest -> (hk = true <-> asks hp_hide_key h) -> (hv = true <-> asks hp_hide_value h) ->
    in_rs i (if hk then rangeset_to_vec value else if hv then rangeset_to_vec rest else rangeset_to_vec whole)
    <-> kept h whole value i.
  Proof.
    intros Hw Hk Hv. unfold kept, rangeset_to_vec. specialize (Hw i).
    destruct hk, hv; simpl; rewrite <- ?Hk, <- ?Hv, ?Hw; intuition congruence.
  Qed.

  Lemma extract_headers_spec h m rs i :
    hn_part h = Headers -> Forall header_ok (msg_headers m) ->
    extract_headers name_eq h m = Ok rs ->
    in_rs i rs <-> exists x, x ∈ msg_headers m /\ names_header name_eq h x /\ kept h (hd_idx x) (hd_value x) i.
  Proof.
    intros Hp Hok. unfold extract_headers. destruct (_ && _) eqn:Eb; [done|]. intros [= <-].
    rewrite in_rs_flat_map. rewrite Forall_forall in Hok.
    assert (forall x, x ∈ (match hn_params h ≫= hp_key with
        | Some key => List.filter (fun x0 => name_eq (hd_name x0) key) (msg_headers m)
        | None => msg_headers m end) <-> x ∈ msg_headers m /\ names_header name_eq h x) as Hmem.
    { intros x. unfold names_header. destruct (hn_params h) as [p|]; simpl.
      - destruct (hp_key p) as [k|] eqn:Ek.
        + rewrite elem_of_list_In, filter_In, <- elem_of_list_In. split.
          * intros [H1 H2]. split; [done|]. intros q k' [= <-] Hk'. congruence.
          * intros [H1 H2]. split; [done|]. by apply (H2 p k).
        + split; [|by intros [? _]]. intros H. split; [done|]. intros q k [= <-] Hk. congruence.
      - split; [|by intros [? _]]. intros H. by split. }
    split.
    - intros (x & Hx%Hmem & Hin). destruct Hx as [Hx Hn]. exists x. split_and!; [done|done|].
      revert Hin. apply kept_ranges; [by apply Hok|apply flag_asks|apply flag_asks].
    - intros (x & Hx & Hn & Hk). exists x. split; [by apply Hmem|].
      revert Hk. apply kept_ranges; [by apply Hok|apply flag_asks|apply flag_asks].
  Qed.

  Lemma extract_ranges_select h m raw rs i :
    message_ok m -> get_ok json_get ->
    extract_ranges h m raw = Ok rs -> in_rs i rs <-> selects m raw h i.
  Proof.
    intros (Hline & Hhdr & Hjson) Hget. unfold SdkModel.extract_ranges.
    destruct (hn_part h) eqn:Ep.
    - intros [= <-]. split; [|intros Hs; destruct Hs; try congruence; by destruct m].
      intros Hi. apply sel_line; [done|]. by destruct m.
    - intros [= <-].
      assert (in_rs i (extract_protocol m) <->
        in_rs i (line_of m) /\ ~ in_rs i (fst (words_of m)) /\ ~ in_rs i (snd (words_of m))) as E.
      { destruct m; simpl in *; unfold rangeset_to_vec; rewrite in_rs_diff by (by apply rs_diff_ok);
          rewrite in_rs_diff by done; tauto. }
      rewrite E. split; [intros (?&?&?); by apply sel_protocol|].
      intros Hs. destruct Hs; try congruence. done.
    - unfold extract_method. destruct m as [r|r]; [|done]. intros [= <-].
      split; [intros; by eapply sel_method|]. intros Hs. destruct Hs; try congruence. all: by simplify_eq.
    - unfold extract_request_target. destruct m as [r|r]; [|done]. intros [= <-].
      split; [intros; by eapply sel_target|]. intros Hs. destruct Hs; try congruence. all: by simplify_eq.
    - unfold extract_status_code. destruct m as [r|r]; [done|]. intros [= <-].
      split; [intros; by eapply sel_code|]. intros Hs. destruct Hs; try congruence. all: by simplify_eq.
    - intros H. rewrite (extract_headers_spec _ _ _ _ Ep Hhdr H). split.
      + intros (x & ? & ? & ?). by eapply sel_header.
      + intros Hs. destruct Hs; try congruence. eauto.
    - unfold extract_body. destruct (msg_body m) as [b|] eqn:Eb.
      2:{ intros [= <-]. rewrite in_rs_nil. split; [done|]. intros Hs. destruct Hs; congruence. }
      destruct (hn_params h) as [ps|] eqn:Eps.
      2:{ intros [= <-]. unfold rangeset_to_vec. split.
          - intros Hi. eapply sel_body; [done|done| |done]. congruence.
          - intros Hs. destruct Hs as [| | | | | |? ? Hb| ? ? ? ? ? ? ? (q & Hq & _)| ? ? ? ? ? ? ? (q & Hq & _) | |]; try congruence. }
      case_bool_decide as Et.
      2:{ intros [= <-]. unfold rangeset_to_vec. split.
          - intros Hi. eapply sel_body; [done|done| |done]. congruence.
          - intros Hs. destruct Hs as [| | | | | |? ? Hb| ? ? ? ? ? ? ? (q & Hq & Hq2 & _)| ? ? ? ? ? ? ? (q & Hq & Hq2 & _) | |]; try congruence. }
      unfold extract_json_body. destruct (bd_json b) as [root|] eqn:Er; [|done].
      destruct (hp_path ps) as [path|] eqn:Epath; [|done].
      assert (wants_json h path) as Hw by (exists ps; done).
      assert (default false (hp_hide_key ps) = true <-> asks hp_hide_key h) as Hk.
      { rewrite <- flag_asks. unfold flag. by rewrite Eps. }
      assert (default false (hp_hide_value ps) = true <-> asks hp_hide_value h) as Hv.
      { rewrite <- flag_asks. unfold flag. by rewrite Eps. }
      set (hk := default false (hp_hide_key ps)) in *. set (hv := default false (hp_hide_value ps)) in *.
      assert (forall x, field_at root path x ->
        in_rs i (extract_kv_ranges x hk hv) <-> kept h (kv_idx x) (json_idx (kv_value x)) i) as Hkv.
      { intros x Hx. destruct (field_occurs _ _ _ Hget Hx) as (idx & elems & Ho & Hin).
        apply kept_ranges; [|done|done]. by apply (Hjson b root eq_refl Er idx elems). }
      assert (forall x y, field_at root path x -> field_at root path y -> x = y) as Huniq.
      { intros x y Hx%find_kv_spec Hy%find_kv_spec. congruence. }
      assert (forall x, field_at root path x -> selects m raw h i -> kept h (kv_idx x) (json_idx (kv_value x)) i) as Hsel.
      { intros x Hx Hs. destruct Hs as [| | | | | | ? ? ? Hn| b' root' path' x' ? Hb' Hr' (q & Hq & Hq2 & Hq3) Hx' | b' root' path' v' ? Hb' Hr' (q & Hq & Hq2 & Hq3) Hn' | |]; try congruence.
        - exfalso. by apply (Hn ps).
        - replace x with x'; [done|]. apply Huniq; [|done]. congruence.
        - exfalso. apply (Hn' x). congruence. }
      destruct (hk && hv) eqn:Eboth; [done|].
      destruct (find_kv root path) as [x|] eqn:Ef.
      + pose proof (proj1 (find_kv_spec _ _ _) Ef) as Hx.
        destruct (hk || hv) eqn:Eor.
        * intros [= <-]. rewrite (Hkv x Hx). split; [intros; by eapply sel_field|by apply Hsel].
        * apply orb_false_iff in Eor as [-> ->]. simpl.
          destruct (json_get root path); [|done]. intros [= <-].
          change (rangeset_to_vec (kv_idx x)) with (extract_kv_ranges x false false).
          rewrite (Hkv x Hx). split; [intros; by eapply sel_field|by apply Hsel].
      + assert (forall x, ~ field_at root path x) as Hnone.
        { intros x Hx%find_kv_spec. congruence. }
        replace (if hk || hv then None else None) with (@None json_kv) by by destruct (hk || hv).
        destruct (json_get root path) as [v|] eqn:Eg; [|done].
        replace (if negb hk && negb hv then None else None) with (@None json_kv) by by destruct (negb hk && negb hv).
        intros [= <-]. unfold rangeset_to_vec. split.
        * intros Hi. eapply sel_value; [done|done|exact Er|exact Hw|exact Hnone|exact Eg|done].
        * intros Hs. destruct Hs as [| | | | | | ? ? ? Hn| b' root' path' x' ? Hb' Hr' (q & Hq & Hq2 & Hq3) Hx' | b' root' path' v' ? Hb' Hr' (q & Hq & Hq2 & Hq3) Hn' Hg' | |]; try congruence.
          -- exfalso. by apply (Hn ps).
          -- exfalso. apply (Hnone x'). congruence.
    - unfold extract_all.
      assert (forall p : Prop, in_rs i [(0, length raw)] <-> i < length raw) as Hall.
      { intros _. rewrite in_rs_cons, in_rs_nil. unfold in_range; simpl. lia. }
      destruct (hn_params h) as [ps|] eqn:Eps.
      2:{ intros [= <-]. rewrite (Hall True). split.
          - intros Hi. apply sel_all; [done| |done]. intros p (q & Hq & _). congruence.
          - intros Hs. destruct Hs as [| | | | | | | | | ? ? ? (q & Hq & _) |]; congruence. }
      case_bool_decide as Et.
      + destruct (hp_regex ps) as [pat|] eqn:Er.
        * intros Hrs%opt_err_Ok. split.
          -- intros Hi. eapply sel_regex; [done|exists ps; done|done|done].
          -- intros Hs. destruct Hs as [| | | | | | | | | ? ? ? (q & Hq & _ & Hq2) |? Hn]; try congruence.
             exfalso. apply (Hn pat). exists ps. done.
        * intros [= <-]. rewrite (Hall True). split.
          -- intros Hi. apply sel_all; [done| |done]. intros p (q & Hq & _ & Hq2). congruence.
          -- intros Hs. destruct Hs as [| | | | | | | | | ? ? ? (q & Hq & _ & Hq2) |]; congruence.
      + intros [= <-]. rewrite (Hall True). split.
        * intros Hi. apply sel_all; [done| |done]. intros p (q & Hq & Hq2 & _). congruence.
        * intros Hs. destruct Hs as [| | | | | | | | | ? ? ? (q & Hq & Hq2 & _) |]; congruence.
  Qed.
End Extract.

(** ** Hidden parts *)
Section Hidden.
  Context (name_eq : list N -> list N -> bool) (json_get : json -> list N -> option json).
  Context (regex_find : list N -> list N -> option (list range)).

  Lemma hidden_header_values h m raw rs x i :
    message_ok m -> get_ok json_get -> headers_apart (msg_headers m) ->
    hn_part h = Headers -> asks hp_hide_value h ->
    extract_ranges name_eq json_get regex_find h m raw = Ok rs ->
    x ∈ msg_headers m -> in_rs i (hd_value x) -> ~ in_rs i rs.
  Proof.
    intros Hm Hg Hap Hp Hv Hx Hin Hval Hi. pose proof Hm as (_ & Hhdr & _).
    unfold extract_ranges in Hx. rewrite Hp in Hx.
    pose proof Hx as Hx'. unfold extract_headers in Hx'.
    destruct (_ && _) eqn:Eb; [done|].
    pose proof (extract_headers_spec _ _ _ _ i Hp Hhdr Hx) as E. apply E in Hi as (y & Hy & _ & Hk1 & Hk2).
    assert (~ asks hp_hide_key h) as Hnk.
    { intros Hk. apply andb_false_iff in Eb as [Eb|Eb].
      - apply flag_asks in Hk. congruence.
      - apply flag_asks in Hv. congruence. }
    destruct (Hk2 Hnk) as [Hw Hn]. assert (y = x) as -> by (by eapply Hap). by apply Hn.
  Qed.

  Lemma hidden_field_values h m raw rs b root path x :
    message_ok m -> get_ok json_get ->
    hn_part h = BodyPart -> msg_body m = Some b -> bd_json b = Some root -> wants_json h path ->
    field_at json_get root path x ->
    extract_ranges name_eq json_get regex_find h m raw = Ok rs ->
    forall i, in_rs i rs ->
      (asks hp_hide_value h -> ~ in_rs i (json_idx (kv_value x))) /\
      (asks hp_hide_key h -> in_rs i (json_idx (kv_value x))).
  Proof.
    intros Hm Hg Hp Hb Hr Hw Hf Hx i Hi.
    assert (~ (asks hp_hide_key h /\ asks hp_hide_value h)) as Hnb.
    { intros [Hk Hv]. unfold extract_ranges in Hx. rewrite Hp in Hx.
      unfold extract_body in Hx. rewrite Hb in Hx. destruct Hw as (p & Hq & Ht & Hpath).
      rewrite Hq in Hx. rewrite bool_decide_eq_true_2 in Hx by done.
      unfold extract_json_body in Hx. rewrite Hr, Hpath in Hx.
      apply flag_asks in Hk, Hv. unfold flag in Hk, Hv. rewrite Hq in Hk, Hv. rewrite Hk, Hv in Hx. done. }
    apply (extract_ranges_select _ _ _ _ _ _ _ i Hm Hg Hx) in Hi.
    assert (kept h (kv_idx x) (json_idx (kv_value x)) i) as [Hk1 Hk2].
    { destruct Hi as [| | | | | | ? ? ? Hn| b' root' path' x' ? Hb' Hr' (q & Hq & Hq2 & Hq3) Hx' |
        b' root' path' v' ? Hb' Hr' (q & Hq & Hq2 & Hq3) Hn' | |]; try congruence.
      - exfalso. destruct Hw as (p & Hq & Ht & _). by apply (Hn p).
      - destruct Hw as (p & Hp' & _ & Hpath). replace x with x'; [done|].
        assert (path' = path) as -> by congruence. assert (root' = root) as -> by congruence.
        apply find_kv_spec in Hx', Hf. congruence.
      - exfalso. destruct Hw as (p & Hp' & _ & Hpath).
        assert (path' = path) as -> by congruence. assert (root' = root) as -> by congruence.
        by apply (Hn' x). }
    split; [|done]. intros Hv. destruct (decide (flag (hn_params h) hp_hide_key = true)) as [Hk|Hk].
    - exfalso. apply Hnb. split; [by apply flag_asks|done].
    - apply Hk2; [|done]. by rewrite <- flag_asks.
  Qed.
End Hidden.
