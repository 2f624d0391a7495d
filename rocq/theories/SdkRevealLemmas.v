(** Lemmas for C51: from the handlers to what the prover shows and commits to. *)
From Verif.Lib Require Import Base Ranges RangesFacts.
From Verif Require Import TranscriptModel CodecModel SdkModel SdkSpec SdkLemmas SdkExtractLemmas.

Section Reveal.
  Context (parse_request : list N -> option request) (parse_response : list N -> option response).
  Context (name_eq : list N -> list N -> bool) (json_get : json -> list N -> option json).
  Context (regex_find : list N -> list N -> option (list range)).
  Context (arrange : list commit_item -> list commit_item).
  Local Notation extract_ranges := (extract_ranges name_eq json_get regex_find).
  Local Notation extracts := (extracts name_eq json_get regex_find).
  Local Notation names := (names name_eq json_get regex_find).
  Local Notation compute_reveal := (compute_reveal parse_request parse_response name_eq json_get regex_find).

  Lemma shown_iff sent recv hs o t c :
    compute_reveal sent recv hs = Ok o ->
    sdk_prove_config arrange t (ro_reveal o) (ro_commit o) = Ok c ->
    exists rq rp, parse_request sent = Some rq /\ parse_response recv = Some rp /\
    forall d i, in_rs i (shown d c) <->
      exists h rs, h ∈ hs /\ reveals d h /\ extracts rq rp sent recv h rs /\ in_rs i rs.
  Proof.
    intros Ho Hc. apply compute_reveal_exact in Ho as (rq & rp & ext & Hq & Hp & Hall & Hd & _).
    exists rq, rp. split_and!; [done|done|]. intros d i.
    destruct (prove_config_shown _ _ _ _ _ Hc) as [_ Hs]. rewrite Hs.
    destruct (Hd d) as [-> _]. rewrite in_rs_flat_map. split.
    - intros (h & [Hr Hh]%elem_of_list_filter & Hi). exists h, (ext h). split_and!; try done.
      unfold SdkSpec.extracts. destruct (Hall h Hh) as [H1 H2]. destruct (hn_type h); auto.
    - intros (h & rs & Hh & Hr & He & Hi). exists h. split; [by apply elem_of_list_filter|].
      destruct (Hall h Hh) as [H1 H2]. unfold SdkSpec.extracts in He.
      destruct (hn_type h); [specialize (H1 eq_refl)|specialize (H2 eq_refl)]; congruence.
  Qed.

  Lemma committed_iff sent recv hs o t c :
    iterates arrange ->
    compute_reveal sent recv hs = Ok o ->
    sdk_prove_config arrange t (ro_reveal o) (ro_commit o) = Ok c ->
    exists rq rp, parse_request sent = Some rq /\ parse_response recv = Some rp /\
    forall d idx alg, (d, idx, alg) ∈ default [] (pc_commit c) <->
      exists h a rs r, h ∈ hs /\ hashes d a h /\ extracts rq rp sent recv h rs /\ r ∈ rs /\
        idx = rs_from [r] /\ alg = alg_id_of a.
  Proof.
    intros Hit Ho Hc. apply compute_reveal_exact in Ho as (rq & rp & ext & Hq & Hp & Hall & Hd & _).
    exists rq, rp. split_and!; [done|done|]. intros d idx alg.
    destruct (prove_config_commits _ _ _ _ _ Hit Hc) as [_ ->].
    destruct (Hd d) as (_ & -> & _). setoid_rewrite elem_of_list_In. setoid_rewrite in_flat_map.
    setoid_rewrite <- elem_of_list_In. split.
    - intros (cr & (h & [Ht Hh]%elem_of_list_filter & Hin) & -> & ->).
      unfold wanted_commits in Hin. destruct (hn_action h) as [|a] eqn:Ea; [by apply elem_of_nil in Hin|].
      change (map ?f) with (fmap (M:=list) f) in Hin. apply elem_of_list_fmap in Hin as (r & -> & Hr).
      exists h, a, (ext h), r. split_and!; [done|done| |done|by destruct r|done].
      unfold SdkSpec.extracts. destruct (Hall h Hh) as [H1 H2]. destruct (hn_type h); auto.
    - intros (h & a & rs & r & Hh & [Ht Ha] & He & Hr & -> & ->).
      assert (rs = ext h) as ->.
      { destruct (Hall h Hh) as [H1 H2]. unfold SdkSpec.extracts in He.
        destruct (hn_type h); [specialize (H1 eq_refl)|specialize (H2 eq_refl)]; congruence. }
      exists (CommitRange (fst r) (snd r) a). split_and!; [|by destruct r|done].
      exists h. split; [by apply elem_of_list_filter|]. unfold wanted_commits. rewrite Ha.
      change (map ?f) with (fmap (M:=list) f). apply elem_of_list_fmap. eauto.
  Qed.

  (** With what the handlers name instead of what is extracted for them. *)
  Lemma shown_named sent recv hs o t c rq rp :
    compute_reveal sent recv hs = Ok o ->
    sdk_prove_config arrange t (ro_reveal o) (ro_commit o) = Ok c ->
    parse_request sent = Some rq -> parse_response recv = Some rp ->
    message_ok (ReqMsg rq) -> message_ok (RespMsg rp) -> get_ok json_get ->
    forall d i, in_rs i (shown d c) <-> exists h, h ∈ hs /\ reveals d h /\ names rq rp sent recv d h i.
  Proof.
    intros Ho Hc Hq Hp Hmq Hmp Hg d i.
    assert (forall h, h ∈ hs -> exists rs, extracts rq rp sent recv h rs) as Hex.
    { destruct (compute_reveal_succeeds parse_request parse_response name_eq json_get regex_find sent recv hs) as [Hf _].
      destruct Hf as (rq' & rp' & Hq' & Hp' & Hall); [eauto|].
      assert (rq' = rq) as -> by congruence. assert (rp' = rp) as -> by congruence. exact Hall. }
    destruct (shown_iff _ _ _ _ _ _ Ho Hc) as (rq' & rp' & Hq' & Hp' & ->).
    assert (rq' = rq) as -> by congruence. assert (rp' = rp) as -> by congruence.
    assert (forall h rs, reveals d h -> extracts rq rp sent recv h rs ->
      in_rs i rs <-> names rq rp sent recv d h i) as Hn.
    { intros h rs [<- _] He. unfold SdkSpec.names, SdkSpec.extracts in *. destruct (hn_type h); by apply extract_ranges_select. }
    split.
    - intros (h & rs & Hh & Hr & He & Hi). exists h. split_and!; [done|done|]. by apply (Hn h rs).
    - intros (h & Hh & Hr & Hi). destruct (Hex h Hh) as [rs He]. exists h, rs. split_and!; try done.
      by apply (Hn h rs).
  Qed.

  Lemma hash_only_hidden sent recv hs o t c rq rp d i :
    compute_reveal sent recv hs = Ok o ->
    sdk_prove_config arrange t (ro_reveal o) (ro_commit o) = Ok c ->
    parse_request sent = Some rq -> parse_response recv = Some rp ->
    message_ok (ReqMsg rq) -> message_ok (RespMsg rp) -> get_ok json_get ->
    (forall h, h ∈ hs -> hn_type h = d -> names rq rp sent recv d h i -> exists a, hn_action h = HashAction a) ->
    ~ in_rs i (shown d c).
  Proof.
    intros Ho Hc Hq Hp Hmq Hmp Hg Hall Hi.
    apply (shown_named _ _ _ _ _ _ _ _ Ho Hc Hq Hp Hmq Hmp Hg) in Hi as (h & Hh & [Ht Hr] & Hn).
    destruct (Hall h Hh Ht Hn) as [a Ha]. congruence.
  Qed.
End Reveal.
