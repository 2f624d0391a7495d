(** Lemmas about attestations and presentations. *)
From Verif.Lib Require Import Base Bcs Ranges RangesFacts.
From Verif Require Import TranscriptModel TranscriptSpec ProofModel ProofSpec ProofLemmas MerkleModel MerkleSpec MerkleLemmas
  CodecModel AttestModel AttestSpec.

(** ** Serialization *)
Lemma ser_vk_pf : prefix_free (fun k => len_ok (length (vk_data k))) ser_vk.
Proof.
  intros [a d] [a' d'] r s Ha Hb E. unfold ser_vk in E. simpl in *. injection E as -> E.
  apply bcs_bytes_prefix_free in E as [-> ->]; done.
Qed.
Lemma ser_version_pf : prefix_free (fun _ => True) ser_version.
Proof.
  intros a b r s _ _ E. apply bcs_len_prefix_free in E as [E ->]; [|by destruct a|by destruct b].
  by destruct a, b.
Qed.
Lemma ser_ci_pf : prefix_free (fun c => fdata_ok (FCi c)) ser_ci.
Proof.
  intros [t v [x y]] [t' v' [x' y']] r s (Ha & Ha1 & Ha2) (Hb & Hb1 & Hb2) E. unfold ser_ci in E. simpl in *.
  rewrite <- !app_assoc in E.
  apply (le_prefix_free 8) in E as [-> E]; [|done..].
  apply ser_version_pf in E as [-> E]; [|done..].
  apply (le_prefix_free 4) in E as [-> E]; [|done..].
  apply (le_prefix_free 4) in E as [-> ->]; [|done..]. done.
Qed.
Lemma ser_ek_pf : prefix_free (fun k => len_ok (length (ek_key k))) ser_ek.
Proof.
  intros [a] [b] r s Ha Hb E. unfold ser_ek in E. simpl in *. injection E as E.
  apply bcs_bytes_prefix_free in E as [-> ->]; done.
Qed.
Lemma ser_th_pf : prefix_free th_ok ser_th.
Proof.
  intros [a d] [a' d'] r s Ha Hb E. unfold ser_th in E. simpl in *. injection E as -> E.
  apply bcs_bytes_prefix_free in E as [-> ->]; done.
Qed.
Lemma ser_ext_pf : prefix_free (fun e => fdata_ok (FExt e)) ser_ext.
Proof.
  intros [a d] [a' d'] r s [Ha1 Ha2] [Hb1 Hb2] E. unfold ser_ext in E. simpl in *. rewrite <- ?app_assoc in E.
  apply bcs_bytes_prefix_free in E as [-> E]; [|done..].
  apply bcs_bytes_prefix_free in E as [-> ->]; done.
Qed.
Lemma ser_dir_pf : prefix_free (fun _ => True) ser_dir.
Proof.
  intros a b r s _ _ E. apply bcs_len_prefix_free in E as [E ->]; [|by destruct a|by destruct b].
  by destruct a, b.
Qed.
Lemma ser_range_pf : prefix_free (fun r : range => u64 (N.of_nat (fst r)) /\ u64 (N.of_nat (snd r))) ser_range.
Proof.
  intros [a a'] [b b'] r s [Ha1 Ha2] [Hb1 Hb2] E. unfold ser_range in E. cbn [fst snd] in *. rewrite <- ?app_assoc in E.
  apply (le_prefix_free 8) in E as [E1 E]; [|done..].
  apply (le_prefix_free 8) in E as [E2 ->]; [|done..]. split; [|done]. f_equal; lia.
Qed.
Lemma ser_tc_pf : prefix_free tc_ok ser_tc.
Proof.
  intros [d i h] [d' i' h'] r s (Ha1 & Ha2 & Ha3) (Hb1 & Hb2 & Hb3) E. unfold ser_tc in E. cbn [cm_dir cm_idx cm_hash] in *.
  rewrite <- ?app_assoc in E. apply app_inv_head in E.
  apply ser_dir_pf in E as [-> E]; [|done..].
  apply (bcs_seq_prefix_free _ _ ser_range_pf) in E as [-> E]; [|done..].
  apply ser_th_pf in E as [-> ->]; done.
Qed.
Lemma ser_opening_inj o o' : cert_opening_ok o -> cert_opening_ok o' -> ser_opening o = ser_opening o' -> o = o'.
Proof.
  destruct o as [[certs alg sig cr sr ek] bl], o' as [[certs' alg' sig' cr' sr' ek'] bl'].
  intros (Hc & Ha & Hs & Hcr & Hsr & Hek & Hbl) (Hc' & Ha' & Hs' & Hcr' & Hsr' & Hek' & Hbl') E.
  unfold ser_opening in E. cbn [co_data co_blinder hd_certs hd_sig_alg hd_sig hd_client_random hd_server_random hd_ephem_key] in *.
  apply (bcs_seq_prefix_free _ _ bcs_bytes_prefix_free) in E as [-> E]; [|done..].
  assert (forall a, (a < 11)%N -> len_ok (N.to_nat a)) as Hl.
  { intros a Hlt. unfold len_ok. assert (11 < bcs_max_len)%N by done. lia. }
  apply bcs_len_prefix_free in E as [E1 E]; [|by apply Hl..].
  assert (alg = alg') as -> by lia.
  apply bcs_bytes_prefix_free in E as [-> E]; [|done..].
  apply app_inv_head in E.
  apply app_inj_1 in E as [-> E]; [|congruence].
  apply app_inj_1 in E as [-> E]; [|congruence].
  apply ser_ek_pf in E as [-> ->]; done.
Qed.

Lemma field_input_inj dom f g : domains_ok dom -> fdata_ok f -> fdata_ok g ->
  field_input dom f = field_input dom g -> f = g.
Proof.
  intros [Hlen Hinj] Hf Hg E. unfold field_input in E.
  apply app_inj_1 in E as [Ed E]; [|by rewrite !Hlen]. apply Hinj in Ed.
  destruct f, g; try done; simpl in E; f_equal.
  - by eapply (prefix_free_inj _ _ _ _ ser_vk_pf).
  - by eapply (prefix_free_inj _ _ _ _ ser_ci_pf).
  - by eapply (prefix_free_inj _ _ _ _ ser_ek_pf).
  - by eapply (prefix_free_inj _ _ _ _ ser_th_pf).
  - by eapply (prefix_free_inj _ _ _ _ ser_ext_pf).
  - by eapply (prefix_free_inj _ _ _ _ ser_tc_pf).
Qed.

(** ** Numbering *)
Lemma number_fst {A} id (l : list A) : map fst (number id l) = seq id (length l).
Proof. revert id. induction l as [|x l IH]; intros id; simpl; [done|]. by rewrite IH. Qed.
Lemma number_snd {A} id (l : list A) : map snd (number id l) = l.
Proof. revert id. induction l as [|x l IH]; intros id; simpl; [done|]. by rewrite IH. Qed.
Lemma number_length {A} id (l : list A) : length (number id l) = length l.
Proof. revert id. induction l as [|x l IH]; intros id; simpl; [done|]. by rewrite IH. Qed.
Lemma make_body_fields vk ci ek cc exts tcs :
  field_ids (make_body vk ci ek cc exts tcs) = seq 0 (4 + length exts + length tcs) /\
  map snd (body_fields (make_body vk ci ek cc exts tcs)) =
    [FVk vk; FCi ci; FEk ek; FCc cc] ++ map FExt exts ++ map FTc tcs /\
  length (body_fields (make_body vk ci ek cc exts tcs)) = 4 + length exts + length tcs.
Proof.
  split_and!.
  - unfold field_ids, body_fields, make_body. cbn [b_vk b_ci b_ek b_cc b_exts b_tcs fst snd].
    rewrite !map_app, !map_map. cbn [fst snd map].
    change (map (fun x : field extension => x.1) (number 4 exts)) with (map fst (number 4 exts)).
    change (map (fun x : field commitment => x.1) (number (4 + length exts) tcs)) with (map fst (number (4 + length exts) tcs)).
    rewrite !number_fst. rewrite <- Nat.add_assoc. rewrite seq_app. simpl. by rewrite seq_app.
  - unfold body_fields, make_body. cbn [b_vk b_ci b_ek b_cc b_exts b_tcs fst snd].
    rewrite !map_app, !map_map. cbn [fst snd map].
    rewrite <- (map_map snd FExt), <- (map_map snd FTc). by rewrite !number_snd.
  - unfold body_fields, make_body. cbn [b_vk b_ci b_ek b_cc b_exts b_tcs fst snd].
    rewrite !app_length, !map_length, !number_length. simpl. lia.
Qed.
Lemma make_body_numbered vk ci ek cc exts tcs : numbered (make_body vk ci ek cc exts tcs).
Proof.
  unfold numbered. destruct (make_body_fields vk ci ek cc exts tcs) as (-> & _ & ->). done.
Qed.

Lemma seq_ssorted a n : ssorted (seq a n).
Proof.
  revert a. induction n as [|n IH]; intros a; simpl; constructor; [done|].
  rewrite Forall_forall. intros i Hi%elem_of_seq. lia.
Qed.
Lemma hash_fields_keys dom h b : Permutation (keys (hash_fields dom h b)) (field_ids b).
Proof.
  unfold hash_fields, field_ids.
  transitivity (keys (map (fun f => (fst f, hash_field dom h (snd f))) (body_fields b))).
  - apply fmap_Permutation, sort_by_perm.
  - rewrite map_map. done.
Qed.
Lemma hash_fields_elem dom h b i l : (i, l) ∈ hash_fields dom h b <->
  exists f, (i, f) ∈ body_fields b /\ l = hash_field dom h f.
Proof.
  unfold hash_fields. rewrite sort_by_perm, elem_of_list_fmap. split.
  - intros ([j f] & [= -> ->] & Hin). eauto.
  - intros (f & Hin & ->). by exists (i, f).
Qed.
Lemma hash_fields_numbered dom h b : numbered b ->
  hash_fields dom h b = map (fun f => (fst f, hash_field dom h (snd f))) (body_fields b).
Proof.
  intros Hn. unfold hash_fields.
  assert (ssorted (keys (map (fun f => (fst f, hash_field dom h (snd f))) (body_fields b)))) as Hs.
  { rewrite map_map. assert (ssorted (field_ids b)) as Hss; [|exact Hss]. rewrite Hn. apply seq_ssorted. }
  apply sorted_assoc_unique; [by apply sort_by_sorted, ssorted_NoDup|done|].
  intros x. by rewrite sort_by_perm.
Qed.
Lemma body_leaves_numbered dom h b : numbered b ->
  body_leaves dom h b = map (fun f => hash_field dom h (snd f)) (body_fields b).
Proof. intros Hn. unfold body_leaves. rewrite hash_fields_numbered by done. by rewrite map_map. Qed.
Lemma body_leaves_length dom h b : length (body_leaves dom h b) = length (body_fields b).
Proof. unfold body_leaves, hash_fields. rewrite map_length, (Permutation_length (sort_by_perm _)). by rewrite map_length. Qed.
Lemma numbered_lookup b i f : numbered b -> (i, f) ∈ body_fields b <-> map snd (body_fields b) !! i = Some f.
Proof.
  intros Hn. rewrite list_lookup_fmap. split.
  - intros (j & Hj)%elem_of_list_lookup.
    assert (field_ids b !! j = Some i) as Hi by (unfold field_ids; rewrite (list_lookup_fmap fst), Hj; done).
    rewrite Hn in Hi. apply lookup_seq in Hi as [Hi _]. simpl in Hi. subst j. by rewrite Hj.
  - destruct (body_fields b !! i) as [[j g]|] eqn:E; [|intros Hno; discriminate Hno]. intros Hs. injection Hs as ->.
    assert (field_ids b !! i = Some j) as Hi by (unfold field_ids; rewrite list_lookup_fmap, E; done).
    rewrite Hn in Hi. apply lookup_seq in Hi as [Hi _]. simpl in Hi. subst j.
    by eapply elem_of_list_lookup_2.
Qed.

(** ** Roots bind leaves *)
Lemma layer_inj H L k l1 l2 : hash_len H L -> 1 <= length l1 -> length l1 <= 2 ^ k -> length l1 = length l2 ->
  Forall (fun l => length l = L) l1 -> Forall (fun l => length l = L) l2 ->
  layer H k l1 !! 0 = layer H k l2 !! 0 ->
  l1 = l2 \/ exists x y, x ∈ tree_inputs H k l1 /\ y ∈ tree_inputs H k l2 /\ x <> y /\ H x = H y.
Proof.
  intros HL. revert l1 l2. induction k as [|k IH]; intros l1 l2 H1 H2 Hlen HF1 HF2 Hr.
  - simpl in *. destruct l1 as [|a [|? ?]], l2 as [|b [|? ?]]; simpl in *; try lia. injection Hr as ->. by left.
  - cbn [layer tree_inputs] in *.
    assert (forall l, Forall (fun x => length x = L) l -> Forall (fun x => length x = L) (next_layer H l)) as HFn.
    { induction l as [|a|a b l IHl] using list_pair_ind; intros HF; [done|done|].
      apply Forall_cons in HF as [_ HF]. apply Forall_cons in HF as [_ HF]. simpl. constructor; [apply HL|by apply IHl]. }
    destruct (IH (next_layer H l1) (next_layer H l2)) as [Heq|(x & y & Hx & Hy & Hne & Heq)];
      [rewrite next_layer_length; by apply (half_bounds _ k)|rewrite next_layer_length; by apply (half_bounds _ k)
      |rewrite !next_layer_length; by rewrite Hlen|by apply HFn|by apply HFn|done| |].
    + clear IH Hr H1 H2 HFn. assert (l1 = l2 \/ exists x y, x ∈ pair_inputs l1 /\ y ∈ pair_inputs l2 /\ x <> y /\ H x = H y) as [->|Hc]; [|by left|].
      * revert l2 Hlen HF2 Heq. induction l1 as [|a|a b l1 IHl] using list_pair_ind; intros l2 Hlen HF2 Heq.
        -- left. by destruct l2.
        -- destruct l2 as [|a' [|? ?]]; try done. left. simpl in Heq. by injection Heq as ->.
        -- destruct l2 as [|a' [|b' l2]]; try done. simpl in Heq. injection Heq as E1 E2.
           apply Forall_cons in HF1 as [Ha HF1]. apply Forall_cons in HF1 as [Hb HF1].
           apply Forall_cons in HF2 as [Ha' HF2]. apply Forall_cons in HF2 as [Hb' HF2].
           destruct (decide (a ++ b = a' ++ b')) as [E|E].
           ++ apply app_inj_1 in E as [-> ->]; [|congruence].
              destruct (IHl HF1 l2) as [->|(x & y & Hx & Hy & Hne & Hh)]; [by injection Hlen|done|done|by left|].
              right. exists x, y. cbn [pair_inputs]. split_and!; [by right|by right|done|done].
           ++ right. exists (a ++ b), (a' ++ b'). cbn [pair_inputs]. split_and!; [by left|by left|done|done].
      * right. destruct Hc as (x & y & Hx & Hy & Hrest). exists x, y.
        split_and!; [apply elem_of_app; by left|apply elem_of_app; by left|apply Hrest..].
    + right. exists x, y. split_and!; [apply elem_of_app; by right|apply elem_of_app; by right|done|done].
Qed.

Lemma map_collide {A B} (f : A -> list N) (g : list N -> B) (l1 l2 : list A) :
  map (fun x => g (f x)) l1 = map (fun x => g (f x)) l2 ->
  map f l1 = map f l2 \/ exists x y, x ∈ map f l1 /\ y ∈ map f l2 /\ x <> y /\ g x = g y.
Proof.
  revert l2. induction l1 as [|a l1 IH]; intros [|b l2] E; try done; [by left|].
  simpl in E. injection E as E1 E2. destruct (decide (f a = f b)) as [Ef|Ef].
  - destruct (IH l2 E2) as [IH'|(x & y & Hx & Hy & Hrest)].
    + left. simpl. by rewrite Ef, IH'.
    + right. exists x, y. split_and!; [by right|by right|apply Hrest..].
  - right. exists (f a), (f b). split_and!; [by left|by left|done|done].
Qed.

Lemma fields_map_inj (e1 e2 : list (field extension)) t1 t2 :
  map (fun f => (fst f, FExt (snd f))) e1 ++ map (fun f => (fst f, FTc (snd f))) t1 =
  map (fun f => (fst f, FExt (snd f))) e2 ++ map (fun f => (fst f, FTc (snd f))) t2 -> e1 = e2 /\ t1 = t2.
Proof.
  revert e2. induction e1 as [|[i e] e1 IH]; intros [|[j e'] e2] E; simpl in E.
  - split; [done|]. revert t2 E. induction t1 as [|[i c] t1 IH]; intros [|[j c'] t2] E; try done.
    simpl in E. injection E as -> -> E. f_equal. by apply IH.
  - destruct t1 as [|[i c] t1]; done.
  - destruct t2 as [|[i' c] t2]; done.
  - injection E as -> -> E. apply IH in E as [-> ->]. done.
Qed.
Lemma body_fields_inj b1 b2 : body_fields b1 = body_fields b2 -> b1 = b2.
Proof.
  destruct b1 as [[i1 vk1] [j1 ci1] [k1 ek1] [l1 cc1] e1 t1], b2 as [[i2 vk2] [j2 ci2] [k2 ek2] [l2 cc2] e2 t2].
  unfold body_fields. cbn [b_vk b_ci b_ek b_cc b_exts b_tcs fst snd app]. intros E.
  injection E as -> -> -> -> -> -> -> -> E. by apply fields_map_inj in E as [-> ->].
Qed.
Lemma map_field_input_inj dom l1 l2 : domains_ok dom ->
  Forall (fun f : field fdata => fdata_ok (snd f)) l1 -> Forall (fun f : field fdata => fdata_ok (snd f)) l2 ->
  map (fun f => field_input dom (snd f)) l1 = map (fun f => field_input dom (snd f)) l2 -> map snd l1 = map snd l2.
Proof.
  intros Hd HF1. revert l2. induction HF1 as [|[i f] l1 Hf HF1 IH]; intros [|[j g] l2] HF2 E; try done.
  apply Forall_cons in HF2 as [Hg HF2]. simpl in *. injection E as E1 E2.
  apply field_input_inj in E1 as ->; [|done..]. f_equal. by apply IH.
Qed.

Lemma body_root_eq dom h b : 
  body_root dom h b = (let! r := merkle_root (h_hash h) (body_leaves dom h b) in Ok (TypedHash (h_id h) r)).
Proof. done. Qed.
Lemma body_root_inv dom h b r : body_root dom h b = Ok r ->
  r = TypedHash (h_id h) (th_value r) /\ merkle_root (h_hash h) (body_leaves dom h b) = Ok (th_value r).
Proof.
  rewrite body_root_eq. destruct (merkle_root _ _) as [v|[]|]; simpl; [|done]. by intros [= <-].
Qed.
Lemma body_root_exists dom h b : exists r, body_root dom h b = Ok r /\ th_alg r = h_id h.
Proof.
  rewrite body_root_eq. destruct (C13_root_exists (h_hash h) (body_leaves dom h b)) as [v ->].
  - intros E. apply (f_equal length) in E. rewrite body_leaves_length in E. unfold body_fields in E. done.
  - simpl. eauto.
Qed.
Lemma body_leaves_len dom h b L : hash_len (h_hash h) L -> Forall (fun l => length l = L) (body_leaves dom h b).
Proof.
  intros HL. rewrite Forall_forall. intros l ([i l'] & -> & Hin)%elem_of_list_fmap.
  apply hash_fields_elem in Hin as (f & _ & ->). simpl. apply HL.
Qed.

Lemma C15_binding_lemma dom h L b1 b2 r :
  domains_ok dom -> hash_len (h_hash h) L -> body_ok b1 -> body_ok b2 -> numbered b1 -> numbered b2 ->
  length (body_fields b1) = length (body_fields b2) ->
  body_root dom h b1 = Ok r -> body_root dom h b2 = Ok r ->
  b1 = b2 \/ collides h (body_inputs dom h b1) (body_inputs dom h b2).
Proof.
  intros Hd HL Hok1 Hok2 Hn1 Hn2 Hlen Hr1 Hr2.
  apply body_root_inv in Hr1 as [_ Hr1]. apply body_root_inv in Hr2 as [_ Hr2].
  assert (length (body_leaves dom h b1) = length (body_leaves dom h b2)) as Hll by by rewrite !body_leaves_length.
  destruct (layer_inj (h_hash h) L (tree_depth (length (body_leaves dom h b1))) (body_leaves dom h b1) (body_leaves dom h b2))
    as [Heq|(x & y & Hx & Hy & Hne & Hh)].
  - done.
  - rewrite body_leaves_length. unfold body_fields. simpl. lia.
  - apply tree_depth_le.
  - done.
  - by apply body_leaves_len.
  - by apply body_leaves_len.
  - unfold merkle_root, rs_root in Hr1, Hr2. rewrite <- Hll in Hr2.
    destruct (layer _ _ (body_leaves dom h b1) !! 0); [|done]. destruct (layer _ _ (body_leaves dom h b2) !! 0); [|done].
    injection Hr1 as ->. by injection Hr2 as ->.
  - rewrite !body_leaves_numbered in Heq by done. unfold hash_field in Heq.
    apply (map_collide (fun f : field fdata => field_input dom (snd f)) (h_hash h)) in Heq as [Heq|Hc].
    + left. apply map_field_input_inj in Heq; [|done..]. apply body_fields_inj.
      apply (list_eq_same_length _ _ (length (body_fields b1))); [done|done|].
      intros i [j f] [j' f'] Hi Ha Hb.
      assert ((j, f) ∈ body_fields b1) as Hin1 by by eapply elem_of_list_lookup_2.
      assert (field_ids b1 !! i = Some j) as E1 by (unfold field_ids; rewrite list_lookup_fmap, Ha; done).
      assert (field_ids b2 !! i = Some j') as E2 by (unfold field_ids; rewrite list_lookup_fmap, Hb; done).
      rewrite Hn1 in E1. rewrite Hn2 in E2. apply lookup_seq in E1 as [-> _]. apply lookup_seq in E2 as [-> _].
      f_equal. assert (map snd (body_fields b1) !! i = Some f) as E3 by (rewrite list_lookup_fmap, Ha; done).
      assert (map snd (body_fields b2) !! i = Some f') as E4 by (rewrite list_lookup_fmap, Hb; done).
      rewrite Heq in E3. congruence.
    + right. destruct Hc as (x & y & Hx & Hy & Hrest). exists x, y. unfold body_inputs.
      split_and!; [apply elem_of_app; by left|apply elem_of_app; by left|apply Hrest..].
  - right. exists x, y. unfold body_inputs. rewrite <- Hll.
    split_and!; [apply elem_of_app; by right|apply elem_of_app; by right|done|done].
Qed.

Lemma sign_steps_alg s calls : st_sig_alg (fold_left sign_step calls s) = st_sig_alg s /\
  st_hash_alg (fold_left sign_step calls s) = st_hash_alg s /\ st_cc (fold_left sign_step calls s) = st_cc s.
Proof. revert s. induction calls as [|c calls IH]; intros s; simpl; [done|]. destruct (IH (sign_step s c)) as (-> & -> & ->). by destruct c. Qed.

Lemma att_build_inv dom s P uid a : att_build dom s P uid = Ok a ->
  exists h sg ci ek root, cp_hash P (st_hash_alg s) = Some h /\ cp_signer P (st_sig_alg s) = Some sg /\
    st_ci s = Some ci /\ st_ek s = Some ek /\
    a_body a = make_body (sg_vk sg) ci ek (st_cc s) (st_exts s) (st_tcs s) /\
    body_root dom h (a_body a) = Ok root /\ a_header a = Header uid 0 root /\
    sg_sign sg (ser_header (a_header a)) = Some (a_sig a).
Proof.
  unfold att_build. destruct (cp_hash P _) as [h|]; [|done]. destruct (cp_signer P _) as [sg|]; [|done].
  destruct (st_ci s) as [ci|]; [|done]. destruct (st_ek s) as [ek|]; [|done].
  destruct (body_root _ _ _) as [root|[]|] eqn:Er; simpl; [|done].
  destruct (sg_sign sg _) as [sig|] eqn:Es; [|done]. intros [= <-]. simpl.
  exists h, sg, ci, ek, root. by split_and!.
Qed.

Lemma C15_build_lemma dom c rq s0 calls P uid a :
  accept_request c rq = Ok s0 -> att_build dom (fold_left sign_step calls s0) P uid = Ok a ->
  numbered (a_body a) /\
  let s := fold_left sign_step calls s0 in
  length (body_fields (a_body a)) = 4 + length (st_exts s) + length (st_tcs s) /\
  exists h, cp_hash P (rq_hash_alg rq) = Some h /\ body_root dom h (a_body a) = Ok (hd_root (a_header a)).
Proof.
  intros Ha Hb. destruct (att_build_inv _ _ _ _ _ Hb) as (h & sg & ci & ek & root & Hh & Hsg & Hci & Hek & Hbody & Hroot & Hhd & _).
  rewrite Hbody. split; [apply make_body_numbered|]. split; [apply make_body_fields|].
  exists h. split; [|by rewrite <- Hbody, Hroot, Hhd].
  destruct (sign_steps_alg s0 calls) as (_ & E & _). rewrite E in Hh. unfold accept_request in Ha.
  destruct (negb _); [done|]. destruct (negb _); [done|].
  destruct (ac_validator c) as [v|]; [destruct (v _); [|done]|]; by injection Ha as <-.
Qed.

(** ** Attestation proofs *)
Lemma att_proof_verify_inv dom P ap a : att_proof_verify dom P ap = Ok a ->
  a = Attestation (ap_sig ap) (ap_header ap) (bp_body (ap_body ap)) /\
  signed_by P (snd (b_vk (a_body a))) (a_header a) (a_sig a) /\
  exists h, cp_hash P (th_alg (hd_root (ap_header ap))) = Some h /\
    merkle_verify (h_hash h) (bp_proof (ap_body ap)) (th_value (hd_root (ap_header ap))) (hash_fields dom h (bp_body (ap_body ap))) = Ok ().
Proof.
  unfold att_proof_verify, body_proof_verify. destruct (cp_sigver P _) as [v|] eqn:Ev; [|done].
  destruct (cp_hash P _) as [h|] eqn:Eh; [|done].
  destruct (merkle_verify _ _ _ _) as [[]| |] eqn:Em; [|done..]. simpl.
  destruct (v _ _ _) eqn:Es; [|done]. intros [= <-]. split_and!; [done| |eauto].
  exists v. done.
Qed.

Lemma forall_or_exists {A} (l : list A) (P Q : A -> Prop) : (forall x, x ∈ l -> P x \/ Q x) ->
  (forall x, x ∈ l -> P x) \/ exists x, x ∈ l /\ Q x.
Proof.
  induction l as [|x l IH]; intros H.
  - left. intros x Hx. by apply elem_of_nil in Hx.
  - destruct IH as [IH|(y & Hy & HQ)]; [intros y Hy; apply H; by right| |right; exists y; split; [by right|done]].
    destruct (H x) as [HP|HQ]; [by left| |right; exists x; split; [by left|done]].
    left. intros y [->|Hy]%elem_of_cons; [done|by apply IH].
Qed.
Lemma C16_fields_lemma dom P ap a h L b0 :
  domains_ok dom -> hash_len (h_hash h) L -> body_ok b0 -> body_ok (bp_body (ap_body ap)) -> numbered b0 ->
  att_proof_verify dom P ap = Ok a ->
  cp_hash P (th_alg (hd_root (a_header a))) = Some h ->
  body_root dom h b0 = Ok (hd_root (a_header a)) ->
  mp_leaf_count (bp_proof (ap_body ap)) = length (body_fields b0) ->
  (forall i, i ∈ field_ids (a_body a) -> i < length (body_fields b0)) ->
  (forall i f, (i, f) ∈ body_fields (a_body a) -> (i, f) ∈ body_fields b0) \/
  collides h (verify_inputs dom h (a_body a) (bp_proof (ap_body ap))) (body_inputs dom h b0).
Proof.
  intros Hd HL Hok0 Hok Hn Hv Hh Hr Hcnt Hids.
  apply att_proof_verify_inv in Hv as (-> & _ & h' & Hh' & Hm). cbn [a_header a_body] in *.
  rewrite Hh in Hh'. injection Hh' as <-. set (b := bp_body (ap_body ap)) in *.
  apply body_root_inv in Hr as [_ Hr].
  assert (length (body_leaves dom h b0) = length (body_fields b0)) as Hlen by apply body_leaves_length.
  eapply (C14_sound_lemma (h_hash h) L (body_leaves dom h b0)) in Hm as [Hall|Hc];
    [..|done|by apply body_leaves_len|done|by rewrite Hlen|].
  - assert (forall i f, (i, f) ∈ body_fields b ->
      exists g, (i, g) ∈ body_fields b0 /\ hash_field dom h f = hash_field dom h g) as Hex.
    { intros i f Hin. assert (body_leaves dom h b0 !! i = Some (hash_field dom h f)) as Hl.
      { apply Hall. apply hash_fields_elem. eauto. }
      rewrite body_leaves_numbered in Hl by done. rewrite list_lookup_fmap in Hl.
      destruct (body_fields b0 !! i) as [[j g]|] eqn:E; [|done]. simpl in Hl. injection Hl as Hl.
      exists g. split; [|done]. apply numbered_lookup; [done|]. by rewrite list_lookup_fmap, E. }
    destruct (forall_or_exists (body_fields b)
      (fun x => x ∈ body_fields b0)
      (fun x => exists g, (fst x, g) ∈ body_fields b0 /\ field_input dom (snd x) <> field_input dom g /\
                  hash_field dom h (snd x) = hash_field dom h g)) as [HF|HF].
    { intros [i f] Hin. destruct (Hex i f Hin) as (g & Hg & Heq).
      destruct (decide (field_input dom f = field_input dom g)) as [E|E]; [left|right; by exists g].
      apply field_input_inj in E as ->; [done|done| |].
      - unfold body_ok in Hok. rewrite Forall_forall in Hok. by apply (Hok (i, f)).
      - unfold body_ok in Hok0. rewrite Forall_forall in Hok0. by apply (Hok0 (i, g)). }
    + left. intros i f Hin. by apply HF.
    + right. destruct HF as ([i f] & Hin & g & Hg & Hne & Heq).
      exists (field_input dom f), (field_input dom g). split_and!; [| |done|done].
      * apply elem_of_app. left. apply elem_of_list_fmap. by exists (i, f).
      * apply elem_of_app. left. apply elem_of_list_fmap. by exists (i, g).
  - right. destruct Hc as (x & y & Hx & Hy & Hne & Heq). exists x, y.
    split_and!; [apply elem_of_app; by right|apply elem_of_app; by right|done|done].
  - intros i l Hin. apply hash_fields_elem in Hin as (f & Hin & ->). split; [|apply HL].
    rewrite Hlen. apply Hids. apply elem_of_list_fmap. by exists (i, f).
Qed.

(** ** Presentations *)
Lemma kx_params_eq k : kx_params k = [3; 0; 23]%N ++ [(N.of_nat (length (ek_key k)) mod 256)%N] ++ ek_key k.
Proof.
  unfold kx_params, enc_payload, enc_uint. simpl be at 1. cbn [be app]. do 3 f_equal.
  change (256 ^ N.of_nat 1)%N with 256%N. change (256 ^ N.of_nat 0)%N with 1%N.
  by rewrite N.div_1_r, N.mod_mod by lia.
Qed.
Lemma handshake_verify_iff hd cv time ek name :
  handshake_verify hd cv time ek name = Ok () <-> handshake_ok cv hd time ek name.
Proof.
  unfold handshake_verify, handshake_ok. rewrite kx_params_eq. split.
  - case_bool_decide as Ek; simpl; [|done]. destruct (hd_certs hd) as [|leaf inter]; [done|].
    destruct (cv_chain _ _ _ _ _) eqn:E1; simpl; [|done]. destruct (cv_parses _ _) eqn:E2; simpl; [|done].
    destruct (cv_signature _ _ _ _ _) eqn:E3; simpl; [|done]. intros _. split; [done|].
    exists leaf, inter. by split_and!.
  - intros (<- & leaf & inter & -> & H1 & H2 & H3). rewrite bool_decide_eq_true_2 by done. simpl.
    rewrite H1, H2. simpl. simpl in H3. by rewrite H3.
Qed.
Lemma handshake_verify_no_panic hd cv time ek name : handshake_verify hd cv time ek name <> Panic.
Proof.
  unfold handshake_verify. case_bool_decide; simpl; [|done]. destruct (hd_certs hd); [done|].
  destruct (cv_chain _ _ _ _ _); simpl; [|done]. destruct (cv_parses _ _); simpl; [|done].
  by destruct (cv_signature _ _ _ _ _).
Qed.
Lemma identity_verify_iff dom P ip time ek cc name :
  identity_verify dom P ip time ek cc = Ok name <->
  name = ip_name ip /\ (exists h, cp_hash P (th_alg cc) = Some h /\ th_value cc = h_hash h (opening_input dom (ip_opening ip))) /\
  handshake_ok (cp_cert P) (co_data (ip_opening ip)) time ek name.
Proof.
  unfold identity_verify. split.
  - destruct (cp_hash P _) as [h|]; [|done]. case_bool_decide as E; simpl; [|done].
    destruct (handshake_verify _ _ _ _ _) as [[]| |] eqn:Eh; [|done..]. intros [= <-].
    apply handshake_verify_iff in Eh. split_and!; [done|eauto|done].
  - intros (-> & (h & -> & E) & Hh). rewrite bool_decide_eq_true_2 by done. simpl.
    apply handshake_verify_iff in Hh. by rewrite Hh.
Qed.
Lemma identity_verify_no_panic dom P ip time ek cc : identity_verify dom P ip time ek cc <> Panic.
Proof.
  unfold identity_verify. destruct (cp_hash P _) as [h|]; [|done]. case_bool_decide as E; simpl; [|done].
  pose proof (handshake_verify_no_panic (co_data (ip_opening ip)) (cp_cert P) time ek (ip_name ip)) as Hn.
  by destruct (handshake_verify _ _ _ _ _).
Qed.
Lemma C19_binding_lemma dom P h o ip time ek name :
  cert_opening_ok o -> cert_opening_ok (ip_opening ip) -> cp_hash P (h_id h) = Some h ->
  identity_verify dom P ip time ek (opening_commit dom h o) = Ok name ->
  ip_opening ip = o \/
  (opening_input dom (ip_opening ip) <> opening_input dom o /\
   h_hash h (opening_input dom (ip_opening ip)) = h_hash h (opening_input dom o)).
Proof.
  intros Ho Ho' Hh Hv. apply identity_verify_iff in Hv as (_ & (h' & Hh' & E) & _). simpl in *.
  rewrite Hh in Hh'. injection Hh' as <-.
  destruct (decide (opening_input dom (ip_opening ip) = opening_input dom o)) as [Ei|Ei]; [left|right; done].
  unfold opening_input in Ei. apply app_inv_head in Ei. by apply ser_opening_inj.
Qed.

Lemma pres_verify_inv dom P pr out : pres_verify dom P pr = Ok out ->
  att_proof_verify dom P (pr_att pr) = Ok (po_att out) /\
  po_ci out = snd (b_ci (a_body (po_att out))) /\ po_exts out = map snd (b_exts (a_body (po_att out))) /\
  match pr_identity pr, po_name out with
  | Some ip, Some name => identity_verify dom P ip (ci_time (po_ci out)) (snd (b_ek (a_body (po_att out)))) (snd (b_cc (a_body (po_att out)))) = Ok name
  | None, None => True
  | _, _ => False
  end /\
  match pr_transcript pr, po_transcript out with
  | Some tp, Some t => verify_tproof (cp_hash P) (ci_length (po_ci out)) (map snd (b_tcs (a_body (po_att out)))) tp = Ok t
  | None, None => True
  | _, _ => False
  end.
Proof.
  unfold pres_verify. destruct (att_proof_verify _ _ _) as [a| |] eqn:Ea; [|done..]. simpl.
  destruct (pr_identity pr) as [ip|]; simpl.
  - destruct (identity_verify _ _ _ _ _ _) as [name| |] eqn:Ei; [|done..]. simpl.
    destruct (pr_transcript pr) as [tp|]; simpl; [destruct (verify_tproof _ _ _ _) as [t| |] eqn:Et; [|done..]; simpl|];
      intros [= <-]; simpl; by split_and!.
  - destruct (pr_transcript pr) as [tp|]; simpl; [destruct (verify_tproof _ _ _ _) as [t| |] eqn:Et; [|done..]; simpl|];
      intros [= <-]; simpl; by split_and!.
Qed.
Lemma pres_verify_intro dom P pr a name t :
  att_proof_verify dom P (pr_att pr) = Ok a ->
  match pr_identity pr, name with
  | Some ip, Some name => identity_verify dom P ip (ci_time (snd (b_ci (a_body a)))) (snd (b_ek (a_body a))) (snd (b_cc (a_body a))) = Ok name
  | None, None => True
  | _, _ => False
  end ->
  match pr_transcript pr, t with
  | Some tp, Some t => verify_tproof (cp_hash P) (ci_length (snd (b_ci (a_body a)))) (map snd (b_tcs (a_body a))) tp = Ok t
  | None, None => True
  | _, _ => False
  end ->
  pres_verify dom P pr = Ok (PresOutput a name (snd (b_ci (a_body a))) t (map snd (b_exts (a_body a)))).
Proof.
  intros Ha Hi Ht. unfold pres_verify. rewrite Ha. simpl.
  destruct (pr_identity pr) as [ip|], name as [name|]; try done; simpl.
  - rewrite Hi. simpl. destruct (pr_transcript pr) as [tp|], t as [t|]; try done; simpl. by rewrite Ht.
  - destruct (pr_transcript pr) as [tp|], t as [t|]; try done; simpl. by rewrite Ht.
Qed.

Lemma C16_checks_lemma dom P pr out : pres_verify dom P pr = Ok out ->
  let b := a_body (po_att out) in
  signed_by P (snd (b_vk b)) (a_header (po_att out)) (a_sig (po_att out)) /\
  po_ci out = snd (b_ci b) /\ po_exts out = map snd (b_exts b) /\
  (forall name, po_name out = Some name -> exists o h,
     cp_hash P (th_alg (snd (b_cc b))) = Some h /\ th_value (snd (b_cc b)) = h_hash h (opening_input dom o) /\
     handshake_ok (cp_cert P) (co_data o) (ci_time (snd (b_ci b))) (snd (b_ek b)) name) /\
  (forall t, po_transcript out = Some t -> exists tp,
     verify_tproof (cp_hash P) (ci_length (snd (b_ci b))) (map snd (b_tcs b)) tp = Ok t).
Proof.
  intros (Ha & Hci & He & Hi & Ht)%pres_verify_inv b. subst b.
  pose proof (att_proof_verify_inv _ _ _ _ Ha) as (_ & Hs & _). split_and!; [done..| |].
  - intros name Hn. rewrite Hn in Hi. destruct (pr_identity pr) as [ip|]; [|done].
    apply identity_verify_iff in Hi as (_ & (h & Hh & Hv) & Hok). rewrite <- Hci. eauto 10.
  - intros t Hn. rewrite Hn in Ht. destruct (pr_transcript pr) as [tp|]; [|done].
    rewrite <- Hci. eauto.
Qed.

Lemma verify_tproof_no_panic P len cs tp :
  (forall s, s ∈ tp_secrets tp -> rs_ok (sc_idx s)) -> (forall d, rs_ok (p_idx (tp_transcript tp) d)) ->
  verify_tproof P len cs tp <> Panic.
Proof.
  intros H1 H2 E. pose proof (C10_lemma P len cs tp (tp_transcript tp) H1 H2) as [Hiff Herr].
  destruct Herr as [e He]; [|congruence]. intros Ha.
  assert (verify_tproof P len cs tp = Ok (tp_transcript tp)) by (apply Hiff; done). congruence.
Qed.
Lemma pres_verify_no_panic dom P pr :
  (forall tp, pr_transcript pr = Some tp ->
     (forall s, s ∈ tp_secrets tp -> rs_ok (sc_idx s)) /\ (forall d, rs_ok (p_idx (tp_transcript tp) d))) ->
  pres_verify dom P pr <> Panic.
Proof.
  intros Hok. unfold pres_verify.
  destruct (att_proof_verify _ _ _) as [a|e|] eqn:Ea; simpl; [|done|].
  2: { unfold att_proof_verify, body_proof_verify in Ea. destruct (cp_sigver _ _); [|done]. destruct (cp_hash _ _); [|done].
    unfold merkle_verify in Ea. destruct (has_duplicates _); [done|]. destruct (_ =? 0); [done|].
    destruct (proof_root _ _ _ _ _); [case_bool_decide; [|done]|done]. simpl in Ea. by destruct (s _ _ _). }
  assert (forall tp, pr_transcript pr = Some tp -> 
    verify_tproof (cp_hash P) (ci_length (snd (b_ci (a_body a)))) (map snd (b_tcs (a_body a))) tp <> Panic) as Hn.
  { intros tp Htp. destruct (Hok tp Htp). by apply verify_tproof_no_panic. }
  destruct (pr_identity pr) as [ip|]; simpl.
  - pose proof (identity_verify_no_panic dom P ip (ci_time (snd (b_ci (a_body a)))) (snd (b_ek (a_body a))) (snd (b_cc (a_body a)))) as Hi.
    destruct (identity_verify _ _ _ _ _ _); simpl; [|done|done].
    destruct (pr_transcript pr) as [tp|]; simpl; [|done].
    specialize (Hn tp eq_refl). by destruct (verify_tproof _ _ _ _).
  - destruct (pr_transcript pr) as [tp|]; simpl; [|done].
    specialize (Hn tp eq_refl). by destruct (verify_tproof _ _ _ _).
Qed.

(** ** The forgery of a commitment *)
Lemma forged_merkle H l0 l1 l2 l3 A v :
  merkle_root H [l0; l1; l2; l3; H (A ++ v)] = Ok (H (H (H (l0 ++ l1) ++ H (l2 ++ l3)) ++ H (A ++ v))) /\
  merkle_verify H (MerkleProof 6 [A]) (H (H (H (l0 ++ l1) ++ H (l2 ++ l3)) ++ H (A ++ v)))
    [(0, l0); (1, l1); (2, l2); (3, l3); (5, v)] = Ok ().
Proof. split; [done|]. unfold merkle_verify. cbn. by rewrite bool_decide_eq_true_2. Qed.

Lemma C16_forgery_lemma dom P h vk ci ek cc d idx fake msg blinder sig hd tp t :
  cp_hash P (h_id h) = Some h ->
  (* the bytes committed to, with the blinder, encode the fake commitment *)
  msg ++ blinder = field_input dom (FTc fake) ->
  let tc := Commitment d idx (hash_plaintext h msg blinder) in
  body_root dom h (make_body vk ci ek cc [] [tc]) = Ok (hd_root hd) ->
  signed_by P vk hd sig ->
  verify_tproof (cp_hash P) (ci_length ci) [fake] tp = Ok t ->
  let b' := Body (0, vk) (1, ci) (2, ek) (3, cc) [] [(5, fake)] in
  let head := dom DTc ++ bcs_len 0 ++ ser_dir d ++ bcs_seq ser_range idx ++
                [h_id h] ++ bcs_len (length (h_hash h (msg ++ blinder))) in
  pres_verify dom P (Presentation (AttProof sig hd (BodyProof b' (MerkleProof 6 [head]))) None (Some tp)) =
    Ok (PresOutput (Attestation sig hd b') None ci (Some t) []).
Proof.
  intros Hh Hmsg tc Hroot (v & Hv & Hsig) Htp b' head.
  assert (hash_field dom h (FTc tc) = h_hash h (head ++ hash_field dom h (FTc fake))) as Hleaf.
  { unfold hash_field. f_equal. unfold field_input at 1, tc, head. cbn [fdata_domain ser_fdata].
    unfold ser_tc, ser_th, hash_plaintext, bcs_bytes. cbn [cm_dir cm_idx cm_hash th_alg th_value].
    rewrite <- !app_assoc. cbn [app]. rewrite Hmsg. done. }
  destruct (forged_merkle (h_hash h) (hash_field dom h (FVk vk)) (hash_field dom h (FCi ci)) (hash_field dom h (FEk ek))
    (hash_field dom h (FCc cc)) head (hash_field dom h (FTc fake))) as [M1 M2].
  rewrite <- Hleaf in M1, M2.
  assert (hd_root hd = TypedHash (h_id h) (h_hash h
          (h_hash h
             (h_hash h (hash_field dom h (FVk vk) ++ hash_field dom h (FCi ci)) ++
              h_hash h (hash_field dom h (FEk ek) ++ hash_field dom h (FCc cc))) ++
           hash_field dom h (FTc tc)))) as Hr.
  { rewrite body_root_eq in Hroot. 
    change (body_leaves dom h (make_body vk ci ek cc [] [tc])) with
      [hash_field dom h (FVk vk); hash_field dom h (FCi ci); hash_field dom h (FEk ek); hash_field dom h (FCc cc); hash_field dom h (FTc tc)] in Hroot.
    rewrite M1 in Hroot. simpl in Hroot. by injection Hroot as <-. }
  apply (pres_verify_intro dom P _ (Attestation sig hd b') None (Some t)); [|done|done].
  unfold att_proof_verify, body_proof_verify. cbn [pr_att ap_sig ap_header ap_body bp_proof bp_body].
  rewrite Hv, Hr. cbn [th_alg th_value]. rewrite Hh.
  change (hash_fields dom h b') with [(0, hash_field dom h (FVk vk)); (1, hash_field dom h (FCi ci)); (2, hash_field dom h (FEk ek));
    (3, hash_field dom h (FCc cc)); (5, hash_field dom h (FTc fake))].
  rewrite M2. cbn [obind]. change (snd (b_vk b')) with vk. by rewrite Hsig.
Qed.

(** ** Honest presentations *)
Lemma last_omap_app {A B} (f : A -> option B) l x : 
  last (omap f (l ++ [x])) = match f x with Some y => Some y | None => last (omap f l) end.
Proof.
  rewrite omap_app. csimpl. destruct (f x); [by rewrite last_snoc|]. by rewrite app_nil_r.
Qed.
Lemma sign_steps_spec s0 calls : st_ci s0 = None -> st_ek s0 = None -> st_tcs s0 = [] ->
  let s := fold_left sign_step calls s0 in
  st_ci s = called_ci calls /\ st_ek s = called_ek calls /\ st_exts s = st_exts s0 ++ called_exts calls /\
  st_tcs s = called_tcs calls.
Proof.
  intros H1 H2 H3. induction calls as [|c calls IH] using rev_ind; simpl.
  - by rewrite app_nil_r.
  - simpl in IH. rewrite fold_left_app. simpl. destruct IH as (I1 & I2 & I3 & I4).
    unfold called_ci, called_ek, called_exts, called_tcs in *. rewrite !last_omap_app, omap_app.
    destruct c; csimpl; rewrite ?app_nil_r; split_and!; try done.
    by rewrite I3, app_assoc.
Qed.
Lemma accept_request_inv c rq s : accept_request c rq = Ok s ->
  s = SignState (rq_sig_alg rq) (rq_hash_alg rq) None None (rq_cc rq) (rq_exts rq) [].
Proof.
  unfold accept_request. destruct (negb _); [done|]. destruct (negb _); [done|].
  destruct (ac_validator c) as [v|]; [destruct (v _); [|done]|]; by intros [= <-].
Qed.

Lemma body_proof_numbered dom h b r : numbered b -> body_root dom h b = Ok r ->
  exists p, body_proof_new dom h b = Ok (BodyProof b p) /\
    merkle_verify (h_hash h) p (th_value r) (hash_fields dom h b) = Ok ().
Proof.
  intros Hn Hr. unfold body_proof_new.
  assert (map fst (hash_fields dom h b) = seq 0 (length (body_fields b))) as Hk.
  { rewrite hash_fields_numbered by done. rewrite map_map. exact Hn. }
  assert (ssorted (map fst (hash_fields dom h b))) as Hs by (rewrite Hk; apply seq_ssorted).
  assert (length (body_leaves dom h b) = length (body_fields b)) as Hlen by apply body_leaves_length.
  assert (map fst (hash_fields dom h b) <> []) as Hne.
  { rewrite Hk. unfold body_fields. done. }
  assert (forall i, i ∈ map fst (hash_fields dom h b) -> i < length (body_leaves dom h b)) as Hlt.
  { intros i. rewrite Hk, Hlen. intros Hi%elem_of_seq. lia. }
  destruct (proj1 (C13_request_lemma (h_hash h) (body_leaves dom h b) (map fst (hash_fields dom h b)))) as (p & Hp & _); [done|].
  exists p. unfold body_leaves in Hp. rewrite Hp. split; [done|].
  apply body_root_inv in Hr as [_ Hr].
  eapply C13_complete_lemma; [exact Hs|exact Hne|exact Hlt|exact Hp|exact Hr|done|].
  intros i l Hin. rewrite hash_fields_numbered in Hin by done.
  apply elem_of_list_fmap in Hin as ([j f] & [= -> ->] & Hin).
  apply numbered_lookup in Hin; [|done]. rewrite list_lookup_fmap in Hin.
  rewrite body_leaves_numbered by done. rewrite list_lookup_fmap.
  destruct (body_fields b !! j) as [[j' f']|]; [|done]. simpl in *. by injection Hin as ->.
Qed.

Lemma att_build_proof dom s P P' uid a sg :
  att_build dom s P uid = Ok a ->
  (forall al h, cp_hash P al = Some h -> h_id h = al) -> cp_hash P' = cp_hash P ->
  cp_signer P (st_sig_alg s) = Some sg -> signer_ok sg P' ->
  exists ap, att_proof_new dom P' a = Ok ap /\ att_proof_verify dom P' ap = Ok a.
Proof.
  intros Hb Hid HP Hsg Hok.
  destruct (att_build_inv _ _ _ _ _ Hb) as (h & sg' & ci & ek & root & Hh & Hsg' & Hci & Hek & Hbody & Hroot & Hhd & Hsig).
  rewrite Hsg in Hsg'. injection Hsg' as <-.
  assert (numbered (a_body a)) as Hn by (rewrite Hbody; apply make_body_numbered).
  destruct (body_proof_numbered dom h (a_body a) root Hn Hroot) as (p & Hp & Hv).
  pose proof (body_root_inv _ _ _ _ Hroot) as [Hra _].
  assert (cp_hash P' (th_alg (hd_root (a_header a))) = Some h) as Hh'.
  { rewrite HP, Hhd. simpl. rewrite Hra. simpl. rewrite (Hid _ _ Hh). done. }
  exists (AttProof (a_sig a) (a_header a) (BodyProof (a_body a) p)). split.
  - unfold att_proof_new. rewrite Hh', Hp. done.
  - unfold att_proof_verify, body_proof_verify. cbn [ap_sig ap_header ap_body bp_proof bp_body].
    destruct (Hok _ _ Hsig) as (v & -> & Hvok). rewrite Hh'.
    assert (th_value (hd_root (a_header a)) = th_value root) as -> by by rewrite Hhd.
    rewrite Hv. simpl. assert (snd (b_vk (a_body a)) = sg_vk sg) as -> by by rewrite Hbody.
    rewrite Hvok. by destruct a.
Qed.

Lemma C17_lemma dom cover P Pn Pv rb blinder rq se c s0 calls uid a ci ek sg reveals tp (with_id with_t : bool) :
  cover_ok cover -> provider_ok (cp_hash P) -> cp_hash Pn = cp_hash P -> cp_hash Pv = cp_hash P ->
  (* the prover's request, the notary's attestation *)
  req_build dom P rb blinder = Some (rq, se) ->
  accept_request c rq = Ok s0 -> att_build dom (fold_left sign_step calls s0) Pn uid = Ok a ->
  cp_signer Pn (rq_sig_alg rq) = Some sg -> signer_ok sg Pv ->
  called_ci calls = Some ci -> called_ek calls = Some ek -> called_tcs calls = se_commitments se ->
  (* the connection *)
  handshake_ok (cp_cert Pv) (co_data (se_opening se)) (ci_time ci) ek (se_name se) ->
  ci_length ci = t_length (se_transcript se) ->
  (N.of_nat (length (t_sent (se_transcript se))) < 2 ^ 32)%N -> (N.of_nat (length (t_recv (se_transcript se))) < 2 ^ 32)%N ->
  (forall s, s ∈ se_secrets se -> secret_ok s) ->
  (forall s, s ∈ se_secrets se -> exists cm, cm ∈ se_commitments se /\ committed_by (cp_hash P) (se_transcript se) s cm) ->
  tb_build cover (tb_run (se_transcript se) (se_secrets se) reveals) = Ok tp ->
  exists pr, pres_build dom P a (if with_id then Some (secrets_identity_proof se) else None) (if with_t then Some tp else None) = Ok pr /\
    pres_verify dom Pv pr = Ok (PresOutput a (if with_id then Some (se_name se) else None) ci
      (if with_t then Some (tp_transcript tp) else None) (rq_exts rq ++ called_exts calls)).
Proof.
  intros Hcov HP HPn HPv Hrb Hacc Hb Hsg Hsgok Hci Hek Htcs Hhs Hlen Hl1 Hl2 Hsec Hcm Htp.
  pose proof (accept_request_inv _ _ _ Hacc) as Hs0.
  destruct (sign_steps_spec s0 calls) as (S1 & S2 & S3 & S4); [by rewrite Hs0..|].
  destruct (sign_steps_alg s0 calls) as (S5 & S6 & S7).
  destruct (att_build_inv _ _ _ _ _ Hb) as (h & sg' & ci' & ek' & root & Hh & Hsg' & Hci' & Hek' & Hbody & Hroot & Hhd & Hsig).
  rewrite S5, Hs0 in Hsg'. cbn [st_sig_alg] in Hsg'. rewrite Hsg in Hsg'. injection Hsg' as <-.
  rewrite S1, Hci in Hci'. injection Hci' as <-. rewrite S2, Hek in Hek'. injection Hek' as <-.
  rewrite S3, S4, S7, Hs0 in Hbody. cbn [st_cc st_exts] in Hbody.
  destruct (att_build_proof dom (fold_left sign_step calls s0) Pn Pv uid a sg) as (ap & Hap & Hapv);
    [done|by rewrite HPn|by rewrite HPn, HPv|by rewrite S5, Hs0|done|].
  assert (att_proof_new dom P a = Ok ap) as HapP.
  { rewrite <- Hap. unfold att_proof_new. by rewrite HPv. }
  unfold pres_build. rewrite HapP. simpl. eexists. split; [done|].
  rewrite (pres_verify_intro dom Pv _ a (if with_id then Some (se_name se) else None) (if with_t then Some (tp_transcript tp) else None)).
  - f_equal. f_equal; [by rewrite Hbody|]. rewrite Hbody. simpl. by rewrite number_snd.
  - done.
  - simpl. destruct with_id; [|done]. rewrite Hbody. simpl. apply identity_verify_iff. simpl.
    split_and!; [done| |done].
    unfold req_build in Hrb. destruct (cp_hash P (rb_hash_alg rb)) as [h0|] eqn:Eh0; [|done].
    destruct (rb_name rb); [|done]. destruct (rb_handshake rb); [|done]. destruct (rb_transcript rb); [|done].
    injection Hrb as <- <-. simpl in *. exists h0. split; [|done]. by rewrite HPv, (HP _ _ Eh0).
  - simpl. destruct with_t; [|done]. rewrite Hbody. cbn [make_body b_ci b_tcs snd fst]. rewrite number_snd, Hlen, HPv, Htcs.
    eapply C11_lemma; done.
Qed.

(** ** Validation *)
Lemma C18_lemma rq a P : validate rq a P = Ok () <->
  answers rq a /\ signed_by P (snd (b_vk (a_body a))) (a_header a) (a_sig a).
Proof.
  unfold validate, answers, signed_by. 
  assert (forallb (fun e => existsb (fun e' => bool_decide (e' = e)) (map snd (b_exts (a_body a)))) (rq_exts rq) = true <->
    forall e, e ∈ rq_exts rq -> exists i, (i, e) ∈ b_exts (a_body a)) as Hext.
  { rewrite forallb_forall. split; intros Hf e He.
    - apply elem_of_list_In, Hf, existsb_exists in He as (e' & He' & Heq%bool_decide_eq_true). subst e'.
      apply elem_of_list_In, elem_of_list_fmap in He' as ([i e'] & -> & Hin). by exists i.
    - apply elem_of_list_In in He. destruct (Hf e He) as [i Hi]. apply existsb_exists. exists e.
      split; [|by apply bool_decide_eq_true_2]. apply elem_of_list_In, elem_of_list_fmap. by exists (i, e). }
  split.
  - destruct (N.eqb_spec (s_alg (a_sig a)) (rq_sig_alg rq)) as [E1|]; simpl; [|done].
    destruct (N.eqb_spec (th_alg (hd_root (a_header a))) (rq_hash_alg rq)) as [E2|]; simpl; [|done].
    case_bool_decide as E3; simpl; [|done].
    destruct (forallb _ _) eqn:E4; simpl; [|done]. apply proj1 in Hext. specialize (Hext eq_refl).
    destruct (cp_sigver P _) as [v|] eqn:E5; [|done].
    destruct (v _ _ _) eqn:E6; [|done]. intros _. split; [by split_and!|]. by exists v.
  - intros ((E1 & E2 & E3 & E4) & v & E5 & E6). apply Hext in E4.
    rewrite E1, N.eqb_refl, E2, N.eqb_refl. simpl. rewrite bool_decide_eq_true_2 by done. simpl. rewrite E4. simpl.
    rewrite <- E1, E5. by rewrite E6.
Qed.
Lemma validate_no_panic rq a P : validate rq a P <> Panic.
Proof.
  unfold validate. destruct (negb _); [done|]. destruct (negb _); [done|]. destruct (negb _); [done|].
  destruct (negb _); [done|]. destruct (cp_sigver P _); [|done]. by destruct (s _ _ _).
Qed.

(** ** Registration *)
Lemma last_registered_snoc {A} (hist : list (N * A)) e a :
  last_registered (hist ++ [e]) a = if (a =? fst e)%N then Some (snd e) else last_registered hist a.
Proof.
  unfold last_registered. rewrite filter_app. rewrite filter_cons, filter_nil. case_decide as E.
  - rewrite last_snoc. subst a. by rewrite N.eqb_refl.
  - rewrite app_nil_r. destruct (N.eqb_spec a (fst e)) as [->|]; [done|done].
Qed.
Lemma registrations {A} (set : (N -> option A) -> N * A -> N -> option A) :
  (forall p e a, set p e a = if (a =? fst e)%N then Some (snd e) else p a) ->
  forall hist p a, fold_left set hist p a = match last_registered hist a with Some x => Some x | None => p a end.
Proof.
  intros Hset hist p a. induction hist as [|e hist IH] using rev_ind; [done|].
  rewrite fold_left_app, last_registered_snoc. simpl. rewrite Hset, IH. by destruct (a =? fst e)%N.
Qed.
Lemma last_registered_reserved {A} (hist : list (N * A)) a :
  (forall e, e ∈ hist -> (128 <= fst e)%N) -> (a < 128)%N -> last_registered hist a = None.
Proof.
  intros Hh Ha. induction hist as [|e hist IH] using rev_ind; [done|].
  rewrite last_registered_snoc. destruct (N.eqb_spec a (fst e)) as [->|].
  - assert (128 <= fst e)%N; [|lia]. apply Hh, elem_of_app. right. by left.
  - apply IH. intros e' He'. apply Hh, elem_of_app. by left.
Qed.
