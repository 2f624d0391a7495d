(** Consequences of the invariant, for histories. *)
From Verif.Lib Require Import Base Ranges.
From Verif Require Import TranscriptModel ProofModel CodecModel CodecSpec CodecLemmas AttestModel TlsModel AuthModel AuthSpec
  TagModel TagSpec TagLemmas RecordModel RecordSpec RecordGcmLemmas RecordFlushLemmas RecordLemmas.

Section Hist.
  Context (aes : list N -> list N -> list N) (ghash_fn : list N -> list N -> list N).
  Context (checked : bool).
  Context (enc_key enc_iv dec_key dec_iv : list N).
  Context (blind : N -> nat -> N) (pad_rng : nat -> N).
  Context (Haes : aes_ok aes).
  Notation rl_step := (rl_step aes ghash_fn checked enc_key enc_iv dec_key dec_iv blind pad_rng).
  Notation rl_run := (rl_run aes ghash_fn checked enc_key enc_iv dec_key dec_iv blind pad_rng).
  Notation out_enc := (out_enc aes ghash_fn enc_key enc_iv).
  Notation log_enc := (log_enc aes ghash_fn enc_key enc_iv).
  Notation enc_right := (enc_right aes enc_key enc_iv blind).
  Notation dec_right := (dec_right aes ghash_fn dec_key dec_iv).
  Notation inv := (inv aes ghash_fn enc_key enc_iv dec_key dec_iv blind).

  Definition past_after (p p' : past) (cs : list rl_call) (os : results) : Prop :=
    (p_n p' <= p_n p + N.of_nat (length cs))%N /\
    p_ae p' = p_ae p ++ accepted_enc cs os /\ p_ad p' = p_ad p ++ accepted_dec cs os /\
    p_he p' = p_he p ++ handed_enc os /\ p_hd p' = p_hd p ++ handed_dec os /\ p_lg p' = p_lg p ++ logs_in os /\
    p_ms p' = (p_ms p + agreed_sent cs os)%N /\ p_mr p' = (p_mr p + agreed_recv cs os)%N.

  Lemma accepted_enc_cons c o cs os : accepted_enc (c :: cs) (o :: os) = accepted_enc [c] [o] ++ accepted_enc cs os.
  Proof. by destruct c, o. Qed.
  Lemma accepted_dec_cons c o cs os : accepted_dec (c :: cs) (o :: os) = accepted_dec [c] [o] ++ accepted_dec cs os.
  Proof. by destruct c, o. Qed.
  Lemma handed_enc_cons o os : handed_enc (o :: os) = handed_enc [o] ++ handed_enc os.
  Proof. by destruct o as [[|[]| |]| |]. Qed.
  Lemma handed_dec_cons o os : handed_dec (o :: os) = handed_dec [o] ++ handed_dec os.
  Proof. by destruct o as [[| |[]|]| |]. Qed.
  Lemma logs_in_cons o os : logs_in (o :: os) = logs_in [o] ++ logs_in os.
  Proof. by destruct o as [[]| |]. Qed.
  Lemma agreed_cons f c o cs os : agreed f (c :: cs) (o :: os) = (agreed f [c] [o] + agreed f cs os)%N.
  Proof. destruct c, o; cbn; try done. lia. Qed.

  Lemma run_inv cs s s' os p : rl_run cs s = (s', os) -> Forall call_ok cs -> inv s p ->
    exists p', inv s' p' /\ past_after p p' cs os /\ (no_failure os -> clean s p -> clean s' p') /\ rl_role s' = rl_role s.
  Proof.
    revert s os p. induction cs as [|c cs IH]; intros s os p H Hok Hinv; cbn [RecordModel.rl_run] in H.
    - injection H as <- <-. exists p. split_and!; [done| |done|done].
      unfold past_after, agreed_sent, agreed_recv; cbn. rewrite !app_nil_r. split_and!; try done; lia.
    - apply Forall_cons in Hok as [Hc Hok]. destruct (rl_step c s) as [s1 o] eqn:Es.
      eapply step_role in Es as Hrole; [|done..]. eapply step_inv in Es as (fe & fd & Hi & Hcl); [|done..].
      assert (forall os', past_after p (past_step c o fe fd p) [c] [o] /\
        (forall p' n, past_after (past_step c o fe fd p) p' cs os' -> n = length cs -> past_after p p' (c :: cs) (o :: os'))) as Hpast.
      { intros os'. split.
        - unfold past_after, past_step. cbn [p_n p_ae p_ad p_he p_hd p_lg p_ms p_mr length]. split_and!; try done; lia.
        - intros p' n (A1 & A2 & A3 & A4 & A5 & A6 & A7 & A8) _. unfold past_after.
          unfold past_step in *. cbn [p_n p_ae p_ad p_he p_hd p_lg p_ms p_mr length] in *.
          rewrite accepted_enc_cons, accepted_dec_cons, handed_enc_cons, handed_dec_cons, logs_in_cons.
          unfold agreed_sent, agreed_recv in *. rewrite !(agreed_cons _ c o cs os').
          rewrite A2, A3, A4, A5, A6, A7, A8, <- !app_assoc. split_and!; try done; lia. }
      destruct o as [r|e|].
      + destruct (rl_run cs s1) as [s2 os'] eqn:Er. injection H as <- <-.
        eapply IH in Er as (p' & Hi' & Hp & Hcl' & Hr'); [|done..]. exists p'. destruct (Hpast os') as [_ Hp2].
        split_and!; [done|by eapply Hp2| |congruence]. intros Hnf Hc0. apply Forall_cons in Hnf as [H1 H2]. apply Hcl'; [done|]. by apply Hcl.
      + destruct (rl_run cs s1) as [s2 os'] eqn:Er. injection H as <- <-.
        eapply IH in Er as (p' & Hi' & Hp & Hcl' & Hr'); [|done..]. exists p'. destruct (Hpast os') as [_ Hp2].
        split_and!; [done|by eapply Hp2| |congruence]. intros Hnf. apply Forall_cons in Hnf as [[? [=]] _].
      + injection H as <- <-. exists (past_step c Panic fe fd p). split_and!; [done| | |done].
        * unfold past_after, past_step, agreed_sent, agreed_recv. cbn [p_n p_ae p_ad p_he p_hd p_lg p_ms p_mr length].
          rewrite (accepted_enc_cons c Panic cs []), (accepted_dec_cons c Panic cs []), !(agreed_cons _ c Panic cs []).
          assert (forall f, agreed f cs [] = 0%N) as Hag by (intros f; by destruct cs as [|[]]).
          assert (accepted_enc cs [] = []) as -> by (by destruct cs as [|[]]).
          assert (accepted_dec cs [] = []) as -> by (by destruct cs as [|[]]).
          rewrite !Hag, !app_nil_r, !N.add_0_r. split_and!; try done; lia.
        * intros Hnf. apply Forall_cons in Hnf as [[? [=]] _].
  Qed.

  Lemma history_inv r cs s' os : rl_run cs (rl_new r) = (s', os) -> Forall call_ok cs ->
    exists p, inv s' p /\ past_after past0 p cs os /\ (no_failure os -> clean s' p) /\ rl_role s' = r.
  Proof.
    intros H Hok. assert (inv (rl_new r) past0) as Hi by (by apply inv_new).
    destruct (run_inv cs (rl_new r) s' os past0 H Hok Hi) as (p & H1 & H2 & H3 & H4).
    exists p. split_and!; [done|done| |done]. intros Hn. apply H3; [done|]. apply clean_new.
  Qed.

  (** ** C37 *)
  Lemma fe_seqs s p : inv s p -> map (fun x => eo_seq (fst x)) (p_fe p) `sublist_of` map eo_seq (eops s p).
  Proof. intros _. unfold eops. rewrite map_app, map_map. by apply sublist_inserts_r. Qed.
  Lemma fe_seq_lt s p x : inv s p -> x ∈ p_fe p -> (eo_seq (fst x) < p_n p)%N.
  Proof.
    intros Hi Hx. pose proof (fe_seqs _ _ Hi) as Hs. destruct Hi. rewrite Forall_forall in i_ebound.
    assert (eo_seq (fst x) < rl_write_seq s)%N; [|lia]. apply i_ebound. eapply sublist_elem; [done|].
    by apply (elem_of_list_fmap_1 (fun x => eo_seq (fst x))).
  Qed.
  Lemma fe_nonce s p x : inv s p -> x ∈ p_fe p -> eo_nonce (fst x) = be 8 (eo_seq (fst x)).
  Proof.
    intros [] Hx. rewrite Forall_forall in i_ewf. destruct (i_ewf (fst x)) as (_ & _ & H & _); [|done].
    unfold eops. apply elem_of_app. left. by apply elem_of_list_fmap_1.
  Qed.
  Lemma fe_wf s p x : inv s p -> x ∈ p_fe p -> eop_wf (fst x).
  Proof.
    intros [] Hx. rewrite Forall_forall in i_ewf. apply i_ewf.
    unfold eops. apply elem_of_app. left. by apply elem_of_list_fmap_1.
  Qed.
  Lemma fd_wf s p x : inv s p -> x ∈ p_fd p -> dop_wf (fst x).
  Proof.
    intros [] Hx. rewrite Forall_forall in i_dwf. apply i_dwf.
    unfold dops. apply elem_of_app. left. by apply elem_of_list_fmap_1.
  Qed.
  Lemma handed_prefix s p i x : inv s p -> p_he p !! i = Some x ->
    exists op c, p_fe p !! i = Some (op, c) /\ x = out_enc (rl_role s) op c.
  Proof.
    intros [] Hx. assert ((p_he p ++ rl_encrypted s) !! i = Some x) as H by (by apply lookup_app_l_Some).
    rewrite i_he in H. apply list_lookup_fmap_inv in H as ([op c] & -> & H). eauto.
  Qed.
  Lemma handed_dec_prefix s p i x : inv s p -> p_hd p !! i = Some x ->
    exists op t, p_fd p !! i = Some (op, t) /\ x = out_dec op t.
  Proof.
    intros [] Hx. assert ((p_hd p ++ rl_decrypted s) !! i = Some x) as H by (by apply lookup_app_l_Some).
    rewrite i_hd in H. apply list_lookup_fmap_inv in H as ([op c] & -> & H). eauto.
  Qed.

  Lemma C37_nonces_lemma r cs s' os : rl_run cs (rl_new r) = (s', os) -> Forall call_ok cs -> (N.of_nat (length cs) < 2 ^ 64)%N ->
    NoDup (map er_nonce (handed_enc os)) /\ Forall (fun x => length (er_nonce x) = 8) (handed_enc os).
  Proof.
    intros H Hok Hn. apply history_inv in H as (p & Hi & (Hpn & _ & _ & Hhe & _) & _ & _); [|done]. cbn in Hpn, Hhe.
    rewrite <- Hhe. split.
    - apply NoDup_alt. intros i j n Ha Hb.
      apply list_lookup_fmap_inv in Ha as (x & -> & Hx). apply list_lookup_fmap_inv in Hb as (y & Heq & Hy).
      eapply handed_prefix in Hx as (op & c & Hx & Ex'); [|done]. eapply handed_prefix in Hy as (op' & c' & Hy & Ey'); [|done]. subst x y.
      cbn in Heq. apply elem_of_list_lookup_2 in Hx as Ex. apply elem_of_list_lookup_2 in Hy as Ey.
      pose proof (fe_nonce _ _ _ Hi Ex) as Nx. pose proof (fe_nonce _ _ _ Hi Ey) as Ny. cbn [fst] in Nx, Ny.
      pose proof (fe_seq_lt _ _ _ Hi Ex) as Lx. pose proof (fe_seq_lt _ _ _ Hi Ey) as Ly. cbn in Lx, Ly.
      assert (eo_seq op = eo_seq op') as Hs.
      { rewrite Nx, Ny in Heq. assert (of_be (be 8 (eo_seq op)) = of_be (be 8 (eo_seq op'))) as E by (by rewrite Heq).
        rewrite !of_be_be in E. change (256 ^ N.of_nat 8)%N with (2 ^ 64)%N in E. rewrite !N.mod_small in E by lia. done. }
      pose proof (fe_seqs _ _ Hi) as Hsub. destruct Hi.
      pose proof (increasing_NoDup _ (increasing_sublist _ _ i_eseq Hsub)) as Hnd.
      eapply NoDup_lookup; [exact Hnd| |].
      + rewrite list_lookup_fmap, Hx. done.
      + rewrite list_lookup_fmap, Hy. cbn. by rewrite Hs.
    - apply Forall_forall. intros x Hx. apply elem_of_list_lookup in Hx as [i Hx].
      eapply handed_prefix in Hx as (op & c & Hx & ->); [|done]. apply elem_of_list_lookup_2 in Hx as Ex. cbn.
      pose proof (fe_nonce _ _ _ Hi Ex) as Nx. cbn [fst] in Nx. rewrite Nx. apply be_length.
  Qed.
  Lemma logs_in_elem os a b : Ok (RLogs a b) ∈ os -> (a, b) ∈ logs_in os.
  Proof. intros H. apply elem_of_list_omap. eexists. split; [done|]. done. Qed.
  Lemma logs_are r cs s' os ls lr : rl_run cs (rl_new r) = (s', os) -> Forall call_ok cs -> Ok (RLogs ls lr) ∈ os ->
    exists p, inv s' p /\ past_after past0 p cs os /\ (no_failure os -> clean s' p) /\ rl_role s' = r /\
      ls = map (fun x => log_enc r (fst x) (snd x)) (p_fe p) /\ lr = map (fun x => log_dec (fst x) (snd x)) (p_fd p).
  Proof.
    intros H Hok Hl%logs_in_elem. apply history_inv in H as (p & Hi & Hp & Hcl & Hr); [|done]. exists p.
    pose proof Hp as (_ & _ & _ & _ & _ & Hlg & _). cbn in Hlg. rewrite <- Hlg in Hl. pose proof Hi as [].
    rewrite Forall_forall in i_lg. apply i_lg in Hl. injection Hl as -> ->. rewrite Hr in *. split_and!; done.
  Qed.
  Lemma C37_log_lemma r cs s' os ls lr : rl_run cs (rl_new r) = (s', os) -> Forall call_ok cs -> (N.of_nat (length cs) < 2 ^ 64)%N ->
    Ok (RLogs ls lr) ∈ os ->
    increasing (map r_seq ls) /\ Forall (fun x => is_be 8 (r_seq x) (r_nonce x)) ls /\
    increasing (map r_seq lr) /\
    Forall (fun x => exists v tag, accepted_dec cs os !! N.to_nat (r_seq x) = Some (r_typ x, v, r_nonce x, r_ct x, tag) /\
      r_tag x = Some tag) lr.
  Proof.
    intros H Hok Hn Hl. eapply logs_are in H as (p & Hi & (Hpn & _ & Had & _) & _ & Hr & -> & ->); [|done..].
    cbn in Hpn, Had. rewrite !map_map. split_and!.
    - pose proof (fe_seqs _ _ Hi) as Hsub. destruct Hi. eapply increasing_sublist; [exact i_eseq|]. done.
    - apply Forall_forall. intros x Hx. apply elem_of_list_fmap in Hx as (y & -> & Hy). cbn.
      rewrite (fe_nonce _ _ _ Hi Hy). apply is_be_be. pose proof (fe_seq_lt _ _ _ Hi Hy).
      change (256 ^ N.of_nat 8)%N with (2 ^ 64)%N. lia.
    - destruct Hi. eapply increasing_sublist; [exact i_dseq|]. unfold dops. rewrite map_app, map_map. by apply sublist_inserts_r.
    - apply Forall_forall. intros x Hx. apply elem_of_list_fmap in Hx as (y & -> & Hy). cbn. destruct Hi.
      rewrite Forall_forall in i_dcall. rewrite <- Had. exists (do_version (fst y)), (do_tag (fst y)). split; [|done].
      apply (i_dcall (fst y)). unfold dops. apply elem_of_app. left. by apply elem_of_list_fmap_1.
  Qed.
  Lemma fe_eops s p i op c : p_fe p !! i = Some (op, c) -> eops s p !! i = Some op.
  Proof. intros H. unfold eops. apply lookup_app_l_Some. by rewrite list_lookup_fmap, H. Qed.
  Lemma fd_dops s p i op c : p_fd p !! i = Some (op, c) -> dops s p !! i = Some op.
  Proof. intros H. unfold dops. apply lookup_app_l_Some. by rewrite list_lookup_fmap, H. Qed.
  Lemma C37_consecutive_lemma r cs s' os : rl_run cs (rl_new r) = (s', os) -> Forall call_ok cs -> (N.of_nat (length cs) < 2 ^ 64)%N ->
    no_failure os ->
    (forall i x, handed_enc os !! i = Some x -> is_be 8 (N.of_nat i) (er_nonce x)) /\
    (forall ls lr i x, Ok (RLogs ls lr) ∈ os -> ls !! i = Some x \/ lr !! i = Some x -> r_seq x = N.of_nat i).
  Proof.
    intros H Hok Hn Hnf. split.
    - apply history_inv in H as (p & Hi & (Hpn & _ & _ & Hhe & _) & Hcl & _); [|done]. cbn in Hpn, Hhe. specialize (Hcl Hnf).
      intros i x Hx. rewrite <- Hhe in Hx. eapply handed_prefix in Hx as (op & c & Hx & ->); [|done].
      apply elem_of_list_lookup_2 in Hx as Ex. cbn. pose proof (fe_nonce _ _ _ Hi Ex) as Nx. cbn [fst] in Nx. rewrite Nx.
      rewrite (c_eseq _ _ Hcl i op) by (by eapply fe_eops). apply is_be_be.
      pose proof (fe_seq_lt _ _ _ Hi Ex) as Lx. cbn in Lx. rewrite (c_eseq _ _ Hcl i op) in Lx by (by eapply fe_eops).
      change (256 ^ N.of_nat 8)%N with (2 ^ 64)%N. lia.
    - intros ls lr i x Hl Hx. destruct (logs_are _ _ _ _ _ _ H Hok Hl) as (p & Hi & _ & Hcl & Hr & -> & ->). specialize (Hcl Hnf).
      destruct Hx as [Hx|Hx]; apply list_lookup_fmap_inv in Hx as ([op c] & -> & Hx); cbn.
      + eapply c_eseq; [done|by eapply fe_eops].
      + eapply c_dseq; [done|by eapply fd_dops].
  Qed.

  (** ** C38 *)
  Lemma C38_recv_lemma r cs s' os : rl_run cs (rl_new r) = (s', os) -> Forall call_ok cs -> (agreed_recv cs os <= 2 ^ 63)%N ->
    (sum_N (map dec_len (accepted_dec cs os)) <= agreed_recv cs os)%N.
  Proof.
    intros H Hok Hm. apply history_inv in H as (p & Hi & (_ & _ & Had & _ & _ & _ & _ & Hmr) & _); [|done]. cbn in Had, Hmr.
    destruct Hi. rewrite Hmr in i_mr. destruct i_recv as [E1 E2]; [lia|]. rewrite <- Had. lia.
  Qed.
  Lemma C38_buffer_lemma r cs s' os : rl_run cs (rl_new r) = (s', os) -> Forall call_ok cs ->
    length (rl_encrypt s') <= 1022 /\ length (rl_decrypt s') <= 1022.
  Proof. intros H Hok. apply history_inv in H as (p & [] & _); done. Qed.
  Lemma sum_N_sublist a b : a `sublist_of` b -> (sum_N a <= sum_N b)%N.
  Proof. unfold sum_N. induction 1; cbn; lia. Qed.
  Lemma fe_lens s p : inv s p -> map (fun x => N.of_nat (length (snd x))) (p_fe p) = map (fun x => eo_len (fst x)) (p_fe p).
  Proof.
    intros [] . apply map_ext_in. intros x Hx. rewrite Forall_forall in i_eright. apply elem_of_list_In in Hx.
    by apply i_eright in Hx as [? _].
  Qed.
  Lemma handed_len s p : inv s p ->
    (total_len (map er_ct (p_he p)) <= sum_N (map (fun x => eo_len (fst x)) (p_fe p)))%N.
  Proof.
    intros Hi. rewrite <- (fe_lens _ _ Hi). unfold total_len. rewrite map_map.
    assert (map (fun x => N.of_nat (length (snd x))) (p_fe p) =
      map (fun x => N.of_nat (length (er_ct x))) (p_he p ++ rl_encrypted s)) as ->.
    { destruct Hi. rewrite i_he, map_map. done. }
    rewrite map_app, sum_N_app. lia.
  Qed.
  Lemma C38_sent_lemma r cs s' os : rl_run cs (rl_new r) = (s', os) -> Forall call_ok cs -> no_failure os ->
    (total_len (map er_ct (handed_enc os)) <= agreed_sent cs os)%N /\
    (forall ls lr, Ok (RLogs ls lr) ∈ os -> total_len (map r_ct ls) <= agreed_sent cs os)%N.
  Proof.
    intros H Hok Hnf. apply history_inv in H as Hh; [|done]. destruct Hh as (p & Hi & Hp & Hcl & Hr).
    specialize (Hcl Hnf). pose proof Hp as (_ & _ & _ & Hhe & _ & Hlg & Hms & _). cbn in Hhe, Hms, Hlg.
    pose proof (handed_len _ _ Hi) as Hl. destruct Hcl. pose proof (i_ms _ _ _ _ _ _ _ _ _ Hi) as Hm.
    rewrite <- Hhe. split; [lia|]. intros ls lr Hlogs%logs_in_elem. rewrite <- Hlg in Hlogs.
    pose proof (i_lg _ _ _ _ _ _ _ _ _ Hi) as Hf. rewrite Forall_forall in Hf. apply Hf in Hlogs. injection Hlogs as -> ->.
    unfold total_len. rewrite !map_map. cbn. rewrite (fe_lens _ _ Hi). lia.
  Qed.
  Lemma C38_sent_any_lemma r cs s' os : rl_run cs (rl_new r) = (s', os) -> Forall call_ok cs ->
    (total_len (map er_ct (handed_enc os)) < agreed_sent cs os + 16)%N.
  Proof.
    intros H Hok. apply history_inv in H as (p & Hi & (_ & _ & _ & Hhe & _ & _ & Hms & _) & _); [|done]. cbn in Hhe, Hms.
    pose proof (handed_len _ _ Hi) as Hl. rewrite Hhe in Hl.
    pose proof (sum_le_blocks (map (fun x => eo_len (fst x)) (p_fe p))) as Hs. destruct Hi. unfold flushed_blocks in i_blocks.
    pose proof (blocks_of_bounds (rl_max_sent s')). lia.
  Qed.

  Lemma max_grows cs s s' os p : rl_run cs s = (s', os) -> Forall call_ok cs -> inv s p -> (rl_max_sent s <= rl_max_sent s')%N.
  Proof.
    intros H Hok Hi. eapply run_inv in H as (p' & Hi' & (_ & _ & _ & _ & _ & _ & Hm & _) & _); [|done..].
    rewrite (i_ms _ _ _ _ _ _ _ _ _ Hi), (i_ms _ _ _ _ _ _ _ _ _ Hi'). lia.
  Qed.
  Lemma run_sent cs s s' os p : rl_run cs s = (s', os) -> Forall call_ok cs -> inv s p -> (rl_max_sent s' < 2 ^ 63)%N ->
    Forall (fun c => forall t v n pl, c = CEncrypt t v n pl -> checked = true \/ (n <= 2 ^ 63)%N) cs ->
    (rl_sent s + sum_N (map call_len (accepted_enc cs os)) <= rl_sent s')%N.
  Proof.
    revert s os p. induction cs as [|c cs IH]; intros s os p H Hok Hi Hm Hn; cbn [RecordModel.rl_run] in H.
    - injection H as <- <-. unfold sum_N. cbn. lia.
    - apply Forall_cons in Hok as [Hc Hok]. apply Forall_cons in Hn as [Hn1 Hn].
      pose proof (i_sent _ _ _ _ _ _ _ _ _ Hi) as Hs.
      destruct (rl_step c s) as [s1 o] eqn:Es. eapply step_inv in Es as Hi1; [|done..]. destruct Hi1 as (fe & fd & Hi1 & _).
      assert (rl_max_sent s <= rl_max_sent s1)%N as Hg.
      { rewrite (i_ms _ _ _ _ _ _ _ _ _ Hi), (i_ms _ _ _ _ _ _ _ _ _ Hi1). unfold past_step. cbn [p_ms]. lia. }
      assert (forall os', rl_run cs s1 = (s', os') -> (rl_sent s + sum_N (map call_len (accepted_enc [c] [o])) <= rl_sent s1)%N) as H1.
      { intros os' Hr. eapply max_grows in Hr; [|done..]. eapply step_sent; [done..|]. intros t v n pl ->.
        destruct (Hn1 _ _ _ _ eq_refl); [by left|right; lia]. }
      destruct o as [x|e|].
      + destruct (rl_run cs s1) as [s2 os'] eqn:Er. injection H as <- <-. specialize (H1 _ eq_refl).
        eapply IH in Er; [|done..]. rewrite accepted_enc_cons, map_app, sum_N_app. lia.
      + destruct (rl_run cs s1) as [s2 os'] eqn:Er. injection H as <- <-. specialize (H1 _ eq_refl).
        eapply IH in Er; [|done..]. rewrite accepted_enc_cons, map_app, sum_N_app. lia.
      + injection H as <- <-. assert (accepted_enc (c :: cs) [Panic] = []) as -> by (destruct c; by destruct cs as [|[]]).
        eapply step_sent in Es; [|done..|].
        * assert (accepted_enc [c] [Panic] = []) as E by (by destruct c). rewrite E in Es. done.
        * intros t v n pl ->. destruct (Hn1 _ _ _ _ eq_refl); [by left|right; lia].
  Qed.
  Lemma C38_accepted_lemma r cs s' os : rl_run cs (rl_new r) = (s', os) -> Forall call_ok cs -> (agreed_sent cs os < 2 ^ 63)%N ->
    Forall (fun c => forall t v n pl, c = CEncrypt t v n pl -> checked = true \/ (n <= 2 ^ 63)%N) cs ->
    (sum_N (map call_len (accepted_enc cs os)) <= agreed_sent cs os)%N.
  Proof.
    intros H Hok Hm Hn. apply history_inv in H as Hh; [|done]. destruct Hh as (p & Hi & (_ & _ & _ & _ & _ & _ & Hms & _) & _).
    cbn in Hms. pose proof (i_ms _ _ _ _ _ _ _ _ _ Hi) as E. pose proof (i_sent _ _ _ _ _ _ _ _ _ Hi) as Hs.
    assert (inv (rl_new r) past0) as Hi0 by (by apply inv_new).
    eapply run_sent in H; [|done|exact Hi0|lia|done]. cbn in H. lia.
  Qed.

  (** ** C39 *)
  Lemma C39_order_lemma r cs s' os : rl_run cs (rl_new r) = (s', os) -> Forall call_ok cs ->
    in_order (comes_out_enc aes enc_key enc_iv) (accepted_enc cs os) (handed_enc os) /\
    in_order (comes_out_dec aes dec_key dec_iv r) (accepted_dec cs os) (handed_dec os).
  Proof.
    intros H Hok. apply history_inv in H as (p & Hi & (_ & Hae & Had & Hhe & Hhd & _) & _ & Hr); [|done].
    cbn in Hae, Had, Hhe, Hhd. rewrite <- Hae, <- Had, <- Hhe, <- Hhd. split.
    - exists (take (length (p_he p)) (map (fun x => eop_call (fst x)) (p_fe p))). split.
      + etrans; [apply sublist_take|]. destruct Hi. etrans; [|done]. unfold eops. rewrite map_app, map_map. by apply sublist_inserts_r.
      + apply Forall2_same_length_lookup_2.
        * rewrite take_length, map_length. pose proof (f_equal length (i_he _ _ _ _ _ _ _ _ _ Hi)) as E.
          rewrite app_length, map_length in E. lia.
        * intros i c x Hc Hx. apply lookup_take_Some in Hc as [Hc _].
          eapply handed_prefix in Hx as (op & ct & Hx & ->); [|done].
          rewrite list_lookup_fmap, Hx in Hc. injection Hc as <-. apply elem_of_list_lookup_2 in Hx as Ex.
          destruct Hi. rewrite Forall_forall in i_eright. apply i_eright in Ex as (E1 & E2 & E3). cbn in E1, E2, E3 |- *.
          split_and!; try done. intros text Ht. unfold eop_text in E3. by rewrite Ht in E3.
    - exists (take (length (p_hd p)) (map (fun x => dop_call (fst x)) (p_fd p))). split.
      + etrans; [apply sublist_take|]. destruct Hi. etrans; [|done]. unfold dops. rewrite map_app, map_map. by apply sublist_inserts_r.
      + apply Forall2_same_length_lookup_2.
        * rewrite take_length, map_length. pose proof (f_equal length (i_hd _ _ _ _ _ _ _ _ _ Hi)) as E.
          rewrite app_length, map_length in E. lia.
        * intros i c x Hc Hx. apply lookup_take_Some in Hc as [Hc _].
          eapply handed_dec_prefix in Hx as (op & t & Hx & ->); [|done].
          rewrite list_lookup_fmap, Hx in Hc. injection Hc as <-. apply elem_of_list_lookup_2 in Hx as Ex.
          destruct Hi. rewrite Forall_forall in i_dright. apply i_dright in Ex as (E1 & E2). rewrite Hr in E1. cbn in E1 |- *.
          split_and!; done.
  Qed.
  Lemma C39_withheld_lemma r cs s' os : rl_run cs (rl_new r) = (s', os) -> Forall call_ok cs -> CStart ∉ cs ->
    Forall (fun x => er_typ x <> ApplicationData) (handed_enc os) /\ Forall (fun x => pr_typ x <> ApplicationData) (handed_dec os).
  Proof.
    assert (inv (rl_new r) past0) as Hi by (by apply inv_new). assert (rl_started (rl_new r) = false) as Hst by done.
    revert Hi Hst. generalize (rl_new r) as s, past0 as p. revert os.
    induction cs as [|c cs IH]; intros os s p Hi Hst H Hok Hns; cbn [RecordModel.rl_run] in H.
    - injection H as <- <-. split; constructor.
    - apply Forall_cons in Hok as [Hc Hok]. apply not_elem_of_cons in Hns as [Hc1 Hns].
      destruct (rl_step c s) as [s1 o] eqn:Es.
      assert (c <> CStart) as Hc2 by (by intros ->). eapply step_started in Es as Hst1; [|done..]. rewrite Hst in Hst1.
      assert (Forall (fun x => er_typ x <> ApplicationData) (handed_enc [o]) /\ Forall (fun x => pr_typ x <> ApplicationData) (handed_dec [o])) as [Ho1 Ho2].
      { assert (forall A (m : stm rl rl_error A) k, sbind m (fun x => sret (k x)) s = (s1, o) ->
          exists o', m s = (s1, o') /\ o = match o' with Ok x => Ok (k x) | Err e => Err e | Panic => Panic end) as Hk.
        { intros A m k Hm. unfold sbind in Hm. destruct (m s) as [s2 [x|e|]]; injection Hm as <- <-; eauto. }
        destruct c; cbn [RecordModel.rl_step] in Es; apply Hk in Es as (o' & Es & ->);
          try (destruct o'; split; constructor); clear Hk.
        - unfold next_encrypted in Es. destruct (rl_encrypted s) as [|x xs]; [injection Es as _ <-; split; constructor|].
          rewrite Hst in Es. cbn in Es. destruct (is_app (er_typ x)) eqn:Ea; injection Es as _ <-; [split; constructor|].
          split; [|constructor]. constructor; [|constructor]. by apply is_app_false.
        - unfold next_decrypted in Es. destruct (rl_decrypted s) as [|x xs]; [injection Es as _ <-; split; constructor|].
          rewrite Hst in Es. cbn in Es. destruct (is_app (pr_typ x)) eqn:Ea; injection Es as _ <-; [split; constructor|].
          split; [constructor|]. constructor; [|constructor]. by apply is_app_false. }
      eapply step_inv in Es as (fe & fd & Hi1 & _); [|done..].
      destruct o as [x|e|].
      + destruct (rl_run cs s1) as [s2 os'] eqn:Er. injection H as <- <-. eapply IH in Er as [IH1 IH2]; [|done..].
        rewrite handed_enc_cons, handed_dec_cons. split; by apply Forall_app.
      + destruct (rl_run cs s1) as [s2 os'] eqn:Er. injection H as <- <-. eapply IH in Er as [IH1 IH2]; [|done..].
        rewrite handed_enc_cons, handed_dec_cons. split; by apply Forall_app.
      + injection H as <- <-. split; constructor.
  Qed.

  (** ** C40 *)
  Lemma commit_ends pre s p s' os : rl_run (pre ++ [CCommit]) s = (s', os) -> Forall call_ok pre -> inv s p -> no_failure os ->
    rl_encrypt s' = [] /\ rl_decrypt s' = [] /\ exists ls lr, last os = Some (Ok (RLogs ls lr)).
  Proof.
    revert s p os. induction pre as [|c pre IH]; intros s p os H Hok Hi Hnf; cbn [app RecordModel.rl_run] in H.
    - destruct (rl_step CCommit s) as [s1 o] eqn:Es.
      assert (is_Ok o) as [x ->].
      { destruct o as [x|e|]; [by eexists| |]; injection H as <- <-; by apply Forall_cons in Hnf as [[? [=]] _]. }
      injection H as <- <-. cbn in Es. unfold sbind in Es. destruct (rl_commit _ _ _ _ _ s) as [s2 o2] eqn:Ec.
      apply (commit_cases aes ghash_fn checked dec_key dec_iv Haes) in Ec
        as [(otp & sent & recv & plains & g & _ & He & _ & -> & ->)|(Hf & _)].
      + injection Es as <- <-. cbn. split_and!; try done. eauto.
      + destruct o2; try done. exfalso. apply Hf. by eexists.
      + destruct Hi. by apply Forall_app in i_dwf as [_ ?].
    - apply Forall_cons in Hok as [Hc Hok]. destruct (rl_step c s) as [s1 o] eqn:Es.
      eapply step_inv in Es as (fe & fd & Hi1 & _); [|done..]. destruct o as [x|e|].
      + destruct (rl_run (pre ++ [CCommit]) s1) as [s2 os'] eqn:Er. injection H as <- <-. apply Forall_cons in Hnf as [_ Hnf].
        eapply IH in Er as (E1 & E2 & ls & lr & E3); [|done..]. split_and!; try done. exists ls, lr.
        destruct os' as [|o os']; [done|]. done.
      + destruct (rl_run (pre ++ [CCommit]) s1) as [s2 os'] eqn:Er. injection H as <- <-. by apply Forall_cons in Hnf as [[? [=]] _].
      + injection H as <- <-. by apply Forall_cons in Hnf as [[? [=]] _].
  Qed.
  Lemma committed r pre s' os ls lr : rl_run (pre ++ [CCommit]) (rl_new r) = (s', os) -> Forall call_ok pre ->
    no_failure os -> last os = Some (Ok (RLogs ls lr)) ->
    exists p, inv s' p /\ clean s' p /\ past_after past0 p (pre ++ [CCommit]) os /\ rl_role s' = r /\
      ls = map (fun x => log_enc r (fst x) (snd x)) (p_fe p) /\ lr = map (fun x => log_dec (fst x) (snd x)) (p_fd p) /\
      eops s' p = map fst (p_fe p) /\ dops s' p = map fst (p_fd p).
  Proof.
    intros H Hok Hnf Hlast. assert (inv (rl_new r) past0) as Hi0 by (by apply inv_new).
    apply (commit_ends _ _ past0) in H as Hends; [|done..]. destruct Hends as (E1 & E2 & _).
    eapply logs_are in H as (p & Hi & Hp & Hcl & Hr & Hls & Hlr); [| |by eapply last_Some_elem_of].
    - exists p. split_and!; try done; [by apply Hcl|..]; unfold eops, dops; rewrite ?E1, ?E2, app_nil_r; done.
    - apply Forall_app. split; [done|]. by constructor.
  Qed.
  Lemma C40_commit_lemma r pre s' os ls lr : rl_run (pre ++ [CCommit]) (rl_new r) = (s', os) -> Forall call_ok pre ->
    (N.of_nat (length pre) < 2 ^ 63)%N -> no_failure os -> last os = Some (Ok (RLogs ls lr)) ->
    one_to_one (logged_sent aes enc_key enc_iv blind) (accepted_enc (pre ++ [CCommit]) os) ls /\
    one_to_one (logged_recv aes dec_key dec_iv r) (accepted_dec (pre ++ [CCommit]) os) lr.
  Proof.
    intros H Hok Hn Hnf Hlast. destruct (committed _ _ _ _ _ _ H Hok Hnf Hlast) as (p & Hi & Hcl & (Hpn & Hae & Had & _) & Hr & -> & -> & He & Hd).
    cbn in Hpn, Hae, Had. rewrite <- Hae, <- Had. pose proof (c_ae _ _ Hcl) as Cae. pose proof (c_ad _ _ Hcl) as Cad.
    rewrite He in Cae. rewrite Hd in Cad. rewrite app_length in Hpn. cbn in Hpn. split; split.
    - rewrite <- Cae, !map_length. done.
    - intros i c Hc. rewrite <- Cae in Hc. rewrite map_map in Hc. apply list_lookup_fmap_inv in Hc as ([op ct] & -> & Hx).
      exists (log_enc r op ct). split; [by rewrite list_lookup_fmap, Hx|].
      pose proof (c_eseq _ _ Hcl i op (fe_eops _ _ _ _ _ Hx)) as Hseq. apply elem_of_list_lookup_2 in Hx as Ex.
      pose proof (fe_nonce _ _ _ Hi Ex) as Nx. pose proof (fe_seq_lt _ _ _ Hi Ex) as Lx. cbn [fst] in Nx, Lx.
      destruct Hi. rewrite Forall_forall in i_eright. apply i_eright in Ex as (E1 & E2 & E3). cbn in E1, E2, E3 |- *.
      split_and!; try done.
      + rewrite Nx, Hseq. apply is_be_be. rewrite Hseq in Lx. change (256 ^ N.of_nat 8)%N with (2 ^ 64)%N. lia.
      + unfold eop_text in E3. rewrite Hseq in E3. done.
    - rewrite <- Cad, !map_length. done.
    - intros i c Hc. rewrite <- Cad in Hc. rewrite map_map in Hc. apply list_lookup_fmap_inv in Hc as ([op t] & -> & Hx).
      exists (log_dec op t). split; [by rewrite list_lookup_fmap, Hx|].
      pose proof (c_dseq _ _ Hcl i op (fd_dops _ _ _ _ _ Hx)) as Hseq. apply elem_of_list_lookup_2 in Hx as Ex.
      destruct Hi. rewrite Forall_forall in i_dright. apply i_dright in Ex as (E1 & E2). rewrite Hr in *. cbn in E1 |- *.
      split_and!; done.
  Qed.
  Lemma C40_tags_lemma pre s' os ls lr : rl_run (pre ++ [CCommit]) (rl_new Leader) = (s', os) -> Forall call_ok pre ->
    (N.of_nat (length pre) < 2 ^ 63)%N -> no_failure os -> last os = Some (Ok (RLogs ls lr)) ->
    one_to_one (fun _ c x => call_version c = TLSv1_2 -> record_sizes_ok x ->
      tag_right aes ghash_fn enc_key enc_iv (aes enc_key (replicate 16 0%N)) V1_2 x) (accepted_enc (pre ++ [CCommit]) os) ls /\
    one_to_one (fun _ c x => dec_version c = TLSv1_2 -> r_typ x = ApplicationData -> record_sizes_ok x ->
      tag_right aes ghash_fn dec_key dec_iv (aes dec_key (replicate 16 0%N)) V1_2 x) (accepted_dec (pre ++ [CCommit]) os) lr.
  Proof.
    intros H Hok Hn Hnf Hlast. destruct (committed _ _ _ _ _ _ H Hok Hnf Hlast) as (p & Hi & Hcl & (Hpn & Hae & Had & _) & Hr & -> & -> & He & Hd).
    cbn in Hpn, Hae, Had. rewrite <- Hae, <- Had. pose proof (c_ae _ _ Hcl) as Cae. pose proof (c_ad _ _ Hcl) as Cad.
    rewrite He in Cae. rewrite Hd in Cad. rewrite app_length in Hpn. cbn in Hpn. split; split.
    - rewrite <- Cae, !map_length. done.
    - intros i c Hc. rewrite <- Cae in Hc. rewrite map_map in Hc. apply list_lookup_fmap_inv in Hc as ([op ct] & -> & Hx).
      exists (log_enc Leader op ct). split; [by rewrite list_lookup_fmap, Hx|]. cbn. intros Hv [Hs1 Hs2]. cbn in Hs1, Hs2.
      apply elem_of_list_lookup_2 in Hx as Ex.
      pose proof (fe_nonce _ _ _ Hi Ex) as Nx. pose proof (fe_seq_lt _ _ _ Hi Ex) as Lx. cbn [fst] in Nx, Lx.
      pose proof (fe_wf _ _ _ Hi Ex) as (_ & _ & _ & Haad & _). cbn in Haad.
      destruct Hi. rewrite Forall_forall in i_eright. apply i_eright in Ex as (E1 & E2 & E3). cbn in E1, E2, E3.
      set (x := log_enc Leader op ct). split; [cbn; rewrite Nx; apply be_length|].
      assert (eo_aad op = make_aad (r_seq x) (r_typ x) TLSv1_2 (length (r_ct x))) as Ha.
      { rewrite Haad, Hv. unfold make_aad. cbn. do 4 f_equal. rewrite N2Nat.id, N.mod_mod, E1 by done. done. }
      exists (eo_aad op), (build_ghash_data (eo_aad op) ct). split_and!.
      + rewrite Ha. apply (make_aad_tls V1_2). done.
      + apply ghash_data_gcm; [|lia]. rewrite Ha. unfold make_aad. rewrite !app_length, !be_length. cbn. lia.
      + cbn. unfold gcm_tag. done.
    - rewrite <- Cad, !map_length. done.
    - intros i c Hc. rewrite <- Cad in Hc. rewrite map_map in Hc. apply list_lookup_fmap_inv in Hc as ([op t] & -> & Hx).
      exists (log_dec op t). split; [by rewrite list_lookup_fmap, Hx|]. cbn. intros Hv Ht [Hs1 Hs2]. cbn in Hs1, Hs2.
      apply elem_of_list_lookup_2 in Hx as Ex. pose proof (fd_wf _ _ _ Hi Ex) as (_ & _ & Haad). cbn in Haad.
      destruct Hi. rewrite Forall_forall in i_dright. apply i_dright in Ex as (_ & E2). rewrite Hr in *.
      destruct (E2 eq_refl Ht) as [H8 Htag]. cbn in H8, Htag.
      set (x := log_dec op t). split; [done|].
      assert (do_aad op = make_aad (r_seq x) (r_typ x) TLSv1_2 (length (r_ct x))) as Ha by (by rewrite Haad, Hv).
      exists (do_aad op), (build_ghash_data (do_aad op) (do_ct op)). split_and!.
      + rewrite Ha. apply (make_aad_tls V1_2). done.
      + apply ghash_data_gcm; [|lia]. rewrite Ha. unfold make_aad. rewrite !app_length, !be_length. cbn. lia.
      + cbn. by rewrite Htag.
  Qed.
  Lemma C40_handed_lemma r cs s' os ls lr i x : rl_run cs (rl_new r) = (s', os) -> Forall call_ok cs ->
    Ok (RLogs ls lr) ∈ os -> handed_enc os !! i = Some x ->
    exists y, ls !! i = Some y /\ r_typ y = er_typ x /\ r_nonce y = er_nonce x /\ r_ct y = er_ct x /\ r_tag y = er_tag x.
  Proof.
    intros H Hok Hl Hx. eapply logs_are in H as (p & Hi & (_ & _ & _ & Hhe & _) & _ & Hr & -> & _); [|done..].
    cbn in Hhe. rewrite <- Hhe in Hx. eapply handed_prefix in Hx as (op & c & Hx & ->); [|done].
    exists (log_enc r op c). rewrite list_lookup_fmap, Hx, Hr. done.
  Qed.
  Lemma C40_who_knows_lemma r cs s' os : rl_run cs (rl_new r) = (s', os) -> Forall call_ok cs ->
    Forall (fun x => er_tag x = None <-> r = Follower) (handed_enc os) /\
    forall ls lr, Ok (RLogs ls lr) ∈ os -> Forall (fun y => r_tag y = None <-> r = Follower) ls.
  Proof.
    intros H Hok. split.
    - pose proof H as H'. apply history_inv in H' as (p & Hi & (_ & _ & _ & Hhe & _) & _ & Hr); [|done]. cbn in Hhe.
      apply Forall_lookup_2. intros i x Hx. rewrite <- Hhe in Hx. eapply handed_prefix in Hx as (op & c & Hx & ->); [|done].
      rewrite Hr. by destruct r.
    - intros ls lr Hl. eapply logs_are in H as (p & _ & _ & _ & _ & -> & _); [|done..].
      apply Forall_fmap, Forall_true. intros [op c]. by destruct r.
  Qed.
End Hist.
