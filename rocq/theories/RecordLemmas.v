(** The invariant of record layer histories. *)
From Verif.Lib Require Import Base Ranges.
From Verif Require Import TranscriptModel ProofModel CodecModel CodecSpec CodecLemmas AttestModel TlsModel AuthModel
  TagModel TagLemmas RecordModel RecordSpec RecordGcmLemmas RecordFlushLemmas.

Lemma increasing_snoc l x : increasing l -> Forall (fun y => y < x)%N l -> increasing (l ++ [x]).
Proof.
  intros Hl Hx i j a b Hij Ha Hb. apply lookup_app_Some in Hb as [Hb|[Hle Hb]].
  - apply lookup_lt_Some in Hb as Hlt. rewrite lookup_app_l in Ha by lia. by apply (Hl i j).
  - apply list_lookup_singleton_Some in Hb as [Hj ->]. rewrite lookup_app_l in Ha by lia.
    rewrite Forall_lookup in Hx. by apply (Hx i).
Qed.
Lemma sublist_elem {A} (l k : list A) x : l `sublist_of` k -> x ∈ l -> x ∈ k.
Proof. intros Hs Hx. eapply elem_of_submseteq; [done|]. by apply sublist_submseteq. Qed.
Lemma increasing_sublist l k : increasing l -> k `sublist_of` l -> increasing k.
Proof.
  intros Hl Hs. revert Hl. induction Hs as [|x k l Hs IH|x k l Hs IH]; intros Hl; [done| |].
  - assert (increasing l) as Hl'. { intros i j a b Hij Ha Hb. apply (Hl (S i) (S j) a b); [lia|done|done]. }
    specialize (IH Hl'). intros [|i] [|j] a b Hij Ha Hb; try lia; cbn in *.
    + injection Ha as ->. assert (b ∈ l) as Hb' by (eapply sublist_elem; [done|by eapply elem_of_list_lookup_2]).
      apply elem_of_list_lookup in Hb' as [j' Hj']. apply (Hl 0 (S j') a b); [lia|done|done].
    + apply (IH i j); [lia|done|done].
  - apply IH. intros i j a b Hij Ha Hb. apply (Hl (S i) (S j) a b); [lia|done|done].
Qed.
Lemma increasing_NoDup l : increasing l -> NoDup l.
Proof.
  intros H. apply NoDup_alt. intros i j x Hi Hj. destruct (Nat.lt_trichotomy i j) as [Hl|[?|Hl]]; [|done|].
  - specialize (H i j x x Hl Hi Hj). lia.
  - specialize (H j i x x Hl Hj Hi). lia.
Qed.
Lemma increasing_app_l l k : increasing (l ++ k) -> increasing l.
Proof. intros H. eapply increasing_sublist; [done|]. by apply sublist_inserts_r. Qed.

Lemma uadd_fits checked a b : (a + b < 2 ^ 64)%N -> uadd checked a b = Ok (a + b)%N.
Proof. intros H. unfold uadd, usize_max. destruct (N.ltb_spec (a + b) (2 ^ 64)); [done|lia]. Qed.
Lemma uadd_checked a b t : uadd true a b = Ok t -> t = (a + b)%N.
Proof. unfold uadd. destruct (a + b <? usize_max)%N; intros H; [by injection H as <-|discriminate]. Qed.
Lemma uadd_exact checked a b total : uadd checked a b = Ok total -> (checked = true \/ (a + b < 2 ^ 64)%N) -> total = (a + b)%N.
Proof. intros Eu [->|H]; [by apply uadd_checked|]. rewrite uadd_fits in Eu by done. by injection Eu as <-. Qed.

Lemma sum_N_app a b : sum_N (a ++ b) = (sum_N a + sum_N b)%N.
Proof. induction a as [|x a IH]; [done|]. cbn [app sum_N foldr] in *. unfold sum_N in *. cbn. lia. Qed.
Lemma sum_blocks_app a b : sum_blocks (a ++ b) = (sum_blocks a + sum_blocks b)%N.
Proof. unfold sum_blocks. by rewrite map_app, sum_N_app. Qed.
Lemma sum_le_blocks ns : (sum_N ns <= 16 * sum_blocks ns)%N.
Proof.
  induction ns as [|n ns IH]; [done|]. change (sum_N (n :: ns)) with (n + sum_N ns)%N.
  change (sum_blocks (n :: ns)) with (blocks_of n + sum_blocks ns)%N. pose proof (blocks_of_bounds n). lia.
Qed.

Definition eop_call (op : enc_op) : enc_call := (eo_typ op, eo_version op, eo_len op, eo_plain op).
Definition dop_call (op : dec_op) : dec_call := (do_typ op, do_version op, do_nonce op, do_ct op, do_tag op).
Definition dec_len (c : dec_call) : N := let '(_, _, _, ct, _) := c in N.of_nat (length ct).
Notation enc_len := call_len (only parsing).
Definition logs_in (os : results) : list (list tls_record * list tls_record) :=
  omap (fun o => match o with Ok (RLogs a b) => Some (a, b) | _ => None end) os.

Section Inv.
  Context (aes : list N -> list N -> list N) (ghash_fn : list N -> list N -> list N).
  Context (checked : bool).
  Context (enc_key enc_iv dec_key dec_iv : list N).
  Context (blind : N -> nat -> N) (pad_rng : nat -> N).
  Context (Haes : forall k b, length (aes k b) = 16).
  Notation rl_flush := (rl_flush aes ghash_fn checked enc_key enc_iv dec_key dec_iv blind).
  Notation rl_commit := (rl_commit aes ghash_fn checked dec_key dec_iv).
  Notation rl_alloc := (rl_alloc checked pad_rng).
  Notation push_encrypt := (push_encrypt checked).
  Notation push_decrypt := (push_decrypt checked).
  Notation rl_step := (rl_step aes ghash_fn checked enc_key enc_iv dec_key dec_iv blind pad_rng).
  Notation rl_run := (rl_run aes ghash_fn checked enc_key enc_iv dec_key dec_iv blind pad_rng).
  Notation out_enc := (out_enc aes ghash_fn enc_key enc_iv).
  Notation log_enc := (log_enc aes ghash_fn enc_key enc_iv).
  Notation enc_right := (enc_right aes enc_key enc_iv blind).
  Notation dec_right := (dec_right aes ghash_fn dec_key dec_iv).

  (** What has happened: number of calls, what was accepted and handed out, and what was flushed. *)
  Record past := Past {
    p_n : N; p_ae : list enc_call; p_ad : list dec_call; p_he : list enc_record; p_hd : list plain_record;
    p_lg : list (list tls_record * list tls_record); p_ms : N; p_mr : N;
    p_fe : list (enc_op * list N); p_fd : list (dec_op * option (list N)) }.
  Definition eops (s : rl) (p : past) : list enc_op := map fst (p_fe p) ++ rl_encrypt s.
  Definition dops (s : rl) (p : past) : list dec_op := map fst (p_fd p) ++ rl_decrypt s.
  Definition flushed_blocks (p : past) : N := sum_blocks (map (fun x => eo_len (fst x)) (p_fe p)).

  Record inv (s : rl) (p : past) : Prop := Inv {
    i_ewf : Forall eop_wf (eops s p);
    i_dwf : Forall dop_wf (dops s p);
    i_eright : Forall (fun x => enc_right (fst x) (snd x)) (p_fe p);
    i_dright : Forall (fun x => dec_right (rl_role s) (fst x) (snd x)) (p_fd p);
    i_eseq : increasing (map eo_seq (eops s p));
    i_ebound : Forall (fun q => q < rl_write_seq s)%N (map eo_seq (eops s p));
    i_wseq : (rl_write_seq s <= p_n p)%N;
    i_esub : map eop_call (eops s p) `sublist_of` p_ae p;
    i_dseq : increasing (map do_seq (dops s p));
    i_dcall : Forall (fun op => p_ad p !! N.to_nat (do_seq op) = Some (dop_call op)) (dops s p);
    i_dsub : map dop_call (dops s p) `sublist_of` p_ad p;
    i_rseq : rl_read_seq s = N.of_nat (length (p_ad p));
    i_he : p_he p ++ rl_encrypted s = map (fun x => out_enc (rl_role s) (fst x) (snd x)) (p_fe p);
    i_hd : p_hd p ++ rl_decrypted s = map (fun x => out_dec (fst x) (snd x)) (p_fd p);
    i_st : match rl_st s with
           | SOnline otp sent recv =>
               sent = map (fun x => log_enc (rl_role s) (fst x) (snd x)) (p_fe p) /\
               recv = map (fun x => log_dec (fst x) (snd x)) (p_fd p) /\
               (is_Some otp <-> rl_role s = Leader) /\
               (16 * (blocks_left (rl_enc s) + flushed_blocks p) < 2 ^ 64)%N /\
               (blocks_left (rl_enc s) + flushed_blocks p <= blocks_of (rl_max_sent s))%N
           | SInit => p_fe p = [] /\ p_fd p = [] /\ rl_max_sent s = 0%N /\ rl_max_recv s = 0%N
           | _ => True
           end;
    i_blocks : (16 * flushed_blocks p < 2 ^ 64)%N /\ (flushed_blocks p <= blocks_of (rl_max_sent s))%N;
    i_ebuf : length (rl_encrypt s) <= max_buffer;
    i_dbuf : length (rl_decrypt s) <= max_buffer;
    i_lg : Forall (fun l => l = (map (fun x => log_enc (rl_role s) (fst x) (snd x)) (p_fe p),
                                 map (fun x => log_dec (fst x) (snd x)) (p_fd p))) (p_lg p);
    i_lgst : p_lg p <> [] -> rl_st s = SComplete \/ rl_st s = SError;
    i_ms : rl_max_sent s = p_ms p; i_mr : rl_max_recv s = p_mr p;
    i_sent : (rl_sent s <= rl_max_sent s)%N;
    i_recv : (rl_max_recv s <= 2 ^ 63)%N ->
             rl_recv s = sum_N (map dec_len (p_ad p)) /\ (rl_recv s <= rl_max_recv s)%N }.

  Definition past0 : past := Past 0 [] [] [] [] [] 0 0 [] [].
  Lemma inv_new r : inv (rl_new r) past0.
  Proof.
    split; cbn; try done; try constructor; try lia; try by intros ? ? ? ? ?.
  Qed.

  (** What a call adds. *)
  Definition past_step (c : rl_call) (o : outcome rl_error rl_result) (fe : list (enc_op * list N))
      (fd : list (dec_op * option (list N))) (p : past) : past :=
    Past (p_n p + 1) (p_ae p ++ accepted_enc [c] [o]) (p_ad p ++ accepted_dec [c] [o]) (p_he p ++ handed_enc [o])
      (p_hd p ++ handed_dec [o]) (p_lg p ++ logs_in [o]) (p_ms p + agreed_sent [c] [o]) (p_mr p + agreed_recv [c] [o])
      (p_fe p ++ fe) (p_fd p ++ fd).
  Lemma step_nothing c o p : accepted_enc [c] [o] = [] -> accepted_dec [c] [o] = [] -> handed_enc [o] = [] ->
    handed_dec [o] = [] -> logs_in [o] = [] -> agreed_sent [c] [o] = 0%N -> agreed_recv [c] [o] = 0%N ->
    past_step c o [] [] p = Past (p_n p + 1) (p_ae p) (p_ad p) (p_he p) (p_hd p) (p_lg p) (p_ms p) (p_mr p) (p_fe p) (p_fd p).
  Proof. intros H1 H2 H3 H4 H5 H6 H7. unfold past_step. by rewrite H1, H2, H3, H4, H5, H6, H7, !app_nil_r, !N.add_0_r. Qed.
  Lemma not_ok_nothing c o p : ~ is_Ok o ->
    past_step c o [] [] p = Past (p_n p + 1) (p_ae p) (p_ad p) (p_he p) (p_hd p) (p_lg p) (p_ms p) (p_mr p) (p_fe p) (p_fd p).
  Proof.
    intros H. apply step_nothing; destruct o as [a|e|]; try (exfalso; apply H; by eexists); try done; by destruct c.
  Qed.

  (** Changes that are not visible in the invariant. *)
  Lemma inv_frame s s' p : inv s p ->
    rl_role s' = rl_role s -> (rl_write_seq s <= rl_write_seq s' <= p_n p + 1)%N -> rl_read_seq s' = rl_read_seq s ->
    (rl_st s' = rl_st s \/ rl_st s' = SError) -> (blocks_left (rl_enc s') <= blocks_left (rl_enc s) \/ rl_st s' = SError)%N ->
    (rl_sent s' <= rl_max_sent s')%N -> rl_recv s' = rl_recv s ->
    rl_max_sent s' = rl_max_sent s -> rl_max_recv s' = rl_max_recv s ->
    rl_encrypt s' `sublist_of` rl_encrypt s -> rl_decrypt s' `sublist_of` rl_decrypt s ->
    rl_encrypted s' = rl_encrypted s -> rl_decrypted s' = rl_decrypted s ->
    inv s' (Past (p_n p + 1) (p_ae p) (p_ad p) (p_he p) (p_hd p) (p_lg p) (p_ms p) (p_mr p) (p_fe p) (p_fd p)).
  Proof.
    intros [] E1 E2 E3 E4 E5 E6 E7 E8 E9 E10 E11 E12 E13.
    assert (dops s' p `sublist_of` dops s p) as Hds by (by apply sublist_app).
    assert (eops s' p `sublist_of` eops s p) as Hes by (by apply sublist_app).
    assert (forall P, Forall P (dops s p) -> Forall P (dops s' p)) as HF.
    { intros P. rewrite !Forall_forall. intros H x Hx. apply H. by eapply sublist_elem. }
    assert (forall A (f : dec_op -> A), map f (dops s' p) `sublist_of` map f (dops s p)) as HM.
    { intros A f. by apply fmap_sublist. }
    assert (forall P, Forall P (eops s p) -> Forall P (eops s' p)) as HF'.
    { intros P. rewrite !Forall_forall. intros H x Hx. apply H. by eapply sublist_elem. }
    assert (forall A (f : enc_op -> A), map f (eops s' p) `sublist_of` map f (eops s p)) as HM'.
    { intros A f. by apply fmap_sublist. }
    apply sublist_length in E10, E11.
    split; unfold flushed_blocks in *; cbn [p_n p_ae p_ad p_he p_hd p_lg p_ms p_mr p_fe p_fd] in *;
      rewrite ?E1, ?E3, ?E7, ?E8, ?E9, ?E12, ?E13 in *; try done.
    - by apply HF'.
    - by apply HF.
    - eapply increasing_sublist; [exact i_eseq0|]. apply HM'.
    - apply Forall_forall. intros x Hx. rewrite Forall_forall in i_ebound0.
      assert (x < rl_write_seq s)%N; [|lia]. apply i_ebound0. eapply sublist_elem; [apply HM'|done].
    - lia.
    - etrans; [apply HM'|done].
    - eapply increasing_sublist; [exact i_dseq0|]. apply HM.
    - by apply HF.
    - etrans; [apply HM|done].
    - destruct E4 as [E4|E4]; rewrite E4 in *; [|done]. destruct (rl_st s); try done. destruct i_st0 as (? & ? & ? & ? & ?).
      destruct E5 as [E5|E5]; [split_and!; try done; lia|done].
    - lia.
    - lia.
    - intros H. destruct E4 as [-> | ->]; [by apply i_lgst0|by right].
  Qed.

  (** ** The calls *)
  Lemma uadd_mod a b x : uadd checked a b = Ok x -> x = ((a + b) mod 2 ^ 64)%N.
  Proof.
    unfold uadd, usize_max. destruct (N.ltb_spec (a + b) (2 ^ 64)).
    - intros [= <-]. symmetry. by apply N.mod_small.
    - destruct checked; [done|]. by intros [= <-].
  Qed.
  Lemma uadd_small a b : (a + b < 2 ^ 64)%N -> uadd checked a b = Ok (a + b)%N.
  Proof. intros H. unfold uadd, usize_max. by rewrite (proj2 (N.ltb_lt _ _) H). Qed.

  Lemma gcm_alloc_cases n len g g' o : (len < 2 ^ 64)%N -> gcm_alloc checked n len g = (g', o) ->
    o = Ok tt -> (16 * blocks_left g' < 2 ^ 64)%N /\ (blocks_left g' <= blocks_of len)%N.
  Proof.
    intros Hl H ->. unfold gcm_alloc in H. destruct g; try done. destruct (umul checked 16 (blocks_of len)) as [l| |] eqn:E; try done.
    injection H as <-. cbn [blocks_left].
    assert (l = 16 * blocks_of len /\ 16 * blocks_of len < 2 ^ 64 \/ l = 0)%N as [[-> Hlt]| ->].
    { apply umul_cases in E as [[H ->]|[H ->]]; [left; split; lia|right].
      pose proof (blocks_of_bounds len). assert (16 * blocks_of len = 2 ^ 64)%N as ->; [|done]. lia. }
    - rewrite blocks_of_mul. split; [lia|lia].
    - change (blocks_of 0) with 0%N. split; lia.
  Qed.
  Lemma alloc_cases a b c d e s s' o : Forall (fun x => x < 2 ^ 64)%N [a; b; c; d; e] ->
    rl_alloc a b c d e s = (s', o) ->
    (~ is_Ok o /\ exists ge gd, s' = set_dec gd (set_enc ge (set_st SError s))) \/
    (rl_st s = SInit /\ o = Ok tt /\ exists ge gd otp x y z,
       s' = set_st (SOnline otp [] []) (set_max x y z (set_dec gd (set_enc ge s))) /\
       (is_Some otp <-> rl_role s = Leader) /\
       (16 * blocks_left ge < 2 ^ 64)%N /\ (blocks_left ge <= blocks_of c)%N /\
       (rl_max_sent s = 0 -> x = c)%N /\ (rl_max_recv s = 0 -> z = e)%N).
  Proof.
    intros Hb H. unfold RecordModel.rl_alloc in H.
    destruct (rl_st s) eqn:Hst; try (injection H as <- <-; left; split; [by intros [? [=]]|];
      exists (rl_enc s), (rl_dec s); by destruct s).
    apply Forall_cons in Hb as [Ha Hb]. apply Forall_cons in Hb as [Hbb Hb]. apply Forall_cons in Hb as [Hc Hb].
    apply Forall_cons in Hb as [Hd Hb]. apply Forall_cons in Hb as [He _].
    apply sbind_inv in H as [(s1 & [] & H1 & H)|[(x & H1 & _)|(H1 & _)]]; [|done..]. injection H1 as <-.
    assert (forall ge gd oo, ~ is_Ok oo -> (set_dec gd (set_enc ge (set_st SError s)), oo) = (s', o) ->
      (~ is_Ok o /\ exists ge gd, s' = set_dec gd (set_enc ge (set_st SError s))) \/
      (SInit = SInit /\ o = Ok tt /\ exists ge gd otp x y z,
       s' = set_st (SOnline otp [] []) (set_max x y z (set_dec gd (set_enc ge s))) /\
       (is_Some otp <-> rl_role s = Leader) /\
       (16 * blocks_left ge < 2 ^ 64)%N /\ (blocks_left ge <= blocks_of c)%N /\
       (rl_max_sent s = 0 -> x = c)%N /\ (rl_max_recv s = 0 -> z = e)%N)) as Hfail.
    { intros ge gd oo Hoo [= <- <-]. left. split; [done|]. by exists ge, gd. }
    assert (forall e', ~ is_Ok (@Err rl_error unit e')) as Hne1 by (by intros e' [? [=]]).
    assert (~ is_Ok (@Panic rl_error unit)) as Hne2 by (by intros [? [=]]).
    apply sbind_inv in H as [(s1 & [] & H1 & H)|[(x & H1 & ->)|(H1 & ->)]]; unfold on_enc in H1;
      destruct (gcm_alloc _ a c _) as [ge og] eqn:Eg; injection H1 as <- ->;
      [|(eapply (Hfail ge (rl_dec s)); [|by destruct s]); first [apply Hne1|apply Hne2]..].
    apply gcm_alloc_cases in Eg as [Hg1 Hg2]; [|done..].
    apply sbind_inv in H as [(s1 & [] & H1 & H)|[(x & H1 & ->)|(H1 & ->)]]; unfold on_dec in H1;
      destruct (gcm_alloc _ b d _) as [gd od] eqn:Eg2; injection H1 as <- ->;
      [|(eapply (Hfail ge gd); [|by destruct s]); first [apply Hne1|apply Hne2]..].
    apply sbind_inv in H as [(s1 & x & H1 & H)|[(x & H1 & ->)|(H1 & ->)]]; unfold slift in H1; injection H1 as <- H1;
      [|(eapply (Hfail ge gd); [|by destruct s]); first [apply Hne1|apply Hne2]..].
    apply sbind_inv in H as [(s1 & y & H2 & H)|[(y & H2 & ->)|(H2 & ->)]]; unfold slift in H2; injection H2 as <- H2;
      [|(eapply (Hfail ge gd); [|by destruct s]); first [apply Hne1|apply Hne2]..].
    apply sbind_inv in H as [(s1 & z & H3 & H)|[(z & H3 & ->)|(H3 & ->)]]; unfold slift in H3; injection H3 as <- H3;
      [|(eapply (Hfail ge gd); [|by destruct s]); first [apply Hne1|apply Hne2]..].
    unfold smod, sbind in H. injection H as <- <-. right. split_and!; [done..|].
    exists ge, gd. eexists _, x, y, z. split_and!; [by destruct s| |done|done| |].
    - destruct (rl_role s); split; first [done|by intros [? [=]]|by eauto].
    - intros E0. rewrite E0 in H1. rewrite (uadd_small 0 c) in H1 by lia. cbn in H1. injection H1 as <-. lia.
    - intros E0. rewrite E0 in H3. rewrite (uadd_small 0 e) in H3 by lia. cbn in H3. injection H3 as <-. lia.
  Qed.
  Lemma gcm_setup_left g g' o : gcm_setup g = (g', o) -> (blocks_left g' <= blocks_left g)%N.
  Proof. unfold gcm_setup. destruct g; intros [= <- <-]; cbn; lia. Qed.
  Lemma setup_cases s s' o : rl_setup s = (s', o) ->
    exists ge gd, s' = set_dec gd (set_enc ge s) /\ (blocks_left ge <= blocks_left (rl_enc s))%N.
  Proof.
    unfold rl_setup. intros H.
    assert (forall s1 o1, on_enc gcm_setup s = (s1, o1) -> exists ge, s1 = set_enc ge s /\ (blocks_left ge <= blocks_left (rl_enc s))%N) as He.
    { intros s1 o1. unfold on_enc. destruct (gcm_setup _) as [ge og] eqn:E. intros [= <- <-].
      apply gcm_setup_left in E. eauto. }
    apply sbind_inv in H as [(s1 & [] & H1 & H)|[(x & H1 & _)|(H1 & _)]]; apply He in H1 as (ge & -> & Hb).
    - unfold on_dec in H. destruct (gcm_setup _) as [gd og] eqn:E. injection H as <- <-. exists ge, gd. done.
    - exists ge, (rl_dec s). split; [by destruct s|done].
    - exists ge, (rl_dec s). split; [by destruct s|done].
  Qed.
  Lemma push_encrypt_cases t v n pl s s' o : (n < 2 ^ 64)%N -> push_encrypt t v n pl s = (s', o) ->
    (~ is_Ok o /\ (s' = s \/ exists total, (total <= rl_max_sent s)%N /\ s' = set_sent (rl_write_seq s + 1) total s)) \/
    (o = Ok tt /\ length (rl_encrypt s) < max_buffer /\ exists total op,
       total = ((rl_sent s + n) mod 2 ^ 64)%N /\ (total <= rl_max_sent s)%N /\ eop_wf op /\ eop_call op = (t, v, n, pl) /\
       eo_seq op = rl_write_seq s /\
       s' = set_bufs (rl_encrypt s ++ [op]) (rl_decrypt s) (set_sent (rl_write_seq s + 1) total s)).
  Proof.
    intros Hn H. unfold RecordModel.push_encrypt in H.
    destruct (Nat.leb_spec max_buffer (length (rl_encrypt s))) as [Hb|Hb].
    { injection H as <- <-. left. split; [by intros [? [=]]|by left]. }
    destruct (uadd checked (rl_sent s) n) as [total|[]|] eqn:Eu.
    2: { injection H as <- <-. left. split; [by intros [? [=]]|by left]. }
    destruct (N.ltb_spec (rl_max_sent s) total) as [Hm|Hm].
    { injection H as <- <-. left. split; [by intros [? [=]]|by left]. }
    apply uadd_mod in Eu. cbv zeta in H. destruct (enc_op_new _ _ _ _ _ _ _ _) as [op|e|] eqn:Eo; injection H as <- <-.
    - right. split_and!; [done..|]. exists total, op.
      assert (op = EncOp (rl_write_seq s) t v n pl (be 8 (rl_write_seq s)) (make_aad (rl_write_seq s) t v (N.to_nat (n mod 2 ^ 16))) (is_app t) /\
        match pl with Some p => N.of_nat (length p) = n | None => t = ApplicationData end) as [-> Hp].
      { unfold enc_op_new in Eo. destruct pl as [pp|].
        - destruct (N.eqb_spec (N.of_nat (length pp)) n); [|done]. injection Eo as <-. done.
        - destruct (is_app t) eqn:Et; [|done]. injection Eo as <-. split; [done|]. by apply is_app_spec. }
      split_and!; try done.
    - left. split; [by intros [? [=]]|]. right. exists total. done.
    - left. split; [by intros [? [=]]|]. right. exists total. done.
  Qed.
  Lemma push_decrypt_cases t v n ct tag s s' o : (N.of_nat (length ct) < 2 ^ 63)%N -> push_decrypt t v n ct tag s = (s', o) ->
    (~ is_Ok o /\ s' = s) \/
    (o = Ok tt /\ length (rl_decrypt s) < max_buffer /\ exists total op,
       total = ((rl_recv s + N.of_nat (length ct)) mod 2 ^ 64)%N /\ (total <= rl_max_recv s)%N /\ dop_wf op /\
       dop_call op = (t, v, n, ct, tag) /\ do_seq op = rl_read_seq s /\
       s' = set_bufs (rl_encrypt s) (rl_decrypt s ++ [op]) (set_recv (rl_read_seq s + 1) total s)).
  Proof.
    intros Hn H. unfold RecordModel.push_decrypt in H.
    destruct (Nat.leb_spec max_buffer (length (rl_decrypt s))) as [Hb|Hb].
    { injection H as <- <-. left. split; [by intros [? [=]]|done]. }
    destruct (uadd checked (rl_recv s) _) as [total|[]|] eqn:Eu.
    2: { injection H as <- <-. left. split; [by intros [? [=]]|done]. }
    destruct (N.ltb_spec (rl_max_recv s) total) as [Hm|Hm].
    { injection H as <- <-. left. split; [by intros [? [=]]|done]. }
    apply uadd_mod in Eu. injection H as <- <-. right. split_and!; [done..|].
    exists total, (DecOp (rl_read_seq s) t v n ct (make_aad (rl_read_seq s) t v (length ct)) tag (is_app t)). split_and!; try done.
  Qed.

  (** A history without failures. *)
  Record clean (s : rl) (p : past) : Prop := Clean {
    c_ae : map eop_call (eops s p) = p_ae p;
    c_eseq : forall i op, eops s p !! i = Some op -> eo_seq op = N.of_nat i;
    c_wseq : rl_write_seq s = N.of_nat (length (p_ae p));
    c_ad : map dop_call (dops s p) = p_ad p;
    c_dseq : forall i op, dops s p !! i = Some op -> do_seq op = N.of_nat i;
    c_sent : rl_sent s = (sum_N (map enc_len (p_ae p)) mod 2 ^ 64)%N;
    c_within : (sum_N (map (fun x => eo_len (fst x)) (p_fe p)) <= rl_max_sent s)%N }.
  Lemma clean_new r : clean (rl_new r) past0.
  Proof. split; cbn; try done; lia. Qed.
  Lemma clean_frame s s' p : clean s p ->
    rl_encrypt s' = rl_encrypt s -> rl_decrypt s' = rl_decrypt s -> rl_write_seq s' = rl_write_seq s ->
    rl_sent s' = rl_sent s -> (rl_max_sent s <= rl_max_sent s')%N -> forall p',
    p_ae p' = p_ae p -> p_ad p' = p_ad p -> p_fe p' = p_fe p -> p_fd p' = p_fd p -> clean s' p'.
  Proof.
    intros [] E1 E2 E3 E4 E5 p' F1 F2 F3 F4.
    split; unfold eops, dops in *; rewrite ?E1, ?E2, ?E3, ?E4, ?F1, ?F2, ?F3, ?F4 in *; try done. lia.
  Qed.

  Lemma zip_fst {A B} (l : list A) (k : list B) : length l = length k -> map fst (zip l k) = l.
  Proof. intros H. apply fst_zip. lia. Qed.
  Lemma map_zip {A B C} (f : A -> B -> C) (l : list A) (k : list B) :
    map (fun x => f (fst x) (snd x)) (zip l k) = zip_with f l k.
  Proof. revert k. induction l as [|a l IH]; intros [|b k]; [done..|]. cbn. f_equal. apply IH. Qed.
  Lemma Forall2_zip {A B} (P : A -> B -> Prop) l k : Forall2 P l k -> Forall (fun x => P (fst x) (snd x)) (zip l k).
  Proof. induction 1; constructor; done. Qed.

  Lemma step_inv c s s' o p : rl_step c s = (s', o) -> call_ok c -> inv s p ->
    exists fe fd, inv s' (past_step c o fe fd p) /\ (is_Ok o -> clean s p -> clean s' (past_step c o fe fd p)).
  Proof.
    intros H Hc Hinv. pose proof Hinv as [].
    assert (forall A (m : stm rl rl_error A) k, sbind m (fun x => sret (k x)) s = (s', o) ->
      exists o', m s = (s', o') /\ o = match o' with Ok x => Ok (k x) | Err e => Err e | Panic => Panic end) as Hk.
    { intros A m k Hm. unfold sbind in Hm. destruct (m s) as [s1 [x|e|]]; injection Hm as <- <-; eauto. }
    assert (forall A B (o' : outcome rl_error A) (f : A -> B), ~ is_Ok o' ->
      ~ is_Ok (match o' with Ok x => Ok (f x) | Err e => Err e | Panic => Panic end)) as Hno.
    { intros A B o' f Ho [x Hx]. destruct o'; try done. apply Ho. by eexists. }
    assert (forall o1 : outcome rl_error rl_result, ~ is_Ok o1 -> ~ (is_Ok o1 -> False) -> False) as _ by tauto.
    destruct c as [a b sl ol rlen| | |t v n pl|t v n ct tag|b| | |]; cbn [RecordModel.rl_step] in H; apply Hk in H as (o' & H & ->).
    - (* alloc *)
      apply alloc_cases in H as [(Hf & ge & gd & ->)|(Hst & -> & ge & gd & otp & x & y & z & -> & Hotp & Hb1 & Hb2 & Hx & Hz)]; [| |done].
      + exists [], []. rewrite not_ok_nothing by (by apply Hno). split; [|intros Ho; exfalso; revert Ho; by apply Hno].
        eapply inv_frame; cbn; try done; try lia; by right.
      + exists [], []. unfold past_step. cbn. rewrite !app_nil_r, !N.add_0_r. rewrite Hst in i_st0.
        destruct i_st0 as (Hfe & Hfd & Hm1 & Hm2). rewrite (Hx Hm1), (Hz Hm2).
        assert (sl < 2 ^ 64)%N. { cbn in Hc. do 2 apply Forall_cons in Hc as [_ Hc]. by apply Forall_cons in Hc as [? _]. }
        assert (flushed_blocks p = 0%N) as Hfb by (unfold flushed_blocks; by rewrite Hfe).
        split.
        * split; try done; cbn [p_n p_ae p_ad p_he p_hd p_lg p_ms p_mr p_fe p_fd set_st set_max set_dec set_enc
             rl_role rl_write_seq rl_max_sent rl_max_recv rl_sent rl_recv rl_st rl_enc].
          -- lia.
          -- rewrite Hfe, Hfd. change (flushed_blocks (Past _ _ _ _ _ _ _ _ [] [])) with 0%N. split_and!; try done; lia.
          -- change (16 * flushed_blocks p < 2 ^ 64 /\ flushed_blocks p <= blocks_of sl)%N. rewrite Hfb. lia.
          -- intros Hl. destruct (i_lgst0 Hl); congruence.
          -- rewrite <- i_ms0, Hm1. lia.
          -- rewrite <- i_mr0, Hm2. lia.
          -- lia.
          -- intros _. destruct i_recv0 as [E1 E2]; [lia|]. split; [done|lia].
        * intros _ Hcl. eapply clean_frame; try done. cbn. lia.
    - (* setup *)
      apply setup_cases in H as (ge & gd & -> & Hb). exists [], []. rewrite step_nothing by (destruct o'; done). split.
      + eapply inv_frame; cbn; try done; try lia; by left.
      + intros _ Hcl. eapply clean_frame; done.
    - (* start *)
      injection H as <- <-. exists [], []. rewrite step_nothing by done. split.
      + eapply inv_frame; cbn; try done; try lia; by left.
      + intros _ Hcl. eapply clean_frame; done.
    - (* encrypt *)
      apply push_encrypt_cases in H as [(Hf & Hs)|(-> & Hbuf & total & op & Htot & Htm & Hwf & Hcall & Hseq & ->)]; [| |done].
      + exists [], []. rewrite not_ok_nothing by (by apply Hno). split; [|intros Ho; exfalso; revert Ho; by apply Hno].
        destruct Hs as [->|(total & Ht & ->)]; eapply inv_frame; cbn; try done; try lia; by left.
      + exists [], []. unfold past_step. cbn. rewrite !app_nil_r, !N.add_0_r. 
        set (p' := Past _ _ _ _ _ _ _ _ _ _). set (s1 := set_bufs _ _ _).
        assert (eops s1 p' = eops s p ++ [op]) as He by (unfold eops; cbn; by rewrite app_assoc).
        assert (dops s1 p' = dops s p) as Hd by done.
        split.
        * split; rewrite ?He, ?Hd; try done.
          -- apply Forall_app. split; [done|]. by constructor.
          -- rewrite map_app. apply increasing_snoc; [done|]. by rewrite Hseq.
          -- rewrite map_app. apply Forall_app. cbn. split.
             ++ eapply Forall_impl; [exact i_ebound0|]. cbn. intros; lia.
             ++ constructor; [lia|constructor].
          -- cbn. lia.
          -- rewrite map_app. apply sublist_app; [done|]. cbn. by rewrite Hcall.
          -- cbn. rewrite app_length. cbn. lia.
        * intros _ []. split; rewrite ?He, ?Hd; try done.
          -- rewrite map_app, c_ae0. cbn. by rewrite Hcall.
          -- intros i op' Hi. apply lookup_app_Some in Hi as [Hi|[Hle Hi]]; [by apply c_eseq0|].
             apply list_lookup_singleton_Some in Hi as [Hi <-]. rewrite Hseq, c_wseq0, <- c_ae0, map_length. lia.
          -- cbn. rewrite c_wseq0, app_length. cbn. lia.
          -- cbn. rewrite Htot, c_sent0, map_app, sum_N_app. cbn. rewrite N.add_0_r, N.add_mod_idemp_l by done. done.
    - (* decrypt *)
      apply push_decrypt_cases in H as [(Hf & ->)|(-> & Hbuf & total & op & Htot & Htm & Hwf & Hcall & Hseq & ->)]; [| |done].
      + exists [], []. rewrite not_ok_nothing by (by apply Hno). split; [|intros Ho; exfalso; revert Ho; by apply Hno].
        eapply inv_frame; cbn; try done; try lia; by left.
      + exists [], []. unfold past_step. cbn. rewrite !app_nil_r, !N.add_0_r. 
        set (p' := Past _ _ _ _ _ _ _ _ _ _). set (s1 := set_bufs _ _ _).
        assert (dops s1 p' = dops s p ++ [op]) as Hd by (unfold dops; cbn; by rewrite app_assoc).
        assert (eops s1 p' = eops s p) as He by done.
        split.
        * split; rewrite ?He, ?Hd; try done.
          -- apply Forall_app. split; [done|]. by constructor.
          -- cbn. lia.
          -- rewrite map_app. apply increasing_snoc; [done|]. rewrite Hseq, i_rseq0.
             apply Forall_fmap. eapply Forall_impl; [exact i_dcall0|]. cbn. intros x Hx. apply lookup_lt_Some in Hx. lia.
          -- apply Forall_app. split.
             ++ eapply Forall_impl; [exact i_dcall0|]. cbn. intros x Hx. by apply lookup_app_l_Some.
             ++ constructor; [|constructor]. cbn. rewrite Hseq, i_rseq0, Nat2N.id. rewrite lookup_app_r, Nat.sub_diag by lia.
                by rewrite Hcall.
          -- rewrite map_app. apply sublist_app; [done|]. cbn. by rewrite Hcall.
          -- cbn. rewrite i_rseq0, app_length. cbn. lia.
          -- cbn. rewrite app_length. cbn. lia.
          -- cbn. intros Hm. destruct i_recv0 as [E1 E2]; [done|]. cbn in Hc.
             rewrite N.mod_small in Htot by lia. rewrite map_app, sum_N_app. cbn. split; lia.
        * intros _ []. split; rewrite ?He, ?Hd; try done.
          -- rewrite map_app, c_ad0. cbn. by rewrite Hcall.
          -- intros i op' Hi. apply lookup_app_Some in Hi as [Hi|[Hle Hi]]; [by apply c_dseq0|].
             apply list_lookup_singleton_Some in Hi as [Hi <-]. rewrite Hseq, i_rseq0, <- c_ad0, map_length. lia.
    - (* flush *)
      apply Forall_app in i_ewf0 as [Hw1 Hw2]. apply Forall_app in i_dwf0 as [Hw3 Hw4].
      apply (flush_cases aes ghash_fn checked enc_key enc_iv dec_key dec_iv blind Haes) in H
        as [(Hst & -> & ->)|(otp & sent & recv & dd & rest & otp' & ge & gd & online & Hst & Hd & Hotp & Hcase)]; [| |done|done|].
      + exists [], []. rewrite not_ok_nothing by (by intros [? [=]]). split; [|by intros [? [=]]].
        eapply inv_frame; cbn; try done; try lia; by left.
      + rewrite Hst in i_st0. destruct i_st0 as (Hsent & Hrecv & Hrole & Hb1 & Hb2).
        destruct Hcase as [(cts & plains & -> & Hcts & Hplains & Hbl & ->)|(Hne & Hbl & ->)].
        * exists (zip (rl_encrypt s) cts), (zip dd plains). unfold past_step. cbn. rewrite !app_nil_r, !N.add_0_r.
          apply Forall2_length in Hcts as Hl1. apply Forall2_length in Hplains as Hl2.
          set (p' := Past _ _ _ _ _ _ _ _ _ _). set (s1 := flushed _ _ _ _ _ _ _ _).
          assert (eops s1 p' = eops s p) as He.
          { unfold eops. cbn. rewrite app_nil_r, map_app, zip_fst by done. done. }
          assert (dops s1 p' = dops s p) as Hdd.
          { unfold dops. cbn. rewrite map_app, zip_fst, Hd, app_assoc by done. done. }
          assert (flushed_blocks p' = flushed_blocks p + sum_blocks (map eo_len (rl_encrypt s)))%N as Hfb.
          { unfold flushed_blocks, p'. cbn [p_fe]. rewrite map_app, sum_blocks_app. f_equal. f_equal.
            rewrite <- (zip_fst (rl_encrypt s) cts) at 2 by done. by rewrite map_map. }
          assert (Forall eop_wf (eops s p)) as Hew by (by apply Forall_app).
          assert (Forall dop_wf (dops s p)) as Hdw by (by apply Forall_app).
          split.
          -- split; rewrite ?He, ?Hdd, ?Hfb; try done.
             ++ apply Forall_app. split; [done|]. by apply Forall2_zip.
             ++ apply Forall_app. split; [done|]. by apply Forall2_zip.
             ++ cbn. lia.
             ++ cbn. rewrite app_assoc, i_he0, map_app. f_equal. symmetry. apply (map_zip (out_enc (rl_role s))).
             ++ cbn. rewrite app_assoc, i_hd0, map_app. f_equal. symmetry. apply (map_zip out_dec).
             ++ cbn [flushed s1 rl_st rl_role rl_enc rl_max_sent]. split_and!.
                ** cbn. rewrite Hsent, map_app. f_equal. symmetry. apply (map_zip (log_enc (rl_role s))).
                ** cbn. rewrite Hrecv, map_app. f_equal. symmetry. apply (map_zip log_dec).
                ** by rewrite Hotp.
                ** lia.
                ** lia.
             ++ cbn [flushed s1 rl_max_sent]. lia.
             ++ cbn. lia.
             ++ cbn. rewrite Hd, app_length in i_dbuf0. lia.
             ++ destruct (p_lg p) as [|l lg] eqn:El; [cbn; constructor|].
                destruct i_lgst0 as [?|?]; [done|congruence..].
             ++ cbn. intros Hl. destruct i_lgst0 as [?|?]; [done|congruence..].
          -- intros _ []. split; rewrite ?He, ?Hdd; try done.
             (* the wrapped sum is the sum *)
             assert (map (fun x => eo_len (fst x)) (p_fe p') = map enc_len (p_ae p)) as Hlens.
             { cbn. rewrite <- c_ae0. unfold eops. rewrite !map_app, !map_map. f_equal.
               rewrite <- (zip_fst (rl_encrypt s) cts) at 2 by done. by rewrite map_map. }
             rewrite Hlens. cbn. rewrite c_sent0 in i_sent0. rewrite N.mod_small in i_sent0; [done|].
             rewrite <- Hlens. pose proof (sum_le_blocks (map (fun x => eo_len (fst x)) (p_fe p'))) as Hle.
             fold (flushed_blocks p') in Hle. rewrite Hfb in Hle. lia.
        * exists [], []. rewrite not_ok_nothing by (destruct o' as [[]| |]; [done|by intros [? [=]]..]).
          split; [|destruct o' as [[]| |]; [done|by intros [? [=]]..]].
          assert (Forall eop_wf (eops s p)) as Hew by (by apply Forall_app).
          assert (Forall dop_wf (dops s p)) as Hdw by (by apply Forall_app).
          assert (rest `sublist_of` rl_decrypt s) as Hsub by (rewrite Hd; by apply sublist_inserts_l).
          pose proof (inv_frame s (flushed s ge gd (rl_st s) online rest [] []) p Hinv) as Hfr. cbn in Hfr.
          rewrite !app_nil_r in Hfr. 
          destruct Hfr as []; try done; try lia; [by left|apply sublist_nil_l|].
          split; try done.
          -- cbn [flushed rl_st rl_role rl_enc rl_max_sent]. cbn in i_st0. rewrite Hst in i_st0.
             destruct i_st0 as (E1 & E2 & E3 & E4 & E5). split_and!; try done. by rewrite Hotp.
          -- intros Hl. destruct (i_lgst0 Hl); congruence.
      + intros otp sent recv Hst. rewrite Hst in i_st0. tauto.
    - (* next_encrypted *)
      unfold next_encrypted in H. destruct (rl_encrypted s) as [|r rs] eqn:Er.
      { injection H as <- <-. exists [], []. rewrite step_nothing by done. split.
        - eapply inv_frame; cbn; try done; try lia; by left.
        - intros _ Hcl. eapply clean_frame; done. }
      destruct (_ && _); injection H as <- <-.
      { exists [], []. rewrite step_nothing by done. split.
        - eapply inv_frame; cbn; try done; try lia; by left.
        - intros _ Hcl. eapply clean_frame; done. }
      exists [], []. unfold past_step. cbn. rewrite !app_nil_r, !N.add_0_r. split.
      + split; try done; cbn; [lia|]. by rewrite <- app_assoc.
      + intros _ Hcl. eapply clean_frame; done.
    - (* next_decrypted *)
      unfold next_decrypted in H. destruct (rl_decrypted s) as [|r rs] eqn:Er.
      { injection H as <- <-. exists [], []. rewrite step_nothing by done. split.
        - eapply inv_frame; cbn; try done; try lia; by left.
        - intros _ Hcl. eapply clean_frame; done. }
      destruct (_ && _); injection H as <- <-.
      { exists [], []. rewrite step_nothing by done. split.
        - eapply inv_frame; cbn; try done; try lia; by left.
        - intros _ Hcl. eapply clean_frame; done. }
      exists [], []. unfold past_step. cbn. rewrite !app_nil_r, !N.add_0_r. split.
      + split; try done; cbn; [lia|]. by rewrite <- app_assoc.
      + intros _ Hcl. eapply clean_frame; done.
    - (* commit *)
      apply Forall_app in i_dwf0 as [Hw3 Hw4].
      apply (commit_cases aes ghash_fn checked dec_key dec_iv Haes) in H
        as [(otp & sent & recv & plains & g & Hst & He & Hpl & -> & ->)|(Hf & ds & g & Hds & ->)]; [| |done].
      + exists [], (zip (rl_decrypt s) plains). unfold past_step. cbn. rewrite !app_nil_r, !N.add_0_r.
        apply Forall2_length in Hpl as Hl2.
        set (p' := Past _ _ _ _ _ _ _ _ _ _). set (s1 := set_out _ _ _).
        assert (eops s1 p' = eops s p) as Hee by (unfold eops; cbn; by rewrite He).
        assert (dops s1 p' = dops s p) as Hdd.
        { unfold dops. cbn. rewrite app_nil_r, map_app, zip_fst by done. done. }
        assert (Forall dop_wf (dops s p)) as Hdw by (by apply Forall_app).
        rewrite Hst in i_st0. destruct i_st0 as (Hsent & Hrecv & Hrole & Hb1 & Hb2).
        assert (p_lg p = []) as Hlg.
        { destruct (p_lg p) as [|l lg] eqn:El; [done|]. destruct i_lgst0 as [?|?]; [done|congruence..]. }
        split.
        * split; rewrite ?Hee, ?Hdd; try done.
          -- apply Forall_app. split; [done|]. by apply Forall2_zip.
          -- cbn. lia.
          -- cbn. rewrite app_assoc, i_hd0, map_app. f_equal. symmetry. apply (map_zip out_dec).
          -- cbn. lia.
          -- cbn. lia.
          -- cbn. rewrite Hlg. constructor; [|constructor]. rewrite Hsent, Hrecv, map_app. do 2 f_equal.
             symmetry. apply (map_zip log_dec).
          -- by left.
        * intros _ []. split; rewrite ?Hee, ?Hdd; done.
      + exists [], []. rewrite not_ok_nothing by (by apply Hno). split; [|intros Ho; exfalso; revert Ho; by apply Hno].
        assert (ds `sublist_of` rl_decrypt s) as Hsub.
        { destruct Hds as [->| ->]; [apply sublist_nil_l|done]. }
        assert (Forall dop_wf (dops s p)) as Hdw by (by apply Forall_app).
        eapply inv_frame; cbn; try done; try lia; by right.
  Qed.

  Lemma step_role c s s' o p : rl_step c s = (s', o) -> call_ok c -> inv s p -> rl_role s' = rl_role s.
  Proof.
    intros H Hc [].
    assert (forall A (m : stm rl rl_error A) k, sbind m (fun x => sret (k x)) s = (s', o) -> exists o', m s = (s', o')) as Hk.
    { intros A m k Hm. unfold sbind in Hm. destruct (m s) as [s1 [x|e|]]; injection Hm as <- <-; eauto. }
    apply Forall_app in i_ewf0 as [_ Hw2]. apply Forall_app in i_dwf0 as [_ Hw4].
    destruct c as [a b sl ol rlen| | |t v n pl|t v n ct tag|b| | |]; cbn [RecordModel.rl_step] in H; apply Hk in H as (o' & H).
    - apply alloc_cases in H as [(Hf & ge & gd & ->)|(Hst & -> & ge & gd & otp & x & y & z & -> & _)]; done.
    - by apply setup_cases in H as (ge & gd & -> & _).
    - by injection H as <- <-.
    - apply push_encrypt_cases in H as [(_ & [->|(total & _ & ->)])|(_ & _ & total & op & _ & _ & _ & _ & _ & ->)]; done.
    - apply push_decrypt_cases in H as [(_ & ->)|(_ & _ & total & op & _ & _ & _ & _ & _ & ->)]; done.
    - apply (flush_cases aes ghash_fn checked enc_key enc_iv dec_key dec_iv blind Haes) in H
        as [(_ & -> & _)|(otp & sent & recv & dd & rest & otp' & ge & gd & online & _ & _ & _ & [(? & ? & _ & _ & _ & _ & ->)|(_ & _ & ->)])];
        try done. intros otp sent recv Hst. rewrite Hst in i_st0. tauto.
    - unfold next_encrypted in H. destruct (rl_encrypted s); [by injection H as <- <-|].
      destruct (_ && _); by injection H as <- <-.
    - unfold next_decrypted in H. destruct (rl_decrypted s); [by injection H as <- <-|].
      destruct (_ && _); by injection H as <- <-.
    - apply (commit_cases aes ghash_fn checked dec_key dec_iv Haes) in H
        as [(otp & sent & recv & plains & g & _ & _ & _ & _ & ->)|(_ & ds & g & _ & ->)]; done.
  Qed.
  Lemma step_started c s s' o p : rl_step c s = (s', o) -> call_ok c -> inv s p -> c <> CStart -> rl_started s' = rl_started s.
  Proof.
    intros H Hc [] Hne.
    assert (forall A (m : stm rl rl_error A) k, sbind m (fun x => sret (k x)) s = (s', o) -> exists o', m s = (s', o')) as Hk.
    { intros A m k Hm. unfold sbind in Hm. destruct (m s) as [s1 [x|e|]]; injection Hm as <- <-; eauto. }
    apply Forall_app in i_ewf0 as [_ Hw2]. apply Forall_app in i_dwf0 as [_ Hw4].
    destruct c as [a b sl ol rlen| | |t v n pl|t v n ct tag|b| | |]; cbn [RecordModel.rl_step] in H; apply Hk in H as (o' & H).
    - apply alloc_cases in H as [(Hf & ge & gd & ->)|(Hst & -> & ge & gd & otp & x & y & z & -> & _)]; done.
    - by apply setup_cases in H as (ge & gd & -> & _).
    - done.
    - apply push_encrypt_cases in H as [(_ & [->|(total & _ & ->)])|(_ & _ & total & op & _ & _ & _ & _ & _ & ->)]; done.
    - apply push_decrypt_cases in H as [(_ & ->)|(_ & _ & total & op & _ & _ & _ & _ & _ & ->)]; done.
    - apply (flush_cases aes ghash_fn checked enc_key enc_iv dec_key dec_iv blind Haes) in H
        as [(_ & -> & _)|(otp & sent & recv & dd & rest & otp' & ge & gd & online & _ & _ & _ & [(? & ? & _ & _ & _ & _ & ->)|(_ & _ & ->)])];
        try done. intros otp sent recv Hst. rewrite Hst in i_st0. tauto.
    - unfold next_encrypted in H. destruct (rl_encrypted s); [by injection H as <- <-|].
      destruct (_ && _); by injection H as <- <-.
    - unfold next_decrypted in H. destruct (rl_decrypted s); [by injection H as <- <-|].
      destruct (_ && _); by injection H as <- <-.
    - apply (commit_cases aes ghash_fn checked dec_key dec_iv Haes) in H
        as [(otp & sent & recv & plains & g & _ & _ & _ & _ & ->)|(_ & ds & g & _ & ->)]; done.
  Qed.
  Lemma push_sent t v n pl s s' o : push_encrypt t v n pl s = (s', o) ->
    (checked = true \/ (rl_sent s + n < 2 ^ 64)%N) ->
    (rl_sent s <= rl_sent s')%N /\ (is_Ok o -> (rl_sent s + n <= rl_sent s')%N).
  Proof.
    intros H Hne. unfold RecordModel.push_encrypt in H.
    destruct (max_buffer <=? length (rl_encrypt s)); [injection H as <- <-; split; [lia|by intros [? [=]]]|].
    destruct (uadd checked (rl_sent s) n) as [total|[]|] eqn:Eu; [|injection H as <- <-; split; [lia|by intros [? [=]]]].
    apply uadd_exact in Eu; [|done].
    destruct (rl_max_sent s <? total)%N; [injection H as <- <-; split; [lia|by intros [? [=]]]|].
    destruct (enc_op_new _ _ _ _ _ _ _ _); injection H as <- _; cbn [rl_sent set_bufs set_sent]; split; intros; lia.
  Qed.
  Lemma step_sent c s s' o p : rl_step c s = (s', o) -> call_ok c -> inv s p ->
    (forall t v n pl, c = CEncrypt t v n pl -> checked = true \/ (rl_sent s + n < 2 ^ 64)%N) ->
    (rl_sent s + sum_N (map call_len (accepted_enc [c] [o])) <= rl_sent s')%N.
  Proof.
    intros H Hc [] Hne.
    assert (forall A (m : stm rl rl_error A) k, sbind m (fun x => sret (k x)) s = (s', o) -> exists o', m s = (s', o') /\ (~ is_Ok o' -> ~ is_Ok o)) as Hk.
    { intros A m k Hm. unfold sbind in Hm. destruct (m s) as [s1 [x|e|]]; injection Hm as <- <-; eexists; (split; [done|]); intros Hn; first [by intros [? [=]]|exfalso; apply Hn; by eexists]. }
    assert ((exists t v n pl, c = CEncrypt t v n pl) \/ (accepted_enc [c] [o] = [] /\ forall t v n pl, c <> CEncrypt t v n pl)) as [(t & v & n & pl & ->)|[Ha Hnenc]] by (destruct c; eauto 6; right; by destruct o).
    { cbn [RecordModel.rl_step] in H. apply Hk in H as (o' & H & Ho). specialize (Hne _ _ _ _ eq_refl).
      apply push_sent in H as [H1 H2]; [|done]. destruct o as [x|e|]; cbn [accepted_enc map sum_N foldr call_len]; [|lia..].
      rewrite N.add_0_r. apply H2. destruct o' as [y|e|]; [by eexists|..]; exfalso; apply Ho; try (by intros [? [=]]); by eexists. }
    rewrite Ha. cbn [map]. change (sum_N []) with 0%N. rewrite N.add_0_r. assert (forall a b : N, b = a -> (a <= b)%N) as Hle by (intros; lia). apply Hle. clear Hle.
    apply Forall_app in i_ewf0 as [_ Hw2]. apply Forall_app in i_dwf0 as [_ Hw4].
    destruct c as [a b sl ol rlen| | |t v n pl|t v n ct tag|b| | |]; cbn [RecordModel.rl_step] in H; apply Hk in H as (o' & H & Ho).
    - apply alloc_cases in H as [(Hf & ge & gd & ->)|(Hst & -> & ge & gd & otp & x & y & z & -> & _)]; done.
    - by apply setup_cases in H as (ge & gd & -> & _).
    - by injection H as <- <-.
    - exfalso. by apply (Hnenc t v n pl).
    - apply push_decrypt_cases in H as [(_ & ->)|(_ & _ & total & op & _ & _ & _ & _ & _ & ->)]; done.
    - apply (flush_cases aes ghash_fn checked enc_key enc_iv dec_key dec_iv blind Haes) in H
        as [(_ & -> & _)|(otp & sent & recv & dd & rest & otp' & ge & gd & online & _ & _ & _ & [(? & ? & _ & _ & _ & _ & ->)|(_ & _ & ->)])];
        try done. intros otp sent recv Hst. rewrite Hst in i_st0. tauto.
    - unfold next_encrypted in H. destruct (rl_encrypted s); [by injection H as <- <-|].
      destruct (_ && _); by injection H as <- <-.
    - unfold next_decrypted in H. destruct (rl_decrypted s); [by injection H as <- <-|].
      destruct (_ && _); by injection H as <- <-.
    - apply (commit_cases aes ghash_fn checked dec_key dec_iv Haes) in H
        as [(otp & sent & recv & plains & g & _ & _ & _ & _ & ->)|(_ & ds & g & _ & ->)]; done.
  Qed.
End Inv.
