(** Runs of the TLS client. *)
From Verif.Lib Require Import Base.
From Verif Require Import ProofModel CodecModel CodecSpec CodecLemmas FramingLemmas TlsModel HandshakeModel HandshakeLemmas HandshakePropLemmas
  AttestModel SigAlgModel SigAlgSpec SigAlgLemmas RecordModel ClientModel ClientSpec ClientLemmas ClientInv ClientSteps ClientFlight ClientRun.

Lemma bytes_ok_concat_wire ms : bytes_ok (concat (map wire ms)) -> Forall (fun m => bytes_ok (m_payload m)) ms.
Proof.
  induction ms as [|m ms IH]; cbn [map concat]; intros H; [constructor|]. apply bytes_ok_app in H as [H1 H2]. constructor; [|by apply IH].
  unfold wire in H1. by apply bytes_ok_app in H1 as [_ H1].
Qed.
Lemma df_read_bytes d c d' : bytes_ok (df_buf d) -> bytes_ok c -> df_read d c = Some d' ->
  exists ms, df_frames d' = df_frames d ++ ms /\ Forall (fun m => bytes_ok (m_payload m)) ms /\ bytes_ok (df_buf d').
Proof.
  intros Hd Hc H. unfold df_read in H. destruct (_ <? _)%N; [done|]. cbv zeta in H.
  assert (bytes_ok (df_buf d ++ c)) as Hb by (by apply bytes_ok_app).
  destruct (df_loop_spec _ (Deframer (df_frames d) (df_desynced d) (df_buf d ++ c)) Hb (Nat.lt_succ_diag_r _)) as (ms & bad & r & Hr & Hsh).
  rewrite H in Hr. injection Hr as ->.
  exists ms. simpl. split; [done|]. destruct Hsh as [Hs _ _]. simpl in Hs.
  rewrite Hs in Hb. apply bytes_ok_app in Hb as [Hb1 Hb2]. split; [by apply bytes_ok_concat_wire|done].
Qed.

Section Client.
  Context (E : env) (HB : backend_ok E).

  Definition payloads_ok (ms : list message) : Prop := Forall (fun m => bytes_ok (m_payload m)) ms.

  Lemma INV_clear_in st u m x : INV E st u x -> x_dec x = false -> m_typ m = Handshake -> bytes_ok (m_payload m) ->
    INV E st (u ++ m_payload m) (set_log (x_log x ++ [ClearIn m]) x).
  Proof.
    intros HI Hd Hm Hb. set (x1 := set_log _ x).
    assert (pre x -> pre x1) as Hpre.
    { intros ((H1 & H1') & H2 & H3 & H4 & H5 & H6). unfold pre. split_and!; try done.
      - split; [|done]. simpl. apply Forall_app. split; [done|by repeat constructor].
      - intros m' Hm'. simpl in Hm'. apply elem_of_app in Hm' as [?|[?|?%elem_of_nil]%elem_of_cons]; try done. by eapply H4.
      - simpl. rewrite heard_app. apply bytes_ok_app. split; [done|]. unfold heard, hs_part. simpl. rewrite Hm. simpl. by rewrite app_nil_r.
      - simpl. rewrite heard_enc_app, H6. done. }
    assert (heard (x_log x1) = heard (x_log x) ++ m_payload m) as Eh.
    { simpl. rewrite heard_app. unfold heard at 2. simpl. unfold hs_part. rewrite Hm. simpl. by rewrite app_nil_r. }
    assert (said (x_log x1) = said (x_log x) /\ said_enc (x_log x1) = said_enc (x_log x) /\ key_calls (x_log x1) = key_calls (x_log x)) as (E1 & E2 & E3).
    { simpl. rewrite said_app, said_enc_app, key_calls_app. by rewrite !app_nil_r. }
    destruct st; unfold INV in HI; cbn beta iota zeta in HI.
    1: { destruct HI as (H1 & H2 & H3 & H4 & H5 & H6). unfold INV. rewrite E1, E2, E3, Eh, H6. split_and!; try done. by apply Hpre. }
    1-6: destruct HI as (H1 & H2 & H3 & H4 & ch & hs & H5 & H6 & H7 & H8); unfold INV; rewrite E1, E2, E3, Eh; split_and!; try done;
      [by apply Hpre|]; exists ch, hs; rewrite H7, <- app_assoc; split; [by apply hello_in_app|done].
    - destruct HI as (H1 & H2 & s & H3 & H4). unfold INV. rewrite Eh. split; [by apply Hpre|]. split; [done|]. exists s.
      rewrite H4, <- app_assoc. split; [|done]. destruct H3 as (F1 & F2 & F3 & F4 & F5 & F6 & F7 & F8 & F9 & F10).
      unfold flown. rewrite E1, E2, E3. split_and!; try done; [by apply hello_in_app|]. simpl. apply elem_of_app. by left.
    - destruct HI as (_ & _ & ? & _). congruence.
    - destruct HI as (_ & _ & _ & ?). congruence.
  Qed.
  Lemma INV_decrypted st u m x : INV E st u x -> x_dec x = true -> m_typ m = Handshake ->
    INV E st (u ++ m_payload m) (set_log (x_log x ++ [Decrypted m]) x).
  Proof.
    intros HI Hd Hm.
    destruct st; unfold INV in HI; cbn beta iota zeta in HI; try (destruct HI as ((_ & ? & _) & _); congruence).
    - destruct HI as ((H0 & H0') & H1 & H2 & s & H3 & H4 & H5). unfold INV. simpl. split.
      { split; [|done]. simpl. apply Forall_app. split; [done|by repeat constructor]. }
      split; [done|]. split; [done|]. exists s. split; [|split].
      + destruct H3 as (F1 & F2 & F3 & F4 & F5 & F6 & F7 & F8 & F9 & F10). unfold flown.
        rewrite said_app, said_enc_app, key_calls_app. simpl. rewrite !app_nil_r.
        split_and!; try done; [by apply hello_in_app|]. simpl. apply elem_of_app. by left.
      + rewrite heard_app. simpl. by rewrite app_nil_r.
      + rewrite heard_enc_app, H5. f_equal. unfold heard_enc, hs_part. simpl. rewrite Hm. simpl. by rewrite app_nil_r.
    - destruct HI as (H1 & H2 & H3 & H4). unfold INV. simpl. split_and!; try done.
      + apply guard_auth; try done. constructor; [|done]. right. by eexists.
      + apply authenticated_later; try done. constructor; [|done]. right. by eexists.
  Qed.
  Lemma INV_push_in st u m x : INV E st u x -> x_dec x = true -> INV E st u (set_log (x_log x ++ [PushIn m]) x).
  Proof.
    intros HI Hd. assert (Forall quiet [PushIn m]) as Hq by (by repeat constructor).
    destruct st; unfold INV in HI; cbn beta iota zeta in HI; try (destruct HI as ((_ & ? & _) & _); congruence).
    - destruct HI as ((H0 & H0') & H1 & H2 & s & H3 & H4 & H5). unfold INV. simpl. split.
      { split; [|done]. simpl. apply Forall_app. split; [done|by repeat constructor]. }
      destruct (quiet_app_view (x_log x) _ Hq) as (E1 & E2 & _). rewrite E1, E2.
      split; [done|]. split; [done|]. exists s. split; [by apply flown_quiet|done].
    - destruct HI as (H1 & H2 & H3 & H4). unfold INV. simpl. split_and!; try done.
      + apply guard_auth; try done. constructor; [|done]. by left.
      + apply authenticated_later; try done. constructor; [|done]. by left.
  Qed.

  Definition RestB (x x' : cx) (o : outcome (bool * cl_error) cstate) : Prop :=
    match o with Ok st' => rest E st' x' /\ x_df x' = x_df x /\ x_in x' = x_in x | _ => safe E x' end.
  Lemma kept_inv {A} (m : cm A) x x' o : kept m x = (x', o) -> exists o', m x = (x', o') /\
    match o with Ok a => o' = Ok a | Err _ => exists e, o' = Err e | Panic => o' = Panic end.
  Proof.
    intros H. apply scatch_inv in H as [(a & H & ->)|[(e & x1 & H1 & H)|[H ->]]]; [by eexists| |by eexists].
    injection H as <- <-. eexists. split; [done|]. by eexists.
  Qed.
  Lemma passed_inv {A} (m : cm A) x x' o : passed m x = (x', o) -> exists o', m x = (x', o') /\
    match o with Ok a => o' = Ok a | Err _ => exists e, o' = Err e | Panic => o' = Panic end.
  Proof.
    intros H. apply scatch_inv in H as [(a & H & ->)|[(e & x1 & H1 & H)|[H ->]]]; [by eexists| |by eexists].
    injection H as <- <-. eexists. split; [done|]. by eexists.
  Qed.
  Lemma rest_emit st x e : calm e -> rest E st x -> rest E st (set_log (x_log x ++ [e]) x).
  Proof.
    intros He (H1 & H2 & H3 & H4). split_and!; try done. eapply INV_calm; [exact H1|]. split; [done|]. exists [e]. split; [done|].
    by constructor.
  Qed.
  Lemma Rest_B x x' o o' : Rest E x x' o' ->
    match o with Ok a => o' = Ok a | Err _ => exists e, o' = Err e | Panic => o' = Panic end -> RestB x x' o.
  Proof. destruct o; simpl; [intros ? ->|intros ? [? ->]|intros ? ->]; done. Qed.

  Lemma process_record_post m st x x' o : bytes_ok (m_payload m) -> rest E st x -> process_record E m st x = (x', o) -> RestB x x' o.
  Proof.
    intros Hm HR H. unfold process_record, sgets in H. unfold sbind in H at 1. pose proof HR as (HI & Hf & Ha & Hb).
    destruct (x_dec x) eqn:Hd.
    - unfold emit, smodify in H. unfold sbind in H at 1. unfold sbind in H at 1. cbn beta iota in H.
      set (x1 := set_log (x_log x ++ [PushIn m]) x) in *.
      assert (rest E st x1) as HR1 by (split_and!; try done; by apply INV_push_in).
      apply sbind_inv in H as [([] & x2 & H1 & H)|[(e & H & ->)|[H ->]]].
      + injection H as <- <-. apply passed_inv in H1 as (o' & H1 & ->). unfold require in H1.
        destruct (b_push_in E _); [|done]. injection H1 as <-. done.
      + apply passed_inv in H as (o' & H1 & _). unfold require in H1. destruct (b_push_in E _); injection H1 as <- _; by eapply rest_safe.
      + apply passed_inv in H as (o' & H1 & _). unfold require in H1. destruct (b_push_in E _); injection H1 as <- _; by eapply rest_safe.
    - unfold emit, smodify in H. unfold sbind in H at 1. cbn beta iota in H.
      apply kept_inv in H as (o' & H & Ho). eapply Rest_B; [|exact Ho].
      destruct (decide (m_typ m = Handshake)) as [Ht|Ht].
      + change (Rest E (set_log (x_log x ++ [ClearIn m]) x) x' o'). eapply process_plain_hs; [done|done| | | |exact H]; [|done|done].
        by apply INV_clear_in.
      + change (Rest E (set_log (x_log x ++ [ClearIn m]) x) x' o'). eapply process_plain_other; [done| |exact H].
        apply rest_emit; [|done]. done.
  Qed.
  Lemma rest_df st x d : rest E st x -> rest E st (set_df d x).
  Proof. intros (H1 & H). split; [destruct st; exact H1|exact H]. Qed.
  Definition RestC (P : cx -> Prop) (x' : cx) (o : outcome (bool * cl_error) cstate) : Prop :=
    match o with Ok st' => rest E st' x' /\ P x' | _ => safe E x' end.
  Lemma process_records_post ms st x x' o : payloads_ok ms -> rest E st x -> df_frames (x_df x) = ms ->
    process_records E ms st x = (x', o) ->
    RestC (fun x' => df_frames (x_df x') = [] /\ df_buf (x_df x') = df_buf (x_df x) /\ x_in x' = x_in x) x' o.
  Proof.
    revert st x. induction ms as [|m ms IH]; intros st x Hms HR Hf H; cbn [process_records] in H; [by injection H as <- <-|].
    apply Forall_cons in Hms as [Hm Hms]. unfold smodify in H at 1. unfold sbind in H at 1.
    apply (rest_df _ _ (Deframer ms (df_desynced (x_df x)) (df_buf (x_df x)))) in HR.
    apply sbind_inv in H as [(st1 & x1 & H1 & H)|[(e & H & ->)|[H ->]]].
    - eapply process_record_post in H1 as (HR1 & E1 & E2); [|done..].
      apply IH in H; [|done|done|by rewrite E1].
      destruct o; try done. destruct H as (HR2 & H3 & H4 & H5). split; [done|]. rewrite H4, H5, E1, E2. done.
    - by eapply process_record_post in H.
    - by eapply process_record_post in H.
  Qed.
  Lemma process_decrypted_post ms st x x' o : payloads_ok ms -> rest E st x -> x_in x = ms ->
    process_decrypted E ms st x = (x', o) ->
    RestC (fun x' => x_df x' = x_df x /\ x_in x' = []) x' o.
  Proof.
    revert st x. induction ms as [|m ms IH]; intros st x Hms HR Hf H; cbn [process_decrypted] in H; [by injection H as <- <-|].
    apply Forall_cons in Hms as [Hm Hms].
    assert (x_dec x = true) as Hd.
    { destruct HR as [HI _]. destruct (x_dec x) eqn:Hd; [done|]. exfalso.
      destruct st; unfold INV in HI; cbn beta iota zeta in HI; try (destruct HI as ((_ & _ & ? & _) & _); congruence); destruct HI as (_ & _ & HI); [destruct HI|]; intuition congruence. }
    assert (forall st u y, INV E st u y -> x_dec y = true -> INV E st u (set_in ms y)) as Hin.
    { intros st' u y HI Hd'. destruct st'; simpl in HI; try (destruct HI as ((_ & ? & _) & _); congruence); exact HI. }
    unfold smodify in H at 1. unfold sbind in H at 1. unfold emit, smodify in H. unfold sbind in H at 1. cbn beta iota in H.
    set (x1 := set_log (x_log (set_in ms x) ++ [Decrypted m]) (set_in ms x)) in *.
    assert (forall x2 o2, process_plain E m st x1 = (x2, o2) -> Rest E x1 x2 o2) as HP.
    { intros x2 o2 H2. destruct HR as (HI & H3 & H4 & H5).
      destruct (decide (m_typ m = Handshake)) as [Ht|Ht].
      - eapply process_plain_hs; [done|done| | | |exact H2]; [|done|done]. apply INV_decrypted; [|done|done]. by apply Hin.
      - eapply process_plain_other; [done| |exact H2]. apply rest_emit; [done|]. split; [|done]. by apply Hin. }
    apply sbind_inv in H as [(st1 & x2 & H1 & H)|[(e & H & ->)|[H ->]]].
    - apply kept_inv in H1 as (o' & H1 & ->). apply HP in H1 as (HR1 & E1 & E2).
      apply IH in H; [|done|done|by rewrite E2]. destruct o; try done. destruct H as (HR2 & H3 & H4). split; [done|]. by rewrite H3, E1.
    - apply kept_inv in H as (o' & H1 & e' & ->). by apply HP in H1.
    - apply kept_inv in H as (o' & H1 & ->). by apply HP in H1.
  Qed.
  Lemma queue_encrypted_ext ms x x' o : queue_encrypted ms x = (x', o) -> ext calm x x'.
  Proof.
    revert x. induction ms as [|m ms IH]; intros x H; cbn [queue_encrypted] in H; [injection H as <- <-; apply ext_refl|].
    unfold smodify, emit, queue in H. unfold sbind in H at 1. unfold sbind in H at 1. unfold sbind in H at 1. unfold smodify in H. cbn beta iota in H.
    eapply ext_trans; [|exact (IH _ H)]. split; [done|]. exists [Encrypted m]. split; [done|]. by repeat constructor.
  Qed.
  Lemma rest_ext st x x' : rest E st x -> ext calm x x' -> rest E st x'.
  Proof.
    intros (H1 & H2 & H3 & H4) X. pose proof (ext_frame _ _ _ X) as (F1 & F2 & _). unfold rest. rewrite F1, F2. split_and!; try done.
    by eapply INV_calm.
  Qed.

  (** Between calls. *)
  Definition idle (st : cstate) (x : cx) : Prop :=
    rest E st x /\ payloads_ok (df_frames (x_df x)) /\ bytes_ok (df_buf (x_df x)) /\ payloads_ok (x_in x).
  Lemma idle_calm st x x' : idle st x -> ext calm x x' -> idle st x'.
  Proof.
    intros (H1 & H2 & H3 & H4) X. pose proof (ext_frame _ _ _ X) as (_ & _ & F3 & F4). unfold idle. rewrite F3, F4. split_and!; try done.
    by eapply rest_ext.
  Qed.

  Lemma backend_flush_post st x x' o : rest E st x -> payloads_ok (x_in x) -> backend_flush E x = (x', o) ->
    match o with Ok _ => rest E st x' /\ payloads_ok (x_in x') /\ x_df x' = x_df x | _ => safe E x' end.
  Proof.
    intros HR Hin H. unfold backend_flush, emit, smodify, sgets in H. unfold sbind in H at 1. unfold sbind in H at 1. cbn beta iota in H.
    apply (rest_emit _ _ Flush) in HR; [|done]. set (x1 := set_log (x_log x ++ [Flush]) x) in *.
    assert (payloads_ok (x_in x1)) as Hin1 by exact Hin. assert (x_df x1 = x_df x) as Ed by done. clearbody x1.
    destruct (b_flush E (x_log x1)) as [[ins outs]|] eqn:Ef.
    - injection H as <- <-. pose proof (bo_bytes E HB _ _ _ Ef) as Hb. split; [|split; [|exact Ed]].
      + destruct HR as (HI & H). split; [|exact H].
        destruct st; unfold INV in HI; cbn beta iota zeta in HI; try exact HI;
        (destruct HI as ((P1 & P2 & P3 & P4 & P5) & HI'); pose proof (bo_given E HB _ _ _ Ef P4) as ->; split; [|exact HI'];
         unfold pre; split; [exact P1|]; split; [exact P2|]; split; [simpl; by rewrite P3|done]).
      + simpl. by apply Forall_app.
    - injection H as <- <-. by eapply rest_safe.
  Qed.

  Lemma process_body_post st x x' o : idle st x -> process_body E st x = (x', o) ->
    match o with Ok st' => idle st' x' /\ df_frames (x_df x') = [] | _ => safe E x' end.
  Proof.
    intros (HR & H1 & H2 & H3) H. unfold process_body, sgets in H. unfold sbind in H at 1.
    destruct (df_desynced (x_df x)); [injection H as <- <-; by eapply rest_safe|].
    assert (forall x1 o1, flush_plaintext E x = (x1, o1) -> rest E st x1 /\ x_df x1 = x_df x /\ x_in x1 = x_in x) as HF.
    { intros x1 o1 [X Hns]%flush_plaintext_ext. destruct (x_may_send x) eqn:Em.
      - assert (st = CsTraffic) as ->.
        { destruct HR as [HI _]. destruct st; unfold INV in HI; cbn beta iota zeta in HI; try (destruct HI as (((_ & _ & ? & _) & _) & _); congruence); [|done].
          destruct HI as ((_ & _ & ? & _) & _). congruence. }
        pose proof (ext_frame _ _ _ X) as (F1 & F2 & F3 & F4). split; [|done]. destruct HR as (HI & R2 & R3 & R4).
        unfold rest. rewrite F1, F2. split_and!; try done. by eapply INV_traffic_ext.
      - destruct Hns as [-> _]; done. }
    apply sbind_inv in H as [([] & x1 & Hf & H)|[(e & H & ->)|[H ->]]].
    2: apply passed_inv in H as (o' & H & _); apply HF in H as (HR1 & _); by eapply rest_safe.
    2: apply passed_inv in H as (o' & H & _); apply HF in H as (HR1 & _); by eapply rest_safe.
    apply passed_inv in Hf as (o' & Hf & ->). apply HF in Hf as (HR1 & Ed1 & Ei1). clear HF.
    apply sbind_inv in H as [(st2 & x2 & H4 & H)|[(e & H & ->)|[H ->]]].
    2: eapply process_records_post in H; [exact H|exact H1|exact HR1|congruence].
    2: eapply process_records_post in H; [exact H|exact H1|exact HR1|congruence].
    eapply process_records_post in H4 as (HR2 & Ef2 & Eb2 & Ei2); [|exact H1|exact HR1|congruence].
    apply sbind_inv in H as [([] & x3 & H4 & H)|[(e & H & ->)|[H ->]]].
    2: apply passed_inv in H as (o' & H & e' & ->); eapply backend_flush_post in H; [exact H|exact HR2|congruence].
    2: apply passed_inv in H as (o' & H & ->); eapply backend_flush_post in H; [exact H|exact HR2|congruence].
    apply passed_inv in H4 as (o' & H4 & ->). eapply backend_flush_post in H4 as (HR3 & Hi3 & Ed3); [|exact HR2|congruence].
    unfold sbind in H at 1.
    apply sbind_inv in H as [(st4 & x4 & H4 & H)|[(e & H & ->)|[H ->]]].
    2: eapply process_decrypted_post in H; [exact H|exact Hi3|exact HR3|done].
    2: eapply process_decrypted_post in H; [exact H|exact Hi3|exact HR3|done].
    eapply process_decrypted_post in H4 as (HR4 & Ed4 & Ei4); [|exact Hi3|exact HR3|done].
    unfold sbind in H at 1.
    assert (idle st4 x4) as Hidle.
    { split; [done|]. rewrite Ed4, Ed3, Ef2, Eb2, Ed1, Ei4. split_and!; try done; constructor. }
    apply sbind_inv in H as [([] & x5 & H4 & H)|[(e & H & ->)|[H ->]]].
    - injection H as <- <-. apply passed_inv in H4 as (o' & H4 & ->). apply queue_encrypted_ext in H4. split; [by eapply idle_calm|].
      pose proof (ext_frame _ _ _ H4) as (_ & _ & F3 & _). rewrite F3, Ed4, Ed3. exact Ef2.
    - apply passed_inv in H as (o' & H & _). apply queue_encrypted_ext in H. eapply rest_safe. eapply rest_ext; [|exact H]. by destruct Hidle.
    - apply passed_inv in H as (o' & H & _). apply queue_encrypted_ext in H. eapply rest_safe. eapply rest_ext; [|exact H]. by destruct Hidle.
  Qed.

  Lemma start_post x x' o : idle CsInit x -> start_handshake E x = (x', o) ->
    match o with Ok st' => idle st' x' | _ => safe E x' end.
  Proof.
    intros HI H. unfold start_handshake, sgets in H. unfold sbind in H at 1.
    assert (safe E x) as Hs by (destruct HI as [HR _]; by eapply rest_safe).
    destruct (b_sid E (x_log x)) as [sid|]; [|by injection H as <- <-].
    destruct (b_random E (x_log x)) as [random|]; [|by injection H as <- <-].
    unfold emit, smodify in H. unfold sbind in H at 1.
    set (x1 := set_log (x_log x ++ [GetRandom random]) x) in *.
    assert (idle CsInit x1) as HI1.
    { eapply idle_calm; [exact HI|]. split; [done|]. exists [GetRandom random]. split; [done|]. by repeat constructor. }
    assert (GetRandom random ∈ x_log x1) as Hr by (apply elem_of_app; right; by left). clearbody x1.
    destruct HI1 as ((HI1 & R2 & R3 & R4) & H1 & H2 & H3). destruct HI1 as (Hp & He & Hsa & Hse & Hk & Hh).
    apply sbind_inv in H as [([] & x2 & H4 & H)|[(e & H & ->)|[H ->]]].
    - injection H as <- <-. change (send_msg E _ false x1) with (send_msg E (hs_message TLSv1_0 (HClientHello (hello E random sid))) false x1) in H4.
      apply send_clear in H4 as (S & _ & ms & El & Ht & Hp2).
      destruct (clear_view (map ClearOut ms)) as (V1 & V2 & V3); [apply Forall_map, Forall_true; by eexists|].
      assert (out x1 x2 (map ClearOut ms)) as X by (by apply same_out). pose proof X as ((F1 & F2 & F3 & F4) & _).
      assert (said (map ClearOut ms) = hs_encode (HClientHello (hello E random sid))) as Hsd.
      { cbn [hs_message m_payload] in Hp2. rewrite <- Hp2. unfold said. rewrite map_map. f_equal. apply map_ext_Forall. eapply Forall_impl; [exact Ht|].
        intros m Hm. simpl in Hm. unfold hs_part. by rewrite Hm. }
      unfold idle, rest. rewrite F1, F2, F3, F4. split_and!; try done.
      unfold INV. split; [by eapply pre_out|]. destruct S as (_ & -> & _). split; [done|].
      rewrite (heard_out _ _ _ X), El, said_enc_app, key_calls_app, said_app, Hse, Hk, Hsa, V1, V2, Hsd. split_and!; try done.
      exists (hello E random sid), []. split.
      { exists random, sid. split; [done|]. apply elem_of_app. by left. }
      split; [done|]. split; [done|]. split_and!; try done.
      + unfold tr_ok, tr_add, tr_new. cbn [t_bytes t_auth]. rewrite written_one. split; [done|]. by destruct (e_has_certs E).
    - apply send_clear in H as (_ & _ & ? & _ & _ & []).
    - apply send_clear in H as (S & _ & ms & El & _ & ->). simpl. apply early_safe. destruct Hp as [Hp _]. eapply early_ext; [exact Hp|exact S|].
      exists []. split; [exact El|done].
  Qed.

  (** ** Calls *)
  Definition good_conn (c : conn) : Prop :=
    match c_state c with inl _ => safe E (c_x c) | inr st => idle st (c_x c) end.
  Lemma good_safe c : good_conn c -> safe E (c_x c).
  Proof. unfold good_conn. destruct (c_state c); [done|]. intros [HR _]. by eapply rest_safe. Qed.
  Lemma good_calm c x' : good_conn c -> ext calm (c_x c) x' -> good_conn (Conn (c_state c) x').
  Proof.
    unfold good_conn. intros H X. cbn [c_state c_x]. destruct (c_state c); [by eapply safe_calm|by eapply idle_calm].
  Qed.
  Lemma early_received st u x : INV E st u x -> st = CsTraffic \/ x_received x = [].
  Proof.
    destruct st; simpl; try (intros [[(_ & ? & _ & _) _] _]; by right); [|by left].
    intros [(_ & ? & _ & _) _]. by right.
  Qed.
  Lemma cvb_read_nil n : cvb_read n [] = ([], []).
  Proof. done. Qed.

  Lemma step_good c k c' o : good_conn c -> match k with CallReadTls b => bytes_ok b | _ => True end ->
    step E c k = (c', o) -> good_conn c'.
  Proof.
    intros HG Hk H. destruct k; cbn [step] in H.
    - unfold start in H. unfold good_conn in HG. destruct (c_state c) as [e|st] eqn:Ec.
      + injection H as <- <-. unfold good_conn. by rewrite Ec.
      + destruct st; try (injection H as <- <-; unfold good_conn; cbn; destruct HG as [HR _]; by eapply rest_safe).
        destruct (start_handshake E (c_x c)) as [x' [st'|e|]] eqn:Es; injection H as <- <-; by apply start_post in Es.
    - unfold on_x in H. unfold sgets in H at 1. unfold sbind in H at 1. destruct (df_read (x_df (c_x c)) chunk) as [df|] eqn:Ed.
      + unfold smodify, emit, sbind in H. unfold smodify in H. cbn beta iota in H. injection H as <- <-.
        apply (good_calm (Conn (c_state c) (set_df df (c_x c)))).
        * unfold good_conn in *. cbn [c_state c_x]. destruct (c_state c) as [e|st]; [exact HG|].
          destruct HG as (HR & H1 & H2 & H3). destruct (df_read_bytes _ _ _ H2 Hk Ed) as (ms & Ef & Hms & Hb).
          split; [by apply rest_df|]. split_and!; try done. simpl. rewrite Ef. by apply Forall_app.
        * split; [done|]. exists [WireIn chunk]. split; [done|by repeat constructor].
      + injection H as <- <-. by destruct c.
    - unfold process_new_packets in H. unfold good_conn in HG. destruct (c_state c) as [e|st] eqn:Ec.
      + injection H as <- <-. unfold good_conn. by rewrite Ec.
      + destruct (process_body E st (c_x c)) as [x' [st'|[keep e]|]] eqn:Es; injection H as <- <-; apply process_body_post in Es; try done.
        by destruct Es.
    - unfold on_x in H. unfold sgets in H at 1. unfold sbind in H at 1. destruct (cvb_write n (x_tls (c_x c))) as [b cs].
      unfold smodify, emit, sbind in H. unfold smodify in H. cbn beta iota in H. injection H as <- <-.
      apply good_calm; [done|]. split; [done|]. exists [WireOut b]. split; [done|by repeat constructor].
    - unfold on_x in H. destruct p as [|b p]; [injection H as <- <-; by destruct c|].
      unfold sgets in H at 1. unfold sbind in H at 1. destruct (cvb_append_limited _ _) as [cs n].
      unfold smodify, emit, sbind in H. unfold smodify in H. cbn beta iota in H. injection H as <- <-.
      apply good_calm; [done|]. split; [done|]. eexists. split; [reflexivity|by repeat constructor].
    - unfold on_x in H. unfold sgets in H at 1. unfold sbind in H at 1. destruct (cvb_read n (x_received (c_x c))) as [b cs] eqn:Er.
      unfold smodify, emit, sbind in H. unfold smodify in H. cbn beta iota in H. injection H as <- <-.
      unfold good_conn in *. cbn [c_state c_x]. destruct (c_state c) as [e|st].
      + destruct HG as [Hg Hs]. unfold safe. simpl. destruct Hs as [[Hr Hm]|Ha].
        * rewrite Hr in Er. injection Er as <- <-. split; [|by left]. apply guard_no_app; [done|by repeat constructor].
        * split; [apply guard_auth; [done|done|by repeat constructor]|]. right. apply authenticated_later; [done|by repeat constructor].
      + destruct HG as (HR & H1). split; [|exact H1]. destruct HR as (HI & HR). split; [|exact HR].
        destruct (early_received _ _ _ HI) as [->|Hr].
        * eapply (INV_traffic_ext _ _ (set_received cs (c_x c))); [exact HI|]. split; [done|]. exists [Delivered b]. split; [done|].
          by repeat constructor.
        * rewrite Hr in Er. injection Er as <- <-. eapply INV_calm; [exact HI|]. split; [|exists [Delivered []]; split; [done|by repeat constructor]].
          split_and!; try done.
    - unfold on_x in H. destruct (send_warning E 0 (c_x c)) as [x' o'] eqn:Es. injection H as <- <-. apply good_calm; [done|].
      by eapply send_warning_ext.
    - unfold on_x, emit, smodify, sgets in H. unfold sbind in H. cbn beta iota in H. unfold require in H.
      assert (good_conn (Conn (c_state c) (set_log (x_log (c_x c) ++ [CloseConnection]) (c_x c)))) as HG'.
      { apply good_calm; [done|]. split; [done|]. exists [CloseConnection]. split; [done|by repeat constructor]. }
      destruct (b_close E _); injection H as <- <-; exact HG'.
  Qed.
  Lemma conn_new_good : good_conn conn_new.
  Proof.
    unfold good_conn, conn_new, idle, rest, INV, pre, early. cbn. split_and!; try done; try constructor.
    intros m []%elem_of_nil.
  Qed.
  Lemma run_good ks c c' os : good_conn c -> reads_bytes ks -> run E c ks = (c', os) -> good_conn c'.
  Proof.
    revert c c' os. induction ks as [|k ks IH]; intros c c' os HG Hk H; cbn [run] in H; [by injection H as <- <-|].
    apply Forall_cons in Hk as [Hk Hks]. destruct (step E c k) as [c1 o] eqn:Es. pose proof (step_good _ _ _ _ HG Hk Es) as HG1.
    destruct o; [| |by injection H as <- <-]; destruct (run E c1 ks) as [c2 os2] eqn:Er; injection H as <- <-; by eapply IH.
  Qed.
  Lemma C62_authenticated_lemma ks l1 e l2 : reads_bytes ks -> log_of (fst (run E conn_new ks)) = l1 ++ e :: l2 ->
    app_event e = true -> authenticated E l1.
  Proof.
    intros Hk Hl He. destruct (run E conn_new ks) as [c os] eqn:Er. apply run_good in Er; [|apply conn_new_good|done].
    apply good_safe in Er as [Hg _]. by eapply Hg.
  Qed.
End Client.
