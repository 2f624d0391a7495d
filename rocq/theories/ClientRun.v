(** The whole client keeps the invariant. *)
From Verif.Lib Require Import Base.
From Verif Require Import ProofModel CodecModel CodecSpec CodecLemmas FramingLemmas TlsModel HandshakeModel HandshakeLemmas HandshakePropLemmas
  AttestModel SigAlgModel SigAlgSpec SigAlgLemmas RecordModel ClientModel ClientSpec ClientLemmas ClientInv ClientSteps ClientFlight.

Definition with_svd (s : session) (vd : list N) : session :=
  Session (ss_hello s) (ss_server s) (ss_chain s) (ss_status s) (ss_kx s) (ss_request s) (ss_cert s) (ss_key s) (ss_verify s)
    (ss_client_vd s) vd.

Section Client.
  Context (E : env).

  (** ** The end of the handshake *)
  Lemma INV_traffic_ext u x x' : INV E CsTraffic u x -> ext later x x' -> INV E CsTraffic u x'.
  Proof.
    intros (H1 & H2 & H3 & H4) [S (l & El & Hl)]. destruct S as (_ & He & Hd & _). simpl. rewrite El. split_and!; try congruence.
    - by apply guard_auth.
    - by apply authenticated_later.
  Qed.
  Lemma traffic_u u u' x : INV E CsTraffic u x -> INV E CsTraffic u' x.
  Proof. done. Qed.
  Lemma flush_chunks_ext cs x x' o : flush_chunks E cs x = (x', o) -> ext later x x'.
  Proof.
    revert x. induction cs as [|c cs IH]; intros x H; cbn [flush_chunks] in H; [injection H as <- <-; apply ext_refl|].
    unfold smodify in H at 1. unfold sbind in H at 1.
    assert (ext later x (set_sendable cs x)) as X0 by ext_set. set (x0 := set_sendable cs x) in *. clearbody x0.
    assert (forall x1 o1, send_msg E (Message ApplicationData TLSv1_2 c) true x0 = (x1, o1) -> ext later x0 x1) as HS.
    { intros x1 o1 (S & _ & ms & El & Ht & _)%send_push. split; [done|]. eexists. split; [exact El|]. apply Forall_map.
      eapply Forall_impl; [exact Ht|]. intros m Hm. left. simpl in *. unfold not_hs. by rewrite Hm. }
    apply sbind_inv in H as [([] & x1 & H1 & H)|[(e & H & ->)|[H ->]]].
    - eapply ext_trans; [exact X0|]. eapply ext_trans; [exact (HS _ _ H1)|]. by apply IH.
    - eapply ext_trans; [exact X0|]. exact (HS _ _ H).
    - eapply ext_trans; [exact X0|]. exact (HS _ _ H).
  Qed.
  Lemma flush_plaintext_ext x x' o : flush_plaintext E x = (x', o) -> ext later x x' /\ (x_may_send x = false -> x' = x /\ o = Ok tt).
  Proof.
    unfold flush_plaintext, sgets. intros H. unfold sbind in H at 1. destruct (x_may_send x) eqn:Em; cbn [negb] in H.
    - unfold sbind in H at 1. split; [|done]. by eapply flush_chunks_ext.
    - injection H as <- <-. split; [apply ext_refl|done].
  Qed.

  Lemma ccs_step tr u x x' o : INV E (CsCcs tr) u x -> (x_aligned x = true -> u = []) ->
    handle E (CsCcs tr) MPCcs x = (x', o) -> Post E u x x' o.
  Proof.
    intros HI Hu H. pose proof HI as (Hp & He & s & Hf & Hh). simpl in H.
    apply sbind_inv in H as [([] & x0 & H1 & H)|[(e & H & ->)|[H ->]]].
    2,3: apply check_aligned_ext in H as [X _]; eapply safe_calm; [|exact X]; by eapply INV_safe.
    apply check_aligned_ext in H1 as [_ [-> Hal]]. specialize (Hu Hal). subst u. injection H as <- <-.
    split; [|done]. simpl. destruct Hp as (Hearly & _ & _ & _ & _ & Henc). split_and!; try done.
    exists s. split_and!; try done. by rewrite app_nil_r in Hh.
  Qed.

  Lemma finished_step tr p u x x' o : INV E (CsFinished tr) (hs_encode (HFinished p) ++ u) x ->
    handle E (CsFinished tr) (MPHandshake (HFinished p)) x = (x', o) -> Post E u x x' o.
  Proof.
    intros HI H. pose proof HI as (Hearly & He & Hd & s & Hf & Hh & Hhe). simpl in H.
    apply sbind_inv in H as [([] & x0 & H1 & H)|[(e & H & ->)|[H ->]]].
    2,3: apply check_aligned_ext in H as [X _]; eapply safe_calm; [|exact X]; by eapply INV_safe.
    apply check_aligned_ext in H1 as [_ [-> _]].
    unfold sgets in H at 1. unfold sbind in H at 1. unfold emit in H at 1. unfold smodify in H at 1. unfold sbind in H at 1.
    match type of H with context [set_log (x_log x ++ [?ev]) x] =>
      set (svd := ev) in *; pose proof (emit_out svd x ltac:(done)) as X1; set (x1 := set_log (x_log x ++ [svd]) x) in * end.
    assert (x_enc x1 = true /\ x_dec x1 = true) as [He1 Hd1] by done. assert (x_log x1 = x_log x ++ [svd]) as El1 by done.
    clearbody x1. pose proof (early_out _ _ _ Hearly X1) as Hearly1.
    destruct (b_sf E (x_log x)) as [vd|] eqn:Hsf; [|injection H as <- <-; simpl; by apply early_safe].
    case_bool_decide as Hvd; cbn [negb] in H.
    2:{ apply refuse_out in H as [Hs Ho]; [|done]. by destruct o. }
    subst p.
    assert (authenticated E (x_log x1)) as Hauth.
    { destruct Hf as (F1 & F2 & F3 & F4 & F5 & F6 & F7 & F8 & F9 & scts & params & F10 & F11 & F12).
      exists (with_svd s vd). rewrite El1. split_and!; try done. unfold shows.
      rewrite said_app, heard_app, said_enc_app, heard_enc_app, key_calls_app. split_and!.
      - by apply hello_in_app.
      - apply elem_of_app. by left.
      - by rewrite F7, app_nil_r.
      - by rewrite Hh, app_nil_r.
      - by rewrite F8, app_nil_r.
      - exists u. by rewrite Hhe, app_nil_r.
      - exists scts, params. split_and!; try done. rewrite F12. simpl. unfold svd. by rewrite F9. }
    assert (guarded E (x_log x1)) as Hg by (apply guard_early; by destruct Hearly1).
    assert (INV E CsTraffic u x1) as HT by (split_and!; done).
    apply sbind_inv in H as [([] & x2 & H2 & H)|H].
    - injection H as <- <-. unfold start_traffic in H2.
      unfold smodify in H2 at 1. unfold sbind in H2 at 1. unfold emit in H2 at 1. unfold smodify in H2 at 1. unfold sbind in H2 at 1.
      unfold sgets in H2 at 1. unfold sbind in H2 at 1. cbn beta iota in H2.
      match type of H2 with context [b_start E ?l] => destruct (b_start E l) eqn:Hb end; [|done].
      cbn [require] in H2. unfold sret in H2 at 1. unfold sbind in H2 at 1. unfold smodify in H2 at 1. unfold sbind in H2 at 1.
      cbn beta iota in H2.
      apply flush_plaintext_ext in H2 as [X2 _].
      match type of X2 with ext _ ?y _ => assert (INV E CsTraffic u y) as HT2; [|assert (frame x y) as F2 by (destruct X1 as [? _]; done)] end.
      { destruct HT as (T1 & T2 & T3 & T4). split_and!; try done; simpl.
        - apply guard_auth; try done. repeat constructor.
        - apply authenticated_later; try done. repeat constructor. }
      split; [by eapply INV_traffic_ext|]. eapply frame_trans; [exact F2|]. by apply ext_frame in X2.
    - assert (safe E x' /\ match o with Ok _ => False | _ => True end) as [Hs Ho]; [|by destruct o].
      assert (exists o', start_traffic E x1 = (x', o') /\ match o' with Ok _ => False | _ => True end /\ match o with Ok _ => False | _ => True end)
        as (o' & H2 & Ho' & Ho) by (destruct H as [(e & H & ->)|[H ->]]; eexists; (split; [exact H|done])). clear H.
      split; [|done]. unfold start_traffic in H2.
      unfold smodify in H2 at 1. unfold sbind in H2 at 1. unfold emit in H2 at 1. unfold smodify in H2 at 1. unfold sbind in H2 at 1.
      unfold sgets in H2 at 1. unfold sbind in H2 at 1. cbn beta iota in H2.
      match type of H2 with context [b_start E ?l] => destruct (b_start E l) eqn:Hb end; cbn [require] in H2.
      + unfold sret in H2 at 1. unfold sbind in H2 at 1. unfold smodify in H2 at 1. unfold sbind in H2 at 1. cbn beta iota in H2.
        apply flush_plaintext_ext in H2 as [X2 _]. eapply (INV_safe E CsTraffic u). eapply INV_traffic_ext; [|exact X2].
        destruct HT as (T1 & T2 & T3 & T4). split_and!; try done; simpl.
        * apply guard_auth; try done. repeat constructor.
        * apply authenticated_later; try done. repeat constructor.
      + injection H2 as <- <-. split; simpl.
        * destruct HT as (T1 & T2 & T3 & T4). apply guard_auth; try done. repeat constructor.
        * right. apply authenticated_later; try done. repeat constructor.
  Qed.

  (** ** One message *)
  Lemma early_no_recv st u x : INV E st u x -> st = CsTraffic \/ x_may_recv x = false.
  Proof.
    destruct st; simpl; try (intros [[(_ & _ & _ & ?) _] _]; by right); [|by left].
    intros [(_ & _ & _ & ?) _]. by right.
  Qed.
  Lemma handle_hs st h u x x' o : INV E st (hs_encode h ++ u) x -> handle E st (MPHandshake h) x = (x', o) -> Post E u x x' o.
  Proof.
    intros HI H. pose proof (INV_safe _ _ _ _ HI) as Hs.
    destruct st; cbn [handle] in H.
    - by injection H as <- <-.
    - destruct h; try (by injection H as <- <-). by eapply server_hello_step.
    - destruct h; try (by injection H as <- <-). eapply cert_step; [exact HI|exact H].
    - destruct h; try (by injection H as <- <-).
      + eapply kx_step; [|exact HI|done|exact H]. intros ch hs. apply status_or_kx_kx.
      + eapply status_step; [exact HI|exact H].
    - destruct h; try (by injection H as <- <-). eapply kx_step; [|exact HI|done|exact H]. done.
    - destruct h; try (by injection H as <- <-).
      + eapply request_step; [exact HI|exact H].
      + eapply done_step; [|exact H]. destruct HI as (H1 & H2 & H3 & H4 & ch & hs & H5 & H6 & H7 & H8). split_and!; try done.
        exists ch, hs. split_and!; try done. by apply done_or_req_done.
    - destruct h; try (by injection H as <- <-). eapply done_step; [exact HI|exact H].
    - by injection H as <- <-.
    - destruct h; try (by injection H as <- <-). eapply finished_step; [exact HI|exact H].
    - by injection H as <- <-.
  Qed.
  Lemma handle_other st m u x x' o : INV E st u x -> (x_aligned x = true -> u = []) ->
    match m with MPHandshake _ => False | _ => True end ->
    handle E st m x = (x', o) -> Post E u x x' o.
  Proof.
    intros HI Hu Hm H. pose proof (INV_safe _ _ _ _ HI) as Hs.
    destruct st; simpl in H.
    - by injection H as <- <-.
    - destruct m; try done; by injection H as <- <-.
    - destruct m; try done; by injection H as <- <-.
    - destruct m; try done; by injection H as <- <-.
    - destruct m; try done; by injection H as <- <-.
    - destruct m; try done; by injection H as <- <-.
    - destruct m; try done; by injection H as <- <-.
    - destruct m; try done; try (by injection H as <- <-). eapply ccs_step; [exact HI|done|exact H].
    - destruct m; try done; by injection H as <- <-.
    - destruct m; try done; try (by injection H as <- <-).
  Qed.
  Lemma process_main_post st m u u0 x x' o : INV E st u0 x -> process_main E st m x = (x', o) ->
    (forall x' o, handle E st m x = (x', o) -> Post E u x x' o) -> Post E u x x' o.
  Proof.
    intros HI H HH. unfold process_main, sgets in H. unfold sbind in H at 1.
    destruct (x_may_recv x && _) eqn:Em.
    - apply andb_true_iff in Em as [Em _]. destruct (early_no_recv _ _ _ HI) as [->|?]; [|congruence].
      apply sbind_inv in H as [([] & x1 & H1 & H)|[(e & H & ->)|[H ->]]].
      + injection H as <- <-. apply send_warning_ext in H1. split; [|by apply ext_frame in H1].
        apply (traffic_u u0). by eapply INV_calm.
      + apply send_warning_ext in H. simpl. eapply safe_calm; [|exact H]. by eapply INV_safe.
      + apply send_warning_ext in H. simpl. eapply safe_calm; [|exact H]. by eapply INV_safe.
    - apply scatch_inv in H as [(a & H & ->)|[(e & x1 & H1 & H)|[H ->]]]; try by apply HH.
      apply HH in H1. simpl in H1.
      destruct e; try (injection H as <- <-; exact H1);
        (apply refuse_ext in H as [X Ho]; apply (safe_calm _ _ _ H1) in X; by destruct o).
  Qed.
  Lemma process_main_hs st h u x x' o : INV E st (hs_encode h ++ u) x -> process_main E st (MPHandshake h) x = (x', o) -> Post E u x x' o.
  Proof. intros HI H. eapply process_main_post; [exact HI|exact H|]. intros. by eapply handle_hs. Qed.
  Lemma process_main_other st m u x x' o : INV E st u x -> (x_aligned x = true -> u = []) ->
    match m with MPHandshake _ => False | _ => True end -> process_main E st m x = (x', o) -> Post E u x x' o.
  Proof. intros HI Hu Hm H. eapply process_main_post; [exact HI|exact H|]. intros. by eapply handle_other. Qed.

  (** ** Joining *)
  Lemma hs_read_enc v l h rest : bytes_ok l -> hs_read (body_read E) v l = Some (h, rest) -> l = hs_encode h ++ rest.
  Proof.
    intros Hl H. apply (C60_canonical_lemma (e_dns_ok E) (bool_decide (v = TLSv1_3))); [done|].
    unfold hs_read in H. unfold hs_parse, rd_int, rd_take.
    destruct (read_uint 1 l) as [[typ l1]|]; [|done]. cbn [opt_err obind].
    destruct (read_uint 3 l1) as [[len l2]|]; [|done]. cbn [opt_err obind].
    destruct (take_bytes (N.to_nat len) l2) as [[sub l3]|]; [|done]. cbn [opt_err obind].
    unfold body_read in H. destruct (whole _) as [h'| |]; try done. by injection H as <- <-.
  Qed.
  Lemma j_loop_written fuel v j n r j' : bytes_ok (j_buf j) -> j_loop (body_read E) fuel v j n = Some (r, j') ->
    written (map snd (j_frames j')) ++ j_buf j' = written (map snd (j_frames j)) ++ j_buf j /\ bytes_ok (j_buf j').
  Proof.
    revert j n. induction fuel as [|fuel IH]; intros j n Hb H; [done|]. cbn [j_loop] in H.
    destruct (buf_contains_message (j_buf j)); try (by injection H as <- <-).
    unfold deframe_one in H. destruct (hs_read (body_read E) v (j_buf j)) as [[h rest]|] eqn:Er; [|by injection H as <- <-].
    apply hs_read_enc in Er; [|done]. apply IH in H.
    - simpl in H. destruct H as [H1 H2]. split; [|done]. rewrite H1, map_app, written_app. simpl. rewrite written_one.
      rewrite Er at 3. rewrite <- app_assoc. do 2 f_equal. rewrite Er. rewrite app_length.
      replace (_ + _ - _) with (length (hs_encode h)) by lia. by rewrite drop_app.
    - simpl. by apply Forall_drop.
  Qed.
  Lemma take_message_written j m r j' : bytes_ok (j_buf j ++ m_payload m) -> take_message (body_read E) j m = Some (r, j') ->
    written (map snd (j_frames j')) ++ j_buf j' = written (map snd (j_frames j)) ++ j_buf j ++ m_payload m /\ bytes_ok (j_buf j').
  Proof.
    intros Hb H. unfold take_message in H. apply j_loop_written in H; simpl in *.
    - destruct H as [H1 H2]. split; [|done]. rewrite H1. by destruct (j_buf j).
    - by destruct (j_buf j).
  Qed.

  Lemma process_frames_post fs st b x x' o : INV E st (written (map snd fs) ++ b) x -> x_joiner x = Joiner fs b ->
    process_frames E fs st x = (x', o) ->
    match o with
    | Ok st' => INV E st' b x' /\ x_joiner x' = Joiner [] b /\ x_aligned x' = x_aligned x /\ x_df x' = x_df x /\ x_in x' = x_in x
    | _ => safe E x'
    end.
  Proof.
    revert st x. induction fs as [|[v h] fs IH]; intros st x HI Hj H; cbn [process_frames] in H.
    - injection H as <- <-. done.
    - unfold smodify in H at 1. unfold sbind in H at 1.
      set (x0 := set_joiner (Joiner fs (j_buf (x_joiner x))) x) in *.
      assert (INV E st (hs_encode h ++ written (map snd fs) ++ b) x0) as HI0.
      { rewrite app_assoc. cbn [map] in HI. rewrite written_cons in HI. destruct st; exact HI. }
      assert (x_joiner x0 = Joiner fs b) as Hj0 by (unfold x0; simpl; by rewrite Hj).
      assert (x_aligned x0 = x_aligned x /\ x_df x0 = x_df x /\ x_in x0 = x_in x) as (A1 & A2 & A3) by done. clearbody x0.
      apply sbind_inv in H as [(st1 & x1 & H1 & H)|[(e & H & ->)|[H ->]]].
      + apply (process_main_hs _ _ _ _ _ _ HI0) in H1 as [HI1 (F1 & F2 & F3 & F4)].
        apply IH in H; [|done|congruence]. destruct o; try done. destruct H as (? & ? & ? & ? & ?). split_and!; try done; congruence.
      + by apply (process_main_hs _ _ _ _ _ _ HI0) in H.
      + by apply (process_main_hs _ _ _ _ _ _ HI0) in H.
  Qed.

  (** At rest between records. *)
  Definition rest (st : cstate) (x : cx) : Prop :=
    INV E st (j_buf (x_joiner x)) x /\ j_frames (x_joiner x) = [] /\ x_aligned x = j_is_empty (x_joiner x) /\ bytes_ok (j_buf (x_joiner x)).
  Definition Rest (x x' : cx) (o : outcome cl_error cstate) : Prop :=
    match o with Ok st' => rest st' x' /\ x_df x' = x_df x /\ x_in x' = x_in x | _ => safe E x' end.
  Lemma rest_safe st x : rest st x -> safe E x.
  Proof. intros [H _]. by eapply INV_safe. Qed.

  Lemma process_plain_hs m st x x' o : m_typ m = Handshake -> bytes_ok (m_payload m) ->
    INV E st (j_buf (x_joiner x) ++ m_payload m) x -> j_frames (x_joiner x) = [] -> bytes_ok (j_buf (x_joiner x)) ->
    process_plain E m st x = (x', o) -> Rest x x' o.
  Proof.
    intros Ht Hm HI Hf Hb H. unfold process_plain in H. rewrite Ht in H. unfold sgets in H. unfold sbind in H at 1.
    pose proof (INV_safe _ _ _ _ HI) as Hs.
    destruct (take_message (body_read E) (x_joiner x) m) as [[r j]|] eqn:Et; [|by injection H as <- <-].
    apply take_message_written in Et as [Ew Hbj]; [|by apply bytes_ok_app]. rewrite Hf in Ew. simpl in Ew.
    unfold smodify in H at 1. unfold sbind in H at 1. destruct r as [n|].
    - unfold smodify in H at 1. unfold sbind in H at 1. eapply process_frames_post in H; [|rewrite <- Ew in HI; destruct st; exact HI|by destruct j].
      destruct o; try done. destruct H as (H1 & H2 & H3 & H4 & H5). split; [|done]. unfold rest. rewrite H2, H3. simpl. split_and!; try done.
    - assert (safe E (set_joiner j x)) as Hs1 by exact Hs. apply refuse_ext in H as [X Ho]. apply (safe_calm _ _ _ Hs1) in X.
      by destruct o.
  Qed.
  Lemma process_alert_post st u level desc x x' o : INV E st u x -> process_alert E level desc x = (x', o) ->
    match o with Ok _ => INV E st u x' /\ frame x x' | _ => safe E x' end.
  Proof.
    intros HI H. unfold process_alert in H.
    assert (forall x1, ext calm x x1 ->
      (if (desc =? 0)%N then smodify (set_close true) else if (level =? 1)%N then sret tt else sfail (EAlert desc)) x1 = (x', o) ->
      match o with Ok _ => INV E st u x' /\ frame x x' | _ => safe E x' end) as HK.
    { intros x1 X1 H1. pose proof (INV_calm _ _ _ _ _ HI X1) as HI1. apply ext_frame in X1 as F1.
      destruct (desc =? 0)%N.
      - injection H1 as <- <-. split; [|done]. destruct st; exact HI1.
      - destruct (level =? 1)%N; injection H1 as <- <-; [done|]. by eapply INV_safe. }
    destruct ((level =? 1)%N || (level =? 2)%N).
    - unfold sret in H at 1. unfold sbind in H at 1. eapply HK; [apply ext_refl|exact H].
    - apply sbind_inv in H as [([] & x1 & H1 & H)|[(e & H & ->)|[H ->]]]; apply send_fatal_ext in H as X || apply send_fatal_ext in H1 as X.
      + by eapply HK.
      + eapply safe_calm; [|exact X]. by eapply INV_safe.
      + eapply safe_calm; [|exact X]. by eapply INV_safe.
  Qed.
  Lemma Post_Rest st x x' o : rest st x -> Post E (j_buf (x_joiner x)) x x' o -> Rest x x' o.
  Proof.
    intros (_ & H2 & H3 & H4). destruct o; simpl; try done. intros [H1 (F1 & F2 & F3 & F4)]. split; [|done].
    unfold rest. rewrite F1, F2. done.
  Qed.
  Lemma rest_unread st x : rest st x -> x_aligned x = true -> j_buf (x_joiner x) = [].
  Proof. intros (_ & _ & H3 & _) Ha. rewrite H3 in Ha. unfold j_is_empty in Ha. by destruct (j_buf (x_joiner x)). Qed.
  Lemma process_plain_other m st x x' o : m_typ m <> Handshake -> rest st x -> process_plain E m st x = (x', o) -> Rest x x' o.
  Proof.
    intros Ht HR H. pose proof (rest_safe _ _ HR) as Hs. pose proof HR as [HI _].
    unfold process_plain in H.
    assert (match message_payload_new (body_read E) (m_typ m) (m_version m) (m_payload m) with
            | None => sfail ECore
            | Some (MPAlert level desc) => do! _ := process_alert E level desc in sret st
            | Some p => process_main E st p
            end x = (x', o)) as H' by (destruct (m_typ m); try exact H; done). clear H.
    assert (forall h, message_payload_new (body_read E) (m_typ m) (m_version m) (m_payload m) <> Some (MPHandshake h)) as Hnh.
    { intros h Hn. unfold message_payload_new in Hn. destruct (m_typ m); try done; repeat (case_match; try done; simplify_eq/=). }
    destruct (message_payload_new _ _ _ _) as [[level desc|h| |p]|].
    - apply sbind_inv in H' as [([] & x1 & H1 & H)|[(e & H & ->)|[H ->]]].
      + injection H as <- <-. eapply process_alert_post in H1 as [HI1 F1]; [|exact HI].
        apply (Post_Rest _ _ _ _ HR). done.
      + by eapply process_alert_post in H.
      + by eapply process_alert_post in H.
    - by destruct (Hnh h).
    - apply (Post_Rest _ _ _ _ HR). eapply process_main_other; [exact HI| | |exact H']; [by apply (rest_unread st)|done].
    - apply (Post_Rest _ _ _ _ HR). eapply process_main_other; [exact HI| | |exact H']; [by apply (rest_unread st)|done].
    - by injection H' as <- <-.
  Qed.
End Client.
