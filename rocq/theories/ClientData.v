(** Bytes through the TLS client: between the socket and the records, and between the records and the
    application. *)
From Verif.Lib Require Import Base.
From Verif Require Import ProofModel CodecModel CodecSpec CodecLemmas FramingLemmas TlsModel HandshakeModel
  AttestModel SigAlgModel SigAlgSpec RecordModel ClientModel ClientSpec ClientLemmas ClientEffects.

(** What taking up the record [m] does. *)
Record took (m : message) (ok : bool) (x x' : cx) : Prop := Took {
  took_log : exists l, x_log x' = x_log x ++ l /\ Forall inner l /\
    concat (x_tls x') = concat (x_tls x) ++ queued l /\
    exists lost, concat (x_sendable x) = app_sent l ++ lost ++ concat (x_sendable x') /\ (ok = true -> lost = []);
  took_dec : x_dec x' = x_dec x \/ m_typ m = ChangeCipherSpec /\ x_dec x' = true;
  took_ccs : ok = true -> m_typ m = ChangeCipherSpec -> x_dec x' = true;
  took_received : concat (x_received x') = concat (x_received x) ++ if ok then app_part m else [];
  took_may : x_may_send x = true -> x_may_send x' = true;
  took_df : x_df x' = x_df x;
  took_in : x_in x' = x_in x;
  took_out : x_out x' = x_out x }.

Section Client.
  Context (E : env).

  Lemma eff_took m ok x x' : m_typ m <> ChangeCipherSpec -> m_typ m <> ApplicationData -> eff ok x x' -> took m ok x x'.
  Proof.
    intros H1 H2 [HL HD HR HM HF HI HO]. split; try done; [by left|].
    rewrite HR, (app_part_not _ H2). destruct ok; by rewrite app_nil_r.
  Qed.
  Lemma eff_took_err m x x' : eff false x x' -> took m false x x'.
  Proof. intros [HL HD HR HM HF HI HO]. split; try done; [by left|]. by rewrite HR, app_nil_r. Qed.

  Lemma flush_plaintext_eff x x' o : flush_plaintext E x = (x', o) -> eff (is_ok o) x x'.
  Proof.
    intros H. unfold flush_plaintext, sgets in H. unfold sbind in H at 1. destruct (negb _).
    - injection H as <- <-. apply eff0_eff, eff0_refl.
    - unfold sbind in H at 1. eapply effm_flush_chunks in H as [H _]; done.
  Qed.
  Lemma start_traffic_eff : effm (start_traffic E).
  Proof.
    unfold start_traffic.
    apply effm_bind; [by apply effm0_effm, effm0_modify|intros _].
    apply effm_bind; [by apply effm0_effm, effm0_emit|intros _].
    apply effm_bind; [apply effm0_effm, effm0_gets|intros log].
    apply effm_bind; [apply effm0_effm, effm0_require|intros _].
    apply effm_bind; [by apply effm0_effm, effm0_modify|intros _].
    intros x x' o H. by apply flush_plaintext_eff in H.
  Qed.

  (** What handling a message does, for a record [r] that holds it. *)
  Definition holds (r : message) (m : message_payload handshake) : Prop :=
    match m with
    | MPApp p => m_typ r = ApplicationData /\ m_payload r = p
    | MPCcs => m_typ r = ChangeCipherSpec
    | MPHandshake _ => m_typ r = Handshake
    | MPAlert _ _ => m_typ r = Alert
    end.
  Ltac hs_case Ht :=
    apply eff_took; [rewrite Ht; discriminate|rewrite Ht; discriminate|].
  Lemma not_ok_took r x : took r false x x.
  Proof. apply eff_took_err, eff0_eff, eff0_refl. Qed.
  Lemma handle_took st r m x x' o : holds r m -> handle E st m x = (x', o) -> took r (is_ok o) x x'.
  Proof.
    intros Hr H. destruct m as [lv ds|h| |p]; cbn [holds] in Hr.
    - destruct st; cbn [handle] in H; unfold on_server_kx, on_server_done, inappropriate_hs in H; injection H as <- <-; apply not_ok_took.
    - apply eff_took; [rewrite Hr; discriminate|rewrite Hr; discriminate|].
      assert (forall A (e : cl_error), effm (A:=A) (sfail e)) as HF by (intros; apply effm0_effm, effm0_fail).
      assert (effm (handle E st (MPHandshake h))) as HM; [|by apply HM in H].
      clear. destruct st; cbn [handle].
      + apply effm0_effm, effm0_lift.
      + destruct h; try (apply effm0_effm, effm0_fail). apply effm0_effm, effm0_hello.
      + destruct h; try (apply effm0_effm, effm0_fail). apply effm0_effm, effm0_ret.
      + destruct h; try (apply effm0_effm, effm0_fail); [apply effm0_effm, effm0_kx|apply effm0_effm, effm0_ret].
      + apply effm0_effm, effm0_kx.
      + destruct h; try (apply effm0_effm, effm0_done). apply effm0_effm, effm0_ret.
      + apply effm0_effm, effm0_done.
      + apply effm0_effm, effm0_fail.
      + destruct h; try (apply effm0_effm, effm0_fail). cbv zeta.
        apply effm_bind; [apply effm0_effm, effm0_aligned|intros _].
        apply effm_bind; [apply effm0_effm, effm0_gets|intros log].
        apply effm_bind; [apply effm0_effm; by apply effm0_emit|intros _].
        destruct (b_sf E log) as [vd|]; [|apply effm0_effm, effm0_fail].
        destruct (negb _); [apply effm0_effm, effm0_refuse|].
        apply effm_bind; [apply start_traffic_eff|intros _]. apply effm0_effm, effm0_ret.
      + apply effm0_effm, effm0_fail.
    - destruct st; cbn [handle] in H; try (unfold on_server_kx, on_server_done, inappropriate_hs in H; injection H as <- <-; apply not_ok_took).
      apply sbind_inv in H as [([] & x1 & H1 & H)|[(e & H & ->)|[H ->]]].
      + apply effm0_aligned in H1 as [(l & H2 & H3 & H4 & H5) S1 R1 C1 M1 D1 N1 O1]. injection H as <- <-.
        split; try done.
        * exists l. split_and!; try done. exists []. simpl. by rewrite H5, S1.
        * by right.
        * simpl. rewrite R1, app_part_not by (rewrite Hr; discriminate). by rewrite app_nil_r.
      + apply eff_took_err, eff0_eff. by eapply effm0_aligned.
      + apply eff_took_err, eff0_eff. by eapply effm0_aligned.
    - destruct st; cbn [handle] in H; try (unfold on_server_kx, on_server_done, inappropriate_hs in H; injection H as <- <-; apply not_ok_took).
      injection H as <- <-. destruct Hr as [Ht Hp]. split; try done; [|by left|by rewrite Ht|].
      + exists []. rewrite !app_nil_r. split_and!; try done. by exists [].
      + simpl. rewrite concat_cvb_append. unfold app_part. by rewrite Ht, Hp.
  Qed.
  Lemma took_eff0 r x y z : took r false x y -> eff0 y z -> took r false x z.
  Proof.
    intros [(l1 & E1 & I1 & T1 & lo1 & A1 & Hl1) C1 CC1 R1 M1 D1 N1 O1] [(l2 & E2 & I2 & T2 & A2) S2 R2 C2 M2 D2 N2 O2].
    split; try congruence; try tauto.
    - exists (l1 ++ l2).
      split_and!; [by rewrite E2, E1, app_assoc|by apply Forall_app|by rewrite T2, T1, queued_app, app_assoc|].
      exists lo1. split; [|done]. by rewrite S2, app_sent_app, A2, app_nil_r.
  Qed.
  Lemma process_main_took st r m x x' o : holds r m -> process_main E st m x = (x', o) -> took r (is_ok o) x x'.
  Proof.
    intros Hr H. unfold process_main, sgets in H. unfold sbind in H at 1. destruct (_ && _) eqn:Ew.
    - assert (m_typ r = Handshake) as Ht. { apply andb_prop in Ew as [_ Ew]. by destruct m. }
      apply eff_took; [rewrite Ht; discriminate|rewrite Ht; discriminate|]. clear Ew.
      assert (effm0 (do! _ := send_warning E 100 in sret st)) as HM.
      { apply effm0_bind; [apply effm0_warning|]. intros _. apply effm0_ret. }
      apply eff0_eff. by eapply HM.
    - apply scatch_inv in H as [(a & H & ->)|[(e & x1 & H1 & H)|[H ->]]].
      + by eapply (handle_took _ _ _ _ _ (Ok a)).
      + apply (handle_took _ r) in H1; [|done]. cbn [is_ok] in H1.
        assert (eff0 x1 x' /\ is_ok o = false) as [HE ->]; [|by eapply took_eff0].
        destruct e; try (injection H as <- <-; split; [apply eff0_refl|done]); (split; [by eapply effm0_refuse|]);
          unfold refuse in H; apply sbind_inv in H as [(? & ? & _ & H)|[(? & _ & ->)|[_ ->]]]; try done; by injection H as _ <-.
      + by eapply (handle_took _ _ _ _ _ Panic).
  Qed.
  Lemma took_trans r ok x y z : m_typ r = Handshake -> took r true x y -> took r ok y z -> took r ok x z.
  Proof.
    intros Ht [(l1 & E1 & I1 & T1 & lo1 & A1 & Hl1) C1 CC1 R1 M1 D1 N1 O1] [(l2 & E2 & I2 & T2 & lo2 & A2 & Hl2) C2 CC2 R2 M2 D2 N2 O2].
    assert (app_part r = []) as Ea by (apply app_part_not; rewrite Ht; discriminate). rewrite (Hl1 eq_refl) in A1.
    split; try congruence; try tauto.
    - exists (l1 ++ l2).
      split_and!; [by rewrite E2, E1, app_assoc|by apply Forall_app|by rewrite T2, T1, queued_app, app_assoc|].
      exists lo2. split; [|done]. by rewrite A1, A2, app_sent_app, <- app_assoc.
    - destruct C1 as [C1|[? _]], C2 as [C2|[? _]]; try congruence. left. congruence.
    - rewrite R2, R1, Ea. destruct ok; by rewrite !app_nil_r.
  Qed.
  (** Fields that do not matter here. *)
  Lemma took_pre r ok x y z : m_typ r = Handshake -> eff0 x y -> took r ok y z -> took r ok x z.
  Proof. intros Ht H. apply took_trans; [done|]. apply eff_took; [rewrite Ht; discriminate|rewrite Ht; discriminate|]. by apply eff0_eff. Qed.
  Lemma process_frames_took r fs st x x' o : m_typ r = Handshake -> process_frames E fs st x = (x', o) -> took r (is_ok o) x x'.
  Proof.
    intros Ht. revert st x. induction fs as [|[v h] fs IH]; intros st x H; cbn [process_frames] in H.
    - injection H as <- <-. apply eff_took; [rewrite Ht; discriminate|rewrite Ht; discriminate|apply eff0_eff, eff0_refl].
    - unfold smodify in H. unfold sbind in H at 1. set (x0 := set_joiner _ _) in H.
      assert (eff0 x x0) as H0 by (by apply (eff0_set (fun x => set_joiner (Joiner fs (j_buf (x_joiner x))) x))).
      eapply took_pre; [done|exact H0|]. clearbody x0. clear H0.
      apply sbind_inv in H as [(st' & x1 & H1 & H)|[(e & H & ->)|[H ->]]].
      + apply (process_main_took _ r) in H1; [|done]. cbn [is_ok] in H1. eapply took_trans; [done|exact H1|]. by eapply IH.
      + by apply (process_main_took _ r) in H.
      + by apply (process_main_took _ r) in H.
  Qed.
  Lemma process_plain_took r st x x' o : process_plain E r st x = (x', o) -> took r (is_ok o) x x'.
  Proof.
    intros H. destruct (decide (m_typ r = Handshake)) as [Ht|Ht].
    - unfold process_plain in H. rewrite Ht in H. unfold sgets in H. unfold sbind in H at 1.
      destruct (take_message _ _ r) as [[n j]|]; [|injection H as <- <-; apply not_ok_took].
      unfold smodify in H. unfold sbind in H at 1. set (x0 := set_joiner _ _) in H.
      assert (eff0 x x0) as H0 by (by apply (eff0_set (set_joiner j))).
      eapply took_pre; [done|exact H0|]. clearbody x0. clear H0.
      destruct n as [n|].
      + unfold sbind in H at 1. set (x1 := set_aligned _ _) in H.
        assert (eff0 x0 x1) as H0 by (by apply (eff0_set (set_aligned (j_is_empty j)))).
        eapply took_pre; [done|exact H0|]. by eapply process_frames_took.
      + apply eff_took; [rewrite Ht; discriminate|rewrite Ht; discriminate|]. apply eff0_eff. by eapply effm0_refuse.
    - unfold process_plain in H.
      assert (match message_payload_new (body_read E) (m_typ r) (m_version r) (m_payload r) with
            | None => sfail ECore
            | Some (MPAlert level desc) => do! _ := process_alert E level desc in sret st
            | Some p => process_main E st p
            end x = (x', o)) as H' by (destruct (m_typ r); try exact H; done). clear H.
      assert (match message_payload_new (body_read E) (m_typ r) (m_version r) (m_payload r) with
              | Some m => holds r m | None => True end) as Hh.
      { unfold message_payload_new, holds. destruct (m_typ r); try done; repeat (case_match; try done; simplify_eq/=). }
      destruct (message_payload_new _ _ _ _) as [[lv ds|h| |p]|].
      + apply eff_took; [rewrite Hh; discriminate|rewrite Hh; discriminate|]. apply eff0_eff.
        assert (effm0 (do! _ := process_alert E lv ds in sret st)) as HM; [|by eapply HM].
        apply effm0_bind; [|intros _; apply effm0_ret]. unfold process_alert. apply effm0_bind; [destruct (_ || _); [apply effm0_ret|apply effm0_fatal]|].
        intros _. destruct (ds =? 0)%N; [by apply effm0_modify|]. destruct (lv =? 1)%N; [apply effm0_ret|apply effm0_fail].
      + by eapply process_main_took.
      + by eapply process_main_took.
      + by eapply process_main_took.
      + injection H' as <- <-. apply not_ok_took.
  Qed.

  (** ** The invariant. [ok] tells whether the connection has not failed. *)
  Record data (ok : bool) (x : cx) : Prop := Data {
    d_idle : x_dec x = false -> x_in x = [];
    d_out : wire_out (x_log x) ++ concat (x_tls x) = queued (x_log x);
    d_in : stream_holds (wire_in (x_log x)) (map snd (records_in (x_log x)) ++ df_frames (x_df x)) (df_desynced (x_df x)) (df_buf (x_df x));
    d_received : exists lost, app_received (x_log x) = delivered (x_log x) ++ concat (x_received x) ++ lost /\ (ok = true -> lost = []);
    d_sent : exists lost, accepted (x_log x) = app_sent (x_log x) ++ lost ++ concat (x_sendable x) /\ (ok = true -> lost = []);
    d_records : exists a b : list message, records_in (x_log x) = map (pair false) a ++ map (pair true) b /\
      (x_dec x = false -> b = [] /\ exists a' z : list message, a = a' ++ z /\ Forall (fun m => m_typ m <> ChangeCipherSpec) a' /\ length z <= 1 /\ (ok = true -> z = [])) /\
      (x_dec x = true -> exists a' m, a = a' ++ [m] /\ m_typ m = ChangeCipherSpec /\ Forall (fun m => m_typ m <> ChangeCipherSpec) a');
    d_bytes : bytes_ok (wire_in (x_log x)) }.

  Ltac views := repeat first
    [ rewrite queued_app | rewrite app_sent_app | rewrite app_received_app | rewrite accepted_app | rewrite delivered_app
    | rewrite records_in_app | rewrite wire_in_app | rewrite wire_out_app ].
  Ltac one := cbn [wire_in wire_out records_in app_received delivered accepted app_sent queued map concat app].
  Lemma inner_views l : Forall inner l ->
    wire_out l = [] /\ wire_in l = [] /\ app_received l = [] /\ delivered l = [] /\ accepted l = [] /\ records_in l = [].
  Proof.
    intros H. unfold wire_out, wire_in, app_received, delivered, accepted, records_in.
    split_and!; apply concat_nil; (eapply Forall_impl; [exact H|]); intros [] He; done.
  Qed.
  Lemma data_weaken ok x : data true x -> data ok x.
  Proof.
    intros [H0 H1 H2 (lo & H3 & H3') (lo' & H4 & H4') (a & b & H5 & H6 & H7) H9]. split; try done.
    - exists lo. split; [done|]. intros _. by apply H3'.
    - exists lo'. split; [done|]. intros _. by apply H4'.
    - exists a, b. split; [done|]. split; [|done]. intros Hd. apply H6 in Hd as (? & a' & z & ? & ? & ? & Hz).
      split; [done|]. exists a', z. split_and!; try done. intros _. by apply Hz.
  Qed.
  Lemma data_eff ok x x' : data true x -> eff ok x x' -> data ok x'.
  Proof.
    intros HD [(l & El & Hi & Et & lost & Es & Hl) Hc Hr Hm Hdf Hin Hout]. apply (data_weaken ok) in HD as HD'.
    destruct HD as [H0 H1 H2 H3 (lo' & H4 & H4') H5 H9]. destruct HD' as [_ _ _ H3' _ H5' _].
    destruct (inner_views l Hi) as (V1 & V2 & V3 & V4 & V5 & V6).
    split; rewrite ?El; views; rewrite ?V1, ?V2, ?V3, ?V4, ?V5, ?V6, ?app_nil_r, ?Hr, ?Hdf, ?Hc, ?Hin; try done.
    - rewrite Et, <- H1. by rewrite app_assoc.
    - rewrite (H4' eq_refl) in H4. simpl in H4. exists lost. split; [|done]. by rewrite H4, Es, <- app_assoc.
  Qed.
  Lemma data_eff0 ok x x' : data ok x -> eff0 x x' -> data ok x'.
  Proof.
    intros HD [(l & El & Hi & Et & Es) S1 R1 C1 M1 D1 N1 O1]. destruct HD as [H0 H1 H2 H3 H4 H5 H9].
    destruct (inner_views l Hi) as (V1 & V2 & V3 & V4 & V5 & V6).
    split; rewrite ?El; views; rewrite ?V1, ?V2, ?V3, ?V4, ?V5, ?V6, ?app_nil_r, ?R1, ?D1, ?C1, ?S1, ?N1, ?Es, ?app_nil_r; try done.
    rewrite Et, <- H1. by rewrite app_assoc.
  Qed.
  Lemma clear_data m ms x x' ok : data true x -> x_dec x = false -> df_frames (x_df x) = m :: ms ->
    took m ok (set_log (x_log x ++ [ClearIn m]) (set_df (Deframer ms (df_desynced (x_df x)) (df_buf (x_df x))) x)) x' ->
    x_dec x' = false /\ m_typ m = ApplicationData /\ ok = true \/ data ok x'.
  Proof.
    intros [H0 H1 H2 (lo & H3 & H3') (lo' & H4 & H4') (a & b & H5 & H6 & H7) H9] Hdec Hdf
      [(l & El & Hi & Et & lost & Es & Hl) Hc Hcc Hr Hm Hd Hin Hout].
    destruct (inner_views l Hi) as (V1 & V2 & V3 & V4 & V5 & V6). simpl in *.
    assert (ok = true -> app_part m <> [] -> x_dec x' = false /\ m_typ m = ApplicationData) as Happ.
    { intros Hok Hp. assert (m_typ m = ApplicationData) as Ht by (destruct (decide (m_typ m = ApplicationData)); [done|by rewrite app_part_not in Hp]).
      split; [|done]. destruct Hc as [->|[Hc _]]; [done|by rewrite Ht in Hc]. }
    destruct (decide (ok = true /\ app_part m <> [])) as [[Hok Hp]|Hn]; [left; by destruct (Happ Hok Hp)|right].
    assert ((if ok then app_part m else []) = []) as Ep.
    { destruct ok; [|done]. destruct (app_part m) eqn:Ea; [done|]. exfalso. by apply Hn. }
    rewrite Ep, app_nil_r in Hr.
    split; rewrite ?El, ?Hd; views; rewrite ?V1, ?V2, ?V3, ?V4, ?V5, ?V6; one; rewrite ?app_nil_r.
    - rewrite Hin. intros Hd'. apply H0. by destruct Hc as [<-|[_ Hc]]; [|rewrite Hc in Hd'].
    - by rewrite Et, app_assoc, H1.
    - rewrite map_app, <- app_assoc. simpl. by rewrite Hdf in H2.
    - rewrite Hr. exists lo. split; [done|]. intros _. by apply H3'.
    - rewrite (H4' eq_refl) in H4. simpl in H4. exists lost. split; [|done]. by rewrite H4, Es, <- app_assoc.
    - rewrite H5. destruct (H6 Hdec) as (-> & a' & z & -> & Ha & _ & Hz). rewrite (Hz eq_refl). simpl.
      exists (a' ++ [m]), []. rewrite !app_nil_r. split; [by rewrite map_app|].
      destruct (decide (m_typ m = ChangeCipherSpec)) as [Ht|Ht].
      + split; [|intros _; by exists a', m]. intros Hd'. split; [done|]. exists a', [m]. split_and!; try done.
        intros Hok. by rewrite (Hcc Hok Ht) in Hd'.
      + assert (x_dec x' = false) as Hd' by (by destruct Hc as [->|[? _]]). rewrite Hd'. split; [|done]. intros _.
        split; [done|]. exists (a' ++ [m]), []. rewrite app_nil_r. split_and!; try done; [|simpl; lia].
        apply Forall_app. split; [done|by constructor].
    - done.
  Qed.

  (** In the last states the server's records are decrypted; when [fl], no data of the application wait. *)
  Definition late (fl : bool) (st : cstate) (x : cx) : Prop :=
    match st with
    | CsFinished _ => x_dec x = true
    | CsTraffic => x_dec x = true /\ x_may_send x = true /\ (fl = true -> concat (x_sendable x) = [])
    | _ => True
    end.
  Lemma took_dec_true r ok x x' : took r ok x x' -> x_dec x = true -> x_dec x' = true.
  Proof. intros [_ Hc _ _ _ _ _ _] H. destruct Hc as [->|[_ Hc]]; done. Qed.
  Definition early_st (st : cstate) : Prop := match st with CsFinished _ | CsTraffic => False | _ => True end.
  Definition rets {A} (P : A -> Prop) (m : cm A) : Prop := forall x x' a, m x = (x', Ok a) -> P a.
  Lemma rets_bind {A B} (P : B -> Prop) (m : cm A) k : (forall a, rets P (k a)) -> rets P (sbind m k).
  Proof. intros Hk x x' b H. apply sbind_inv in H as [(a & x1 & H1 & H)|[(e & H & ?)|[H ?]]]; try done. by eapply Hk. Qed.
  Lemma rets_ret {A} (P : A -> Prop) a : P a -> rets P (sret a). Proof. intros H x x' a' [= <- <-]. done. Qed.
  Lemma rets_fail {A} (P : A -> Prop) e : rets P (sfail e). Proof. by intros x x' a' H. Qed.
  Lemma rets_panic {A} (P : A -> Prop) : rets P (slift Panic). Proof. by intros x x' a' H. Qed.
  Ltac rets := repeat first
    [ apply rets_ret; done | apply rets_fail | apply rets_panic | apply rets_bind; intros ? | case_match ].
  Lemma rets_hello random sent tr h : rets early_st (on_server_hello E random sent tr h).
  Proof. unfold on_server_hello, refuse. rets. Qed.
  Lemma rets_kx cr sr tr suite cert m : rets early_st (on_server_kx E cr sr tr suite cert m).
  Proof. unfold on_server_kx, inappropriate_hs, refuse. rets. Qed.
  Lemma rets_done cr sr tr suite cert kx auth m : rets early_st (on_server_done E cr sr tr suite cert kx auth m).
  Proof. unfold on_server_done, inappropriate_hs, refuse. rets. Qed.
  Lemma early_late fl st x : early_st st -> late fl st x. Proof. by destruct st. Qed.
  Lemma late_took fl r ok st x x' : took r ok x x' -> late fl st x -> late fl st x'.
  Proof.
    intros HT. destruct st; try done; simpl; [by apply (took_dec_true _ _ _ _ HT)|]. intros (H1 & H2 & H3).
    split_and!; [by apply (took_dec_true _ _ _ _ HT)|by apply (took_may _ _ _ _ HT)|]. intros Hf.
    destruct (took_log _ _ _ _ HT) as (l & _ & _ & _ & lost & Es & _). rewrite (H3 Hf) in Es. symmetry in Es.
    apply app_eq_nil in Es as [_ Es]. by apply app_eq_nil in Es as [_ Es].
  Qed.
  Lemma start_traffic_late x x' : start_traffic E x = (x', Ok tt) -> x_may_send x' = true /\ concat (x_sendable x') = [].
  Proof.
    intros H. unfold start_traffic, smodify, emit, sgets in H. unfold smodify, sbind at 1 in H. unfold sbind at 1 in H. unfold sbind at 1 in H.
    apply sbind_inv in H as [([] & x1 & H1 & H)|[(e & H & ?)|[H ?]]]; try done. unfold sbind at 1 in H.
    unfold flush_plaintext, sgets in H. unfold sbind at 1 in H. cbn [x_may_send set_may_send negb] in H. unfold sbind at 1 in H.
    apply (effm_flush_chunks E _ _ _ _ eq_refl) in H as [HE HS]. rewrite (HS eq_refl). split; [|done]. by apply (eff_may _ _ _ HE).
  Qed.
  Lemma handle_late fl st r m x x' st' : late fl st x -> holds r m -> handle E st m x = (x', Ok st') -> late fl st' x'.
  Proof.
    intros Hl Hr H. pose proof (handle_took _ _ _ _ _ _ Hr H) as HT.
    destruct st; cbn [handle] in H.
    - done.
    - apply early_late. destruct m as [|h| |]; try done. destruct h; try done. by eapply rets_hello.
    - apply early_late. destruct m as [|h| |]; try done. destruct h; try done. injection H as <- <-. by destruct may_status.
    - apply early_late. destruct m as [|h| |]; try done. destruct h; try done; [by eapply rets_kx|by injection H as <- <-].
    - apply early_late. by eapply rets_kx.
    - apply early_late. destruct m as [|h| |]; try (by eapply rets_done). destruct h; try (by eapply rets_done). by injection H as <- <-.
    - apply early_late. by eapply rets_done.
    - destruct m; try done. pose proof (took_ccs _ _ _ _ HT eq_refl Hr) as Hd'.
      apply sbind_inv in H as [([] & x1 & H1 & H)|[(e & H & ?)|[H ?]]]; try done. by injection H as <- <-.
    - destruct m as [|h| |]; try done. destruct h; try done. cbv zeta in H.
      apply sbind_inv in H as [([] & x1 & H1 & H)|[(e & H & ?)|[H ?]]]; try done. unfold sgets, sbind at 1 in H. unfold emit, smodify in H.
      unfold sbind at 1 in H. destruct (b_sf E (x_log x1)) as [vd|]; [|done]. destruct (negb _); [by apply sbind_inv in H as [(? & ? & _ & H)|[(? & _ & ?)|[_ ?]]]|].
      apply sbind_inv in H as [([] & x2 & H2 & H)|[(e & H & ?)|[H ?]]]; try done. injection H as <- <-.
      apply start_traffic_late in H2 as [H3 H4]. simpl. split_and!; [by apply (took_dec_true _ _ _ _ HT)|done|done].
    - destruct m; try done. apply (late_took _ _ _ _ _ _ HT). by injection H as <- <-.
  Qed.
  Lemma process_main_late fl st r m x x' st' : late fl st x -> holds r m -> process_main E st m x = (x', Ok st') -> late fl st' x'.
  Proof.
    intros Hl Hr H. pose proof (process_main_took _ _ _ _ _ _ Hr H) as HT. unfold process_main, sgets in H. unfold sbind in H at 1. destruct (_ && _).
    - assert (st' = st) as -> . { apply sbind_inv in H as [(? & ? & _ & H)|[(? & _ & ?)|[_ ?]]]; try done. by injection H as _ <-. }
      by eapply late_took.
    - apply scatch_inv in H as [(a & H & [= ->])|[(e & x1 & H1 & H)|[H ?]]]; [by eapply handle_late| |done].
      exfalso. destruct e; try done; unfold refuse in H; apply sbind_inv in H as [(? & ? & _ & H)|[(? & _ & ?)|[_ ?]]]; done.
  Qed.
  Lemma process_frames_late fl fs st x x' st' : late fl st x -> process_frames E fs st x = (x', Ok st') -> late fl st' x'.
  Proof.
    revert st x. induction fs as [|[v h] fs IH]; intros st x Hl H; cbn [process_frames] in H; [by injection H as <- <-|].
    unfold smodify in H. unfold sbind in H at 1. set (x0 := set_joiner _ _) in H.
    assert (late fl st x0) as Hl0 by (by destruct st). clearbody x0.
    apply sbind_inv in H as [(st1 & x1 & H1 & H)|[(e & H & ?)|[H ?]]]; try done.
    eapply IH; [|exact H]. eapply (process_main_late _ _ (Message Handshake TLSv1_2 [])); [exact Hl0| |exact H1]. done.
  Qed.
  Lemma process_plain_late fl r st x x' st' : late fl st x -> process_plain E r st x = (x', Ok st') -> late fl st' x'.
  Proof.
    intros Hl H. destruct (decide (m_typ r = Handshake)) as [Ht|Ht].
    - unfold process_plain in H. rewrite Ht in H. unfold sgets in H. unfold sbind in H at 1.
      destruct (take_message _ _ r) as [[n j]|]; [|done].
      unfold smodify in H. unfold sbind in H at 1. destruct n as [n|].
      + unfold sbind in H at 1. eapply process_frames_late; [|exact H]. by destruct st.
      + exfalso. unfold refuse in H; apply sbind_inv in H as [(? & ? & _ & H)|[(? & _ & ?)|[_ ?]]]; done.
    - pose proof (process_plain_took _ _ _ _ _ H) as HT. unfold process_plain in H.
      assert (match message_payload_new (body_read E) (m_typ r) (m_version r) (m_payload r) with
            | None => sfail ECore
            | Some (MPAlert level desc) => do! _ := process_alert E level desc in sret st
            | Some p => process_main E st p
            end x = (x', Ok st')) as H' by (destruct (m_typ r); try exact H; done). clear H.
      assert (match message_payload_new (body_read E) (m_typ r) (m_version r) (m_payload r) with
              | Some m => holds r m | None => True end) as Hh.
      { unfold message_payload_new, holds. destruct (m_typ r); try done; repeat (case_match; try done; simplify_eq/=). }
      destruct (message_payload_new _ _ _ _) as [[lv ds|h| |p]|]; [|by eapply (process_main_late _ _ r)..|done].
      assert (st' = st) as -> . { apply sbind_inv in H' as [(? & ? & _ & H)|[(? & _ & ?)|[_ ?]]]; try done. by injection H as _ <-. }
      by eapply late_took.
  Qed.
  (** No application data is taken before. *)
  Lemma process_plain_app fl r st x x' st' : late fl st x -> m_typ r = ApplicationData -> process_plain E r st x = (x', Ok st') -> x_dec x = true.
  Proof.
    intros Hl Ht H. unfold process_plain in H. rewrite Ht in H. cbn [message_payload_new] in H. unfold process_main, sgets in H.
    unfold sbind in H at 1. rewrite andb_false_r in H.
    apply scatch_inv in H as [(a & H & _)|[(e & x1 & H1 & H)|[H ?]]]; [|exfalso|done].
    - destruct st; try done; unfold on_server_kx, on_server_done, inappropriate_hs in H; try done. by destruct Hl.
    - destruct e; try done; unfold refuse in H; apply sbind_inv in H as [(? & ? & _ & H)|[(? & _ & ?)|[_ ?]]]; done.
  Qed.

  (** ** Records *)
  Lemma kept_ok {A} (m : cm A) x x' o : kept m x = (x', o) -> exists o', m x = (x', o') /\ is_ok o' = is_ok o /\ forall a, o = Ok a -> o' = Ok a.
  Proof.
    unfold kept. intros H. apply scatch_inv in H as [(a & H & ->)|[(e & x1 & H1 & H)|[H ->]]].
    - exists (Ok a). split_and!; try done. by intros ? [= ->].
    - injection H as <- <-. by exists (Err e).
    - by exists Panic.
  Qed.
  Lemma passed_ok {A} (m : cm A) x x' o : passed m x = (x', o) -> exists o', m x = (x', o') /\ is_ok o' = is_ok o /\ forall a, o = Ok a -> o' = Ok a.
  Proof.
    unfold passed. intros H. apply scatch_inv in H as [(a & H & ->)|[(e & x1 & H1 & H)|[H ->]]].
    - exists (Ok a). split_and!; try done. by intros ? [= ->].
    - injection H as <- <-. by exists (Err e).
    - by exists Panic.
  Qed.
  Definition after (fl : bool) (x' : cx) (o : outcome (bool * cl_error) cstate) : Prop :=
    data (is_ok o) x' /\ forall st', o = Ok st' -> late fl st' x'.

  Lemma process_record_data fl m ms st x x' o : data true x -> late fl st x -> df_frames (x_df x) = m :: ms ->
    process_record E m st (set_df (Deframer ms (df_desynced (x_df x)) (df_buf (x_df x))) x) = (x', o) ->
    after fl x' o /\ x_df x' = Deframer ms (df_desynced (x_df x)) (df_buf (x_df x)).
  Proof.
    intros HD HL Hf H. unfold process_record, sgets in H. unfold sbind in H at 1. cbn [x_dec set_df] in H.
    destruct (x_dec x) eqn:Hdec.
    - set (x0 := set_log (x_log x ++ [PushIn m]) (set_df (Deframer ms (df_desynced (x_df x)) (df_buf (x_df x))) x)).
      assert (data true x0) as HD0.
      { destruct HD as [H0 H1 H2 (lo & H3 & H3') (lo' & H4 & H4') (a & b & H5 & H6 & H7) H9].
        split; cbn [x0 set_log x_log x_df set_df df_frames df_desynced df_buf x_tls x_received x_sendable x_dec x_in]; views; one; rewrite ?app_nil_r; try done.
        - rewrite map_app, <- app_assoc. simpl. by rewrite Hf in H2.
        - by exists lo.
        - by exists lo'.
        - exists a, (b ++ [m]). rewrite H5, map_app, <- app_assoc, Hdec. split; [done|]. split; [done|]. intros _. by apply H7. }
      assert (late fl st x0) as HL0 by (by destruct st).
      unfold emit, smodify in H. unfold sbind in H at 1. unfold sbind in H at 1. cbn beta iota in H. fold x0 in H.
      apply sbind_inv in H as [([] & x1 & H1 & H)|[(e & H & ->)|[H ->]]].
      + apply passed_ok in H1 as (o' & H1 & _ & Ho). assert (x1 = x0) as ->. { unfold require in H1. destruct (b_push_in E _); by injection H1 as <- _. }
        injection H as <- <-. split; [|done]. split; [done|]. by intros st' [= <-].
      + apply passed_ok in H as (o' & H & _ & Ho). assert (x' = x0) as ->. { unfold require in H. destruct (b_push_in E _); by injection H as <- _. }
        split; [|done]. split; [by apply data_weaken|done].
      + apply passed_ok in H as (o' & H & _ & Ho). assert (x' = x0) as ->. { unfold require in H. destruct (b_push_in E _); by injection H as <- _. }
        split; [|done]. split; [by apply data_weaken|done].
    - unfold emit, smodify in H. unfold sbind in H at 1. set (x0 := set_log _ _) in H.
      apply kept_ok in H as (o' & H & Hok & Ho). pose proof (process_plain_took _ _ _ _ _ H) as HT.
      assert (late fl st x0) as HL0 by (by destruct st).
      split; [|by rewrite (took_df _ _ _ _ HT)]. split.
      + rewrite Hok in HT. destruct (clear_data m ms x x' _ HD Hdec Hf HT) as [(Hd & Ht & Hk)|HD']; [|done]. exfalso.
        destruct o as [st'| |]; try done. rewrite (Ho _ eq_refl) in H.
        pose proof (process_plain_app _ _ _ _ _ _ HL0 Ht H) as Hd'. simpl in Hd'. by rewrite Hdec in Hd'.
      + intros st' ->. rewrite (Ho _ eq_refl) in H. by eapply process_plain_late.
  Qed.
  Lemma process_records_data fl ms st x x' o : data true x -> late fl st x -> df_frames (x_df x) = ms ->
    process_records E ms st x = (x', o) -> after fl x' o.
  Proof.
    revert st x. induction ms as [|m ms IH]; intros st x HD HL Hf H; cbn [process_records] in H.
    - injection H as <- <-. split; [done|]. by intros st' [= <-].
    - unfold smodify in H. unfold sbind in H at 1.
      apply sbind_inv in H as [(st1 & x1 & H1 & H)|[(e & H & ->)|[H ->]]].
      + apply (process_record_data fl) in H1 as [[HD1 HL1] Hdf]; try done. eapply IH; [exact HD1|by apply HL1|by rewrite Hdf|exact H].
      + by apply (process_record_data fl) in H as [HA Hdf].
      + by apply (process_record_data fl) in H as [HA Hdf].
  Qed.
  Lemma process_decrypted_data fl ms st x x' o : data true x -> late fl st x -> (ms <> [] -> x_dec x = true) ->
    process_decrypted E ms st x = (x', o) -> after fl x' o.
  Proof.
    revert st x. induction ms as [|m ms IH]; intros st x HD HL Hms H; cbn [process_decrypted] in H.
    - injection H as <- <-. split; [done|]. by intros st' [= <-].
    - assert (x_dec x = true) as Hdec by (by apply Hms). clear Hms.
      unfold emit, smodify in H. unfold sbind in H at 1. unfold sbind in H at 1. set (x0 := set_log _ _) in H.
      assert (late fl st x0) as HL0 by (by destruct st).
      assert (forall x1 o', process_plain E m st x0 = (x1, o') -> data (is_ok o') x1 /\ x_dec x1 = true) as HS.
      { intros x1 o' H1. apply process_plain_took in H1 as HT. pose proof (took_dec_true _ _ _ _ HT Hdec) as Hdec'. split; [|done].
        destruct HT as [(l & El & Hi & Et & lost & Es & Hl) _ _ Hr Hm Hd Hin Hout]. clear H1.
        destruct HD as [H0 H1 H2 (lo & H3 & H3') (lo' & H4 & H4') H5 H9].
        destruct (inner_views l Hi) as (V1 & V2 & V3 & V4 & V5 & V6). cbn [x0 set_log x_log x_df set_in x_tls x_received x_sendable x_dec] in *.
        split; rewrite ?El, ?Hd; views; rewrite ?V1, ?V2, ?V3, ?V4, ?V5, ?V6; one; rewrite ?app_nil_r.
        - by rewrite Hdec'.
        - by rewrite Et, app_assoc, H1.
        - done.
        - rewrite H3, (H3' eq_refl), Hr, app_nil_r. destruct (is_ok o').
          + exists []. split; [|done]. by rewrite app_nil_r, <- app_assoc.
          + exists (app_part m). rewrite app_nil_r, <- app_assoc. by split.
        - rewrite (H4' eq_refl) in H4. simpl in H4. exists lost. split; [|done]. by rewrite H4, Es, <- app_assoc.
        - destruct H5 as (a & b & H5 & _ & H7). exists a, b. split; [done|]. rewrite Hdec'. split; [done|]. intros _. by apply H7.
        - done. }
      apply sbind_inv in H as [(st1 & x1 & H1 & H)|[(e & H & ->)|[H ->]]].
      + apply kept_ok in H1 as (o' & H1 & _ & Ho). rewrite (Ho _ eq_refl) in H1. pose proof (HS _ _ H1) as [HD1 Hd1].
        apply (process_plain_late fl) in H1; [|done]. eapply IH; [exact HD1|exact H1|by intros _|exact H].
      + apply kept_ok in H as (o' & H & Hok & Ho). apply HS in H as [H _]. rewrite Hok in H. by split.
      + apply kept_ok in H as (o' & H & Hok & Ho). apply HS in H as [H _]. rewrite Hok in H. by split.
  Qed.
  Lemma queue_encrypted_data ok ms x x' o : data ok x -> queue_encrypted ms x = (x', o) -> data ok x' /\ x_dec x' = x_dec x /\ is_ok o = true /\ x_may_send x' = x_may_send x /\ x_sendable x' = x_sendable x.
  Proof.
    revert x. induction ms as [|m ms IH]; intros x HD H; cbn [queue_encrypted] in H; [by injection H as <- <-|].
    unfold emit, queue, smodify, sbind in H. cbn beta iota in H. apply IH in H; [done|].
    destruct HD as [H0 H1 H2 H3 H4 H5 H9].
    split; cbn [set_log set_tls set_out x_log x_df x_tls x_received x_sendable x_dec x_in]; views; one; rewrite ?app_nil_r; try done.
    by rewrite concat_cvb_append, app_assoc, H1.
  Qed.
  Lemma backend_flush_data x x' o : (forall log ins outs, b_flush E log = Some (ins, outs) -> (forall m, PushIn m ∉ log) -> ins = []) ->
    data true x -> backend_flush E x = (x', o) -> data true x' /\ x_dec x' = x_dec x /\ x_may_send x' = x_may_send x /\ x_sendable x' = x_sendable x.
  Proof.
    intros HB HD H. unfold backend_flush, emit, smodify, sgets in H. unfold sbind in H at 1. unfold sbind in H at 1.
    set (x0 := set_log _ _) in H.
    assert (data true x0) as HD0.
    { destruct HD as [H0 H1 H2 H3 H4 H5 H9].
      split; cbn [x0 set_log x_log x_df x_tls x_received x_sendable x_dec x_in]; views; one; rewrite ?app_nil_r; done. }
    assert (x_dec x0 = x_dec x /\ x_may_send x0 = x_may_send x /\ x_sendable x0 = x_sendable x) as Hd0 by done. clearbody x0. clear HD.
    destruct (b_flush E (x_log x0)) as [[ins outs]|] eqn:Ef; injection H as <- <-; [|by split].
    split; [|done]. destruct HD0 as [H0 H1 H2 H3 H4 H5 H9].
    split; try done. intros Hd. change (x_dec x0 = false) in Hd. change (x_in x0 ++ ins = []). rewrite (H0 Hd).
    apply HB in Ef; [done|]. intros m Hm.
    destruct H5 as (a & b & H5 & H6 & _). destruct (H6 Hd) as [-> _]. simpl in H5. rewrite app_nil_r in H5.
    assert ((true, m) ∈ records_in (x_log x0)) as Hr.
    { unfold records_in. apply elem_of_list_In, in_concat. exists [(true, m)]. split; [|by left].
      apply elem_of_list_In in Hm. apply in_map_iff. by exists (PushIn m). }
    rewrite H5 in Hr. by apply elem_of_list_fmap in Hr as (? & ? & _).
  Qed.
  Context (HB : forall log ins outs, b_flush E log = Some (ins, outs) -> (forall m, PushIn m ∉ log) -> ins = []).
  Lemma flush_late st x x' : late false st x -> flush_plaintext E x = (x', Ok tt) -> late true st x'.
  Proof.
    intros Hl H. pose proof (flush_plaintext_eff _ _ _ H) as HE. destruct st; try done; simpl in *; [by rewrite (eff_dec _ _ _ HE)|].
    destruct Hl as (H1 & H2 & _). rewrite (eff_dec _ _ _ HE). split_and!; [done|by apply (eff_may _ _ _ HE)|]. intros _.
    unfold flush_plaintext, sgets in H. unfold sbind at 1 in H. rewrite H2 in H. cbn [negb] in H. unfold sbind at 1 in H.
    apply (effm_flush_chunks E _ _ _ _ eq_refl) in H as [_ HS]. by rewrite (HS eq_refl).
  Qed.
  Lemma process_body_data st x x' o : data true x -> late false st x -> process_body E st x = (x', o) -> after true x' o.
  Proof.
    intros HD HL H. unfold process_body, sgets in H. unfold sbind in H at 1.
    destruct (df_desynced (x_df x)); [injection H as <- <-; split; [by apply data_weaken|done]|].
    apply sbind_inv in H as [([] & x1 & H1 & H)|[(e & H & ->)|[H ->]]].
    2, 3: apply passed_ok in H as (o' & H & Hok & Ho); apply flush_plaintext_eff in H; rewrite Hok in H; split; [by eapply data_eff|done].
    apply passed_ok in H1 as (o' & H1 & Hok & Ho). rewrite (Ho _ eq_refl) in H1. pose proof H1 as H1'. apply flush_plaintext_eff in H1. simpl in H1.
    pose proof (data_eff _ _ _ HD H1) as HD1. assert (late true st x1) as HL1 by (by eapply flush_late).
    rewrite <- (eff_df _ _ _ H1) in H. clear dependent x. clear o' Hok Ho.
    apply sbind_inv in H as [(st2 & x2 & H2 & H)|[(e & H & ->)|[H ->]]].
    2, 3: by eapply process_records_data.
    apply (process_records_data true) in H2 as [HD2 HL2]; try done. specialize (HL2 _ eq_refl). simpl in HD2. clear dependent x1. clear st.
    apply sbind_inv in H as [([] & x3 & H3 & H)|[(e & H & ->)|[H ->]]].
    2, 3: apply passed_ok in H as (o' & H & Hok & Ho); apply backend_flush_data in H as (HD3 & _); [|done..]; split; [by apply data_weaken|done].
    apply passed_ok in H3 as (o' & H3 & Hok & Ho). apply backend_flush_data in H3 as (HD3 & Hd3 & Hm3 & Hs3); [|done..].
    assert (late true st2 x3) as HL3. { destruct st2; try done; simpl in *; [congruence|]. destruct HL2 as (? & ? & ?). by rewrite Hd3, Hm3, Hs3. } clear dependent x2. clear o' Hok Ho.
    unfold sgets in H. unfold sbind in H at 1.
    assert (x_in x3 <> [] -> x_dec x3 = true) as Hin. { destruct (x_dec x3) eqn:Hd; [done|]. by rewrite (d_idle _ _ HD3 Hd). }
    apply sbind_inv in H as [(st4 & x4 & H4 & H)|[(e & H & ->)|[H ->]]].
    2, 3: by eapply process_decrypted_data.
    apply (process_decrypted_data true) in H4 as [HD4 HL4]; try done. specialize (HL4 _ eq_refl). simpl in HD4. clear dependent x3.
    unfold sbind in H at 1.
    apply sbind_inv in H as [([] & x5 & H5 & H)|[(e & H & ->)|[H ->]]].
    2, 3: apply passed_ok in H as (o' & H & Hok & Ho); apply (queue_encrypted_data true) in H as (HD5 & _ & Hk & _); [|done]; by rewrite Hok in Hk.
    apply passed_ok in H5 as (o' & H5 & _ & _). apply (queue_encrypted_data true) in H5 as (HD5 & Hd5 & _ & Hm5 & Hs5); [|done].
    injection H as <- <-. split; [done|]. intros st' [= <-]. destruct st4; try done; simpl in *; [congruence|]. destruct HL4 as (? & ? & ?). by rewrite Hd5, Hm5, Hs5.
  Qed.
  Lemma eff0_any x x' : eff0 x x' -> took (Message Handshake TLSv1_2 []) true x x'.
  Proof. intros H. by apply eff_took, eff0_eff. Qed.
  Lemma late_weaken fl st x : late true st x -> late fl st x.
  Proof. destruct st; try done. intros (H1 & H2 & H3). split_and!; try done. intros _. by apply H3. Qed.
  Definition data_conn (c : conn) : Prop :=
    match c_state c with inr st => data true (c_x c) /\ late false st (c_x c) | inl _ => data false (c_x c) end.

  (** ** Calls *)
  Lemma concat_consume n cs : concat (cvb_consume n cs) = drop n (concat cs).
  Proof.
    revert n. induction cs as [|c cs IH]; intros n; simpl; [by rewrite drop_nil|]. case_match eqn:Hn; simpl.
    - apply Nat.ltb_lt in Hn. rewrite drop_app_le by lia. done.
    - apply Nat.ltb_ge in Hn. rewrite IH. rewrite drop_app_ge by lia. done.
  Qed.
  Lemma concat_write n cs b cs' : cvb_write n cs = (b, cs') -> b ++ concat cs' = concat cs.
  Proof.
    unfold cvb_write. intros [= <- <-]. set (k := Nat.min n _). rewrite concat_consume.
    rewrite <- (take_drop 64 cs) at 3. rewrite <- (take_drop 64 cs) at 2. rewrite !concat_app.
    assert (k <= length (concat (take 64 cs))) as Hk by (unfold k; lia).
    rewrite drop_app_le by lia. rewrite app_assoc, take_drop. done.
  Qed.
  Lemma concat_read n cs b cs' : cvb_read n cs = (b, cs') -> b ++ concat cs' = concat cs.
  Proof.
    revert n b. induction cs as [|c cs IH]; intros n b H; simpl in H; [by injection H as <- <-|].
    destruct (n =? 0); [by injection H as <- <-|]. destruct (n <? length c).
    - injection H as <- <-. simpl. by rewrite app_assoc, take_drop.
    - destruct (cvb_read (n - length c) cs) as [b1 cs1] eqn:Er. injection H as <- <-. simpl. rewrite <- app_assoc. f_equal. by eapply IH.
  Qed.
  Lemma data_conn_eff0 c x' : data_conn c -> eff0 (c_x c) x' -> data_conn (Conn (c_state c) x').
  Proof.
    unfold data_conn. intros HD HE. pose proof HE as [_ _ _ Hc _ _ _ _]. cbn [c_state c_x]. destruct (c_state c) as [e|st]; [by eapply data_eff0|]. destruct HD as [HD HL]. split; [by eapply data_eff0|].
      eapply late_took; [|exact HL]. by apply eff0_any.
  Qed.
  (** One more event, and changes of buffers. *)
  Lemma data_conn_map c x' : x_dec x' = x_dec (c_x c) -> x_may_send x' = x_may_send (c_x c) ->
    data_conn c -> (forall ok, data ok (c_x c) -> data ok x') -> data_conn (Conn (c_state c) x').
  Proof.
    unfold data_conn. intros Hd Hm HD HS. cbn [c_state c_x].
    destruct (c_state c) as [e|st]; [by apply HS|]. destruct HD as [HD HL]. split; [by apply HS|].
    destruct st; try done; simpl in *; [congruence|]. destruct HL as (? & ? & _). by rewrite Hd, Hm.
  Qed.
  Lemma rets_start : rets early_st (start_handshake E).
  Proof. unfold start_handshake. rets. Qed.

  Lemma step_data c k c' o : data_conn c -> match k with CallReadTls chunk => bytes_ok chunk | _ => True end ->
    step E c k = (c', o) -> data_conn c'.
  Proof.
    intros HG Hk H. destruct k; cbn [step] in H.
    - unfold start in H. destruct (c_state c) as [e|st] eqn:Ec; [by injection H as <- <-|].
      unfold data_conn in HG. rewrite Ec in HG. destruct HG as [HD HL].
      destruct st; try (injection H as <- <-; by apply (data_weaken false)).
      destruct (start_handshake E (c_x c)) as [x' o'] eqn:Es. pose proof (effm0_start E _ _ _ Es) as HE.
      pose proof (data_eff0 _ _ _ HD HE) as HD'. 
      destruct o' as [st'|e|]; injection H as <- <-; [|by apply (data_weaken false)..].
      split; [done|]. apply early_late. eapply (rets_start); exact Es.
    - unfold on_x in H. unfold sgets in H at 1. unfold sbind in H at 1. destruct (df_read (x_df (c_x c)) chunk) as [df|] eqn:Ed.
      + unfold smodify, emit, sbind in H. unfold smodify in H. cbn beta iota in H. injection H as <- <-.
        assert (forall ok, data ok (c_x c) -> data ok (set_log (x_log (set_df df (c_x c)) ++ [WireIn chunk]) (set_df df (c_x c)))) as HS.
        { intros ok [H0 H1 H2 H3 H4 H5 H9].
          assert (bytes_ok (wire_in (x_log (c_x c)) ++ chunk)) as Hb' by (by apply Forall_app).
          assert ((N.of_nat (length (df_buf (x_df (c_x c))) + length chunk) <= 18437)%N) as Hlen.
          { unfold df_read in Ed. destruct (_ <? _)%N eqn:El in Ed; [done|]. apply N.ltb_ge in El. exact El. }
          destruct (df_read_spec _ chunk _ _ Hb' H2 Hlen) as (df' & Ed' & Hsh & _). rewrite Ed in Ed'. injection Ed' as <-.
          split; cbn [set_log x_log x_df set_df x_tls x_received x_sendable x_dec x_in]; views; one; rewrite ?app_nil_r; done. }
        unfold data_conn in *. cbn [c_state c_x]. destruct (c_state c) as [e|st]; [by apply HS|]. destruct HG as [HD HL]. split; [by apply HS|by destruct st].
      + injection H as <- <-. by destruct c.
    - unfold process_new_packets in H. destruct (c_state c) as [e|st] eqn:Ec; [by injection H as <- <-|].
      unfold data_conn in HG. rewrite Ec in HG. destruct HG as [HD HL].
      destruct (process_body E st (c_x c)) as [x' o'] eqn:Es. apply process_body_data in Es as HA; [|done..].
      destruct HA as [HD' HL'].
      destruct o' as [st'|[keep e]|]; injection H as <- <-; try done. split; [done|]. eapply late_weaken. by apply HL'.
    - unfold on_x in H. unfold sgets in H at 1. unfold sbind in H at 1. destruct (cvb_write n (x_tls (c_x c))) as [b cs] eqn:Ew.
      unfold smodify, emit, sbind in H. unfold smodify in H. cbn beta iota in H. injection H as <- <-.
      apply data_conn_map; try done.
      intros ok [H0 H1 H2 H3 H4 H5 H9]. apply concat_write in Ew.
      split; cbn [set_log x_log x_df set_tls x_tls x_received x_sendable x_dec x_in]; views; one; rewrite ?app_nil_r; try done.
      by rewrite <- app_assoc, Ew.
    - unfold on_x in H. destruct p as [|b p]; [injection H as <- <-; by destruct c|].
      unfold sgets in H at 1. unfold sbind in H at 1. unfold cvb_append_limited in H. cbv zeta in H. set (n := N.to_nat _) in H.
      unfold smodify, emit, sbind in H. unfold smodify in H. cbn beta iota in H. injection H as <- <-.
      apply data_conn_map; try done.
      intros ok [H0 H1 H2 H3 (lo & H4 & H4') H5 H9]. 
      split; cbn [set_log x_log x_df set_sendable x_tls x_received x_sendable x_dec x_in]; views; one; rewrite ?app_nil_r; try done.
      exists lo. split; [|done]. by rewrite concat_cvb_append, H4, <- !app_assoc.
    - unfold on_x in H. unfold sgets in H at 1. unfold sbind in H at 1. destruct (cvb_read n (x_received (c_x c))) as [b cs] eqn:Er.
      unfold smodify, emit, sbind in H. unfold smodify in H. cbn beta iota in H. injection H as <- <-.
      apply data_conn_map; try done.
      intros ok [H0 H1 H2 (lo & H3 & H3') H4 H5 H9]. apply concat_read in Er.
      split; cbn [set_log x_log x_df set_received x_tls x_received x_sendable x_dec x_in]; views; one; rewrite ?app_nil_r; try done.
      exists lo. split; [|done]. by rewrite H3, <- Er, <- !app_assoc.
    - unfold on_x in H. destruct (send_warning E 0 (c_x c)) as [x' o'] eqn:Es. injection H as <- <-. apply data_conn_eff0; [done|].
      by eapply effm0_warning.
    - unfold on_x, emit, smodify, sgets in H. unfold sbind in H. cbn beta iota in H. unfold require in H.
      assert (data_conn (Conn (c_state c) (set_log (x_log (c_x c) ++ [CloseConnection]) (c_x c)))) as HG'.
      { apply data_conn_map; try done.
        intros ok [H0 H1 H2 H3 H4 H5 H9].
        split; cbn [set_log x_log x_df x_tls x_received x_sendable x_dec x_in]; views; one; rewrite ?app_nil_r; done. }
      destruct (b_close E _); injection H as <- <-; exact HG'.
  Qed.
End Client.
