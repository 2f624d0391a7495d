(** The records that the TLS client sends: as they are before its ChangeCipherSpec, encrypted after. *)
From Verif.Lib Require Import Base.
From Verif Require Import ProofModel CodecModel CodecSpec CodecLemmas FramingLemmas TlsModel HandshakeModel
  AttestModel SigAlgModel SigAlgSpec RecordModel ClientModel ClientSpec ClientLemmas ClientEffects ClientInv ClientRun ClientMain ClientData.

Definition K (x : cx) : Prop :=
  exists a b : list message, records_out (x_log x) = map (pair false) a ++ map (pair true) b /\
    Forall (fun m => m_typ m <> ApplicationData) a /\
    if x_enc x then exists a' m, a = a' ++ [m] /\ m_typ m = ChangeCipherSpec else b = [].
Definition ke {A} (b : bool) (m : cm A) : Prop := forall x x' o, x_enc x = b -> K x -> m x = (x', o) -> K x' /\ x_enc x' = b.

Lemma ke_ret {A} b (a : A) : ke b (sret a). Proof. by intros x x' o ? ? [= <- <-]. Qed.
Lemma ke_fail {A} b e : ke (A:=A) b (sfail e). Proof. by intros x x' o ? ? [= <- <-]. Qed.
Lemma ke_lift {A} b (r : outcome cl_error A) : ke b (slift r). Proof. by intros x x' o ? ? [= <- <-]. Qed.
Lemma ke_gets {A} b (f : cx -> A) : ke b (sgets f). Proof. by intros x x' o ? ? [= <- <-]. Qed.
Lemma ke_require b c e : ke b (require c e). Proof. destruct c; [apply ke_ret|apply ke_fail]. Qed.
Lemma ke_bind {A B} b (m : cm A) (k : A -> cm B) : ke b m -> (forall a, ke b (k a)) -> ke b (sbind m k).
Proof.
  intros Hm Hk x x' o He HK H. apply sbind_inv in H as [(a & x1 & H1 & H)|[(e & H & ->)|[H ->]]]; [|by eapply Hm..].
  apply Hm in H1 as [HK1 He1]; [|done..]. by eapply Hk.
Qed.
Lemma K_same x x' : x_log x' = x_log x -> x_enc x' = x_enc x -> K x -> K x'.
Proof. unfold K. intros -> ->. done. Qed.
Lemma ke_modify b f : (forall x, x_log (f x) = x_log x /\ x_enc (f x) = x_enc x) -> ke b (smodify f).
Proof. intros Hf x x' o He HK [= <- <-]. destruct (Hf x) as [H1 H2]. split; [by eapply K_same|congruence]. Qed.
Lemma K_emit e x : records_out [e] = [] -> K x -> K (set_log (x_log x ++ [e]) x).
Proof. intros He (a & b & H1 & H2). exists a, b. cbn [set_log x_log x_enc]. by rewrite records_out_app, He, app_nil_r. Qed.
Lemma ke_emit b e : records_out [e] = [] -> ke b (emit e).
Proof. intros He x x' o Hx HK [= <- <-]. split; [by apply K_emit|done]. Qed.
Lemma ke_sfor {A} b (l : list A) f : (forall a, a ∈ l -> ke b (f a)) -> ke b (sfor l f).
Proof.
  induction l as [|a l IH]; intros H; cbn [sfor]; [apply ke_ret|]. apply ke_bind; [apply H; by left|].
  intros _. apply IH. intros c Hc. apply H. by right.
Qed.
Section Client.
  Context (E : env).
  Lemma K_clear m x : m_typ m <> ApplicationData -> x_enc x = false -> K x -> K (set_log (x_log x ++ [ClearOut m]) x).
  Proof.
    intros Ht He (a & b & H1 & H2 & H3). unfold K. cbn [set_log x_log x_enc]. rewrite He in *. subst b.
    exists (a ++ [m]), []. rewrite records_out_app, H1, map_app, !app_nil_r. split; [done|]. split; [|done]. apply Forall_app. split; [done|by constructor].
  Qed.
  Lemma ke_clear m : m_typ m <> ApplicationData -> ke false (do! _ := emit (ClearOut m) in queue m).
  Proof. intros Ht x x' o He HK [= <- <-]. split; [|done]. by eapply (K_same (set_log (x_log x ++ [ClearOut m]) x)), K_clear. Qed.
  Lemma ke_push m : ke true (push_out E m).
  Proof.
    intros x x' o He HK H. unfold push_out, sgets in H. unfold sbind at 1 in H. destruct (_ && _); [by injection H as <- <-|].
    unfold emit, smodify in H. unfold sbind at 1 in H. unfold sbind at 1 in H. set (x0 := set_log _ _) in H.
    assert (x' = x0) as ->. { unfold require in H. destruct (b_push_out E _); by injection H as <- _. } split; [|done].
    destruct HK as (a & b & H1 & H2 & H3). unfold K, x0. cbn [set_log x_log x_enc]. rewrite He in *.
    exists a, (b ++ [m]). rewrite records_out_app, H1, map_app, <- app_assoc. done.
  Qed.
  Lemma ke_send m b : m_typ m <> ApplicationData \/ b = true -> ke b (send_msg E m b).
  Proof.
    intros Ht x x' o He HK H. unfold send_msg in H. apply sbind_inv in H as [(ms & x1 & H1 & H)|[(e & H & ->)|[H ->]]];
      [|by injection H as <- _..].
    unfold slift, lift_panic in H1. injection H1 as <- H1. destruct (fragment (e_frag E) m) as [fs|[]|] eqn:Ef; try done.
    injection H1 as <-. apply fragment_inv in Ef as [_ Hts].
    destruct b; (eapply ke_sfor; [|done|done|exact H]); intros f Hf; [apply ke_push|apply ke_clear].
    eapply Forall_forall in Hts; [|exact Hf]. rewrite Hts. by destruct Ht.
  Qed.
  Lemma ke_fatal b d : ke b (send_fatal E d).
  Proof.
    intros x x' o He HK H. unfold send_fatal, sgets in H. unfold sbind at 1 in H. destruct (_ && _); [by injection H as <- <-|].
    unfold sbind at 1 in H. rewrite He in H. revert He HK H. apply (ke_bind b); [apply ke_send; by left|]. intros _. by apply ke_modify.
  Qed.
  Lemma ke_warning b d : ke b (send_warning E d).
  Proof. intros x x' o He HK H. unfold send_warning, sgets in H. unfold sbind at 1 in H. rewrite He in H. revert He HK H. apply (ke_send _ b). by left. Qed.
  Lemma ke_refuse {A} b d e : ke (A:=A) b (refuse E d e).
  Proof. apply ke_bind; [apply ke_fatal|]. intros _. apply ke_fail. Qed.
  Lemma ke_aligned b : ke b (check_aligned E).
  Proof. apply ke_bind; [apply ke_gets|]. intros []; [apply ke_ret|apply ke_refuse]. Qed.
  Lemma ke_emit_hs tr h b : ke b (emit_hs E tr h b).
  Proof. apply ke_bind; [apply ke_send; by left|]. intros _. apply ke_ret. Qed.
  Lemma ke_alpn b p : ke b (process_alpn E p).
  Proof.
    apply ke_bind; [by apply ke_modify|]. intros _. destruct p as [p|]; [|apply ke_ret]. case_bool_decide; [apply ke_ret|apply ke_refuse].
  Qed.
  Ltac ke := repeat first
    [ apply ke_ret | apply ke_fail | apply ke_lift | apply ke_gets | apply ke_require | apply ke_refuse
    | apply ke_aligned | apply ke_emit_hs | apply ke_alpn | apply ke_warning | apply ke_fatal
    | apply ke_emit; done | apply ke_modify; done | apply ke_send; left; discriminate
    | apply ke_bind; [|intros ?] | case_match ].
  Lemma ke_start : ke false (start_handshake E).
  Proof. unfold start_handshake. ke. Qed.
  Lemma ke_hello random sent tr h : ke false (on_server_hello E random sent tr h).
  Proof. unfold on_server_hello. ke. Qed.
  Lemma ke_kx cr sr tr suite cert m : ke false (on_server_kx E cr sr tr suite cert m).
  Proof. unfold on_server_kx, inappropriate_hs. ke. Qed.
  Lemma ke_certverify tr scheme sign : ke false (emit_certverify E tr scheme sign).
  Proof. unfold emit_certverify. ke. Qed.

  (** The switch to encryption. *)
  Definition switches (m : cm cstate) : Prop :=
    forall x x' o, x_enc x = false -> K x -> m x = (x', o) -> K x' /\ forall st, o = Ok st -> (exists tr, st = CsCcs tr) /\ x_enc x' = true.
  Lemma switches_bind {A} (m : cm A) k : ke false m -> (forall a, switches (k a)) -> switches (sbind m k).
  Proof.
    intros Hm Hk x x' o He HK H. apply sbind_inv in H as [(a & x1 & H1 & H)|[(e & H & ->)|[H ->]]].
    - apply Hm in H1 as [HK1 He1]; [|done..]. by eapply Hk.
    - apply Hm in H as [HK1 He1]; [|done..]. by split.
    - apply Hm in H as [HK1 He1]; [|done..]. by split.
  Qed.
  Lemma switches_ke m : ke false m -> (forall x x' st, m x <> (x', Ok st)) -> switches m.
  Proof. intros Hm Hn x x' o He HK H. split; [by eapply Hm|]. intros st ->. by apply Hn in H. Qed.
  Lemma switches_fail e : switches (sfail e). Proof. apply switches_ke; [apply ke_fail|]. by intros ? ? ? ?. Qed.
  Lemma switches_panic : switches (slift Panic). Proof. apply switches_ke; [apply ke_lift|]. by intros ? ? ? ?. Qed.
  Lemma switches_refuse d e : switches (refuse E d e).
  Proof.
    apply switches_ke; [apply ke_refuse|]. intros x x' st H. unfold refuse in H.
    apply sbind_inv in H as [(? & ? & _ & H)|[(? & _ & ?)|[_ ?]]]; done.
  Qed.
  Lemma done_switches cr sr tr suite cert kx auth m : switches (on_server_done E cr sr tr suite cert kx auth m).
  Proof.
    unfold on_server_done, inappropriate_hs.
    destruct m as [|h| |]; try apply switches_fail. destruct h; try apply switches_fail. cbv zeta.
    apply switches_bind; [apply ke_aligned|intros _].
    destruct (sc_chain cert) as [|leaf inter]; [apply switches_fail|].
    apply switches_bind; [apply ke_gets|intros log].
    destruct (negb _); [apply switches_refuse|]. destruct (negb _); [apply switches_fail|].
    destruct (verify_struct _ _ _ _ _) as [alg| |]; [|apply switches_refuse|apply switches_panic].
    apply switches_bind; [destruct auth; [apply ke_emit_hs|apply ke_ret]|intros tr1].
    destruct (decode_params _) as [[group key]|]; [|apply switches_refuse].
    apply switches_bind; [apply ke_gets|intros log1].
    destruct (b_key_share E log1) as [[mg mk]|]; [|apply switches_fail].
    apply switches_bind; [by apply ke_emit|intros _].
    destruct (negb _); [apply switches_fail|].
    apply switches_bind; [apply ke_emit_hs|intros tr2].
    apply switches_bind; [destruct auth as [[]|]; [apply ke_ret|apply ke_certverify|apply ke_ret]|intros tr3].
    intros x x' o He HK H.
    apply sbind_inv in H as [([] & x1 & H1 & H)|[(e & H & ->)|[H ->]]].
    2, 3: apply ke_send in H as [HK' _]; [|by left|done|done]; by split.
    pose proof H1 as H1'. apply ke_send in H1' as [HK1 He1]; [|by left|done|done].
    apply send_clear in H1 as (_ & _ & ms & El & Hts & Hp). simpl in Hp, Hts.
    assert (exists ms' f, ms = ms' ++ [f] /\ m_typ f = ChangeCipherSpec) as (ms' & f & -> & Hf).
    { destruct ms as [|f ms' _] using rev_ind; [done|]. exists ms', f. split; [done|]. apply Forall_app in Hts as [_ Hts]. by inversion Hts. }
    assert (exists a, records_out (x_log x1) = map (pair false) (a ++ [f]) /\ Forall (fun m => m_typ m <> ApplicationData) (a ++ [f])) as (a & Hr & Ha).
    { destruct HK as (a & b & H1 & H2 & H3). rewrite He in H3. subst b. exists (a ++ ms'). rewrite El, records_out_app, H1, app_nil_r, <- app_assoc. split.
      - rewrite (map_app _ a). f_equal. unfold records_out. rewrite map_map. clear. induction (ms' ++ [f]) as [|m l IH]; simpl; [done|]. by rewrite IH.
      - apply Forall_app. split; [done|]. eapply Forall_impl; [exact Hts|]. simpl. intros m ->. discriminate. }
    unfold emit, smodify, sgets in H. unfold sbind at 1 in H. unfold sbind at 1 in H. set (x2 := set_log _ x1) in H.
    assert (K x2) as HK2 by (by apply K_emit).
    apply sbind_inv in H as [([] & x3 & H3 & H)|[(e & H & ->)|[H ->]]].
    2, 3: apply ke_require with (b := false) in H as [HK' _]; [|done|done]; by split.
    assert (x3 = x2) as ->. { unfold require in H3. destruct (b_prepare E _); by injection H3 as <-. }
    unfold sbind at 1 in H. unfold sbind at 1 in H. unfold sbind at 1 in H. set (x4 := set_log _ (set_enc true x2)) in H.
    assert (K x4 /\ x_enc x4 = true) as [HK4 He4].
    { split; [|done]. apply K_emit; [done|]. exists (a ++ [f]), []. cbn [set_enc x_log x_enc x2 set_log]. rewrite records_out_app, Hr, !app_nil_r.
      split; [done|]. split; [done|]. by exists a, f. }
    destruct (b_cf E _) as [vd|]; [|injection H as <- <-; by split].
    apply sbind_inv in H as [(tr4 & x5 & H5 & H)|[(e & H & ->)|[H ->]]].
    2, 3: apply ke_emit_hs in H as [HK' _]; [|done|done]; by split.
    apply ke_emit_hs in H5 as [HK5 He5]; [|done|done]. injection H as <- <-. split; [done|]. intros st [= <-]. split; [by exists tr4|done].
  Qed.

  Definition encst (st : cstate) (x : cx) : Prop :=
    x_enc x = match st with CsCcs _ | CsFinished _ | CsTraffic => true | _ => false end.
  Definition kept_out (x' : cx) {Er} (o : outcome Er cstate) : Prop := K x' /\ forall st', o = Ok st' -> encst st' x'.

  Lemma flush_chunks_ke cs : ke true (flush_chunks E cs).
  Proof.
    induction cs as [|c cs IH]; cbn [flush_chunks]; [apply ke_ret|]. apply ke_bind; [by apply ke_modify|intros _].
    apply ke_bind; [apply ke_send; by right|intros _]. done.
  Qed.
  Lemma flush_plaintext_ke x x' o b : (x_may_send x = true -> b = true) -> x_enc x = b -> K x -> flush_plaintext E x = (x', o) -> K x' /\ x_enc x' = b.
  Proof.
    intros Hm He HK H. unfold flush_plaintext, sgets in H. unfold sbind at 1 in H. destruct (x_may_send x); cbn [negb] in H; [|by injection H as <- <-].
    rewrite (Hm eq_refl) in *. unfold sbind at 1 in H. by eapply flush_chunks_ke.
  Qed.
  Lemma start_traffic_ke : ke true (start_traffic E).
  Proof.
    unfold start_traffic. apply ke_bind; [by apply ke_modify|intros _]. apply ke_bind; [by apply ke_emit|intros _].
    apply ke_bind; [apply ke_gets|intros log]. apply ke_bind; [apply ke_require|intros _]. apply ke_bind; [by apply ke_modify|intros _].
    intros x x' o He HK H. by eapply (flush_plaintext_ke _ _ _ true).
  Qed.
  Lemma ke_kept_out b m x x' o : ke b m -> x_enc x = b -> K x -> m x = (x', o) -> rets (fun st => forall x, x_enc x = b -> encst st x) m -> kept_out x' o.
  Proof.
    intros Hm He HK H Hr. pose proof (Hm _ _ _ He HK H) as [HK' He']. split; [done|]. intros st' ->. by eapply (Hr _ _ _ H).
  Qed.
  Ltac rets := repeat first
    [ apply rets_ret; intros; done | apply rets_fail | apply rets_panic | apply rets_bind; intros ? | case_match ].
  Lemma handle_out st m x x' o : encst st x -> K x -> handle E st m x = (x', o) -> kept_out x' o.
  Proof.
    intros He HK H.
    destruct st; cbn [handle encst] in H, He; unfold encst in He.
    - by injection H as <- <-.
    - destruct m as [|h| |]; try (by injection H as <- <-). destruct h; try (by injection H as <- <-).
      eapply ke_kept_out; [apply ke_hello|done|done|exact H|]. unfold on_server_hello, refuse. rets.
    - destruct m as [|h| |]; try (by injection H as <- <-). destruct h; try (by injection H as <- <-).
      injection H as <- <-. split; [done|]. intros st' [= <-]. unfold encst. by destruct may_status.
    - destruct m as [|h| |]; try (by injection H as <- <-). destruct h; try (by injection H as <- <-).
      + eapply ke_kept_out; [apply ke_kx|done|done|exact H|]. unfold on_server_kx, inappropriate_hs, refuse. rets.
      + injection H as <- <-. split; [done|]. by intros st' [= <-].
    - eapply ke_kept_out; [apply ke_kx|done|done|exact H|]. unfold on_server_kx, inappropriate_hs, refuse. rets.
    - assert (forall tr', on_server_done E cr sr tr' suite cert kx None m x = (x', o) -> kept_out x' o) as HS.
      { intros tr' H'. apply done_switches in H' as [HK' Hst]; [|done..]. split; [done|]. intros st' ->. by destruct (Hst _ eq_refl) as [[? ->] ?]. }
      destruct m as [|h| |]; try (by eapply HS). destruct h; try (by eapply HS). injection H as <- <-. split; [done|]. by intros st' [= <-].
    - apply done_switches in H as [HK' Hst]; [|done..]. split; [done|]. intros st' ->. by destruct (Hst _ eq_refl) as [[? ->] ?].
    - destruct m; try (by injection H as <- <-).
      eapply (ke_kept_out true); [|done|done|exact H|].
      + apply ke_bind; [apply ke_aligned|intros _]. apply ke_bind; [by apply ke_modify|intros _]. apply ke_ret.
      + rets.
    - destruct m as [|h| |]; try (by injection H as <- <-). destruct h; try (by injection H as <- <-). cbv zeta in H.
      eapply (ke_kept_out true); [|done|done|exact H|].
      + apply ke_bind; [apply ke_aligned|intros _]. apply ke_bind; [apply ke_gets|intros log]. apply ke_bind; [by apply ke_emit|intros _].
        destruct (b_sf E log); [|apply ke_fail]. destruct (negb _); [apply ke_refuse|]. apply ke_bind; [apply start_traffic_ke|intros _]. apply ke_ret.
      + unfold refuse. rets.
    - destruct m; try (by injection H as <- <-). injection H as <- <-. split; [by eapply (K_same x)|]. by intros st' [= <-].
  Qed.
  Lemma process_main_out st m x x' o : encst st x -> K x -> process_main E st m x = (x', o) -> kept_out x' o.
  Proof.
    intros He HK H. unfold process_main, sgets in H. unfold sbind at 1 in H. destruct (_ && _).
    - eapply ke_kept_out; [|exact He|done|exact H|].
      + apply ke_bind; [apply ke_warning|intros _]. apply ke_ret.
      + apply rets_bind. intros _. apply rets_ret. done.
    - apply scatch_inv in H as [(a & H & ->)|[(e & x1 & H1 & H)|[H ->]]].
      + by eapply handle_out.
      + apply handle_out in H1 as [HK1 _]; [|done..]. destruct e; try (injection H as <- <-; by split);
          (split; [by eapply (ke_refuse (x_enc x1))|]); intros st' ->; unfold refuse in H;
          apply sbind_inv in H as [(? & ? & _ & H)|[(? & _ & ?)|[_ ?]]]; done.
      + apply handle_out in H as [HK1 _]; [|done..]. by split.
  Qed.
  Lemma process_frames_out fs st x x' o : encst st x -> K x -> process_frames E fs st x = (x', o) -> kept_out x' o.
  Proof.
    revert st x. induction fs as [|[v h] fs IH]; intros st x He HK H; cbn [process_frames] in H.
    - injection H as <- <-. split; [done|]. by intros st' [= <-].
    - unfold smodify in H. unfold sbind at 1 in H. set (x0 := set_joiner _ _) in H.
      assert (K x0) as HK0 by (by eapply (K_same x)). assert (encst st x0) as He0 by done. clearbody x0.
      apply sbind_inv in H as [(st1 & x1 & H1 & H)|[(e & H & ->)|[H ->]]].
      + apply process_main_out in H1 as [HK1 Hst]; [|done..]. eapply IH; [by apply Hst|done|exact H].
      + by eapply process_main_out.
      + by eapply process_main_out.
  Qed.
  Lemma process_plain_out r st x x' o : encst st x -> K x -> process_plain E r st x = (x', o) -> kept_out x' o.
  Proof.
    intros He HK H. destruct (decide (m_typ r = Handshake)) as [Ht|Ht].
    - unfold process_plain in H. rewrite Ht in H. unfold sgets in H. unfold sbind at 1 in H.
      destruct (take_message _ _ r) as [[n j]|]; [|by injection H as <- <-].
      unfold smodify in H. unfold sbind at 1 in H. destruct n as [n|].
      + unfold sbind at 1 in H. eapply process_frames_out; [| |exact H]; [done|by eapply (K_same x)].
      + eapply (ke_kept_out (x_enc x)); [apply ke_refuse| | |exact H|]; [done|by eapply (K_same x)|]. unfold refuse. rets.
    - unfold process_plain in H.
      assert (match message_payload_new (body_read E) (m_typ r) (m_version r) (m_payload r) with
            | None => sfail ECore
            | Some (MPAlert level desc) => do! _ := process_alert E level desc in sret st
            | Some p => process_main E st p
            end x = (x', o)) as H' by (destruct (m_typ r); try exact H; done). clear H.
      destruct (message_payload_new _ _ _ _) as [[lv ds|h| |p]|]; try (by eapply process_main_out); [|by injection H' as <- <-].
      eapply ke_kept_out; [|exact He|done|exact H'|].
      + apply ke_bind; [|intros _; apply ke_ret]. unfold process_alert. apply ke_bind; [destruct (_ || _); [apply ke_ret|apply ke_fatal]|].
        intros _. destruct (ds =? 0)%N; [by apply ke_modify|]. destruct (lv =? 1)%N; [apply ke_ret|apply ke_fail].
      + apply rets_bind. intros _. apply rets_ret. done.
  Qed.
  Lemma process_record_out m st x x' o : encst st x -> K x -> process_record E m st x = (x', o) -> kept_out x' o.
  Proof.
    intros He HK H. unfold process_record, sgets in H. unfold sbind at 1 in H. destruct (x_dec x).
    - unfold emit, smodify in H. unfold sbind at 1 in H. unfold sbind at 1 in H. set (x0 := set_log _ _) in H.
      assert (K x0) as HK0 by (by apply K_emit). assert (encst st x0) as He0 by done.
      apply sbind_inv in H as [([] & x1 & H1 & H)|[(e & H & ->)|[H ->]]].
      + apply passed_ok in H1 as (o' & H1 & _ & _). assert (x1 = x0) as ->. { unfold require in H1. destruct (b_push_in E _); by injection H1 as <- _. }
        injection H as <- <-. split; [done|]. by intros st' [= <-].
      + apply passed_ok in H as (o' & H & _ & _). assert (x' = x0) as ->. { unfold require in H. destruct (b_push_in E _); by injection H as <- _. } by split.
      + apply passed_ok in H as (o' & H & _ & _). assert (x' = x0) as ->. { unfold require in H. destruct (b_push_in E _); by injection H as <- _. } by split.
    - unfold emit, smodify in H. unfold sbind at 1 in H. apply kept_ok in H as (o' & H & _ & Ho).
      apply process_plain_out in H as [HK' Hst]; [|done|by apply K_emit]. split; [done|]. intros st' ->. apply Hst. by apply Ho.
  Qed.
  Lemma process_records_out ms st x x' o : encst st x -> K x -> process_records E ms st x = (x', o) -> kept_out x' o.
  Proof.
    revert st x. induction ms as [|m ms IH]; intros st x He HK H; cbn [process_records] in H.
    - injection H as <- <-. split; [done|]. by intros st' [= <-].
    - unfold smodify in H. unfold sbind at 1 in H.
      apply sbind_inv in H as [(st1 & x1 & H1 & H)|[(e & H & ->)|[H ->]]].
      + apply process_record_out in H1 as [HK1 Hst]; [|done|by eapply (K_same x)]. eapply IH; [by apply Hst|done|exact H].
      + eapply process_record_out; [| |exact H]; [done|by eapply (K_same x)].
      + eapply process_record_out; [| |exact H]; [done|by eapply (K_same x)].
  Qed.
  Lemma process_decrypted_out ms st x x' o : encst st x -> K x -> process_decrypted E ms st x = (x', o) -> kept_out x' o.
  Proof.
    revert st x. induction ms as [|m ms IH]; intros st x He HK H; cbn [process_decrypted] in H.
    - injection H as <- <-. split; [done|]. by intros st' [= <-].
    - unfold emit, smodify in H. unfold sbind at 1 in H. unfold sbind at 1 in H. set (x0 := set_log _ _) in H.
      assert (K x0) as HK0. { apply K_emit; [done|]. by eapply (K_same x). } assert (encst st x0) as He0 by done.
      apply sbind_inv in H as [(st1 & x1 & H1 & H)|[(e & H & ->)|[H ->]]].
      + apply kept_ok in H1 as (o' & H1 & _ & Ho). apply process_plain_out in H1 as [HK1 Hst]; [|done..]. eapply IH; [apply Hst; by apply Ho|done|exact H].
      + apply kept_ok in H as (o' & H & _ & _). apply process_plain_out in H as [HK1 _]; [|done..]. by split.
      + apply kept_ok in H as (o' & H & _ & _). apply process_plain_out in H as [HK1 _]; [|done..]. by split.
  Qed.
  Lemma queue_encrypted_ke b ms : ke b (queue_encrypted ms).
  Proof.
    induction ms as [|m ms IH]; cbn [queue_encrypted]; [apply ke_ret|].
    apply ke_bind; [by apply ke_modify|intros _]. apply ke_bind; [by apply ke_emit|intros _].
    apply ke_bind; [by apply ke_modify|intros _]. done.
  Qed.
  Lemma backend_flush_ke b : ke b (backend_flush E).
  Proof.
    unfold backend_flush. apply ke_bind; [by apply ke_emit|intros _]. apply ke_bind; [apply ke_gets|intros log].
    destruct (b_flush E log) as [[ins outs]|]; [by apply ke_modify|apply ke_fail].
  Qed.
  Lemma process_body_out st x x' o : (x_may_send x = true -> x_enc x = true) -> encst st x -> K x -> process_body E st x = (x', o) -> kept_out x' o.
  Proof.
    intros Hm He HK H. unfold process_body, sgets in H. unfold sbind at 1 in H. destruct (df_desynced _); [by injection H as <- <-|].
    apply sbind_inv in H as [([] & x1 & H1 & H)|[(e & H & ->)|[H ->]]].
    2, 3: apply passed_ok in H as (o' & H & _ & _); eapply flush_plaintext_ke in H as [HK1 _]; [|exact Hm|done|done]; by split.
    apply passed_ok in H1 as (o' & H1 & _ & _). eapply flush_plaintext_ke in H1 as [HK1 He1]; [|exact Hm|done|done].
    assert (encst st x1) as He1' by (unfold encst in *; congruence). clear He1 HK Hm.
    apply sbind_inv in H as [(st2 & x2 & H2 & H)|[(e & H & ->)|[H ->]]].
    2, 3: by eapply process_records_out.
    apply process_records_out in H2 as [HK2 Hst2]; [|done..]. specialize (Hst2 _ eq_refl).
    apply sbind_inv in H as [([] & x3 & H3 & H)|[(e & H & ->)|[H ->]]].
    2, 3: apply passed_ok in H as (? & H & _ & _); eapply backend_flush_ke in H as [HK3 _]; [|done|done]; by split.
    apply passed_ok in H3 as (? & H3 & _ & _). eapply backend_flush_ke in H3 as [HK3 He3]; [|done|done].
    assert (encst st2 x3) as Hst3 by (unfold encst in *; congruence).
    unfold sbind at 1 in H.
    apply sbind_inv in H as [(st4 & x4 & H4 & H)|[(e & H & ->)|[H ->]]].
    2, 3: by eapply process_decrypted_out.
    apply process_decrypted_out in H4 as [HK4 Hst4]; [|done..]. specialize (Hst4 _ eq_refl). unfold sbind at 1 in H.
    apply sbind_inv in H as [([] & x5 & H5 & H)|[(e & H & ->)|[H ->]]].
    2, 3: apply passed_ok in H as (? & H & _ & _); eapply queue_encrypted_ke in H as [HK5 _]; [|done|done]; by split.
    apply passed_ok in H5 as (? & H5 & _ & _). eapply queue_encrypted_ke in H5 as [HK5 He5]; [|done|done].
    injection H as <- <-. split; [done|]. intros st' [= <-]. unfold encst in *; congruence.
  Qed.
  Definition out_conn (c : conn) : Prop := K (c_x c) /\ match c_state c with inr st => encst st (c_x c) | inl _ => True end.
  Lemma out_ke c (m : cm unit) x' o : out_conn c -> (forall b, ke b m) -> m (c_x c) = (x', o) -> out_conn (Conn (c_state c) x').
  Proof.
    intros [HK He] Hm H. apply (Hm (x_enc (c_x c))) in H as [HK' He']; [|done..]. split; [done|]. cbn [c_state c_x].
    destruct (c_state c); [done|]. unfold encst in *. congruence.
  Qed.
  Lemma step_out c k c' o : good_conn E c -> out_conn c -> step E c k = (c', o) -> out_conn c'.
  Proof.
    intros HG HO H. assert (forall m : cm unit, (forall b, ke b m) -> on_x c m = (c', o) -> out_conn c') as HX.
    { intros m Hm H'. unfold on_x in H'. destruct (m (c_x c)) as [x' o'] eqn:Em. injection H' as <- <-. by eapply out_ke. }
    destruct k; cbn [step] in H.
    - unfold start in H. destruct HO as [HK He]. destruct (c_state c) as [e|st] eqn:Ec; [injection H as <- <-; split; [done|by rewrite Ec]|].
      destruct st; try (injection H as <- <-; by split).
      destruct (start_handshake E (c_x c)) as [x' o'] eqn:Es.
      assert (kept_out x' o') as [HK' Hst].
      { eapply ke_kept_out; [apply ke_start|exact He|done|exact Es|]. unfold start_handshake. rets. }
      destruct o' as [st'|e|]; injection H as <- <-; [|by split..]. split; [done|]. by apply Hst.
    - eapply HX; [|exact H]. intros b. apply ke_bind; [apply ke_gets|intros df]. destruct (df_read df chunk); [|apply ke_fail].
      apply ke_bind; [by apply ke_modify|intros _]. by apply ke_emit.
    - unfold process_new_packets in H. destruct HO as [HK He]. destruct (c_state c) as [e|st] eqn:Ec; [injection H as <- <-; split; [done|by rewrite Ec]|].
      destruct (process_body E st (c_x c)) as [x' o'] eqn:Es.
      assert (x_may_send (c_x c) = true -> x_enc (c_x c) = true) as Hm.
      { unfold good_conn in HG. rewrite Ec in HG. destruct HG as [[HI _] _]. intros Hm.
        destruct st; simpl in HI; try (destruct HI as [[(_ & _ & Hm' & _) _] _]; by rewrite Hm in Hm').
        - destruct HI as [(_ & _ & Hm' & _) _]. by rewrite Hm in Hm'.
        - by destruct HI as (_ & _ & ? & _). }
      apply process_body_out in Es as [HK' Hst]; [|done..].
      destruct o' as [st'|[keep e]|]; injection H as <- <-; [|by split..]. split; [done|]. by apply Hst.
    - eapply HX; [|exact H]. intros b. apply ke_bind; [apply ke_gets|intros cs]. destruct (cvb_write n cs).
      apply ke_bind; [by apply ke_modify|intros _]. by apply ke_emit.
    - eapply HX; [|exact H]. intros b. destruct p; [apply ke_ret|]. apply ke_bind; [apply ke_gets|intros cs]. destruct (cvb_append_limited _ _).
      apply ke_bind; [by apply ke_modify|intros _]. by apply ke_emit.
    - eapply HX; [|exact H]. intros b. apply ke_bind; [apply ke_gets|intros cs]. destruct (cvb_read n cs).
      apply ke_bind; [by apply ke_modify|intros _]. by apply ke_emit.
    - eapply HX; [|exact H]. intros b. apply ke_warning.
    - eapply HX; [|exact H]. intros b. apply ke_bind; [by apply ke_emit|intros _]. apply ke_bind; [apply ke_gets|intros log]. apply ke_require.
  Qed.
End Client.
