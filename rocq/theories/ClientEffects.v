(** What the parts of the TLS client do to its buffers and its log, whatever the state. *)
From Verif.Lib Require Import Base.
From Verif Require Import ProofModel CodecModel CodecSpec CodecLemmas FramingLemmas TlsModel HandshakeModel
  AttestModel SigAlgModel SigAlgSpec RecordModel ClientModel ClientSpec ClientLemmas.

(** Events while a message is handled. *)
Definition inner (e : cev) : Prop :=
  match e with
  | ClearOut _ | PushOut _ | GetRandom _ | GetKeyShare _ _ | Prepare _ _ _ _ _ _ _ _ | ClientVd _ _ | ServerVd _ _ | StartTraffic => True
  | _ => False
  end.
Lemma queued_app l l' : queued (l ++ l') = queued l ++ queued l'. Proof. unfold queued. by rewrite map_app, concat_app. Qed.
Lemma app_sent_app l l' : app_sent (l ++ l') = app_sent l ++ app_sent l'. Proof. log_app. Qed.
Lemma app_received_app l l' : app_received (l ++ l') = app_received l ++ app_received l'. Proof. log_app. Qed.
Lemma accepted_app l l' : accepted (l ++ l') = accepted l ++ accepted l'. Proof. log_app. Qed.
Lemma delivered_app l l' : delivered (l ++ l') = delivered l ++ delivered l'. Proof. log_app. Qed.
Lemma records_in_app l l' : records_in (l ++ l') = records_in l ++ records_in l'. Proof. log_app. Qed.
Lemma records_out_app l l' : records_out (l ++ l') = records_out l ++ records_out l'. Proof. log_app. Qed.
Lemma wire_in_app l l' : wire_in (l ++ l') = wire_in l ++ wire_in l'. Proof. log_app. Qed.
Lemma wire_out_app l l' : wire_out (l ++ l') = wire_out l ++ wire_out l'. Proof. log_app. Qed.

(** Effects: [ok] tells whether the end was reached. *)
Record eff (ok : bool) (x x' : cx) : Prop := Eff {
  eff_log : exists l, x_log x' = x_log x ++ l /\ Forall inner l /\
    concat (x_tls x') = concat (x_tls x) ++ queued l /\
    exists lost, concat (x_sendable x) = app_sent l ++ lost ++ concat (x_sendable x') /\ (ok = true -> lost = []);
  eff_dec : x_dec x' = x_dec x;
  eff_received : x_received x' = x_received x;
  eff_may : x_may_send x = true -> x_may_send x' = true;
  eff_df : x_df x' = x_df x;
  eff_in : x_in x' = x_in x;
  eff_out : x_out x' = x_out x }.
(** Effects that leave the data of the application alone. *)
Record eff0 (x x' : cx) : Prop := Eff0 {
  eff0_log : exists l, x_log x' = x_log x ++ l /\ Forall inner l /\
    concat (x_tls x') = concat (x_tls x) ++ queued l /\ app_sent l = [];
  eff0_sendable : x_sendable x' = x_sendable x;
  eff0_received : x_received x' = x_received x;
  eff0_dec : x_dec x' = x_dec x;
  eff0_may : x_may_send x = true -> x_may_send x' = true;
  eff0_df : x_df x' = x_df x;
  eff0_in : x_in x' = x_in x;
  eff0_out : x_out x' = x_out x }.
Definition is_ok {A B} (o : outcome A B) : bool := match o with Ok _ => true | _ => false end.

Lemma eff0_refl x : eff0 x x.
Proof. split; try done. exists []. by rewrite !app_nil_r. Qed.
Lemma eff0_trans x y z : eff0 x y -> eff0 y z -> eff0 x z.
Proof.
  intros [(l1 & E1 & I1 & T1 & A1) S1 R1 C1 M1 D1 N1 O1] [(l2 & E2 & I2 & T2 & A2) S2 R2 C2 M2 D2 N2 O2].
  split; try congruence; try tauto.
  exists (l1 ++ l2). split_and!; [by rewrite E2, E1, app_assoc|by apply Forall_app|by rewrite T2, T1, queued_app, app_assoc|].
  by rewrite app_sent_app, A1, A2.
Qed.
Lemma eff0_eff ok x x' : eff0 x x' -> eff ok x x'.
Proof.
  intros [(l1 & E1 & I1 & T1 & A1) S1 R1 C1 M1 D1 N1 O1]. split; try done. exists l1. split_and!; try done.
  exists []. by rewrite A1, S1.
Qed.
Lemma eff_trans ok x y z : eff true x y -> eff ok y z -> eff ok x z.
Proof.
  intros [(l1 & E1 & I1 & T1 & lo1 & A1 & Hl1) C1 R1 M1 D1 N1 O1] [(l2 & E2 & I2 & T2 & lo2 & A2 & Hl2) C2 R2 M2 D2 N2 O2].
  rewrite (Hl1 eq_refl) in A1.
  split; try congruence; try tauto. exists (l1 ++ l2).
  split_and!; [by rewrite E2, E1, app_assoc|by apply Forall_app|by rewrite T2, T1, queued_app, app_assoc|].
  exists lo2. split; [|done]. by rewrite A1, A2, app_sent_app, <- app_assoc.
Qed.
Lemma eff_eff0 x y z ok : eff ok x y -> eff0 y z -> eff ok x z.
Proof.
  intros [(l1 & E1 & I1 & T1 & lo1 & A1 & Hl1) C1 R1 M1 D1 N1 O1] [(l2 & E2 & I2 & T2 & A2) S2 R2 C2 M2 D2 N2 O2].
  split; try congruence; try tauto. exists (l1 ++ l2).
  split_and!; [by rewrite E2, E1, app_assoc|by apply Forall_app|by rewrite T2, T1, queued_app, app_assoc|].
  exists lo1. split; [|done]. by rewrite S2, app_sent_app, A2, app_nil_r.
Qed.
Lemma eff_weaken x x' ok : eff true x x' -> eff ok x x'.
Proof.
  intros [(l1 & E1 & I1 & T1 & lo1 & A1 & Hl1) C1 R1 M1 D1 N1 O1]. split; try done. exists l1. split_and!; try done.
  exists lo1. split; [done|]. intros _. by apply Hl1.
Qed.

Definition effm {A} (m : cm A) : Prop := forall x x' o, m x = (x', o) -> eff (is_ok o) x x'.
Definition effm0 {A} (m : cm A) : Prop := forall x x' o, m x = (x', o) -> eff0 x x'.

Lemma effm0_ret {A} (a : A) : effm0 (sret a). Proof. intros x x' o [= <- <-]. apply eff0_refl. Qed.
Lemma effm0_fail {A} e : effm0 (A:=A) (sfail e). Proof. intros x x' o [= <- <-]. apply eff0_refl. Qed.
Lemma effm0_lift {A} (o : outcome cl_error A) : effm0 (slift o). Proof. intros x x' o' [= <- <-]. apply eff0_refl. Qed.
Lemma effm0_gets {A} (f : cx -> A) : effm0 (sgets f). Proof. intros x x' o [= <- <-]. apply eff0_refl. Qed.
Lemma effm0_require b e : effm0 (require b e). Proof. destruct b; [apply effm0_ret|apply effm0_fail]. Qed.
Lemma effm0_bind {A B} (m : cm A) (k : A -> cm B) : effm0 m -> (forall a, effm0 (k a)) -> effm0 (sbind m k).
Proof.
  intros Hm Hk x x' o H. apply sbind_inv in H as [(a & x1 & H1 & H)|[(e & H & ->)|[H ->]]]; [|by eapply Hm..].
  eapply eff0_trans; [by eapply Hm|by eapply Hk].
Qed.
Lemma effm_bind {A B} (m : cm A) (k : A -> cm B) : effm m -> (forall a, effm (k a)) -> effm (sbind m k).
Proof.
  intros Hm Hk x x' o H. apply sbind_inv in H as [(a & x1 & H1 & H)|[(e & H & ->)|[H ->]]].
  - eapply eff_trans; [exact (Hm _ _ _ H1)|by eapply Hk].
  - exact (Hm _ _ _ H).
  - exact (Hm _ _ _ H).
Qed.
Lemma effm0_effm {A} (m : cm A) : effm0 m -> effm m.
Proof. intros H x x' o Hm. apply eff0_eff. by eapply H. Qed.
Lemma eff0_set f x : (forall x, x_log (f x) = x_log x /\ x_tls (f x) = x_tls x /\ x_sendable (f x) = x_sendable x /\ x_received (f x) = x_received x /\
   x_dec (f x) = x_dec x /\ (x_may_send x = true -> x_may_send (f x) = true) /\ x_df (f x) = x_df x /\ x_in (f x) = x_in x /\ x_out (f x) = x_out x) -> eff0 x (f x).
Proof.
  intros Hf. destruct (Hf x) as (H1 & H2 & H3 & H4 & H5 & H5' & H6 & H7 & H8). split; try done.
  exists []. rewrite H1, H2, !app_nil_r. done.
Qed.
Lemma effm0_modify f : (forall x, x_log (f x) = x_log x /\ x_tls (f x) = x_tls x /\ x_sendable (f x) = x_sendable x /\ x_received (f x) = x_received x /\
   x_dec (f x) = x_dec x /\ (x_may_send x = true -> x_may_send (f x) = true) /\ x_df (f x) = x_df x /\ x_in (f x) = x_in x /\ x_out (f x) = x_out x) -> effm0 (smodify f).
Proof. intros Hf x x' o [= <- <-]. by apply eff0_set. Qed.
Lemma effm0_emit e : inner e -> queued [e] = [] -> app_sent [e] = [] -> effm0 (emit e).
Proof.
  intros H1 H2 H3 x x' o [= <- <-]. split; try done. exists [e]. rewrite H2, H3, !app_nil_r. split_and!; try done. by constructor.
Qed.
Lemma effm0_sfor {A} (l : list A) f : (forall a, a ∈ l -> effm0 (f a)) -> effm0 (sfor l f).
Proof.
  induction l as [|a l IH]; intros H; cbn [sfor]; [apply effm0_ret|]. apply effm0_bind; [apply H; by left|].
  intros _. apply IH. intros b Hb. apply H. by right.
Qed.

Section Client.
  Context (E : env).

  Lemma app_part_not m : m_typ m <> ApplicationData -> app_part m = [].
  Proof. unfold app_part. intros H. by case_bool_decide. Qed.
  Lemma effm0_push_out m : m_typ m <> ApplicationData -> effm0 (push_out E m).
  Proof.
    intros Ht. apply effm0_bind; [apply effm0_gets|]. intros enc. destruct (_ && _); [apply effm0_lift|].
    apply effm0_bind; [apply effm0_emit; [done|done|]|].
    - unfold app_sent. simpl. by rewrite app_part_not.
    - intros _. apply effm0_bind; [apply effm0_gets|]. intros log. apply effm0_require.
  Qed.
  Lemma concat_cvb_append cs b : concat (cvb_append cs b) = concat cs ++ b.
  Proof. unfold cvb_append. destruct b; [by rewrite app_nil_r|]. by rewrite concat_app; simpl; rewrite app_nil_r. Qed.
  Lemma effm0_clear m : effm0 (do! _ := emit (ClearOut m) in queue m).
  Proof.
    intros x x' o [= <- <-]. split; try done. exists [ClearOut m]. split_and!; try done; [by constructor|].
    change (concat (cvb_append (x_tls x) (message_encode m)) = concat (x_tls x) ++ queued [ClearOut m]). rewrite concat_cvb_append. unfold queued. cbn. by rewrite app_nil_r.
  Qed.
  Lemma effm0_send m b : m_typ m <> ApplicationData -> effm0 (send_msg E m b).
  Proof.
    intros Ht x x' o H. unfold send_msg in H. apply sbind_inv in H as [(ms & x1 & H1 & H)|[(e & H & ->)|[H ->]]];
      [|injection H as <- _; apply eff0_refl..].
    unfold slift, lift_panic in H1. injection H1 as <- H1. destruct (fragment (e_frag E) m) as [fs|[]|] eqn:Ef; try done.
    injection H1 as <-. apply fragment_inv in Ef as [_ Hts].
    destruct b; (eapply effm0_sfor; [|exact H]); intros f Hf; [|apply effm0_clear]. apply effm0_push_out.
    eapply Forall_forall in Hts; [|exact Hf]. by rewrite Hts.
  Qed.
  Lemma effm0_fatal d : effm0 (send_fatal E d).
  Proof.
    apply effm0_bind; [apply effm0_gets|]. intros sent. destruct (_ && _); [apply effm0_lift|].
    apply effm0_bind; [apply effm0_gets|]. intros enc. apply effm0_bind; [by apply effm0_send|].
    intros _. by apply effm0_modify.
  Qed.
  Lemma effm0_warning d : effm0 (send_warning E d).
  Proof. apply effm0_bind; [apply effm0_gets|]. intros enc. by apply effm0_send. Qed.
  Lemma effm0_refuse {A} d e : effm0 (A:=A) (refuse E d e).
  Proof. apply effm0_bind; [apply effm0_fatal|]. intros _. apply effm0_fail. Qed.
  Lemma effm0_aligned : effm0 (check_aligned E).
  Proof. apply effm0_bind; [apply effm0_gets|]. intros []; [apply effm0_ret|apply effm0_refuse]. Qed.
  Lemma effm0_emit_hs tr h b : effm0 (emit_hs E tr h b).
  Proof. apply effm0_bind; [by apply effm0_send|]. intros _. apply effm0_ret. Qed.
  Lemma effm0_alpn p : effm0 (process_alpn E p).
  Proof.
    apply effm0_bind; [by apply effm0_modify|]. intros _. destruct p as [p|]; [|apply effm0_ret].
    case_bool_decide; [apply effm0_ret|apply effm0_refuse].
  Qed.
  Ltac eff0 := repeat first
    [ apply effm0_ret | apply effm0_fail | apply effm0_lift | apply effm0_gets | apply effm0_require | apply effm0_refuse
    | apply effm0_aligned | apply effm0_emit_hs | apply effm0_alpn | apply effm0_warning | apply effm0_fatal
    | apply effm0_emit; done | apply effm0_modify; done | apply effm0_send; done
    | apply effm0_bind; [|intros ?] | case_match ].
  Lemma effm0_start : effm0 (start_handshake E).
  Proof. unfold start_handshake. eff0. Qed.
  Lemma effm0_hello random sent tr h : effm0 (on_server_hello E random sent tr h).
  Proof. unfold on_server_hello. eff0. Qed.
  Lemma effm0_kx cr sr tr suite cert m : effm0 (on_server_kx E cr sr tr suite cert m).
  Proof. unfold on_server_kx, inappropriate_hs. eff0. Qed.
  Lemma effm0_certverify tr scheme sign : effm0 (emit_certverify E tr scheme sign).
  Proof. unfold emit_certverify. eff0. Qed.
  Lemma effm0_done cr sr tr suite cert kx auth m : effm0 (on_server_done E cr sr tr suite cert kx auth m).
  Proof. unfold on_server_done, inappropriate_hs. repeat (eff0; try apply effm0_certverify). Qed.

  (** ** Data of the application are sent *)
  Lemma effm_flush_chunks cs x x' o : x_sendable x = cs -> flush_chunks E cs x = (x', o) ->
    eff (is_ok o) x x' /\ (is_ok o = true -> x_sendable x' = []).
  Proof.
    revert x. induction cs as [|c cs IH]; intros x Hc H; cbn [flush_chunks] in H; [injection H as <- <-; split; [apply eff0_eff, eff0_refl|done]|].
    unfold smodify in H at 1. unfold sbind in H at 1. set (x0 := set_sendable cs x) in *.
    assert (forall x1 o1, send_msg E (Message ApplicationData TLSv1_2 c) true x0 = (x1, o1) ->
      eff (is_ok o1) x x1 /\ x_sendable x1 = cs) as HS.
    { intros x1 o1 H1. pose proof H1 as H2. apply send_push in H1 as (S & Es & ms & El & Ht & (lost & Hlost) & Hok).
      destruct S as ((_ & _ & Hdf & Hin) & _ & Hdec & Hmay & _ & Hr). split; [|done].
      assert (x_out x1 = x_out x /\ x_tls x1 = x_tls x) as [Ho Htl].
      { unfold send_msg in H2. apply sbind_inv in H2 as [(fs & y & H3 & H2)|[(e & H2 & _)|[H2 _]]];
          [injection H3 as <- _|by injection H2 as <- _..]. clear -H2. change (x_out x) with (x_out x0). change (x_tls x) with (x_tls x0).
        revert H2. generalize x0 as y. induction fs as [|f fs IHf]; intros y H; cbn [sfor] in H; [by injection H as <- <-|].
        assert (forall y1 o, push_out E f y = (y1, o) -> x_out y1 = x_out y /\ x_tls y1 = x_tls y) as HP.
        { intros y1 o2 H3. unfold push_out, sgets in H3. unfold sbind in H3 at 1. destruct (_ && _); [by injection H3 as <- <-|].
          unfold emit, smodify, sbind, require in H3. destruct (b_push_out E _); by injection H3 as <- <-. }
        apply sbind_inv in H as [([] & y1 & H3 & H)|[(e & H & _)|[H _]]].
        - apply HP in H3 as [Ha Hb]. rewrite <- Ha, <- Hb. by apply IHf.
        - by apply HP in H.
        - by apply HP in H. }
      assert (app_sent (map PushOut ms) = concat (map m_payload ms)) as Ea.
      { unfold app_sent. rewrite map_map. f_equal. apply map_ext_Forall. eapply Forall_impl; [exact Ht|]. intros m Hm. simpl in Hm.
        unfold app_part. by rewrite Hm. }
      split; try done; [|intros ?; by rewrite Hmay]. exists (map PushOut ms). split; [done|]. split; [apply Forall_map; by apply Forall_true|]. split.
      - rewrite Htl. assert (queued (map PushOut ms) = []) as ->; [|by rewrite app_nil_r].
        apply concat_nil, Forall_map. by apply Forall_true.
      - exists lost. rewrite Es, Hc, Ea. simpl. simpl in Hlost. rewrite <- Hlost. split; [by rewrite <- app_assoc|].
        intros Hok'. destruct o1 as [[]| |]; try done. rewrite (Hok eq_refl) in Hlost.
        apply (f_equal length) in Hlost. rewrite app_length in Hlost. by destruct lost; simpl in *; [|lia]. }
    apply sbind_inv in H as [([] & x1 & H1 & H)|[(e & H & ->)|[H ->]]].
    - apply HS in H1 as (F1 & E1). apply IH in H as (F2 & S2); [|done]. split; [by eapply eff_trans|done].
    - by apply HS in H as (F1 & E1).
    - by apply HS in H as (F1 & E1).
  Qed.
End Client.
