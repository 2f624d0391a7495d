(** What running the TLS client never takes back. *)
From Verif.Lib Require Import Base.
From Verif Require Import ProofModel CodecModel CodecSpec CodecLemmas FramingLemmas TlsModel HandshakeModel
  AttestModel SigAlgModel SigAlgSpec RecordModel ClientModel ClientSpec SigAlgLemmas ClientLemmas ClientData.

Definition up (x x' : cx) : Prop :=
  (x_may_send x = true -> x_may_send x' = true) /\ (x_may_recv x = true -> x_may_recv x' = true) /\
  (x_close x = true -> x_close x' = true) /\ (x_received x <> [] -> x_received x' <> []).
Lemma up_refl x : up x x. Proof. by split_and!. Qed.
Lemma up_trans x y z : up x y -> up y z -> up x z.
Proof. intros (A1 & A2 & A3 & A4) (B1 & B2 & B3 & B4). split_and!; auto. Qed.
Definition mn {Er A} (m : stm cx Er A) : Prop := forall x x' o, m x = (x', o) -> up x x'.
Lemma mn_ret {Er A} (a : A) : mn (Er:=Er) (sret a). Proof. intros x x' o [= <- _]. apply up_refl. Qed.
Lemma mn_fail {Er A} (e : Er) : mn (A:=A) (sfail e). Proof. intros x x' o [= <- _]. apply up_refl. Qed.
Lemma mn_lift {Er A} (a : outcome Er A) : mn (slift a). Proof. intros x x' o [= <- _]. apply up_refl. Qed.
Lemma mn_gets {Er A} (f : cx -> A) : mn (Er:=Er) (sgets f). Proof. intros x x' o [= <- _]. apply up_refl. Qed.
Lemma mn_modify {Er} f : (forall x, up x (f x)) -> mn (Er:=Er) (smodify f). Proof. intros H x x' o [= <- _]. apply H. Qed.
Lemma mn_emit {Er} e : mn (Er:=Er) (emit e). Proof. intros x x' o [= <- _]. by split_and!. Qed.
Lemma mn_require c e : mn (require c e). Proof. destruct c; [apply mn_ret|apply mn_fail]. Qed.
Lemma mn_bind {Er A B} (m : stm cx Er A) (k : A -> stm cx Er B) : mn m -> (forall a, mn (k a)) -> mn (sbind m k).
Proof.
  intros Hm Hk x x' o H. apply sbind_inv in H as [(a & x1 & H1 & H)|[(e & H & ?)|[H _]]]; [|by eapply Hm..].
  eapply up_trans; [by eapply Hm|by eapply Hk].
Qed.
Lemma mn_catch {Er F A} (m : stm cx Er A) (h : Er -> stm cx F A) : mn m -> (forall e, mn (h e)) -> mn (scatch m h).
Proof.
  intros Hm Hh x x' o H. apply scatch_inv in H as [(a & H & ?)|[(e & x1 & H1 & H)|[H _]]]; [by eapply Hm| |by eapply Hm].
  eapply up_trans; [by eapply Hm|by eapply Hh].
Qed.
Lemma mn_sfor {A} (l : list A) f : (forall a, mn (f a)) -> mn (sfor l f).
Proof. intros Hf. induction l as [|a l IH]; cbn [sfor]; [apply mn_ret|]. apply mn_bind; [apply Hf|]. by intros _. Qed.
Lemma mn_passed {A} (m : cm A) : mn m -> mn (passed m). Proof. intros H. apply mn_catch; [done|]. intros e. apply mn_fail. Qed.
Lemma mn_kept {A} (m : cm A) : mn m -> mn (kept m). Proof. intros H. apply mn_catch; [done|]. intros e. apply mn_fail. Qed.

Section Client.
  Context (E : env).
  Ltac mn0 := repeat first
    [ apply mn_ret | apply mn_fail | apply mn_lift | apply mn_gets | apply mn_require | apply mn_emit | apply mn_modify; intros ?; by split_and!
    | apply mn_bind; [|intros ?] | case_match ].
  Lemma mn_push m : mn (push_out E m). Proof. unfold push_out. mn0. Qed.
  Lemma mn_queue m : mn (queue m). Proof. unfold queue. mn0. Qed.
  Lemma mn_send m b : mn (send_msg E m b).
  Proof. unfold send_msg. apply mn_bind; [apply mn_lift|intros ms]. destruct b; apply mn_sfor; [apply mn_push|]. intros m'. apply mn_bind; [apply mn_emit|intros _]. apply mn_queue. Qed.
  Lemma mn_fatal d : mn (send_fatal E d).
  Proof.
    unfold send_fatal. apply mn_bind; [apply mn_gets|intros sent]. destruct (_ && _); [apply mn_lift|]. apply mn_bind; [apply mn_gets|intros enc].
    apply mn_bind; [apply mn_send|intros _]. mn0.
  Qed.
  Lemma mn_warning d : mn (send_warning E d).
  Proof. unfold send_warning. apply mn_bind; [apply mn_gets|intros enc]. apply mn_send. Qed.
  Lemma mn_refuse {A} d e : mn (A:=A) (refuse E d e).
  Proof. apply mn_bind; [apply mn_fatal|]. intros _. apply mn_fail. Qed.
  Lemma mn_aligned : mn (check_aligned E).
  Proof. apply mn_bind; [apply mn_gets|]. intros []; [apply mn_ret|apply mn_refuse]. Qed.
  Lemma mn_emit_hs tr h b : mn (emit_hs E tr h b).
  Proof. apply mn_bind; [apply mn_send|]. intros _. apply mn_ret. Qed.
  Lemma mn_alpn p : mn (process_alpn E p).
  Proof. apply mn_bind; [mn0|]. intros _. destruct p as [p|]; [|apply mn_ret]. case_bool_decide; [apply mn_ret|apply mn_refuse]. Qed.
  Ltac mn := repeat first
    [ apply mn_ret | apply mn_fail | apply mn_lift | apply mn_gets | apply mn_require | apply mn_refuse | apply mn_modify; intros ?; by split_and! | apply mn_emit
    | apply mn_aligned | apply mn_emit_hs | apply mn_alpn | apply mn_warning | apply mn_fatal | apply mn_send | apply mn_queue
    | apply mn_bind; [|intros ?] | case_match ].
  Lemma mn_start : mn (start_handshake E). Proof. unfold start_handshake. mn. Qed.
  Lemma mn_hello random sent tr h : mn (on_server_hello E random sent tr h). Proof. unfold on_server_hello. mn. Qed.
  Lemma mn_kx cr sr tr suite cert m : mn (on_server_kx E cr sr tr suite cert m). Proof. unfold on_server_kx, inappropriate_hs. mn. Qed.
  Lemma mn_certverify tr scheme sign : mn (emit_certverify E tr scheme sign). Proof. unfold emit_certverify. mn. Qed.
  Lemma mn_done cr sr tr suite cert kx auth m : mn (on_server_done E cr sr tr suite cert kx auth m).
  Proof.
    unfold on_server_done, inappropriate_hs.
    destruct m as [|h| |]; try apply mn_fail. destruct h; try apply mn_fail. cbv zeta.
    apply mn_bind; [apply mn_aligned|intros _].
    destruct (sc_chain cert) as [|leaf inter]; [mn|].
    apply mn_bind; [apply mn_gets|intros log].
    destruct (negb _); [apply mn_refuse|]. destruct (negb _); [apply mn_fail|].
    destruct (verify_struct _ _ _ _ _) eqn:Hv; [|mn..].
    apply mn_bind; [destruct auth; [apply mn_emit_hs|apply mn_ret]|intros tr1].
    destruct (decode_params _) as [[group key]|]; [|apply mn_refuse].
    apply mn_bind; [apply mn_gets|intros log1].
    destruct (b_key_share E log1) as [[mg mk]|]; [|apply mn_fail].
    apply mn_bind; [apply mn_emit|intros _].
    destruct (negb _); [apply mn_fail|].
    apply mn_bind; [apply mn_emit_hs|intros tr2].
    apply mn_bind; [destruct auth as [[]|]; [apply mn_ret|apply mn_certverify|apply mn_ret]|intros tr3].
    mn.
  Qed.
  Lemma mn_flush_chunks cs : mn (flush_chunks E cs).
  Proof. induction cs as [|c cs IH]; cbn [flush_chunks]; [apply mn_ret|]. apply mn_bind; [mn|intros _]. apply mn_bind; [apply mn_send|by intros _]. Qed.
  Lemma mn_flush : mn (flush_plaintext E).
  Proof. unfold flush_plaintext. apply mn_bind; [apply mn_gets|intros may]. destruct (negb may); [apply mn_ret|]. apply mn_bind; [apply mn_gets|intros cs]. apply mn_flush_chunks. Qed.
  Lemma mn_start_traffic : mn (start_traffic E).
  Proof.
    unfold start_traffic. apply mn_bind; [mn|intros _]. apply mn_bind; [apply mn_emit|intros _]. apply mn_bind; [apply mn_gets|intros log].
    apply mn_bind; [apply mn_require|intros _]. apply mn_bind; [mn|intros _]. apply mn_flush.
  Qed.
  Lemma mn_handle st m : mn (handle E st m).
  Proof.
    destruct st; cbn [handle]; unfold inappropriate_hs.
    - mn.
    - destruct m as [|h| |]; try apply mn_fail. destruct h; try apply mn_fail. apply mn_hello.
    - mn.
    - destruct m as [|h| |]; try apply mn_fail. destruct h; try apply mn_fail; [apply mn_kx|apply mn_ret].
    - apply mn_kx.
    - destruct m as [|h| |]; try apply mn_done. destruct h; try apply mn_done. apply mn_ret.
    - apply mn_done.
    - mn.
    - destruct m as [|h| |]; try apply mn_fail. destruct h; try apply mn_fail. cbv zeta.
      apply mn_bind; [apply mn_aligned|intros _]. apply mn_bind; [apply mn_gets|intros log]. apply mn_bind; [apply mn_emit|intros _].
      destruct (b_sf E log); [|apply mn_fail]. destruct (negb _); [apply mn_refuse|]. apply mn_bind; [apply mn_start_traffic|intros _]. apply mn_ret.
    - destruct m as [|h| |p]; try apply mn_fail. apply mn_bind; [|intros _; apply mn_ret]. apply mn_modify. intros x. split_and!; try done.
      cbn. unfold cvb_append. intros Hx. case_match; [done|]. by destruct (x_received x).
  Qed.
  Lemma mn_main st m : mn (process_main E st m).
  Proof.
    unfold process_main. apply mn_bind; [apply mn_gets|intros may]. destruct (_ && _).
    - apply mn_bind; [apply mn_warning|intros _]. apply mn_ret.
    - apply mn_catch; [apply mn_handle|]. intros e. destruct e; first [apply mn_refuse|apply mn_fail].
  Qed.
  Lemma mn_frames fs st : mn (process_frames E fs st).
  Proof. revert st. induction fs as [|[v h] fs IH]; intros st; cbn [process_frames]; [apply mn_ret|]. apply mn_bind; [mn|intros _]. apply mn_bind; [apply mn_main|done]. Qed.
  Lemma mn_alert lv ds : mn (process_alert E lv ds).
  Proof. unfold process_alert. mn. Qed.
  Lemma mn_plain m st : mn (process_plain E m st).
  Proof.
    unfold process_plain.
    assert (mn match message_payload_new (body_read E) (m_typ m) (m_version m) (m_payload m) with
            | None => sfail ECore
            | Some (MPAlert level desc) => do! _ := process_alert E level desc in sret st
            | Some p => process_main E st p
            end) as HO.
    { destruct (message_payload_new _ _ _ _) as [[lv ds|h| |p]|]; try apply mn_fail; try apply mn_main. apply mn_bind; [apply mn_alert|intros _; apply mn_ret]. }
    destruct (m_typ m); try done. apply mn_bind; [apply mn_gets|intros j].
    destruct (take_message _ j m) as [[r j']|]; [|mn].
    apply mn_bind; [mn|intros _]. destruct r; [|apply mn_refuse]. apply mn_bind; [mn|intros _]. apply mn_frames.
  Qed.
  Lemma mn_record m st : mn (process_record E m st).
  Proof.
    unfold process_record. apply mn_bind; [apply mn_gets|intros dec]. destruct dec.
    - apply mn_bind; [apply mn_emit|intros _]. apply mn_bind; [apply mn_gets|intros log].
      apply mn_bind; [apply mn_passed, mn_require|intros _]. apply mn_ret.
    - apply mn_bind; [apply mn_emit|intros _]. apply mn_kept, mn_plain.
  Qed.
  Lemma mn_records ms st : mn (process_records E ms st).
  Proof. revert st. induction ms as [|m ms IH]; intros st; cbn [process_records]; [apply mn_ret|]. apply mn_bind; [mn|intros _]. apply mn_bind; [apply mn_record|done]. Qed.
  Lemma mn_decrypted ms st : mn (process_decrypted E ms st).
  Proof.
    revert st. induction ms as [|m ms IH]; intros st; cbn [process_decrypted]; [apply mn_ret|]. apply mn_bind; [mn|intros _]. apply mn_bind; [apply mn_emit|intros _].
    apply mn_bind; [apply mn_kept, mn_plain|done].
  Qed.
  Lemma mn_queue_encrypted ms : mn (queue_encrypted ms).
  Proof. induction ms as [|m ms IH]; cbn [queue_encrypted]; [apply mn_ret|]. repeat (apply mn_bind; [mn|intros _]). done. Qed.
  Lemma mn_body st : mn (process_body E st).
  Proof.
    unfold process_body. apply mn_bind; [apply mn_gets|intros df]. destruct (df_desynced df); [apply mn_fail|].
    apply mn_bind; [apply mn_passed, mn_flush|intros _]. apply mn_bind; [apply mn_records|]. intros st2.
    apply mn_bind; [apply mn_passed; unfold backend_flush; mn|]. intros _. apply mn_bind; [apply mn_gets|intros ms]. apply mn_bind; [apply mn_decrypted|]. intros st3.
    apply mn_bind; [apply mn_gets|intros ms']. apply mn_bind; [apply mn_passed, mn_queue_encrypted|intros _]. apply mn_ret.
  Qed.
  (** Calls other than [CallRead]. *)
  Lemma step_up c k c' o : (forall n, k <> CallRead n) -> step E c k = (c', o) -> up (c_x c) (c_x c').
  Proof.
    assert (forall (m : cm unit), mn m -> on_x c m = (c', o) -> up (c_x c) (c_x c')) as HX.
    { intros m Hm. unfold on_x. destruct (m (c_x c)) as [x' o'] eqn:Em. intros [= <- <-]. by eapply Hm. }
    intros Hk H. destruct k; cbn [step] in H; try (by destruct (Hk n)).
    - unfold start in H. destruct (c_state c) as [e|st]; [injection H as <- <-; apply up_refl|].
      destruct st; try (injection H as <- <-; apply up_refl). destruct (start_handshake E (c_x c)) as [x' o'] eqn:Es. apply mn_start in Es.
      by destruct o'; injection H as <- <-.
    - eapply HX; [|exact H]. mn.
    - unfold process_new_packets in H. destruct (c_state c) as [e|st]; [injection H as <- <-; apply up_refl|].
      destruct (process_body E st (c_x c)) as [x' o'] eqn:Es. apply mn_body in Es. by destruct o' as [|[]|]; injection H as <- <-.
    - eapply HX; [|exact H]. mn.
    - eapply HX; [|exact H]. destruct p; mn.
    - eapply HX; [|exact H]. apply mn_warning.
    - eapply HX; [|exact H]. mn.
  Qed.
  Lemma run_up ks c c' os : (forall n, CallRead n ∉ ks) -> run E c ks = (c', os) -> up (c_x c) (c_x c').
  Proof.
    revert c os. induction ks as [|k ks IH]; intros c os Hk H; cbn [run] in H; [injection H as <- <-; apply up_refl|].
    assert (forall n, k <> CallRead n) as Hk1. { intros n ->. destruct (Hk n). by left. }
    assert (forall n, CallRead n ∉ ks) as Hk2. { intros n Hn. destruct (Hk n). by right. }
    destruct (step E c k) as [c1 o] eqn:Es. apply step_up in Es; [|done].
    destruct o; [| |by injection H as <- <-]; (destruct (run E c1 ks) as [c2 os2] eqn:Er; injection H as <- <-; eapply up_trans; [exact Es|by eapply IH]).
  Qed.
End Client.
