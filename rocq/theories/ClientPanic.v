(** The TLS client does not panic. *)
From Verif.Lib Require Import Base.
From Verif Require Import ProofModel CodecModel CodecSpec CodecLemmas FramingLemmas TlsModel HandshakeModel
  AttestModel SigAlgModel SigAlgSpec RecordModel ClientModel ClientSpec SigAlgLemmas ClientLemmas ClientData.

Definition np {Er A} (m : stm cx Er A) : Prop := forall x, snd (m x) <> Panic.
Lemma np_ret {Er A} (a : A) : np (Er:=Er) (sret a). Proof. done. Qed.
Lemma np_fail {Er A} (e : Er) : np (A:=A) (sfail e). Proof. done. Qed.
Lemma np_gets {Er A} (f : cx -> A) : np (Er:=Er) (sgets f). Proof. done. Qed.
Lemma np_modify {Er} f : np (Er:=Er) (smodify f). Proof. done. Qed.
Lemma np_emit {Er} e : np (Er:=Er) (emit e). Proof. done. Qed.
Lemma np_require c e : np (require c e). Proof. by destruct c. Qed.
Lemma np_bind {Er A B} (m : stm cx Er A) (k : A -> stm cx Er B) : np m -> (forall a, np (k a)) -> np (sbind m k).
Proof.
  intros Hm Hk x H. destruct (sbind m k x) as [x' o] eqn:Hb. simpl in H. subst o.
  apply sbind_inv in Hb as [(a & x1 & H1 & H)|[(e & H & ?)|[H _]]]; [|done|].
  - apply (Hk a x1). by rewrite H.
  - apply (Hm x). by rewrite H.
Qed.
Lemma np_catch {Er F A} (m : stm cx Er A) (h : Er -> stm cx F A) : np m -> (forall e, np (h e)) -> np (scatch m h).
Proof.
  intros Hm Hh x H. destruct (scatch m h x) as [x' o] eqn:Hb. simpl in H. subst o.
  apply scatch_inv in Hb as [(a & H & ?)|[(e & x1 & H1 & H)|[H _]]]; [done| |].
  - apply (Hh e x1). by rewrite H.
  - apply (Hm x). by rewrite H.
Qed.
Lemma np_sfor {A} (l : list A) f : (forall a, np (f a)) -> np (sfor l f).
Proof. intros Hf. induction l as [|a l IH]; cbn [sfor]; [apply np_ret|]. apply np_bind; [apply Hf|]. by intros _. Qed.

Lemma j_loop_fuel {B} (br : protocol_version -> N -> bytes -> option B) fuel v j n : length (j_buf j) < fuel -> j_loop br fuel v j n <> None.
Proof.
  revert j n. induction fuel as [|fuel IH]; intros j n Hf; [lia|]. cbn [j_loop]. destruct (buf_contains_message (j_buf j)); try done.
  unfold deframe_one. destruct (hs_read br v (j_buf j)) as [[b l]|] eqn:Hr; [|done].
  apply IH. cbn [j_buf]. rewrite drop_length.
  assert (length l + 4 <= length (j_buf j)); [|lia]. clear IH Hf. unfold hs_read in Hr.
  destruct (read_uint 1 (j_buf j)) as [[typ l1]|] eqn:H1; [|done]. apply read_uint_Some in H1 as (b1 & -> & Hb1 & _).
  destruct (read_uint 3 l1) as [[len l2]|] eqn:H2; [|done]. apply read_uint_Some in H2 as (b2 & -> & Hb2 & _).
  destruct (take_bytes (N.to_nat len) l2) as [[sub l3]|] eqn:H3; [|done]. apply take_bytes_Some in H3 as [-> _].
  destruct (br v typ sub); [|done]. injection Hr as _ <-. rewrite !app_length. lia.
Qed.
Lemma take_message_ends {B} (br : protocol_version -> N -> bytes -> option B) j m : take_message br j m <> None.
Proof. unfold take_message. apply j_loop_fuel. simpl. lia. Qed.
Section Client.
  Context (E : env) (Hfrag : (0 < e_frag E)%N) (Hdebug : e_debug E = false).

  Lemma np_push m : np (push_out E m).
  Proof.
    unfold push_out. apply np_bind; [apply np_gets|intros enc]. rewrite Hdebug. cbn [andb].
    apply np_bind; [apply np_emit|intros _]. apply np_bind; [apply np_gets|intros log]. apply np_require.
  Qed.
  Lemma np_send m b : np (send_msg E m b).
  Proof.
    unfold send_msg. apply np_bind.
    - intros x. unfold slift. simpl. unfold fragment, lift_panic. destruct (_ <=? _)%N; [done|]. unfold chunks.
      destruct (Nat.eqb_spec (N.to_nat (e_frag E)) 0); [lia|]. done.
    - intros ms. destruct b; apply np_sfor; [apply np_push|]. intros m'. apply np_bind; [apply np_emit|intros _]. apply np_modify.
  Qed.
  Lemma np_fatal d : np (send_fatal E d).
  Proof.
    unfold send_fatal. apply np_bind; [apply np_gets|intros sent]. rewrite Hdebug. cbn [andb]. apply np_bind; [apply np_gets|intros enc].
    apply np_bind; [apply np_send|intros _]. apply np_modify.
  Qed.
  Lemma np_warning d : np (send_warning E d).
  Proof. unfold send_warning. apply np_bind; [apply np_gets|intros enc]. apply np_send. Qed.
  Lemma np_refuse {A} d e : np (A:=A) (refuse E d e).
  Proof. apply np_bind; [apply np_fatal|]. intros _. apply np_fail. Qed.
  Lemma np_aligned : np (check_aligned E).
  Proof. apply np_bind; [apply np_gets|]. intros []; [apply np_ret|apply np_refuse]. Qed.
  Lemma np_emit_hs tr h b : np (emit_hs E tr h b).
  Proof. apply np_bind; [apply np_send|]. intros _. apply np_ret. Qed.
  Lemma np_alpn p : np (process_alpn E p).
  Proof. apply np_bind; [apply np_modify|]. intros _. destruct p as [p|]; [|apply np_ret]. case_bool_decide; [apply np_ret|apply np_refuse]. Qed.
  Ltac np := repeat first
    [ apply np_ret | apply np_fail | apply np_gets | apply np_require | apply np_refuse | apply np_modify | apply np_emit
    | apply np_aligned | apply np_emit_hs | apply np_alpn | apply np_warning | apply np_fatal | apply np_send
    | apply np_bind; [|intros ?] | case_match ].
  Lemma np_start : np (start_handshake E).
  Proof. unfold start_handshake. np. Qed.
  Lemma np_hello random sent tr h : np (on_server_hello E random sent tr h).
  Proof. unfold on_server_hello. np. Qed.
  Lemma unwrap_np p : unwrap_ecdhe p <> Panic.
  Proof.
    unfold unwrap_ecdhe, whole, rd_ecdhe, rd_signed, rd_int, rd_pay, opt_err, obind. repeat (case_match; simplify_eq/=; try done).
  Qed.
  Lemma np_kx cr sr tr suite cert m : np (on_server_kx E cr sr tr suite cert m).
  Proof.
    unfold on_server_kx, inappropriate_hs. destruct m as [|h| |]; try apply np_fail. destruct h; try apply np_fail.
    destruct (unwrap_ecdhe _) eqn:Hu; [apply np_ret|apply np_refuse|by apply unwrap_np in Hu].
  Qed.
  Lemma np_certverify tr scheme sign : np (emit_certverify E tr scheme sign).
  Proof. unfold emit_certverify. np. Qed.
  Lemma verify_struct_np msg cert d : verify_struct (e_cert_key E) (e_sig_valid E) msg cert d <> Panic.
  Proof.
    unfold verify_struct, opt_err, obind. repeat (case_match; simplify_eq/=; try done). by eapply verify_any_no_panic in H.
  Qed.
  Lemma np_done cr sr tr suite cert kx auth m : np (on_server_done E cr sr tr suite cert kx auth m).
  Proof.
    unfold on_server_done, inappropriate_hs.
    destruct m as [|h| |]; try apply np_fail. destruct h; try apply np_fail. cbv zeta.
    apply np_bind; [apply np_aligned|intros _].
    destruct (sc_chain cert) as [|leaf inter]; [apply np_fail|].
    apply np_bind; [apply np_gets|intros log].
    destruct (negb _); [apply np_refuse|]. destruct (negb _); [apply np_fail|].
    destruct (verify_struct _ _ _ _ _) eqn:Hv; [|apply np_refuse|by apply verify_struct_np in Hv].
    apply np_bind; [destruct auth; [apply np_emit_hs|apply np_ret]|intros tr1].
    destruct (decode_params _) as [[group key]|]; [|apply np_refuse].
    apply np_bind; [apply np_gets|intros log1].
    destruct (b_key_share E log1) as [[mg mk]|]; [|apply np_fail].
    apply np_bind; [apply np_emit|intros _].
    destruct (negb _); [apply np_fail|].
    apply np_bind; [apply np_emit_hs|intros tr2].
    apply np_bind; [destruct auth as [[]|]; [apply np_ret|apply np_certverify|apply np_ret]|intros tr3].
    np.
  Qed.
  Lemma np_flush_chunks cs : np (flush_chunks E cs).
  Proof. induction cs as [|c cs IH]; cbn [flush_chunks]; [apply np_ret|]. apply np_bind; [apply np_modify|intros _]. apply np_bind; [apply np_send|by intros _]. Qed.
  Lemma np_flush : np (flush_plaintext E).
  Proof. unfold flush_plaintext. apply np_bind; [apply np_gets|intros may]. destruct (negb may); [apply np_ret|]. apply np_bind; [apply np_gets|intros cs]. apply np_flush_chunks. Qed.
  Lemma np_start_traffic : np (start_traffic E).
  Proof.
    unfold start_traffic. apply np_bind; [apply np_modify|intros _]. apply np_bind; [apply np_emit|intros _]. apply np_bind; [apply np_gets|intros log].
    apply np_bind; [apply np_require|intros _]. apply np_bind; [apply np_modify|intros _]. apply np_flush.
  Qed.
  Definition begun (st : cstate) : Prop := st <> CsInit.
  Ltac rets := repeat first
    [ apply rets_ret; done | apply rets_fail | apply rets_panic | apply rets_bind; intros ? | case_match ].
  Lemma np_handle st m : begun st -> np (handle E st m).
  Proof.
    intros Hb. destruct st; cbn [handle]; try done; unfold inappropriate_hs.
    - destruct m as [|h| |]; try apply np_fail. destruct h; try apply np_fail. apply np_hello.
    - destruct m as [|h| |]; try apply np_fail. destruct h; try apply np_fail. apply np_ret.
    - destruct m as [|h| |]; try apply np_fail. destruct h; try apply np_fail; [apply np_kx|apply np_ret].
    - apply np_kx.
    - destruct m as [|h| |]; try apply np_done. destruct h; try apply np_done. apply np_ret.
    - apply np_done.
    - destruct m as [|h| |]; np.
    - destruct m as [|h| |]; try apply np_fail. destruct h; try apply np_fail. cbv zeta.
      apply np_bind; [apply np_aligned|intros _]. apply np_bind; [apply np_gets|intros log]. apply np_bind; [apply np_emit|intros _].
      destruct (b_sf E log); [|apply np_fail]. destruct (negb _); [apply np_refuse|]. apply np_bind; [apply np_start_traffic|intros _]. apply np_ret.
    - destruct m as [|h| |]; np.
  Qed.
  Lemma handle_begun st m : begun st -> rets begun (handle E st m).
  Proof.
    unfold begun. intros Hb. destruct st; cbn [handle]; try done; unfold inappropriate_hs, on_server_hello, on_server_kx, on_server_done, inappropriate_hs, refuse; rets.
  Qed.
  Lemma np_main st m : begun st -> np (process_main E st m).
  Proof.
    intros Hb. unfold process_main. apply np_bind; [apply np_gets|intros may]. destruct (_ && _).
    - apply np_bind; [apply np_warning|intros _]. apply np_ret.
    - apply np_catch; [by apply np_handle|]. intros e. destruct e; first [apply np_refuse|apply np_fail].
  Qed.
  Lemma main_begun st m : begun st -> rets begun (process_main E st m).
  Proof.
    intros Hb. unfold process_main. apply rets_bind. intros may. destruct (_ && _).
    - apply rets_bind. intros _. by apply rets_ret.
    - intros x x' st' H. apply scatch_inv in H as [(a & H & [= ->])|[(e & x1 & H1 & H)|[H ?]]]; [by eapply handle_begun| |done].
      exfalso. destruct e; try done; unfold refuse in H; apply sbind_inv in H as [(? & ? & _ & H)|[(? & _ & ?)|[_ ?]]]; done.
  Qed.
  (** Sequences that pass on a state. *)
  Definition good {Er} (m : stm cx Er cstate) : Prop := np m /\ forall x x' st, m x = (x', Ok st) -> begun st.
  Lemma good_bind {Er A} (m : stm cx Er A) k : np m -> (forall a, good (k a)) -> good (sbind m k).
  Proof.
    intros Hm Hk. split; [apply np_bind; [done|]; intros a; by apply Hk|]. intros x x' st H.
    apply sbind_inv in H as [(a & x1 & H1 & H)|[(e & H & ?)|[H ?]]]; try done. by eapply Hk.
  Qed.
  Lemma good_then {Er} (m : stm cx Er cstate) k : good m -> (forall st, begun st -> good (k st)) -> good (sbind m k).
  Proof.
    intros [Hm Hb] Hk. split.
    - intros x H. destruct (sbind m k x) as [x' o] eqn:Hs. simpl in H. subst o.
      apply sbind_inv in Hs as [(a & x1 & H1 & H)|[(e & H & ?)|[H _]]]; [|done|].
      + apply Hb in H1. apply (Hk a H1) with x1. by rewrite H.
      + apply (Hm x). by rewrite H.
    - intros x x' st H. apply sbind_inv in H as [(a & x1 & H1 & H)|[(e & H & ?)|[H ?]]]; try done.
      apply Hb in H1. by apply (Hk a H1) in H.
  Qed.
  Lemma good_ret {Er} st : begun st -> good (Er:=Er) (sret st).
  Proof. intros H. split; [apply np_ret|]. by intros x x' st' [= _ <-]. Qed.
  Lemma good_fail {Er} e : good (Er:=Er) (sfail e). Proof. split; [apply np_fail|done]. Qed.
  Lemma good_refuse d e : good (refuse E d e).
  Proof. split; [apply np_refuse|]. intros x x' st H. unfold refuse in H; apply sbind_inv in H as [(? & ? & _ & H)|[(? & _ & ?)|[_ ?]]]; done. Qed.
  Lemma good_frames fs st : begun st -> good (process_frames E fs st).
  Proof.
    revert st. induction fs as [|[v h] fs IH]; intros st Hb; cbn [process_frames]; [by apply good_ret|].
    apply good_bind; [apply np_modify|intros _]. apply good_then; [|done]. split; [by apply np_main|by apply main_begun].
  Qed.
  Lemma good_plain m st : begun st -> good (process_plain E m st).
  Proof.
    intros Hb. unfold process_plain.
    assert (good match message_payload_new (body_read E) (m_typ m) (m_version m) (m_payload m) with
            | None => sfail ECore
            | Some (MPAlert level desc) => do! _ := process_alert E level desc in sret st
            | Some p => process_main E st p
            end) as HO.
    { destruct (message_payload_new _ _ _ _) as [[lv ds|h| |p]|]; try (by apply good_fail); try (split; [by apply np_main|by apply main_begun]).
      apply good_bind; [|intros _; by apply good_ret]. unfold process_alert. apply np_bind; [destruct (_ || _); [apply np_ret|apply np_fatal]|].
      intros _. destruct (ds =? 0)%N; [apply np_modify|]. destruct (lv =? 1)%N; [apply np_ret|apply np_fail]. }
    destruct (m_typ m); try done. apply good_bind; [apply np_gets|intros j].
    destruct (take_message _ j m) as [[r j']|] eqn:Ht; [|by apply take_message_ends in Ht].
    apply good_bind; [apply np_modify|intros _]. destruct r; [|apply good_refuse].
    apply good_bind; [apply np_modify|intros _]. by apply good_frames.
  Qed.
  Lemma good_kept m : good m -> good (kept m).
  Proof.
    intros [H1 H2]. split; [apply np_catch; [done|]; intros e; apply np_fail|]. intros x x' st H.
    apply scatch_inv in H as [(a & H & [= ->])|[(e & x1 & _ & H)|[H ?]]]; try done. by eapply H2.
  Qed.
  Lemma np_passed {A} (m : cm A) : np m -> np (passed m).
  Proof. intros H. apply np_catch; [done|]. intros e. apply np_fail. Qed.
  Lemma good_record m st : begun st -> good (process_record E m st).
  Proof.
    intros Hb. unfold process_record. apply good_bind; [apply np_gets|intros dec]. destruct dec.
    - apply good_bind; [apply np_emit|intros _]. apply good_bind; [apply np_gets|intros log].
      apply good_bind; [apply np_passed, np_require|intros _]. by apply good_ret.
    - apply good_bind; [apply np_emit|intros _]. by apply good_kept, good_plain.
  Qed.
  Lemma good_records ms st : begun st -> good (process_records E ms st).
  Proof.
    revert st. induction ms as [|m ms IH]; intros st Hb; cbn [process_records]; [by apply good_ret|].
    apply good_bind; [apply np_modify|intros _]. apply good_then; [by apply good_record|done].
  Qed.
  Lemma good_decrypted ms st : begun st -> good (process_decrypted E ms st).
  Proof.
    revert st. induction ms as [|m ms IH]; intros st Hb; cbn [process_decrypted]; [by apply good_ret|].
    apply good_bind; [apply np_modify|intros _]. apply good_bind; [apply np_emit|intros _]. apply good_then; [by apply good_kept, good_plain|done].
  Qed.
  Lemma np_queue_encrypted ms : np (queue_encrypted ms).
  Proof. induction ms as [|m ms IH]; cbn [queue_encrypted]; [apply np_ret|]. do 3 (apply np_bind; [first [apply np_modify|apply np_emit]|intros _]). done. Qed.
  Lemma good_body st : begun st -> good (process_body E st).
  Proof.
    intros Hb. unfold process_body. apply good_bind; [apply np_gets|intros df]. destruct (df_desynced df); [apply good_fail|].
    apply good_bind; [apply np_passed, np_flush|intros _]. apply good_then; [by apply good_records|]. intros st2 Hb2.
    apply good_bind.
    { apply np_passed. unfold backend_flush. apply np_bind; [apply np_emit|intros _]. apply np_bind; [apply np_gets|intros log].
      destruct (b_flush E log) as [[ins outs]|]; [apply np_modify|apply np_fail]. }
    intros _. apply good_bind; [apply np_gets|intros ms]. apply good_then; [by apply good_decrypted|]. intros st3 Hb3.
    apply good_bind; [apply np_gets|intros ms']. apply good_bind; [apply np_passed, np_queue_encrypted|intros _]. by apply good_ret.
  Qed.

  Definition begun_conn (c : conn) : Prop := match c_state c with inr st => begun st | inl _ => True end.
  Lemma np_on_x c (m : cm unit) c' o : np m -> begun_conn c -> on_x c m = (c', o) -> begun_conn c' /\ o <> Panic.
  Proof.
    intros Hm Hb H. unfold on_x in H. destruct (m (c_x c)) as [x' o'] eqn:Em. injection H as <- <-. split; [done|].
    intros ->. apply (Hm (c_x c)). by rewrite Em.
  Qed.
  Lemma step_begun c k c' o : begun_conn c -> k <> CallStart -> step E c k = (c', o) -> begun_conn c' /\ o <> Panic.
  Proof.
    intros Hb Hk H. destruct k; cbn [step] in H; try done.
    - eapply np_on_x; [|done|exact H]. apply np_bind; [apply np_gets|intros df]. destruct (df_read df chunk); [|apply np_fail].
      apply np_bind; [apply np_modify|intros _]. apply np_emit.
    - unfold process_new_packets in H. unfold begun_conn in Hb. destruct (c_state c) as [e|st] eqn:Ec.
      + injection H as <- <-. split; [by unfold begun_conn; rewrite Ec|done].
      + destruct (good_body st Hb) as [Hn Hst]. destruct (process_body E st (c_x c)) as [x' o'] eqn:Es.
        destruct o' as [st'|[keep e]|]; injection H as <- <-; [split; [by apply Hst in Es|done]|done|]. exfalso. apply (Hn (c_x c)). by rewrite Es.
    - eapply np_on_x; [|done|exact H]. apply np_bind; [apply np_gets|intros cs]. destruct (cvb_write n cs).
      apply np_bind; [apply np_modify|intros _]. apply np_emit.
    - eapply np_on_x; [|done|exact H]. destruct p; [apply np_ret|]. apply np_bind; [apply np_gets|intros cs]. destruct (cvb_append_limited _ _).
      apply np_bind; [apply np_modify|intros _]. apply np_emit.
    - eapply np_on_x; [|done|exact H]. apply np_bind; [apply np_gets|intros cs]. destruct (cvb_read n cs).
      apply np_bind; [apply np_modify|intros _]. apply np_emit.
    - eapply np_on_x; [|done|exact H]. apply np_warning.
    - eapply np_on_x; [|done|exact H]. apply np_bind; [apply np_emit|intros _]. apply np_bind; [apply np_gets|intros log]. apply np_require.
  Qed.
  Lemma run_begun ks c c' os : begun_conn c -> CallStart ∉ ks -> run E c ks = (c', os) -> Panic ∉ os.
  Proof.
    revert c os. induction ks as [|k ks IH]; intros c os Hb Hk H; cbn [run] in H; [injection H as <- <-; apply not_elem_of_nil|].
    apply not_elem_of_cons in Hk as [Hk1 Hk]. destruct (step E c k) as [c1 o] eqn:Es. apply step_begun in Es as [Hb1 Ho]; [|done..].
    destruct o as [[]|e|]; [| |done]; (destruct (run E c1 ks) as [c2 os2] eqn:Er; injection H as <- <-; apply not_elem_of_cons; split; [done|by eapply IH]).
  Qed.
  Lemma C64_no_panic_lemma ks c os : CallStart ∉ ks -> run E conn_new (CallStart :: ks) = (c, os) -> Panic ∉ os.
  Proof.
    intros Hk H. cbn [run step conn_new start c_state c_x] in H. destruct (start_handshake E cx_new) as [x' o] eqn:Es.
    assert (o <> Panic) as Ho. { intros ->. apply (np_start cx_new). by rewrite Es. }
    assert (forall st, o = Ok st -> begun st) as Hst.
    { intros st ->. assert (rets begun (start_handshake E)) as HR; [|by eapply HR]. unfold begun, start_handshake. rets. }
    destruct o as [st|e|]; [| |done].
    - destruct (run E (Conn (inr st) x') ks) as [c2 os2] eqn:Er. injection H as <- <-. apply not_elem_of_cons. split; [done|].
      eapply run_begun; [|exact Hk|exact Er]. by apply Hst.
    - destruct (run E (Conn (inl e) x') ks) as [c2 os2] eqn:Er. injection H as <- <-. apply not_elem_of_cons. split; [done|].
      by eapply run_begun; [|exact Hk|exact Er].
  Qed.
End Client.
