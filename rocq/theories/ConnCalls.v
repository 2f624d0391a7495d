(** What the calls of the TLS client's user add to its log. *)
From Verif.Lib Require Import Base.
From Verif Require Import ProofModel CodecModel CodecSpec CodecLemmas TlsModel HandshakeModel
  AttestModel SigAlgModel RecordModel ClientModel ClientSpec ClientLemmas ClientInv ClientSteps ClientFlight ClientRun ClientMain
  ClientEffects ClientData ClientOut ClientFinal ClientPanic.

(** Events that none of reading, writing and closing makes. *)
Definition within (e : cev) : Prop :=
  match e with WireIn _ | WireOut _ | Accepted _ | Delivered _ | CloseConnection => False | _ => True end.
Definition grows (x x' : cx) : Prop := exists l, x_log x' = x_log x ++ l /\ Forall within l.
Lemma grows_refl x : grows x x. Proof. exists []. by rewrite app_nil_r. Qed.
Lemma grows_trans x y z : grows x y -> grows y z -> grows x z.
Proof. intros (l & H1 & H2) (l' & H3 & H4). exists (l ++ l'). rewrite H3, H1, app_assoc. split; [done|]. by apply Forall_app. Qed.
Lemma inner_within l : Forall ClientEffects.inner l -> Forall within l.
Proof. intros H. eapply Forall_impl; [exact H|]. by intros []. Qed.
Lemma grows_eff ok x x' : eff ok x x' -> grows x x'.
Proof. intros [(l & El & Hi & _) _ _ _ _ _ _]. exists l. split; [done|]. by apply inner_within. Qed.
Lemma grows_took m ok x x' : took m ok x x' -> grows x x'.
Proof. intros [(l & El & Hi & _) _ _ _ _ _ _]. exists l. split; [done|]. by apply inner_within. Qed.
Lemma grows_emit e x : within e -> grows x (set_log (x_log x ++ [e]) x).
Proof. intros He. exists [e]. split; [done|]. by constructor. Qed.
Lemma grows_set x x' : x_log x' = x_log x -> grows x x'.
Proof. intros H. exists []. by rewrite H, app_nil_r. Qed.

Section Calls.
  Context (E : env).
  Lemma process_records_grows ms st x x' o : process_records E ms st x = (x', o) -> grows x x'.
  Proof.
    revert st x. induction ms as [|m ms IH]; intros st x H; cbn [process_records] in H; [injection H as <- <-; apply grows_refl|].
    unfold smodify in H. unfold sbind in H at 1. set (x0 := set_df _ _) in H. assert (grows x x0) as HF0 by by apply grows_set. clearbody x0.
    eapply grows_trans; [exact HF0|]. clear HF0 x.
    assert (forall x1 o1, process_record E m st x0 = (x1, o1) -> grows x0 x1) as HS.
    { intros x1 o1 H1. unfold process_record, sgets in H1. unfold sbind in H1 at 1.
      destruct (x_dec x0); unfold emit, smodify in H1; unfold sbind in H1 at 1.
      - unfold sbind in H1 at 1. cbn beta iota in H1.
        apply sbind_inv in H1 as [([] & x2 & H2 & H1)|[(e & H1 & ->)|[H1 ->]]].
        + apply passed_ok in H2 as (o' & H2 & _). injection H1 as <- <-.
          unfold require in H2. destruct (b_push_in _ _); injection H2 as <- <-; by apply grows_emit.
        + apply passed_ok in H1 as (o' & H2 & _). unfold require in H2. destruct (b_push_in _ _); injection H2 as <- <-; by apply grows_emit.
        + apply passed_ok in H1 as (o' & H2 & _). unfold require in H2. destruct (b_push_in _ _); injection H2 as <- <-; by apply grows_emit.
      - apply kept_ok in H1 as (o' & H1 & _). apply process_plain_took, grows_took in H1. eapply grows_trans; [|exact H1]. by apply grows_emit. }
    apply sbind_inv in H as [(st1 & x1 & H1 & H)|[(e & H & ->)|[H ->]]]; [|by eapply HS..].
    eapply grows_trans; [by eapply HS|]. by eapply IH.
  Qed.
  Lemma process_decrypted_grows ms st x x' o : process_decrypted E ms st x = (x', o) -> grows x x'.
  Proof.
    revert st x. induction ms as [|m ms IH]; intros st x H; cbn [process_decrypted] in H; [injection H as <- <-; apply grows_refl|].
    unfold emit, smodify in H. unfold sbind in H at 1. unfold sbind in H at 1. set (x0 := set_log _ _) in H.
    assert (grows x x0) as HF0 by by apply (grows_trans _ (set_in ms x)); [apply grows_set|apply grows_emit]. clearbody x0.
    eapply grows_trans; [exact HF0|]. clear HF0 x.
    assert (forall x1 o1, kept (process_plain E m st) x0 = (x1, o1) -> grows x0 x1) as HS.
    { intros x1 o1 H1. apply kept_ok in H1 as (o' & H1 & _). by apply process_plain_took, grows_took in H1. }
    apply sbind_inv in H as [(st1 & x1 & H1 & H)|[(e & H & ->)|[H ->]]]; [|by eapply HS..].
    eapply grows_trans; [by eapply HS|]. by eapply IH.
  Qed.
  Lemma queue_encrypted_grows ms x x' o : queue_encrypted ms x = (x', o) -> grows x x'.
  Proof.
    revert x. induction ms as [|m ms IH]; intros x H; cbn [queue_encrypted] in H; [injection H as <- <-; apply grows_refl|].
    unfold emit, queue, smodify, sbind in H. cbn beta iota in H. apply IH in H. eapply grows_trans; [|exact H].
    exists [Encrypted m]. split; [done|]. by constructor.
  Qed.
  Lemma backend_flush_grows x x' o : backend_flush E x = (x', o) -> grows x x'.
  Proof.
    intros H. unfold backend_flush, emit, smodify, sgets in H. unfold sbind in H at 1. unfold sbind in H at 1. cbn beta iota in H.
    destruct (b_flush E _) as [[ins outs]|]; injection H as <- <-; exists [Flush]; (split; [done|by constructor]).
  Qed.
  Lemma process_body_grows st x x' o : process_body E st x = (x', o) -> grows x x'.
  Proof.
    intros H. unfold process_body, sgets in H. unfold sbind in H at 1.
    destruct (df_desynced (x_df x)); [injection H as <- <-; apply grows_refl|].
    apply sbind_inv in H as [([] & x1 & H1 & H)|[(e & H & ->)|[H ->]]].
    2, 3: apply passed_ok in H as (o' & H & _); apply flush_plaintext_eff in H; by eapply grows_eff.
    apply passed_ok in H1 as (o' & H1 & _). apply flush_plaintext_eff, grows_eff in H1. eapply grows_trans; [exact H1|]. clear H1 o'.
    apply sbind_inv in H as [(st2 & x2 & H1 & H)|[(e & H & ->)|[H ->]]].
    2, 3: by apply process_records_grows in H.
    apply process_records_grows in H1. eapply grows_trans; [exact H1|]. clear dependent x1. clear x.
    apply sbind_inv in H as [([] & x3 & H2 & H)|[(e & H & ->)|[H ->]]].
    2, 3: apply passed_ok in H as (o' & H & _); by apply backend_flush_grows in H.
    apply passed_ok in H2 as (o' & H2 & _). apply backend_flush_grows in H2. eapply grows_trans; [exact H2|]. clear dependent x2. clear o'.
    unfold sbind in H at 1.
    apply sbind_inv in H as [(st4 & x4 & H4 & H)|[(e & H & ->)|[H ->]]].
    2, 3: by apply process_decrypted_grows in H.
    apply process_decrypted_grows in H4. eapply grows_trans; [exact H4|]. clear dependent x3.
    unfold sbind in H at 1.
    apply sbind_inv in H as [([] & x5 & H5 & H)|[(e & H & ->)|[H ->]]].
    - apply passed_ok in H5 as (o' & H5 & _). injection H as <- <-. by apply queue_encrypted_grows in H5.
    - apply passed_ok in H as (o' & H & _). by apply queue_encrypted_grows in H.
    - apply passed_ok in H as (o' & H & _). by apply queue_encrypted_grows in H.
  Qed.

  (** ** The calls *)
  Lemma process_call c c' o : step E c CallProcess = (c', o) -> grows (c_x c) (c_x c').
  Proof.
    cbn [step]. unfold process_new_packets. intros H. destruct (c_state c) as [e|st]; [injection H as <- <-; apply grows_refl|].
    destruct (process_body E st (c_x c)) as [x' o'] eqn:Es. apply process_body_grows in Es.
    by destruct o' as [|[]|]; injection H as <- <-.
  Qed.
  Lemma start_call c c' o : step E c CallStart = (c', o) -> grows (c_x c) (c_x c').
  Proof.
    cbn [step]. unfold start. intros H. destruct (c_state c) as [e|st]; [injection H as <- <-; apply grows_refl|].
    destruct st; try (injection H as <- <-; apply grows_refl).
    destruct (start_handshake E (c_x c)) as [x' o'] eqn:Es. apply effm0_start in Es. apply (eff0_eff true), grows_eff in Es.
    by destruct o'; injection H as <- <-.
  Qed.
  Lemma notify_call c c' o : step E c CallCloseNotify = (c', o) -> grows (c_x c) (c_x c').
  Proof.
    cbn [step]. unfold on_x. intros H. destruct (send_warning E 0 (c_x c)) as [x' o'] eqn:Es. injection H as <- <-.
    by apply effm0_warning, (eff0_eff true), grows_eff in Es.
  Qed.
  Lemma closed_call c c' o : step E c CallServerClosed = (c', o) ->
    c_state c' = c_state c /\ x_log (c_x c') = x_log (c_x c) ++ [CloseConnection] /\
    c_x c' = set_log (x_log (c_x c) ++ [CloseConnection]) (c_x c) /\ o <> Panic.
  Proof.
    cbn [step]. unfold on_x, emit, smodify. intros H. unfold sbind in H at 1. unfold sgets in H at 1. unfold sbind in H at 1. cbn beta iota in H.
    unfold require in H. destruct (b_close _ _); by injection H as <- <-.
  Qed.
  Lemma write_call c p : p <> [] -> step E c (CallWrite p) =
    let n := snd (cvb_append_limited (x_sendable (c_x c)) p) in
    (Conn (c_state c) (set_log (x_log (c_x c) ++ [Accepted (take n p)]) (set_sendable (cvb_append (x_sendable (c_x c)) (take n p)) (c_x c))), Ok tt).
  Proof. by destruct p. Qed.
  Lemma write_tls_call c n : step E c (CallWriteTls n) =
    (Conn (c_state c) (set_log (x_log (c_x c) ++ [WireOut (fst (cvb_write n (x_tls (c_x c))))]) (set_tls (snd (cvb_write n (x_tls (c_x c)))) (c_x c))), Ok tt).
  Proof. done. Qed.
  Lemma read_call c n : step E c (CallRead n) =
    (Conn (c_state c) (set_log (x_log (c_x c) ++ [Delivered (fst (cvb_read n (x_received (c_x c))))]) (set_received (snd (cvb_read n (x_received (c_x c)))) (c_x c))), Ok tt).
  Proof. cbn [step]. unfold on_x, sgets, sbind at 1. by destruct (cvb_read n _). Qed.
  Lemma message_read_shorter l m rest : message_read l = Ok (m, rest) -> length rest < length l.
  Proof.
    intros H. destruct (decide (length l < 5)) as [Hl|Hl]; [by rewrite message_read_short in H|].
    destruct l as [|t [|v1 [|v0 [|n1 [|n0 l]]]]]; try (simpl in Hl; lia).
    clear Hl. rewrite message_read_cons in H. cbv zeta in H. do 4 (case_match; [done|]). clear -H.
    apply obind_Ok in H as ([p l4] & H1 & [= <- <-]). unfold opt_err, take_bytes in H1. destruct (_ <? _) in H1; [done|].
    injection H1 as <- <-. simpl. rewrite drop_length. lia.
  Qed.
  Lemma df_loop_Some f d : length (df_buf d) < f -> is_Some (df_loop f d).
  Proof.
    revert d. induction f as [|f IH]; intros d Hf; [lia|]. cbn [df_loop]. unfold try_deframe_one.
    destruct (message_read (df_buf d)) as [[m rest]|[]|] eqn:Em; try by eexists.
    apply message_read_shorter in Em. apply IH. cbn [df_buf]. rewrite drop_length. lia.
  Qed.
  Lemma df_read_Some d b : (N.of_nat (length (df_buf d) + length b) <= MAX_WIRE_SIZE)%N -> is_Some (df_read d b).
  Proof.
    intros H. unfold df_read. destruct (N.ltb_spec MAX_WIRE_SIZE (N.of_nat (length (df_buf d) + length b))); [lia|].
    apply df_loop_Some. lia.
  Qed.
  Lemma read_tls_call c b : (N.of_nat (length (df_buf (x_df (c_x c))) + length b) <= MAX_WIRE_SIZE)%N -> exists df,
    df_read (x_df (c_x c)) b = Some df /\
    step E c (CallReadTls b) = (Conn (c_state c) (set_log (x_log (c_x c) ++ [WireIn b]) (set_df df (c_x c))), Ok tt).
  Proof.
    intros H. destruct (df_read_Some _ _ H) as [df Hd]. exists df. split; [done|]. cbn [step]. unfold on_x, sgets, sbind at 1. by rewrite Hd.
  Qed.
End Calls.
