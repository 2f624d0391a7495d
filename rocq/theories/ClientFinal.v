(** Histories of the TLS client: what the theorems need. *)
From Verif.Lib Require Import Base.
From Verif Require Import ProofModel CodecModel CodecSpec CodecLemmas FramingLemmas TlsModel HandshakeModel
  AttestModel SigAlgModel SigAlgSpec RecordModel ClientModel ClientSpec ClientLemmas ClientInv ClientSteps
  ClientFlight ClientRun ClientMain ClientEffects ClientData ClientOut.

Lemma decrypted_app l l' : decrypted (l ++ l') = decrypted l ++ decrypted l'. Proof. unfold decrypted. by rewrite map_app, concat_app. Qed.
Lemma encrypted_app l l' : encrypted (l ++ l') = encrypted l ++ encrypted l'. Proof. unfold encrypted. by rewrite map_app, concat_app. Qed.
Lemma flushed_app E p l l' : flushed E p (l ++ l') = flushed E p l ++ flushed E (p ++ l) l'.
Proof.
  revert p. induction l as [|e l IH]; intros p; cbn [flushed app]; [by rewrite app_nil_r|].
  cbv zeta. rewrite IH, <- !app_assoc. done.
Qed.
Lemma flushed_none E p l : Flush ∉ l -> flushed E p l = [].
Proof.
  revert p. induction l as [|e l IH]; intros p H; cbn [flushed]; [done|]. apply not_elem_of_cons in H as [H1 H2]. cbv zeta.
  rewrite IH by done. by destruct e.
Qed.

Section Client.
  Context (E : env).

  (** ** Records of the backend *)
  Definition fetched (x : cx) : Prop :=
    answers_in E (x_log x) = decrypted (x_log x) ++ x_in x /\ answers_out E (x_log x) = encrypted (x_log x) ++ x_out x.
  Lemma fetched_ext x x' l : fetched x -> x_log x' = x_log x ++ l -> x_in x' = x_in x -> x_out x' = x_out x ->
    Forall (fun e => match e with Flush | Decrypted _ | Encrypted _ => False | _ => True end) l -> fetched x'.
  Proof.
    intros [H1 H2] El Hi Ho Hl. unfold fetched, answers_in, answers_out in *. rewrite El, decrypted_app, encrypted_app, flushed_app, !map_app, !concat_app, H1, H2, Hi, Ho.
    rewrite flushed_none, !app_nil_r.
    2: { intros Hf. rewrite Forall_forall in Hl. by apply Hl in Hf. }
    assert (decrypted l = [] /\ encrypted l = []) as [-> ->]; [|by rewrite !app_nil_r].
    clear -Hl. induction Hl as [|e l He _ [IH1 IH2]]; [done|]. unfold decrypted, encrypted in *. simpl. rewrite IH1, IH2. by destruct e.
  Qed.
  Lemma inner_quiet l : Forall inner l -> Forall (fun e => match e with Flush | Decrypted _ | Encrypted _ => False | _ => True end) l.
  Proof. intros H. eapply Forall_impl; [exact H|]. by intros []. Qed.
  Lemma fetched_took m ok x x' : fetched x -> took m ok x x' -> fetched x'.
  Proof.
    intros HF [(l & El & Hi & _) _ _ _ _ _ HI HO]. eapply fetched_ext; [done|exact El|done|done|]. by apply inner_quiet.
  Qed.
  Lemma fetched_eff ok x x' : fetched x -> eff ok x x' -> fetched x'.
  Proof. intros HF H. destruct H as [(l & El & Hi & _) _ _ _ _ HI HO]. eapply fetched_ext; [done|exact El|done|done|]. by apply inner_quiet. Qed.

  Lemma process_records_fetched ms st x x' o : fetched x -> process_records E ms st x = (x', o) -> fetched x'.
  Proof.
    revert st x. induction ms as [|m ms IH]; intros st x HF H; cbn [process_records] in H; [by injection H as <- <-|].
    unfold smodify in H. unfold sbind in H at 1. set (x0 := set_df _ _) in H. assert (fetched x0) as HF0 by exact HF. clearbody x0. clear HF x.
    assert (forall x1 o1, process_record E m st x0 = (x1, o1) -> fetched x1) as HS.
    { intros x1 o1 H1. unfold process_record, sgets in H1. unfold sbind in H1 at 1.
      assert (forall e, match e with Flush | Decrypted _ | Encrypted _ => False | _ => True end -> fetched (set_log (x_log x0 ++ [e]) x0)) as HE.
      { intros e He. eapply fetched_ext; [exact HF0|done..|by constructor]. }
      destruct (x_dec x0); unfold emit, smodify in H1; unfold sbind in H1 at 1.
      - unfold sbind in H1 at 1. cbn beta iota in H1.
        apply sbind_inv in H1 as [([] & x2 & H2 & H1)|[(e & H1 & ->)|[H1 ->]]].
        + apply passed_ok in H2 as (o' & H2 & _). injection H1 as <- <-.
          unfold require in H2. destruct (b_push_in _ _); injection H2 as <- <-; by apply HE.
        + apply passed_ok in H1 as (o' & H2 & _). unfold require in H2. destruct (b_push_in _ _); injection H2 as <- <-; by apply HE.
        + apply passed_ok in H1 as (o' & H2 & _). unfold require in H2. destruct (b_push_in _ _); injection H2 as <- <-; by apply HE.
      - apply kept_ok in H1 as (o' & H1 & _). apply process_plain_took in H1. eapply fetched_took; [|exact H1]. by apply HE. }
    apply sbind_inv in H as [(st1 & x1 & H1 & H)|[(e & H & ->)|[H ->]]]; [|by eapply HS..].
    eapply IH; [|exact H]. by eapply HS.
  Qed.
  Lemma process_decrypted_fetched ms st x x' o : fetched x -> x_in x = ms -> process_decrypted E ms st x = (x', o) ->
    fetched x' /\ (is_ok o = true -> x_in x' = []).
  Proof.
    revert st x. induction ms as [|m ms IH]; intros st x HF Hi H; cbn [process_decrypted] in H.
    { injection H as <- <-. by split. }
    unfold emit, smodify in H. unfold sbind in H at 1. unfold sbind in H at 1. set (x0 := set_log _ _) in H.
    assert (fetched x0 /\ x_in x0 = ms) as [HF0 Hi0].
    { split; [|done]. destruct HF as [H1 H2]. unfold fetched, answers_in, answers_out in *. cbn [x0 set_log x_log x_in x_out set_in].
      rewrite decrypted_app, encrypted_app, flushed_app, !map_app, !concat_app, H1, H2, flushed_none, Hi by (intros Hf; by apply elem_of_list_singleton in Hf).
      unfold decrypted, encrypted. cbn [map concat fst snd]. split; [|by rewrite !app_nil_r]. simpl. by rewrite !app_nil_r, <- !app_assoc. }
    clearbody x0. clear HF Hi x.
    assert (forall x1 o1, process_plain E m st x0 = (x1, o1) -> fetched x1 /\ x_in x1 = ms) as HS.
    { intros x1 o1 H1. apply process_plain_took in H1. split; [exact (fetched_took _ _ _ _ HF0 H1)|]. rewrite (took_in _ _ _ _ H1). exact Hi0. }
    apply sbind_inv in H as [(st1 & x1 & H1 & H)|[(e & H & ->)|[H ->]]].
    - apply kept_ok in H1 as (o' & H1 & _). apply HS in H1 as [HF1 Hi1]. exact (IH _ _ HF1 Hi1 H).
    - apply kept_ok in H as (o' & H & _). by apply HS in H as [HF1 _].
    - apply kept_ok in H as (o' & H & _). by apply HS in H as [HF1 _].
  Qed.
  Lemma queue_encrypted_fetched ms x x' o : fetched x -> x_out x = ms -> queue_encrypted ms x = (x', o) ->
    fetched x' /\ x_out x' = [] /\ x_in x' = x_in x.
  Proof.
    revert x. induction ms as [|m ms IH]; intros x HF Ho H; cbn [queue_encrypted] in H; [by injection H as <- <-|].
    unfold emit, queue, smodify, sbind in H. cbn beta iota in H. apply IH in H; [done| |done].
    destruct HF as [H1 H2]. unfold fetched, answers_in, answers_out in *. cbn [set_log x_log x_in x_out set_out set_tls].
    rewrite decrypted_app, encrypted_app, flushed_app, !map_app, !concat_app, H1, H2, flushed_none, Ho by (intros Hf; by apply elem_of_list_singleton in Hf).
    unfold decrypted, encrypted. cbn [map concat fst snd]. split; [by rewrite !app_nil_r|]. simpl. by rewrite !app_nil_r, <- !app_assoc.
  Qed.
  Lemma backend_flush_fetched x x' o : fetched x -> backend_flush E x = (x', o) -> fetched x'.
  Proof.
    intros [H1 H2] H. unfold backend_flush, emit, smodify, sgets in H. unfold sbind in H at 1. unfold sbind in H at 1. cbn beta iota in H.
    cbn [x_log set_log] in H. unfold fetched, answers_in, answers_out in *.
    destruct (b_flush E (x_log x ++ [Flush])) as [[ins outs]|] eqn:Ef; injection H as <- <-;
      cbn [set_log x_log x_in x_out set_out set_in];
      rewrite decrypted_app, encrypted_app, flushed_app, !map_app, !concat_app, H1, H2; cbn [flushed app]; rewrite Ef;
      cbn [decrypted encrypted map concat app opt_list id fst snd]; rewrite !app_nil_r; [|done]. by rewrite <- !app_assoc.
  Qed.
  Lemma process_body_fetched st x x' o : fetched x -> process_body E st x = (x', o) ->
    fetched x' /\ (is_ok o = true -> x_in x' = [] /\ x_out x' = []).
  Proof.
    intros HF H. unfold process_body, sgets in H. unfold sbind in H at 1.
    destruct (df_desynced (x_df x)); [by injection H as <- <-|].
    apply sbind_inv in H as [([] & x1 & H1 & H)|[(e & H & ->)|[H ->]]].
    2, 3: apply passed_ok in H as (o' & H & _); apply flush_plaintext_eff in H; split; [by eapply fetched_eff|done].
    apply passed_ok in H1 as (o' & H1 & _). apply flush_plaintext_eff in H1. eapply fetched_eff in HF; [|exact H1]. clear H1 o'.
    apply sbind_inv in H as [(st2 & x2 & H1 & H)|[(e & H & ->)|[H ->]]].
    2, 3: apply process_records_fetched in H; done.
    apply process_records_fetched in H1; [|done]. clear dependent x1. clear x.
    apply sbind_inv in H as [([] & x3 & H2 & H)|[(e & H & ->)|[H ->]]].
    2, 3: apply passed_ok in H as (o' & H & _); apply backend_flush_fetched in H; done.
    apply passed_ok in H2 as (o' & H2 & _). apply backend_flush_fetched in H2; [|done]. clear dependent x2. clear o'.
    unfold sbind in H at 1.
    apply sbind_inv in H as [(st4 & x4 & H4 & H)|[(e & H & ->)|[H ->]]].
    2, 3: by apply process_decrypted_fetched in H as [? _].
    apply process_decrypted_fetched in H4 as [HF4 Hi4]; [|done..]. specialize (Hi4 eq_refl). clear dependent x3.
    unfold sbind in H at 1.
    apply sbind_inv in H as [([] & x5 & H5 & H)|[(e & H & ->)|[H ->]]].
    - apply passed_ok in H5 as (o' & H5 & _). injection H as <- <-. apply queue_encrypted_fetched in H5 as (HF5 & Ho5 & Hi5); [|done..].
      split; [done|]. intros _. by rewrite Hi5.
    - apply passed_ok in H as (o' & H & _). by apply queue_encrypted_fetched in H as (HF5 & _ & _).
    - apply passed_ok in H as (o' & H & _). by apply queue_encrypted_fetched in H as (HF5 & _ & _).
  Qed.
  Lemma step_fetched c k c' o : fetched (c_x c) -> step E c k = (c', o) -> fetched (c_x c').
  Proof.
    intros HF H.
    assert (forall x' e, x_log x' = x_log (c_x c) ++ [e] -> x_in x' = x_in (c_x c) -> x_out x' = x_out (c_x c) ->
      match e with Flush | Decrypted _ | Encrypted _ => False | _ => True end -> fetched x') as HE.
    { intros x' e H1 H2 H3 H4. eapply fetched_ext; [exact HF|done..|by constructor]. }
    destruct k; cbn [step] in H.
    - unfold start in H. destruct (c_state c) as [e|st]; [by injection H as <- <-|]. destruct st; try by injection H as <- <-.
      destruct (start_handshake E (c_x c)) as [x' o'] eqn:Es. apply effm0_start in Es. apply (eff0_eff true), (fetched_eff _ _ _ HF) in Es.
      by destruct o'; injection H as <- <-.
    - unfold on_x in H. unfold sgets in H at 1. unfold sbind in H at 1. destruct (df_read _ _); [|by injection H as <- <-].
      unfold smodify, emit, sbind in H. unfold smodify in H. cbn beta iota in H. injection H as <- <-. by eapply HE.
    - unfold process_new_packets in H. destruct (c_state c) as [e|st]; [by injection H as <- <-|].
      destruct (process_body E st (c_x c)) as [x' o'] eqn:Es. apply process_body_fetched in Es as [Es _]; [|done].
      by destruct o' as [|[]|]; injection H as <- <-.
    - unfold on_x in H. unfold sgets in H at 1. unfold sbind in H at 1. destruct (cvb_write _ _).
      unfold smodify, emit, sbind in H. unfold smodify in H. cbn beta iota in H. injection H as <- <-. by eapply HE.
    - unfold on_x in H. destruct p; [by injection H as <- <-|]. unfold sgets in H at 1. unfold sbind in H at 1. destruct (cvb_append_limited _ _).
      unfold smodify, emit, sbind in H. unfold smodify in H. cbn beta iota in H. injection H as <- <-. by eapply HE.
    - unfold on_x in H. unfold sgets in H at 1. unfold sbind in H at 1. destruct (cvb_read _ _).
      unfold smodify, emit, sbind in H. unfold smodify in H. cbn beta iota in H. injection H as <- <-. by eapply HE.
    - unfold on_x in H. destruct (send_warning E 0 (c_x c)) as [x' o'] eqn:Es. injection H as <- <-. apply effm0_warning, (eff0_eff true) in Es.
      by eapply fetched_eff.
    - unfold on_x, emit, smodify in H. unfold sbind in H at 1. unfold sgets in H at 1. unfold sbind in H at 1. cbn beta iota in H.
      unfold require in H. destruct (b_close _ _); injection H as <- <-; by eapply HE.
  Qed.

  (** ** Histories *)
  Definition reads_byte (k : call) : Prop := match k with CallReadTls chunk => bytes_ok chunk | _ => True end.
  Lemma run_inv (P : conn -> Prop) : (forall c k c' o, P c -> reads_byte k -> step E c k = (c', o) -> P c') ->
    forall ks c c' os, P c -> reads_bytes ks -> run E c ks = (c', os) -> P c'.
  Proof.
    intros HS. induction ks as [|k ks IH]; intros c c' os HP Hk H; cbn [run] in H; [by injection H as <- <-|].
    apply Forall_cons in Hk as [Hk1 Hk]. destruct (step E c k) as [c1 o] eqn:Es. apply HS in Es; [|done..].
    destruct o; [| |by injection H as <- <-]; (destruct (run E c1 ks) as [c2 os2] eqn:Er; injection H as <- <-; by eapply IH).
  Qed.
  Context (HB : backend_ok E).
  Definition all_of (c : conn) : Prop := good_conn E c /\ data_conn c /\ out_conn c /\ fetched (c_x c).
  Lemma step_all c k c' o : all_of c -> reads_byte k -> step E c k = (c', o) -> all_of c'.
  Proof.
    intros (H1 & H2 & H3 & H4) Hk H. split_and!.
    - by eapply step_good.
    - eapply step_data; [by apply bo_given|exact H2|exact Hk|exact H].
    - by eapply step_out.
    - by eapply step_fetched.
  Qed.
  Lemma all_new : all_of conn_new.
  Proof.
    split_and!.
    - by apply conn_new_good.
    - split; [|done]. split; try done.
      + split; [done|constructor|]. right. simpl. lia.
      + by exists [].
      + by exists [].
      + exists [], []. split_and!; try done. intros _. split; [done|]. exists [], []. split_and!; try done. simpl. lia.
      + constructor.
    - split; [|done]. exists [], []. split_and!; done.
    - done.
  Qed.
  Lemma run_all ks c os : reads_bytes ks -> run E conn_new ks = (c, os) -> all_of c.
  Proof. intros Hk H. eapply (run_inv all_of); [apply step_all|apply all_new|done|exact H]. Qed.
  Notation reached := (reached E).
  Lemma reached_all c : reached c -> all_of c.
  Proof. intros (ks & os & H1 & H2). by eapply run_all. Qed.
  Lemma data_any c : data_conn c -> data false (c_x c).
  Proof. unfold data_conn. destruct (c_state c); [done|]. intros [H _]. by apply data_weaken. Qed.

  (** ** Records *)
  Lemma records_in_lemma c : reached c -> exists a b, records_in (log_of c) = map (pair false) a ++ map (pair true) b /\
    (forall i m, a !! i = Some m -> m_typ m = ChangeCipherSpec -> S i = length a) /\
    (b <> [] -> exists m, last a = Some m /\ m_typ m = ChangeCipherSpec).
  Proof.
    intros HR%reached_all. destruct HR as (_ & HD & _). apply data_any in HD. destruct (d_records _ _ HD) as (a & b & Hr & H1 & H2).
    exists a, b. split; [exact Hr|]. destruct (x_dec (c_x c)).
    - destruct (H2 eq_refl) as (a' & m & -> & Hm & Ha'). split; [|intros _; exists m; split; [by rewrite last_snoc|done]].
      intros i m' Hi Hc. rewrite app_length. simpl. apply lookup_app_Some in Hi as [Hi|[Hi1 Hi2]].
      + exfalso. rewrite Forall_forall in Ha'. apply elem_of_list_lookup_2 in Hi. by apply Ha' in Hi.
      + destruct (i - length a') eqn:Hn; [lia|]. done.
    - destruct (H1 eq_refl) as (-> & a' & z & -> & Ha' & Hz & _). split; [|done].
      intros i m' Hi Hc. rewrite app_length. apply lookup_app_Some in Hi as [Hi|[Hi1 Hi2]].
      + exfalso. rewrite Forall_forall in Ha'. apply elem_of_list_lookup_2 in Hi. by apply Ha' in Hi.
      + apply lookup_lt_Some in Hi2. lia.
  Qed.
  Lemma records_out_lemma c : reached c -> exists a b, records_out (log_of c) = map (pair false) a ++ map (pair true) b /\
    (forall m, m ∈ a -> m_typ m <> ApplicationData) /\
    (b <> [] -> exists m, last a = Some m /\ m_typ m = ChangeCipherSpec).
  Proof.
    intros HR%reached_all. destruct HR as (_ & _ & [(a & b & Hr & Ha & Hb) _] & _). exists a, b. split; [exact Hr|].
    split; [by apply Forall_forall|]. intros Hne. destruct (x_enc (c_x c)); [|done]. destruct Hb as (a' & m & -> & Hm). exists m. by rewrite last_snoc.
  Qed.

  (** ** Data *)
  Lemma written_lemma c : reached c -> exists rest, queued (log_of c) = wire_out (log_of c) ++ rest.
  Proof. intros HR%reached_all. destruct HR as (_ & HD & _). apply data_any in HD. eexists. symmetry. apply (d_out _ _ HD). Qed.
  Lemma consume_smaller n cs : cs <> [] -> 1 <= n ->
    length (concat (cvb_consume (Nat.min n (length (concat (take 64 cs)))) cs)) + length (cvb_consume (Nat.min n (length (concat (take 64 cs)))) cs)
    < length (concat cs) + length cs.
  Proof.
    intros Hcs Hn. rewrite concat_consume, drop_length.
    assert (forall k l, length (cvb_consume k l) <= length l) as HL.
    { clear. intros k l. revert k. induction l as [|c l IH]; intros k; simpl; [lia|]. case_match; simpl; [lia|]. specialize (IH (k - length c)). lia. }
    set (k := Nat.min n _). pose proof (HL k cs) as HL1.
    destruct cs as [|ch cs]; [done|]. destruct ch as [|b ch].
    - assert (length (cvb_consume k ([] :: cs)) <= length cs). { cbn [cvb_consume length]. destruct (k <? 0) eqn:Hk; [apply Nat.ltb_lt in Hk; lia|]. apply HL. }
      cbn [length]. lia.
    - assert (1 <= k). { subst k. cbn [take concat app length]. lia. }
      cbn [concat app length] in *. lia.
  Qed.
  Lemma write_all n m c : 1 <= n -> length (concat (x_tls (c_x c))) + length (x_tls (c_x c)) <= m ->
    exists c', fst (run E c (replicate m (CallWriteTls n))) = c' /\ x_tls (c_x c') = [] /\ queued (log_of c') = queued (log_of c) /\
      wire_out (log_of c') = wire_out (log_of c) ++ concat (x_tls (c_x c)).
  Proof.
    intros Hn. revert c. induction m as [|m IH]; intros c Hm.
    - exists c. destruct (x_tls (c_x c)) eqn:Ht; [|simpl in Hm; rewrite ?app_length in Hm; lia]. split_and!; try done. by rewrite app_nil_r.
    - cbn [replicate run step]. unfold on_x, sgets. unfold sbind at 1. destruct (cvb_write n (x_tls (c_x c))) as [b cs] eqn:Ew.
      unfold smodify, emit, sbind. unfold smodify. cbn beta iota. set (c1 := Conn _ _).
      destruct (IH c1) as (c' & H1 & H2 & H3 & H4).
      { cbn [c1 c_x set_log set_tls x_tls]. unfold cvb_write in Ew. injection Ew as <- <-.
        destruct (decide (x_tls (c_x c) = [])) as [He|Hne]; [rewrite He; simpl; lia|].
        pose proof (consume_smaller n _ Hne Hn). lia. }
      exists c'. destruct (run E c1 (replicate m (CallWriteTls n))) as [c2 os]. cbn [fst] in *. split; [done|]. split; [done|].
      unfold log_of in *. cbn [c1 c_x set_log set_tls x_log x_tls] in *. rewrite queued_app in H3. rewrite wire_out_app in H4.
      split; [rewrite H3; cbn [queued map concat]; by rewrite !app_nil_r|]. rewrite H4. cbn [wire_out map concat]. rewrite app_nil_r, <- app_assoc.
      by rewrite (concat_write _ _ _ _ Ew).
  Qed.
  Lemma all_written_lemma c n : reached c -> 1 <= n -> exists m c', fst (run E c (replicate m (CallWriteTls n))) = c' /\
    wire_out (log_of c') = queued (log_of c') /\ queued (log_of c') = queued (log_of c).
  Proof.
    intros HR%reached_all Hn. destruct HR as (_ & HD & _). apply data_any in HD.
    destruct (write_all n (length (concat (x_tls (c_x c))) + length (x_tls (c_x c))) c Hn) as (c' & H1 & H2 & H3 & H4); [lia|].
    eexists _, c'. split; [exact H1|]. split; [|done]. rewrite H3, H4. apply (d_out _ _ HD).
  Qed.
  Lemma taken_lemma c : reached c -> exists waiting bad rest,
    stream_holds (wire_in (log_of c)) (map snd (records_in (log_of c)) ++ waiting) bad rest.
  Proof. intros HR%reached_all. destruct HR as (_ & HD & _). apply data_any in HD. eexists _, _, _. apply (d_in _ _ HD). Qed.

  Lemma process_ok c c' : step E c CallProcess = (c', Ok tt) -> exists st st', c_state c = inr st /\ c_state c' = inr st' /\
    process_body E st (c_x c) = (c_x c', Ok st').
  Proof.
    cbn [step]. unfold process_new_packets. destruct (c_state c) as [e|st]; [done|].
    destruct (process_body E st (c_x c)) as [x' o'] eqn:Ep. destruct o' as [st'|[keep e]|]; intros [= <-]. exists st, st'. split_and!; done.
  Qed.
  Lemma all_taken_lemma c c' : reached c -> step E c CallProcess = (c', Ok tt) -> exists bad rest,
    stream_holds (wire_in (log_of c')) (map snd (records_in (log_of c'))) bad rest.
  Proof.
    intros HR%reached_all H. pose proof (step_all c CallProcess c' (Ok tt) HR I H) as HR'.
    apply process_ok in H as (st & st' & Es & Es' & H). destruct HR as (HG & _). unfold good_conn in HG. rewrite Es in HG.
    apply process_body_post in H as [_ Hf]; [|done..]. destruct HR' as (_ & HD & _). apply data_any in HD.
    pose proof (d_in _ _ HD) as Hs. rewrite Hf, app_nil_r in Hs. eexists _, _. exact Hs.
  Qed.
  Lemma fetched_lemma c c' : reached c -> step E c CallProcess = (c', Ok tt) ->
    decrypted (log_of c') = answers_in E (log_of c') /\ encrypted (log_of c') = answers_out E (log_of c').
  Proof.
    intros HR%reached_all H. apply process_ok in H as (st & st' & Es & Es' & H). destruct HR as (_ & _ & _ & HF).
    apply process_body_fetched in H as [[H1 H2] Hn]; [|done]. destruct (Hn eq_refl) as [Hi Ho]. unfold log_of. rewrite H1, H2, Hi, Ho. by rewrite !app_nil_r.
  Qed.
  Lemma some_fetched_lemma c : reached c -> exists later later', answers_in E (log_of c) = decrypted (log_of c) ++ later /\
    answers_out E (log_of c) = encrypted (log_of c) ++ later'.
  Proof. intros HR%reached_all. destruct HR as (_ & _ & _ & [H1 H2]). by eexists _, _. Qed.
  Lemma delivered_lemma c : reached c -> exists rest, app_received (log_of c) = delivered (log_of c) ++ rest.
  Proof. intros HR%reached_all. destruct HR as (_ & HD & _). apply data_any in HD. destruct (d_received _ _ HD) as (lost & H & _). by eexists. Qed.
  Lemma sent_lemma c : reached c -> exists rest, accepted (log_of c) = app_sent (log_of c) ++ rest.
  Proof. intros HR%reached_all. destruct HR as (_ & HD & _). apply data_any in HD. destruct (d_sent _ _ HD) as (lost & H & _). by eexists. Qed.
  Lemma cvb_read_take n cs : fst (cvb_read n cs) = take n (concat cs).
  Proof.
    revert n. induction cs as [|c cs IH]; intros n; simpl; [by rewrite take_nil|].
    destruct (n =? 0) eqn:H0; [apply Nat.eqb_eq in H0 as ->; done|].
    destruct (n <? length c) eqn:Hn.
    - apply Nat.ltb_lt in Hn. simpl. by rewrite take_app_le by lia.
    - apply Nat.ltb_ge in Hn. specialize (IH (n - length c)). destruct (cvb_read (n - length c) cs) as [b cs']. simpl in *. subst b.
      rewrite take_app_ge by lia. done.
  Qed.
  Lemma all_delivered_lemma c n c' o st : reached c -> c_state c = inr st -> length (app_received (log_of c)) <= n ->
    step E c (CallRead n) = (c', o) -> delivered (log_of c') = app_received (log_of c').
  Proof.
    intros HR%reached_all Ec Hn H. destruct HR as (_ & HD & _). unfold data_conn in HD. rewrite Ec in HD. destruct HD as [HD _].
    destruct (d_received _ _ HD) as (lost & Hr & Hl). rewrite (Hl eq_refl), app_nil_r in Hr.
    cbn [step] in H. unfold on_x in H. unfold sgets in H at 1. unfold sbind in H at 1.
    pose proof (cvb_read_take n (x_received (c_x c))) as Ht. destruct (cvb_read n _) as [b cs]. simpl in Ht. subst b.
    unfold smodify, emit, sbind in H. unfold smodify in H. cbn beta iota in H. injection H as <- <-.
    unfold log_of in *. cbn [c_x set_log set_received x_log]. rewrite delivered_app, app_received_app. cbn [delivered app_received map concat].
    rewrite !app_nil_r, Hr. f_equal. apply take_ge. rewrite Hr, app_length in Hn. lia.
  Qed.
  Lemma traffic_state st u x : INV E st u x -> StartTraffic ∈ x_log x -> st = CsTraffic.
  Proof.
    intros HI Hs. assert (early x -> False) as HE.
    { intros (He & _). rewrite Forall_forall in He. by apply He in Hs. }
    destruct st; simpl in HI; try (destruct HI as [[? _] _]; by destruct HE); try done. destruct HI as [? _]. by destruct HE.
  Qed.
  Lemma all_sent_lemma c c' : reached c -> step E c CallProcess = (c', Ok tt) -> StartTraffic ∈ log_of c' ->
    accepted (log_of c') = app_sent (log_of c').
  Proof.
    intros HR%reached_all H Ht. pose proof (step_all c CallProcess c' (Ok tt) HR I H) as (HG' & HD' & _).
    apply process_ok in H as (st & st' & Es & Es' & H). destruct HR as (_ & HD & _). unfold data_conn in HD, HD'. unfold good_conn in HG'. rewrite Es' in HD', HG'. rewrite Es in HD.
    destruct HG' as [[HI _] _]. apply traffic_state in HI; [|done]. subst st'.
    apply process_body_data in H as [HA HL]; [|by apply bo_given|by destruct HD..]. specialize (HL _ eq_refl). destruct HL as (_ & _ & HS).
    destruct (d_sent _ _ HA) as (lost & Hd & Hl). unfold log_of. rewrite Hd, (Hl eq_refl), HS by done. by rewrite app_nil_r.
  Qed.
End Client.

(** ** Failed connections *)
Section Failed.
  Context (E : env).
  Lemma warning_outer x x' o : send_warning E 0 x = (x', o) -> exists l, x_log x' = x_log x ++ l /\ Forall outer l.
  Proof.
    intros H. unfold send_warning, sgets in H. unfold sbind in H at 1. destruct (x_enc x).
    - apply send_push in H as (_ & _ & ms & El & Hm & _). eexists. split; [exact El|]. by apply Forall_map.
    - apply send_clear in H as (_ & _ & ms & El & Hm & _). eexists. split; [exact El|]. by apply Forall_map.
  Qed.
  Lemma step_failed c k c' o e : c_state c = inl e -> step E c k = (c', o) -> c_state c' = inl e /\
    (exists l, log_of c' = log_of c ++ l /\ Forall outer l) /\ match k with CallProcess | CallStart => o = Err e | _ => True end.
  Proof.
    intros Ec H.
    assert (c' = c -> c_state c' = inl e /\ (exists l, log_of c' = log_of c ++ l /\ Forall outer l)) as H0.
    { intros ->. split; [done|]. exists []. by rewrite app_nil_r. }
    assert (forall x' ev, x_log x' = x_log (c_x c) ++ [ev] -> outer ev -> c_state (Conn (c_state c) x') = inl e /\
      (exists l, log_of (Conn (c_state c) x') = log_of c ++ l /\ Forall outer l) /\ True) as HE.
    { intros x' ev H1 H2. split; [done|]. split; [|done]. exists [ev]. split; [done|]. by constructor. }
    destruct k; cbn [step] in H.
    - unfold start in H. rewrite Ec in H. injection H as <- <-. by destruct H0.
    - unfold on_x in H. unfold sgets in H at 1. unfold sbind in H at 1. destruct (df_read _ _).
      + unfold smodify, emit, sbind in H. unfold smodify in H. cbn beta iota in H. injection H as <- <-. eapply HE; [reflexivity|exact I].
      + injection H as <- <-. destruct H0 as [H1 H2]; [by destruct c|by split].
    - unfold process_new_packets in H. rewrite Ec in H. injection H as <- <-. by destruct H0.
    - unfold on_x in H. unfold sgets in H at 1. unfold sbind in H at 1. destruct (cvb_write _ _).
      unfold smodify, emit, sbind in H. unfold smodify in H. cbn beta iota in H. injection H as <- <-. eapply HE; [reflexivity|exact I].
    - unfold on_x in H. destruct p; [injection H as <- <-; destruct H0 as [H1 H2]; [by destruct c|by split]|].
      unfold sgets in H at 1. unfold sbind in H at 1. destruct (cvb_append_limited _ _).
      unfold smodify, emit, sbind in H. unfold smodify in H. cbn beta iota in H. injection H as <- <-. eapply HE; [reflexivity|exact I].
    - unfold on_x in H. unfold sgets in H at 1. unfold sbind in H at 1. destruct (cvb_read _ _).
      unfold smodify, emit, sbind in H. unfold smodify in H. cbn beta iota in H. injection H as <- <-. eapply HE; [reflexivity|exact I].
    - unfold on_x in H. destruct (send_warning E 0 (c_x c)) as [x' o'] eqn:Es. injection H as <- <-. apply warning_outer in Es.
      by split.
    - unfold on_x, emit, smodify in H. unfold sbind in H at 1. unfold sgets in H at 1. unfold sbind in H at 1. cbn beta iota in H.
      unfold require in H. destruct (b_close _ _); injection H as <- <-; (eapply HE; [reflexivity|exact I]).
  Qed.
  Lemma run_failed ks c c' os e : c_state c = inl e -> run E c ks = (c', os) -> c_state c' = inl e /\
    (exists l, log_of c' = log_of c ++ l /\ Forall outer l) /\
    forall i k o, ks !! i = Some k -> os !! i = Some o -> match k with CallProcess | CallStart => o = Err e | _ => True end.
  Proof.
    revert c os. induction ks as [|k ks IH]; intros c os Ec H; cbn [run] in H.
    { injection H as <- <-. split_and!; try done. exists []. by rewrite app_nil_r. }
    destruct (step E c k) as [c1 o1] eqn:Es. pose proof (step_failed _ _ _ _ _ Ec Es) as (Ec1 & (l1 & El1 & Hl1) & Ho1).
    destruct o1 as [u|e1|].
    3: { injection H as <- <-. split; [done|]. split; [by exists l1|]. intros [|i] k' o Hk Ho; [|done]. simpl in *. by simplify_eq. }
    all: destruct (run E c1 ks) as [c2 os2] eqn:Er; injection H as <- <-; destruct (IH _ _ Ec1 Er) as (Ec2 & (l2 & El2 & Hl2) & Ho2);
      (split; [done|]); (split; [exists (l1 ++ l2); split; [by rewrite El2, El1, <- app_assoc|by apply Forall_app]|]);
      (intros [|i] k' o Hk Ho; simpl in *; [by simplify_eq|by eapply Ho2]).
  Qed.
  Lemma failed_lemma c c1 e ks c2 os : step E c CallProcess = (c1, Err e) -> run E c1 ks = (c2, os) -> exists e' l,
    (e' = e \/ e' = ENotComplete) /\ log_of c2 = log_of c1 ++ l /\ Forall outer l /\
    forall i k o, ks !! i = Some k -> os !! i = Some o -> match k with CallProcess | CallStart => o = Err e' | _ => True end.
  Proof.
    intros Hs Hr. assert (exists e', (e' = e \/ e' = ENotComplete) /\ c_state c1 = inl e') as (e' & He & Ec).
    { cbn [step] in Hs. unfold process_new_packets in Hs. destruct (c_state c) as [e0|st] eqn:Ec; [injection Hs as <- <-; eauto|].
      destruct (process_body E st (c_x c)) as [x' o']. destruct o' as [st'|[[] e1]|]; simplify_eq; eauto. }
    destruct (run_failed _ _ _ _ _ Ec Hr) as (_ & (l & El & Hl) & Ho). exists e', l. by split_and!.
  Qed.
End Failed.
