(** Lemmas about the TLS client: logs, the monad, what is sent. *)
From Verif.Lib Require Import Base.
From Verif Require Import ProofModel CodecModel CodecSpec CodecLemmas FramingLemmas TlsModel HandshakeModel HandshakeLemmas HandshakePropLemmas
  AttestModel SigAlgModel SigAlgSpec SigAlgLemmas RecordModel ClientModel ClientSpec.

(** ** Logs *)
Definition not_hs (m : message) : Prop := m_typ m <> Handshake.
(** Events that the handshake does not depend on. *)
Definition quiet (e : cev) : Prop :=
  match e with
  | ClearIn m | Decrypted m | ClearOut m | PushOut m => not_hs m
  | Prepare _ _ _ _ _ _ _ _ | ClientVd _ _ | ServerVd _ _ => False
  | _ => True
  end.
Definition calm (e : cev) : Prop :=
  quiet e /\ app_event e = false /\ match e with PushIn _ => False | _ => True end.
(** Events that may follow the handshake. *)
Definition later (e : cev) : Prop := quiet e \/ exists m, e = Decrypted m.

Lemma hs_part_not m : not_hs m -> hs_part m = [].
Proof. unfold hs_part, not_hs. intros H. by case_bool_decide. Qed.
Ltac log_app := unfold heard, heard_enc, said, said_enc, key_calls, accepted, app_sent, app_received, delivered,
  records_in, records_out, wire_in, wire_out; by rewrite map_app, concat_app.
Lemma heard_app l l' : heard (l ++ l') = heard l ++ heard l'. Proof. log_app. Qed.
Lemma heard_enc_app l l' : heard_enc (l ++ l') = heard_enc l ++ heard_enc l'. Proof. log_app. Qed.
Lemma said_app l l' : said (l ++ l') = said l ++ said l'. Proof. log_app. Qed.
Lemma said_enc_app l l' : said_enc (l ++ l') = said_enc l ++ said_enc l'. Proof. log_app. Qed.
Lemma key_calls_app l l' : key_calls (l ++ l') = key_calls l ++ key_calls l'. Proof. log_app. Qed.
Lemma concat_nil {A B} (f : A -> list B) l : Forall (fun a => f a = []) l -> concat (map f l) = [].
Proof. induction 1 as [|a l H _ IH]; simpl; [done|]. by rewrite H, IH. Qed.

Lemma quiet_view l : Forall quiet l -> heard l = [] /\ heard_enc l = [] /\ said l = [] /\ said_enc l = [] /\ key_calls l = [].
Proof.
  intros H. split_and!; apply concat_nil; eapply Forall_impl; try exact H; intros []; simpl; try done; apply hs_part_not.
Qed.
Lemma later_view l : Forall later l -> heard l = [] /\ said l = [] /\ said_enc l = [] /\ key_calls l = [].
Proof.
  intros H. split_and!; apply concat_nil; eapply Forall_impl; try exact H;
    (intros e [He|[m ->]]; [|done]); destruct e; simpl in *; try done; by apply hs_part_not.
Qed.
Lemma quiet_app_view log l : Forall quiet l ->
  heard (log ++ l) = heard log /\ heard_enc (log ++ l) = heard_enc log /\ said (log ++ l) = said log /\
  said_enc (log ++ l) = said_enc log /\ key_calls (log ++ l) = key_calls log.
Proof.
  intros (H1 & H2 & H3 & H4 & H5)%quiet_view.
  by rewrite heard_app, heard_enc_app, said_app, said_enc_app, key_calls_app, H1, H2, H3, H4, H5, !app_nil_r.
Qed.
Lemma quiet_later e : quiet e -> later e. Proof. by left. Qed.
Lemma calm_quiet l : Forall calm l -> Forall quiet l.
Proof. intros H. eapply Forall_impl; [exact H|]. by intros e [? _]. Qed.
Lemma calm_no_app l : Forall calm l -> Forall (fun e => app_event e = false) l.
Proof. intros H. eapply Forall_impl; [exact H|]. by intros e (_ & ? & _). Qed.

(** ** The property to be kept *)
Definition guarded (E : env) (log : list cev) : Prop :=
  forall l1 e l2, log = l1 ++ e :: l2 -> app_event e = true -> authenticated E l1.

Lemma authenticated_later E log l : authenticated E log -> Forall later l -> authenticated E (log ++ l).
Proof.
  intros (s & Ha & Hs & Hv & Hc & Hsh) Hl. exists s. split_and!; try done.
  destruct Hsh as ((r & sid & H1 & H2) & H3 & H4 & H5 & H6 & (rest & H7) & H8).
  destruct (later_view _ Hl) as (E1 & E2 & E3 & E4). unfold shows.
  rewrite said_app, heard_app, said_enc_app, heard_enc_app, key_calls_app, E1, E2, E3, E4, !app_nil_r, H7.
  split_and!; try done.
  - exists r, sid. split; [done|]. apply elem_of_app. by left.
  - apply elem_of_app. by left.
  - exists (rest ++ heard_enc l). by rewrite <- app_assoc.
Qed.
Lemma guard_no_app E log l : guarded E log -> Forall (fun e => app_event e = false) l -> guarded E (log ++ l).
Proof.
  intros Hg Hl l1 e l2 Heq He. apply app_eq_inv in Heq as [(k & -> & Hk)|(k & -> & Hk)].
  - destruct k as [|e' k]; simpl in Hk.
    + rewrite <- Hk in Hl. apply Forall_inv in Hl. congruence.
    + injection Hk as <- ->. eapply Hg; [|done]. reflexivity.
  - subst l. apply Forall_app in Hl as [_ Hl]. apply Forall_inv in Hl. congruence.
Qed.
Lemma guard_auth E log l : guarded E log -> authenticated E log -> Forall later l -> guarded E (log ++ l).
Proof.
  intros Hg Ha Hl l1 e l2 Heq He. apply app_eq_inv in Heq as [(k & -> & Hk)|(k & -> & Hk)].
  - destruct k as [|e' k]; simpl in Hk.
    + rewrite app_nil_r in Ha. done.
    + injection Hk as <- ->. eapply Hg; [|done]. reflexivity.
  - subst l. apply Forall_app in Hl as [Hl _]. by apply authenticated_later.
Qed.
Lemma guard_early E log : Forall (fun e => app_event e = false) log -> guarded E log.
Proof. intros H l1 e l2 -> He. apply Forall_app in H as [_ H]. apply Forall_inv in H. congruence. Qed.

(** ** The monad *)
Lemma sbind_inv {Er A B} (m : stm cx Er A) (k : A -> stm cx Er B) x x' o : sbind m k x = (x', o) ->
  (exists a x1, m x = (x1, Ok a) /\ k a x1 = (x', o)) \/
  (exists e, m x = (x', Err e) /\ o = Err e) \/ (m x = (x', Panic) /\ o = Panic).
Proof.
  unfold sbind. destruct (m x) as [x1 [a|e|]]; intros H.
  - left. by exists a, x1.
  - injection H as <- <-. right. left. by exists e.
  - injection H as <- <-. by do 2 right.
Qed.
Lemma scatch_inv {Er F A} (m : stm cx Er A) (h : Er -> stm cx F A) x x' o : scatch m h x = (x', o) ->
  (exists a, m x = (x', Ok a) /\ o = Ok a) \/ (exists e x1, m x = (x1, Err e) /\ h e x1 = (x', o)) \/ (m x = (x', Panic) /\ o = Panic).
Proof.
  unfold scatch. destruct (m x) as [x1 [a|e|]]; intros H.
  - injection H as <- <-. left. by exists a.
  - right. left. by exists e, x1.
  - injection H as <- <-. by do 2 right.
Qed.

(** Fields that sending does not touch. *)
Definition frame (x x' : cx) : Prop :=
  x_joiner x' = x_joiner x /\ x_aligned x' = x_aligned x /\ x_df x' = x_df x /\ x_in x' = x_in x.
Definition same (x x' : cx) : Prop :=
  frame x x' /\ x_enc x' = x_enc x /\ x_dec x' = x_dec x /\ x_may_send x' = x_may_send x /\
  x_may_recv x' = x_may_recv x /\ x_received x' = x_received x.
Definition ext (q : cev -> Prop) (x x' : cx) : Prop :=
  same x x' /\ exists l, x_log x' = x_log x ++ l /\ Forall q l.
Lemma frame_refl x : frame x x. Proof. done. Qed.
Lemma frame_trans x y z : frame x y -> frame y z -> frame x z.
Proof. unfold frame. intros (-> & -> & -> & ->) (-> & -> & -> & ->). done. Qed.
Lemma same_refl x : same x x. Proof. done. Qed.
Lemma same_trans x y z : same x y -> same y z -> same x z.
Proof.
  unfold same. intros (F1 & -> & -> & -> & -> & ->) (F2 & -> & -> & -> & -> & ->).
  split_and!; try done. by eapply frame_trans.
Qed.
Lemma ext_refl q x : ext q x x.
Proof. split; [done|]. exists []. by rewrite app_nil_r. Qed.
Lemma ext_trans q x y z : ext q x y -> ext q y z -> ext q x z.
Proof.
  intros [S1 (l1 & E1 & Q1)] [S2 (l2 & E2 & Q2)]. split; [by eapply same_trans|].
  exists (l1 ++ l2). rewrite E2, E1, app_assoc. split; [done|]. by apply Forall_app.
Qed.
Lemma ext_impl (q q' : cev -> Prop) x x' : (forall e, q e -> q' e) -> ext q x x' -> ext q' x x'.
Proof. intros Hq [S (l & ? & H)]. split; [done|]. exists l. split; [done|]. eapply Forall_impl; [exact H|done]. Qed.

Section Client.
  Context (E : env).

  (** ** Sending *)
  Lemma sfor_clear ms x x' o : sfor ms (fun m => do! _ := emit (ClearOut m) in queue m) x = (x', o) ->
    o = Ok tt /\ same x x' /\ x_sendable x' = x_sendable x /\ x_log x' = x_log x ++ map ClearOut ms.
  Proof.
    revert x. induction ms as [|m ms IH]; intros x H.
    - injection H as <- <-. rewrite app_nil_r. done.
    - cbn [sfor map] in *. apply sbind_inv in H as [([] & x1 & H1 & H)|[(e & H & ->)|[H ->]]]; try done.
      unfold emit, queue, smodify in H1. injection H1 as <-. apply IH in H as (-> & S & Hs & Hl). split; [done|].
      split; [exact S|]. split; [exact Hs|]. rewrite Hl. simpl. by rewrite <- app_assoc.
  Qed.
  Lemma sfor_push ms x x' o : sfor ms (push_out E) x = (x', o) ->
    same x x' /\ x_sendable x' = x_sendable x /\ exists k, x_log x' = x_log x ++ map PushOut (take k ms) /\ (o = Ok tt -> k = length ms).
  Proof.
    revert x. induction ms as [|m ms IH]; intros x H.
    - injection H as <- <-. split; [done|]. split; [done|]. exists 0. by rewrite app_nil_r.
    - cbn [sfor map] in *.
      assert (forall x1 o1, push_out E m x = (x1, o1) -> same x x1 /\ x_sendable x1 = x_sendable x /\
                (x_log x1 = x_log x ++ [PushOut m] \/ (x_log x1 = x_log x /\ o1 = Panic))) as HP.
      { intros x1 o1 H1. unfold push_out, sgets, sbind in H1. simpl in H1.
        destruct (e_debug E && negb (x_enc x)); [injection H1 as <- <-; split; [done|]; split; [done|]; by right|].
        unfold emit, smodify, require in H1. simpl in H1. destruct (b_push_out _ _); injection H1 as <- <-;
          (split; [done|]; split; [done|]; by left). }
      apply sbind_inv in H as [([] & x1 & H1 & H)|[(e & H & ->)|[H ->]]].
      + apply HP in H1 as (S1 & E1 & [L1|[_ ?]]); [|done].
        apply IH in H as (S2 & E2 & k & L2 & Hk). split; [by eapply same_trans|]. split; [congruence|].
        exists (S k). rewrite L2, L1, <- app_assoc. split; [done|]. intros ->. simpl. f_equal. by apply Hk.
      + apply HP in H as (S1 & E1 & [L1|[_ ?]]); [|done]. split; [done|]. split; [done|]. exists 1. by rewrite L1.
      + apply HP in H as (S1 & E1 & [L1|[L1 _]]); (split; [done|]; split; [done|]).
        * exists 1. by rewrite L1.
        * exists 0. by rewrite L1, app_nil_r.
  Qed.
  Lemma fragment_inv mf m fs : fragment mf m = Ok fs ->
    concat (map m_payload fs) = m_payload m /\ Forall (fun f => m_typ f = m_typ m) fs.
  Proof.
    unfold fragment. destruct (_ <=? _)%N; [intros [= <-]; simpl; by rewrite app_nil_r; split; [|repeat constructor]|].
    intros H. apply obind_Ok in H as (cs & Hc & H). injection H as <-. split.
    - rewrite concat_payloads. unfold chunks in Hc. destruct (Nat.eqb_spec (N.to_nat mf) 0); [done|].
      injection Hc as <-. by apply chunks_go_concat.
    - apply Forall_forall. by intros f (c & -> & _)%elem_of_list_fmap.
  Qed.
  Lemma send_clear m x x' o : send_msg E m false x = (x', o) ->
    same x x' /\ x_sendable x' = x_sendable x /\
    exists ms, x_log x' = x_log x ++ map ClearOut ms /\ Forall (fun f => m_typ f = m_typ m) ms /\
      match o with Ok _ => concat (map m_payload ms) = m_payload m | Err _ => False | Panic => ms = [] end.
  Proof.
    unfold send_msg. intros H. apply sbind_inv in H as [(ms & x1 & H1 & H)|[(e & H & ->)|[H ->]]].
    - unfold slift, lift_panic in H1. injection H1 as <- H1.
      destruct (fragment (e_frag E) m) as [fs|[]|] eqn:Ef; try done. injection H1 as <-.
      apply fragment_inv in Ef as [Ec Et]. apply sfor_clear in H as (-> & S & Es & L). split; [done|]. split; [done|].
      by exists fs.
    - unfold slift, lift_panic in H. by destruct (fragment (e_frag E) m) as [?|[]|].
    - unfold slift, lift_panic in H. injection H as <- _. split; [done|]. split; [done|]. exists []. by rewrite app_nil_r.
  Qed.
  Lemma send_push m x x' o : send_msg E m true x = (x', o) ->
    same x x' /\ x_sendable x' = x_sendable x /\
    exists ms, x_log x' = x_log x ++ map PushOut ms /\ Forall (fun f => m_typ f = m_typ m) ms /\
      (exists rest, concat (map m_payload ms) ++ rest = m_payload m) /\
      (o = Ok tt -> concat (map m_payload ms) = m_payload m).
  Proof.
    unfold send_msg. intros H. apply sbind_inv in H as [(ms & x1 & H1 & H)|[(e & H & ->)|[H ->]]].
    - unfold slift, lift_panic in H1. injection H1 as <- H1.
      destruct (fragment (e_frag E) m) as [fs|[]|] eqn:Ef; try done. injection H1 as <-.
      apply fragment_inv in Ef as [Ec Et]. apply sfor_push in H as (S & Es & k & L & Hk). split; [done|]. split; [done|].
      exists (take k fs). split; [done|]. split; [by apply Forall_take|]. split.
      + exists (concat (map m_payload (drop k fs))). by rewrite <- concat_app, <- map_app, take_drop.
      + intros ->. rewrite Hk by done. by rewrite firstn_all.
    - unfold slift, lift_panic in H. by destruct (fragment (e_frag E) m) as [?|[]|].
    - unfold slift, lift_panic in H. injection H as <- _. split; [done|]. split; [done|]. exists []. rewrite app_nil_r.
      split; [done|]. split; [done|]. split; [by exists (m_payload m)|done].
  Qed.
  Lemma calm_out ms t : t <> Handshake -> t <> ApplicationData -> Forall (fun f => m_typ f = t) ms ->
    Forall calm (map ClearOut ms) /\ Forall calm (map PushOut ms).
  Proof.
    intros H1 H2 H. split; apply Forall_map; (eapply Forall_impl; [exact H|]); intros f Hf; unfold calm, not_hs; simpl;
      unfold not_hs; rewrite Hf; split_and!; try done. by case_bool_decide.
  Qed.
  Lemma send_calm t v p b x x' o : t <> Handshake -> t <> ApplicationData ->
    send_msg E (Message t v p) b x = (x', o) -> ext calm x x'.
  Proof.
    intros H1 H2 H. destruct b.
    - apply send_push in H as (S & _ & ms & L & Ht & _). split; [done|]. eexists. split; [done|]. by eapply calm_out.
    - apply send_clear in H as (S & _ & ms & L & Ht & _). split; [done|]. eexists. split; [done|]. by eapply calm_out.
  Qed.
  Lemma send_fatal_ext d x x' o : send_fatal E d x = (x', o) -> ext calm x x'.
  Proof.
    unfold send_fatal, sgets. intros H. unfold sbind at 1 in H. simpl in H.
    destruct (e_debug E && x_sent_alert x); [injection H as <- <-; apply ext_refl|].
    unfold sbind at 1 in H. simpl in H. apply sbind_inv in H as [([] & x1 & H1 & H)|[(e & H & ->)|[H ->]]].
    - injection H as <- <-. apply send_calm in H1; [|done..]. exact H1.
    - by apply send_calm in H.
    - by apply send_calm in H.
  Qed.
  Lemma send_warning_ext d x x' o : send_warning E d x = (x', o) -> ext calm x x'.
  Proof.
    unfold send_warning, sgets. intros H. unfold sbind at 1 in H. simpl in H. by apply send_calm in H.
  Qed.
  Lemma refuse_ext {A} d e x x' (o : outcome cl_error A) : refuse E d e x = (x', o) ->
    ext calm x x' /\ match o with Ok _ => False | _ => True end.
  Proof.
    unfold refuse. intros H. apply sbind_inv in H as [([] & x1 & H1 & H)|[(e' & H & ->)|[H ->]]].
    - injection H as <- <-. split; [|done]. by apply send_fatal_ext in H1.
    - split; [|done]. by apply send_fatal_ext in H.
    - split; [|done]. by apply send_fatal_ext in H.
  Qed.
  Lemma check_aligned_ext x x' o : check_aligned E x = (x', o) ->
    ext calm x x' /\ match o with Ok _ => x' = x /\ x_aligned x = true | _ => True end.
  Proof.
    unfold check_aligned, sgets. intros H. unfold sbind at 1 in H. simpl in H.
    destruct (x_aligned x) eqn:Ea.
    - injection H as <- <-. split; [apply ext_refl|done].
    - apply refuse_ext in H as [? ?]. split; [done|]. by destruct o.
  Qed.
  (** A handshake message sent as it is, and one that is encrypted. *)
  Lemma emit_hs_clear tr h x x' o : emit_hs E tr h false x = (x', o) ->
    same x x' /\ Forall (fun e => app_event e = false) (drop (length (x_log x)) (x_log x')) /\
    match o with
    | Ok tr' => tr' = tr_add tr h /\ exists l, x_log x' = x_log x ++ l /\ Forall (fun e => exists m, e = ClearOut m) l /\ said l = hs_encode h
    | Err _ => False | Panic => x_log x' = x_log x
    end.
  Proof.
    unfold emit_hs. intros H. apply sbind_inv in H as [([] & x1 & H1 & H)|[(e & H & ->)|[H ->]]].
    - injection H as <- <-. apply send_clear in H1 as (S & _ & ms & L & Ht & Hp). split; [done|]. rewrite L, drop_app.
      split; [by apply Forall_map, Forall_true|]. split; [done|]. exists (map ClearOut ms). split; [done|].
      split; [apply Forall_map, Forall_true; by eexists|]. simpl in Hp. rewrite <- Hp. unfold said. rewrite map_map. f_equal.
      apply map_ext_Forall. eapply Forall_impl; [exact Ht|]. intros m Hm. simpl in Hm. unfold hs_part. by rewrite Hm.
    - by apply send_clear in H as (_ & _ & ms & _ & _ & []).
    - apply send_clear in H as (S & _ & ms & L & _ & ->). rewrite L, app_nil_r. split; [done|]. by rewrite drop_all.
  Qed.
  Lemma emit_hs_push tr h x x' o : emit_hs E tr h true x = (x', o) ->
    same x x' /\ exists l, x_log x' = x_log x ++ l /\ Forall (fun e => exists m, e = PushOut m /\ m_typ m = Handshake) l /\
    match o with
    | Ok tr' => tr' = tr_add tr h /\ said_enc l = hs_encode h
    | _ => True
    end.
  Proof.
    unfold emit_hs. intros H.
    assert (forall x' o, send_msg E (hs_message TLSv1_2 h) true x = (x', o) ->
      same x x' /\ exists l, x_log x' = x_log x ++ l /\ Forall (fun e => exists m, e = PushOut m /\ m_typ m = Handshake) l /\
        (o = Ok tt -> said_enc l = hs_encode h)) as HS.
    { intros x1 o1 (S & _ & ms & L & Ht & _ & Hp)%send_push. split; [done|]. exists (map PushOut ms). split; [done|]. split.
      - apply Forall_map. eapply Forall_impl; [exact Ht|]. intros m Hm. by exists m.
      - intros Ho. simpl in Hp. rewrite <- (Hp Ho). unfold said_enc. rewrite map_map. f_equal.
        apply map_ext_Forall. eapply Forall_impl; [exact Ht|]. intros m Hm. simpl in Hm. unfold hs_part. by rewrite Hm. }
    apply sbind_inv in H as [([] & x1 & H1 & H)|[(e & H & ->)|[H ->]]].
    - injection H as <- <-. apply HS in H1 as (S & l & L & F & Hl). split; [done|]. exists l. split_and!; try done. by apply Hl.
    - apply HS in H as (S & l & L & F & _). split; [done|]. by exists l.
    - apply HS in H as (S & l & L & F & _). split; [done|]. by exists l.
  Qed.
End Client.
