(** The states of the TLS client keep the invariant. *)
From Verif.Lib Require Import Base.
From Verif Require Import ProofModel CodecModel CodecSpec CodecLemmas FramingLemmas TlsModel HandshakeModel HandshakeLemmas HandshakePropLemmas
  AttestModel SigAlgModel SigAlgSpec SigAlgLemmas RecordModel ClientModel ClientSpec ClientLemmas ClientInv.

Ltac ext_set := split; [done|exists []; by rewrite app_nil_r].

Section Client.
  Context (E : env).

  Definition Post (u : list N) (x x' : cx) (o : outcome cl_error cstate) : Prop :=
    match o with Ok st' => INV E st' u x' /\ frame x x' | _ => safe E x' end.

  Lemma ext_frame q x x' : ext q x x' -> frame x x'.
  Proof. by intros [[? _] _]. Qed.
  Lemma refuse_post st u0 u x x1 x' d e (o : outcome cl_error cstate) : INV E st u0 x -> ext calm x x1 ->
    refuse E d e x1 = (x', o) -> Post u x x' o.
  Proof.
    intros HI X H. apply refuse_ext in H as [X' Ho]. assert (safe E x') as Hs.
    { eapply safe_calm; [|exact X']. eapply safe_calm; [|exact X]. by eapply INV_safe. }
    by destruct o.
  Qed.
  Lemma fail_post st u0 u x x1 x' e (o : outcome cl_error cstate) : INV E st u0 x -> ext calm x x1 ->
    sfail e x1 = (x', o) -> Post u x x' o.
  Proof. intros HI X H. injection H as <- <-. simpl. eapply safe_calm; [|exact X]. by eapply INV_safe. Qed.
  Lemma inappropriate_post st u0 u x x' m (o : outcome cl_error cstate) : INV E st u0 x ->
    inappropriate_hs m x = (x', o) -> Post u x x' o.
  Proof. intros HI H. eapply fail_post; [done|apply ext_refl|exact H]. Qed.

  Lemma process_alpn_ext p x x' o : process_alpn E p x = (x', o) ->
    ext calm x x' /\ match o with Ok _ => match p with Some p => p ∈ e_alpn E | None => True end | _ => True end.
  Proof.
    unfold process_alpn, smodify. intros H. unfold sbind at 1 in H. destruct p as [p|].
    - case_bool_decide as Hp.
      + injection H as <- <-. split; [|done]. ext_set.
      + apply refuse_ext in H as [X Ho]. split; [exact X|]. by destruct o.
    - injection H as <- <-. split; [|done]. ext_set.
  Qed.

  Lemma server_hello_step random sent tr h u x x' o :
    INV E (CsHello random sent tr) (hs_encode (HServerHello h) ++ u) x ->
    on_server_hello E random sent tr h x = (x', o) -> Post u x x' o.
  Proof.
    intros HI H. unfold on_server_hello in H.
    destruct (N.eqb_spec (if (sh_version h =? 0x0303)%N then default (sh_version h) (sh_versions h) else sh_version h) 0x0303)
      as [Hv|_]; cbn [negb] in H; [|eapply refuse_post; [exact HI|apply ext_refl|exact H]].
    destruct (sh_versions h) as [v|] eqn:Evs; [eapply refuse_post; [exact HI|apply ext_refl|exact H]|].
    assert (sh_version h = 0x0303%N) as Hv' by (destruct (N.eqb_spec (sh_version h) 0x0303); done). clear Hv.
    destruct (N.eqb_spec (sh_compression h) 0) as [Hc|_]; cbn [negb] in H; [|eapply refuse_post; [exact HI|apply ext_refl|exact H]].
    destruct (has_duplicate _) eqn:Hd; [eapply refuse_post; [exact HI|apply ext_refl|exact H]|]. apply has_duplicate_false in Hd.
    destruct (existsb _ (sh_exts h)) eqn:Hx; [eapply refuse_post; [exact HI|apply ext_refl|exact H]|].
    pose proof (existsb_false _ _ Hx) as Hx'. clear Hx.
    unfold sbind at 1, smodify at 1 in H.
    assert (ext calm x (set_version (Some 771%N) x)) as X0 by ext_set.
    remember (set_version (Some 771%N) x) as x0 eqn:Ex0. clear Ex0.
    apply sbind_inv in H as [([] & x1 & H1 & H)|[(e & H & ->)|[H ->]]].
    2,3: apply process_alpn_ext in H as [X1 _]; eapply safe_calm; [|exact X1]; eapply safe_calm; [|exact X0]; eapply INV_safe; exact HI.
    apply process_alpn_ext in H1 as [X1 Hp]. pose proof (ext_trans _ _ _ _ X0 X1) as X2. clear X0 X1.
    destruct (match sh_points h with Some fs => _ | None => _ end) eqn:Hpt; [eapply refuse_post; [exact HI|done|exact H]|].
    case_bool_decide as Hsu; cbn [negb] in H; [|eapply refuse_post; [exact HI|done|exact H]].
    unfold sbind at 1, smodify at 1 in H. cbn [fst snd] in H.
    assert (ext calm x (set_suite (Some (sh_suite h)) x1)) as X3 by exact X2. clear X2.
    remember (set_suite (Some (sh_suite h)) x1) as x2 eqn:Ex2. clear Ex2 x0 x1.
    destruct (match sh_scts h with Some l => _ | None => _ end) eqn:Hsc; [eapply fail_post; [exact HI|done|exact H]|].
    injection H as <- <-. pose proof (ext_frame _ _ _ X3) as F3. split; [|done].
    eapply INV_calm in HI; [|exact X3]. clear X3. destruct HI as (Hpre & He & Hse & Hk & ch & hs & Hh & Hsa & Hhe & Hg).
    simpl in Hg. destruct Hg as (-> & -> & -> & Ht). simpl. split_and!; try done.
    exists ch, [HServerHello h]. split_and!; try done.
    { rewrite Hhe, written_one. done. }
    exists h. split; [done|]. split; [|split].
    - unfold opening. split_and!; try done.
      + unfold sh_scts. destruct (find_ext X_SCT (sh_exts h)) as [y|] eqn:Ef.
        * apply find_ext_Some in Ef as [Hin Hty]. destruct y; simpl; try (intros l Hl; apply (find_ext_In _ _ Hd) in Hl as Hl1;
            apply (find_ext_In _ _ Hd) in Hin; rewrite Hty in Hin; change (sx_type (SxSct l)) with X_SCT in Hl1; congruence).
          done.
        * intros l Hl. apply (find_ext_In _ _ Hd) in Hl. change (sx_type (SxSct l)) with X_SCT in Hl. congruence.
      + unfold answers. split_and!; try done.
        * intros y Hy. specialize (Hx' y Hy). simpl in Hx'. destruct (decide (sx_type y ∈ map cx_type (ch_exts ch))) as [|Hn]; [by left|].
          right. rewrite bool_decide_eq_false_2 in Hx' by exact Hn. simpl in Hx'.
          destruct (N.eqb_spec (sx_type y) X_RENEGOTIATION) as [Er|]; [exact Er|done].
        * intros v Hin. apply (find_ext_In _ _ Hd) in Hin. change (sx_type (SxVersions v)) with X_VERSIONS in Hin.
          unfold sh_versions in Evs. by rewrite Hin in Evs.
        * intros p Hin. apply (find_ext_In _ _ Hd) in Hin. change (sx_type (SxProtocols [p])) with X_ALPN in Hin.
          unfold sh_alpn in Hp. by rewrite Hin in Hp.
        * intros fs Hin. apply (find_ext_In _ _ Hd) in Hin. change (sx_type (SxPointFormats fs)) with X_POINT_FORMATS in Hin.
          unfold sh_points in Hpt. rewrite Hin in Hpt. apply negb_false_iff in Hpt. by apply bool_decide_eq_true in Hpt.
        * intros l Hin. apply (find_ext_In _ _ Hd) in Hin. change (sx_type (SxSct l)) with X_SCT in Hin.
          unfold sh_scts in Hsc. rewrite Hin in Hsc. split; [by destruct l|]. intros Hn.
          destruct l as [|a l]; [done|]. apply (existsb_false _ _ Hsc) in Hn. done.
    - unfold sh_status. destruct (find_ext _ _) as [y|] eqn:Ef; [|done]. intros _. apply find_ext_Some in Ef as [? ?].
      by exists y.
    - destruct Ht as [Ht1 Ht2]. unfold tr_ok, tr_add. simpl t_bytes. simpl t_auth. rewrite Ht1. split.
      + unfold written. simpl. by rewrite !app_nil_r.
      + destruct (t_auth tr) as [a|]; simpl; [|done]. rewrite Ht2. unfold written. simpl. by rewrite !app_nil_r.
  Qed.

  (** ** Messages that are only noted *)
  Definition INVg (st : cstate) (u : list N) (x : cx) : Prop :=
    let log := x_log x in
    pre x /\ x_enc x = false /\ said_enc log = [] /\ key_calls log = [] /\
    exists ch hs, hello_in E ch log /\ said log = hs_encode (HClientHello ch) /\ heard log = written hs ++ u /\ going E st ch hs.
  Ltac to_g := match goal with |- INV E ?st ?u ?x => change (INVg st u x) end.
  Lemma advance st st' h u x : INVg st (hs_encode h ++ u) x ->
    (forall ch hs, bytes_ok (hs_encode h) -> going E st ch hs -> going E st' ch (hs ++ [h])) -> INVg st' u x.
  Proof.
    intros (Hp & He & Hs & Hk & ch & hs & H1 & H2 & H3 & H4) Hgo. unfold INVg. split_and!; try done.
    exists ch, (hs ++ [h]). split_and!; try done.
    - by rewrite H3, written_app, written_one, app_assoc.
    - apply Hgo; [|done]. destruct Hp as (_ & _ & _ & _ & Hb & _). rewrite H3 in Hb.
      apply bytes_ok_app in Hb as [_ Hb]. by apply bytes_ok_app in Hb as [Hb _].
  Qed.
  Lemma tr_ok_add tr b h : tr_ok tr b -> tr_ok (tr_add tr h) (b ++ hs_encode h).
  Proof.
    intros [H1 H2]. unfold tr_ok, tr_add. simpl t_bytes. simpl t_auth. rewrite H1. split; [done|].
    destruct (t_auth tr) as [a|]; simpl; [|done]. by rewrite H2.
  Qed.
  Lemma tr_ok_app tr ch hs h : tr_ok tr (written (HClientHello ch :: hs)) -> tr_ok (tr_add tr h) (written (HClientHello ch :: hs ++ [h])).
  Proof. intros H%(tr_ok_add _ _ h). by rewrite app_comm_cons, written_app, written_one. Qed.

  Lemma cert_step cr sr tr suite ms scts chain u x x' o :
    INV E (CsCert cr sr tr suite ms scts) (hs_encode (HCertificate chain) ++ u) x ->
    handle E (CsCert cr sr tr suite ms scts) (MPHandshake (HCertificate chain)) x = (x', o) -> Post u x x' o.
  Proof.
    intros HI H. simpl in H. injection H as <- <-. simpl. split; [|done].
    assert (INVg (if ms then CsStatusOrKx cr sr (tr_add tr (HCertificate chain)) suite scts chain
                  else CsKx cr sr (tr_add tr (HCertificate chain)) suite (CertDetails chain [] scts)) u x) as HG.
    { eapply advance; [exact HI|]. intros ch hs _ (sh & -> & Ho & Hms & Ht). apply (tr_ok_app _ _ _ (HCertificate chain)) in Ht.
      destruct ms; simpl.
      - exists sh. split; [done|]. split; [done|]. split; [by apply Hms|done].
      - exists sh, chain, None. split; [done|]. split; [done|]. split; [|done]. split_and!; try done. by intros []. }
    by destruct ms.
  Qed.
  Lemma kx_step cr sr tr suite cert st p u x x' o :
    (forall ch hs, going E st ch hs -> going E (CsKx cr sr tr suite cert) ch hs) ->
    INVg st (hs_encode (HServerKeyExchange p) ++ u) x -> safe E x ->
    on_server_kx E cr sr tr suite cert (MPHandshake (HServerKeyExchange p)) x = (x', o) -> Post u x x' o.
  Proof.
    intros Hst HI Hs H. simpl in H. destruct (unwrap_ecdhe p) as [k| |] eqn:Ek.
    - injection H as <- <-. split; [|done]. to_g. eapply advance; [exact HI|].
      intros ch hs Hb Hg. apply Hst in Hg as (sh & chain & status & -> & Ho & Hd & Ht).
      apply ske_bytes in Hb. apply unwrap_inv in Ek as (-> & Hk1 & Hk2); [|done].
      exists sh, chain, status, k. rewrite <- app_assoc in *. split; [done|]. split; [done|]. split; [done|]. split; [done|].
      apply (tr_ok_app _ _ _ (HServerKeyExchange (enc_ecdhe k))) in Ht. rewrite <- app_assoc in Ht. exact Ht.
    - apply refuse_ext in H as [X Ho]. apply (safe_calm _ _ _ Hs) in X. by destruct o.
    - by injection H as <- <-.
  Qed.
  Lemma status_or_kx_kx cr sr tr suite scts chain ch hs :
    going E (CsStatusOrKx cr sr tr suite scts chain) ch hs -> going E (CsKx cr sr tr suite (CertDetails chain [] scts)) ch hs.
  Proof.
    intros (sh & -> & Ho & Hx & Ht). exists sh, chain, None. split_and!; try done.
  Qed.
  Lemma status_step cr sr tr suite scts chain ocsp u x x' o :
    INV E (CsStatusOrKx cr sr tr suite scts chain) (hs_encode (HCertStatus ocsp) ++ u) x ->
    handle E (CsStatusOrKx cr sr tr suite scts chain) (MPHandshake (HCertStatus ocsp)) x = (x', o) -> Post u x x' o.
  Proof.
    intros HI H. simpl in H. injection H as <- <-. split; [|done]. to_g.
    eapply advance; [exact HI|]. intros ch hs _ (sh & -> & Ho & Hms & Ht). apply (tr_ok_app _ _ _ (HCertStatus ocsp)) in Ht.
    exists sh, chain, (Some ocsp). split_and!; try done.
  Qed.
  Lemma request_step cr sr tr suite cert kx r u x x' o :
    INV E (CsDoneOrReq cr sr tr suite cert kx) (hs_encode (HCertRequest r) ++ u) x ->
    handle E (CsDoneOrReq cr sr tr suite cert kx) (MPHandshake (HCertRequest r)) x = (x', o) -> Post u x x' o.
  Proof.
    intros HI H. simpl in H. injection H as <- <-. split; [|done]. to_g.
    eapply advance; [exact HI|]. intros ch hs _ (sh & chain & status & k & -> & Ho & Hd & Hk & Ht).
    apply (tr_ok_app _ _ _ (HCertRequest r)) in Ht. exists sh, chain, status, k, (Some r).
    rewrite <- !app_assoc in *. split_and!; try done.
  Qed.
  Lemma done_or_req_done cr sr tr suite cert kx ch hs :
    going E (CsDoneOrReq cr sr tr suite cert kx) ch hs -> going E (CsDone cr sr (tr_abandon tr) suite cert kx None) ch hs.
  Proof.
    intros (sh & chain & status & k & -> & Ho & Hd & Hk & Ht). exists sh, chain, status, k, None.
    simpl. split_and!; try done; by destruct Ht.
  Qed.

  (** ** The client's flight *)
  Definition outy (e : cev) : Prop :=
    app_event e = false /\ match e with PushIn _ | ClearIn _ | Decrypted _ => False | _ => True end.
  Definition out (x x' : cx) (l : list cev) : Prop :=
    frame x x' /\ x_dec x' = x_dec x /\ x_may_send x' = x_may_send x /\ x_may_recv x' = x_may_recv x /\
    x_received x' = x_received x /\ x_log x' = x_log x ++ l /\ Forall outy l.
  Lemma out_refl x : out x x [].
  Proof. unfold out. rewrite app_nil_r. split_and!; try done. Qed.
  Lemma out_trans x y z l l' : out x y l -> out y z l' -> out x z (l ++ l').
  Proof.
    unfold out. intros (F1 & -> & -> & -> & -> & E1 & Q1) (F2 & -> & -> & -> & -> & E2 & Q2).
    split_and!; try done; [by eapply frame_trans|by rewrite E2, E1, app_assoc|by apply Forall_app].
  Qed.
  Lemma early_out x x' l : early x -> out x x' l -> early x'.
  Proof.
    unfold early. intros (H1 & H2 & H3 & H4) (_ & _ & -> & -> & -> & -> & Q). split_and!; try done. apply Forall_app. split; [done|].
    eapply Forall_impl; [exact Q|]. by intros e [? _].
  Qed.
  Lemma pre_out x x' l : pre x -> out x x' l -> pre x'.
  Proof.
    intros (H1 & H2 & H3 & H4 & H5 & H6) X. pose proof (early_out _ _ _ H1 X) as H1'.
    destruct X as ((_ & _ & _ & Hin) & Hd & _ & _ & _ & El & Q).
    assert (heard l = [] /\ heard_enc l = []) as [E1 E2].
    { split; apply concat_nil; (eapply Forall_impl; [exact Q|]); by intros [] []. }
    unfold pre. rewrite Hd, Hin, El, heard_app, heard_enc_app, E1, E2, !app_nil_r. split_and!; try done.
    intros m [Hm|Hm]%elem_of_app; [by eapply H4|]. eapply Forall_forall in Q; [|exact Hm]. by destruct Q.
  Qed.
  Lemma heard_out x x' l : out x x' l -> heard (x_log x') = heard (x_log x).
  Proof.
    intros (_ & _ & _ & _ & _ & El & Q). rewrite El, heard_app.
    assert (heard l = []) as ->; [|by rewrite app_nil_r]. apply concat_nil. eapply Forall_impl; [exact Q|]. by intros [] [].
  Qed.
  Lemma clear_view l : Forall (fun e => exists m, e = ClearOut m) l -> said_enc l = [] /\ key_calls l = [] /\ Forall outy l.
  Proof.
    intros H. split_and!; [apply concat_nil..|]; (eapply Forall_impl; [exact H|]); intros e [m ->]; done.
  Qed.
  Lemma push_view l : Forall (fun e => exists m, e = PushOut m /\ m_typ m = Handshake) l -> said l = [] /\ key_calls l = [] /\ Forall outy l.
  Proof.
    intros H. split_and!; [apply concat_nil..|]; (eapply Forall_impl; [exact H|]); intros e (m & -> & Hm); try done.
    split; [|done]. simpl. by rewrite Hm.
  Qed.
  Lemma same_out x x' l : same x x' -> x_log x' = x_log x ++ l -> Forall outy l -> out x x' l.
  Proof. intros (F & _ & ? & ? & ? & ?) El Q. split_and!; done. Qed.
  Lemma emit_hs_out tr h x x' o : emit_hs E tr h false x = (x', o) ->
    exists l, out x x' l /\ x_enc x' = x_enc x /\ said_enc l = [] /\ key_calls l = [] /\
      match o with Ok tr' => tr' = tr_add tr h /\ said l = hs_encode h | Err _ => False | Panic => True end.
  Proof.
    intros (S & _ & H)%emit_hs_clear. pose proof S as (_ & Hen & _). destruct o as [tr'| |].
    - destruct H as (-> & l & El & Hl & Hs). apply clear_view in Hl as (H1 & H2 & H3). exists l. split_and!; try done.
      by apply same_out.
    - done.
    - exists []. split_and!; try done. apply same_out; [done| |constructor]. by rewrite app_nil_r.
  Qed.
  Lemma send_ccs_out x x' o : send_msg E (Message ChangeCipherSpec TLSv1_2 [1%N]) false x = (x', o) ->
    exists l, out x x' l /\ x_enc x' = x_enc x /\ said l = [] /\ said_enc l = [] /\ key_calls l = [].
  Proof.
    intros (S & _ & ms & L & Ht & _)%send_clear. exists (map ClearOut ms). pose proof S as (_ & Hen & _).
    destruct (clear_view (map ClearOut ms)) as (H1 & H2 & H3); [apply Forall_map, Forall_true; by eexists|].
    split_and!; try done; [by apply same_out|]. unfold said. rewrite map_map. apply concat_nil.
    eapply Forall_impl; [exact Ht|]. intros m Hm. simpl in Hm. apply hs_part_not. unfold not_hs. by rewrite Hm.
  Qed.
End Client.
