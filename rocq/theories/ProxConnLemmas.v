From Verif.Lib Require Import Base.
From Verif Require Import CodecModel ConnModel ConnSpec ConnLemmas ProxConnModel ProxConnSpec.

Lemma wire_in_app a b : wire_in (a ++ b) = wire_in a ++ wire_in b. Proof. unfold wire_in. by rewrite map_app, concat_app. Qed.
Lemma wire_out_app a b : wire_out (a ++ b) = wire_out a ++ wire_out b. Proof. unfold wire_out. by rewrite map_app, concat_app. Qed.
Lemma data_in_app a b : data_in (a ++ b) = data_in a ++ data_in b. Proof. unfold data_in. by rewrite map_app, concat_app. Qed.
Lemma data_out_app a b : data_out (a ++ b) = data_out a ++ data_out b. Proof. unfold data_out. by rewrite map_app, concat_app. Qed.
Lemma app_wrote1 e : app_wrote [e] = match e with AppWrote b => b | _ => [] end. Proof. unfold app_wrote. cbn. by rewrite app_nil_r. Qed.
Lemma app_got1 e : app_got [e] = match e with AppGot b => b | _ => [] end. Proof. unfold app_got. cbn. by rewrite app_nil_r. Qed.
Lemma sock_gave1 e : sock_gave [e] = match e with SockGave b => b | _ => [] end. Proof. unfold sock_gave. cbn. by rewrite app_nil_r. Qed.
Lemma sock_took1 e : sock_took [e] = match e with SockTook b => b | _ => [] end. Proof. unfold sock_took. cbn. by rewrite app_nil_r. Qed.
Lemma wire_in1 e : wire_in [e] = match e with XReadTls b => b | _ => [] end. Proof. unfold wire_in. cbn. by rewrite app_nil_r. Qed.
Lemma wire_out1 e : wire_out [e] = match e with XWriteTls b => b | _ => [] end. Proof. unfold wire_out. cbn. by rewrite app_nil_r. Qed.
Lemma data_in1 e : data_in [e] = match e with XWrite b => b | _ => [] end. Proof. unfold data_in. cbn. by rewrite app_nil_r. Qed.
Lemma data_out1 e : data_out [e] = match e with XRead b => b | _ => [] end. Proof. unfold data_out. cbn. by rewrite app_nil_r. Qed.
Ltac pj := cbn [ynote klog sy_c sy_up sy_up_end sy_down sy_down_end sy_rx sy_tx sy_client_closed sy_server_closed sy_output sy_hup
  y_c y_up y_up_end y_down y_down_end y_rx y_tx y_client_closed y_server_closed y_output y_hup y_trace
  sk_r sk_st sk_time sk_tr sk_cc sk_sc k_r k_st k_time k_tr k_cc k_sc k_log tb_tls_sent tb_tls_recv tb_app_sent tb_app_recv fst snd].
Ltac pe := rewrite ?app_wrote_app, ?app_got_app, ?sock_gave_app, ?sock_took_app, ?wire_in_app, ?wire_out_app, ?data_in_app, ?data_out_app,
  ?app_wrote1, ?app_got1, ?sock_gave1, ?sock_took1, ?wire_in1, ?wire_out1, ?data_in1, ?data_out1; cbv beta iota; rewrite ?app_nil_r.
Lemma snoc_split {A} (l : list A) e l1 x l2 : l ++ [e] = l1 ++ x :: l2 ->
  (l2 = [] /\ x = e /\ l1 = l) \/ exists l2', l2 = l2' ++ [e] /\ l = l1 ++ x :: l2'.
Proof.
  intros H. destruct l2 as [|y l2 _] using rev_ind.
  - left. apply app_inj_tail in H as [-> ->]. done.
  - right. exists l2. rewrite app_comm_cons, app_assoc in H. apply app_inj_tail in H as [-> ->]. done.
Qed.
Lemma finalized_snoc l e : finalized (l ++ [e]) -> finalized l \/ exists ms t, e = XFinalize ms t.
Proof. intros (ms & t & H). apply elem_of_app in H as [H|H%elem_of_list_singleton]; [left; by exists ms, t|right; by exists ms, t]. Qed.
Lemma finalized_l l e : finalized l -> finalized (l ++ [e]).
Proof. intros (ms & t & H). exists ms, t. apply elem_of_app. by left. Qed.
Definition traffic_of (l : list xev) : tls_bytes := TlsBytes (wire_out l) (wire_in l) (data_in l) (data_out l).

Local Instance pres_dec : EqDecision pres. Proof. solve_decision. Defined.
Section ProxConn.
  Context {R : Type} (L : lib R).
  Local Notation px := (px R).

  Record inv (v : px) : Prop := Inv {
    i_in : app_wrote (y_trace v) = data_in (k_log (y_c v)) ++ y_up v;
    i_got : sock_gave (y_trace v) = wire_in (k_log (y_c v)) ++ y_rx v;
    i_sent : wire_out (k_log (y_c v)) = sock_took (y_trace v) ++ y_tx v;
    i_out : data_out (k_log (y_c v)) = app_got (y_trace v) ++ y_down v;
    i_tr : ~ finalized (k_log (y_c v)) -> k_tr (y_c v) = traffic_of (k_log (y_c v));
    i_st : finalized (k_log (y_c v)) -> k_st (y_c v) = XFinal \/ k_st (y_c v) = XError;
    i_xf : k_st (y_c v) = XFinal -> finalized (k_log (y_c v));
    i_fin : forall l1 ms t l2, k_log (y_c v) = l1 ++ XFinalize ms t :: l2 ->
      ~ finalized l1 /\ ~ finalized l2 /\ t = traffic_of l1 /\ data_in l2 = [] /\ data_out l2 = []
      /\ (ends_once (y_trace v) -> wire_in l2 = []) /\ ms <> [];
    i_fsc : finalized (k_log (y_c v)) -> k_sc (y_c v) = true;
    i_output : y_output v = true -> finalized (k_log (y_c v));
    i_sc : k_sc (y_c v) = true -> y_server_closed v = true /\ (ends_once (y_trace v) -> y_rx v = []);
    i_srv : y_server_closed v = true -> SockEnded ∈ y_trace v;
    i_cc : k_cc (y_c v) = true -> y_up v = [] /\ y_up_end v = true;
    i_ue : y_up_end v = true -> AppClosed ∈ y_trace v \/ AppDropped ∈ y_trace v;
    i_noti : k_st (y_c v) = XInit \/ k_st (y_c v) = XHand \/ k_st (y_c v) = XConn false -> XNotify ∉ k_log (y_c v);
    i_ncc : XNotify ∈ k_log (y_c v) -> k_cc (y_c v) = true;
    i_not : forall l1 l2, k_log (y_c v) = l1 ++ XNotify :: l2 -> XNotify ∉ l1 /\ XNotify ∉ l2 /\ data_in l2 = [];
    i_time : forall b, k_st (y_c v) = XConn b -> k_time (y_c v) = true }.

  Lemma inv_new r0 : inv (px_new r0).
  Proof.
    split; cbn; try done; try (intros (ms & t & H); by apply elem_of_nil in H).
    - intros l1 ms t l2 H. by destruct l1.
    - intros _. apply not_elem_of_nil.
    - intros H. by apply elem_of_nil in H.
    - intros l1 l2 H. by destruct l1.
  Qed.

  Definition quiet (e : pev) : Prop := match e with SockGave _ | SockTook _ | AppGot _ | AppWrote _ => False | _ => True end.
  Lemma quiet_eqs e t : quiet e -> app_wrote (t ++ [e]) = app_wrote t /\ app_got (t ++ [e]) = app_got t /\ sock_gave (t ++ [e]) = sock_gave t /\ sock_took (t ++ [e]) = sock_took t.
  Proof. rewrite app_wrote_app, app_got_app, sock_gave_app, sock_took_app. destruct e; cbn; intros Hq; try done; by rewrite !app_nil_r. Qed.
  Lemma in_l {A} (a : A) l e : a ∈ l -> a ∈ l ++ [e]. Proof. intros. apply elem_of_app. by left. Qed.
  Lemma in_r {A} (a : A) l : a ∈ l ++ [a]. Proof. apply elem_of_app. right. by apply elem_of_list_singleton. Qed.
  Hint Resolve in_l in_r ends_once_prefix : px.
  Lemma inv_note e v : quiet e -> inv v -> inv (ynote e v).
  Proof.
    intros Hq Hi. destruct (quiet_eqs e (y_trace v) Hq) as (H1 & H2 & H3 & H4). destruct Hi. split; pj; rewrite ?H1, ?H2, ?H3, ?H4; eauto with px.
    - intros l1 ms t l2 H. destruct (i_fin0 _ _ _ _ H) as (?&?&?&?&?&?&?). split_and!; eauto with px.
    - intros H. destruct (i_sc0 H). split; eauto with px.
    - intros H. destruct (i_ue0 H); eauto with px.
  Qed.

  Lemma inv_hang_up v : inv v -> inv (yhang_up v).
  Proof. intros Hi. unfold yhang_up. destruct (y_hup v); [done|]. apply inv_note; [done|]. destruct Hi. split; done. Qed.

  (** Events that a log gets in the middle of a connection. *)
  Definition plain (e : xev) : Prop := match e with XFinalize _ _ | XNotify => False | _ => True end.
  Lemma plain_fin e l : plain e -> finalized (l ++ [e]) <-> finalized l.
  Proof. intros Hp. split; [|apply finalized_l]. intros [H|(ms & t & ->)]%finalized_snoc; done. Qed.
  Lemma plain_not e l : plain e -> XNotify ∈ l ++ [e] -> XNotify ∈ l.
  Proof. intros Hp [H|H%elem_of_list_singleton]%elem_of_app; [done|]. by subst. Qed.

  (** A call of the library with its event. *)
  Lemma inv_call e r tr v v' : plain e -> inv v ->
    y_c v' = klog e (sk_tr tr (sk_r r (y_c v))) ->
    (k_tr (y_c v) = traffic_of (k_log (y_c v)) -> tr = traffic_of (k_log (y_c v) ++ [e])) ->
    y_trace v' = y_trace v -> y_up_end v' = y_up_end v -> y_server_closed v' = y_server_closed v -> y_output v' = y_output v ->
    data_in [e] ++ y_up v' = y_up v -> wire_in [e] ++ y_rx v' = y_rx v -> y_tx v' = y_tx v ++ wire_out [e] -> y_down v' = y_down v ++ data_out [e] ->
    (data_in [e] <> [] -> k_cc (y_c v) = false) ->
    (finalized (k_log (y_c v)) -> data_in [e] = [] /\ data_out [e] = []) ->
    inv v'.
  Proof.
    intros Hp Hi Hc Htr Ht Hue Hsv Ho H1 H2 H3 H4 Hcc Hf. destruct Hi.
    split; rewrite ?Hc, ?Ht, ?Hue, ?Hsv, ?Ho; cbn [klog sk_tr sk_r k_log k_tr k_st k_sc k_cc k_time]; rewrite ?wire_in_app, ?wire_out_app, ?data_in_app, ?data_out_app; rewrite ?plain_fin by done; eauto.
    - rewrite i_in0, <- H1. by rewrite <- app_assoc.
    - rewrite i_got0, <- H2. by rewrite <- app_assoc.
    - by rewrite i_sent0, H3, <- app_assoc.
    - by rewrite i_out0, H4, <- app_assoc.
    - intros l1 ms t l2 [(-> & Hx & ->)|(l2' & -> & H)]%snoc_split; [by subst|].
      destruct (i_fin0 _ _ _ _ H) as (?&?&?&?&?&Hw&?).
      assert (finalized (k_log (y_c v))) as Hfi by (exists ms, t; rewrite H; apply elem_of_app; right; by left).
      destruct (Hf Hfi) as [Hd1 Hd2].
      rewrite plain_fin by done. rewrite data_in_app, data_out_app, wire_in_app.
      split_and!; eauto; [by rewrite Hd1, app_nil_r|by rewrite Hd2, app_nil_r|].
      intros He. rewrite Hw by done. destruct (i_sc0 (i_fsc0 Hfi)) as [_ Hr]. rewrite (Hr He) in H2. by apply app_eq_nil in H2 as [-> _].
    - intros H. destruct (i_sc0 H) as [? Hr]. split; [done|]. intros He. rewrite (Hr He) in H2. by apply app_eq_nil in H2 as [_ ->].
    - intros H. destruct (i_cc0 H) as [Hu ?]. split; [|done]. rewrite Hu in H1. by apply app_eq_nil in H1 as [_ ->].
    - intros H Hn. apply plain_not in Hn; [|done]. by apply i_noti0 in Hn.
    - intros Hn. apply plain_not in Hn; [|done]. eauto.
    - intros l1 l2 [(-> & Hx & ->)|(l2' & -> & H)]%snoc_split; [by subst|].
      destruct (i_not0 _ _ H) as (?&?&Hd).
      assert (k_cc (y_c v) = true) as Hk by (apply i_ncc0; rewrite H; apply elem_of_app; right; by left).
      split_and!; [done| |].
      + intros Hn. apply plain_not in Hn; done.
      + rewrite data_in_app, Hd. destruct (decide (data_in [e] = [])) as [->|Hne]; [done|]. apply Hcc in Hne. congruence.
  Qed.

  Lemma inv_from_app v v' : inv v -> yfrom_app L v = Some v' -> inv v'.
  Proof.
    intros Hi. unfold yfrom_app. destruct (y_up v) as [|b0 bs] eqn:Hup.
    - destruct (y_up_end v && negb (y_client_closed v) && negb (y_server_closed v)) eqn:Hb; intros [= <-]; [|done].
      apply andb_true_iff in Hb as [[Hb1 _]%andb_true_iff _]. destruct Hi. split; pj; eauto.
    - destruct (k_wants_write (y_c v)) eqn:Hw; [|by intros [= <-]].
      unfold k_write. destruct (l_write L (k_r (y_c v)) (b0 :: bs)) as [r [n|]] eqn:Hl; [|done]. intros [= <-].
      eapply (inv_call (XWrite (take n (b0 :: bs))) r _ v); [done|done|reflexivity|..]; cbn [sy_up sy_c y_trace y_up_end y_server_closed y_output y_up y_rx y_tx y_down]; try done.
      + intros ->. unfold traffic_of. pj. by pe.
      + pe. by rewrite Hup, take_drop.
      + by rewrite app_nil_r.
      + by rewrite app_nil_r.
      + intros _. unfold k_wants_write in Hw. destruct (k_cc (y_c v)); [|done]. by destruct (k_st (y_c v)).
      + intros Hf. destruct (i_st _ Hi Hf) as [He|He]; unfold k_wants_write in Hw; by rewrite He in Hw.
  Qed.
  Lemma inv_from_socket r v v' : inv v -> yfrom_socket r v = Some v' -> inv v'.
  Proof.
    intros Hi. destruct r as [|b| |]; cbn; [by intros [= <-]| | |done].
    - intros [= <-]. set (d := take _ b). destruct Hi. split; pj; pe; eauto with px.
      + by rewrite i_got0, <- app_assoc.
      + intros l1 ms t l2 H. destruct (i_fin0 _ _ _ _ H) as (?&?&?&?&?&?&?). split_and!; eauto with px.
      + intros H. destruct (i_sc0 H) as [Hs Hr]. split; [done|]. intros He. rewrite Hr by eauto with px. by apply ends_once_last in He; auto.
      + intros H. destruct (i_ue0 H); eauto with px.
    - destruct (full (y_rx v) || y_server_closed v); intros [= <-]; [done|].
      destruct (quiet_eqs SockEnded (y_trace v) I) as (H1 & H2 & H3 & H4). destruct Hi. split; pj; rewrite ?H1, ?H2, ?H3, ?H4; eauto with px.
      + intros l1 ms t l2 H. destruct (i_fin0 _ _ _ _ H) as (?&?&?&?&?&?&?). split_and!; eauto with px.
      + intros H. destruct (i_sc0 H). split; eauto with px.
      + intros H. destruct (i_ue0 H); eauto with px.
  Qed.
  Lemma inv_to_client v v' : inv v -> yto_client L v = Some v' -> inv v'.
  Proof.
    intros Hi. unfold yto_client. destruct (y_rx v) as [|b0 bs] eqn:Hrx.
    - destruct (y_server_closed v) eqn:Hs; intros [= <-]; [|done]. destruct Hi. split; pj; eauto.
    - destruct (l_wants_read L (k_r (y_c v))); [|by intros [= <-]].
      unfold k_read_tls. destruct (l_read_tls L (k_r (y_c v)) (b0 :: bs)) as [r [n|]] eqn:Hl; [|done]. intros [= <-].
      eapply (inv_call (XReadTls (take n (b0 :: bs))) r _ v); [done|done|reflexivity|..]; cbn [sy_rx sy_c y_trace y_up_end y_server_closed y_output y_up y_rx y_tx y_down]; try done.
      + intros ->. unfold traffic_of. pj. by pe.
      + pe. by rewrite Hrx, take_drop.
      + by rewrite app_nil_r.
      + by rewrite app_nil_r.
  Qed.
  Lemma inv_from_client v v' : inv v -> yfrom_client L v = Some v' -> inv v'.
  Proof.
    intros Hi. unfold yfrom_client. destruct (full (y_tx v)); [by intros [= <-]|].
    unfold k_write_tls. destruct (l_write_tls L (k_r (y_c v)) (room (y_tx v))) as [r [b|]] eqn:Hl; [|done]. intros [= <-].
    set (d := take _ b).
    eapply (inv_call (XWriteTls d) r _ v); [done|done|reflexivity|..]; cbn [sy_tx sy_c y_trace y_up_end y_server_closed y_output y_up y_rx y_tx y_down]; try done.
    - intros ->. unfold traffic_of. pj. by pe.
    - by pe.
    - by rewrite app_nil_r.
  Qed.
  Lemma inv_to_app v v' : inv v -> yto_app L v = Some v' -> inv v'.
  Proof.
    intros Hi. unfold yto_app. destruct (y_down_end v || full (y_down v)); [by intros [= <-]|].
    destruct (k_wants_read (y_c v)) eqn:Hw; [|by intros [= <-]].
    unfold k_read. destruct (l_read L (k_r (y_c v)) (room (y_down v))) as [r [b|]] eqn:Hl; [|done]. intros [= <-].
    set (d := take _ b).
    eapply (inv_call (XRead d) r _ v); [done|done|reflexivity|..]; cbn [sy_down sy_c y_trace y_up_end y_server_closed y_output y_up y_rx y_tx y_down]; try done.
    - intros ->. unfold traffic_of. pj. by pe.
    - by rewrite app_nil_r.
    - by pe.
    - intros Hf. destruct (i_st _ Hi Hf) as [He|He]; unfold k_wants_read in Hw; by rewrite He in Hw.
  Qed.
  Lemma inv_to_socket w v v' : inv v -> yto_socket w v = Some v' -> inv v'.
  Proof.
    intros Hi. unfold yto_socket. destruct (y_tx v) as [|b0 bs] eqn:Htx; [by intros [= <-]|]. destruct w as [|n| |]; try (intros [= <-]; done).
    intros [= <-]. destruct Hi. split; pj; pe; eauto with px.
    - by rewrite i_sent0, Htx, <- app_assoc, take_drop.
    - intros l1 ms t l2 H. destruct (i_fin0 _ _ _ _ H) as (?&?&?&?&?&?&?). split_and!; eauto with px.
    - intros H. destruct (i_sc0 H). split; eauto with px.
    - intros H. destruct (i_ue0 H); eauto with px.
  Qed.

  (** ** The client *)
  Lemma inv_client v c : inv v -> inv (sy_c c v) -> inv (sy_c c v). Proof. done. Qed.
  Lemma inv_r v r : inv v -> inv (sy_c (sk_r r (y_c v)) v). Proof. intros Hi. destruct Hi. split; done. Qed.
  Lemma inv_error v : inv v -> inv (sy_c (sk_st XError (y_c v)) v).
  Proof. intros Hi. destruct Hi. split; pj; eauto; try done. intros [?|[?|?]]; done. Qed.
  Lemma inv_hand v : inv v -> k_st (y_c v) = XInit \/ k_st (y_c v) = XHand -> inv (sy_c (sk_st XHand (y_c v)) v).
  Proof. intros Hi Hst. destruct Hi. split; pj; eauto; try done. - intros H. destruct (i_st0 H), Hst; congruence. - intros _. destruct Hst; eauto. Qed.
  Lemma inv_connected v : inv v -> k_st (y_c v) = XInit \/ k_st (y_c v) = XHand -> inv (sy_c (sk_st (XConn false) (sk_time true (y_c v))) v).
  Proof. intros Hi Hst. destruct Hi. split; pj; eauto; try done. - intros H. destruct (i_st0 H), Hst; congruence. - intros _. destruct Hst; eauto. Qed.
  Lemma inv_notify v r : inv v -> k_st (y_c v) = XConn false -> k_cc (y_c v) = true -> inv (sy_c (sk_st (XConn true) (klog XNotify (sk_r r (y_c v)))) v).
  Proof.
    intros Hi Hst Hcc. destruct Hi. assert (forall l, finalized (l ++ [XNotify]) <-> finalized l) as Hf.
    { intros l. split; [|apply finalized_l]. intros [H|(ms & t & H)]%finalized_snoc; done. }
    split; pj; rewrite ?Hf; pe; eauto; try done.
    - intros H. rewrite i_tr0 by done. unfold traffic_of. pj. by pe.
    - intros H. destruct (i_st0 H); congruence.
    - intros l1 ms t l2 [(-> & Hx & ->)|(l2' & -> & H)]%snoc_split; [done|].
      destruct (i_fin0 _ _ _ _ H) as (?&?&?&?&?&?&?). rewrite Hf. by pe.
    - intros [?|[?|?]]; done.
    - intros l1 l2 [(-> & Hx & ->)|(l2' & -> & H)]%snoc_split.
      + split_and!; [|apply not_elem_of_nil|done]. eauto.
      + exfalso. eapply i_noti0; eauto. rewrite H. apply elem_of_app. right. by left.
  Qed.
  Lemma inv_finalize v st ms : inv v -> (exists b, k_st (y_c v) = XConn b) -> k_sc (y_c v) = true -> ms <> [] -> st = XFinal \/ st = XError ->
    inv (sy_c (sk_st st (klog (XFinalize ms (k_tr (y_c v))) (sk_tr (TlsBytes [] [] [] []) (y_c v)))) v).
  Proof.
    intros Hi [b Hst] Hsc Hms Hs. destruct Hi.
    assert (~ finalized (k_log (y_c v))) as Hnf by (intros H; destruct (i_st0 H); congruence).
    assert (finalized (k_log (y_c v) ++ [XFinalize ms (k_tr (y_c v))])) as Hf by (eexists _, _; apply in_r).
    split; pj; pe; eauto; try done.
    - intros l1 ms' t l2 [(-> & [= -> ->] & ->)|(l2' & -> & H)]%snoc_split.
      + split_and!; eauto. intros (?&?&H). by apply elem_of_nil in H.
      + exfalso. apply Hnf. exists ms', t. rewrite H. apply elem_of_app. right. by left.
    - intros [H|[H|H]]; destruct Hs; congruence.
    - intros [H|H%elem_of_list_singleton]%elem_of_app; eauto. done.
    - intros l1 l2 [(-> & Hx & ->)|(l2' & -> & H)]%snoc_split; [done|].
      destruct (i_not0 _ _ H) as (?&?&Hd). rewrite data_in_app, Hd. split_and!; [done| |done].
      intros [?|H'%elem_of_list_singleton]%elem_of_app; done.
  Qed.

  Lemma kpoll_conn_st rd f sent c : kpoll_conn L rd f sent c = kpoll_conn L rd f sent (sk_st (XConn sent) c).
  Proof.
    unfold kpoll_conn, kpoll_conn_once. cbn [sk_st k_r]. destruct (l_process L (k_r c)) as [r ok]. destruct (negb ok); [done|].
    cbn [sk_st sk_r k_sc k_cc k_r k_time k_tr]. destruct (k_sc c); [destruct (l_ms L r); [done|]; destruct (k_time c); [|done]; unfold kpoll_final; by destruct rd as [|[]]|].
    destruct (k_cc c && negb sent); [|done]. cbn [klog sk_r k_r]. destruct (l_process L (l_notify L r)) as [r' ok']. destruct (negb ok'); [done|].
    cbn [klog sk_st sk_r k_sc k_cc k_r k_time k_tr]. destruct (k_sc c); [destruct (l_ms L r'); [done|]; destruct (k_time c); [|done]; unfold kpoll_final; by destruct rd as [|[]]|].
    by rewrite andb_false_r.
  Qed.
  Definition post (v : px) (p : xc R * pres) : Prop :=
    inv (sy_c p.1 v) /\ (p.2 = PReady -> finalized (k_log p.1)) /\ (p.2 = PReady \/ p.2 = PPending \/ p.2 = PErr).
  Lemma post_once rd f v again sent : inv v -> k_st (y_c v) = XConn sent ->
    (forall r, k_cc (y_c v) = true -> sent = false -> k_sc (y_c v) = false -> post v (again (klog XNotify (sk_r (l_notify L r) (sk_r r (y_c v)))))) ->
    post v (kpoll_conn_once L rd f (y_c v) again sent).
  Proof.
    intros Hi Hst Ha. unfold kpoll_conn_once. destruct (l_process L (k_r (y_c v))) as [r ok].
    pose proof (inv_r v r Hi) as Hr. destruct ok; cbn [negb].
    2: { split_and!; [apply (inv_error _ Hr)|done|auto]. }
    cbn [sk_r k_sc]. destruct (k_sc (y_c v)) eqn:Hsc.
    - destruct (l_ms L r) as [|m0 ms] eqn:Hms; [split_and!; [apply (inv_error _ Hr)|done|auto]|].
      cbn [sk_r k_time]. rewrite (i_time _ Hi sent Hst).
      assert (forall st, st = XFinal \/ st = XError -> inv (sy_c (sk_st st (klog (XFinalize (m0 :: ms) (k_tr (y_c v))) (sk_tr (TlsBytes [] [] [] []) (sk_r r (y_c v))))) v)) as Hfin.
      { intros st Hs. apply (inv_finalize _ st (m0 :: ms) Hr); cbn; eauto. }
      unfold kpoll_final. destruct rd as [|[] rd].
      + split_and!; [apply Hfin; auto| |destruct f; auto]. intros _. eexists _, _. apply in_r.
      + split_and!; [apply Hfin; auto| |destruct f; auto]. intros _. eexists _, _. apply in_r.
      + split_and!; [apply Hfin; auto|done|auto].
    - cbn [sk_r k_cc]. destruct (k_cc (y_c v)) eqn:Hcc; cbn [andb]; [destruct sent; cbn [negb]|].
      + split_and!; [|done|auto]. replace (sk_st (XConn true) (sk_r r (y_c v))) with (sk_r r (y_c v)); [done|]. unfold sk_st, sk_r. cbn. by rewrite Hst.
      + by apply Ha.
      + split_and!; [|done|auto]. replace (sk_st (XConn sent) (sk_r r (y_c v))) with (sk_r r (y_c v)); [done|]. unfold sk_st, sk_r. cbn. by rewrite Hst.
  Qed.
  Lemma post_conn rd f sent v : inv v -> k_st (y_c v) = XConn sent -> post v (kpoll_conn L rd f sent (y_c v)).
  Proof.
    intros Hi Hst. unfold kpoll_conn. apply post_once; [done|done|]. intros r Hcc -> Hsc.
    pose proof (inv_notify _ (l_notify L r) Hi Hst Hcc) as Hn.
    pose proof (post_once rd f _ (fun c => (c, PHang)) true Hn eq_refl (fun _ _ H _ => False_ind _ (diff_true_false H))) as Hp.
    revert Hp. unfold post, kpoll_conn_once. cbn [sy_c y_c sk_st klog sk_r k_r k_sc k_cc k_time k_tr].
    destruct (l_process L (l_notify L r)) as [r' ok']. rewrite Hsc, andb_false_r. destruct (negb ok'); done.
  Qed.
  Lemma post_client rd f v : inv v -> post v (kpoll L rd f (y_c v)).
  Proof.
    intros Hi. unfold kpoll.
    assert (k_st (y_c v) = XInit \/ k_st (y_c v) = XHand -> post v (kpoll_hand L rd f (y_c v))) as Hh.
    { intros Hst. unfold kpoll_hand. destruct (l_process L (k_r (y_c v))) as [r ok]. pose proof (inv_r v r Hi) as Hr.
      destruct ok; cbn [negb]; [|split_and!; [apply (inv_error _ Hr)|done|auto]].
      destruct (l_handshaking L r); [split_and!; [apply (inv_hand _ Hr Hst)|done|auto]|].
      rewrite kpoll_conn_st. apply (post_conn rd f false (sy_c (sk_st (XConn false) (sk_time true (sk_r r (y_c v)))) v)); [|done]. apply (inv_connected _ Hr Hst). }
    destruct (k_st (y_c v)) eqn:Hst; auto.
    - apply post_conn; auto.
    - unfold kpoll_final. assert (finalized (k_log (y_c v))) as Hf by (by apply i_xf).
      destruct rd as [|[] rd]; (split_and!; [|done|destruct f; auto]); try apply (inv_error _ Hi).
      replace (sk_st XFinal (y_c v)) with (y_c v); [by destruct v|]. unfold sk_st. rewrite <- Hst. by destruct (y_c v).
    - split_and!; [by destruct v|done|auto].
  Qed.

  (** ** The whole *)
  Definition fine (r : pres) : Prop := r = PReady \/ r = PPending \/ r = PErr.
  Lemma inv_poll n v v' r : inv v -> ypoll L n v = (v', r) -> inv v' /\ fine r /\ (r = PReady -> finalized (k_log (y_c v'))).
  Proof.
    intros Hi. unfold ypoll, orelse.
    assert (forall v, inv v -> inv v /\ fine PErr /\ (PErr = PReady -> finalized (k_log (y_c v)))) as He by (intros w Hw; split_and!; [done|unfold fine; auto|done]).
    destruct (yfrom_app L v) as [v1|] eqn:H1; [|intros [= <- <-]; auto]. apply inv_from_app in H1; [|done].
    destruct (yfrom_socket (n_read n) v1) as [v2|] eqn:H2; [|intros [= <- <-]; auto]. apply inv_from_socket in H2; [|done].
    destruct (yto_client L v2) as [v3|] eqn:H3; [|intros [= <- <-]; auto]. apply inv_to_client in H3; [|done].
    destruct (if y_output v3 then (y_c v3, PPending) else kpoll L (n_ready n) (n_final n) (y_c v3)) as [c p] eqn:H4.
    assert (post v3 (c, p)) as (Hc & Hp & Hq).
    { rewrite <- H4. destruct (y_output v3); [split_and!; [by destruct v3|done|auto]|by apply post_client]. }
    cbn in Hc, Hp, Hq.
    assert (forall w, inv w -> (y_output w = true -> finalized (k_log c)) -> True) as _ by auto.
    destruct Hq as [-> | [-> | ->]]; [| |intros [= <- <-]; auto].
    all: match goal with |- context [yfrom_client L ?w] => assert (inv w) as Hw end.
    { specialize (Hp eq_refl). destruct Hc. split; pj; eauto. }
    2: done.
    all: match goal with |- context [yfrom_client L ?w] => destruct (yfrom_client L w) as [v5|] eqn:H5; [|intros [= <- <-]; auto] end; apply inv_from_client in H5; [|done].
    all: destruct (yto_socket (n_write n) v5) as [v6|] eqn:H6; [|intros [= <- <-]; auto]; apply inv_to_socket in H6; [|done].
    all: destruct (yto_app L v6) as [v7|] eqn:H7; [|intros [= <- <-]; auto]; apply inv_to_app in H7; [|done].
    all: destruct (y_server_closed v7 && y_output v7) eqn:Hb; [|intros [= <- <-]; split_and!; [done|unfold fine; auto|done]].
    all: apply andb_true_iff in Hb as [_ Hb]; pose proof (i_output _ H7 Hb) as Hf; pose proof (inv_hang_up _ H7) as H8.
    all: assert (finalized (k_log (y_c (yhang_up v7)))) by (unfold yhang_up; by destruct (y_hup v7)).
    all: destruct (n_close n); intros [= <- <-]; (split_and!; [|unfold fine; auto|done]); try done; by apply inv_note.
  Qed.
  Definition done_inv (s : fut) (v : px) : Prop := s = FFinishing true \/ s = FDone -> finalized (k_log (y_c v)).
  Lemma inv_finishing n good v s v' r : inv v -> (good = true -> finalized (k_log (y_c v))) -> yfinishing n good v = (s, v', r) ->
    inv v' /\ fine r /\ done_inv s v' /\ s <> FDead /\ s <> FConnected /\ (r = PReady -> s = FDone).
  Proof.
    intros Hi Hg. unfold yfinishing, fine, done_inv. destruct good.
    - destruct (n_ready n) as [|[] ?]; [destruct (n_final n)|destruct (n_final n)|]; intros [= <- <- <-]; split_and!; auto; done.
    - pose proof (inv_hang_up _ Hi). destruct (n_close n); intros [= <- <- <-]; split_and!; auto; try (intros [?|?]; done); try done; by apply inv_note.
  Qed.
  Lemma inv_fpoll n s v s' v' r : inv v -> done_inv s v -> s <> FDead -> yfpoll L n (s, v) = (s', v', r) ->
    inv v' /\ fine r /\ done_inv s' v' /\ s' <> FDead /\ (r = PReady -> s' = FDone).
  Proof.
    intros Hi Hd Hs. unfold yfpoll. destruct s; [|..].
    - destruct (ypoll L n v) as [v1 p] eqn:Hp. destruct (inv_poll _ _ _ _ Hi Hp) as (H1 & H2 & H3). destruct H2 as [-> | [-> | ->]].
      + intros Hf. destruct (inv_finishing _ _ _ _ _ _ H1 (fun _ => H3 eq_refl) Hf) as (?&?&?&?&?&?). auto.
      + intros [= <- <- <-]. split_and!; auto; unfold fine, done_inv; auto; try done; by intros [?|?].
      + intros Hf. destruct (inv_finishing n false v1 s' v' r H1 ltac:(done) Hf) as (?&?&?&?&?&?). auto.
    - intros Hf. destruct (inv_finishing n good v s' v' r Hi ltac:(intros ->; apply Hd; auto) Hf) as (?&?&?&?&?&?). auto.
    - intros [= <- <- <-]. split_and!; auto; unfold fine; auto; done.
    - intros [= <- <- <-]. split_and!; auto; unfold fine; auto; done.
    - done.
  Qed.
  Lemma inv_step k s v s' v' rs : inv v -> done_inv s v -> s <> FDead -> ydo_step L k (s, v) = (s', v', rs) ->
    inv v' /\ done_inv s' v' /\ s' <> FDead /\ Forall fine rs /\ (PReady ∈ rs -> s' = FDone).
  Proof.
    intros Hi Hd Hs. unfold ydo_step. destruct k as [b|n| | |n].
    - destruct (y_up_end v || y_hup v) eqn:Hb; intros [= <- <- <-]; [split_and!; auto; by intros ?%elem_of_nil|].
      apply orb_false_iff in Hb as [Hb _]. set (d := take _ b).
      split_and!; [|exact Hd|done|done|by intros ?%elem_of_nil]. destruct Hi.
      split; pj; pe; eauto with px.
      + by rewrite i_in0, <- app_assoc.
      + intros l1 ms t l2 H. destruct (i_fin0 _ _ _ _ H) as (?&?&?&?&?&?&?). split_and!; eauto with px.
      + intros H. destruct (i_sc0 H). split; eauto with px.
      + intros H. destruct (i_cc0 H). congruence.
      + intros H. destruct (i_ue0 H); eauto with px.
    - destruct (y_down_end v) eqn:Hb; intros [= <- <- <-]; [split_and!; auto; by intros ?%elem_of_nil|].
      split_and!; [|exact Hd|done|done|by intros ?%elem_of_nil]. destruct Hi.
      split; pj; pe; eauto with px.
      + by rewrite i_out0, <- app_assoc, take_drop.
      + intros l1 ms t l2 H. destruct (i_fin0 _ _ _ _ H) as (?&?&?&?&?&?&?). split_and!; eauto with px.
      + intros H. destruct (i_sc0 H). split; eauto with px.
      + intros H. destruct (i_ue0 H); eauto with px.
    - intros [= <- <- <-]. destruct (y_up_end v) eqn:Hb; [split_and!; auto; by intros ?%elem_of_nil|].
      split_and!; [|exact Hd|done|done|by intros ?%elem_of_nil].
      destruct (quiet_eqs AppClosed (y_trace v) I) as (H1 & H2 & H3 & H4). destruct Hi. split; pj; rewrite ?H1, ?H2, ?H3, ?H4; eauto with px.
      + intros l1 ms t l2 H. destruct (i_fin0 _ _ _ _ H) as (?&?&?&?&?&?&?). split_and!; eauto with px.
      + intros H. destruct (i_sc0 H). split; eauto with px.
      + intros H. destruct (i_cc0 H). done.
    - intros [= <- <- <-]. destruct (y_down_end v) eqn:Hb; [split_and!; auto; by intros ?%elem_of_nil|].
      split_and!; [|exact Hd|done|done|by intros ?%elem_of_nil].
      destruct (quiet_eqs AppDropped (y_trace v) I) as (H1 & H2 & H3 & H4). destruct Hi. split; pj; rewrite ?H1, ?H2, ?H3, ?H4; eauto with px.
      + intros l1 ms t l2 H. destruct (i_fin0 _ _ _ _ H) as (?&?&?&?&?&?&?). split_and!; eauto with px.
      + intros H. destruct (i_sc0 H). split; eauto with px.
      + intros H. destruct (i_cc0 H). done.
    - destruct (yfpoll L n (s, v)) as [[s1 v1] r] eqn:Hf. intros [= <- <- <-].
      destruct (inv_fpoll _ _ _ _ _ _ Hi Hd Hs Hf) as (?&?&?&?&?). split_and!; auto. intros <-%elem_of_list_singleton. auto.
  Qed.
  (** A future that is done gives no more results. *)
  Lemma done_step k v s' v' rs : ydo_step L k (FDone, v) = (s', v', rs) -> s' = FDone /\ PReady ∉ rs.
  Proof.
    unfold ydo_step. destruct k; [destruct (y_up_end v || y_hup v)|destruct (y_down_end v)|..]; cbn; intros [= <- <- <-]; split; auto; try apply not_elem_of_nil.
    by intros ?%elem_of_list_singleton.
  Qed.
  Lemma inv_play ks s v s' v' rs : inv v -> done_inv s v -> s <> FDead -> yplay L ks (s, v) = (s', v', rs) ->
    inv v' /\ done_inv s' v' /\ s' <> FDead /\ Forall fine rs /\ (s = FDone -> s' = FDone /\ PReady ∉ rs)
    /\ (PReady ∈ rs -> s' = FDone /\ exists l1 l2, rs = l1 ++ PReady :: l2 /\ PReady ∉ l1 /\ PReady ∉ l2).
  Proof.
    revert s v s' v' rs. induction ks as [|k ks IH]; intros s v s' v' rs Hi Hd Hs; cbn [yplay].
    - intros [= <- <- <-]. split_and!; auto; [intros ->; split; [done|apply not_elem_of_nil]|by intros ?%elem_of_nil].
    - destruct (ydo_step L k (s, v)) as [[s1 v1] r1] eqn:Hk. destruct (inv_step _ _ _ _ _ _ Hi Hd Hs Hk) as (Hi1 & Hd1 & Hs1 & Hf1 & Hr1).
      destruct (yplay L ks (s1, v1)) as [[s2 v2] r2] eqn:Hp. intros [= <- <- <-]. destruct (IH _ _ _ _ _ Hi1 Hd1 Hs1 Hp) as (?&?&?&?&Hdn&Hr2).
      split_and!; auto.
      + by apply Forall_app.
      + intros ->. destruct (done_step _ _ _ _ _ Hk) as [-> Hn]. destruct (Hdn eq_refl). split; [done|]. intros [?|?]%elem_of_app; done.
      + intros Hin. destruct (decide (PReady ∈ r1)) as [Hq1|Hq1].
        * destruct (Hdn (Hr1 Hq1)) as [-> Hn2]. split; [done|].
          assert (r1 = [PReady]) as ->.
          { revert Hk Hq1. unfold ydo_step. destruct k; [destruct (y_up_end v || y_hup v)|destruct (y_down_end v)|..]; try (intros [= <- <- <-] Hx; by apply elem_of_nil in Hx).
            destruct (yfpoll L n (s, v)) as [[? ?] ?]. intros [= <- <- <-] <-%elem_of_list_singleton. done. }
          exists [], r2. split_and!; [done|apply not_elem_of_nil|done].
        * apply elem_of_app in Hin as [?|Hin]; [done|]. destruct (Hr2 Hin) as (-> & l1 & l2 & -> & Hl1 & Hl2). split; [done|].
          exists (r1 ++ l1), l2. split_and!; [by rewrite app_assoc| |done]. intros [?|?]%elem_of_app; done.
  Qed.
  Lemma inv_leads r0 ks s v rs : yleads L r0 ks s v rs -> inv v /\ done_inv s v /\ s <> FDead /\ Forall fine rs
    /\ (PReady ∈ rs -> s = FDone /\ exists l1 l2, rs = l1 ++ PReady :: l2 /\ PReady ∉ l1 /\ PReady ∉ l2).
  Proof.
    intros Hp. destruct (inv_play ks FConnected (px_new r0) s v rs (inv_new r0) ltac:(intros [?|?]; done) ltac:(done) Hp) as (?&?&?&?&_&?). auto.
  Qed.
End ProxConn.
