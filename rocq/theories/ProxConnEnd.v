From Verif.Lib Require Import Base.
From Verif Require Import CodecModel ConnModel ConnSpec ConnLemmas ProxConnModel ProxConnSpec ProxConnLemmas.

Section ProxConnEnd.
  Context {R : Type} (L : lib R) (r0 : R).
  Local Notation px := (px R).

  Lemma traffic_lemma ks s v rs ms t : yleads L r0 ks s v rs -> XFinalize ms t ∈ k_log (y_c v) ->
    ms <> []
    /\ (exists b, app_wrote (y_trace v) = tb_app_sent t ++ b)
    /\ (exists b, tb_app_recv t = app_got (y_trace v) ++ b)
    /\ (exists b, sock_gave (y_trace v) = tb_tls_recv t ++ b)
    /\ (ends_once (y_trace v) -> tb_tls_recv t = sock_gave (y_trace v))
    /\ in_line (tb_tls_sent t) (sock_took (y_trace v))
    /\ SockEnded ∈ y_trace v.
  Proof.
    intros Hl Hin. destruct (inv_leads L r0 _ _ _ _ Hl) as [Hi _].
    assert (finalized (k_log (y_c v))) as Hf by (by exists ms, t).
    apply elem_of_list_split in Hin as (l1 & l2 & Hlog). destruct (i_fin _ Hi _ _ _ _ Hlog) as (_ & _ & -> & Hd1 & Hd2 & Hw & Hms).
    pose proof (i_in _ Hi) as H1. pose proof (i_got _ Hi) as H2. pose proof (i_sent _ Hi) as H3. pose proof (i_out _ Hi) as H4.
    rewrite Hlog, cons_middle in H1, H2, H3, H4.
    rewrite !data_in_app, data_in1, Hd1 in H1. rewrite !wire_in_app, wire_in1 in H2. rewrite !wire_out_app, wire_out1 in H3. rewrite !data_out_app, data_out1, Hd2 in H4. cbn [app] in *. rewrite !app_nil_r in *.
    destruct (i_sc _ Hi (i_fsc _ Hi Hf)) as [Hs Hr].
    split_and!; cbn [traffic_of tb_app_sent tb_app_recv tb_tls_recv tb_tls_sent]; eauto.
    - exists (wire_in l2 ++ y_rx v). by rewrite H2, <- app_assoc.
    - intros He. rewrite H2, Hw, Hr by done. by rewrite !app_nil_r.
    - unfold in_line. apply app_eq_inv in H3 as [(k & -> & _)|(k & -> & _)]; eauto.
    - by apply (i_srv _ Hi).
  Qed.
  Lemma once_lemma ks s v rs l1 ms t l2 : yleads L r0 ks s v rs -> k_log (y_c v) = l1 ++ XFinalize ms t :: l2 -> ~ finalized l1 /\ ~ finalized l2.
  Proof. intros Hl Hlog. destruct (inv_leads L r0 _ _ _ _ Hl) as [Hi _]. by destruct (i_fin _ Hi _ _ _ _ Hlog) as (? & ? & _). Qed.
  Lemma success_traffic ks s v rs : yleads L r0 ks s v rs -> PReady ∈ rs -> exists ms t, XFinalize ms t ∈ k_log (y_c v).
  Proof. intros Hl Hr. destruct (inv_leads L r0 _ _ _ _ Hl) as (_ & Hd & _ & _ & Hx). destruct (Hx Hr) as [-> _]. apply Hd. by right. Qed.
  Lemma notify_lemma ks s v rs l1 l2 : yleads L r0 ks s v rs -> k_log (y_c v) = l1 ++ XNotify :: l2 ->
    XNotify ∉ l1 /\ XNotify ∉ l2 /\ data_in l1 = app_wrote (y_trace v) /\ (AppClosed ∈ y_trace v \/ AppDropped ∈ y_trace v).
  Proof.
    intros Hl Hlog. destruct (inv_leads L r0 _ _ _ _ Hl) as [Hi _]. destruct (i_not _ Hi _ _ Hlog) as (? & ? & Hd).
    assert (k_cc (y_c v) = true) as Hcc by (apply (i_ncc _ Hi); rewrite Hlog; apply elem_of_app; right; by left).
    destruct (i_cc _ Hi Hcc) as [Hu He]. split_and!; auto; [|by apply (i_ue _ Hi)].
    by rewrite (i_in _ Hi), Hu, Hlog, cons_middle, !data_in_app, data_in1, Hd, !app_nil_r.
  Qed.
  Lemma fine_lemma ks s v rs : yleads L r0 ks s v rs -> PPanic ∉ rs /\ PHang ∉ rs /\
    (PReady ∈ rs -> s = FDone /\ exists l1 l2, rs = l1 ++ PReady :: l2 /\ PReady ∉ l1 /\ PReady ∉ l2).
  Proof.
    intros Hl. destruct (inv_leads L r0 _ _ _ _ Hl) as (_ & _ & _ & Hf & Hx). rewrite Forall_forall in Hf.
    split_and!; [| |done]; intros H; destruct (Hf _ H) as [?|[?|?]]; done.
  Qed.

  (** ** The flags *)
  Definition flags (v : px) : Prop := (SockEnded ∈ y_trace v -> y_server_closed v = true) /\ (y_hup v = true -> HungUp ∈ y_trace v).
  Lemma flags_same v v' : flags v -> y_trace v' = y_trace v -> y_server_closed v' = y_server_closed v -> y_hup v' = y_hup v -> flags v'.
  Proof. unfold flags. by intros Hf -> -> ->. Qed.
  Lemma flags_note e v v' : flags v -> e <> SockEnded -> y_trace v' = y_trace v ++ [e] -> y_server_closed v' = y_server_closed v -> y_hup v' = y_hup v -> flags v'.
  Proof.
    unfold flags. intros [H1 H2] He -> -> ->. split.
    - intros [H|H%elem_of_list_singleton]%elem_of_app; [auto|by subst].
    - intros H. apply elem_of_app. auto.
  Qed.
  Lemma flags_hang_up v : flags v -> flags (yhang_up v) /\ y_hup (yhang_up v) = true.
  Proof.
    unfold flags, yhang_up. intros [H1 H2]. destruct (y_hup v) eqn:Hh; [by rewrite Hh|]. pj. split_and!; [| |done].
    - intros [H|H%elem_of_list_singleton]%elem_of_app; [auto|done].
    - intros _. apply in_r.
  Qed.
  Lemma flags_poll n v v' r : flags v -> ypoll L n v = (v', r) -> flags v' /\ (r = PReady -> y_hup v' = true).
  Proof.
    intros Hf. unfold ypoll, orelse.
    assert (forall v, flags v -> flags v /\ (PErr = PReady -> y_hup v = true)) as He by done.
    destruct (yfrom_app L v) as [v1|] eqn:H1; [|intros [= <- <-]; auto].
    assert (flags v1) as Hf1.
    { revert H1. unfold yfrom_app. destruct (y_up v); [|destruct (k_wants_write (y_c v)); [destruct (k_write L _ _) as [[]|]|]]; try (intros [= <-]; done).
      destruct (_ && _); intros [= <-]; done. }
    destruct (yfrom_socket (n_read n) v1) as [v2|] eqn:H2; [|intros [= <- <-]; auto].
    assert (flags v2) as Hf2.
    { revert H2. unfold yfrom_socket. destruct (n_read n); try (intros [= <-]; done).
      - intros [= <-]. by apply (flags_note (SockGave (take (fit (y_rx v1) (length b)) b)) v1).
      - destruct (_ || _); intros [= <-]; [done|]. destruct Hf1. split; pj; [done|]. intros H'. apply elem_of_app. auto. }
    destruct (yto_client L v2) as [v3|] eqn:H3; [|intros [= <- <-]; auto].
    assert (flags v3) as Hf3.
    { revert H3. unfold yto_client. destruct (y_rx v2); [destruct (y_server_closed v2) eqn:Hs|destruct (l_wants_read L _); [destruct (k_read_tls L _ _) as [[]|]|]]; try (intros [= <-]; done). }
    destruct (if y_output v3 then (y_c v3, PPending) else kpoll L (n_ready n) (n_final n) (y_c v3)) as [c p].
    assert (forall w, flags w -> forall v' r,
      match yfrom_client L w with
      | Some v =>
          match yto_socket (n_write n) v with
          | Some v =>
              match yto_app L v with
              | Some v =>
                  if y_server_closed v && y_output v then
                    let v := yhang_up v in
                    match n_close n with CPending => (v, PPending) | CDone => (ynote SockClosed v, PReady) | CFail => (v, PErr) end
                  else (v, PPending)
              | None => (v, PErr)
              end
          | None => (v, PErr)
          end
      | None => (w, PErr)
      end = (v', r) -> flags v' /\ (r = PReady -> y_hup v' = true)) as Hrest.
    { clear dependent v v1 v2 v3. intros w Hw vz rz.
      destruct (yfrom_client L w) as [v5|] eqn:H5; [|intros [= <- <-]; auto].
      assert (flags v5) as Hf5.
      { revert H5. unfold yfrom_client. destruct (full _); [by intros [= <-]|]. destruct (k_write_tls L _ _) as [[]|]; [|done]. by intros [= <-]. }
      destruct (yto_socket (n_write n) v5) as [v6|] eqn:H6; [|intros [= <- <-]; auto].
      assert (flags v6) as Hf6.
      { revert H6. unfold yto_socket. destruct (y_tx v5) as [|b0 bs] eqn:Htx; [by intros [= <-]|]. destruct (n_write n); try (intros [= <-]; done).
        intros [= <-]. by apply (flags_note (SockTook (take n0 (b0 :: bs))) v5). }
      destruct (yto_app L v6) as [v7|] eqn:H7; [|intros [= <- <-]; auto].
      assert (flags v7) as Hf7.
      { revert H7. unfold yto_app. destruct (_ || _); [by intros [= <-]|]. destruct (k_wants_read _); [|by intros [= <-]]. destruct (k_read L _ _) as [[]|]; [|done]. by intros [= <-]. }
      destruct (_ && _); [|intros [= <- <-]; done]. destruct (flags_hang_up _ Hf7) as [Hh Hx]. cbv zeta.
      destruct (n_close n); intros [= <- <-]; [done| |done]. split; [|done]. by apply (flags_note SockClosed (yhang_up v7)). }
    assert (flags (sy_c c v3)) as Hfc by done.
    destruct p; try (intros [= <- <-]; done); (eapply Hrest; done).
  Qed.
  Definition told (s : fut) (v : px) : Prop := flags v /\ (s <> FConnected -> s <> FDead -> y_hup v = true).
  Lemma told_finishing n good v s v' r : flags v -> (good = true -> y_hup v = true) -> yfinishing n good v = (s, v', r) -> told s v'.
  Proof.
    intros Hf Hg. unfold yfinishing, told. destruct good.
    - specialize (Hg eq_refl). destruct (n_ready n) as [|[] ?]; [destruct (n_final n)|destruct (n_final n)|]; intros [= <- <- <-]; done.
    - destruct (flags_hang_up _ Hf) as [Hh Hx]. destruct (n_close n); intros [= <- <- <-]; [done|..]; (split; [by apply (flags_note SockClosed (yhang_up v))|done]).
  Qed.
  Lemma told_step k s v s' v' rs : told s v -> ydo_step L k (s, v) = (s', v', rs) -> told s' v'.
  Proof.
    intros [Hf Ht]. unfold ydo_step. destruct k as [b|n| | |n].
    - destruct (_ || _); intros [= <- <- <-]; [done|]. split; [|done]. by eapply (flags_note (AppWrote _) v).
    - destruct (y_down_end v); intros [= <- <- <-]; [done|]. split; [|done]. by eapply (flags_note (AppGot _) v).
    - destruct (y_up_end v); intros [= <- <- <-]; [done|]. split; [|done]. by eapply (flags_note AppClosed v).
    - destruct (y_down_end v); intros [= <- <- <-]; [done|]. split; [|done]. by eapply (flags_note AppDropped v).
    - destruct (yfpoll L n (s, v)) as [[s1 v1] r] eqn:Hp. intros [= <- <- <-]. revert Hp. unfold yfpoll. destruct s.
      + destruct (ypoll L n v) as [v2 p] eqn:Hp. destruct (flags_poll _ _ _ _ Hf Hp) as [H1 H2].
        destruct p; try (intros [= <- <- <-]; done); eapply told_finishing; eauto. done.
      + eapply told_finishing; [done|]. intros ->. by apply Ht.
      + intros [= <- <- <-]. done.
      + intros [= <- <- <-]. done.
      + intros [= <- <- <-]. done.
  Qed.
  Lemma told_lemma ks s v rs : yleads L r0 ks s v rs -> told s v.
  Proof.
    unfold yleads. assert (told FConnected (px_new r0)) as Hn.
    { split; [|done]. split; cbn; [|done]. by intros ?%elem_of_nil. }
    unfold ybegin. revert Hn. generalize FConnected (px_new r0). revert s v rs. induction ks as [|k ks IH]; intros s v rs f w Hw; cbn [yplay].
    - by intros [= <- <- <-].
    - destruct (ydo_step L k (f, w)) as [[s1 v1] r1] eqn:Hk. destruct (yplay L ks (s1, v1)) as [[s2 v2] r2] eqn:Hp. intros [= <- <- <-].
      eapply IH; [|exact Hp]. by eapply told_step.
  Qed.
  Lemma hup_lemma ks s v rs : yleads L r0 ks s v rs -> s <> FConnected -> HungUp ∈ y_trace v.
  Proof.
    intros Hl Hs. destruct (inv_leads L r0 _ _ _ _ Hl) as (_ & _ & Hd & _). destruct (told_lemma _ _ _ _ Hl) as [[_ Hh] Hx]. auto.
  Qed.

  (** ** A client that failed is noticed *)
  Definition alive (s : fut) (v : px) : Prop := s = FConnected -> k_st (y_c v) = XError -> y_output v = true.
  Lemma kpoll_conn_alive rd f sent c c' : kpoll_conn L rd f sent c = (c', PPending) -> k_st c' <> XError.
  Proof.
    unfold kpoll_conn, kpoll_conn_once, kpoll_final. destruct (l_process L (k_r c)) as [r ok]. destruct ok; cbn [negb]; [|done]. pj.
    destruct (k_sc c); [destruct (l_ms L r); [done|]; destruct (k_time c); [|done]; destruct rd as [|[] ?], f; intros [= <-]; done|].
    destruct (k_cc c && negb sent); [|by intros [= <-]].
    pj. destruct (l_process L (l_notify L r)) as [r' ok']. destruct ok'; cbn [negb]; [|done]. pj.
    rewrite andb_false_r. by intros [= <-].
  Qed.
  Lemma kpoll_alive rd f c c' : kpoll L rd f c = (c', PPending) -> k_st c' <> XError.
  Proof.
    unfold kpoll.
    assert (kpoll_hand L rd f c = (c', PPending) -> k_st c' <> XError) as Hh.
    { unfold kpoll_hand. destruct (l_process L (k_r c)) as [r ok]. destruct ok; cbn [negb]; [|done]. destruct (l_handshaking L r); [by intros [= <-]|]. apply kpoll_conn_alive. }
    destruct (k_st c); auto.
    - apply kpoll_conn_alive.
    - unfold kpoll_final. destruct rd as [|[] ?], f; intros [= <-]; done.
  Qed.
  Lemma yfrom_app_st v v' : yfrom_app L v = Some v' -> k_st (y_c v') = k_st (y_c v) /\ y_output v' = y_output v.
  Proof.
    unfold yfrom_app. destruct (y_up v); [destruct (_ && _); by intros [= <-]|]. destruct (k_wants_write _); [|by intros [= <-]].
    unfold k_write. destruct (l_write L _ _) as [? [|]]; [|done]. by intros [= <-].
  Qed.
  Lemma yfrom_socket_st r (v v' : px) : yfrom_socket r v = Some v' -> k_st (y_c v') = k_st (y_c v) /\ y_output v' = y_output v.
  Proof. unfold yfrom_socket. destruct r; try (by intros [= <-]). destruct (_ || _); by intros [= <-]. Qed.
  Lemma yto_client_st v v' : yto_client L v = Some v' -> k_st (y_c v') = k_st (y_c v) /\ y_output v' = y_output v.
  Proof.
    unfold yto_client. destruct (y_rx v); [destruct (y_server_closed v); by intros [= <-]|]. destruct (l_wants_read _); [|by intros [= <-]].
    unfold k_read_tls. destruct (l_read_tls L _ _) as [? [|]]; [|done]. by intros [= <-].
  Qed.
  Lemma yfrom_client_st v v' : yfrom_client L v = Some v' -> k_st (y_c v') = k_st (y_c v) /\ y_output v' = y_output v.
  Proof.
    unfold yfrom_client. destruct (full _); [by intros [= <-]|].
    unfold k_write_tls. destruct (l_write_tls L _ _) as [? [|]]; [|done]. by intros [= <-].
  Qed.
  Lemma yto_socket_st w (v v' : px) : yto_socket w v = Some v' -> k_st (y_c v') = k_st (y_c v) /\ y_output v' = y_output v.
  Proof. unfold yto_socket. destruct (y_tx v); [by intros [= <-]|]. destruct w; try done; by intros [= <-]. Qed.
  Lemma yto_app_st v v' : yto_app L v = Some v' -> k_st (y_c v') = k_st (y_c v) /\ y_output v' = y_output v.
  Proof.
    unfold yto_app. destruct (_ || _); [by intros [= <-]|]. destruct (k_wants_read _); [|by intros [= <-]].
    unfold k_read. destruct (l_read L _ _) as [? [|]]; [|done]. by intros [= <-].
  Qed.
  Lemma alive_poll n v v' : alive FConnected v -> ypoll L n v = (v', PPending) -> alive FConnected v'.
  Proof.
    intros Ha. unfold ypoll, orelse.
    destruct (yfrom_app L v) as [v1|] eqn:H1; [|done]. apply yfrom_app_st in H1 as [A1 B1].
    destruct (yfrom_socket (n_read n) v1) as [v2|] eqn:H2; [|done]. apply yfrom_socket_st in H2 as [A2 B2].
    destruct (yto_client L v2) as [v3|] eqn:H3; [|done]. apply yto_client_st in H3 as [A3 B3].
    destruct (if y_output v3 then (y_c v3, PPending) else kpoll L (n_ready n) (n_final n) (y_c v3)) as [c p] eqn:H4.
    assert (p = PPending -> k_st c = XError -> y_output v3 = true) as Hp.
    { intros ->. destruct (y_output v3); [done|]. intros He. by apply kpoll_alive in H4. }
    assert (forall w, (k_st (y_c w) = XError -> y_output w = true) -> forall v',
      match yfrom_client L w with
      | Some v =>
          match yto_socket (n_write n) v with
          | Some v =>
              match yto_app L v with
              | Some v =>
                  if y_server_closed v && y_output v then
                    let v := yhang_up v in
                    match n_close n with CPending => (v, PPending) | CDone => (ynote SockClosed v, PReady) | CFail => (v, PErr) end
                  else (v, PPending)
              | None => (v, PErr)
              end
          | None => (v, PErr)
          end
      | None => (w, PErr)
      end = (v', PPending) -> alive FConnected v') as Hrest.
    { clear. intros w Hw v'. destruct (yfrom_client L w) as [v5|] eqn:H5; [|done]. apply yfrom_client_st in H5 as [A5 B5].
      destruct (yto_socket (n_write n) v5) as [v6|] eqn:H6; [|done]. apply yto_socket_st in H6 as [A6 B6].
      destruct (yto_app L v6) as [v7|] eqn:H7; [|done]. apply yto_app_st in H7 as [A7 B7].
      assert (k_st (y_c v7) = XError -> y_output v7 = true) as Hw7 by (rewrite A7, A6, A5, B7, B6, B5; done).
      destruct (_ && _); [|intros [= <-]; by intros _]. cbv zeta. destruct (n_close n); intros [= <-]; unfold yhang_up, alive; destruct (y_hup v7); done. }
    destruct p; try done; apply Hrest; pj; auto.
  Qed.
  Lemma alive_lemma ks s v rs : yleads L r0 ks s v rs -> alive s v.
  Proof.
    unfold yleads. assert (alive FConnected (px_new r0)) as Hn by done.
    unfold ybegin. revert Hn. generalize FConnected (px_new r0). revert s v rs. induction ks as [|k ks IH]; intros s v rs f w Hw; cbn [yplay].
    - by intros [= <- <- <-].
    - destruct (ydo_step L k (f, w)) as [[s1 v1] r1] eqn:Hk. destruct (yplay L ks (s1, v1)) as [[s2 v2] r2] eqn:Hp. intros [= <- <- <-].
      eapply IH; [|exact Hp]. revert Hk. unfold ydo_step. destruct k as [b|n| | |n].
      + destruct (_ || _); by intros [= <- <- <-].
      + destruct (y_down_end w); by intros [= <- <- <-].
      + destruct (y_up_end w); by intros [= <- <- <-].
      + destruct (y_down_end w); by intros [= <- <- <-].
      + unfold yfpoll. destruct f.
        * destruct (ypoll L n w) as [v3 p] eqn:Hq. destruct p.
          -- intros [= <- <- <-]. by eapply alive_poll.
          -- unfold yfinishing. destruct (n_ready n) as [|[] ?]; destruct (n_final n); intros [= <- <- <-]; done.
          -- unfold yfinishing. destruct (n_close n); intros [= <- <- <-]; done.
          -- intros [= <- <- <-]. done.
          -- intros [= <- <- <-]. done.
        * unfold yfinishing. destruct good; [destruct (n_ready n) as [|[] ?]; destruct (n_final n)|destruct (n_close n)]; intros [= <- <- <-]; done.
        * intros [= <- <- <-]. done.
        * intros [= <- <- <-]. done.
        * intros [= <- <- <-]. done.
  Qed.

  (** ** A connection that is over ends *)
  Lemma ends_lemma ks v rs n : never_fails L -> stays_connected L ->
    yleads L r0 ks FConnected v rs -> SockEnded ∈ y_trace v -> wire_in (k_log (y_c v)) = sock_gave (y_trace v) ->
    l_handshaking L (k_r (y_c v)) = false ->
    n_ready n = [] -> n_final n = true -> n_read n = RPending -> n_write n <> WFail -> n_close n = CDone ->
    exists v', yfpoll L n (FConnected, v) = (FDone, v', PReady).
  Proof.
    intros Hnf Hsc Hl Hend Hall Hhs Hr Hfin Hrd Hwr Hcl. pose proof (alive_lemma _ _ _ _ Hl eq_refl) as Hal.
    destruct (inv_leads L r0 _ _ _ _ Hl) as [Hi _]. destruct (told_lemma _ _ _ _ Hl) as [[Hs _] _]. specialize (Hs Hend).
    assert (y_rx v = []) as Hrx. { pose proof (i_got _ Hi) as H. rewrite <- Hall in H. rewrite <- app_nil_r in H at 1. by apply app_inv_head in H. }
    assert (forall w, y_rx w = [] -> k_st (y_c w) <> XError ->
      l_handshaking L (k_r (y_c w)) = false -> (forall b, k_st (y_c w) = XConn b -> k_time (y_c w) = true) ->
      k_sc (y_c w) = true ->
      exists c, kpoll L [] true (y_c w) = (c, PReady) /\ k_st c = XError) as Hk.
    { intros w _ Hw Hh Ht Hc. unfold kpoll.
      assert (forall sent again, k_time (y_c w) = true -> l_handshaking L (k_r (y_c w)) = false -> exists c, kpoll_conn_once L [] true (y_c w) again sent = (c, PReady) /\ k_st c = XError) as Hcn.
      { intros sent again Htm Hhw. unfold kpoll_conn_once. pose proof (nf_process L Hnf (k_r (y_c w))) as Hp. pose proof (sc_process L Hsc _ Hhw) as Hq.
        destruct (l_process L (k_r (y_c w))) as [r ok]. cbn in Hp, Hq. subst ok. cbn [negb]. pj. rewrite Hc. pose proof (sc_ms L Hsc r Hq) as Hm. destruct (l_ms L r); [done|].
        rewrite Htm. cbn [kpoll_final]. eexists. by split. }
      assert (l_handshaking L (k_r (y_c w)) = false -> exists c, kpoll_hand L [] true (y_c w) = (c, PReady) /\ k_st c = XError) as Hha.
      { intros Hhw. unfold kpoll_hand. pose proof (nf_process L Hnf (k_r (y_c w))) as Hp. pose proof (sc_process L Hsc _ Hhw) as Hq.
        destruct (l_process L (k_r (y_c w))) as [r ok]. cbn in Hp, Hq. subst ok. cbn [negb]. rewrite Hq. unfold kpoll_conn, kpoll_conn_once.
        pj. pose proof (nf_process L Hnf r) as Hp'. pose proof (sc_process L Hsc _ Hq) as Hq'. destruct (l_process L r) as [r' ok]. cbn in Hp', Hq'. subst ok. cbn [negb]. pj. rewrite Hc.
        pose proof (sc_ms L Hsc r' Hq') as Hm. destruct (l_ms L r'); [done|]. cbn [kpoll_final]. eexists. by split. }
      destruct (k_st (y_c w)) eqn:Hst'; [by apply Hha|by apply Hha| | |done].
      - unfold kpoll_conn. apply Hcn; [by eapply Ht|done].
      - cbn [kpoll_final]. eexists. by split. }
    (** the steps before the client is polled *)
    assert (exists v1, yfrom_app L v = Some v1 /\ y_rx v1 = [] /\ y_server_closed v1 = true /\ y_output v1 = y_output v /\ k_st (y_c v1) = k_st (y_c v)
      /\ k_time (y_c v1) = k_time (y_c v) /\ (l_handshaking L (k_r (y_c v)) = false -> l_handshaking L (k_r (y_c v1)) = false)) as (v1 & E1 & A1 & A2 & A3 & A4 & A5 & A6).
    { unfold yfrom_app. destruct (y_up v) as [|b0 bs].
      - rewrite Hs. cbn [negb]. rewrite andb_false_r. eexists. split; [done|]. split_and!; done.
      - destruct (k_wants_write (y_c v)); [|eexists; split; [done|]; by split_and!]. unfold k_write.
        pose proof (nf_write L Hnf (k_r (y_c v)) (b0 :: bs)) as Hn. pose proof (sc_write L Hsc (k_r (y_c v)) (b0 :: bs)) as Hw. destruct (l_write L _ _) as [r [m|]]; [|done].
        eexists. split; [done|]. by split_and!. }
    assert (yfrom_socket (n_read n) v1 = Some v1) as E2 by (by rewrite Hrd).
    set (v3 := sy_c (sk_sc true (y_c v1)) v1).
    assert (yto_client L v1 = Some v3) as E3 by (unfold yto_client; by rewrite A1, A2).
    assert (exists c p, (if y_output v3 then (y_c v3, PPending) else kpoll L [] true (y_c v3)) = (c, p) /\ k_wants_read c = false
      /\ (p = PReady \/ (p = PPending /\ y_output v3 = true))) as (c & p & Hc & Hce & Hpp).
    { destruct (y_output v3) eqn:Ho.
      - exists (y_c v3), PPending. split; [done|]. split; [|auto]. cbn in Ho. rewrite A3 in Ho. unfold k_wants_read. cbn. rewrite A4. by destruct (i_st _ Hi (i_output _ Hi Ho)) as [-> | ->].
      - destruct (Hk v3) as (c & Hc & Hce); try done.
        + cbn in *. rewrite A4. rewrite A3 in Ho. intros He. rewrite Hal in Ho by done. done.
        + cbn in *. auto.
        + intros b H. cbn in *. rewrite A5. eapply (i_time _ Hi b). by rewrite <- A4.
        + exists c, PReady. split; [done|]. split; [|auto]. unfold k_wants_read. by rewrite Hce. }
    set (v4 := match p with PReady => sy_output true (sy_c c v3) | _ => sy_c c v3 end).
    assert (y_server_closed v4 = true /\ y_output v4 = true /\ k_wants_read (y_c v4) = false) as (D1 & D2 & D3) by (destruct Hpp as [-> | [-> ?]]; done).
    assert (exists v5, yfrom_client L v4 = Some v5 /\ y_server_closed v5 = true /\ y_output v5 = true /\ k_wants_read (y_c v5) = false) as (v5 & E5 & B1 & B2 & B3).
    { unfold yfrom_client. destruct (full (y_tx v4)); [by exists v4|]. unfold k_write_tls. pose proof (nf_write_tls L Hnf (k_r (y_c v4)) (room (y_tx v4))) as Hn.
      destruct (l_write_tls L _ _) as [r [b|]]; [|done]. eexists. split; [done|]. by split_and!. }
    assert (exists v6, yto_socket (n_write n) v5 = Some v6 /\ y_server_closed v6 = true /\ y_output v6 = true /\ k_wants_read (y_c v6) = false) as (v6 & E6 & C1 & C2 & C3).
    { unfold yto_socket. destruct (y_tx v5); [by exists v5|]. destruct (n_write n); try done; eexists; (split; [done|]); by split_and!. }
    assert (yto_app L v6 = Some v6) as E7. { unfold yto_app. rewrite C3. by destruct (_ || _). }
    exists (ynote SockClosed (yhang_up v6)).
    unfold yfpoll, ypoll, orelse. rewrite E1, E2, E3, Hr, Hfin, Hc. cbv zeta.
    destruct Hpp as [-> | [-> _]]; fold v4; rewrite E5, E6, E7, C1, C2, Hcl; cbn [andb]; unfold yfinishing; by rewrite Hr, Hfin.
  Qed.
End ProxConnEnd.
