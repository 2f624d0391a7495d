(** A small TLS library to try a proxy connection with, and histories. *)
From Verif.Lib Require Import Base.
From Verif Require Import CodecModel ConnModel ConnSpec ConnLemmas ConnExamples ProxConnModel ProxConnSpec ProxConnLemmas ProxConnEnd.

(** Encryption is the identity, the handshake is one byte (22) in each direction, and the closing alert is the
    byte 21. *)
Record toy := Toy { t_hs : bool; t_out : bytes; t_plain : bytes }.
Definition toy0 : toy := Toy true [22%N] [].
Definition toyL : lib toy := {|
  l_wants_read r := match t_plain r with [] => true | _ => false end;
  l_handshaking r := t_hs r;
  l_read_tls r b :=
    (match b with
     | h :: b' => if (h =? 22)%N && t_hs r then Toy false (t_out r) (t_plain r ++ b') else Toy (t_hs r) (t_out r) (t_plain r ++ b)
     | [] => r
     end, Some (length b));
  l_write_tls r n :=
    let k := N.to_nat (N.min (N.of_nat (length (t_out r))) n) in
    (Toy (t_hs r) (drop k (t_out r)) (t_plain r), Some (take k (t_out r)));
  l_read r n :=
    let k := N.to_nat (N.min (N.of_nat (length (t_plain r))) n) in
    (Toy (t_hs r) (t_out r) (drop k (t_plain r)), Some (take k (t_plain r)));
  l_write r b := (Toy (t_hs r) (t_out r ++ b) (t_plain r), Some (length b));
  l_process r := (r, true);
  l_notify r := Toy (t_hs r) (t_out r ++ [21%N]) (t_plain r);
  l_ms r := if t_hs r then [] else [1%N] |}.
Lemma toy_never_fails : never_fails toyL. Proof. split; done. Qed.
Lemma toy_stays : stays_connected toyL.
Proof. split; cbn; try done; [|by intros r ->]. intros r [|h b] H; cbn; [done|]. by destruct (_ && _). Qed.

Definition poll (r : sread) (w : swrite) : pstep := SPoll (Input [] true r w CDone).
(** A good connection: handshake, request, response, close. *)
Definition good_steps : list pstep :=
  [SWrite [1; 2]%N; poll RPending (WTake 10); poll (RData [22]%N) (WTake 10); poll (RData [3; 4; 5]%N) (WTake 10); SRead 2; SClose;
   poll RPending (WTake 10); poll REnd (WTake 10)].
Definition good_st := Eval vm_compute in yplay toyL good_steps (ybegin toy0).
Lemma good_leads : yleads toyL toy0 good_steps good_st.1.1 good_st.1.2 good_st.2. Proof. vm_compute. reflexivity. Qed.
(** The server closes while the application writes. *)
Definition late_steps : list pstep := [poll RPending (WTake 10); poll (RData [22]%N) (WTake 10); SWrite [1; 2]%N; poll REnd (WTake 10)].
Definition late_st := Eval vm_compute in yplay toyL late_steps (ybegin toy0).
Lemma late_leads : yleads toyL toy0 late_steps late_st.1.1 late_st.1.2 late_st.2. Proof. vm_compute. reflexivity. Qed.
(** The socket takes nothing any more. *)
Definition stuck_steps : list pstep := [poll RPending (WTake 10); poll (RData [22]%N) (WTake 10); SWrite [1; 2]%N; poll RPending WPending; poll REnd WPending].
Definition stuck_st := Eval vm_compute in yplay toyL stuck_steps (ybegin toy0).
Lemma stuck_leads : yleads toyL toy0 stuck_steps stuck_st.1.1 stuck_st.1.2 stuck_st.2. Proof. vm_compute. reflexivity. Qed.
(** The server closes before the handshake is over. *)
Definition early_steps : list pstep := [poll RPending (WTake 10); poll REnd (WTake 10)].
Definition early_st := Eval vm_compute in yplay toyL early_steps (ybegin toy0).
Lemma early_leads : yleads toyL toy0 early_steps early_st.1.1 early_st.1.2 early_st.2. Proof. vm_compute. reflexivity. Qed.
(** Just before the end. *)
Definition over_steps : list pstep := take 7 good_steps ++ [SPoll (Input [false] true REnd (WTake 10) CDone)].
Definition over_st := Eval vm_compute in yplay toyL over_steps (ybegin toy0).
Lemma over_leads : yleads toyL toy0 over_steps over_st.1.1 over_st.1.2 over_st.2. Proof. vm_compute. reflexivity. Qed.

(** ** The witnesses *)
Lemma once_good : ends_once (y_trace good_st.1.2).
Proof.
  change (y_trace good_st.1.2) with
    ([AppWrote [1; 2]%N; SockTook [22]%N; SockGave [22]%N; SockTook [1; 2]%N; SockGave [3; 4; 5]%N; AppGot [3; 4]%N; AppClosed; SockTook [21]%N] ++ SockEnded :: [HungUp; SockClosed]) || idtac.
  apply (once_one _ _); repeat (rewrite not_elem_of_cons; split; [done|]); try apply not_elem_of_nil. done.
Qed.

(** The server closes during the handshake: whatever else happens, as long as the socket neither gives bytes nor
    fails, the future never ends. *)
Definition silent (k : pstep) : Prop :=
  match k with SPoll n => (n_read n = RPending \/ n_read n = REnd) /\ n_write n <> WFail | _ => True end.
Definition hung (v : px toy) : Prop :=
  k_st (y_c v) = XHand /\ t_hs (k_r (y_c v)) = true /\ y_rx v = [] /\ y_server_closed v = true /\ y_output v = false.
Lemma hung_poll n v : silent (SPoll n) -> hung v -> exists v', ypoll toyL n v = (v', PPending) /\ hung v'.
Proof.
  intros [Hr Hw] (H1 & H2 & H3 & H4 & H5). unfold ypoll, orelse.
  assert (exists v1, yfrom_app toyL v = Some v1 /\ hung v1) as (v1 & -> & Hv1).
  { unfold yfrom_app. destruct (y_up v) as [|b0 bs].
    - rewrite H4. cbn [negb]. rewrite andb_false_r. exists v. by split_and!.
    - destruct (k_wants_write (y_c v)); [|exists v; by split_and!]. eexists. split; [reflexivity|]. by split_and!. }
  clear dependent v. destruct Hv1 as (H1 & H2 & H3 & H4 & H5).
  assert (yfrom_socket (n_read n) v1 = Some v1) as -> by (destruct Hr as [-> | ->]; cbn; by rewrite ?H4, ?orb_true_r).
  unfold yto_client. rewrite H3, H4. cbv beta iota. pj. rewrite H5. unfold kpoll. pj. rewrite H1. unfold kpoll_hand. cbn [toyL l_process negb l_handshaking]. pj. rewrite H2. cbv beta iota zeta.
  match goal with |- context [yfrom_client toyL ?w] => set (v4 := w) end.
  assert (hung v4) as Hv4 by (by split_and!). clearbody v4. clear dependent v1.
  assert (exists v5, yfrom_client toyL v4 = Some v5 /\ hung v5) as (v5 & -> & Hv5).
  { destruct Hv4 as (H1 & H2 & H3 & H4 & H5). unfold yfrom_client. destruct (full (y_tx v4)); [exists v4; by split_and!|]. eexists. split; [reflexivity|]. by split_and!. }
  assert (exists v6, yto_socket (n_write n) v5 = Some v6 /\ hung v6) as (v6 & -> & Hv6).
  { destruct Hv5 as (H1 & H2 & H3 & H4 & H5). unfold yto_socket. destruct (y_tx v5); [exists v5; by split_and!|]. destruct (n_write n); try done; eexists; (split; [reflexivity|by split_and!]). }
  assert (yto_app toyL v6 = Some v6) as ->. { unfold yto_app, k_wants_read. destruct Hv6 as (-> & _). by destruct (_ || _). }
  exists v6. split; [|done]. destruct Hv6 as (_ & _ & _ & -> & ->). done.
Qed.
Lemma hung_play ks v : Forall silent ks -> hung v -> exists v' rs, yplay toyL ks (FConnected, v) = (FConnected, v', rs) /\ Forall (fun r => r = PPending) rs /\ hung v'.
Proof.
  revert v. induction ks as [|k ks IH]; intros v Hs Hv; [exists v, []; split; [done|]; split; [constructor|done]|].
  apply Forall_cons in Hs as [Hk Hs].
  assert (exists v1 r1, ydo_step toyL k (FConnected, v) = (FConnected, v1, r1) /\ Forall (fun r => r = PPending) r1 /\ hung v1) as (v1 & r1 & E1 & Hr1 & Hv1).
  { destruct k as [b|n| | |n]; cbn [ydo_step].
    - destruct (_ || _); eexists _, _; (split; [reflexivity|split; [constructor|done]]).
    - destruct (y_down_end v); eexists _, _; (split; [reflexivity|split; [constructor|done]]).
    - destruct (y_up_end v); eexists _, _; (split; [reflexivity|split; [constructor|done]]).
    - destruct (y_down_end v); eexists _, _; (split; [reflexivity|split; [constructor|done]]).
    - destruct (hung_poll n v Hk Hv) as (v1 & E1 & Hv1). exists v1, [PPending]. unfold yfpoll. rewrite E1. split; [done|]. split; [by repeat constructor|done]. }
  destruct (IH v1 Hs Hv1) as (v2 & r2 & E2 & Hr2 & Hv2). exists v2, (r1 ++ r2). cbn [yplay]. rewrite E1, E2. split_and!; [done| |done]. by apply Forall_app.
Qed.
Lemma early_hung : hung early_st.1.2. Proof. by split_and!. Qed.
Lemma yplay_app {R} (L : lib R) ks1 ks2 s s1 r1 s2 r2 : yplay L ks1 s = (s1, r1) -> yplay L ks2 s1 = (s2, r2) -> yplay L (ks1 ++ ks2) s = (s2, r1 ++ r2).
Proof.
  revert s r1. induction ks1 as [|k ks1 IH]; intros s r1; cbn [yplay app]; [by intros [= <- <-]|].
  destruct (ydo_step L k s) as [s3 r3]. destruct (yplay L ks1 s3) as [s4 r4] eqn:E4. intros [= <- <-] H2. rewrite (IH _ _ E4 H2). by rewrite app_assoc.
Qed.
Lemma early_never : yleads toyL toy0 early_steps early_st.1.1 early_st.1.2 early_st.2 /\ SockEnded ∈ y_trace early_st.1.2
  /\ wire_in (k_log (y_c early_st.1.2)) = sock_gave (y_trace early_st.1.2) /\
  forall ks, Forall silent ks -> exists v rs, yleads toyL toy0 (early_steps ++ ks) FConnected v rs /\ Forall (fun r => r = PPending) rs.
Proof.
  split_and!; [exact early_leads|right; left|done|].
  intros ks Hks. destruct (hung_play ks _ Hks early_hung) as (v & rs & E & Hr & _).
  eexists _, _. split; [eapply (yplay_app toyL early_steps ks); [exact early_leads|exact E]|]. apply Forall_app. split; [|done]. by repeat constructor.
Qed.

(** The application reads nothing while the server sends one byte more than the pipe to the application holds. *)
Section Slow.
  Context (b : bytes) (Hb : N.of_nat (length b) = BUF_CAP).
  Definition slow_steps : list pstep := [poll RPending (WTake 10); poll (RData [22]%N) (WTake 10); poll (RData b) (WTake 10); poll (RData [7]%N) (WTake 10); poll REnd (WTake 10)].
  Definition slow2 := Eval vm_compute in (yplay toyL (take 2 slow_steps) (ybegin toy0)).1.2.
  Lemma slow_2 : yplay toyL (take 2 slow_steps) (ybegin toy0) = (FConnected, slow2, [PPending; PPending]). Proof. vm_compute. reflexivity. Qed.
  Lemma take_min (l : bytes) m : (N.of_nat (length l) <= m)%N -> take (N.to_nat (N.min (N.of_nat (length l)) m)) l = l /\ drop (N.to_nat (N.min (N.of_nat (length l)) m)) l = [].
  Proof. intros H. rewrite N.min_l by done. rewrite Nat2N.id. split; [by rewrite firstn_all|by rewrite drop_all]. Qed.
  Lemma full_nil : full [] = false. Proof. reflexivity. Qed.
  (** a connection on which nothing is on the way *)
  Record calm (v : px toy) : Prop := {
    cm_st : k_st (y_c v) = XConn false; cm_r : k_r (y_c v) = Toy false [] []; cm_time : k_time (y_c v) = true; cm_cc : k_cc (y_c v) = false; cm_sc : k_sc (y_c v) = false;
    cm_up : y_up v = []; cm_ue : y_up_end v = false; cm_rx : y_rx v = []; cm_tx : y_tx v = []; cm_de : y_down_end v = false; cm_out : y_output v = false; cm_srv : y_server_closed v = false; cm_hup : y_hup v = false }.
  Lemma calm_b v : calm v -> y_down v = [] -> exists v', ypoll toyL (Input [] true (RData b) (WTake 10) CDone) v = (v', PPending) /\ calm v' /\ y_down v' = b /\ y_trace v' = y_trace v ++ [SockGave b].
  Proof.
    intros Hc Hd. destruct Hc. unfold ypoll, orelse, yfrom_app. rewrite cm_up0, cm_ue0. cbn [andb]. unfold yfrom_socket. cbn [n_read].
    assert (fit (y_rx v) (length b) = length b) as Hfit. { unfold fit. rewrite cm_rx0, Hb. cbn [length]. rewrite N.sub_0_r, N.min_id, <- Hb. apply Nat2N.id. }
    rewrite Hfit, firstn_all, cm_rx0. cbn [app]. unfold yto_client. pj.
    assert (exists h b', b = h :: b') as (h & b' & Hhb). { clear -Hb. destruct b; [done|]. eauto. }
    rewrite Hhb. cbv beta iota. cbn [toyL l_wants_read]. rewrite cm_r0. cbn [t_plain]. unfold k_read_tls. cbn [toyL l_read_tls]. pj. rewrite cm_r0. cbn [t_hs t_out t_plain app].
    rewrite andb_false_r. rewrite firstn_all, drop_all. pj. rewrite cm_out0. unfold kpoll. pj. rewrite cm_st0. unfold kpoll_conn, kpoll_conn_once. cbn [toyL l_process]. pj. cbn [negb]. rewrite cm_sc0, cm_cc0. cbn [andb].
    pj. cbn [n_write n_close]. unfold yfrom_client. pj. rewrite cm_tx0. rewrite full_nil. cbv iota.
    unfold k_write_tls. cbn [toyL l_write_tls]. pj. cbn [t_hs t_out t_plain length]. cbn [N.of_nat N.min]. rewrite N.min_0_l. cbn [N.to_nat take drop length N.of_nat]. rewrite ?N.min_0_l. cbn [N.to_nat take drop app].
    unfold yto_socket. pj. unfold yto_app. pj. rewrite cm_de0, Hd. cbn [orb]. rewrite full_nil. cbv iota. cbn [k_wants_read]. pj.
    unfold k_read. cbn [toyL l_read]. pj. cbn [t_plain t_hs t_out]. unfold k_wants_read. pj. cbv iota.
    assert (N.of_nat (length (h :: b')) <= room [])%N as Hle. { rewrite <- Hhb, Hb. done. }
    destruct (take_min _ _ Hle) as [-> ->]. destruct (take_min _ _ Hle) as [-> _]. pj. rewrite cm_srv0. cbn [andb app].
    eexists. split; [reflexivity|]. split; [split; pj; done|]. split; done.
  Qed.
  Lemma calm_7 v : calm v -> y_down v = b -> exists v', ypoll toyL (Input [] true (RData [7]%N) (WTake 10) CDone) v = (v', PPending) /\ y_down v' = b
    /\ y_trace v' = y_trace v ++ [SockGave [7]%N]
    /\ k_st (y_c v') = XConn false /\ k_r (y_c v') = Toy false [] [7]%N /\ k_time (y_c v') = true /\ k_sc (y_c v') = false /\ y_up v' = [] /\ y_up_end v' = false /\ y_rx v' = [] /\ y_tx v' = [] /\ y_output v' = false /\ y_server_closed v' = false /\ y_down_end v' = false /\ y_hup v' = false.
  Proof.
    intros Hc Hd. destruct Hc. unfold ypoll, orelse, yfrom_app. rewrite cm_up0, cm_ue0. cbn [andb]. unfold yfrom_socket. cbn [n_read].
    rewrite cm_rx0. change (take (fit [] (length [7%N])) [7%N]) with [7%N]. cbn [app]. unfold yto_client. pj.
    cbn [toyL l_wants_read]. rewrite cm_r0. cbn [t_plain]. unfold k_read_tls. cbn [toyL l_read_tls]. pj. rewrite cm_r0. cbn [t_hs t_out t_plain app].
    rewrite andb_false_r. cbn [length take drop]. pj. rewrite cm_out0. unfold kpoll. pj. rewrite cm_st0. unfold kpoll_conn, kpoll_conn_once. cbn [toyL l_process]. pj. cbn [negb]. rewrite cm_sc0, cm_cc0. cbn [andb].
    pj. cbn [n_write n_close]. unfold yfrom_client. pj. rewrite cm_tx0. rewrite full_nil. cbv iota.
    unfold k_write_tls. cbn [toyL l_write_tls]. pj. cbn [t_hs t_out t_plain length]. cbn [N.of_nat N.min]. rewrite N.min_0_l. cbn [N.to_nat take drop length N.of_nat]. rewrite ?N.min_0_l. cbn [N.to_nat take drop app].
    unfold yto_socket. pj. unfold yto_app. pj. rewrite cm_de0, Hd. cbn [orb]. unfold full. rewrite Hb, N.leb_refl. pj. rewrite cm_srv0. cbn [andb].
    eexists. split; [reflexivity|]. pj. split_and!; done.
  Qed.
  Lemma slow_end v : k_st (y_c v) = XConn false -> k_r (y_c v) = Toy false [] [7]%N -> k_time (y_c v) = true -> k_sc (y_c v) = false -> y_up v = [] -> y_up_end v = false -> y_rx v = [] -> y_tx v = [] -> y_output v = false -> y_server_closed v = false -> y_down_end v = false -> y_hup v = false ->
    exists v', ypoll toyL (Input [] true REnd (WTake 10) CDone) v = (v', PReady) /\ y_down v' = y_down v /\ y_trace v' = y_trace v ++ [SockEnded; HungUp; SockClosed] /\ y_hup v' = true.
  Proof.
    intros H1 H2 H3 H4 H5 H6 H7 H8 H9 H10 H11 H12. unfold ypoll, orelse, yfrom_app. rewrite H5, H6. cbn [andb]. unfold yfrom_socket. cbn [n_read]. rewrite H7, H10. rewrite full_nil. cbn [orb].
    unfold yto_client. pj. rewrite H7. pj. rewrite H9. unfold kpoll. pj. rewrite H1. unfold kpoll_conn, kpoll_conn_once. cbn [toyL l_process]. pj. cbn [negb l_ms toyL]. rewrite H2. cbn [t_hs]. rewrite H3. cbn [n_ready n_final kpoll_final]. pj.
    unfold yfrom_client. pj. rewrite H8. rewrite full_nil. cbv iota.
    unfold k_write_tls. cbn [toyL l_write_tls]. pj. cbn [t_hs t_out t_plain length]. cbn [N.of_nat N.min]. rewrite N.min_0_l. cbn [N.to_nat take drop length N.of_nat]. rewrite ?N.min_0_l. cbn [N.to_nat take drop app].
    unfold yto_socket. pj. unfold yto_app. pj. rewrite H11. cbn [orb]. unfold k_wants_read. pj. cbv iota.
    match goal with |- context [if full ?x then ?a else ?c] => replace (if full x then a else c) with a by (by destruct (full x)) end. pj. cbn [andb n_close].
    eexists. split; [reflexivity|]. unfold yhang_up. pj. rewrite H12. pj. rewrite <- !app_assoc. split_and!; done.
  Qed.
  Lemma slow_2_calm : calm slow2. Proof. by split. Qed.
  Lemma slow_lemma : exists v, yleads toyL toy0 slow_steps FDone v [PPending; PPending; PPending; PPending; PReady]
    /\ sock_gave (y_trace v) = 22%N :: b ++ [7%N] /\ app_got (y_trace v) = [] /\ y_down v = b /\ y_hup v = true /\ AppDropped ∉ y_trace v.
  Proof.
    destruct (calm_b _ slow_2_calm eq_refl) as (v3 & E3 & C3 & D3 & G3).
    destruct (calm_7 _ C3 D3) as (v4 & E4 & D4 & G4 & P1 & P2 & P3 & P4 & P5 & P6 & P7 & P8 & P9 & P10 & P11 & P12).
    destruct (slow_end _ P1 P2 P3 P4 P5 P6 P7 P8 P9 P10 P11 P12) as (v5 & E5 & D5 & G5 & Hh).
    assert (yleads toyL toy0 slow_steps FDone v5 [PPending; PPending; PPending; PPending; PReady]) as Hl.
    { unfold yleads. change slow_steps with (take 2 slow_steps ++ [poll (RData b) (WTake 10); poll (RData [7]%N) (WTake 10); poll REnd (WTake 10)]).
      change [PPending; PPending; PPending; PPending; PReady] with ([PPending; PPending] ++ [PPending; PPending; PReady]).
      eapply yplay_app; [exact slow_2|]. cbn [yplay ydo_step poll yfpoll]. rewrite E3. cbn [yplay ydo_step poll yfpoll]. rewrite E4. cbn [yplay ydo_step poll yfpoll]. rewrite E5. done. }
    exists v5. split; [done|]. rewrite D5, D4. rewrite G4, G3 in G5. change (y_trace slow2) with [SockTook [22]%N; SockGave [22]%N] in G5. cbn [app] in G5. rewrite G5. split_and!; [reflexivity|reflexivity|reflexivity|exact Hh|].
    clear. repeat (rewrite not_elem_of_cons; split; [discriminate|]). apply not_elem_of_nil.
  Qed.
End Slow.
Lemma cap_bytes : exists b : bytes, N.of_nat (length b) = BUF_CAP.
Proof. generalize BUF_CAP. intros n. exists (replicate (N.to_nat n) 0%N). rewrite replicate_length. apply N2Nat.id. Qed.
Lemma slow_real : exists ks v rs d, yleads toyL toy0 ks FDone v rs /\ sock_gave (y_trace v) = 22%N :: d
  /\ AppDropped ∉ y_trace v /\ y_hup v = true /\ exists k, d = (app_got (y_trace v) ++ y_down v) ++ [k].
Proof.
  destruct cap_bytes as [b Hb]. destruct (slow_lemma _ Hb) as (v & H1 & H2 & H3 & H4 & H5 & H6). eexists _, v, _, (b ++ [7%N]). split; [exact H1|]. split; [exact H2|]. split; [exact H6|]. split; [exact H5|].
  exists 7%N. rewrite H3, H4. reflexivity.
Qed.
