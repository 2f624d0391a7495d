(** The client's flight: the server is checked before anything is prepared. *)
From Verif.Lib Require Import Base.
From Verif Require Import ProofModel CodecModel CodecSpec CodecLemmas FramingLemmas TlsModel HandshakeModel HandshakeLemmas HandshakePropLemmas
  AttestModel SigAlgModel SigAlgSpec SigAlgLemmas RecordModel ClientModel ClientSpec ClientLemmas ClientInv ClientSteps.

Lemma suite_kind suite scheme kind a : suite ∈ CLIENT_SUITES -> suite_usable suite (scheme_sign scheme) = true ->
  scheme_means scheme kind a -> (suite = 0xc02f%N <-> kind = KeyRsa).
Proof.
  intros Hs Hu Hm. apply elem_of_cons in Hs as [->|Hs].
  - destruct Hm; vm_compute in Hu; try discriminate; split; intros; discriminate.
  - apply elem_of_cons in Hs as [->|Hs]; [|by apply elem_of_nil in Hs].
    destruct Hm; vm_compute in Hu; try discriminate; split; intros; reflexivity.
Qed.

Section Client.
  Context (E : env).

  Lemma early_post u x x' (o : outcome cl_error cstate) l : early x -> out x x' l -> match o with Ok _ => False | _ => True end ->
    Post E u x x' o.
  Proof. intros He X Ho. assert (safe E x') by (by eapply early_safe, early_out). by destruct o. Qed.
  Lemma refuse_out {A} d e x x' (o : outcome cl_error A) : refuse E d e x = (x', o) -> early x ->
    safe E x' /\ match o with Ok _ => False | _ => True end.
  Proof.
    intros [X Ho]%refuse_ext He. split; [|done]. eapply safe_calm; [|exact X]. by apply early_safe.
  Qed.

  (** What a certificate message and a certificate verify add. *)
  Lemma auth_step (auth : option client_auth) tr b x x1 o : tr_ok tr b ->
    match auth with
    | Some a => emit_hs E tr (HCertificate (match a with AuthEmpty => [] | AuthVerify c _ _ => c end)) false
    | None => sret tr
    end x = (x1, o) ->
    exists l, out x x1 l /\ x_enc x1 = x_enc x /\ said_enc l = [] /\ key_calls l = [] /\
      match o with
      | Ok tr1 =>
          let hs := opt_list (fun a => HCertificate (match a with AuthEmpty => [] | AuthVerify c _ _ => c end)) auth in
          said l = written hs /\ tr_ok tr1 (b ++ written hs)
      | Err _ => False | Panic => True
      end.
  Proof.
    intros Ht H. destruct auth as [a|].
    - apply emit_hs_out in H as (l & X & He & H1 & H2 & H). exists l. split_and!; try done.
      destruct o as [tr1| |]; try done. destruct H as [-> Hs]. cbn [opt_list]. rewrite written_one. split; [done|]. by apply tr_ok_add.
    - injection H as <- <-. exists []. split_and!; try done; [apply out_refl|]. simpl. by rewrite app_nil_r.
  Qed.
  Lemma verify_step (auth : option client_auth) tr b x x1 o : tr_ok tr b ->
    match auth with
    | Some (AuthVerify _ scheme sign) => emit_certverify E tr scheme sign
    | _ => sret tr
    end x = (x1, o) ->
    exists l, out x x1 l /\ x_enc x1 = x_enc x /\ said_enc l = [] /\ key_calls l = [] /\
      match o with
      | Ok tr1 => exists v, said l = written (opt_list HCertVerify v) /\ t_bytes tr1 = b ++ written (opt_list HCertVerify v) /\
          match auth with
          | Some (AuthVerify _ scheme sign) => exists sig, v = Some (Signed scheme sig) /\ sign b = Some sig
          | _ => v = None
          end
      | _ => True
      end.
  Proof.
    intros [Ht1 Ht2] H.
    destruct auth as [[|chain scheme sign]|].
    - injection H as <- <-. exists []. split_and!; try done; [apply out_refl|]. exists None. simpl. by rewrite app_nil_r.
    - unfold emit_certverify, tr_take in H. destruct (t_auth tr) as [a|].
      + subst a. destruct (sign b) as [sig|] eqn:Es.
        * apply emit_hs_out in H as (l & X & He & H1 & H2 & H). exists l. split_and!; try done.
          destruct o as [tr1| |]; try done. destruct H as [-> Hs]. exists (Some (Signed scheme sig)).
          cbn [opt_list]. rewrite written_one. simpl t_bytes. rewrite Ht1. split; [done|]. split; [done|]. by exists sig.
        * injection H as <- <-. exists []. split_and!; try done. apply out_refl.
      + injection H as <- <-. exists []. split_and!; try done. apply out_refl.
    - injection H as <- <-. exists []. split_and!; try done; [apply out_refl|]. exists None. simpl. by rewrite app_nil_r.
  Qed.

  Lemma emit_out e x : outy e -> out x (set_log (x_log x ++ [e]) x) [e].
  Proof. intros H. split_and!; try done. by constructor. Qed.

  Lemma done_step cr sr tr suite cert kx auth u x x' o :
    INVg E (CsDone cr sr tr suite cert kx auth) (hs_encode HServerHelloDone ++ u) x ->
    on_server_done E cr sr tr suite cert kx auth (MPHandshake HServerHelloDone) x = (x', o) -> Post E u x x' o.
  Proof.
    intros (Hp & He & Hse & Hkc & ch & hs & Hh & Hsa & Hhe & Hg) H.
    destruct Hg as (sh & chain & status & k & req & Ehs & (-> & -> & -> & Hscts & Hans) & (Hc1 & Hc2 & Hc3) & (-> & Hk1 & Hk2) & -> & Ht).
    pose proof Hp as (Hearly & _).
    unfold on_server_done in H.
    apply sbind_inv in H as [([] & x0 & H1 & H)|[(e & H & ->)|[H ->]]].
    2,3: apply check_aligned_ext in H as [X _]; eapply safe_calm; [|exact X]; by apply early_safe.
    apply check_aligned_ext in H1 as [_ [-> Hal]].
    rewrite Hc1 in H. destruct chain as [|leaf inter]; [injection H as <- <-; simpl; by apply early_safe|].
    unfold sgets in H at 1. unfold sbind in H at 1. rewrite Hc2 in H.
    destruct (e_verify_cert _ _ _ _ _ _ _) eqn:Hcert; cbn [negb] in H.
    2:{ apply refuse_out in H as [Hs Ho]; [|done]. by destruct o. }
    cbn [kd_sig kd_params] in H. destruct (suite_usable _ _) eqn:Husable; cbn [negb] in H.
    2:{ injection H as <- <-. simpl. by apply early_safe. }
    destruct (verify_struct _ _ _ _ _) as [[]| |] eqn:Hsig.
    3:{ injection H as <- <-. simpl. by apply early_safe. }
    2:{ apply refuse_out in H as [Hs Ho]; [|done]. by destruct o. }
    (* the certificate of the client *)
    apply (tr_ok_app _ _ _ HServerHelloDone) in Ht.
    set (bs := written (HClientHello ch :: hs ++ [HServerHelloDone])) in *.
    apply sbind_inv in H as [(tr1 & x1 & H1 & H)|[(e & H & ->)|[H ->]]].
    2,3: apply (auth_step _ _ bs) in H as (l & X & _); [|done]; by eapply early_post; [done|exact X|].
    apply (auth_step _ _ bs) in H1 as (l1 & X1 & He1 & Hl1a & Hl1b & Hl1c & Ht1); [|done].
    rewrite decode_enc_params in H by done. unfold sgets in H at 1. unfold sbind in H at 1.
    destruct (b_key_share E (x_log x1)) as [[mg mk]|]; [|injection H as <- <-; simpl; by eapply early_safe, early_out].
    unfold emit in H at 1. unfold smodify in H at 1. unfold sbind in H at 1.
    pose proof (emit_out (GetKeyShare mg mk) x1 ltac:(done)) as X2.
    set (x2 := set_log (x_log x1 ++ [GetKeyShare mg mk]) x1) in *.
    pose proof (out_trans _ _ _ _ _ X1 X2) as X12. assert (x_enc x2 = x_enc x) as He2 by exact He1. clearbody x2. clear X2.
    destruct (N.eqb_spec mg (ke_group k)) as [->|]; cbn [negb] in H; [|injection H as <- <-; simpl; by eapply early_safe, early_out].
    apply sbind_inv in H as [(tr3 & x3 & H3 & H)|[(e & H & ->)|[H ->]]].
    2,3: apply emit_hs_out in H as (l & X & _); by eapply early_post; [done|exact (out_trans _ _ _ _ _ X12 X)|].
    apply emit_hs_out in H3 as (l3 & X3 & He3 & Hl3a & Hl3b & -> & Hl3c).
    pose proof (out_trans _ _ _ _ _ X12 X3) as X13. clear X3 X12.
    apply (tr_ok_add _ _ (HClientKeyExchange (enc_payload 1 mk))) in Ht1.
    apply sbind_inv in H as [(tr4 & x4 & H4 & H)|[(e & H & ->)|[H ->]]].
    2,3: apply (verify_step _ _ _ _ _ _ Ht1) in H as (l & X & _); by eapply early_post; [done|exact (out_trans _ _ _ _ _ X13 X)|].
    apply (verify_step _ _ _ _ _ _ Ht1) in H4 as (l4 & X4 & He4 & Hl4a & Hl4b & v & Hl4c & Ht4 & Hv).
    pose proof (out_trans _ _ _ _ _ X13 X4) as X14. clear X4 X13.
    apply sbind_inv in H as [([] & x5 & H5 & H)|[(e & H & ->)|[H ->]]].
    2,3: apply send_ccs_out in H as (l & X & _); by eapply early_post; [done|exact (out_trans _ _ _ _ _ X14 X)|].
    apply send_ccs_out in H5 as (l5 & X5 & He5 & Hl5a & Hl5b & Hl5c).
    pose proof (out_trans _ _ _ _ _ X14 X5) as X15. clear X5 X14.
    unfold emit in H at 1. unfold smodify in H at 1. unfold sbind in H at 1.
    match type of H with context [set_log (x_log x5 ++ [?ev]) x5] =>
      set (prep := ev) in *; pose proof (emit_out prep x5 ltac:(done)) as X6; set (x6 := set_log (x_log x5 ++ [prep]) x5) in * end.
    pose proof (out_trans _ _ _ _ _ X15 X6) as X16. assert (x_enc x6 = x_enc x5) as He6 by done. clearbody x6. clear X6.
    unfold sgets in H at 1. unfold sbind in H at 1. unfold require in H at 1.
    destruct (b_prepare E (x_log x6)); [|injection H as <- <-; simpl; by eapply early_safe, early_out].
    unfold sret in H at 1. unfold sbind in H at 1. unfold smodify in H at 1. unfold sbind in H at 1.
    unfold sgets in H at 1. unfold sbind in H at 1. unfold emit in H at 1. unfold smodify in H at 1. unfold sbind in H at 1.
    cbn beta iota in H.
    match type of H with context [set_log (_ ++ [?ev]) ?xx] =>
      set (cvd := ev) in *; pose proof (emit_out cvd xx ltac:(done)) as X7; set (x7 := set_log (x_log xx ++ [cvd]) xx) in * end.
    assert (out x6 x7 [cvd]) as X7' by exact X7. assert (x_enc x7 = true) as He7 by done. clearbody x7. clear X7.
    pose proof (out_trans _ _ _ _ _ X16 X7') as X17. clear X7' X16.
    change (x_log (set_enc true x6)) with (x_log x6) in *.
    destruct (b_cf E (x_log x6)) as [vd|] eqn:Hcf; [|injection H as <- <-; simpl; by eapply early_safe, early_out].
    assert (forall l x8 (o : outcome cl_error hs_hash), same x7 x8 -> x_log x8 = x_log x7 ++ l ->
      Forall (λ e, ∃ m, e = PushOut m ∧ m_typ m = Handshake) l -> out x7 x8 l) as HPO.
    { intros l x8 _ S El Hl. apply push_view in Hl as (_ & _ & Hl). by apply same_out. }
    apply sbind_inv in H as [(tr8 & x8 & H8 & H)|[(e & H & ->)|[H ->]]].
    2,3: apply emit_hs_push in H as (S & l & El & Hl & _); by eapply early_post; [done|exact (out_trans _ _ _ _ _ X17 (HPO _ _ (Err ENotComplete) S El Hl))|].
    apply emit_hs_push in H8 as (S8 & l8 & El8 & Hl8 & -> & Hl8c).
    pose proof (out_trans _ _ _ _ _ X17 (HPO _ _ (Err ENotComplete) S8 El8 Hl8)) as X18. clear X17 HPO.
    apply push_view in Hl8 as (Hl8a & Hl8b & _).
    injection H as <- <-.
    (* everything together *)
    set (s := Session ch sh (leaf :: inter) status k req
                (option_map (fun a => match a with AuthEmpty => [] | AuthVerify c _ _ => c end) (option_map (auth_of E) req)) mk v vd []).
    split; [|by destruct X18].
    assert (hs ++ [HServerHelloDone] = server_flight s) as Hflight.
    { rewrite Ehs. unfold server_flight, s. simpl. by rewrite <- !app_assoc. }
    assert (written (opt_list (fun a => HCertificate (match a with AuthEmpty => [] | AuthVerify c _ _ => c end)) (option_map (auth_of E) req))
            = written (opt_list HCertificate (ss_cert s))) as Hce by (unfold s; simpl; by destruct req as [r|]).
    rewrite Hce in *. clear Hce.
    assert (written (client_flight s) = written (opt_list HCertificate (ss_cert s)) ++ hs_encode (HClientKeyExchange (enc_payload 1 mk))
              ++ written (opt_list HCertVerify v)) as Hcf'.
    { unfold client_flight. by rewrite !written_app, written_one. }
    assert (t_bytes tr4 = before_client_finished s) as Hbf.
    { rewrite Ht4. unfold before_client_finished. rewrite <- Hflight, app_comm_cons, written_app, Hcf'. fold bs.
      by rewrite <- !app_assoc. }
    unfold INV. cbn beta iota zeta. split; [by eapply pre_out|]. destruct S8 as (_ & He8 & _). split; [congruence|].
    exists s. pose proof X18 as (_ & _ & _ & _ & _ & El & _). split; [|].
    2:{ rewrite (heard_out _ _ _ X18), Hhe, <- Hflight, written_app, written_one. by rewrite <- app_assoc. }
    rewrite El. unfold flown.
    split; [exact Hans|]. split; [exact Hc3|]. split; [|split; [|split; [|split; [|split; [|split; [|split]]]]]].
    - assert (client_accepts (e_cert_key E) (e_sig_valid E) (leaf :: inter) (ch_random ch) (sh_random sh) k = Ok ()) as Hacc by exact Hsig.
      apply accepts_iff in Hacc; [|done]. pose proof Hacc as (kind & a & Hk & Hm & _).
      eexists leaf, inter, _, _, kind. split; [done|]. split; [exact Hscts|]. split; [exact Hcert|]. split; [exact Hacc|]. split; [done|].
      eapply suite_kind; [|exact Husable|exact Hm]. by destruct Hans as (_ & ? & _).
    - unfold client_authenticates, s. unfold server_flight, s in *. cbn [ss_request ss_cert ss_verify ss_hello ss_key ss_server ss_chain ss_status ss_kx] in *.
      clear Hcf' Hbf. clear s. destruct req as [r|]; [|done].
      cbn [option_map] in *. unfold auth_of in *. destruct (e_resolve E (cq_names r) (cq_schemes r)) as [[[cc scheme] sign]|]; [|done].
      split; [done|]. destruct Hv as (sig & -> & Hsign). exists sig. split; [done|]. rewrite <- Hsign. f_equal.
      rewrite <- Hflight.
      rewrite app_comm_cons, written_app. fold bs. rewrite <- app_assoc. f_equal. cbn [opt_list option_map].
      by rewrite written_one, written_cons, written_one.
    - by apply hello_in_app.
    - apply elem_of_app. right. rewrite <- !app_assoc. apply elem_of_app. right. apply elem_of_cons. by left.
    - rewrite !said_app, Hsa, Hl1c, Hl3c, Hl4c, Hl5a, Hl8a, Hcf'. simpl. by rewrite <- !app_assoc, !app_nil_r.
    - rewrite !said_enc_app, Hse, Hl1a, Hl3a, Hl4a, Hl5b, Hl8c. done.
    - unfold tr_add. simpl t_bytes. rewrite Hbf. done.
    - exists (sc_scts cert), (enc_params k). split; [done|]. split; [by apply enc_params_spec|].
      rewrite !key_calls_app, Hkc, Hl1b, Hl3b, Hl4b, Hl5c, Hl8b. simpl. unfold prep, cvd. rewrite Hbf. done.
  Qed.
End Client.
