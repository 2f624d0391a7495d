(** Whole runs of the leader, and of the follower that gets its messages. *)
From Verif.Lib Require Import Base.
From Verif Require Import TranscriptModel ProofModel CodecModel AttestModel TlsModel AuthModel TagModel RecordModel RecordSpec PartsModel PrfModel
  HandshakeModel SigAlgModel FollowerModel FollowerSpec FollowerLemmas FollowerRunLemmas LeaderModel LeaderSpec LeaderSim LeaderLemmas.

Section Run.
  Context (iv : list N) (compress : list N -> list N -> list N).
  Context (aes : list N -> list N -> list N) (ghash_fn : list N -> list N -> list N) (checked : bool) (blind_l blind_f : N -> nat -> N) (pad_l pad_f : nat -> N).
  Context (sha256 : list N -> list N) (parse_body : protocol_version -> N -> list N -> option hs_payload) (ec_curve : list N -> option N).
  Context (parse_key : list N -> bool) (exchange : list N -> option (list N)) (fin_l fin_f : list N -> bool) (rounds : nat).
  Context (cert_key : bytes -> option key_kind) (sig_valid : bytes -> webpki_alg -> bytes -> bytes -> bool).
  Context (client_key : option (list N)) (c : fo_config).
  Notation lstep := (ld_step iv compress aes ghash_fn checked blind_l pad_l sha256 parse_body ec_curve parse_key exchange fin_l rounds cert_key sig_valid client_key c).
  Notation lrun := (ld_run iv compress aes ghash_fn checked blind_l pad_l sha256 parse_body ec_curve parse_key exchange fin_l rounds cert_key sig_valid client_key c).
  Notation fstep := (fo_step compress aes ghash_fn checked blind_f pad_f parse_key exchange fin_f rounds).
  Notation floop := (fo_loop compress aes ghash_fn checked blind_f pad_f parse_key exchange fin_f rounds).
  Notation ffinish := (fo_finish aes ghash_fn checked blind_f pad_f sha256 parse_body ec_curve).
  Notation frun := (fo_run iv compress aes ghash_fn checked blind_f pad_f sha256 parse_body ec_curve parse_key exchange fin_f rounds).

  (** ** After the end *)
  (** What a call that reads from the record layer does. *)
  Definition reads (l l1 : ld) : Prop :=
    l1 = l \/ exists f : rl -> rl, (forall r, rl_write_seq (f r) = rl_write_seq r) /\ (forall b r1 r2, sim b r1 r2 -> sim b (f r1) r2) /\
      ld_decrypting l1 = ld_decrypting l /\
      match ld_st l with
      | LReady out s => ld_st l1 = LReady out (set_rl (f (fo_rl s)) s)
      | LActive out s hs => ld_st l1 = LActive out (set_rl (f (fo_rl s)) s) hs
      | LClosed r t => ld_st l1 = LClosed (f r) t
      | _ => False
      end.
  Lemma next_dec_out r : exists o e d, next_decrypted r = (o, Ok e) /\ o = set_out (rl_encrypted r) d r.
  Proof.
    unfold next_decrypted. destruct (rl_decrypted r) as [|x xs] eqn:E; [|destruct (_ && _)].
    - eexists _, _, []. split; [reflexivity|]. destruct r; cbn in *. by subst.
    - eexists _, _, (x :: xs). split; [reflexivity|]. destruct r; cbn in *. by subst.
    - eexists _, _, _. split; reflexivity.
  Qed.
  Lemma next_enc_out r : exists o x e, next_encrypted r = (o, Ok x) /\ o = set_out e (rl_decrypted r) r.
  Proof.
    unfold next_encrypted. destruct (rl_encrypted r) as [|x xs] eqn:E; [|destruct (_ && _)].
    - eexists _, _, []. split; [reflexivity|]. destruct r; cbn in *. by subst.
    - eexists _, _, (x :: xs). split; [reflexivity|]. destruct r; cbn in *. by subst.
    - eexists _, _, _. split; reflexivity.
  Qed.
  Lemma sim_set_out b r1 r2 e d : sim b r1 r2 -> sim b (RecordModel.set_out e d r1) r2.
  Proof. intros []. by constructor. Qed.
  Lemma next_in_reads l l1 ms o : ld_next_in l = (l1, ms, o) -> ms = [] /\ reads l l1 /\ (forall t, o <> Ok (LDone t)).
  Proof.
    assert (forall r (k : rl -> ld_state) (f : rl -> rl), f = (fun r => fst (next_decrypted r)) ->
      (match next_decrypted r with (r, Ok o) => (goto (k r) l, @nil fmsg, incoming o) | (r, _) => (goto (k r) l, [], Panic) end) = (l1, ms, o) ->
      ms = [] /\ l1 = goto (k (f r)) l /\ (forall t, o <> Ok (LDone t)) /\ (forall r, rl_write_seq (f r) = rl_write_seq r) /\ (forall b r1 r2, sim b r1 r2 -> sim b (f r1) r2)) as Hn.
    { intros r k f -> H. destruct (next_dec_out r) as (r' & e & d & E & ->). rewrite E in H. injection H as <- <- <-. rewrite E. split; [done|]. split; [done|].
      split; [intros t; destruct e as [e|]; [cbn; by destruct (pr_plain e)|done]|]. clear. split.
      - intros r. by destruct (next_dec_out r) as (r' & e & d & -> & ->).
      - intros b r1 r2 Hs. destruct (next_dec_out r1) as (r' & e & d & -> & ->). by apply sim_set_out. }
    unfold ld_next_in. cbn zeta. destruct (ld_st l) eqn:El; try (intros [= <- <- <-]; split; [done|]; split; [by left|done]).
    all: intros H; eapply Hn in H as (-> & -> & H1 & H2 & H3); [|reflexivity]; (split; [done|]); (split; [|done]); right; eexists; (split; [exact H2|]); (split; [exact H3|]); by rewrite El.
  Qed.
  Lemma next_out_reads l l1 ms o : ld_next_out l = (l1, ms, o) -> ms = [] /\ reads l l1 /\ (forall t, o <> Ok (LDone t)).
  Proof.
    assert (forall r (k : rl -> ld_state) (f : rl -> rl), f = (fun r => fst (next_encrypted r)) ->
      (match next_encrypted r with (r, Ok o) => (goto (k r) l, @nil fmsg, outgoing o) | (r, _) => (goto (k r) l, [], Panic) end) = (l1, ms, o) ->
      ms = [] /\ l1 = goto (k (f r)) l /\ (forall t, o <> Ok (LDone t)) /\ (forall r, rl_write_seq (f r) = rl_write_seq r) /\ (forall b r1 r2, sim b r1 r2 -> sim b (f r1) r2)) as Hn.
    { intros r k f -> H. destruct (next_enc_out r) as (r' & e & d & E & ->). rewrite E in H. injection H as <- <- <-. rewrite E. split; [done|]. split; [done|].
      split; [intros t; destruct e as [e|]; [cbn; by destruct (outgoing_payload e)|done]|]. clear. split.
      - intros r. by destruct (next_enc_out r) as (r' & e & d & -> & ->).
      - intros b r1 r2 Hs. destruct (next_enc_out r1) as (r' & e & d & -> & ->). by apply sim_set_out. }
    unfold ld_next_out. cbn zeta. destruct (ld_st l) eqn:El; try (intros [= <- <- <-]; split; [done|]; split; [by left|done]).
    all: intros H; eapply Hn in H as (-> & -> & H1 & H2 & H3); [|reflexivity]; (split; [done|]); (split; [|done]); right; eexists; (split; [exact H2|]); (split; [exact H3|]); by rewrite El.
  Qed.
  (** After an error or the end nothing is sent, and only the transcript of a closed connection is handed out. *)
  Definition ended (t : option tls_transcript) (l : ld) : Prop :=
    match ld_st l with LClosed _ t' => t = Some t' | LError => True | _ => False end.
  Lemma ended_step t now io x l l1 ms o : ended t l -> lstep now io x l = (l1, ms, o) ->
    ms = [] /\ ended t l1 /\ (forall t', o = Ok (LDone (Some t')) -> t = Some t').
  Proof.
    unfold ended. intros He H. destruct (ld_st l) as [| | | |r t0|] eqn:El; try done.
    all: destruct x; cbn [ld_step] in H;
      unfold ld_alloc, ld_preprocess, ld_random, ld_key_share, ld_prepare, ld_cf, ld_sf, ld_push_in, ld_push_out, ld_start, ld_flush, ld_is_empty, ld_close, ld_finish in H;
      rewrite ?El in H; try (injection H as <- <- <-; rewrite ?El; split; [done|]; split; [done|]; intros t' Ht; simplify_eq; congruence).
    - apply next_in_reads in H as (-> & [->|(f & _ & _ & _ & Hf)] & Hd); rewrite El in *; [split; [done|]; split; [done|]; intros t' Ht; by destruct (Hd _ Ht)|].
      rewrite Hf. split; [done|]. split; [done|]. intros t' Ht; by destruct (Hd _ Ht).
    - apply next_out_reads in H as (-> & [->|(f & _ & _ & _ & Hf)] & Hd); rewrite El in *; [split; [done|]; split; [done|]; intros t' Ht; by destruct (Hd _ Ht)|].
      rewrite Hf. split; [done|]. split; [done|]. intros t' Ht; by destruct (Hd _ Ht).
    - apply next_in_reads in H as (-> & [->|(f & _ & _ & _ & Hf)] & Hd); rewrite El in *; [split; [done|]; split; [done|]; intros t' Ht; by destruct (Hd _ Ht)|done].
    - apply next_out_reads in H as (-> & [->|(f & _ & _ & _ & Hf)] & Hd); rewrite El in *; [split; [done|]; split; [done|]; intros t' Ht; by destruct (Hd _ Ht)|done].
  Qed.
  Lemma lrun_cons now io x xs l l1 ms o l' ms' os : lstep now io x l = (l1, ms, o) -> lrun ((now, io, x) :: xs) l = (l', ms', os) ->
    (o = Panic /\ l' = l1 /\ ms' = ms /\ os = [Panic]) \/
    (o <> Panic /\ exists ms2 os2, lrun xs l1 = (l', ms2, os2) /\ ms' = ms ++ ms2 /\ os = o :: os2).
  Proof.
    intros E H. cbn [ld_run] in H. rewrite E in H. destruct o as [a|e|].
    - destruct (lrun xs l1) as [[l2 ms2] os2] eqn:E2. injection H as <- <- <-. right. split; [done|]. by exists ms2, os2.
    - destruct (lrun xs l1) as [[l2 ms2] os2] eqn:E2. injection H as <- <- <-. right. split; [done|]. by exists ms2, os2.
    - injection H as <- <- <-. by left.
  Qed.
  Lemma ended_run t xs l l' ms os : ended t l -> lrun xs l = (l', ms, os) ->
    ms = [] /\ ended t l' /\ (forall t', Ok (LDone (Some t')) ∈ os -> t = Some t').
  Proof.
    revert l ms os. induction xs as [|[[now io] x] xs IH]; intros l ms os He H.
    { injection H as <- <- <-. split; [done|]. split; [done|]. intros t' Ht. by apply elem_of_nil in Ht. }
    destruct (lstep now io x l) as [[l1 ms1] o] eqn:E. destruct (ended_step _ _ _ _ _ _ _ _ He E) as (-> & He1 & Hd).
    destruct (lrun_cons _ _ _ _ _ _ _ _ _ _ _ E H) as [(-> & -> & -> & ->)|(_ & ms2 & os2 & H2 & -> & ->)].
    - split; [done|]. split; [done|]. intros t' Ht. by apply elem_of_list_singleton in Ht.
    - destruct (IH _ _ _ He1 H2) as (-> & He2 & Hd2). split; [done|]. split; [done|]. intros t' Ht. apply elem_of_cons in Ht as [Ht|Ht]; auto.
  Qed.

  (** ** The two parties *)
  Context (Hfin : forall k, fin_l k = true -> fin_f k = true).
  Notation sim_fo := (sim_fo blind_f).
  Definition inv (out : prf_output) (l : ld) (f : fo) : Prop :=
    match ld_st l with
    | LSetup out' s _ => out' = out /\ sim_fo s f /\ fo_random s = None /\ fo_hello s = None
    | LReady out' s => out' = out /\ sim_fo s f /\ fo_hello s = None
    | LActive out' s _ => out' = out /\ sim_fo s f
    | _ => False
    end.
  Definition wseq (l : ld) : N :=
    match ld_st l with LSetup _ s _ | LReady _ s | LActive _ s _ => rl_write_seq (fo_rl s) | _ => 0%N end.
  Lemma inv_reads out l l1 f : inv out l f -> reads l l1 -> inv out l1 f /\ wseq l1 = wseq l.
  Proof.
    intros Hi [->|(g & Hw & Hg & _ & Hl)]; [done|]. unfold inv, wseq in *. destruct (ld_st l) as [|o s r|o s|o s hs| |]; try done; rewrite Hl; cbn.
    - destruct Hi as (-> & [] & Hn). split; [|apply Hw]. split; [done|]. split; [constructor; cbn; auto|done].
    - destruct Hi as (-> & []). split; [|apply Hw]. split; [done|]. constructor; cbn; auto.
  Qed.

  Lemma map_snd_nil (fms : list (N * fmsg)) : map snd fms = [] -> fms = [].
  Proof. by destruct fms. Qed.
  Lemma map_snd_one (fms : list (N * fmsg)) x : map snd fms = [x] -> exists now, fms = [(now, x)].
  Proof. destruct fms as [|[now y] [|z fms]]; intros [=]. subst. by exists now. Qed.
  Lemma loop_one out now x f f1 rest : x <> MClose -> fstep out now x f = Ok f1 -> floop out ((now, x) :: rest) f = floop out rest f1.
  Proof. intros Hx H. transitivity (let! s := fstep out now x f in floop out rest s); [by destruct x|]. by rewrite H. Qed.

  Lemma step_main out now io x l f l1 ms a : inv out l f ->
    (forall m, x = LPushOut m -> m_typ m = ApplicationData -> map (blind_f (wseq l)) (seq 0 (length (m_payload m))) = m_payload m) ->
    lstep now io x l = (l1, ms, Ok a) ->
    ((forall t, a <> LDone (Some t)) /\ wseq l1 = (wseq l + match x with LPushOut _ => 1 | _ => 0 end)%N /\
     forall fms, received ms fms -> exists f1, inv out l1 f1 /\ forall rest, floop out (fms ++ rest) f = floop out rest f1) \/
    (ms = [MClose] /\ a = LUnit /\ exists r t t', ld_st l1 = LClosed r t /\ ffinish out f = Ok t' /\ agree t t').
  Proof.
    intros Hi Hb H.
    assert (forall l1 a, inv out l1 f -> wseq l1 = wseq l -> (forall t, a <> LDone (Some t)) -> (forall m, x <> LPushOut m) ->
      (forall t, a <> LDone (Some t)) /\ wseq l1 = (wseq l + match x with LPushOut _ => 1 | _ => 0 end)%N /\
      forall fms, received [] fms -> exists f1, inv out l1 f1 /\ forall rest, floop out (fms ++ rest) f = floop out rest f1) as Hsame.
    { clear. intros l1 a Hi Hw Ha Hx. split; [done|]. split; [destruct x; try lia; by destruct (Hx m)|]. intros fms [Hf _]. apply map_snd_nil in Hf as ->. by exists f. }
    assert (forall y f1 l1, (forall now h, y = MServerHello h -> within 5 (sp_time h) now -> fstep out now y f = Ok f1) ->
      ((forall h, y <> MServerHello h) -> forall now, fstep out now y f = Ok f1) -> y <> MClose -> inv out l1 f1 ->
      forall fms, received [y] fms -> exists f1, inv out l1 f1 /\ forall rest, floop out (fms ++ rest) f = floop out rest f1) as Hone.
    { clear. intros y f1 l1 H1 H2 Hc Hi fms [Hf Ht]. apply map_snd_one in Hf as [nw ->]. exists f1. split; [done|]. intros rest. cbn [app]. apply loop_one; [done|].
      destruct y; try (by apply H2). eapply H1; [reflexivity|]. apply Ht. by apply elem_of_list_singleton. }
    assert (forall cl s s1 y hs msg, ld_st l = LActive out s hs -> own_call blind_f (fo_rl s) cl -> sim_fo s f ->
      ld_exec aes ghash_fn checked blind_l pad_l out cl s = (s1, Ok y) -> (forall h, msg <> MServerHello h) -> msg <> MClose ->
      (forall now, fstep out now msg f = (let! (_, s) := rl_exec aes ghash_fn checked blind_f pad_f out (tell cl) f in Ok s)) ->
      wseq (goto (LActive out s1 hs) l) = (wseq l + match cl with CEncrypt _ _ _ _ => 1 | _ => 0 end)%N /\
      forall fms, received [msg] fms -> exists f1, inv out (goto (LActive out s1 hs) l) f1 /\ forall rest, floop out (fms ++ rest) f = floop out rest f1) as Hrl.
    { clear -Hone. intros cl s s1 y hs msg El Ho Hs E Hh Hc Hstep.
      destruct (exec_sim aes ghash_fn checked blind_l blind_f pad_l pad_f _ _ _ _ _ _ Hs Ho E) as (f1 & y' & Hf & Hs1 & _ & Hw & _).
      split; [unfold wseq; rewrite El; exact Hw|]. apply (Hone msg f1); [by intros nw h Eh; destruct (Hh h)| |done|by split].
      intros _ nw. rewrite Hstep, Hf. done. }
    unfold inv in Hi. destruct (ld_st l) as [|out' s rd|out' s|out' s hs|r0 t0|] eqn:El; try done.
    all: destruct x as [rnd| | | |hsd|hash|hash|m| |m| | | | | |b|]; cbn [ld_step] in H;
      unfold ld_alloc, ld_preprocess, ld_random, ld_key_share, ld_prepare, ld_cf, ld_sf, ld_push_in, ld_push_out, ld_start, ld_flush, ld_is_empty, ld_close, ld_finish in H;
      rewrite ?El in H; try discriminate H;
      try (left; apply next_in_reads in H as (-> & Hr & Hd); (eapply inv_reads in Hr as [Hi2 Hw]; [|unfold inv; rewrite El; exact Hi]); apply Hsame; [exact Hi2|exact Hw|intros t ->; by eapply Hd|done]);
      try (left; apply next_out_reads in H as (-> & Hr & Hd); (eapply inv_reads in Hr as [Hi2 Hw]; [|unfold inv; rewrite El; exact Hi]); apply Hsame; [exact Hi2|exact Hw|intros t ->; by eapply Hd|done]);
      try (left; injection H as <- <- <-; apply Hsame; [unfold inv; rewrite ?El; cbn; rewrite ?El; exact Hi|unfold wseq; cbn; rewrite ?El; done|done|done]).
    - (* preprocess *)
      destruct io; [|discriminate H]. injection H as <- <- <-. destruct Hi as (-> & Hs & Hr & Hh). left. split; [done|]. split; [unfold wseq; rewrite El; cbn; lia|].
      eapply Hone; [done| |done|]; cbn [fo_step].
      + intros _ nw. rewrite (sf_random _ _ _ Hs), Hr. rewrite bool_decide_eq_false_2 by (by intros [? ?]). reflexivity.
      + unfold inv. cbn. split; [done|]. split; [|done]. rewrite (sf_vm _ _ _ Hs), (sf_prf _ _ _ Hs). destruct Hs. by constructor.
    - (* random *) left. destruct (fo_random s); [|discriminate H]. injection H as <- <- <-. apply Hsame; [unfold inv; by rewrite El|done|done|done].
    - (* key share *) left. destruct client_key; [|discriminate H]. injection H as <- <- <-. apply Hsame; [unfold inv; by rewrite El|done|done|done].
    - (* prepare *)
      destruct (hs_group hsd =? secp256r1)%N eqn:Eg; [|discriminate H]. apply N.eqb_eq in Eg. destruct io; [|discriminate H]. cbn [negb] in H. destruct Hi as (-> & Hs & Hh).
      destruct (prepare_keys _ _ _ _ _ _ _ _ _ _ out _ s) as [s1|e|] eqn:E; try discriminate H. injection H as <- <- <-.
      left. split; [done|].
      assert (forall now', within 5 now now' -> exists f1, fstep out now' (MServerHello (ServerParams now (hs_random hsd) (hs_group hsd) (hs_key hsd))) f = Ok f1 /\
        sim_fo s1 f1 /\ rl_write_seq (fo_rl s1) = rl_write_seq (fo_rl s)) as Hp.
      { intros now' Hw. destruct (prepare_sim compress aes ghash_fn checked blind_l blind_f pad_l pad_f sha256 parse_body ec_curve parse_key exchange fin_l fin_f rounds cert_key sig_valid Hfin out (ServerParams now (hs_random hsd) (hs_group hsd) (hs_key hsd)) s f s1 now' Hs Hh Eg Hw E) as (f1 & H1 & H2 & H3 & _). eauto. }
      split.
      + destruct (Hp now) as (_ & _ & _ & Hw); [unfold within; lia|]. unfold wseq. rewrite El. cbn. lia.
      + intros fms [Hf Ht]. apply map_snd_one in Hf as [nw ->]. destruct (Hp nw) as (f1 & H1 & H2 & _).
        { specialize (Ht nw _ ltac:(by apply elem_of_list_singleton)). done. }
        exists f1. split; [by split|]. intros rest. cbn [app]. by apply loop_one.
    - (* cf *)
      destruct (length hash =? 32); [|discriminate H]. destruct io; [|discriminate H]. cbn [negb] in H. destruct Hi as (-> & Hs).
      destruct (bool_decide (is_Some (fo_cf s))) eqn:Ek.
      { exfalso. unfold vd_of in H. destruct (with_prf _ _); try discriminate H. destruct (flush_prf _ _ _); discriminate H. }
      destruct (vd_of _ _ _ _ false hash s) as [s1 [vd|e|]] eqn:E; try discriminate H. injection H as <- <- <-.
      destruct (vd_sim compress blind_f rounds _ _ _ _ _ _ _ Hs E) as (f1 & f2 & H1 & H2 & H3 & H4 & H5).
      left. split; [done|]. split; [unfold wseq; rewrite El; cbn; lia|]. eapply (Hone _ (set_cf vd f2)); [done| |done|].
      + intros _ nw. cbn [fo_step]. unfold on_cf. rewrite (sf_cf _ _ _ Hs), Ek, H1. cbn [obind]. rewrite H2. cbn [obind]. rewrite H3. done.
      + unfold inv. cbn. split; [done|]. destruct H4. by constructor.
    - (* sf *)
      destruct (length hash =? 32); [|discriminate H]. destruct io; [|discriminate H]. cbn [negb] in H. destruct Hi as (-> & Hs).
      destruct (bool_decide (is_Some (fo_sf s))) eqn:Ek.
      { exfalso. unfold vd_of in H. destruct (with_prf _ _); try discriminate H. destruct (flush_prf _ _ _); discriminate H. }
      destruct (vd_of _ _ _ _ false hash s) as [s1 [vd|e|]] eqn:E; try discriminate H. injection H as <- <- <-.
      destruct (vd_sim compress blind_f rounds _ _ _ _ _ _ _ Hs E) as (f1 & f2 & H1 & H2 & H3 & H4 & H5).
      left. split; [done|]. split; [unfold wseq; rewrite El; cbn; lia|]. eapply (Hone _ (set_sf vd f2)); [done| |done|].
      + intros _ nw. cbn [fo_step]. unfold on_sf. rewrite (sf_sf _ _ _ Hs), Ek, H1. cbn [obind]. rewrite H2. cbn [obind]. rewrite H3. done.
      + unfold inv. cbn. split; [done|]. destruct H4. by constructor.
    - (* push in *)
      destruct Hi as (-> & Hs). destruct (opaque_into_parts (m_payload m)) as [[[nonce ct] tag]|e|]; try discriminate H. unfold then_send in H.
      destruct (ld_exec _ _ _ _ _ out _ s) as [s1 [y|e|]] eqn:E; try discriminate H. destruct io; [|discriminate H]. injection H as <- <- <-. left. split; [done|].
      eapply Hrl in E; [exact E|done|done|done|done|done|]. done.
    - (* push out *)
      destruct Hi as (-> & Hs). unfold then_send in H. cbn zeta in H.
      destruct (ld_exec _ _ _ _ _ out _ s) as [s1 [y|e|]] eqn:E; try discriminate H. destruct io; [|discriminate H]. injection H as <- <- <-. left. split; [done|].
      assert ((match m_typ m with ApplicationData => None | _ => Some (m_payload m) end) = (if is_app (m_typ m) then None else Some (m_payload m))) as ->.
      { unfold is_app. by destruct (m_typ m). }
      eapply Hrl in E; [exact E|done| |done|done|done|done]. cbn. exists (m_payload m). split; [done|]. split; [done|].
      specialize (Hb m eq_refl). unfold wseq in Hb. by rewrite El in Hb.
    - (* start *)
      destruct Hi as (-> & Hs). unfold then_send in H.
      destruct (ld_exec _ _ _ _ _ out _ s) as [s1 [y|e|]] eqn:E; try discriminate H. destruct io; [|discriminate H]. injection H as <- <- <-. left. split; [done|].
      eapply Hrl in E; [exact E|done|done|done|done|done|]. done.
    - (* flush *)
      destruct (rl_wants_flush (fo_rl s)); cbn [negb] in H; [|left; injection H as <- <- <-; apply Hsame; [unfold inv; by rewrite El|done|done|done]].
      destruct io; [|discriminate H]. cbn [negb] in H. destruct Hi as (-> & Hs). destruct (ld_exec _ _ _ _ _ out _ s) as [s1 [y|e|]] eqn:E; try discriminate H.
      injection H as <- <- <-. left. split; [done|]. eapply Hrl in E; [exact E|done|done|done|done|done|]. done.
    - (* close *)
      destruct io; [|discriminate H]. cbn [negb] in H. destruct Hi as (-> & Hs).
      destruct (close_transcript _ _ _ _ _ _ _ _ _ _ out s hs) as [[r t]|e|] eqn:E; try discriminate H. injection H as <- <- <-. right. split; [done|]. split; [done|].
      destruct (close_sim aes ghash_fn checked blind_l blind_f pad_l pad_f sha256 parse_body ec_curve cert_key sig_valid _ _ _ _ _ _ Hs E) as (t' & H1 & H2). by exists r, t, t'.
  Qed.

  Definition shared_at (k : N) (ms : list message) : Prop :=
    forall i m, ms !! i = Some m -> m_typ m = ApplicationData ->
      map (blind_f (k + N.of_nat i)%N) (seq 0 (length (m_payload m))) = m_payload m.
  Lemma pushed_cons now io x xs : pushed ((now, io, x) :: xs) = match x with LPushOut m => m :: pushed xs | _ => pushed xs end.
  Proof. unfold pushed. cbn. by destruct x. Qed.
  Lemma shared_cons k m ms : shared_at k (m :: ms) ->
    (m_typ m = ApplicationData -> map (blind_f k) (seq 0 (length (m_payload m))) = m_payload m) /\ shared_at (k + 1) ms.
  Proof.
    intros H. split; [intros Ha; specialize (H 0 m eq_refl Ha); by rewrite N.add_0_r in H|].
    intros i m' Hi Ha. specialize (H (S i) m' Hi Ha). by replace (k + 1 + N.of_nat i)%N with (k + N.of_nat (S i))%N by lia.
  Qed.
  Lemma received_app ms1 ms2 fms : received (ms1 ++ ms2) fms -> exists f1 f2, fms = f1 ++ f2 /\ received ms1 f1 /\ received ms2 f2.
  Proof.
    intros [Hm Ht]. apply fmap_app_inv in Hm as (f1 & f2 & -> & -> & ->). exists f1, f2. split; [done|].
    split; (split; [done|]); intros nw h Hin; apply Ht; apply elem_of_app; auto.
  Qed.
  Lemma run_main out xs l f l' ms os fms t : inv out l f -> shared_at (wseq l) (pushed xs) -> lrun xs l = (l', ms, os) ->
    all_succeed os -> Ok (LDone (Some t)) ∈ os -> received ms fms ->
    exists f' t', floop out fms f = Ok f' /\ ffinish out f' = Ok t' /\ agree t t'.
  Proof.
    revert l f ms os fms. induction xs as [|[[now io] x] xs IH]; intros l f ms os fms Hi Hb H Ha Ht Hr.
    { injection H as <- <- <-. by apply elem_of_nil in Ht. }
    destruct (lstep now io x l) as [[l1 ms1] o] eqn:E. destruct (lrun_cons _ _ _ _ _ _ _ _ _ _ _ E H) as [(-> & -> & -> & ->)|(_ & ms2 & os2 & H2 & -> & ->)].
    { apply elem_of_list_singleton in Ht. done. }
    apply Forall_cons in Ha as [[a ->] Ha]. apply received_app in Hr as (fm1 & fm2 & -> & Hr1 & Hr2). rewrite pushed_cons in Hb.
    destruct (step_main out now io x l f l1 ms1 a Hi) as [(Hd & Hw & Hf)|(-> & -> & r & t0 & t' & Hl & Hfin' & Hag)]; [|done| |].
    - intros m -> Happ. apply shared_cons in Hb as [Hb _]. by apply Hb.
    - destruct (Hf fm1 Hr1) as (f1 & Hi1 & Hl). rewrite Hl. apply (IH l1 f1 ms2 os2 fm2); try done.
      + rewrite Hw. destruct x; try (rewrite N.add_0_r; exact Hb). by apply shared_cons in Hb as [_ Hb].
      + apply elem_of_cons in Ht as [Ht|Ht]; [|done]. injection Ht as <-. by destruct (Hd t).
    - exists f, t'. destruct Hr1 as [Hm1 _]. apply map_snd_one in Hm1 as [nw ->]. split; [done|]. split; [done|].
      destruct (ended_run (Some t0) xs l1 l' ms2 os2) as (_ & _ & Ht0); [unfold ended; by rewrite Hl|done|].
      apply elem_of_cons in Ht as [Ht|Ht]; [done|]. apply Ht0 in Ht as [= ->]. done.
  Qed.

  Lemma start_main xs l0 l' ms os fms t : ld_st l0 = LInit -> shared_at 0 (pushed xs) -> lrun xs l0 = (l', ms, os) ->
    all_succeed os -> Ok (LDone (Some t)) ∈ os -> received ms fms ->
    exists t', frun c fms = Ok t' /\ agree t t'.
  Proof.
    revert l0 ms os fms. induction xs as [|[[now io] x] xs IH]; intros l0 ms os fms El Hb H Ha Ht Hr.
    { injection H as <- <- <-. by apply elem_of_nil in Ht. }
    destruct (lstep now io x l0) as [[l1 ms1] o] eqn:E. destruct (lrun_cons _ _ _ _ _ _ _ _ _ _ _ E H) as [(-> & -> & -> & ->)|(_ & ms2 & os2 & H2 & -> & ->)].
    { apply elem_of_list_singleton in Ht. done. }
    apply Forall_cons in Ha as [[a ->] Ha]. rewrite pushed_cons in Hb.
    destruct x; cbn [ld_step] in E;
      unfold ld_alloc, ld_preprocess, ld_random, ld_key_share, ld_prepare, ld_cf, ld_sf, ld_push_in, ld_push_out, ld_start, ld_flush, ld_close, ld_next_in, ld_next_out in E;
      rewrite ?El in E; try discriminate E.
    - destruct (prf_setup iv compress (fc_net c) MsStandard) as [[[m p] out]|e|] eqn:Ep; try discriminate E. cbn [map_err] in E.
      destruct (ld_exec _ _ _ _ _ out _ _) as [s1 [y|e|]] eqn:Ee; try discriminate E. injection E as <- <- <-.
      destruct (exec_sim aes ghash_fn checked blind_l blind_f pad_l pad_f out
        (CAlloc (fc_sent_records c) (fc_recv_records c) (fc_sent c) (fc_recv_online c) (fc_recv c)) (Fo m p (rl_new Leader) None None None None)
        (Fo m p (rl_new Follower) None None None None) s1 y) as (f1 & y' & Hf & Hs1 & _ & Hw & rr & Hrr); [|exact I|exact Ee|].
      { constructor; try done. apply sim_new. }
      cbn [tell] in Hf. unfold fo_run, fo_alloc. rewrite Ep. cbn [map_err obind]. rewrite Hf. cbn [obind].
      destruct (run_main out xs (goto (LSetup out s1 random) l0) f1 l' ms2 os2 fms t) as (f' & t' & Hl' & Hf' & Hag); [| |done|done| |done|].
      + unfold inv. cbn. split; [done|]. split; [done|]. by subst s1.
      + unfold wseq. cbn. rewrite Hw. exact Hb.
      + apply elem_of_cons in Ht as [Ht|Ht]; done.
      + rewrite Hl'. cbn [obind]. by exists t'.
    - injection E as <- <- <-. refine (IH _ ms2 os2 fms _ Hb H2 Ha _ Hr); [exact El || exact eq_refl|]. apply elem_of_cons in Ht as [Ht|Ht]; done.
    - injection E as <- <- <-. refine (IH _ ms2 os2 fms _ Hb H2 Ha _ Hr); [exact El || exact eq_refl|]. apply elem_of_cons in Ht as [Ht|Ht]; done.
    - unfold ld_finish in E. rewrite El in E. injection E as <- <- <-. refine (IH _ ms2 os2 fms _ Hb H2 Ha _ Hr); [exact El || exact eq_refl|]. apply elem_of_cons in Ht as [Ht|Ht]; done.
  Qed.

  Lemma C65_lemma xs defer l' ms os fms t :
    lrun xs (ld_new defer) = (l', ms, os) -> all_succeed os -> Ok (LDone (Some t)) ∈ os ->
    received ms fms -> shared_input blind_f (pushed xs) ->
    exists t', frun c fms = Ok t' /\ agree t t'.
  Proof.
    intros H Ha Ht Hr Hb. exact (start_main xs (ld_new defer) l' ms os fms t eq_refl Hb H Ha Ht Hr).
  Qed.
End Run.
