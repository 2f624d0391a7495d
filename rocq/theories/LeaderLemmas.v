(** The follower does what the leader does, if it gets the leader's messages. *)
From Verif.Lib Require Import Base.
From Verif Require Import TranscriptModel ProofModel CodecModel AttestModel TlsModel AuthModel TagModel RecordModel RecordSpec PartsModel PrfModel
  HandshakeModel SigAlgModel FollowerModel FollowerSpec FollowerLemmas FollowerRunLemmas LeaderModel LeaderSpec LeaderSim.

(** ** Closing *)
Lemma told_typ l f : told l f -> r_typ f = r_typ l.
Proof. by intros (_ & H & _). Qed.
Lemma told_public l f : told l f -> r_typ l <> ApplicationData -> r_plain f = r_plain l.
Proof. intros (_ & _ & _ & _ & -> & _) H. unfold is_app. by rewrite bool_decide_eq_false_2. Qed.
Section Transcript.
  Context (sha256 : list N -> list N) (parse_body : protocol_version -> N -> list N -> option hs_payload) (ec_curve : list N -> option N).
  Lemma finished_told l f : told l f -> validate_finished parse_body l = Ok tt -> validate_finished parse_body f = Ok tt.
  Proof.
    intros Ht. unfold validate_finished. rewrite (told_typ _ _ Ht). destruct (bool_decide (r_typ l = Handshake)) eqn:E; cbn [negb]; [|discriminate].
    apply bool_decide_eq_true in E. rewrite (told_public _ _ Ht) by congruence. destruct Ht as (-> & _). done.
  Qed.
  Lemma seq_told ls fs : Forall2 told ls fs -> validate_seq ls = Ok tt -> validate_seq fs = Ok tt.
  Proof.
    induction 1 as [|l f ls fs H Hs IH]; [done|]. destruct Hs as [|l' f' ls fs H' Hs]; [done|]. destruct H as (E & _), H' as (E' & _).
    change (validate_seq (f :: f' :: fs)) with (if (r_seq f' <=? r_seq f)%N then Err TValidation else validate_seq (f' :: fs)).
    change (validate_seq (l :: l' :: ls)) with (if (r_seq l' <=? r_seq l)%N then Err TValidation else validate_seq (l' :: ls)).
    rewrite E, E'. destruct (_ <=? _)%N; [done|exact IH].
  Qed.
  Lemma build_told ls fs o m rs : Forall2 told ls fs -> build_records parse_body (Some ls) None o m = Ok rs ->
    rs = ls /\ build_records parse_body (Some fs) None o m = Ok fs.
  Proof.
    intros Ht H. unfold build_records in *. apply obind_Ok in H as (rs' & H1 & H). apply obind_Ok in H as ([] & H2 & H). injection H as ->.
    destruct Ht as [|l f ls fs Hr Ht]; [discriminate H1|]. apply obind_Ok in H1 as ([] & H1 & H1'). injection H1' as <-. split; [done|].
    rewrite (finished_told _ _ Hr H1). cbn [obind]. rewrite (seq_told (l :: ls) (f :: fs)); [done|by constructor|done].
  Qed.
  Lemma first_told ls fs vd : Forall2 told ls fs -> (forall l ls', ls = l :: ls' -> validate_finished parse_body l = Ok tt) ->
    first_vd ls = Ok vd -> first_vd fs = Ok vd.
  Proof.
    intros Ht Hf H. destruct Ht as [|l f ls fs Hr Ht]; [done|]. cbn [first_vd] in *. specialize (Hf _ _ eq_refl).
    rewrite (told_public _ _ Hr); [done|]. unfold validate_finished in Hf. destruct (bool_decide (r_typ l = Handshake)) eqn:E; [|discriminate Hf].
    apply bool_decide_eq_true in E. congruence.
  Qed.
  Lemma last_told ls fs : Forall2 told ls fs -> match last ls, last fs with Some l, Some f => told l f | None, None => True | _, _ => False end.
  Proof.
    induction 1 as [|l f ls fs H Hs IH]; [done|]. destruct Hs as [|l' f' ls fs H' Hs]; [done|]. by rewrite !last_cons_cons.
  Qed.
  Lemma notify_told ls fs : Forall2 told ls fs -> check_close_notify ls = Ok tt -> check_close_notify fs = Ok tt.
  Proof.
    intros Ht. apply last_told in Ht. unfold check_close_notify. destruct (last ls) as [l|], (last fs) as [f|]; try done.
    rewrite (told_typ _ _ Ht). destruct (r_typ l) eqn:E; try done. by rewrite (told_public _ _ Ht) by congruence.
  Qed.
  Lemma told_of_sent ls fs : Forall2 told_sent ls fs -> Forall2 told ls fs.
  Proof. intros H. eapply Forall2_impl; [exact H|]. by intros ? ? [? _]. Qed.
  Lemma told_of_recv ls fs : Forall2 told_recv ls fs -> Forall2 told ls fs.
  Proof. intros H. eapply Forall2_impl; [exact H|]. by intros ? ? [? _]. Qed.
End Transcript.

Section Sim.
  Context (iv : list N) (compress : list N -> list N -> list N).
  Context (aes : list N -> list N -> list N) (ghash_fn : list N -> list N -> list N) (checked : bool) (blind_l blind_f : N -> nat -> N) (pad_l pad_f : nat -> N).
  Context (sha256 : list N -> list N) (parse_body : protocol_version -> N -> list N -> option hs_payload) (ec_curve : list N -> option N).
  Context (parse_key : list N -> bool) (exchange : list N -> option (list N)) (fin_l fin_f : list N -> bool) (rounds : nat).
  Context (cert_key : bytes -> option key_kind) (sig_valid : bytes -> webpki_alg -> bytes -> bytes -> bool).
  Context (client_key : option (list N)) (c : fo_config).
  Context (Hfin : forall k, fin_l k = true -> fin_f k = true).
  Notation lstep := (ld_step iv compress aes ghash_fn checked blind_l pad_l sha256 parse_body ec_curve parse_key exchange fin_l rounds cert_key sig_valid client_key c).
  Notation lrun := (ld_run iv compress aes ghash_fn checked blind_l pad_l sha256 parse_body ec_curve parse_key exchange fin_l rounds cert_key sig_valid client_key c).
  Notation lexec := (ld_exec aes ghash_fn checked blind_l pad_l).
  Notation fexec := (rl_exec aes ghash_fn checked blind_f pad_f).
  Notation fstep := (fo_step compress aes ghash_fn checked blind_f pad_f parse_key exchange fin_f rounds).
  Notation floop := (fo_loop compress aes ghash_fn checked blind_f pad_f parse_key exchange fin_f rounds).
  Notation fsteps := (fo_steps compress aes ghash_fn checked blind_f pad_f parse_key exchange fin_f rounds).
  Notation ffinish := (fo_finish aes ghash_fn checked blind_f pad_f sha256 parse_body ec_curve).
  Notation frun := (fo_run iv compress aes ghash_fn checked blind_f pad_f sha256 parse_body ec_curve parse_key exchange fin_f rounds).

  Record sim_fo (s f : fo) : Prop := SimFo {
    sf_vm : fo_vm f = fo_vm s; sf_prf : fo_prf f = fo_prf s; sf_random : fo_random f = fo_random s; sf_hello : fo_hello f = fo_hello s;
    sf_cf : fo_cf f = fo_cf s; sf_sf : fo_sf f = fo_sf s; sf_rl : sim blind_f (fo_rl s) (fo_rl f) }.
  Lemma sim_fo_prf m p s f : sim_fo s f -> sim_fo (set_prf m p s) (set_prf m p f).
  Proof. intros []. by constructor. Qed.

  Lemma exec_sim out cl s f s' x : sim_fo s f -> own_call blind_f (fo_rl s) cl -> lexec out cl s = (s', Ok x) ->
    exists f' y, fexec out (tell cl) f = Ok (y, f') /\ sim_fo s' f' /\ sim_res x y /\
      rl_write_seq (fo_rl s') = (rl_write_seq (fo_rl s) + match cl with CEncrypt _ _ _ _ => 1 | _ => 0 end)%N /\ exists r, s' = set_rl r s.
  Proof.
    intros Hs Ho H. unfold ld_exec in H. unfold rl_exec. rewrite (sf_vm _ _ Hs).
    destruct (rl_step _ _ _ _ _ _ _ blind_l pad_l cl (fo_rl s)) as [r [x'|e|]] eqn:E; try discriminate H. injection H as <- ->.
    destruct (step_sim aes ghash_fn checked _ _ _ _ blind_l blind_f pad_l pad_f _ _ _ _ _ (sf_rl _ _ Hs) Ho E) as (r' & y & -> & Hr & Hx & Hw).
    do 2 eexists. split; [reflexivity|]. split; [destruct Hs; by constructor|]. split; [done|]. split; [done|]. by exists r.
  Qed.
  Lemma rl_exec_ld out cl s x s' : rl_exec aes ghash_fn checked blind_l pad_l out cl s = Ok (x, s') -> lexec out cl s = (s', Ok x).
  Proof. unfold rl_exec, ld_exec. destruct (rl_step _ _ _ _ _ _ _ _ _ _ _) as [r [y|e|]]; intros H; try discriminate H. by injection H as -> <-. Qed.
  Lemma flush_sim_fo s f s' : sim_fo s f -> flush_prf compress rounds s = Ok s' -> exists f', flush_prf compress rounds f = Ok f' /\ sim_fo s' f' /\ exists m p, s' = set_prf m p s.
  Proof.
    intros Hs H. apply flush_Ok in H as (m & p & H & ->). unfold flush_prf. rewrite (sf_vm _ _ Hs), (sf_prf _ _ Hs), H. cbn.
    eexists. split; [reflexivity|]. split; [by apply sim_fo_prf|]. by exists m, p.
  Qed.

  Lemma prepare_sim out h s f s' now : sim_fo s f -> fo_hello s = None -> sp_group h = secp256r1 -> within 5 (sp_time h) now ->
    prepare_keys compress aes ghash_fn checked blind_l pad_l parse_key exchange fin_l rounds out h s = Ok s' ->
    exists f', fstep out now (MServerHello h) f = Ok f' /\ sim_fo s' f' /\ rl_write_seq (fo_rl s') = rl_write_seq (fo_rl s) /\
      fo_random s' = fo_random s /\ fo_hello s' = Some h.
  Proof.
    intros Hs Hn Hg Hw H. cbn [fo_step]. unfold on_hello. rewrite (sf_hello _ _ Hs), Hn. cbn [is_Some bool_decide].
    rewrite bool_decide_eq_false_2 by (by intros [? ?]). rewrite (proj2 (abs_diff_within _ _) Hw). unfold prepare_keys in H.
    apply obind_Ok in H as (s1 & H1 & H). unfold with_prf in H1. apply obind_Ok in H1 as (p & H1 & H1'). injection H1' as <-.
    unfold with_prf at 1. rewrite (sf_prf _ _ Hs), H1. cbn [obind]. rewrite Hg, N.eqb_refl. cbn [negb].
    destruct (parse_key (sp_key h)); [|discriminate H]. cbn [negb] in *. apply obind_Ok in H as (pms & H2 & H). rewrite H2. cbn [obind].
    apply obind_Ok in H as (m & H3 & H). cbn [set_prf fo_vm fo_prf] in *. rewrite (sf_vm _ _ Hs), H3. cbn [obind].
    apply obind_Ok in H as (s2 & H4 & H). eapply flush_sim_fo in H4 as (f2 & H4 & Hs2 & m2 & p2 & ->); [|apply (sim_fo_prf m p), (sim_fo_prf (fo_vm s) p); exact Hs].
    match goal with |- context [flush_prf compress rounds ?x] => change x with (set_prf m p (set_prf (fo_vm s) p f)) end.
    rewrite H4. cbn [obind]. destruct (fin_l (sp_key h)) eqn:Ef; [|discriminate H]. rewrite (Hfin _ Ef). cbn [negb] in *.
    apply obind_Ok in H as ([x s3] & H5 & H). injection H as <-. apply rl_exec_ld in H5.
    destruct (exec_sim _ CSetup _ _ _ _ Hs2 I H5) as (f3 & y & H6 & Hs3 & _ & Hw3 & r & ->). cbn [tell] in H6. rewrite H6. cbn [obind].
    eexists. split; [reflexivity|]. split; [destruct Hs3; by constructor|]. cbn in *. split; [lia|]. done.
  Qed.
  Lemma vd_sim set cell hash s f s' vd : sim_fo s f -> vd_of compress rounds set cell false hash s = (s', Ok vd) ->
    exists f1 f', with_prf f (set (fo_prf f) hash) = Ok f1 /\ flush_prf compress rounds f1 = Ok f' /\ vm_decoded (fo_vm f') cell = Some vd /\ sim_fo s' f' /\
      rl_write_seq (fo_rl s') = rl_write_seq (fo_rl s).
  Proof.
    intros Hs H. unfold vd_of in H. destruct (with_prf s (set (fo_prf s) hash)) as [s1|e|] eqn:E1; try discriminate H.
    destruct (flush_prf compress rounds s1) as [s2|e|] eqn:E2; try discriminate H. destruct (vm_decoded (fo_vm s2) cell) as [vd'|] eqn:E3; [|discriminate H]. injection H as <- ->.
    unfold with_prf in E1. apply obind_Ok in E1 as (p & E1 & E1'). injection E1' as <-. pose proof (sim_fo_prf (fo_vm s) p _ _ Hs) as Hs1.
    destruct (flush_sim_fo _ _ _ Hs1 E2) as (f2 & Hf2 & Hs2 & m2 & p2 & ->). eexists _, f2. split; [unfold with_prf; rewrite (sf_prf _ _ Hs), E1; reflexivity|].
    cbn [obind]. rewrite (sf_vm _ _ Hs). split; [exact Hf2|]. split; [rewrite (sf_vm _ _ Hs2); exact E3|]. by split.
  Qed.

  (** ** Closing *)
  Lemma close_sim out s f hs r t : sim_fo s f -> close_transcript aes ghash_fn checked blind_l pad_l sha256 parse_body ec_curve cert_key sig_valid out s hs = Ok (r, t) ->
    exists t', ffinish out f = Ok t' /\ agree t t'.
  Proof.
    intros Hs H. unfold close_transcript in H. destruct (lexec out CCommit s) as [s1 o] eqn:E. apply obind_Ok in H as (l & -> & H).
    destruct (exec_sim _ CCommit _ _ _ _ Hs I E) as (f1 & y & Hf & Hs1 & Hx & _ & r1 & ->). unfold fo_finish. cbn [tell] in Hf. rewrite Hf. cbn [obind].
    apply obind_Ok in H as ([sent recv] & H1 & H). destruct l as [| | |a b]; try discriminate H1. injection H1 as -> ->.
    destruct y as [| | |fs fr]; try by destruct Hx. destruct Hx as [Hsent Hrecv].
    apply obind_Ok in H as (cf & H2 & H). apply opt_err_Ok in H2. apply obind_Ok in H as (sf & H3 & H). apply opt_err_Ok in H3.
    apply obind_Ok in H as (rd & H4 & H). apply obind_Ok in H as (h & H5 & H). apply obind_Ok in H as (sg & H6 & H). apply obind_Ok in H as (ek & H7 & H).
    apply obind_Ok in H as (t1 & H8 & H). apply map_err_Ok in H8. apply obind_Ok in H as ([] & H9 & H). apply map_err_Ok in H9. injection H as <- <-.
    cbn [obind]. rewrite (sf_hello _ _ Hs1), (sf_random _ _ Hs1), (sf_cf _ _ Hs1), (sf_sf _ _ Hs1), H2, H3.
    destruct (fo_random (set_rl r1 s)) as [rd'|]; [|discriminate H4]. injection H4 as ->. destruct (fo_hello (set_rl r1 s)) as [h'|]; [|discriminate H5]. injection H5 as ->.
    cbn [opt_err obind]. destruct (ephem_of h) as [ek'|]; [|discriminate H7]. injection H7 as ->. cbn [or_panic obind].
    unfold tls_build in *. cbn [tb_time opt_err obind tb_tls_sent tb_tls_recv parse_opt tb_version tb_signature tb_certs tb_binding tb_records_sent tb_records_recv tb_app_sent tb_app_recv] in *.
    apply obind_Ok in H8 as (a & Ha & H8). apply obind_Ok in H8 as (b & Hb & H8). injection H8 as <-.
    pose proof (told_of_sent _ _ Hsent) as Ts. pose proof (told_of_recv _ _ Hrecv) as Tr.
    assert (forall rs o m a l ls', build_records parse_body (Some rs) None o m = Ok a -> rs = l :: ls' -> validate_finished parse_body l = Ok tt) as Hval.
    { clear. intros rs o m a l ls' H ->. unfold build_records in H. apply obind_Ok in H as (? & H & _). by apply obind_Ok in H as ([] & H & _). }
    destruct (build_told _ _ _ _ _ _ Ts Ha) as [-> Ha']. destruct (build_told _ _ _ _ _ _ Tr Hb) as [-> Hb'].
    rewrite Ha'. cbn [obind]. rewrite Hb'. cbn [obind map_err].
    unfold verify_transcript in *. unfold tls_cf_vd, tls_sf_vd in *. cbn [tt_sent tt_recv] in *.
    apply obind_Ok in H9 as (v1 & V1 & H9). destruct (first_vd sent) as [w1|[]|] eqn:W1; try discriminate V1. injection V1 as ->.
    rewrite (first_told _ _ _ _ Ts (fun l ls' => Hval _ _ _ _ l ls' Ha) W1). cbn [lift_panic obind].
    apply obind_Ok in H9 as (c1 & C1 & H9). rewrite C1. cbn [obind]. destruct (bool_decide (c1 = cf)); [|discriminate H9]. cbn [negb] in *.
    apply obind_Ok in H9 as (v2 & V2 & H9). destruct (first_vd recv) as [w2|[]|] eqn:W2; try discriminate V2. injection V2 as ->.
    rewrite (first_told _ _ _ _ Tr (fun l ls' => Hval _ _ _ _ l ls' Hb) W2). cbn [lift_panic obind].
    apply obind_Ok in H9 as (c2 & C2 & H9). rewrite C2. cbn [obind]. destruct (bool_decide (c2 = sf)); [|discriminate H9]. cbn [negb] in *.
    apply obind_Ok in H9 as ([] & N1 & N2). rewrite (notify_told _ _ Ts N1). cbn [obind]. rewrite (notify_told _ _ Tr N2). cbn [map_err obind].
    eexists. split; [reflexivity|]. by constructor.
  Qed.
End Sim.
