(** The invariant of the TLS client and its preservation by the states of the handshake. *)
From Verif.Lib Require Import Base.
From Verif Require Import ProofModel CodecModel CodecSpec CodecLemmas FramingLemmas TlsModel HandshakeModel HandshakeLemmas HandshakePropLemmas
  AttestModel SigAlgModel SigAlgSpec SigAlgLemmas RecordModel ClientModel ClientSpec ClientLemmas.

Lemma written_app a b : written (a ++ b) = written a ++ written b.
Proof. unfold written. by rewrite map_app, concat_app. Qed.
Lemma written_cons h b : written (h :: b) = hs_encode h ++ written b.
Proof. done. Qed.
Lemma written_one h : written [h] = hs_encode h.
Proof. unfold written. simpl. by rewrite app_nil_r. Qed.

(** ** The parameters of the key exchange *)
Lemma rd_int_inv n l v r : rd_int n l = Ok (v, r) -> read_uint n l = Some (v, r).
Proof. unfold rd_int, opt_err. by destruct (read_uint n l) as [?|]; [intros [= ->]|]. Qed.
Lemma rd_pay_inv n l v r : rd_pay n l = Ok (v, r) -> read_payload n l = Some (v, r).
Proof. unfold rd_pay, opt_err. by destruct (read_payload n l) as [?|]; [intros [= ->]|]. Qed.
Lemma whole_inv {A} (r : outcome unit (A * list N)) a : whole r = Ok a -> r = Ok (a, []).
Proof. unfold whole. intros ([a' l] & -> & H)%obind_Ok. destruct l; [|done]. by injection H as <-. Qed.
Lemma rd_ecdhe_bounds l k r : bytes_ok l -> rd_ecdhe l = Ok (k, r) -> (ke_group k < 65536)%N /\ length (ke_public k) < 256.
Proof.
  intros Hl H. unfold rd_ecdhe in H. apply obind_Ok in H as ([t l1] & H1 & H). destruct (N.eqb_spec t 3) as [->|]; [|done].
  cbn [negb] in H. apply obind_Ok in H as ([g l2] & H2 & H). apply obind_Ok in H as ([p l3] & H3 & H).
  apply obind_Ok in H as ([d l4] & H4 & H). injection H as <- <-. simpl.
  apply rd_int_inv in H1. apply uint_canonical in H1 as (b1 & -> & _); [|done]. apply bytes_ok_app in Hl as [_ Hl].
  apply rd_int_inv in H2. apply uint_canonical in H2 as (b2 & -> & Hb); [|done]. apply bytes_ok_app in Hl as [_ Hl].
  apply is_be_ok in Hb as (Hb1 & Hb2 & Hb3). apply of_be_lt in Hb2. rewrite Hb1, Hb3 in Hb2.
  apply rd_pay_inv, read_payload_fits in H3; [|done]. split; [exact Hb2|]. change (256 ^ N.of_nat 1)%N with 256%N in H3. lia.
Qed.
Lemma unwrap_inv p k : bytes_ok p -> unwrap_ecdhe p = Ok k ->
  p = enc_ecdhe k /\ (ke_group k < 65536)%N /\ length (ke_public k) < 256.
Proof.
  intros Hp H%whole_inv. pose proof (good_ecdhe p Hp) as G. unfold ends in G. rewrite H in G.
  apply rd_ecdhe_bounds in H; [|done]. split; [|done]. rewrite app_nil_r in G. tauto.
Qed.
Lemma decode_enc_params k : (ke_group k < 65536)%N -> length (ke_public k) < 256 ->
  decode_params (enc_params k) = Some (ke_group k, ke_public k).
Proof.
  intros Hg Hp. unfold decode_params, enc_params, rd_int, rd_pay.
  rewrite read_uint_enc by done. cbn [opt_err obind]. rewrite N.eqb_refl. cbn [negb].
  rewrite read_uint_enc by exact Hg. cbn [opt_err obind].
  rewrite <- (app_nil_r (enc_payload 1 _)), read_payload_enc by (change (256 ^ N.of_nat 1)%N with 256%N; lia). done.
Qed.
Lemma ske_bytes p : bytes_ok (hs_encode (HServerKeyExchange p)) -> bytes_ok p.
Proof. unfold hs_encode, enc_payload. cbn [hs_body]. intros (_ & (_ & ?)%bytes_ok_app)%bytes_ok_app. done. Qed.

(** ** The server's hello *)
Lemma has_duplicate_false ts : has_duplicate ts = false -> NoDup ts.
Proof.
  induction ts as [|t ts IH]; simpl; [constructor|]. intros [H1 H2]%orb_false_elim. apply bool_decide_eq_false in H1.
  constructor; [done|by apply IH].
Qed.
Lemma find_ext_In xs x : NoDup (map sx_type xs) -> x ∈ xs -> find_ext (sx_type x) xs = Some x.
Proof.
  unfold find_ext. induction xs as [|y xs IH]; simpl; intros Hn Hx; [by apply elem_of_nil in Hx|].
  apply NoDup_cons in Hn as [Hn Hn']. apply elem_of_cons in Hx as [->|Hx]; [by rewrite N.eqb_refl|].
  destruct (N.eqb_spec (sx_type y) (sx_type x)) as [He|_]; [|by apply IH].
  exfalso. apply Hn. rewrite He. by apply elem_of_list_fmap_1.
Qed.
Lemma find_ext_Some xs t x : find_ext t xs = Some x -> x ∈ xs /\ sx_type x = t.
Proof. unfold find_ext. intros [H1 H2]%find_some. apply N.eqb_eq in H2. split; [by apply elem_of_list_In|done]. Qed.
Lemma existsb_false {A} (f : A -> bool) l : existsb f l = false -> forall x, x ∈ l -> f x = false.
Proof.
  intros H x Hx. destruct (f x) eqn:Ef; [|done]. exfalso. assert (existsb f l = true) as Ht; [|congruence].
  apply existsb_exists. exists x. split; [by apply elem_of_list_In|done].
Qed.

Lemma hello_exts_hello E random sid : ch_exts (hello E random sid) = hello_exts E.
Proof. done. Qed.

(** ** The invariant *)
Definition unread (x : cx) : list N := written (map snd (j_frames (x_joiner x))) ++ j_buf (x_joiner x).
Definition early (x : cx) : Prop :=
  Forall (fun e => app_event e = false) (x_log x) /\ x_received x = [] /\ x_may_send x = false /\ x_may_recv x = false.
Definition pre (x : cx) : Prop :=
  early x /\ x_dec x = false /\ x_in x = [] /\ (forall m, PushIn m ∉ x_log x) /\ bytes_ok (heard (x_log x)) /\ heard_enc (x_log x) = [].
Definition hello_in (E : env) (ch : client_hello) (log : list cev) : Prop :=
  exists random sid, ch = hello E random sid /\ GetRandom random ∈ log.
Definition tr_ok (tr : hs_hash) (b : list N) : Prop :=
  t_bytes tr = b /\ match t_auth tr with Some a => a = b | None => True end.
(** What the states before the client's own flight know: the hello and the messages handled so far. *)
Definition opening (E : env) (ch : client_hello) (sh : server_hello) (cr sr : list N) (suite : N) (scts : option (list (list N))) : Prop :=
  cr = ch_random ch /\ sr = sh_random sh /\ suite = sh_suite sh /\ scts_of sh scts /\ answers E ch sh.
Definition details_ok (sh : server_hello) (chain : list (list N)) (status : option (list N)) (cert : cert_details) : Prop :=
  sc_chain cert = chain /\ sc_ocsp cert = default [] status /\
  (is_Some status -> exists x, x ∈ sh_exts sh /\ sx_type x = 5%N).
Definition kx_ok (k : ecdhe) (kx : kx_details) : Prop :=
  kx = KxDetails (enc_params k) (ke_dss k) /\ (ke_group k < 65536)%N /\ length (ke_public k) < 256.
Definition auth_of (E : env) (r : cert_request) : client_auth :=
  match e_resolve E (cq_names r) (cq_schemes r) with
  | Some (chain, scheme, sign) => AuthVerify chain scheme sign
  | None => AuthEmpty
  end.
Definition going (E : env) (st : cstate) (ch : client_hello) (hs : list handshake) : Prop :=
  let tr_is tr := tr_ok tr (written (HClientHello ch :: hs)) in
  match st with
  | CsHello random sent tr => hs = [] /\ random = ch_random ch /\ sent = map cx_type (ch_exts ch) /\ tr_is tr
  | CsCert cr sr tr suite ms scts => exists sh, hs = [HServerHello sh] /\ opening E ch sh cr sr suite scts /\
      (ms = true -> exists x, x ∈ sh_exts sh /\ sx_type x = 5%N) /\ tr_is tr
  | CsStatusOrKx cr sr tr suite scts chain => exists sh, hs = [HServerHello sh; HCertificate chain] /\
      opening E ch sh cr sr suite scts /\ (exists x, x ∈ sh_exts sh /\ sx_type x = 5%N) /\ tr_is tr
  | CsKx cr sr tr suite cert => exists sh chain status, hs = [HServerHello sh; HCertificate chain] ++ opt_list HCertStatus status /\
      opening E ch sh cr sr suite (sc_scts cert) /\ details_ok sh chain status cert /\ tr_is tr
  | CsDoneOrReq cr sr tr suite cert kx => exists sh chain status k,
      hs = [HServerHello sh; HCertificate chain] ++ opt_list HCertStatus status ++ [HServerKeyExchange (enc_ecdhe k)] /\
      opening E ch sh cr sr suite (sc_scts cert) /\ details_ok sh chain status cert /\ kx_ok k kx /\ tr_is tr
  | CsDone cr sr tr suite cert kx auth => exists sh chain status k req,
      hs = [HServerHello sh; HCertificate chain] ++ opt_list HCertStatus status ++ [HServerKeyExchange (enc_ecdhe k)]
           ++ opt_list HCertRequest req /\
      opening E ch sh cr sr suite (sc_scts cert) /\ details_ok sh chain status cert /\ kx_ok k kx /\
      auth = option_map (auth_of E) req /\ tr_is tr
  | _ => False
  end.
(** After the client's flight. *)
Definition flown (E : env) (s : session) (tr : hs_hash) (log : list cev) : Prop :=
  answers E (ss_hello s) (ss_server s) /\ status_announced s /\ server_authentic E s /\ client_authenticates E s /\
  hello_in E (ss_hello s) log /\ GetKeyShare (ke_group (ss_kx s)) (ss_key s) ∈ log /\
  said log = hs_encode (HClientHello (ss_hello s)) ++ written (client_flight s) /\
  said_enc log = hs_encode (HFinished (ss_client_vd s)) /\
  t_bytes tr = before_server_finished s /\
  exists scts params, scts_of (ss_server s) scts /\
    params = [3%N] ++ be 2 (ke_group (ss_kx s)) ++ be 1 (N.of_nat (length (ke_public (ss_kx s)))) ++ ke_public (ss_kx s) /\
    key_calls log =
      [Prepare (sh_random (ss_server s)) (ke_group (ss_kx s)) (ke_public (ss_kx s)) (ss_chain s)
         (default [] (ss_status s)) scts params (ke_dss (ss_kx s));
       ClientVd (e_sha256 E (before_client_finished s)) (Some (ss_client_vd s))].

Definition INV (E : env) (st : cstate) (u : list N) (x : cx) : Prop :=
  let log := x_log x in
  match st with
  | CsInit => pre x /\ x_enc x = false /\ said log = [] /\ said_enc log = [] /\ key_calls log = [] /\ heard log = u
  | CsCcs tr => pre x /\ x_enc x = true /\ exists s, flown E s tr log /\ heard log = written (server_flight s) ++ u
  | CsFinished tr => early x /\ x_enc x = true /\ x_dec x = true /\ exists s, flown E s tr log /\
      heard log = written (server_flight s) /\ heard_enc log = u
  | CsTraffic => guarded E log /\ authenticated E log /\ x_enc x = true /\ x_dec x = true
  | _ => pre x /\ x_enc x = false /\ said_enc log = [] /\ key_calls log = [] /\
      exists ch hs, hello_in E ch log /\ said log = hs_encode (HClientHello ch) /\ heard log = written hs ++ u /\ going E st ch hs
  end.
Definition safe (E : env) (x : cx) : Prop :=
  guarded E (x_log x) /\ ((x_received x = [] /\ x_may_send x = false) \/ authenticated E (x_log x)).

Lemma early_safe E x : early x -> safe E x.
Proof. intros (H1 & H2 & H3 & _). split; [by apply guard_early|by left]. Qed.
Lemma INV_safe E st u x : INV E st u x -> safe E x.
Proof.
  destruct st; simpl; try (intros [[H _] _]; by apply early_safe).
  - intros [H _]. by apply early_safe.
  - intros (H1 & H2 & _). split; [done|by right].
Qed.

Lemma early_ext x x' : early x -> same x x' -> (exists l, x_log x' = x_log x ++ l /\ Forall (fun e => app_event e = false) l) -> early x'.
Proof.
  intros (H1 & H2 & H3 & H4) (_ & _ & _ & E1 & E2 & E3) (l & El & Hl). unfold early. rewrite El, E1, E2, E3. split_and!; try done.
  by apply Forall_app.
Qed.
Lemma pre_ext x x' : pre x -> same x x' -> (exists l, x_log x' = x_log x ++ l /\ Forall (fun e => app_event e = false) l /\
  Forall (fun e => match e with PushIn _ | ClearIn _ | Decrypted _ => False | _ => True end) l) -> pre x'.
Proof.
  intros (H1 & H2 & H3 & H4 & H5 & H6) S (l & El & Hl1 & Hl2). pose proof S as ((_ & _ & _ & Hin) & _ & Hd & _).
  assert (heard l = [] /\ heard_enc l = []) as [E1 E2].
  { split; apply concat_nil; (eapply Forall_impl; [exact Hl2|]); by intros []. }
  unfold pre. split_and!.
  - eapply early_ext; [done..|]. by exists l.
  - congruence.
  - congruence.
  - intros m Hm. rewrite El in Hm. apply elem_of_app in Hm as [Hm|Hm]; [by eapply H4|].
    eapply Forall_forall in Hl2; [|exact Hm]. done.
  - by rewrite El, heard_app, E1, app_nil_r.
  - by rewrite El, heard_enc_app, E2, app_nil_r.
Qed.
Lemma pre_calm x x' : pre x -> ext calm x x' -> pre x'.
Proof.
  intros (H1 & H2 & H3 & H4 & H5 & H6) [S (l & El & Hl)]. pose proof S as ((_ & _ & _ & Hin) & _ & Hd & _).
  pose proof (quiet_app_view (x_log x) l (calm_quiet _ Hl)) as (E1 & E2 & _). unfold pre. rewrite El. split_and!.
  - eapply early_ext; [done..|]. exists l. split; [done|]. by apply calm_no_app.
  - congruence.
  - congruence.
  - intros m Hm. apply elem_of_app in Hm as [Hm|Hm]; [by eapply H4|].
    eapply Forall_forall in Hl; [|exact Hm]. by destruct Hl as (_ & _ & ?).
  - by rewrite E1.
  - by rewrite E2.
Qed.
Lemma hello_in_app E ch log l : hello_in E ch log -> hello_in E ch (log ++ l).
Proof. intros (r & sid & H1 & H2). exists r, sid. split; [done|]. apply elem_of_app. by left. Qed.
Lemma flown_quiet E s tr log l : flown E s tr log -> Forall quiet l -> flown E s tr (log ++ l).
Proof.
  intros (H1 & H2 & H3 & H4 & H5 & H6 & H7 & H8 & H9 & H10) Hl.
  pose proof (quiet_app_view log l Hl) as (E1 & E2 & E3 & E4 & E5). unfold flown. rewrite E3, E4, E5.
  split_and!; try done; [by apply hello_in_app|]. apply elem_of_app. by left.
Qed.
Lemma INV_calm E st u x x' : INV E st u x -> ext calm x x' -> INV E st u x'.
Proof.
  intros H X. pose proof X as [S (l & El & Hl)]. pose proof (calm_quiet _ Hl) as Hq.
  pose proof (quiet_app_view (x_log x) l Hq) as (E1 & E2 & E3 & E4 & E5).
  pose proof S as (_ & Hen & Hde & _).
  destruct st; simpl in *; rewrite ?El, ?E1, ?E2, ?E3, ?E4, ?E5, ?Hen, ?Hde.
  1: { destruct H as (Hp & H). split; [by eapply pre_calm|done]. }
  1-6: destruct H as (Hp & H2 & H3 & H4 & ch & hs & H5 & H6); split; [by eapply pre_calm|]; split_and!; try done;
       exists ch, hs; split; [by apply hello_in_app|done].
  - destruct H as (Hp & H2 & s & H3 & H4). split; [by eapply pre_calm|]. split; [done|]. exists s. split; [by apply flown_quiet|done].
  - destruct H as (Hp & H2 & H2' & s & H3 & H4). split.
    { eapply early_ext; [done..|]. exists l. split; [done|]. by apply calm_no_app. }
    split; [done|]. split; [done|]. exists s. split; [by apply flown_quiet|done].
  - destruct H as (H1 & H2 & H3 & H4). split_and!; try done.
    + apply guard_no_app; [done|by apply calm_no_app].
    + apply authenticated_later; [done|]. eapply Forall_impl; [exact Hq|]. apply quiet_later.
Qed.
Lemma safe_calm E x x' : safe E x -> ext calm x x' -> safe E x'.
Proof.
  intros [Hg Hs] [S (l & El & Hl)]. destruct S as (_ & _ & _ & Hm & _ & Hr). unfold safe. rewrite El, Hm, Hr. split.
  - apply guard_no_app; [done|by apply calm_no_app].
  - destruct Hs as [?|?]; [by left|]. right. apply authenticated_later; [done|].
    eapply Forall_impl; [exact (calm_quiet _ Hl)|]. apply quiet_later.
Qed.
