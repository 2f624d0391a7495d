(** Lemmas about TLS transcripts. *)
From Verif.Lib Require Import Base.
From Verif Require Import TranscriptModel CodecModel CodecSpec CodecLemmas FramingLemmas AttestModel TlsModel TlsSpec.

(** ** Raw records *)
Lemma bytes_ok_app l1 l2 : bytes_ok (l1 ++ l2) -> bytes_ok l1 /\ bytes_ok l2.
Proof. apply Forall_app. Qed.

Lemma parse_raw_inv fuel : forall l ms, bytes_ok l -> parse_raw_records fuel l = Ok ms ->
  l = concat (map wire ms) /\ Forall record_ok ms.
Proof.
  induction fuel as [|fuel IH]; intros l ms Hok H; destruct l as [|x l]; simpl in H;
    try (injection H as <-; split; [done|constructor]); try done.
  destruct (message_read (x :: l)) as [[m l']| |] eqn:E; try done.
  apply message_read_inv in E as [Hm Hl]; [|done].
  destruct (parse_raw_records fuel l') as [ms'| |] eqn:E2; try done. injection H as <-.
  rewrite Hl in Hok. apply bytes_ok_app in Hok as [_ Hok].
  destruct (IH _ _ Hok E2) as [-> Hms]. split; [by rewrite Hl|by constructor].
Qed.
Lemma parse_raw_ok ms : Forall record_ok ms -> forall fuel, length (concat (map wire ms)) <= fuel ->
  parse_raw_records fuel (concat (map wire ms)) = Ok ms.
Proof.
  induction 1 as [|m ms Hm _ IH]; intros fuel Hf; [by destruct fuel|].
  cbn [map concat] in *. rewrite app_length, length_wire in Hf.
  destruct fuel as [|fuel]; [lia|].
  destruct (wire m ++ concat (map wire ms)) as [|x l] eqn:E.
  { apply (f_equal length) in E. rewrite app_length, length_wire in E. simpl in E. lia. }
  cbn [parse_raw_records]. rewrite <- E, message_read_wire by done. rewrite IH by lia. done.
Qed.
Lemma message_read_shorter l m l' : message_read l = Ok (m, l') -> length l' < length l.
Proof.
  unfold message_read.
  destruct (read_uint 1 l) as [[t l1]|] eqn:E1; [|done]. simpl.
  destruct (read_uint 2 l1) as [[v l2]|] eqn:E2; [|done]. simpl.
  destruct (read_uint 2 l2) as [[n l3]|] eqn:E3; [|done]. simpl.
  destruct (_ && _); [done|]. destruct (_ <=? _)%N; [done|]. destruct (match ct_of t with UnknownType _ => _ | _ => _ end); [done|].
  destruct (version_rejected _); [done|].
  destruct (take_bytes (N.to_nat n) l3) as [[p l4]|] eqn:E4; [|done]. simpl. intros [= _ <-].
  apply take_bytes_Some in E4 as [-> _].
  apply read_uint_Some in E1 as (b1 & -> & ? & _), E2 as (b2 & -> & ? & _), E3 as (b3 & -> & ? & _).
  rewrite !app_length. lia.
Qed.
Lemma message_read_no_panic l : message_read l <> Panic.
Proof.
  unfold message_read.
  destruct (read_uint 1 l) as [[t l1]|]; [|done]. simpl.
  destruct (read_uint 2 l1) as [[v l2]|]; [|done]. simpl.
  destruct (read_uint 2 l2) as [[n l3]|]; [|done]. simpl.
  destruct (_ && _); [done|]. destruct (_ <=? _)%N; [done|]. destruct (match ct_of t with UnknownType _ => _ | _ => _ end); [done|].
  destruct (version_rejected _); [done|].
  by destruct (take_bytes (N.to_nat n) l3) as [[p l4]|].
Qed.
Lemma parse_raw_no_panic fuel : forall l, length l <= fuel -> parse_raw_records fuel l <> Panic.
Proof.
  induction fuel as [|fuel IH]; intros l Hl; destruct l as [|x l]; simpl; try done; [simpl in Hl; lia|].
  pose proof (message_read_no_panic (x :: l)). destruct (message_read (x :: l)) as [[m l']| |] eqn:E; try done.
  apply message_read_shorter in E. simpl in Hl, E.
  specialize (IH l' ltac:(lia)). by destruct (parse_raw_records fuel l').
Qed.

(** ** Splitting payloads *)
Lemma split_ok seq typ p : 24 <= length p -> exists nonce ct tag,
  split_into_record seq typ p = Ok (TlsRecord seq typ None nonce ct (Some tag)) /\
  p = nonce ++ ct ++ tag /\ length nonce = 8 /\ length tag = 16 /\ length ct = length p - 24.
Proof.
  intros Hp. unfold split_into_record. destruct (Nat.ltb_spec (length p) 24); [lia|].
  rewrite !slice_Some by lia. cbn [obind or_panic].
  eexists _, _, _. split; [reflexivity|]. split_and!.
  - rewrite !Nat.sub_0_r, drop_0.
    rewrite (take_ge (drop (length p - 16) p)) by (rewrite drop_length; lia).
    rewrite <- (take_drop 8 p) at 1. f_equal.
    rewrite <- (take_drop (length p - 16 - 8) (drop 8 p)) at 1. f_equal.
    rewrite drop_drop. f_equal. lia.
  - rewrite take_length, drop_length. lia.
  - rewrite take_length, drop_length. lia.
  - rewrite take_length, drop_length. lia.
Qed.
Lemma split_inv seq typ p r : split_into_record seq typ p = Ok r ->
  24 <= length p /\ r_seq r = seq /\ r_typ r = typ /\ r_plain r = None /\ wire_payload r = p /\
  length (r_nonce r) = 8 /\ (exists tag, r_tag r = Some tag /\ length tag = 16) /\ length (r_ct r) = length p - 24.
Proof.
  intros H. destruct (Nat.ltb_spec (length p) 24) as [Hl|Hl].
  { unfold split_into_record in H. by rewrite (proj2 (Nat.ltb_lt _ _) Hl) in H. }
  destruct (split_ok seq typ p Hl) as (n & c & t & E & Hp & ? & ? & ?). rewrite E in H. injection H as <-.
  split_and!; try done. by exists t.
Qed.
Lemma split_no_panic seq typ p : split_into_record seq typ p <> Panic.
Proof.
  destruct (Nat.ltb_spec (length p) 24) as [Hl|Hl].
  - unfold split_into_record. by rewrite (proj2 (Nat.ltb_lt _ _) Hl).
  - by destruct (split_ok seq typ p Hl) as (? & ? & ? & -> & _).
Qed.

Definition set_plain (r : tls_record) (p : list N) : tls_record :=
  TlsRecord (r_seq r) (r_typ r) (Some p) (r_nonce r) (r_ct r) (r_tag r).

Lemma parse_traffic_cons seq m ms app :
  parse_traffic seq (m :: ms) app =
  (let! rec := split_into_record seq (m_typ m) (m_payload m) in
   if bool_decide (r_typ rec = ApplicationData) then
     match app with
     | Some data =>
        if length (r_ct rec) <=? length data then
          let! rest := parse_traffic (seq + 1) ms (Some (drop (length (r_ct rec)) data)) in
          Ok (set_plain rec (take (length (r_ct rec)) data) :: rest)
        else Err TParse
     | None => let! rest := parse_traffic (seq + 1) ms app in Ok (rec :: rest)
     end
   else let! rest := parse_traffic (seq + 1) ms app in Ok (rec :: rest)).
Proof.
  cbn [parse_traffic]. destruct (split_into_record seq (m_typ m) (m_payload m)) as [r| |]; try done.
  cbn [obind]. destruct (r_typ r) eqn:E; try (rewrite bool_decide_eq_false_2 by done; by destruct app);
    rewrite bool_decide_eq_true_2 by done; by destruct app; unfold set_plain; rewrite ?E.
Qed.

Definition app_len (ms : list message) : nat :=
  sum_list_with (fun m => length (m_payload m) - 24)
    (List.filter (fun m => bool_decide (m_typ m = ApplicationData)) ms).

Lemma parse_traffic_inv ms : forall seq app rs, parse_traffic (N.of_nat seq) ms app = Ok rs ->
  map r_typ rs = map m_typ ms /\ map wire_payload rs = map m_payload ms /\
  map r_seq rs = map N.of_nat (List.seq seq (length rs)) /\
  Forall (fun r => length (r_nonce r) = 8 /\ exists tag, r_tag r = Some tag /\ length tag = 16) rs /\
  plaintexts_from app rs /\ Forall (fun m => 24 <= length (m_payload m)) ms /\
  match app with None => True | Some data => app_len ms <= length data end.
Proof.
  induction ms as [|m ms IH]; intros seq app rs H.
  { simpl in H. injection H as <-. split_and!; try done; try constructor.
    - destruct app; simpl; [split; [constructor|by eexists]|constructor].
    - destruct app; [|done]. unfold app_len. simpl. lia. }
  rewrite parse_traffic_cons in H.
  destruct (split_into_record _ _ _) as [r| |] eqn:E; try done. cbn [obind] in H.
  apply split_inv in E as (Hl & Hseq & Htyp & Hpl & Hw & Hn & Ht & Hct).
  replace (N.of_nat seq + 1)%N with (N.of_nat (S seq)) in H by lia.
  case_bool_decide as Hty.
  - destruct app as [data|].
    + destruct (Nat.leb_spec (length (r_ct r)) (length data)) as [Hle|]; [|done].
      destruct (parse_traffic _ ms _) as [rs'| |] eqn:E2; try done. injection H as <-.
      destruct (IH _ _ _ E2) as (I1 & I2 & I3 & I4 & [I5 I5'] & I6 & I7).
      split_and!.
      * cbn [map]. by rewrite I1, <- Htyp.
      * cbn [map]. rewrite I2. f_equal. done.
      * cbn [map length List.seq]. rewrite I3. f_equal. done.
      * by constructor.
      * split.
        { constructor; [|done]. cbn [set_plain r_typ r_plain r_ct]. rewrite Hty. eexists. split; [done|].
          rewrite take_length. lia. }
        destruct I5' as [u Hu]. exists u. cbn [map concat]. cbn [set_plain r_plain default].
        rewrite <- app_assoc. etransitivity; [symmetry; apply (take_drop (length (r_ct r)))|]. f_equal. exact Hu.
      * by constructor.
      * unfold app_len in *. cbn [List.filter]. rewrite <- Htyp, Hty, bool_decide_eq_true_2 by done.
        cbn [sum_list_with]. rewrite drop_length in I7. lia.
    + destruct (parse_traffic _ ms _) as [rs'| |] eqn:E2; try done. injection H as <-.
      destruct (IH _ _ _ E2) as (I1 & I2 & I3 & I4 & I5 & I6 & I7).
      split_and!; try done; try by constructor.
      * cbn [map]. by rewrite I1, <- Htyp.
      * cbn [map]. rewrite I2. f_equal. done.
      * cbn [map length List.seq]. rewrite I3. f_equal. done.
  - destruct (parse_traffic _ ms _) as [rs'| |] eqn:E2; try done. injection H as <-.
    destruct (IH _ _ _ E2) as (I1 & I2 & I3 & I4 & I5 & I6 & I7).
    split_and!; try by constructor.
    + cbn [map]. by rewrite I1, <- Htyp.
    + cbn [map]. rewrite I2. f_equal. done.
    + cbn [map length List.seq]. rewrite I3. f_equal. done.
    + destruct app as [data|]; simpl; [|by constructor].
      destruct I5 as [I5 I5']. split.
      * constructor; [|done]. destruct (r_typ r); done.
      * rewrite Hpl. simpl. done.
    + destruct app; [|done]. unfold app_len. cbn [List.filter]. by rewrite <- Htyp, bool_decide_eq_false_2.
Qed.
Lemma parse_traffic_ok ms : forall seq app, Forall (fun m => 24 <= length (m_payload m)) ms ->
  match app with None => True | Some data => app_len ms <= length data end ->
  exists rs, parse_traffic seq ms app = Ok rs.
Proof.
  induction ms as [|m ms IH]; intros seq app Hl Happ; [by eexists|].
  inversion Hl as [|? ? Hm Hl']; subst. rewrite parse_traffic_cons.
  destruct (split_ok seq (m_typ m) (m_payload m) Hm) as (n & c & t & -> & _ & _ & _ & Hc). cbn [obind r_typ].
  case_bool_decide as Hty.
  - destruct app as [data|].
    + cbn [r_ct]. unfold app_len in *. cbn [List.filter] in Happ. rewrite Hty, bool_decide_eq_true_2 in Happ by done.
      cbn [sum_list_with] in Happ. destruct (Nat.leb_spec (length c) (length data)) as [Hle|]; [|lia].
      destruct (IH (seq + 1)%N (Some (drop (length c) data))) as [rs Hrs]; [done|rewrite drop_length; lia|].
      rewrite Hrs. by eexists.
    + destruct (IH (seq + 1)%N None) as [rs Hrs]; [done|done|]. rewrite Hrs. by eexists.
  - destruct (IH (seq + 1)%N app) as [rs Hrs]; [done| |].
    + destruct app; [|done]. unfold app_len in *. cbn [List.filter] in Happ. by rewrite bool_decide_eq_false_2 in Happ.
    + rewrite Hrs. by eexists.
Qed.
Lemma parse_traffic_no_panic ms : forall seq app, parse_traffic seq ms app <> Panic.
Proof.
  induction ms as [|m ms IH]; intros seq app; [done|]. rewrite parse_traffic_cons.
  pose proof (split_no_panic seq (m_typ m) (m_payload m)).
  destruct (split_into_record _ _ _) as [r| |]; try done. cbn [obind].
  case_bool_decide; [destruct app as [data|]|].
  - destruct (_ <=? _); [|done]. specialize (IH (seq + 1)%N (Some (drop (length (r_ct r)) data))).
    by destruct (parse_traffic _ ms _).
  - specialize (IH (seq + 1)%N None). by destruct (parse_traffic _ ms _).
  - specialize (IH (seq + 1)%N app). by destruct (parse_traffic _ ms _).
Qed.

(** ** The position of the ChangeCipherSpec *)
Lemma ccs_position_Some ms n : ccs_position ms = Some n <->
  exists before ccs rest, ms = before ++ ccs :: rest /\ length before = n /\
    Forall (fun m => m_typ m <> ChangeCipherSpec) before /\ m_typ ccs = ChangeCipherSpec.
Proof.
  revert n. induction ms as [|m ms IH]; intros n.
  { split; [done|]. intros (before & ? & ? & H & _). by destruct before. }
  destruct (decide (m_typ m = ChangeCipherSpec)) as [Hm|Hm].
  - simpl. rewrite Hm. split.
    + intros [= <-]. exists [], m, ms. split_and!; [done|done|constructor|done].
    + intros (before & c & rest & H & <- & Hb & Hc). destruct before as [|b before]; [done|].
      simpl in H. injection H as <- _. inversion Hb; subst. done.
  - transitivity (option_map S (ccs_position ms) = Some n).
    { simpl. destruct (m_typ m); done. }
    split.
    + destruct (ccs_position ms) as [k|] eqn:E; [|done]. simpl. intros [= <-].
      destruct (proj1 (IH k) eq_refl) as (before & c & rest & -> & <- & Hb & Hc).
      exists (m :: before), c, rest. split_and!; [done|done|by constructor|done].
    + intros (before & c & rest & H & <- & Hb & Hc). destruct before as [|b before].
      { simpl in H. injection H as <- <-. done. }
      simpl in H. injection H as <- ->. inversion Hb; subst.
      rewrite (proj2 (IH (length before))); [done|]. by exists before, c, rest.
Qed.

Lemma parse_records_inv ms app rs : parse_records ms app = Ok rs -> records_of ms app rs.
Proof.
  unfold parse_records. destruct (ccs_position ms) as [n|] eqn:E; [|done].
  apply ccs_position_Some in E as (before & ccs & rest & -> & <- & Hb & Hc).
  rewrite lookup_app_r by lia. replace (length before + 1 - length before) with 1 by lia.
  destruct rest as [|fin after]; [done|]. cbn [lookup list_lookup].
  destruct (split_into_record 0 _ _) as [r| |] eqn:E; try done. cbn [obind].
  apply split_inv in E as (Hl & Hseq & Htyp & Hpl & Hw & Hn & Ht & Hct).
  case_bool_decide as Hfin; [|done]. cbn [negb].
  replace (drop (length before + 2) (before ++ ccs :: fin :: after)) with after.
  2:{ rewrite Nat.add_comm. rewrite drop_app_ge by lia. replace (2 + length before - length before) with 2 by lia. done. }
  destruct (parse_traffic 1 after app) as [rs'| |] eqn:E2; try done. intros [= <-].
  apply (parse_traffic_inv _ 1) in E2 as (I1 & I2 & I3 & I4 & I5 & I6 & I7).
  split.
  - exists before, ccs, fin, after. split_and!; try done.
    + cbn [map]. by rewrite I1, Htyp.
    + cbn [map]. by rewrite I2, Hw.
  - cbn [map length List.seq]. rewrite I3. f_equal. done.
  - by constructor.
  - destruct app as [data|]; simpl; [|by constructor]. destruct I5 as [I5 I5']. split.
    + constructor; [|done]. by rewrite Htyp, Hfin.
    + by rewrite Hpl.
Qed.
Lemma parse_records_ok ms app : can_be_split ms app -> exists rs, parse_records ms app = Ok rs.
Proof.
  intros (before & ccs & fin & after & -> & Hb & Hc & Hfin & Hl & Happ).
  unfold parse_records.
  rewrite (proj2 (ccs_position_Some _ (length before))).
  2:{ by exists before, ccs, (fin :: after). }
  rewrite lookup_app_r by lia. replace (length before + 1 - length before) with 1 by lia.
  cbn [lookup list_lookup Datatypes.app]. inversion Hl as [|? ? Hf Hl']; subst.
  destruct (split_ok 0 (m_typ fin) (m_payload fin) Hf) as (n & c & t & -> & _). cbn [obind].
  rewrite bool_decide_eq_true_2 by done. cbn [negb].
  replace (drop (length before + 2) (before ++ ccs :: fin :: after)) with after.
  2:{ rewrite Nat.add_comm. rewrite drop_app_ge by lia. replace (2 + length before - length before) with 2 by lia. done. }
  destruct (parse_traffic_ok after 1 app Hl') as [rs ->]; [by destruct app|]. by eexists.
Qed.
Lemma parse_records_no_panic ms app : parse_records ms app <> Panic.
Proof.
  unfold parse_records. destruct (ccs_position ms) as [n|]; [|done].
  destruct (ms !! (n + 1)) as [fin|]; [|done].
  pose proof (split_no_panic 0 (m_typ fin) (m_payload fin)).
  destruct (split_into_record 0 _ _) as [r| |]; try done. cbn [obind].
  destruct (negb _); [done|]. pose proof (parse_traffic_no_panic (drop (n + 2) ms) 1 app).
  by destruct (parse_traffic 1 _ _).
Qed.

(** ** Sequence numbers *)
Lemma validate_seq_ok rs : validate_seq rs = Ok tt <-> StronglySorted (fun a b => (r_seq a < r_seq b)%N) rs.
Proof.
  transitivity (Sorted (fun a b => (r_seq a < r_seq b)%N) rs).
  2:{ split; [|apply StronglySorted_Sorted]. apply Sorted_StronglySorted. intros a b c. lia. }
  induction rs as [|a rs IH]; [split; [constructor|done]|].
  destruct rs as [|b rs].
  { split; [repeat constructor|done]. }
  transitivity (r_seq a < r_seq b /\ validate_seq (b :: rs) = Ok tt)%N.
  - cbn [validate_seq]. destruct (N.leb_spec (r_seq b) (r_seq a)); [split; [done|lia]|].
    split; [done|]. by intros [_ ?].
  - rewrite IH. split.
    + intros [H1 H2]. constructor; [done|]. by constructor.
    + intros H. inversion H as [|? ? H1 H2]; subst. inversion H2; subst. done.
Qed.
Lemma validate_seq_total rs : validate_seq rs = Ok tt \/ validate_seq rs = Err TValidation.
Proof.
  induction rs as [|a rs IH]; [by left|]. destruct rs as [|b rs]; [by left|].
  cbn [validate_seq]. destruct (_ <=? _)%N; [by right|done].
Qed.

Lemma seq_sorted rs : forall n, map r_seq rs = map N.of_nat (List.seq n (length rs)) ->
  StronglySorted (fun a b => (r_seq a < r_seq b)%N) rs.
Proof.
  intros n H. apply Sorted_StronglySorted; [intros a b c; lia|].
  revert n H. induction rs as [|a rs IH]; intros n H; [constructor|].
  cbn [map length List.seq] in H. injection H as Ha H. constructor; [by eapply IH|].
  destruct rs as [|b rs]; constructor. cbn [map length List.seq] in H. injection H as Hb _. lia.
Qed.

(** ** Handshake messages *)
Lemma collect_before before rest : Forall (fun m => m_typ m <> ChangeCipherSpec) before ->
  (exists ccs rest', rest = ccs :: rest' /\ m_typ ccs = ChangeCipherSpec) ->
  collect_pre_ccs (before ++ rest) =
  concat (map m_payload (List.filter (fun m => bool_decide (m_typ m = Handshake)) before)).
Proof.
  intros Hb (ccs & rest' & -> & Hc). induction Hb as [|m before Hm _ IH].
  - simpl. by rewrite Hc.
  - cbn [app collect_pre_ccs List.filter]. destruct (m_typ m); try done.
    rewrite bool_decide_eq_true_2 by done. cbn [map concat]. by rewrite IH.
Qed.

(** The offsets at which the messages end. *)
Fixpoint ends (pos : nat) (ms : list hs_message) : list msg_info :=
  match ms with
  | [] => []
  | m :: ms' => MsgInfo (fst m) (pos + length (msg_wire m)) :: ends (pos + length (msg_wire m)) ms'
  end.
Lemma msg_wire_length m : length (msg_wire m) = 4 + length (snd m).
Proof. apply hs_wire_length. Qed.
Lemma scan_ok ms : Forall (fun m : hs_message => (N.of_nat (length (snd m)) < 2 ^ 24)%N) ms ->
  forall fuel pos, length (msgs_wire ms) <= fuel -> scan_messages fuel pos (msgs_wire ms) = Ok (ends pos ms).
Proof.
  induction 1 as [|m ms Hm _ IH]; intros fuel pos Hf; [by destruct fuel|].
  unfold msgs_wire in *. cbn [map concat] in *. rewrite app_length, msg_wire_length in Hf.
  destruct fuel as [|fuel]; [lia|]. destruct m as [typ body]. cbn [snd fst] in *.
  unfold msg_wire at 1. unfold hs_wire. cbn [fst snd app scan_messages].
  set (n := N.of_nat (length body)) in *. cbn [take].
  rewrite take_0, (hs_len n Hm). unfold n. rewrite Nat2N.id.
  cbn [length]. rewrite app_length.
  destruct (Nat.ltb_spec (S (S (S (S (length body + length (concat (map msg_wire ms))))))) 4); [lia|].
  destruct (Nat.ltb_spec (S (S (S (S (length body + length (concat (map msg_wire ms))))))) (4 + length body)); [lia|].
  cbn [Nat.add drop]. rewrite drop_app. rewrite IH by lia. cbn [obind ends fst]. rewrite msg_wire_length. done.
Qed.
Lemma scan_no_panic fuel : forall pos l, length l <= fuel -> scan_messages fuel pos l <> Panic.
Proof.
  induction fuel as [|fuel IH]; intros pos l Hl; destruct l as [|x l]; try done; [simpl in Hl; lia|].
  cbn [scan_messages]. destruct (_ <? 4); [done|]. destruct (_ <? _) eqn:E; [done|].
  set (k := 4 + N.to_nat (of_be (take 3 l))) in *.
  specialize (IH (pos + k) (drop k (x :: l))).
  destruct (scan_messages fuel (pos + k) (drop k (x :: l))); try done. exfalso. apply IH; [|done].
  rewrite drop_length. unfold k. simpl in Hl |- *. lia.
Qed.
(** Whatever is scanned, the ends increase and stay within the stream. *)
Lemma scan_ends fuel : forall pos l ms, scan_messages fuel pos l = Ok ms ->
  Forall (fun m => pos <= mi_end m /\ mi_end m <= pos + length l) ms /\
  StronglySorted (fun a b => mi_end a <= mi_end b) ms.
Proof.
  induction fuel as [|fuel IH]; intros pos l ms H; destruct l as [|x l]; cbn [scan_messages] in H;
    try (injection H as <-; split; constructor); try done.
  destruct (_ <? 4); [done|]. destruct (Nat.ltb_spec (length (x :: l)) (4 + N.to_nat (of_be (take 3 l)))) as [|Hk]; [done|].
  set (k := 4 + N.to_nat (of_be (take 3 l))) in *.
  destruct (scan_messages fuel (pos + k) (drop k (x :: l))) as [ms'| |] eqn:E; try done. injection H as <-.
  apply IH in E as [E1 E2]. split.
  - constructor; [cbn [mi_end]; lia|]. eapply Forall_impl; [exact E1|]. intros m Hm. cbv beta in Hm. rewrite drop_length in Hm. lia.
  - constructor; [done|]. eapply Forall_impl; [exact E1|]. intros m Hm. cbv beta in Hm |- *. simpl. lia.
Qed.

Lemma find_ends typ ms : forall pos pre m post, ms = pre ++ m :: post -> Forall (fun m => fst m <> typ) pre -> fst m = typ ->
  List.find (fun m => mi_typ m =? typ)%N (ends pos ms) = Some (MsgInfo typ (pos + length (msgs_wire (pre ++ [m])))).
Proof.
  intros pos pre. revert pos ms. induction pre as [|a pre IH]; intros pos ms m post -> Hpre Hm.
  - cbn [app ends List.find mi_typ]. rewrite Hm, N.eqb_refl. unfold msgs_wire. cbn [map concat]. by rewrite app_nil_r.
  - inversion Hpre as [|? ? Ha Hpre']; subst. cbn [app ends List.find mi_typ].
    destruct (N.eqb_spec (fst a) (fst m)) as [|_]; [done|].
    erewrite IH; [|done..]. unfold msgs_wire. cbn [app map concat]. rewrite app_length. by rewrite Nat.add_assoc.
Qed.
Lemma ends_exists typ ms : forall pos, existsb (fun m => mi_typ m =? typ)%N (ends pos ms) = existsb (fun m => fst m =? typ)%N ms.
Proof. induction ms as [|m ms IH]; intros pos; [done|]. simpl. by rewrite IH. Qed.
Lemma msgs_wire_app a b : msgs_wire (a ++ b) = msgs_wire a ++ msgs_wire b.
Proof. unfold msgs_wire. by rewrite map_app, concat_app. Qed.

Lemma slice_head {A} (a b : list A) : slice (a ++ b) 0 (length a) = Some a.
Proof. rewrite slice_Some by (rewrite ?app_length; lia). by rewrite Nat.sub_0_r, drop_0, take_app. Qed.
Lemma slice_tail {A} (a b : list A) : slice (a ++ b) (length a) (length (a ++ b)) = Some b.
Proof.
  rewrite slice_Some by (rewrite ?app_length; lia). rewrite drop_app, app_length. rewrite take_ge by lia. done.
Qed.
Lemma slice_middle {A} (a b c : list A) : slice (a ++ b ++ c) (length a) (length (a ++ b)) = Some b.
Proof.
  rewrite slice_Some by (rewrite ?app_length; lia). rewrite drop_app, app_length.
  replace (length a + length b - length a) with (length b) by lia. by rewrite take_app.
Qed.

Section ReadHs.
  Context (parse_body : protocol_version -> N -> list N -> option hs_payload).
  Notation read_handshake := (hs_read parse_body TLSv1_2).
  Lemma read_handshake_inv l p rest : bytes_ok l -> read_handshake l = Some (p, rest) ->
    exists typ body, l = hs_wire typ body ++ rest /\ parse_body TLSv1_2 typ body = Some p.
  Proof.
    intros Hok. unfold hs_read.
    destruct (read_uint 1 l) as [[t l1]|] eqn:E1; [|done].
    destruct (read_uint 3 l1) as [[n l2]|] eqn:E2; [|done].
    destruct (take_bytes (N.to_nat n) l2) as [[body l3]|] eqn:E3; [|done].
    destruct (parse_body TLSv1_2 t body) as [p'|] eqn:E4; [|done]. intros [= <- <-].
    apply read_uint_Some in E1 as (b1 & -> & Hb1 & ->), E2 as (b2 & -> & Hb2 & ->).
    apply take_bytes_Some in E3 as [-> Hbody].
    destruct b1 as [|x [|]]; try done. destruct b2 as [|a [|b [|c [|]]]]; try done.
    exists x, body. cbn [app] in *. unfold of_be in E4. simpl in E4. split; [|done].
    inversion Hok as [|? ? Hx Hok1]; subst. inversion Hok1 as [|? ? Ha Hok2]; subst.
    inversion Hok2 as [|? ? Hb Hok3]; subst. inversion Hok3 as [|? ? Hc Hok4]; subst.
    rewrite <- (hs_wire_of x a b c body); [done|done..|]. lia.
  Qed.
  Lemma read_handshake_shorter l p rest : read_handshake l = Some (p, rest) -> length rest < length l.
  Proof.
    unfold hs_read.
    destruct (read_uint 1 l) as [[t l1]|] eqn:E1; [|done].
    destruct (read_uint 3 l1) as [[n l2]|] eqn:E2; [|done].
    destruct (take_bytes (N.to_nat n) l2) as [[body l3]|] eqn:E3; [|done].
    destruct (parse_body TLSv1_2 t body) as [p'|] eqn:E4; [|done]. intros [= <- <-].
    apply read_uint_Some in E1 as (b1 & -> & Hb1 & ->), E2 as (b2 & -> & Hb2 & ->).
    apply take_bytes_Some in E3 as [-> Hbody]. rewrite !app_length. lia.
  Qed.
  Lemma parse_messages_no_panic fuel : forall l, length l <= fuel -> parse_messages parse_body fuel l <> Panic.
  Proof.
    induction fuel as [|fuel IH]; intros l Hl; destruct l as [|x l]; try done; [simpl in Hl; lia|].
    cbn [parse_messages]. destruct (read_handshake (x :: l)) as [[p l']|] eqn:E; [|done].
    apply read_handshake_shorter in E. specialize (IH l').
    destruct (parse_messages parse_body fuel l'); try done. exfalso. apply IH; [simpl in *; lia|done].
  Qed.
End ReadHs.

Section Hashes.
  Context (sha256 : list N -> list N).
  Lemma compute_hashes_ok h : full_handshake_ok h ->
    compute_hashes sha256 (msgs_wire (client_messages h)) (msgs_wire (server_messages h))
      (ends 0 (client_messages h)) (ends 0 (server_messages h)) =
    Ok (sha256 (msgs_wire (until_client_finished h)),
        sha256 (msgs_wire ([CH h] ++ server_messages h ++ fh_client_cert h ++ [CKE h])),
        SfInput (msgs_wire (client_messages h)) (msgs_wire (server_messages h))
          (length (msgs_wire [CH h])) (length (msgs_wire (fh_server_flight h ++ [SHD])))).
  Proof.
    intros [Hs (sh & srest & Hsh) Hsf Hcc Hcv Ht]. unfold compute_hashes.
    assert (List.find (fun m => mi_typ m =? CLIENT_KEY_EXCHANGE)%N (ends 0 (client_messages h)) =
      Some (MsgInfo CLIENT_KEY_EXCHANGE (length (msgs_wire ([CH h] ++ fh_client_cert h ++ [CKE h]))))) as Hf1.
    { rewrite (find_ends CLIENT_KEY_EXCHANGE (client_messages h) 0 ([CH h] ++ fh_client_cert h) (CKE h) (fh_cert_verify h)).
      - by rewrite <- app_assoc.
      - unfold client_messages. done.
      - apply Forall_app. split; [by repeat constructor|]. eapply Forall_impl; [exact Hcc|].
        intros m Hm. cbv beta in Hm. by rewrite Hm.
      - done. }
    assert (List.find (fun m => mi_typ m =? SERVER_HELLO_DONE)%N (ends 0 (server_messages h)) =
      Some (MsgInfo SERVER_HELLO_DONE (length (msgs_wire (fh_server_flight h ++ [SHD]))))) as Hf2.
    { rewrite (find_ends SERVER_HELLO_DONE (server_messages h) 0 (fh_server_flight h) SHD (fh_ticket h)); [done|done| |done].
      eapply Forall_impl; [exact Hsf|]. intros m Hm. cbv beta in Hm.
      repeat (apply elem_of_cons in Hm as [->|Hm]; [done|]). by apply elem_of_nil in Hm. }
    assert (existsb (fun m => mi_typ m =? SERVER_HELLO)%N (ends 0 (server_messages h)) = true) as Hf3.
    { rewrite ends_exists. unfold server_messages. by rewrite Hsh. }
    rewrite Hf1, Hf2, Hf3.
    change (ends 0 (client_messages h)) with (MsgInfo 1 (0 + length (msg_wire (CH h))) ::
      ends (0 + length (msg_wire (CH h))) (fh_client_cert h ++ [CKE h] ++ fh_cert_verify h)).
    cbn [mi_typ].
    change (1 =? CLIENT_HELLO)%N with true. cbn [negb mi_end Nat.add].
    replace (length (msg_wire (CH h))) with (length (msgs_wire [CH h]))
      by (unfold msgs_wire; simpl; by rewrite app_nil_r).
    unfold client_messages, server_messages.
    change (CH h :: fh_client_cert h ++ [CKE h] ++ fh_cert_verify h) with ([CH h] ++ fh_client_cert h ++ [CKE h] ++ fh_cert_verify h).
    rewrite (msgs_wire_app [CH h]). rewrite slice_head. cbn [or_panic obind].
    rewrite (app_assoc (fh_client_cert h)), (msgs_wire_app (fh_client_cert h ++ [CKE h])).
    rewrite (msgs_wire_app [CH h]). rewrite slice_middle. cbn [or_panic obind].
    rewrite (app_assoc (fh_server_flight h)), (msgs_wire_app (fh_server_flight h ++ [SHD])).
    rewrite slice_head. cbn [or_panic obind]. rewrite slice_tail. cbn [or_panic obind].
    do 2 f_equal. unfold until_client_finished, until_key_exchange. f_equal.
    - rewrite !msgs_wire_app. by rewrite <- !app_assoc.
    - rewrite !msgs_wire_app. by rewrite <- !app_assoc.
  Qed.

  Lemma compute_hashes_no_panic sent recv f1 f2 sm rm :
    scan_messages f1 0 sent = Ok sm -> scan_messages f2 0 recv = Ok rm ->
    compute_hashes sha256 sent recv sm rm <> Panic /\
    forall cf s i, compute_hashes sha256 sent recv sm rm = Ok (cf, s, i) ->
      sf_sent i = sent /\ sf_recv i = recv /\ sf_ch_end i <= length sent /\ sf_shd_end i <= length recv.
  Proof.
    intros [S1 S2]%scan_ends [R1 R2]%scan_ends. unfold compute_hashes.
    destruct sm as [|ch sm]; [done|]. destruct (negb _); [done|].
    destruct (List.find _ (ch :: sm)) as [ckx|] eqn:E1; [|done].
    destruct (negb _); [done|]. destruct (List.find _ rm) as [shd|] eqn:E2; [|done].
    apply List.find_some in E1 as [E1 _], E2 as [E2 _].
    apply elem_of_list_In in E2. rewrite Forall_forall in R1. specialize (R1 _ E2). cbv beta in R1.
    inversion S1 as [|? ? Hch S1']; subst. inversion S2 as [|? ? S2' S2'']; subst.
    assert (mi_end ch <= mi_end ckx /\ mi_end ckx <= length sent) as [Hc1 Hc2].
    { destruct E1 as [<-|E1]; [simpl in *; lia|]. apply elem_of_list_In in E1.
      rewrite Forall_forall in S1', S2''. specialize (S1' _ E1). specialize (S2'' _ E1). cbv beta in S1', S2''. simpl in *. lia. }
    rewrite !slice_Some by (simpl in *; lia). cbn [or_panic obind].
    split; [done|]. intros cf s i [= _ _ <-]. simpl in *. split_and!; try done; lia.
  Qed.
End Hashes.

Section TlsL.
  Context (sha256 : list N -> list N).
  Context (parse_body : protocol_version -> N -> list N -> option hs_payload).
  Context (ec_curve : list N -> option N).
  Notation read_handshake := (hs_read parse_body TLSv1_2).

  (** ** Building *)
  Lemma validate_finished_ok r : validate_finished parse_body r = Ok tt ->
    r_typ r = Handshake /\ r_seq r = 0%N /\
    forall p, r_plain r = Some p -> exists vd rest, read_handshake p = Some (HsFinished vd, rest).
  Proof.
    unfold validate_finished. case_bool_decide as H1; [|done]. cbn [negb].
    destruct (N.eqb_spec (r_seq r) 0) as [H2|]; [|done]. cbn [negb]. intros H. split_and!; [done..|].
    intros p Hp. rewrite Hp in H. destruct (read_handshake p) as [[[] rest]|] eqn:E; try done. eauto.
  Qed.
  Lemma validate_finished_total r : validate_finished parse_body r <> Panic.
  Proof.
    unfold validate_finished. destruct (negb _); [done|]. destruct (negb _); [done|].
    destruct (r_plain r); [|done]. by destruct (read_handshake _) as [[[] ?]|].
  Qed.

  Lemma build_records_inv given raw app f rs : build_records parse_body given raw app f = Ok rs ->
    StronglySorted (fun a b => (r_seq a < r_seq b)%N) rs /\
    match given with
    | Some g => g = rs /\ exists first rest, rs = first :: rest /\ validate_finished parse_body first = Ok tt
    | None => exists ms, raw = Some ms /\ parse_records ms app = Ok rs
    end.
  Proof.
    unfold build_records. destruct given as [g|].
    - destruct g as [|first rest]; [done|]. destruct (validate_finished parse_body first) as [[]| |] eqn:E; try done.
      cbn [obind]. destruct (validate_seq (first :: rest)) as [[]| |] eqn:E2; try done. cbn [obind]. intros [= <-].
      split; [by apply validate_seq_ok|]. split; [done|]. by exists first, rest.
    - destruct raw as [ms|]; [|done]. destruct (parse_records ms app) as [rs'| |] eqn:E; try done. cbn [obind].
      destruct (validate_seq rs') as [[]| |] eqn:E2; try done. cbn [obind]. intros [= <-].
      split; [by apply validate_seq_ok|]. by exists ms.
  Qed.
  Lemma build_records_no_panic given raw app f : given <> Some [] -> build_records parse_body given raw app f <> Panic.
  Proof.
    intros Hg. unfold build_records. destruct given as [[|first rest]|]; [done| |].
    - pose proof (validate_finished_total first). destruct (validate_finished parse_body first) as [[]| |]; try done.
      cbn [obind]. by destruct (validate_seq_total (first :: rest)) as [-> | ->].
    - destruct raw as [ms|]; [|done]. pose proof (parse_records_no_panic ms app).
      destruct (parse_records ms app) as [rs'| |]; try done. cbn [obind].
      by destruct (validate_seq_total rs') as [-> | ->].
  Qed.

  Lemma find_map_Some {A B} (f : A -> option B) l b : find_map f l = Some b -> exists a, a ∈ l /\ f a = Some b.
  Proof.
    induction l as [|a l IH]; [done|]. simpl. destruct (f a) as [b'|] eqn:E.
    - intros [= ->]. exists a. split; [by left|done].
    - intros H. destruct (IH H) as (a' & ? & ?). exists a'. split; [by right|done].
  Qed.

  Lemma extract_no_panic sent recv : extract_handshake ec_curve sent recv <> Panic.
  Proof.
    unfold extract_handshake.
    destruct (find_map get_server_hello recv) as [[v r]|]; [|done]. cbn [opt_err obind].
    destruct (version_of v); [|done]. cbn [opt_err obind].
    destruct (find_map get_client_hello sent); [|done]. cbn [opt_err obind].
    destruct (find_map get_certificate recv) as [certs|]; [|done]. cbn [opt_err obind].
    destruct (find_map get_ske recv) as [ske|]; [|done]. cbn [opt_err obind].
    destruct (parse_ecdhe ske) as [[[[g p] sc] sg]|]; [|done]. cbn [opt_err obind].
    destruct (negb _); [done|]. assert (map_scheme ec_curve sc certs <> Panic) as H.
    { unfold map_scheme. repeat (destruct (_ =? _)%N; [try done; try (destruct (match certs with [] => _ | _ => _ end) as [[|[]]|]; done)|]). done. }
    by destruct (map_scheme ec_curve sc certs).
  Qed.

  Lemma components_no_panic s r : handshake_components sha256 parse_body ec_curve s r <> Panic.
  Proof.
    unfold handshake_components.
    pose proof (parse_messages_no_panic parse_body (length (collect_pre_ccs s)) (collect_pre_ccs s) ltac:(done)) as H1.
    destruct (parse_messages parse_body _ (collect_pre_ccs s)) as [sm| |]; try done. cbn [obind].
    pose proof (parse_messages_no_panic parse_body (length (collect_pre_ccs r)) (collect_pre_ccs r) ltac:(done)) as H2.
    destruct (parse_messages parse_body _ (collect_pre_ccs r)) as [rm| |]; try done. cbn [obind].
    pose proof (extract_no_panic sm rm) as H3. destruct (extract_handshake ec_curve sm rm) as [hs| |]; try done. cbn [obind].
    pose proof (scan_no_panic (length (collect_pre_ccs s)) 0 (collect_pre_ccs s) ltac:(done)) as H4.
    destruct (scan_messages (length (collect_pre_ccs s)) 0 _) as [si| |] eqn:E4; try done. cbn [obind].
    pose proof (scan_no_panic (length (collect_pre_ccs r)) 0 (collect_pre_ccs r) ltac:(done)) as H5.
    destruct (scan_messages (length (collect_pre_ccs r)) 0 _) as [ri| |] eqn:E5; try done. cbn [obind].
    destruct (compute_hashes_no_panic sha256 _ _ _ _ _ _ E4 E5) as [H6 _].
    by destruct (compute_hashes sha256 _ _ si ri).
  Qed.
  Lemma components_inv s r hs cf se i : handshake_components sha256 parse_body ec_curve s r = Ok (hs, (cf, se, i)) ->
    exists si ri, scan_messages (length (collect_pre_ccs s)) 0 (collect_pre_ccs s) = Ok si /\
      scan_messages (length (collect_pre_ccs r)) 0 (collect_pre_ccs r) = Ok ri /\
      compute_hashes sha256 (collect_pre_ccs s) (collect_pre_ccs r) si ri = Ok (cf, se, i).
  Proof.
    unfold handshake_components.
    destruct (parse_messages parse_body _ (collect_pre_ccs s)) as [sm| |]; try done. cbn [obind].
    destruct (parse_messages parse_body _ (collect_pre_ccs r)) as [rm| |]; try done. cbn [obind].
    destruct (extract_handshake ec_curve sm rm) as [hs'| |]; try done. cbn [obind].
    destruct (scan_messages (length (collect_pre_ccs s)) 0 _) as [si| |] eqn:E4; try done. cbn [obind].
    destruct (scan_messages (length (collect_pre_ccs r)) 0 _) as [ri| |] eqn:E5; try done. cbn [obind].
    destruct (compute_hashes sha256 _ _ si ri) as [[[cf' se'] i']| |] eqn:E6; try done. cbn [obind].
    intros [= _ <- <- <-]. by exists si, ri.
  Qed.

  Notation build := (tls_build sha256 parse_body ec_curve).

  Lemma parse_opt_inv o r : parse_opt o = Ok r ->
    match o with
    | None => r = None
    | Some l => exists ms, r = Some ms /\ parse_raw_records (length l) l = Ok ms
    end.
  Proof.
    unfold parse_opt. destruct o as [l|]; [|by intros [= <-]].
    destruct (parse_raw_records _ l) as [ms| |]; try done. cbn [obind]. intros [= <-]. eauto.
  Qed.

  (** Everything a successful call of [build] says. *)
  Lemma build_inv b t : build b = Ok t -> exists sr rr,
    parse_opt (tb_tls_sent b) = Ok sr /\ parse_opt (tb_tls_recv b) = Ok rr /\
    build_records parse_body (tb_records_sent b) sr (tb_app_sent b) MSent = Ok (tt_sent t) /\
    build_records parse_body (tb_records_recv b) rr (tb_app_recv b) MRecv = Ok (tt_recv t) /\
    tb_time b = Some (tt_time t) /\
    match sr, rr with
    | Some s, Some r => exists v c sg bd cf se i,
        handshake_components sha256 parse_body ec_curve s r = Ok (v, c, sg, bd, (cf, se, i)) /\
        tt_version t = default v (tb_version b) /\ tt_signature t = or_else (tb_signature b) sg /\
        tt_certs t = or_else (tb_certs b) c /\ tt_binding t = default bd (tb_binding b) /\
        tt_cf_hash t = Some cf /\ tt_session_hash t = Some se /\ tt_sf t = Some i
    | _, _ => tb_version b = Some (tt_version t) /\ tb_binding b = Some (tt_binding t) /\
        tt_signature t = tb_signature b /\ tt_certs t = tb_certs b /\
        tt_cf_hash t = None /\ tt_session_hash t = None /\ tt_sf t = None
    end.
  Proof.
    unfold tls_build. destruct (tb_time b) as [time|]; [|done]. cbn [opt_err obind].
    destruct (parse_opt (tb_tls_sent b)) as [sr| |]; try done. cbn [obind].
    destruct (parse_opt (tb_tls_recv b)) as [rr| |]; try done. cbn [obind].
    intros H. exists sr, rr. split; [done|]. split; [done|].
    destruct sr as [s|], rr as [r|].
    1: destruct (handshake_components sha256 parse_body ec_curve s r) as [[[[[v c] sg] bd] [[cf se] i]]| |] eqn:E; try done.
    all: cbn [obind] in H.
    all: destruct (build_records _ _ _ (tb_app_sent b) _) as [rs| |] eqn:E1; try done; cbn [obind] in H.
    all: destruct (build_records _ _ _ (tb_app_recv b) _) as [rs'| |] eqn:E2; try done; cbn [obind] in H.
    2-4: destruct (tb_version b) as [v|] eqn:Ev; [|done]; cbn [opt_err obind] in H;
      destruct (tb_binding b) as [bd|] eqn:Eb; [|done]; cbn [opt_err obind] in H;
      injection H as <-; split_and!; done.
    destruct (tb_version b) as [v'|] eqn:Ev, (tb_binding b) as [bd'|] eqn:Eb; cbn [or_else opt_err obind] in H;
      injection H as <-; split_and!; try done; by eexists _, _, _, _, _, _, _.
  Qed.

  Lemma build_no_panic b : tb_records_sent b <> Some [] -> tb_records_recv b <> Some [] -> build b <> Panic.
  Proof.
    intros Hs Hr. unfold tls_build. destruct (tb_time b) as [time|]; [|done]. cbn [opt_err obind].
    assert (forall o, parse_opt o <> Panic) as Hp.
    { intros [l|]; [|done]. simpl. pose proof (parse_raw_no_panic (length l) l ltac:(done)).
      by destruct (parse_raw_records (length l) l). }
    pose proof (Hp (tb_tls_sent b)). pose proof (Hp (tb_tls_recv b)).
    destruct (parse_opt (tb_tls_sent b)) as [sr| |]; try done. cbn [obind].
    destruct (parse_opt (tb_tls_recv b)) as [rr| |]; try done. cbn [obind].
    assert (forall v sg c bd (h : option (list N * list N * sf_input)), (
      let! sent := build_records parse_body (tb_records_sent b) sr (tb_app_sent b) MSent in
      let! recv := build_records parse_body (tb_records_recv b) rr (tb_app_recv b) MRecv in
      let! version := opt_err (TMissing MVersion) v in
      let! binding := opt_err (TMissing MBinding) bd in
      Ok (TlsTranscript time version sg c binding sent recv
          (option_map (fun h => fst (fst h)) h) (option_map (fun h => snd (fst h)) h)
          (option_map snd h))) <> Panic) as Hrest.
    { intros v sg c bd h.
      pose proof (build_records_no_panic (tb_records_sent b) sr (tb_app_sent b) MSent Hs).
      destruct (build_records _ _ _ (tb_app_sent b) _) as [rs| |]; try done; cbn [obind].
      pose proof (build_records_no_panic (tb_records_recv b) rr (tb_app_recv b) MRecv Hr).
      destruct (build_records _ _ _ (tb_app_recv b) _) as [rs'| |]; try done; cbn [obind].
      destruct v; [|done]. cbn [opt_err obind]. by destruct bd. }
    destruct sr as [s|], rr as [r|]; cbn [obind]; try apply Hrest.
    pose proof (components_no_panic s r) as Hc.
    destruct (handshake_components sha256 parse_body ec_curve s r) as [[[[[v c] sg] bd] h]| |]; try done. cbn [obind].
    apply Hrest.
  Qed.
End TlsL.

(** ** The properties *)
Section TlsP.
  Context (sha256 : list N -> list N).
  Context (parse_body : protocol_version -> N -> list N -> option hs_payload).
  Context (ec_curve : list N -> option N).
  Notation build := (tls_build sha256 parse_body ec_curve).

  Lemma build_dir b t d : build b = Ok t -> exists raw,
    parse_opt (b_raw b d) = Ok raw /\
    exists f, build_records parse_body (b_given b d) raw (b_app b d) f = Ok (tls_dir t d).
  Proof.
    intros (sr & rr & H1 & H2 & H3 & H4 & _)%build_inv. destruct d; [exists sr|exists rr]; simpl; eauto.
  Qed.

  Lemma C21_lemma b t d l : bytes_ok l -> b_raw b d = Some l -> b_given b d = None -> build b = Ok t ->
    exists ms, l = concat (map wire ms) /\ Forall record_ok ms /\ records_of ms (b_app b d) (tls_dir t d).
  Proof.
    intros Hok Hraw Hg (raw & Hp & f & Hb)%(build_dir _ _ d). rewrite Hraw in Hp. rewrite Hg in Hb.
    apply parse_opt_inv in Hp as (ms & -> & Hp). apply parse_raw_inv in Hp as [Hl Hms]; [|done].
    apply build_records_inv in Hb as (_ & ms' & [= <-] & Hb). exists ms. split_and!; [done..|]. by apply parse_records_inv.
  Qed.

  Lemma records_of_well_sequenced ms app rs : records_of ms app rs -> well_sequenced rs.
  Proof.
    intros [(before & ccs & fin & after & _ & _ & _ & Hfin & Ht & _) Hs _ Hp]. split; [by eapply seq_sorted|].
    destruct rs as [|r rs]; [done|]. exists r, rs. cbn [map length List.seq] in Ht, Hs.
    injection Ht as Ht _. injection Hs as Hs _. split_and!; [done|congruence|done|].
    intros p Hpl. exfalso. destruct app as [data|]; simpl in Hp.
    - destruct Hp as [Hp _]. inversion Hp as [|? ? Hr _]; subst. rewrite Ht, Hfin in Hr. congruence.
    - inversion Hp; subst. congruence.
  Qed.

  Lemma C22_sequenced_lemma b t d : builder_bytes_ok b -> finished_is_20 parse_body -> build b = Ok t ->
    well_sequenced (tls_dir t d).
  Proof.
    intros Hb Hpb Ht. destruct (build_dir _ _ d Ht) as (raw & Hp & f & Hr).
    apply build_records_inv in Hr as [Hsort Hr]. destruct (b_given b d) as [g|] eqn:Eg.
    - destruct Hr as [-> (first & rest & Hrs & Hv)]. split; [done|]. exists first, rest.
      apply validate_finished_ok in Hv as (Hty & Hseq & Hpl). split_and!; [done..|].
      intros p Hp'. destruct (Hpl p Hp') as (vd & trailing & Hread).
      apply read_handshake_inv in Hread as (typ & body & -> & Hbody).
      + apply Hpb in Hbody as [-> ->]. by exists body, trailing.
      + destruct (Hb d) as [_ Hb2]. refine (Hb2 _ first p Eg _ Hp'). rewrite Hrs. by left.
    - destruct Hr as (ms & -> & Hr). eapply records_of_well_sequenced, parse_records_inv, Hr.
  Qed.
  Lemma C22_fields_lemma b t : build b = Ok t ->
    (forall d rs, b_given b d = Some rs -> tls_dir t d = rs) /\
    (forall v, tb_version b = Some v -> tt_version t = v) /\
    (forall c, tb_binding b = Some c -> tt_binding t = c) /\
    (tb_tls_sent b = None \/ tb_tls_recv b = None -> tb_version b <> None /\ tb_binding b <> None) /\
    tb_time b = Some (tt_time t).
  Proof.
    intros Ht. split_and!.
    - intros d rs Hg. destruct (build_dir _ _ d Ht) as (raw & _ & f & Hr).
      apply build_records_inv in Hr as [_ Hr]. rewrite Hg in Hr. by destruct Hr as [-> _].
    - intros v Hv. apply build_inv in Ht as (sr & rr & _ & _ & _ & _ & _ & H).
      destruct sr, rr; [destruct H as (? & ? & ? & ? & ? & ? & ? & _ & -> & _); by rewrite Hv|..];
        destruct H as [H _]; congruence.
    - intros c Hc. apply build_inv in Ht as (sr & rr & _ & _ & _ & _ & _ & H).
      destruct sr, rr; [destruct H as (? & ? & ? & ? & ? & ? & ? & _ & _ & _ & _ & -> & _); by rewrite Hc|..];
        destruct H as (_ & H & _); congruence.
    - intros Hraw. apply build_inv in Ht as (sr & rr & H1 & H2 & _ & _ & _ & H).
      apply parse_opt_inv in H1, H2. assert (sr = None \/ rr = None) as Hn.
      { destruct Hraw as [Hraw|Hraw]; rewrite Hraw in *; [by left|by right]. }
      destruct sr, rr; [by destruct Hn|..]; destruct H as (Hv & Hc & _); rewrite Hv, Hc; done.
    - by apply build_inv in Ht as (sr & rr & _ & _ & _ & _ & ? & _).
  Qed.

  Lemma C22_succeeds_lemma b time v c :
    (forall body, parse_body TLSv1_2 20%N body = Some (HsFinished body)) ->
    tb_time b = Some time -> tb_version b = Some v -> tb_binding b = Some c ->
    (tb_tls_sent b = None \/ tb_tls_recv b = None) ->
    (forall d l, b_raw b d = Some l -> exists ms, l = concat (map wire ms) /\ Forall record_ok ms) ->
    (forall d, dir_input_ok b d) -> exists t, build b = Ok t.
  Proof.
    intros Hfin Htime Hv Hc Hone Hraws Hin. unfold tls_build. rewrite Htime. cbn [opt_err obind].
    assert (forall d, exists raw, parse_opt (b_raw b d) = Ok raw /\ (raw = None <-> b_raw b d = None) /\
      forall f, exists rs, build_records parse_body (b_given b d) raw (b_app b d) f = Ok rs) as Hdir.
    { intros d. specialize (Hin d). specialize (Hraws d). unfold dir_input_ok in Hin.
      assert (exists raw, parse_opt (b_raw b d) = Ok raw /\ (raw = None <-> b_raw b d = None) /\
        forall l ms, b_raw b d = Some l -> l = concat (map wire ms) -> Forall record_ok ms -> raw = Some ms) as (raw & Hraw & Hnone & Hms).
      { destruct (b_raw b d) as [l|]; [|by exists None].
        destruct (Hraws l eq_refl) as (ms & -> & Hok). exists (Some ms). unfold parse_opt. rewrite (parse_raw_ok ms Hok) by done.
        split_and!; [done|done|]. intros l ms' [= <-] Heq Hok'. f_equal.
        pose proof (parse_raw_ok ms Hok _ (Nat.le_refl _)) as E1. pose proof (parse_raw_ok ms' Hok' _ (Nat.le_refl _)) as E2.
        rewrite <- Heq in E2. congruence. }
      exists raw. split; [done|]. split; [done|]. intros f. unfold build_records.
      destruct (b_given b d) as [g|].
      - destruct Hin as [[Hsort (fin & rest & -> & Hty & Hseq & Hpl)] Hsize].
        assert (validate_finished parse_body fin = Ok tt) as ->.
        { unfold validate_finished. rewrite Hty, Hseq. rewrite bool_decide_eq_true_2 by done. cbn [negb].
          change (0 =? 0)%N with true. cbn [negb]. destruct (r_plain fin) as [p|] eqn:Ep; [|done].
          destruct (Hpl p eq_refl) as (vd & tr & ->).
          rewrite hs_read_wire; [by rewrite Hfin|]. by eapply Hsize. }
        cbn [obind]. apply validate_seq_ok in Hsort as ->. by eexists.
      - destruct Hin as (l & ms & Hl & Hlw & Hok & Hsplit). rewrite (Hms l ms Hl Hlw Hok).
        destruct (parse_records_ok _ _ Hsplit) as [rs Hrs]. rewrite Hrs. cbn [obind].
        destruct (parse_records_inv _ _ _ Hrs) as [_ Hs _ _]. apply seq_sorted in Hs. apply validate_seq_ok in Hs as ->.
        by eexists. }
    destruct (Hdir Sent) as (sr & Hsr & Hsn & Hbs). destruct (Hdir Received) as (rr & Hrr & Hrn & Hbr). simpl in *.
    rewrite Hsr. cbn [obind]. rewrite Hrr. cbn [obind].
    destruct (Hbs MSent) as [ss Hss]. destruct (Hbr MRecv) as [rs Hrs].
    destruct sr as [s|], rr as [r|].
    1: { exfalso. destruct Hone as [Ho|Ho]; [by apply Hsn in Ho|by apply Hrn in Ho]. }
    all: cbn [obind]; rewrite Hss; cbn [obind]; rewrite Hrs; cbn [obind]; rewrite Hv, Hc; by eexists.
  Qed.

  Lemma C22_accessors_lemma b t : build b = Ok t ->
    tls_cf_vd t <> Panic /\ tls_sf_vd t <> Panic /\ forall vd, tls_sf_hash sha256 t vd <> Panic.
  Proof.
    intros Ht. assert (forall d, first_vd (tls_dir t d) <> Panic) as Hd.
    { intros d. destruct (build_dir _ _ d Ht) as (raw & _ & f & Hr). apply build_records_inv in Hr as [_ Hr].
      destruct (b_given b d).
      - by destruct Hr as [_ (? & ? & -> & _)].
      - destruct Hr as (ms & -> & Hr). apply parse_records_inv in Hr as [(? & ? & ? & ? & _ & _ & _ & _ & H & _) _ _ _].
        by destruct (tls_dir t d). }
    split_and!; [exact (Hd Sent)|exact (Hd Received)|]. intros vd. unfold tls_sf_hash.
    apply build_inv in Ht as (sr & rr & _ & _ & _ & _ & _ & H).
    destruct (tt_sf t) as [i|] eqn:E; [|done].
    destruct sr as [s|], rr as [r|]; [|by destruct H as (_ & _ & _ & _ & _ & _ & ?)..].
    destruct H as (? & ? & ? & ? & cf & se & i' & H & _ & _ & _ & _ & _ & _ & [= <-]).
    apply components_inv in H as (si & ri & H1 & H2 & H3).
    destruct (compute_hashes_no_panic sha256 _ _ _ _ _ _ H1 H2) as [_ Hb]. specialize (Hb _ _ _ H3) as (-> & -> & Hc & Hd').
    rewrite !slice_Some by lia. done.
  Qed.

  (** *** C23 *)
  Lemma carries_collect raw ms : carries raw ms -> exists rs,
    parse_opt (Some raw) = Ok (Some rs) /\ collect_pre_ccs rs = msgs_wire ms.
  Proof.
    intros (before & rest & -> & Hok & Hb & Hc & Hm). exists (before ++ rest). unfold parse_opt.
    rewrite (parse_raw_ok _ Hok) by done. split; [done|]. by rewrite collect_before.
  Qed.
  Lemma C23_lemma b t h sent recv : full_handshake_ok h -> tb_tls_sent b = Some sent -> tb_tls_recv b = Some recv ->
    carries sent (client_messages h) -> carries recv (server_messages h) -> build b = Ok t ->
    tt_cf_hash t = Some (sha256 (msgs_wire (until_client_finished h))) /\
    tt_session_hash t = Some (sha256 (msgs_wire ([CH h] ++ server_messages h ++ fh_client_cert h ++ [CKE h]))) /\
    (forall vd, length vd = 12 ->
      tls_sf_hash sha256 t vd = Ok (Some (sha256 (msgs_wire (until_server_finished h vd))))).
  Proof.
    intros Hh Hs Hr Cs Cr (sr & rr & H1 & H2 & _ & _ & _ & H)%build_inv.
    apply carries_collect in Cs as (ss & Cs1 & Cs2), Cr as (rs & Cr1 & Cr2).
    rewrite Hs, Cs1 in H1. rewrite Hr, Cr1 in H2. injection H1 as <-. injection H2 as <-.
    destruct H as (v & c & sg & bd & cf & se & i & H & _ & _ & _ & _ & -> & -> & Hsf).
    apply components_inv in H as (si & ri & H1 & H2 & H3). rewrite Cs2, Cr2 in *.
    assert (Forall (fun m : hs_message => (N.of_nat (length (snd m)) < 2 ^ 24)%N) (client_messages h) /\
      Forall (fun m : hs_message => (N.of_nat (length (snd m)) < 2 ^ 24)%N) (server_messages h)) as [Z1 Z2].
    { destruct Hh as [Z _ _ _ _ _]. unfold client_messages, server_messages.
      apply Forall_cons in Z as [Za Zb]. rewrite !Forall_app in Zb. destruct Zb as (Zb1 & Zb2 & Zb3 & Zb4 & Zb5).
      split; [constructor; [done|]; by rewrite !Forall_app|]. rewrite !Forall_app. split_and!; [done|by repeat constructor|done]. }
    rewrite (scan_ok _ Z1) in H1 by done. rewrite (scan_ok _ Z2) in H2 by done. injection H1 as <-. injection H2 as <-.
    rewrite compute_hashes_ok in H3 by done.
    assert (tt_sf t = Some (SfInput (msgs_wire (client_messages h)) (msgs_wire (server_messages h))
      (length (msgs_wire [CH h])) (length (msgs_wire (fh_server_flight h ++ [SHD]))))) as Hsf' by congruence.
    clear Hsf. rename Hsf' into Hsf. injection H3 as <- <- _. split_and!; [done..|].
    intros vd Hvd. unfold tls_sf_hash. rewrite Hsf. cbn [sf_sent sf_recv sf_ch_end sf_shd_end].
    unfold client_messages, server_messages.
    change (CH h :: fh_client_cert h ++ [CKE h] ++ fh_cert_verify h) with ([CH h] ++ fh_client_cert h ++ [CKE h] ++ fh_cert_verify h).
    rewrite (app_assoc (fh_server_flight h)).
    rewrite (msgs_wire_app [CH h]), (msgs_wire_app (fh_server_flight h ++ [SHD])).
    rewrite !slice_head. cbn [or_panic obind]. rewrite !slice_tail. cbn [or_panic obind].
    do 3 f_equal. unfold until_server_finished, until_client_finished, until_key_exchange.
    rewrite !msgs_wire_app. rewrite <- !app_assoc. do 6 f_equal. rewrite app_assoc. f_equal.
    unfold FIN, msgs_wire at 1. cbn [map concat]. unfold msg_wire, hs_wire. cbn [fst snd]. rewrite Hvd.
    cbn [app]. rewrite app_nil_r. done.
  Qed.
  Lemma C23_finished_lemma b t h sent recv : full_handshake_ok h -> tb_tls_sent b = Some sent -> tb_tls_recv b = Some recv ->
    carries sent (client_messages h) -> carries recv (server_messages h) -> build b = Ok t ->
    tt_cf_hash t = Some (sha256 (msgs_wire (until_client_finished h))) /\
    (forall vd, length vd = 12 ->
      tls_sf_hash sha256 t vd = Ok (Some (sha256 (msgs_wire (until_server_finished h vd))))).
  Proof. intros H1 H2 H3 H4 H5 H6. by destruct (C23_lemma b t h sent recv H1 H2 H3 H4 H5 H6) as (? & _ & ?). Qed.
  Lemma C23_session_lemma b t h sent recv : full_handshake_ok h -> tb_tls_sent b = Some sent -> tb_tls_recv b = Some recv ->
    carries sent (client_messages h) -> carries recv (server_messages h) -> fh_ticket h = [] -> build b = Ok t ->
    tt_session_hash t = Some (sha256 (msgs_wire (until_key_exchange h))).
  Proof.
    intros Hh Hs Hr Cs Cr Ht Hb. destruct (C23_lemma b t h sent recv Hh Hs Hr Cs Cr Hb) as (_ & -> & _).
    do 3 f_equal. unfold until_key_exchange, server_messages. rewrite Ht. by rewrite <- app_assoc.
  Qed.
  Lemma C23_ticket_lemma b t h sent recv : full_handshake_ok h -> tb_tls_sent b = Some sent -> tb_tls_recv b = Some recv ->
    carries sent (client_messages h) -> carries recv (server_messages h) -> fh_ticket h <> [] -> build b = Ok t ->
    exists input, tt_session_hash t = Some (sha256 input) /\ input <> msgs_wire (until_key_exchange h).
  Proof.
    intros Hh Hs Hr Cs Cr Ht Hb. destruct (C23_lemma b t h sent recv Hh Hs Hr Cs Cr Hb) as (_ & -> & _).
    eexists. split; [done|]. unfold until_key_exchange, server_messages. intros Heq%(f_equal length).
    rewrite !msgs_wire_app, !app_length in Heq. destruct (fh_ticket h) as [|m ms]; [done|].
    unfold msgs_wire at 4 in Heq. cbn [map concat] in Heq. rewrite app_length, msg_wire_length in Heq. lia.
  Qed.
End TlsP.

(** *** C24 *)
Lemma collect_plain_cons d r rs : collect_plain d (r :: rs) =
  if bool_decide (r_typ r = ApplicationData) then
    match r_plain r with
    | None => Err (TIncomplete d (r_seq r))
    | Some p => let! rest := collect_plain d rs in Ok (p ++ rest)
    end
  else collect_plain d rs.
Proof. simpl. case_bool_decide as H; [by rewrite H|]. by destruct (r_typ r). Qed.
Lemma app_records_cons r rs : app_records (r :: rs) =
  if bool_decide (r_typ r = ApplicationData) then r :: app_records rs else app_records rs.
Proof. done. Qed.
Lemma collect_plain_spec d rs :
  (exists ps, app_plaintexts rs ps /\ collect_plain d rs = Ok (concat ps)) \/
  (exists r, first_unknown rs r /\ collect_plain d rs = Err (TIncomplete d (r_seq r))).
Proof.
  induction rs as [|r rs IH]; [left; by exists []|]. rewrite collect_plain_cons. unfold app_plaintexts, first_unknown in *.
  rewrite app_records_cons. case_bool_decide as Hr.
  - destruct (r_plain r) as [p|] eqn:Ep.
    + destruct IH as [(ps & H1 & ->)|(r' & (l1 & l2 & ps & H1 & H2 & H3) & ->)].
      * left. exists (p :: ps). cbn [map]. by rewrite Ep, H1.
      * right. exists r'. split; [|done]. exists (r :: l1), l2, (p :: ps). cbn [map]. by rewrite H1, Ep, H2.
    + right. exists r. split; [|done]. by exists [], (app_records rs), [].
  - exact IH.
Qed.
Lemma map_Some_inj (ps qs : list (list N)) : map Some ps = map Some qs -> ps = qs.
Proof.
  revert qs. induction ps as [|p ps IH]; intros [|q qs] H; try done. cbn [map] in H. injection H as -> H. f_equal. auto.
Qed.
Lemma first_unknown_not_known rs r ps : first_unknown rs r -> app_plaintexts rs ps -> False.
Proof.
  intros (l1 & l2 & qs & H1 & _ & H2) H. unfold app_plaintexts in H. rewrite H1, map_app in H. cbn [map] in H. rewrite H2 in H.
  assert (None ∈ map Some ps) as Hin. { rewrite <- H. apply elem_of_app. right. by left. }
  apply elem_of_list_In, in_map_iff in Hin as (? & ? & _). done.
Qed.
Lemma first_unknown_unique rs r r' : first_unknown rs r -> first_unknown rs r' -> r = r'.
Proof.
  intros (l1 & l2 & ps & H1 & Hp & Hn) (l1' & l2' & ps' & H1' & Hp' & Hn'). rewrite H1 in H1'. clear H1.
  revert ps ps' l1' Hp Hp' H1'. induction l1 as [|a l1 IH]; intros ps ps' l1' Hp Hp' H.
  - destruct l1' as [|a' l1']; cbn [app] in H; [congruence|]. injection H as -> _. destruct ps'; cbn [map] in Hp'; [done|]. congruence.
  - destruct l1' as [|a' l1']; cbn [app] in H.
    + injection H as -> _. destruct ps; cbn [map] in Hp; [done|]. congruence.
    + injection H as -> H. destruct ps as [|p ps], ps' as [|p' ps']; try done. cbn [map] in Hp, Hp'.
      injection Hp as _ Hp. injection Hp' as _ Hp'. by eapply IH.
Qed.

Lemma C24_ok_lemma t s r : to_transcript t = Ok (Transcript s r) <->
  exists ps qs, app_plaintexts (tt_sent t) ps /\ app_plaintexts (tt_recv t) qs /\ s = concat ps /\ r = concat qs.
Proof.
  unfold to_transcript.
  destruct (collect_plain_spec Sent (tt_sent t)) as [(ps & H1 & ->)|(u & H1 & ->)]; cbn [obind].
  - destruct (collect_plain_spec Received (tt_recv t)) as [(qs & H2 & ->)|(u & H2 & ->)]; cbn [obind].
    + split; [intros [= <- <-]; by exists ps, qs|]. intros (ps' & qs' & H1' & H2' & -> & ->).
      unfold app_plaintexts in *. rewrite H1 in H1'. rewrite H2 in H2'.
      apply map_Some_inj in H1' as ->. apply map_Some_inj in H2' as ->. done.
    + split; [done|]. intros (ps' & qs' & _ & H2' & _). exfalso. by eapply first_unknown_not_known.
  - split; [done|]. intros (ps' & qs' & H1' & _). exfalso. by eapply first_unknown_not_known.
Qed.
Lemma C24_err_lemma t e : to_transcript t = Err e <->
  exists d r, first_unknown (tls_dir t d) r /\ e = TIncomplete d (r_seq r) /\
    (d = Received -> exists ps, app_plaintexts (tt_sent t) ps).
Proof.
  unfold to_transcript.
  destruct (collect_plain_spec Sent (tt_sent t)) as [(ps & H1 & ->)|(u & H1 & ->)]; cbn [obind].
  - destruct (collect_plain_spec Received (tt_recv t)) as [(qs & H2 & ->)|(u & H2 & ->)]; cbn [obind].
    + split; [done|]. intros (d & r & Hu & _). exfalso. destruct d; simpl in Hu; by eapply first_unknown_not_known.
    + split.
      * intros [= <-]. exists Received, u. eauto.
      * intros (d & r & Hu & -> & _). destruct d; simpl in Hu; [exfalso; by eapply first_unknown_not_known|].
        by rewrite (first_unknown_unique _ _ _ Hu H2).
  - split.
    + intros [= <-]. exists Sent, u. done.
    + intros (d & r & Hu & -> & Hd). destruct d; simpl in Hu.
      * by rewrite (first_unknown_unique _ _ _ Hu H1).
      * destruct (Hd eq_refl) as [ps Hps]. exfalso. exact (first_unknown_not_known _ _ _ H1 Hps).
Qed.
Lemma C24_no_panic_lemma t : to_transcript t <> Panic.
Proof.
  unfold to_transcript.
  destruct (collect_plain_spec Sent (tt_sent t)) as [(ps & H1 & ->)|(u & H1 & ->)]; cbn [obind]; [|done].
  by destruct (collect_plain_spec Received (tt_recv t)) as [(qs & H2 & ->)|(u & H2 & ->)].
Qed.
