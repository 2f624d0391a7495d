(** Lemmas about the deframer, the fragmenter and the handshake joiner. *)
From Verif.Lib Require Import Base.
From Verif Require Import CodecModel CodecSpec CodecLemmas.

(** ** Streams of records *)
Lemma hopeless_app l c : hopeless l -> hopeless (l ++ c).
Proof. intros H c' m rest. rewrite <- app_assoc. apply H. Qed.

Lemma sh_nil_not_ok s bad : bytes_ok s -> stream_holds s [] bad s ->
  match message_read s with Ok _ => False | _ => True end.
Proof.
  intros Hok [_ _ Hr]. destruct (message_read s) as [[m rest]| |] eqn:E; [|done..].
  apply message_read_inv in E as [Hm ->]; [|done].
  destruct bad.
  - destruct Hr as [_ Hr]. apply (Hr [] m rest); [|done]. by rewrite app_nil_r.
  - destruct Hr as [(m' & c & Hm' & Hc & Heq)|Hr].
    + pose proof (message_read_wire m (rest ++ c) Hm) as H1. rewrite app_assoc, Heq in H1.
      pose proof (message_read_wire m' [] Hm') as H2. rewrite app_nil_r, H1 in H2.
      injection H2 as _ Hrc. apply app_nil in Hrc as [_ ->]. done.
    + rewrite app_length, length_wire in Hr. lia.
Qed.

Lemma sh_bad_unique rest : bytes_ok rest ->
  5 <= length rest /\ hopeless rest -> ~ (incomplete rest \/ length rest < 5).
Proof.
  intros Hok [H1 H2] [(m & c & Hm & Hc & Heq)|]; [|lia].
  apply (H2 c m []); [by rewrite app_nil_r|done].
Qed.

Lemma stream_holds_unique s ms1 b1 r1 ms2 b2 r2 : bytes_ok s ->
  stream_holds s ms1 b1 r1 -> stream_holds s ms2 b2 r2 -> ms1 = ms2 /\ b1 = b2 /\ r1 = r2.
Proof.
  intros Hok H1. revert ms2. revert s Hok H1. induction ms1 as [|m1 ms1 IH]; intros s Hok H1 ms2 H2.
  - destruct ms2 as [|m2 ms2].
    + assert (r1 = r2) as -> by (pose proof (sh_split _ _ _ _ H1); pose proof (sh_split _ _ _ _ H2); simpl in *; congruence).
      split_and!; [done| |done]. assert (bytes_ok r2) by (by rewrite (sh_split _ _ _ _ H2) in Hok).
      apply sh_rest in H1, H2. pose proof (sh_bad_unique r2). destruct b1, b2; try done; exfalso; tauto.
    + exfalso. assert (s = r1) as -> by apply (sh_split _ _ _ _ H1).
      pose proof (sh_nil_not_ok _ _ Hok H1) as Hn.
      destruct H2 as [Hs Hms _]. inversion_clear Hms. cbn [map concat] in Hs. rewrite Hs, <- app_assoc in Hn.
                  by rewrite message_read_wire in Hn.
  - destruct ms2 as [|m2 ms2].
    + exfalso. assert (s = r2) as -> by apply (sh_split _ _ _ _ H2).
      pose proof (sh_nil_not_ok _ _ Hok H2) as Hn.
      destruct H1 as [Hs Hms _]. inversion_clear Hms. cbn [map concat] in Hs. rewrite Hs, <- app_assoc in Hn.
      by rewrite message_read_wire in Hn.
    + destruct H1 as [Hs1 Hms1 Hr1], H2 as [Hs2 Hms2 Hr2].
      inversion Hms1; inversion Hms2; subst. cbn [map concat] in Hs2. rewrite <- !app_assoc in Hs2.
      pose proof (message_read_wire m1 (concat (map wire ms1) ++ r1)) as Hm1.
      rewrite Hs2, message_read_wire in Hm1 by done.
      specialize (Hm1 ltac:(done)). injection Hm1 as <- Heq.
      assert (ms1 = ms2 /\ b1 = b2 /\ r1 = r2) as (-> & -> & ->); [|done].
      apply (IH (concat (map wire ms1) ++ r1)); [|by split|by split].
      cbn [map concat] in Hok. rewrite <- app_assoc in Hok. by apply Forall_app in Hok as [_ Hok].
Qed.

Lemma stream_holds_nil : stream_holds [] [] false [].
Proof. split; [done|done|]. right. simpl. lia. Qed.

Lemma stream_holds_app s ms b r c ms' b' r' :
  stream_holds s ms b r -> stream_holds (r ++ c) ms' b' r' -> stream_holds (s ++ c) (ms ++ ms') b' r'.
Proof.
  intros [Hs Hms Hr] [Hs' Hms' Hr']. split.
  - subst s. rewrite <- app_assoc, Hs', map_app, concat_app. by rewrite app_assoc.
  - by apply Forall_app.
  - done.
Qed.
Lemma stream_holds_bad s ms r c ms' b' r' : bytes_ok (s ++ c) ->
  stream_holds s ms true r -> stream_holds (r ++ c) ms' b' r' -> ms' = [] /\ b' = true /\ r' = r ++ c.
Proof.
  intros Hok [Hs Hms [Hr1 Hr2]] H. apply (stream_holds_unique (r ++ c)); [|done|].
  - subst s. rewrite <- app_assoc in Hok. by apply Forall_app in Hok as [_ Hok].
  - split; [done|done|]. rewrite app_length. split; [lia|by apply hopeless_app].
Qed.

(** ** The deframer *)
Lemma try_deframe_one_spec d : bytes_ok (df_buf d) ->
  match try_deframe_one d with
  | (BInvalid, d') => d' = d /\ 5 <= length (df_buf d) /\ hopeless (df_buf d)
  | (BPartial, d') => d' = d /\ (incomplete (df_buf d) \/ length (df_buf d) < 5)
  | (BValid, d') => exists m, record_ok m /\ df_buf d = wire m ++ df_buf d' /\
      df_frames d' = df_frames d ++ [m] /\ df_desynced d' = df_desynced d
  end.
Proof.
  intros Hok. unfold try_deframe_one. pose proof (message_read_err _ Hok) as He.
  destruct (message_read (df_buf d)) as [[m rest]|e|] eqn:E; [| |done].
  - apply message_read_inv in E as [Hm E]; [|done]. exists m. simpl. split_and!; [done| |done|done].
    rewrite E at 2. rewrite E. rewrite drop_app_alt; [done|]. rewrite app_length. lia.
  - destruct e; naive_solver.
Qed.

Lemma df_loop_spec fuel d : bytes_ok (df_buf d) -> length (df_buf d) < fuel ->
  exists ms bad rest, df_loop fuel d = Some (Deframer (df_frames d ++ ms) (df_desynced d || bad) rest) /\
    stream_holds (df_buf d) ms bad rest.
Proof.
  revert d. induction fuel as [|fuel IH]; intros d Hok Hf; [lia|]. cbn [df_loop].
  pose proof (try_deframe_one_spec d Hok) as H. destruct (try_deframe_one d) as [[| |] d'].
  - destruct H as (-> & H1 & H2). exists [], true, (df_buf d).
    rewrite app_nil_r, orb_true_r. split; [done|]. by split.
  - destruct H as (-> & H). exists [], false, (df_buf d).
    rewrite app_nil_r, orb_false_r. split; [by destruct d|]. by split.
  - destruct H as (m & Hm & Hb & Hfr & Hd).
    destruct (IH d') as (ms & bad & rest & Hl & Hsh).
    { rewrite Hb in Hok. by apply Forall_app in Hok as [_ ?]. }
    { rewrite Hb, app_length, length_wire in Hf. lia. }
    exists (m :: ms), bad, rest. rewrite Hl, Hfr, Hd, <- app_assoc. split; [done|].
    destruct Hsh as [Hs Hms Hr]. split; [|by constructor|done].
    cbn [map concat]. by rewrite Hb, Hs, app_assoc.
Qed.

Lemma df_read_spec d c s ms0 : bytes_ok (s ++ c) ->
  stream_holds s (ms0 ++ df_frames d) (df_desynced d) (df_buf d) ->
  (N.of_nat (length (df_buf d) + length c) <= 18437)%N ->
  exists d', df_read d c = Some d' /\
    stream_holds (s ++ c) (ms0 ++ df_frames d') (df_desynced d') (df_buf d') /\
    exists new, df_frames d' = df_frames d ++ new.
Proof.
  intros Hok Hsh Hlen. unfold df_read.
  replace (MAX_WIRE_SIZE <? _)%N with false by (symmetry; apply N.ltb_ge; exact Hlen).
  assert (bytes_ok (df_buf d ++ c)) as Hokb.
  { rewrite (sh_split _ _ _ _ Hsh), <- app_assoc in Hok. by apply Forall_app in Hok as [_ ?]. }
  destruct (df_loop_spec (S (length (df_buf d ++ c))) (Deframer (df_frames d) (df_desynced d) (df_buf d ++ c)))
    as (ms & bad & rest & Hl & Hsh'); [done|simpl; lia|].
  cbn [df_buf df_frames df_desynced] in *. rewrite Hl. eexists. split; [done|]. simpl.
  split; [|by eexists].
  rewrite app_assoc.
  destruct (df_desynced d) eqn:Hd.
  - destruct (stream_holds_bad _ _ _ _ _ _ _ Hok Hsh Hsh') as (-> & -> & ->).
    by eapply stream_holds_app.
  - by eapply stream_holds_app.
Qed.

Lemma df_run_spec ops d s ms0 : bytes_ok (s ++ fed ops) ->
  stream_holds s (ms0 ++ df_frames d) (df_desynced d) (df_buf d) -> reads_fit d ops ->
  exists d' popped, df_run d ops = Some (d', popped) /\
    stream_holds (s ++ fed ops) (ms0 ++ popped ++ df_frames d') (df_desynced d') (df_buf d').
Proof.
  revert d s ms0. induction ops as [|[c|] ops IH]; intros d s ms0 Hok Hsh Hfit.
  - exists d, []. unfold fed. simpl. by rewrite app_nil_r.
  - change (fed (DFeed c :: ops)) with (c ++ fed ops) in *. destruct Hfit as [Hlen Hfit].
    rewrite app_assoc in Hok |- *.
    destruct (df_read_spec d c s ms0) as (d1 & Hr & Hsh1 & _); [by apply Forall_app in Hok as [? _]|done|done|].
    cbn [df_run]. rewrite Hr in Hfit |- *. by apply IH.
  - change (fed (DPop :: ops)) with (fed ops) in *. cbn [df_run reads_fit] in *.
    unfold df_pop in *. destruct (df_frames d) as [|m fr] eqn:Hfr.
    + apply IH; [done| |done]. by rewrite Hfr.
    + destruct (IH (Deframer fr (df_desynced d) (df_buf d)) s (ms0 ++ [m])) as (d' & popped & Hrun & Hsh');
        [done|simpl; by rewrite <- app_assoc|done|].
      rewrite Hrun. exists d', (m :: popped). split; [done|]. by rewrite <- app_assoc in Hsh'.
Qed.

Lemma df_run_fits ops d r : df_run d ops = Some r -> reads_fit d ops.
Proof.
  revert d r. induction ops as [|[c|] ops IH]; intros d r; cbn [df_run reads_fit]; [done|..].
  - destruct (df_read d c) as [d'|] eqn:E; [|done]. intros H. split; [|by eapply IH].
    unfold df_read in E. destruct (N.ltb_spec MAX_WIRE_SIZE (N.of_nat (length (df_buf d) + length c))); [done|].
    done.
  - destruct (df_pop d) as [[m d']|]; [|by apply IH].
    destruct (df_run d' ops) as [[d'' ms]|] eqn:E; [|done]. intros _. by eapply IH.
Qed.

Lemma C28_run_lemma ops : bytes_ok (fed ops) -> reads_fit df_new ops ->
  exists d popped, df_run df_new ops = Some (d, popped) /\
    stream_holds (fed ops) (popped ++ df_frames d) (df_desynced d) (df_buf d).
Proof.
  intros Hok Hfit. apply (df_run_spec ops df_new [] []); [done|apply stream_holds_nil|done].
Qed.
Lemma C28_sequence_lemma ops d popped : bytes_ok (fed ops) -> df_run df_new ops = Some (d, popped) ->
  stream_holds (fed ops) (popped ++ df_frames d) (df_desynced d) (df_buf d).
Proof.
  intros Hok Hrun. destruct (C28_run_lemma ops) as (d' & p' & Hrun' & Hsh);
    [done|by eapply df_run_fits|]. rewrite Hrun in Hrun'. by injection Hrun' as <- <-.
Qed.
Lemma C28_independent_lemma ops1 ops2 d1 p1 d2 p2 : bytes_ok (fed ops1) -> fed ops1 = fed ops2 ->
  df_run df_new ops1 = Some (d1, p1) -> df_run df_new ops2 = Some (d2, p2) ->
  p1 ++ df_frames d1 = p2 ++ df_frames d2 /\ df_desynced d1 = df_desynced d2 /\ df_buf d1 = df_buf d2.
Proof.
  intros Hok Heq H1%C28_sequence_lemma H2%C28_sequence_lemma; [|congruence|congruence].
  rewrite <- Heq in H2. by eapply stream_holds_unique.
Qed.
Lemma incomplete_length l : incomplete l -> (N.of_nat (length l) < 18437 - 1)%N.
Proof.
  intros (m & c & Hm & Hc & Heq). apply (f_equal length) in Heq. rewrite app_length, length_wire in Heq.
  destruct c; [done|]. simpl in Heq. pose proof (rok_len m Hm). lia.
Qed.
Lemma C28_room_lemma ops d popped : bytes_ok (fed ops) -> df_run df_new ops = Some (d, popped) ->
  df_desynced d = false -> (N.of_nat (length (df_buf d)) < 18436)%N.
Proof.
  intros Hok H%C28_sequence_lemma Hd; [|done]. apply sh_rest in H. rewrite Hd in H.
  destruct H as [H%incomplete_length|H]; lia.
Qed.

(** ** The fragmenter *)
Lemma chunks_go_concat fuel n l : n <> 0 -> length l <= fuel -> concat (chunks_go fuel n l) = l.
Proof.
  intros Hn. revert l. induction fuel as [|fuel IH]; intros l Hf.
  { by destruct l; [|simpl in Hf; lia]. }
  cbn [chunks_go]. destruct l as [|b l]; [done|]. cbn [concat].
  rewrite IH; [apply take_drop|]. rewrite drop_length. simpl in *. lia.
Qed.
Lemma chunks_go_sizes fuel n l c : n <> 0 -> c ∈ chunks_go fuel n l -> c <> [] /\ length c <= n.
Proof.
  intros Hn. revert l. induction fuel as [|fuel IH]; intros l.
  { by intros ?%elem_of_nil. }
  cbn [chunks_go]. destruct l as [|b l]; [by intros ?%elem_of_nil|].
  intros [->|H]%elem_of_cons; [|by eapply IH]. split; [|rewrite take_length; lia].
  by destruct n.
Qed.
Lemma chunks_ok n l : n <> 0 -> exists cs, chunks n l = Ok cs /\ concat cs = l /\
  (forall c, c ∈ cs -> c <> [] /\ length c <= n).
Proof.
  intros Hn. unfold chunks. destruct (Nat.eqb_spec n 0); [done|]. eexists. split; [done|].
  split; [by apply chunks_go_concat|]. intros c. by apply chunks_go_sizes.
Qed.

Definition frag_of (m f : message) (max_frag : N) : Prop :=
  m_typ f = m_typ m /\ m_version f = m_version m /\ (N.of_nat (length (m_payload f)) <= max_frag)%N /\
  (m_payload f = [] -> m_payload m = []).

Lemma concat_payloads t v cs : concat (map m_payload (map (fun c => Message t v c) cs)) = concat cs.
Proof. induction cs as [|c cs IH]; simpl; congruence. Qed.

Lemma fragment_borrow_spec mf t v p : (0 < mf)%N -> exists fs, fragment_borrow mf t v p = Ok fs /\
  concat (map m_payload fs) = p /\
  Forall (fun f => m_typ f = t /\ m_version f = v /\ (N.of_nat (length (m_payload f)) <= mf)%N /\ m_payload f <> []) fs.
Proof.
  intros Hmf. unfold fragment_borrow. destruct (chunks_ok (N.to_nat mf) p) as (cs & -> & Hc & Hs); [lia|].
  simpl. eexists. split; [done|]. rewrite concat_payloads. split; [done|].
  apply Forall_forall. intros f (c & -> & Hin)%elem_of_list_fmap. simpl.
  destruct (Hs c Hin). split_and!; [done|done|lia|done].
Qed.
Lemma fragment_spec mf m : (0 < mf)%N -> exists fs, fragment mf m = Ok fs /\
  concat (map m_payload fs) = m_payload m /\ Forall (fun f => frag_of m f mf) fs /\ fs <> [].
Proof.
  intros Hmf. unfold fragment. destruct (N.leb_spec (N.of_nat (length (m_payload m))) mf).
  - exists [m]. simpl. rewrite app_nil_r. split_and!; [done|done| |done]. by repeat constructor.
  - destruct (chunks_ok (N.to_nat mf) (m_payload m)) as (cs & -> & Hc & Hs); [lia|].
    simpl. eexists. split; [done|]. rewrite concat_payloads. split_and!; [done| |].
    + apply Forall_forall. intros f (c & -> & Hin)%elem_of_list_fmap. unfold frag_of. simpl.
      destruct (Hs c Hin). split_and!; [done|done|lia|done].
    + destruct cs; [|done]. simpl in Hc. rewrite <- Hc in H. simpl in H. lia.
Qed.
Lemma frag_set_spec new lim : frag_set new = Some lim <->
  match new with
  | None => lim = 16384%N
  | Some sz => (32 <= sz <= 16389)%N /\ lim = (sz - 5)%N
  end.
Proof.
  unfold frag_set. destruct new as [sz|]; [|split; [by intros [= <-]|by intros ->]].
  change MAX_FRAGMENT_SIZE with 16389%N. change PACKET_OVERHEAD with 5%N.
  destruct (N.leb_spec 32 sz), (N.leb_spec sz 16389); simpl; split; try (intros [= <-]); try done; try lia.
  intros [_ ->]. done.
Qed.
Lemma message_encode_length m : length (message_encode m) = 5 + length (m_payload m).
Proof. unfold message_encode, enc_uint. rewrite !app_length, !be_length. lia. Qed.

(** ** The handshake joiner *)
Lemma hs_wire_length typ body : length (hs_wire typ body) = 4 + length body.
Proof. done. Qed.

Lemma of_be3 a b c : of_be [a;b;c] = (a * 65536 + b * 256 + c)%N.
Proof. unfold of_be. simpl. lia. Qed.
Lemma hs_len n : (n < 2 ^ 24)%N -> of_be [n / 65536; n / 256 mod 256; n mod 256]%N = n.
Proof.
  intros Hn. rewrite of_be3. replace (n / 65536)%N with (n / 256 / 256)%N by (rewrite N.div_div by lia; done). lia.
Qed.
Lemma hs_wire_of a b c d body : byte_ok b -> byte_ok c -> byte_ok d ->
  N.of_nat (length body) = of_be [b;c;d] -> a :: b :: c :: d :: body = hs_wire a body.
Proof.
  unfold byte_ok, hs_wire. intros Hb Hc Hd Hl. rewrite Hl, of_be3. simpl. f_equal. f_equal; [|f_equal; [|f_equal]].
  - apply (N.div_unique _ _ _ (c * 256 + d)); lia.
  - replace ((b * 65536 + c * 256 + d) / 256)%N with (b * 256 + c)%N.
    2:{ apply (N.div_unique _ _ _ d); lia. }
    rewrite N.add_comm, N.mod_add by lia. by rewrite N.mod_small.
  - replace (b * 65536 + c * 256 + d)%N with (d + (b * 256 + c) * 256)%N by lia.
    rewrite N.mod_add by lia. by rewrite N.mod_small.
Qed.

Section Hs.
  Context {B : Type} (body_read : protocol_version -> N -> list N -> option B).
  Notation hs_read := (hs_read body_read).
  Notation take_message := (take_message body_read).

  Lemma hs_read_wire v typ body rest : (N.of_nat (length body) < 2 ^ 24)%N ->
    hs_read v (hs_wire typ body ++ rest) =
      match body_read v typ body with Some b => Some (b, rest) | None => None end.
  Proof.
    intros Hl. unfold CodecModel.hs_read, hs_wire. cbn [app].
    set (n := N.of_nat (length body)) in *.
    change (read_uint 1 _) with (Some (typ, (n / 65536)%N :: (n / 256 mod 256)%N :: (n mod 256)%N :: body ++ rest)).
    cbv iota beta.
    change (read_uint 3 _) with (Some (of_be [n / 65536; n / 256 mod 256; n mod 256]%N, body ++ rest)).
    cbv iota beta. rewrite hs_len by done. unfold n.
    rewrite (proj2 (take_bytes_Some _ _ body rest)); [done|]. split; [done|lia].
  Qed.


  Lemma buf_contains_short buf : length buf < 4 -> buf_contains_message buf = NeedsMoreData.
  Proof. intros H. unfold buf_contains_message. by destruct (Nat.ltb_spec (length buf) 4); [|lia]. Qed.
  Lemma buf_contains_cons a b c d buf : buf_contains_message (a :: b :: c :: d :: buf) =
    if (0xffff <? of_be [b;c;d])%N then MessageTooLarge
    else if (of_be [b;c;d] <=? N.of_nat (length buf))%N then OneMessage else NeedsMoreData.
  Proof. done. Qed.

  Lemma buf_contains_wire typ body rest : (N.of_nat (length body) <= 0xffff)%N ->
    buf_contains_message (hs_wire typ body ++ rest) = OneMessage.
  Proof.
    intros Hl. unfold hs_wire. cbn [app]. rewrite buf_contains_cons, hs_len by lia.
    rewrite app_length. destruct (N.ltb_spec 0xffff (N.of_nat (length body))); [lia|].
    destruct (N.leb_spec (N.of_nat (length body)) (N.of_nat (length body + length rest))); [done|lia].
  Qed.
  Lemma buf_contains_incomplete buf : hs_incomplete buf -> buf_contains_message buf = NeedsMoreData.
  Proof.
    intros (typ & body & c & Hl & Hc & Heq).
    destruct (decide (length buf < 4)) as [Hs|Hs]; [by apply buf_contains_short|].
    do 4 (destruct buf as [|? buf]; [simpl in Hs; lia|]). unfold hs_wire in Heq. cbn [app] in Heq.
    injection Heq as -> -> -> -> Heq. rewrite buf_contains_cons, hs_len by lia.
    apply (f_equal length) in Heq. rewrite app_length in Heq. destruct c; [done|]. simpl in Heq.
    destruct (N.ltb_spec 0xffff (N.of_nat (length body))); [lia|].
    destruct (N.leb_spec (N.of_nat (length body)) (N.of_nat (length buf))); [lia|done].
  Qed.
  (** What the start of a joiner's buffer can be. *)
  Lemma buf_contains_spec buf : bytes_ok buf ->
    match buf_contains_message buf with
    | NeedsMoreData => length buf < 4 \/ hs_incomplete buf
    | OneMessage => exists typ body rest, buf = hs_wire typ body ++ rest /\ (N.of_nat (length body) <= 0xffff)%N
    | MessageTooLarge => exists typ body c, (0xffff < N.of_nat (length body) < 2 ^ 24)%N /\
        (exists rest, buf ++ c = hs_wire typ body ++ rest)
    end.
  Proof.
    intros Hok. destruct (decide (length buf < 4)) as [Hs|Hs]; [rewrite buf_contains_short by done; by left|].
    do 4 (destruct buf as [|? buf]; [simpl in Hs; lia|]). clear Hs.
    repeat match goal with H : bytes_ok (_ :: _) |- _ => inversion H; clear H; subst end.
    repeat match goal with H : Forall byte_ok (_ :: _) |- _ => inversion H; clear H; subst end.
    rewrite buf_contains_cons.
    assert (of_be [n0; n1; n2] < 2 ^ 24)%N as Hlt.
    { rewrite of_be3. unfold byte_ok in *. lia. }
    set (len := of_be [n0;n1;n2]) in *.
    set (pad := replicate (N.to_nat len - length buf) 0%N).
    assert ((0xffff < len)%N \/ (N.of_nat (length buf) < len)%N ->
      exists rest, (n :: n0 :: n1 :: n2 :: buf) ++ pad = hs_wire n (take (N.to_nat len) (buf ++ pad)) ++ rest /\
        N.of_nat (length (take (N.to_nat len) (buf ++ pad))) = len) as Hgen.
    { intros _. exists (drop (N.to_nat len) (buf ++ pad)).
      assert (N.of_nat (length (take (N.to_nat len) (buf ++ pad))) = len) as Hl.
      { unfold pad. rewrite take_length, app_length, replicate_length. lia. }
      split; [|done]. rewrite <- (hs_wire_of n n0 n1 n2); [|done..]. cbn [app]. by rewrite take_drop. }
    destruct (N.ltb_spec 0xffff len).
    - destruct Hgen as (rest & He & Hl); [by left|]. eexists n, _, pad. split; [|by eexists]. rewrite Hl. lia.
    - destruct (N.leb_spec len (N.of_nat (length buf))).
      + exists n, (take (N.to_nat len) buf), (drop (N.to_nat len) buf).
        assert (N.of_nat (length (take (N.to_nat len) buf)) = len) by (rewrite take_length; lia).
        split; [|lia]. rewrite <- (hs_wire_of n n0 n1 n2); [|done..]. cbn [app]. by rewrite take_drop.
      + right. exists n, (buf ++ pad), pad.
        assert (N.of_nat (length (buf ++ pad)) = len) as Hl.
        { unfold pad. rewrite app_length, replicate_length. lia. }
        split_and!; [lia| |by rewrite <- (hs_wire_of n n0 n1 n2)].
        unfold pad. destruct (N.to_nat len - length buf) eqn:E; [lia|done].
  Qed.

  (** The joiner's loop splits off every complete message. *)
  Lemma j_loop_spec fuel v j count : bytes_ok (j_buf j) -> length (j_buf j) < fuel ->
    exists r j', j_loop body_read fuel v j count = Some (r, j') /\
      exists tbs bs, j_buf j = concat (map (fun tb => hs_wire (fst tb) (snd tb)) tbs) ++ j_buf j' /\
        Forall2 (hs_msg_ok body_read v) tbs bs /\ j_frames j' = j_frames j ++ map (fun b => (v, b)) bs /\
        match r with
        | Some n => n = count + length tbs /\ (length (j_buf j') < 4 \/ hs_incomplete (j_buf j'))
        | None => hs_refused body_read v (j_buf j')
        end.
  Proof.
    revert j count. induction fuel as [|fuel IH]; intros j count Hok Hf; [lia|]. cbn [j_loop].
    pose proof (buf_contains_spec _ Hok) as Hb. destruct (buf_contains_message (j_buf j)) eqn:Eb.
    - eexists _, _. split; [done|]. exists [], []. simpl. rewrite app_nil_r.
      split_and!; [done|constructor|done|]. left. done.
    - destruct Hb as (typ & body & rest & Hb & Hl).
      unfold deframe_one. rewrite Hb, hs_read_wire by lia.
      destruct (body_read v typ body) as [b|] eqn:E.
      + rewrite drop_app_alt by (rewrite app_length; lia).
        destruct (IH (Joiner (j_frames j ++ [(v, b)]) rest) (S count)) as (r & j' & Hl' & tbs & bs & H1 & H2 & H3 & H4).
        { rewrite Hb in Hok. by apply Forall_app in Hok as [_ ?]. }
        { simpl. rewrite Hb, app_length, hs_wire_length in Hf. lia. }
        eexists r, j'. split; [done|]. exists ((typ, body) :: tbs), (b :: bs). simpl in *. split_and!.
        * by rewrite H1, app_assoc.
        * by constructor.
        * by rewrite H3, <- app_assoc.
        * destruct r; [|done]. destruct H4. split; [lia|done].
      + eexists _, _. split; [done|]. exists [], []. simpl. rewrite app_nil_r.
        split_and!; [done|constructor|done|]. right. eauto 6.
    - eexists _, _. split; [done|]. exists [], []. simpl. rewrite app_nil_r, Nat.add_0_r.
      by split_and!.
  Qed.

  Lemma hs_rest_no_msg rest typ body more : (N.of_nat (length body) <= 0xffff)%N ->
    length rest < 4 \/ hs_incomplete rest -> rest <> hs_wire typ body ++ more.
  Proof.
    intros Hl [H|H] ->.
    - rewrite app_length, hs_wire_length in H. lia.
    - apply buf_contains_incomplete in H. by rewrite buf_contains_wire in H.
  Qed.
  Lemma hs_wire_inj t1 b1 r1 t2 b2 r2 : (N.of_nat (length b1) <= 0xffff)%N -> (N.of_nat (length b2) <= 0xffff)%N ->
    hs_wire t1 b1 ++ r1 = hs_wire t2 b2 ++ r2 -> t1 = t2 /\ b1 = b2 /\ r1 = r2.
  Proof.
    intros H1 H2. unfold hs_wire. cbn [app]. intros [= -> Ha Hb Hc Hd].
    assert (N.of_nat (length b1) = N.of_nat (length b2)) as Hl.
    { rewrite <- (hs_len (N.of_nat (length b1))), <- (hs_len (N.of_nat (length b2))) by lia. by rewrite Ha, Hb, Hc. }
    apply app_inj_1 in Hd as [-> ->]; [done|lia].
  Qed.
  Lemma hs_stream_unique v s tbs1 bs1 r1 tbs2 bs2 r2 :
    hs_stream body_read v s tbs1 bs1 r1 -> hs_stream body_read v s tbs2 bs2 r2 ->
    tbs1 = tbs2 /\ bs1 = bs2 /\ r1 = r2.
  Proof.
    intros [Hs1 Hok1 Hr1] [Hs2 Hok2 Hr2]. rewrite Hs1 in Hs2. clear Hs1.
    revert tbs2 bs2 Hs2 Hok2. induction Hok1 as [|[t1 b1] x1 tbs1 bs1 [Hp1 Hl1] _ IH]; intros tbs2 bs2 Hs2 Hok2.
    - destruct Hok2 as [|[t2 b2] x2 tbs2 bs2 [Hp2 Hl2] Hok2]; [done|]. exfalso.
      cbn [map concat fst snd app] in Hs2. rewrite <- app_assoc in Hs2.
      by eapply (hs_rest_no_msg r1 t2 b2).
    - destruct Hok2 as [|[t2 b2] x2 tbs2 bs2 [Hp2 Hl2] Hok2].
      + exfalso. cbn [map concat fst snd app] in Hs2. rewrite <- app_assoc in Hs2. symmetry in Hs2.
        by eapply (hs_rest_no_msg r2 t1 b1).
      + cbn [map concat fst snd] in *. rewrite <- !app_assoc in Hs2.
        apply hs_wire_inj in Hs2 as (-> & -> & Hs2); [|done..].
        destruct (IH tbs2 bs2 Hs2 Hok2) as (-> & -> & ->). split_and!; [done|simpl in *; congruence|done].
  Qed.
  Lemma hs_stream_app v s tbs bs r c tbs' bs' r' :
    hs_stream body_read v s tbs bs r -> hs_stream body_read v (r ++ c) tbs' bs' r' ->
    hs_stream body_read v (s ++ c) (tbs ++ tbs') (bs ++ bs') r'.
  Proof.
    intros [Hs Hok Hr] [Hs' Hok' Hr']. split; [|by apply Forall2_app|done].
    subst s. by rewrite <- app_assoc, Hs', map_app, concat_app, app_assoc.
  Qed.
  Lemma hs_refused_not v l c tbs bs rest : hs_refused body_read v l ->
    hs_stream body_read v (l ++ c) tbs bs rest -> 4 <= length l -> False.
  Proof.
    intros Hr [Hs Hok Hrest] Hlen. destruct Hr as [(typ & body & c' & Hl & rest' & Heq)|(typ & body & rest' & Heq & Hl & Hn)].
    - assert (exists a b' d' e' l0, l = a :: b' :: d' :: e' :: l0 /\ (0xffff < of_be [b';d';e'])%N) as
        (a & x & y & z & l0 & -> & Hbig).
      { do 4 (destruct l as [|? l]; [simpl in Hlen; lia|]). unfold hs_wire in Heq. cbn [app] in Heq.
        injection Heq as -> -> -> -> _. do 5 eexists. split; [done|]. rewrite hs_len by lia. lia. }
      assert (buf_contains_message ((a :: x :: y :: z :: l0) ++ c) = MessageTooLarge) as Hb.
      { cbn [app]. rewrite buf_contains_cons. by destruct (N.ltb_spec 65535 (of_be [x;y;z])); [|lia]. }
      rewrite Hs in Hb. destruct Hok as [|[t b] ? ? ? [_ Hb2] _].
      + simpl in Hb, Hs. destruct Hrest as [H|H].
        * rewrite <- Hs in H. simpl in H. lia.
        * by rewrite buf_contains_incomplete in Hb.
      + cbn [map concat fst snd] in Hb. rewrite <- app_assoc in Hb. by rewrite buf_contains_wire in Hb.
    - subst l. rewrite <- app_assoc in Hs. destruct Hok as [|[t b] ? ? ? [Hp Hb2] _].
      + cbn [map concat] in Hs; rewrite app_nil_l in Hs. symmetry in Hs. by eapply (hs_rest_no_msg rest typ body).
      + cbn [map concat fst snd] in Hs. rewrite <- app_assoc in Hs.
        apply hs_wire_inj in Hs as (-> & -> & _); [|done..]. simpl in Hp. congruence.
  Qed.
  Lemma hs_refused_length v l : hs_refused body_read v l -> buf_contains_message l <> NeedsMoreData -> 4 <= length l.
  Proof.
    intros _ H. destruct (decide (length l < 4)) as [Hs|]; [|lia]. by apply buf_contains_short in Hs.
  Qed.

  (** The loop, with the reason for a refusal: the remaining buffer has a full header. *)
  Lemma j_loop_none fuel v j count j' : j_loop body_read fuel v j count = Some (None, j') -> 4 <= length (j_buf j').
  Proof.
    revert j count. induction fuel as [|fuel IH]; intros j count; [done|]. cbn [j_loop].
    destruct (decide (length (j_buf j) < 4)) as [Hs|Hs]; [by rewrite buf_contains_short|].
    destruct (buf_contains_message (j_buf j)); [intros [= <-]; lia| |done].
    destruct (deframe_one body_read v j); [by apply IH|]. intros [= <-]. lia.
  Qed.

  Lemma take_message_spec j m s tbs bs : bytes_ok (s ++ m_payload m) ->
    hs_stream body_read (m_version m) s tbs bs (j_buf j) ->
    exists r j', take_message j m = Some (r, j') /\
      match r with
      | Some n => exists tbs' bs', hs_stream body_read (m_version m) (s ++ m_payload m) (tbs ++ tbs') (bs ++ bs') (j_buf j') /\
          j_frames j' = j_frames j ++ map (fun b => (m_version m, b)) bs' /\ n = length bs'
      | None => forall c tbs' bs' r', ~ hs_stream body_read (m_version m) (s ++ m_payload m ++ c) tbs' bs' r'
      end.
  Proof.
    intros Hok Hsh. unfold CodecModel.take_message.
    replace (match j_buf j with [] => m_payload m | _ => j_buf j ++ m_payload m end)
      with (j_buf j ++ m_payload m) by (by destruct (j_buf j)).
    assert (bytes_ok (j_buf j ++ m_payload m)) as Hok'.
    { rewrite (hss_split _ _ _ _ _ _ Hsh), <- app_assoc in Hok. by apply Forall_app in Hok as [_ ?]. }
    destruct (j_loop_spec (S (length (j_buf j ++ m_payload m))) (m_version m)
      (Joiner (j_frames j) (j_buf j ++ m_payload m)) 0) as (r & j' & Hl & tbs' & bs' & H1 & H2 & H3 & H4);
      [done|simpl; lia|].
    exists r, j'. split; [done|]. cbn [j_buf j_frames] in *. destruct r as [n|].
    - destruct H4 as [-> H4]. exists tbs', bs'. split_and!; [|done|by apply Forall2_length in H2].
      eapply hs_stream_app; [done|]. by split.
    - pose proof (j_loop_none _ _ _ _ _ Hl) as Hlen.
      intros c tbs2 bs2 r' Hs2.
      (* the messages split off so far are also the first ones of any decomposition *)
      assert (forall tbs bs l s, Forall2 (hs_msg_ok body_read (m_version m)) tbs bs ->
        s = concat (map (fun tb => hs_wire (fst tb) (snd tb)) tbs) ++ l ->
        forall tbs2 bs2 r', hs_stream body_read (m_version m) s tbs2 bs2 r' ->
        exists tbs3 bs3, hs_stream body_read (m_version m) l tbs3 bs3 r') as Hstrip.
      { clear. intros tbs bs l s HF. revert s. induction HF as [|[t b] x tbs bs [Hp Hl] _ IH]; intros s Hs tbs2 bs2 r' H.
        - simpl in Hs. subst s. eauto.
        - cbn [map concat fst snd] in Hs. rewrite <- app_assoc in Hs. destruct H as [Hs2 Hok2 Hr].
          destruct Hok2 as [|[t2 b2] x2 tbs2 bs2 [Hp2 Hl2] Hok2].
          + exfalso. simpl in Hs2. rewrite Hs in Hs2. symmetry in Hs2. by eapply (hs_rest_no_msg r' t b).
          + cbn [map concat fst snd] in Hs2. rewrite <- app_assoc in Hs2. rewrite Hs in Hs2.
            apply hs_wire_inj in Hs2 as (-> & -> & Hs2); [|done..].
            eapply IH; [done|]. by split. }
      destruct Hsh as [Hs0 Hok0 _].
      destruct (Hstrip (tbs ++ tbs') (bs ++ bs') (j_buf j' ++ c) (s ++ m_payload m ++ c)
        (Forall2_app Hok0 H2)) with (tbs2 := tbs2) (bs2 := bs2) (r' := r') as (tbs3 & bs3 & H5); [|done|].
      { rewrite Hs0, map_app, concat_app, <- !app_assoc. f_equal.
        by rewrite (app_assoc (j_buf j)), H1, <- app_assoc. }
      by eapply hs_refused_not.
  Qed.

  Lemma feed_all_spec v ms j s tbs bs : bytes_ok (s ++ concat (map m_payload ms)) ->
    Forall (fun m => m_version m = v) ms -> hs_stream body_read v s tbs bs (j_buf j) ->
    match feed_all body_read j ms with
    | Some (ns, j') => exists tbs' bs', hs_stream body_read v (s ++ concat (map m_payload ms)) (tbs ++ tbs') (bs ++ bs') (j_buf j') /\
        j_frames j' = j_frames j ++ map (fun b => (v, b)) bs' /\ sum_list ns = length bs'
    | None => forall tbs' bs' r', ~ hs_stream body_read v (s ++ concat (map m_payload ms)) tbs' bs' r'
    end.
  Proof.
    revert j s tbs bs. induction ms as [|m ms IH]; intros j s tbs bs Hok Hv Hsh.
    - simpl. exists [], []. rewrite !app_nil_r. simpl. done.
    - inversion Hv as [|? ? <- Hv']; subst. cbn [map concat] in *.
      destruct (take_message_spec j m s tbs bs) as (r & j1 & Ht & Hr).
      { rewrite app_assoc in Hok. by apply Forall_app in Hok as [? _]. }
      { done. }
      cbn [feed_all]. rewrite Ht. destruct r as [n|].
      + destruct Hr as (tbs1 & bs1 & Hsh1 & Hfr1 & ->).
        specialize (IH j1 (s ++ m_payload m) _ _ ltac:(by rewrite <- app_assoc) Hv' Hsh1).
        rewrite <- (app_assoc s) in IH.
        destruct (feed_all body_read j1 ms) as [[ns j2]|]; [|done].
        destruct IH as (tbs2 & bs2 & Hsh2 & Hfr2 & Hn). exists (tbs1 ++ tbs2), (bs1 ++ bs2).
        rewrite !app_assoc in *. split_and!; [done| |].
        * by rewrite Hfr2, Hfr1, map_app, app_assoc.
        * simpl. rewrite app_length. lia.
      + by intros tbs' bs' r'; apply Hr.
  Qed.

  Lemma hs_stream_nil v : hs_stream body_read v [] [] [] [].
  Proof. split; [done|constructor|]. left. simpl. lia. Qed.

  Definition payloads (ms : list message) : list N := concat (map m_payload ms).

  Lemma C30_success_lemma v ms ns j : bytes_ok (concat (map m_payload ms)) ->
    Forall (fun m => m_version m = v) ms -> feed_all body_read j_new ms = Some (ns, j) ->
    exists tbs bs, hs_stream body_read v (concat (map m_payload ms)) tbs bs (j_buf j) /\
      j_frames j = map (fun b => (v, b)) bs /\ sum_list ns = length bs.
  Proof.
    intros Hok Hv Hf. pose proof (feed_all_spec v ms j_new [] [] [] Hok Hv (hs_stream_nil v)) as H.
    by rewrite Hf in H.
  Qed.
  Lemma C30_total_lemma v ms tbs bs rest : bytes_ok (concat (map m_payload ms)) ->
    Forall (fun m => m_version m = v) ms -> hs_stream body_read v (concat (map m_payload ms)) tbs bs rest ->
    exists ns j, feed_all body_read j_new ms = Some (ns, j) /\ j_buf j = rest /\
      j_frames j = map (fun b => (v, b)) bs.
  Proof.
    intros Hok Hv Hs. pose proof (feed_all_spec v ms j_new [] [] [] Hok Hv (hs_stream_nil v)) as H.
    destruct (feed_all body_read j_new ms) as [[ns j]|]; [|by apply H in Hs].
    destruct H as (tbs' & bs' & Hs' & Hfr & _). simpl in *.
    destruct (hs_stream_unique _ _ _ _ _ _ _ _ Hs Hs') as (_ & -> & ->). eauto.
  Qed.
  Lemma C30_independent_lemma v ms1 ms2 ns1 j1 : bytes_ok (concat (map m_payload ms1)) ->
    Forall (fun m => m_version m = v) ms1 -> Forall (fun m => m_version m = v) ms2 ->
    concat (map m_payload ms1) = concat (map m_payload ms2) ->
    feed_all body_read j_new ms1 = Some (ns1, j1) ->
    exists ns2, feed_all body_read j_new ms2 = Some (ns2, j1).
  Proof.
    intros Hok Hv1 Hv2 Heq Hf.
    destruct (C30_success_lemma v ms1 ns1 j1 Hok Hv1 Hf) as (tbs & bs & Hs & Hfr & _).
    destruct (C30_total_lemma v ms2 tbs bs (j_buf j1)) as (ns2 & j2 & Hf2 & Hb & Hfr2); [congruence|done|congruence|].
    exists ns2. rewrite Hf2. do 2 f_equal. destruct j1, j2. simpl in *. congruence.
  Qed.
  Lemma C30_empty_lemma v ms ns j : bytes_ok (concat (map m_payload ms)) ->
    Forall (fun m => m_version m = v) ms -> feed_all body_read j_new ms = Some (ns, j) ->
    j_is_empty j = true <-> exists tbs bs, Forall2 (hs_msg_ok body_read v) tbs bs /\
      concat (map m_payload ms) = concat (map (fun tb => hs_wire (fst tb) (snd tb)) tbs).
  Proof.
    intros Hok Hv Hf. destruct (C30_success_lemma v ms ns j Hok Hv Hf) as (tbs & bs & Hs & Hfr & _).
    unfold j_is_empty. split.
    - destruct (j_buf j) eqn:Hb; [|done]. intros _. exists tbs, bs. destruct Hs as [Hs ? _]. split; [done|].
      by rewrite app_nil_r in Hs.
    - intros (tbs' & bs' & HF & Heq).
      destruct (hs_stream_unique v _ tbs bs (j_buf j) tbs' bs' [] Hs) as (_ & _ & ->); [|done].
      split; [by rewrite app_nil_r|done|]. left. simpl. lia.
  Qed.
End Hs.

Lemma C29_packets_lemma sz lim m : frag_set (Some sz) = Some lim -> exists fs, fragment lim m = Ok fs /\
  Forall (fun f => (N.of_nat (length (message_encode f)) <= sz)%N) fs.
Proof.
  intros [Hsz ->]%frag_set_spec. destruct (fragment_spec (sz - 5) m) as (fs & Hf & _ & HF & _); [lia|].
  exists fs. split; [done|]. eapply Forall_impl; [exact HF|]. intros f (_ & _ & Hl & _).
  rewrite message_encode_length. lia.
Qed.
