(** Lemmas about the wire codec. *)
From Verif.Lib Require Import Base.
From Verif Require Import CodecModel CodecSpec.

Local Open Scope N_scope.
Lemma of_be_app l1 l2 : of_be (l1 ++ l2) = of_be l1 * 256 ^ N.of_nat (length l2) + of_be l2.
Proof.
  unfold of_be. rewrite fold_left_app. generalize (fold_left (fun acc b => acc * 256 + b) l1 0).
  induction l2 as [|b l2 IH] using rev_ind; intros a.
  - simpl. lia.
  - rewrite !fold_left_app, app_length. simpl. rewrite IH, Nat2N.inj_add, N.pow_add_r. simpl.
    change (256 ^ 1) with 256. lia.
Qed.
Lemma of_be_cons b l : of_be (b :: l) = b * 256 ^ N.of_nat (length l) + of_be l.
Proof. exact (of_be_app [b] l). Qed.
Lemma pow256_pos n : 0 < 256 ^ n.
Proof. apply N.neq_0_lt_0, N.pow_nonzero. lia. Qed.
Lemma pow256_S n : 256 ^ N.of_nat (S n) = 256 * 256 ^ N.of_nat n.
Proof. by rewrite Nat2N.inj_succ, N.pow_succ_r'. Qed.

Lemma be_length n v : length (be n v) = n.
Proof. induction n; simpl; congruence. Qed.
Lemma be_ok n v : bytes_ok (be n v).
Proof. induction n; simpl; constructor; [|done]. unfold byte_ok. by apply N.mod_lt. Qed.
Lemma of_be_be n v : of_be (be n v) = v mod 256 ^ N.of_nat n.
Proof.
  induction n as [|n IH]; [by rewrite N.mod_1_r|].
  cbn [be]. rewrite of_be_cons, be_length, IH, pow256_S.
  pose proof (pow256_pos (N.of_nat n)).
  rewrite (N.mul_comm 256), N.mod_mul_r by lia. lia.
Qed.
Lemma of_be_lt l : bytes_ok l -> of_be l < 256 ^ N.of_nat (length l).
Proof.
  induction 1 as [|b l Hb _ IH]; [done|].
  rewrite of_be_cons. cbn [length]. rewrite pow256_S. unfold byte_ok in Hb. nia.
Qed.
Lemma be_of_be l : bytes_ok l -> be (length l) (of_be l) = l.
Proof.
  intros Hl. assert (forall l k, bytes_ok l -> be (length l) (k * 256 ^ N.of_nat (length l) + of_be l) = l) as Hgen.
  { clear. intros l. induction l as [|b l IH]; intros k Hl; [done|].
    inversion Hl as [|? ? Hb Hl']; subst. cbn [length be].
    pose proof (of_be_lt l Hl'). pose proof (pow256_pos (N.of_nat (length l))). unfold byte_ok in Hb.
    rewrite of_be_cons, pow256_S. f_equal.
    - replace (k * (256 * 256 ^ N.of_nat (length l)) + (b * 256 ^ N.of_nat (length l) + of_be l))
        with (of_be l + (k * 256 + b) * 256 ^ N.of_nat (length l)) by lia.
      rewrite N.div_add, (N.div_small (of_be l)) by lia. rewrite N.add_0_l, N.add_comm.
      rewrite N.mod_add by lia. by apply N.mod_small.
    - replace (k * (256 * 256 ^ N.of_nat (length l)) + (b * 256 ^ N.of_nat (length l) + of_be l))
        with ((k * 256 + b) * 256 ^ N.of_nat (length l) + of_be l) by lia.
      by apply IH. }
  specialize (Hgen l 0 Hl). by rewrite N.mul_0_l, N.add_0_l in Hgen.
Qed.
Lemma be_small n v : v < 256 ^ N.of_nat n -> of_be (be n v) = v.
Proof. intros. by rewrite of_be_be, N.mod_small. Qed.

Lemma is_be_ok n v l : is_be n v l -> length l = n /\ bytes_ok l /\ of_be l = v.
Proof.
  induction 1 as [|n hi v l Hl IH Hhi]; [split_and!; [done|constructor|done]|].
  destruct IH as (IH1 & IH2 & IH3). split_and!.
  - simpl. by rewrite IH1.
  - by constructor.
  - by rewrite of_be_cons, IH3, IH1.
Qed.
Lemma is_be_of l : bytes_ok l -> is_be (length l) (of_be l) l.
Proof.
  induction 1 as [|b l Hb _ IH]; [constructor|].
  rewrite of_be_cons. by constructor.
Qed.
Lemma is_be_be n v : v < 256 ^ N.of_nat n -> is_be n v (be n v).
Proof.
  intros Hv. pose proof (is_be_of (be n v) (be_ok n v)) as H.
  by rewrite be_length, be_small in H.
Qed.
Lemma is_be_eq n v l : is_be n v l -> l = be n v.
Proof. intros (H1 & H2 & H3)%is_be_ok. subst. by rewrite be_of_be. Qed.
Local Close Scope N_scope.

(** ** Readers *)
Lemma take_bytes_Some n l b l' :
  take_bytes n l = Some (b, l') <-> l = b ++ l' /\ length b = n.
Proof.
  unfold take_bytes. destruct (Nat.ltb_spec (length l) n) as [H|H]; split.
  - done.
  - intros [-> <-]. rewrite app_length in H. lia.
  - intros [= <- <-]. rewrite take_drop, take_length. split; [done|lia].
  - intros [-> <-]. by rewrite take_app, drop_app.
Qed.
Lemma take_bytes_None n l : take_bytes n l = None <-> length l < n.
Proof. unfold take_bytes. destruct (Nat.ltb_spec (length l) n); split; try done; lia. Qed.

Lemma read_uint_Some n l v l' :
  read_uint n l = Some (v, l') <-> exists b, l = b ++ l' /\ length b = n /\ v = of_be b.
Proof.
  unfold read_uint. destruct (take_bytes n l) as [[b l1]|] eqn:E.
  - apply take_bytes_Some in E as [-> E]. split.
    + intros [= <- <-]. eauto.
    + intros (b' & Hb & Hl & ->). apply app_inj_1 in Hb as [-> ->]; [done|lia].
  - split; [done|]. intros (b & -> & Hb & _). apply take_bytes_None in E. rewrite app_length in E. lia.
Qed.
Lemma read_uint_None n l : read_uint n l = None <-> length l < n.
Proof.
  unfold read_uint. destruct (take_bytes n l) as [[b l1]|] eqn:E.
  - split; [done|]. intros ?%take_bytes_None. congruence.
  - by apply take_bytes_None in E.
Qed.
Lemma read_uint_enc n v rest : (v < 256 ^ N.of_nat n)%N -> read_uint n (enc_uint n v ++ rest) = Some (v, rest).
Proof.
  intros Hv. apply read_uint_Some. exists (be n v). by rewrite be_length, be_small.
Qed.
Lemma take_take_app k (l1 l2 : list N) : length l1 <= k -> take k (l1 ++ l2) = l1 ++ take (k - length l1) l2.
Proof. intros. by rewrite take_app_ge. Qed.

Lemma uint_round_trip n v : (v < 256 ^ N.of_nat n)%N -> round_trips (read_uint n) (enc_uint n) v.
Proof.
  intros Hv. split.
  - intros rest. by apply read_uint_enc.
  - intros k Hk. apply read_uint_None. rewrite take_length. unfold enc_uint in *. rewrite be_length in *. lia.
Qed.
Lemma uint_reads_prefix n : reads_prefix (read_uint n).
Proof.
  intros l v rest (b & -> & Hl & ->)%read_uint_Some. exists b. split; [done|].
  intros more. apply read_uint_Some. eauto.
Qed.
Lemma uint_canonical n l v rest : bytes_ok l -> read_uint n l = Some (v, rest) ->
  exists used, l = used ++ rest /\ is_be n v used.
Proof.
  intros Hok (b & -> & <- & ->)%read_uint_Some. exists b. split; [done|].
  apply is_be_of. by apply Forall_app in Hok as [? _].
Qed.

Lemma read_payload_Some n l p l' :
  read_payload n l = Some (p, l') <->
  exists b, l = b ++ p ++ l' /\ length b = n /\ N.of_nat (length p) = of_be b.
Proof.
  unfold read_payload. destruct (read_uint n l) as [[len l1]|] eqn:E.
  - apply read_uint_Some in E as (b & -> & Hb & ->). rewrite take_bytes_Some. split.
    + intros [-> Hp]. exists b. split_and!; [done|done|lia].
    + intros (b' & Heq & Hb' & Hp). apply app_inj_1 in Heq as [-> ->]; [|lia]. split; [done|lia].
  - split; [done|]. intros (b & -> & Hb & _). apply read_uint_None in E. rewrite app_length in E. lia.
Qed.
Lemma read_payload_fits n l p l' : bytes_ok l -> read_payload n l = Some (p, l') ->
  (N.of_nat (length p) < 256 ^ N.of_nat n)%N.
Proof.
  intros Hok (b & -> & Hb & Hp)%read_payload_Some. rewrite Hp, <- Hb. apply of_be_lt.
  by apply Forall_app in Hok as [? _].
Qed.
Lemma enc_payload_small n p : (N.of_nat (length p) < 256 ^ N.of_nat n)%N ->
  enc_payload n p = be n (N.of_nat (length p)) ++ p.
Proof. intros. unfold enc_payload, enc_uint. by rewrite N.mod_small. Qed.
Lemma read_payload_enc n p rest : (N.of_nat (length p) < 256 ^ N.of_nat n)%N ->
  read_payload n (enc_payload n p ++ rest) = Some (p, rest).
Proof.
  intros Hp. rewrite enc_payload_small by done. apply read_payload_Some.
  exists (be n (N.of_nat (length p))). by rewrite be_length, be_small, app_assoc.
Qed.
Lemma payload_round_trip n p : (N.of_nat (length p) < 256 ^ N.of_nat n)%N ->
  round_trips (read_payload n) (enc_payload n) p.
Proof.
  intros Hp. split.
  - intros rest. by apply read_payload_enc.
  - intros k Hk. rewrite enc_payload_small in Hk |- * by done.
    rewrite app_length, be_length in Hk.
    destruct (read_payload n _) as [[q l']|] eqn:E; [|done].
    apply read_payload_Some in E as (b & Hb & Hbl & Hq). exfalso.
    destruct (decide (k < n)).
    { apply (f_equal length) in Hb. rewrite take_length, !app_length in Hb. lia. }
    rewrite take_app_ge, be_length in Hb by (rewrite be_length; lia).
    apply app_inj_1 in Hb as [<- Hb]; [|by rewrite be_length].
    rewrite be_small in Hq by done. apply (f_equal length) in Hb.
    rewrite take_length, app_length in Hb. lia.
Qed.
Lemma payload_reads_prefix n : reads_prefix (read_payload n).
Proof.
  intros l p rest (b & -> & Hb & Hp)%read_payload_Some. exists (b ++ p). rewrite <- app_assoc.
  split; [done|]. intros more. apply read_payload_Some. exists b. by rewrite <- app_assoc.
Qed.
Lemma payload_canonical n l p rest : bytes_ok l -> read_payload n l = Some (p, rest) ->
  exists prefix, l = prefix ++ p ++ rest /\ is_be n (N.of_nat (length p)) prefix.
Proof.
  intros Hok (b & -> & <- & Hp)%read_payload_Some. exists b. split; [done|]. rewrite Hp.
  apply is_be_of. by apply Forall_app in Hok as [? _].
Qed.
Lemma payload_too_long n p rest rest' : bytes_ok p ->
  (256 ^ N.of_nat n <= N.of_nat (length p))%N -> read_payload n (enc_payload n p ++ rest) <> Some (p, rest').
Proof.
  intros Hok Hp (b & Hb & Hbl & Hlen)%read_payload_Some.
  unfold enc_payload, enc_uint in Hb. rewrite <- app_assoc in Hb.
  apply app_inj_1 in Hb as [<- _]; [|by rewrite be_length].
  pose proof (of_be_lt _ (be_ok n (N.of_nat (length p) mod 256 ^ N.of_nat n))) as Hlt.
  rewrite be_length in Hlt. lia.
Qed.

(** ** Vectors *)
Lemma read_items_enc {A} (rd : reader A) (enc : A -> list N) xs :
  Forall (fun x => round_trips rd enc x /\ enc x <> []) xs ->
  forall fuel, length (concat (map enc xs)) <= fuel -> read_items fuel rd (concat (map enc xs)) = Items xs.
Proof.
  induction 1 as [|x xs [[Hx _] Hne] _ IH]; intros fuel Hf.
  { by destruct fuel. }
  simpl in *. rewrite app_length in Hf.
  assert (1 <= length (enc x)) by (destruct (enc x); simpl; [done|lia]).
  destruct fuel as [|fuel]; [lia|].
  assert (exists b l, enc x ++ concat (map enc xs) = b :: l) as (b & l & Hbl).
  { destruct (enc x) as [|b l]; [done|]. by exists b, (l ++ concat (map enc xs)). }
  cbn [read_items]. rewrite Hbl, <- Hbl, Hx, IH by lia. done.
Qed.
Lemma read_items_fuel {A} (rd : reader A) fuel sub :
  (forall l a rest, rd l = Some (a, rest) -> l <> [] -> length rest < length l) ->
  length sub <= fuel -> read_items fuel rd sub <> OutOfFuel.
Proof.
  intros Hrd. revert sub. induction fuel as [|fuel IH]; intros sub Hf.
  { destruct sub; simpl in *; [done|lia]. }
  destruct sub as [|b sub]; [done|]. cbn [read_items].
  destruct (rd (b :: sub)) as [[x sub']|] eqn:E; [|done].
  apply Hrd in E; [|done]. simpl in *. specialize (IH sub').
  destruct (read_items fuel rd sub'); try done. by intros _; apply IH; [lia|].
Qed.
Lemma read_items_inv {A} (rd : reader A) fuel sub xs : reads_prefix rd ->
  read_items fuel rd sub = Items xs ->
  exists pieces, sub = concat pieces /\ Forall2 (fun p x => forall more, rd (p ++ more) = Some (x, more)) pieces xs.
Proof.
  intros Hrd. revert sub xs. induction fuel as [|fuel IH]; intros sub xs.
  { destruct sub; [|done]. intros [= <-]. exists []. by split. }
  destruct sub as [|b sub]; [intros [= <-]; exists []; by split|]. cbn [read_items].
  destruct (rd (b :: sub)) as [[x sub']|] eqn:E; [|done].
  destruct (read_items fuel rd sub') as [ys| |] eqn:E2; try done. intros [= <-].
  apply Hrd in E as (used & -> & Hu). apply IH in E2 as (ps & -> & HF).
  exists (used :: ps). split; [done|]. by constructor.
Qed.
Lemma vec_round_trip {A} n limit (rd : reader A) enc xs rest :
  Forall (fun x => round_trips rd enc x /\ enc x <> []) xs ->
  (N.of_nat (length (concat (map enc xs))) < 256 ^ N.of_nat n)%N ->
  match limit with Some m => length (concat (map enc xs)) <= m | None => True end ->
  read_vec n limit rd (enc_vec n enc xs ++ rest) = Some (Items xs, rest).
Proof.
  intros Hxs Hlen Hlim. unfold read_vec, enc_vec. rewrite enc_payload_small, <- app_assoc by done.
  rewrite read_uint_enc by done.
  replace (match limit with Some m => _ | None => _ end) with false by (destruct limit; [lia|done]).
  rewrite (proj2 (take_bytes_Some _ _ (concat (map enc xs)) rest)) by (split; [done|lia]).
  by rewrite (read_items_enc rd enc).
Qed.
Lemma vec_no_fuel {A} n limit (rd : reader A) l r rest :
  (forall l a rest, rd l = Some (a, rest) -> l <> [] -> length rest < length l) ->
  read_vec n limit rd l = Some (r, rest) -> r <> OutOfFuel.
Proof.
  intros Hrd. unfold read_vec. destruct (read_uint n l) as [[len l1]|]; [|done].
  destruct (match limit with Some _ => _ | None => _ end); [done|].
  destruct (take_bytes _ l1) as [[sub l2]|]; [|done]. intros [= <- <-]. by apply read_items_fuel.
Qed.
Lemma vec_limit {A} n m (rd : reader A) l r rest : 
  read_vec n (Some m) rd l = Some (r, rest) -> length l <= n + m + length rest.
Proof.
  unfold read_vec. destruct (read_uint n l) as [[len l1]|] eqn:E; [|done].
  apply read_uint_Some in E as (b & -> & Hb & ->).
  destruct (N.ltb_spec (N.of_nat m) (of_be b)); [done|].
  destruct (take_bytes _ l1) as [[sub l2]|] eqn:E2; [|done]. intros [= <- <-].
  apply take_bytes_Some in E2 as [-> Hs]. rewrite !app_length. lia.
Qed.
Lemma vec_exact {A} n limit (rd : reader A) l xs rest : bytes_ok l -> reads_prefix rd ->
  read_vec n limit rd l = Some (Items xs, rest) ->
  exists prefix pieces, l = prefix ++ concat pieces ++ rest /\
    is_be n (N.of_nat (length (concat pieces))) prefix /\
    Forall2 (fun p x => forall more, rd (p ++ more) = Some (x, more)) pieces xs.
Proof.
  intros Hok Hrd. unfold read_vec. destruct (read_uint n l) as [[len l1]|] eqn:E; [|done].
  apply uint_canonical in E as (b & -> & Hb); [|done].
  destruct (match limit with Some _ => _ | None => _ end); [done|].
  destruct (take_bytes _ l1) as [[sub l2]|] eqn:E2; [|done]. intros [= E3 <-].
  apply take_bytes_Some in E2 as [-> Hs].
  apply read_items_inv in E3 as (ps & -> & HF); [|done].
  exists b, ps. split_and!; try done. by rewrite Hs, N2Nat.id.
Qed.

(** ** Records *)
Lemma ct_of_u8 t : type_known t -> ct_of (ct_u8 t) = t.
Proof. by destruct t. Qed.
Lemma ct_u8_of x : ct_u8 (ct_of x) = x.
Proof.
  unfold ct_of.
  destruct (N.eqb_spec x 20); [by subst|]. destruct (N.eqb_spec x 21); [by subst|].
  destruct (N.eqb_spec x 22); [by subst|]. destruct (N.eqb_spec x 23); [by subst|].
  by destruct (N.eqb_spec x 24); [subst|].
Qed.
Ltac case_eqb := match goal with |- context [N.eqb ?x ?y] => destruct (N.eqb_spec x y) end.
Lemma pv_of_u16 v : version_wf v -> pv_of (pv_u16 v) = v.
Proof.
  destruct v as [| | | | | | | |x]; try done. simpl. intros [_ Hx].
  unfold pv_of. rewrite !elem_of_cons, elem_of_nil in Hx.
  repeat (case_eqb; [tauto|]). done.
Qed.
Lemma pv_u16_of x : pv_u16 (pv_of x) = x.
Proof. unfold pv_of. repeat (case_eqb; [by subst|]). done. Qed.
Lemma pv_of_wf x : (x < 2 ^ 16)%N -> version_wf (pv_of x).
Proof.
  intros Hx. unfold pv_of. repeat (case_eqb; [done|]). simpl. split; [done|].
  rewrite !elem_of_cons, elem_of_nil. tauto.
Qed.
Lemma version_wf_lt v : version_wf v -> (pv_u16 v < 2 ^ 16)%N.
Proof. destruct v; simpl; try done. by intros [? _]. Qed.
Lemma land_ff00 x : (x < 2 ^ 16)%N -> N.land x 0xff00 = (x / 256 * 256)%N.
Proof.
  intros Hx. apply N.bits_inj. intros i.
  change (N.land x 65280) with (N.land x (N.shiftl (N.ones 8) 8)).
  rewrite N.land_spec. replace (x / 256 * 256)%N with (N.shiftl (N.shiftr x 8) 8).
  2:{ by rewrite N.shiftl_mul_pow2, N.shiftr_div_pow2. }
  destruct (N.lt_ge_cases i 8) as [Hi|Hi].
  { rewrite !N.shiftl_spec_low by done. by rewrite andb_false_r. }
  rewrite !N.shiftl_spec_high' by done. rewrite N.shiftr_spec'.
  replace (i - 8 + 8)%N with i by lia.
  destruct (N.lt_ge_cases i 16) as [Hi2|Hi2].
  { rewrite N.ones_spec_low by lia. by rewrite andb_true_r. }
  rewrite (N.ones_spec_high 8) by lia. rewrite andb_false_r.
  destruct (N.eq_dec x 0) as [->|Hx0]; [by rewrite N.bits_0|].
  symmetry. apply N.bits_above_log2. apply N.log2_lt_pow2; [lia|].
  eapply N.lt_le_trans; [exact Hx|]. apply N.pow_le_mono_r; lia.
Qed.
Lemma version_rejected_spec v : version_wf v ->
  version_rejected v = false <-> version_named v \/ version_major v = 3%N.
Proof.
  intros Hv. destruct v as [| | | | | | | |x]; try (split; [by left|done]).
  simpl in Hv. unfold version_rejected, version_major, version_named, pv_u16. destruct Hv as [Hx _].
  rewrite land_ff00 by done. split.
  - intros H. right. lia.
  - intros [[]|H]. rewrite H. done.
Qed.

Lemma message_encode_wire m : version_wf (m_version m) -> (N.of_nat (length (m_payload m)) < 2 ^ 16)%N ->
  (ct_u8 (m_typ m) < 256)%N -> message_encode m = wire m.
Proof.
  intros Hv Hl Ht. pose proof (version_wf_lt _ Hv).
  unfold message_encode, wire, enc_uint, version_major, version_minor. cbn [be app].
  change (256 ^ N.of_nat 0)%N with 1%N. change (256 ^ N.of_nat 1)%N with 256%N.
  rewrite !N.div_1_r, (N.mod_small (N.of_nat _) (2 ^ 16)) by done.
  rewrite (N.mod_small (ct_u8 _)) by done.
  rewrite (N.mod_small (pv_u16 _ / 256)), (N.mod_small (N.of_nat _ / 256)) by (apply N.div_lt_upper_bound; lia).
  done.
Qed.

Lemma length_wire m : length (wire m) = 5 + length (m_payload m).
Proof. done. Qed.

(** The five header bytes. *)
Lemma message_read_short l : length l < 5 -> message_read l = Err TooShortForHeader.
Proof.
  intros H. do 5 (destruct l as [|? l]; [reflexivity|]). simpl in H. lia.
Qed.
Lemma of_be2 a b : of_be [a;b] = (a * 256 + b)%N.
Proof. reflexivity. Qed.
Lemma message_read_cons t v1 v0 n1 n0 l :
  message_read (t :: v1 :: v0 :: n1 :: n0 :: l) =
    let len := (n1 * 256 + n0)%N in
    let typ := ct_of t in let version := pv_of (v1 * 256 + v0) in
    if negb (bool_decide (typ = ApplicationData)) && (len =? 0)%N then Err IllegalLength
    else if (MAX_PAYLOAD <=? len)%N then Err IllegalLength
    else if match typ with UnknownType _ => true | _ => false end then Err IllegalContentType
    else if version_rejected version then Err IllegalProtocolVersion
    else
      let! (payload, l4) := opt_err TooShortForLength (take_bytes (N.to_nat len) l) in
      Ok (Message typ version payload, l4).
Proof. reflexivity. Qed.

(** The header is acceptable. *)
Definition hdr_ok (t v len : N) : Prop :=
  (ct_of t = ApplicationData \/ len <> 0%N) /\ (len < MAX_PAYLOAD)%N /\ type_known (ct_of t) /\
  version_rejected (pv_of v) = false.
Lemma message_read_cases t v1 v0 n1 n0 l :
  let len := (n1 * 256 + n0)%N in
  (hdr_ok t (v1 * 256 + v0) len /\
    message_read (t :: v1 :: v0 :: n1 :: n0 :: l) =
      let! (payload, l4) := opt_err TooShortForLength (take_bytes (N.to_nat len) l) in
      Ok (Message (ct_of t) (pv_of (v1 * 256 + v0)) payload, l4)) \/
  (~ hdr_ok t (v1 * 256 + v0) len /\ exists e, e <> TooShortForHeader /\ e <> TooShortForLength /\
    forall l', message_read (t :: v1 :: v0 :: n1 :: n0 :: l') = Err e).
Proof.
  set (len := (n1 * 256 + n0)%N). cbv zeta.
  setoid_rewrite message_read_cons. cbv zeta. fold len. unfold hdr_ok.
  destruct (negb (bool_decide (ct_of t = ApplicationData)) && (len =? 0)%N) eqn:E1.
  { right. split; [|exists IllegalLength; by split_and!]. intros (H & _).
    apply andb_true_iff in E1 as [E1 E2]. apply N.eqb_eq in E2.
    destruct (bool_decide_reflect (ct_of t = ApplicationData)); [done|]. naive_solver. }
  destruct (MAX_PAYLOAD <=? len)%N eqn:E2.
  { right. split; [|exists IllegalLength; by split_and!]. intros (_ & H & _). lia. }
  destruct (match ct_of t with UnknownType _ => true | _ => false end) eqn:E3.
  { right. split; [|exists IllegalContentType; by split_and!]. intros (_ & _ & H & _). by destruct (ct_of t). }
  destruct (version_rejected (pv_of (v1 * 256 + v0))) eqn:E4.
  { right. split; [|exists IllegalProtocolVersion; by split_and!]. by intros (_ & _ & _ & ?). }
  left. split; [|done]. split_and!; [|lia|by destruct (ct_of t)|done].
  destruct (bool_decide_reflect (ct_of t = ApplicationData)); [by left|right].
  simpl in E1. lia.
Qed.

Lemma record_ok_hdr m : record_ok m ->
  hdr_ok (ct_u8 (m_typ m)) (pv_u16 (m_version m)) (N.of_nat (length (m_payload m))).
Proof.
  intros [H1 H2 H3 H4 H5]. unfold hdr_ok. rewrite ct_of_u8, pv_of_u16 by done.
  split_and!; [|done|done|by apply version_rejected_spec].
  destruct H5 as [?|H5]; [by left|right]. destruct (m_payload m); [done|simpl; lia].
Qed.
Lemma hdr_ok_record t v p : (v < 2 ^ 16)%N -> hdr_ok t v (N.of_nat (length p)) ->
  record_ok (Message (ct_of t) (pv_of v) p).
Proof.
  intros Hv (H1 & H2 & H3 & H4). pose proof (pv_of_wf v Hv). split; simpl; try done.
  - by apply version_rejected_spec.
  - destruct H1 as [?|H1]; [by left|right]. intros ->. by apply H1.
Qed.

Lemma message_read_wire m rest : record_ok m -> message_read (wire m ++ rest) = Ok (m, rest).
Proof.
  intros Hm. pose proof (record_ok_hdr m Hm) as Hh.
  pose proof (version_wf_lt _ (rok_wf m Hm)) as Hv.
  unfold wire. cbn [app].
  set (n := N.of_nat (length (m_payload m))) in *.
  edestruct message_read_cases as [[H ->]|[H _]].
  - replace (n / 256 * 256 + n mod 256)%N with n by lia.
    replace (version_major (m_version m) * 256 + version_minor (m_version m))%N with (pv_u16 (m_version m))
      by (unfold version_major, version_minor; lia).
    rewrite (proj2 (take_bytes_Some _ _ (m_payload m) rest)) by (split; [done|lia]). simpl.
    destruct Hm. rewrite ct_of_u8, pv_of_u16 by done. by destruct m.
  - exfalso. apply H. replace (n / 256 * 256 + n mod 256)%N with n by lia.
    replace (version_major (m_version m) * 256 + version_minor (m_version m))%N with (pv_u16 (m_version m))
      by (unfold version_major, version_minor; lia). done.
Qed.

Lemma message_read_inv l m rest : bytes_ok l -> message_read l = Ok (m, rest) ->
  record_ok m /\ l = wire m ++ rest.
Proof.
  intros Hok H. do 5 (destruct l as [|? l]; [discriminate|]).
  repeat match goal with H : bytes_ok (_ :: _) |- _ => inversion H; clear H; subst end.
  repeat match goal with H : Forall byte_ok (_ :: _) |- _ => inversion H; clear H; subst end.
  unfold byte_ok in *.
  edestruct message_read_cases as [[Hh Heq]|[Hh (e & _ & _ & Heq)]]; rewrite Heq in H; [|done].
  destruct (take_bytes _ l) as [[p l4]|] eqn:E; [|done]. simpl in H. injection H as <- <-.
  apply take_bytes_Some in E as [-> Hl].
  assert (N.of_nat (length p) = (n2 * 256 + n3)%N) as Hp by lia.
  split.
  - rewrite <- Hp in Hh. apply hdr_ok_record; [lia|done].
  - unfold wire, version_major, version_minor. cbn [m_typ m_version m_payload app].
    rewrite ct_u8_of, pv_u16_of, Hp. repeat f_equal; try done.
    all: rewrite N.add_comm, ?N.div_add, ?N.mod_add, ?N.div_small, ?N.mod_small by lia; done.
Qed.

Lemma message_read_prefix m k : record_ok m -> k < length (wire m) ->
  message_read (take k (wire m)) = Err (if k <? 5 then TooShortForHeader else TooShortForLength).
Proof.
  intros Hm Hk. destruct (Nat.ltb_spec k 5) as [H|H].
  { apply message_read_short. rewrite take_length. lia. }
  pose proof (record_ok_hdr m Hm) as Hh. pose proof (version_wf_lt _ (rok_wf m Hm)) as Hv.
  rewrite length_wire in Hk.
  unfold wire. cbn [app]. do 5 (destruct k as [|k]; [lia|]). cbn [take].
  set (n := N.of_nat (length (m_payload m))) in *.
  edestruct message_read_cases as [[_ ->]|[Hn _]].
  - replace (n / 256 * 256 + n mod 256)%N with n by lia.
    rewrite (proj2 (take_bytes_None _ _)); [done|]. rewrite take_length. lia.
  - exfalso. apply Hn. replace (n / 256 * 256 + n mod 256)%N with n by lia.
    replace (version_major (m_version m) * 256 + version_minor (m_version m))%N with (pv_u16 (m_version m))
      by (unfold version_major, version_minor; lia). done.
Qed.

(** A read fails for lack of bytes exactly on short and incomplete buffers, otherwise it is hopeless. *)
Lemma message_read_err l : bytes_ok l ->
  match message_read l with
  | Ok _ => True
  | Panic => False
  | Err TooShortForHeader => length l < 5
  | Err TooShortForLength => 5 <= length l /\ incomplete l
  | Err _ => 5 <= length l /\ hopeless l
  end.
Proof.
  intros Hok. destruct (decide (length l < 5)) as [Hs|Hs].
  { by rewrite message_read_short. }
  do 5 (destruct l as [|? l]; [simpl in Hs; lia|]). clear Hs.
  repeat match goal with H : bytes_ok (_ :: _) |- _ => inversion H; clear H; subst end.
  repeat match goal with H : Forall byte_ok (_ :: _) |- _ => inversion H; clear H; subst end.
  unfold byte_ok in *.
  edestruct message_read_cases as [[Hh Heq]|[Hh (e & He1 & He2 & Heq)]].
  - rewrite Heq. destruct (take_bytes _ l) as [[p l4]|] eqn:E; simpl; [done|].
    apply take_bytes_None in E. split; [lia|].
    set (pad := replicate (N.to_nat (n2 * 256 + n3) - length l) 0%N).
    set (p := l ++ pad).
    assert (N.of_nat (length p) = (n2 * 256 + n3)%N) as Hp.
    { unfold p, pad. rewrite app_length, replicate_length. lia. }
    exists (Message (ct_of n) (pv_of (n0 * 256 + n1)) p), pad. split_and!.
    + rewrite <- Hp in Hh. apply hdr_ok_record; [lia|done].
    + unfold pad. destruct (N.to_nat (n2 * 256 + n3) - length l) eqn:E'; [lia|]. done.
    + unfold wire, version_major, version_minor. cbn [m_typ m_version m_payload app].
      rewrite ct_u8_of, pv_u16_of, Hp. unfold p. repeat f_equal; try done.
      all: rewrite N.add_comm, ?N.div_add, ?N.mod_add, ?N.div_small, ?N.mod_small by lia; done.
  - assert (hopeless (n :: n0 :: n1 :: n2 :: n3 :: l)) as Hhl.
    { intros c m rest Hc Hm. pose proof (message_read_wire m rest Hm) as Hw.
      rewrite <- Hc in Hw. cbn [app] in Hw. rewrite Heq in Hw. done. }
    rewrite Heq. assert (5 <= length (n :: n0 :: n1 :: n2 :: n3 :: l)) by (simpl; lia).
    by destruct e.
Qed.

(** ** Statements for the property file *)
Lemma hdr_fields l t v len : hdr_type l = Some t -> hdr_version l = Some v -> hdr_len l = Some len ->
  exists v1 v0 n1 n0 l', l = t :: v1 :: v0 :: n1 :: n0 :: l' /\ v = (v1 * 256 + v0)%N /\ len = (n1 * 256 + n0)%N.
Proof.
  unfold hdr_type, hdr_version, hdr_len.
  destruct l as [|a [|b [|c [|d [|e l]]]]]; simpl; try done.
  intros [= <-] [= <-] [= <-]. by repeat eexists.
Qed.
Lemma hdr_len_version l n : hdr_len l = Some n -> exists t v, hdr_type l = Some t /\ hdr_version l = Some v.
Proof. destruct l as [|a [|b [|c [|d [|e l]]]]]; simpl; try done. intros _. by repeat eexists. Qed.

Lemma C26_empty_lemma l t : hdr_type l = Some t -> t <> 23%N -> hdr_len l = Some 0%N ->
  message_read l = Err IllegalLength.
Proof.
  intros Ht Hne Hl. destruct (hdr_len_version l _ Hl) as (t' & v & Ht' & Hv).
  destruct (hdr_fields l t v 0 Ht Hv Hl) as (v1 & v0 & n1 & n0 & l' & -> & -> & Hn).
  rewrite message_read_cons. cbv zeta. rewrite <- Hn.
  destruct (bool_decide_reflect (ct_of t = ApplicationData)) as [H|H]; [|done].
  exfalso. apply Hne. by rewrite <- (ct_u8_of t), H.
Qed.
Lemma C26_oversize_lemma l n : hdr_len l = Some n -> (18432 <= n)%N -> message_read l = Err IllegalLength.
Proof.
  intros Hl Hn. destruct (hdr_len_version l _ Hl) as (t & v & Ht & Hv).
  destruct (hdr_fields l t v n Ht Hv Hl) as (v1 & v0 & n1 & n0 & l' & -> & -> & ->).
  rewrite message_read_cons. cbv zeta.
  destruct (negb _ && _); [done|].
  destruct (N.leb_spec MAX_PAYLOAD (n1 * 256 + n0)); [done|]. by apply N.lt_nge in H.
Qed.
Lemma C26_type_lemma l t n : hdr_type l = Some t -> (t < 20 \/ 24 < t)%N -> hdr_len l = Some n ->
  (0 < n < 18432)%N -> message_read l = Err IllegalContentType.
Proof.
  intros Ht Hr Hl Hn. destruct (hdr_len_version l _ Hl) as (t' & v & Ht' & Hv).
  destruct (hdr_fields l t v n Ht Hv Hl) as (v1 & v0 & n1 & n0 & l' & -> & -> & ->).
  rewrite message_read_cons. cbv zeta.
  assert (ct_of t = UnknownType t) as ->.
  { unfold ct_of. repeat (case_eqb; [lia|]). done. }
  destruct (N.eqb_spec (n1 * 256 + n0) 0); [lia|]. rewrite andb_false_r.
  destruct (N.leb_spec MAX_PAYLOAD (n1 * 256 + n0)) as [H|]; [|done].
  change MAX_PAYLOAD with 18432%N in H. lia.
Qed.
Lemma C26_accept_iff_lemma l m rest : bytes_ok l ->
  message_read l = Ok (m, rest) <-> record_ok m /\ l = wire m ++ rest.
Proof. intros Hok. split; [by apply message_read_inv|]. intros [Hm ->]. by apply message_read_wire. Qed.
Lemma C26_round_trip_lemma m rest : record_ok m -> message_read (message_encode m ++ rest) = Ok (m, rest).
Proof.
  intros Hm. rewrite message_encode_wire; [by apply message_read_wire|..]; destruct Hm as [Ht ? ? Hl ?].
  - done.
  - change (2 ^ 16)%N with 65536%N. lia.
  - by destruct (m_typ m).
Qed.
Lemma C26_prefix_lemma m k : record_ok m -> k < length (wire m) ->
  message_read (take k (wire m)) = Err TooShortForHeader \/ message_read (take k (wire m)) = Err TooShortForLength.
Proof. intros Hm Hk. rewrite message_read_prefix by done. destruct (k <? 5); eauto. Qed.

Lemma C27_partial_lemma l t v n : bytes_ok l -> hdr_type l = Some t -> hdr_version l = Some v -> hdr_len l = Some n ->
  (20 <= t <= 24)%N -> (0 < n < 18432)%N -> (v / 256 <> 3)%N -> v ∉ [0x0200; 0xFEFF; 0xFEFD]%N ->
  message_read l = Err IllegalProtocolVersion.
Proof.
  intros Hok Ht Hv Hl Hr Hn Hmaj Hnot.
  destruct (hdr_fields l t v n Ht Hv Hl) as (v1 & v0 & n1 & n0 & l' & -> & -> & ->).
  assert (v1 < 256 /\ v0 < 256)%N as [Hv1 Hv0].
  { inversion_clear Hok as [|? ? _ H1]. inversion_clear H1 as [|? ? Ha H2]. by inversion_clear H2 as [|? ? Hb _]. }
  rewrite message_read_cons. cbv zeta.
  destruct (N.eqb_spec (n1 * 256 + n0) 0); [lia|]. rewrite andb_false_r.
  destruct (N.leb_spec MAX_PAYLOAD (n1 * 256 + n0)) as [H|].
  { change MAX_PAYLOAD with 18432%N in H. lia. }
  replace (match ct_of t with UnknownType _ => true | _ => false end) with false.
  2:{ unfold ct_of. repeat (case_eqb; [done|]). lia. }
  set (v := (v1 * 256 + v0)%N) in *.
  assert (version_rejected (pv_of v) = true) as ->; [|done].
  destruct (version_rejected (pv_of v)) eqn:E; [done|]. exfalso.
  apply version_rejected_spec in E; [|apply pv_of_wf; unfold v; change (2 ^ 16)%N with 65536%N; lia].
  unfold version_major in E. rewrite pv_u16_of in E. destruct E as [E|E]; [|done].
  rewrite !elem_of_cons, elem_of_nil in Hnot.
  revert E. unfold pv_of. repeat (case_eqb; [try (exfalso; tauto); match goal with e : v = _ |- _ => by rewrite e in Hmaj end|]). done.
Qed.

Lemma C25_uint_lemma n v : (v < 256 ^ N.of_nat n)%N ->
  is_be n v (enc_uint n v) /\ round_trips (read_uint n) (enc_uint n) v.
Proof. intros. split; [by apply is_be_be|by apply uint_round_trip]. Qed.
Lemma C25_payload_lemma n p : (N.of_nat (length p) < 256 ^ N.of_nat n)%N ->
  (exists prefix, enc_payload n p = prefix ++ p /\ is_be n (N.of_nat (length p)) prefix) /\
  round_trips (read_payload n) (enc_payload n) p.
Proof.
  intros H. split; [|by apply payload_round_trip].
  exists (be n (N.of_nat (length p))). split; [by apply enc_payload_small|by apply is_be_be].
Qed.

Lemma C27_witness_lemma : exists l m v,
  bytes_ok l /\ hdr_version l = Some v /\ (v / 256 <> 3)%N /\ message_read l = Ok (m, []).
Proof.
  exists [23; 0xFE; 0xFD; 0; 1; 7]%N, (Message ApplicationData DTLSv1_2 [7]%N), 0xFEFD%N.
  split_and!; [by repeat constructor|done..].
Qed.
