(** A concrete session for the examples and the counterexample of AuthProps.v, and the last steps of
    the proofs of C31-C35. *)
From Verif.Lib Require Import Base Ranges RangesFacts.
From Verif Require Import TranscriptModel TranscriptProofs ProofModel CodecModel AttestModel AttestSpec AttestLemmas AttestExamples
  TlsModel AuthModel AuthSpec AuthMapLemmas AuthKsLemmas AuthLemmas AuthVerifyLemmas AuthOutputLemmas.

(** ** C31 *)
Lemma laid_out_functional pos m i x x' : laid_out pos m -> recorded m i x -> recorded m i x' -> x = x'.
Proof.
  intros Hl (b1 & r1 & [j1 H1]%elem_of_list_lookup & Hi1 & ->) (b2 & r2 & [j2 H2]%elem_of_list_lookup & Hi2 & ->).
  destruct (decide (j1 < j2)); [pose proof (laid_out_lookup _ _ _ _ _ _ _ _ Hl l H1 H2); lia|].
  destruct (decide (j2 < j1)); [pose proof (laid_out_lookup _ _ _ _ _ _ _ _ Hl l H2 H1); lia|].
  assert (j1 = j2) as -> by lia. rewrite H1 in H2. by injection H2 as -> ->.
Qed.

Lemma C31_get_lemma items m a b : map_from 0 items = Ok m ->
  exists o, map_get m a b = Ok o /\ forall r, o = Some r <-> in_one_piece items a b r.
Proof. intros [-> Hl]%map_from_ok. by apply (map_get_spec 0). Qed.

Lemma C31_index_lemma items m idx : map_from 0 items = Ok m -> rs_ok idx ->
  exists o, map_index m idx = Ok o /\
    (o <> None <-> forall a b, (a, b) ∈ idx -> exists r, in_one_piece items a b r) /\
    forall m', o = Some m' -> map_keys m' = idx /\
      forall i x, recorded m' i x <-> in_rs i idx /\ recorded items i x.
Proof.
  intros [-> Hl]%map_from_ok Hok. assert (Hne := rs_ok_nonempty 0 _ Hok).
  destruct (map_index_spec 0 items idx Hl Hne) as (o & Ho & Hspec). exists o. split; [done|]. split.
  - split.
    + intros Hs. destruct o as [m'|]; [|done]. pose proof (proj1 (Hspec m') eq_refl) as HF.
      intros a b [k Hk]%elem_of_list_lookup. destruct (Forall2_lookup_l _ _ _ _ _ HF Hk) as ([j r] & _ & _ & H).
      by exists r.
    + intros Hall. assert (exists m', Forall2 (fun r e => fst e = fst r /\ in_one_piece items (fst r) (snd r) (snd e)) idx m')
        as [m' HF].
      { clear - Hall. induction idx as [|[a b] idx IH]; [by exists []|].
        destruct IH as [m' HF]; [intros a' b' H; apply Hall; by right|].
        destruct (Hall a b) as [r Hr]; [by left|]. exists ((a, r) :: m'). by constructor. }
      apply Hspec in HF as ->. done.
  - intros m' ->. pose proof (proj1 (Hspec m') eq_refl) as HF. clear Ho Hspec. split.
    + clear Hok. induction HF as [|[a b] [j r] idx m' [H1 H2] HF IH]; [done|]. simpl in *. subst j.
      apply Forall_cons in Hne as [Hab Hne]. simpl in Hab. cbn [map_keys map]. f_equal; [|by apply IH].
      rewrite (one_piece_len _ _ _ _ H2). f_equal. lia.
    + intros i x. split.
      * intros (base & r & [k Hk]%elem_of_list_lookup & Hi & ->).
        destruct (Forall2_lookup_r _ _ _ _ _ HF Hk) as ([a b] & Hab & H1 & H2). simpl in *. subst base.
        rewrite (one_piece_len _ _ _ _ H2) in Hi. destruct H2 as [Hlt H2]. split.
        -- apply Exists_exists. exists (a, b). split; [by eapply elem_of_list_lookup_2|]. unfold in_range. simpl. lia.
        -- apply (one_piece_recorded items a b r i); [done|lia].
      * intros [([a b] & [k Hk]%elem_of_list_lookup & Hi)%Exists_exists Hx]. unfold in_range in Hi. simpl in Hi.
        destruct (Forall2_lookup_l _ _ _ _ _ HF Hk) as ([j r] & Hj & H1 & H2). simpl in *. subst j.
        pose proof (one_piece_recorded _ _ _ _ i H2 Hi) as Hx'.
        rewrite (laid_out_functional _ _ _ _ _ Hl Hx Hx').
        exists a, r. split_and!; [by eapply elem_of_list_lookup_2|lia| |done].
        rewrite (one_piece_len _ _ _ _ H2). lia.
Qed.

(** ** C32 *)
Lemma C32_lemma aes key iv rs m ranges : aes_ok aes -> nonces_ok rs -> rs_ok ranges -> ranges <> [] ->
  if bool_decide (rs_end ranges <= length (all_ct rs))
  then exists m' refs bytes, alloc_keystream aes key iv 0 (rec_params_of rs) m [] ranges = Ok (m', refs) /\
         vm_read_all m' refs = Ok bytes /\
         Forall2 (fun i b => keystream_at aes key iv rs i = Some b) (rs_values ranges) bytes
  else alloc_keystream aes key iv 0 (rec_params_of rs) m [] ranges = Err AOutOfBounds.
Proof.
  intros Haes Hn Hok Hne. case_bool_decide as Hend.
  - pose proof (proj1 (rs_end_le_ok _ _ Hok) Hend) as Hlt.
    destruct (alloc_keystream_spec aes key iv Haes rs Hn 0 m [] ranges) as (m1 & new & d & Hk & Hpre & Hrd & HF);
      [done| |done|].
    { destruct ranges as [|[a b] t]; [done|]. destruct Hok as (_ & Hab & _).
      eapply (all_ct_nil_nonempty rs a), Hlt, in_rs_cons. left. unfold in_range. simpl. lia. }
    exists m1, new, d. split_and!; [done|done|]. eapply Forall2_impl; [exact HF|].
    intros i b Hib. cbn beta in Hib. by rewrite Nat.sub_0_r in Hib.
  - apply (alloc_keystream_oob aes key iv Haes rs Hn); [done|].
    destruct (decide (Forall (fun i => i < length (all_ct rs)) (rs_values ranges))) as [Hall|Hnot].
    + exfalso. apply Hend. apply rs_end_le_ok; [done|].
      intros i Hi. rewrite Forall_forall in Hall. apply Hall. by apply in_rs_values.
    + apply not_Forall_Exists in Hnot; [|apply _]. apply Exists_exists in Hnot as (i & Hi & Hge).
      exists i. split; [by apply in_rs_values|]. simpl in Hge. lia.
Qed.

(** ** C33 *)
Section C33.
  Context (aes : list N -> list N -> list N) (empty_eq : bool) (key iv : list N) (Haes : aes_ok aes).
  Context (rs : list tls_record) (Hn : nonces_ok rs) (m : mem) (reveal commit : rangeset).
  Context (Hrev : rs_ok reveal) (Hcom : rs_ok commit).
  Context (plain : list N) (Hlen : length plain = length (all_ct rs)) (Hre : rs_end reveal <= length plain).

  Lemma C33_sound_lemma wit m' refs pf m'' :
    verify_plaintext aes empty_eq key iv wit m plain (all_ct rs) rs reveal commit = Ok (m', refs, pf) ->
    m' `prefix_of` m'' ->
    (forall i, in_rs i commit -> exists v, value_at m'' refs i v) /\
    (plain_proof_verify aes key iv m'' pf = Ok tt \/ plain_proof_verify aes key iv m'' pf = Err AInvalidPlaintext) /\
    (plain_proof_verify aes key iv m'' pf = Ok tt <->
      (forall i, in_rs i reveal -> decryption aes key iv rs i = plain !! i) /\
      (forall i v, in_rs i commit -> value_at m'' refs i v -> decryption aes key iv rs i = Some v)).
  Proof.
    intros Hv Hp. destruct (verify_plaintext_cases aes empty_eq key iv Haes wit m plain rs reveal commit) as
      [(Hce & m1 & refs1 & pf1 & Hv1 & Hg)|[(_ & _ & Hv1)|(_ & _ & Hv1)]]; try done; try congruence.
    rewrite Hv in Hv1. injection Hv1 as <- <- <-.
    destruct Hg as (Hpre & (ranges & Hok & -> & Hsub & Hl) & _ & _ & Hpv).
    destruct (Hpv m'' Hp) as [Hor Hiff]. pose proof (prefix_length _ _ Hp) as Hll. split_and!; [|done|].
    - intros i Hi. destruct (recorded_total (length m) _ i Hok (Hsub i Hi)) as [x Hx].
      destruct (recorded_bounds _ _ _ _ Hok Hx). destruct (lookup_lt_is_Some_2 m'' x) as [v Hv']; [lia|].
      by exists v, x.
    - rewrite Hiff. pose proof (proj1 (rs_end_le_ok _ _ Hrev) Hre) as Hlt. split.
      + intros [Ha Hb]. split.
        * intros i Hi. destruct (lookup_lt_is_Some_2 plain i (Hlt i Hi)) as [p Hpi]. rewrite Hpi.
          apply encrypts_decryption. by apply Ha.
        * intros i v Hi Hv'. apply encrypts_decryption. apply Hb; [done|].
          by apply (value_at_prefix m' m'').
      + intros [Ha Hb]. split.
        * intros i p Hi Hpi. apply encrypts_decryption. rewrite <- Hpi. by apply Ha.
        * intros i v Hi Hv'. apply encrypts_decryption. apply Hb; [done|].
          by apply (value_at_prefix m' m'').
  Qed.

  Lemma C33_complete_lemma : rs_end commit <= length plain ->
    (forall i, i < length plain -> decryption aes key iv rs i = plain !! i) ->
    exists m' refs, prove_plaintext aes empty_eq key iv m plain rs reveal commit = Ok (m', refs) /\
    forall shown mf, length shown = length plain -> (forall i, in_rs i reveal -> shown !! i = plain !! i) ->
      m' `prefix_of` mf ->
      exists pf, verify_plaintext aes empty_eq key iv (fun x => default 0%N (mf !! x)) m shown (all_ct rs) rs reveal commit =
          Ok (m', refs, pf) /\
        plain_proof_verify aes key iv mf pf = Ok tt.
  Proof.
    intros Hce Htrue.
    destruct (prove_plaintext_ok aes empty_eq key iv Haes m plain rs reveal commit) as (m' & refs & Hp & Hpre & Hval & Hver);
      [done..|].
    exists m', refs. split; [done|]. intros shown mf Hsl Hs Hmf. destruct (Hver mf shown Hmf Hsl Hs) as [pf Hv].
    exists pf. split; [done|].
    destruct (verify_plaintext_in aes empty_eq key iv Haes (wit_of mf) m shown rs reveal commit) as
      (m1 & refs1 & pf1 & Hv1 & Hg); [done|done|done|lia|lia|lia|].
    change (fun x => default 0%N (mf !! x)) with (wit_of mf) in Hv. rewrite Hv in Hv1. injection Hv1 as <- <- <-.
    destruct Hg as (_ & (ranges & Hok & -> & Hsub & Hl) & _ & _ & Hpv). apply (Hpv mf Hmf).
    pose proof (proj1 (rs_end_le_ok _ _ Hrev) Hre) as Hlt.
    pose proof (proj1 (rs_end_le_ok _ _ Hcom) Hce) as Hltc. split.
    - intros i p Hi Hpi. apply encrypts_decryption. rewrite Htrue by (by apply Hlt). by rewrite <- (Hs i Hi).
    - intros i v Hi Hvv. apply encrypts_decryption. rewrite Htrue by (by apply Hltc). by apply Hval.
  Qed.
End C33.

(** ** A session *)
Definition toy_aes (k b : list N) : list N :=
  take 16 (zip_with (fun x y => (x * 5 + y * 3 + 7) mod 256)%N (k ++ replicate 16 0%N) (drop 12 b ++ b ++ replicate 16 9%N) ++ replicate 16 0%N).
Lemma toy_aes_ok : aes_ok toy_aes.
Proof. intros k b. unfold toy_aes. rewrite take_length, app_length, replicate_length. lia. Qed.

Definition xkeys : session_keys := SessionKeys (map N.of_nat (seq 1 16)) [1;2;3;4]%N (map N.of_nat (seq 50 16)) [5;6;7;8]%N.
(** Encrypt one record of application data. *)
Definition xrec (key iv : list N) (seq : N) (p : list N) : tls_record :=
  let nonce := be 8 seq in
  TlsRecord seq ApplicationData None nonce (xor_bytes p (ctr_stream toy_aes key iv (length p / 16 + 1) nonce 2)) None.
Definition xsent : list N := map N.of_nat (seq 30 25).
Definition xrecv : list N := map N.of_nat (seq 90 9).
Definition xt : transcript := Transcript xsent xrecv.
Definition xs_records : list tls_record :=
  [TlsRecord 0 Handshake None (be 8 0) [1;2;3]%N None;
   xrec (sk_client_key xkeys) (sk_client_iv xkeys) 1 (take 4 xsent);
   xrec (sk_client_key xkeys) (sk_client_iv xkeys) 2 [];
   xrec (sk_client_key xkeys) (sk_client_iv xkeys) 3 (drop 4 xsent)].
Definition xr_records : list tls_record :=
  [xrec (sk_server_key xkeys) (sk_server_iv xkeys) 1 xrecv; TlsRecord 2 Alert None (be 8 2) [9;9]%N None].
Definition xtls : tls_transcript :=
  TlsTranscript 100 V1_2 None None (CertBinding (replicate 32 1%N) (replicate 32 2%N) ex_ek) xs_records xr_records None None None.
Definition xhash (a : alg_id) : option (list N -> list N) :=
  if bool_decide (a = SHA256) then Some (fun m => [N.of_nat (length m); foldr N.add 0%N m; 77]%N) else None.
Definition xblinders (n : nat) : list N := replicate 16 (N.of_nat n).
Definition xreveal : rangeset * rangeset := ([(2, 6); (8, 23)], [(0, 9)]).
Definition xcommits : list commit_entry :=
  [(Sent, [(0, 3); (7, 9); (20, 25)], SHA256); (Received, [(3, 5)], SHA256); (Sent, [(1, 2)], SHA256)].
Definition xrq : prove_request := ProveRequest true (Some xreveal) (Some xcommits).
(** Hide what is not revealed. *)
Definition mask (l : list N) (idx : rangeset) : list N :=
  imap (fun i b => if decide (in_rs i idx) then b else 0%N) l.
Definition xp : partial := Partial (mask xsent (fst xreveal)) (mask xrecv (snd xreveal)) (fst xreveal) (snd xreveal).

Definition is_Ok {E A} (o : outcome E A) : bool := match o with Ok _ => true | _ => false end.
Definition get_prove (o : outcome verify_error (mem * list commitment * list secret)) : mem * list commitment :=
  match o with Ok (m, cs, _) => (m, cs) | _ => ([], []) end.
Definition xproved : mem * list commitment := get_prove (prove toy_aes true xhash xkeys [3;1]%N xtls xt (Some xreveal) xcommits xblinders).

Lemma xsession_ok : session_ok xtls.
Proof. intros []; unfold nonces_ok; apply (bool_decide_unpack _); vm_compute; exact I. Qed.
Lemma xentries_ok : entries_ok xcommits.
Proof. unfold entries_ok, xcommits. rewrite !Forall_cons. unfold rs_ok. simpl. split_and!; (done || lia || constructor). Qed.
Lemma xpartial_ok : partial_ok xp.
Proof. split_and!; [unfold rs_ok; simpl; lia|unfold rs_ok; simpl; lia|vm_compute; lia|vm_compute; lia]. Qed.
Lemma xbelow d : entries_below d (data_length xtls d) xcommits.
Proof. repeat constructor; destruct d; try done; intros _; apply (bool_decide_unpack _); vm_compute; exact I. Qed.
Lemma xdata d i b : t_data xt d !! i = Some b -> data_at toy_aes xkeys xtls d i = Some b.
Proof.
  intros Hi. assert (H : forall d, map (data_at toy_aes xkeys xtls d) (seq 0 (length (t_data xt d))) = map Some (t_data xt d)).
  { intros []; vm_compute; reflexivity. }
  pose proof (lookup_lt_Some _ _ _ Hi) as Hl.
  pose proof (f_equal (fun l => l !! i) (H d)) as Hx. cbn beta in Hx.
  rewrite !list_lookup_fmap, Hi, lookup_seq_lt in Hx by done. simpl in Hx. by injection Hx.
Qed.
Lemma xshown d i : in_rs i (p_idx xp d) -> p_data xp d !! i = t_data xt d !! i.
Proof.
  intros Hi. assert (Hm : p_data xp d = mask (t_data xt d) (p_idx xp d)) by (by destruct d).
  rewrite Hm. unfold mask. rewrite list_lookup_imap. destruct (t_data xt d !! i); [|done]. simpl. by rewrite decide_True.
Qed.

(** ** C34: committing to a position beyond the end while revealing everything *)
Definition bad_rq : prove_request :=
  ProveRequest false (Some ([(0, 25)], [(0, 9)])) (Some [(Sent, [(20, 30)], SHA256)]).
Definition bad_p : partial := Partial xsent xrecv [(0, 25)] [(0, 9)].
Lemma bad_entries_ok : entries_ok (the_commits bad_rq).
Proof. apply Forall_cons. split; [unfold rs_ok; simpl; lia|constructor]. Qed.
Lemma C34_panic_lemma : exists (keys : session_keys) tls rq t,
  session_ok tls /\ partial_ok t /\ entries_ok (the_commits rq) /\
  forall empty_eq vm_hash wit cv m,
    verify toy_aes empty_eq vm_hash wit cv keys m tls rq None (Some t) = Panic.
Proof.
  exists xkeys, xtls, bad_rq, bad_p. split_and!; [exact xsession_ok| |exact bad_entries_ok|].
  - split_and!; [unfold rs_ok; simpl; lia|unfold rs_ok; simpl; lia|vm_compute; lia|vm_compute; lia].
  - intros empty_eq vm_hash wit cv m. unfold verify. rewrite !collect_ciphertext_eq.
    assert (check_transcript bad_rq (Some bad_p) (length (all_ct (app_records (tt_sent xtls))))
      (length (all_ct (app_records (tt_recv xtls)))) = Ok bad_p) as -> by (vm_compute; reflexivity).
    cbn [obind]. rewrite (verify_plaintext_oob_key toy_aes empty_eq); [done| | |].
    + apply (commit_union_spec Sent); [done|exact bad_entries_ok].
    + vm_compute. lia.
    + unfold reveals_all. apply orb_true_iff. left. by apply bool_decide_eq_true.
Qed.

Lemma C34_only_lemma aes empty_eq vm_hash wit cv keys m tls rq hs t :
  aes_ok aes -> session_ok tls -> entries_ok (the_commits rq) -> (forall p, t = Some p -> partial_ok p) ->
  verify aes empty_eq vm_hash wit cv keys m tls rq hs t = Panic ->
  exists d, reveals_everything rq d (data_length tls d) /\ ~ entries_below d (data_length tls d) (the_commits rq).
Proof.
  intros Haes Hs He Hp Hv. pose proof (verify_spec aes empty_eq vm_hash Haes wit cv keys m tls rq hs t Hs He Hp) as H.
  by rewrite Hv in H.
Qed.

(** ** C35 *)
Lemma C35_output_lemma aes empty_eq vm_hash wit cv keys m tls rq hs t m' out :
  aes_ok aes -> session_ok tls -> entries_ok (the_commits rq) -> (forall p, t = Some p -> partial_ok p) ->
  verify aes empty_eq vm_hash wit cv keys m tls rq hs t = Ok (m', out) ->
  match pq_reveal rq with
  | None => vo_transcript out = None
  | Some (s, r) => exists p, t = Some p /\ vo_transcript out = Some p /\ discloses aes keys tls s r p
  end /\
  Forall2 (commits_data aes vm_hash keys tls) (the_commits rq) (vo_commitments out) /\
  match hs with
  | None => vo_name out = None
  | Some (name, data) => vo_name out = Some name /\ handshake_ok cv data (tt_time tls) (cb_key (tt_binding tls)) name
  end.
Proof.
  intros Haes Hs He Hp Hv. pose proof (verify_spec aes empty_eq vm_hash Haes wit cv keys m tls rq hs t Hs He Hp) as H.
  rewrite Hv in H. destruct H as (_ & H1 & H2 & H3 & _). done.
Qed.
