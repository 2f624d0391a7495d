(** Proofs that an honest prover's requests are accepted (C84). *)
From Verif.Lib Require Import Base Ranges RangesFacts.
From Verif Require Import TranscriptModel TranscriptSpec TranscriptLemmas ProofModel CodecModel CodecSpec AttestModel AttestSpec TlsModel TlsSpec AuthModel AuthSpec AuthLemmas AuthOutputLemmas PrfModel PrfSpec VdCheckModel VdCheckSpec ProxVerModel ProxVerSpec ProxVerLemmas ProxVerProofLemmas ProxProveModel ProxProveSpec.

Lemma app_hidden rs : app_records (map hide_record rs) = map hide_record (app_records rs).
Proof. unfold app_records. induction rs as [|r rs IH]; [done|]. cbn [map List.filter]. change (is_app (hide_record r)) with (is_app r). destruct (is_app r); [cbn [map]; by rewrite IH|done]. Qed.
Lemma dir_hidden time t d : dir_records (hide time t) d = map hide_record (dir_records t d).
Proof. destruct d; apply app_hidden. Qed.
Lemma all_ct_hidden rs : all_ct (map hide_record rs) = all_ct rs.
Proof. unfold all_ct. f_equal. rewrite map_map. by apply map_ext. Qed.
Lemma length_hidden time t d : data_length (hide time t) d = data_length t d.
Proof. unfold data_length. by rewrite dir_hidden, all_ct_hidden. Qed.
Section Hidden.
  Context (aes : list N -> list N -> list N) (empty_eq : bool) (vm_hash : alg_id -> option (list N -> list N)).
  Lemma keystream_hidden key iv rs i : keystream_at aes key iv (map hide_record rs) i = keystream_at aes key iv rs i.
  Proof. revert i. induction rs as [|r rs IH]; [done|]. intros i. cbn [map keystream_at hide_record r_ct r_nonce]. destruct (i <? length (r_ct r)); [done|]. apply IH. Qed.
  Lemma data_hidden keys time t d i : data_at aes keys (hide time t) d i = data_at aes keys t d i.
  Proof. unfold data_at, decryption. by rewrite dir_hidden, keystream_hidden, all_ct_hidden. Qed.
  Lemma plaintext_hidden key iv m plain rs reveal commit :
    prove_plaintext aes empty_eq key iv m plain (map hide_record rs) reveal commit = prove_plaintext aes empty_eq key iv m plain rs reveal commit.
  Proof.
    unfold prove_plaintext. assert (rec_params_of (map hide_record rs) = rec_params_of rs) as ->; [|done].
    unfold rec_params_of. rewrite map_map. by apply map_ext.
  Qed.
  Lemma prove_hidden keys m time t data reveal cs bl :
    prove aes empty_eq vm_hash keys m (hide time t) data reveal cs bl = prove aes empty_eq vm_hash keys m t data reveal cs bl.
  Proof.
    unfold prove. cbn [hide tt_sent tt_recv]. rewrite !app_hidden.
    destruct (match reveal with Some p => p | None => ([], []) end) as [a b]. rewrite plaintext_hidden.
    destruct (auth_lift _) as [[m1 refs]| |]; [|done..]. cbn [obind]. by rewrite plaintext_hidden.
  Qed.
End Hidden.

Lemma valid_end n idx : valid_idx n idx -> rs_ok idx /\ rs_end idx <= n.
Proof. intros [H1 H2]. split; [done|]. by apply rs_end_le_ok. Qed.
Lemma shows_lookup full idx l i : shows full idx l -> in_rs i idx -> l !! i = full !! i.
Proof.
  intros [Hl H] Hi. destruct (full !! i) as [b|] eqn:E.
  - rewrite (H _ _ E). by rewrite decide_True.
  - apply lookup_ge_None. rewrite Hl. by apply lookup_ge_None.
Qed.

Section HonestAll.
  Context (aes : list N -> list N -> list N) (empty_eq : bool) (vm_hash : alg_id -> option (list N -> list N)).
  Context (Haes : aes_ok aes) (cv : cert_verifier) (keys : session_keys) (time : N) (t : tls_transcript) (data : transcript) (name : server_name).
  Context (Hsess : session_ok (hide time t)) (Hright : data_right aes keys t data).
  Lemma one m g : cfg_ok vm_hash cv name time t data g -> exists hs p mf cs ss out,
    cfg_handshake name t g = Ok hs /\ cfg_partial data g = Ok p /\
    prove aes empty_eq vm_hash keys m t data (pg_reveal g) (the_commits (cfg_request g)) (pg_blinders g) = Ok (mf, cs, ss) /\
    verify aes empty_eq vm_hash (fun x => default 0%N (mf !! x)) cv keys m (hide time t) (cfg_request g) hs p = Ok (mf, out) /\
    output_for name data g cs out.
  Proof.
    intros [Hr Hc Hb Hi].
    assert (exists hs, cfg_handshake name t g = Ok hs /\
      match hs with
      | None => (if pg_identity g then Some name else None) = None
      | Some (n, dt) => (if pg_identity g then Some name else None) = Some n /\
          handshake_ok cv dt (tt_time (hide time t)) (cb_key (tt_binding (hide time t))) n
      end) as (hs & Hhs & Hhs').
    { unfold cfg_handshake. destruct (pg_identity g).
      - destruct (Hi eq_refl) as (certs & sig & -> & -> & H). cbn [or_panic obind]. eexists. split; [reflexivity|]. by split.
      - by exists None. }
    assert (exists pp : partial, cfg_partial data g = Ok (match pg_reveal g with Some _ => Some pp | None => None end) /\
      partial_ok pp /\ (forall d, length (p_data pp d) = data_length (hide time t) d) /\
      (forall d i, in_rs i (p_idx pp d) -> p_data pp d !! i = t_data data d !! i) /\
      match pg_reveal g with
      | Some (s, r) => p_sent_idx pp = s /\ p_recv_idx pp = r
      | None => pp = partial_new (data_length (hide time t) Sent) (data_length (hide time t) Received) end /\
      match pg_reveal g with
      | None => True
      | Some (s, r) => p_sent_idx pp = s /\ p_recv_idx pp = r /\ shows (t_sent data) s (p_sent pp) /\ shows (t_recv data) r (p_recv pp)
      end) as (pp & Hpp & Hok & Hlen & Hat & Hidx & Hshow).
    { unfold cfg_partial. destruct (pg_reveal g) as [[s r]|].
      - destruct (Hr s r eq_refl) as [V1 V2]. destruct (to_partial_ok data s r V1 V2) as (pp & E & E1 & E2 & S1 & S2).
        rewrite E. cbn [obind]. exists pp. split; [done|]. apply valid_end in V1 as [V1 V1'], V2 as [V2 V2'].
        split; [|split; [|split; [|split; [done|done]]]].
        + unfold partial_ok. rewrite E1, E2. destruct S1 as [-> _], S2 as [-> _]. done.
        + intros d. rewrite length_hidden, <- (proj1 (Hright d)). destruct d; [apply S1|apply S2].
        + intros d i Hin. destruct d; cbn [p_idx p_data t_data] in *; [rewrite E1 in Hin|rewrite E2 in Hin]; by eapply shows_lookup.
      - eexists. split; [done|]. split; [|split; [|split; [|split; [reflexivity|done]]]].
        + split_and!; [exact I|exact I|apply Nat.le_0_l|apply Nat.le_0_l].
        + intros []; unfold partial_new; cbn; by rewrite replicate_length.
        + intros d i Hin. exfalso. destruct d; cbn in Hin; by apply in_rs_nil in Hin. }
    destruct (honest_spec aes empty_eq vm_hash Haes cv keys m (hide time t) data (pg_identity g) (pg_reveal g) (pg_commits g) (pg_blinders g) hs
      (if pg_identity g then Some name else None) pp) as (mf & cs & ss & H1 & H2); [done|..|exact Hhs'|].
    - unfold entries_ok, the_commits. cbn [pq_commit]. rewrite Forall_forall. intros [[d idx] a] Hin. destruct (pg_commits g) as [cs|]; [|by apply elem_of_nil in Hin].
      apply (Hc cs d idx a eq_refl Hin).
    - intros d. unfold entries_below, the_commits. cbn [pq_commit]. rewrite Forall_forall. intros [[d' idx] a] Hin Hd. cbn in Hd. subst d'.
      destruct (pg_commits g) as [cs|]; [|by apply elem_of_nil in Hin].
      rewrite length_hidden, <- (proj1 (Hright d)). apply valid_end. apply (Hc cs d idx a eq_refl Hin).
    - unfold the_commits. cbn [pq_commit]. intros [[d idx] a] Hin. destruct (pg_commits g) as [cs|]; [|by apply elem_of_nil in Hin].
      apply (Hc cs d idx a eq_refl Hin).
    - done.
    - intros d. rewrite length_hidden. apply Hright.
    - intros d i b. rewrite data_hidden. apply Hright.
    - done.
    - done.
    - done.
    - done.
    - rewrite prove_hidden in H1. eexists hs, _, mf, cs, ss, _. split; [done|]. split; [done|]. split; [exact H1|]. split; [exact H2|].
      unfold output_for. cbn [vo_name vo_transcript vo_commitments]. split; [done|]. split; [|done].
      destruct (pg_reveal g) as [[s r]|]; [|done]. exists pp. tauto.
  Qed.
  Lemma honest_all m gs : Forall (cfg_ok vm_hash cv name time t data) gs -> exists res outs,
    prove_all aes empty_eq vm_hash keys t data name m gs = Ok res /\
    verify_all aes empty_eq vm_hash cv keys (hide time t) m (map fst res) = Ok outs /\
    map (fun r => pt_accept (fst r)) res = map pg_accept gs /\
    Forall2 (fun g r => if pg_accept g then snd r <> None else snd r = None) gs res /\
    Forall2 (fun '(g, r) out => exists cs, snd r = Some cs /\ output_for name data g cs out)
      (List.filter (fun gr => pg_accept (fst gr)) (zip gs res)) (map snd outs).
  Proof.
    intros Hg. revert m. induction Hg as [|g gs Hg Hgs IH]; intros m.
    - exists [], []. split_and!; constructor.
    - destruct (one m g Hg) as (hs & p & mf & cs & ss & out & H1 & H2 & H3 & H4 & H5).
      cbn [prove_all]. rewrite H1, H2. cbn [of_panicky obind].
      destruct (pg_accept g) eqn:Ha.
      + change (match pg_commits g with Some c => c | None => [] end) with (the_commits (cfg_request g)). rewrite H3. cbn [obind].
        destruct (IH mf) as (res & outs & E1 & E2 & E3 & E4 & E5). rewrite E1. cbn [obind].
        eexists _, _. split; [reflexivity|]. cbn [map fst verify_all pt_accept pt_wit pt_request pt_handshake pt_partial].
        rewrite H4. cbn [obind]. rewrite E2. cbn [obind]. split; [reflexivity|].
        cbn [map fst snd]. rewrite E3, Ha. split; [done|]. split; [constructor; [by rewrite Ha|done]|].
        cbn [zip zip_with List.filter fst]. rewrite Ha. constructor; [|exact E5]. by exists cs.
      + destruct (IH m) as (res & outs & E1 & E2 & E3 & E4 & E5). rewrite E1. cbn [obind].
        eexists _, _. split; [reflexivity|]. cbn [map fst verify_all pt_accept]. split; [exact E2|].
        cbn [map fst snd]. rewrite E3, Ha. split; [done|]. split; [constructor; [by rewrite Ha|done]|].
        cbn [zip zip_with List.filter fst]. rewrite Ha. exact E5.
  Qed.
End HonestAll.

Section EndToEnd.
  Context (sha_iv : list N) (compress : list N -> list N -> list N) (hash : list N -> list N).
  Context (parse_body : protocol_version -> N -> list N -> option hs_payload) (ec_curve : list N -> option N).
  Context (aes ghash_fn : list N -> list N -> list N).
  Context (compress_length : forall s b, length (compress s b) = 8).
  Context (aes_length : forall k b, length (aes k b) = 16).
  Lemma C84_lemma ms time time' sent recv app_sent app_recv keys t data keys' t' empty_eq vm_hash cv name m gs :
    length ms = 48 -> bytes_ok sent -> bytes_ok recv ->
    (N.of_nat (length sent) < 2 ^ 64)%N -> (N.of_nat (length recv) < 2 ^ 64)%N ->
    prox_prover sha_iv compress hash parse_body ec_curve aes ms time sent recv app_sent app_recv = Ok (keys, t, data) ->
    prox_commit sha_iv compress hash parse_body ec_curve aes ghash_fn ms time' sent recv = Ok (keys', t') ->
    data_right aes keys t data -> Forall (cfg_ok vm_hash cv name time' t data) gs ->
    exists res outs,
      prove_all aes empty_eq vm_hash keys t data name m gs = Ok res /\
      verify_all aes empty_eq vm_hash cv keys' t' m (map fst res) = Ok outs /\
      map (fun r => pt_accept (fst r)) res = map pg_accept gs /\
      Forall2 (fun g r => if pg_accept g then snd r <> None else snd r = None) gs res /\
      Forall2 (fun '(g, r) out => exists cs, snd r = Some cs /\ output_for name data g cs out)
        (List.filter (fun gr => pg_accept (fst gr)) (zip gs res)) (map snd outs).
  Proof.
    intros Hl Hs Hr Hsl Hrl H1 H2 Hd Hg.
    pose proof (C82_agree_lemma sha_iv compress hash parse_body ec_curve aes ghash_fn compress_length aes_length
      ms time time' sent recv app_sent app_recv keys t data keys' t' Hl Hs Hr Hsl Hrl H1 H2) as [-> ->].
    apply C81_accepts_lemma in H2 as (B & _); [|done..].
    pose proof (built_session _ _ _ _ _ _ _ _ Hs Hr Hsl Hrl B) as Hsess.
    by apply (honest_all aes empty_eq vm_hash aes_length cv keys time' t data name Hsess Hd).
  Qed.
End EndToEnd.
