(** Concrete attestations for the examples and counterexamples of AttestProps.v, and the lemmas
    that AttestProps.v refers to and that need them. *)
From Verif.Lib Require Import Base Bcs Ranges RangesFacts.
From Verif Require Import TranscriptModel TranscriptSpec TranscriptLemmas TranscriptProps ProofModel ProofSpec ProofLemmas ProofProps
  MerkleModel MerkleSpec CodecModel AttestModel AttestSpec AttestLemmas.

Definition ex_dom : domains := fun t => replicate 16
  (match t with DVk => 1 | DCi => 2 | DEk => 3 | DCc => 4 | DExt => 5 | DTc => 6 | DOpening => 7 end)%N.
Lemma ex_dom_ok : domains_ok ex_dom.
Proof. split; [by intros []|]. intros [] []; done. Qed.

(** A toy signature: the message with a mark. *)
Definition ex_vk : verifying_key := VerifyingKey K256 [5]%N.
Definition ex_signer : signer := Signer SECP256K1 (fun m => Some (Signature SECP256K1 (m ++ [99%N]))) ex_vk.
Definition ex_sigver : sig_verifier := fun k m s =>
  (vk_alg k =? K256)%N && bool_decide (vk_data k = [5]%N) && bool_decide (s = m ++ [99%N]).
Definition ex_name : server_name := [101; 120]%N.
Definition ex_ek : ephem_key := EphemKey [4; 8; 9]%N.
(** Certificate 11, issued by 12 for [ex_name], valid until 200; it signs by appending 77. *)
Definition ex_cv : cert_verifier := CertVerifier
  (fun leaf inter name time => bool_decide (leaf = [11]%N) && bool_decide (inter = [[12]%N]) && bool_decide (name = ex_name) && (time <? 200)%N)
  (fun leaf => bool_decide (leaf = [11]%N))
  (fun leaf alg m s => bool_decide (s = m ++ [77%N])).
Definition ex_h : hasher := Hasher SHA256 (toy_hash 1).
Definition ex_cp : crypto_provider := CryptoProvider ex_P ex_cv (set_signer (fun _ => None) ex_signer) (set_verifier (fun _ => None) (SECP256K1, ex_sigver)).
Lemma ex_signer_ok : signer_ok ex_signer ex_cp.
Proof.
  intros m sig [= <-]. exists ex_sigver. split; [done|]. unfold ex_sigver. cbn [s_data]. 
  by rewrite !bool_decide_eq_true_2.
Qed.

Definition ex_hd : handshake_data := HandshakeData [[11]; [12]]%N 3%N
  (replicate 32 1 ++ replicate 32 2 ++ [3; 0; 23; 3; 4; 8; 9] ++ [77])%N (replicate 32 1%N) (replicate 32 2%N) ex_ek.
Definition ex_blinder : list N := replicate 16 3%N.
Definition ex_ext : extension := Extension [1]%N [2; 3]%N.
Definition ex_ext2 : extension := Extension [7]%N [].
Definition ex_rb : req_builder := ReqBuilder SECP256K1 SHA256 [ex_ext] (Some ex_name) (Some ex_hd) (Some ex_t) [ex_c1; ex_c2] [ex_s1; ex_s2].
Definition ex_se : secrets := Secrets ex_name (CertOpening ex_hd ex_blinder) ex_t [ex_c1; ex_c2] [ex_s1; ex_s2].
Definition ex_rq : request := Request SECP256K1 SHA256 (opening_commit ex_dom ex_h (CertOpening ex_hd ex_blinder)) [ex_ext].
Definition ex_config : att_config := AttConfig [SECP256K1] [SHA256; BLAKE3; KECCAK256] None.
Definition ex_ci : conn_info := ConnInfo 100%N V1_2 (TLen 6 4).
Definition ex_sign_calls : list sign_call :=
  [SetConnInfo (ConnInfo 1%N V1_2 (TLen 1 1)); SetCommitments [ex_c1; ex_c2]; AddExtension ex_ext2; SetEphemKey ex_ek; SetConnInfo ex_ci].
Definition ex_uid : list N := replicate 16 8%N.

Definition get_root (o : panicky typed_hash) : typed_hash := match o with Ok r => r | _ => TypedHash 0%N [] end.
Definition attest (b : body) : attestation :=
  let hd := Header ex_uid 0%N (get_root (body_root ex_dom ex_h b)) in
  Attestation (Signature SECP256K1 (ser_header hd ++ [99%N])) hd b.
Definition ex_att : attestation := attest (make_body ex_vk ex_ci ex_ek (rq_cc ex_rq) [ex_ext; ex_ext2] [ex_c1; ex_c2]).

Lemma ex_hash_len : hash_len (toy_hash 1) 1.
Proof. done. Qed.

Lemma C15_numbered_lemma dom c rq s0 calls P uid a :
  accept_request c rq = Ok s0 -> att_build dom (fold_left sign_step calls s0) P uid = Ok a ->
  field_ids (a_body a) = seq 0 (length (body_fields (a_body a))) /\
  length (body_fields (a_body a)) = 4 + length (rq_exts rq ++ called_exts calls) + length (called_tcs calls) /\
  exists h, cp_hash P (rq_hash_alg rq) = Some h /\ body_root dom h (a_body a) = Ok (hd_root (a_header a)).
Proof.
  intros Ha Hb. destruct (C15_build_lemma _ _ _ _ _ _ _ _ Ha Hb) as (H1 & H2 & H3).
  split_and!; [done| |done]. apply accept_request_inv in Ha as ->. rewrite H2.
  destruct (sign_steps_spec (SignState (rq_sig_alg rq) (rq_hash_alg rq) None None (rq_cc rq) (rq_exts rq) []) calls)
    as (_ & _ & -> & ->); done.
Qed.
Lemma C15_ex_lemma : exists s0, accept_request ex_config ex_rq = Ok s0 /\
  att_build ex_dom (fold_left sign_step ex_sign_calls s0) ex_cp ex_uid = Ok ex_att /\
  field_ids (a_body ex_att) = [0; 1; 2; 3; 4; 5; 6; 7] /\ map fst (b_tcs (a_body ex_att)) = [6; 7] /\
  domains_ok ex_dom /\ hash_len (h_hash ex_h) 1 /\ body_ok (a_body ex_att).
Proof.
  eexists. split; [reflexivity|]. split_and!; [by vm_compute|done|done|apply ex_dom_ok|done|].
  repeat constructor.
Qed.

Lemma C16_pres_fields_lemma dom P pr out h L b0 :
  domains_ok dom -> hash_len (h_hash h) L -> body_ok b0 -> body_ok (a_body (po_att out)) -> numbered b0 ->
  pres_verify dom P pr = Ok out ->
  cp_hash P (th_alg (hd_root (a_header (po_att out)))) = Some h ->
  body_root dom h b0 = Ok (hd_root (a_header (po_att out))) ->
  mp_leaf_count (bp_proof (ap_body (pr_att pr))) = length (body_fields b0) ->
  (forall i, i ∈ field_ids (a_body (po_att out)) -> i < length (body_fields b0)) ->
  (forall i f, (i, f) ∈ body_fields (a_body (po_att out)) -> (i, f) ∈ body_fields b0) \/
  collides h (verify_inputs dom h (a_body (po_att out)) (bp_proof (ap_body (pr_att pr)))) (body_inputs dom h b0).
Proof.
  intros Hd HL Hok0 Hok Hn Hv. apply pres_verify_inv in Hv as (Ha & _).
  intros. eapply C16_fields_lemma; try done.
  apply att_proof_verify_inv in Ha as (E & _). rewrite E in Hok. done.
Qed.
Lemma C16_ex_lemma : exists pr, pres_build ex_dom ex_cp ex_att (Some (secrets_identity_proof ex_se)) (Some ex_pr) = Ok pr /\
  pres_verify ex_dom ex_cp pr = Ok (PresOutput ex_att (Some ex_name) ex_ci (Some ex_p) [ex_ext; ex_ext2]) /\
  numbered (a_body ex_att) /\ body_root ex_dom ex_h (a_body ex_att) = Ok (hd_root (a_header ex_att)) /\
  mp_leaf_count (bp_proof (ap_body (pr_att pr))) = length (body_fields (a_body ex_att)).
Proof. eexists. split; [by vm_compute|]. split_and!; by vm_compute. Qed.

(** ** The forged transcript *)
(** The prover wants to show that it received 1, 1, 1, 1. *)
Definition fk_secret : secret := Secret Received [(0,4)] SHA256 (replicate 16 9%N).
Definition fk_tc : commitment := Commitment Received [(0,4)] (hash_plaintext ex_h [1;1;1;1]%N (replicate 16 9%N)).
(** It sends the first part of the encoding of that commitment; the rest is the blinder. *)
Definition fk_input : list N := field_input ex_dom (FTc fk_tc).
Definition fk_sent : list N := take 22 fk_input.
Definition fk_blinder : list N := drop 22 fk_input.
Definition fk_t : transcript := Transcript fk_sent [7;8;9;10]%N.
Definition fk_real_secret : secret := Secret Sent [(0,22)] SHA256 fk_blinder.
Definition fk_real_tc : commitment := Commitment Sent [(0,22)] (hash_plaintext ex_h fk_sent fk_blinder).
Definition fk_ci : conn_info := ConnInfo 100%N V1_2 (TLen 22 4).
Definition fk_config : att_config := AttConfig [SECP256K1] (ac_hash_algs att_config_default) (ac_validator att_config_default).
Definition fk_rq : request := Request SECP256K1 SHA256 (rq_cc ex_rq) [].
Definition fk_calls : list sign_call := [SetConnInfo fk_ci; SetEphemKey ex_ek; SetCommitments [fk_real_tc]].
Definition fk_att : attestation := attest (make_body ex_vk fk_ci ex_ek (rq_cc ex_rq) [] [fk_real_tc]).
Definition fk_partial : partial := Partial (replicate 22 0%N) [1;1;1;1]%N [] [(0,4)].
Definition fk_body : body := Body (0, ex_vk) (1, fk_ci) (2, ex_ek) (3, rq_cc ex_rq) [] [(5, fk_tc)].
Definition fk_head : list N := ex_dom DTc ++ bcs_len 0 ++ ser_dir Sent ++ bcs_seq ser_range [(0,22)] ++
                [h_id ex_h] ++ bcs_len 1.
Definition fk_pres : presentation :=
  Presentation (AttProof (a_sig fk_att) (a_header fk_att) (BodyProof fk_body (MerkleProof 6 [fk_head]))) None
    (Some (TProof fk_partial [fk_secret])).
Definition fk_out : pres_output :=
  PresOutput (Attestation (a_sig fk_att) (a_header fk_att) fk_body) None fk_ci (Some fk_partial) [].

Lemma fk_committed : committed_by (cp_hash ex_cp) fk_t fk_real_secret fk_real_tc.
Proof.
  exists ex_h, (fk_sent ++ fk_blinder). split_and!; [done| |done].
  exists fk_sent. split; [|done].
  apply bytes_at_of_values; [by apply rs_ok_fromb_spec|]. vm_compute. by repeat constructor.
Qed.
Definition no_collisionb (h : hasher) (xs ys : list (list N)) : bool :=
  forallb (fun x => forallb (fun y => bool_decide (x = y) || negb (bool_decide (h_hash h x = h_hash h y))) ys) xs.
Lemma no_collisionb_spec h xs ys : no_collisionb h xs ys = true -> ~ collides h xs ys.
Proof.
  intros Hb (x & y & Hx & Hy & Hne & Heq). unfold no_collisionb in Hb. rewrite forallb_forall in Hb.
  apply elem_of_list_In in Hx, Hy. specialize (Hb x Hx). rewrite forallb_forall in Hb. specialize (Hb y Hy).
  rewrite bool_decide_eq_false_2 in Hb by done. rewrite bool_decide_eq_true_2 in Hb by done. done.
Qed.
Lemma C16_forged_case : exists dom P h c rq s0 calls uid a t os pr out p i,
  domains_ok dom /\ cp_hash P (rq_hash_alg rq) = Some h /\
  accept_request c rq = Ok s0 /\ att_build dom (fold_left sign_step calls s0) P uid = Ok a /\
  honest_commitments (cp_hash P) t os (map snd (b_tcs (a_body a))) /\ (forall o, o ∈ os -> secret_ok o) /\
  ci_length (snd (b_ci (a_body a))) = t_length t /\
  pres_verify dom P pr = Ok out /\ a_header (po_att out) = a_header a /\ a_sig (po_att out) = a_sig a /\
  po_transcript out = Some p /\ in_rs i (p_idx p Received) /\ p_data p Received !! i <> t_data t Received !! i /\
  ~ collides h (verify_inputs dom h (a_body (po_att out)) (bp_proof (ap_body (pr_att pr)))) (body_inputs dom h (a_body a)).
Proof.
  exists ex_dom, ex_cp, ex_h, fk_config, fk_rq,
    (SignState SECP256K1 SHA256 None None (rq_cc ex_rq) [] []), fk_calls, ex_uid, fk_att, fk_t, [fk_real_secret],
    fk_pres, fk_out, fk_partial, 0.
  split_and!; [apply ex_dom_ok|done|done|by vm_compute| | |by vm_compute|by vm_compute|done|done|done| |done|].
  - intros c Hc. simpl in Hc. apply elem_of_list_singleton in Hc as ->.
    exists fk_real_secret. split; [by left|]. apply fk_committed.
  - intros o Ho%elem_of_list_singleton. subst o. split; [by apply rs_ok_fromb_spec|done].
  - left. unfold in_range. simpl. lia.
  - apply no_collisionb_spec. by vm_compute.
Qed.

(** ** Other cases *)
Lemma C17_ex_lemma :
  req_build ex_dom ex_cp ex_rb ex_blinder = Some (ex_rq, ex_se) /\
  (exists s0, accept_request ex_config ex_rq = Ok s0 /\
     att_build ex_dom (fold_left sign_step ex_sign_calls s0) ex_cp ex_uid = Ok ex_att) /\
  cp_signer ex_cp (rq_sig_alg ex_rq) = Some ex_signer /\ signer_ok ex_signer ex_cp /\
  called_ci ex_sign_calls = Some ex_ci /\ called_ek ex_sign_calls = Some ex_ek /\
  called_tcs ex_sign_calls = se_commitments ex_se /\
  handshake_ok (cp_cert ex_cp) (co_data (se_opening ex_se)) (ci_time ex_ci) ex_ek (se_name ex_se) /\
  ci_length ex_ci = t_length (se_transcript ex_se) /\
  tb_build simple_cover (tb_run (se_transcript ex_se) (se_secrets ex_se) ex_calls) = Ok ex_pr /\
  (forall s, s ∈ se_secrets ex_se -> secret_ok s) /\
  (forall s, s ∈ se_secrets ex_se -> exists cm, cm ∈ se_commitments ex_se /\ committed_by (cp_hash ex_cp) (se_transcript ex_se) s cm).
Proof.
  split_and!; [done| |done|apply ex_signer_ok|done|done|done| |done|done|apply ex_secrets_ok|].
  - eexists. split; [reflexivity|]. by vm_compute.
  - split; [done|]. exists [11]%N, [[12]%N]. by split_and!.
  - intros s Hs. simpl in Hs. rewrite !elem_of_cons in Hs. destruct Hs as [->|[->|Hs%elem_of_nil]]; [..|done].
    + exists ex_c1. split; [by left|apply ex_s1_committed].
    + exists ex_c2. split; [right; by left|apply ex_s2_committed].
Qed.

Lemma C18_replace_lemma rq a P b' :
  validate rq a P = Ok () ->
  snd (b_vk b') = snd (b_vk (a_body a)) -> snd (b_cc b') = snd (b_cc (a_body a)) -> b_exts b' = b_exts (a_body a) ->
  validate rq (Attestation (a_sig a) (a_header a) b') P = Ok ().
Proof.
  rewrite !C18_lemma. unfold answers. cbn [a_sig a_header a_body]. by intros ((? & ? & ? & ?) & ?) -> -> ->.
Qed.
Lemma C18_unsigned_case : exists dom rq a P h,
  domains_ok dom /\ validate rq a P = Ok () /\ cp_hash P (rq_hash_alg rq) = Some h /\
  numbered (a_body a) /\ body_ok (a_body a) /\
  body_root dom h (a_body a) <> Ok (hd_root (a_header a)).
Proof.
  exists ex_dom, ex_rq, (Attestation (a_sig ex_att) (a_header ex_att)
    (make_body ex_vk (ConnInfo 5%N V1_2 (TLen 6 4)) ex_ek (rq_cc ex_rq) [ex_ext; ex_ext2] [ex_c1; ex_c2])), ex_cp, ex_h.
  split_and!; [apply ex_dom_ok|by vm_compute|done|done|repeat constructor|by vm_compute].
Qed.
Lemma C18_panic_case : exists dom rq a P, validate rq a P = Ok () /\ att_proof_new dom P a = Panic.
Proof.
  exists ex_dom, ex_rq, (attest (Body (0, ex_vk) (1, ex_ci) (2, ex_ek) (3, rq_cc ex_rq) [(4, ex_ext)] [(4, ex_c1)])), ex_cp.
  split; by vm_compute.
Qed.

Lemma C19_ex_lemma : cert_opening_ok (se_opening ex_se) /\
  identity_verify ex_dom ex_cp (secrets_identity_proof ex_se) 100%N ex_ek (rq_cc ex_rq) = Ok ex_name /\
  identity_verify ex_dom ex_cp (secrets_identity_proof ex_se) 300%N ex_ek (rq_cc ex_rq) = Err ICertificate /\
  identity_verify ex_dom ex_cp (secrets_identity_proof ex_se) 100%N (EphemKey [1%N]) (rq_cc ex_rq) = Err ICertificate /\
  identity_verify ex_dom ex_cp (secrets_identity_proof ex_se) 100%N ex_ek (TypedHash SHA256 [1%N]) = Err ICommitment.
Proof. split_and!; [by repeat constructor|by vm_compute..]. Qed.

Lemma C20_new_lemma id :
  (alg_id_new id = if (id <? 128)%N then Panic else Ok id) /\
  (key_alg_new id = if (id <? 128)%N then Panic else Ok id) /\
  (sig_alg_new id = if (id <? 128)%N then Panic else Ok id).
Proof.
  unfold alg_id_new, key_alg_new, sig_alg_new.
  destruct (N.leb_spec 128 id), (N.ltb_spec id 128); try lia; done.
Qed.
Lemma C20_last_lemma a :
  (forall hist P, fold_left (fun p e => set_algorithm p (fst e) (snd e)) hist P a =
     match last_registered hist a with Some h => Some h | None => P a end) /\
  (forall hist p, fold_left set_signer hist p a =
     match last_registered (map (fun s => (sg_alg s, s)) hist) a with Some s => Some s | None => p a end) /\
  (forall hist p, fold_left set_verifier hist p a =
     match last_registered hist a with Some v => Some v | None => p a end).
Proof.
  split_and!; intros hist p.
  - by apply (registrations (fun p e => set_algorithm p (fst e) (snd e))).
  - rewrite <- (registrations (fun p e a => if (a =? fst e)%N then Some (snd e) else p a)); [|done].
    revert p. induction hist as [|s hist IH]; intros p; [done|]. simpl. by rewrite IH.
  - by apply (registrations set_verifier).
Qed.
Lemma C20_builtin_lemma a : (a < 128)%N ->
  (forall hist P, (forall e, e ∈ hist -> exists id, alg_id_new id = Ok (fst e)) ->
     fold_left (fun p e => set_algorithm p (fst e) (snd e)) hist P a = P a) /\
  (forall hist p, (forall s, s ∈ hist -> exists id, sig_alg_new id = Ok (sg_alg s)) ->
     fold_left set_signer hist p a = p a) /\
  (forall hist p, (forall v, v ∈ hist -> exists id, sig_alg_new id = Ok (fst v)) ->
     fold_left set_verifier hist p a = p a).
Proof.
  intros Ha. destruct (C20_last_lemma a) as (H1 & H2 & H3).
  assert (forall id x, alg_id_new id = Ok x -> (128 <= x)%N) as Hnew.
  { intros id x. unfold alg_id_new. destruct (N.leb_spec 128 id); [|done]. intros [= <-]. done. }
  split_and!; intros hist p Hh.
  - rewrite H1, last_registered_reserved; [done| |done]. intros e He. destruct (Hh e He) as [id Hid]. by eapply Hnew.
  - rewrite H2, last_registered_reserved; [done| |done]. intros e He.
    apply elem_of_list_fmap in He as (s & -> & Hs). destruct (Hh s Hs) as [id Hid]. by eapply Hnew.
  - rewrite H3, last_registered_reserved; [done| |done]. intros e He. destruct (Hh e He) as [id Hid]. by eapply Hnew.
Qed.
