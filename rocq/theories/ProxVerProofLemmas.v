(** Proofs about several proofs of a session (C83). *)
From Verif.Lib Require Import Base Ranges.
From Verif Require Import TranscriptModel ProofModel CodecModel CodecSpec CodecLemmas AttestModel AttestSpec TlsModel TlsSpec TlsLemmas AuthModel AuthSpec AuthExamples TagModel PrfModel PrfSpec VdCheckModel VdCheckSpec ProxVerModel ProxVerSpec ProxVerLemmas.

Section ProofL.
  Context (aes : list N -> list N -> list N) (empty_eq : bool) (vm_hash : alg_id -> option (list N -> list N)).
  Context (cv : cert_verifier) (keys : session_keys) (t : tls_transcript).
  Context (Haes : aes_ok aes) (Hsess : session_ok t).
  Lemma all_right m xs outs : Forall try_ok xs ->
    verify_all aes empty_eq vm_hash cv keys t m xs = Ok outs ->
    map fst outs = List.filter pt_accept xs /\ Forall (fun xo => output_right aes vm_hash cv keys t (fst xo) (snd xo)) outs.
  Proof.
    intros Hx. revert m outs. induction Hx as [|x xs [He Hp] Hx IH]; intros m outs H; cbn [verify_all List.filter] in *.
    - injection H as <-. split; [done|constructor].
    - destruct (pt_accept x).
      + apply obind_Ok in H as ([m' out] & H1 & H). apply obind_Ok in H as (outs' & H2 & [= <-]).
        destruct (IH _ _ H2) as [IH1 IH2]. split; [cbn; by rewrite IH1|]. constructor; [|done]. cbn [fst snd].
        exact (C35_output_lemma aes empty_eq vm_hash _ cv keys _ t _ _ _ _ _ Haes Hsess He Hp H1).
      + by apply (IH m).
  Qed.
  Lemma all_agree m xs outs : Forall try_ok xs ->
    verify_all aes empty_eq vm_hash cv keys t m xs = Ok outs ->
    forall x o y o' p q, (x, o) ∈ outs -> (y, o') ∈ outs -> vo_transcript o = Some p -> vo_transcript o' = Some q -> agree p q.
  Proof.
    intros Hx H x o y o' p q H1 H2 Hp Hq. apply all_right in H as [_ H]; [|done]. rewrite Forall_forall in H.
    assert (forall x o p, (x, o) ∈ outs -> vo_transcript o = Some p ->
      exists s r, discloses aes keys t s r p) as Hd.
    { intros x1 o1 p1 Hin Ho. apply H in Hin as [Hin _]. cbn [fst snd] in Hin. destruct (pq_reveal (pt_request x1)) as [[s r]|]; [|congruence].
      destruct Hin as (p2 & _ & E & Hd). exists s, r. congruence. }
    destruct (Hd _ _ _ H1 Hp) as (s1 & r1 & _ & _ & D1). destruct (Hd _ _ _ H2 Hq) as (s2 & r2 & _ & _ & D2).
    intros d. destruct (D1 d) as [L1 E1]. destruct (D2 d) as [L2 E2]. split; [congruence|]. intros i I1 I2.
    destruct (E1 i I1) as (b & B1 & B2). destruct (E2 i I2) as (b' & B1' & B2'). congruence.
  Qed.
End ProofL.
Lemma built_session hash parse_body ec_curve time sent recv app t : bytes_ok sent -> bytes_ok recv ->
  (N.of_nat (length sent) < 2 ^ 64)%N -> (N.of_nat (length recv) < 2 ^ 64)%N ->
  tls_build hash parse_body ec_curve (prox_builder time sent recv app) = Ok t -> session_ok t.
Proof.
  intros Hs Hr Hsl Hrl Ht d. destruct (built_records _ _ _ time sent recv app t d Hs Hr Hsl Hrl Ht) as (_ & H & _).
  assert (forall rs : list tls_record, Forall (fun r => length (r_nonce r) = 8) rs -> nonces_ok (app_records rs)) as Hf.
  { intros rs Hrs. unfold nonces_ok, app_records. induction Hrs as [|r rs H1 H2 IH]; [constructor|]. cbn.
    destruct (is_app r); [by constructor|done]. }
  apply Hf. by destruct d.
Qed.

Section EndToEnd.
  Context (sha_iv : list N) (compress : list N -> list N -> list N) (hash : list N -> list N).
  Context (parse_body : protocol_version -> N -> list N -> option hs_payload) (ec_curve : list N -> option N).
  Context (aes ghash_fn : list N -> list N -> list N).
  Context (compress_length : forall s b, length (compress s b) = 8).
  Context (aes_length : forall k b, length (aes k b) = 16).
  Lemma C83_lemma ms prover server keys t empty_eq vm_hash cv m xs outs : length ms = 48 -> reads_ok prover server ->
    prox_run sha_iv compress hash parse_body ec_curve aes ghash_fn ms prover server = Some (Ok (keys, t)) ->
    Forall try_ok xs -> verify_all aes empty_eq vm_hash cv keys t m xs = Ok outs ->
    map fst outs = List.filter pt_accept xs /\ Forall (fun xo => output_right aes vm_hash cv keys t (fst xo) (snd xo)) outs /\
    forall x o y o' p q, (x, o) ∈ outs -> (y, o') ∈ outs -> vo_transcript o = Some p -> vo_transcript o' = Some q -> agree p q.
  Proof.
    intros Hl Hok Hrun Hx H. apply C81_run_lemma in Hrun as (a & b & time & d & H1 & H2 & _ & Ht & _); [|done..].
    destruct (Hok a (or_introl H1)) as [Ha Hal]. destruct (Hok b (or_intror H2)) as [Hb Hbl].
    pose proof (built_session _ _ _ _ _ _ _ _ Ha Hb Hal Hbl Ht) as Hsess.
    destruct (all_right _ _ _ _ _ _ aes_length Hsess _ _ _ Hx H) as [R1 R2]. split; [exact R1|]. split; [exact R2|].
    exact (all_agree _ _ _ _ _ _ aes_length Hsess _ _ _ Hx H).
  Qed.
End EndToEnd.
