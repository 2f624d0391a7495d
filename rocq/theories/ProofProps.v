(** Theorems C07-C12 about commitments and transcript proofs. The vocabulary is in
    ProofSpec.v and TranscriptSpec.v; the model is ProofModel.v. *)
From Verif.Lib Require Import Base Ranges RangesFacts.
From Verif Require Import TranscriptModel TranscriptSpec TranscriptLemmas TranscriptProps
  ProofModel ProofSpec ProofLemmas.

(** ** Concrete data for the examples. *)
(** A toy 64-bit "hash": any function will do for the examples. *)
Definition toy_hash (salt : N) (m : list N) : list N :=
  [fold_left (fun acc b => (acc * 257 + b + salt) mod 2 ^ 64)%N m 0%N].
Definition ex_P : hash_provider := default_provider (toy_hash 1) (toy_hash 2) (toy_hash 3).
Definition ex_s1 : secret := Secret Sent [(1,3);(4,5)] BLAKE3 (replicate 16 5%N).
Definition ex_s2 : secret := Secret Received [(0,4)] SHA256 (replicate 16 6%N).
Definition ex_c1 : commitment :=
  Commitment Sent [(1,3);(4,5)] (TypedHash BLAKE3 (toy_hash 2 ([2;3;5]%N ++ replicate 16 5%N))).
Definition ex_c2 : commitment :=
  Commitment Received [(0,4)] (TypedHash SHA256 (toy_hash 1 ([7;8;9;10]%N ++ replicate 16 6%N))).
Definition ex_calls : list tb_call :=
  [TBReveal [(1,2);(2,3)] Sent; TBReveal [(0,1)] Sent; TBReveal [(4,5)] Sent; TBReveal [(0,4)] Received].
Definition ex_pr : tproof := TProof ex_p [ex_s2; ex_s1].

Lemma ex_provider_ok f g h : provider_ok (default_provider f g h).
Proof.
  intros a x. unfold default_provider.
  destruct (N.eqb_spec a SHA256) as [->|]; [by intros [= <-]|].
  destruct (N.eqb_spec a BLAKE3) as [->|]; [by intros [= <-]|].
  destruct (N.eqb_spec a KECCAK256) as [->|]; [by intros [= <-]|done].
Qed.
Lemma ex_s1_committed : committed_by ex_P ex_t ex_s1 ex_c1.
Proof.
  exists (Hasher BLAKE3 (toy_hash 2)), ([2;3;5]%N ++ replicate 16 5%N). split_and!; [done| |done].
  exists [2;3;5]%N. split; [|done].
  apply bytes_at_of_values; [by apply rs_ok_fromb_spec|]. by repeat constructor.
Qed.
Lemma ex_s2_committed : committed_by ex_P ex_t ex_s2 ex_c2.
Proof.
  exists (Hasher SHA256 (toy_hash 1)), ([7;8;9;10]%N ++ replicate 16 6%N). split_and!; [done| |done].
  exists [7;8;9;10]%N. split; [|done].
  apply bytes_at_of_values; [by apply rs_ok_fromb_spec|]. by repeat constructor.
Qed.
Lemma ex_secrets_ok s : s ∈ [ex_s1; ex_s2] -> secret_ok s.
Proof.
  intros Hs. rewrite !elem_of_cons in Hs. destruct Hs as [->|[->|Hs%elem_of_nil]]; [..|done];
    (split; [by apply rs_ok_fromb_spec|done]).
Qed.

(** ** C07 *)
(** Every index of a finished configuration lies inside the transcript. *)
Theorem C07_indices_in_bounds : forall t cs cfg d idx a,
  cfg_build (cfg_run t cs) cfg -> (d, idx, a) ∈ cfg -> valid_idx (t_len t d) idx.
Proof. exact C07_bounds_lemma. Qed.
Print Assumptions C07_indices_in_bounds.

(** The configuration holds exactly the in-bounds commit calls, each with the kind
    given or the default kind in force at that call... *)
Theorem C07_entries_are_accepted_calls : forall t cs cfg e, cfg_build (cfg_run t cs) cfg ->
  e ∈ cfg <-> exists pre c post r d a, cs = pre ++ c :: post /\
    call_args (fold_left default_after pre BLAKE3) c = Some (r, d, a) /\
    (forall i, in_rs i r -> i < t_len t d) /\ e = (d, rs_from r, a).
Proof. exact C07_entries_lemma. Qed.
Print Assumptions C07_entries_are_accepted_calls.

(** ...once each. *)
Theorem C07_no_duplicates : forall t cs cfg, cfg_build (cfg_run t cs) cfg -> NoDup cfg.
Proof. exact C07_nodup_lemma. Qed.
Print Assumptions C07_no_duplicates.

(** A call is rejected exactly when its ranges leave the transcript, and then
    changes nothing. *)
Theorem C07_rejected_call : forall b r d a,
  (cfg_commit_with_kind b r d a = None <-> exists i, in_rs i r /\ t_len (cb_transcript b) d <= i) /\
  (cfg_commit_with_kind b r d a = None -> cfg_step b (CfgCommitKind r d a) = b).
Proof. exact C07_rejected_lemma. Qed.
Print Assumptions C07_rejected_call.

Theorem C07_request_lists_configuration : forall cfg, cfg_to_request cfg = cfg.
Proof. exact C07_request_lemma. Qed.
Print Assumptions C07_request_lists_configuration.

Example C07_ex : cb_commits (cfg_run ex_t
   [CfgCommit [(2,3);(0,2)] Sent; CfgDefault SHA256; CfgCommit [(3,9)] Received;
    CfgCommit [(1,4)] Received; CfgCommitKind [(0,3)] Sent BLAKE3])
  = [(Received, [(1,4)], SHA256); (Sent, [(0,3)], BLAKE3)].
Proof. reflexivity. Qed.

(** ** C08 *)
(** A reveal call succeeds exactly on in-bounds committed ranges; a failed one
    leaves the builder unchanged. *)
Theorem C08_reveal_iff_committed : forall t ss cs r d,
  (revealable t ss r d -> exists b', tb_reveal (tb_run t ss cs) r d = Ok b') /\
  (~ revealable t ss r d -> (exists e, tb_reveal (tb_run t ss cs) r d = Err e) /\
     tb_step (tb_run t ss cs) (TBReveal r d) = tb_run t ss cs).
Proof. exact C08_call_lemma. Qed.
Print Assumptions C08_reveal_iff_committed.

(** The finished proof authenticates exactly the union of the successful calls. *)
Theorem C08_proof_reveals_union_of_calls : forall cover t ss cs pr,
  cover_ok cover -> (forall s, s ∈ ss -> rs_ok (sc_idx s)) ->
  tb_build cover (tb_run t ss cs) = Ok pr ->
  forall d i, in_rs i (p_idx (tp_transcript pr) d) <->
    exists r, TBReveal r d ∈ cs /\ revealable t ss r d /\ in_rs i r.
Proof. exact C08_union_lemma. Qed.
Print Assumptions C08_proof_reveals_union_of_calls.
Example C08_ex : tb_build simple_cover (tb_run ex_t [ex_s1; ex_s2] ex_calls) = Ok ex_pr /\
  tb_reveal (tb_new ex_t [ex_s1; ex_s2]) [(0,1)] Sent = Err MissingCommitment /\
  tb_reveal (tb_new ex_t [ex_s1; ex_s2]) [(0,9)] Sent = Err IndexErr.
Proof. split_and!; reflexivity. Qed.

(** The covering procedure assumed of the rangeset crate can be implemented. *)
Theorem C08_cover_spec_satisfiable : cover_ok simple_cover.
Proof. exact simple_cover_ok. Qed.
Print Assumptions C08_cover_spec_satisfiable.

(** ** C09 *)
Theorem C09_proof_soundness : forall P t os cs len pr p,
  provider_ok P -> honest_commitments P t os cs ->
  (forall s, s ∈ tp_secrets pr -> secret_ok s) -> (forall o, o ∈ os -> secret_ok o) ->
  (forall d, rs_ok (p_idx (tp_transcript pr) d)) ->
  verify_tproof P len cs pr = Ok p ->
  N.of_nat (length (p_sent p)) = tl_sent len /\ N.of_nat (length (p_recv p)) = tl_recv len /\
  ((forall d i, in_rs i (p_idx p d) -> exists b, p_data p d !! i = Some b /\ t_data t d !! i = Some b)
   \/ opening_collision P t os pr).
Proof. exact C09_lemma. Qed.
Print Assumptions C09_proof_soundness.
Example C09_ex : provider_ok ex_P /\ honest_commitments ex_P ex_t [ex_s1; ex_s2] [ex_c1; ex_c2] /\
  (forall s, s ∈ tp_secrets ex_pr -> secret_ok s) /\
  verify_tproof ex_P (TLen 6 4) [ex_c1; ex_c2] ex_pr = Ok ex_p /\
  verify_tproof ex_P (TLen 6 4) [ex_c1; ex_c2]
    (TProof (Partial [0;2;3;0;6;0]%N [7;8;9;10]%N [(1,3);(4,5)] [(0,4)]) [ex_s2; ex_s1]) = Err HashError.
Proof.
  split; [apply ex_provider_ok|]. split; [|split; [|split; reflexivity]].
  - intros c Hc. rewrite !elem_of_cons in Hc. destruct Hc as [->|[->|Hc%elem_of_nil]]; [..|done].
    + exists ex_s1. split; [left|apply ex_s1_committed].
    + exists ex_s2. split; [right; left|apply ex_s2_committed].
  - intros s Hs. apply ex_secrets_ok. simpl in Hs. rewrite !elem_of_cons in *. tauto.
Qed.

(** ** C10 *)
Theorem C10_verify_iff : forall P len cs pr q,
  (forall s, s ∈ tp_secrets pr -> rs_ok (sc_idx s)) ->
  (forall d, rs_ok (p_idx (tp_transcript pr) d)) ->
  (verify_tproof P len cs pr = Ok q <-> q = tp_transcript pr /\ proof_accepts P len cs pr) /\
  (~ proof_accepts P len cs pr -> exists e, verify_tproof P len cs pr = Err e).
Proof. exact C10_lemma. Qed.
Print Assumptions C10_verify_iff.
(** Over-claimed and under-claimed coverage, a wrong length, an unattested
    commitment and an out-of-bounds opening are all refused. *)
Example C10_ex :
  verify_tproof ex_P (TLen 6 4) [ex_c1; ex_c2] (TProof ex_p [ex_s1]) = Err ProofError /\
  verify_tproof ex_P (TLen 6 4) [ex_c1; ex_c2]
    (TProof (Partial (p_sent ex_p) (p_recv ex_p) [(1,3)] [(0,4)]) [ex_s1; ex_s2]) = Err ProofError /\
  verify_tproof ex_P (TLen 7 4) [ex_c1; ex_c2] ex_pr = Err ProofError /\
  verify_tproof ex_P (TLen 6 4) [ex_c1] ex_pr = Err HashError /\
  verify_tproof ex_P (TLen 6 4) [ex_c1; ex_c2]
    (TProof ex_p [Secret Sent [(1,30)] BLAKE3 []]) = Err HashError.
Proof. split_and!; reflexivity. Qed.

(** ** C11 *)
Theorem C11_honest_proofs_verify : forall cover P t ss cs cms pr,
  cover_ok cover -> provider_ok P ->
  (forall s, s ∈ ss -> secret_ok s) ->
  (forall s, s ∈ ss -> exists c, c ∈ cms /\ committed_by P t s c) ->
  (N.of_nat (length (t_sent t)) < 2 ^ 32)%N -> (N.of_nat (length (t_recv t)) < 2 ^ 32)%N ->
  tb_build cover (tb_run t ss cs) = Ok pr ->
  verify_tproof P (t_length t) cms pr = Ok (tp_transcript pr) /\
  discloses t (tp_transcript pr) /\
  (forall d i, in_rs i (p_idx (tp_transcript pr) d) <->
      exists r, TBReveal r d ∈ cs /\ revealable t ss r d /\ in_rs i r).
Proof. exact C11_lemma. Qed.
Print Assumptions C11_honest_proofs_verify.
Example C11_ex : (forall s, s ∈ [ex_s1; ex_s2] -> exists c, c ∈ [ex_c1; ex_c2] /\ committed_by ex_P ex_t s c) /\
  t_length ex_t = TLen 6 4 /\ tb_build simple_cover (tb_run ex_t [ex_s1; ex_s2] ex_calls) = Ok ex_pr.
Proof.
  split_and!; [|reflexivity..].
  intros s Hs. rewrite !elem_of_cons in Hs. destruct Hs as [->|[->|Hs%elem_of_nil]]; [..|done].
  - exists ex_c1. split; [left|apply ex_s1_committed].
  - exists ex_c2. split; [right; left|apply ex_s2_committed].
Qed.

(** ** C12 *)
(** As stated the property fails: with a SHA-256 commitment to a part and a BLAKE3
    commitment to the whole, the default order of kinds selects the SHA-256
    commitment first, and the BLAKE3 one is then no subset of what remains. This
    is so for every covering procedure meeting the specification. *)
Theorem C12_reveal_success_refuted : forall cover, cover_ok cover ->
  exists t ss cs, (forall s, s ∈ ss -> secret_ok s) /\
    (forall d, union_of_kind ss BLAKE3 d (tb_query (tb_run t ss cs) d)) /\
    BLAKE3 ∈ tb_kinds (tb_run t ss cs) /\
    in_rs 0 (tb_query (tb_run t ss cs) Received) /\
    exists us ur, tb_build cover (tb_run t ss cs) = Err (CoverErr us ur).
Proof. exact C12_refuted_lemma. Qed.
Print Assumptions C12_reveal_success_refuted.

(** What holds: if the query is a union of commitments of a kind [a], and no
    commitment has a kind preferred over [a], building succeeds. (Missing from the
    full property: queries mixing kinds.) *)
Theorem C12_single_kind_reveal_succeeds_partial : forall cover t ss cs pre a post,
  cover_ok cover -> (forall s, s ∈ ss -> rs_ok (sc_idx s)) ->
  tb_kinds (tb_run t ss cs) = pre ++ a :: post ->
  (forall s, s ∈ ss -> sc_alg s ∉ pre) ->
  (forall d, union_of_kind ss a d (tb_query (tb_run t ss cs) d)) ->
  exists pr, tb_build cover (tb_run t ss cs) = Ok pr.
Proof. exact C12_lemma. Qed.
Print Assumptions C12_single_kind_reveal_succeeds_partial.
Example C12_ex : exists pr, tb_build simple_cover (tb_run ex_t
   [ex_s1; Secret Sent [(0,2)] BLAKE3 (replicate 16 1%N)] [TBReveal [(0,3);(4,5)] Sent]) = Ok pr.
Proof. eexists. reflexivity. Qed.

(** The kinds are tried in the order given, and all three algorithms by default. *)
Theorem C12_kinds_are_tried_in_order : forall t ss cs,
  first_occurrences (kinds_given cs [SHA256; BLAKE3; KECCAK256]) (tb_kinds (tb_run t ss cs)).
Proof. exact tb_kinds_lemma. Qed.
Print Assumptions C12_kinds_are_tried_in_order.

(** With a single algorithm in use, any union of commitments can be revealed. *)
Theorem C12_one_algorithm_reveal_succeeds : forall cover t ss cs a,
  cover_ok cover -> (forall s, s ∈ ss -> rs_ok (sc_idx s)) ->
  (forall s, s ∈ ss -> sc_alg s = a) -> a ∈ kinds_given cs [SHA256; BLAKE3; KECCAK256] ->
  (forall d, union_of_kind ss a d (tb_query (tb_run t ss cs) d)) ->
  exists pr, tb_build cover (tb_run t ss cs) = Ok pr.
Proof. exact C12_only_kind_lemma. Qed.
Print Assumptions C12_one_algorithm_reveal_succeeds.
Example C12_kinds_ex : tb_kinds (tb_run ex_t [ex_s1] [TBKinds [BLAKE3; SHA256; BLAKE3; KECCAK256]; TBKinds []]) = [BLAKE3; SHA256; KECCAK256] /\
  exists pr, tb_build simple_cover (tb_run ex_t
   [Secret Sent [(0,2)] KECCAK256 (replicate 16 1%N); Secret Sent [(1,5)] KECCAK256 (replicate 16 1%N)] [TBReveal [(0,5)] Sent]) = Ok pr.
Proof. split; [reflexivity|]. eexists. reflexivity. Qed.

(** Building never panics. *)
Theorem C12_build_never_panics : forall cover t ss cs, tb_build cover (tb_run t ss cs) <> Panic.
Proof. exact tb_build_no_panic. Qed.
Print Assumptions C12_build_never_panics.
