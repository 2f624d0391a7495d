(** Proofs about the connection of ProxVerExamples.v, for the examples beside C83. *)
From Verif.Lib Require Import Base Ranges.
From Verif Require Import TranscriptModel ProofModel CodecModel AttestModel AttestSpec AttestExamples TlsModel AuthModel AuthSpec AuthExamples TagModel PrfModel VdCheckModel ProxVerModel ProxVerSpec ProxVerExamples.

(** ** Three proofs about the connection, the second of which is rejected *)
Definition q_data : transcript := Transcript [71;69;84]%N [79;75;33]%N.
Definition q_tt : tls_transcript := Eval vm_compute in q_t [20;0;0;12]%N.
Definition q_keys : session_keys := keys_of q_d.
Definition q_memory (m : mem) (reveal : option (rangeset * rangeset)) (cs : list commit_entry) : mem :=
  fst (get_prove (prove q_aes true xhash q_keys m q_tt q_data reveal cs xblinders)).
Definition q_try (accept : bool) (mf : mem) (reveal : rangeset * rangeset) (cs : list commit_entry) : proof_try :=
  ProofTry accept (ProveRequest false (Some reveal) (Some cs)) None
    (Some (Partial (mask (t_sent q_data) (fst reveal)) (mask (t_recv q_data) (snd reveal)) (fst reveal) (snd reveal)))
    (fun x => default 0%N (mf !! x)).
Definition q_reveal1 : rangeset * rangeset := ([(0, 3)], [(0, 2)]).
Definition q_commits1 : list commit_entry := [(Sent, [(1, 2)], SHA256); (Received, [(1, 3)], SHA256)].
Definition q_reveal2 : rangeset * rangeset := ([], [(1, 3)]).
Definition q_commits2 : list commit_entry := [(Received, [(2, 3)], SHA256)].
Definition q_m1 : mem := Eval vm_compute in q_memory [] (Some q_reveal1) q_commits1.
Definition q_m2 : mem := Eval vm_compute in q_memory q_m1 (Some q_reveal2) q_commits2.
Definition q_tries : list proof_try :=
  [q_try true q_m1 q_reveal1 q_commits1; q_try false [] q_reveal1 [(Sent, [(7, 9)], SHA256)]; q_try true q_m2 q_reveal2 q_commits2].

Lemma q_try_ok accept mf reveal cs : entries_ok cs -> rs_ok (fst reveal) -> rs_ok (snd reveal) ->
  rs_end (fst reveal) <= 3 -> rs_end (snd reveal) <= 3 -> try_ok (q_try accept mf reveal cs).
Proof.
  intros H1 H2 H3 H4 H5. split; [exact H1|]. intros p [= <-]. split_and!; [exact H2|exact H3|..];
    cbn [p_sent p_recv p_sent_idx p_recv_idx]; unfold mask; rewrite imap_length; [exact H4|exact H5].
Qed.
Lemma q_tries_ok : Forall try_ok q_tries.
Proof.
  assert (forall idx i j, idx = [(i, j)] -> i < j -> rs_ok idx) as H by (intros idx i j -> ?; unfold rs_ok; simpl; lia).
  apply Forall_cons; split; [|apply Forall_cons; split; [|apply Forall_cons; split; [|constructor]]]; apply q_try_ok;
    try (cbv; lia); try exact I; try (eapply H; [reflexivity|lia]).
  - apply Forall_cons; split; [eapply H; [reflexivity|lia]|]. apply Forall_cons; split; [eapply H; [reflexivity|lia]|constructor].
  - apply Forall_cons; split; [eapply H; [reflexivity|lia]|constructor].
  - apply Forall_cons; split; [eapply H; [reflexivity|lia]|constructor].
Qed.
Lemma q_outputs : option_map (map (fun xo => (vo_transcript (snd xo), map cm_idx (vo_commitments (snd xo)))))
    (match verify_all q_aes true xhash ex_cv (keys_of q_d) (q_t [20;0;0;12]%N) [] q_tries with Ok outs => Some outs | _ => None end) =
  Some [(Some (Partial [71;69;84]%N [79;75;0]%N [(0, 3)] [(0, 2)]), [[(1, 2)]; [(1, 3)]]);
        (Some (Partial [0;0;0]%N [0;75;33]%N [] [(1, 3)]), [[(2, 3)]])].
Proof. vm_compute. reflexivity. Qed.
