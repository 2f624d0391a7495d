(** Theorems about the default HTTP and JSON committers. *)
From Verif.Lib Require Import Base Ranges RangesFacts.
From Verif Require Import TranscriptModel TranscriptSpec ProofModel ProofSpec ProofLemmas HttpModel HttpSpec HttpLemmas HttpExamples.

(** ** C77 *)
(** Committing a parsed transcript adds to the configuration exactly the parts of its messages,
    requests in the sent and responses in the received direction, all with the default kind. *)
Theorem C77_commits_exactly_the_parts : forall b t b', http_wf t -> commit_transcript b t = Some b' ->
  cb_transcript b' = cb_transcript b /\ cb_default b' = cb_default b /\
  forall d idx a, (d, idx, a) ∈ cb_commits b' <->
    (d, idx, a) ∈ cb_commits b \/
    (a = cb_default b /\ rs_ok idx /\ exists P, http_part t d P /\ forall i, in_rs i idx <-> P i).
Proof. exact exact_lemma. Qed.
Print Assumptions C77_commits_exactly_the_parts.

(** It succeeds exactly when every message lies inside the transcript. *)
Theorem C77_succeeds_iff_in_bounds : forall b t, http_wf t ->
  (exists b', commit_transcript b t = Some b') <-> http_in_bounds (cb_transcript b) t.
Proof. exact bounds_lemma. Qed.
Print Assumptions C77_succeeds_iff_in_bounds.

(** It commits to nothing empty, if the syntax of each construct takes up some bytes. *)
Theorem C77_nothing_empty : forall b t b' d idx a, http_wf t -> http_solid t ->
  commit_transcript b t = Some b' -> (d, idx, a) ∈ cb_commits b' ->
  (d, idx, a) ∈ cb_commits b \/ exists i, in_rs i idx.
Proof. exact nonempty_lemma. Qed.
Print Assumptions C77_nothing_empty.

(** The hypotheses of the three theorems above, and what is committed, for a transcript with a
    chunked JSON body; and one that does not lie inside its transcript. *)
Example C77_ex : http_wf ex_h /\ http_solid ex_h /\ http_in_bounds ex_tr ex_h /\
  commit_transcript (cfg_default_kind (cfg_new ex_tr) BLAKE3) ex_h = Some ex_b /\
  reverse (cb_commits ex_b) =
    [(Sent, [(0,40)], BLAKE3); (Sent, [(0,4);(6,16);(30,32)], BLAKE3); (Sent, [(4,6)], BLAKE3);
     (Sent, [(16,26)], BLAKE3); (Sent, [(16,20);(24,26)], BLAKE3); (Sent, [(26,30)], BLAKE3);
     (Sent, [(32,40)], BLAKE3);
     (Received, [(0,70)], BLAKE3); (Received, [(0,16);(24,30);(50,54)], BLAKE3);
     (Received, [(16,24)], BLAKE3); (Received, [(16,20);(22,24)], BLAKE3);
     (Received, [(30,31);(37,38);(69,70)], BLAKE3); (Received, [(31,35)], BLAKE3);
     (Received, [(35,37)], BLAKE3); (Received, [(38,42)], BLAKE3);
     (Received, [(42,43);(54,55);(64,69)], BLAKE3); (Received, [(43,48)], BLAKE3);
     (Received, [(48,50)], BLAKE3); (Received, [(55,59)], BLAKE3); (Received, [(59,64)], BLAKE3);
     (Received, [(59,60);(63,64)], BLAKE3)] /\
  commit_transcript (cfg_new (Transcript [1%N] [])) ex_h = None.
Proof.
  split; [apply ex_wf|]. split; [apply ex_solid|]. split; [apply ex_bounds|]. split; [apply ex_b_eq|].
  split; vm_compute; reflexivity.
Qed.

(** ** C78 *)
(** After committing a transcript and opening the commitments, the prover can reveal any messages
    of it without any choice of: targets, headers, header values, bodies, and in JSON bodies
    values and pairs of objects at any depth and contents of arrays. The proof is built and
    reveals exactly those positions. Partial: the JSON bodies must be their value and nothing
    else, a request of which something is kept secret must have a header or a body, and elements
    of arrays cannot be chosen one by one. *)
Theorem C78_any_choice_of_secrets_partial : forall cover t a h b ss cs, cover_ok cover -> http_wf h ->
  commit_transcript (cfg_default_kind (cfg_new t) a) h = Some b -> openings_of (cb_commits b) ss ->
  a ∈ [SHA256; BLAKE3; KECCAK256] ->
  (forall c, c ∈ cs -> exists r d, c = TBReveal r d /\ redacted h d r) ->
  exists pr, tb_build cover (tb_run t ss cs) = Ok pr /\
    forall d i, in_rs i (p_idx (tp_transcript pr) d) <-> exists r, TBReveal r d ∈ cs /\ in_rs i r.
Proof. exact reveal_lemma. Qed.
Print Assumptions C78_any_choice_of_secrets_partial.
Example C78_ex : http_wf ex_h /\ openings_of (cb_commits ex_b) (opens (cb_commits ex_b)) /\
  (forall c, c ∈ ex_rcalls -> exists r d, c = TBReveal r d /\ redacted ex_h d r) /\
  exists pr, tb_build simple_cover (tb_run ex_tr (opens (cb_commits ex_b)) ex_rcalls) = Ok pr /\
    p_idx (tp_transcript pr) Sent = ex_r1 /\ p_idx (tp_transcript pr) Received = ex_r2.
Proof.
  split; [apply ex_wf|]. split; [apply opens_of|]. split; [apply ex_calls_redacted|].
  eexists. split; [vm_compute; reflexivity|]. split; reflexivity.
Qed.

(** Only unions of parts can be revealed: every revealed position comes with a whole part. *)
Theorem C78_only_unions_of_parts : forall cover t a h b ss r d pr, cover_ok cover -> http_wf h ->
  commit_transcript (cfg_default_kind (cfg_new t) a) h = Some b -> openings_of (cb_commits b) ss ->
  tb_build cover (tb_run t ss [TBReveal r d]) = Ok pr -> revealable t ss r d ->
  forall i, in_rs i r -> exists P, http_part h d P /\ P i /\ forall j, P j -> in_rs j r.
Proof. exact only_unions. Qed.
Print Assumptions C78_only_unions_of_parts.
Example C78_unions_ex : exists pr,
  tb_build simple_cover (tb_run ex_tr (opens (cb_commits ex_b)) [TBReveal ex_r2 Received]) = Ok pr /\
  tb_query (tb_run ex_tr (opens (cb_commits ex_b)) [TBReveal ex_r2 Received]) Received = ex_r2.
Proof. eexists. split; vm_compute; reflexivity. Qed.

(** The target of a request without headers and body cannot be kept secret: the documentation of
    the committer says that the request without target, headers and body is committed to. *)
Theorem C78_target_can_be_secret_refuted : forall cover, cover_ok cover -> exists t a h b ss q r,
  http_wf h /\ commit_transcript (cfg_default_kind (cfg_new t) a) h = Some b /\ openings_of (cb_commits b) ss /\
  requests h = [q] /\ (forall i, in_rs i r <-> in_rs i (q_span q) /\ ~ in_rs i (q_target q)) /\
  revealable t ss r Sent /\ forall pr, tb_build cover (tb_run t ss [TBReveal r Sent]) <> Ok pr.
Proof. exact target_stuck. Qed.
Print Assumptions C78_target_can_be_secret_refuted.

(** Nor can any value of a JSON body that has a blank before or after the value: those bytes
    belong to no part but the whole message. *)
Theorem C78_padded_json_value_refuted : forall cover, cover_ok cover -> exists t a h b ss p r sp root ksp v,
  http_wf h /\ commit_transcript (cfg_default_kind (cfg_new t) a) h = Some b /\ openings_of (cb_commits b) ss /\
  responses h = [p] /\ p_body p = Some (Body sp (CJson (JObject root [(ksp, v)]))) /\
  (forall i, in_rs i r <-> in_rs i (p_span p) /\ ~ in_rs i (j_span v)) /\
  revealable t ss r Received /\ forall pr, tb_build cover (tb_run t ss [TBReveal r Received]) <> Ok pr.
Proof. exact padding_stuck. Qed.
Print Assumptions C78_padded_json_value_refuted.

(** Nor can a single element of an array. *)
Theorem C78_array_element_refuted : forall cover, cover_ok cover -> exists t a h b ss p r sp root brackets e1 e2,
  http_wf h /\ commit_transcript (cfg_default_kind (cfg_new t) a) h = Some b /\ openings_of (cb_commits b) ss /\
  responses h = [p] /\ p_body p = Some (Body sp (CJson (JArray root brackets [e1; e2]))) /\ sp = root /\
  (forall i, in_rs i r <-> in_rs i (p_span p) /\ ~ in_rs i (j_span e1)) /\
  revealable t ss r Received /\ forall pr, tb_build cover (tb_run t ss [TBReveal r Received]) <> Ok pr.
Proof. exact element_stuck. Qed.
Print Assumptions C78_array_element_refuted.
(** A covering procedure exists. *)
Example C78_cover_ex : cover_ok simple_cover.
Proof. exact simple_cover_ok. Qed.
