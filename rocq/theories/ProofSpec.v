(** Specification vocabulary for commitments and transcript proofs. *)
From Verif.Lib Require Import Base Ranges RangesFacts.
From Verif Require Import TranscriptModel TranscriptSpec ProofModel.

(** Every algorithm is registered under its own identifier. *)
Definition provider_ok (P : hash_provider) : Prop := forall a h, P a = Some h -> h_id h = a.

(** [msg] is the string hashed when opening [o] against the plaintext [data]:
    the indexed bytes in order, followed by the blinder. *)
Definition opened_message (data : list N) (o : secret) (msg : list N) : Prop :=
  exists bs, bytes_at data (sc_idx o) bs /\ msg = bs ++ sc_blinder o.

(** [c] is the commitment computed over transcript [t] with the opening [o]. *)
Definition committed_by (P : hash_provider) (t : transcript) (o : secret) (c : commitment) : Prop :=
  exists h msg, P (sc_alg o) = Some h /\ opened_message (t_data t (sc_dir o)) o msg /\
    c = Commitment (sc_dir o) (sc_idx o) (TypedHash (sc_alg o) (h_hash h msg)).

(** The commitments [cs] were all computed honestly over [t] with openings [os]. *)
Definition honest_commitments (P : hash_provider) (t : transcript) (os : list secret)
    (cs : list commitment) : Prop :=
  forall c, c ∈ cs -> exists o, o ∈ os /\ committed_by P t o c.

(** Well-typed openings: canonical index and a 16 byte blinder. *)
Definition secret_ok (s : secret) : Prop := rs_ok (sc_idx s) /\ length (sc_blinder s) = 16.

(** An explicit hash collision between the string opened by the proof for [s] and
    the string committed to with [o]. *)
Definition opening_collision (P : hash_provider) (t : transcript) (os : list secret) (pr : tproof) : Prop :=
  exists s o h x y, s ∈ tp_secrets pr /\ o ∈ os /\ P (sc_alg o) = Some h /\
    opened_message (p_data (tp_transcript pr) (sc_dir s)) s x /\
    opened_message (t_data t (sc_dir o)) o y /\
    x <> y /\ h_hash h x = h_hash h y.

(** The opening [s] is valid for the partial transcript [p]: known algorithm, index
    inside the data, and the commitment it recomputes is one of [cs]. *)
Definition opening_ok (P : hash_provider) (cs : list commitment) (p : partial) (s : secret) : Prop :=
  exists h msg, P (sc_alg s) = Some h /\ valid_idx (length (p_data p (sc_dir s))) (sc_idx s) /\
    opened_message (p_data p (sc_dir s)) s msg /\
    Commitment (sc_dir s) (sc_idx s) (TypedHash (h_id h) (h_hash h msg)) ∈ cs.


(** Everything a verifier must have checked to accept a proof. *)
Definition proof_accepts (P : hash_provider) (len : transcript_length) (cs : list commitment) (pr : tproof) : Prop :=
  let p := tp_transcript pr in
  N.of_nat (length (p_sent p)) = tl_sent len /\ N.of_nat (length (p_recv p)) = tl_recv len /\
  (forall s, s ∈ tp_secrets pr -> opening_ok P cs p s) /\
  (forall d i, in_rs i (p_idx p d) <-> exists s, s ∈ tp_secrets pr /\ sc_dir s = d /\ in_rs i (sc_idx s)).

(** What [cover_by] of the rangeset crate guarantees: it picks candidates that are
    subsets of the query, returns the rest of the query, and leaves nothing
    uncovered that some candidate inside the query contains. *)
Definition cover_ok (cover : cover_fn) : Prop :=
  forall q cs sel unc, rs_ok q -> (forall c, c ∈ cs -> rs_ok (sc_idx c)) -> cover q cs = (sel, unc) ->
    rs_ok unc /\
    (forall c, c ∈ sel -> c ∈ cs /\ forall i, in_rs i (sc_idx c) -> in_rs i q) /\
    (forall i, in_rs i unc <-> in_rs i q /\ forall c, c ∈ sel -> ~ in_rs i (sc_idx c)) /\
    (forall c i, c ∈ cs -> (forall j, in_rs j (sc_idx c) -> in_rs j q) ->
                 in_rs i (sc_idx c) -> ~ in_rs i unc).

(** The ranges revealed so far in direction [d]. *)
Definition tb_query (b : tp_builder) (d : direction) : rangeset :=
  match d with Sent => tb_query_sent b | Received => tb_query_recv b end.

(** A reveal call is acceptable: inside the transcript and inside committed data. *)
Definition revealable (t : transcript) (ss : list secret) (ranges : list range) (d : direction) : Prop :=
  forall i, in_rs i ranges -> i < t_len t d /\ exists s, s ∈ ss /\ sc_dir s = d /\ in_rs i (sc_idx s).

(** The query of direction [d] is a union of committed indices of algorithm [a]. *)
Definition union_of_kind (ss : list secret) (a : alg_id) (d : direction) (q : rangeset) : Prop :=
  forall i, in_rs i q -> exists s, s ∈ ss /\ sc_dir s = d /\ sc_alg s = a /\ in_rs i (sc_idx s) /\
                                   forall j, in_rs j (sc_idx s) -> in_rs j q.
(** The same for algorithms of any of the given kinds. *)
Definition union_of_kinds (ss : list secret) (kinds : list alg_id) (d : direction) (q : rangeset) : Prop :=
  forall i, in_rs i q -> exists s, s ∈ ss /\ sc_dir s = d /\ sc_alg s ∈ kinds /\ in_rs i (sc_idx s) /\
                                   forall j, in_rs j (sc_idx s) -> in_rs j q.

(** The default kind of the configuration builder after some calls. *)
Definition default_after (a : alg_id) (c : cfg_call) : alg_id :=
  match c with CfgDefault a' => a' | _ => a end.
(** The arguments of a commit call, with the default kind filled in. *)
Definition call_args (def : alg_id) (c : cfg_call) : option (list range * direction * alg_id) :=
  match c with
  | CfgDefault _ => None
  | CfgCommit r d => Some (r, d, def)
  | CfgCommitKind r d a => Some (r, d, a)
  end.

(** The kinds of the last call that gave any, or else the default ones. *)
Fixpoint kinds_given (cs : list tb_call) (ks : list alg_id) : list alg_id :=
  match cs with
  | [] => ks
  | TBKinds (k :: ks') :: cs' => kinds_given cs' (k :: ks')
  | _ :: cs' => kinds_given cs' ks
  end.
(** [ks] lists the elements of [xs] once each, in the order of their first occurrence. *)
Definition first_occurrences (xs ks : list alg_id) : Prop :=
  NoDup ks /\ (forall k, k ∈ ks <-> k ∈ xs) /\
  forall pre k post, ks = pre ++ k :: post ->
    exists xpre xpost, xs = xpre ++ k :: xpost /\ k ∉ xpre /\ forall j, j ∈ xpre <-> j ∈ pre.
