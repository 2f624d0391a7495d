(** Model of transcript commitments and transcript proofs:
    crates/core/src/hash.rs, transcript/hash.rs, transcript/commit.rs and
    transcript/proof.rs. *)
From Verif.Lib Require Import Base Ranges.
From Verif Require Import TranscriptModel.

(** ** Hashes *)

(** hash.rs:59-66 [HashAlgId] (a u8) and its built-in values. *)
Definition alg_id := N.
Definition SHA256 : alg_id := 1%N.
Definition BLAKE3 : alg_id := 2%N.
Definition KECCAK256 : alg_id := 3%N.

(** hash.rs:78-82 [HashAlgId::new]: panics in the reserved range. *)
Definition alg_id_new (id : N) : panicky alg_id := if (128 <=? id)%N then Ok id else Panic.

(** hash.rs:96-113 [TypedHash] / [Hash]. A [Hash] is a zero padded 64 byte array
    with a length; it is modelled by its significant bytes. *)
Record typed_hash := TypedHash { th_alg : alg_id; th_value : list N }.
Global Instance typed_hash_eq_dec : EqDecision typed_hash.
Proof. solve_decision. Defined.

(** hash.rs:222-232 trait [HashAlgorithm]: an identifier and a hash function.
    [hash_prefixed p d] is the hash of [p] followed by [d] (287-352). *)
Record hasher := Hasher { h_id : alg_id; h_hash : list N -> list N }.
(** hash.rs:17-20 [HashProvider]: a map from identifiers to algorithms. *)
Definition hash_provider := alg_id -> option hasher.

(** hash.rs:22-32 [HashProvider::default], over given implementations of the
    three primitives. *)
Definition default_provider (sha256 blake3 keccak : list N -> list N) : hash_provider := fun a =>
  if (a =? SHA256)%N then Some (Hasher SHA256 sha256)
  else if (a =? BLAKE3)%N then Some (Hasher BLAKE3 blake3)
  else if (a =? KECCAK256)%N then Some (Hasher KECCAK256 keccak)
  else None.
(** hash.rs:38-44 [set_algorithm]. *)
Definition set_algorithm (P : hash_provider) (id : alg_id) (h : hasher) : hash_provider :=
  fun a => if (a =? id)%N then Some h else P a.

(** transcript/hash.rs:13-18 [hash_plaintext]: [H(msg | blinder)]. *)
Definition hash_plaintext (h : hasher) (msg blinder : list N) : typed_hash :=
  TypedHash (h_id h) (h_hash h (msg ++ blinder)).

(** transcript/hash.rs:22-29 [PlaintextHash]; commit.rs:38-41 [TranscriptCommitment]
    has this single variant. *)
Record commitment := Commitment { cm_dir : direction; cm_idx : rangeset; cm_hash : typed_hash }.
Global Instance commitment_eq_dec : EqDecision commitment.
Proof. solve_decision. Defined.

(** transcript/hash.rs:33-42 [PlaintextHashSecret] (blinder: 16 bytes, hash.rs:236). *)
Record secret := Secret {
  sc_dir : direction; sc_idx : rangeset; sc_alg : alg_id; sc_blinder : list N }.

(** ** Commitment configuration (commit.rs) *)

(** commit.rs:19-25: the only kind is a hash commitment with some algorithm. *)
Definition commit_entry := (direction * rangeset * alg_id)%type.
Global Instance commit_entry_eq_dec : EqDecision commit_entry.
Proof. unfold commit_entry. solve_decision. Defined.

(** commit.rs:90-94 [TranscriptCommitConfigBuilder]. The hash set is a list
    without duplicates; its iteration order is left open, see [cfg_build]. *)
Record cfg_builder := CfgBuilder {
  cb_transcript : transcript; cb_default : alg_id; cb_commits : list commit_entry }.
(** commit.rs:98-106 [new]. *)
Definition cfg_new (t : transcript) : cfg_builder := CfgBuilder t BLAKE3 [].
(** commit.rs:109-112 [default_kind]. *)
Definition cfg_default_kind (b : cfg_builder) (a : alg_id) : cfg_builder :=
  CfgBuilder (cb_transcript b) a (cb_commits b).
(** [HashSet::insert]. *)
Definition set_insert {A} `{EqDecision A} (x : A) (l : list A) : list A :=
  if bool_decide (x ∈ l) then l else x :: l.
(** commit.rs:130-151 [commit_with_kind_inner]; the [Err(Index)] is [None]. *)
Definition cfg_commit_inner (b : cfg_builder) (idx : rangeset) (d : direction) (a : alg_id)
  : option cfg_builder :=
  if t_len (cb_transcript b) d <? rs_end idx then None
  else Some (CfgBuilder (cb_transcript b) (cb_default b) (set_insert (d, idx, a) (cb_commits b))).
(** commit.rs:121-128 [commit_with_kind], 159-169 [commit], 176-201
    [commit_sent]/[commit_recv]: ranges are first collected into a range set. *)
Definition cfg_commit_with_kind (b : cfg_builder) (ranges : list range) (d : direction) (a : alg_id) :=
  cfg_commit_inner b (rs_from ranges) d a.
Definition cfg_commit (b : cfg_builder) (ranges : list range) (d : direction) :=
  cfg_commit_inner b (rs_from ranges) d (cb_default b).
(** commit.rs:204-208 [build]: the entries in some order. *)
Definition cfg_build (b : cfg_builder) (cfg : list commit_entry) : Prop := cfg ≡ₚ cb_commits b.
(** commit.rs:64-68 [has_hash]. *)
Definition cfg_has_hash (cfg : list commit_entry) : bool := match cfg with [] => false | _ => true end.
(** commit.rs:78-85 [to_request] via 71-75 [iter_hash]. *)
Definition cfg_to_request (cfg : list commit_entry) : list commit_entry :=
  map (fun '(d, idx, a) => (d, idx, a)) cfg.

(** One call on the builder. *)
Inductive cfg_call :=
| CfgDefault (a : alg_id)
| CfgCommit (ranges : list range) (d : direction)
| CfgCommitKind (ranges : list range) (d : direction) (a : alg_id).
(** A caller that ignores errors and goes on with the builder. *)
Definition cfg_step (b : cfg_builder) (c : cfg_call) : cfg_builder :=
  match c with
  | CfgDefault a => cfg_default_kind b a
  | CfgCommit r d => match cfg_commit b r d with Some b' => b' | None => b end
  | CfgCommitKind r d a => match cfg_commit_with_kind b r d a with Some b' => b' | None => b end
  end.
Definition cfg_run (t : transcript) (cs : list cfg_call) : cfg_builder :=
  fold_left cfg_step cs (cfg_new t).

(** ** Transcript proofs (proof.rs) *)

(** proof.rs:36-40 [TranscriptProof]. *)
Record tproof := TProof { tp_transcript : partial; tp_secrets : list secret }.

(** proof.rs:163-167 [ErrorKind]. *)
Inductive proof_error := HashError | ProofError.

Definition lift_panic {E A} (m : panicky A) : outcome E A :=
  match m with Ok a => Ok a | Err e => match e with end | Panic => Panic end.

(** proof.rs:83-125: the loop over the openings, threading the two sets of
    authenticated positions. *)
Fixpoint verify_secrets (P : hash_provider) (cs : list commitment) (p : partial)
    (ss : list secret) (auth_s auth_r : rangeset) : outcome proof_error (rangeset * rangeset) :=
  match ss with
  | [] => Ok (auth_s, auth_r)
  | s :: ss' =>
      match P (sc_alg s) with
      | None => Err HashError
      | Some h =>
          let plaintext := p_data p (sc_dir s) in
          if length plaintext <? rs_end (sc_idx s) then Err HashError
          else
            let! buffer := lift_panic (index_concat plaintext (sc_idx s)) in
            let expected := Commitment (sc_dir s) (sc_idx s) (hash_plaintext h buffer (sc_blinder s)) in
            if bool_decide (expected ∈ cs) then
              match sc_dir s with
              | Sent => verify_secrets P cs p ss' (rs_union auth_s (sc_idx s)) auth_r
              | Received => verify_secrets P cs p ss' auth_s (rs_union auth_r (sc_idx s))
              end
            else Err HashError
      end
  end.

(** proof.rs:54-141 [TranscriptProof::verify_with_provider]. *)
Definition verify_tproof (P : hash_provider) (len : transcript_length) (cs : list commitment)
    (pr : tproof) : outcome proof_error partial :=
  let p := tp_transcript pr in
  if negb (N.of_nat (length (p_sent p)) =? tl_sent len)%N
     || negb (N.of_nat (length (p_recv p)) =? tl_recv len)%N
  then Err ProofError
  else
    let! auth := verify_secrets P cs p (tp_secrets pr) [] [] in
    if negb (rs_eqb (fst auth) (p_sent_idx p)) || negb (rs_eqb (snd auth) (p_recv_idx p))
    then Err ProofError
    else Ok p.

(** proof.rs:23-33 [DEFAULT_COMMITMENT_KINDS]. *)
Definition default_kinds : list alg_id := [SHA256; BLAKE3; KECCAK256].

(** proof.rs:227-235 [TranscriptProofBuilder]; proof.rs:185-189 [QueryIdx] inlined. *)
Record tp_builder := TPBuilder {
  tb_kinds : list alg_id;
  tb_transcript : transcript;
  tb_secrets : list secret;
  tb_committed_sent : rangeset;
  tb_committed_recv : rangeset;
  tb_query_sent : rangeset;
  tb_query_recv : rangeset;
}.

(** proof.rs:242-256: the union of the committed indices of a direction. *)
Fixpoint committed_union (d : direction) (ss : list secret) (acc : rangeset) : rangeset :=
  match ss with
  | [] => acc
  | s :: ss' =>
      committed_union d ss' (if bool_decide (sc_dir s = d) then rs_union acc (sc_idx s) else acc)
  end.
(** proof.rs:238-266 [new]. *)
Definition tb_new (t : transcript) (ss : list secret) : tp_builder :=
  TPBuilder default_kinds t ss (committed_union Sent ss []) (committed_union Received ss []) [] [].

(** proof.rs:274-278: keep the first occurrence of each kind. *)
Fixpoint dedup_kinds (seen kinds : list alg_id) : list alg_id :=
  match kinds with
  | [] => []
  | k :: ks => if bool_decide (k ∈ seen) then dedup_kinds seen ks else k :: dedup_kinds (k :: seen) ks
  end.
(** proof.rs:270-281 [commitment_kinds]. *)
Definition tb_set_kinds (b : tp_builder) (kinds : list alg_id) : tp_builder :=
  match kinds with
  | [] => b
  | _ => TPBuilder (dedup_kinds [] kinds) (tb_transcript b) (tb_secrets b) (tb_committed_sent b)
           (tb_committed_recv b) (tb_query_sent b) (tb_query_recv b)
  end.

(** proof.rs:481-497 [BuilderErrorKind]; [NotSupported] is unreachable with the
    single commitment kind. *)
Inductive builder_error :=
| IndexErr | MissingCommitment | CoverErr (uncovered_sent uncovered_recv : rangeset).

(** proof.rs:297-332 [reveal_inner]. *)
Definition tb_reveal_inner (b : tp_builder) (idx : rangeset) (d : direction)
  : outcome builder_error tp_builder :=
  if t_len (tb_transcript b) d <? rs_end idx then Err IndexErr
  else
    let committed := match d with Sent => tb_committed_sent b | Received => tb_committed_recv b end in
    if rs_subset idx committed then
      Ok (match d with
          | Sent => TPBuilder (tb_kinds b) (tb_transcript b) (tb_secrets b) (tb_committed_sent b)
                      (tb_committed_recv b) (rs_union (tb_query_sent b) idx) (tb_query_recv b)
          | Received => TPBuilder (tb_kinds b) (tb_transcript b) (tb_secrets b) (tb_committed_sent b)
                      (tb_committed_recv b) (tb_query_sent b) (rs_union (tb_query_recv b) idx)
          end)
    else Err MissingCommitment.
(** proof.rs:289-295 [reveal], 339-356 [reveal_sent]/[reveal_recv]. *)
Definition tb_reveal (b : tp_builder) (ranges : list range) (d : direction) :=
  tb_reveal_inner b (rs_from ranges) d.

(** One call on the proof builder, by a caller that ignores errors. *)
Inductive tb_call := TBKinds (ks : list alg_id) | TBReveal (ranges : list range) (d : direction).
Definition tb_step (b : tp_builder) (c : tb_call) : tp_builder :=
  match c with
  | TBKinds ks => tb_set_kinds b ks
  | TBReveal r d => match tb_reveal b r d with Ok b' => b' | _ => b end
  end.
Definition tb_run (t : transcript) (ss : list secret) (cs : list tb_call) : tp_builder :=
  fold_left tb_step cs (tb_new t ss).

(** [cover_by] of the external rangeset crate: selects some of the candidates and
    returns what they leave uncovered. *)
Definition cover_fn := rangeset -> list secret -> list secret * rangeset.

Section Build.
  Context (cover : cover_fn).
  (** proof.rs:371-417: the loop over the commitment kinds. *)
  Fixpoint cover_loop (ss : list secret) (kinds : list alg_id) (us ur : rangeset) (acc : list secret)
    : list secret * (rangeset * rangeset) :=
    if rs_empty us && rs_empty ur then (acc, (us, ur))
    else
      match kinds with
      | [] => (acc, (us, ur))
      | a :: kinds' =>
          let '(sent_hashes, us') :=
            cover us (filter (fun s => sc_dir s = Sent /\ sc_alg s = a) ss) in
          let '(recv_hashes, ur') :=
            cover ur (filter (fun s => sc_dir s = Received /\ sc_alg s = a) ss) in
          cover_loop ss kinds' us' ur' (acc ++ sent_hashes ++ recv_hashes)
      end.
  (** proof.rs:359-429 [build]. *)
  Definition tb_build (b : tp_builder) : outcome builder_error tproof :=
    let! p := lift_panic (to_partial (tb_transcript b) (tb_query_sent b) (tb_query_recv b)) in
    let '(hs, (us, ur)) :=
      cover_loop (tb_secrets b) (tb_kinds b) (tb_query_sent b) (tb_query_recv b) [] in
    if negb (rs_empty us && rs_empty ur) then Err (CoverErr us ur)
    else Ok (TProof p hs).
End Build.

(** A concrete covering function: one pass over the candidates that are subsets of
    the query, taking each that covers something new. (The crate picks greedily by
    size; the order does not change what ends up covered.) *)
Fixpoint simple_cover_go (q : rangeset) (cs : list secret) (unc : rangeset) : list secret * rangeset :=
  match cs with
  | [] => ([], unc)
  | c :: cs' =>
      if rs_subset (sc_idx c) q && negb (rs_eqb (rs_diff unc (sc_idx c)) unc)
      then let '(sel, u) := simple_cover_go q cs' (rs_diff unc (sc_idx c)) in (c :: sel, u)
      else simple_cover_go q cs' unc
  end.
Definition simple_cover : cover_fn := fun q cs => simple_cover_go q cs q.
