(** Model of crates/tlsn/src/map.rs, transcript_internal/auth.rs,
    transcript_internal/commit/hash.rs, prover/prove.rs and verifier/verify.rs: how plaintext is
    disclosed and committed.

    The virtual machine ([mpz_vm_core::Vm], a two party protocol whose sources are not part of the
    repository) is replaced by what it is meant to compute: one memory shared by both parties, in
    which every call is evaluated at once. The value of a cell that is private to the prover
    ([mark_blind] on the side of the verifier) is chosen by the prover: it is given by an arbitrary
    function of its address. Decoding returns the value in the memory. Visibility markers and commits
    only matter for which party provides a value, and are kept as comments. The key and the IV are
    values that the parties computed during the handshake. *)
From Verif.Lib Require Import Base Ranges.
From Verif Require Import TranscriptModel ProofModel CodecModel AttestModel TlsModel.

(** ** Memory *)
Notation mem := (list N).
(** [Vector<U8>]: a base address and a length. *)
Record vref := VRef { v_base : nat; v_len : nat }.
Global Instance vref_eq_dec : EqDecision vref.
Proof. solve_decision. Defined.
(** [Vector::get]. *)
Definition vref_get (r : vref) (a b : nat) : option vref :=
  if (a <=? b) && (b <=? v_len r) then Some (VRef (v_base r + a) (b - a)) else None.

(** auth.rs:445-460, the errors of this module; [AVm] is an error returned by the virtual machine. *)
Inductive auth_error := AVm | AOutOfBounds | AInvalidPlaintext.

(** [alloc_vec]; also the result of a [call], which comes with its value. *)
Definition vm_push (m : mem) (d : list N) : mem * vref := (m ++ d, VRef (length m) (length d)).
Definition vm_alloc (m : mem) (n : nat) : mem * vref := vm_push m (replicate n 0%N).
(** [assign]: an error unless the data has the length of the reference. *)
Definition vm_assign (m : mem) (r : vref) (d : list N) : outcome auth_error mem :=
  match put m (v_base r) (v_base r + v_len r) d with Some m' => Ok m' | None => Err AVm end.
(** [decode] followed by [try_recv]. *)
Definition vm_read (m : mem) (r : vref) : outcome auth_error (list N) :=
  match slice m (v_base r) (v_base r + v_len r) with Some d => Ok d | None => Err AVm end.
(** [mark_blind]: the value comes from the prover. *)
Definition vm_blind (wit : nat -> N) (m : mem) (r : vref) : outcome auth_error mem :=
  vm_assign m r (map wit (seq (v_base r) (v_len r))).

(** ** Range maps (map.rs) *)
(** map.rs:7-9 [RangeMap], for references to bytes (transcript_internal.rs:9). *)
Notation refmap := (list (nat * vref)).

(** The loop of [slice::binary_search_by] of the Rust library, on the keys: [base] is the last
    candidate, [size] the number of candidates left. *)
Fixpoint bsearch_go (fuel : nat) (keys : list nat) (x base size : nat) : nat :=
  match fuel with
  | O => base
  | S fuel' =>
      if size <=? 1 then base
      else
        let half := size / 2 in
        let mid := base + half in
        let base' := if x <? nth mid keys 0 then base else mid in
        bsearch_go fuel' keys x base' (size - half)
  end.
(** [inl i] is [Ok(i)] (found), [inr i] is [Err(i)] (where to insert). *)
Definition binary_search (keys : list nat) (x : nat) : nat + nat :=
  match keys with
  | [] => inr 0
  | _ =>
      let base := bsearch_go (length keys) keys x 0 (length keys) in
      let k := nth base keys 0 in
      if k =? x then inl base else inr (if k <? x then base + 1 else base)
  end.
(** map.rs:48-52 and 62-66: the item with the greatest start that is not after [x]. *)
Definition map_pos (m : refmap) (x : nat) : option nat :=
  match binary_search (map fst m) x with
  | inl i => Some i
  | inr 0 => None
  | inr (S i) => Some i
  end.
(** map.rs:42-57 [get]. *)
Definition map_get (m : refmap) (a b : nat) : panicky (option vref) :=
  if b <=? a then Ok None
  else match map_pos m a with
       | None => Ok None
       | Some pos =>
           let! (base, item) := or_panic (m !! pos) in
           if a <? base then Panic else Ok (vref_get item (a - base) (b - base))
       end.
(** map.rs:59-85 [index]. *)
Fixpoint map_index (m : refmap) (idx : rangeset) : panicky (option refmap) :=
  match idx with
  | [] => Ok (Some [])
  | (a, b) :: idx' =>
      match map_pos m a with
      | None => Ok None
      | Some pos =>
          match m !! pos with
          | None => Ok None
          | Some (base, item) =>
              if (a <? base) || (base + v_len item <? b) then Ok None
              else
                let start := a - base in
                let! s := or_panic (vref_get item start (start + (b - a))) in
                let! rest := map_index m idx' in
                Ok (match rest with Some r => Some ((a, s) :: r) | None => None end)
          end
      end
  end.
(** map.rs:92-106 [from_iter]: the assertion panics. *)
Fixpoint map_from (pos : nat) (items : list (nat * vref)) : panicky refmap :=
  match items with
  | [] => Ok []
  | (i, item) :: items' =>
      if i <? pos then Panic
      else let! r := map_from (i + v_len item) items' in Ok ((i, item) :: r)
  end.
(** map.rs:29-33 [keys]. *)
Definition map_keys (m : refmap) : list range := map (fun '(i, item) => (i, i + v_len item)) m.

(** ** Authenticating plaintext (auth.rs) *)
(** auth.rs:336-348 [RecordParams]. *)
Record rec_params := RecParams { rp_nonce : list N; rp_len : nat }.
Definition rec_params_of (rs : list tls_record) : list rec_params :=
  map (fun r => RecParams (r_nonce r) (length (r_ct r))) rs.

Definition xor_bytes (a b : list N) : list N := zip_with N.lxor a b.

(** auth.rs:165-185 [alloc_plaintext] and 211-219: consecutive pieces of one vector, one for each
    range. *)
Fixpoint pieces (v : vref) (pos : nat) (ranges : rangeset) : panicky (list (nat * vref)) :=
  match ranges with
  | [] => Ok []
  | (a, b) :: t =>
      let! chunk := or_panic (vref_get v pos (pos + (b - a))) in
      let! rest := pieces v (pos + (b - a)) t in
      Ok ((a, chunk) :: rest)
  end.
Definition piece_map (v : vref) (ranges : rangeset) : panicky refmap :=
  let! items := pieces v 0 ranges in map_from 0 items.
Definition alloc_plaintext (m : mem) (ranges : rangeset) : outcome auth_error (mem * refmap) :=
  if rs_len ranges =? 0 then Ok (m, [])
  else
    let (m', v) := vm_alloc m (rs_len ranges) in
    let! r := lift_panic (piece_map v ranges) in
    Ok (m', r).

Section Auth.
  (** The AES-128 block function: key and block. *)
  Context (aes : list N -> list N -> list N).
  (** Whether the rangeset crate says that the empty set equals the range [0..0] (only needed for
      empty transcripts). *)
  Context (empty_eq : bool).
  Context (key iv : list N).

  (** auth.rs:291-305 [alloc_explicit_nonce]. *)
  Definition alloc_nonce (m : mem) (nonce : list N) : outcome auth_error (mem * vref) :=
    let (m1, r) := vm_alloc m 8 in
    let! m2 := vm_assign m1 r nonce in
    Ok (m2, r).

  (** auth.rs:307-334 [alloc_block]; the counter is a u32 (its addition overflows, and panics in debug
      builds, only for records of 64 GiB). *)
  Definition alloc_block (m : mem) (nonce : vref) (block : nat) : outcome auth_error (mem * vref) :=
    let (m1, ctr) := vm_alloc m 4 in
    let! m2 := vm_assign m1 ctr (be 4 (2 + N.of_nat block)) in
    let! n := vm_read m2 nonce in
    let! c := vm_read m2 ctr in
    Ok (vm_push m2 (aes key (iv ++ n ++ c))).

  (** auth.rs:237-283: the ranges that touch one record at offset [pos]. The pair of [current_range]
      and [range_iter] is the list of ranges that are left, the first one possibly cut. [nonce] and
      [blk] are the cached references; a cached block that is used a second time is taken out of the
      cache ([take]). The result says whether the ranges were used up. *)
  Fixpoint ks_record (fuel : nat) (pos : nat) (r : rec_params) (nonce : option vref)
      (blk : option (nat * vref)) (m : mem) (ks : list vref) (ranges : rangeset)
    : outcome auth_error (bool * mem * list vref * rangeset) :=
    match fuel with
    | O => Panic
    | S fuel' =>
        match ranges with
        | [] => Ok (true, m, ks, [])
        | (a, b) :: t =>
            let rend := pos + rp_len r in
            if rend <=? a then Ok (false, m, ks, ranges)
            else if a <? pos then Panic
            else
              let off := a - pos in
              let! (m1, n) := match nonce with
                              | Some n => Ok (m, n)
                              | None => alloc_nonce m (rp_nonce r)
                              end in
              let num := off / 16 in
              let! (m2, bl, blk') :=
                match blk with
                | Some (num', bl) =>
                    if num' =? num then Ok (m1, bl, None)
                    else let! (m2, bl) := alloc_block m1 n num in Ok (m2, bl, Some (num, bl))
                | None => let! (m2, bl) := alloc_block m1 n num in Ok (m2, bl, Some (num, bl))
                end in
              let start := off mod 16 in
              let len := Nat.min (Nat.min b rend - a) (16 - start) in
              let! piece := or_panic (vref_get bl start (start + len)) in
              let ranges' := if a + len <? b then (a + len, b) :: t else t in
              ks_record fuel' pos r (Some n) blk' m2 (ks ++ [piece]) ranges'
        end
    end.

  (** auth.rs:222-289 [alloc_keystream]. *)
  Fixpoint alloc_keystream (pos : nat) (rs : list rec_params) (m : mem) (ks : list vref) (ranges : rangeset)
    : outcome auth_error (mem * list vref) :=
    match rs with
    | [] => Err AOutOfBounds
    | r :: rs' =>
        let! (done, m', ks', ranges') := ks_record (S (rs_len ranges)) pos r None None m ks ranges in
        if (done : bool) then Ok (m', ks') else alloc_keystream (pos + rp_len r) rs' m' ks' ranges'
    end.

  (** The arguments of a call, concatenated. *)
  Fixpoint vm_read_all (m : mem) (rs : list vref) : outcome auth_error (list N) :=
    match rs with
    | [] => Ok []
    | r :: rs' => let! d := vm_read m r in let! t := vm_read_all m rs' in Ok (d ++ t)
    end.

  (** auth.rs:187-220 [alloc_ciphertext]; a call whose arguments do not fit the circuit panics. *)
  Definition alloc_ciphertext (m : mem) (plain : refmap) (rs : list rec_params) : outcome auth_error (mem * refmap) :=
    match plain with
    | [] => Ok (m, [])
    | _ =>
        let ranges := rs_from (map_keys plain) in
        let! (m1, ks) := alloc_keystream 0 rs m [] ranges in
        let! p := vm_read_all m1 (map snd plain) in
        let! k := vm_read_all m1 ks in
        if negb ((length p =? rs_len ranges) && (length k =? rs_len ranges)) then Panic
        else
          let (m2, v) := vm_push m1 (xor_bytes p k) in
          let! r := lift_panic (piece_map v ranges) in
          Ok (m2, r)
    end.

  Definition reveals_all (reveal : rangeset) (n : nat) : bool :=
    bool_decide (reveal = [(0, n)]) || (empty_eq && (n =? 0) && rs_empty reveal).

  (** Assign [plaintext[range]] to each piece. *)
  Fixpoint assign_plain (m : mem) (plain : list N) (refs : refmap) : outcome auth_error mem :=
    match refs with
    | [] => Ok m
    | (i, r) :: refs' =>
        let! d := or_panic (slice plain i (i + v_len r)) in
        let! m' := vm_assign m r d in
        assign_plain m' plain refs'
    end.
  Fixpoint blind_all (wit : nat -> N) (m : mem) (refs : refmap) : outcome auth_error mem :=
    match refs with
    | [] => Ok m
    | (_, r) :: refs' => let! m' := vm_blind wit m r in blind_all wit m' refs'
    end.

  (** auth.rs:392-405 [ProofInner]. *)
  Inductive plain_proof :=
  | WithKey (rs : list rec_params) (plain ct : list N)
  | WithZk (cts : list (list N * vref)).

  (** auth.rs:155-161: what the ciphertexts have to be. *)
  Fixpoint expected_cts (ct : list N) (refs : refmap) : panicky (list (list N * vref)) :=
    match refs with
    | [] => Ok []
    | (i, r) :: refs' =>
        let! d := or_panic (slice ct i (i + v_len r)) in
        let! t := expected_cts ct refs' in
        Ok ((d, r) :: t)
    end.

  (** [index(..).expect("all ranges are allocated")] *)
  Definition index_expect (refs : refmap) (idx : rangeset) : outcome auth_error refmap :=
    let! o := lift_panic (map_index refs idx) in or_panic o.

  (** auth.rs:85-163 [verify_plaintext]. *)
  Definition verify_plaintext (wit : nat -> N) (m : mem) (plain ct : list N) (records : list tls_record)
      (reveal commit : rangeset) : outcome auth_error (mem * refmap * plain_proof) :=
    let all := reveals_all reveal (length plain) in
    let ranges := if all then commit else rs_union commit reveal in
    let! (m1, refs) := alloc_plaintext m ranges in
    let rs := rec_params_of records in
    if all then
      let! m2 := assign_plain m1 plain refs in
      Ok (m2, refs, WithKey rs plain ct)
    else
      let private := rs_diff commit reveal in
      let! hidden := index_expect refs private in
      let! m2 := blind_all wit m1 hidden in
      let! shown := index_expect refs reveal in
      let! m3 := assign_plain m2 plain shown in
      let! (m4, cts) := alloc_ciphertext m3 refs rs in
      let! ex := lift_panic (expected_cts ct cts) in
      Ok (m4, refs, WithZk ex).

  (** auth.rs:20-82 [prove_plaintext], the program of the prover. *)
  Definition prove_plaintext (m : mem) (plain : list N) (records : list tls_record)
      (reveal commit : rangeset) : outcome auth_error (mem * refmap) :=
    let all := reveals_all reveal (length plain) in
    let ranges := if all then commit else rs_union commit reveal in
    let! (m1, refs) := alloc_plaintext m ranges in
    let rs := rec_params_of records in
    if all then
      let! m2 := assign_plain m1 plain refs in
      Ok (m2, refs)
    else
      let private := rs_diff commit reveal in
      let! _ := index_expect refs private in
      let! _ := index_expect refs reveal in
      let! m2 := assign_plain m1 plain refs in
      let! (m3, _) := alloc_ciphertext m2 refs rs in
      Ok (m3, refs).

  (** The key stream of [Ctr32BE<Aes128>] for one record, after [try_seek(2 * 16)]: [n] bytes from
      block [ctr]. *)
  Fixpoint ctr_stream (fuel : nat) (nonce : list N) (ctr : N) : list N :=
    match fuel with
    | O => []
    | S fuel' => aes key (iv ++ nonce ++ be 4 ctr) ++ ctr_stream fuel' nonce (ctr + 1)
    end.
  (** auth.rs:407-418 [aes_ctr_apply_keystream]; [explicit_nonce[..8]] panics when it is shorter. *)
  Definition apply_keystream (nonce input : list N) : panicky (list N) :=
    let! n := or_panic (slice nonce 0 8) in
    Ok (xor_bytes input (ctr_stream (length input / 16 + 1) n 2)).

  (** auth.rs:420-443 [verify_plaintext_with_key]. *)
  Fixpoint verify_with_key (pos : nat) (rs : list rec_params) (plain ct : list N) : outcome auth_error unit :=
    match rs with
    | [] => Ok tt
    | r :: rs' =>
        let! text := or_panic (slice plain pos (pos + rp_len r)) in
        let! text' := lift_panic (apply_keystream (rp_nonce r) text) in
        let! c := or_panic (slice ct pos (pos + rp_len r)) in
        if bool_decide (text' = c) then verify_with_key (pos + rp_len r) rs' plain ct
        else Err AInvalidPlaintext
    end.

  (** auth.rs:353-390 [PlaintextProof::verify], after the execution of the machine. *)
  Fixpoint verify_cts (m : mem) (cts : list (list N * vref)) : outcome auth_error unit :=
    match cts with
    | [] => Ok tt
    | (e, r) :: cts' =>
        let! a := vm_read m r in
        if bool_decide (a = e) then verify_cts m cts' else Err AInvalidPlaintext
    end.
  Definition plain_proof_verify (m : mem) (p : plain_proof) : outcome auth_error unit :=
    match p with
    | WithKey rs plain ct => verify_with_key 0 rs plain ct
    | WithZk cts => verify_cts m cts
    end.
End Auth.

(** ** Hash commitments (commit/hash.rs) *)
Section Verify.
  Context (aes : list N -> list N -> list N) (empty_eq : bool).
  (** commit/hash.rs:147-222: the hash functions evaluated by the machine, by algorithm; [None] is an
      unsupported algorithm. *)
  Context (vm_hash : alg_id -> option (list N -> list N)).
  Context (wit : nat -> N).

  (** verify.rs:31-33, prove.rs: the errors. *)
  Inductive verify_error :=
  | VNoTranscript | VLength | VAuthData | VCertificate | VPlaintext (e : auth_error) | VHash.
  Definition auth_lift {A} (x : outcome auth_error A) : outcome verify_error A := map_err VPlaintext x.

  (** commit/hash.rs:163-165: the pieces of the plaintext that are hashed. *)
  Fixpoint gather (refs : refmap) (idx : rangeset) : outcome auth_error (list vref) :=
    match idx with
    | [] => Ok []
    | (a, b) :: t =>
        let! o := lift_panic (map_get refs a b) in
        let! r := or_panic o in
        let! rest := gather refs t in
        Ok (r :: rest)
    end.

  (** commit/hash.rs:94-111 [verify_hash] through 124-231 [hash_commit_inner] and 42-60 [try_recv].
      The initial state of a hasher that is put into the memory is left out. *)
  Fixpoint verify_hash (m : mem) (sent recv : refmap) (idxs : list commit_entry)
    : outcome verify_error (mem * list commitment) :=
    match idxs with
    | [] => Ok (m, [])
    | (d, idx, a) :: idxs' =>
        let (m1, blinder) := vm_alloc m 16 in
        let! m2 := auth_lift (vm_blind wit m1 blinder) in
        match vm_hash a with
        | None => Err VHash
        | Some h =>
            let! rs := auth_lift (gather (match d with Sent => sent | Received => recv end) idx) in
            let! msg := auth_lift (vm_read_all m2 rs) in
            let! bl := auth_lift (vm_read m2 blinder) in
            let (m3, _) := vm_push m2 (h (msg ++ bl)) in
            let! (m4, rest) := verify_hash m3 sent recv idxs' in
            Ok (m4, Commitment d idx (TypedHash a (h (msg ++ bl))) :: rest)
        end
    end.

  (** ** The verifier (verify.rs) *)
  (** [SessionKeys] as far as used here. *)
  Record session_keys := SessionKeys {
    sk_client_key : list N; sk_client_iv : list N; sk_server_key : list N; sk_server_iv : list N }.
  (** core config/prove.rs:159-165 [ProveRequest]. *)
  Record prove_request := ProveRequest {
    pq_identity : bool; pq_reveal : option (rangeset * rangeset); pq_commit : option (list commit_entry) }.
  (** core lib.rs [VerifierOutput]. *)
  Record verifier_output := VerifierOutput {
    vo_name : option server_name; vo_transcript : option partial; vo_commitments : list commitment }.

  Definition is_app (r : tls_record) : bool := bool_decide (r_typ r = ApplicationData).
  Definition app_records (rs : list tls_record) : list tls_record := List.filter is_app rs.
  (** verify.rs:191-200 [collect_ciphertext]. *)
  Fixpoint collect_ciphertext (rs : list tls_record) : list N :=
    match rs with
    | [] => []
    | r :: rs' => if is_app r then r_ct r ++ collect_ciphertext rs' else collect_ciphertext rs'
    end.
  (** verify.rs:94-103, prove.rs:34-43: the union of the committed indices of a direction. *)
  Fixpoint commit_union (d : direction) (cs : list commit_entry) (acc : rangeset) : rangeset :=
    match cs with
    | [] => acc
    | (d', idx, _) :: cs' => commit_union d cs' (if bool_decide (d' = d) then rs_union acc idx else acc)
    end.

  (** verify.rs:37-66. *)
  Definition check_transcript (rq : prove_request) (t : option partial) (ns nr : nat)
    : outcome verify_error partial :=
    match pq_reveal rq with
    | None => Ok (partial_new ns nr)
    | Some (auth_sent, auth_recv) =>
        match t with
        | None => Err VNoTranscript
        | Some p =>
            if negb (length (p_sent p) =? ns) || negb (length (p_recv p) =? nr) then Err VLength
            else if negb (rs_eqb (p_sent_idx p) auth_sent) then Err VAuthData
            else if negb (rs_eqb (p_recv_idx p) auth_recv) then Err VAuthData
            else Ok p
        end
    end.

  (** verify.rs:22-189 [verify]. *)
  Definition verify (cv : cert_verifier) (keys : session_keys) (m : mem) (tls : tls_transcript)
      (rq : prove_request) (handshake : option (server_name * handshake_data)) (t : option partial)
    : outcome verify_error (mem * verifier_output) :=
    let ct_sent := collect_ciphertext (tt_sent tls) in
    let ct_recv := collect_ciphertext (tt_recv tls) in
    let! p := check_transcript rq t (length ct_sent) (length ct_recv) in
    let! name :=
      match handshake with
      | None => Ok None
      | Some (name, data) =>
          let! _ := map_err (fun _ => VCertificate)
                      (handshake_verify data cv (tt_time tls) (cb_key (tt_binding tls)) name) in
          Ok (Some name)
      end in
    let commits := match pq_commit rq with Some c => c | None => [] end in
    let! (m1, refs_s, proof_s) :=
      auth_lift (verify_plaintext aes empty_eq (sk_client_key keys) (sk_client_iv keys) wit m (p_sent p) ct_sent
        (app_records (tt_sent tls)) (p_sent_idx p) (commit_union Sent commits [])) in
    let! (m2, refs_r, proof_r) :=
      auth_lift (verify_plaintext aes empty_eq (sk_server_key keys) (sk_server_iv keys) wit m1 (p_recv p) ct_recv
        (app_records (tt_recv tls)) (p_recv_idx p) (commit_union Received commits [])) in
    let! (m3, cs) := verify_hash m2 refs_s refs_r commits in
    let! _ := auth_lift (plain_proof_verify aes (sk_client_key keys) (sk_client_iv keys) m3 proof_s) in
    let! _ := auth_lift (plain_proof_verify aes (sk_server_key keys) (sk_server_iv keys) m3 proof_r) in
    Ok (m3, VerifierOutput name (match pq_reveal rq with Some _ => Some p | None => None end) cs).

  (** ** The prover (prove.rs:19-124), with the blinders it draws. *)
  Fixpoint prove_hash (m : mem) (sent recv : refmap) (idxs : list commit_entry) (blinders : nat -> list N)
    : outcome verify_error (mem * list commitment * list secret) :=
    match idxs with
    | [] => Ok (m, [], [])
    | (d, idx, a) :: idxs' =>
        let (m1, blinder) := vm_alloc m 16 in
        match vm_hash a with
        | None => Err VHash
        | Some h =>
            let! rs := auth_lift (gather (match d with Sent => sent | Received => recv end) idx) in
            let! m2 := auth_lift (vm_assign m1 blinder (blinders (length idxs))) in
            let! msg := auth_lift (vm_read_all m2 rs) in
            let! bl := auth_lift (vm_read m2 blinder) in
            let (m3, _) := vm_push m2 (h (msg ++ bl)) in
            let! (m4, cs, ss) := prove_hash m3 sent recv idxs' blinders in
            Ok (m4, Commitment d idx (TypedHash a (h (msg ++ bl))) :: cs,
                Secret d idx a (blinders (length idxs)) :: ss)
        end
    end.
  Definition prove (keys : session_keys) (m : mem) (tls : tls_transcript) (t : transcript)
      (reveal : option (rangeset * rangeset)) (commits : list commit_entry) (blinders : nat -> list N)
    : outcome verify_error (mem * list commitment * list secret) :=
    let (rs, rr) := match reveal with Some p => p | None => ([], []) end in
    let! (m1, refs_s) :=
      auth_lift (prove_plaintext aes empty_eq (sk_client_key keys) (sk_client_iv keys) m (t_sent t)
        (app_records (tt_sent tls)) rs (commit_union Sent commits [])) in
    let! (m2, refs_r) :=
      auth_lift (prove_plaintext aes empty_eq (sk_server_key keys) (sk_server_iv keys) m1 (t_recv t)
        (app_records (tt_recv tls)) rr (commit_union Received commits [])) in
    prove_hash m2 refs_s refs_r commits blinders.
End Verify.
