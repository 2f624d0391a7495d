(** Model of crates/sdk-core/src/handler/{mod,extract}.rs, prover.rs:377-496 and of the builders in
    crates/core/src/config/prove.rs and crates/core/src/transcript/commit.rs: from handlers to the
    ranges that are revealed and committed, and the openings that are returned.

    The HTTP and JSON parser (spansy) is not in /repo.  A parsed message is a tree of spans; the parser
    itself, the lookup of a JSON path and the comparison of header names are section variables. *)
From Verif.Lib Require Import Base Ranges.
From Verif Require Import TranscriptModel CodecModel.

(** ** Parsed messages (spansy) *)
(** [Header]: its span, the span of its value, and [without_value()]. *)
Record header := Header {
  hd_name : list N; hd_idx : rangeset; hd_value : rangeset; hd_without_value : rangeset }.
(** [JsonValue] and [KeyValue]: the span, and for a pair [without_value()]. *)
Inductive json :=
| JObject (idx : rangeset) (elems : list json_kv)
| JArray (idx : rangeset) (elems : list json)
| JLeaf (idx : rangeset)
with json_kv :=
| KeyVal (key : list N) (idx : rangeset) (value : json) (without_value : rangeset).
Definition json_idx (j : json) : rangeset :=
  match j with JObject i _ | JArray i _ | JLeaf i => i end.
Definition kv_key (x : json_kv) : list N := let (k, _, _, _) := x in k.
Definition kv_idx (x : json_kv) : rangeset := let (_, i, _, _) := x in i.
Definition kv_value (x : json_kv) : json := let (_, _, v, _) := x in v.
Definition kv_without_value (x : json_kv) : rangeset := let (_, _, _, w) := x in w.
(** [Body] with its [BodyContent]: [Some] for JSON. *)
Record body := Body { bd_idx : rangeset; bd_json : option json }.
Record request := Request {
  rq_line : rangeset; rq_method : rangeset; rq_target : rangeset;
  rq_headers : list header; rq_body : option body }.
Record response := Response {
  rp_line : rangeset; rp_code : rangeset; rp_reason : rangeset;
  rp_headers : list header; rp_body : option body }.

(** ** Handlers (types.rs:317-460) *)
Inductive handler_part :=
| StartLine | Protocol | Method | RequestTarget | StatusCode | Headers | BodyPart | AllPart.
Inductive hash_algorithm := Blake3 | Sha256 | Keccak256.
Global Instance hash_algorithm_eq_dec : EqDecision hash_algorithm.
Proof. solve_decision. Defined.
Inductive handler_action := RevealAction | HashAction (a : hash_algorithm).
Global Instance handler_action_eq_dec : EqDecision handler_action.
Proof. solve_decision. Defined.
Record handler_params := HandlerParams {
  hp_key : option (list N); hp_hide_key : option bool; hp_hide_value : option bool;
  hp_type : option (list N); hp_path : option (list N); hp_regex : option (list N) }.
Record handler := Handler {
  hn_type : direction; hn_part : handler_part; hn_action : handler_action;
  hn_params : option handler_params }.

(** error.rs, by message. *)
Inductive sdk_error :=
| BadRequest | BadResponse | RequestsOnly | ResponsesOnly | HideBoth | NotJson | NoPath | PathNotFound
| BadRegex | RevealBounds | CommitBounds | BadState | CountMismatch | PairMismatch.

(** extract.rs:39-43 [enum HttpMessage]. *)
Inductive message := ReqMsg (r : request) | RespMsg (r : response).
(** extract.rs:57-80. *)
Definition msg_headers (m : message) : list header :=
  match m with ReqMsg r => rq_headers r | RespMsg r => rp_headers r end.
Definition msg_body (m : message) : option body :=
  match m with ReqMsg r => rq_body r | RespMsg r => rp_body r end.

(** ASCII ["json"], ["regex"] and ['.']. *)
Definition str_json : list N := [106; 115; 111; 110]%N.
Definition str_regex : list N := [114; 101; 103; 101; 120]%N.
Definition dot : N := 46%N.

(** extract.rs:18-20 [rangeset_to_vec]: the ranges of a set, in order. *)
Definition rangeset_to_vec (s : rangeset) : list range := s.

(** [str::rfind('.')] with the two slices around it. *)
Fixpoint rsplit_dot (p : list N) : option (list N * list N) :=
  match p with
  | [] => None
  | c :: p' =>
      match rsplit_dot p' with
      | Some (a, b) => Some (c :: a, b)
      | None => if (c =? dot)%N then Some ([], p') else None
      end
  end.
(** extract.rs:312-320 [split_json_path]. *)
Definition split_json_path (p : list N) : option (list N * list N) :=
  match p with
  | [] => None
  | _ => match rsplit_dot p with Some x => Some x | None => Some ([], p) end
  end.

(** [params.and_then(|p| p.hide_key).unwrap_or(false)]. *)
Definition flag (ps : option handler_params) (f : handler_params -> option bool) : bool :=
  match ps with Some p => default false (f p) | None => false end.

Section Sdk.
  (** spansy: [parse_request], [parse_response]; [Request::headers_with_name] compares names with
      [name_eq]; [JsonDocument::get]. *)
  Context (parse_request : list N -> option request) (parse_response : list N -> option response).
  Context (name_eq : list N -> list N -> bool).
  Context (json_get : json -> list N -> option json).
  (** regex: [Regex::new] followed by [find_iter]; [None] is an invalid pattern. *)
  Context (regex_find : list N -> list N -> option (list range)).

  (** extract.rs:82-87. *)
  Definition extract_start_line (m : message) : list range :=
    match m with
    | ReqMsg r => rangeset_to_vec (rq_line r)
    | RespMsg r => rangeset_to_vec (rp_line r)
    end.
  (** extract.rs:89-117. *)
  Definition extract_protocol (m : message) : list range :=
    match m with
    | ReqMsg r => rangeset_to_vec (rs_diff (rs_diff (rq_line r) (rq_method r)) (rq_target r))
    | RespMsg r => rangeset_to_vec (rs_diff (rs_diff (rp_line r) (rp_code r)) (rp_reason r))
    end.
  (** extract.rs:119-144. *)
  Definition extract_method (m : message) : outcome sdk_error (list range) :=
    match m with ReqMsg r => Ok (rangeset_to_vec (rq_method r)) | RespMsg _ => Err RequestsOnly end.
  Definition extract_request_target (m : message) : outcome sdk_error (list range) :=
    match m with ReqMsg r => Ok (rangeset_to_vec (rq_target r)) | RespMsg _ => Err RequestsOnly end.
  Definition extract_status_code (m : message) : outcome sdk_error (list range) :=
    match m with ReqMsg _ => Err ResponsesOnly | RespMsg r => Ok (rangeset_to_vec (rp_code r)) end.

  (** extract.rs:174-192 [append_header_ranges]. *)
  Definition header_ranges (hide_key hide_value : bool) (h : header) : list range :=
    if hide_key then rangeset_to_vec (hd_value h)
    else if hide_value then rangeset_to_vec (hd_without_value h)
    else rangeset_to_vec (hd_idx h).
  (** extract.rs:146-172 [extract_headers]. *)
  Definition extract_headers (h : handler) (m : message) : outcome sdk_error (list range) :=
    let hide_key := flag (hn_params h) hp_hide_key in
    let hide_value := flag (hn_params h) hp_hide_value in
    if hide_key && hide_value then Err HideBoth
    else
      let hs := match hn_params h ≫= hp_key with
                | Some key => List.filter (fun x => name_eq (hd_name x) key) (msg_headers m)
                | None => msg_headers m
                end in
      Ok (flat_map (header_ranges hide_key hide_value) hs).

  (** extract.rs:283-299 [extract_kv_ranges]. *)
  Definition extract_kv_ranges (x : json_kv) (hide_key hide_value : bool) : list range :=
    if hide_key then rangeset_to_vec (json_idx (kv_value x))
    else if hide_value then rangeset_to_vec (kv_without_value x)
    else rangeset_to_vec (kv_idx x).
  (** extract.rs:241-252, 265-277: the pair named by a path in the object that holds it. *)
  Definition find_kv (root : json) (path : list N) : option json_kv :=
    match split_json_path path with
    | None => None
    | Some (parent_path, key) =>
        match (match parent_path with [] => Some root | _ => json_get root parent_path end) with
        | Some (JObject _ elems) => List.find (fun x => bool_decide (kv_key x = key)) elems
        | _ => None
        end
    end.
  (** extract.rs:216-281 [extract_json_body]. *)
  Definition extract_json_body (ps : handler_params) (b : body) : outcome sdk_error (list range) :=
    match bd_json b with
    | None => Err NotJson
    | Some root =>
        match hp_path ps with
        | None => Err NoPath
        | Some path =>
            let hide_key := default false (hp_hide_key ps) in
            let hide_value := default false (hp_hide_value ps) in
            if hide_key && hide_value then Err HideBoth
            else
              match (if hide_key || hide_value then find_kv root path else None) with
              | Some x => Ok (extract_kv_ranges x hide_key hide_value)
              | None =>
                  match json_get root path with
                  | None => Err PathNotFound
                  | Some v =>
                      match (if negb hide_key && negb hide_value then find_kv root path else None) with
                      | Some x => Ok (rangeset_to_vec (kv_idx x))
                      | None => Ok (rangeset_to_vec (json_idx v))
                      end
                  end
              end
        end
    end.
  (** extract.rs:194-214 [extract_body]. *)
  Definition extract_body (h : handler) (m : message) : outcome sdk_error (list range) :=
    match msg_body m with
    | None => Ok []
    | Some b =>
        match hn_params h with
        | None => Ok (rangeset_to_vec (bd_idx b))
        | Some ps =>
            if bool_decide (hp_type ps = Some str_json) then extract_json_body ps b
            else Ok (rangeset_to_vec (bd_idx b))
        end
    end.
  (** extract.rs:322-349 [extract_all], [extract_regex]. *)
  Definition extract_all (h : handler) (raw : list N) : outcome sdk_error (list range) :=
    match hn_params h with
    | Some ps =>
        match (if bool_decide (hp_type ps = Some str_regex) then hp_regex ps else None) with
        | Some pattern => opt_err BadRegex (regex_find pattern raw)
        | None => Ok [(0, length raw)]
        end
    | None => Ok [(0, length raw)]
    end.
  (** extract.rs:23-37 [extract_ranges]. *)
  Definition extract_ranges (h : handler) (m : message) (raw : list N) : outcome sdk_error (list range) :=
    match hn_part h with
    | StartLine => Ok (extract_start_line m)
    | Protocol => Ok (extract_protocol m)
    | Method => extract_method m
    | RequestTarget => extract_request_target m
    | StatusCode => extract_status_code m
    | Headers => extract_headers h m
    | BodyPart => extract_body h m
    | AllPart => extract_all h raw
    end.

  (** ** [compute_reveal] (handler/mod.rs:67-146) *)
  (** types.rs:233-278. *)
  Record commit_range := CommitRange { cr_start : nat; cr_end : nat; cr_alg : hash_algorithm }.
  Record commit := Commit { cm_sent : list commit_range; cm_recv : list commit_range }.
  Record reveal := Reveal { rv_sent : list range; rv_recv : list range; rv_identity : bool }.
  (** handler/mod.rs:25-49; [RangeWithHandler] is a range and a handler. *)
  Record reveal_output := RevealOutput {
    ro_reveal : reveal; ro_commit : option commit;
    ro_sent_annot : list (range * handler); ro_recv_annot : list (range * handler) }.

  (** handler/mod.rs:77-82: the six vectors. *)
  Record acc := Acc {
    ac_rs : list range; ac_rr : list range; ac_cs : list commit_range; ac_cr : list commit_range;
    ac_as : list (range * handler); ac_ar : list (range * handler) }.
  (** handler/mod.rs:87-128: one handler. *)
  Definition acc_step (a : acc) (h : handler) (rs : list range) : acc :=
    let annot := map (fun r => (r, h)) rs in
    let a := match hn_type h with
             | Sent => Acc (ac_rs a) (ac_rr a) (ac_cs a) (ac_cr a) (ac_as a ++ annot) (ac_ar a)
             | Received => Acc (ac_rs a) (ac_rr a) (ac_cs a) (ac_cr a) (ac_as a) (ac_ar a ++ annot)
             end in
    match hn_action h with
    | HashAction alg =>
        let crs := map (fun r => CommitRange (fst r) (snd r) alg) rs in
        match hn_type h with
        | Sent => Acc (ac_rs a) (ac_rr a) (ac_cs a ++ crs) (ac_cr a) (ac_as a) (ac_ar a)
        | Received => Acc (ac_rs a) (ac_rr a) (ac_cs a) (ac_cr a ++ crs) (ac_as a) (ac_ar a)
        end
    | RevealAction =>
        match hn_type h with
        | Sent => Acc (ac_rs a ++ rs) (ac_rr a) (ac_cs a) (ac_cr a) (ac_as a) (ac_ar a)
        | Received => Acc (ac_rs a) (ac_rr a ++ rs) (ac_cs a) (ac_cr a) (ac_as a) (ac_ar a)
        end
    end.
  Fixpoint run_handlers (sent_msg recv_msg : message) (sent recv : list N) (hs : list handler) (a : acc)
    : outcome sdk_error acc :=
    match hs with
    | [] => Ok a
    | h :: hs' =>
        let! rs := match hn_type h with
                   | Sent => extract_ranges h sent_msg sent
                   | Received => extract_ranges h recv_msg recv
                   end in
        run_handlers sent_msg recv_msg sent recv hs' (acc_step a h rs)
    end.
  Definition is_nil {A} (l : list A) : bool := match l with [] => true | _ => false end.
  Definition compute_reveal (sent recv : list N) (hs : list handler) : outcome sdk_error reveal_output :=
    let! rq := opt_err BadRequest (parse_request sent) in
    let! rp := opt_err BadResponse (parse_response recv) in
    let! a := run_handlers (ReqMsg rq) (RespMsg rp) sent recv hs (Acc [] [] [] [] [] []) in
    let commit := if is_nil (ac_cs a) && is_nil (ac_cr a) then None
                  else Some (Commit (ac_cs a) (ac_cr a)) in
    Ok (RevealOutput (Reveal (ac_rs a) (ac_rr a) true) commit (ac_as a) (ac_ar a)).
End Sdk.

(** ** The configuration of the proof (prover.rs:377-425) *)
(** types.rs:371-379, core hash.rs:64-68 [HashAlgId]. *)
Definition alg_id_of (a : hash_algorithm) : N :=
  match a with Sha256 => 1 | Blake3 => 2 | Keccak256 => 3 end%N.
(** commit.rs:93: an entry of the set [commits]: direction, indices, algorithm of the kind [Hash]. *)
Definition commit_item : Type := direction * rangeset * N.
(** prove.rs:14-18 [ProveConfig]. *)
Record prove_config := ProveConfig {
  pc_identity : bool; pc_reveal : option (rangeset * rangeset); pc_commit : option (list commit_item) }.

(** prove.rs:95-115 [reveal_inner]. *)
Definition reveal_inner (t : transcript) (d : direction) (r : range) (b : option (rangeset * rangeset))
  : outcome sdk_error (option (rangeset * rangeset)) :=
  let idx := rs_from [r] in
  if t_len t d <? rs_end idx then Err RevealBounds
  else
    let (s, v) := default ([], []) b in
    Ok (Some (match d with Sent => (rs_union s idx, v) | Received => (s, rs_union v idx) end)).
(** prover.rs:386-392. *)
Fixpoint reveal_all (t : transcript) (d : direction) (rs : list range) (b : option (rangeset * rangeset))
  : outcome sdk_error (option (rangeset * rangeset)) :=
  match rs with
  | [] => Ok b
  | r :: rs' => let! b' := reveal_inner t d r b in reveal_all t d rs' b'
  end.
(** commit.rs:129-154 [commit_with_kind_inner]: a [HashSet] keeps one copy of each entry. *)
Definition commit_inner (t : transcript) (d : direction) (r : range) (alg : N) (s : list commit_item)
  : outcome sdk_error (list commit_item) :=
  let idx := rs_from [r] in
  if t_len t d <? rs_end idx then Err CommitBounds
  else
    let x := (d, idx, alg) in
    Ok (if bool_decide (x ∈ s) then s else s ++ [x]).
(** prover.rs:407-414. *)
Fixpoint commit_all (t : transcript) (d : direction) (crs : list commit_range) (s : list commit_item)
  : outcome sdk_error (list commit_item) :=
  match crs with
  | [] => Ok s
  | c :: crs' =>
      let! s' := commit_inner t d (cr_start c, cr_end c) (alg_id_of (cr_alg c)) s in
      commit_all t d crs' s'
  end.

Section Prove.
  (** commit.rs:203-205 [Vec::from_iter(self.commits)]: the order in which a [HashSet] is iterated. *)
  Context (arrange : list commit_item -> list commit_item).

  (** prover.rs:384-422. *)
  Definition sdk_prove_config (t : transcript) (rv : reveal) (cm : option commit)
    : outcome sdk_error prove_config :=
    let! b1 := reveal_all t Sent (rv_sent rv) None in
    let! b2 := reveal_all t Received (rv_recv rv) b1 in
    let! c := match cm with
              | None => Ok None
              | Some cm =>
                  let! s1 := commit_all t Sent (cm_sent cm) [] in
                  let! s2 := commit_all t Received (cm_recv cm) s1 in
                  Ok (Some (arrange s2))
              end in
    Ok (ProveConfig (rv_identity rv) b2 c).

  (** ** Openings (prover.rs:424-496) *)
  (** core hash.rs [PlaintextHash] and [PlaintextHashSecret]. *)
  Record plaintext_hash := PlaintextHash { ph_dir : direction; ph_idx : rangeset; ph_alg : N; ph_hash : list N }.
  Record hash_secret := HashSecret { hs_dir : direction; hs_idx : rangeset; hs_alg : N; hs_blinder : list N }.
  (** The hash function of each algorithm. *)
  Context (hash : N -> list N -> list N).
  (** tlsn prove.rs:79-120 through commit/hash.rs:64-91 [prove_hash], for an honest prover: for each entry
      of the configuration, in its order, the hash of the plaintext followed by a fresh blinder, and the
      secret.  What the machine does is AuthModel.v; [blinders] is what [rand::random] returned. *)
  Fixpoint prove_hashes (t : transcript) (cs : list commit_item) (blinders : list (list N))
    : panicky (list plaintext_hash * list hash_secret) :=
    match cs with
    | [] => Ok ([], [])
    | (d, idx, alg) :: cs' =>
        let! b := or_panic (head blinders) in
        let! data := index_concat (t_data t d) idx in
        let! (hs, ss) := prove_hashes t cs' (tail blinders) in
        Ok (PlaintextHash d idx alg (hash alg (data ++ b)) :: hs, HashSecret d idx alg b :: ss)
    end.

  (** types.rs:389-408 [HashOpening], [RevealOutput]. *)
  Record opening := Opening { op_hash : list N; op_blinder : list N }.
  Record openings := Openings { os_sent : list opening; os_recv : list opening }.
  (** prover.rs:463-493. *)
  Fixpoint pair_openings (l : list (plaintext_hash * hash_secret)) (o : openings)
    : outcome sdk_error openings :=
    match l with
    | [] => Ok o
    | (c, s) :: l' =>
        if negb (bool_decide (ph_dir c = hs_dir s)) || negb (bool_decide (ph_idx c = hs_idx s))
        then Err PairMismatch
        else
          let x := Opening (ph_hash c) (hs_blinder s) in
          pair_openings l' (match ph_dir c with
                            | Sent => Openings (os_sent o ++ [x]) (os_recv o)
                            | Received => Openings (os_sent o) (os_recv o ++ [x])
                            end)
    end.
  (** prover.rs:449-496 [build_reveal_output]. *)
  Definition build_reveal_output (hs : list plaintext_hash) (ss : list hash_secret)
    : outcome sdk_error openings :=
    if negb (length hs =? length ss) then Err CountMismatch
    else pair_openings (combine hs ss) (Openings [] []).
  (** prover.rs:377-442 [reveal] in the state [Committed], given that the protocol succeeds. *)
  Definition sdk_reveal (t : transcript) (rv : reveal) (cm : option commit) (blinders : list (list N))
    : outcome sdk_error (prove_config * openings) :=
    let! c := sdk_prove_config t rv cm in
    match prove_hashes t (default [] (pc_commit c)) blinders with
    | Ok (hs, ss) => let! o := build_reveal_output hs ss in Ok (c, o)
    | Err e => match e with end
    | Panic => Panic
    end.
End Prove.
