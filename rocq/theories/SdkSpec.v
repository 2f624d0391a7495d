(** What handlers are meant to select, and what the openings returned to the application are meant to
    open, in terms of bytes and independently of the code. *)
From Verif.Lib Require Import Base Ranges.
From Verif Require Import TranscriptModel SdkModel.

(** ** Which handlers reveal and which commit *)
Definition reveals (d : direction) (h : handler) : Prop := hn_type h = d /\ hn_action h = RevealAction.
Definition hashes (d : direction) (a : hash_algorithm) (h : handler) : Prop :=
  hn_type h = d /\ hn_action h = HashAction a.
Global Instance reveals_dec d h : Decision (reveals d h).
Proof. unfold reveals. apply _. Defined.

(** The parts of the results that concern a direction. *)
Definition revealed_ranges (d : direction) (r : reveal) : list range :=
  match d with Sent => rv_sent r | Received => rv_recv r end.
Definition committed_ranges (d : direction) (c : option commit) : list commit_range :=
  match c with
  | None => []
  | Some c => match d with Sent => cm_sent c | Received => cm_recv c end
  end.
Definition annotations (d : direction) (o : reveal_output) : list (range * handler) :=
  match d with Sent => ro_sent_annot o | Received => ro_recv_annot o end.
(** The commitments a handler asks for, given the ranges it extracts. *)
Definition wanted_commits (h : handler) (rs : list range) : list commit_range :=
  match hn_action h with
  | RevealAction => []
  | HashAction a => map (fun r => CommitRange (fst r) (snd r) a) rs
  end.
(** What the prover will show to the verifier in a direction. *)
Definition shown (d : direction) (c : prove_config) : rangeset :=
  match pc_reveal c with
  | None => []
  | Some (s, r) => match d with Sent => s | Received => r end
  end.

(** ** What each part of a message is *)
Definition line_of (m : message) : rangeset :=
  match m with ReqMsg r => rq_line r | RespMsg r => rp_line r end.
(** The two words of the start line that are not the protocol. *)
Definition words_of (m : message) : rangeset * rangeset :=
  match m with ReqMsg r => (rq_method r, rq_target r) | RespMsg r => (rp_code r, rp_reason r) end.

(** What the parser is trusted for: its spans are canonical, and [without_value] is the span without the
    value. *)
Definition without (whole part rest : rangeset) : Prop :=
  forall i, in_rs i rest <-> in_rs i whole /\ ~ in_rs i part.
Definition header_ok (h : header) : Prop := without (hd_idx h) (hd_value h) (hd_without_value h).
Definition kv_ok (x : json_kv) : Prop := without (kv_idx x) (json_idx (kv_value x)) (kv_without_value x).
(** [v] occurs in [root]. *)
Inductive occurs (root : json) : json -> Prop :=
| occurs_root : occurs root root
| occurs_field idx elems x : occurs root (JObject idx elems) -> x ∈ elems -> occurs root (kv_value x)
| occurs_elem idx elems v : occurs root (JArray idx elems) -> v ∈ elems -> occurs root v.
Definition json_ok (root : json) : Prop :=
  forall idx elems x, occurs root (JObject idx elems) -> x ∈ elems -> kv_ok x.
Definition message_ok (m : message) : Prop :=
  rs_ok (line_of m) /\ Forall header_ok (msg_headers m) /\
  (forall b root, msg_body m = Some b -> bd_json b = Some root -> json_ok root).

Section Select.
  Context (name_eq : list N -> list N -> bool) (json_get : json -> list N -> option json)
    (regex_find : list N -> list N -> option (list range)).
  (** [json_get] is trusted to return a part of the document. *)
  Definition get_ok : Prop := forall root p v, json_get root p = Some v -> occurs root v.

  Definition asks (f : handler_params -> option bool) (h : handler) : Prop :=
    exists p, hn_params h = Some p /\ f p = Some true.
  (** The header is named by the handler: all are, if it gives no name. *)
  Definition names_header (h : handler) (x : header) : Prop :=
    forall p k, hn_params h = Some p -> hp_key p = Some k -> name_eq (hd_name x) k = true.
  (** Of a whole with a value in it: what is left after hiding what the handler asks to hide. *)
  Definition kept (h : handler) (whole value : rangeset) (i : nat) : Prop :=
    (asks hp_hide_key h -> in_rs i value) /\
    (~ asks hp_hide_key h -> in_rs i whole /\ (asks hp_hide_value h -> ~ in_rs i value)).

  (** The field that a path names: the last component is the key, the rest leads to an object. *)
  Definition field_at (root : json) (path : list N) (x : json_kv) : Prop :=
    exists parent key idx elems before after,
      dot ∉ key /\
      ((path = key /\ path <> [] /\ parent = root) \/
       (path = [dot] ++ key /\ parent = root) \/
       (exists pp, pp <> [] /\ path = pp ++ [dot] ++ key /\ json_get root pp = Some parent)) /\
      parent = JObject idx elems /\ elems = before ++ x :: after /\ kv_key x = key /\
      Forall (fun y => kv_key y <> key) before.
  (** The handler treats the body as JSON. *)
  Definition wants_json (h : handler) (path : list N) : Prop :=
    exists p, hn_params h = Some p /\ hp_type p = Some str_json /\ hp_path p = Some path.
  Definition wants_regex (h : handler) (pattern : list N) : Prop :=
    exists p, hn_params h = Some p /\ hp_type p = Some str_regex /\ hp_regex p = Some pattern.

  (** The bytes of message [m] (with text [raw]) that handler [h] names. *)
  Inductive selects (m : message) (raw : list N) (h : handler) (i : nat) : Prop :=
  | sel_line : hn_part h = StartLine -> in_rs i (line_of m) -> selects m raw h i
  | sel_protocol : hn_part h = Protocol -> in_rs i (line_of m) ->
      ~ in_rs i (fst (words_of m)) -> ~ in_rs i (snd (words_of m)) -> selects m raw h i
  | sel_method r : hn_part h = Method -> m = ReqMsg r -> in_rs i (rq_method r) -> selects m raw h i
  | sel_target r : hn_part h = RequestTarget -> m = ReqMsg r -> in_rs i (rq_target r) -> selects m raw h i
  | sel_code r : hn_part h = StatusCode -> m = RespMsg r -> in_rs i (rp_code r) -> selects m raw h i
  | sel_header x : hn_part h = Headers -> x ∈ msg_headers m -> names_header h x ->
      kept h (hd_idx x) (hd_value x) i -> selects m raw h i
  | sel_body b : hn_part h = BodyPart -> msg_body m = Some b ->
      (forall p, hn_params h = Some p -> hp_type p <> Some str_json) -> in_rs i (bd_idx b) -> selects m raw h i
  | sel_field b root path x : hn_part h = BodyPart -> msg_body m = Some b -> bd_json b = Some root ->
      wants_json h path -> field_at root path x ->
      kept h (kv_idx x) (json_idx (kv_value x)) i -> selects m raw h i
  | sel_value b root path v : hn_part h = BodyPart -> msg_body m = Some b -> bd_json b = Some root ->
      wants_json h path -> (forall x, ~ field_at root path x) -> json_get root path = Some v ->
      in_rs i (json_idx v) -> selects m raw h i
  | sel_regex pattern rs : hn_part h = AllPart -> wants_regex h pattern -> regex_find pattern raw = Some rs ->
      in_rs i rs -> selects m raw h i
  | sel_all : hn_part h = AllPart -> (forall pattern, ~ wants_regex h pattern) -> i < length raw ->
      selects m raw h i.
  (** What a handler extracts, given both messages. *)
  Definition extracts (rq : request) (rp : response) (sent recv : list N) (h : handler) (rs : list range) : Prop :=
    match hn_type h with
    | Sent => extract_ranges name_eq json_get regex_find h (ReqMsg rq) sent
    | Received => extract_ranges name_eq json_get regex_find h (RespMsg rp) recv
    end = Ok rs.

  (** Byte [i] of direction [d] is named by the handler. *)
  Definition names (rq : request) (rp : response) (sent recv : list N) (d : direction) (h : handler) (i : nat) : Prop :=
    match d with
    | Sent => selects (ReqMsg rq) sent h i
    | Received => selects (RespMsg rp) recv h i
    end.
End Select.

(** ** Openings *)
Section Openings.
  Context (hash : N -> list N -> list N).
  (** [o] opens the commitment to a range: the hash of the bytes in it and the blinder. *)
  Definition opens (t : transcript) (d : direction) (c : commit_range) (o : opening) : Prop :=
    op_hash o =
      hash (alg_id_of (cr_alg c)) (take (cr_end c - cr_start c) (drop (cr_start c) (t_data t d)) ++ op_blinder o).
  Definition openings_of (d : direction) (o : openings) : list opening :=
    match d with Sent => os_sent o | Received => os_recv o end.
End Openings.
(** The commitment that a range asks for. *)
Definition item_of (d : direction) (c : commit_range) : commit_item :=
  (d, rs_from [(cr_start c, cr_end c)], alg_id_of (cr_alg c)).
(** A set is iterated in some order. *)
Definition iterates (arrange : list commit_item -> list commit_item) : Prop :=
  forall s, NoDup s -> arrange s ≡ₚ s.
(** The spans of different headers do not overlap, and a value lies in its header. *)
Definition headers_apart (hs : list header) : Prop :=
  forall x y i, x ∈ hs -> y ∈ hs -> in_rs i (hd_idx x) -> in_rs i (hd_value y) -> x = y.
