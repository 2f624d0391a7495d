(** Model of the default HTTP and JSON committers
    (/repo/crates/formats/src/http/commit.rs, /repo/crates/formats/src/json/commit.rs):
    from a parsed transcript they make the calls on the commitment configuration builder.

    The parser (crate spansy) is not in the repository. Its output is modelled as trees whose
    nodes carry the set of byte positions they occupy in the transcript of their direction (a
    chunked body occupies several ranges). The keys of objects, the names of headers and the
    like are not looked at by the committers and are left out. *)
From Verif.Lib Require Import Base Ranges RangesFacts.
From Verif Require Import TranscriptModel ProofModel.

(** ** What the parser yields (formats/src/json/mod.rs:6-8, formats/src/http/mod.rs:10-13) *)

(** [JsonValue]. The positions of a string are those between its quotes. An array also carries
    its positions without values and separators ([Array::without_values]). *)
Inductive json :=
| JObject (sp : rangeset) (pairs : list (rangeset * json))
| JArray (sp brackets : rangeset) (elems : list json)
| JString (sp : rangeset)
| JNumber (sp : rangeset)
| JBool (sp : rangeset)
| JNull (sp : rangeset).
Definition j_span (v : json) : rangeset :=
  match v with
  | JObject sp _ | JArray sp _ _ | JString sp | JNumber sp | JBool sp | JNull sp => sp
  end.

(** [Header]: the whole header and its value. *)
Record header := Header { h_span : rangeset; h_value : rangeset }.
(** [Body] and [BodyContent]. *)
Inductive content := CJson (root : json) | COther.
Record body := Body { b_span : rangeset; b_content : content }.
(** [Request], [Response]. *)
Record request := Request {
  q_span : rangeset; q_target : rangeset; q_headers : list header; q_body : option body }.
Record response := Response {
  p_span : rangeset; p_headers : list header; p_body : option body }.
(** http/mod.rs:25-32 [HttpTranscript]. *)
Record http := Http { requests : list request; responses : list response }.

(** ** The position sets with parts taken out, as documented by the parser *)

Definition minus_all (sp : rangeset) (xs : list rangeset) : rangeset := fold_left rs_diff xs sp.
Definition opt_list {A} (o : option A) : list A := match o with Some x => [x] | None => [] end.
(** [Header::without_value], [KeyValue::without_value], [Object::without_pairs]. *)
Definition header_without_value (h : header) : rangeset := rs_diff (h_span h) (h_value h).
Definition pair_without_value (kv : rangeset * json) : rangeset := rs_diff kv.1 (j_span kv.2).
Definition object_without_pairs (sp : rangeset) (pairs : list (rangeset * json)) : rangeset :=
  minus_all sp (map fst pairs).
(** [Request::without_data]: without target, headers and body; [Response::without_data]:
    without headers and body. *)
Definition request_without_data (q : request) : rangeset :=
  minus_all (q_span q) (q_target q :: map h_span (q_headers q) ++ map b_span (opt_list (q_body q))).
Definition response_without_data (p : response) : rangeset :=
  minus_all (p_span p) (map h_span (p_headers p) ++ map b_span (opt_list (p_body p))).

(** ** The committers. [None] is an error; what was committed before it stays in the builder,
    which the caller then has no reason to use, and is not modelled. *)

(** [?] in a loop. *)
Fixpoint each {A B} (f : B -> A -> option B) (b : B) (xs : list A) : option B :=
  match xs with
  | [] => Some b
  | x :: xs => match f b x with Some b => each f b xs | None => None end
  end.

(** json/commit.rs:61-75 [commit_value], 87-102 [commit_object], [commit_key_value]
    (114-128), [commit_array] (140-163), [commit_string] (171-186), [commit_number] …
    [commit_null] (195-243). The closed term for one pair is inlined so that the recursion is seen to
    be structural. *)
Fixpoint commit_value (b : cfg_builder) (v : json) (d : direction) : option cfg_builder :=
  match v with
  | JObject sp pairs =>
      match cfg_commit b (object_without_pairs sp pairs) d with
      | None => None
      | Some b =>
          (fix go b pairs :=
             match pairs with
             | [] => Some b
             | (ksp, v) :: pairs =>
                 match cfg_commit b (rs_diff ksp (j_span v)) d with
                 | None => None
                 | Some b =>
                     match commit_value b v d with
                     | None => None
                     | Some b => go b pairs
                     end
                 end
             end) b pairs
      end
  | JArray sp brackets elems =>
      match cfg_commit b sp d with
      | None => None
      | Some b =>
          match elems with
          | [] => Some b
          | _ => cfg_commit b brackets d
          end
      end
  | JString sp => if rs_empty sp then Some b else cfg_commit b sp d
  | JNumber sp | JBool sp | JNull sp => cfg_commit b sp d
  end.

(** http/commit.rs:194-226 [commit_request_header], 331-363 [commit_response_header]. *)
Definition commit_header (d : direction) (b : cfg_builder) (h : header) : option cfg_builder :=
  match cfg_commit b (h_span h) d with
  | None => None
  | Some b => if rs_empty (h_value h) then Some b else cfg_commit b (header_without_value h) d
  end.
(** http/commit.rs:239-270 [commit_request_body], 376-407 [commit_response_body]. *)
Definition commit_body (d : direction) (b : cfg_builder) (y : body) : option cfg_builder :=
  match b_content y with
  | CJson root => commit_value b root d
  | COther => cfg_commit b (b_span y) d
  end.
(** http/commit.rs:165-181 [commit_target]. *)
Definition commit_target (d : direction) (b : cfg_builder) (tgt : rangeset) : option cfg_builder :=
  cfg_commit b tgt d.

(** http/commit.rs:130, 297: [!headers.is_empty() || body.is_some()]. *)
Definition has_data (hs : list header) (y : option body) : bool :=
  negb match hs with [] => true | _ => false end || match y with Some _ => true | None => false end.
(** http/commit.rs:116-152 [commit_request]. *)
Definition commit_request (d : direction) (b : cfg_builder) (q : request) : option cfg_builder :=
  match cfg_commit b (q_span q) d with
  | None => None
  | Some b =>
      let skeleton :=
        if has_data (q_headers q) (q_body q)
        then cfg_commit b (request_without_data q) d else Some b in
      match skeleton with
      | None => None
      | Some b =>
          match commit_target d b (q_target q) with
          | None => None
          | Some b =>
              match each (commit_header d) b (q_headers q) with
              | None => None
              | Some b =>
                  match q_body q with None => Some b | Some y => commit_body d b y end
              end
          end
      end
  end.
(** http/commit.rs:283-319 [commit_response]. *)
Definition commit_response (d : direction) (b : cfg_builder) (p : response) : option cfg_builder :=
  match cfg_commit b (p_span p) d with
  | None => None
  | Some b =>
      let skeleton :=
        if has_data (p_headers p) (p_body p)
        then cfg_commit b (response_without_data p) d else Some b in
      match skeleton with
      | None => None
      | Some b =>
          match each (commit_header d) b (p_headers p) with
          | None => None
          | Some b => match p_body p with None => Some b | Some y => commit_body d b y end
          end
      end
  end.
(** http/commit.rs:89-103 [commit_transcript]. *)
Definition commit_transcript (b : cfg_builder) (t : http) : option cfg_builder :=
  match each (commit_request Sent) b (requests t) with
  | None => None
  | Some b => each (commit_response Received) b (responses t)
  end.
