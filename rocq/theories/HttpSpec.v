(** Specification vocabulary for the HTTP and JSON committers: well formed parse results, the
    parts of a message, and the pieces of a message one may want to keep secret. Sets of
    positions are predicates here. *)
From Verif.Lib Require Import Base Ranges RangesFacts.
From Verif Require Import TranscriptModel ProofModel HttpModel.

Definition within (x y : rangeset) : Prop := forall i, in_rs i x -> in_rs i y.
Definition apart (x y : rangeset) : Prop := forall i, in_rs i x -> in_rs i y -> False.
(** No two entries of the list overlap. *)
Definition all_apart (l : list rangeset) : Prop :=
  forall k1 k2 x y, l !! k1 = Some x -> l !! k2 = Some y -> k1 <> k2 -> apart x y.

(** ** Well formed parse results: children lie inside their parents, siblings do not overlap *)
Inductive json_wf : json -> Prop :=
| WfObject sp pairs : rs_ok sp -> all_apart (map fst pairs) ->
    (forall ksp v, (ksp, v) ∈ pairs -> rs_ok ksp /\ within ksp sp /\ within (j_span v) ksp) ->
    (forall ksp v, (ksp, v) ∈ pairs -> json_wf v) -> json_wf (JObject sp pairs)
| WfArray sp brackets elems : rs_ok sp -> rs_ok brackets -> within brackets sp ->
    json_wf (JArray sp brackets elems)
| WfString sp : rs_ok sp -> json_wf (JString sp)
| WfNumber sp : rs_ok sp -> json_wf (JNumber sp)
| WfBool sp : rs_ok sp -> json_wf (JBool sp)
| WfNull sp : rs_ok sp -> json_wf (JNull sp).

Definition header_wf (h : header) : Prop :=
  rs_ok (h_span h) /\ rs_ok (h_value h) /\ within (h_value h) (h_span h).
Definition body_wf (y : body) : Prop :=
  rs_ok (b_span y) /\
  match b_content y with CJson root => json_wf root /\ within (j_span root) (b_span y) | COther => True end.
(** A message with span [sp], the given top-level pieces, headers and body. *)
Definition message_wf (sp : rangeset) (pieces : list rangeset) (hs : list header) (y : option body) : Prop :=
  rs_ok sp /\ all_apart pieces /\ (forall x, x ∈ pieces -> rs_ok x /\ within x sp) /\
  (forall h, h ∈ hs -> header_wf h) /\ (forall b, y = Some b -> body_wf b).
Definition request_wf (q : request) : Prop :=
  message_wf (q_span q) (q_target q :: map h_span (q_headers q) ++ map b_span (opt_list (q_body q)))
    (q_headers q) (q_body q).
Definition response_wf (p : response) : Prop :=
  message_wf (p_span p) (map h_span (p_headers p) ++ map b_span (opt_list (p_body p)))
    (p_headers p) (p_body p).
Definition http_wf (t : http) : Prop :=
  (forall q, q ∈ requests t -> request_wf q) /\ (forall p, p ∈ responses t -> response_wf p).

(** ** The parts, as the documentation lists them *)
Definition pset := nat -> Prop.
Definition set_of (x : rangeset) : pset := fun i => in_rs i x.

Inductive json_part : json -> pset -> Prop :=
(** an object without any of its pairs *)
| PartBraces sp pairs :
    json_part (JObject sp pairs) (fun i => in_rs i sp /\ forall ksp v, (ksp, v) ∈ pairs -> ~ in_rs i ksp)
(** a pair without its value *)
| PartKey sp pairs ksp v : (ksp, v) ∈ pairs ->
    json_part (JObject sp pairs) (fun i => in_rs i ksp /\ ~ in_rs i (j_span v))
(** the parts of the value of a pair *)
| PartMember sp pairs ksp v P : (ksp, v) ∈ pairs -> json_part v P -> json_part (JObject sp pairs) P
(** a whole array, and a non-empty one without values and separators *)
| PartArray sp brackets elems : json_part (JArray sp brackets elems) (set_of sp)
| PartBrackets sp brackets elems : elems <> [] -> json_part (JArray sp brackets elems) (set_of brackets)
(** a string unless it is empty, any other scalar *)
| PartString sp i : in_rs i sp -> json_part (JString sp) (set_of sp)
| PartNumber sp : json_part (JNumber sp) (set_of sp)
| PartBool sp : json_part (JBool sp) (set_of sp)
| PartNull sp : json_part (JNull sp) (set_of sp).

Inductive header_part (h : header) : pset -> Prop :=
| PartHeader : header_part h (set_of (h_span h))
| PartHeaderName i : in_rs i (h_value h) ->
    header_part h (fun i => in_rs i (h_span h) /\ ~ in_rs i (h_value h)).
Inductive body_part : body -> pset -> Prop :=
| PartJson sp root P : json_part root P -> body_part (Body sp (CJson root)) P
| PartOther sp : body_part (Body sp COther) (set_of sp).
Inductive request_part (q : request) : pset -> Prop :=
| PartRequest : request_part q (set_of (q_span q))
(** without target, headers and body; only if there is a header or a body *)
| PartRequestLine : q_headers q <> [] \/ q_body q <> None ->
    request_part q (fun i => in_rs i (q_span q) /\ ~ in_rs i (q_target q) /\
      (forall h, h ∈ q_headers q -> ~ in_rs i (h_span h)) /\
      (forall b, q_body q = Some b -> ~ in_rs i (b_span b)))
| PartTarget : request_part q (set_of (q_target q))
| PartRequestHeader h P : h ∈ q_headers q -> header_part h P -> request_part q P
| PartRequestBody b P : q_body q = Some b -> body_part b P -> request_part q P.
Inductive response_part (p : response) : pset -> Prop :=
| PartResponse : response_part p (set_of (p_span p))
| PartStatusLine : p_headers p <> [] \/ p_body p <> None ->
    response_part p (fun i => in_rs i (p_span p) /\
      (forall h, h ∈ p_headers p -> ~ in_rs i (h_span h)) /\
      (forall b, p_body p = Some b -> ~ in_rs i (b_span b)))
| PartResponseHeader h P : h ∈ p_headers p -> header_part h P -> response_part p P
| PartResponseBody b P : p_body p = Some b -> body_part b P -> response_part p P.
Inductive http_part (t : http) : direction -> pset -> Prop :=
| PartSent q P : q ∈ requests t -> request_part q P -> http_part t Sent P
| PartReceived p P : p ∈ responses t -> response_part p P -> http_part t Received P.

(** Every message lies inside the transcript. *)
Definition http_in_bounds (t : transcript) (h : http) : Prop :=
  (forall q i, q ∈ requests h -> in_rs i (q_span q) -> i < t_len t Sent) /\
  (forall p i, p ∈ responses h -> in_rs i (p_span p) -> i < t_len t Received).

(** ** Syntax leaves something of every part: braces, brackets, quotes and colons, digits, … *)
Inductive json_solid : json -> Prop :=
| SolidObject sp pairs :
    (exists i, in_rs i sp /\ forall ksp v, (ksp, v) ∈ pairs -> ~ in_rs i ksp) ->
    (forall ksp v, (ksp, v) ∈ pairs -> exists i, in_rs i ksp /\ ~ in_rs i (j_span v)) ->
    (forall ksp v, (ksp, v) ∈ pairs -> json_solid v) -> json_solid (JObject sp pairs)
| SolidArray sp brackets elems : brackets <> [] -> sp <> [] -> json_solid (JArray sp brackets elems)
| SolidString sp : json_solid (JString sp)
| SolidNumber sp : sp <> [] -> json_solid (JNumber sp)
| SolidBool sp : sp <> [] -> json_solid (JBool sp)
| SolidNull sp : sp <> [] -> json_solid (JNull sp).
Definition header_solid (h : header) : Prop := exists i, in_rs i (h_span h) /\ ~ in_rs i (h_value h).
Definition body_solid (y : body) : Prop :=
  match b_content y with CJson root => json_solid root | COther => b_span y <> [] end.
Definition message_solid (sp : rangeset) (pieces : list rangeset) (hs : list header) (y : option body) : Prop :=
  (exists i, in_rs i sp /\ forall x, x ∈ pieces -> ~ in_rs i x) /\
  (forall h, h ∈ hs -> header_solid h) /\ (forall b, y = Some b -> body_solid b).
Definition http_solid (t : http) : Prop :=
  (forall q, q ∈ requests t -> q_target q <> [] /\
     message_solid (q_span q) (q_target q :: map h_span (q_headers q) ++ map b_span (opt_list (q_body q)))
       (q_headers q) (q_body q)) /\
  (forall p, p ∈ responses t ->
     message_solid (p_span p) (map h_span (p_headers p) ++ map b_span (opt_list (p_body p)))
       (p_headers p) (p_body p)).

(** ** What can be kept secret *)
Inductive json_secret : json -> pset -> Prop :=
(** a whole value; a pair of an object; anything inside the value of a pair; the contents of
    an array, all together *)
| SecretValue v : json_secret v (set_of (j_span v))
| SecretPair sp pairs ksp v : (ksp, v) ∈ pairs -> json_secret (JObject sp pairs) (set_of ksp)
| SecretMember sp pairs ksp v P : (ksp, v) ∈ pairs -> json_secret v P -> json_secret (JObject sp pairs) P
| SecretContents sp brackets elems : elems <> [] ->
    json_secret (JArray sp brackets elems) (fun i => in_rs i sp /\ ~ in_rs i brackets).
(** a header or its value; a body or something inside a JSON body *)
Inductive message_secret (hs : list header) (y : option body) : pset -> Prop :=
| SecretHeader h : h ∈ hs -> message_secret hs y (set_of (h_span h))
| SecretHeaderValue h : h ∈ hs -> message_secret hs y (set_of (h_value h))
| SecretBody b : y = Some b -> message_secret hs y (set_of (b_span b))
| SecretInBody sp root P : y = Some (Body sp (CJson root)) -> json_secret root P -> message_secret hs y P.
Inductive request_secret (q : request) : pset -> Prop :=
| SecretTarget : request_secret q (set_of (q_target q))
| SecretInRequest P : message_secret (q_headers q) (q_body q) P -> request_secret q P.
Definition response_secret (p : response) : pset -> Prop := message_secret (p_headers p) (p_body p).

(** A JSON body is its JSON value and nothing else. *)
Definition body_exact (y : option body) : Prop :=
  forall sp root, y = Some (Body sp (CJson root)) -> within sp (j_span root).

(** [r] is a message of [t] in direction [d] without some of what can be kept secret. *)
Inductive redacted (t : http) : direction -> rangeset -> Prop :=
| RedactedRequest q (H : pset -> Prop) r :
    q ∈ requests t -> (forall P, H P -> request_secret q P) ->
    q_headers q <> [] \/ q_body q <> None \/ (forall P, ~ H P) -> body_exact (q_body q) ->
    (forall i, in_rs i r <-> in_rs i (q_span q) /\ forall P, H P -> ~ P i) -> redacted t Sent r
| RedactedResponse p (H : pset -> Prop) r :
    p ∈ responses t -> (forall P, H P -> response_secret p P) -> body_exact (p_body p) ->
    (forall i, in_rs i r <-> in_rs i (p_span p) /\ forall P, H P -> ~ P i) -> redacted t Received r.

(** The openings [ss] of a commitment configuration: one for each of its entries. *)
Definition openings_of (es : list commit_entry) (ss : list secret) : Prop :=
  forall d idx a, (d, idx, a) ∈ es <-> exists s, s ∈ ss /\ sc_dir s = d /\ sc_idx s = idx /\ sc_alg s = a.
