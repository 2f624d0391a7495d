(** C51, C56, C57: what the SDK reveals, commits to and returns. *)
From Verif.Lib Require Import Base Ranges RangesFacts.
From Verif Require Import TranscriptModel CodecModel SdkModel SdkSpec SdkLemmas SdkExtractLemmas SdkRevealLemmas SdkExampleData.

(** ** C51 *)
(** The reveal lists, in order, the ranges extracted for the reveal handlers of a direction; the commitments
    those extracted for the hash handlers, each with the algorithm of its handler. *)
Theorem C51_reveal_lists_exactly_what_reveal_handlers_extract :
  forall parse_request parse_response name_eq json_get regex_find sent recv hs o,
  compute_reveal parse_request parse_response name_eq json_get regex_find sent recv hs = Ok o ->
  exists rq rp ext,
    parse_request sent = Some rq /\ parse_response recv = Some rp /\
    (forall h, h ∈ hs ->
       (hn_type h = Sent -> extract_ranges name_eq json_get regex_find h (ReqMsg rq) sent = Ok (ext h)) /\
       (hn_type h = Received -> extract_ranges name_eq json_get regex_find h (RespMsg rp) recv = Ok (ext h))) /\
    (forall d,
       revealed_ranges d (ro_reveal o) = flat_map ext (filter (reveals d) hs) /\
       committed_ranges d (ro_commit o) =
         flat_map (fun h => wanted_commits h (ext h)) (filter (fun h => hn_type h = d) hs) /\
       annotations d o =
         flat_map (fun h => map (fun r => (r, h)) (ext h)) (filter (fun h => hn_type h = d) hs)) /\
    (ro_commit o = None <-> forall d, committed_ranges d (ro_commit o) = []) /\
    rv_identity (ro_reveal o) = true.
Proof. exact compute_reveal_exact. Qed.
Print Assumptions C51_reveal_lists_exactly_what_reveal_handlers_extract.

(** If a message cannot be parsed or a handler cannot be applied, nothing is revealed. *)
Theorem C51_one_bad_handler_reveals_nothing :
  forall parse_request parse_response name_eq json_get regex_find sent recv hs,
  (exists o, compute_reveal parse_request parse_response name_eq json_get regex_find sent recv hs = Ok o) <->
  exists rq rp, parse_request sent = Some rq /\ parse_response recv = Some rp /\
    forall h, h ∈ hs -> exists rs,
      (match hn_type h with
       | Sent => extract_ranges name_eq json_get regex_find h (ReqMsg rq) sent
       | Received => extract_ranges name_eq json_get regex_find h (RespMsg rp) recv
       end) = Ok rs.
Proof. exact compute_reveal_succeeds. Qed.
Print Assumptions C51_one_bad_handler_reveals_nothing.

(** The prover shows a byte to the verifier if and only if a reveal handler of that direction names it. *)
Theorem C51_shown_bytes_are_those_named_by_reveal_handlers :
  forall parse_request parse_response name_eq json_get regex_find arrange sent recv hs o t c rq rp,
  compute_reveal parse_request parse_response name_eq json_get regex_find sent recv hs = Ok o ->
  sdk_prove_config arrange t (ro_reveal o) (ro_commit o) = Ok c ->
  parse_request sent = Some rq -> parse_response recv = Some rp ->
  message_ok (ReqMsg rq) -> message_ok (RespMsg rp) -> get_ok json_get ->
  forall d i, in_rs i (shown d c) <->
    exists h, h ∈ hs /\ reveals d h /\ names name_eq json_get regex_find rq rp sent recv d h i.
Proof. exact shown_named. Qed.
Print Assumptions C51_shown_bytes_are_those_named_by_reveal_handlers.

(** A byte named only by hash handlers is not shown. *)
Theorem C51_hash_only_bytes_are_not_shown :
  forall parse_request parse_response name_eq json_get regex_find arrange sent recv hs o t c rq rp d i,
  compute_reveal parse_request parse_response name_eq json_get regex_find sent recv hs = Ok o ->
  sdk_prove_config arrange t (ro_reveal o) (ro_commit o) = Ok c ->
  parse_request sent = Some rq -> parse_response recv = Some rp ->
  message_ok (ReqMsg rq) -> message_ok (RespMsg rp) -> get_ok json_get ->
  (forall h, h ∈ hs -> hn_type h = d -> names name_eq json_get regex_find rq rp sent recv d h i ->
     exists a, hn_action h = HashAction a) ->
  ~ in_rs i (shown d c).
Proof. exact hash_only_hidden. Qed.
Print Assumptions C51_hash_only_bytes_are_not_shown.

(** The prover commits to exactly the ranges extracted for hash handlers, under their algorithms. *)
Theorem C51_commitments_are_those_of_hash_handlers :
  forall parse_request parse_response name_eq json_get regex_find arrange sent recv hs o t c,
  iterates arrange ->
  compute_reveal parse_request parse_response name_eq json_get regex_find sent recv hs = Ok o ->
  sdk_prove_config arrange t (ro_reveal o) (ro_commit o) = Ok c ->
  exists rq rp, parse_request sent = Some rq /\ parse_response recv = Some rp /\
  forall d idx alg, (d, idx, alg) ∈ default [] (pc_commit c) <->
    exists h a rs r, h ∈ hs /\ hashes d a h /\ extracts name_eq json_get regex_find rq rp sent recv h rs /\
      r ∈ rs /\ idx = rs_from [r] /\ alg = alg_id_of a.
Proof. exact committed_iff. Qed.
Print Assumptions C51_commitments_are_those_of_hash_handlers.

Definition ex_output : reveal_output :=
  match compute_reveal ex_parse_request ex_parse_response ex_name_eq ex_get ex_regex ex_sent ex_recv ex_handlers with
  | Ok o => o
  | _ => RevealOutput (Reveal [] [] false) None [] []
  end.
Example C51_example_reveal :
  compute_reveal ex_parse_request ex_parse_response ex_name_eq ex_get ex_regex ex_sent ex_recv ex_handlers = Ok ex_output /\
  ro_reveal ex_output = Reveal [(0, 3); (17, 20); (21, 23)] [(9, 12)] true /\
  ro_commit ex_output = Some (Commit [] [CommitRange 20 29 Blake3]).
Proof. split_and!; vm_compute; reflexivity. Qed.
Example C51_example_config :
  sdk_prove_config (fun s => s) (Transcript ex_sent ex_recv) (ro_reveal ex_output) (ro_commit ex_output) =
  Ok (ProveConfig true (Some ([(0, 3); (17, 20); (21, 23)], [(9, 12)])) (Some [(Received, [(20, 29)], 2%N)])).
Proof. vm_compute. reflexivity. Qed.
Example C51_example_hypotheses :
  ex_parse_request ex_sent = Some ex_request /\ ex_parse_response ex_recv = Some ex_response /\
  message_ok (ReqMsg ex_request) /\ message_ok (RespMsg ex_response) /\ get_ok ex_get /\ iterates (fun s => s).
Proof.
  split_and!; [done|done|exact ex_request_ok|exact ex_response_ok|exact ex_get_ok|by intros s _].
Qed.
(** A handler that does not apply: the method of a response. *)
Example C51_example_bad_handler :
  compute_reveal ex_parse_request ex_parse_response ex_name_eq ex_get ex_regex ex_sent ex_recv
    (ex_handlers ++ [Handler Received Method RevealAction None]) = Err RequestsOnly.
Proof. vm_compute. reflexivity. Qed.

(** ** C56 *)
(** The bytes extracted for a handler are exactly those it names. *)
Theorem C56_extracted_bytes_are_those_the_handler_names :
  forall name_eq json_get regex_find h m raw rs i,
  message_ok m -> get_ok json_get ->
  extract_ranges name_eq json_get regex_find h m raw = Ok rs ->
  in_rs i rs <-> selects name_eq json_get regex_find m raw h i.
Proof. exact extract_ranges_select. Qed.
Print Assumptions C56_extracted_bytes_are_those_the_handler_names.

(** A handler that hides header values extracts no byte of any header's value. *)
Theorem C56_hidden_header_values_are_not_extracted :
  forall name_eq json_get regex_find h m raw rs x i,
  message_ok m -> get_ok json_get -> headers_apart (msg_headers m) ->
  hn_part h = Headers -> asks hp_hide_value h ->
  extract_ranges name_eq json_get regex_find h m raw = Ok rs ->
  x ∈ msg_headers m -> in_rs i (hd_value x) -> ~ in_rs i rs.
Proof. exact hidden_header_values. Qed.
Print Assumptions C56_hidden_header_values_are_not_extracted.

(** If its path names a field of an object, a handler that hides the value extracts no byte of it, and one
    that hides the key extracts only bytes of the value. *)
Theorem C56_hidden_parts_of_fields_are_not_extracted :
  forall name_eq json_get regex_find h m raw rs b root path x,
  message_ok m -> get_ok json_get ->
  hn_part h = BodyPart -> msg_body m = Some b -> bd_json b = Some root -> wants_json h path ->
  field_at json_get root path x ->
  extract_ranges name_eq json_get regex_find h m raw = Ok rs ->
  forall i, in_rs i rs ->
    (asks hp_hide_value h -> ~ in_rs i (json_idx (kv_value x))) /\
    (asks hp_hide_key h -> in_rs i (json_idx (kv_value x))).
Proof. exact hidden_field_values. Qed.
Print Assumptions C56_hidden_parts_of_fields_are_not_extracted.

(** If the path names an element of an array, a handler that hides the value extracts exactly the value. *)
Theorem C56_hidden_values_are_not_extracted_refuted :
  exists h path v rs,
    message_ok (RespMsg ex_response) /\ get_ok ex_get /\ wants_json h path /\ asks hp_hide_value h /\
    hn_action h = RevealAction /\ ex_get ex_root path = Some v /\
    extract_ranges ex_name_eq ex_get ex_regex h (RespMsg ex_response) ex_recv = Ok rs /\
    (exists i, in_rs i rs) /\ forall i, in_rs i rs <-> in_rs i (json_idx v).
Proof.
  exists (Handler Received BodyPart RevealAction (ps None false true (Some str_json) (Some path_k0))), path_k0, ex_one, [(25, 26)].
  split_and!; [exact ex_response_ok|exact ex_get_ok|eexists; done|eexists; done|done|done|done| |done].
  exists 25. rewrite in_rs_cons. left. split; simpl; lia.
Qed.
Print Assumptions C56_hidden_values_are_not_extracted_refuted.

Example C56_example_headers :
  let h := Handler Sent Headers RevealAction (ps (Some [65]%N) false true None None) in
  asks hp_hide_value h /\ headers_apart (msg_headers (ReqMsg ex_request)) /\
  extract_ranges ex_name_eq ex_get ex_regex h (ReqMsg ex_request) ex_sent = Ok [(17, 20); (21, 23)] /\
  in_rs 20 (hd_value ex_header).
Proof.
  split_and!; [eexists; done|exact ex_headers_apart|done|]. apply in_rs_cons. left. split; simpl; lia.
Qed.
Example C56_example_field :
  let h := Handler Received BodyPart RevealAction (ps None false true (Some str_json) (Some path_k)) in
  asks hp_hide_value h /\ wants_json h path_k /\ field_at ex_get ex_root path_k ex_kv /\
  extract_ranges ex_name_eq ex_get ex_regex h (RespMsg ex_response) ex_recv = Ok [(20, 24)].
Proof. split_and!; [eexists; done|eexists; done|exact ex_field|done]. Qed.

(** ** C57 *)
(** Every range committed to has an opening among those returned for its direction, and every opening returned
    opens one of the ranges; there is one opening for each different request. *)
Theorem C57_every_commitment_is_opened : forall arrange hash t rv cm blinders c o,
  iterates arrange -> sdk_reveal arrange hash t rv cm blinders = Ok (c, o) ->
  forall d,
    (forall cr, cr ∈ committed_ranges d cm -> exists x, x ∈ openings_of d o /\ opens hash t d cr x) /\
    (forall x, x ∈ openings_of d o -> exists cr, cr ∈ committed_ranges d cm /\ opens hash t d cr x).
Proof. exact openings_complete. Qed.
Print Assumptions C57_every_commitment_is_opened.

Theorem C57_one_opening_for_each_different_request : forall arrange hash t rv cm blinders c o,
  iterates arrange -> sdk_reveal arrange hash t rv cm blinders = Ok (c, o) ->
  forall d, length (openings_of d o) = length (remove_dups (map (item_of d) (committed_ranges d cm))).
Proof. exact openings_count. Qed.
Print Assumptions C57_one_opening_for_each_different_request.

(** For a single range in a direction, the opening at its index is its opening. *)
Theorem C57_single_range_is_opened_at_its_index : forall arrange hash t rv cm blinders c o d cr,
  iterates arrange -> sdk_reveal arrange hash t rv cm blinders = Ok (c, o) ->
  committed_ranges d cm = [cr] ->
  exists x, openings_of d o = [x] /\ opens hash t d cr x.
Proof. exact openings_single. Qed.
Print Assumptions C57_single_range_is_opened_at_its_index.

(** In general the documented correspondence by index does not hold: it depends on the order in which the
    set is iterated. *)
Theorem C57_openings_come_in_the_order_of_the_request_refuted :
  exists arrange (hash : N -> list N -> list N) t rv cm blinders c o cr x,
    iterates arrange /\ (forall a a' x y, hash a x = hash a' y -> a = a' /\ x = y) /\
    NoDup (map (item_of Sent) (cm_sent cm)) /\
    sdk_reveal arrange hash t rv (Some cm) blinders = Ok (c, o) /\
    cm_sent cm !! 0 = Some cr /\ os_sent o !! 0 = Some x /\ ~ opens hash t Sent cr x.
Proof.
  exists reverse, (fun a l => a :: l), (Transcript [10; 20]%N [5]%N), (Reveal [] [] true),
    (Commit [CommitRange 0 1 Blake3; CommitRange 1 2 Blake3] []), [[1]; [2]]%N,
    (ProveConfig true None (Some [(Sent, [(1, 2)], 2%N); (Sent, [(0, 1)], 2%N)])),
    (Openings [Opening [2; 20; 1]%N [1]%N; Opening [2; 10; 2]%N [2]%N] []),
    (CommitRange 0 1 Blake3), (Opening [2; 20; 1]%N [1]%N).
  split_and!; [intros s _; apply reverse_Permutation|intros a a' x y [= -> ->]; done| |done|done|done|done].
  apply (bool_decide_unpack _). vm_compute. exact I.
Qed.
Print Assumptions C57_openings_come_in_the_order_of_the_request_refuted.

(** Nor does it if a range is asked for twice: fewer openings than ranges are returned, in any order. *)
Theorem C57_one_opening_for_each_range_refuted :
  forall arrange, iterates arrange ->
  exists hash t rv cm blinders c o,
    sdk_reveal arrange hash t rv (Some cm) blinders = Ok (c, o) /\
    length (cm_sent cm) = 2 /\ length (os_sent o) = 1.
Proof.
  intros arrange Hit.
  exists (fun a l => a :: l), (Transcript [10; 20]%N [5]%N), (Reveal [] [] true),
    (Commit [CommitRange 0 1 Blake3; CommitRange 0 1 Blake3] []), [[1]; [2]]%N,
    (ProveConfig true None (Some [(Sent, [(0, 1)], 2%N)])), (Openings [Opening [2; 10; 1]%N [1]%N] []).
  split; [|done].
  assert (arrange [(Sent, [(0, 1)], 2%N)] = [(Sent, [(0, 1)], 2%N)]) as E.
  { apply Permutation_singleton_r, Hit, NoDup_singleton. }
  assert (sdk_prove_config arrange (Transcript [10; 20]%N [5]%N) (Reveal [] [] true)
    (Some (Commit [CommitRange 0 1 Blake3; CommitRange 0 1 Blake3] [])) =
    Ok (ProveConfig true None (Some (arrange [(Sent, [(0, 1)], 2%N)])))) as E1 by reflexivity.
  unfold sdk_reveal. rewrite E1, E. reflexivity.
Qed.
Print Assumptions C57_one_opening_for_each_range_refuted.

(** It would hold if the set were iterated in the order of insertion and no request were repeated. *)
Theorem C57_openings_in_order_if_the_set_keeps_it_partial : forall hash t rv cm blinders c o,
  sdk_reveal (fun s => s) hash t rv cm blinders = Ok (c, o) ->
  (forall d, NoDup (map (item_of d) (committed_ranges d cm))) ->
  forall d, Forall2 (opens hash t d) (committed_ranges d cm) (openings_of d o).
Proof. exact openings_ordered. Qed.
Print Assumptions C57_openings_in_order_if_the_set_keeps_it_partial.

Example C57_example :
  sdk_reveal (fun s => s) (fun a l => a :: l) (Transcript [10; 20]%N [5]%N) (Reveal [(0, 1)] [] true)
    (Some (Commit [CommitRange 1 2 Sha256] [CommitRange 0 1 Keccak256])) [[1]; [2]]%N =
  Ok (ProveConfig true (Some ([(0, 1)], [])) (Some [(Sent, [(1, 2)], 1%N); (Received, [(0, 1)], 3%N)]),
      Openings [Opening [1; 20; 1]%N [1]%N] [Opening [3; 5; 2]%N [2]%N]).
Proof. vm_compute. reflexivity. Qed.
