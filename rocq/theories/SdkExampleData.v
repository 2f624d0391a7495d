(** A request and a response for the examples in SdkProps.v. *)
From Verif.Lib Require Import Base Ranges RangesFacts.
From Verif Require Import TranscriptModel SdkModel SdkSpec SdkLemmas.

(** ["GET /x HTTP/1.1\r\nA: b\r\n\r\n"]. *)
Definition ex_sent : list N :=
  [71; 69; 84; 32; 47; 120; 32; 72; 84; 84; 80; 47; 49; 46; 49; 13; 10; 65; 58; 32; 98; 13; 10; 13; 10]%N.
(** ["HTTP/1.1 200 OK\r\n\r\n{\"k\":[1,2]}"]. *)
Definition ex_recv : list N :=
  [72; 84; 84; 80; 47; 49; 46; 49; 32; 50; 48; 48; 32; 79; 75; 13; 10; 13; 10;
   123; 34; 107; 34; 58; 91; 49; 44; 50; 93; 125]%N.
Definition ex_header : header := Header [65]%N [(17, 23)] [(20, 21)] [(17, 20); (21, 23)].
Definition ex_request : request := Request [(0, 17)] [(0, 3)] [(4, 6)] [ex_header] None.
Definition ex_one : json := JLeaf [(25, 26)].
Definition ex_two : json := JLeaf [(27, 28)].
Definition ex_array : json := JArray [(24, 29)] [ex_one; ex_two].
Definition ex_kv : json_kv := KeyVal [107]%N [(20, 29)] ex_array [(20, 24)].
Definition ex_root : json := JObject [(19, 30)] [ex_kv].
Definition ex_response : response :=
  Response [(0, 17)] [(9, 12)] [(13, 15)] [] (Some (Body [(19, 30)] (Some ex_root))).
Definition ex_parse_request (b : list N) : option request :=
  if bool_decide (b = ex_sent) then Some ex_request else None.
Definition ex_parse_response (b : list N) : option response :=
  if bool_decide (b = ex_recv) then Some ex_response else None.
Definition ex_name_eq (a b : list N) : bool := bool_decide (a = b).
(** The paths ["k"], ["k.0"] and ["k.1"] of this document. *)
Definition path_k : list N := [107]%N.
Definition path_k0 : list N := [107; 46; 48]%N.
Definition ex_get (j : json) (p : list N) : option json :=
  match j with
  | JObject _ [x] =>
      if bool_decide (p = path_k) then Some (kv_value x)
      else if bool_decide (p = path_k0) then
        match kv_value x with JArray _ (v :: _) => Some v | _ => None end
      else None
  | _ => None
  end.
Definition ex_regex (pattern raw : list N) : option (list range) := Some [].

Definition ps (key : option (list N)) (hk hv : bool) (ty path : option (list N)) : option handler_params :=
  Some (HandlerParams key (Some hk) (Some hv) ty path None).
(** Reveal the method and the header without its value; commit to the field [k]; reveal the status. *)
Definition ex_handlers : list handler :=
  [ Handler Sent Method RevealAction None;
    Handler Sent Headers RevealAction (ps (Some [65]%N) false true None None);
    Handler Received BodyPart (HashAction Blake3) (ps None false false (Some str_json) (Some path_k));
    Handler Received StatusCode RevealAction None ].

Lemma ex_get_ok : get_ok ex_get.
Proof.
  intros root p v. unfold ex_get. destruct root as [idx [|x [|]]| |]; try done.
  case_bool_decide.
  - intros [= <-]. eapply occurs_field; [apply occurs_root|apply elem_of_list_here].
  - case_bool_decide; [|done]. destruct (kv_value x) as [|i [|w l]|] eqn:E; try done. intros [= <-].
    eapply (occurs_elem _ i (w :: l)); [|apply elem_of_list_here].
    rewrite <- E. eapply occurs_field; [apply occurs_root|apply elem_of_list_here].
Qed.

Lemma occurs_ex v : occurs ex_root v -> v = ex_root \/ v = ex_array \/ v = ex_one \/ v = ex_two.
Proof.
  induction 1 as [|idx elems x Hx [E|[E|[E|E]]] Hin|idx elems w Hx [E|[E|[E|E]]] Hin]; try discriminate E.
  - by left.
  - injection E as -> ->. apply elem_of_list_singleton in Hin as ->. by right; left.
  - injection E as -> ->. apply elem_of_cons in Hin as [->|Hin%elem_of_list_singleton]; [|subst w]; auto.
Qed.
Lemma ex_request_ok : message_ok (ReqMsg ex_request).
Proof.
  split_and!.
  - by apply rs_ok_fromb_spec.
  - apply Forall_singleton. intros i. unfold ex_header; cbn [hd_idx hd_value hd_without_value].
    rewrite !in_rs_cons, !in_rs_nil. unfold in_range; simpl. lia.
  - done.
Qed.
Lemma ex_response_ok : message_ok (RespMsg ex_response).
Proof.
  split_and!.
  - by apply rs_ok_fromb_spec.
  - constructor.
  - intros b root [= <-] [= <-] idx elems x Hx Hin.
    apply occurs_ex in Hx as [E|[E|[E|E]]]; try discriminate E. injection E as -> ->.
    apply elem_of_list_singleton in Hin as ->. intros i. unfold ex_kv; cbn.
    rewrite !in_rs_cons, !in_rs_nil. unfold in_range; simpl. lia.
Qed.
Lemma ex_headers_apart : headers_apart (msg_headers (ReqMsg ex_request)).
Proof. intros x y i ->%elem_of_list_singleton ->%elem_of_list_singleton _ _. done. Qed.
Lemma ex_field : field_at ex_get ex_root path_k ex_kv.
Proof.
  exists ex_root, path_k, [(19, 30)], [ex_kv], [], []. split; [|split; [|split_and!; try done; constructor]].
  - apply (bool_decide_unpack _). vm_compute. exact I.
  - left. done.
Qed.
