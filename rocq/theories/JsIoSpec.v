(** What can be seen of a stream over a JavaScript object (C85, C86). *)
From Verif.Lib Require Import Base.
From Verif Require Import JsIoModel.

(** The bytes the object has delivered, and the bytes readers were given. *)
Definition delivered (log : list js_event) : list N :=
  concat (map (fun e => match e with Settled (JsBytes l) => l | _ => [] end) log).
Definition read_bytes (log : list js_event) : list N :=
  concat (map (fun e => match e with DidRead _ (IoOk l) => l | _ => [] end) log).
(** The object has said that there is nothing more; reading has failed. *)
Definition ended (log : list js_event) : Prop := Settled JsNull ∈ log \/ Settled (JsBytes []) ∈ log.
Definition failed (log : list js_event) : Prop := Settled JsRejects ∈ log \/ CallRead true ∈ log.
(** How many promises of [read] were made and have settled. *)
Definition promises (log : list js_event) : nat := length (List.filter (fun e => match e with CallRead false => true | _ => false end) log).
Definition settled (log : list js_event) : nat := length (List.filter (fun e => match e with Settled _ => true | _ => false end) log).
(** The bytes the object was given by calls of [write] that returned, and those the writers were told to be written. *)
Definition given (log : list js_event) : list N :=
  concat (map (fun e => match e with CallWrite l (Returns _) => l | _ => [] end) log).
Definition accepted (log : list js_event) : list N :=
  concat (map (fun e => match e with DidWrite l (IoOk k) => take k l | _ => [] end) log).
Definition closes (log : list js_event) : nat := length (List.filter (fun e => match e with CallClose (Returns _) => true | _ => false end) log).
(** A call of one of the object's methods. *)
Definition is_call (e : js_event) : Prop := match e with CallRead _ | CallWrite _ _ | CallClose _ => True | _ => False end.
(** What a call of the adapter returned. *)
Definition failure (e : js_event) : Prop := match e with DidRead _ IoErr | DidWrite _ IoErr | DidClose IoErr => True | _ => False end.
