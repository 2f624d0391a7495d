(** Model of crates/wasm/src/io.rs [JsIoAdapter]: a byte stream on top of a JavaScript object with the methods [read], [write] and [close],
    which return promises. What the object does is part of the input. The mutex is not modelled (one thread, nothing panics under it), nor
    is the stored waker, which is never used (the promise's own waker is). *)
From Verif.Lib Require Import Base.

(** A call of [read] throws or returns a promise; polling a promise of [read] (lines 153-196). *)
Inductive js_poll := JsPending | JsNull | JsBytes (l : list N) | JsRejects.
(** A call of [write] or [close] throws, or returns a promise that will be fulfilled or rejected. *)
Inductive js_call := Throws | Returns (fulfilled : bool).
Inductive io_result (A : Type) := IoOk (a : A) | IoErr | IoPending.
Arguments IoOk {A}. Arguments IoErr {A}. Arguments IoPending {A}.

(** io.rs:47-60 [AdapterState]. *)
Record js_state := JsState { js_buf : list N; js_eof : bool; js_open : bool; js_closed : bool; js_error : bool }.
(** io.rs:77-90 [new]. *)
Definition js_new : js_state := JsState [] false false false false.

(** What happens: calls of the object's methods, promises of [read] that settle, and what the caller gets. *)
Inductive js_event :=
| CallRead (throws : bool) | Settled (p : js_poll) | DidRead (n : nat) (r : io_result (list N))
| CallWrite (l : list N) (c : js_call) | DidWrite (l : list N) (r : io_result nat)
| DidFlush
| CallClose (c : js_call) | DidClose (r : io_result unit).

(** io.rs:153-196: poll the promise, with a buffer of [n] bytes. *)
Definition poll_promise (s : js_state) (n : nat) (p : js_poll) : js_state * list js_event :=
  match p with
  | JsPending => (s, [DidRead n IoPending])
  | JsNull | JsBytes [] =>
      (JsState (js_buf s) true false (js_closed s) (js_error s), [Settled p; DidRead n (IoOk [])])
  | JsBytes l =>
      (JsState (js_buf s ++ drop n l) (js_eof s) false (js_closed s) (js_error s), [Settled p; DidRead n (IoOk (take n l))])
  | JsRejects => (JsState (js_buf s) (js_eof s) false (js_closed s) true, [Settled p; DidRead n IoErr])
  end.
(** io.rs:94-201 [poll_read] with a buffer of [n] bytes; [throws] is what a call of [read] would do, [p] what the promise says. *)
Definition js_poll_read (s : js_state) (n : nat) (throws : bool) (p : js_poll) : js_state * list js_event :=
  if js_error s then (s, [DidRead n IoErr])
  else match js_buf s with
  | _ :: _ => (JsState (drop n (js_buf s)) (js_eof s) (js_open s) (js_closed s) (js_error s), [DidRead n (IoOk (take n (js_buf s)))])
  | [] =>
      if js_eof s then (s, [DidRead n (IoOk [])])
      else if js_open s then poll_promise s n p
      else if throws then (JsState [] false false (js_closed s) true, [CallRead true; DidRead n IoErr])
      else let (s', es) := poll_promise (JsState [] false true (js_closed s) (js_error s)) n p in (s', CallRead false :: es)
  end.
(** io.rs:204-247 [poll_write]. *)
Definition js_poll_write (s : js_state) (l : list N) (c : js_call) : js_state * list js_event :=
  if js_error s || js_closed s then (s, [DidWrite l IoErr])
  else match c with
  | Returns _ => (s, [CallWrite l c; DidWrite l (IoOk (length l))])
  | Throws => (s, [CallWrite l c; DidWrite l IoErr])
  end.
(** io.rs:254-277 [poll_close]. *)
Definition js_poll_close (s : js_state) (c : js_call) : js_state * list js_event :=
  if js_closed s then (s, [DidClose (IoOk tt)])
  else match c with
  | Returns _ => (JsState (js_buf s) (js_eof s) (js_open s) true (js_error s), [CallClose c; DidClose (IoOk tt)])
  | Throws => (s, [CallClose c; DidClose IoErr])
  end.

(** Calls of the adapter's methods, one after the other; flushing does nothing (249-252). *)
Inductive js_op := OpRead (n : nat) (throws : bool) (p : js_poll) | OpWrite (l : list N) (c : js_call) | OpFlush | OpClose (c : js_call).
Definition js_step (s : js_state) (o : js_op) : js_state * list js_event :=
  match o with
  | OpRead n throws p => js_poll_read s n throws p
  | OpWrite l c => js_poll_write s l c
  | OpFlush => (s, [DidFlush])
  | OpClose c => js_poll_close s c
  end.
Fixpoint js_run (s : js_state) (os : list js_op) : js_state * list js_event :=
  match os with
  | [] => (s, [])
  | o :: os' => let (s', es) := js_step s o in let (s'', es') := js_run s' os' in (s'', es ++ es')
  end.
