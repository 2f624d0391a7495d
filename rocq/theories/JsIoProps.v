(** Theorems C85 and C86 about byte streams over JavaScript objects. The vocabulary is in JsIoSpec.v, the model is JsIoModel.v: [js_run
    js_new os] is what happens in the calls [os], each with what the object does in it. *)
From Verif.Lib Require Import Base.
From Verif Require Import JsIoModel JsIoSpec JsIoLemmas.

(** ** C85 *)
(** Readers are given the bytes that the object delivered, in order. *)
Theorem C85_reads_are_what_was_delivered : forall os s log, js_run js_new os = (s, log) -> read_bytes log `prefix_of` delivered log.
Proof. exact C85_prefix_lemma. Qed.
Print Assumptions C85_reads_are_what_was_delivered.
(** A read into a buffer of [n] bytes gives at most [n] bytes; it says that the stream has ended or failed, or that there is nothing yet, only
    if this is so and everything that was delivered has been read. *)
Theorem C85_end_comes_after_all_bytes : forall os s log n throws p s' es,
  js_run js_new os = (s, log) -> js_step s (OpRead n throws p) = (s', es) ->
  exists es0 r, es = es0 ++ [DidRead n r] /\
    match r with
    | IoOk [] => n = 0 \/ (ended (log ++ es) /\ read_bytes (log ++ es) = delivered (log ++ es))
    | IoOk l => length l <= n
    | IoErr => failed (log ++ es) /\ read_bytes (log ++ es) = delivered (log ++ es)
    | IoPending => promises (log ++ es) = settled (log ++ es) + 1 /\ read_bytes (log ++ es) = delivered (log ++ es)
    end.
Proof. exact C85_read_lemma. Qed.
Print Assumptions C85_end_comes_after_all_bytes.
(** The object is never asked for more while a promise of it is open. *)
Theorem C85_one_promise_at_a_time : forall os s log, js_run js_new os = (s, log) -> settled log <= promises log <= settled log + 1.
Proof. exact C85_promise_lemma. Qed.
Print Assumptions C85_one_promise_at_a_time.
(** After the end or a failure the object is not asked again; after a failure all reads and writes fail. *)
Theorem C85_end_is_final : forall os s log o s' es, js_run js_new os = (s, log) -> js_step s o = (s', es) ->
  (ended log \/ failed log -> forall t, CallRead t ∉ es) /\
  (failed log -> (forall n t p, o = OpRead n t p -> es = [DidRead n IoErr]) /\ (forall l c, o = OpWrite l c -> es = [DidWrite l IoErr])).
Proof. exact C85_after_lemma. Qed.
Print Assumptions C85_end_is_final.
(** Seven bytes in two deliveries, read in pieces, then the end. *)
Example C85_ex : js_run js_new j_ops = (fst (js_run js_new j_ops), j_log) /\
  delivered j_log = [7;8;9;10;11;12;13]%N /\ read_bytes j_log = [7;8;9;10;11;12;13]%N /\
  promises j_log = 3 /\ List.filter (fun e => match e with DidRead _ _ => true | _ => false end) j_log =
    [DidRead 4 IoPending; DidRead 4 (IoOk [7;8;9;10]%N); DidRead 1 (IoOk [11]%N); DidRead 4 (IoOk [12]%N);
     DidRead 4 IoPending; DidRead 4 (IoOk [13]%N); DidRead 4 (IoOk []); DidRead 4 (IoOk [])].
Proof. vm_compute. split_and!; reflexivity. Qed.

(** ** C86 *)
(** The object was given exactly the bytes that writers were told to be written, in order, and always all bytes of a write. *)
Theorem C86_writes_are_handed_over : forall os s log, js_run js_new os = (s, log) ->
  given log = accepted log /\ (forall l k, DidWrite l (IoOk k) ∈ log -> k = length l).
Proof. exact C86_given_lemma. Qed.
Print Assumptions C86_writes_are_handed_over.
(** Unless reading has failed or the stream was closed a write reaches the object, and fails only if the object throws. *)
Theorem C86_writes_succeed : forall os s log l c s' es, js_run js_new os = (s, log) -> js_step s (OpWrite l c) = (s', es) ->
  ~ failed log -> DidClose (IoOk tt) ∉ log ->
  es = [CallWrite l c; DidWrite l (match c with Returns _ => IoOk (length l) | Throws => IoErr end)].
Proof. exact C86_write_lemma. Qed.
Print Assumptions C86_writes_succeed.
(** The object is closed at most once; once closing has succeeded nothing is written any more and closing again succeeds. *)
Theorem C86_closed_once : forall os s log o s' es, js_run js_new os = (s, log) -> js_step s o = (s', es) ->
  closes (log ++ es) <= 1 /\
  (DidClose (IoOk tt) ∈ log -> closes log = 1 /\ (forall l c, CallWrite l c ∉ es) /\ (forall c, CallClose c ∉ es) /\
    (forall l c, o = OpWrite l c -> es = [DidWrite l IoErr]) /\ (forall c, o = OpClose c -> es = [DidClose (IoOk tt)])).
Proof. exact C86_close_lemma. Qed.
Print Assumptions C86_closed_once.
(** It does not hold that what was written, flushed and closed without an error was written: the promises of [write] are dropped, and the
    object may reject them. *)
Theorem C86_success_means_written_refuted : exists os s log, js_run js_new os = (s, log) /\ Forall (fun e => ~ failure e) log /\
  CallWrite [1;2;3]%N (Returns false) ∈ log /\ DidFlush ∈ log /\ DidClose (IoOk tt) ∈ log.
Proof. exact lost_lemma. Qed.
Print Assumptions C86_success_means_written_refuted.
Example C86_ex : given j_log = [1;2;3;4]%N /\ accepted j_log = [1;2;3;4]%N /\ closes j_log = 1 /\
  List.filter (fun e => match e with DidWrite _ _ => true | _ => false end) j_log =
    [DidWrite [1;2;3]%N (IoOk 3); DidWrite [4]%N (IoOk 1); DidWrite [5]%N IoErr].
Proof. vm_compute. split_and!; reflexivity. Qed.
