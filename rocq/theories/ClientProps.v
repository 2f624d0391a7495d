(** C62, C63 and C64: the TLS client of the prover. *)
From Verif.Lib Require Import Base.
From Verif Require Import ProofModel CodecModel CodecSpec TlsModel HandshakeModel AttestModel SigAlgModel SigAlgSpec RecordModel
  ClientModel ClientSpec ClientExamples ClientMain ClientFinal ClientPanic ClientWitness.

(** ** C62 *)
(** Whatever the socket, the backend and the application do: if traffic is started, data of the application
    are handed over to be encrypted, or decrypted data are given to the application, then the server was
    authenticated before, in a full handshake that both sides confirmed. *)
Theorem C62_no_data_before_the_server_is_authenticated E ks l1 e l2 : backend_ok E -> reads_bytes ks ->
  log_of (fst (run E conn_new ks)) = l1 ++ e :: l2 -> app_event e = true -> authenticated E l1.
Proof. exact (fun H => C62_authenticated_lemma E H ks l1 e l2). Qed.
Print Assumptions C62_no_data_before_the_server_is_authenticated.
Example C62_ex_authenticated : backend_ok xE /\ reads_bytes x_good /\
  (let (c, os) := run xE conn_new x_good in
   forallb (fun o => match o with Ok _ => true | _ => false end) os = true /\
   length (filter (fun e => app_event e = true) (log_of c)) = 4).
Proof. split; [apply x_backend|]. split; [apply x_reads|]. by vm_compute. Qed.
(** No data are touched if the chain is not good, if the signature is not valid, if the suite does not fit
    the key, or if the verify data are not the ones of the backend. *)
Example C62_ex_refused :
  forallb (fun ks => let (c, os) := run xE conn_new ks in
    existsb (fun o => match o with Err _ => true | _ => false end) os && forallb (fun e => negb (app_event e)) (log_of c))
    [x_calls 0xc02f 0x0403 [0] None (replicate 12 12) [[1]]; x_calls 0xc02b 0x0403 [3] None (replicate 12 12) [[1]]; x_calls 0xc02b 0x0804 [0] None (replicate 12 12) [[1]];
     x_calls 0xc02b 0x0403 [0] None (replicate 12 13) [[1]]]%N = true.
Proof. by vm_compute. Qed.

(** Of the server's records, those up to its ChangeCipherSpec are taken up as they are, and all after it are
    decrypted; of the client's records, those up to its ChangeCipherSpec are sent as they are and contain no
    data of the application, and all after it are encrypted. *)
Theorem C62_records_are_encrypted_after_change_cipher_spec E c : backend_ok E -> reached E c ->
  (exists clear enc, records_in (log_of c) = map (pair false) clear ++ map (pair true) enc /\
    (forall i m, clear !! i = Some m -> m_typ m = ChangeCipherSpec -> S i = length clear) /\
    (enc <> [] -> exists m, last clear = Some m /\ m_typ m = ChangeCipherSpec)) /\
  (exists clear enc, records_out (log_of c) = map (pair false) clear ++ map (pair true) enc /\
    (forall m, m ∈ clear -> m_typ m <> ApplicationData) /\
    (enc <> [] -> exists m, last clear = Some m /\ m_typ m = ChangeCipherSpec)).
Proof. exact (fun HB H => conj (records_in_lemma E HB c H) (records_out_lemma E HB c H)). Qed.
Print Assumptions C62_records_are_encrypted_after_change_cipher_spec.
Example C62_ex_records : reached xE (fst (run xE conn_new x_good)) /\
  map (fun r => (r.1, ct_u8 (m_typ r.2))) (records_in (log_of (fst (run xE conn_new x_good)))) =
    ([(false, 22); (false, 22); (false, 22); (false, 22); (false, 20);
      (true, 22); (true, 23); (true, 23); (true, 23); (true, 23)])%N /\
  map (fun r => (r.1, ct_u8 (m_typ r.2))) (records_out (log_of (fst (run xE conn_new x_good)))) =
    ([(false, 22); (false, 22); (false, 22); (false, 22); (false, 20); (true, 22); (true, 23)])%N.
Proof. split; [apply x_reached|]. by vm_compute. Qed.

(** ** C63 *)
(** The bytes written to the socket are the first bytes of the records sent, in order, and calling
    [write_tls] often enough writes them all, also after a failure. *)
Theorem C63_records_are_written_in_order E c n : backend_ok E -> reached E c ->
  (exists rest, queued (log_of c) = wire_out (log_of c) ++ rest) /\
  (1 <= n -> exists m c', fst (run E c (replicate m (CallWriteTls n))) = c' /\
    wire_out (log_of c') = queued (log_of c') /\ queued (log_of c') = queued (log_of c)).
Proof. exact (fun HB H => conj (written_lemma E HB c H) (all_written_lemma E HB c n H)). Qed.
Print Assumptions C63_records_are_written_in_order.
Example C63_ex_written : reached xE (fst (run xE conn_new x_good)) /\
  (let log := log_of (fst (run xE conn_new x_good)) in
   bool_decide (queued log = wire_out log) = true /\ (100 < length (wire_out log))) /\
  (let log := log_of (fst (run xE conn_new (take 3 x_good))) in
   (0 < length (wire_out log))).
Proof. split; [apply x_reached|]. split; [split; [vm_compute; reflexivity|]|]; apply Nat.ltb_lt; vm_compute; reflexivity. Qed.

(** The records taken up are the first ones that the bytes read from the socket hold, in order; after a
    call of [process_new_packets] that succeeds they are all of them. *)
Theorem C63_records_are_read_in_order E c : backend_ok E -> reached E c ->
  (exists waiting bad rest, stream_holds (wire_in (log_of c)) (map snd (records_in (log_of c)) ++ waiting) bad rest) /\
  (forall c', step E c CallProcess = (c', Ok tt) -> exists bad rest,
    stream_holds (wire_in (log_of c')) (map snd (records_in (log_of c'))) bad rest).
Proof. exact (fun HB H => conj (taken_lemma E HB c H) (fun c' => all_taken_lemma E HB c c' H)). Qed.
Print Assumptions C63_records_are_read_in_order.

(** The records that the client takes from the backend, decrypted and encrypted, are the first ones of the
    backend's answers, in order, and after a call of [process_new_packets] that succeeds all of them. *)
Theorem C63_records_of_the_backend_are_taken_in_order E c : backend_ok E -> reached E c ->
  (exists later later', answers_in E (log_of c) = decrypted (log_of c) ++ later /\
    answers_out E (log_of c) = encrypted (log_of c) ++ later') /\
  (forall c', step E c CallProcess = (c', Ok tt) ->
    decrypted (log_of c') = answers_in E (log_of c') /\ encrypted (log_of c') = answers_out E (log_of c')).
Proof. exact (fun HB H => conj (some_fetched_lemma E HB c H) (fun c' => fetched_lemma E HB c c' H)). Qed.
Print Assumptions C63_records_of_the_backend_are_taken_in_order.

(** The application gets the first bytes of the application data decrypted, in order; unless the
    connection failed, a read gets all of them if there is room. *)
Theorem C63_data_received_are_delivered E c : backend_ok E -> reached E c ->
  (exists rest, app_received (log_of c) = delivered (log_of c) ++ rest) /\
  (forall n c' o st, c_state c = inr st -> (length (app_received (log_of c)) <= n)%nat -> step E c (CallRead n) = (c', o) ->
    delivered (log_of c') = app_received (log_of c')).
Proof. exact (fun HB H => conj (delivered_lemma E HB c H) (fun n c' o st => all_delivered_lemma E HB c n c' o st H)). Qed.
Print Assumptions C63_data_received_are_delivered.

(** The application data handed over to be encrypted are the first bytes of those taken from the
    application, in order; after a call of [process_new_packets] that succeeds, once traffic has started,
    they are all of them. *)
Theorem C63_data_accepted_are_sent E c : backend_ok E -> reached E c ->
  (exists rest, accepted (log_of c) = app_sent (log_of c) ++ rest) /\
  (forall c', step E c CallProcess = (c', Ok tt) -> StartTraffic ∈ log_of c' -> accepted (log_of c') = app_sent (log_of c')).
Proof. exact (fun HB H => conj (sent_lemma E HB c H) (fun c' => all_sent_lemma E HB c c' H)). Qed.
Print Assumptions C63_data_accepted_are_sent.
Example C63_ex_data :
  (let (c, os) := run xE conn_new x_good in let log := log_of c in
   delivered log = [1; 2; 3; 4; 5; 6] /\ app_received log = [1; 2; 3; 4; 5; 6] /\ accepted log = [71; 69; 84] /\ app_sent log = [71; 69; 84] /\
   length (answers_in xE log) = 5%nat /\ length (decrypted log) = 5%nat /\ length (answers_out xE log) = 2%nat /\ length (encrypted log) = 2%nat)%N /\
  (let c := fst (run xE conn_new (take 7 x_good)) in let log := log_of c in
   app_sent log = [] /\ (match step xE c CallProcess with (c', Ok _) => existsb (fun e => match e with StartTraffic => true | _ => false end) (log_of c') | _ => false end = true)).
Proof. split; by vm_compute. Qed.

(** ** C64 *)
(** A connection that failed stays failed: after [process_new_packets] returned an error, it returns one
    error for ever, the same one or [HandshakeNotComplete], and no record of the server is taken up, nothing
    is decrypted, and nothing but alerts is sent. *)
Theorem C64_failed_connections_stay_failed E c c1 e ks c2 os : step E c CallProcess = (c1, Err e) -> run E c1 ks = (c2, os) ->
  exists e' l, (e' = e \/ e' = ENotComplete) /\ log_of c2 = log_of c1 ++ l /\ Forall outer l /\
    forall i k o, ks !! i = Some k -> os !! i = Some o -> match k with CallProcess | CallStart => o = Err e' | _ => True end.
Proof. exact (failed_lemma E c c1 e ks c2 os). Qed.
Print Assumptions C64_failed_connections_stay_failed.
Example C64_ex_failed :
  snd (run xE conn_new ex_bad_chain) !! 4 = Some (Err ECore) /\ snd (run xE conn_new ex_bad_chain) !! 7 = Some (Err ECore) /\
  snd (run xE conn_new ex_bad_vd) !! 7 = Some (Err EDecryptError) /\ snd (run xE conn_new ex_bad_vd) !! 8 = Some (Err EDecryptError).
Proof. by vm_compute. Qed.

(** It is documented (conn.rs:204-205) that all later calls return the same error. They do not if the error
    is that bytes on the wire are no record, or if it comes from the backend. *)
Theorem C64_same_error_refuted : exists E ks c os, backend_ok E /\ reads_bytes ks /\ run E conn_new (ks ++ [CallProcess; CallProcess]) = (c, os) /\
  exists n, os !! n = Some (Err ECorrupt) /\ os !! S n = Some (Err ENotComplete).
Proof. exact other_error. Qed.
Print Assumptions C64_same_error_refuted.

(** It is documented (conn.rs:209-211) that after an error [write_tls] sends the alerts that the error
    queued. It does not once the client encrypts: the alert is handed to the backend, but is not taken from
    it, whatever is called later. *)
Theorem C64_encrypted_alert_is_never_written_refuted : exists E ks c os, backend_ok E /\ reads_bytes ks /\ run E conn_new ks = (c, os) /\
  last os = Some (Err EDecryptError) /\ last (records_out (log_of c)) = Some (true, alert 2 51) /\
  map m_typ (encrypted (log_of c)) = [Handshake] /\
  forall ks' c' os', run E c ks' = (c', os') -> encrypted (log_of c') = encrypted (log_of c).
Proof. exact alert_lost. Qed.
Print Assumptions C64_encrypted_alert_is_never_written_refuted.

(** No call panics if the connection is started first, and once, debug assertions are off, and records of
    some size are allowed. *)
Theorem C64_no_call_panics E ks c os : (0 < e_frag E)%N -> e_debug E = false -> CallStart ∉ ks ->
  run E conn_new (CallStart :: ks) = (c, os) -> Panic ∉ os.
Proof. exact (fun H1 H2 => C64_no_panic_lemma E H1 H2 ks c os). Qed.
Print Assumptions C64_no_call_panics.
Example C64_ex_no_panic : (0 < e_frag xE)%N /\ e_debug xE = false /\ exists ks, x_good = CallStart :: ks /\ length ks = 11 /\
  existsb (fun k => match k with CallStart => true | _ => false end) ks = false.
Proof. split; [done|]. split; [done|]. eexists. split; [reflexivity|]. by vm_compute. Qed.

(** If debug assertions are on, two alerts of an unknown level make the client panic. *)
Theorem C64_two_alerts_panic_in_debug_builds_refuted : reads_bytes ex_alerts /\
  Panic ∈ snd (run (x_env true false) conn_new ex_alerts) /\ Panic ∉ snd (run (x_env false false) conn_new ex_alerts).
Proof. exact alerts_panic. Qed.
Print Assumptions C64_two_alerts_panic_in_debug_builds_refuted.
(** Records that arrive before the connection is started make it panic, and so does starting it again. *)
Theorem C64_calls_out_of_order_panic_refuted : 
  Panic ∈ snd (run xE conn_new [CallReadTls (x_wire [Message ChangeCipherSpec TLSv1_2 [1]])%N; CallProcess]) /\
  Panic ∈ snd (run xE conn_new [CallStart; CallStart]).
Proof. exact order_panic. Qed.
Print Assumptions C64_calls_out_of_order_panic_refuted.
