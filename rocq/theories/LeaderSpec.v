(** Vocabulary for the theorems about the leader. *)
From Verif.Lib Require Import Base.
From Verif Require Import TranscriptModel ProofModel CodecModel CodecSpec AttestModel TlsModel AuthModel AuthSpec RecordModel RecordSpec PartsSpec PrfModel HandshakeModel SigAlgModel
  FollowerModel FollowerSpec LeaderModel.

(** What the follower has of a record, and what the leader: the same but for the contents of application data, which the
    follower does not have. *)
Definition told (l f : tls_record) : Prop :=
  r_seq f = r_seq l /\ r_typ f = r_typ l /\ r_nonce f = r_nonce l /\ r_ct f = r_ct l /\
  r_plain f = (if is_app (r_typ l) then None else r_plain l) /\ is_Some (r_plain l).
(** Of outgoing records the follower does not have the tag, of incoming ones it does. *)
Definition told_sent (l f : tls_record) : Prop := told l f /\ is_Some (r_tag l) /\ r_tag f = None.
Definition told_recv (l f : tls_record) : Prop := told l f /\ is_Some (r_tag l) /\ r_tag f = r_tag l.
(** What the two parties' transcripts of a connection must agree in. *)
Record agree (l f : tls_transcript) : Prop := Agree {
  agree_time : tt_time f = tt_time l;
  agree_version : tt_version f = tt_version l;
  agree_binding : tt_binding f = tt_binding l;
  agree_sent : Forall2 told_sent (tt_sent l) (tt_sent f);
  agree_recv : Forall2 told_recv (tt_recv l) (tt_recv f) }.

(** The calls made to the leader, each with the reading of the clock and whether the follower is reached during it. *)
Notation calls := (list (N * bool * lcall)) (only parsing).
(** The records that were to be sent, in order. *)
Definition pushed (xs : calls) : list message :=
  omap (fun x => match snd x with LPushOut m => Some m | _ => None end) xs.
(** No call failed. *)
Definition all_succeed {E A} (os : list (outcome E A)) : Prop := Forall (fun o => exists a, o = Ok a) os.
(** The machine that the two parties share has the leader's data: the follower's view of the [i]-th outgoing record, of which it does
    not know the contents, stands for what the leader sends. *)
Definition shared_input (blind : N -> nat -> N) (ms : list message) : Prop :=
  forall i m, ms !! i = Some m -> m_typ m = ApplicationData ->
    map (blind (N.of_nat i)) (seq 0 (length (m_payload m))) = m_payload m.
(** The follower gets the messages, each at some time; a hello at most 5 seconds off. *)
Definition received (ms : list fmsg) (fms : list (N * fmsg)) : Prop :=
  map snd fms = ms /\ forall now h, (now, MServerHello h) ∈ fms -> within 5 (sp_time h) now.

(** ** What the follower learns *)
(** Two calls that differ at most in the contents of application data that is to be sent. *)
Definition hides (x y : lcall) : Prop :=
  match x, y with
  | LPushOut m, LPushOut m' =>
      m_typ m' = m_typ m /\ m_version m' = m_version m /\ length (m_payload m') = length (m_payload m) /\
      (m_typ m <> ApplicationData -> m_payload m' = m_payload m)
  | _, _ => y = x
  end.
Definition differ_in_contents (xs ys : calls) : Prop := Forall2 (fun x y => fst y = fst x /\ hides (snd x) (snd y)) xs ys.

(** What the leader sends: at first the client's random number, then the server's key, then what happens on the connection, and at
    last, if at all, that it is closed. *)
Definition on_connection (x : fmsg) : Prop :=
  match x with MClientRandom _ | MServerHello _ | MClose => False | _ => True end.
Definition in_protocol (ms : list fmsg) : Prop :=
  ms = [] \/ exists r, ms = [MClientRandom r] \/ exists h mid last, ms = MClientRandom r :: MServerHello h :: mid ++ last /\
    Forall on_connection mid /\ (last = [] \/ last = [MClose]).
(** Application data goes without its contents, other records with theirs, and with the right lengths. *)
Definition discreet (x : fmsg) : Prop :=
  match x with
  | MEncrypt t _ n p => match p with Some text => t <> ApplicationData /\ n = N.of_nat (length text) | None => t = ApplicationData end
  | MCfVd h | MSfVd h => length h = 32
  | MServerHello h => sp_group h = secp256r1
  | _ => True
  end.

(** ** What was asked of the leader *)
(** The random numbers it drew, the server's parameters with the time when they were given, the hashes for the Finished messages, and
    the records that came in. *)
Definition allocated (xs : calls) : list (list N) := omap (fun x => match snd x with LAlloc r => Some r | _ => None end) xs.
Definition prepared (xs : calls) : list (N * hs_data) := omap (fun x => match snd x with LPrepare hs => Some (fst (fst x), hs) | _ => None end) xs.
Definition cf_asked (xs : calls) : list (list N) := omap (fun x => match snd x with LClientVd h => Some h | _ => None end) xs.
Definition sf_asked (xs : calls) : list (list N) := omap (fun x => match snd x with LServerVd h => Some h | _ => None end) xs.
Definition arrived (xs : calls) : list message := omap (fun x => match snd x with LPushIn m => Some m | _ => None end) xs.
(** Vectors are shorter than 2^63 bytes. *)
Definition sizes_ok (xs : calls) : Prop := Forall (fun m => N.of_nat (length (m_payload m)) < 2 ^ 63)%N (pushed xs ++ arrived xs).

(** [r] is the entry in the transcript of the [i]-th record that was to be sent, or that came in. *)
Definition sent_as (aes : list N -> list N -> list N) (key iv : list N) (i : nat) (m : message) (r : tls_record) : Prop :=
  r_seq r = N.of_nat i /\ r_typ r = m_typ m /\ r_plain r = Some (m_payload m) /\ is_be 8 (N.of_nat i) (r_nonce r) /\
  length (r_ct r) = length (m_payload m) /\ ctr_encrypts aes key iv (r_nonce r) (m_payload m) (r_ct r).
Definition received_as (aes : list N -> list N -> list N) (key iv : list N) (i : nat) (m : message) (r : tls_record) : Prop :=
  exists tag text, r_seq r = N.of_nat i /\ r_typ r = m_typ m /\ is_split (m_payload m) (r_nonce r) (r_ct r) tag /\ r_tag r = Some tag /\
    r_plain r = Some text /\ ctr_encrypts aes key iv (r_nonce r) (r_ct r) text.
