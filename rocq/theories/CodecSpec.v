(** Vocabulary for the theorems about the wire codec (C25-C30), stated without the
    model's readers and writers. *)
From Verif.Lib Require Import Base.
From Verif Require Import CodecModel.

(** [l] is the big-endian representation of [v] in [n] bytes. *)
Inductive is_be : nat -> N -> list N -> Prop :=
| is_be_0 : is_be 0 0 []
| is_be_S n hi v l : is_be n v l -> byte_ok hi -> is_be (S n) (hi * 256 ^ N.of_nat n + v) (hi :: l).

(** A decoder inverts an encoder on [a], whatever follows, and reports any truncation. *)
Definition round_trips {A} (rd : reader A) (enc : A -> list N) (a : A) : Prop :=
  (forall rest, rd (enc a ++ rest) = Some (a, rest)) /\
  (forall k, k < length (enc a) -> rd (take k (enc a)) = None).

(** A decoder consumes a prefix of its buffer, and what follows does not matter. *)
Definition reads_prefix {A} (rd : reader A) : Prop :=
  forall l a rest, rd l = Some (a, rest) ->
    exists used, l = used ++ rest /\ forall more, rd (used ++ more) = Some (a, more).

(** Record types and versions that the record layer accepts. *)
Definition type_known (t : content_type) : Prop :=
  match t with UnknownType _ => False | _ => True end.
(** An [UnknownVersion] holds a 16-bit number that names no known version. *)
Definition version_wf (v : protocol_version) : Prop :=
  match v with
  | UnknownVersion x => (x < 2 ^ 16)%N /\
      x ∉ [0x0200; 0x0300; 0x0301; 0x0302; 0x0303; 0x0304; 0xFEFF; 0xFEFD]%N
  | _ => True
  end.
(** The two bytes of a version. *)
Definition version_major (v : protocol_version) : N := (pv_u16 v / 256)%N.
Definition version_minor (v : protocol_version) : N := (pv_u16 v mod 256)%N.
Definition version_named (v : protocol_version) : Prop :=
  match v with UnknownVersion _ => False | _ => True end.

(** A record in the sense of RFC 5246, section 6.2.1/6.2.3, as this implementation takes
    it: known type, a version either named or of major number 3, fewer than 2^14 + 2048
    bytes, and no empty records but for application data. *)
Record record_ok (m : message) : Prop := {
  rok_type : type_known (m_typ m);
  rok_wf : version_wf (m_version m);
  rok_version : version_named (m_version m) \/ version_major (m_version m) = 3%N;
  rok_len : (N.of_nat (length (m_payload m)) < 18432)%N;
  rok_nonempty : m_typ m = ApplicationData \/ m_payload m <> [];
}.

(** The wire form of a record: type, version, 16-bit length, payload. *)
Definition wire (m : message) : list N :=
  let n := N.of_nat (length (m_payload m)) in
  [ct_u8 (m_typ m); version_major (m_version m); version_minor (m_version m);
   (n / 256)%N; (n mod 256)%N] ++ m_payload m.

Arguments wire : simpl never.

(** The header fields of a buffer holding at least a header. *)
Definition hdr_type (l : list N) : option N := l !! 0.
Definition hdr_version (l : list N) : option N :=
  match l !! 1, l !! 2 with Some a, Some b => Some (a * 256 + b)%N | _, _ => None end.
Definition hdr_len (l : list N) : option N :=
  match l !! 3, l !! 4 with Some a, Some b => Some (a * 256 + b)%N | _, _ => None end.

(** ** Streams of records *)

(** [l] begins a record that is not complete yet: it is a proper prefix of one. *)
Definition incomplete (l : list N) : Prop :=
  exists m c, record_ok m /\ c <> [] /\ l ++ c = wire m.
(** No continuation of [l] begins with a record. *)
Definition hopeless (l : list N) : Prop :=
  forall c m rest, l ++ c = wire m ++ rest -> ~ record_ok m.

(** What a stream of bytes holds: complete records, then a remainder that has a full
    header but can never be a record ([bad = true]), or that is still incomplete or has not
    even a full header ([bad = false]). *)
Record stream_holds (s : list N) (ms : list message) (bad : bool) (rest : list N) : Prop := {
  sh_split : s = concat (map wire ms) ++ rest;
  sh_ok : Forall record_ok ms;
  sh_rest : if bad then 5 <= length rest /\ hopeless rest else incomplete rest \/ length rest < 5;
}.

(** What a caller does with a deframer: feed it what a read delivered, or take a frame. *)
Inductive df_op := DFeed (chunk : list N) | DPop.
(** A run: the final state and the frames taken so far. *)
Fixpoint df_run (d : deframer) (ops : list df_op) : option (deframer * list message) :=
  match ops with
  | [] => Some (d, [])
  | DFeed c :: ops' =>
      match df_read d c with None => None | Some d' => df_run d' ops' end
  | DPop :: ops' =>
      match df_pop d with
      | None => df_run d ops'
      | Some (m, d') => match df_run d' ops' with Some (d'', ms) => Some (d'', m :: ms) | None => None end
      end
  end.
Definition fed (ops : list df_op) : list N :=
  concat (map (fun o => match o with DFeed c => c | DPop => [] end) ops).
(** Every read fits the space that is left in the buffer of 2^14 + 2048 + 5 bytes: what
    an [io::Read] guarantees. *)
Fixpoint reads_fit (d : deframer) (ops : list df_op) : Prop :=
  match ops with
  | [] => True
  | DFeed c :: ops' =>
      (N.of_nat (length (df_buf d) + length c) <= 18437)%N /\
      match df_read d c with Some d' => reads_fit d' ops' | None => True end
  | DPop :: ops' => match df_pop d with Some (_, d') => reads_fit d' ops' | None => reads_fit d ops' end
  end.

(** ** Handshake streams *)
Section HsSpec.
  Context {B : Type} (body_read : protocol_version -> N -> list N -> option B).
  (** A handshake message on the wire: type, 24-bit length, body. *)
  Definition hs_wire (typ : N) (body : list N) : list N :=
    let n := N.of_nat (length body) in
    [typ; (n / 65536)%N; (n / 256 mod 256)%N; (n mod 256)%N] ++ body.
  Arguments hs_wire : simpl never.
  (** A message the joiner accepts: it parses, and is at most 0xffff bytes long. *)
  Definition hs_msg_ok (v : protocol_version) (tb : N * list N) (b : B) : Prop :=
    body_read v (fst tb) (snd tb) = Some b /\ (N.of_nat (length (snd tb)) <= 0xffff)%N.
  (** [l] is a proper prefix of an acceptable-length message, nothing of which has been yielded. *)
  Definition hs_incomplete (l : list N) : Prop :=
    exists typ body c, (N.of_nat (length body) <= 0xffff)%N /\ c <> [] /\ l ++ c = hs_wire typ body.
  (** [l] starts with a message that is refused: too long (more than 0xffff bytes), or
      complete with a body that does not parse. *)
  Definition hs_refused (v : protocol_version) (l : list N) : Prop :=
    (exists typ body c, (0xffff < N.of_nat (length body) < 2 ^ 24)%N /\
       exists rest, l ++ c = hs_wire typ body ++ rest) \/
    (exists typ body rest, l = hs_wire typ body ++ rest /\ (N.of_nat (length body) <= 0xffff)%N /\
       body_read v typ body = None).
  (** A stream of handshake bytes: complete messages that all parse, then a remainder that
      has not a full header or is an incomplete message. *)
  Record hs_stream (v : protocol_version) (s : list N) (tbs : list (N * list N)) (bs : list B) (rest : list N) : Prop := {
    hss_split : s = concat (map (fun tb => hs_wire (fst tb) (snd tb)) tbs) ++ rest;
    hss_ok : Forall2 (hs_msg_ok v) tbs bs;
    hss_rest : length rest < 4 \/ hs_incomplete rest;
  }.
  (** Feeding records one after the other; stops at the first one refused. *)
  Fixpoint feed_all (j : joiner) (ms : list message) : option (list nat * joiner) :=
    match ms with
    | [] => Some ([], j)
    | m :: ms' =>
        match take_message body_read j m with
        | Some (Some n, j') =>
            match feed_all j' ms' with Some (ns, j'') => Some (n :: ns, j'') | None => None end
        | _ => None
        end
    end.
End HsSpec.
Arguments hs_wire : simpl never.
