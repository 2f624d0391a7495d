(** Model of the TLS wire codec: crates/tls-core/src/msgs/codec.rs, base.rs,
    macros.rs/enums.rs (two enums), message.rs (records), deframer.rs,
    fragmenter.rs and hsjoiner.rs.

    A [Reader] is modelled by its unread bytes; a read returns the value and the
    new unread bytes, or [None]. *)
From Verif.Lib Require Import Base.

Notation bytes := (list N).
Definition reader (A : Type) := bytes -> option (A * bytes).

(** Big-endian bytes of an unsigned integer ([to_be_bytes]) and back
    ([from_be_bytes]). *)
Fixpoint be (n : nat) (v : N) : bytes :=
  match n with
  | O => []
  | S n' => ((v / 256 ^ N.of_nat n') mod 256)%N :: be n' v
  end.
Definition of_be (l : bytes) : N := fold_left (fun acc b => acc * 256 + b)%N l 0%N.

(** codec.rs:23-31 [Reader::take]. *)
Definition take_bytes (n : nat) : reader bytes := fun l =>
  if length l <? n then None else Some (take n l, drop n l).
(** codec.rs:17-21 [rest]. *)
Definition rest_bytes : reader bytes := fun l => Some (l, []).

(** codec.rs:74-174: the integer codecs, by width in bytes. [u24] keeps the low
    three bytes of a u32. *)
Definition enc_uint (n : nat) (v : N) : bytes := be n v.
Definition read_uint (n : nat) : reader N := fun l =>
  match take_bytes n l with
  | Some (b, l') => Some (of_be b, l')
  | None => None
  end.

(** base.rs:38-156: byte strings with a length prefix of [n] bytes
    ([Certificate] and [PayloadU24] n=3, [PayloadU16] n=2, [PayloadU8] n=1).
    The length is truncated to the prefix ([as u8]/[as u16]; for u24 the top byte
    of the u32 is dropped, and [as u32] before that). *)
Definition enc_payload (n : nat) (p : bytes) : bytes :=
  enc_uint n (N.of_nat (length p) mod 256 ^ N.of_nat n) ++ p.
Definition read_payload (n : nat) : reader bytes := fun l =>
  match read_uint n l with
  | Some (len, l1) => take_bytes (N.to_nat len) l1
  | None => None
  end.

(** codec.rs:176-216 [encode_vec_u8]/[u16]/[u24]: items behind a length prefix of
    [n] bytes; the [debug_assert] is absent from release builds, where the length
    is truncated. *)
Definition enc_vec {A} (n : nat) (enc : A -> bytes) (xs : list A) : bytes :=
  enc_payload n (concat (map enc xs)).

(** codec.rs:223-225: [while sub.any_left() { ret.push(T::read(&mut sub)?) }].
    The fuel is only exhausted if an item reads nothing from a non-empty buffer
    (where the Rust loops forever); this is made explicit. *)
Inductive items A := Items (xs : list A) | ItemErr | OutOfFuel.
Arguments Items {A}. Arguments ItemErr {A}. Arguments OutOfFuel {A}.
Fixpoint read_items {A} (fuel : nat) (rd : reader A) (sub : bytes) : items A :=
  match sub with
  | [] => Items []
  | _ :: _ =>
      match fuel with
      | O => OutOfFuel
      | S fuel' =>
          match rd sub with
          | None => ItemErr
          | Some (x, sub') =>
              match read_items fuel' rd sub' with
              | Items xs => Items (x :: xs)
              | e => e
              end
          end
      end
  end.
(** codec.rs:218-256 [read_vec_u8]/[read_vec_u16]/[read_vec_u24_limited]
    ([limit] is [Some max_bytes] for the last). *)
Definition read_vec {A} (n : nat) (limit : option nat) (rd : reader A) (l : bytes) : option (items A * bytes) :=
  match read_uint n l with
  | None => None
  | Some (len, l1) =>
      if match limit with Some m => (N.of_nat m <? len)%N | None => false end then None
      else match take_bytes (N.to_nat len) l1 with
           | None => None
           | Some (sub, l2) => Some (read_items (length sub) rd sub, l2)
           end
  end.

(** ** Records *)

(** enums.rs:110-126 [ContentType]. *)
Inductive content_type :=
| ChangeCipherSpec | Alert | Handshake | ApplicationData | Heartbeat | UnknownType (x : N).
Global Instance content_type_eq_dec : EqDecision content_type.
Proof. solve_decision. Defined.
(** macros.rs:18-24 [get_u8] and 35-43 [From<u8>]. *)
Definition ct_u8 (c : content_type) : N :=
  match c with
  | ChangeCipherSpec => 20 | Alert => 21 | Handshake => 22 | ApplicationData => 23 | Heartbeat => 24
  | UnknownType x => x
  end%N.
Definition ct_of (x : N) : content_type := (
  if x =? 20 then ChangeCipherSpec else if x =? 21 then Alert else if x =? 22 then Handshake
  else if x =? 23 then ApplicationData else if x =? 24 then Heartbeat else UnknownType x)%N.

(** enums.rs:4-22 [ProtocolVersion]. *)
Inductive protocol_version :=
| SSLv2 | SSLv3 | TLSv1_0 | TLSv1_1 | TLSv1_2 | TLSv1_3 | DTLSv1_0 | DTLSv1_2 | UnknownVersion (x : N).
Global Instance protocol_version_eq_dec : EqDecision protocol_version.
Proof. solve_decision. Defined.
Definition pv_u16 (v : protocol_version) : N :=
  match v with
  | SSLv2 => 0x0200 | SSLv3 => 0x0300 | TLSv1_0 => 0x0301 | TLSv1_1 => 0x0302 | TLSv1_2 => 0x0303
  | TLSv1_3 => 0x0304 | DTLSv1_0 => 0xFEFF | DTLSv1_2 => 0xFEFD | UnknownVersion x => x
  end%N.
Definition pv_of (x : N) : protocol_version := (
  if x =? 0x0200 then SSLv2 else if x =? 0x0300 then SSLv3 else if x =? 0x0301 then TLSv1_0
  else if x =? 0x0302 then TLSv1_1 else if x =? 0x0303 then TLSv1_2 else if x =? 0x0304 then TLSv1_3
  else if x =? 0xFEFF then DTLSv1_0 else if x =? 0xFEFD then DTLSv1_2 else UnknownVersion x)%N.

(** message.rs:66-71 [OpaqueMessage] (also [PlainMessage], 170-176). *)
Record message := Message { m_typ : content_type; m_version : protocol_version; m_payload : bytes }.

(** message.rs:252-260 [MessageError]. *)
Inductive message_error :=
| TooShortForHeader | TooShortForLength | IllegalLength | IllegalContentType | IllegalProtocolVersion.

(** message.rs:141-147. *)
Definition MAX_PAYLOAD : N := (16384 + 2048)%N.
Definition HEADER_SIZE : N := 5%N.
Definition MAX_WIRE_SIZE : N := (MAX_PAYLOAD + HEADER_SIZE)%N.

Definition opt_err {E A} (e : E) (o : option A) : outcome E A :=
  match o with Some a => Ok a | None => Err e end.

(** message.rs:94-97: only unknown versions are looked at. *)
Definition version_rejected (v : protocol_version) : bool :=
  match v with
  | UnknownVersion x => negb (N.land x 0xff00 =? 0x0300)%N
  | _ => false
  end.

(** message.rs:77-115 [OpaqueMessage::read]. *)
Definition message_read (l : bytes) : outcome message_error (message * bytes) :=
  let! (t, l1) := opt_err TooShortForHeader (read_uint 1 l) in
  let typ := ct_of t in
  let! (v, l2) := opt_err TooShortForHeader (read_uint 2 l1) in
  let version := pv_of v in
  let! (len, l3) := opt_err TooShortForHeader (read_uint 2 l2) in
  if negb (bool_decide (typ = ApplicationData)) && (len =? 0)%N then Err IllegalLength
  else if (MAX_PAYLOAD <=? len)%N then Err IllegalLength
  else if match typ with UnknownType _ => true | _ => false end then Err IllegalContentType
  else if version_rejected version then Err IllegalProtocolVersion
  else
    let! (payload, l4) := opt_err TooShortForLength (take_bytes (N.to_nat len) l3) in
    Ok (Message typ version payload, l4).

(** message.rs:117-124 [OpaqueMessage::encode]; the length is [as u16]. *)
Definition message_encode (m : message) : bytes :=
  enc_uint 1 (ct_u8 (m_typ m)) ++ enc_uint 2 (pv_u16 (m_version m))
  ++ enc_uint 2 (N.of_nat (length (m_payload m)) mod 2 ^ 16) ++ m_payload m.

(** ** Deframer (deframer.rs) *)

(** deframer.rs:11-26 [MessageDeframer]; [df_buf] is the used prefix [buf[..used]]. *)
Record deframer := Deframer { df_frames : list message; df_desynced : bool; df_buf : bytes }.
Definition df_new : deframer := Deframer [] false [].

Inductive buffer_contents := BInvalid | BPartial | BValid.
(** deframer.rs:120-136 [try_deframe_one] with 139-159 [buf_consume]: the consumed
    prefix is dropped (the case [taken > used] cannot occur and leaves [used]). *)
Definition try_deframe_one (d : deframer) : buffer_contents * deframer :=
  match message_read (df_buf d) with
  | Ok (m, rest) =>
      let taken := length (df_buf d) - length rest in
      (BValid, Deframer (df_frames d ++ [m]) (df_desynced d) (drop taken (df_buf d)))
  | Err TooShortForHeader | Err TooShortForLength => (BPartial, d)
  | _ => (BInvalid, d)
  end.
(** deframer.rs:69-78: the loop. [None] is fuel exhaustion (proved impossible). *)
Fixpoint df_loop (fuel : nat) (d : deframer) : option deframer :=
  match fuel with
  | O => None
  | S fuel' =>
      match try_deframe_one d with
      | (BInvalid, d') => Some (Deframer (df_frames d') true (df_buf d'))
      | (BValid, d') => df_loop fuel' d'
      | (BPartial, d') => Some d'
      end
  end.
(** deframer.rs:59-81 [read] and 86-108 [read_async]: [chunk] is what the source
    delivered into [buf[used..]]; [None] if it is longer than the space left, which
    an [io::Read] cannot do. *)
Definition df_read (d : deframer) (chunk : bytes) : option deframer :=
  if (MAX_WIRE_SIZE <? N.of_nat (length (df_buf d) + length chunk))%N then None
  else
    let d' := Deframer (df_frames d) (df_desynced d) (df_buf d ++ chunk) in
    df_loop (S (length (df_buf d'))) d'.
(** [frames.pop_front()] by the caller. *)
Definition df_pop (d : deframer) : option (message * deframer) :=
  match df_frames d with
  | [] => None
  | m :: ms => Some (m, Deframer ms (df_desynced d) (df_buf d))
  end.
(** deframer.rs:113-115 [has_pending]. *)
Definition df_has_pending (d : deframer) : bool :=
  negb (match df_frames d with [] => true | _ => false end) || (0 <? length (df_buf d)).

(** ** Fragmenter (fragmenter.rs) *)
Definition MAX_FRAGMENT_LEN : N := 16384%N.
Definition PACKET_OVERHEAD : N := 5%N.
Definition MAX_FRAGMENT_SIZE : N := (MAX_FRAGMENT_LEN + PACKET_OVERHEAD)%N.

(** fragmenter.rs:70-77 [set_max_fragment_size]: the new limit, or [None] for an error
    (the field is only assigned on success). *)
Definition frag_set (new : option N) : option N :=
  match new with
  | Some sz => if (32 <=? sz)%N && (sz <=? MAX_FRAGMENT_SIZE)%N then Some (sz - PACKET_OVERHEAD)%N else None
  | None => Some MAX_FRAGMENT_LEN
  end.

(** slice [chunks(n)]: consecutive pieces of [n] elements, the last one shorter;
    [n = 0] panics in Rust. *)
Fixpoint chunks_go (fuel n : nat) (l : bytes) : list bytes :=
  match fuel with
  | O => []
  | S fuel' => match l with [] => [] | _ => take n l :: chunks_go fuel' n (drop n l) end
  end.
Definition chunks (n : nat) (l : bytes) : panicky (list bytes) :=
  if n =? 0 then Panic else Ok (chunks_go (length l) n l).

(** fragmenter.rs:35-49 [fragment] (the messages appended to [out]). *)
Definition fragment (max_frag : N) (m : message) : panicky (list message) :=
  if (N.of_nat (length (m_payload m)) <=? max_frag)%N then Ok [m]
  else
    let! cs := chunks (N.to_nat max_frag) (m_payload m) in
    Ok (map (fun c => Message (m_typ m) (m_version m) c) cs).
(** fragmenter.rs:53-68 [fragment_borrow]. *)
Definition fragment_borrow (max_frag : N) (t : content_type) (v : protocol_version) (payload : bytes)
  : panicky (list message) :=
  let! cs := chunks (N.to_nat max_frag) payload in
  Ok (map (fun c => Message t v c) cs).

(** ** Handshake joiner (hsjoiner.rs) *)
Section HsJoiner.
  (** The body parser of handshake.rs:2188-2273: given version, handshake type and the
      whole body, the parsed payload, or [None] if it does not parse or leaves bytes. *)
  Context {B : Type} (body_read : protocol_version -> N -> bytes -> option B).

  (** handshake.rs:2183-2280 [HandshakeMessagePayload::read_version]: type, u24 length,
      body. *)
  Definition hs_read (v : protocol_version) (l : bytes) : option (B * bytes) :=
    match read_uint 1 l with
    | None => None
    | Some (typ, l1) =>
        match read_uint 3 l1 with
        | None => None
        | Some (len, l2) =>
            match take_bytes (N.to_nat len) l2 with
            | None => None
            | Some (sub, l3) =>
                match body_read v typ sub with
                | Some b => Some (b, l3)
                | None => None
                end
            end
        end
    end.

  (** hsjoiner.rs:20-26 [HandshakeJoiner]. *)
  Record joiner := Joiner { j_frames : list (protocol_version * B); j_buf : bytes }.
  Definition j_new : joiner := Joiner [] [].

  Definition MAX_HANDSHAKE_SIZE : N := 0xffff%N.
  Inductive buffer_state := MessageTooLarge | OneMessage | NeedsMoreData.
  (** hsjoiner.rs:102-113 [buf_contains_message]. *)
  Definition buf_contains_message (buf : bytes) : buffer_state :=
    if length buf <? 4 then NeedsMoreData
    else
      let header := take 4 buf in
      let rest := drop 4 buf in
      let len := of_be (drop 1 header) in
      if (MAX_HANDSHAKE_SIZE <? len)%N then MessageTooLarge
      else if (len <=? N.of_nat (length rest))%N then OneMessage
      else NeedsMoreData.
  (** hsjoiner.rs:119-137 [deframe_one]; [None] is [false]. *)
  Definition deframe_one (v : protocol_version) (j : joiner) : option joiner :=
    match hs_read v (j_buf j) with
    | None => None
    | Some (b, rest) =>
        let used := length (j_buf j) - length rest in
        Some (Joiner (j_frames j ++ [(v, b)]) (drop used (j_buf j)))
    end.
  (** hsjoiner.rs:81-95: the loop; outer [None] is fuel exhaustion (proved impossible). *)
  Fixpoint j_loop (fuel : nat) (v : protocol_version) (j : joiner) (count : nat)
    : option (option nat * joiner) :=
    match fuel with
    | O => None
    | S fuel' =>
        match buf_contains_message (j_buf j) with
        | MessageTooLarge => Some (None, j)
        | NeedsMoreData => Some (Some count, j)
        | OneMessage =>
            match deframe_one v j with
            | None => Some (None, j)
            | Some j' => j_loop fuel' v j' (S count)
            end
        end
    end.
  (** hsjoiner.rs:71-97 [take_message]. *)
  Definition take_message (j : joiner) (m : message) : option (option nat * joiner) :=
    let buf := match j_buf j with [] => m_payload m | _ => j_buf j ++ m_payload m end in
    j_loop (S (length buf)) (m_version m) (Joiner (j_frames j) buf) 0.
  (** hsjoiner.rs:59-61 [is_empty]. *)
  Definition j_is_empty (j : joiner) : bool := match j_buf j with [] => true | _ => false end.
End HsJoiner.

(** message.rs:33-50 [MessagePayload::new] for the parts other than handshake bodies:
    alert (alert.rs:13-24) and change-cipher-spec (ccs.rs:6-20). *)
Inductive message_payload (B : Type) :=
| MPAlert (level description : N) | MPHandshake (b : B) | MPCcs | MPApp (p : bytes).
Arguments MPAlert {B}. Arguments MPHandshake {B}. Arguments MPCcs {B}. Arguments MPApp {B}.
Definition message_payload_new {B} (body_read : protocol_version -> N -> bytes -> option B)
    (typ : content_type) (v : protocol_version) (payload : bytes) : option (message_payload B) :=
  let no_left (r : option (message_payload B * bytes)) :=
    match r with Some (p, []) => Some p | _ => None end in
  match typ with
  | ApplicationData => Some (MPApp payload)
  | Alert =>
      no_left (match read_uint 1 payload with
               | Some (lv, l1) => match read_uint 1 l1 with
                                  | Some (ds, l2) => Some (MPAlert lv ds, l2)
                                  | None => None end
               | None => None end)
  | Handshake =>
      no_left (match hs_read body_read v payload with
               | Some (b, l) => Some (MPHandshake b, l)
               | None => None end)
  | ChangeCipherSpec =>
      no_left (match read_uint 1 payload with
               | Some (t, l1) => if (t =? 1)%N && match l1 with [] => true | _ => false end
                                 then Some (MPCcs, l1) else None
               | None => None end)
  | _ => None
  end.
