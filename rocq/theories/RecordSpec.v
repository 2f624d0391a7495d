(** Vocabulary for the theorems about the record layer (C37-C41). *)
From Verif.Lib Require Import Base Ranges.
From Verif Require Import TranscriptModel ProofModel CodecModel CodecSpec AttestModel TlsModel AuthModel TagModel RecordModel.

(** ** Histories *)
(** [cs] are the calls made, [os] their results. *)
Definition enc_call : Type := content_type * protocol_version * N * option (list N).
Definition dec_call : Type := content_type * protocol_version * list N * list N * list N.
Notation results := (list (outcome rl_error rl_result)) (only parsing).

Definition is_Ok {E A} (o : outcome E A) : Prop := exists a, o = Ok a.
(** No call failed. *)
Definition no_failure (os : results) : Prop := Forall is_Ok os.

(** The records that were accepted for encryption, in order. *)
Fixpoint accepted_enc (cs : list rl_call) (os : results) : list enc_call :=
  match cs, os with
  | CEncrypt t v n p :: cs', Ok _ :: os' => (t, v, n, p) :: accepted_enc cs' os'
  | _ :: cs', _ :: os' => accepted_enc cs' os'
  | _, _ => []
  end.
(** The records that were accepted for decryption, in order. *)
Fixpoint accepted_dec (cs : list rl_call) (os : results) : list dec_call :=
  match cs, os with
  | CDecrypt t v n c g :: cs', Ok _ :: os' => (t, v, n, c, g) :: accepted_dec cs' os'
  | _ :: cs', _ :: os' => accepted_dec cs' os'
  | _, _ => []
  end.
(** The encrypted and the decrypted records that were handed out, in order. *)
Fixpoint handed_enc (os : results) : list enc_record :=
  match os with
  | [] => []
  | Ok (REncrypted (Some r)) :: os' => r :: handed_enc os'
  | _ :: os' => handed_enc os'
  end.
Fixpoint handed_dec (os : results) : list plain_record :=
  match os with
  | [] => []
  | Ok (RDecrypted (Some r)) :: os' => r :: handed_dec os'
  | _ :: os' => handed_dec os'
  end.
(** The limits agreed on: those of the successful allocation. *)
Fixpoint agreed (f : N * N * N -> N) (cs : list rl_call) (os : results) : N :=
  match cs, os with
  | CAlloc _ _ a b c :: cs', Ok _ :: os' => (f (a, b, c) + agreed f cs' os')%N
  | _ :: cs', _ :: os' => agreed f cs' os'
  | _, _ => 0%N
  end.
Definition agreed_sent := agreed (fun x => fst (fst x)).
Definition agreed_recv := agreed snd.
Definition sum_N (l : list N) : N := foldr N.add 0%N l.

(** Arguments are machine words, and vectors are shorter than 2^63 bytes. *)
Definition call_ok (c : rl_call) : Prop :=
  match c with
  | CAlloc a b c d e => Forall (fun x => x < 2 ^ 64)%N [a; b; c; d; e]
  | CEncrypt _ _ n p => (n < 2 ^ 64)%N
  | CDecrypt _ _ _ ct _ => (N.of_nat (length ct) < 2 ^ 63)%N
  | _ => True
  end.

(** ** Records *)
Section Records.
  Context (aes : list N -> list N -> list N).
  (** [ct] is the AES-GCM encryption of [text] for an explicit nonce: byte [i] is combined with byte
      [i mod 16] of the block cipher applied to [iv, nonce, 2 + i / 16]. *)
  Definition ctr_encrypts (key iv nonce text ct : list N) : Prop :=
    length ct = length text /\
    forall i x, text !! i = Some x ->
      exists k, aes key (iv ++ nonce ++ be 4 (2 + N.of_nat (i / 16))) !! (i mod 16) = Some k /\
        ct !! i = Some (N.lxor x k).

  Context (enc_key enc_iv dec_key dec_iv : list N) (blind : N -> nat -> N).
  (** The plaintext of the [i]-th outgoing record: the one given, or what the other party put in. *)
  Definition plaintext_of (i : nat) (c : enc_call) : list N :=
    let '(_, _, n, p) := c in
    match p with Some text => text | None => map (blind (N.of_nat i)) (seq 0 (N.to_nat n)) end.
  (** [r] is the log entry of the [i]-th outgoing record. *)
  Definition logged_sent (i : nat) (c : enc_call) (r : tls_record) : Prop :=
    let '(t, _, n, p) := c in
    r_seq r = N.of_nat i /\ r_typ r = t /\ r_plain r = p /\ is_be 8 (N.of_nat i) (r_nonce r) /\
    N.of_nat (length (r_ct r)) = n /\
    ctr_encrypts enc_key enc_iv (r_nonce r) (plaintext_of i c) (r_ct r).
  (** [r] is the log entry of the [i]-th incoming record. The follower does not learn application data. *)
  Definition logged_recv (me : role) (i : nat) (c : dec_call) (r : tls_record) : Prop :=
    let '(t, _, nonce, ct, tag) := c in
    r_seq r = N.of_nat i /\ r_typ r = t /\ r_nonce r = nonce /\ r_ct r = ct /\ r_tag r = Some tag /\
    match r_plain r with
    | Some text => ctr_encrypts dec_key dec_iv nonce ct text /\ ~ (me = Follower /\ t = ApplicationData)
    | None => me = Follower /\ t = ApplicationData
    end.
End Records.

(** The list [rs] has an entry for every element of [cs], in order. *)
Definition one_to_one {A B} (P : nat -> A -> B -> Prop) (cs : list A) (rs : list B) : Prop :=
  length rs = length cs /\ forall i c, cs !! i = Some c -> exists r, rs !! i = Some r /\ P i c r.

(** Strictly increasing numbers. *)
Definition increasing (l : list N) : Prop :=
  forall i j x y, i < j -> l !! i = Some x -> l !! j = Some y -> (x < y)%N.

(** [outs] correspond, in order, to some of [ins]. *)
Definition in_order {A B} (P : A -> B -> Prop) (ins : list A) (outs : list B) : Prop :=
  exists some, some `sublist_of` ins /\ Forall2 P some outs.
Section Handed.
  Context (aes : list N -> list N -> list N) (enc_key enc_iv dec_key dec_iv : list N).
  (** The record that comes out for an outgoing record: same type, version, length; the ciphertext is that
      of the plaintext, if it is known. *)
  Definition comes_out_enc (c : enc_call) (r : enc_record) : Prop :=
    let '(t, v, n, p) := c in
    er_typ r = t /\ er_version r = v /\ N.of_nat (length (er_ct r)) = n /\
    forall text, p = Some text -> ctr_encrypts aes enc_key enc_iv (er_nonce r) text (er_ct r).
  (** The record that comes out for an incoming record. *)
  Definition comes_out_dec (me : role) (c : dec_call) (r : plain_record) : Prop :=
    let '(t, v, nonce, ct, tag) := c in
    pr_typ r = t /\ pr_version r = v /\
    match pr_plain r with
    | Some text => ctr_encrypts aes dec_key dec_iv nonce ct text /\ ~ (me = Follower /\ t = ApplicationData)
    | None => me = Follower /\ t = ApplicationData
    end.
End Handed.

(** ** Two parties *)
(** The follower is told of the same outgoing records, but not of the contents of application data. *)
Definition same_sent (leader follower : enc_call) : Prop :=
  let '(t, v, n, p) := leader in
  follower = (t, v, n, if is_app t then None else p).
(** What the two parties' logs must agree in. *)
Definition same_record (l f : tls_record) : Prop :=
  r_seq l = r_seq f /\ r_typ l = r_typ f /\ r_nonce l = r_nonce f /\ r_ct l = r_ct f.

(** ** Traffic *)
(** A record to be sent by a party: some plaintext, but the follower has none for application data. *)
Definition sendable (me : role) (c : enc_call) : Prop :=
  let '(t, _, n, p) := c in
  match p with
  | Some text => N.of_nat (length text) = n /\ ~ (me = Follower /\ t = ApplicationData)
  | None => me = Follower /\ t = ApplicationData
  end.
Definition push (c : enc_call) : rl_call := let '(t, v, n, p) := c in CEncrypt t v n p.
(** Batches of records are pushed, each batch followed by a flush. *)
Definition batches (b : bool) (bs : list (list enc_call)) : list rl_call :=
  concat (map (fun l => map push l ++ [CFlush b]) bs).
Definition call_len (c : enc_call) : N := let '(_, _, n, _) := c in n.
(** The whole life of a record layer that only sends: [n] records and [L] bytes are agreed for sending, then the
    batches are pushed and flushed, and the encrypted records are taken out. *)
Definition traffic (n m L o rv : N) (f : bool) (bs : list (list enc_call)) : list rl_call :=
  [CAlloc n m L o rv; CSetup; CStart] ++ batches f bs ++ replicate (length (concat bs)) CNextEnc.

(** ** Sizes and versions *)
Definition total_len (l : list (list N)) : N := sum_N (map (fun x => N.of_nat (length x)) l).
Definition call_version (c : enc_call) : protocol_version := let '(_, v, _, _) := c in v.
Definition dec_version (c : dec_call) : protocol_version := let '(_, v, _, _, _) := c in v.
