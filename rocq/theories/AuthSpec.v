(** Vocabulary for the theorems about disclosure and commitment of plaintext (C31-C35). *)
From Verif.Lib Require Import Base Ranges.
From Verif Require Import TranscriptModel ProofModel CodecModel AttestModel TlsModel AuthModel.

(** Position [i] of the transcript is recorded at address [x]. *)
Definition recorded (m : refmap) (i x : nat) : Prop :=
  exists base r, (base, r) ∈ m /\ base <= i < base + v_len r /\ x = v_base r + (i - base).
(** A piece of the map holds the whole non-empty range [a..b], at [r]. *)
Definition in_one_piece (m : refmap) (a b : nat) (r : vref) : Prop :=
  a < b /\ exists base item, (base, item) ∈ m /\ base <= a /\ b <= base + v_len item /\
    r = VRef (v_base item + (a - base)) (b - a).
(** The value held by the memory for position [i]. *)
Definition value_at (mm : mem) (m : refmap) (i : nat) (v : N) : Prop :=
  exists x, recorded m i x /\ mm !! x = Some v.

Section Spec.
  Context (aes : list N -> list N -> list N) (key iv : list N).
  (** The AES-GCM key stream of TLS 1.2: the records are encrypted one after the other; byte [i] of a
      record with explicit nonce [n] uses byte [i mod 16] of the block cipher applied to
      [iv, n, 2 + i / 16]. *)
  Fixpoint keystream_at (rs : list tls_record) (i : nat) : option N :=
    match rs with
    | [] => None
    | r :: rs' =>
        if i <? length (r_ct r)
        then aes key (iv ++ r_nonce r ++ be 4 (2 + N.of_nat (i / 16))) !! (i mod 16)
        else keystream_at rs' (i - length (r_ct r))
    end.
  (** The concatenated ciphertext, and its length. *)
  Definition all_ct (rs : list tls_record) : list N := concat (map r_ct rs).
  (** Encrypting [p] at position [i] gives the recorded ciphertext. *)
  Definition encrypts (rs : list tls_record) (i : nat) (p : N) : Prop :=
    exists k c, keystream_at rs i = Some k /\ all_ct rs !! i = Some c /\ c = N.lxor p k.
  (** The byte at position [i], decrypted. *)
  Definition decryption (rs : list tls_record) (i : nat) : option N :=
    match keystream_at rs i, all_ct rs !! i with Some k, Some c => Some (N.lxor c k) | _, _ => None end.
End Spec.

(** Records as the TLS transcript has them: explicit nonces of eight bytes. *)
Definition nonces_ok (rs : list tls_record) : Prop := Forall (fun r => length (r_nonce r) = 8) rs.
(** The block function returns blocks. *)
Definition aes_ok (aes : list N -> list N -> list N) : Prop := forall k b, length (aes k b) = 16.

(** A partial transcript as deserialization returns it (C03). *)
Definition partial_ok (p : partial) : Prop :=
  rs_ok (p_sent_idx p) /\ rs_ok (p_recv_idx p) /\
  rs_end (p_sent_idx p) <= length (p_sent p) /\ rs_end (p_recv_idx p) <= length (p_recv p).
(** The indices of a commitment request, as deserialized. *)
Definition entries_ok (cs : list commit_entry) : Prop := Forall (fun e => rs_ok (snd (fst e))) cs.
(** All indices of direction [d] are below [n]. *)
Definition entries_below (d : direction) (n : nat) (cs : list commit_entry) : Prop :=
  Forall (fun e => fst (fst e) = d -> rs_end (snd (fst e)) <= n) cs.

(** ** The session seen by the verifier *)
Section Session.
  Context (aes : list N -> list N -> list N) (keys : session_keys) (tls : tls_transcript).
  (** The records of a direction that carry application data. *)
  Definition dir_records (d : direction) : list tls_record :=
    app_records (match d with Sent => tt_sent tls | Received => tt_recv tls end).
  (** The keys of a direction: what the client sends is encrypted with the client's write key. *)
  Definition dir_key (d : direction) : list N :=
    match d with Sent => sk_client_key keys | Received => sk_server_key keys end.
  Definition dir_iv (d : direction) : list N :=
    match d with Sent => sk_client_iv keys | Received => sk_server_iv keys end.
  (** How many bytes of application data were sent or received. *)
  Definition data_length (d : direction) : nat := length (all_ct (dir_records d)).
  (** The byte of application data at position [i]. *)
  Definition data_at (d : direction) (i : nat) : option N :=
    decryption aes (dir_key d) (dir_iv d) (dir_records d) i.
  (** Both directions have records with eight byte nonces (C21). *)
  Definition session_ok : Prop := forall d, nonces_ok (dir_records d).
End Session.

Definition the_commits (rq : prove_request) : list commit_entry :=
  match pq_commit rq with Some c => c | None => [] end.
(** The request reveals all [n] bytes of a direction. *)
Definition reveals_everything (rq : prove_request) (d : direction) (n : nat) : Prop :=
  match pq_reveal rq with
  | Some (s, r) => forall i, in_rs i (match d with Sent => s | Received => r end) <-> i < n
  | None => n = 0
  end.

Section Output.
  Context (aes : list N -> list N -> list N) (vm_hash : alg_id -> option (list N -> list N)).
  Context (keys : session_keys) (tls : tls_transcript).
  (** The commitment [c] is the requested one: over the bytes of application data at the requested
      positions, followed by a blinder of 16 bytes. *)
  Definition commits_data (e : commit_entry) (c : commitment) : Prop :=
    exists h msg blinder, cm_dir c = fst (fst e) /\ cm_idx c = snd (fst e) /\ vm_hash (snd e) = Some h /\
      cm_hash c = TypedHash (snd e) (h (msg ++ blinder)) /\ length blinder = 16 /\
      Forall2 (fun i b => data_at aes keys tls (fst (fst e)) i = Some b) (rs_values (snd (fst e))) msg.
  (** The partial transcript is disclosed as requested, and shows application data. *)
  Definition discloses (sent recv : rangeset) (p : partial) : Prop :=
    p_sent_idx p = sent /\ p_recv_idx p = recv /\
    forall d, length (p_data p d) = data_length tls d /\
      forall i, in_rs i (p_idx p d) -> exists b, p_data p d !! i = Some b /\ data_at aes keys tls d i = Some b.
End Output.
