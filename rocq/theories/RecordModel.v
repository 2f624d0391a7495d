(** Model of the MPC-TLS record layer: crates/mpc-tls/src/record_layer.rs, record_layer/encrypt.rs,
    record_layer/decrypt.rs, record_layer/aead/aes_gcm.rs, record_layer/aead/ghash/*.rs,
    record_layer/aes_gcm.rs and the keystream of crates/components/cipher/src/lib.rs.

    Simplifications. The virtual machine is ideal: what is decoded is the function computed on the
    inputs of both parties; a private input of the leader appears on the follower's side as an
    arbitrary cell content [blind]. The follower's tag shares are honest, so that the sum of shares
    is the tag. Locks are never held by anyone else. Keys are set on creation (alloc_session in
    utils.rs calls [set_keys] before [alloc]). Sequence numbers do not reach 2^64. *)
From Verif.Lib Require Import Base Ranges.
From Verif Require Import TranscriptModel ProofModel CodecModel AttestModel TlsModel AuthModel TagModel.

(** Functions with a state that is kept when they fail. *)
Definition stm (S E A : Type) := S -> S * outcome E A.
Definition sret {S E A} (a : A) : stm S E A := fun s => (s, Ok a).
Definition sfail {S E A} (e : E) : stm S E A := fun s => (s, Err e).
Definition slift {S E A} (o : outcome E A) : stm S E A := fun s => (s, o).
Definition sbind {S E A B} (m : stm S E A) (k : A -> stm S E B) : stm S E B :=
  fun s => match m s with
           | (s', Ok a) => k a s'
           | (s', Err e) => (s', Err e)
           | (s', Panic) => (s', Panic)
           end.
Notation "'do!' x := m 'in' k" := (sbind m (fun x => k))
  (at level 200, x pattern, m at level 100, k at level 200, right associativity).

(** usize arithmetic: with overflow checks (debug builds) it panics, without (release builds, the
    profiles of the workspace do not turn them on) it wraps. *)
Definition usize_max : N := 2 ^ 64.
Definition uadd (checked : bool) (a b : N) : panicky N :=
  if (a + b <? usize_max)%N then Ok (a + b)%N else if checked then Panic else Ok ((a + b) mod usize_max)%N.
Definition umul (checked : bool) (a b : N) : panicky N :=
  if (a * b <? usize_max)%N then Ok (a * b)%N else if checked then Panic else Ok ((a * b) mod usize_max)%N.
Definition usub (checked : bool) (a b : N) : panicky N :=
  if (b <=? a)%N then Ok (a - b)%N else if checked then Panic else Ok (a + usize_max - b)%N.
(** [usize::div_ceil(16)]. *)
Definition blocks_of (len : N) : N := (len / 16 + (if len mod 16 =? 0 then 0 else 1))%N.

Inductive role := Leader | Follower.
Inductive rl_error :=
| RState | RBufferFull | RSentLimit | RRecvLimit | ROnlineLimit | RPlainLength | RPlainMissing
| RNonceLength | RInputExceeded | RKeystreamExceeded | REmptyRecord | RTagsExceeded | RGhashLength
| RTagMismatch | ROtpExceeded | RUnassigned | RPending.

(** record_layer.rs:35-37. *)
Definition max_buffer : nat := 1022.

(** encrypt.rs:127-136 [EncryptOp], 179-185 [EncryptMode]; the mode is a boolean, true for private. *)
Record enc_op := EncOp {
  eo_seq : N; eo_typ : content_type; eo_version : protocol_version; eo_len : N; eo_plain : option (list N);
  eo_nonce : list N; eo_aad : list N; eo_private : bool }.
(** decrypt.rs:165-174 [DecryptOp]. *)
Record dec_op := DecOp {
  do_seq : N; do_typ : content_type; do_version : protocol_version; do_nonce : list N; do_ct : list N;
  do_aad : list N; do_tag : list N; do_private : bool }.
(** record_layer.rs:40-53 [PlainRecord], [EncryptedRecord]. *)
Record plain_record := PlainRecord { pr_typ : content_type; pr_version : protocol_version; pr_plain : option (list N) }.
Record enc_record := EncRecord {
  er_typ : content_type; er_version : protocol_version; er_nonce : list N; er_ct : list N; er_tag : option (list N) }.

(** aes_gcm.rs:29-49 [State], as the remaining input bytes, keystream blocks and J0 blocks. *)
Inductive gcm :=
| GInit | GSetup (input blocks j0s : N) | GReady (input blocks j0s : N) | GError.
(** record_layer.rs:55-64 [State]. *)
Inductive rl_state :=
| SInit | SOnline (otp : option (list N)) (sent recv : list tls_record) | SComplete | SError.
(** record_layer.rs:73-100 [RecordLayer]. *)
Record rl := RL {
  rl_role : role; rl_write_seq : N; rl_read_seq : N; rl_enc : gcm; rl_dec : gcm; rl_st : rl_state;
  rl_started : bool; rl_sent : N; rl_recv_online : N; rl_recv : N;
  rl_max_sent : N; rl_max_recv_online : N; rl_max_recv : N;
  rl_encrypt : list enc_op; rl_decrypt : list dec_op;
  rl_encrypted : list enc_record; rl_decrypted : list plain_record }.
(** record_layer.rs:104-126 [new]. *)
Definition rl_new (r : role) : rl := RL r 0 0 GInit GInit SInit false 0 0 0 0 0 0 [] [] [] [].

Definition set_st (x : rl_state) (s : rl) : rl :=
  RL (rl_role s) (rl_write_seq s) (rl_read_seq s) (rl_enc s) (rl_dec s) x (rl_started s) (rl_sent s) (rl_recv_online s)
    (rl_recv s) (rl_max_sent s) (rl_max_recv_online s) (rl_max_recv s) (rl_encrypt s) (rl_decrypt s) (rl_encrypted s) (rl_decrypted s).
Definition set_enc (x : gcm) (s : rl) : rl :=
  RL (rl_role s) (rl_write_seq s) (rl_read_seq s) x (rl_dec s) (rl_st s) (rl_started s) (rl_sent s) (rl_recv_online s)
    (rl_recv s) (rl_max_sent s) (rl_max_recv_online s) (rl_max_recv s) (rl_encrypt s) (rl_decrypt s) (rl_encrypted s) (rl_decrypted s).
Definition set_dec (x : gcm) (s : rl) : rl :=
  RL (rl_role s) (rl_write_seq s) (rl_read_seq s) (rl_enc s) x (rl_st s) (rl_started s) (rl_sent s) (rl_recv_online s)
    (rl_recv s) (rl_max_sent s) (rl_max_recv_online s) (rl_max_recv s) (rl_encrypt s) (rl_decrypt s) (rl_encrypted s) (rl_decrypted s).
Definition set_started (s : rl) : rl :=
  RL (rl_role s) (rl_write_seq s) (rl_read_seq s) (rl_enc s) (rl_dec s) (rl_st s) true (rl_sent s) (rl_recv_online s)
    (rl_recv s) (rl_max_sent s) (rl_max_recv_online s) (rl_max_recv s) (rl_encrypt s) (rl_decrypt s) (rl_encrypted s) (rl_decrypted s).
Definition set_sent (seq sent : N) (s : rl) : rl :=
  RL (rl_role s) seq (rl_read_seq s) (rl_enc s) (rl_dec s) (rl_st s) (rl_started s) sent (rl_recv_online s)
    (rl_recv s) (rl_max_sent s) (rl_max_recv_online s) (rl_max_recv s) (rl_encrypt s) (rl_decrypt s) (rl_encrypted s) (rl_decrypted s).
Definition set_recv (seq recv : N) (s : rl) : rl :=
  RL (rl_role s) (rl_write_seq s) seq (rl_enc s) (rl_dec s) (rl_st s) (rl_started s) (rl_sent s) (rl_recv_online s)
    recv (rl_max_sent s) (rl_max_recv_online s) (rl_max_recv s) (rl_encrypt s) (rl_decrypt s) (rl_encrypted s) (rl_decrypted s).
Definition set_online (x : N) (s : rl) : rl :=
  RL (rl_role s) (rl_write_seq s) (rl_read_seq s) (rl_enc s) (rl_dec s) (rl_st s) (rl_started s) (rl_sent s) x
    (rl_recv s) (rl_max_sent s) (rl_max_recv_online s) (rl_max_recv s) (rl_encrypt s) (rl_decrypt s) (rl_encrypted s) (rl_decrypted s).
Definition set_max (a b c : N) (s : rl) : rl :=
  RL (rl_role s) (rl_write_seq s) (rl_read_seq s) (rl_enc s) (rl_dec s) (rl_st s) (rl_started s) (rl_sent s) (rl_recv_online s)
    (rl_recv s) a b c (rl_encrypt s) (rl_decrypt s) (rl_encrypted s) (rl_decrypted s).
Definition set_bufs (e : list enc_op) (d : list dec_op) (s : rl) : rl :=
  RL (rl_role s) (rl_write_seq s) (rl_read_seq s) (rl_enc s) (rl_dec s) (rl_st s) (rl_started s) (rl_sent s) (rl_recv_online s)
    (rl_recv s) (rl_max_sent s) (rl_max_recv_online s) (rl_max_recv s) e d (rl_encrypted s) (rl_decrypted s).
Definition set_out (e : list enc_record) (d : list plain_record) (s : rl) : rl :=
  RL (rl_role s) (rl_write_seq s) (rl_read_seq s) (rl_enc s) (rl_dec s) (rl_st s) (rl_started s) (rl_sent s) (rl_recv_online s)
    (rl_recv s) (rl_max_sent s) (rl_max_recv_online s) (rl_max_recv s) (rl_encrypt s) (rl_decrypt s) e d.

Definition smod {E} (f : rl -> rl) : stm rl E unit := fun s => (f s, Ok tt).
Definition sget {E A} (f : rl -> A) : stm rl E A := fun s => (s, Ok (f s)).
Definition on_enc {E A} (m : stm gcm E A) : stm rl E A :=
  fun s => let (g, o) := m (rl_enc s) in (set_enc g s, o).
Definition on_dec {E A} (m : stm gcm E A) : stm rl E A :=
  fun s => let (g, o) := m (rl_dec s) in (set_dec g s, o).

Section RecordLayer.
  Context (aes : list N -> list N -> list N) (ghash_fn : list N -> list N -> list N).
  Context (checked : bool).
  Context (enc_key enc_iv dec_key dec_iv : list N).
  (** The cell contents of the leader's private input for an outgoing record, as seen by the follower. *)
  Context (blind : N -> nat -> N).
  (** The random one-time pad of the leader. *)
  Context (pad_rng : nat -> N).

  Notation G := (stm gcm rl_error).
  Notation R := (stm rl rl_error).

  (** ** aes_gcm.rs *)
  (** aes_gcm.rs:85-140 [alloc]. The state is taken first. *)
  Definition gcm_alloc (records len : N) : G unit := fun g =>
    match g with
    | GInit =>
        match umul checked 16 (blocks_of len) with
        | Ok l => (GSetup l (blocks_of l) records, Ok tt)
        | Err e => match e with end
        | Panic => (GError, Panic)
        end
    | _ => (GError, Err RState)
    end.
  (** aes_gcm.rs:160-186 [setup]. *)
  Definition gcm_setup : G unit := fun g =>
    match g with
    | GSetup i b j => (GReady i b j, Ok tt)
    | _ => (GError, Err RState)
    end.

  (** cipher lib.rs:133-143 [consume]: takes whole blocks. *)
  Definition consume (len : N) : G N := fun g =>
    match g with
    | GReady i b j => if (b <? blocks_of len)%N then (g, Err RKeystreamExceeded) else (GReady i (b - blocks_of len) j, Ok (blocks_of len))
    | _ => (g, Err RState)
    end.
  Definition check_nonce (nonce : list N) : G unit :=
    if length nonce =? 8 then sret tt else sfail RNonceLength.
  Definition check_input (padded : N) : G unit := fun g =>
    match g with
    | GReady i b j => if (i <? padded)%N then (g, Err RInputExceeded) else (g, Ok tt)
    | _ => (g, Err RState)
    end.
  Definition take_input (padded : N) : G unit := fun g =>
    match g with GReady i b j => (GReady (i - padded) b j, Ok tt) | _ => (g, Err RState) end.
  (** aes_gcm.rs:198-256 [apply_keystream]; cipher lib.rs:151-182 [apply] fails without blocks. *)
  Definition apply_keystream_mpc (nonce : list N) (len : N) : G unit := fun g =>
    match g with
    | GReady _ _ _ =>
        (do! _ := check_nonce nonce in
         do! padded := slift (lift_panic (umul checked (blocks_of len) 16)) in
         do! padding := slift (lift_panic (usub checked padded len)) in
         do! _ := check_input padded in
         do! _ := take_input padded in
         do! b := consume padded in
         if negb (padded =? 16 * b)%N then sfail RInputExceeded
         else if (b =? 0)%N then sfail REmptyRecord
         else sret tt) g
    | _ => (g, Err RState)
    end.
  (** aes_gcm.rs:266-307 [take_keystream]: checks the input but does not take it;
      cipher lib.rs:185-213 [to_vector]. *)
  Definition take_keystream_mpc (nonce : list N) (len : N) : G unit := fun g =>
    match g with
    | GReady _ _ _ =>
        (do! _ := check_nonce nonce in
         do! padded := slift (lift_panic (umul checked (blocks_of len) 16)) in
         do! _ := check_input padded in
         do! b := consume len in
         if (len =? 0)%N then sfail REmptyRecord
         else if (b =? 0)%N then sfail REmptyRecord
         else sret tt) g
    | _ => (g, Err RState)
    end.
  (** The value of the keystream: cipher lib.rs:216-234 [assign] with aes_gcm.rs:26 counters from 2. *)
  Definition ks_value (key iv nonce : list N) (len : nat) : list N :=
    take len (concat (map (fun i => aes key (iv ++ nonce ++ be 4 (N.of_nat (2 + i)))) (seq 0 (block_count len)))).

  (** aes_gcm.rs:335-378 and 390-434: J0 blocks are taken for the records one by one. *)
  Fixpoint take_j0s (nonces : list (list N)) : G unit :=
    match nonces with
    | [] => sret tt
    | n :: ns =>
        do! _ := check_nonce n in
        do! _ := (fun g => match g with GReady i b j => (GReady i b (j - 1), Ok tt) | _ => (g, Err RState) end) in
        take_j0s ns
    end.
  Definition gcm_tags (nonces : list (list N)) : G unit := fun g =>
    match g with
    | GReady _ _ j => if (j <? N.of_nat (length nonces))%N then (g, Err RTagsExceeded) else take_j0s nonces g
    | _ => (g, Err RState)
    end.

  (** ghash.rs:190-203: the limit of 1026 blocks. *)
  Definition ghash_fits (aad ct : list N) : bool := block_count (length (build_ghash_data aad ct)) <=? 1026.
  (** compute.rs:48-112, verify.rs:47-106: the sum of the shares. *)
  Definition gcm_tag (key iv nonce aad ct : list N) : list N :=
    zip_with N.lxor (ghash_fn (aes key (replicate 16 0%N)) (build_ghash_data aad ct)) (aes key (iv ++ nonce ++ be 4 1)).

  (** ** record_layer.rs *)
  (** record_layer.rs:139-193 [alloc]. *)
  Definition rl_alloc (sent_records recv_records sent_len recv_online recv_len : N) : R unit := fun s =>
    match rl_st s with
    | SInit =>
        (do! _ := smod (set_st SError) in
         do! _ := on_enc (gcm_alloc sent_records sent_len) in
         do! _ := on_dec (gcm_alloc recv_records recv_online) in
         let otp := match rl_role s with
                    | Leader => Some (map pad_rng (seq 0 (N.to_nat recv_online)))
                    | Follower => None
                    end in
         do! a := slift (lift_panic (uadd checked (rl_max_sent s) sent_len)) in
         do! b := slift (lift_panic (uadd checked (rl_max_recv_online s) recv_online)) in
         do! c := slift (lift_panic (uadd checked (rl_max_recv s) recv_len)) in
         do! _ := smod (set_max a b c) in
         smod (set_st (SOnline otp [] []))) s
    | _ => (set_st SError s, Err RState)
    end.
  (** record_layer.rs:246-268 [setup]. *)
  Definition rl_setup : R unit := do! _ := on_enc gcm_setup in on_dec gcm_setup.
  (** record_layer.rs:281-284 [start_traffic]. *)
  Definition rl_start : R unit := smod set_started.

  Definition is_app (t : content_type) : bool := bool_decide (t = ApplicationData).

  (** encrypt.rs:140-176 [EncryptOp::new]. *)
  Definition enc_op_new (seq : N) (typ : content_type) (v : protocol_version) (len : N) (plain : option (list N))
      (nonce aad : list N) (private : bool) : outcome rl_error enc_op :=
    match plain with
    | Some p => if negb (N.of_nat (length p) =? len)%N then Err RPlainLength else Ok (EncOp seq typ v len plain nonce aad private)
    | None => if negb private then Err RPlainMissing else Ok (EncOp seq typ v len plain nonce aad private)
    end.
  (** record_layer.rs:286-329 [push_encrypt], with 620-632 [next_write]. Number and length count even if
      the operation is refused at the end. *)
  Definition push_encrypt (typ : content_type) (v : protocol_version) (len : N) (plain : option (list N)) : R unit := fun s =>
    if max_buffer <=? length (rl_encrypt s) then (s, Err RBufferFull)
    else
      match uadd checked (rl_sent s) len with
      | Panic => (s, Panic)
      | Err e => match e with end
      | Ok total =>
          if (rl_max_sent s <? total)%N then (s, Err RSentLimit)
          else
            let seq := rl_write_seq s in
            let nonce := be 8 seq in
            let aad := make_aad seq typ v (N.to_nat (len mod 2 ^ 16)) in
            let s := set_sent (seq + 1) total s in
            match enc_op_new seq typ v len plain nonce aad (is_app typ) with
            | Ok op => (set_bufs (rl_encrypt s ++ [op]) (rl_decrypt s) s, Ok tt)
            | Err e => (s, Err e)
            | Panic => (s, Panic)
            end
      end.
  (** record_layer.rs:331-371 [push_decrypt], with 634-645 [next_read]. *)
  Definition push_decrypt (typ : content_type) (v : protocol_version) (nonce ct tag : list N) : R unit := fun s =>
    if max_buffer <=? length (rl_decrypt s) then (s, Err RBufferFull)
    else
      match uadd checked (rl_recv s) (N.of_nat (length ct)) with
      | Panic => (s, Panic)
      | Err e => match e with end
      | Ok total =>
          if (rl_max_recv s <? total)%N then (s, Err RRecvLimit)
          else
            let seq := rl_read_seq s in
            let aad := make_aad seq typ v (length ct) in
            let s := set_recv (seq + 1) total s in
            (set_bufs (rl_encrypt s) (rl_decrypt s ++ [DecOp seq typ v nonce ct aad tag (is_app typ)]) s, Ok tt)
      end.

  (** record_layer.rs:374-393 [next_encrypted], [next_decrypted]. *)
  Definition next_encrypted : R (option enc_record) := fun s =>
    match rl_encrypted s with
    | [] => (s, Ok None)
    | r :: rs =>
        if negb (rl_started s) && is_app (er_typ r) then (s, Ok None)
        else (set_out rs (rl_decrypted s) s, Ok (Some r))
    end.
  Definition next_decrypted : R (option plain_record) := fun s =>
    match rl_decrypted s with
    | [] => (s, Ok None)
    | r :: rs =>
        if negb (rl_started s) && is_app (pr_typ r) then (s, Ok None)
        else (set_out (rl_encrypted s) rs s, Ok (Some r))
    end.

  (** ** encrypt.rs:91-125 [encrypt] *)
  (** encrypt.rs:20-89 [private], [public], and 192-251 [try_encrypt]: the ciphertext of an operation. The
      leader's own plaintext is the machine's input; without one the input cannot be committed. On the
      follower's side the input is blind, and the machine refuses to assign to it. *)
  Definition encrypt_one (r : role) (op : enc_op) : G (list N) :=
    let ks := ks_value enc_key enc_iv (eo_nonce op) (N.to_nat (eo_len op)) in
    if eo_private op then
      do! _ := apply_keystream_mpc (eo_nonce op) (eo_len op) in
      match r, eo_plain op with
      | Leader, Some p => sret (zip_with N.lxor p ks)
      | Leader, None => sfail RUnassigned
      | Follower, Some _ => sfail RUnassigned
      | Follower, None => sret (zip_with N.lxor (map (blind (eo_seq op)) (seq 0 (N.to_nat (eo_len op)))) ks)
      end
    else
      match eo_plain op with
      | None => sfail RPlainMissing
      | Some p =>
          do! _ := take_keystream_mpc (eo_nonce op) (eo_len op) in
          sret (zip_with N.lxor p ks)
      end.
  Fixpoint encrypt_loop (r : role) (ops : list enc_op) : G (list (list N)) :=
    match ops with
    | [] => sret []
    | op :: ops' =>
        do! c := encrypt_one r op in
        do! cs := encrypt_loop r ops' in
        sret (c :: cs)
    end.
  Definition encrypt_mpc (r : role) (ops : list enc_op) : G (list (list N)) :=
    do! cs := encrypt_loop r ops in
    do! _ := gcm_tags (map eo_nonce ops) in
    sret cs.

  (** ** decrypt.rs *)
  (** decrypt.rs:53-69 [public] and 265-289 [DecryptPublic::try_decrypt]. *)
  Definition decrypt_public (op : dec_op) : G (option (list N)) :=
    let ks := ks_value dec_key dec_iv (do_nonce op) (length (do_ct op)) in
    do! _ := take_keystream_mpc (do_nonce op) (N.of_nat (length (do_ct op))) in
    sret (Some (zip_with N.lxor (do_ct op) ks)).
  (** The leader's pad is part of the online state. *)
  Definition get_otp : R (option (list N)) := fun s =>
    match rl_st s with SOnline otp _ _ => (s, Ok otp) | _ => (s, Err RState) end.
  Definition put_otp (otp : option (list N)) : R unit := fun s =>
    match rl_st s with SOnline _ sent recv => (set_st (SOnline otp sent recv) s, Ok tt) | _ => (s, Err RState) end.
  (** decrypt.rs:15-51 [private_mpc] and 235-257 [DecryptPrivate::try_decrypt]. [split_off] takes the end
      of the pad. *)
  Definition decrypt_private (op : dec_op) : R (option (list N)) :=
    let n := length (do_ct op) in
    let ks := ks_value dec_key dec_iv (do_nonce op) n in
    do! otp := get_otp in
    match otp with
    | Some o =>
        if length o <? n then sfail ROtpExceeded
        else
          do! _ := on_dec (apply_keystream_mpc (do_nonce op) (N.of_nat n)) in
          let piece := drop (length o - n) o in
          do! _ := put_otp (Some (take (length o - n) o)) in
          let masked := zip_with N.lxor piece ks in
          sret (Some (zip_with N.lxor (do_ct op) (zip_with N.lxor piece masked)))
    | None =>
        do! _ := on_dec (apply_keystream_mpc (do_nonce op) (N.of_nat n)) in
        sret None
    end.
  (** decrypt.rs:71-94 [decrypt_mpc]. *)
  Fixpoint decrypt_loop (ops : list dec_op) : R (list (option (list N))) :=
    match ops with
    | [] => sret []
    | op :: ops' =>
        do! p := (if do_private op then decrypt_private op else on_dec (decrypt_public op)) in
        do! ps := decrypt_loop ops' in
        sret (p :: ps)
    end.
  (** decrypt.rs:96-134 [decrypt_local] and aes_gcm.rs (local) 181-222 [decrypt]: only the leader knows the
      key; a nonce or tag of the wrong length panics there. *)
  Definition decrypt_private_local (r : role) (op : dec_op) : G (option (list N)) :=
    match r with
    | Follower => sret None
    | Leader =>
        if negb (length (do_nonce op) =? 8) || negb (length (do_tag op) =? 16) then slift Panic
        else if bool_decide (do_tag op = gcm_tag dec_key dec_iv (do_nonce op) (do_aad op) (do_ct op))
        then sret (Some (zip_with N.lxor (do_ct op) (ks_value dec_key dec_iv (do_nonce op) (length (do_ct op)))))
        else sfail RTagMismatch
    end.
  Fixpoint decrypt_local (r : role) (ops : list dec_op) : G (list (option (list N))) :=
    match ops with
    | [] => sret []
    | op :: ops' =>
        do! p := (if do_private op then decrypt_private_local r op else decrypt_public op) in
        do! ps := decrypt_local r ops' in
        sret (p :: ps)
    end.

  (** ** The tag computations *)
  (** verify.rs:47-106: the leader compares, the follower only sends its shares. *)
  Definition tags_verified (r : role) (ops : list dec_op) : outcome rl_error unit :=
    if forallb (fun op => ghash_fits (do_aad op) (do_ct op)) ops then
      match r with
      | Follower => Ok tt
      | Leader =>
          if bool_decide (map do_tag ops = map (fun op => gcm_tag dec_key dec_iv (do_nonce op) (do_aad op) (do_ct op)) ops)
          then Ok tt else Err RTagMismatch
      end
    else Err RGhashLength.
  (** compute.rs:48-112: the leader learns the tags. *)
  Definition tag_known (r : role) (op : enc_op) (c : list N) : option (list N) :=
    match r with Leader => Some (gcm_tag enc_key enc_iv (eo_nonce op) (eo_aad op) c) | Follower => None end.
  Definition tags_computed (ops : list enc_op) (cts : list (list N)) : outcome rl_error unit :=
    if forallb (fun x => ghash_fits (eo_aad (fst x)) (snd x)) (zip ops cts) then Ok tt else Err RGhashLength.

  (** record_layer.rs:494-515: an outgoing record is put out and logged. *)
  Definition out_enc (r : role) (op : enc_op) (c : list N) : enc_record :=
    EncRecord (eo_typ op) (eo_version op) (eo_nonce op) c (tag_known r op c).
  Definition log_enc (r : role) (op : enc_op) (c : list N) : tls_record :=
    TlsRecord (eo_seq op) (eo_typ op) (eo_plain op) (eo_nonce op) c (tag_known r op c).
  (** record_layer.rs:517-535 and 594-612: the same for an incoming record. *)
  Definition out_dec (op : dec_op) (p : option (list N)) : plain_record := PlainRecord (do_typ op) (do_version op) p.
  Definition log_dec (op : dec_op) (p : option (list N)) : tls_record :=
    TlsRecord (do_seq op) (do_typ op) p (do_nonce op) (do_ct op) (Some (do_tag op)).

  (** record_layer.rs:429-441: which buffered records are decrypted now. *)
  Fixpoint until_app (ops : list dec_op) : list dec_op * list dec_op :=
    match ops with
    | [] => ([], [])
    | op :: ops' => if is_app (do_typ op) then ([], ops) else let (a, b) := until_app ops' in (op :: a, b)
    end.
  (** record_layer.rs:396-538 [flush]. *)
  Definition rl_flush (is_decrypting : bool) : R unit := fun s =>
    match rl_st s with
    | SOnline otp sent recv =>
        let r := rl_role s in
        let eops := rl_encrypt s in
        let (dops, rest) := if is_decrypting then (rl_decrypt s, []) else until_app (rl_decrypt s) in
        let s := set_bufs [] rest s in
        match eops, dops with
        | [], [] => (s, Ok tt)
        | _, _ =>
            (do! _ :=
               (if is_decrypting then
                  let dlen := foldr N.add 0%N (map (fun op => N.of_nat (length (do_ct op))) dops) in
                  do! total := slift (lift_panic (uadd checked (rl_recv_online s) dlen)) in
                  if (rl_max_recv_online s <? total)%N then sfail ROnlineLimit else smod (set_online total)
                else sret tt) in
             do! cts := on_enc (encrypt_mpc r eops) in
             do! plains := decrypt_loop dops in
             do! _ := on_dec (gcm_tags (map do_nonce dops)) in
             do! _ := slift (tags_verified r dops) in
             do! _ := slift (tags_computed eops cts) in
             do! _ := smod (fun s => set_out (rl_encrypted s ++ zip_with (out_enc r) eops cts)
                                             (rl_decrypted s ++ zip_with out_dec dops plains) s) in
             do! otp' := get_otp in
             smod (set_st (SOnline otp' (sent ++ zip_with (log_enc r) eops cts)
                                        (recv ++ zip_with log_dec dops plains)))) s
        end
    | _ => (s, Err RState)
    end.

  (** record_layer.rs:547-618 [commit]. The key is revealed to the leader by a one-time pad. *)
  Definition rl_commit : R (list tls_record * list tls_record) := fun s =>
    match rl_st s with
    | SOnline otp sent recv =>
        (do! _ := smod (set_st SError) in
         match rl_encrypt s with
         | _ :: _ => sfail RPending
         | [] =>
             let ops := rl_decrypt s in
             do! _ := smod (set_bufs [] []) in
             do! plains := on_dec (decrypt_local (rl_role s) ops) in
             do! _ := smod (fun s => set_out (rl_encrypted s) (rl_decrypted s ++ zip_with out_dec ops plains) s) in
             do! _ := smod (set_st SComplete) in
             sret (sent, recv ++ zip_with log_dec ops plains)
         end) s
    | _ => (set_st SError s, Err RState)
    end.

  (** ** Histories *)
  Inductive rl_call :=
  | CAlloc (sent_records recv_records sent_len recv_online recv_len : N)
  | CSetup | CStart
  | CEncrypt (typ : content_type) (v : protocol_version) (len : N) (plain : option (list N))
  | CDecrypt (typ : content_type) (v : protocol_version) (nonce ct tag : list N)
  | CFlush (is_decrypting : bool)
  | CNextEnc | CNextDec | CCommit.
  Inductive rl_result :=
  | RUnit | REncrypted (r : option enc_record) | RDecrypted (r : option plain_record)
  | RLogs (sent recv : list tls_record).
  Definition rl_step (c : rl_call) : R rl_result :=
    match c with
    | CAlloc a b c d e => do! _ := rl_alloc a b c d e in sret RUnit
    | CSetup => do! _ := rl_setup in sret RUnit
    | CStart => do! _ := rl_start in sret RUnit
    | CEncrypt t v n p => do! _ := push_encrypt t v n p in sret RUnit
    | CDecrypt t v n c g => do! _ := push_decrypt t v n c g in sret RUnit
    | CFlush b => do! _ := rl_flush b in sret RUnit
    | CNextEnc => do! r := next_encrypted in sret (REncrypted r)
    | CNextDec => do! r := next_decrypted in sret (RDecrypted r)
    | CCommit => do! l := rl_commit in sret (RLogs (fst l) (snd l))
    end.
  (** The results of a list of calls; after an error the caller may go on, after a panic not. *)
  Fixpoint rl_run (cs : list rl_call) (s : rl) : rl * list (outcome rl_error rl_result) :=
    match cs with
    | [] => (s, [])
    | c :: cs' =>
        match rl_step c s with
        | (s', Panic) => (s', [Panic])
        | (s', o) => let (s'', os) := rl_run cs' s' in (s'', o :: os)
        end
    end.
End RecordLayer.
