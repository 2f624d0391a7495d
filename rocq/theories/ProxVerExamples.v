(** A proxied connection for the examples beside the theorems C81 to C83: the handshake of TlsExamples.v, Finished messages and
    records that are right for quick functions in the place of SHA-256, AES and GHASH. *)
From Verif.Lib Require Import Base Ranges.
From Verif Require Import TranscriptModel ProofModel CodecModel CodecSpec AttestModel TlsModel TlsSpec TlsExamples AuthModel TagModel TagSpec TagLemmas PrfModel PrfSpec VdCheckModel VdCheckSpec ProxVerModel ProxVerSpec ProxVerLemmas.

Definition q_iv : list N := [1;2;3;4;5;6;7;8]%N.
Definition q_compress (s b : list N) : list N :=
  map (fun i => ((nth i s 7 * 31 + foldr (fun x y => x + 5 * y) (N.of_nat i) b) mod 2 ^ 32)%N) (seq 0 8).
Definition q_aes (k b : list N) : list N := map (fun i => ((nth i k 0 + 3 * nth i b 0 + N.of_nat i) mod 256)%N) (seq 0 16).
Definition q_ghash (k d : list N) : list N := replicate 16 (foldr N.add 0%N (k ++ d) mod 256)%N.
Lemma q_compress_length s b : length (q_compress s b) = 8.
Proof. unfold q_compress. by rewrite map_length, seq_length. Qed.
Lemma q_aes_length k b : length (q_aes k b) = 16.
Proof. unfold q_aes. by rewrite map_length, seq_length. Qed.

Definition q_ms : list N := map N.of_nat (seq 3 48).
Definition q_h : full_handshake := ex_hs ex_ticket.
(** The keys. *)
Definition q_block : list N := Eval vm_compute in rfc_key_block q_iv q_compress q_ms [1;2;3]%N [4;5]%N.
Definition q_cf : list N := Eval vm_compute in
  rfc_vd q_iv q_compress q_ms rfc_client_finished (ex_sha (msgs_wire (until_client_finished q_h))).
Definition q_sf : list N := Eval vm_compute in
  rfc_vd q_iv q_compress q_ms rfc_server_finished (ex_sha (msgs_wire (until_server_finished q_h q_cf))).
Definition q_d : derived :=
  Derived (take 16 q_block) (take 16 (drop 16 q_block)) (take 4 (drop 32 q_block)) (drop 36 q_block) q_cf q_sf.

(** The ciphertext of a text of at most 16 bytes. *)
Definition q_encrypt (key iv nonce text : list N) : list N := zip_with N.lxor (q_aes key (iv ++ nonce ++ [0;0;0;2]%N)) text.
Definition q_client (nonce text : list N) : list N :=
  nonce ++ q_encrypt (d_client_key q_d) (d_client_iv q_d) nonce text ++ replicate 16 3%N.
Definition q_server (seq : N) (typ : content_type) (nonce text : list N) : list N :=
  let ct := q_encrypt (d_server_key q_d) (d_server_iv q_d) nonce text in
  nonce ++ ct ++ zip_with N.lxor
    (ghash q_ghash (q_aes (d_server_key q_d) (replicate 16 0%N)) (make_aad seq typ TLSv1_2 (length ct)) ct)
    (q_aes (d_server_key q_d) (d_server_iv q_d ++ nonce ++ [0;0;0;1]%N)).
Definition q_sent (header : list N) : list N := concat (map wire (
  cut 100 (msgs_wire (client_messages q_h)) ++
  [ccs_rec; Message Handshake TLSv1_2 (q_client (replicate 8 1%N) (header ++ q_cf));
   Message ApplicationData TLSv1_2 (q_client (replicate 8 2%N) [71;69;84]%N)])).
Definition q_recv (flip : N) : list N := concat (map wire (
  cut 100 (msgs_wire (server_messages q_h)) ++
  [ccs_rec; Message Handshake TLSv1_2 (q_server 0 Handshake (replicate 8 1%N) ([20;0;0;12]%N ++ q_sf));
   Message ApplicationData TLSv1_2 (q_server 1 ApplicationData (replicate 8 2%N) [79;75;flip]%N);
   Message Alert TLSv1_2 (q_server 2 Alert (replicate 8 3%N) [1;0]%N)])).
Definition q_commit (header : list N) (recv : list N) := prox_commit q_iv q_compress ex_sha ex_parse_body ex_curve q_aes q_ghash q_ms 10 (q_sent header) recv.
Definition q_none : tls_transcript := TlsTranscript 0 V1_2 None None (CertBinding [] [] (EphemKey [])) [] [] None None None.
Definition q_t (header : list N) : tls_transcript := match q_commit header (q_recv 33) with Ok (_, t) => t | _ => q_none end.

Lemma q_accepted header : header = [20;0;0;12]%N \/ header = [7;7;7;7]%N -> q_commit header (q_recv 33) = Ok (keys_of q_d, q_t header).
Proof. intros [->| ->]; vm_compute; reflexivity. Qed.
Lemma q_bytes : bytes_ok (q_sent [20;0;0;12]%N) /\ bytes_ok (q_recv 33).
Proof. unfold bytes_ok, byte_ok. split; apply (bool_decide_unpack _); vm_compute; exact I. Qed.
Lemma q_carries : carries (q_sent [20;0;0;12]%N) (client_messages q_h) /\ carries (q_recv 33) (server_messages q_h).
Proof.
  split.
  - eexists (cut 100 (msgs_wire (client_messages q_h))), _. split; [reflexivity|]. split_and!.
    + apply Forall_app. split; [eapply Forall_impl; [apply cut_ok|]; by intros m [? _]|].
      constructor; [apply ex_record_ok; [by right; left|done|done]|].
      constructor; [apply ex_record_ok; [by left|done|vm_compute; reflexivity]|].
      constructor; [apply ex_record_ok; [by right; right; left|done|vm_compute; reflexivity]|constructor].
    + eapply Forall_impl; [apply cut_ok|]. intros m [_ H] Hc. congruence.
    + by eexists _, _.
    + apply cut_concat. vm_compute. lia.
  - eexists (cut 100 (msgs_wire (server_messages q_h))), _. split; [reflexivity|]. split_and!.
    + apply Forall_app. split; [eapply Forall_impl; [apply cut_ok|]; by intros m [? _]|].
      constructor; [apply ex_record_ok; [by right; left|done|done]|].
      constructor; [apply ex_record_ok; [by left|done|vm_compute; reflexivity]|].
      constructor; [apply ex_record_ok; [by right; right; left|done|vm_compute; reflexivity]|].
      constructor; [apply ex_record_ok; [by right; right; right|done|vm_compute; reflexivity]|constructor].
    + eapply Forall_impl; [apply cut_ok|]. intros m [_ H] Hc. congruence.
    + by eexists _, _.
    + apply cut_concat. vm_compute. lia.
Qed.

Lemma q_run :
  prox_run q_iv q_compress ex_sha ex_parse_body ex_curve q_aes q_ghash q_ms
    [ReadBytes (take 20 (q_sent [20;0;0;12]%N)) 10; ReadBytes (drop 20 (q_sent [20;0;0;12]%N)) 11; ReadBytes [] 12]
    [ReadBytes (q_recv 33) 10; ReadBytes [] 13]
  = Some (Ok (keys_of q_d, q_t [20;0;0;12]%N)).
Proof. vm_compute. reflexivity. Qed.
Lemma q_other : prox_commit q_iv q_compress ex_sha ex_parse_body ex_curve q_aes q_ghash (replicate 48 1%N) 10 (q_sent [20;0;0;12]%N) (q_recv 33) = Err (PvTag TInvalidTag).
Proof. vm_compute. reflexivity. Qed.
Lemma q_records : map (fun r => (r_seq r, length (r_ct r))) (tt_recv (q_t [20;0;0;12]%N)) = [(0%N, 16); (1%N, 3); (2%N, 2)].
Proof. vm_compute. reflexivity. Qed.
Lemma q_hs_ok : full_handshake_ok q_h.
Proof. apply ex_hs_ok. by right. Qed.

Lemma C81_header_lemma :
  exists sha_iv compress hash parse_body ec_curve aes ghash_fn ms time sent recv keys t d fin rest,
  (forall s b, length (compress s b) = 8) /\ (forall k b, length (aes k b) = 16) /\
  prox_commit sha_iv compress hash parse_body ec_curve aes ghash_fn ms time sent recv = Ok (keys, t) /\
  keys = keys_of d /\ tt_sent t = fin :: rest /\
  zip_with N.lxor (aes (d_client_key d) (d_client_iv d ++ r_nonce fin ++ [0;0;0;2]%N)) (r_ct fin) <> [20;0;0;12]%N ++ d_cf d /\
  ~ tag_right aes ghash_fn (d_client_key d) (d_client_iv d) (aes (d_client_key d) (replicate 16 0%N)) (tt_version t) fin.
Proof.
  exists q_iv, q_compress, ex_sha, ex_parse_body, ex_curve, q_aes, q_ghash, q_ms, 10%N, (q_sent [7;7;7;7]%N), (q_recv 33),
    (keys_of q_d), (q_t [7;7;7;7]%N), q_d.
  eexists (hd (TlsRecord 0 Alert None [] [] None) (tt_sent (q_t [7;7;7;7]%N))), (tl (tt_sent (q_t [7;7;7;7]%N))).
  split; [exact q_compress_length|]. split; [exact q_aes_length|]. split; [exact (q_accepted [7;7;7;7]%N (or_intror eq_refl))|]. split; [done|].
  split; [vm_compute; reflexivity|]. split.
  - intros H. vm_compute in H. discriminate H.
  - set (fin := hd _ _). intros H.
    assert (record_sizes_ok fin) as Hsz by (split; vm_compute; reflexivity).
    assert (Forall record_sizes_ok [fin]) as Hall by (constructor; [exact Hsz|constructor]).
    assert (check_record_tags q_aes q_ghash (d_client_key q_d) (d_client_iv q_d) (q_aes (d_client_key q_d) (replicate 16 0%N))
              (tt_version (q_t [7;7;7;7]%N)) [fin] = Ok tt) as Hc.
    { apply check_record_tags_iff; [exact Hall|]. constructor; [exact H|constructor]. }
    vm_compute in Hc. discriminate Hc.
Qed.

Lemma C82_ex_lemma : exists t,
  prox_prover q_iv q_compress ex_sha ex_parse_body ex_curve q_aes q_ms 9 (q_sent [20;0;0;12]%N) (q_recv 33) [71;69;84]%N [79;75;33]%N
    = Ok (keys_of q_d, t, Transcript [71;69;84]%N [79;75;33]%N) /\
  q_t [20;0;0;12]%N = hide 10 t /\
  (forall d, connection_keys q_iv q_compress ex_sha q_ms t d -> connection_right q_aes q_ghash t d).
Proof.
  eexists. split; [vm_compute; reflexivity|]. set (t := TlsTranscript _ _ _ _ _ _ _ _ _ _).
  assert (q_t [20;0;0;12]%N = hide 10 t) as E by (vm_compute; reflexivity). split; [exact E|]. intros d Hd.
  pose proof (q_accepted [20;0;0;12]%N (or_introl eq_refl)) as Ha. unfold q_commit in Ha.
  apply (C81_accepts_lemma q_iv q_compress ex_sha ex_parse_body ex_curve q_aes q_ghash q_compress_length q_aes_length) in Ha as (_ & d' & K & R & _);
    [|done|apply q_bytes|apply q_bytes|vm_compute; reflexivity|vm_compute; reflexivity].
  rewrite E in K, R. apply (keys_hidden _ _ _ _ 10) in Hd. pose proof (keys_unique _ _ _ _ _ _ _ Hd K) as ->.
  clear -R. clearbody t. by rewrite right_hidden in R.
Qed.
