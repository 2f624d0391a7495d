(** What is asked of the key derivation: SHA-256 (FIPS 180-4) over a compression function, HMAC (RFC 2104), the
    pseudorandom function of TLS 1.2 and what is derived with it (RFC 5246, RFC 7627). *)
From Verif.Lib Require Import Base.
From Verif Require Import CodecModel PrfModel.

(** FIPS 180-4, 5.1.1: a message followed by the bit 1, the least number of zeros, and the number of its bits in 64 bits, in
    whole blocks of 64 bytes. *)
Definition fips_pad (msg : list N) : list N :=
  msg ++ [128%N] ++ replicate ((119 - length msg mod 64) mod 64) 0%N ++ be 8 (8 * N.of_nat (length msg)).
Fixpoint blocks_of (fuel : nat) (msg : list N) : list (list N) :=
  match fuel, msg with
  | S fuel', _ :: _ => take 64 msg :: blocks_of fuel' (drop 64 msg)
  | _, _ => []
  end.

(** ASCII. *)
Definition rfc_master_secret : list N := [109;97;115;116;101;114;32;115;101;99;114;101;116]%N.
Definition rfc_extended_master_secret : list N :=
  [101;120;116;101;110;100;101;100;32;109;97;115;116;101;114;32;115;101;99;114;101;116]%N.
Definition rfc_key_expansion : list N := [107;101;121;32;101;120;112;97;110;115;105;111;110]%N.
Definition rfc_client_finished : list N := [99;108;105;101;110;116;32;102;105;110;105;115;104;101;100]%N.
Definition rfc_server_finished : list N := [115;101;114;118;101;114;32;102;105;110;105;115;104;101;100]%N.

Section Rfc.
  Context (iv : list N) (compress : list N -> list N -> list N).

  (** FIPS 180-4, 6.2.2. *)
  Definition fips_sha256 (msg : list N) : list N :=
    concat (map (be 4) (fold_left compress (blocks_of (length (fips_pad msg)) (fips_pad msg)) iv)).
  (** RFC 2104, for keys of at most 64 bytes. *)
  Definition rfc_hmac (key text : list N) : list N :=
    let key0 := key ++ replicate (64 - length key) 0%N in
    fips_sha256 (map (N.lxor 92) key0 ++ fips_sha256 (map (N.lxor 54) key0 ++ text)).
  (** RFC 5246, 5. *)
  Fixpoint rfc_a (secret seed : list N) (i : nat) : list N :=
    match i with
    | O => seed
    | S i' => rfc_hmac secret (rfc_a secret seed i')
    end.
  Definition rfc_p_hash (secret seed : list N) (n : nat) : list N :=
    concat (map (fun i => rfc_hmac secret (rfc_a secret seed i ++ seed)) (seq 1 n)).
  (** The first [len] bytes, of as many blocks of 32 bytes as needed. *)
  Definition rfc_prf (secret label seed : list N) (len : nat) : list N :=
    take len (rfc_p_hash secret (label ++ seed) ((len + 31) / 32)).

  (** RFC 5246, 8.1, and RFC 7627, 4. *)
  Definition rfc_ms (pms client_random server_random : list N) : list N :=
    rfc_prf pms rfc_master_secret (client_random ++ server_random) 48.
  Definition rfc_ems (pms session_hash : list N) : list N :=
    rfc_prf pms rfc_extended_master_secret session_hash 48.
  (** RFC 5246, 6.3; for AES-128-GCM there are no MAC keys. *)
  Definition rfc_key_block (ms client_random server_random : list N) : list N :=
    rfc_prf ms rfc_key_expansion (server_random ++ client_random) 40.
  (** RFC 5246, 7.4.9. *)
  Definition rfc_vd (ms label hash : list N) : list N := rfc_prf ms label hash 12.

  (** The values of one connection. The secret is the pre-master secret, or the master secret in mode [MsDirect]. *)
  Record tls_values := TlsValues {
    tv_secret : list N; tv_client_random : list N; tv_server_random : list N; tv_session_hash : list N;
    tv_cf_hash : list N; tv_sf_hash : list N }.
  Definition secret_length (k : ms_mode) : nat := match k with MsDirect => 48 | _ => 32 end.
  Definition rfc_master (k : ms_mode) (v : tls_values) : list N :=
    match k with
    | MsStandard => rfc_ms (tv_secret v) (tv_client_random v) (tv_server_random v)
    | MsExtended => rfc_ems (tv_secret v) (tv_session_hash v)
    | MsDirect => tv_secret v
    end.
  (** RFC 5246, 6.3: the key block is partitioned into the client's key, the server's key, the client's IV and the server's. *)
  Record derived := Derived {
    d_client_key : list N; d_server_key : list N; d_client_iv : list N; d_server_iv : list N; d_cf : list N; d_sf : list N }.
  Definition is_derived (k : ms_mode) (v : tls_values) (d : derived) : Prop :=
    let ms := rfc_master k v in
    length (d_client_key d) = 16 /\ length (d_server_key d) = 16 /\ length (d_client_iv d) = 4 /\ length (d_server_iv d) = 4 /\
    d_client_key d ++ d_server_key d ++ d_client_iv d ++ d_server_iv d
      = rfc_key_block ms (tv_client_random v) (tv_server_random v) /\
    d_cf d = rfc_vd ms rfc_client_finished (tv_cf_hash v) /\
    d_sf d = rfc_vd ms rfc_server_finished (tv_sf_hash v).
End Rfc.
(** A call gives the values of the connection. *)
Definition call_agrees (v : tls_values) (c : prf_call) : Prop :=
  match c with
  | CSecret x => x = tv_secret v
  | CClientRandom x => x = tv_client_random v
  | CServerRandom x => x = tv_server_random v
  | CSessionHash x => x = tv_session_hash v
  | CCfHash x => x = tv_cf_hash v
  | CSfHash x => x = tv_sf_hash v
  | CPrfFlush | CExecute => True
  end.
(** The master secret's seed is known. *)
Definition master_seeded (k : ms_mode) (cs : list prf_call) : Prop :=
  match k with
  | MsStandard => exists r, CServerRandom r ∈ cs
  | MsExtended => exists h, CSessionHash h ∈ cs
  | MsDirect => True
  end.
