(** Theorems C49 about the key derivation. The vocabulary is in PrfSpec.v, the model is PrfModel.v. [iv] and [compress] are any
    initial state and any compression function with states of 8 words; Sha256.v has those of SHA-256. The machine [m] and
    the key derivation [p] come from [prf_setup], in any network mode [net] and any mode [k] of deriving the master secret;
    [out] are the cells of the keys, IVs and verify data. The list [cs] is any list of calls, among them any number of
    flushes and executions, that all succeed. *)
From Verif.Lib Require Import Base.
From Verif Require Import CodecModel PrfModel PrfSpec Sha256 PrfMainLemmas PrfFlushLemmas.

(** ** C49 *)
(** Whatever is decoded, at any time, is what RFC 5246 and RFC 7627 say. *)
Theorem C49_decoded_values_are_those_of_the_rfc : forall iv compress,
  (forall s b, length (compress s b) = 8) -> forall net k v cs m p out m' p',
  length (tv_secret v) = secret_length k -> prf_setup iv compress net k = Ok (m, p, out) ->
  Forall (call_agrees v) cs -> prf_run compress cs m p = Ok (m', p') ->
  exists d, is_derived iv compress k v d /\
    (forall w, vm_decoded m' (po_ck out) = Some w -> w = d_client_key d) /\
    (forall w, vm_decoded m' (po_sk out) = Some w -> w = d_server_key d) /\
    (forall w, vm_decoded m' (po_civ out) = Some w -> w = d_client_iv d) /\
    (forall w, vm_decoded m' (po_siv out) = Some w -> w = d_server_iv d) /\
    (forall w, vm_decoded m' (po_cf out) = Some w -> w = d_cf d) /\
    (forall w, vm_decoded m' (po_sf out) = Some w -> w = d_sf d).
Proof. exact C49_sound. Qed.
Print Assumptions C49_decoded_values_are_those_of_the_rfc.

(** Once the secret and the master secret's seed are given, at most 11 rounds of flushing are enough, and the keys and verify
    data whose seeds were given are decoded. *)
Theorem C49_values_are_derived : forall iv compress,
  (forall s b, length (compress s b) = 8) -> forall net k v cs m p out m' p',
  length (tv_secret v) = secret_length k -> prf_setup iv compress net k = Ok (m, p, out) ->
  Forall (call_agrees v) cs -> prf_run compress cs m p = Ok (m', p') ->
  (exists x, CSecret x ∈ cs) -> master_seeded k cs ->
  exists m2 p2 d, flush_all compress 11 m' p' = Ok (Some (m2, p2)) /\ is_derived iv compress k v d /\
    ((exists r, CServerRandom r ∈ cs) ->
       vm_decoded (vm_execute m2) (po_ck out) = Some (d_client_key d) /\
       vm_decoded (vm_execute m2) (po_sk out) = Some (d_server_key d) /\
       vm_decoded (vm_execute m2) (po_civ out) = Some (d_client_iv d) /\
       vm_decoded (vm_execute m2) (po_siv out) = Some (d_server_iv d)) /\
    ((exists h, CCfHash h ∈ cs) -> vm_decoded (vm_execute m2) (po_cf out) = Some (d_cf d)) /\
    ((exists h, CSfHash h ∈ cs) -> vm_decoded (vm_execute m2) (po_sf out) = Some (d_sf d)).
Proof. exact C49_complete_lemma. Qed.
Print Assumptions C49_values_are_derived.

(** Setting up succeeds. *)
Theorem C49_setup_succeeds : forall iv compress net k, exists m p out, prf_setup iv compress net k = Ok (m, p, out).
Proof. exact C49_setup_lemma. Qed.
Print Assumptions C49_setup_succeeds.

(** A flush neither fails nor panics, whatever was called before, even with contradicting values. *)
Theorem C49_flush_succeeds : forall iv compress,
  (forall s b, length (compress s b) = 8) -> forall net k cs m p out m' p',
  prf_setup iv compress net k = Ok (m, p, out) -> prf_run compress cs m p = Ok (m', p') ->
  exists m2 p2, prf_flush compress m' p' = Ok (m2, p2).
Proof. exact C49_flush_lemma. Qed.
Print Assumptions C49_flush_succeeds.

(** But in the reduced network mode the loop that flushes as long as a flush is wanted does not end if a hash (or the server's
    random, with an extended master secret) was given and the master secret's seed was not. *)
Theorem C49_flush_may_never_end : forall iv compress,
  (forall s b, length (compress s b) = 8) -> forall k cs m p out m' p',
  prf_setup iv compress NetReduced k = Ok (m, p, out) -> prf_run compress cs m p = Ok (m', p') ->
  ~ master_seeded k cs ->
  (exists h, CCfHash h ∈ cs) \/ (exists h, CSfHash h ∈ cs) \/ (exists r, CServerRandom r ∈ cs) ->
  forall n, flush_all compress n m' p' = Ok None.
Proof. exact C49_never_ends_lemma. Qed.
Print Assumptions C49_flush_may_never_end.

(** ** Examples *)
(** The compression function of SHA-256 has states of 8 words. *)
Example C49_sha_ex : forall s b, length (sha_compress s b) = 8.
Proof. exact sha_compress_length. Qed.
(** A known answer for the pseudorandom function of TLS 1.2 with SHA-256. *)
Example C49_prf_ex :
  rfc_prf sha_iv sha_compress [155;190;67;107;169;64;240;23;177;118;82;132;154;113;219;53]%N
    [116;101;115;116;32;108;97;98;101;108]%N [160;186;159;147;108;218;49;24;39;166;247;150;255;213;25;140]%N 100
  = [227;242;41;186;114;123;225;123;141;18;38;32;85;124;212;83;194;170;178;29;7;195;212;149;50;155;82;212;230;30;219;90;
     107;48;23;145;233;13;53;201;201;164;107;78;20;186;249;175;15;160;34;247;7;125;239;23;171;253;55;151;192;86;75;171;
     79;188;145;102;110;157;239;155;151;252;227;79;121;103;137;186;164;128;130;209;34;238;66;197;167;46;90;81;16;255;247;
     1;135;52;123;102]%N.
Proof. vm_compute. reflexivity. Qed.
(** A quick compression function for the runs below. *)
Definition toy_compress (s b : list N) : list N :=
  map (fun i => ((nth i s 7 * 31 + foldr (fun x y => x + 5 * y) (N.of_nat i) b) mod 2 ^ 32)%N) (seq 0 8).
Example C49_toy_ex : forall s b, length (toy_compress s b) = 8.
Proof. intros s b. unfold toy_compress. by rewrite map_length, seq_length. Qed.
Definition ex_values (k : ms_mode) : tls_values :=
  TlsValues (map N.of_nat (seq 3 (secret_length k))) (replicate 32 1%N) (replicate 32 2%N) (replicate 32 3%N)
    (replicate 32 4%N) (replicate 32 5%N).
(** Hashes are given after a first flush. *)
Definition ex_calls (k : ms_mode) : list prf_call :=
  let v := ex_values k in
  [CSecret (tv_secret v); CClientRandom (tv_client_random v); CServerRandom (tv_server_random v)] ++
  (match k with MsExtended => [CSessionHash (tv_session_hash v)] | _ => [] end) ++
  [CPrfFlush; CExecute; CPrfFlush; CExecute; CCfHash (tv_cf_hash v); CPrfFlush; CExecute; CSfHash (tv_sf_hash v)].
Example C49_calls_ex : forall k,
  length (tv_secret (ex_values k)) = secret_length k /\ Forall (call_agrees (ex_values k)) (ex_calls k) /\
  (exists x, CSecret x ∈ ex_calls k) /\ master_seeded k (ex_calls k).
Proof. intros []; (split_and!; [done|repeat constructor|eexists; repeat constructor|try (eexists; repeat constructor)]); done. Qed.
(** What is decoded after flushing. *)
Definition ex_decoded (net : net_mode) (k : ms_mode) (cs : list prf_call) : option (list (option (list N))) :=
  match prf_setup sha_iv toy_compress net k with
  | Ok (m, p, out) =>
      match prf_run toy_compress cs m p with
      | Ok (m', p') =>
          match flush_all toy_compress 11 m' p' with
          | Ok (Some (m2, _)) =>
              Some (map (vm_decoded (vm_execute m2)) [po_ck out; po_sk out; po_civ out; po_siv out; po_cf out; po_sf out])
          | _ => None
          end
      | _ => None
      end
  | _ => None
  end.
Definition ex_derived (k : ms_mode) : list (option (list N)) :=
  let v := ex_values k in
  let ms := rfc_master sha_iv toy_compress k v in
  let kb := rfc_key_block sha_iv toy_compress ms (tv_client_random v) (tv_server_random v) in
  [Some (take 16 kb); Some (take 16 (drop 16 kb)); Some (take 4 (drop 32 kb)); Some (drop 36 kb);
   Some (rfc_vd sha_iv toy_compress ms rfc_client_finished (tv_cf_hash v));
   Some (rfc_vd sha_iv toy_compress ms rfc_server_finished (tv_sf_hash v))].
Example C49_run_ex :
  forallb (fun '(net, k) => bool_decide (ex_decoded net k (ex_calls k) = Some (ex_derived k)))
    (list_prod [NetReduced; NetNormal] [MsStandard; MsExtended; MsDirect]) = true.
Proof. vm_compute. reflexivity. Qed.
(** The hash of the client's Finished message before the server's random: flushing ends in the normal mode only. *)
Example C49_never_ends_ex :
  let cs := [CSecret (tv_secret (ex_values MsStandard)); CClientRandom (replicate 32 1%N); CCfHash (replicate 32 4%N)] in
  ~ master_seeded MsStandard cs /\ (exists h, CCfHash h ∈ cs) /\
  ex_decoded NetReduced MsStandard cs = None /\ ex_decoded NetNormal MsStandard cs = Some (replicate 6 None).
Proof.
  split_and!.
  - cbn. intros [r H]. repeat (apply elem_of_cons in H as [H|H]; [done|]). by apply elem_of_nil in H.
  - eexists. repeat constructor.
  - vm_compute. reflexivity.
  - vm_compute. reflexivity.
Qed.
