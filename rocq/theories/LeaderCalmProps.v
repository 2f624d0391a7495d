(** Theorem C69 about panics of the leader. The vocabulary is in LeaderCalmSpec.v, LeaderOutSpec.v and LeaderSpec.v, the model is LeaderModel.v, with wrapping arithmetic
    (a release build). As in LeaderProps.v, the calls [xs] are any list, in any order, and may fail. *)
From Verif.Lib Require Import Base.
From Verif Require Import TranscriptModel CodecModel CodecSpec AttestModel TlsModel AuthModel AuthSpec TagModel RecordModel RecordSpec PartsModel PartsSpec
  PrfModel PrfSpec Sha256 HandshakeModel SigAlgModel SigAlgSpec FollowerModel FollowerSpec LeaderModel LeaderSpec LeaderOutSpec LeaderCalmSpec LeaderCalm
  TlsSpec TlsExamples FollowerProps SigAlgProps LeaderProps LeaderOutProps.

(** ** C69 *)
(** No call panics but the one that closes the connection. That one does only if the server's signature, over the client's random and the
    parameters that were given, is not one of its certificate's key, or if no record was sent or none received: then at least none was handed out,
    and if no call failed, none was given. *)
Theorem C69_only_closing_panics : forall iv compress aes ghash_fn blind pad_rng
  sha256 parse_body ec_curve parse_key exchange fin rounds cert_key sig_valid client_key c,
  aes_ok aes -> config_ok c -> (forall s b, length (compress s b) = 8) -> forall xs defer l' ms os i, sizes_ok xs ->
  ld_run iv compress aes ghash_fn false blind pad_rng sha256 parse_body ec_curve parse_key exchange fin rounds cert_key sig_valid
    client_key c xs (ld_new defer) = (l', ms, os) ->
  os !! i = Some Panic ->
  exists now io, xs !! i = Some (now, io, LCloseConn) /\
    ((exists r time hs, r ∈ allocated (take i xs) /\ (time, hs) ∈ prepared (take i xs) /\ ~ vouched cert_key sig_valid r hs) \/
     ((put_out (take i xs) (take i os) = [] \/ handed_in (take i xs) (take i os) = []) /\
      (all_succeed (take i os) -> pushed (take i xs) = [] \/ arrived (take i xs) = []))).
Proof. exact C69_lemma. Qed.
Print Assumptions C69_only_closing_panics.

(** Closing is not free of panics: it always panics if the handshake's keys are there and no record was given. *)
Theorem C69_closing_never_panics_refuted : forall iv compress aes ghash_fn blind pad_rng
  sha256 parse_body ec_curve parse_key exchange fin rounds cert_key sig_valid client_key c,
  aes_ok aes -> config_ok c -> (forall s b, length (compress s b) = 8) -> forall xs defer l' ms os now, sizes_ok xs ->
  ld_run iv compress aes ghash_fn false blind pad_rng sha256 parse_body ec_curve parse_key exchange fin rounds cert_key sig_valid
    client_key c xs (ld_new defer) = (l', ms, os) ->
  all_succeed os -> prepared xs <> [] -> cf_asked xs <> [] -> sf_asked xs <> [] -> LCloseConn ∉ map snd xs -> pushed xs = [] -> arrived xs = [] ->
  exists l2 ms2, ld_run iv compress aes ghash_fn false blind pad_rng sha256 parse_body ec_curve parse_key exchange fin rounds cert_key sig_valid
    client_key c (xs ++ [(now, true, LCloseConn)]) (ld_new defer) = (l2, ms2, os ++ [Panic]).
Proof. exact C69_empty_lemma. Qed.
Print Assumptions C69_closing_never_panics_refuted.

(** ** Examples *)
(** A connection on which nothing is sent, in which the calls before the last succeed. *)
Definition ex_silent : list (N * bool * lcall) :=
  map (fun x => (1000%N, true, x)) [LAlloc (replicate 32 1); LPreprocess; LPrepare ex_hs; LClientVd (replicate 32 8); LStart; LServerVd (replicate 32 9); LFlush]%N.
Example C69_silent_ex : sizes_ok ex_silent /\ all_succeed (snd (ex_ld_run NetNormal ex_silent)) /\ prepared ex_silent <> [] /\ cf_asked ex_silent <> [] /\ sf_asked ex_silent <> [] /\
  LCloseConn ∉ map snd ex_silent /\ pushed ex_silent = [] /\ arrived ex_silent = [].
Proof.
  split; [apply sizes_spec; vm_compute; reflexivity|]. split; [apply succeed_spec; vm_compute; reflexivity|].
  split_and!; try done. cbn. rewrite !elem_of_cons, elem_of_nil. intuition discriminate.
Qed.
Example C69_silent_panics_ex : last (snd (ex_ld_run NetNormal (ex_silent ++ [(1000%N, true, LCloseConn)]))) = Some Panic.
Proof. vm_compute. reflexivity. Qed.
(** A signature that is not the server's, with records: the first alternative. *)
Definition ex_forged : hs_data := HsData (hs_random ex_hs) (hs_group ex_hs) (hs_key ex_hs) (hs_certs ex_hs) (hs_params ex_hs) (Signed 0x0403 [0; 0]%N).
Definition ex_forge (x : N * bool * lcall) : N * bool * lcall := match x with (n, i, LPrepare _) => (n, i, LPrepare ex_forged) | _ => x end.
Example C69_forged_ex :
  (last (snd (ex_ld_run NetNormal (map ex_forge ex_fetch))), length (put_out (map ex_forge ex_fetch) (snd (ex_ld_run NetNormal (map ex_forge ex_fetch))))) = (Some Panic, 3).
Proof. vm_compute. reflexivity. Qed.
Example C69_vouched_ex : vouched ex_kind ex_valid (replicate 32 1%N) ex_hs.
Proof.
  exists [0]%N, [[9]]%N, KeyP256, W_P256_SHA256. split_and!; try done. constructor.
Qed.
(** With records and a proper signature nothing panics, whatever else fails. *)
Example C69_no_panic_ex : existsb (fun o => match o with Panic => true | _ => false end) (snd ex_fetched ++ ex_kept_seen ++ ex_left_seen) = false.
Proof. vm_compute. reflexivity. Qed.
