(** Model of the configuration of MPC-TLS: crates/core/src/config/tls_commit/mpc.rs, crates/mpc-tls/src/config.rs,
    [build_mpc_tls_config] of crates/tlsn/src/deps.rs, and the limits that the SDK's verifier enforces
    (crates/sdk-core/src/verifier.rs). Numbers of type usize are natural numbers, arithmetic on them is
    [uadd] of RecordModel.v. *)
From Verif.Lib Require Import Base.
From Verif Require Import ProofModel CodecModel RecordModel.

(** mpc.rs:189-197 [NetworkSetting], the default is Latency. *)
Inductive network := Bandwidth | Latency.
(** mpc.rs:11-29 [MpcTlsConfig]. *)
Record mpc_config := MpcConfig {
  mc_max_sent : N; mc_max_sent_records : option N; mc_max_recv_online : N; mc_max_recv : N;
  mc_max_recv_records : option N; mc_defer : bool; mc_network : network }.
(** mpc.rs:205-210 [ErrorRepr]; the field names are the constructors. *)
Inductive config_error := MissingSent | MissingRecv | InvalidOnline.

(** mpc.rs:76-89 [validate]. *)
Definition validate (c : mpc_config) : outcome config_error mpc_config :=
  if (mc_max_recv c <? mc_max_recv_online c)%N then Err InvalidOnline else Ok c.

(** mpc.rs:93-101 [MpcTlsConfigBuilder]. *)
Record mpc_builder := MpcBuilder {
  mb_max_sent : option N; mb_max_sent_records : option N; mb_max_recv_online : option N; mb_max_recv : option N;
  mb_max_recv_records : option N; mb_defer : option bool; mb_network : option network }.
(** mpc.rs:33-35, the derived [Default]. *)
Definition builder_default : mpc_builder := MpcBuilder None None None None None None None.
(** mpc.rs:104-146, the setters. *)
Inductive setter :=
| SetMaxSent (n : N) | SetMaxSentRecords (n : N) | SetMaxRecvOnline (n : N) | SetMaxRecv (n : N)
| SetMaxRecvRecords (n : N) | SetDefer (b : bool) | SetNetwork (x : network).
Definition set_field (b : mpc_builder) (x : setter) : mpc_builder :=
  match x with
  | SetMaxSent n => MpcBuilder (Some n) (mb_max_sent_records b) (mb_max_recv_online b) (mb_max_recv b) (mb_max_recv_records b) (mb_defer b) (mb_network b)
  | SetMaxSentRecords n => MpcBuilder (mb_max_sent b) (Some n) (mb_max_recv_online b) (mb_max_recv b) (mb_max_recv_records b) (mb_defer b) (mb_network b)
  | SetMaxRecvOnline n => MpcBuilder (mb_max_sent b) (mb_max_sent_records b) (Some n) (mb_max_recv b) (mb_max_recv_records b) (mb_defer b) (mb_network b)
  | SetMaxRecv n => MpcBuilder (mb_max_sent b) (mb_max_sent_records b) (mb_max_recv_online b) (Some n) (mb_max_recv_records b) (mb_defer b) (mb_network b)
  | SetMaxRecvRecords n => MpcBuilder (mb_max_sent b) (mb_max_sent_records b) (mb_max_recv_online b) (mb_max_recv b) (Some n) (mb_defer b) (mb_network b)
  | SetDefer d => MpcBuilder (mb_max_sent b) (mb_max_sent_records b) (mb_max_recv_online b) (mb_max_recv b) (mb_max_recv_records b) (Some d) (mb_network b)
  | SetNetwork x => MpcBuilder (mb_max_sent b) (mb_max_sent_records b) (mb_max_recv_online b) (mb_max_recv b) (mb_max_recv_records b) (mb_defer b) (Some x)
  end.
Definition set_fields (xs : list setter) : mpc_builder := fold_left set_field xs builder_default.
(** mpc.rs:6. *)
Definition default_max_recv_online : N := 32.
(** mpc.rs:149-181 [build]. *)
Definition build_config (b : mpc_builder) : outcome config_error mpc_config :=
  let! sent := opt_err MissingSent (mb_max_sent b) in
  let online := default default_max_recv_online (mb_max_recv_online b) in
  let! recv := opt_err MissingRecv (mb_max_recv b) in
  validate (MpcConfig sent (mb_max_sent_records b) online recv (mb_max_recv_records b)
    (default true (mb_defer b)) (default Latency (mb_network b))).

(** mpc.rs:215-224 [MpcTlsConfigUnchecked], what a peer's message is parsed to: any values of the field types. *)
Record mpc_message := MpcMessage {
  mm_max_sent : N; mm_max_sent_records : option N; mm_max_recv_online : N; mm_max_recv : N;
  mm_max_recv_records : option N; mm_defer : bool; mm_network : network }.
(** mpc.rs:226-240 [TryFrom<MpcTlsConfigUnchecked>], which deserialization goes through (mpc.rs:10). *)
Definition receive_config (m : mpc_message) : outcome config_error mpc_config :=
  validate (MpcConfig (mm_max_sent m) (mm_max_sent_records m) (mm_max_recv_online m) (mm_max_recv m)
    (mm_max_recv_records m) (mm_defer m) (mm_network m)).

(** hmac_sha256's [NetworkMode]. *)
Inductive prf_mode := PrfNormal | PrfReduced.
(** mpc-tls config.rs:37-65 [Config]. *)
Record tls_config := TlsConfig {
  tc_defer : bool; tc_max_sent_records : N; tc_max_sent : N; tc_max_recv_records : N; tc_max_recv_online : N;
  tc_max_recv : N; tc_prf : prf_mode }.
(** The derived [ConfigBuilder]. *)
Record tls_builder := TlsBuilder {
  tb_defer : option bool; tb_max_sent_records : option N; tb_max_sent : option N; tb_max_recv_records : option N;
  tb_max_recv_online : option N; tb_max_recv : option N; tb_prf : option prf_mode }.
Inductive builder_error := UninitSent | UninitRecvOnline | UninitRecv | BadOnline.

(** config.rs:5-14. *)
Definition protocol_data_sent : N := 32.
Definition protocol_data_recv : N := 32.
Definition protocol_records_sent : N := 2.
Definition protocol_records_recv : N := 2.
(** [usize::div_ceil(4096)]. *)
Definition div_ceil_4096 (n : N) : N := (n / 4096 + (if n mod 4096 =? 0 then 0 else 1))%N.
(** config.rs:20-32 [default_record_count]; [N.sub] saturates. *)
Definition default_record_count (checked : bool) (max_data : N) : panicky N :=
  uadd checked 8 (div_ceil_4096 (max_data - 4096)).

(** config.rs:82-122 [build]. *)
Definition build_tls_config (checked : bool) (b : tls_builder) : outcome builder_error tls_config :=
  let! sent := opt_err UninitSent (tb_max_sent b) in
  let! max_sent := lift_panic (uadd checked protocol_data_sent sent) in
  let! online := opt_err UninitRecvOnline (tb_max_recv_online b) in
  let! recv := opt_err UninitRecv (tb_max_recv b) in
  if (recv <? online)%N then Err BadOnline else
  let! max_recv_online := lift_panic (uadd checked online protocol_data_recv) in
  let! max_recv := lift_panic (uadd checked recv protocol_data_recv) in
  let! sent_records := match tb_max_sent_records b with
    | Some n => Ok n
    | None => let! c := lift_panic (default_record_count checked max_sent) in
              lift_panic (uadd checked protocol_records_sent c)
    end in
  let! recv_records := match tb_max_recv_records b with
    | Some n => Ok n
    | None => let! c := lift_panic (default_record_count checked max_recv_online) in
              lift_panic (uadd checked protocol_records_recv c)
    end in
  Ok (TlsConfig (default true (tb_defer b)) sent_records max_sent recv_records max_recv_online max_recv
    (default PrfNormal (tb_prf b))).

(** deps.rs:62-84 [build_mpc_tls_config]; [unwrap] panics on an error. *)
Definition translate_config (checked : bool) (c : mpc_config) : panicky tls_config :=
  match build_tls_config checked (TlsBuilder (Some (mc_defer c)) (mc_max_sent_records c) (Some (mc_max_sent c))
    (mc_max_recv_records c) (Some (mc_max_recv_online c)) (Some (mc_max_recv c))
    (match mc_network c with Latency => Some PrfReduced | Bandwidth => None end)) with
  | Ok t => Ok t
  | Err _ => Panic
  | Panic => Panic
  end.

(** sdk-core config.rs:173-184 [VerifierConfig], the limits. *)
Record sdk_limits := SdkLimits {
  sl_max_sent : N; sl_max_recv : N; sl_max_sent_records : option N; sl_max_recv_records : option N }.
(** The derived order of [Option]: [None] is less than every [Some]. *)
Definition opt_gtb (a b : option N) : bool :=
  match a, b with
  | None, _ => false
  | Some _, None => true
  | Some x, Some y => (y <? x)%N
  end.
(** sdk-core verifier.rs:137-153: which configurations the SDK's verifier accepts. *)
Definition sdk_accepts (l : sdk_limits) (c : mpc_config) : bool :=
  if (sl_max_sent l <? mc_max_sent c)%N then false
  else if (sl_max_recv l <? mc_max_recv c)%N then false
  else if opt_gtb (mc_max_sent_records c) (sl_max_sent_records l) then false
  else negb (opt_gtb (mc_max_recv_records c) (sl_max_recv_records l)).
(** sdk-core verifier.rs:132-167: receive the prover's configuration, and start if it is acceptable. The result is
    the protocol's configuration, or nothing if the message is refused. *)
Definition sdk_setup (checked : bool) (l : sdk_limits) (m : mpc_message) : panicky (option tls_config) :=
  match receive_config m with
  | Ok c => if sdk_accepts l c then let! t := translate_config checked c in Ok (Some t) else Ok None
  | Err _ => Ok None
  | Panic => Panic
  end.
