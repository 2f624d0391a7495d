(** What properties C46 and C54 speak about, independently of the functions of ConfigModel.v (only its data types are used). *)
From Verif.Lib Require Import Base.
From Verif Require Import RecordModel ConfigModel.

(** The values that a series of builder calls gives to a field, in order; the last one counts. *)
Definition sent_values (xs : list setter) : list N := omap (fun x => match x with SetMaxSent n => Some n | _ => None end) xs.
Definition sent_records_values (xs : list setter) : list N := omap (fun x => match x with SetMaxSentRecords n => Some n | _ => None end) xs.
Definition online_values (xs : list setter) : list N := omap (fun x => match x with SetMaxRecvOnline n => Some n | _ => None end) xs.
Definition recv_values (xs : list setter) : list N := omap (fun x => match x with SetMaxRecv n => Some n | _ => None end) xs.
Definition recv_records_values (xs : list setter) : list N := omap (fun x => match x with SetMaxRecvRecords n => Some n | _ => None end) xs.
Definition defer_values (xs : list setter) : list bool := omap (fun x => match x with SetDefer n => Some n | _ => None end) xs.
Definition network_values (xs : list setter) : list network := omap (fun x => match x with SetNetwork n => Some n | _ => None end) xs.
(** The configuration that a series of calls asks for: it must set the two totals; the other fields have defaults. *)
Definition asks_for (xs : list setter) (c : mpc_config) : Prop :=
  last (sent_values xs) = Some (mc_max_sent c) /\ last (recv_values xs) = Some (mc_max_recv c) /\
  mc_max_recv_online c = default 32%N (last (online_values xs)) /\
  mc_max_sent_records c = last (sent_records_values xs) /\ mc_max_recv_records c = last (recv_records_values xs) /\
  mc_defer c = default true (last (defer_values xs)) /\ mc_network c = default Latency (last (network_values xs)).
(** The configuration that a peer's message states. *)
Definition states (m : mpc_message) (c : mpc_config) : Prop :=
  mc_max_sent c = mm_max_sent m /\ mc_max_recv c = mm_max_recv m /\ mc_max_recv_online c = mm_max_recv_online m /\
  mc_max_sent_records c = mm_max_sent_records m /\ mc_max_recv_records c = mm_max_recv_records m /\
  mc_defer c = mm_defer m /\ mc_network c = mm_network m.
(** The ways of getting hold of a configuration. *)
Definition obtained (c : mpc_config) : Prop :=
  (exists xs, build_config (set_fields xs) = Ok c) \/ (exists m, receive_config m = Ok c).

(** The number of records set aside for [n] bytes if the configuration does not say: two for the protocol, eight for
    the first 4096 bytes, and one for every started 4096 bytes beyond. *)
Definition usual_records (n : N) : N := 2 + 8 + (n - 4096 + 4095) / 4096.
(** The protocol's configuration that belongs to a configuration: 32 bytes more in each direction. *)
Definition translated (c : mpc_config) (t : tls_config) : Prop :=
  tc_max_sent t = (mc_max_sent c + 32)%N /\ tc_max_recv_online t = (mc_max_recv_online c + 32)%N /\
  tc_max_recv t = (mc_max_recv c + 32)%N /\
  tc_max_sent_records t = default (usual_records (tc_max_sent t)) (mc_max_sent_records c) /\
  tc_max_recv_records t = default (usual_records (tc_max_recv_online t)) (mc_max_recv_records c) /\
  tc_defer t = mc_defer c /\ tc_prf t = match mc_network c with Bandwidth => PrfNormal | Latency => PrfReduced end.
(** The totals leave room for the 32 bytes in a usize. *)
Definition leaves_room (sent recv : N) : Prop := (sent + 32 < 2 ^ 64 /\ recv + 32 < 2 ^ 64)%N.

(** A number is within a limit that may not be set. *)
Definition within (n : N) (limit : option N) : Prop := match limit with Some k => (n <= k)%N | None => True end.
Definition opt_within (n : option N) (limit : option N) : Prop := match n with Some n => within n limit | None => True end.
(** A message stays within the limits of an SDK verifier. *)
Definition message_within (l : sdk_limits) (m : mpc_message) : Prop :=
  (mm_max_sent m <= sl_max_sent l)%N /\ (mm_max_recv m <= sl_max_recv l)%N /\
  opt_within (mm_max_sent_records m) (sl_max_sent_records l) /\
  opt_within (mm_max_recv_records m) (sl_max_recv_records l).
