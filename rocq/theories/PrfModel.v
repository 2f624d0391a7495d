(** Model of crates/components/hmac-sha256: the TLS 1.2 key derivation in a virtual machine.

    The virtual machine (crates mpz_vm_core, mpz_ideal_vm) is ideal and shared by the two parties: a list of cells, each
    an input or the result of a circuit on earlier cells. An input has a value once it is assigned and committed. Executing
    the machine computes what can be computed; decoded values are seen after that. The circuits for SHA-256 (crate mpz_hash)
    compute the same as the function [sha256] of lib.rs. Byte strings and SHA-256 states (lists of eight words)
    are lists of numbers. *)
From Verif.Lib Require Import Base.
From Verif Require Import CodecModel.

(** ** The virtual machine *)
Inductive cell :=
| Given (v : option (list N))
| Computed (f : list (list N) -> list N) (args : list nat).
(** [vm_seen] are the values computed by the last execution. *)
Record vm := Vm { vm_cells : list cell; vm_seen : list (option (list N)) }.
Definition vm_new : vm := Vm [] [].
Definition cell_value (vs : list (option (list N))) (c : cell) : option (list N) :=
  match c with
  | Given v => v
  | Computed f args => f <$> mapM (fun a => mjoin (vs !! a)) args
  end.
(** The values of all cells, in order. *)
Definition vm_values (cs : list cell) : list (option (list N)) :=
  fold_left (fun vs c => vs ++ [cell_value vs c]) cs [].
Definition vm_add (m : vm) (c : cell) : vm * nat := (Vm (vm_cells m ++ [c]) (vm_seen m), length (vm_cells m)).
Definition vm_execute (m : vm) : vm := Vm (vm_cells m) (vm_values (vm_cells m)).
(** [DecodeFutureTyped::try_recv]. *)
Definition vm_decoded (m : vm) (i : nat) : option (list N) := mjoin (vm_seen m !! i).
Inductive prf_error := PVm | PState | PConfig.
(** [assign] and [commit]: only of an input without a value. *)
Definition vm_assign (m : vm) (i : nat) (v : list N) : outcome prf_error vm :=
  match vm_cells m !! i with
  | Some (Given None) => Ok (Vm (<[i := Given (Some v)]> (vm_cells m)) (vm_seen m))
  | _ => Err PVm
  end.

(** config.rs [NetworkMode], [MSMode]. *)
Inductive ms_mode := MsStandard | MsExtended | MsDirect.
Inductive net_mode := NetReduced | NetNormal.

(** ** Labels, normal.rs:25-29 and reduced.rs:47-51, in ASCII. *)
Definition label_ms : list N := [109;97;115;116;101;114;32;115;101;99;114;101;116]%N.
Definition label_ems : list N := [101;120;116;101;110;100;101;100;32;109;97;115;116;101;114;32;115;101;99;114;101;116]%N.
Definition label_key : list N := [107;101;121;32;101;120;112;97;110;115;105;111;110]%N.
Definition label_cf : list N := [99;108;105;101;110;116;32;102;105;110;105;115;104;101;100]%N.
Definition label_sf : list N := [115;101;114;118;101;114;32;102;105;110;105;115;104;101;100]%N.
(** hmac.rs:32-33. *)
Definition ipad : list N := replicate 64 54%N.
Definition opad : list N := replicate 64 92%N.

Section Prf.
  (** SHA-256's initial state and its compression function (crate sha2, [compress256]) on a block of 64 bytes. *)
  Context (iv : list N) (compress : list N -> list N -> list N).

  (** Compressing the full blocks of a message; what is left over has less than 64 bytes. *)
  Fixpoint digest_blocks (n : nat) (state msg : list N) : list N * list N :=
    match n with
    | O => (state, msg)
    | S n' => if length msg <? 64 then (state, msg) else digest_blocks n' (compress state (take 64 msg)) (drop 64 msg)
    end.
  (** block_buffer's [digest_pad]: the delimiter, zeros, and the suffix of 8 bytes, which may need another block. *)
  Definition digest_pad (state rest suffix : list N) : list N :=
    let buf := rest ++ [128%N] in
    if 64 - length buf <? 8
    then compress (compress state (buf ++ replicate (64 - length buf) 0%N)) (replicate 56 0%N ++ suffix)
    else compress state (buf ++ replicate (56 - length buf) 0%N ++ suffix).
  (** lib.rs:46-61 [sha256]; the number of bits is a u64. *)
  Definition sha256 (state : list N) (pos : N) (msg : list N) : list N :=
    let '(state, rest) := digest_blocks (length msg) state msg in
    digest_pad state rest (be 8 (((N.of_nat (length msg) + pos) * 8) mod 2 ^ 64)).
  (** lib.rs:63-70 [state_to_bytes]. *)
  Definition state_to_bytes (state : list N) : list N := concat (map (be 4) state).

  (** The circuits. *)
  Definition circ_xor (args : list (list N)) : list N :=
    match args with [key; padding; mask] => zip_with N.lxor (key ++ padding) mask | _ => [] end.
  Definition circ_block (args : list (list N)) : list N :=
    match args with [block] => compress iv block | _ => [] end.
  (** A SHA-256 object that has compressed 64 bytes is given more messages, compresses and finalizes. *)
  Definition circ_finish (args : list (list N)) : list N :=
    match args with state :: msgs => state_to_bytes (sha256 state 64 (concat msgs)) | _ => [] end.
  (** prf.rs:439-476: merge the outputs and truncate. *)
  Definition circ_merge (n : nat) (args : list (list N)) : list N := take n (concat args).
  (** A part of a vector. *)
  Definition circ_slice (i n : nat) (args : list (list N)) : list N :=
    match args with [v] => take n (drop i v) | _ => [] end.

  (** prf.rs:405-437 [compute_partial]. The result is the cell of the state. *)
  Definition compute_partial (m : vm) (key key_len : nat) (mask : list N) : vm * nat :=
    let '(m, padding) := vm_add m (Given (Some (replicate (64 - key_len) 0%N))) in
    let '(m, mask) := vm_add m (Given (Some mask)) in
    let '(m, block) := vm_add m (Computed circ_xor [key; padding; mask]) in
    vm_add m (Computed circ_block [block]).
  (** hmac.rs:42-50 [hmac_sha256]. *)
  Definition hmac_sha256 (m : vm) (outer inner_local : nat) : vm * nat :=
    vm_add m (Computed circ_finish [outer; inner_local]).

  (** ** normal.rs *)
  (** normal.rs:13-22. [nf_msg] is the message of the first A. *)
  Record normal_fn := NormalFn { nf_label : list N; nf_done : bool; nf_seed : option (list N); nf_msg : nat; nf_p : list nat }.
  (** normal.rs:165-186 [PHash::alloc]. *)
  Definition phash_alloc (m : vm) (outer inner : nat) (msgs : list nat) : vm * nat :=
    let '(m, inner_local) := vm_add m (Computed circ_finish (inner :: msgs)) in
    hmac_sha256 m outer inner_local.
  (** normal.rs:133-148, the loop. *)
  Fixpoint normal_loop (n : nat) (m : vm) (outer inner msg_a seed_label : nat) : vm * list nat :=
    match n with
    | O => (m, [])
    | S n' =>
        let '(m, a) := phash_alloc m outer inner [msg_a] in
        let '(m, p) := phash_alloc m outer inner [a; seed_label] in
        let '(m, ps) := normal_loop n' m outer inner a seed_label in
        (m, p :: ps)
    end.
  (** [usize::div_ceil(32)]. *)
  Definition iterations_of (len : nat) : nat := len / 32 + (if len mod 32 =? 0 then 0 else 1).
  (** normal.rs:109-151 [alloc]; the length is not 0. *)
  Definition normal_alloc (m : vm) (label : list N) (outer inner len : nat) : vm * normal_fn :=
    let '(m, seed_label) := vm_add m (Given None) in
    let '(m, ps) := normal_loop (iterations_of len) m outer inner seed_label seed_label in
    (m, NormalFn label false None seed_label ps).
  (** normal.rs:74-92 [flush]. *)
  Definition normal_flush (m : vm) (x : normal_fn) : outcome prf_error (vm * normal_fn) :=
    if nf_done x then Ok (m, x)
    else
      let! value := or_panic (nf_seed x) in
      let! m := vm_assign m (nf_msg x) value in
      Ok (m, NormalFn (nf_label x) true (nf_seed x) (nf_msg x) (nf_p x)).

  (** ** reduced.rs *)
  (** reduced.rs:29-44 [PrfState]; futures are cells. *)
  Inductive reduced_state :=
  | RInner (inner_partial : nat)
  | RComputeA (iter : nat) (inner_partial : list N) (msg : list N)
  | RComputeP (iter : nat) (inner_partial : list N) (a_output : nat)
  | RDone.
  (** reduced.rs:17-26; an [AHash] or [PHash] is the pair of [inner_local] and [output]. *)
  Record reduced_fn := ReducedFn {
    rf_label : list N; rf_seed : option (list N); rf_iterations : nat; rf_state : reduced_state;
    rf_a : list (nat * nat); rf_p : list (nat * nat) }.
  (** reduced.rs:203-222, the loop; the hashes are pushed at the front. *)
  Fixpoint reduced_loop (n : nat) (m : vm) (outer : nat) (a p : list (nat * nat)) : vm * list (nat * nat) * list (nat * nat) :=
    match n with
    | O => (m, a, p)
    | S n' =>
        let '(m, ai) := vm_add m (Given None) in
        let '(m, ao) := hmac_sha256 m outer ai in
        let '(m, pi) := vm_add m (Given None) in
        let '(m, po) := hmac_sha256 m outer pi in
        reduced_loop n' m outer ((ai, ao) :: a) ((pi, po) :: p)
    end.
  (** reduced.rs:177-225 [alloc]. *)
  Definition reduced_alloc (m : vm) (label : list N) (outer inner len : nat) : vm * reduced_fn :=
    let '(m, a, p) := reduced_loop (iterations_of len) m outer [] [] in
    (m, ReducedFn label None (iterations_of len) (RInner inner) a p).
  (** reduced.rs:228-242 [assign_inner_local]. *)
  Definition assign_inner_local (m : vm) (i : nat) (inner_partial msg : list N) : outcome prf_error vm :=
    vm_assign m i (state_to_bytes (sha256 inner_partial 64 msg)).
  (** reduced.rs:112-125, the arm [ComputeA] of [flush]. *)
  Definition reduced_flush_a (m : vm) (x : reduced_fn) (iter : nat) (inner_partial msg : list N) : outcome prf_error (vm * reduced_fn) :=
    match rf_a x with
    | [] => Panic
    | (ai, ao) :: a' =>
        let! m := assign_inner_local m ai inner_partial msg in
        Ok (m, ReducedFn (rf_label x) (rf_seed x) (rf_iterations x) (RComputeP iter inner_partial ao) a' (rf_p x))
    end.
  (** reduced.rs:94-158 [flush]; the recursive calls are in state [ComputeA]. *)
  Definition reduced_flush (m : vm) (x : reduced_fn) : outcome prf_error (vm * reduced_fn) :=
    match rf_state x with
    | RInner i =>
        match vm_decoded m i with
        | None => Ok (m, x)
        | Some inner_partial =>
            let! seed := or_panic (rf_seed x) in
            reduced_flush_a m x 1 inner_partial seed
        end
    | RComputeA iter inner_partial msg => reduced_flush_a m x iter inner_partial msg
    | RComputeP iter inner_partial ao =>
        match vm_decoded m ao with
        | None => Ok (m, x)
        | Some output =>
            match rf_p x with
            | [] => Panic
            | (pi, _) :: p' =>
                let! seed := or_panic (rf_seed x) in
                let! m := assign_inner_local m pi inner_partial (output ++ seed) in
                if iter =? rf_iterations x
                then Ok (m, ReducedFn (rf_label x) (rf_seed x) (rf_iterations x) RDone (rf_a x) p')
                else reduced_flush_a m (ReducedFn (rf_label x) (rf_seed x) (rf_iterations x) (rf_state x) (rf_a x) p')
                       (iter + 1) inner_partial output
            end
        end
    | RDone => Ok (m, x)
    end.

  (** ** function.rs *)
  (** function.rs:16-20 [InnerPrf]. *)
  Inductive inner_prf := FReduced (x : reduced_fn) | FNormal (x : normal_fn).
  Definition fn_alloc (n : net_mode) (m : vm) (label : list N) (outer inner len : nat) : vm * inner_prf :=
    match n with
    | NetReduced => let '(m, x) := reduced_alloc m label outer inner len in (m, FReduced x)
    | NetNormal => let '(m, x) := normal_alloc m label outer inner len in (m, FNormal x)
    end.
  (** normal.rs:94-96, reduced.rs:160-162 [is_done]. *)
  Definition fn_done (f : inner_prf) : bool :=
    match f with
    | FReduced x => match rf_state x with RDone => true | _ => false end
    | FNormal x => nf_done x
    end.
  Definition fn_seed (f : inner_prf) : option (list N) := match f with FReduced x => rf_seed x | FNormal x => nf_seed x end.
  (** normal.rs:70-72, reduced.rs:90-92 [wants_flush]. *)
  Definition fn_wants_flush (f : inner_prf) : bool := negb (fn_done f) && bool_decide (is_Some (fn_seed f)).
  Definition fn_flush (m : vm) (f : inner_prf) : outcome prf_error (vm * inner_prf) :=
    match f with
    | FReduced x => let! (m, x) := reduced_flush m x in Ok (m, FReduced x)
    | FNormal x => let! (m, x) := normal_flush m x in Ok (m, FNormal x)
    end.
  (** normal.rs:98-103, reduced.rs:164-169 [set_start_seed]. *)
  Definition fn_set_seed (f : inner_prf) (seed : list N) : inner_prf :=
    match f with
    | FReduced x => FReduced (ReducedFn (rf_label x) (Some (rf_label x ++ seed)) (rf_iterations x) (rf_state x) (rf_a x) (rf_p x))
    | FNormal x => FNormal (NormalFn (nf_label x) (nf_done x) (Some (nf_label x ++ seed)) (nf_msg x) (nf_p x))
    end.
  Definition fn_output (f : inner_prf) : list nat := match f with FReduced x => map snd (rf_p x) | FNormal x => nf_p x end.

  (** ** prf.rs *)
  (** prf.rs:27-42 [State]. *)
  Inductive prf_state :=
  | PInitialized
  | PSetup (ms : option inner_prf) (ke cf sf : inner_prf)
  | PComplete
  | PError.
  Record prf := Prf { pf_net : net_mode; pf_ms : ms_mode; pf_state : prf_state; pf_random : option (list N) }.
  (** lib.rs:22-43 [PrfOutput]; cells. *)
  Record prf_output := PrfOutput { po_ck : nat; po_sk : nat; po_civ : nat; po_siv : nat; po_cf : nat; po_sf : nat }.
  Definition prf_new (n : net_mode) (k : ms_mode) : prf := Prf n k PInitialized None.

  (** prf.rs:439-458 [merge_outputs]. *)
  Definition merge_outputs (m : vm) (inputs : list nat) (n : nat) : vm * nat := vm_add m (Computed (circ_merge n) inputs).
  (** prf.rs:355-375 [get_session_keys]. *)
  Definition get_session_keys (m : vm) (outputs : list nat) : vm * (nat * nat * nat * nat) :=
    let '(m, keys) := merge_outputs m outputs 40 in
    let '(m, siv) := vm_add m (Computed (circ_slice 36 4) [keys]) in
    let '(m, civ) := vm_add m (Computed (circ_slice 32 4) [keys]) in
    let '(m, sk) := vm_add m (Computed (circ_slice 16 16) [keys]) in
    let '(m, ck) := vm_add m (Computed (circ_slice 0 16) [keys]) in
    (m, (ck, sk, civ, siv)).
  (** prf.rs:130-173 [alloc_post_ms]; a master secret has 48 bytes. *)
  Definition alloc_post_ms (m : vm) (p : prf) (ms : nat) (master_secret : option inner_prf) : vm * prf * prf_output :=
    let '(m, outer) := compute_partial m ms 48 opad in
    let '(m, inner) := compute_partial m ms 48 ipad in
    let '(m, ke) := fn_alloc (pf_net p) m label_key outer inner 40 in
    let '(m, cf) := fn_alloc (pf_net p) m label_cf outer inner 12 in
    let '(m, sf) := fn_alloc (pf_net p) m label_sf outer inner 12 in
    let '(m, (ck, sk, civ, siv)) := get_session_keys m (fn_output ke) in
    let '(m, cf_vd) := merge_outputs m (fn_output cf) 12 in
    let '(m, sf_vd) := merge_outputs m (fn_output sf) 12 in
    (m, Prf (pf_net p) (pf_ms p) (PSetup master_secret ke cf sf) (pf_random p), PrfOutput ck sk civ siv cf_vd sf_vd).
  (** prf.rs:74-101 [alloc_pms]; the pre-master secret has 32 bytes. *)
  Definition alloc_pms (m : vm) (p : prf) (pms : nat) : outcome prf_error (vm * prf * prf_output) :=
    match pf_ms p, pf_state p with
    | MsDirect, _ => Err PConfig
    | k, PInitialized =>
        let '(m, outer) := compute_partial m pms 32 opad in
        let '(m, inner) := compute_partial m pms 32 ipad in
        let '(m, f) := fn_alloc (pf_net p) m (match k with MsExtended => label_ems | _ => label_ms end) outer inner 48 in
        let '(m, ms) := merge_outputs m (fn_output f) 48 in
        Ok (alloc_post_ms m p ms (Some f))
    | _, _ => Err PState
    end.
  (** prf.rs:112-128 [alloc_ms]. *)
  Definition alloc_ms (m : vm) (p : prf) (ms : nat) : outcome prf_error (vm * prf * prf_output) :=
    match pf_ms p, pf_state p with
    | MsDirect, PInitialized => Ok (alloc_post_ms m p ms None)
    | MsDirect, _ => Err PState
    | _, _ => Err PConfig
    end.

  (** prf.rs:181-183. *)
  Definition set_client_random (p : prf) (r : list N) : prf := Prf (pf_net p) (pf_ms p) (pf_state p) (Some r).
  (** prf.rs:191-220. *)
  Definition set_server_random (p : prf) (r : list N) : outcome prf_error prf :=
    match pf_state p with
    | PSetup ms ke cf sf =>
        let! client := or_panic (pf_random p) in
        let! ms := (match pf_ms p with
          | MsStandard => let! f := or_panic ms in Ok (Some (fn_set_seed f (client ++ r)))
          | _ => Ok ms
          end) in
        Ok (Prf (pf_net p) (pf_ms p) (PSetup ms (fn_set_seed ke (r ++ client)) cf sf) (pf_random p))
    | _ => Err PState
    end.
  (** prf.rs:230-246. *)
  Definition set_session_hash (p : prf) (h : list N) : outcome prf_error prf :=
    match pf_state p with
    | PSetup ms ke cf sf =>
        match pf_ms p with
        | MsExtended =>
            let! f := or_panic ms in
            Ok (Prf (pf_net p) (pf_ms p) (PSetup (Some (fn_set_seed f h)) ke cf sf) (pf_random p))
        | _ => Err PConfig
        end
    | _ => Err PState
    end.
  (** prf.rs:254-266. *)
  Definition set_cf_hash (p : prf) (h : list N) : outcome prf_error prf :=
    match pf_state p with
    | PSetup ms ke cf sf => Ok (Prf (pf_net p) (pf_ms p) (PSetup ms ke (fn_set_seed cf h) sf) (pf_random p))
    | _ => Err PState
    end.
  (** prf.rs:274-286. *)
  Definition set_sf_hash (p : prf) (h : list N) : outcome prf_error prf :=
    match pf_state p with
    | PSetup ms ke cf sf => Ok (Prf (pf_net p) (pf_ms p) (PSetup ms ke cf (fn_set_seed sf h)) (pf_random p))
    | _ => Err PState
    end.
  (** prf.rs:289-306. *)
  Definition prf_wants_flush (p : prf) : bool :=
    match pf_state p with
    | PSetup ms ke cf sf =>
        (match ms with Some f => fn_wants_flush f | None => false end) || fn_wants_flush ke || fn_wants_flush cf || fn_wants_flush sf
    | _ => false
    end.
  Definition flush_if (m : vm) (f : inner_prf) : outcome prf_error (vm * inner_prf) :=
    if fn_wants_flush f then fn_flush m f else Ok (m, f).
  (** prf.rs:309-352; the state is taken, so that an error leaves [Error] behind. *)
  Definition prf_flush (m : vm) (p : prf) : outcome prf_error (vm * prf) :=
    match pf_state p with
    | PSetup ms ke cf sf =>
        let! (m, ms) := (match ms with Some f => let! (m, f) := flush_if m f in Ok (m, Some f) | None => Ok (m, None) end) in
        let! (m, ke) := flush_if m ke in
        let! (m, cf) := flush_if m cf in
        let! (m, sf) := flush_if m sf in
        let st := if (match ms with Some f => fn_done f | None => true end) && fn_done ke && fn_done cf && fn_done sf
                  then PComplete else PSetup ms ke cf sf in
        Ok (m, Prf (pf_net p) (pf_ms p) st (pf_random p))
    | _ => Ok (m, p)
    end.

  (** ** Use *)
  (** The secret (a pre-master secret, or a master secret in mode [MsDirect]) is the first cell. *)
  Definition prf_setup (n : net_mode) (k : ms_mode) : outcome prf_error (vm * prf * prf_output) :=
    let '(m, secret) := vm_add vm_new (Given None) in
    match k with
    | MsDirect => alloc_ms m (prf_new n k) secret
    | _ => alloc_pms m (prf_new n k) secret
    end.
  Inductive prf_call :=
  | CSecret (v : list N) | CClientRandom (r : list N) | CServerRandom (r : list N) | CSessionHash (h : list N)
  | CCfHash (h : list N) | CSfHash (h : list N) | CPrfFlush | CExecute.
  Definition keep_vm (m : vm) (o : outcome prf_error prf) : outcome prf_error (vm * prf) := let! p := o in Ok (m, p).
  Definition prf_call_step (c : prf_call) (m : vm) (p : prf) : outcome prf_error (vm * prf) :=
    match c with
    | CSecret v => let! m := vm_assign m 0 v in Ok (m, p)
    | CClientRandom r => Ok (m, set_client_random p r)
    | CServerRandom r => keep_vm m (set_server_random p r)
    | CSessionHash h => keep_vm m (set_session_hash p h)
    | CCfHash h => keep_vm m (set_cf_hash p h)
    | CSfHash h => keep_vm m (set_sf_hash p h)
    | CPrfFlush => prf_flush m p
    | CExecute => Ok (vm_execute m, p)
    end.
  (** Calls, as long as they succeed. *)
  Fixpoint prf_run (cs : list prf_call) (m : vm) (p : prf) : outcome prf_error (vm * prf) :=
    match cs with
    | [] => Ok (m, p)
    | c :: cs' => let! (m, p) := prf_call_step c m p in prf_run cs' m p
    end.
  (** mpc-tls utils.rs:92-105 [flush_prf], and the loops in tlsn's proxy/prover.rs and proxy/verifier.rs: [None] if they have not
      finished after [n] rounds. *)
  Fixpoint flush_all (n : nat) (m : vm) (p : prf) : outcome prf_error (option (vm * prf)) :=
    if prf_wants_flush p then
      match n with
      | O => Ok None
      | S n' => let! (m, p) := prf_flush m p in flush_all n' (vm_execute m) p
      end
    else Ok (Some (m, p)).
End Prf.
