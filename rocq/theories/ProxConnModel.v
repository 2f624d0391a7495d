(** Model of the prover's side of a connection in proxy mode: crates/tlsn/src/prover/client/proxy/mod.rs
    [ProxyTlsClient], driven by the event loop of crates/tlsn/src/prover.rs:296-317 and 399-506 and by
    crates/tlsn/src/prover/future.rs.

    The TLS library (crate rustls) is a black box: a type of states and the functions below, about which nothing
    is assumed. The pipes, the socket and the steps are those of ConnModel.v. Of wakers nothing is modelled. The
    clock of lines 216-219 is taken to work; only whether the time is set is kept. *)
From Verif.Lib Require Import Base.
From Verif Require Import CodecModel ConnModel.

(** The functions of rustls that are called. Where the code gets an [io::Result], [None] is an error. *)
Record lib (R : Type) := Lib {
  (** [wants_read], [is_handshaking] *)
  l_wants_read : R -> bool;
  l_handshaking : R -> bool;
  (** [read_tls]: how many of the bytes it took *)
  l_read_tls : R -> bytes -> R * option nat;
  (** [write_tls], given the room there is: the bytes it wrote, of which at most that many are looked at *)
  l_write_tls : R -> N -> R * option bytes;
  (** [reader().read], the same; [WouldBlock] (line 165) is [Some []] *)
  l_read : R -> N -> R * option bytes;
  (** [writer().write]: how many of the bytes it took *)
  l_write : R -> bytes -> R * option nat;
  (** [process_new_packets]: whether it succeeds *)
  l_process : R -> R * bool;
  (** [send_close_notify] *)
  l_notify : R -> R;
  (** keylog.rs: the master secret that was logged, if any *)
  l_ms : R -> bytes }.
Arguments l_wants_read {R}. Arguments l_handshaking {R}. Arguments l_read_tls {R}. Arguments l_write_tls {R}.
Arguments l_read {R}. Arguments l_write {R}. Arguments l_process {R}. Arguments l_notify {R}. Arguments l_ms {R}.

(** proxy.rs:119-125 [TlsBytes] *)
Record tls_bytes := TlsBytes { tb_tls_sent : bytes; tb_tls_recv : bytes; tb_app_sent : bytes; tb_app_recv : bytes }.
(** proxy/mod.rs:46-61 [State], without the prover in it *)
Inductive xst := XInit | XHand | XConn (sent : bool) | XFinal | XError.
(** For reference: the calls of the library that went through, and the call of [finalize] (line 253). *)
Inductive xev := XReadTls (b : bytes) | XWriteTls (b : bytes) | XRead (b : bytes) | XWrite (b : bytes) | XNotify
| XFinalize (ms : bytes) (t : tls_bytes).
(** proxy/mod.rs:35-44 [ProxyTlsClient]: the library's state, the client's, whether the time is set, the traffic,
    [client_closed], [server_closed]. [k_log] is for reference. *)
Record xc (R : Type) := Xc {
  k_r : R;
  k_st : xst;
  k_time : bool;
  k_tr : tls_bytes;
  k_cc : bool;
  k_sc : bool;
  k_log : list xev }.
Arguments Xc {R}.
Arguments k_r {R}.
Arguments k_st {R}.
Arguments k_time {R}.
Arguments k_tr {R}.
Arguments k_cc {R}.
Arguments k_sc {R}.
Arguments k_log {R}.
Definition sk_r {R} (a : R) (v : xc R) : xc R :=
  Xc a (k_st v) (k_time v) (k_tr v) (k_cc v) (k_sc v) (k_log v).
Definition sk_st {R} (a : xst) (v : xc R) : xc R :=
  Xc (k_r v) a (k_time v) (k_tr v) (k_cc v) (k_sc v) (k_log v).
Definition sk_time {R} (a : bool) (v : xc R) : xc R :=
  Xc (k_r v) (k_st v) a (k_tr v) (k_cc v) (k_sc v) (k_log v).
Definition sk_tr {R} (a : tls_bytes) (v : xc R) : xc R :=
  Xc (k_r v) (k_st v) (k_time v) a (k_cc v) (k_sc v) (k_log v).
Definition sk_cc {R} (a : bool) (v : xc R) : xc R :=
  Xc (k_r v) (k_st v) (k_time v) (k_tr v) a (k_sc v) (k_log v).
Definition sk_sc {R} (a : bool) (v : xc R) : xc R :=
  Xc (k_r v) (k_st v) (k_time v) (k_tr v) (k_cc v) a (k_log v).
Definition klog {R} (e : xev) (c : xc R) : xc R :=
  Xc (k_r c) (k_st c) (k_time c) (k_tr c) (k_cc c) (k_sc c) (k_log c ++ [e]).
(** state.rs [Connected], as in ConnModel.v. *)
Record px (R : Type) := Px {
  y_c : xc R;
  y_up : bytes;
  y_up_end : bool;
  y_down : bytes;
  y_down_end : bool;
  y_rx : bytes;
  y_tx : bytes;
  y_client_closed : bool;
  y_server_closed : bool;
  y_output : bool;
  y_hup : bool;
  y_trace : list pev }.
Arguments Px {R}.
Arguments y_c {R}.
Arguments y_up {R}.
Arguments y_up_end {R}.
Arguments y_down {R}.
Arguments y_down_end {R}.
Arguments y_rx {R}.
Arguments y_tx {R}.
Arguments y_client_closed {R}.
Arguments y_server_closed {R}.
Arguments y_output {R}.
Arguments y_hup {R}.
Arguments y_trace {R}.
Definition sy_c {R} (a : xc R) (v : px R) : px R :=
  Px a (y_up v) (y_up_end v) (y_down v) (y_down_end v) (y_rx v) (y_tx v) (y_client_closed v) (y_server_closed v) (y_output v) (y_hup v) (y_trace v).
Definition sy_up {R} (a : bytes) (v : px R) : px R :=
  Px (y_c v) a (y_up_end v) (y_down v) (y_down_end v) (y_rx v) (y_tx v) (y_client_closed v) (y_server_closed v) (y_output v) (y_hup v) (y_trace v).
Definition sy_up_end {R} (a : bool) (v : px R) : px R :=
  Px (y_c v) (y_up v) a (y_down v) (y_down_end v) (y_rx v) (y_tx v) (y_client_closed v) (y_server_closed v) (y_output v) (y_hup v) (y_trace v).
Definition sy_down {R} (a : bytes) (v : px R) : px R :=
  Px (y_c v) (y_up v) (y_up_end v) a (y_down_end v) (y_rx v) (y_tx v) (y_client_closed v) (y_server_closed v) (y_output v) (y_hup v) (y_trace v).
Definition sy_down_end {R} (a : bool) (v : px R) : px R :=
  Px (y_c v) (y_up v) (y_up_end v) (y_down v) a (y_rx v) (y_tx v) (y_client_closed v) (y_server_closed v) (y_output v) (y_hup v) (y_trace v).
Definition sy_rx {R} (a : bytes) (v : px R) : px R :=
  Px (y_c v) (y_up v) (y_up_end v) (y_down v) (y_down_end v) a (y_tx v) (y_client_closed v) (y_server_closed v) (y_output v) (y_hup v) (y_trace v).
Definition sy_tx {R} (a : bytes) (v : px R) : px R :=
  Px (y_c v) (y_up v) (y_up_end v) (y_down v) (y_down_end v) (y_rx v) a (y_client_closed v) (y_server_closed v) (y_output v) (y_hup v) (y_trace v).
Definition sy_client_closed {R} (a : bool) (v : px R) : px R :=
  Px (y_c v) (y_up v) (y_up_end v) (y_down v) (y_down_end v) (y_rx v) (y_tx v) a (y_server_closed v) (y_output v) (y_hup v) (y_trace v).
Definition sy_server_closed {R} (a : bool) (v : px R) : px R :=
  Px (y_c v) (y_up v) (y_up_end v) (y_down v) (y_down_end v) (y_rx v) (y_tx v) (y_client_closed v) a (y_output v) (y_hup v) (y_trace v).
Definition sy_output {R} (a : bool) (v : px R) : px R :=
  Px (y_c v) (y_up v) (y_up_end v) (y_down v) (y_down_end v) (y_rx v) (y_tx v) (y_client_closed v) (y_server_closed v) a (y_hup v) (y_trace v).
Definition sy_hup {R} (a : bool) (v : px R) : px R :=
  Px (y_c v) (y_up v) (y_up_end v) (y_down v) (y_down_end v) (y_rx v) (y_tx v) (y_client_closed v) (y_server_closed v) (y_output v) a (y_trace v).
Definition ynote {R} (e : pev) (v : px R) : px R :=
  Px (y_c v) (y_up v) (y_up_end v) (y_down v) (y_down_end v) (y_rx v) (y_tx v) (y_client_closed v) (y_server_closed v) (y_output v) (y_hup v) (y_trace v ++ [e]).

Section Proxy.
  Context {R : Type} (L : lib R) (r0 : R).

  (** ** The client *)
  (** proxy/mod.rs:132-140 *)
  Definition k_read_tls (b : bytes) (c : xc R) : option (xc R * nat) :=
    match l_read_tls L (k_r c) b with
    | (_, None) => None
    | (r, Some n) =>
        let t := k_tr c in let b := take n b in
        Some (klog (XReadTls b) (sk_tr (TlsBytes (tb_tls_sent t) (tb_tls_recv t ++ b) (tb_app_sent t) (tb_app_recv t)) (sk_r r c)), n)
    end.
  (** proxy/mod.rs:142-150 *)
  Definition k_write_tls (room : N) (c : xc R) : option (xc R * bytes) :=
    match l_write_tls L (k_r c) room with
    | (_, None) => None
    | (r, Some b) =>
        let t := k_tr c in let b := take (N.to_nat (N.min (N.of_nat (length b)) room)) b in
        Some (klog (XWriteTls b) (sk_tr (TlsBytes (tb_tls_sent t ++ b) (tb_tls_recv t) (tb_app_sent t) (tb_app_recv t)) (sk_r r c)), b)
    end.
  (** proxy/mod.rs:152-161 *)
  Definition k_wants_read (c : xc R) : bool := match k_st c with XConn _ => true | _ => false end.
  Definition k_wants_write (c : xc R) : bool :=
    match k_st c with XHand | XConn _ => negb (k_cc c) | _ => false end.
  (** proxy/mod.rs:163-172 *)
  Definition k_read (room : N) (c : xc R) : option (xc R * bytes) :=
    match l_read L (k_r c) room with
    | (_, None) => None
    | (r, Some b) =>
        let t := k_tr c in let b := take (N.to_nat (N.min (N.of_nat (length b)) room)) b in
        Some (klog (XRead b) (sk_tr (TlsBytes (tb_tls_sent t) (tb_tls_recv t) (tb_app_sent t) (tb_app_recv t ++ b)) (sk_r r c)), b)
    end.
  (** proxy/mod.rs:174-183 *)
  Definition k_write (b : bytes) (c : xc R) : option (xc R * nat) :=
    match l_write L (k_r c) b with
    | (_, None) => None
    | (r, Some n) =>
        let t := k_tr c in let b := take n b in
        Some (klog (XWrite b) (sk_tr (TlsBytes (tb_tls_sent t) (tb_tls_recv t) (tb_app_sent t ++ b) (tb_app_recv t)) (sk_r r c)), n)
    end.
  (** proxy/mod.rs:274-283; [ready] is whether the future of [finalize] is, [final] whether it succeeds. *)
  Definition kpoll_final (ready : list bool) (final : bool) (c : xc R) : xc R * pres :=
    match ready with
    | false :: _ => (sk_st XFinal c, PPending)
    | _ => (sk_st XError c, if final then PReady else PErr)
    end.
  (** proxy/mod.rs:232-273. After the alert the client is polled again (line 266): [again] is false then,
      as [sent_close_notify] is set. *)
  Definition kpoll_conn_once (ready : list bool) (final : bool) (c : xc R) (again : xc R -> xc R * pres)
    (sent : bool) : xc R * pres :=
    let (r, ok) := l_process L (k_r c) in
    let c := sk_r r c in
    if negb ok then (sk_st XError c, PErr)
    else if k_sc c then
      let ms := l_ms L r in
      match ms with
      | [] => (sk_st XError c, PErr)
      | _ =>
          if k_time c then
            let t := k_tr c in
            kpoll_final ready final (klog (XFinalize ms t) (sk_tr (TlsBytes [] [] [] []) c))
          else (sk_st XError c, PErr)
      end
    else if k_cc c && negb sent then again (klog XNotify (sk_r (l_notify L (k_r c)) c))
    else (sk_st (XConn sent) c, PPending).
  Definition kpoll_conn (ready : list bool) (final : bool) (sent : bool) (c : xc R) : xc R * pres :=
    kpoll_conn_once ready final c
      (fun c => kpoll_conn_once ready final c (fun c => (c, PHang)) true) sent.
  (** proxy/mod.rs:205-231 *)
  Definition kpoll_hand (ready : list bool) (final : bool) (c : xc R) : xc R * pres :=
    let (r, ok) := l_process L (k_r c) in
    let c := sk_r r c in
    if negb ok then (sk_st XError c, PErr)
    else if l_handshaking L r then (sk_st XHand c, PPending)
    else kpoll_conn ready final false (sk_time true c).
  (** proxy/mod.rs:195-288 [poll] *)
  Definition kpoll (ready : list bool) (final : bool) (c : xc R) : xc R * pres :=
    match k_st c with
    | XInit | XHand => kpoll_hand ready final c
    | XConn sent => kpoll_conn ready final sent c
    | XFinal => kpoll_final ready final c
    | XError => (c, PErr)
    end.

  (** ** The loop *)
  Definition room (b : bytes) : N := (BUF_CAP - N.of_nat (length b))%N.
  (** prover.rs:399-454 [io_to_tls_client], its three parts *)
  Definition yfrom_app (v : px R) : option (px R) :=
    match y_up v with
    | [] =>
        Some (if y_up_end v && negb (y_client_closed v) && negb (y_server_closed v)
              then sy_c (sk_cc true (y_c v)) (sy_client_closed true v) else v)
    | b =>
        if k_wants_write (y_c v) then
          match k_write b (y_c v) with
          | None => None
          | Some (c, n) => Some (sy_up (drop n b) (sy_c c v))
          end
        else Some v
    end.
  Definition yfrom_socket (r : sread) (v : px R) : option (px R) :=
    match r with
    | RPending => Some v
    | RFail => None
    | REnd =>
        if full (y_rx v) || y_server_closed v then Some v
        else Some (ynote SockEnded (sy_server_closed true v))
    | RData b => let b := take (fit (y_rx v) (length b)) b in Some (ynote (SockGave b) (sy_rx (y_rx v ++ b) v))
    end.
  Definition yto_client (v : px R) : option (px R) :=
    match y_rx v with
    | [] => Some (if y_server_closed v then sy_c (sk_sc true (y_c v)) v else v)
    | b =>
        if l_wants_read L (k_r (y_c v)) then
          match k_read_tls b (y_c v) with
          | None => None
          | Some (c, n) => Some (sy_rx (drop n b) (sy_c c v))
          end
        else Some v
    end.
  (** prover.rs:456-506 [io_from_tls_client], its three parts *)
  Definition yfrom_client (v : px R) : option (px R) :=
    if full (y_tx v) then Some v
    else
      match k_write_tls (room (y_tx v)) (y_c v) with
      | None => None
      | Some (c, b) => Some (sy_tx (y_tx v ++ b) (sy_c c v))
      end.
  Definition yto_socket (w : swrite) (v : px R) : option (px R) :=
    match y_tx v, w with
    | [], _ => Some v
    | _, WTake n => Some (ynote (SockTook (take n (y_tx v))) (sy_tx (drop n (y_tx v)) v))
    | _, WFail => None
    | _, _ => Some v
    end.
  Definition yto_app (v : px R) : option (px R) :=
    if y_down_end v || full (y_down v) then Some v
    else if k_wants_read (y_c v) then
      match k_read (room (y_down v)) (y_c v) with
      | None => None
      | Some (c, b) => Some (sy_down (y_down v ++ b) (sy_c c v))
      end
    else Some v.
  Definition yhang_up (v : px R) : px R := if y_hup v then v else ynote HungUp (sy_hup true v).
  (** A step that fails leaves what the steps before it did. *)
  Definition orelse (v : px R) (o : option (px R)) (k : px R -> px R * pres) : px R * pres :=
    match o with Some v => k v | None => (v, PErr) end.
  (** prover.rs:296-317 [poll] *)
  Definition ypoll (n : input) (v : px R) : px R * pres :=
    orelse v (yfrom_app v) (fun v =>
    orelse v (yfrom_socket (n_read n) v) (fun v =>
    orelse v (yto_client v) (fun v =>
    let (c, r) := if y_output v then (y_c v, PPending) else kpoll (n_ready n) (n_final n) (y_c v) in
    let v := sy_c c v in
    match r with
    | PErr | PPanic | PHang => (v, r)
    | PPending | PReady =>
        let v := match r with PReady => sy_output true v | _ => v end in
        orelse v (yfrom_client v) (fun v =>
        orelse v (yto_socket (n_write n) v) (fun v =>
        orelse v (yto_app v) (fun v =>
        if y_server_closed v && y_output v then
          let v := yhang_up v in
          match n_close n with
          | CPending => (v, PPending)
          | CDone => (ynote SockClosed v, PReady)
          | CFail => (v, PErr)
          end
        else (v, PPending))))
    end))).

  (** future.rs:33-86 [poll], as in ConnModel.v *)
  Definition yfinishing (n : input) (good : bool) (v : px R) : fut * px R * pres :=
    if good then
      match n_ready n with
      | false :: _ => (FFinishing true, v, PPending)
      | _ => if n_final n then (FDone, v, PReady) else (FError, v, PErr)
      end
    else
      let v := yhang_up v in
      match n_close n with
      | CPending => (FFinishing false, v, PPending)
      | _ => (FError, ynote SockClosed v, PErr)
      end.
  Definition yfpoll (n : input) (s : fut * px R) : fut * px R * pres :=
    let (st, v) := s in
    match st with
    | FConnected =>
        match ypoll n v with
        | (v, PReady) => yfinishing n true v
        | (v, PErr) => yfinishing n false v
        | (v, PPending) => (FConnected, v, PPending)
        | (v, r) => (FDead, v, r)
        end
    | FFinishing good => yfinishing n good v
    | FDone | FError => (st, v, PErr)
    | FDead => (st, v, PPanic)
    end.

  (** proxy/mod.rs:106-120 and the start of a connection *)
  Definition px_new : px R :=
    Px (Xc r0 XInit false (TlsBytes [] [] [] []) false false []) [] false [] false [] [] false false false false [].
  Definition ydo_step (k : pstep) (s : fut * px R) : fut * px R * list pres :=
    let (st, v) := s in
    match k with
    | SWrite b =>
        if y_up_end v || y_hup v then (s, [])
        else let b := take (fit (y_up v) (length b)) b in ((st, ynote (AppWrote b) (sy_up (y_up v ++ b) v)), [])
    | SRead n =>
        if y_down_end v then (s, [])
        else ((st, ynote (AppGot (take n (y_down v))) (sy_down (drop n (y_down v)) v)), [])
    | SClose => ((st, if y_up_end v then v else ynote AppClosed (sy_up_end true v)), [])
    | SDrop => ((st, if y_down_end v then v else ynote AppDropped (sy_down_end true (sy_up_end true v))), [])
    | SPoll n => let '(s, r) := yfpoll n s in (s, [r])
    end.
  Fixpoint yplay (ks : list pstep) (s : fut * px R) : fut * px R * list pres :=
    match ks with
    | [] => (s, [])
    | k :: ks => let '(s, r) := ydo_step k s in let '(s, rs) := yplay ks s in (s, r ++ rs)
    end.
  Definition ybegin : fut * px R := (FConnected, px_new).
End Proxy.
