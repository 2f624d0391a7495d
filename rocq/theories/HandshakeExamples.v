(** A handshake for the examples beside the theorems C60. *)
From Verif.Lib Require Import Base.
From Verif Require Import CodecModel CodecSpec AttestModel TlsModel TlsSpec TlsExamples HandshakeModel HandshakeSpec.

(** A handshake with extensions, carried in records of five bytes. *)
Definition ex_dns (b : list N) : bool := bool_decide (b <> []).
Definition ex_ch : client_hello := ClientHello 0x0303 (replicate 32 1%N) (replicate 32 2%N) [0xc02f; 0xc02b]%N [0%N]
  [CxServerName [HostName [97;46;98]%N]; CxGroups [23%N]; CxEms; CxSigAlgs [0x0401; 0x0403]%N; CxTicketRequest;
   CxStatus (OcspRequest [] []); CxUnknown 0x1234 [7%N]].
Definition ex_sh : server_hello := ServerHello 0x0303 (replicate 32 3%N) [] 0xc02f 0 [SxRenegotiation []; SxEms; SxTicket].
Definition ex_client : list handshake := [HClientHello ex_ch; HClientKeyExchange [9;9]%N].
Definition ex_server : list handshake :=
  [HServerHello ex_sh; HCertificate [[6%N]; [8;8]%N]; HServerKeyExchange ex_ske; HServerHelloDone; HTicket (Ticket 300 [5;5]%N)].
Definition ex_full : full_handshake :=
  FullHandshake (hs_body (HClientHello ex_ch)) (map (fun x => (hs_type x, hs_body x)) (take 3 ex_server)) [] [9;9]%N []
    [(4%N, hs_body (HTicket (Ticket 300 [5;5]%N)))].

Ltac fields := cbn [ex_client ex_server ex_ch ex_sh client_ext_ok server_ext_ok names_ok];
  repeat first
  [ lazymatch goal with
    | |- _ /\ _ => split
    | |- True => exact I
    | |- Forall _ [] => apply Forall_nil_2
    | |- Forall _ (_ :: _) => apply Forall_cons; split
    | |- Forall _ _ => progress cbn
    | |- pay_ok _ _ => apply N.ltb_lt; vm_compute; reflexivity
    | |- int_ok _ _ => apply N.ltb_lt; vm_compute; reflexivity
    | |- sid_ok _ => apply Nat.leb_le; vm_compute; reflexivity
    | |- (_ <= _)%N => apply N.leb_le; vm_compute; reflexivity
    | |- _ ∉ _ => apply (bool_decide_unpack _); vm_compute; exact I
    | |- _ = _ => reflexivity
    | |- _ <> _ => discriminate
    | |- _ -> _ => intros ?
    | |- vec_ok _ _ _ _ => split
    | |- vec_limited _ _ _ _ _ => split
    | |- client_ext_ok _ _ => split
    | |- server_ext_ok _ => split
    | |- server_hello_ok _ => unfold server_hello_ok, ex_sh; cbn [sh_version sh_random sh_sid sh_suite sh_compression sh_exts]
    | |- client_hello_ok _ _ => unfold client_hello_ok, ex_ch; cbn [ch_version ch_random ch_sid ch_suites ch_compressions ch_exts]
    | |- status_ok _ => split
    | |- names_ok _ _ => cbn [names_ok]
    end ].
