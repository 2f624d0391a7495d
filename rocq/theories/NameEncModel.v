(** Model of [ServerName] of crates/tls-core/src/dns.rs. *)
From Verif.Lib Require Import Base.
(** dns.rs:29: what it wraps, [rustls_pki_types::ServerName]: the bytes of a DNS name, or an address of 4 or 16 bytes. *)
Inductive pki_name := PkiDns (b : list N) | PkiV4 (b : list N) | PkiV6 (b : list N).
(** dns.rs:42-61 [encode]; [as u8] keeps the low byte. *)
Definition name_encode (n : pki_name) : list N :=
  let b := match n with PkiDns b => b | PkiV4 b => b | PkiV6 b => b end in
  1%N :: (N.of_nat (length b) mod 256)%N :: b.
(** dns.rs:35-40 [for_sni] *)
Definition for_sni (n : pki_name) : option (list N) := match n with PkiDns b => Some b | _ => None end.
Section from.
(** [DnsName::try_from] of rustls_pki_types: whether the text is a DNS name. *)
Context (dns_ok : list N -> bool).
(** dns.rs:71-79 [TryFrom<&str>]: the only way in which users make one. *)
Definition name_from (s : list N) : option pki_name := if dns_ok s then Some (PkiDns s) else None.
End from.
