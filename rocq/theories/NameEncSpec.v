(** Vocabulary for C92. *)
From Verif.Lib Require Import Base.
From Verif Require Import NameEncModel.
(** DNS names have at most 253 bytes; rustls_pki_types checks this (recalled, its source is not available here). *)
Definition dns_bounded (dns_ok : list N -> bool) : Prop := forall s, dns_ok s = true -> (length s <= 253)%nat.
(** ASCII letters in lower case. *)
Definition lower (b : N) : N := if ((65 <=? b) && (b <=? 90))%N then (b + 32)%N else b.
(** The equality of names of rustls_pki_types, which [ServerName] derives: DNS names are compared without regard to case
    (recalled, its source is not available here). *)
Definition same_name (a b : pki_name) : Prop :=
  match a, b with
  | PkiDns x, PkiDns y => map lower x = map lower y
  | PkiV4 x, PkiV4 y | PkiV6 x, PkiV6 y => x = y
  | _, _ => False
  end.
Definition address_sized (n : pki_name) : Prop :=
  match n with PkiDns b => (length b <= 253)%nat | PkiV4 b => length b = 4%nat | PkiV6 b => length b = 16%nat end.
