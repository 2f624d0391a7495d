(** Theorems C92 about the encoding of names of servers. The vocabulary is in NameEncSpec.v, the model is NameEncModel.v. *)
From Verif.Lib Require Import Base.
From Verif Require Import NameEncModel NameEncSpec NameEncLemmas.

(** No encoding of a name made from a text is the start of that of another one; so it has one encoding that no other has. *)
Theorem C92_encoding_is_prefix_free : forall dns_ok s s' n n' x, dns_bounded dns_ok ->
  name_from dns_ok s = Some n -> name_from dns_ok s' = Some n' -> name_encode n ++ x = name_encode n' -> s = s' /\ n = n' /\ x = [].
Proof. exact C92_prefix_lemma. Qed.
Print Assumptions C92_encoding_is_prefix_free.
(** The name that is sent to the server is the text, which is a DNS name; every DNS name can be made. *)
Theorem C92_text_is_sent : forall dns_ok s n, name_from dns_ok s = Some n -> dns_ok s = true /\ for_sni n = Some s.
Proof. exact C92_sni_lemma. Qed.
Print Assumptions C92_text_is_sent.
Theorem C92_dns_names_are_made : forall dns_ok s, dns_ok s = true -> exists n, name_from dns_ok s = Some n.
Proof. exact C92_made_lemma. Qed.
Print Assumptions C92_dns_names_are_made.
(** Names that are equal do not have equal encodings: equality disregards case, the encoding does not. *)
Theorem C92_equal_names_have_equal_encodings_refuted : exists dns_ok s s' n n', dns_bounded dns_ok /\
  name_from dns_ok s = Some n /\ name_from dns_ok s' = Some n' /\ same_name n n' /\ name_encode n <> name_encode n'.
Proof. exact C92_case_lemma. Qed.
Print Assumptions C92_equal_names_have_equal_encodings_refuted.
(** Names of different kinds can have equal encodings: addresses get the code of DNS names. (Users cannot make a name that is an address.) *)
Theorem C92_kinds_are_separated_refuted : exists n n', address_sized n /\ address_sized n' /\ ~ same_name n n' /\ name_encode n = name_encode n'.
Proof. exact C92_kinds_lemma. Qed.
Print Assumptions C92_kinds_are_separated_refuted.
(** Two names, one the start of the other. *)
Example C92_ex : dns_bounded (fun s => (length s <=? 253)%nat) /\
  name_from (fun s => (length s <=? 253)%nat) [97; 46; 99; 111]%N = Some (PkiDns [97; 46; 99; 111]%N) /\
  name_encode (PkiDns [97; 46; 99; 111]%N) = [1; 4; 97; 46; 99; 111]%N /\ name_encode (PkiDns [97; 46; 99; 111; 109]%N) = [1; 5; 97; 46; 99; 111; 109]%N.
Proof. split; [intros s Hs; by apply Nat.leb_le in Hs|]. done. Qed.
