From Verif.Lib Require Import Base.
From Verif Require Import NameEncModel NameEncSpec.
Lemma bytes_len b b' x : (length b <= 253)%nat -> (length b' <= 253)%nat -> name_encode (PkiDns b) ++ x = name_encode (PkiDns b') -> b = b' /\ x = [].
Proof.
  intros H H' E. unfold name_encode in E.
  pose proof (f_equal (fun l => hd 0%N (tl l)) E) as E1. pose proof (f_equal (fun l => tl (tl l)) E) as E2. cbn [hd tl app] in E1, E2. clear E.
  rewrite !N.mod_small in E1 by lia. assert (length b = length b') as L by lia.
  assert (x = []) as ->. { apply (f_equal length) in E2. rewrite app_length in E2. destruct x; [done|cbn in E2; lia]. }
  by rewrite app_nil_r in E2.
Qed.
Lemma C92_prefix_lemma dns_ok s s' n n' x : dns_bounded dns_ok -> name_from dns_ok s = Some n -> name_from dns_ok s' = Some n' ->
  name_encode n ++ x = name_encode n' -> s = s' /\ n = n' /\ x = [].
Proof.
  intros Hb H H' E. unfold name_from in *. destruct (dns_ok s) eqn:D; [|done]. destruct (dns_ok s') eqn:D'; [|done].
  injection H as <-. injection H' as <-. destruct (bytes_len s s' x (Hb s D) (Hb s' D') E) as [-> ->]. done.
Qed.
Lemma C92_sni_lemma dns_ok s n : name_from dns_ok s = Some n -> dns_ok s = true /\ for_sni n = Some s.
Proof. unfold name_from. destruct (dns_ok s); [|done]. by intros [= <-]. Qed.
Lemma C92_made_lemma dns_ok s : dns_ok s = true -> exists n, name_from dns_ok s = Some n.
Proof. unfold name_from. intros ->. by eexists. Qed.
Lemma C92_case_lemma : exists dns_ok s s' n n', dns_bounded dns_ok /\ name_from dns_ok s = Some n /\ name_from dns_ok s' = Some n' /\
  same_name n n' /\ name_encode n <> name_encode n'.
Proof.
  exists (fun s => (length s =? 1)%nat), [65%N], [97%N], (PkiDns [65%N]), (PkiDns [97%N]).
  split; [intros s Hs; apply Nat.eqb_eq in Hs; lia|]. done.
Qed.
Lemma C92_kinds_lemma : exists n n', address_sized n /\ address_sized n' /\ ~ same_name n n' /\ name_encode n = name_encode n'.
Proof. exists (PkiDns [97; 98; 99; 100]%N), (PkiV4 [97; 98; 99; 100]%N). split; [cbn; lia|]. split; [done|]. split; [intros []|done]. Qed.
