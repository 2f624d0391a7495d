From Verif.Lib Require Import Base.
From Verif Require Import KeyModel KeySpec.
Local Open Scope N_scope.

Lemma be_value_snoc l b : be_value (l ++ [b]) = be_value l * 256 + b.
Proof. unfold be_value. by rewrite fold_left_app. Qed.
Lemma be_value_app_lt l : bytes_ok l -> be_value l < 256 ^ N.of_nat (length l).
Proof.
  induction l as [|b l IH] using rev_ind; intros H; [vm_compute; reflexivity|].
  apply Forall_app in H as [H1 H2]. apply Forall_inv in H2. unfold byte_ok in H2. specialize (IH H1).
  rewrite be_value_snoc, app_length. simpl length. rewrite Nat2N.inj_add, N.pow_add_r. change (256 ^ N.of_nat 1) with 256. nia.
Qed.
Lemma be_value_inj l l' : length l = length l' -> bytes_ok l -> bytes_ok l' -> be_value l = be_value l' -> l = l'.
Proof.
  revert l'. induction l as [|b l IH] using rev_ind; intros l' Hl Hb Hb' Hv; [by destruct l'|].
  destruct l' as [|b' l' _] using rev_ind; [rewrite app_length in Hl; simpl in Hl; lia|].
  rewrite !app_length in Hl. simpl in Hl. rewrite !be_value_snoc in Hv.
  apply Forall_app in Hb as [Hb1 Hb2]. apply Forall_app in Hb' as [Hb1' Hb2'].
  apply Forall_inv in Hb2, Hb2'. unfold byte_ok in *.
  assert (be_value l = be_value l' /\ b = b') as [Hv' ->] by lia.
  f_equal. apply IH; [lia|done..].
Qed.

Lemma len_loop_ok : forall f left b0 rest, left < 256 ^ N.of_nat f -> left <> 0 -> b0 + N.of_nat f <= 255 ->
  exists b bs, len_loop (S f) left (b0 :: rest) = Ok (b0 + N.of_nat (length (b :: bs)) :: (b :: bs) ++ rest) /\
    (length (b :: bs) <= f)%nat /\ bytes_ok (b :: bs) /\ b <> 0 /\ be_value (b :: bs) = left.
Proof.
  induction f as [|f IH]; intros left b0 rest Hl Hn Hb.
  { change (256 ^ N.of_nat 0) with 1 in Hl. lia. }
  rewrite Nat2N.inj_succ, N.pow_succ_r' in Hl.
  remember (S f) as sf eqn:Hsf. cbn [len_loop].
  rewrite (proj2 (N.eqb_neq left 0) Hn). rewrite (proj2 (N.ltb_ge 255 (b0 + 1))) by lia.
  rewrite N.shiftr_div_pow2. change (2 ^ 8) with 256. change 255 with (N.ones 8). rewrite N.land_ones. change (2 ^ 8) with 256.
  pose proof (N.div_mod left 256 ltac:(lia)) as Hd. pose proof (N.mod_lt left 256 ltac:(lia)) as Hm.
  destruct (N.eq_dec (left / 256) 0) as [Hz|Hz].
  - subst sf. rewrite Hz. cbn [len_loop]. change (0 =? 0) with true. cbv iota.
    exists (left mod 256), []. split_and!.
    + reflexivity.
    + simpl. lia.
    + constructor; [exact Hm|constructor].
    + lia.
    + unfold be_value. cbn [fold_left]. lia.
  - assert (Hlt : left / 256 < 256 ^ N.of_nat f) by (apply N.div_lt_upper_bound; lia).
    destruct f as [|f'].
    { change (256 ^ N.of_nat 0) with 1 in Hlt. lia. }
    destruct (IH (left / 256) (b0 + 1) (left mod 256 :: rest) Hlt Hz) as (b & bs & He & Hlen & Hok & Hnz & Hv); [lia|].
    exists b, (bs ++ [left mod 256]). subst sf. rewrite He. split_and!.
    + f_equal. simpl length. rewrite app_length. simpl length. f_equal; [lia|]. simpl. f_equal. by rewrite <-app_assoc.
    + simpl in *. rewrite app_length. simpl. lia.
    + rewrite app_comm_cons. apply Forall_app. split; [exact Hok|]. constructor; [exact Hm|constructor].
    + exact Hnz.
    + rewrite app_comm_cons, be_value_snoc, Hv. lia.
Qed.

Lemma wrap_len_ok l : N.of_nat (length l) < 2 ^ 64 ->
  exists h, wrap_in_asn1_len l = Ok (h ++ l) /\ der_length h (N.of_nat (length l)) /\ (length h <= 9)%nat.
Proof.
  intros H. unfold wrap_in_asn1_len.
  destruct (N.leb_spec (N.of_nat (length l)) 127) as [Hs|Hs].
  - exists [N.of_nat (length l)]. split_and!; [done| |simpl; lia]. left. split; [lia|done].
  - destruct (len_loop_ok 8 (N.of_nat (length l)) 128 l) as (b & bs & He & Hlen & Hok & Hnz & Hv); [exact H|lia|simpl; lia|].
    exists (128 + N.of_nat (length (b :: bs)) :: b :: bs). rewrite He. clear He. split; [reflexivity|]. split; [|cbn [length] in *; lia].
    right. split; [lia|]. exists b, bs. split; [reflexivity|]. split; [lia|]. exact (conj Hok (conj Hnz Hv)).
Qed.
Lemma wrap_seq_ok l : N.of_nat (length l) < 2 ^ 64 -> exists w, wrap_in_sequence l = Ok w /\ der_value 48 l w /\ (length w <= length l + 10)%nat.
Proof.
  intros H. destruct (wrap_len_ok l H) as (h & He & Hd & Hl). exists (48 :: h ++ l). unfold wrap_in_sequence. rewrite He. split_and!; [done| |].
  - by exists h.
  - simpl. rewrite app_length. lia.
Qed.

(** Reading a length back. *)
Lemma der_length_prefix h h' n n' r r' : der_length h n -> der_length h' n' -> h ++ r = h' ++ r' -> h = h' /\ n = n' /\ r = r'.
Proof.
  intros [[Hn ->]|(Hn & b & bs & -> & Hl & Hok & Hz & Hv)] [[Hn' ->]|(Hn' & b' & bs' & -> & Hl' & Hok' & Hz' & Hv')] He.
  - simplify_eq/=. done.
  - exfalso. cbn [app] in He. pose proof (f_equal (hd 0) He) as He1. cbn [hd] in He1. lia.
  - exfalso. cbn [app] in He. pose proof (f_equal (hd 0) He) as He1. cbn [hd] in He1. lia.
  - cbn [app] in He. pose proof (f_equal (hd 0) He) as He1. pose proof (f_equal (@tl N) He) as Heq0. cbn [hd tl] in He1, Heq0.
    assert (Hlen : length (b :: bs) = length (b' :: bs')) by lia.
    assert (Heq : (b :: bs) ++ r = (b' :: bs') ++ r') by exact Heq0.
    apply app_inj_1 in Heq as [Heq Hr]; [|done]. split_and!; [congruence|congruence|done].
Qed.
Lemma der_value_prefix t t' c c' w w' r r' : der_value t c w -> der_value t' c' w' -> w ++ r = w' ++ r' -> t = t' /\ c = c' /\ r = r'.
Proof.
  intros (h & -> & Hh) (h' & -> & Hh') He. cbn [app] in He. injection He as -> He. rewrite <-!app_assoc in He.
  destruct (der_length_prefix _ _ _ _ _ _ Hh Hh' He) as (-> & Hn & He').
  apply app_inj_1 in He' as [-> ->]; [done|lia].
Qed.

Lemma C87_value_lemma l : N.of_nat (length l) < 2 ^ 64 -> exists w, wrap_in_sequence l = Ok w /\ der_value 48 l w.
Proof. intros H. destruct (wrap_seq_ok l H) as (w & ? & ? & ?). by exists w. Qed.
Lemma C87_subjects_lemma roots : Forall (fun s => N.of_nat (length s) < 2 ^ 64) roots ->
  exists names, subjects roots = Ok names /\ Forall2 (der_value 48) roots names.
Proof.
  induction 1 as [|s roots Hs _ (names & He & Hf)]; [by exists []|].
  destruct (wrap_seq_ok s Hs) as (w & Hw & Hd & _). exists (w :: names). cbn [subjects]. rewrite Hw. cbn [obind]. rewrite He. split; [done|].
  by constructor.
Qed.
Lemma C87_distinct_lemma roots roots' names : Forall (fun s => N.of_nat (length s) < 2 ^ 64) roots ->
  Forall (fun s => N.of_nat (length s) < 2 ^ 64) roots' -> subjects roots = Ok names -> subjects roots' = Ok names -> roots = roots'.
Proof.
  intros H H' He He'. destruct (C87_subjects_lemma _ H) as (n1 & E1 & F1). destruct (C87_subjects_lemma _ H') as (n2 & E2 & F2).
  assert (n1 = names) as -> by congruence. assert (n2 = names) as -> by congruence. clear -F1 F2.
  revert roots' F2. induction F1 as [|s w roots names Hd _ IH]; intros roots' F2; inversion F2 as [|s' ? roots'' ? Hd' F2']; subst; [done|].
  destruct (der_value_prefix _ _ _ _ _ _ [] [] Hd Hd' eq_refl) as (_ & -> & _). f_equal. by apply IH.
Qed.

Lemma oid_number_small n : n < 128 -> oid_number n [n].
Proof.
  intros H. exists [], n. split_and!; [done|done|constructor| |].
  - unfold base128. cbn [fold_left]. rewrite N.mod_small; lia.
  - simpl. lia.
Qed.
Ltac oidn := lazymatch goal with
  | |- oid_number ?n [?n] => apply oid_number_small; reflexivity
  | |- oid_number _ [?a; ?b] => exists [a], b; split_and!; [done|done|repeat constructor; lia|reflexivity|simpl; lia]
  end.
Lemma oid_ec : oid_is [1; 2; 840; 10045; 2; 1] [42;134;72;206;61;2;1].
Proof. exists 1, 2, [840; 10045; 2; 1], [[42];[134;72];[206;61];[2];[1]]. split_and!; [done|done|]. change (40 * 1 + 2) with 42. repeat constructor; oidn. Qed.
Lemma oid_p256 : oid_is [1; 2; 840; 10045; 3; 1; 7] [42;134;72;206;61;3;1;7].
Proof. exists 1, 2, [840; 10045; 3; 1; 7], [[42];[134;72];[206;61];[3];[1];[7]]. split_and!; [done|done|]. change (40 * 1 + 2) with 42. repeat constructor; oidn. Qed.
Lemma oid_p384 : oid_is [1; 3; 132; 0; 34] [43;129;4;0;34].
Proof. exists 1, 3, [132; 0; 34], [[43];[129;4];[0];[34]]. split_and!; [done|done|]. change (40 * 1 + 3) with 43. repeat constructor; oidn. Qed.

Lemma der_small t c : (length c < 128)%nat -> der_value t c (t :: N.of_nat (length c) :: c).
Proof. intros H. exists [N.of_nat (length c)]. split; [done|]. left. split; [lia|done]. Qed.

Definition scheme_of (a : ec_alg) : N := match a with EcP256Sha256 => 1027 | EcP384Sha384 => 1283 end.
Lemma sec1_ok a der : N.of_nat (length der) < 2 ^ 63 -> exists w, sec1_to_pkcs8 (scheme_of a) der = Ok w /\ pkcs8_of a der w.
Proof.
  intros H. destruct (wrap_len_ok der) as (h & He & Hd & Hl). { eapply N.lt_trans; [exact H|reflexivity]. }
  set (prefix := match a with EcP256Sha256 => prefix_p256 | EcP384Sha384 => prefix_p384 end).
  assert (Hp : (length prefix <= 24)%nat) by (destruct a; vm_compute; lia).
  destruct (wrap_seq_ok (prefix ++ 4 :: h ++ der)) as (w & Hw & Hv & _).
  { rewrite app_length. simpl length. rewrite app_length. change (2 ^ 64) with (2 ^ 63 + 2 ^ 63). assert (2 ^ 63 > 100) by reflexivity. lia. }
  exists w. split.
  - unfold sec1_to_pkcs8. rewrite He. destruct a; cbn [scheme_of]; exact Hw.
  - set (o2 := match a with EcP256Sha256 => [42;134;72;206;61;3;1;7] | EcP384Sha384 => [43;129;4;0;34] end).
    set (alg_oid := [6;7;42;134;72;206;61;2;1]). set (curve := 6 :: N.of_nat (length o2) :: o2).
    exists [2;1;0], alg_oid, curve, (48 :: N.of_nat (length (alg_oid ++ curve)) :: alg_oid ++ curve), (4 :: h ++ der), [42;134;72;206;61;2;1], o2.
    split_and!.
    + exact (der_small 2 [0] ltac:(simpl; lia)).
    + exact oid_ec.
    + exact (der_small 6 [42;134;72;206;61;2;1] ltac:(simpl; lia)).
    + destruct a; [exact oid_p256|exact oid_p384].
    + apply der_small. destruct a; simpl; lia.
    + unfold der_sequence. cbn [concat]. rewrite app_nil_r. apply der_small. destruct a; simpl; lia.
    + by exists h.
    + unfold der_sequence. cbn [concat]. rewrite app_nil_r.
      assert (prefix = [2;1;0] ++ 48 :: N.of_nat (length (alg_oid ++ curve)) :: alg_oid ++ curve) as Hpe by (destruct a; vm_compute; reflexivity).
      rewrite Hpe in Hv. rewrite <-app_assoc in Hv. exact Hv.
Qed.

Section keys.
Context {RK EK DK : Type}.
Context (rsa_from_der rsa_from_pkcs8 : list N -> option RK) (ec_from_pkcs8 : ec_alg -> list N -> option EK)
        (ed_from_pkcs8 : list N -> option DK).
Notation load := (any_supported_type rsa_from_der rsa_from_pkcs8 ec_from_pkcs8 ed_from_pkcs8).

Lemma C88_load_lemma der : N.of_nat (length der) < 2 ^ 63 ->
  exists d256 d384, pkcs8_of EcP256Sha256 der d256 /\ pkcs8_of EcP384Sha384 der d384 /\
    load der = Ok (first_some
      [RsaKey <$> rsa_from_der der; RsaKey <$> rsa_from_pkcs8 der;
       EcKey 0x0403 EcP256Sha256 <$> ec_from_pkcs8 EcP256Sha256 der; EcKey 0x0403 EcP256Sha256 <$> ec_from_pkcs8 EcP256Sha256 d256;
       EcKey 0x0503 EcP384Sha384 <$> ec_from_pkcs8 EcP384Sha384 der; EcKey 0x0503 EcP384Sha384 <$> ec_from_pkcs8 EcP384Sha384 d384;
       EdKey 0x0807 <$> ed_from_pkcs8 der]).
Proof.
  intros H. destruct (sec1_ok EcP256Sha256 der H) as (d1 & E1 & P1). destruct (sec1_ok EcP384Sha384 der H) as (d2 & E2 & P2).
  exists d1, d2. split_and!; [done|done|]. cbn [scheme_of] in E1, E2.
  unfold any_supported_type, any_ecdsa_type, ecdsa_new, rsa_new, any_eddsa_type. rewrite E1, E2. cbn [obind].
  destruct (rsa_from_der der); [done|]. destruct (rsa_from_pkcs8 der); [done|].
  destruct (ec_from_pkcs8 EcP256Sha256 der); [done|]. cbn [obind]. destruct (ec_from_pkcs8 EcP256Sha256 d1); [done|]. cbn [obind].
  destruct (ec_from_pkcs8 EcP384Sha384 der); [done|]. cbn [obind]. destruct (ec_from_pkcs8 EcP384Sha384 d2); [done|].
  by destruct (ed_from_pkcs8 der).
Qed.

Lemma contains_spec l s : contains l s = true <-> s ∈ l.
Proof.
  induction l as [|o l IH]; cbn [contains]; [split; [done|by intros ?%elem_of_nil]|].
  rewrite orb_true_iff, IH, N.eqb_eq, elem_of_cons. intuition congruence.
Qed.
Lemma contains_false l s : contains l s = false -> s ∉ l.
Proof. intros H Hin. apply contains_spec in Hin. congruence. Qed.

(** Keys that loading gives. *)
Definition wf_key (k : signing_key RK EK DK) : Prop :=
  match k with RsaKey _ => True | EcKey s a _ => s = scheme_of a | EdKey s _ => s = 2055 end.
Lemma load_wf der k : load der = Ok (Some k) -> wf_key k.
Proof.
  unfold any_supported_type, rsa_new. destruct (rsa_from_der der); [by intros [= <-]|]. destruct (rsa_from_pkcs8 der); [by intros [= <-]|].
  unfold any_ecdsa_type, ecdsa_new.
  destruct (ec_from_pkcs8 EcP256Sha256 der); [by intros [= <-]|].
  destruct (sec1_to_pkcs8 1027 der) as [d1|[]|]; [|done]. cbn [obind]. destruct (ec_from_pkcs8 EcP256Sha256 d1); [by intros [= <-]|].
  destruct (ec_from_pkcs8 EcP384Sha384 der); [by intros [= <-]|]. cbn [obind].
  destruct (sec1_to_pkcs8 1283 der) as [d2|[]|]; [|done]. cbn [obind]. destruct (ec_from_pkcs8 EcP384Sha384 d2); [by intros [= <-]|].
  unfold any_eddsa_type. destruct (ed_from_pkcs8 der); [by intros [= <-]|done].
Qed.

Ltac means H := unfold scheme_means in H; repeat (apply elem_of_cons in H as [H|H]; [injection H as -> ->|]); [..|by apply elem_of_nil in H].
Ltac inlist := unfold scheme_means; repeat (first [apply elem_of_list_here|apply elem_of_list_further]).

Lemma choose_ok k offered : wf_key k ->
  exists r, choose_scheme k offered = Ok r /\
  match r with
  | Some sg => sg_scheme sg ∈ offered /\ exists a, scheme_means (sg_scheme sg) a /\ key_does k a /\ signs_by k a (sg_ring sg) /\
      forall s' a', s' ∈ offered -> scheme_means s' a' -> key_does k a' -> not_preferred a' a
  | None => forall s a, s ∈ offered -> scheme_means s a -> ~ key_does k a
  end.
Proof.
  intros Hwf. destruct k as [k|s al k|s k]; cbn [choose_scheme].
  - unfold all_rsa_schemes. cbn [List.find].
    destruct (contains offered 2054) eqn:E1; [|destruct (contains offered 2053) eqn:E2; [|destruct (contains offered 2052) eqn:E3;
      [|destruct (contains offered 1537) eqn:E4; [|destruct (contains offered 1281) eqn:E5; [|destruct (contains offered 1025) eqn:E6]]]]].
    all: repeat match goal with H : contains _ _ = true |- _ => apply contains_spec in H | H : contains _ _ = false |- _ => apply contains_false in H end.
    all: eexists; split; [cbn; reflexivity|]; cbv beta iota; cbn [sg_scheme sg_ring].
    1-6: split; [done|]; eexists; split; [inlist|]; split; [by eexists|]; split; [reflexivity|].
    1-6: intros s' a' Hin Hm Hk; means Hm; try done; try (vm_compute; congruence); try (destruct Hk as [? [=]]).
    intros s' a' Hin Hm Hk. means Hm; try done; destruct Hk as [? [=]].
  - cbn [wf_key] in Hwf. subst s. destruct (contains offered (scheme_of al)) eqn:E; eexists; (split; [reflexivity|]).
    + apply contains_spec in E. cbn [sg_scheme sg_ring]. split; [done|]. exists (AlgEcdsa al). split; [destruct al; inlist|].
      split; [done|]. split; [done|]. intros s' a' _ _ ->. done.
    + apply contains_false in E. intros s' a' Hin Hm Hk. means Hm; cbn [key_does] in Hk; try done; injection Hk as <-; done.
  - cbn [wf_key] in Hwf. subst s. destruct (contains offered 2055) eqn:E; eexists; (split; [reflexivity|]).
    + apply contains_spec in E. cbn [sg_scheme sg_ring]. split; [done|]. exists AlgEd25519. split; [inlist|].
      split; [done|]. split; [done|]. intros s' a' _ _ ->. done.
    + apply contains_false in E. intros s' a' Hin Hm Hk. means Hm; cbn [key_does] in Hk; done.
Qed.

Lemma C88_choose_lemma der k offered : load der = Ok (Some k) ->
  exists r, choose_scheme k offered = Ok r /\
  match r with
  | Some sg => sg_scheme sg ∈ offered /\ exists a, scheme_means (sg_scheme sg) a /\ key_does k a /\ signs_by k a (sg_ring sg) /\
      forall s' a', s' ∈ offered -> scheme_means s' a' -> key_does k a' -> not_preferred a' a
  | None => forall s a, s ∈ offered -> scheme_means s a -> ~ key_does k a
  end.
Proof. intros H. exact (choose_ok k offered (load_wf der k H)). Qed.

Lemma C88_auth_lemma auth issuers schemes cfg :
  client_auth_config rsa_from_der rsa_from_pkcs8 ec_from_pkcs8 ed_from_pkcs8 auth = Ok cfg ->
  exists a, resolve cfg issuers schemes = Ok a /\
  match auth with
  | None => auth_messages a = ([], None)
  | Some (chain, der) => exists k, load der = Ok (Some k) /\
      ((exists sg al, sg_scheme sg ∈ schemes /\ scheme_means (sg_scheme sg) al /\ key_does k al /\ signs_by k al (sg_ring sg) /\
          auth_messages a = (chain, Some sg)) \/
       ((forall s al, s ∈ schemes -> scheme_means s al -> ~ key_does k al) /\ auth_messages a = ([], None)))
  end.
Proof.
  intros H. destruct auth as [[chain der]|]; cbn [client_auth_config] in H.
  - destruct (load der) as [[k|]|[]|] eqn:E; [|done|done]. injection H as <-.
    destruct (choose_ok k schemes (load_wf der k E)) as (r & Hr & Hs). cbn [resolve]. rewrite Hr. cbn [obind]. eexists. split; [reflexivity|].
    exists k. split; [done|]. destruct r as [sg|]; cbn [auth_messages].
    + left. destruct Hs as (Hin & a & Ha & Hk & Hby & _). exists sg, a. exact (conj Hin (conj Ha (conj Hk (conj Hby eq_refl)))).
    + right. exact (conj Hs eq_refl).
  - injection H as <-. exists AuthEmpty. done.
Qed.
End keys.

Lemma C87_back_lemma l l' w w' r r' : N.of_nat (length l) < 2 ^ 64 -> N.of_nat (length l') < 2 ^ 64 ->
  wrap_in_sequence l = Ok w -> wrap_in_sequence l' = Ok w' -> w ++ r = w' ++ r' -> l = l' /\ r = r'.
Proof.
  intros H H' E E' He. destruct (wrap_seq_ok l H) as (w1 & E1 & D1 & _). destruct (wrap_seq_ok l' H') as (w2 & E2 & D2 & _).
  assert (w1 = w) as -> by congruence. assert (w2 = w') as -> by congruence.
  by destruct (der_value_prefix _ _ _ _ _ _ _ _ D1 D2 He) as (_ & ? & ?).
Qed.

Lemma C88_chain_lemma : ~ (forall (RK EK DK : Type) (f1 f2 : list N -> option RK) (f3 : ec_alg -> list N -> option EK) (f4 : list N -> option DK)
    auth issuers schemes cfg a certs sg,
  client_auth_config f1 f2 f3 f4 auth = Ok cfg -> resolve cfg issuers schemes = Ok a -> auth_messages a = (certs, Some sg) -> certs <> []).
Proof.
  intros H.
  exact (H unit unit unit (fun _ => Some tt) (fun _ => None) (fun _ _ => None) (fun _ => None) (Some ([], [7])) [] [1025]
    (Some ([], RsaKey tt)) (AuthVerify [] (Signer 1025 (SignRsa tt (RsaPkcs1 256)))) [] (Signer 1025 (SignRsa tt (RsaPkcs1 256)))
    eq_refl eq_refl eq_refl eq_refl).
Qed.

(** A library that reads one key on P-256, and only in a private key document. *)
Definition k_sec1 : list N := [48; 3; 2; 1; 1].
Definition k_doc : list N :=
  [48; 31; 2;1;0; 48;19; 6;7;42;134;72;206;61;2;1; 6;8;42;134;72;206;61;3;1;7; 4; 5; 48; 3; 2; 1; 1].
Definition k_ec (a : ec_alg) (d : list N) : option N :=
  match a with EcP256Sha256 => if bool_decide (d = k_doc) then Some 5 else None | _ => None end.
