From Coq Require Import ZArith.
From Verif.Lib Require Import Base.
From Verif Require Import CodecModel CodecLemmas RecordModel PrfModel PrfVmLemmas VdCheckLemmas KeyExchangeModel KeyExchangeSpec
  KeyExchangeLemmas.
Local Opaque p256 P_bytes share_bytes.
Local Arguments vm_assign : simpl never.
Local Arguments derive_x_coord_shares : simpl never.
Local Arguments pmul : simpl never.

(** ** The group *)
Section Group.
  Context {point : Type} (padd : point -> point -> point) (pzero : point) (coords : point -> option (Z * Z)).
  Context (Hcurve : curve_ok padd pzero coords).
  Local Notation pmul := (pmul padd pzero).
  Local Notation "a ⊕ b" := (padd a b) (at level 50, left associativity).
  Lemma pmul_0 q : pmul 0 q = pzero.
  Proof. done. Qed.
  Lemma pmul_succ k q : pmul (N.succ k) q = q ⊕ pmul k q.
  Proof. unfold KeyExchangeModel.pmul. by rewrite N.iter_succ. Qed.
  Lemma pmul_add a b q : pmul (a + b)%N q = pmul a q ⊕ pmul b q.
  Proof.
    induction a as [|a IH] using N.peano_ind.
    - rewrite pmul_0, (curve_zero _ _ _ Hcurve). done.
    - rewrite N.add_succ_l, !pmul_succ, IH. apply (curve_assoc _ _ _ Hcurve).
  Qed.
  Lemma pmul_sum k q r : pmul k (q ⊕ r) = pmul k q ⊕ pmul k r.
  Proof.
    induction k as [|k IH] using N.peano_ind.
    - rewrite !pmul_0, (curve_zero _ _ _ Hcurve). done.
    - rewrite !pmul_succ, IH. rewrite <- !(curve_assoc _ _ _ Hcurve). f_equal.
      rewrite !(curve_assoc _ _ _ Hcurve). f_equal. apply (curve_comm _ _ _ Hcurve).
  Qed.
  Lemma pmul_mul a b q : pmul (a * b)%N q = pmul a (pmul b q).
  Proof.
    induction a as [|a IH] using N.peano_ind.
    - by rewrite N.mul_0_l, !pmul_0.
    - rewrite N.mul_succ_l, pmul_succ, N.add_comm, pmul_add, IH. done.
  Qed.
  Lemma pmul_comm a b q : pmul a (pmul b q) = pmul b (pmul a q).
  Proof. by rewrite <- !pmul_mul, N.mul_comm. Qed.
  Lemma pmul_zero k : pmul k pzero = pzero.
  Proof.
    induction k as [|k IH] using N.peano_ind; [done|]. by rewrite pmul_succ, IH, (curve_zero _ _ _ Hcurve).
  Qed.
  (** The server's view of the exchange. *)
  Lemma shared_secret kl kf ks base ql qf :
    coords (pmul kl (pmul ks base)) = Some ql -> coords (pmul kf (pmul ks base)) = Some qf -> ql.1 <> qf.1 ->
    pmul kl base ⊕ pmul kf base <> pzero /\
    exists x y, coords (pmul ks (pmul kl base ⊕ pmul kf base)) = Some (x, y) /\ sum_x ql qf x.
  Proof.
    intros Hl Hf Hne. destruct (curve_sum _ _ _ Hcurve _ _ _ _ Hl Hf Hne) as (x & y & Hs & Hx). split.
    - intros H. apply (f_equal (pmul ks)) in H. rewrite pmul_sum, pmul_zero, (pmul_comm ks kl), (pmul_comm ks kf) in H.
      rewrite H in Hs. by rewrite (proj2 (curve_identity _ _ _ Hcurve pzero) eq_refl) in Hs.
    - exists x, y. by rewrite pmul_sum, (pmul_comm ks kl), (pmul_comm ks kf).
  Qed.
End Group.

(** ** Histories *)
Section Run.
  Context {point : Type} (padd : point -> point -> point) (pzero : point) (coords : point -> option (Z * Z)) (base : point).
  Context (cv0 cv1 : converter).
  Context (kl kf : N).
  Local Notation call := (ke_call (point := point)).
  Local Notation pmul := (pmul padd pzero).
  Local Notation ke_step := (ke_step padd pzero coords base cv0 cv1).
  Local Notation ke_run := (ke_run padd pzero coords base cv0 cv1).
  Definition private (r : role) : N := match r with Leader => kl | Follower => kf end.

  Lemma ok_at_snoc (cs : list call) os c o i x v : length os = length cs ->
    ok_at (cs ++ [c]) (os ++ [o]) i x v <-> ok_at cs os i x v \/ (i = length cs /\ c = x /\ o = Ok v).
  Proof.
    intros Hl. unfold ok_at. destruct (lt_eq_lt_dec i (length cs)) as [[Hi| ->]|Hi].
    - rewrite !lookup_app_l by lia. split; [by left|]. intros [?|[? _]]; [done|lia].
    - rewrite !lookup_app_r by lia. rewrite Hl, Nat.sub_diag. cbn. split.
      + intros [[= ->] [= ->]]. by right.
      + intros [[H _]|(_ & -> & ->)]; [|done]. apply lookup_lt_Some in H. lia.
    - rewrite !lookup_ge_None_2 by (rewrite app_length; cbn; lia). split; [by intros [? _]|].
      intros [[H _]|[? _]]; [|lia]. apply lookup_lt_Some in H. lia.
  Qed.
  Lemma server_key_snoc (cs : list call) c r :
    server_key (cs ++ [c]) r =
    match c, r with KcServerKey Leader q, Leader | KcServerKey Follower q, Follower => Some q | _, _ => server_key cs r end.
  Proof.
    unfold server_key. rewrite omap_app. cbn.
    destruct c as [| |[] q| | | | | |], r; cbn; by rewrite ?app_nil_r, ?last_snoc.
  Qed.

  (** The cells. *)
  Definition ke_laid (cs : list cell) (c : ke_cells) (pms : nat) : Prop :=
    exists p pms1, cs !! p = Some (Given (Some P_bytes)) /\ cs !! pms = Some (Computed circ_pms [kc_a0 c; kc_b0 c; p]) /\
      cs !! pms1 = Some (Computed circ_pms [kc_a1 c; kc_b1 c; p]) /\ cs !! kc_eq c = Some (Computed circ_eq [pms; pms1]).
  Definition share_cells (c : ke_cells) (r : role) : nat * nat :=
    match r with Leader => (kc_a0 c, kc_a1 c) | Follower => (kc_b0 c, kc_b1 c) end.
  Definition assigned (cs : list cell) (c : ke_cells) (r : role) (s0 s1 : Z) : Prop :=
    cs !! (share_cells c r).1 = Some (Given (Some (share_bytes s0))) /\ cs !! (share_cells c r).2 = Some (Given (Some (share_bytes s1))).
  Lemma ke_laid_grows cs cs' c pms : grows cs cs' -> ke_laid cs c pms -> ke_laid cs' c pms.
  Proof.
    intros Hg (p & pms1 & H1 & H2 & H3 & H4). exists p, pms1.
    split_and!; [by eapply grows_given|by eapply grows_computed..].
  Qed.
  Lemma assigned_grows cs cs' c r s0 s1 : grows cs cs' -> assigned cs c r s0 s1 -> assigned cs' c r s0 s1.
  Proof. intros Hg [H1 H2]. split; by eapply grows_given. Qed.

  (** No allocation, computation or assignment succeeded. *)
  Definition never (cs : list call) os (P : call -> Prop) : Prop := forall i c v, P c -> ~ ok_at cs os i c v.
  Definition is_compute (c : call) : Prop := c = KcCompute.
  Definition is_alloc (c : call) : Prop := c = KcAlloc.
  Definition is_assign (r : role) (c : call) : Prop := c = KcAssign r.

  Definition ph0 (cs : list call) os (k : ke (point := point)) : Prop :=
    never cs os is_alloc /\ never cs os is_compute /\ (forall r, never cs os (is_assign r)) /\
    forall r, kp_state (ke_get k r) = KsInitialized \/ kp_state (ke_get k r) = KsError.
  Definition ph1 (cs : list call) os (k : ke (point := point)) : Prop :=
    never cs os is_compute /\ (forall r, never cs os (is_assign r)) /\
    exists i c pms, ok_at cs os i KcAlloc pms /\ (forall i' v, ok_at cs os i' KcAlloc v -> i' = i) /\
      ke_laid (vm_cells (ke_vm k)) c pms /\
      forall r, match kp_state (ke_get k r) with KsSetup c' | KsFollowerKey c' _ => c' = c | KsError => True | _ => False end.
  Local Notation shares_at := (shares_at padd pzero coords cv0 cv1 kl kf).
  Definition pick (r : role) (l f : Z) : Z := match r with Leader => l | Follower => f end.
  Definition ph2 (cs : list call) os (k : ke (point := point)) : Prop :=
    exists i j c pms l0 f0 l1 f1, ok_at cs os i KcAlloc pms /\ (forall i' v, ok_at cs os i' KcAlloc v -> i' = i) /\ i < j /\
      ok_at cs os j KcCompute 0 /\ (forall j' v, ok_at cs os j' KcCompute v -> j' = j) /\
      ke_laid (vm_cells (ke_vm k)) c pms /\ shares_at cs j l0 f0 l1 f1 /\
      forall r,
        match kp_state (ke_get k r) with
        | KsComputed c' s0 s1 => c' = c /\ s0 = pick r l0 f0 /\ s1 = pick r l1 f1 /\ never cs os (is_assign r)
        | KsEqualityCheck eq => eq = kc_eq c /\ assigned (vm_cells (ke_vm k)) c r (pick r l0 f0) (pick r l1 f1)
        | KsComplete => assigned (vm_cells (ke_vm k)) c r (pick r l0 f0) (pick r l1 f1)
        | KsError => (forall i v, ok_at cs os i (KcAssign r) v -> assigned (vm_cells (ke_vm k)) c r (pick r l0 f0) (pick r l1 f1))
        | _ => False
        end.
  Definition ke_inv (cs : list call) os (k : ke) : Prop :=
    length os = length cs /\ seen_from (ke_vm k) /\
    (forall r, kp_role (ke_get k r) = r /\ kp_private (ke_get k r) = private r /\ kp_server (ke_get k r) = server_key cs r) /\
    (ph0 cs os k \/ ph1 cs os k \/ ph2 cs os k).

  Lemma never_snoc (cs : list call) os c o (P : call -> Prop) : length os = length cs ->
    (P c -> forall v, o <> Ok v) -> never cs os P -> never (cs ++ [c]) (os ++ [o]) P.
  Proof.
    intros Hl Hc Hn i c' v Hp H. apply ok_at_snoc in H as [H|(_ & <- & ->)]; [by eapply Hn|by eapply Hc|done].
  Qed.
  Lemma unique_snoc (cs : list call) os c o x i : length os = length cs -> (c = x -> forall v, o <> Ok v) ->
    (forall i' v, ok_at cs os i' x v -> i' = i) -> forall i' v, ok_at (cs ++ [c]) (os ++ [o]) i' x v -> i' = i.
  Proof.
    intros Hl Hc Hu i' v H. apply ok_at_snoc in H as [H|(_ & <- & ->)]; [by eapply Hu| |done]. by destruct (Hc eq_refl v).
  Qed.
  Lemma shares_at_snoc cs c j l0 f0 l1 f1 : j < length cs -> shares_at cs j l0 f0 l1 f1 -> shares_at (cs ++ [c]) j l0 f0 l1 f1.
  Proof. intros Hj. unfold KeyExchangeSpec.shares_at. rewrite take_app_le by lia. done. Qed.
  Lemma ok_at_lt (cs : list call) os i c v : ok_at cs os i c v -> i < length cs.
  Proof. intros [H _]. by apply lookup_lt_Some in H. Qed.

  (** A step that keeps the states or moves parties to an error, and is no success of the three kinds. *)
  Lemma phases_quiet cs os k c o k' :
    length os = length cs -> grows (vm_cells (ke_vm k)) (vm_cells (ke_vm k')) ->
    (c = KcAlloc \/ c = KcCompute -> forall v, o <> Ok v) ->
    (forall r, c = KcAssign r -> forall v, o <> Ok v) ->
    (forall r, kp_state (ke_get k' r) = kp_state (ke_get k r) \/ kp_state (ke_get k' r) = KsError \/
               (kp_state (ke_get k' r) = KsComplete /\ exists eq, kp_state (ke_get k r) = KsEqualityCheck eq) \/
               (exists x q, kp_state (ke_get k' r) = KsFollowerKey x q /\ kp_state (ke_get k r) = KsSetup x)) ->
    ph0 cs os k \/ ph1 cs os k \/ ph2 cs os k ->
    ph0 (cs ++ [c]) (os ++ [o]) k' \/ ph1 (cs ++ [c]) (os ++ [o]) k' \/ ph2 (cs ++ [c]) (os ++ [o]) k'.
  Proof.
    intros Hl Hg Hc Ha Hs [H|[H|H]].
    - left. destruct H as (H1 & H2 & H3 & H4). split_and!.
      + apply never_snoc; [done| |done]. intros ->. apply Hc. by left.
      + apply never_snoc; [done| |done]. intros ->. apply Hc. by right.
      + intros r. apply never_snoc; [done| |done]. apply Ha.
      + intros r. destruct (Hs r) as [->|[->|[(-> & eq & He)|(x & q & -> & He)]]]; [done|by right| |];
          destruct (H4 r) as [E|E]; congruence.
    - right. left. destruct H as (H1 & H2 & i & c' & pms & H3 & H4 & H5 & H6). split_and!.
      + apply never_snoc; [done| |done]. intros ->. apply Hc. by right.
      + intros r. apply never_snoc; [done| |done]. apply Ha.
      + exists i, c', pms. split_and!.
        * apply ok_at_snoc; [done|by left].
        * apply unique_snoc; [done| |done]. intros ->. apply Hc. by left.
        * by eapply ke_laid_grows.
        * intros r. specialize (H6 r). destruct (Hs r) as [->|[->|[(-> & eq & He)|(x & q & -> & He)]]]; try done; by rewrite He in H6.
    - right. right. destruct H as (i & j & c' & pms & l0 & f0 & l1 & f1 & H1 & H2 & H3 & H4 & H5 & H6 & H7 & H8).
      exists i, j, c', pms, l0, f0, l1, f1. split_and!.
      + apply ok_at_snoc; [done|by left].
      + apply unique_snoc; [done| |done]. intros ->. apply Hc. by left.
      + done.
      + apply ok_at_snoc; [done|by left].
      + apply unique_snoc; [done| |done]. intros ->. apply Hc. by right.
      + by eapply ke_laid_grows.
      + apply shares_at_snoc; [by eapply ok_at_lt|done].
      + intros r. specialize (H8 r). destruct (Hs r) as [->|[->|[(-> & eq & He)|(x & q & -> & He)]]].
        * destruct (kp_state (ke_get k r)) as [| | |c2 s0 s1|eq| |]; try done.
          -- destruct H8 as (A & B & C & D). split_and!; try done. apply never_snoc; [done| |done]. apply Ha.
          -- destruct H8 as (A & B). split; [done|]. by eapply assigned_grows.
          -- by eapply assigned_grows.
          -- intros i' v H. apply ok_at_snoc in H as [H|(_ & -> & ->)]; [|by destruct (Ha r eq_refl v)|done].
             eapply assigned_grows; [done|]. by eapply H8.
        * intros i' v H. apply ok_at_snoc in H as [H|(_ & -> & ->)]; [|by destruct (Ha r eq_refl v)|done].
          eapply assigned_grows; [done|].
          destruct (kp_state (ke_get k r)) as [| | |c2 s0 s1|eq| |]; try done.
          -- destruct H8 as (A & B & C & D). exfalso. eapply D; [|exact H]. done.
          -- by destruct H8.
          -- by eapply H8.
        * rewrite He in H8. eapply assigned_grows; [done|]. by destruct H8.
        * by rewrite He in H8.
  Qed.

  Lemma kp_assign_inv m (k : party (point := point)) m' k' o :
    kp_assign m k = (m', k', o) ->
    kp_role k' = kp_role k /\ kp_private k' = kp_private k /\ kp_server k' = kp_server k /\
    grows (vm_cells m) (vm_cells m') /\ vm_seen m' = vm_seen m /\
    ((kp_state k' = KsError /\ forall v, o <> Ok v) \/
     exists c s0 s1, kp_state k = KsComputed c s0 s1 /\ kp_state k' = KsEqualityCheck (kc_eq c) /\
       o = Ok tt /\ assigned (vm_cells m') c (kp_role k) s0 s1).
  Proof.
    intros H. unfold kp_assign in H.
    destruct (kp_state k) as [| | |c s0 s1| | |] eqn:Hk;
      try (injection H as <- <- <-; split_and!; [done..|apply grows_refl|done|by left]).
    fold (share_cells c (kp_role k)) in H. destruct (share_cells c (kp_role k)) as [i0 i1] eqn:Hi.
    destruct (vm_assign m i0 (share_bytes s0)) as [m1| |] eqn:E1;
      try (injection H as <- <- <-; split_and!; [done..|apply grows_refl|done|by left]).
    apply vm_assign_grows in E1 as (G1 & S1 & V1).
    destruct (vm_assign m1 i1 (share_bytes s1)) as [m2| |] eqn:E2;
      try (injection H as <- <- <-; split_and!; [done..|by left]).
    apply vm_assign_grows in E2 as (G2 & S2 & V2). injection H as <- <- <-.
    split_and!; [done..|by eapply grows_trans|congruence|]. right. exists c, s0, s1. split_and!; try done.
    split; rewrite Hi; cbn [fst snd]; [by eapply grows_given|done].
  Qed.
  Lemma kp_finalize_inv m (k k' : party (point := point)) o :
    kp_finalize m k = (k', o) ->
    kp_role k' = kp_role k /\ kp_private k' = kp_private k /\ kp_server k' = kp_server k /\
    (kp_state k' = KsError \/ (kp_state k' = KsComplete /\ exists eq, kp_state k = KsEqualityCheck eq)).
  Proof.
    intros H. unfold kp_finalize in H.
    destruct (kp_state k) as [| | | |eq| |] eqn:Hk; try (injection H as <- <-; split_and!; [done..|by left]).
    destruct (vm_decoded m eq) as [v|]; [|injection H as <- <-; split_and!; [done..|by left]].
    destruct (decide _); injection H as <- <-; split_and!; try done; [right; split; [done|eauto]|by left].
  Qed.
  Lemma ke_put_get (k : ke (point := point)) r m x r' :
    ke_get (ke_put k r m x) r' = (match r, r' with Leader, Leader | Follower, Follower => x | _, _ => ke_get k r' end).
  Proof. by destruct r, r'. Qed.
  Lemma ke_put_vm (k : ke (point := point)) r m x : ke_vm (ke_put k r m x) = m.
  Proof. by destruct r. Qed.

  Lemma ke_step_inv cs os k c k' o : ke_inv cs os k -> ke_step k c = (k', o) -> ke_inv (cs ++ [c]) (os ++ [o]) k'.
  Proof.
    intros (Hl & Hsn & Hp & Hph) H. unfold ke_inv. split; [rewrite !app_length; cbn; lia|].
    assert (forall m, seen_from m -> grows (vm_cells (ke_vm k)) (vm_cells m) ->
      (match c with KcServerKey _ _ => False | _ => True end) -> k' = ke_fail k m -> (forall v, o <> Ok v) ->
      seen_from (ke_vm k') /\
      (forall r, kp_role (ke_get k' r) = r /\ kp_private (ke_get k' r) = private r /\ kp_server (ke_get k' r) = server_key (cs ++ [c]) r) /\
      (ph0 (cs ++ [c]) (os ++ [o]) k' \/ ph1 (cs ++ [c]) (os ++ [o]) k' \/ ph2 (cs ++ [c]) (os ++ [o]) k')) as Hfail.
    { intros m Hm Hg Hc -> Ho. split_and!; [done| |].
      - intros r. rewrite server_key_snoc. destruct (Hp r) as (P1 & P2 & P3). destruct c; try done; by destruct r.
      - eapply phases_quiet; try done. intros r. right. left. by destruct r. }
    destruct c as [| |r q| |r|r|cc|i v|]; cbn [ke_step] in H.
    - (* alloc *)
      unfold ke_alloc in H. cbn [vm_add] in H. unfold kp_alloc in H.
      destruct (kp_state (ke_l k)) eqn:El; try (injection H as <- <-; by apply (Hfail (ke_vm k) Hsn (grows_refl _) I)).
      destruct (kp_state (ke_f k)) eqn:Ef; try (injection H as <- <-; by apply (Hfail (ke_vm k) Hsn (grows_refl _) I)).
      injection H as <- <-. set (m' := Vm _ _).
      assert (grows (vm_cells (ke_vm k)) (vm_cells m')) as Hg by (unfold m'; cbn; rewrite <- !app_assoc; apply grows_app).
      split_and!; [by eapply seen_grows| |].
      + intros r. rewrite server_key_snoc. destruct (Hp r) as (P1 & P2 & P3). by destruct r.
      + destruct Hph as [H0|[H1|H2]].
        * right. left. destruct H0 as (H1 & H2 & H3 & H4). split_and!.
          -- by apply never_snoc.
          -- intros r. by apply never_snoc.
          -- eexists (length cs), _, _. split; [apply ok_at_snoc; [done|]; by right|].
             split; [intros i' v H; apply ok_at_snoc in H as [H|[-> _]]; [by destruct (H1 i' _ v eq_refl)|done|done]|].
             split; [|intros []; reflexivity].
             set (n := length (vm_cells (ke_vm k))). exists (n + 4), (n + 6).
             unfold m'. cbn [vm_cells kc_a0 kc_b0 kc_a1 kc_b1 kc_eq]. rewrite !app_length, <- !app_assoc. cbn. fold n.
             split_and!; (rewrite lookup_app_r by lia); fold n;
               [replace (_ - _) with 4 by lia|replace (_ - _) with 5 by lia|replace (_ - _) with 6 by lia|replace (_ - _) with 7 by lia];
               cbn; try reflexivity; apply f_equal, f_equal;
               repeat (apply (f_equal2 cons); [lia|]); reflexivity.
        * exfalso. destruct H1 as (_ & _ & i & c & pms & _ & _ & _ & H6). specialize (H6 Leader). cbn in H6. by rewrite El in H6.
        * exfalso. destruct H2 as (i & j & c' & pms & l0 & f0 & l1 & f1 & _ & _ & _ & _ & _ & _ & _ & H8).
          specialize (H8 Leader). cbn in H8. by rewrite El in H8.
    - (* setup *)
      unfold ke_setup in H.
      destruct (kp_state (ke_l k)) eqn:El; try (injection H as <- <-; by apply (Hfail (ke_vm k) Hsn (grows_refl _) I)).
      destruct (kp_state (ke_f k)) eqn:Ef; try (injection H as <- <-; by apply (Hfail (ke_vm k) Hsn (grows_refl _) I)).
      injection H as <- <-. split_and!; [done| |].
      + intros r. rewrite server_key_snoc. destruct (Hp r) as (P1 & P2 & P3). by destruct r.
      + eapply phases_quiet; try done; [apply grows_refl|by intros [?|?]|]. intros r. right. right. right. destruct r; cbn; eauto.
    - (* server key *)
      injection H as <- <-. rewrite ke_put_vm. split_and!; [done| |].
      + intros r'. rewrite server_key_snoc, ke_put_get. destruct (Hp r) as (P1 & P2 & P3). destruct (Hp r') as (Q1 & Q2 & Q3).
        by destruct r, r'.
      + eapply phases_quiet; try done; [by rewrite ke_put_vm; apply grows_refl|by intros [?|?]|].
        intros r'. left. rewrite ke_put_get. by destruct r, r'.
    - (* compute *)
      unfold ke_compute in H.
      destruct (kp_state (ke_l k)) as [|cl|cl fk| | | |] eqn:El; try (injection H as <- <-; by apply (Hfail (ke_vm k) Hsn (grows_refl _) I)).
      destruct (kp_state (ke_f k)) as [|cf|cf fk'| | | |] eqn:Ef; try (injection H as <- <-; by apply (Hfail (ke_vm k) Hsn (grows_refl _) I)).
      destruct (kp_point padd pzero coords (ke_l k)) as [ql| |] eqn:Ql; destruct (kp_point padd pzero coords (ke_f k)) as [qf| |] eqn:Qf;
        try (injection H as <- <-; by apply (Hfail (ke_vm k) Hsn (grows_refl _) I)).
      destruct (derive_x_coord_shares cv0 ql qf) as [[l0 f0]| |] eqn:D0; try (injection H as <- <-; by apply (Hfail (ke_vm k) Hsn (grows_refl _) I)).
      destruct (derive_x_coord_shares cv1 ql qf) as [[l1 f1]| |] eqn:D1; try (injection H as <- <-; by apply (Hfail (ke_vm k) Hsn (grows_refl _) I)).
      injection H as <- <-. split_and!; [done| |].
      + intros r. rewrite server_key_snoc. destruct (Hp r) as (P1 & P2 & P3). by destruct r.
      + right. right. destruct Hph as [H0|[H1|H2]].
        * exfalso. destruct H0 as (_ & _ & _ & H4). specialize (H4 Leader). cbn in H4. rewrite El in H4. by destruct H4.
        * destruct H1 as (H1 & H2 & i & c & pms & H3 & H4 & H5 & H6).
          pose proof (H6 Leader) as C1. pose proof (H6 Follower) as C2. cbn in C1, C2. rewrite El in C1. rewrite Ef in C2. subst cl cf.
          exists i, (length cs), c, pms, l0, f0, l1, f1. split_and!.
          -- apply ok_at_snoc; [done|by left].
          -- by apply unique_snoc.
          -- by eapply ok_at_lt.
          -- apply ok_at_snoc; [done|]. by right.
          -- intros j' v H. apply ok_at_snoc in H as [H|[-> _]]; [|done|done]. by destruct (H1 j' _ v eq_refl).
          -- done.
          -- unfold kp_point in Ql, Qf.
             apply obind_Ok in Ql as (sl & Sl & Ql). apply obind_Ok in Ql as (ql' & Al & Ql).
             apply obind_Ok in Qf as (sf & Sf & Qf). apply obind_Ok in Qf as (qf' & Af & Qf).
             destruct (Hp Leader) as (_ & P2 & P3). destruct (Hp Follower) as (_ & P5 & P6). cbn in P2, P3, P5, P6.
             rewrite P3 in Sl. rewrite P6 in Sf. rewrite P2 in Al. rewrite P5 in Af.
             exists sl, sf, ql, qf. rewrite take_app_alt by done.
             destruct (server_key cs Leader) as [s1'|]; [|done]. injection Sl as ->.
             destruct (server_key cs Follower) as [s2'|]; [|done]. injection Sf as ->.
             unfold from_affine in Al, Af.
             destruct (coords (pmul kl sl)) as [?|] eqn:Cl; [|done]. injection Al as <-.
             destruct (coords (pmul kf sf)) as [?|] eqn:Cf; [|done]. injection Af as <-.
             rewrite Cl in Ql. rewrite Cf in Qf. injection Ql as ->. injection Qf as ->. done.
          -- intros r. assert (never (cs ++ [KcCompute]) (os ++ [Ok 0]) (is_assign r)) as Hn by (apply never_snoc; [done|done|apply H2]).
             by destruct r.
        * exfalso. destruct H2 as (i & j & c' & pms & l0' & f0' & l1' & f1' & _ & _ & _ & _ & _ & _ & _ & H8).
          specialize (H8 Leader). cbn in H8. by rewrite El in H8.
    - (* assign *)
      destruct (kp_assign (ke_vm k) (ke_get k r)) as [[m x] o'] eqn:E. injection H as <- <-.
      apply kp_assign_inv in E as (R1 & R2 & R3 & G & S & Hcase).
      rewrite ke_put_vm. split_and!; [by eapply seen_grows| |].
      + intros r'. rewrite server_key_snoc, ke_put_get. destruct (Hp r) as (P1 & P2 & P3). destruct (Hp r') as (Q1 & Q2 & Q3).
        rewrite <- R1 in P1. rewrite <- R2 in P2. rewrite <- R3 in P3. by destruct r, r'.
      + destruct Hcase as [[He Ho]|(c & s0 & s1 & Hc & Hx & -> & Ha)].
        * eapply phases_quiet; try done; [by rewrite ke_put_vm|by intros [?|?]| |].
          -- intros r' _ v Hv. destruct o' as [u| |]; [|done|done]. by destruct (Ho u).
          -- intros r'. rewrite ke_put_get. destruct r, r'; auto.
        * right. right. destruct Hph as [H0|[H1|H2]].
          -- exfalso. destruct H0 as (_ & _ & _ & H4). destruct (H4 r); congruence.
          -- exfalso. destruct H1 as (_ & _ & i & c' & pms & _ & _ & _ & H6). specialize (H6 r). by rewrite Hc in H6.
          -- destruct H2 as (i & j & c' & pms & l0 & f0 & l1 & f1 & H1 & H2 & H3 & H4 & H5 & H6 & H7 & H8).
             exists i, j, c', pms, l0, f0, l1, f1. rewrite ke_put_vm. split_and!.
             ++ apply ok_at_snoc; [done|by left].
             ++ by apply unique_snoc.
             ++ done.
             ++ apply ok_at_snoc; [done|by left].
             ++ by apply unique_snoc.
             ++ by eapply ke_laid_grows.
             ++ apply shares_at_snoc; [by eapply ok_at_lt|done].
             ++ intros r'. destruct (Hp r) as (Hr & _). rewrite Hr in Ha.
                assert (match kp_state x with KsEqualityCheck eq => eq = kc_eq c' /\ assigned (vm_cells m) c' r (pick r l0 f0) (pick r l1 f1) | _ => False end) as Hmine.
                { rewrite Hx. specialize (H8 r). rewrite Hc in H8. by destruct H8 as (-> & <- & <- & _). }
                rewrite ke_put_get. specialize (H8 r').
                assert (forall r0, r0 <> r ->
                  match kp_state (ke_get k r0) with
                  | KsComputed c2 s2 s3 => c2 = c' /\ s2 = pick r0 l0 f0 /\ s3 = pick r0 l1 f1 /\ never cs os (is_assign r0)
                  | KsEqualityCheck eq => eq = kc_eq c' /\ assigned (vm_cells (ke_vm k)) c' r0 (pick r0 l0 f0) (pick r0 l1 f1)
                  | KsComplete => assigned (vm_cells (ke_vm k)) c' r0 (pick r0 l0 f0) (pick r0 l1 f1)
                  | KsError => (forall i v, ok_at cs os i (KcAssign r0) v -> assigned (vm_cells (ke_vm k)) c' r0 (pick r0 l0 f0) (pick r0 l1 f1))
                  | _ => False
                  end ->
                  match kp_state (ke_get k r0) with
                  | KsComputed c2 s2 s3 => c2 = c' /\ s2 = pick r0 l0 f0 /\ s3 = pick r0 l1 f1 /\
                      never (cs ++ [KcAssign r]) (os ++ [omap_ok (fun _ => 0) (Ok tt : outcome ke_error unit)]) (is_assign r0)
                  | KsEqualityCheck eq => eq = kc_eq c' /\ assigned (vm_cells m) c' r0 (pick r0 l0 f0) (pick r0 l1 f1)
                  | KsComplete => assigned (vm_cells m) c' r0 (pick r0 l0 f0) (pick r0 l1 f1)
                  | KsError => (forall i v, ok_at (cs ++ [KcAssign r]) (os ++ [omap_ok (fun _ => 0) (Ok tt : outcome ke_error unit)]) i (KcAssign r0) v ->
                                 assigned (vm_cells m) c' r0 (pick r0 l0 f0) (pick r0 l1 f1))
                  | _ => False
                  end) as Hother.
                { intros r0 Hne Hst. destruct (kp_state (ke_get k r0)); try done.
                  - destruct Hst as (A & B & C & D). split_and!; try done. apply never_snoc; [done| |done]. by intros [= ?].
                  - destruct Hst as (A & B). split; [done|]. by eapply assigned_grows.
                  - by eapply assigned_grows.
                  - intros i' v H. apply ok_at_snoc in H as [H|(_ & [= ?] & _)]; [|done|done]. eapply assigned_grows; [done|]. by eapply Hst. }
                destruct (kp_state x) as [| | | |eqx| |] eqn:Ex; try done.
                destruct r, r'; [by rewrite Ex|by apply Hother|by apply Hother|by rewrite Ex].
    - (* finalize *)
      destruct (kp_finalize (ke_vm k) (ke_get k r)) as [x o'] eqn:E. injection H as <- <-.
      apply kp_finalize_inv in E as (R1 & R2 & R3 & Hcase).
      rewrite ke_put_vm. split_and!; [done| |].
      + intros r'. rewrite server_key_snoc, ke_put_get. destruct (Hp r) as (P1 & P2 & P3). destruct (Hp r') as (Q1 & Q2 & Q3).
        rewrite <- R1 in P1. rewrite <- R2 in P2. rewrite <- R3 in P3. by destruct r, r'.
      + eapply phases_quiet; try done; [by rewrite ke_put_vm; apply grows_refl|by intros [?|?]|].
        intros r'. rewrite ke_put_get. destruct r, r'; try (by left); destruct Hcase as [?|[? ?]]; auto.
    - (* other add *)
      injection H as <- <-. destruct (vm_add_grows (ke_vm k) cc) as [G S]. split_and!; [by eapply seen_grows| |].
      + intros r. rewrite server_key_snoc. destruct (Hp r) as (P1 & P2 & P3). by destruct r.
      + eapply phases_quiet; try done; [by intros [?|?]|]. intros r. left. by destruct r.
    - (* other assign *)
      destruct (vm_assign (ke_vm k) i v) as [m| |] eqn:E; injection H as <- <-.
      + apply vm_assign_grows in E as (G & S & _). split_and!; [by eapply seen_grows| |].
        * intros r. rewrite server_key_snoc. destruct (Hp r) as (P1 & P2 & P3). by destruct r.
        * eapply phases_quiet; try done; [by intros [?|?]|]. intros r. left. by destruct r.
      + split_and!; [done| |].
        * intros r. rewrite server_key_snoc. destruct (Hp r) as (P1 & P2 & P3). by destruct r.
        * eapply phases_quiet; try done; [apply grows_refl|]. intros r. by left.
      + split_and!; [done| |].
        * intros r. rewrite server_key_snoc. destruct (Hp r) as (P1 & P2 & P3). by destruct r.
        * eapply phases_quiet; try done; [apply grows_refl|]. intros r. by left.
    - (* execute *)
      injection H as <- <-. split_and!; [exists (vm_cells (ke_vm k)); split; [done|apply grows_refl]| |].
      + intros r. rewrite server_key_snoc. destruct (Hp r) as (P1 & P2 & P3). by destruct r.
      + eapply phases_quiet; try done; [apply grows_refl|by intros [?|?]|]. intros r. left. by destruct r.
  Qed.
  Lemma ke_run_inv cs2 : forall cs os k k' os2,
    ke_inv cs os k -> ke_run k cs2 = (k', os2) -> ke_inv (cs ++ cs2) (os ++ os2) k'.
  Proof.
    induction cs2 as [|c cs2 IH]; intros cs os k k' os2 Hi H; cbn [KeyExchangeModel.ke_run] in H.
    - injection H as <- <-. by rewrite !app_nil_r.
    - destruct (ke_step k c) as [k1 o] eqn:E. destruct (ke_run k1 cs2) as [k2 os3] eqn:E2. injection H as <- <-.
      pose proof (ke_step_inv _ _ _ _ _ _ Hi E) as H1. specialize (IH _ _ _ _ _ H1 E2). by rewrite <- !app_assoc in IH.
  Qed.
  Lemma ke_new_inv : ke_inv [] [] (ke_new kl kf).
  Proof.
    split_and!; [done|by exists []|by intros []|]. left. split_and!; try (intros i c v _ [? _]; done).
    - intros r i c v _ [? _]. done.
    - intros []; by left.
  Qed.
  Lemma ke_run_new_inv cs k os : ke_run (ke_new kl kf) cs = (k, os) -> ke_inv cs os k.
  Proof. intros H. apply (ke_run_inv cs [] [] _ k os ke_new_inv H). Qed.
  Lemma ke_run_app cs1 cs2 k : ke_run k (cs1 ++ cs2) =
    (let '(k1, os1) := ke_run k cs1 in let '(k2, os2) := ke_run k1 cs2 in (k2, os1 ++ os2)).
  Proof.
    revert k. induction cs1 as [|c cs1 IH]; intros k; cbn [app KeyExchangeModel.ke_run].
    - by destruct (ke_run k cs2).
    - destruct (ke_step k c) as [k1 o]. rewrite IH. destruct (ke_run k1 cs1) as [k2 os2]. by destruct (ke_run k2 cs2).
  Qed.

  (** ** The pre-master secret *)
  Lemma C50_finalize_lemma cs r k os pms i :
    ke_run (ke_new kl kf) (cs ++ [KcFinalize r]) = (k, os ++ [Ok 0]) ->
    ok_at cs os i KcAlloc pms -> (forall r, exists j, ok_at cs os j (KcAssign r) 0) ->
    exists j l0 f0 l1 f1, i < j /\ ok_at cs os j KcCompute 0 /\ shares_at cs j l0 f0 l1 f1 /\
      ((l0 + f0) mod p256 = (l1 + f1) mod p256)%Z /\ vm_decoded (ke_vm k) pms = Some (share_bytes ((l0 + f0) mod p256)%Z).
  Proof.
    intros H Hi Ha. rewrite ke_run_app in H. destruct (ke_run (ke_new kl kf) cs) as [k1 os1] eqn:E.
    cbn [KeyExchangeModel.ke_run KeyExchangeModel.ke_step] in H.
    destruct (kp_finalize (ke_vm k1) (ke_get k1 r)) as [x o] eqn:Ef. injection H as <- Ho.
    apply app_inj_tail in Ho as [-> Ho]. rewrite ke_put_vm.
    apply ke_run_new_inv in E as (Hl & Hsn & Hp & Hph).
    unfold kp_finalize in Ef. destruct (kp_state (ke_get k1 r)) as [| | | |eq| |] eqn:Hr; try (by injection Ef as <- <-).
    destruct (vm_decoded (ke_vm k1) eq) as [v|] eqn:Hv; [|by injection Ef as <- <-].
    destruct (decide (v = replicate 32 0%N)) as [Hz|]; [|by injection Ef as <- <-].
    destruct Hph as [H0|[H1|H2]].
    - exfalso. destruct H0 as (_ & _ & _ & H4). destruct (H4 r); congruence.
    - exfalso. destruct H1 as (_ & _ & i' & c & pms' & _ & _ & _ & H6). specialize (H6 r). by rewrite Hr in H6.
    - destruct H2 as (i' & j & c & pms' & l0 & f0 & l1 & f1 & H1 & H2 & H3 & H4 & H5 & (p & pms1 & L1 & L2 & L3 & L4) & H7 & H8).
      pose proof (H2 _ _ Hi) as ->. destruct Hi as [_ Hi], H1 as [_ H1]. rewrite Hi in H1. injection H1 as <-.
      assert (forall r, assigned (vm_cells (ke_vm k1)) c r (pick r l0 f0) (pick r l1 f1)) as Has.
      { intros r'. specialize (H8 r'). destruct (Ha r') as [j' Hj']. destruct (kp_state (ke_get k1 r')) as [| | |? ? ?|?| |]; try done.
        - destruct H8 as (_ & _ & _ & Hn). by destruct (Hn _ _ _ eq_refl Hj').
        - by destruct H8.
        - by eapply H8. }
      specialize (H8 r). rewrite Hr in H8. destruct H8 as [-> _].
      destruct (Has Leader) as [A0 A1]. destruct (Has Follower) as [B0 B1]. cbn [share_cells fst snd pick] in A0, A1, B0, B1.
      exists j, l0, f0, l1, f1.
      assert (exists ql qf, derive_x_coord_shares cv0 ql qf = Ok (l0, f0) /\ derive_x_coord_shares cv1 ql qf = Ok (l1, f1)) as (ql & qf & D0 & D1).
      { destruct H7 as (? & ? & ql & qf & _ & _ & _ & _ & D0 & D1). eauto. }
      apply derive_field in D0 as [F1 F2]. apply derive_field in D1 as [F3 F4].
      destruct (seen_computed _ _ _ _ _ Hsn Hv L4) as (ws & -> & Hw).
      apply Forall2_cons_inv_l in Hw as (v0 & ? & V0 & Hw & ->). apply Forall2_cons_inv_l in Hw as (v1 & ? & V1 & Hw & ->).
      apply Forall2_nil_inv_l in Hw as ->.
      assert (forall q a b va sa sb, vm_decoded (ke_vm k1) q = Some va -> vm_cells (ke_vm k1) !! q = Some (Computed circ_pms [a; b; p]) ->
        vm_cells (ke_vm k1) !! a = Some (Given (Some (share_bytes sa))) -> vm_cells (ke_vm k1) !! b = Some (Given (Some (share_bytes sb))) ->
        field sa -> field sb -> va = share_bytes ((sa + sb) mod p256)%Z) as Hpms.
      { intros q a b va sa sb Hq Hc Hca Hcb Fa Fb. destruct (seen_computed _ _ _ _ _ Hsn Hq Hc) as (ws & -> & Hw).
        apply Forall2_cons_inv_l in Hw as (wa & ? & Wa & Hw & ->). apply Forall2_cons_inv_l in Hw as (wb & ? & Wb & Hw & ->).
        apply Forall2_cons_inv_l in Hw as (wp & ? & Wp & Hw & ->). apply Forall2_nil_inv_l in Hw as ->.
        rewrite (seen_given _ _ _ _ Hsn Wa Hca), (seen_given _ _ _ _ Hsn Wb Hcb), (seen_given _ _ _ _ Hsn Wp L1).
        by apply circ_pms_shares. }
      pose proof (Hpms _ _ _ _ _ _ V0 L2 A0 B0 F1 F2) as E0. pose proof (Hpms _ _ _ _ _ _ V1 L3 A1 B1 F3 F4) as E1. subst v0 v1.
      split_and!; try done. apply circ_eq_shares in Hz; [done|apply mod_field|apply mod_field].
  Qed.
  (** With honest converters. *)
  Lemma C50_sound_lemma cs r k os pms i :
    curve_ok padd pzero coords -> honest_converter cv0 -> honest_converter cv1 ->
    ke_run (ke_new kl kf) (cs ++ [KcFinalize r]) = (k, os ++ [Ok 0]) ->
    ok_at cs os i KcAlloc pms -> (forall r, exists j, ok_at cs os j (KcAssign r) 0) ->
    exists j sl sf ql qf x, i < j /\ ok_at cs os j KcCompute 0 /\
      server_key (take j cs) Leader = Some sl /\ server_key (take j cs) Follower = Some sf /\
      coords (pmul kl sl) = Some ql /\ coords (pmul kf sf) = Some qf /\ ql.1 <> qf.1 /\
      sum_x ql qf x /\ vm_decoded (ke_vm k) pms = Some (be 32 (Z.to_N x)).
  Proof.
    intros Hcv H0 H1 H Hi Ha. destruct (C50_finalize_lemma _ _ _ _ _ _ H Hi Ha) as (j & l0 & f0 & l1 & f1 & Hij & Hj & Hs & _ & Hd).
    destruct Hs as (sl & sf & ql & qf & Sl & Sf & Ql & Qf & D0 & D1). destruct ql as [x1 y1], qf as [x2 y2].
    destruct (curve_field _ _ _ Hcv _ _ _ Ql) as [Fx1 Fy1]. destruct (curve_field _ _ _ Hcv _ _ _ Qf) as [Fx2 Fy2].
    assert (x1 <> x2) as Hne.
    { intros ->. by rewrite (derive_equal cv0 (x2, y1) (x2, y2) H0 Fx1 Fy1 Fx2 Fy2 eq_refl) in D0. }
    destruct (derive_ok cv0 (x1, y1) (x2, y2) H0 Fx1 Fy1 Fx2 Fy2 Hne) as (a & b & D0' & Hx). rewrite D0 in D0'. injection D0' as <- <-.
    exists j, sl, sf, (x1, y1), (x2, y2), ((l0 + f0) mod p256)%Z. done.
  Qed.

  (** ** An exchange from start to end *)
  Lemma C50_exchange_lemma sl sf ql qf l0 f0 l1 f1 :
    coords (pmul kl sl) = Some ql -> coords (pmul kf sf) = Some qf ->
    derive_x_coord_shares cv0 ql qf = Ok (l0, f0) -> derive_x_coord_shares cv1 ql qf = Ok (l1, f1) ->
    exists k os, ke_run (ke_new kl kf) (exchange_calls sl sf) = (k, os) /\
      os = [Ok 5] ++ replicate 7 (Ok 0) ++
           (if decide ((l0 + f0) mod p256 = (l1 + f1) mod p256)%Z then [Ok 0; Ok 0] else [Err KeShareConversion; Err KeShareConversion]) /\
      vm_decoded (ke_vm k) 5 = Some (share_bytes ((l0 + f0) mod p256)%Z).
  Proof.
    intros Hl Hf D0 D1. pose proof (derive_field _ _ _ _ _ D0) as [F1 F2]. pose proof (derive_field _ _ _ _ _ D1) as [F3 F4].
    set (k1 := (ke_run (ke_new kl kf) [KcAlloc; KcSetup; KcServerKey Leader sl; KcServerKey Follower sf; KcCompute; KcAssign Leader; KcAssign Follower; KcExecute]).1).
    set (cs8 := [Given (Some (share_bytes l0)); Given (Some (share_bytes f0)); Given (Some (share_bytes l1)); Given (Some (share_bytes f1));
                 Given (Some P_bytes); Computed circ_pms [0; 1; 4]; Computed circ_pms [2; 3; 4]; Computed circ_eq [5; 6]]).
    assert (ke_run (ke_new kl kf) [KcAlloc; KcSetup; KcServerKey Leader sl; KcServerKey Follower sf; KcCompute; KcAssign Leader; KcAssign Follower; KcExecute]
      = (Ke (vm_execute (Vm cs8 [])) (Party Leader (KsEqualityCheck 7) kl (Some sl)) (Party Follower (KsEqualityCheck 7) kf (Some sf)),
         [Ok 5] ++ replicate 7 (Ok 0))) as E.
    { cbn [KeyExchangeModel.ke_run KeyExchangeModel.ke_step]. unfold ke_alloc, kp_alloc. cbn -[ke_compute kp_assign share_bytes].
      unfold ke_compute. cbn -[ke_compute kp_assign share_bytes]. unfold kp_point, from_affine. cbn -[share_bytes].
      rewrite Hl, Hf. cbn -[share_bytes]. rewrite Hl, Hf. cbn -[share_bytes]. rewrite D0, D1. cbn -[share_bytes].
      reflexivity. }
    change (exchange_calls sl sf) with ([KcAlloc; KcSetup; KcServerKey Leader sl; KcServerKey Follower sf; KcCompute; KcAssign Leader; KcAssign Follower; KcExecute] ++ [KcFinalize Leader; KcFinalize Follower]).
    rewrite ke_run_app, E. clear E k1.
    set (m := vm_execute (Vm cs8 [])).
    assert (forall i v, cs8 !! i = Some (Given (Some v)) -> vm_decoded m i = Some v) as Hgiven.
    { intros i v Hi. by apply (execute_given (Vm cs8 [])). }
    assert (vm_decoded m 5 = Some (share_bytes ((l0 + f0) mod p256)%Z)) as M5.
    { rewrite <- circ_pms_shares by done. apply (execute_computed (Vm cs8 []) 5 circ_pms [0; 1; 4]); [done| |].
      - repeat (apply List.Forall_cons; [lia|]). constructor.
      - apply List.Forall2_cons; [by apply Hgiven|]. apply List.Forall2_cons; [by apply Hgiven|]. apply List.Forall2_cons; [by apply Hgiven|]. constructor. }
    assert (vm_decoded m 6 = Some (share_bytes ((l1 + f1) mod p256)%Z)) as M6.
    { rewrite <- circ_pms_shares by done. apply (execute_computed (Vm cs8 []) 6 circ_pms [2; 3; 4]); [done| |].
      - repeat (apply List.Forall_cons; [lia|]). constructor.
      - apply List.Forall2_cons; [by apply Hgiven|]. apply List.Forall2_cons; [by apply Hgiven|]. apply List.Forall2_cons; [by apply Hgiven|]. constructor. }
    assert (vm_decoded m 7 = Some (circ_eq [share_bytes ((l0 + f0) mod p256)%Z; share_bytes ((l1 + f1) mod p256)%Z])) as M7.
    { apply (execute_computed (Vm cs8 []) 7 circ_eq [5; 6]); [done| |].
      - repeat (apply List.Forall_cons; [lia|]). constructor.
      - apply List.Forall2_cons; [done|]. apply List.Forall2_cons; [done|]. constructor. }
    pose proof (circ_eq_shares _ _ (mod_field (l0 + f0)) (mod_field (l1 + f1))) as Heq.
    cbn [KeyExchangeModel.ke_run KeyExchangeModel.ke_step]. unfold kp_finalize.
    cbn [ke_get ke_put ke_l ke_f ke_vm kp_state]. rewrite M7.
    destruct (decide ((l0 + f0) mod p256 = (l1 + f1) mod p256)%Z) as [Hd|Hd].
    - rewrite decide_True by (by apply Heq). cbn [ke_get ke_put ke_l ke_f ke_vm kp_state]. rewrite M7.
      rewrite decide_True by (by apply Heq). eexists _, _. split; [reflexivity|]. split; [reflexivity|exact M5].
    - rewrite decide_False by (by rewrite Heq). cbn [ke_get ke_put ke_l ke_f ke_vm kp_state]. rewrite M7.
      rewrite decide_False by (by rewrite Heq). eexists _, _. split; [reflexivity|]. split; [reflexivity|exact M5].
  Qed.
  Lemma C50_honest_lemma ks ql qf :
    curve_ok padd pzero coords -> honest_converter cv0 -> honest_converter cv1 ->
    coords (pmul kl (pmul ks base)) = Some ql -> coords (pmul kf (pmul ks base)) = Some qf -> ql.1 <> qf.1 ->
    let '(k, os) := ke_run (ke_new kl kf) (exchange_calls (pmul ks base) (pmul ks base)) in
    let '(k2, _) := ke_run (ke_new kl kf) (take 2 (exchange_calls (pmul ks base) (pmul ks base))) in
    os = [Ok 5] ++ replicate 9 (Ok 0) /\
    exists client_key x y, kp_client_key padd pzero coords base (ke_l k2) = Ok client_key /\
      client_key = padd (pmul kl base) (pmul kf base) /\
      coords (pmul ks client_key) = Some (x, y) /\ vm_decoded (ke_vm k) 5 = Some (be 32 (Z.to_N x)).
  Proof.
    intros Hcv H0 H1 Hl Hf Hne.
    destruct ql as [x1 y1], qf as [x2 y2]. cbn [fst] in Hne.
    destruct (curve_field _ _ _ Hcv _ _ _ Hl) as [Fx1 Fy1]. destruct (curve_field _ _ _ Hcv _ _ _ Hf) as [Fx2 Fy2].
    destruct (derive_ok cv0 (x1, y1) (x2, y2) H0 Fx1 Fy1 Fx2 Fy2 Hne) as (l0 & f0 & D0 & X0).
    destruct (derive_ok cv1 (x1, y1) (x2, y2) H1 Fx1 Fy1 Fx2 Fy2 Hne) as (l1 & f1 & D1 & X1).
    pose proof (sum_x_unique (x1, y1) (x2, y2) _ _ Fx1 Fx2 Hne X0 X1) as Heq.
    destruct (C50_exchange_lemma _ _ _ _ _ _ _ _ Hl Hf D0 D1) as (k & os & E & Hos & Hd).
    rewrite decide_True in Hos by done. rewrite E.
    destruct (shared_secret _ _ _ Hcv _ _ _ _ _ _ Hl Hf Hne) as (Hnz & x & y & Hc & Hx).
    pose proof (sum_x_unique (x1, y1) (x2, y2) _ _ Fx1 Fx2 Hne X0 Hx) as Hxx.
    cbn [exchange_calls take KeyExchangeModel.ke_run KeyExchangeModel.ke_step]. unfold ke_alloc, kp_alloc.
    cbn -[P_bytes]. unfold from_affine.
    destruct (coords (padd (pmul kl base) (pmul kf base))) as [cc|] eqn:Ecc.
    - split; [exact Hos|]. exists (padd (pmul kl base) (pmul kf base)), x, y. split_and!; try done. rewrite Hd, Hxx. done.
    - exfalso. apply Hnz. by apply (curve_identity _ _ _ Hcv).
  Qed.
End Run.
