(** Lemmas about sessions. *)
From Verif.Lib Require Import Base.
From Verif Require Import SessModel SessSpec.

Section L.
  Context {R I IO : Type} (M : mux R I IO).
  Notation sys := (sys R IO). Notation sop := (sop I).

  Lemma srun_snoc s l o : srun M s (l ++ [o]) =
    match sstep M (srun M s l) o with Some s' => s' | None => srun M s l end.
  Proof. unfold srun. by rewrite fold_left_app. Qed.
  Lemma srun_app s l l' : srun M s (l ++ l') = srun M (srun M s l) l'.
  Proof. unfold srun. by rewrite fold_left_app. Qed.

  Lemma srun_ind (P : sys -> Prop) c : P (sys_new c) ->
    (forall s o s', P s -> sstep M s o = Some s' -> P s') -> forall l, P (srun M (sys_new c) l).
  Proof.
    intros H0 Hs l. induction l as [|o l IH] using rev_ind; [done|]. rewrite srun_snoc.
    destruct (sstep M (srun M (sys_new c) l) o) eqn:E; [|done]. by eapply Hs.
  Qed.

  Lemma snoc_split {A} (l : list A) e l1 x l2 : l ++ [e] = l1 ++ x :: l2 ->
    (l2 = [] /\ l = l1 /\ e = x) \/ exists l2', l2 = l2' ++ [e] /\ l = l1 ++ x :: l2'.
  Proof.
    destruct l2 as [|y l2 _] using rev_ind.
    - intros [-> [= ->]]%app_inj_tail. by left.
    - rewrite app_comm_cons, app_assoc. intros [-> ->]%app_inj_tail. right. eauto.
  Qed.
  Lemma last_poll_app l n after es : last_poll l n after -> (forall m, @EPollBegin IO m ∉ es) -> last_poll (l ++ es) n (after ++ es).
  Proof.
    intros (b & -> & H) He. exists b. split; [by rewrite <-app_assoc|]. intros m [?|?]%elem_of_app; [by apply (H m)|by apply (He m)].
  Qed.

  (** ** The request to close is not lost *)
  Definition inv (s : sys) : Prop :=
    (s_pub s = true <-> ECloseRet ∈ s_log s) /\
    (s_pub s = true -> s_flag s = true) /\
    (CStored ∈ s_closers s -> s_flag s = true) /\
    (s_pc s = DStored true -> s_pub s = true) /\
    ((s_polls s = 0 /\ never_polled (s_log s) /\ s_slot s = None /\ s_pc s = DIdle) \/
     exists after, last_poll (s_log s) (s_polls s) after /\
       (s_slot s = Some (s_polls s) \/ (s_slot s = None /\ EWake (s_polls s) ∈ after)) /\
       (s_pub s = true -> EWake (s_polls s) ∈ after \/ s_pc s = DStored true \/ s_conn s = None \/
          exists n, EClose n ∈ s_log s)).
  Ltac no_begin := let m := fresh in let H := fresh in intros m H;
    repeat (apply elem_of_cons in H as [H|H]; [discriminate H|]); by apply elem_of_nil in H.
  Ltac in_snoc := rewrite ?elem_of_app, ?elem_of_cons, ?elem_of_nil.
  Lemma inv_step s o s' : inv s -> sstep M s o = Some s' -> inv s'.
  Proof.
    intros (I1 & I2 & I3 & I4 & I5) H.
    destruct o as [|stale|x| |k]; cbn [sstep] in H.
    - destruct (s_pc s) eqn:Epc; try done. injection H as <-. unfold inv. cbn. split_and!; try done.
      + rewrite elem_of_app, elem_of_list_singleton. naive_solver.
      + by intros [= ?].
      + right. exists []. split; [eexists; split; [reflexivity|no_begin]|]. split; [by left|].
        intros Hp. right. left. by rewrite Hp.
    - destruct (s_pc s) as [|seen|] eqn:Epc; try done.
      destruct I5 as [(_ & _ & _ & ?)|(after & Hl & Hw & Hp)]; [done|].
      destruct (s_conn s) as [r|] eqn:Ec.
      + destruct (s_flag s && (seen || negb stale)) eqn:Ef; injection H as <-; unfold inv; cbn.
        * split_and!; try done; [rewrite elem_of_app, elem_of_list_singleton; naive_solver|].
          right. exists (after ++ [EClose (s_polls s)]). split; [apply last_poll_app; [done|no_begin]|]. split.
          { rewrite elem_of_app. naive_solver. }
          intros _. right. right. right. exists (s_polls s). apply elem_of_app. right. by left.
        * split_and!; try done. right. exists after. split_and!; [done|done|].
          intros Hp'. destruct (Hp Hp') as [?|[[= ->]|[?|?]]]; try naive_solver.
          rewrite (I2 Hp') in Ef. by cbn in Ef.
      + injection H as <-; unfold inv; cbn.
        split_and!; try done; [rewrite elem_of_app, elem_of_list_singleton; naive_solver|].
        right. exists (after ++ [EResult (s_polls s) DErrGone]). split; [apply last_poll_app; [done|no_begin]|].
        rewrite elem_of_app. split; [naive_solver|]. intros _. by right; right; left.
    - destruct (s_pc s) as [|seen|] eqn:Epc; try done.
      destruct I5 as [(_ & _ & _ & ?)|(after & Hl & Hw & Hp)]; [done|].
      assert (Hgen : exists c y, (c = None \/ (s_conn s <> None)) /\
         s' = Sys (s_flag s) (s_slot s) (s_pub s) c DIdle (s_polls s) (s_closers s) (s_log s ++ [EConnPoll (s_polls s); EResult (s_polls s) y])).
      { destruct (s_conn s) as [r|]; [|injection H as <-; eexists _, _; split; [by left|reflexivity]].
        destruct (m_poll M x r) as [[] r']; injection H as <-; eexists _, _; (split; [|reflexivity]); auto. }
      destruct Hgen as (c & y & Hc & ->). clear H. unfold inv; cbn.
      split_and!; try done; [rewrite elem_of_app, !elem_of_cons, elem_of_nil; naive_solver|].
      right. eexists. split; [apply last_poll_app; [done|no_begin]|]. rewrite elem_of_app. split; [naive_solver|].
      intros Hp'. destruct (Hp Hp') as [?|[[=]|[?|[n Hn]]]]; [by left; left|destruct Hc as [->|?]; [by right; right; left|done]|].
      right. right. right. exists n. apply elem_of_app. by left.
    - assert (s' = Sys true (s_slot s) (s_pub s) (s_conn s) (s_pc s) (s_polls s) (s_closers s ++ [CStored]) (s_log s ++ [ECloseCall])) as ->
        by (destruct (s_pc s); congruence). clear H. unfold inv; cbn.
      split_and!; try done; [rewrite elem_of_app, elem_of_list_singleton; naive_solver|].
      destruct I5 as [(? & Hn & ? & ?)|(after & Hl & Hw & Hp)].
      + left. split_and!; try done. intros m [?|Hm%elem_of_list_singleton]%elem_of_app; [by apply (Hn m)|done].
      + right. exists (after ++ [ECloseCall]). split; [apply last_poll_app; [done|no_begin]|]. rewrite elem_of_app.
        split; [naive_solver|]. intros Hp'. destruct (Hp Hp') as [?|[?|[?|[n Hn]]]]; [by left; left|by right; left|by right; right; left|].
        right. right. right. exists n. apply elem_of_app. by left.
    - assert (Hk : exists st, s_closers s !! k = Some st /\ st = CStored).
      { destruct (s_closers s !! k) as [[]|]; destruct (s_pc s); naive_solver. }
      destruct Hk as (? & Hk & ->). rewrite Hk in H.
      assert (s' = Sys (s_flag s) None true (s_conn s) (s_pc s) (s_polls s) (<[k := CDone]> (s_closers s))
                    (s_log s ++ match s_slot s with Some w => [EWake w] | None => [] end ++ [ECloseRet])) as ->
        by (destruct (s_pc s); congruence). clear H. unfold inv; cbn.
      assert (Hf : s_flag s = true) by (apply I3; by eapply elem_of_list_lookup_2).
      split_and!; try done; [split; [|done]; intros _; rewrite !elem_of_app, elem_of_list_singleton; tauto|].
      destruct I5 as [(? & Hn & Hs & ?)|(after & Hl & Hw & Hp)].
      + left. split_and!; try done. rewrite Hs. intros m Hm. cbn in Hm. apply elem_of_app in Hm as [?|Hm%elem_of_list_singleton]; [by apply (Hn m)|done].
      + right. exists (after ++ match s_slot s with Some w => [EWake w] | None => [] end ++ [ECloseRet]).
        split; [apply last_poll_app; [done|]; destruct (s_slot s); no_begin|].
        assert (Hwk : EWake (s_polls s) ∈ after ++ match s_slot s with Some w => [EWake w] | None => [] end ++ [ECloseRet]).
        { rewrite !elem_of_app. destruct Hw as [->|[-> ?]]; [right; left; by left|by left]. }
        split; [by right|]. intros _. by left.
  Qed.
  Lemma inv_new c : inv (sys_new c).
  Proof.
    unfold inv, sys_new. cbn. split_and!; try done; [|by intros ?%elem_of_nil|].
    - split; [done|by intros ?%elem_of_nil].
    - left. split_and!; try done. by intros m ?%elem_of_nil.
  Qed.
  Lemma inv_run c l : inv (srun M (sys_new c) l).
  Proof. apply srun_ind; [apply inv_new|]. intros. by eapply inv_step. Qed.

  Lemma not_lost_lemma c l s r : s = srun M (sys_new c) l ->
    ECloseRet ∈ s_log s -> s_pc s = DIdle -> s_conn s = Some r ->
    (exists n, EClose n ∈ s_log s) \/ never_polled (s_log s) \/
    (exists n after, last_poll (s_log s) n after /\ EWake n ∈ after).
  Proof.
    intros -> H1 H2 H3. destruct (inv_run c l) as (I1 & _ & _ & _ & I5).
    apply I1 in H1. destruct I5 as [(_ & ? & _)|(after & Hl & _ & Hp)]; [by right; left|].
    destruct (Hp H1) as [?|[?|[?|?]]]; [right; right; eauto|congruence|congruence|by left].
  Qed.

  Lemma closers_keep s l : Forall closer_step l ->
    let s' := srun M s l in s_conn s' = s_conn s /\ s_pc s' = s_pc s /\ (s_flag s = true -> s_flag s' = true).
  Proof.
    induction l as [|o l IH] using rev_ind; [done|]. intros [Hl Ho]%Forall_app. apply Forall_cons in Ho as [Ho _].
    destruct (IH Hl) as (E1 & E2 & E3). cbv zeta. rewrite srun_snoc.
    destruct o as [|?|?| |k]; try done; cbn [sstep].
    - destruct (s_closers (srun M s l) !! k) as [[]|]; cbn [s_conn s_pc s_flag]; done.
  Qed.
  Lemma next_poll_lemma c l s r l' stale : s = srun M (sys_new c) l ->
    ECloseRet ∈ s_log s -> s_pc s = DIdle -> s_conn s = Some r -> Forall closer_step l' ->
    s_conn (srun M s (PollBegin :: l' ++ [PollLoad stale])) = Some (m_close M r) /\
    s_pc (srun M s (PollBegin :: l' ++ [PollLoad stale])) = DLoaded.
  Proof.
    intros -> H1 H2 H3 Hl'. destruct (inv_run c l) as (I1 & I2 & _). set (s := srun M (sys_new c) l) in *.
    apply I1 in H1. change (PollBegin :: l' ++ [PollLoad stale]) with ([PollBegin] ++ l' ++ [PollLoad stale]).
    rewrite srun_app.
    assert (Hb : srun M s [PollBegin] = Sys (s_flag s) (Some (S (s_polls s))) (s_pub s) (s_conn s) (DStored true) (S (s_polls s))
      (s_closers s) (s_log s ++ [EPollBegin (S (s_polls s))])).
    { unfold srun. cbn [fold_left sstep]. by rewrite H2, H1. }
    rewrite Hb. clear Hb. match goal with |- context [srun M ?x (l' ++ _)] => set (s0 := x) end.
    destruct (closers_keep s0 l' Hl') as (E1 & E2 & E3). rewrite srun_snoc. set (s1 := srun M s0 l') in *.
    change (s_conn s0) with (s_conn s) in E1. change (s_pc s0) with (DStored true) in E2. specialize (E3 (I2 H1)).
    cbn [sstep]. rewrite E2, E1, H3, E3. done.
  Qed.

  Lemma asked_lemma c l : let s := srun M (sys_new c) l in
    (s_flag s = true -> ECloseCall ∈ s_log s) /\
    forall n l1 l2, s_log s = l1 ++ EClose n :: l2 -> ECloseCall ∈ l1.
  Proof.
    cbv zeta. apply (srun_ind (fun s => (s_flag s = true -> ECloseCall ∈ s_log s) /\
      forall n l1 l2, s_log s = l1 ++ EClose n :: l2 -> ECloseCall ∈ l1)).
    - split; [done|]. intros n l1 l2 H. by destruct l1.
    - intros s o s' [A B] H.
      assert (Hq : forall e, (forall n, e <> EClose n) -> forall n l1 l2, s_log s ++ [e] = l1 ++ EClose n :: l2 -> ECloseCall ∈ l1).
      { intros e He n l1 l2 [(_ & _ & ->)|(l2' & _ & E)]%snoc_split; [exfalso; by apply (He n)|by apply (B n l1 l2')]. }
      assert (Hq2 : forall e e', (forall n, e <> EClose n) -> (forall n, e' <> EClose n) -> forall n l1 l2, s_log s ++ [e; e'] = l1 ++ EClose n :: l2 -> ECloseCall ∈ l1).
      { intros e e' He He' n l1 l2. change [e; e'] with ([e] ++ [e']). rewrite app_assoc.
        intros [(_ & _ & ->)|(l2' & _ & E)]%snoc_split; [exfalso; by apply (He' n)|by apply (Hq e He n l1 l2')]. }
      destruct o as [|stale|x| |k]; cbn [sstep] in H.
      + destruct (s_pc s); try done. injection H as <-. cbn. split; [intros; apply elem_of_app; left; auto|by apply Hq].
      + destruct (s_pc s) as [|seen|]; try done. destruct (s_conn s).
        * destruct (s_flag s && (seen || negb stale)) eqn:Ef; injection H as <-; cbn; [|done].
          apply andb_true_iff in Ef as [Ef _]. split; [intros; apply elem_of_app; left; auto|].
          intros n l1 l2 [(_ & <- & _)|(l2' & _ & E)]%snoc_split; [auto|by apply (B n l1 l2')].
        * injection H as <-; cbn. split; [intros; apply elem_of_app; left; auto|by apply Hq].
      + destruct (s_pc s); try done.
        assert (s_flag s' = s_flag s /\ exists y, s_log s' = s_log s ++ [EConnPoll (s_polls s); EResult (s_polls s) y]) as (-> & y & ->).
        { destruct (s_conn s) as [r|]; [|injection H as <-; cbn; eauto]. destruct (m_poll M x r) as [[] ?]; injection H as <-; cbn; eauto. }
        split; [intros; apply elem_of_app; left; auto|by apply Hq2].
      + assert (s_log s' = s_log s ++ [ECloseCall]) as -> by (destruct (s_pc s); injection H as <-; done).
        split; [intros; apply elem_of_app; right; by left|by apply Hq].
      + assert (Hk : s_closers s !! k = Some CStored) by (destruct (s_closers s !! k) as [[]|]; destruct (s_pc s); done).
        rewrite Hk in H.
        assert (s_flag s' = s_flag s /\ s_log s' = s_log s ++ match s_slot s with Some w => [EWake w] | None => [] end ++ [ECloseRet]) as (-> & ->)
          by (destruct (s_pc s); injection H as <-; done).
        split; [intros; apply elem_of_app; left; auto|]. destruct (s_slot s); [by apply Hq2|by apply Hq].
  Qed.

  (** ** Results of the driver *)
  Definition rinv (r0 : option R) (s : sys) : Prop :=
    (s_pc s = DLoaded -> s_conn s <> None) /\
    (forall n, EResult n DPanic ∉ s_log s) /\
    (s_conn s <> None -> forall n y, EResult n y ∈ s_log s -> ~ final y /\ y <> DErrGone) /\
    (s_conn s = None -> r0 <> None -> exists n y, EResult n y ∈ s_log s /\ final y) /\
    (forall l1 l2 n y, s_log s = l1 ++ EResult n y :: l2 ->
       (final y -> s_conn s = None /\ forall m z, EResult m z ∈ l2 -> z = DErrGone) /\
       (y = DErrGone -> r0 <> None -> exists m z, EResult m z ∈ l1 /\ final z)).
  Lemma rinv_log r0 s s' es : rinv r0 s -> s_log s' = s_log s ++ es -> s_conn s' = None <-> s_conn s = None ->
    (forall n y, EResult n y ∉ es) -> (s_pc s' = DLoaded -> s_conn s' <> None) -> rinv r0 s'.
  Proof.
    intros (A & B & C & D & E) El Ec Hes Hpc. unfold rinv. rewrite El. split_and!.
    - done.
    - intros n [?|?]%elem_of_app; [by apply (B n)|by apply (Hes n DPanic)].
    - intros Hn n y [?|?]%elem_of_app; [apply (C ltac:(tauto) n y); done|by destruct (Hes n y)].
    - intros Hc Hr. destruct (D ltac:(tauto) Hr) as (n & y & ? & ?). exists n, y. split; [|done]. apply elem_of_app. by left.
    - clear El. revert s' Ec Hpc. induction es as [|e es IH] using rev_ind; intros s' Ec Hpc l1 l2 n y H.
      + rewrite app_nil_r in H. destruct (E l1 l2 n y H) as [E1 E2]. split; [|done]. intros Hf. destruct (E1 Hf). split; [tauto|done].
      + rewrite app_assoc in H. apply snoc_split in H as [(_ & _ & ->)|(l2' & -> & H)].
        * destruct (Hes n y). apply elem_of_app. right. by left.
        * assert (Hes' : forall n y, EResult n y ∉ es) by (intros n' y' Hin; apply (Hes n' y'), elem_of_app; by left).
          destruct (IH Hes' s' Ec Hpc l1 l2' n y H) as [E1 E2]. split; [|done]. intros Hf. destruct (E1 Hf) as [? E1']. split; [done|].
          intros m z [?|Hz%elem_of_list_singleton]%elem_of_app; [by eapply E1'|].
          destruct (Hes m z). apply elem_of_app. right. rewrite Hz. by left.
  Qed.
  (** A step whose last event is a result. *)
  Lemma rinv_result r0 s es n y c s' : rinv r0 s -> s_log s' = s_log s ++ es ++ [EResult n y] -> s_conn s' = c -> s_pc s' = DIdle ->
    (forall n y, EResult n y ∉ es) ->
    (s_conn s = None -> y = DErrGone /\ c = None) ->
    (s_conn s <> None -> y <> DPanic /\ y <> DErrGone /\ (final y <-> c = None)) -> rinv r0 s'.
  Proof.
    intros HI El Ec Ep Hes H1 H2.
    assert (HI' : rinv r0 (Sys (s_flag s) (s_slot s) (s_pub s) (s_conn s) DIdle (s_polls s) (s_closers s) (s_log s ++ es))).
    { eapply (rinv_log r0 s _ es); [done|done|done|done|done]. }
    destruct HI' as (A & B & C & D & E). cbn in *. unfold rinv. rewrite El, Ec, Ep, app_assoc.
    assert (Hdec : s_conn s = None \/ s_conn s <> None) by (destruct (s_conn s); [by right|by left]).
    split_and!.
    - done.
    - intros m [?|Hm%elem_of_list_singleton]%elem_of_app; [by apply (B m)|]. injection Hm as -> <-.
      destruct Hdec as [Hd|Hd]; [by destruct (H1 Hd)|]. by destruct (H2 Hd).
    - intros Hc m z. destruct Hdec as [Hd|Hd]; [by destruct (H1 Hd)|]. destruct (H2 Hd) as (? & ? & Hf).
      intros [?|Hm%elem_of_list_singleton]%elem_of_app; [by apply (C Hd m z)|]. injection Hm as -> ->. tauto.
    - intros Hc Hr. destruct Hdec as [Hd|Hd].
      + destruct (D Hd Hr) as (m & z & ? & ?). exists m, z. split; [|done]. apply elem_of_app. by left.
      + destruct (H2 Hd) as (_ & _ & Hf). exists n, y. split; [|tauto]. apply elem_of_app. right. by left.
    - intros l1 l2 m z [(-> & <- & [= -> ->])|(l2' & -> & H)]%snoc_split.
      + split.
        * intros Hf. split; [|by intros ?? ?%elem_of_nil]. destruct Hdec as [Hd|Hd]; [by destruct (H1 Hd)|].
          destruct (H2 Hd) as (_ & _ & Hf'). tauto.
        * intros -> Hr. destruct Hdec as [Hd|Hd]; [|by destruct (H2 Hd) as (_ & ? & _)]. by apply D.
      + destruct (E l1 l2' m z H) as [E1 E2]. split; [|done]. intros Hf. destruct (E1 Hf) as [Hd E1'].
        destruct (H1 Hd) as [-> ->]. split; [done|]. intros m' z' [?|Hz%elem_of_list_singleton]%elem_of_app; [by eapply E1'|].
        by injection Hz.
  Qed.
  Lemma rinv_run r0 l : rinv r0 (srun M (sys_new r0) l).
  Proof.
    apply srun_ind.
    - unfold rinv, sys_new. cbn. split_and!; try done; try (by intros ? ?%elem_of_nil).
      + by intros _ n y ?%elem_of_nil.
      + intros l1 l2 n y H. by destruct l1.
    - intros s o s' HI H. destruct o as [|stale|x| |k]; cbn [sstep] in H.
      + destruct (s_pc s) eqn:Ep; try done. injection H as <-. eapply (rinv_log r0 s _ [EPollBegin (S (s_polls s))]); try done.
        intros n y ?%elem_of_list_singleton. done.
      + destruct (s_pc s) as [|seen|] eqn:Ep; try done. destruct (s_conn s) as [r|] eqn:Ec.
        * destruct (s_flag s && (seen || negb stale)); injection H as <-.
          -- eapply (rinv_log r0 s _ [EClose (s_polls s)]); try done; [cbn; by rewrite Ec|].
             intros n y ?%elem_of_list_singleton. done.
          -- eapply (rinv_log r0 s _ []); try done; [cbn; by rewrite app_nil_r|cbn; by rewrite Ec|].
             intros n y ?%elem_of_nil. done.
        * injection H as <-. eapply (rinv_result r0 s [] (s_polls s) DErrGone None); try done.
          by intros ?? ?%elem_of_nil.
      + destruct (s_pc s) eqn:Ep; try done.
        assert (Hn : s_conn s <> None) by (by apply HI). destruct (s_conn s) as [r|] eqn:Ec; [|done].
        assert (Hgen : exists c y, y <> DPanic /\ y <> DErrGone /\ (final y <-> c = None) /\
           s' = Sys (s_flag s) (s_slot s) (s_pub s) c DIdle (s_polls s) (s_closers s) (s_log s ++ [EConnPoll (s_polls s); EResult (s_polls s) y])).
        { destruct (m_poll M x r) as [[] r']; injection H as <-; eexists _, _; (split_and!; [| | |reflexivity]);
            try done; destruct (m_take M r'); done. }
        destruct Hgen as (c & y & ? & ? & ? & ->). eapply (rinv_result r0 s [EConnPoll (s_polls s)] (s_polls s) y c); try done.
        * intros n z ?%elem_of_list_singleton. done.
        * by rewrite Ec.
      + assert (s' = Sys true (s_slot s) (s_pub s) (s_conn s) (s_pc s) (s_polls s) (s_closers s ++ [CStored]) (s_log s ++ [ECloseCall])) as ->
          by (destruct (s_pc s); congruence).
        eapply (rinv_log r0 s _ [ECloseCall]); try done; [|apply HI]. intros n z ?%elem_of_list_singleton. done.
      + assert (Hk : s_closers s !! k = Some CStored) by (destruct (s_closers s !! k) as [[]|]; destruct (s_pc s); done).
        rewrite Hk in H.
        assert (s' = Sys (s_flag s) None true (s_conn s) (s_pc s) (s_polls s) (<[k := CDone]> (s_closers s))
                    (s_log s ++ match s_slot s with Some w => [EWake w] | None => [] end ++ [ECloseRet])) as ->
          by (destruct (s_pc s); congruence).
        eapply rinv_log; [done|reflexivity|done| |apply HI].
        intros n y Hin. destruct (s_slot s); repeat (apply elem_of_cons in Hin as [Hin|Hin]; [discriminate Hin|]); by apply elem_of_nil in Hin.
  Qed.
  Lemma no_panic_lemma c l n : EResult n DPanic ∉ s_log (srun M (sys_new c) l).
  Proof. apply (rinv_run c l). Qed.
  Lemma final_lemma r l l1 l2 n y : s_log (srun M (sys_new (Some r)) l) = l1 ++ EResult n y :: l2 ->
    (final y -> forall m z, EResult m z ∈ l2 -> z = DErrGone) /\
    (y = DErrGone -> exists m z, EResult m z ∈ l1 /\ final z).
  Proof.
    intros H. destruct (rinv_run (Some r) l) as (_ & _ & _ & _ & E). destruct (E l1 l2 n y H) as [E1 E2]. split.
    - intros Hf. by apply E1.
    - intros Hy. by apply E2.
  Qed.
  Lemma gives_lemma c l n : gives_back M -> EResult n DErrTake ∉ s_log (srun M (sys_new c) l).
  Proof.
    intros Hg. apply (srun_ind (fun s => EResult n DErrTake ∉ s_log s)); [by intros ?%elem_of_nil|].
    intros s o s' HI H Hin. apply HI. clear HI. destruct o as [|stale|x| |k]; cbn [sstep] in H.
    - destruct (s_pc s); try done. injection H as <-. cbn in Hin. apply elem_of_app in Hin as [?|?%elem_of_list_singleton]; done.
    - destruct (s_pc s) as [|seen|]; try done. destruct (s_conn s).
      + destruct (s_flag s && (seen || negb stale)); injection H as <-; cbn in Hin; [|done].
        apply elem_of_app in Hin as [?|?%elem_of_list_singleton]; done.
      + injection H as <-. cbn in Hin. apply elem_of_app in Hin as [?|?%elem_of_list_singleton]; done.
    - destruct (s_pc s); try done. destruct (s_conn s) as [r|].
      + destruct (m_poll M x r) as [[] r'] eqn:Em; injection H as <-; cbn in Hin;
          rewrite elem_of_app, !elem_of_cons, elem_of_nil in Hin; destruct Hin as [?|[[=]|[E|[]]]]; try done; try discriminate E.
        destruct (Hg x r r' Em) as [io Eio]. rewrite Eio in E. discriminate E.
      + injection H as <-; cbn in Hin. rewrite elem_of_app, !elem_of_cons, elem_of_nil in Hin. by destruct Hin as [?|[[=]|[[=]|[]]]].
    - assert (s_log s' = s_log s ++ [ECloseCall]) as El by (destruct (s_pc s); injection H as <-; done).
      rewrite El in Hin. apply elem_of_app in Hin as [?|?%elem_of_list_singleton]; done.
    - assert (Hk : s_closers s !! k = Some CStored) by (destruct (s_closers s !! k) as [[]|]; destruct (s_pc s); done).
      rewrite Hk in H.
      assert (s_log s' = s_log s ++ match s_slot s with Some w => [EWake w] | None => [] end ++ [ECloseRet]) as El
        by (destruct (s_pc s); injection H as <-; done).
      rewrite El in Hin. apply elem_of_app in Hin as [?|Hin]; [done|]. exfalso.
      destruct (s_slot s); repeat (apply elem_of_cons in Hin as [Hin|Hin]; [discriminate Hin|]); by apply elem_of_nil in Hin.
  Qed.

  (** ** The session as a whole *)
  Lemma sess_run_cons c a l : sess_run M c (a :: l) =
    ((sess_run M (sess_call M c a).1 l).1, (sess_call M c a).2 :: (sess_run M (sess_call M c a).1 l).2).
  Proof. cbn [sess_run]. destruct (sess_call M c a) as [c1 y]. cbn. by destruct (sess_run M c1 l). Qed.
  Lemma sess_gone l : sess_run M None l =
    (None, map (fun a => match a with SIsClosed => RBool false | SClose => RUnit | STake => RTakeGone | SPoll _ => RPollGone end) l).
  Proof. induction l as [|a l IH]; [done|]. rewrite sess_run_cons. by destruct a; cbn [sess_call fst snd]; rewrite IH. Qed.
  Lemma sess_app c l l' : sess_run M c (l ++ l') =
    ((sess_run M (sess_run M c l).1 l').1, (sess_run M c l).2 ++ (sess_run M (sess_run M c l).1 l').2).
  Proof.
    revert c. induction l as [|a l IH]; intros c; [cbn; apply surjective_pairing|].
    rewrite <-app_comm_cons, !sess_run_cons, IH. done.
  Qed.
  Lemma take_lemma l : forall r c ys, sess_run M (Some r) l = (c, ys) -> c = None <-> exists io, RTakeOk io ∈ ys.
  Proof.
    induction l as [|a l IH]; intros r c ys.
    - intros [= <- <-]. split; [done|]. by intros (? & ?%elem_of_nil).
    - rewrite sess_run_cons. intros [= <- <-].
      assert (Hkeep : forall r' y, sess_call M (Some r) a = (Some r', y) -> (forall io, y <> RTakeOk io) ->
        (sess_run M (sess_call M (Some r) a).1 l).1 = None <-> exists io, RTakeOk io ∈ (sess_call M (Some r) a).2 :: (sess_run M (sess_call M (Some r) a).1 l).2).
      { intros r' y -> Hy. cbn [fst snd]. rewrite (IH r' _ _ (surjective_pairing _)). setoid_rewrite elem_of_cons.
        split; [naive_solver|]. intros (io & [E|?]); [exfalso; by apply (Hy io)|eauto]. }
      destruct a as [| | |x]; cbn [sess_call] in *.
      + by eapply Hkeep.
      + by eapply Hkeep.
      + destruct (m_take M r) as [io|] eqn:Et; [|by eapply Hkeep].
        cbn [fst snd]. rewrite sess_gone. cbn. split; [|done]. intros _. exists io. by left.
      + destruct (m_poll M x r) as [y r'] eqn:Em. by eapply Hkeep.
  Qed.
  Lemma after_take_lemma r l l' c ys io : sess_run M (Some r) l = (c, ys) -> RTakeOk io ∈ ys ->
    sess_run M (Some r) (l ++ l') =
      (None, ys ++ map (fun a => match a with SIsClosed => RBool false | SClose => RUnit | STake => RTakeGone | SPoll _ => RPollGone end) l').
  Proof.
    intros H Hio. assert (c = None) as -> by (apply (take_lemma l r c ys H); eauto).
    rewrite sess_app, H. cbn [fst snd]. by rewrite sess_gone.
  Qed.
End L.
