(** Requests about the connection of ProxVerExamples.v, for the example beside C84. *)
From Verif.Lib Require Import Base Ranges RangesFacts.
From Verif Require Import TranscriptModel TranscriptSpec ProofModel CodecModel AttestModel AttestSpec AttestExamples TlsModel TlsExamples AuthModel AuthSpec AuthExamples TagModel PrfModel VdCheckModel ProxVerModel ProxVerSpec ProxVerExamples ProxVerProofExamples ProxProveModel ProxProveSpec ProxProveLemmas.

Definition q_cfgs : list prove_cfg :=
  [ProveCfg false (Some q_reveal1) (Some q_commits1) xblinders true;
   ProveCfg false (Some q_reveal2) None xblinders false;
   ProveCfg false None (Some q_commits2) xblinders true;
   ProveCfg false (Some q_reveal2) (Some q_commits2) xblinders true].
Lemma q_valid n idx : (idx = [] \/ exists i j, idx = [(i, j)] /\ i < j /\ j <= n) -> valid_idx n idx.
Proof.
  intros [->|(i & j & -> & H1 & H2)].
  - split; [exact I|]. intros i Hi. by apply in_rs_nil in Hi.
  - split; [unfold rs_ok; simpl; lia|]. intros k Hk. apply Exists_cons in Hk as [[? ?]|Hk]; [simpl in *; lia|by apply Exists_nil in Hk].
Qed.
Lemma q_right t : q_t [20;0;0;12]%N = hide 10 t -> data_right q_aes (keys_of q_d) t q_data.
Proof.
  intros E.
  assert (forall d, data_length q_tt d = 3 /\ map (data_at q_aes q_keys q_tt d) (seq 0 3) = map Some (t_data q_data d)) as H
    by (intros []; split; vm_compute; reflexivity).
  assert (q_tt = hide 10 t) as Et by (rewrite <- E; vm_compute; reflexivity). clear E.
  intros d. destruct (H d) as [H1 H2]. rewrite Et, length_hidden in H1. split; [rewrite H1; by destruct d|].
  intros i b Hi. rewrite <- (data_hidden _ _ 10), <- Et.
  assert (i < 3) as Hl by (apply lookup_lt_Some in Hi; by destruct d).
  pose proof (f_equal (fun l => l !! i) H2) as Hx. cbn beta in Hx.
  rewrite !list_lookup_fmap, Hi, lookup_seq_lt in Hx by done. cbn in Hx. by injection Hx.
Qed.
Lemma q_cfgs_ok t : Forall (cfg_ok xhash ex_cv [1]%N 10 t q_data) q_cfgs.
Proof.
  assert (forall e, e ∈ q_commits1 ++ q_commits2 -> valid_idx (length (t_data q_data (fst (fst e)))) (snd (fst e)) /\ xhash (snd e) <> None) as Hc.
  { intros e He. rewrite elem_of_list_In in He. cbn in He.
    destruct He as [<-|[<-|[<-|[]]]]; (split; [apply q_valid; right; eexists _, _; cbn; split; [reflexivity|lia]|done]). }
  assert (forall b, valid_idx 3 (fst (if b : bool then q_reveal1 else q_reveal2)) /\ valid_idx 3 (snd (if b then q_reveal1 else q_reveal2))) as Hr.
  { intros []; split; apply q_valid; (by left) || (right; eexists _, _; cbn; split; [reflexivity|lia]). }
  unfold q_cfgs. repeat (apply List.Forall_cons); [..|apply List.Forall_nil];
    (split; cbn [pg_reveal pg_commits pg_blinders pg_identity];
      [intros s r Hs|intros cs d idx a Hs Hin|intros n; apply replicate_length|done]); try discriminate Hs; injection Hs as <-.
  all: try (subst; (exact (Hr true) || exact (Hr false))).
  all: apply (Hc (d, idx, a)), elem_of_app; (by left) || (by right).
Qed.
