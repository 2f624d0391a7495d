(** The histories of the examples about the TLS client, and witnesses. *)
From Verif.Lib Require Import Base.
From Verif Require Import ProofModel CodecModel CodecSpec TlsModel HandshakeModel AttestModel SigAlgModel SigAlgSpec RecordModel
  ClientModel ClientSpec ClientExamples ClientFinal.

(** The backend of the examples is as assumed. *)
Lemma x_since_given log ins outs : (forall m, PushIn m ∉ log) -> (xsince log ins outs).1 = ins \/ (xsince log ins outs).1 = [].
Proof.
  revert ins outs. induction log as [|e log IH]; intros ins outs H; [by left|].
  assert (forall m, PushIn m ∉ log) as H' by (intros m Hm; apply (H m); by right).
  destruct e; try (cbn [xsince]; by apply IH).
  - destruct (H m). by left.
  - cbn [xsince]. destruct log; [by left|]. right. destruct (IH [] [] H'); done.
Qed.
Lemma x_backend debug certs : backend_ok (x_env debug certs).
Proof.
  split; cbn [b_flush x_env]; intros log ins outs H; pose proof (x_since_given log [] []) as Hg; destruct (xsince log [] []) as [i o]; injection H as <- <-.
  - apply Forall_map, Forall_forall. intros m _. unfold bytes_ok. cbn [x_clamp m_payload]. apply Forall_map, Forall_forall.
    intros b _. unfold byte_ok. by apply N.mod_lt.
  - intros Hn. simpl in Hg. by destruct (Hg Hn) as [->| ->].
Qed.
Lemma x_reads : reads_bytes x_good.
Proof.
  assert (forall b, forallb (fun n => (n <? 256)%N) b = true -> bytes_ok b) as H.
  { intros b Hb. apply Forall_forall. intros n Hn. rewrite forallb_forall in Hb. apply elem_of_list_In, Hb, N.ltb_lt in Hn. done. }
  unfold reads_bytes, x_good, x_calls. repeat (apply Forall_cons_2; [first [exact I|apply H; vm_compute; reflexivity]|]). apply Forall_nil_2.
Qed.
Notation xE := (x_env false false).
Lemma x_reached : reached xE (fst (run xE conn_new x_good)).
Proof. exists x_good, (snd (run xE conn_new x_good)). split; [exact x_reads|]. apply surjective_pairing. Qed.

(** The chain is not good; bytes that are no record. *)
Definition ex_bad_chain : list call := x_calls 0xc02b 0x0403 [3]%N None (replicate 12 12%N) [[1]]%N.
Definition ex_bad_bytes : list call := [CallStart; CallReadTls (replicate 5 255%N); CallProcess; CallProcess].
(** The verify data of the server are wrong. *)
Definition ex_bad_vd : list call := x_calls 0xc02b 0x0403 [0]%N None (replicate 12 13%N) [[1]]%N.
(** Two alerts of an unknown level. *)
Definition ex_alerts : list call :=
  [CallStart; CallReadTls (x_wire [Message Alert TLSv1_2 [3; 0]; Message Alert TLSv1_2 [3; 0]])%N; CallProcess].

Lemma reads_check ks : forallb (fun k => match k with CallReadTls b => forallb (fun n => (n <? 256)%N) b | _ => true end) ks = true -> reads_bytes ks.
Proof.
  intros H. apply Forall_forall. intros k Hk. rewrite forallb_forall in H. apply elem_of_list_In, H in Hk. destruct k; try done.
  apply Forall_forall. intros n Hn. rewrite forallb_forall in Hk. apply elem_of_list_In, Hk, N.ltb_lt in Hn. done.
Qed.
Lemma other_error : exists E ks c os, backend_ok E /\ reads_bytes ks /\ run E conn_new (ks ++ [CallProcess; CallProcess]) = (c, os) /\
  exists n, os !! n = Some (Err ECorrupt) /\ os !! S n = Some (Err ENotComplete).
Proof.
  exists xE, [CallStart; CallReadTls (replicate 5 255%N)]. eexists _, _. split; [apply x_backend|]. split.
  { apply reads_check. vm_compute. reflexivity. }
  split; [vm_compute; reflexivity|]. exists 2. done.
Qed.
Lemma encrypted_outer l : Forall outer l -> encrypted l = [].
Proof. induction 1 as [|e l He _ IH]; [done|]. unfold encrypted in *. simpl. rewrite IH. by destruct e. Qed.
Lemma alert_lost : exists E ks c os, backend_ok E /\ reads_bytes ks /\ run E conn_new ks = (c, os) /\
  last os = Some (Err EDecryptError) /\ last (records_out (log_of c)) = Some (true, alert 2 51) /\
  map m_typ (encrypted (log_of c)) = [Handshake] /\
  forall ks' c' os', run E c ks' = (c', os') -> encrypted (log_of c') = encrypted (log_of c).
Proof.
  exists xE, (take 8 ex_bad_vd), (fst (run xE conn_new (take 8 ex_bad_vd))), (snd (run xE conn_new (take 8 ex_bad_vd))).
  split; [apply x_backend|]. split; [apply reads_check; vm_compute; reflexivity|]. split; [apply surjective_pairing|].
  split; [vm_compute; reflexivity|]. split; [vm_compute; reflexivity|]. split; [vm_compute; reflexivity|].
  intros ks' c' os' H. assert (exists e, c_state (fst (run xE conn_new (take 8 ex_bad_vd))) = inl e) as [e He].
  { eexists. vm_compute. reflexivity. }
  destruct (run_failed _ _ _ _ _ _ He H) as (_ & (l & El & Hl) & _). by rewrite El, encrypted_app, (encrypted_outer _ Hl), app_nil_r.
Qed.
Lemma alerts_panic : reads_bytes ex_alerts /\
  Panic ∈ snd (run (x_env true false) conn_new ex_alerts) /\ Panic ∉ snd (run (x_env false false) conn_new ex_alerts).
Proof.
  split; [apply reads_check; vm_compute; reflexivity|].
  assert (snd (run (x_env true false) conn_new ex_alerts) = [Ok tt; Ok tt; Panic]) as -> by (vm_compute; reflexivity).
  assert (snd (run (x_env false false) conn_new ex_alerts) = [Ok tt; Ok tt; Ok tt]) as -> by (vm_compute; reflexivity).
  split; [apply elem_of_list_In; simpl; tauto|]. intros H%elem_of_list_In. simpl in H. naive_solver.
Qed.
Lemma order_panic : 
  Panic ∈ snd (run xE conn_new [CallReadTls (x_wire [Message ChangeCipherSpec TLSv1_2 [1]])%N; CallProcess]) /\
  Panic ∈ snd (run xE conn_new [CallStart; CallStart]).
Proof.
  assert (snd (run xE conn_new [CallReadTls (x_wire [Message ChangeCipherSpec TLSv1_2 [1]])%N; CallProcess]) = [Ok tt; Panic]) as -> by (vm_compute; reflexivity).
  assert (snd (run xE conn_new [CallStart; CallStart]) = [Ok tt; Panic]) as -> by (vm_compute; reflexivity).
  split; apply elem_of_list_In; simpl; tauto.
Qed.
