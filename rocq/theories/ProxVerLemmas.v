(** Proofs about the parties of a proxied connection (C81 to C83). *)
From Verif.Lib Require Import Base Ranges.
From Verif Require Import TranscriptModel ProofModel CodecModel CodecSpec CodecLemmas AttestModel TlsModel TlsSpec TlsLemmas AuthModel TagModel TagSpec TagLemmas PrfModel PrfSpec PrfVmLemmas PrfFlushLemmas VdCheckModel VdCheckSpec VdCheckLemmas ProxVerModel ProxVerSpec.

(** The values of the first cells do not depend on later ones. *)
Lemma vm_values_app cs X : exists vs, vm_values (cs ++ X) = vm_values cs ++ vs.
Proof.
  induction X as [|c X IH] using rev_ind; [exists []; by rewrite !app_nil_r|].
  destruct IH as [vs IH]. rewrite app_assoc, vm_values_snoc, IH, <- app_assoc. by eexists.
Qed.
Lemma vm_values_app_l cs X i : i < length cs -> vm_values (cs ++ X) !! i = vm_values cs !! i.
Proof. intros H. destruct (vm_values_app cs X) as [vs ->]. apply lookup_app_l. by rewrite vm_values_length. Qed.
Lemma execute_app cs X sn sn' i : i < length cs -> vm_decoded (vm_execute (Vm (cs ++ X) sn)) i = vm_decoded (vm_execute (Vm cs sn')) i.
Proof. intros H. unfold vm_decoded. cbn [vm_execute vm_seen vm_cells]. by rewrite vm_values_app_l. Qed.

Section Built.
  Context (hash : list N -> list N).
  Context (parse_body : protocol_version -> N -> list N -> option hs_payload) (ec_curve : list N -> option N).
  Lemma record_bound ms app rs : records_of ms app rs -> Forall record_ok ms -> (N.of_nat (length (concat (map wire ms))) < 2 ^ 64)%N ->
    Forall record_sizes_ok rs.
  Proof.
    intros [(before & ccs & fin & after & -> & _ & _ & _ & Ht & Hp) Hs _ _] Hok Hl.
    assert (length rs = length (fin :: after)) as Hlen by (apply (f_equal length) in Ht; by rewrite !map_length in Ht).
    assert (length (fin :: after) <= length (concat (map wire (before ++ [ccs; fin] ++ after)))) as Hle.
    { assert (forall l : list message, length l <= length (concat (map wire l))) as Hw.
      { induction l as [|m l IH]; [done|]. cbn [map concat length]. rewrite app_length. unfold wire at 1. cbn. lia. }
      specialize (Hw (before ++ [ccs; fin] ++ after)). rewrite app_length in Hw. cbn in Hw |- *. lia. }
    apply Forall_lookup. intros i r Hi. split.
    - pose proof (lookup_lt_Some _ _ _ Hi).
      assert ((map r_seq rs) !! i = Some (r_seq r)) as E by (by rewrite list_lookup_fmap, Hi).
      rewrite Hs, list_lookup_fmap, lookup_seq_lt in E by done. cbn in E. injection E as <-. lia.
    - assert ((map wire_payload rs) !! i = Some (wire_payload r)) as E by (by rewrite list_lookup_fmap, Hi).
      rewrite Hp, list_lookup_fmap in E. destruct ((fin :: after) !! i) as [m|] eqn:Em; [|done]. cbn in E. injection E as E.
      assert (record_ok m) as Hm.
      { rewrite Forall_forall in Hok. apply Hok. apply elem_of_list_lookup_2 in Em. apply elem_of_app. right.
        change ([ccs; fin] ++ after) with (ccs :: fin :: after). by apply elem_of_list_further. }
      destruct Hm. apply (f_equal length) in E. unfold wire_payload in E. rewrite !app_length in E. lia.
  Qed.
  Lemma built_records time sent recv app t d : bytes_ok sent -> bytes_ok recv ->
    (N.of_nat (length sent) < 2 ^ 64)%N -> (N.of_nat (length recv) < 2 ^ 64)%N ->
    tls_build hash parse_body ec_curve (prox_builder time sent recv app) = Ok t ->
    Forall record_sizes_ok (tls_dir t d) /\ Forall (fun r => length (r_nonce r) = 8) (tls_dir t d) /\ exists r rs, tls_dir t d = r :: rs.
  Proof.
    intros Hs Hr Hsl Hrl Ht. destruct (C21_lemma hash parse_body ec_curve (prox_builder time sent recv app) t d (match d with Sent => sent | Received => recv end)
      ltac:(by destruct d) ltac:(by destruct d) ltac:(by destruct d) Ht) as (ms & Hl & Hok & Hro).
    split_and!.
    - eapply record_bound; [exact Hro|exact Hok|]. rewrite <- Hl. by destruct d.
    - destruct Hro as [_ _ Hsz _]. eapply Forall_impl; [exact Hsz|]. by intros r [? _].
    - destruct Hro as [(? & ? & ? & ? & _ & _ & _ & _ & H & _) _ _ _]. destruct (tls_dir t d); [done|by eexists _, _].
  Qed.
End Built.

Section ProxVerL.
  Context (sha_iv : list N) (compress : list N -> list N -> list N).
  Context (hash : list N -> list N).
  Context (parse_body : protocol_version -> N -> list N -> option hs_payload) (ec_curve : list N -> option N).
  Context (aes ghash_fn : list N -> list N -> list N).
  Context (compress_length : forall s b, length (compress s b) = 8).
  Context (aes_length : forall k b, length (aes k b) = 16).

  (** The cells of the key derivation with its inputs, and the others with theirs. *)
  Definition small (ms ke cf sf : option (list N)) : list cell :=
    [Given ms; Given (Some (replicate 16 0%N)); Given (Some opad); Computed circ_xor [0; 1; 2];
     Computed (circ_block sha_iv compress) [3]; Given (Some (replicate 16 0%N)); Given (Some ipad); Computed circ_xor [0; 5; 6];
     Computed (circ_block sha_iv compress) [7]; Given ke; Computed (circ_finish compress) [8; 9];
     Computed (circ_finish compress) [4; 10]; Computed (circ_finish compress) [8; 11; 9]; Computed (circ_finish compress) [4; 12];
     Computed (circ_finish compress) [8; 11]; Computed (circ_finish compress) [4; 14]; Computed (circ_finish compress) [8; 15; 9];
     Computed (circ_finish compress) [4; 16]; Given cf; Computed (circ_finish compress) [8; 18];
     Computed (circ_finish compress) [4; 19]; Computed (circ_finish compress) [8; 20; 18]; Computed (circ_finish compress) [4; 21];
     Given sf; Computed (circ_finish compress) [8; 23]; Computed (circ_finish compress) [4; 24];
     Computed (circ_finish compress) [8; 25; 23]; Computed (circ_finish compress) [4; 26]; Computed (circ_merge 40) [13; 17];
     Computed (circ_slice 36 4) [28]; Computed (circ_slice 32 4) [28]; Computed (circ_slice 16 16) [28];
     Computed (circ_slice 0 16) [28]; Computed (circ_merge 12) [22]; Computed (circ_merge 12) [27]].
  Definition extra (ct1 n1 c1 ct2 n2 c2 : option (list N)) : list cell :=
    [Given (Some (replicate 16 0%N)); Computed (circ_ecb aes) [31; 35]; Given ct1; Given n1; Given c1;
     Computed (circ_block_cipher aes) [32; 30; 38; 39]; Computed circ_apply [40; 37]; Given ct2; Given n2; Given c2;
     Computed (circ_block_cipher aes) [31; 29; 43; 44]; Computed circ_apply [45; 42]].
  Definition fn_ke (done : bool) (s : option (list N)) : inner_prf := FNormal (NormalFn label_key done s 9 [13; 17]).
  Definition fn_cf (done : bool) (s : option (list N)) : inner_prf := FNormal (NormalFn label_cf done s 18 [22]).
  Definition fn_sf (done : bool) (s : option (list N)) : inner_prf := FNormal (NormalFn label_sf done s 23 [27]).
  Definition out0 : prf_output := PrfOutput 32 31 30 29 33 34.

  Lemma setup_closed : prf_setup sha_iv compress NetNormal MsDirect =
    Ok (Vm (small None None None None) [], Prf NetNormal MsDirect (PSetup None (fn_ke false None) (fn_cf false None) (fn_sf false None)) None, out0).
  Proof. reflexivity. Qed.
  Definition x0 : prox := Prox (Vm (small None None None None ++ extra None None None None None None) [])
    (Prf NetNormal MsDirect (PSetup None (fn_ke false None) (fn_cf false None) (fn_sf false None)) None) out0 36
    (VdAlloc 38 39 37 33 41) (VdAlloc 43 44 42 34 46).
  Lemma alloc_closed : prox_alloc sha_iv compress aes = Ok x0.
  Proof. reflexivity. Qed.

  (** The first loop of flushes, with any further cells. *)
  Lemma flush1 ms ks cs cr X sn :
    flush_all compress 11 (Vm (small (Some ms) None None None ++ X) sn)
      (Prf NetNormal MsDirect (PSetup None (fn_ke false (Some ks)) (fn_cf false (Some cs)) (fn_sf false None)) cr)
    = Ok (Some (Vm (small (Some ms) (Some ks) (Some cs) None ++ X) (vm_values (small (Some ms) (Some ks) (Some cs) None ++ X)),
        Prf NetNormal MsDirect (PSetup None (fn_ke true (Some ks)) (fn_cf true (Some cs)) (fn_sf false None)) cr)).
  Proof. reflexivity. Qed.
  Lemma flush2 ms ks cs fs cr X sn :
    flush_all compress 11 (Vm (small (Some ms) (Some ks) (Some cs) None ++ X) sn)
      (Prf NetNormal MsDirect (PSetup None (fn_ke true (Some ks)) (fn_cf true (Some cs)) (fn_sf false (Some fs))) cr)
    = Ok (Some (Vm (small (Some ms) (Some ks) (Some cs) (Some fs) ++ X) (vm_values (small (Some ms) (Some ks) (Some cs) (Some fs) ++ X)),
        Prf NetNormal MsDirect PComplete cr)).
  Proof. reflexivity. Qed.

  (** ** Values of the key derivation *)
  Lemma small_derived2 ms cr sr ch sh : length ms = 48 ->
    exists d, is_derived sha_iv compress MsDirect (TlsValues ms cr sr [] ch sh) d /\
      let m := vm_execute (Vm (small (Some ms) (Some (label_key ++ sr ++ cr)) (Some (label_cf ++ ch)) (Some (label_sf ++ sh))) []) in
      vm_decoded m 32 = Some (d_client_key d) /\ vm_decoded m 31 = Some (d_server_key d) /\
      vm_decoded m 30 = Some (d_client_iv d) /\ vm_decoded m 29 = Some (d_server_iv d) /\
      vm_decoded m 33 = Some (d_cf d) /\ vm_decoded m 34 = Some (d_sf d).
  Proof.
    intros Hl. set (v := TlsValues ms cr sr [] ch sh).
    destruct (C49_complete_lemma sha_iv compress compress_length NetNormal MsDirect v
      [CSecret ms; CClientRandom cr; CServerRandom sr; CCfHash ch; CPrfFlush; CExecute; CSfHash sh] _ _ _
      (Vm (small (Some ms) (Some (label_key ++ sr ++ cr)) (Some (label_cf ++ ch)) None) (vm_values (small (Some ms) (Some (label_key ++ sr ++ cr)) (Some (label_cf ++ ch)) None)))
      (Prf NetNormal MsDirect (PSetup None (fn_ke true (Some (label_key ++ sr ++ cr))) (fn_cf true (Some (label_cf ++ ch))) (fn_sf false (Some (label_sf ++ sh)))) (Some cr))
      Hl setup_closed) as (m2 & p2 & d & Hf & Hd & H1 & H2 & H3).
    { repeat constructor. }
    { reflexivity. }
    { eexists. apply elem_of_list_here. }
    { exact I. }
    pose proof (flush2 ms (label_key ++ sr ++ cr) (label_cf ++ ch) (label_sf ++ sh) (Some cr) [] (vm_values (small (Some ms) (Some (label_key ++ sr ++ cr)) (Some (label_cf ++ ch)) None))) as Hf2.
    rewrite !app_nil_r in Hf2. rewrite Hf2 in Hf. injection Hf as <- <-. clear Hf2.
    exists d. split; [exact Hd|]. cbv zeta.
    destruct H1 as (A1 & A2 & A3 & A4). { eexists. do 2 apply elem_of_list_further. apply elem_of_list_here. }
    cbn [out0 po_ck po_sk po_civ po_siv po_cf po_sf] in *. split_and!; [exact A1|exact A2|exact A3|exact A4| |].
    - apply H2. eexists. do 3 apply elem_of_list_further. apply elem_of_list_here.
    - apply H3. eexists. do 6 apply elem_of_list_further. apply elem_of_list_here.
  Qed.
  Lemma small_derived1 ms cr sr ch : length ms = 48 ->
    vm_decoded (vm_execute (Vm (small (Some ms) (Some (label_key ++ sr ++ cr)) (Some (label_cf ++ ch)) None) [])) 33
    = Some (rfc_vd sha_iv compress ms rfc_client_finished ch).
  Proof.
    intros Hl. set (v := TlsValues ms cr sr [] ch []).
    destruct (C49_complete_lemma sha_iv compress compress_length NetNormal MsDirect v
      [CSecret ms; CClientRandom cr; CServerRandom sr; CCfHash ch] _ _ _
      (Vm (small (Some ms) None None None) [])
      (Prf NetNormal MsDirect (PSetup None (fn_ke false (Some (label_key ++ sr ++ cr))) (fn_cf false (Some (label_cf ++ ch))) (fn_sf false None)) (Some cr))
      Hl setup_closed) as (m2 & p2 & d & Hf & Hd & _ & H2 & _).
    { repeat constructor. }
    { reflexivity. }
    { eexists. apply elem_of_list_here. }
    { exact I. }
    pose proof (flush1 ms (label_key ++ sr ++ cr) (label_cf ++ ch) (Some cr) [] []) as Hf2.
    rewrite !app_nil_r in Hf2. rewrite Hf2 in Hf. injection Hf as <- <-. clear Hf2.
    destruct Hd as (_ & _ & _ & _ & _ & Hd & _). cbn [tv_cf_hash v rfc_master tv_secret] in Hd. rewrite <- Hd. apply H2.
    eexists; do 3 apply elem_of_list_further; apply elem_of_list_here.
  Qed.

  (** ** The closed form of [prox_finalize] *)
  Definition ke_of (t : tls_transcript) : list N := label_key ++ cb_server (tt_binding t) ++ cb_client (tt_binding t).
  Definition final_cells (ms : list N) (t : tls_transcript) (ch sh : list N) (r1 r2 : tls_record) : list cell :=
    small (Some ms) (Some (ke_of t)) (Some (label_cf ++ ch)) (Some (label_sf ++ sh)) ++
    extra (Some (r_ct r1)) (Some (r_nonce r1)) (Some start_counter) (Some (r_ct r2)) (Some (r_nonce r2)) (Some start_counter) ++
    [Computed (circ_slice 4 12) [41]; Computed (circ_slice 4 12) [46]].
  Lemma vd_assign_1 ms ke cf sf sn n c : length n = 8 -> length c = 16 ->
    vd_assign (Vm (small ms ke cf sf ++ extra None None None None None None) sn) (VdAlloc 38 39 37 33 41) n c
    = (Vm ((small ms ke cf sf ++ extra (Some c) (Some n) (Some start_counter) None None None) ++ [Computed (circ_slice 4 12) [41]]) sn,
       VdAssigned 33 47, Ok tt).
  Proof. intros H1 H2. unfold vd_assign. rewrite H1, H2. reflexivity. Qed.
  Lemma vd_assign_2 ms ke cf sf a b s sn n c l : length n = 8 -> length c = 16 ->
    vd_assign (Vm ((small ms ke cf sf ++ extra a b s None None None) ++ [l]) sn) (VdAlloc 43 44 42 34 46) n c
    = (Vm (((small ms ke cf sf ++ extra a b s (Some c) (Some n) (Some start_counter)) ++ [l]) ++ [Computed (circ_slice 4 12) [46]]) sn,
       VdAssigned 34 48, Ok tt).
  Proof. intros H1 H2. unfold vd_assign. rewrite H1, H2. reflexivity. Qed.
  Lemma vd_assign_bad m nonce ctr ct e a n c : ~ (length n = 8 /\ length c = 16) ->
    vd_assign m (VdAlloc nonce ctr ct e a) n c = (m, VdAlloc nonce ctr ct e a, Err VdLength).
  Proof.
    intros H. unfold vd_assign. destruct (length n =? 8) eqn:E1; [|done]. destruct (length c =? 16) eqn:E2; [|done].
    apply Nat.eqb_eq in E1, E2. by destruct H.
  Qed.
  Definition sized (r : tls_record) : bool := (length (r_nonce r) =? 8) && (length (r_ct r) =? 16).
  Lemma sized_iff r : sized r = true <-> length (r_nonce r) = 8 /\ length (r_ct r) = 16.
  Proof. unfold sized. by rewrite andb_true_iff, !Nat.eqb_eq. Qed.

  Lemma finalize_closed ms t ch sh r1 s' r2 r' :
    length ms = 48 -> tt_cf_hash t = Some ch ->
    tls_sf_hash hash t (rfc_vd sha_iv compress ms rfc_client_finished ch) = Ok (Some sh) ->
    tt_sent t = r1 :: s' -> tt_recv t = r2 :: r' ->
    prox_finalize compress hash x0 ms t =
      if sized r1 && sized r2
      then Ok (Prox (Vm (final_cells ms t ch sh r1 r2)
                 (vm_values (small (Some ms) (Some (ke_of t)) (Some (label_cf ++ ch)) (Some (label_sf ++ sh)) ++ extra None None None None None None)))
                 (Prf NetNormal MsDirect PComplete (Some (cb_client (tt_binding t)))) out0 36 (VdAssigned 33 47) (VdAssigned 34 48))
      else Err (PvVd VdLength).
  Proof.
    intros Hl Hch Hsh Hs Hr. unfold prox_finalize. rewrite Hl. cbn [negb Nat.eqb]. rewrite Hch. cbn [or_panic obind].
    change (vm_assign (px_vm x0) 0 ms) with (Ok (E:=prf_error) (Vm (small (Some ms) None None None ++ extra None None None None None None) [])).
    cbn [map_err obind x0 px_prf px_out px_cf px_sf px_mac set_client_random set_server_random pf_net pf_ms pf_state pf_random or_panic].
    cbn [set_cf_hash pf_state pf_net pf_ms pf_random map_err obind].
    unfold prox_flush.
    change (fn_set_seed (fn_ke false None) (cb_server (tt_binding t) ++ cb_client (tt_binding t))) with (fn_ke false (Some (ke_of t))).
    change (fn_set_seed (fn_cf false None) ch) with (fn_cf false (Some (label_cf ++ ch))).
    rewrite flush1. cbn [map_err obind opt_err out0 po_cf].
    pose proof (small_derived1 ms (cb_client (tt_binding t)) (cb_server (tt_binding t)) ch Hl) as H1.
    fold (ke_of t) in H1.
    rewrite <- (execute_app _ (extra None None None None None None) [] []) in H1 by (cbn; lia).
    unfold vm_execute at 1 in H1. cbn [vm_cells] in H1. unfold vm_decoded in H1 |- *. cbn [vm_seen] in H1 |- *. rewrite H1.
    cbn [opt_err obind]. rewrite Hsh. cbn [of_panicky obind or_panic set_sf_hash pf_state map_err pf_net pf_ms pf_random].
    change (fn_set_seed (fn_sf false None) sh) with (fn_sf false (Some (label_sf ++ sh))).
    rewrite flush2. cbn [map_err obind opt_err]. rewrite Hs. cbn [first_record obind].
    destruct (sized r1) eqn:E1.
    - apply sized_iff in E1 as [A1 A2]. rewrite vd_assign_1 by done. cbn [map_err obind]. rewrite Hr. cbn [first_record obind].
      destruct (sized r2) eqn:E2; cbn [andb].
      + apply sized_iff in E2 as [B1 B2]. rewrite vd_assign_2 by done. cbn [map_err obind]. unfold final_cells.
        rewrite <- !app_assoc. reflexivity.
      + rewrite vd_assign_bad; [done|]. intros H. apply sized_iff in H. congruence.
    - cbn [andb]. rewrite vd_assign_bad; [done|]. intros H. apply sized_iff in H. congruence.
  Qed.

  (** ** Values of the other cells *)
  Definition hmac_key (d : derived) : list N := aes (d_server_key d) (replicate 16 0%N).
  Lemma final_values ms t ch sh r1 r2 sn : length ms = 48 -> exists d,
    is_derived sha_iv compress MsDirect (TlsValues ms (cb_client (tt_binding t)) (cb_server (tt_binding t)) [] ch sh) d /\
    let m := vm_execute (Vm (final_cells ms t ch sh r1 r2) sn) in
    vm_decoded m 32 = Some (d_client_key d) /\ vm_decoded m 31 = Some (d_server_key d) /\
    vm_decoded m 30 = Some (d_client_iv d) /\ vm_decoded m 29 = Some (d_server_iv d) /\
    vm_decoded m 33 = Some (d_cf d) /\ vm_decoded m 34 = Some (d_sf d) /\ vm_decoded m 36 = Some (hmac_key d) /\
    vm_decoded m 47 = Some (circ_slice 4 12 [circ_apply [circ_block_cipher aes [d_client_key d; d_client_iv d; r_nonce r1; start_counter]; r_ct r1]]) /\
    vm_decoded m 48 = Some (circ_slice 4 12 [circ_apply [circ_block_cipher aes [d_server_key d; d_server_iv d; r_nonce r2; start_counter]; r_ct r2]]).
  Proof.
    intros Hl. destruct (small_derived2 ms (cb_client (tt_binding t)) (cb_server (tt_binding t)) ch sh Hl) as (d & Hd & H).
    exists d. split; [exact Hd|]. cbv zeta in H |- *. fold (ke_of t) in H.
    assert (forall i, i < 35 -> vm_decoded (vm_execute (Vm (final_cells ms t ch sh r1 r2) sn)) i =
      vm_decoded (vm_execute (Vm (small (Some ms) (Some (ke_of t)) (Some (label_cf ++ ch)) (Some (label_sf ++ sh))) [])) i) as Hsm.
    { intros i Hi. apply execute_app. cbn. lia. }
    destruct H as (A1 & A2 & A3 & A4 & A5 & A6).
    rewrite <- Hsm in A1, A2, A3, A4, A5, A6 by lia. clear Hsm.
    set (m := Vm (final_cells ms t ch sh r1 r2) sn) in *.
    assert (vm_decoded (vm_execute m) 35 = Some (replicate 16 0%N)) as B0 by (by apply execute_given).
    assert (vm_decoded (vm_execute m) 36 = Some (hmac_key d)) as B1.
    { unfold hmac_key. apply (execute_computed m 36 (circ_ecb aes) [31; 35] [d_server_key d; replicate 16 0%N]); [done| |].
      - repeat constructor; lia.
      - by repeat (constructor; [done|]). }
    assert (vm_decoded (vm_execute m) 40 = Some (circ_block_cipher aes [d_client_key d; d_client_iv d; r_nonce r1; start_counter])) as B2.
    { apply (execute_computed m 40 (circ_block_cipher aes) [32; 30; 38; 39]); [done| |].
      - repeat constructor; lia.
      - constructor; [done|]. constructor; [done|]. constructor; [by apply execute_given|]. constructor; [by apply execute_given|constructor]. }
    assert (vm_decoded (vm_execute m) 45 = Some (circ_block_cipher aes [d_server_key d; d_server_iv d; r_nonce r2; start_counter])) as B3.
    { apply (execute_computed m 45 (circ_block_cipher aes) [31; 29; 43; 44]); [done| |].
      - repeat constructor; lia.
      - constructor; [done|]. constructor; [done|]. constructor; [by apply execute_given|]. constructor; [by apply execute_given|constructor]. }
    assert (vm_decoded (vm_execute m) 41 = Some (circ_apply [circ_block_cipher aes [d_client_key d; d_client_iv d; r_nonce r1; start_counter]; r_ct r1])) as B4.
    { apply (execute_computed m 41 circ_apply [40; 37]); [done| |].
      - repeat constructor; lia.
      - constructor; [done|]. constructor; [by apply execute_given|constructor]. }
    assert (vm_decoded (vm_execute m) 46 = Some (circ_apply [circ_block_cipher aes [d_server_key d; d_server_iv d; r_nonce r2; start_counter]; r_ct r2])) as B5.
    { apply (execute_computed m 46 circ_apply [45; 42]); [done| |].
      - repeat constructor; lia.
      - constructor; [done|]. constructor; [by apply execute_given|constructor]. }
    split_and!; [exact A1|exact A2|exact A3|exact A4|exact A5|exact A6|exact B1| |].
    - apply (execute_computed m 47 (circ_slice 4 12) [41]); [done| |].
      + repeat constructor; lia.
      + constructor; [done|constructor].
    - apply (execute_computed m 48 (circ_slice 4 12) [46]); [done| |].
      + repeat constructor; lia.
      + constructor; [done|constructor].
  Qed.

  (** ** The transcript *)
  Notation build := (tls_build hash parse_body ec_curve).
  Lemma built_hashes time sent recv app t : build (prox_builder time sent recv app) = Ok t ->
    (exists ch, tt_cf_hash t = Some ch) /\ (forall vd, exists sh, tls_sf_hash hash t vd = Ok (Some sh)) /\ tt_time t = time.
  Proof.
    intros Ht. pose proof Ht as (sr & rr & Hs & Hr & _ & _ & Htime & H)%build_inv. cbn [prox_builder tb_tls_sent tb_tls_recv tb_time] in *.
    injection Htime as <-.
    apply parse_opt_inv in Hs as (s & -> & _). apply parse_opt_inv in Hr as (r & -> & _).
    destruct H as (v & c & sg & bd & cf & se & i & _ & _ & _ & _ & _ & H1 & _ & H2). split_and!; [by eexists| |done].
    intros vd. pose proof (C22_accessors_lemma hash parse_body ec_curve _ _ Ht) as (_ & _ & Hn). specialize (Hn vd).
    unfold tls_sf_hash in Hn |- *. rewrite H2 in Hn |- *.
    destruct (or_panic (slice (sf_sent i) 0 _)) as [s1| |]; try done. cbn [obind] in *.
    destruct (or_panic (slice (sf_recv i) 0 _)) as [r1| |]; try done. cbn [obind] in *.
    destruct (or_panic (slice (sf_sent i) _ _)) as [s2| |]; try done. cbn [obind] in *.
    destruct (or_panic (slice (sf_recv i) _ _)) as [r2| |]; try done. cbn [obind] in *. by eexists.
  Qed.

  (** ** The verifier *)
  Lemma check_iff m e a x y : vm_decoded m e = Some x -> vm_decoded m a = Some y -> vd_check m (VdAssigned e a) = Ok tt <-> x = y.
  Proof. intros Hx Hy. cbn. rewrite Hx, Hy. by destruct (decide (x = y)). Qed.
  Lemma check_total m e a x y : vm_decoded m e = Some x -> vm_decoded m a = Some y ->
    vd_check m (VdAssigned e a) = Ok tt \/ vd_check m (VdAssigned e a) = Err VdFailed.
  Proof. intros Hx Hy. cbn. rewrite Hx, Hy. destruct (decide (x = y)); auto. Qed.
  Lemma slice_iff k v n c vd : length n = 8 -> length c = 16 ->
    vd = circ_slice 4 12 [circ_apply [circ_block_cipher aes [k; v; n; start_counter]; c]] <-> decrypts aes k v n c vd.
  Proof.
    intros Hn Hc. pose proof (slice_decrypts aes aes_length k v n c Hn Hc) as H. split; [by intros ->|].
    intros H'. by eapply decrypts_unique.
  Qed.
  Lemma derived_unique v d d' : is_derived sha_iv compress MsDirect v d -> is_derived sha_iv compress MsDirect v d' -> d = d'.
  Proof.
    intros (A1 & A2 & A3 & A4 & A5 & A6 & A7) (B1 & B2 & B3 & B4 & B5 & B6 & B7). destruct d as [x1 x2 x3 x4 x5 x6], d' as [y1 y2 y3 y4 y5 y6].
    cbn [d_client_key d_server_key d_client_iv d_server_iv d_cf d_sf] in *.
    rewrite <- B5 in A5. apply app_inj_1 in A5 as [-> A5]; [|congruence]. apply app_inj_1 in A5 as [-> A5]; [|congruence].
    apply app_inj_1 in A5 as [-> ->]; [|congruence]. congruence.
  Qed.
  Lemma keys_unique ms t d d' :
    connection_keys sha_iv compress hash ms t d -> connection_keys sha_iv compress hash ms t d' -> d = d'.
  Proof.
    intros (c & s & H1 & H2 & H3) (c' & s' & H1' & H2' & H3'). assert (c' = c) as -> by congruence.
    assert (d_cf d = d_cf d') as E.
    { destruct H3 as (_ & _ & _ & _ & _ & -> & _), H3' as (_ & _ & _ & _ & _ & -> & _). done. }
    rewrite E, H2' in H2. injection H2 as ->. by eapply derived_unique.
  Qed.

  (** Everything about the finalization of a transcript that was built. *)
  Lemma finalize_built ms time sent recv app t : length ms = 48 -> bytes_ok sent -> bytes_ok recv ->
    (N.of_nat (length sent) < 2 ^ 64)%N -> (N.of_nat (length recv) < 2 ^ 64)%N ->
    build (prox_builder time sent recv app) = Ok t ->
    exists d r1 s' r2 r', connection_keys sha_iv compress hash ms t d /\ tt_sent t = r1 :: s' /\ tt_recv t = r2 :: r' /\
      length (r_nonce r1) = 8 /\ length (r_nonce r2) = 8 /\
      match prox_finalize compress hash x0 ms t with
      | Ok x => let m := vm_execute (px_vm x) in
          length (r_ct r1) = 16 /\ length (r_ct r2) = 16 /\ prox_keys m x = Ok (keys_of d, hmac_key d) /\
          (vd_check m (px_cf x) = Ok tt <-> decrypts aes (d_client_key d) (d_client_iv d) (r_nonce r1) (r_ct r1) (d_cf d)) /\
          (vd_check m (px_sf x) = Ok tt <-> decrypts aes (d_server_key d) (d_server_iv d) (r_nonce r2) (r_ct r2) (d_sf d)) /\
          vd_check m (px_cf x) <> Panic /\ vd_check m (px_sf x) <> Panic
      | Err e => e = PvVd VdLength /\ ~ (length (r_ct r1) = 16 /\ length (r_ct r2) = 16)
      | Panic => False
      end.
  Proof.
    intros Hl Hs Hr Hsl Hrl Ht. pose proof (built_hashes _ _ _ _ _ Ht) as ((ch & Hch) & Hsh & _).
    destruct (Hsh (rfc_vd sha_iv compress ms rfc_client_finished ch)) as (sh & Hsf).
    destruct (built_records hash parse_body ec_curve time sent recv app t Sent Hs Hr Hsl Hrl Ht) as (_ & N1 & r1 & s' & E1).
    destruct (built_records hash parse_body ec_curve time sent recv app t Received Hs Hr Hsl Hrl Ht) as (_ & N2 & r2 & r' & E2).
    cbn [tls_dir] in *. rewrite E1 in N1. rewrite E2 in N2. apply Forall_cons in N1 as [N1 _], N2 as [N2 _].
    rewrite (finalize_closed ms t ch sh r1 s' r2 r' Hl Hch Hsf E1 E2).
    destruct (final_values ms t ch sh r1 r2 (vm_values (small (Some ms) (Some (ke_of t)) (Some (label_cf ++ ch)) (Some (label_sf ++ sh)) ++ extra None None None None None None)) Hl)
      as (d & Hd & V1 & V2 & V3 & V4 & V5 & V6 & V7 & V8 & V9).
    exists d, r1, s', r2, r'. split; [|split; [exact E1|split; [exact E2|split; [exact N1|split; [exact N2|]]]]].
    - exists ch, sh. split_and!; [done| |exact Hd]. destruct Hd as (_ & _ & _ & _ & _ & -> & _). exact Hsf.
    - destruct (sized r1 && sized r2) eqn:Esz.
      + apply andb_true_iff in Esz as [[_ Z1]%sized_iff [_ Z2]%sized_iff]. cbv zeta. cbn [px_vm px_cf px_sf].
        set (m := vm_execute _) in *.
        split; [exact Z1|]. split; [exact Z2|]. split.
        { unfold prox_keys. cbn [px_out out0 po_ck po_sk po_civ po_siv px_mac]. rewrite V1, V2, V3, V4, V7. done. }
        rewrite (check_iff _ _ _ _ _ V5 V8), (check_iff _ _ _ _ _ V6 V9), !slice_iff by done.
        split; [done|]. split; [done|].
        split; [destruct (check_total _ _ _ _ _ V5 V8) as [-> | ->]|destruct (check_total _ _ _ _ _ V6 V9) as [-> | ->]]; done.
      + split; [done|]. intros [Z1 Z2].
        rewrite (proj2 (sized_iff r1) (conj N1 Z1)), (proj2 (sized_iff r2) (conj N2 Z2)) in Esz. discriminate Esz.
  Qed.

  Section Bounds.
    Context (ms : list N) (time : N) (sent recv : list N).
    Context (Hl : length ms = 48) (Hs : bytes_ok sent) (Hr : bytes_ok recv).
    Context (Hsl : (N.of_nat (length sent) < 2 ^ 64)%N) (Hrl : (N.of_nat (length recv) < 2 ^ 64)%N).
    Lemma C81_accepts_lemma keys t :
      prox_commit sha_iv compress hash parse_body ec_curve aes ghash_fn ms time sent recv = Ok (keys, t) <->
      build (prox_builder time sent recv None) = Ok t /\
      exists d, connection_keys sha_iv compress hash ms t d /\ connection_right aes ghash_fn t d /\ keys = keys_of d.
    Proof.
      unfold prox_commit. rewrite alloc_closed. cbn [obind].
      destruct (build (prox_builder time sent recv None)) as [t'| |] eqn:Ht; cbn [map_err obind]; [|by split; [|intros [? _]]..].
      destruct (finalize_built _ _ _ _ _ _ Hl Hs Hr Hsl Hrl Ht) as (d & r1 & s' & r2 & r' & Hk & E1 & E2 & N1 & N2 & H).
      destruct (built_records hash parse_body ec_curve time sent recv None t' Received Hs Hr Hsl Hrl Ht) as (Hsz & _). cbn [tls_dir] in Hsz.
      assert (forall d', connection_right aes ghash_fn t' d' ->
        decrypts aes (d_client_key d') (d_client_iv d') (r_nonce r1) (r_ct r1) (d_cf d') /\ length (r_ct r1) = 16 /\
        decrypts aes (d_server_key d') (d_server_iv d') (r_nonce r2) (r_ct r2) (d_sf d') /\ length (r_ct r2) = 16 /\
        Forall (tag_right aes ghash_fn (d_server_key d') (d_server_iv d') (hmac_key d') (tt_version t')) (tt_recv t')) as Hright.
      { intros d' ((f1 & l1 & F1 & L1 & D1) & (f2 & l2 & F2 & L2 & D2) & T). rewrite E1 in F1. rewrite E2 in F2.
        injection F1 as <- <-. injection F2 as <- <-. done. }
      destruct (prox_finalize compress hash x0 ms t') as [x|e|]; [|destruct H as [-> H]|done].
      - cbv zeta in H. destruct H as (Z1 & Z2 & HK & H1 & H2 & _). cbn [obind]. rewrite HK. cbn [obind].
        pose proof (check_record_tags_iff aes ghash_fn (d_server_key d) (d_server_iv d) (hmac_key d) (tt_version t') _ Hsz) as HT.
        cbn [keys_of sk_server_key sk_server_iv].
        split.
        + intros H. apply obind_Ok in H as ([] & H & H'). apply obind_Ok in H' as ([] & H' & H''). apply obind_Ok in H'' as ([] & H'' & [= <- <-]).
          split; [done|]. exists d. split; [exact Hk|]. split; [|done].
          assert (forall E E' (f : E -> E') o, map_err f o = Ok tt -> o = Ok tt) as Hme by (by intros E E' f [[]| |]).
          apply Hme in H, H', H''. apply HT in H. apply H1 in H'. apply H2 in H''.
          split; [by exists r1, s'|]. split; [by exists r2, r'|]. exact H.
        + intros [[= <-] (d' & Hk' & Hc & ->)]. assert (d' = d) as -> by (by eapply keys_unique). apply Hright in Hc as (D1 & _ & D2 & _ & T).
          apply HT in T. apply H1 in D1. apply H2 in D2. rewrite T. cbn [map_err obind]. rewrite D1. cbn [map_err obind]. by rewrite D2.
      - cbn [obind]. split; [done|]. intros [[= <-] (d' & _ & Hc & _)]. exfalso. apply Hright in Hc as (_ & L1 & _ & L2 & _). by apply H.
    Qed.
  End Bounds.

  Lemma C81_errors_lemma ms time sent recv : length ms = 48 -> bytes_ok sent -> bytes_ok recv ->
    (N.of_nat (length sent) < 2 ^ 64)%N -> (N.of_nat (length recv) < 2 ^ 64)%N ->
    match prox_commit sha_iv compress hash parse_body ec_curve aes ghash_fn ms time sent recv with
    | Ok _ => True
    | Err e => match e with PvTranscript _ | PvVd _ | PvTag _ => True | _ => False end
    | Panic => False
    end.
  Proof.
    intros Hl Hs Hr Hsl Hrl. unfold prox_commit. rewrite alloc_closed. cbn [obind].
    pose proof (build_no_panic hash parse_body ec_curve (prox_builder time sent recv None) ltac:(done) ltac:(done)) as Hnp.
    destruct (build (prox_builder time sent recv None)) as [t| |] eqn:Ht; cbn [map_err obind]; [|exact I|done].
    destruct (finalize_built _ _ _ _ _ _ Hl Hs Hr Hsl Hrl Ht) as (d & r1 & s' & r2 & r' & Hk & E1 & E2 & N1 & N2 & H).
    destruct (prox_finalize compress hash x0 ms t) as [x|e|]; [|destruct H as [-> H]; exact I|done].
    cbv zeta in H. destruct H as (_ & _ & HK & _ & _ & H1 & H2). cbn [obind]. rewrite HK. cbn [obind].
    pose proof (check_record_tags_no_panic aes ghash_fn (sk_server_key (keys_of d)) (sk_server_iv (keys_of d)) (hmac_key d) (tt_version t) (tt_recv t)) as H3.
    destruct (check_record_tags _ _ _ _ _ _ _) as [[]| |]; [|exact I|done]. cbn [map_err obind].
    destruct (vd_check _ (px_cf x)) as [[]| |]; [|exact I|done]. cbn [map_err obind].
    destruct (vd_check _ (px_sf x)) as [[]| |]; [|exact I|done]. exact I.
  Qed.

  (** ** The traffic *)
  Lemma run_generic {A} (f : N -> list N -> list N -> outcome pv_error A) prover server r :
    (fun o => let! (sent, recv, time) := of_panicky o in f time sent recv) <$> proxy_traffic prover server = Some (Ok r) <->
    exists sent recv time, stream_of prover sent /\ stream_of server recv /\ first_time prover time /\ f time sent recv = Ok r.
  Proof.
    split.
    - destruct (proxy_traffic prover server) as [o|] eqn:E; [|done]. cbn. intros [= H]. apply obind_Ok in H as ([[a b] time] & Ho & H).
      destruct o as [o| |]; [|done..]. injection Ho as ->. apply C55_traffic_lemma in E as (H1 & H2 & H3). by exists a, b, time.
    - intros (a & b & time & H1 & H2 & H3 & H). destruct H3 as (x & bs & rest & ->).
      assert (a <> []) as Ha. { inversion H1; subst. by intros [? _]%app_eq_nil. }
      destruct (C55_goes_on_lemma _ _ _ _ H1 H2 Ha) as (time' & E). rewrite E. cbn.
      apply C55_traffic_lemma in E as (_ & _ & (y & ys & rest' & [= -> -> -> ->])). by rewrite H.
  Qed.
  Lemma run_generic_panic {A} (f : N -> list N -> list N -> outcome pv_error A) (P : pv_error -> Prop) prover server :
    (forall a b time, stream_of prover a -> stream_of server b -> match f time a b with Ok _ => True | Err e => P e | Panic => False end) ->
    match (fun o => let! (sent, recv, time) := of_panicky o in f time sent recv) <$> proxy_traffic prover server with
    | Some Panic => stream_of prover [] | Some (Err e) => P e | _ => True end.
  Proof.
    intros Hf. destruct (proxy_traffic prover server) as [o|] eqn:E; [|exact I]. cbn.
    destruct o as [[[a b] time]|[]|]; cbn [of_panicky obind].
    - apply C55_traffic_lemma in E as (H1 & H2 & _). specialize (Hf a b time H1 H2). by destruct (f time a b).
    - unfold proxy_traffic in E. destruct (inspect_copy inspect_new prover) as [[p fp] pf] eqn:Ep.
      destruct (inspect_copy inspect_new server) as [[s fs] sf] eqn:Es. destruct (pf && sf) eqn:Hf2; [|done].
      apply andb_true_iff in Hf2 as [-> ->]. injection E as E. pose proof (inspect_copy_fin _ _ _ _ Ep) as Sp.
      apply inspect_copy_time in Ep as Tp. destruct (in_first p) as [t2|]; [done|]. by subst fp.
  Qed.
  Lemma C81_run_lemma ms prover server keys t : length ms = 48 -> reads_ok prover server ->
    prox_run sha_iv compress hash parse_body ec_curve aes ghash_fn ms prover server = Some (Ok (keys, t)) <->
    exists sent recv time d, stream_of prover sent /\ stream_of server recv /\ first_time prover time /\
      build (prox_builder time sent recv None) = Ok t /\
      connection_keys sha_iv compress hash ms t d /\ connection_right aes ghash_fn t d /\ keys = keys_of d.
  Proof.
    intros Hl Hok. unfold prox_run. rewrite run_generic. split.
    - intros (a & b & time & H1 & H2 & H3 & H). destruct (Hok a (or_introl H1)) as [Ha Hal]. destruct (Hok b (or_intror H2)) as [Hb Hbl].
      apply C81_accepts_lemma in H as (Ht & d & H); [|done..]. by exists a, b, time, d.
    - intros (a & b & time & d & H1 & H2 & H3 & Ht & H). destruct (Hok a (or_introl H1)) as [Ha Hal]. destruct (Hok b (or_intror H2)) as [Hb Hbl].
      exists a, b, time. split_and!; try done. apply C81_accepts_lemma; [done..|]. split; [done|]. by exists d.
  Qed.
  Lemma C81_run_errors_lemma ms prover server : length ms = 48 -> reads_ok prover server ->
    match prox_run sha_iv compress hash parse_body ec_curve aes ghash_fn ms prover server with
    | Some Panic => stream_of prover []
    | Some (Err e) => match e with PvTranscript _ | PvVd _ | PvTag _ => True | _ => False end
    | _ => True
    end.
  Proof.
    intros Hl Hok. unfold prox_run.
    apply (run_generic_panic (prox_commit sha_iv compress hash parse_body ec_curve aes ghash_fn ms)
      (fun e => match e with PvTranscript _ | PvVd _ | PvTag _ => True | _ => False end)).
    intros a b time H1 H2. destruct (Hok a (or_introl H1)) as [Ha Hal]. destruct (Hok b (or_intror H2)) as [Hb Hbl].
    exact (C81_errors_lemma ms time a b Hl Ha Hb Hal Hbl).
  Qed.

  (** ** A full handshake *)
  Lemma C81_full_handshake_lemma ms time sent recv keys t h : length ms = 48 -> bytes_ok sent -> bytes_ok recv ->
    (N.of_nat (length sent) < 2 ^ 64)%N -> (N.of_nat (length recv) < 2 ^ 64)%N ->
    full_handshake_ok h -> carries sent (client_messages h) -> carries recv (server_messages h) ->
    prox_commit sha_iv compress hash parse_body ec_curve aes ghash_fn ms time sent recv = Ok (keys, t) ->
    exists d,
      is_derived sha_iv compress MsDirect
        (TlsValues ms (cb_client (tt_binding t)) (cb_server (tt_binding t)) []
           (hash (msgs_wire (until_client_finished h))) (hash (msgs_wire (until_server_finished h (d_cf d))))) d /\
      connection_right aes ghash_fn t d /\ keys = keys_of d.
  Proof.
    intros Hl Hs Hr Hsl Hrl Hh C1 C2 H. apply C81_accepts_lemma in H as (Ht & d & (ch & sh & K1 & K2 & K3) & Hc & ->); [|done..].
    exists d. split; [|done].
    destruct (C23_finished_lemma hash parse_body ec_curve (prox_builder time sent recv None) t h sent recv Hh eq_refl eq_refl C1 C2 Ht) as [F1 F2].
    rewrite F1 in K1. injection K1 as <-. rewrite F2 in K2.
    - injection K2 as <-. exact K3.
    - destruct Hc as ((f & l & _ & _ & (hd & _ & Hlen & _)) & _). exact Hlen.
  Qed.

  (** ** The prover *)
  Lemma split_hidden seq typ p r : split_into_record seq typ p = Ok r -> hide_record r = r.
  Proof.
    unfold split_into_record. destruct (_ <? _); [done|]. intros H. apply obind_Ok in H as (n & _ & H). apply obind_Ok in H as (c & _ & H).
    by apply obind_Ok in H as (g & _ & [= <-]).
  Qed.
  Lemma traffic_hidden rs : forall seq app l, parse_traffic seq rs app = Ok l -> parse_traffic seq rs None = Ok (map hide_record l).
  Proof.
    induction rs as [|r rs IH]; intros seq app l H; cbn [parse_traffic] in *; [by injection H as <-|].
    destruct (split_into_record seq (m_typ r) (m_payload r)) as [x| |] eqn:E; [|done..]. cbn [obind] in *. apply split_hidden in E.
    assert (forall app' l', parse_traffic (seq + 1) rs app' = Ok l' -> (let! rest := parse_traffic (seq + 1) rs None in Ok (x :: rest)) = Ok (x :: map hide_record l')) as Hrest.
    { intros app' l' Hl. by rewrite (IH _ _ _ Hl). }
    assert ((match r_typ x, None (A := list N) with
             | ApplicationData, Some data =>
                 if length (r_ct x) <=? length data then
                   let! rest := parse_traffic (seq + 1) rs (Some (drop (length (r_ct x)) data)) in
                   Ok (TlsRecord (r_seq x) (r_typ x) (Some (take (length (r_ct x)) data)) (r_nonce x) (r_ct x) (r_tag x) :: rest)
                 else Err TParse
             | _, _ => let! rest := parse_traffic (seq + 1) rs None in Ok (x :: rest)
             end) = (let! rest := parse_traffic (seq + 1) rs None in Ok (x :: rest))) as -> by (by destruct (r_typ x)).
    assert (forall app', (let! rest := parse_traffic (seq + 1) rs app' in Ok (x :: rest)) = Ok l ->
      (let! rest := parse_traffic (seq + 1) rs None in Ok (x :: rest)) = Ok (map hide_record l)) as Hplain.
    { intros app' H'. apply obind_Ok in H' as (l' & Hl & [= <-]). cbn [map]. rewrite E. by apply (Hrest app'). }
    destruct app as [data|].
    - destruct (r_typ x) eqn:Et; try (by apply (Hplain (Some data))). destruct (_ <=? _); [|done].
      apply obind_Ok in H as (l' & Hl & [= <-]). cbn [map]. apply Hrest in Hl. rewrite Hl. do 2 f_equal. rewrite <- E. unfold hide_record. cbn. by rewrite Et.
    - apply (Hplain None). by destruct (r_typ x).
  Qed.
  Lemma records_hidden rs app l : parse_records rs app = Ok l -> parse_records rs None = Ok (map hide_record l).
  Proof.
    unfold parse_records. destruct (ccs_position rs) as [n|]; [|done]. destruct (rs !! (n + 1)) as [raw|]; [|done].
    destruct (split_into_record 0 (m_typ raw) (m_payload raw)) as [f| |] eqn:E; [|done..]. cbn [obind]. destruct (negb _); [done|].
    intros H. apply obind_Ok in H as (l' & Hl & [= <-]). apply traffic_hidden in Hl. rewrite Hl. cbn [obind map].
    by rewrite (split_hidden _ _ _ _ E).
  Qed.
  Lemma seq_hidden l : validate_seq (map hide_record l) = validate_seq l.
  Proof.
    induction l as [|a l IH]; [done|]. destruct l as [|b l]; [done|].
    change (validate_seq (map hide_record (a :: b :: l))) with
      (if (r_seq b <=? r_seq a)%N then Err TValidation else validate_seq (map hide_record (b :: l))).
    rewrite IH. done.
  Qed.
  Lemma build_hidden time time' sent recv app t :
    build (prox_builder time sent recv (Some app)) = Ok t -> build (prox_builder time' sent recv None) = Ok (hide time' t).
  Proof.
    assert (forall raw ap f l, build_records parse_body None raw ap f = Ok l -> build_records parse_body None raw None f = Ok (map hide_record l)) as Hb.
    { intros raw ap f l. unfold build_records. destruct raw as [raw|]; [|done]. intros H. apply obind_Ok in H as (l' & Hl & H).
      apply obind_Ok in H as ([] & Hv & [= <-]). apply records_hidden in Hl. rewrite Hl. cbn [obind]. by rewrite seq_hidden, Hv. }
    unfold tls_build, prox_builder. cbn [tb_time tb_tls_sent tb_tls_recv tb_app_sent tb_app_recv tb_records_sent tb_records_recv tb_version tb_signature tb_certs tb_binding opt_err obind fmap option_fmap option_map].
    intros H. apply obind_Ok in H as (s & Hs & H). apply obind_Ok in H as (r & Hr & H). rewrite Hs. cbn [obind]. rewrite Hr. cbn [obind].
    apply obind_Ok in H as ([[[[v sg] c] bd] hs] & Hc & H). rewrite Hc. cbn [obind].
    apply obind_Ok in H as (l1 & H1 & H). apply obind_Ok in H as (l2 & H2 & H).
    apply Hb in H1, H2. rewrite H1. cbn [obind]. rewrite H2. cbn [obind].
    apply obind_Ok in H as (v' & Hv & H). rewrite Hv. cbn [obind]. apply obind_Ok in H as (b' & Hbd & [= <-]). rewrite Hbd. done.
  Qed.
  Lemma keys_hidden ms time t d : connection_keys sha_iv compress hash ms t d -> connection_keys sha_iv compress hash ms (hide time t) d.
  Proof. intros (c & s & H1 & H2 & H3). by exists c, s. Qed.

  Lemma right_hidden time t d : connection_right aes ghash_fn (hide time t) d <-> connection_right aes ghash_fn t d.
  Proof.
    assert (forall key iv vd rs, finished_right aes key iv vd (map hide_record rs) <-> finished_right aes key iv vd rs) as Hf.
    { intros key iv vd rs. split.
      - intros (f & l & H & L & D). destruct rs as [|r rs]; [done|]. injection H as <- <-. by exists r, rs.
      - intros (f & l & -> & L & D). by exists (hide_record f), (map hide_record l). }
    unfold connection_right. cbn [hide tt_sent tt_recv tt_version]. by rewrite !Hf, Forall_map.
  Qed.
  Lemma prover_inv ms time sent recv a b keys t data : length ms = 48 -> bytes_ok sent -> bytes_ok recv ->
    (N.of_nat (length sent) < 2 ^ 64)%N -> (N.of_nat (length recv) < 2 ^ 64)%N ->
    prox_prover sha_iv compress hash parse_body ec_curve aes ms time sent recv a b = Ok (keys, t, data) ->
    build (prox_builder time sent recv (Some (a, b))) = Ok t /\ to_transcript t = Ok data /\
    exists d, connection_keys sha_iv compress hash ms t d /\ keys = keys_of d.
  Proof.
    intros Hl Hs Hr Hsl Hrl. unfold prox_prover. rewrite alloc_closed. cbn [obind].
    destruct (build (prox_builder time sent recv (Some (a, b)))) as [t'| |] eqn:Ht; cbn [map_err obind]; [|done..].
    destruct (finalize_built _ _ _ _ _ _ Hl Hs Hr Hsl Hrl Ht) as (d & r1 & s' & r2 & r' & Hk & E1 & E2 & N1 & N2 & H).
    destruct (prox_finalize compress hash x0 ms t') as [x|e|]; [|done..].
    cbv zeta in H. destruct H as (_ & _ & HK & _). cbn [obind]. rewrite HK. cbn [obind].
    intros H. apply obind_Ok in H as (n & _ & H). apply obind_Ok in H as (dt & Hd & [= <- <- <-]).
    destruct (to_transcript t') as [dt'| |]; [|done..]. injection Hd as ->. split; [done|]. split; [done|]. by exists d.
  Qed.
  Lemma C82_agree_lemma ms time time' sent recv a b keys t data keys' t' : length ms = 48 -> bytes_ok sent -> bytes_ok recv ->
    (N.of_nat (length sent) < 2 ^ 64)%N -> (N.of_nat (length recv) < 2 ^ 64)%N ->
    prox_prover sha_iv compress hash parse_body ec_curve aes ms time sent recv a b = Ok (keys, t, data) ->
    prox_commit sha_iv compress hash parse_body ec_curve aes ghash_fn ms time' sent recv = Ok (keys', t') ->
    keys' = keys /\ t' = hide time' t.
  Proof.
    intros Hl Hs Hr Hsl Hrl H1 H2. apply prover_inv in H1 as (B1 & _ & d & K1 & ->); [|done..].
    apply C81_accepts_lemma in H2 as (B2 & d' & K2 & _ & ->); [|done..].
    pose proof (build_hidden _ time' _ _ _ _ B1) as B3. rewrite B2 in B3. injection B3 as ->. split; [|done].
    f_equal. eapply keys_unique; [exact K2|]. by apply keys_hidden.
  Qed.
  (** The prover's keys and transcript are right: then the verifier accepts. *)
  Lemma C82_accepts_lemma ms time time' sent recv a b keys t data : length ms = 48 -> bytes_ok sent -> bytes_ok recv ->
    (N.of_nat (length sent) < 2 ^ 64)%N -> (N.of_nat (length recv) < 2 ^ 64)%N ->
    prox_prover sha_iv compress hash parse_body ec_curve aes ms time sent recv a b = Ok (keys, t, data) ->
    (forall d, connection_keys sha_iv compress hash ms t d -> connection_right aes ghash_fn t d) ->
    prox_commit sha_iv compress hash parse_body ec_curve aes ghash_fn ms time' sent recv = Ok (keys, hide time' t).
  Proof.
    intros Hl Hs Hr Hsl Hrl H1 Hc. apply prover_inv in H1 as (B1 & _ & d & K1 & ->); [|done..].
    apply C81_accepts_lemma; [done..|]. split; [by eapply build_hidden|]. exists d. split; [by apply keys_hidden|]. split; [|done].
    by apply right_hidden, Hc.
  Qed.
End ProxVerL.
