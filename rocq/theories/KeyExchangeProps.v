(** C50: the two-party key exchange. *)
From Coq Require Import ZArith.
From Verif.Lib Require Import Base.
From Verif Require Import CodecModel RecordModel PrfModel KeyExchangeModel KeyExchangeSpec KeyExchangeLemmas KeyExchangeRunLemmas.

(** The parties' shares add up to the x-coordinate of the sum of their points. *)
Theorem C50_shares_add_up_to_the_x_coordinate : forall cv ql qf,
  honest_converter cv -> field ql.1 -> field ql.2 -> field qf.1 -> field qf.2 -> ql.1 <> qf.1 ->
  exists sl sf, derive_x_coord_shares cv ql qf = Ok (sl, sf) /\ sum_x ql qf ((sl + sf) mod p256)%Z.
Proof. exact derive_ok. Qed.
Print Assumptions C50_shares_add_up_to_the_x_coordinate.

(** For points with the same x-coordinate, one of the parties panics, although the sum may be a point. *)
Theorem C50_equal_x_coordinates_do_not_panic_refuted : forall cv ql qf,
  honest_converter cv -> field ql.1 -> field ql.2 -> field qf.1 -> field qf.2 -> ql.1 = qf.1 ->
  derive_x_coord_shares cv ql qf = Panic.
Proof. exact derive_equal. Qed.
Print Assumptions C50_equal_x_coordinates_do_not_panic_refuted.

(** An exchange with a server whose secret is [ks]: all steps succeed for both parties, the leader gets the client's public
    key, and the pre-master secret is the x-coordinate of the server's secret times that key. *)
Theorem C50_honest_exchange_yields_the_shared_secret :
  forall (point : Type) (padd : point -> point -> point) pzero coords base cv0 cv1 kl kf ks ql qf,
  curve_ok padd pzero coords -> honest_converter cv0 -> honest_converter cv1 ->
  coords (pmul padd pzero kl (pmul padd pzero ks base)) = Some ql ->
  coords (pmul padd pzero kf (pmul padd pzero ks base)) = Some qf -> ql.1 <> qf.1 ->
  let calls := exchange_calls (pmul padd pzero ks base) (pmul padd pzero ks base) in
  let '(k, os) := ke_run padd pzero coords base cv0 cv1 (ke_new kl kf) calls in
  let '(k2, _) := ke_run padd pzero coords base cv0 cv1 (ke_new kl kf) (take 2 calls) in
  os = [Ok 5] ++ replicate 9 (Ok 0) /\
  exists client_key x y, kp_client_key padd pzero coords base (ke_l k2) = Ok client_key /\
    client_key = padd (pmul padd pzero kl base) (pmul padd pzero kf base) /\
    coords (pmul padd pzero ks client_key) = Some (x, y) /\ vm_decoded (ke_vm k) 5 = Some (be 32 (Z.to_N x)).
Proof. exact @C50_honest_lemma. Qed.
Print Assumptions C50_honest_exchange_yields_the_shared_secret.

(** Whatever calls are made in whatever order, and whoever else uses the machine: if both parties assigned their shares and one of
    them finished, then the pre-master secret is the x-coordinate of the sum of both parties' points, for the server keys they had
    when they computed the shares. *)
Theorem C50_finished_exchange_yields_the_sum :
  forall (point : Type) (padd : point -> point -> point) pzero coords base cv0 cv1 kl kf cs r k os pms i,
  curve_ok padd pzero coords -> honest_converter cv0 -> honest_converter cv1 ->
  ke_run padd pzero coords base cv0 cv1 (ke_new kl kf) (cs ++ [KcFinalize r]) = (k, os ++ [Ok 0]) ->
  ok_at cs os i KcAlloc pms -> (forall r, exists j, ok_at cs os j (KcAssign r) 0) ->
  exists j sl sf ql qf x, i < j /\ ok_at cs os j KcCompute 0 /\
    server_key (take j cs) Leader = Some sl /\ server_key (take j cs) Follower = Some sf /\
    coords (pmul padd pzero kl sl) = Some ql /\ coords (pmul padd pzero kf sf) = Some qf /\ ql.1 <> qf.1 /\
    sum_x ql qf x /\ vm_decoded (ke_vm k) pms = Some (be 32 (Z.to_N x)).
Proof. exact @C50_sound_lemma. Qed.
Print Assumptions C50_finished_exchange_yields_the_sum.

(** Whatever the converters do, an exchange is finished only if both computations give the same pre-master secret. *)
Theorem C50_check_compares_both_results :
  forall (point : Type) (padd : point -> point -> point) pzero coords base cv0 cv1 kl kf cs r k os pms i,
  ke_run padd pzero coords base cv0 cv1 (ke_new kl kf) (cs ++ [KcFinalize r]) = (k, os ++ [Ok 0]) ->
  ok_at cs os i KcAlloc pms -> (forall r, exists j, ok_at cs os j (KcAssign r) 0) ->
  exists j l0 f0 l1 f1, i < j /\ ok_at cs os j KcCompute 0 /\ shares_at padd pzero coords cv0 cv1 kl kf cs j l0 f0 l1 f1 /\
    ((l0 + f0) mod p256 = (l1 + f1) mod p256)%Z /\ vm_decoded (ke_vm k) pms = Some (share_bytes ((l0 + f0) mod p256)%Z).
Proof. exact @C50_finalize_lemma. Qed.
Print Assumptions C50_check_compares_both_results.

(** If they differ, both parties get an error, and otherwise both finish. *)
Theorem C50_check_is_exact :
  forall (point : Type) (padd : point -> point -> point) pzero coords base cv0 cv1 kl kf sl sf ql qf l0 f0 l1 f1,
  coords (pmul padd pzero kl sl) = Some ql -> coords (pmul padd pzero kf sf) = Some qf ->
  derive_x_coord_shares cv0 ql qf = Ok (l0, f0) -> derive_x_coord_shares cv1 ql qf = Ok (l1, f1) ->
  exists k os, ke_run padd pzero coords base cv0 cv1 (ke_new kl kf) (exchange_calls sl sf) = (k, os) /\
    os = [Ok 5] ++ replicate 7 (Ok 0) ++
         (if decide ((l0 + f0) mod p256 = (l1 + f1) mod p256)%Z then [Ok 0; Ok 0] else [Err KeShareConversion; Err KeShareConversion]) /\
    vm_decoded (ke_vm k) 5 = Some (share_bytes ((l0 + f0) mod p256)%Z).
Proof. exact @C50_exchange_lemma. Qed.
Print Assumptions C50_check_is_exact.

(** The points of order 4 of the curve [y^2 = x^3 + 4 x]: the identity, (2, 4), (0, 0) and (2, -4). *)
Inductive four := F0 | F1 | F2 | F3.
Definition four_add (a b : four) : four :=
  match a, b with
  | F0, x | x, F0 => x
  | F1, F1 | F3, F3 => F2
  | F1, F2 | F2, F1 => F3
  | F2, F3 | F3, F2 => F1
  | _, _ => F0
  end.
Definition four_coords (a : four) : option (Z * Z) :=
  match a with F0 => None | F1 => Some (2, 4) | F2 => Some (0, 0) | F3 => Some (2, p256 - 4) end%Z.
Lemma four_lt : (4 < p256)%Z.
Proof. reflexivity. Qed.
Local Opaque p256.
Lemma four_curve : curve_ok four_add F0 four_coords.
Proof.
  split.
  - by intros [] [] [].
  - by intros [] [].
  - by intros [].
  - by intros [].
  - pose proof p256_pos as Hp. intros a x y Ha. assert (x = 2 /\ (y = 4 \/ y = p256 - 4) \/ x = 0 /\ y = 0)%Z as H.
    { destruct a; cbn in Ha; [congruence|left|right|left]; injection Ha as <- <-; auto. }
    pose proof four_lt. unfold field. lia.
  - pose proof four_lt as Hp. intros a b q1 q2 Ha Hb Hne.
    destruct a, b; cbn in Ha, Hb; try congruence; injection Ha as <-; injection Hb as <-; cbn in Hne; try (contradiction Hne; reflexivity); clear Hne.
    + exists 2%Z, (p256 - 4)%Z. split; [reflexivity|]. split; [unfold field; lia|]. exists 2%Z. split; exists 0%Z; cbn; lia.
    + exists 2%Z, (p256 - 4)%Z. split; [reflexivity|]. split; [unfold field; lia|]. exists 2%Z. split; exists 0%Z; cbn; lia.
    + exists 2%Z, 4%Z. split; [reflexivity|]. split; [unfold field; lia|]. exists (- 2)%Z. split; [exists (-1)%Z|exists 0%Z]; cbn; lia.
    + exists 2%Z, 4%Z. split; [reflexivity|]. split; [unfold field; lia|]. exists (- 2)%Z. split; [exists 1%Z|exists 0%Z]; cbn; lia.
Qed.
(** A converter that gives the leader fixed shares. *)
Definition ex_converter : converter :=
  Converter (fun xs ys => ((fun _ => 1%Z) <$> xs, zip_with (fun x y => (x + y) mod p256)%Z xs ys))
            (fun xs ys => ((fun _ => 3%Z) <$> xs, zip_with (fun x y => (x * y - 3) mod p256)%Z xs ys)).
Lemma ex_converter_honest : honest_converter ex_converter.
Proof.
  intros xs ys Hl Hx Hy. cbn. rewrite !fmap_length, !zip_with_length.
  assert (forall f, Forall field (zip_with (fun x y => (f x y) mod p256)%Z xs ys)) as Hz.
  { intros f. clear. revert ys. induction xs as [|x xs IH]; intros [|y ys]; cbn; try constructor; [apply mod_field|apply IH]. }
  split_and!; try lia; try apply Hz.
  - apply Forall_fmap, Forall_true. intros x. cbn. pose proof four_lt. unfold field. lia.
  - apply Forall_fmap, Forall_true. intros x. cbn. pose proof four_lt. unfold field. lia.
  - intros i x y Hi Hj. split.
    + exists 1%Z, ((x + y) mod p256)%Z. rewrite list_lookup_fmap, Hi, lookup_zip_with, Hi, Hj. split_and!; try done.
      rewrite Z.mul_1_l. apply mod_cong.
    + exists 3%Z, ((x * y - 3) mod p256)%Z. rewrite list_lookup_fmap, Hi, lookup_zip_with, Hi, Hj. split_and!; try done.
      replace (3 + (x * y - 3) mod p256 - x * y)%Z with ((x * y - 3) mod p256 - (x * y - 3))%Z by lia. apply mod_cong.
Qed.
Definition bad_converter : converter := Converter (cv_to_multiplicative ex_converter) (fun xs ys => (xs, ys)).
(** The server's secret is 3; the client's point is (2, -4). *)
Example C50_example_hypotheses :
  curve_ok four_add F0 four_coords /\ honest_converter ex_converter /\
  four_coords (pmul four_add F0 1 (pmul four_add F0 3 F1)) = four_coords F3 /\
  four_coords (pmul four_add F0 2 (pmul four_add F0 3 F1)) = four_coords F2.
Proof. split; [exact four_curve|]. split; [exact ex_converter_honest|]. split; reflexivity. Qed.
Definition ex_run (cv1 : converter) (kl kf : N) (calls : list ke_call) : list (outcome ke_error nat) * option (list N) :=
  let '(k, os) := ke_run four_add F0 four_coords F1 ex_converter cv1 (ke_new kl kf) calls in (os, vm_decoded (ke_vm k) 5).
Example C50_example_run : ex_run ex_converter 1 2 (exchange_calls F3 F3) = ([Ok 5] ++ replicate 9 (Ok 0), Some (be 32 2)).
Proof. vm_compute. reflexivity. Qed.
(** A converter that does not convert. *)
Example C50_example_bad : (ex_run bad_converter 1 2 (exchange_calls F3 F3)).1 = [Ok 5] ++ replicate 7 (Ok 0) ++ replicate 2 (Err KeShareConversion).
Proof. vm_compute. reflexivity. Qed.
(** The same private keys. *)
Example C50_example_equal : (ex_run ex_converter 1 1 (exchange_calls F3 F3)).1 !! 4 = Some Panic.
Proof. vm_compute. reflexivity. Qed.
(** Shares are not computed twice. *)
Example C50_example_twice :
  (ex_run ex_converter 1 2 (take 5 (exchange_calls F3 F3) ++ [KcCompute; KcAssign Leader])).1 =
    [Ok 5] ++ replicate 4 (Ok 0) ++ [Err KeState; Err KeState].
Proof. vm_compute. reflexivity. Qed.
