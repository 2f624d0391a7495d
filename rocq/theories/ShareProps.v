(** Theorems C44 about secret sharing and private decryption. The vocabulary is in ShareSpec.v, the model is ShareModel.v. *)
From Verif.Lib Require Import Base.
From Verif Require Import RecordModel ShareModel ShareSpec ShareLemmas.

(** For every value and all pads of its length, both parties get shares; the shares add up to the value, and what is opened
    is, once the follower removes its own pad, the value masked by the leader's pad. *)
Theorem C44_shares_add_up : forall v otp_l otp_f, length otp_l = length v -> length otp_f = length v ->
  exists opened sl sf, otp_both v otp_l otp_f = Ok (opened, sl, sf) /\ sl ⊕ sf = v /\ opened ⊕ otp_f = v ⊕ otp_l /\
    length sl = length v /\ length sf = length v.
Proof. exact C44_shares_lemma. Qed.
Print Assumptions C44_shares_add_up.
(** What the follower sees (its pad, what is opened, its share) is compatible with every other value: there is exactly
    one pad of the leader that makes it look the same. *)
Theorem C44_follower_share_is_masked : forall v v' otp_l otp_f opened sl sf,
  length otp_l = length v -> length otp_f = length v -> length v' = length v -> bytes_ok v -> bytes_ok v' -> bytes_ok otp_l ->
  otp_both v otp_l otp_f = Ok (opened, sl, sf) ->
  exists! otp_l', length otp_l' = length v /\ bytes_ok otp_l' /\ exists sl', otp_both v' otp_l' otp_f = Ok (opened, sl', sf).
Proof. exact C44_secret_follower_lemma. Qed.
Print Assumptions C44_follower_share_is_masked.
(** The same for the leader. *)
Theorem C44_leader_share_is_masked : forall v v' otp_l otp_f opened sl sf,
  length otp_l = length v -> length otp_f = length v -> length v' = length v -> bytes_ok v -> bytes_ok v' -> bytes_ok otp_f ->
  otp_both v otp_l otp_f = Ok (opened, sl, sf) ->
  exists! otp_f', length otp_f' = length v /\ bytes_ok otp_f' /\ exists sf', otp_both v' otp_l otp_f' = Ok (opened, sl, sf').
Proof. exact C44_secret_leader_lemma. Qed.
Print Assumptions C44_leader_share_is_masked.

(** Decryption: the leader gets every plaintext, the follower those of the public records only. *)
Theorem C44_who_gets_the_plaintext : forall pad rs kss b, fitting rs kss -> decrypt_both pad rs kss = Ok b ->
  br_leader b = zip_with (fun r ks => Some (dr_ct r ⊕ ks)) rs kss /\
  br_follower b = zip_with (fun r ks => if dr_private r then None else Some (dr_ct r ⊕ ks)) rs kss.
Proof. exact C44_private_lemma. Qed.
Print Assumptions C44_who_gets_the_plaintext.
(** It succeeds exactly if the pad is long enough for the private records. *)
Theorem C44_pad_must_suffice : forall pad rs kss, fitting rs kss ->
  (length pad < pad_need rs -> decrypt_both pad rs kss = Err SHPadExceeded) /\
  (pad_need rs <= length pad -> exists b, decrypt_both pad rs kss = Ok b).
Proof. exact C44_refuse_lemma. Qed.
Print Assumptions C44_pad_must_suffice.
(** No byte of the pad masks two bytes: the pieces, last first, are the end of the pad, and what comes before them is kept. *)
Theorem C44_pad_is_used_once : forall pad rs ps rest, decrypt_mpc (Some pad) rs = Ok (ps, rest) ->
  exists rest', rest = Some rest' /\
  pad = rest' ++ concat (reverse (omap (fun p => match p with PendPrivate o _ => o | PendPublic _ => None end) ps)).
Proof. exact C44_pad_lemma. Qed.
Print Assumptions C44_pad_is_used_once.
(** What is opened and what the follower gets is compatible with all other keystreams of the private records, hence with all other
    plaintexts: there is exactly one pad (with the same unused part) that makes it look the same. *)
Theorem C44_follower_learns_nothing : forall pad rs kss kss' b, fitting rs kss -> fitting rs kss' -> same_public rs kss kss' ->
  bytes_ok pad -> Forall bytes_ok kss -> Forall bytes_ok kss' -> decrypt_both pad rs kss = Ok b ->
  exists! pad', length pad' = length pad /\ bytes_ok pad' /\
    exists b', decrypt_both pad' rs kss' = Ok b' /\ br_opened b' = br_opened b /\ br_follower b' = br_follower b /\ br_pad b' = br_pad b.
Proof. exact C44_secrecy_lemma. Qed.
Print Assumptions C44_follower_learns_nothing.

Definition ex_rs : list dec_request := [DecRequest true [1; 2]; DecRequest false [3]; DecRequest true [4; 5; 6]]%N.
Definition ex_kss : list (list N) := [[10; 20]; [30]; [40; 50; 60]]%N.
Definition ex_kss' : list (list N) := [[255; 0]; [30]; [0; 0; 0]]%N.
Definition ex_pad : list N := [100; 101; 102; 103; 104; 105]%N.
Example C44_ex :
  (otp_both [7; 8; 9] [1; 2; 3] [200; 100; 50] = Ok ([206; 110; 56], [1; 2; 3], [6; 10; 10]))%N /\
  fitting ex_rs ex_kss /\ fitting ex_rs ex_kss' /\ same_public ex_rs ex_kss ex_kss' /\ pad_need ex_rs = 5 /\
  bytes_ok ex_pad /\ Forall bytes_ok ex_kss /\ Forall bytes_ok ex_kss' /\
  decrypt_both ex_pad ex_rs ex_kss = Ok (BothResult [Some [11; 22]; Some [29]; Some [44; 55; 58]] [None; Some [29]; None]
    [[98; 125]; [30]; [77; 84; 91]] (Some [100]))%N.
Proof.
  split_and!; try done.
  - repeat constructor.
  - repeat constructor.
  - repeat constructor; done.
  - repeat constructor.
  - repeat constructor.
  - repeat constructor.
Qed.
