(** Model of crates/mpc-tls/src/record_layer/aead/ghash.rs and ghash/{compute,verify}.rs: GHASH on shares of the hash key,
    and the tags made from it. The share converters are external: what they return is a parameter. *)
From Verif.Lib Require Import Base.
From Verif Require Import CodecModel TagModel RecordModel.

(** ** Gf2_128 (crate mpz_fields) *)
(** Elements of GF(2^128) are polynomials over bits, the coefficient of x^i is bit i. Addition is [N.lxor]. The crate's
    multiplication is by x^128 + x^7 + x^2 + x + 1; here it is written in Horner form. *)
Definition gf_poly : N := (2 ^ 128 + 2 ^ 7 + 2 ^ 2 + 2 + 1)%N.
Definition gf_mulx (a : N) : N :=
  let s := N.double a in if N.testbit s 128 then N.lxor s gf_poly else s.
Fixpoint gf_mul_pos (a : N) (p : positive) : N :=
  match p with
  | xH => a
  | xO p' => gf_mulx (gf_mul_pos a p')
  | xI p' => N.lxor (gf_mulx (gf_mul_pos a p')) a
  end.
Definition gf_mul (a b : N) : N := match b with N0 => 0%N | Npos p => gf_mul_pos a p end.

(** [u128::reverse_bits]. *)
Fixpoint rev_bits (n : nat) (a : N) : N :=
  match n with
  | O => 0%N
  | S n' => ((if N.odd a then 2 ^ N.of_nat n' else 0) + rev_bits n' (N.div2 a))%N
  end.
Definition rev128 (a : N) : N := rev_bits 128 a.
(** ghash.rs:120-124, 221 and 225-228: bytes as elements and back ([Block] is a u128 in memory order). *)
Definition gf_of_block (b : list N) : N := rev128 (of_be b).
Definition gf_to_block (e : N) : list N := be 16 (rev128 e).

(** ** ghash.rs *)
Inductive ghash_error := GHKeyLength | GHState | GHInputLength.
(** ghash.rs:45-51 [State]. *)
Inductive ghash_state := GHInit | GHSetKey (key : N) | GHReadyShares (shares : list N) | GHError.

Definition max_power : nat := 1026.

(** ghash.rs:106-128 [set_key]. *)
Definition gh_set_key (key : list N) (s : ghash_state) : ghash_state * outcome ghash_error unit :=
  if negb (length key =? 16) then (s, Err GHKeyLength)
  else match s with
       | GHInit => (GHSetKey (gf_of_block key), Ok tt)
       | _ => (GHError, Err GHState)
       end.

(** ghash.rs:154-165: [scan], [skip(2)] and [step_by(2)]. *)
Fixpoint scan_powers (n : nat) (acc m : N) : list N :=
  match n with O => [] | S n' => acc :: scan_powers n' (gf_mul acc m) m end.
Fixpoint every_other (l : list N) : list N :=
  match l with x :: _ :: l' => x :: every_other l' | _ => l end.
Definition odd_powers (m : N) : list N := every_other (drop 2 (scan_powers max_power m m)).

(** ghash.rs:240-260 [compute_shares]: the loop for [i] in [2..=MAX_POWER], the remaining odd powers are [odd]. Indexing panics
    out of bounds. *)
Fixpoint shares_loop (n i : nat) (odd : list N) (shares : list N) : panicky (list N) :=
  match n with
  | O => Ok shares
  | S n' =>
      if i mod 2 =? 0 then
        let! base := or_panic (shares !! (i / 2 - 1)) in
        shares_loop n' (i + 1) odd (shares ++ [gf_mul base base])
      else
        match odd with
        | [] => Panic
        | o :: odd' => shares_loop n' (i + 1) odd' (shares ++ [o])
        end
  end.
Definition compute_shares (key : N) (odd : list N) : panicky (list N) := shares_loop (max_power - 1) 2 odd [key].

(** ghash.rs:130-188 [setup]. [a2m] is what the converter makes of the additive key share, [m2a] of the multiplicative
    shares of the odd powers. *)
Definition gh_setup (a2m : N -> N) (m2a : list N -> list N) (s : ghash_state) : ghash_state * outcome ghash_error unit :=
  match s with
  | GHSetKey add_key =>
      match compute_shares add_key (m2a (odd_powers (a2m add_key))) with
      | Ok shares => (GHReadyShares shares, Ok tt)
      | _ => (GHError, Panic)
      end
  | _ => (GHError, Err GHState)
  end.

(** [chunks_exact(16)]. *)
Fixpoint chunks16 (n : nat) (l : list N) : list (list N) :=
  match n with O => [] | S n' => take 16 l :: chunks16 n' (drop 16 l) end.
(** ghash.rs:190-231 [compute]; [shares.len() - blocks.len()] does not underflow by the length check. *)
Definition gh_compute (s : ghash_state) (input : list N) : outcome ghash_error (list N) :=
  match s with
  | GHReadyShares shares =>
      let count := block_count (length input) in
      if max_power <? count then Err GHInputLength
      else
        let blocks := chunks16 count (resize_zero input (count * 16)) in
        if length shares <? length blocks then Panic
        else
          let offset := length shares - length blocks in
          Ok (gf_to_block (fold_left (fun acc p => N.lxor acc (gf_mul (gf_of_block (fst p)) (snd p)))
            (zip blocks (drop offset (reverse shares))) 0%N))
  | _ => Err GHState
  end.

(** ** compute.rs and verify.rs *)
Inductive tags_error := GTGhash (e : ghash_error) | GTLength | GTMismatch.
(** What is needed for a tag: the share of the encrypted counter block, the additional data and the ciphertext. *)
Record tag_data := TagData { td_j0 : list N; td_aad : list N; td_ct : list N }.
(** compute.rs:70-84, verify.rs:66-80: a party's tag shares. *)
Fixpoint tag_shares (s : ghash_state) (ds : list tag_data) : outcome tags_error (list (list N)) :=
  match ds with
  | [] => Ok []
  | d :: ds' =>
      match gh_compute s (build_ghash_data (td_aad d) (td_ct d)) with
      | Ok g => let! t := tag_shares s ds' in Ok (zip_with N.lxor (td_j0 d) g :: t)
      | Err e => Err (GTGhash e)
      | Panic => Panic
      end
  end.
(** compute.rs:48-112: the leader adds the shares of the follower; without data nothing is sent. *)
Definition leader_tags (s : ghash_state) (ds : list tag_data) (peer : list (list N)) : outcome tags_error (option (list (list N))) :=
  match ds with
  | [] => Ok None
  | _ =>
      let! own := tag_shares s ds in
      if negb (length peer =? length own) then Err GTLength else Ok (Some (zip_with (zip_with N.lxor) own peer))
  end.
(** verify.rs:47-110. *)
Definition leader_verify (s : ghash_state) (ds : list (tag_data * list N)) (peer : list (list N)) : outcome tags_error unit :=
  match ds with
  | [] => Ok tt
  | _ =>
      let! own := tag_shares s (map fst ds) in
      if negb (length peer =? length own) then Err GTLength
      else if bool_decide (map snd ds = zip_with (zip_with N.lxor) own peer) then Ok tt else Err GTMismatch
  end.
