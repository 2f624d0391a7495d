(** The compression function of SHA-256 (FIPS 180-4, 6.2.2), for examples. *)
From Verif.Lib Require Import Base.
From Verif Require Import CodecModel.
Local Open Scope N_scope.
Definition w32 (x : N) : N := x mod 2 ^ 32.
Definition rotr (n x : N) : N := N.lor (N.shiftr x n) (w32 (N.shiftl x (32 - n))).
Definition sha_k : list N := [
  1116352408; 1899447441; 3049323471; 3921009573; 961987163; 1508970993; 2453635748; 2870763221;
  3624381080; 310598401; 607225278; 1426881987; 1925078388; 2162078206; 2614888103; 3248222580;
  3835390401; 4022224774; 264347078; 604807628; 770255983; 1249150122; 1555081692; 1996064986;
  2554220882; 2821834349; 2952996808; 3210313671; 3336571891; 3584528711; 113926993; 338241895;
  666307205; 773529912; 1294757372; 1396182291; 1695183700; 1986661051; 2177026350; 2456956037;
  2730485921; 2820302411; 3259730800; 3345764771; 3516065817; 3600352804; 4094571909; 275423344;
  430227734; 506948616; 659060556; 883997877; 958139571; 1322822218; 1537002063; 1747873779;
  1955562222; 2024104815; 2227730452; 2361852424; 2428436474; 2756734187; 3204031479; 3329325298].
Definition sha_iv : list N := [1779033703; 3144134277; 1013904242; 2773480762; 1359893119; 2600822924; 528734635; 1541459225].
Fixpoint sha_words (n : nat) (block : list N) : list N :=
  match n with
  | O => []
  | S n' => of_be (take 4 block) :: sha_words n' (drop 4 block)
  end.
(** The message schedule, latest word first. *)
Fixpoint sha_schedule (n : nat) (w : list N) : list N :=
  match n with
  | O => w
  | S n' =>
      let w15 := nth 14 w 0 in let w2 := nth 1 w 0 in
      let s0 := N.lxor (N.lxor (rotr 7 w15) (rotr 18 w15)) (N.shiftr w15 3) in
      let s1 := N.lxor (N.lxor (rotr 17 w2) (rotr 19 w2)) (N.shiftr w2 10) in
      sha_schedule n' (w32 (nth 15 w 0 + s0 + nth 6 w 0 + s1) :: w)
  end.
Fixpoint sha_rounds (kw : list (N * N)) (a b c d e f g h : N) : list N :=
  match kw with
  | [] => [a; b; c; d; e; f; g; h]
  | (k, w) :: kw' =>
      let s1 := N.lxor (N.lxor (rotr 6 e) (rotr 11 e)) (rotr 25 e) in
      let ch := N.lxor (N.land e f) (N.land (N.lxor e (2 ^ 32 - 1)) g) in
      let t1 := w32 (h + s1 + ch + k + w) in
      let s0 := N.lxor (N.lxor (rotr 2 a) (rotr 13 a)) (rotr 22 a) in
      let maj := N.lxor (N.lxor (N.land a b) (N.land a c)) (N.land b c) in
      sha_rounds kw' (w32 (t1 + s0 + maj)) a b c (w32 (d + t1)) e f g
  end.
Definition sha_compress (state block : list N) : list N :=
  let w := rev (sha_schedule 48 (rev (sha_words 16 block))) in
  let g i := nth i state 0 in
  let out := sha_rounds (zip sha_k w) (g 0%nat) (g 1%nat) (g 2%nat) (g 3%nat) (g 4%nat) (g 5%nat) (g 6%nat) (g 7%nat) in
  map (fun i => w32 (g i + nth i out 0)) (seq 0 8).
Lemma sha_compress_length s b : length (sha_compress s b) = 8%nat.
Proof. unfold sha_compress. rewrite map_length, seq_length. done. Qed.
