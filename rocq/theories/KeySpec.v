(** Vocabulary for C87 and C88: DER encodings as X.690 defines them, private key documents as RFC 5208 defines them, and what the code points
    of signature schemes mean (RFC 8446, 4.2.3). *)
From Verif.Lib Require Import Base.
From Verif Require Import KeyModel.
Local Open Scope N_scope.

(** The number that bytes stand for, most significant first. *)
Definition be_value (l : list N) : N := fold_left (fun a b => a * 256 + b) l 0.
(** X.690, 8.1.3 and 10.1: [h] is the only DER encoding of the length [n]: one byte below 128; above that, a byte that counts the bytes that
    follow, and as few of these as possible. *)
Definition der_length (h : list N) (n : N) : Prop :=
  (n < 128 /\ h = [n]) \/
  (128 <= n /\ exists b bs, h = 128 + N.of_nat (length (b :: bs)) :: b :: bs /\ (length (b :: bs) < 127)%nat /\
     bytes_ok (b :: bs) /\ b <> 0 /\ be_value (b :: bs) = n).
(** [w] is a DER value with this tag and these contents. *)
Definition der_value (tag : N) (contents w : list N) : Prop :=
  exists h, w = tag :: h ++ contents /\ der_length h (N.of_nat (length contents)).
Definition der_integer := der_value 2.
Definition der_octets := der_value 4.
Definition der_oid := der_value 6.
Definition der_sequence (parts : list (list N)) : list N -> Prop := der_value 48 (concat parts).

(** The objects 1.2.840.10045.2.1 (id-ecPublicKey), 1.2.840.10045.3.1.7 (prime256v1) and 1.3.132.0.34 (secp384r1), by X.690, 8.19: the first two
    numbers as 40 * a + b, then each number in base 128, with the high bit set in all bytes but its last. *)
Definition base128 (l : list N) : N := fold_left (fun a b => a * 128 + b mod 128) l 0.
Definition oid_number (n : N) (l : list N) : Prop :=
  exists front b, l = front ++ [b] /\ b < 128 /\ Forall (fun x => 128 <= x < 256) front /\ base128 l = n /\ hd 0 l <> 128.
Definition oid_is (numbers : list N) (l : list N) : Prop :=
  exists a b rest ls, numbers = a :: b :: rest /\ l = concat ls /\ Forall2 oid_number (40 * a + b :: rest) ls.
Definition curve_oid (a : ec_alg) : list N :=
  match a with EcP256Sha256 => [1; 2; 840; 10045; 3; 1; 7] | EcP384Sha384 => [1; 3; 132; 0; 34] end.
(** RFC 5208 and 5915: a private key document with version 0, for a key on this curve, around the key [sec1]. *)
Definition pkcs8_of (a : ec_alg) (sec1 w : list N) : Prop :=
  exists version alg_oid curve alg key o1 o2,
    der_integer [0] version /\
    oid_is [1; 2; 840; 10045; 2; 1] o1 /\ der_oid o1 alg_oid /\
    oid_is (curve_oid a) o2 /\ der_oid o2 curve /\
    der_sequence [alg_oid; curve] alg /\
    der_octets sec1 key /\
    der_sequence [version; alg; key] w.

(** The first success. *)
Fixpoint first_some {A} (l : list (option A)) : option A :=
  match l with [] => None | Some a :: _ => Some a | None :: l' => first_some l' end.

(** What a scheme asks for. *)
Inductive sig_alg := AlgRsa (e : rsa_encoding) | AlgEcdsa (a : ec_alg) | AlgEd25519.
Definition scheme_means (s : N) (a : sig_alg) : Prop :=
  (s, a) ∈ [(0x0401, AlgRsa (RsaPkcs1 256)); (0x0501, AlgRsa (RsaPkcs1 384)); (0x0601, AlgRsa (RsaPkcs1 512));
            (0x0804, AlgRsa (RsaPss 256)); (0x0805, AlgRsa (RsaPss 384)); (0x0806, AlgRsa (RsaPss 512));
            (0x0403, AlgEcdsa EcP256Sha256); (0x0503, AlgEcdsa EcP384Sha384); (0x0807, AlgEd25519)].
(** Which algorithms a key can be used for. *)
Definition key_does {RK EK DK} (k : signing_key RK EK DK) (a : sig_alg) : Prop :=
  match k with
  | RsaKey _ => exists e, a = AlgRsa e
  | EcKey _ alg _ => a = AlgEcdsa alg
  | EdKey _ _ => a = AlgEd25519
  end.
(** The signer signs by this algorithm with this key. *)
Definition signs_by {RK EK DK} (k : signing_key RK EK DK) (a : sig_alg) (r : ring_signer RK EK DK) : Prop :=
  match k, a with
  | RsaKey k, AlgRsa e => r = SignRsa k e
  | EcKey _ _ k, AlgEcdsa al => r = SignEc k al
  | EdKey _ k, AlgEd25519 => r = SignEd k
  | _, _ => False
  end.
(** PSS is preferred to PKCS #1, then longer hashes to shorter ones. *)
Definition enc_rank (e : rsa_encoding) : N := match e with RsaPkcs1 b => b | RsaPss b => 1000 + b end.
Definition not_preferred (a' a : sig_alg) : Prop :=
  match a', a with AlgRsa e', AlgRsa e => enc_rank e' <= enc_rank e | _, _ => True end.
