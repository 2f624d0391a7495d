(** What is asked of the check of the Finished messages and of the proxy's view of the traffic. *)
From Verif.Lib Require Import Base.
From Verif Require Import PrfModel VdCheckModel.

(** RFC 5288 and RFC 5246, 7.4.9: a Finished record of 16 bytes, a header and the verify data, is encrypted by the keystream
    block with counter 2. *)
Definition decrypts (aes : list N -> list N -> list N) (key iv nonce ct vd : list N) : Prop :=
  exists header, length header = 4 /\ length vd = 12 /\ length nonce = 8 /\
    zip_with N.lxor (aes key (iv ++ nonce ++ [0; 0; 0; 2]%N)) ct = header ++ vd.
(** The call number [i] of a list and its result. *)
Definition did (cs : list vd_call) (os : list (outcome vd_error unit)) (i : nat) (c : vd_call) : Prop :=
  cs !! i = Some c /\ os !! i = Some (Ok tt).
(** The check of a direction was allocated and then assigned, and what it decrypts to is the expected value. *)
Definition finished_ok (aes : list N -> list N -> list N) (cs : list vd_call) (os : list (outcome vd_error unit))
    (m : vm) (d : vd_side) : Prop :=
  exists i j key iv expected nonce ct k v vd,
    i < j /\ did cs os i (VcAlloc d key iv expected) /\ did cs os j (VcAssign d nonce ct) /\
    vm_decoded m key = Some k /\ vm_decoded m iv = Some v /\ vm_decoded m expected = Some vd /\
    length ct = 16 /\ decrypts aes k v nonce ct vd.

(** The bytes of reads up to the end of a stream, a read of no bytes; there are no errors before. *)
Inductive stream_of : list read_result -> list N -> Prop :=
| stream_end now rest : stream_of (ReadBytes [] now :: rest) []
| stream_more bs now rest xs : bs <> [] -> stream_of rest xs -> stream_of (ReadBytes bs now :: rest) (bs ++ xs).
(** The time of the first read, if there is one before the end of the stream. *)
Definition first_time (xs : list read_result) (t : N) : Prop := exists b bs rest, xs = ReadBytes (b :: bs) t :: rest.
