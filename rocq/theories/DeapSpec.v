(** Vocabulary for the theorems about dual execution (C59). *)
From Verif.Lib Require Import Base.
From Verif Require Import DeapMapModel DeapModel.

(** The bits of a slice of a memory. *)
Definition read (mem : list bool) (s : slice) : list bool := take (sl_size s) (drop (sl_ptr s) mem).
(** The memory that a user's calls describe: inputs are allocated and have values, outputs of circuits follow from them. *)
Fixpoint meaning (inputs : nat -> bool) (os : list dop) (mem : list bool) : list bool :=
  match os with
  | [] => mem
  | DAlloc n :: os' => meaning inputs os' (mem ++ map inputs (seq (length mem) n))
  | DCall f args :: os' => meaning inputs os' (mem ++ ci_eval f (concat (map (read mem) args)))
  | _ :: os' => meaning inputs os' mem
  end.
(** The inputs agree with what was assigned. *)
Definition agrees_with (inputs : nat -> bool) (os : list dop) : Prop :=
  forall s bits, DAssign s bits ∈ os -> map inputs (seq (sl_ptr s) (sl_size s)) = bits.
