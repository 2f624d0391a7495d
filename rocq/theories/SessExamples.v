(** A toy connection and a race, for the examples about sessions. *)
From Verif.Lib Require Import Base.
From Verif Require Import SessModel SessSpec SessLemmas.

(** A connection that is done when both sides have closed. *)
Definition toyM : mux (bool * bool) bool nat :=
  Mux (fun x '(cl, dn) => if dn || (cl && x) then (MOk, (cl, true)) else (MPending, (cl, dn)))
      (fun '(cl, dn) => (true, dn)) snd (fun '(cl, dn) => if dn : bool then Some 7 else None).

(** Two calls of [close] around a poll that misses both flags: the second finds no waker, the
    first has woken the poll. *)
Definition race : list (sop bool) :=
  [PollBegin; CloseStore; CloseStore; PollLoad true; CloseWake 0; PollConn false; CloseWake 1].

Lemma toyM_fine : gives_back toyM /\ take_iff_complete toyM.
Proof.
  split.
  - intros x [cl dn] r'. cbn. destruct (dn || (cl && x)); intros [= <-]. by eexists.
  - intros [cl dn]. cbn. destruct dn; split; intros H; first [by exists 7|by destruct H|done].
Qed.
Lemma unclosed_lemma : exists (M : mux (bool * bool) bool nat) r l,
  take_iff_complete M /\ gives_back M /\
  sess_run M (Some r) (l ++ [SIsClosed; STake; SIsClosed]) =
    (None, (sess_run M (Some r) l).2 ++ [RBool true; RTakeOk 7; RBool false]).
Proof.
  exists toyM, (false, false), [SClose; SPoll true]. split; [apply toyM_fine|]. split; [apply toyM_fine|]. reflexivity.
Qed.
