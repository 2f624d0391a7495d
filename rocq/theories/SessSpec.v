(** Specification vocabulary for sessions. *)
From Verif.Lib Require Import Base.
From Verif Require Import SessModel.

(** The last poll of the driver in a log is [n], and [after] is what happened since it stored
    its waker. *)
Definition last_poll {IO} (l : list (sev IO)) (n : nat) (after : list (sev IO)) : Prop :=
  exists before, l = before ++ EPollBegin n :: after /\ forall m, EPollBegin m ∉ after.
(** The driver was never polled. *)
Definition never_polled {IO} (l : list (sev IO)) : Prop := forall m, EPollBegin m ∉ l.

(** Steps of callers of [close]. *)
Definition closer_step {I} (o : sop I) : Prop := match o with CloseStore | CloseWake _ => True | _ => False end.

(** Results that end the driver. *)
Definition final {IO} (y : dres IO) : Prop := match y with DIo _ | DErrTake => True | _ => False end.

(** A connection that says it is done gives its IO back. *)
Definition gives_back {R I IO} (M : mux R I IO) : Prop :=
  forall x r r', m_poll M x r = (MOk, r') -> is_Some (m_take M r').
(** The IO can be taken exactly when the connection is complete. *)
Definition take_iff_complete {R I IO} (M : mux R I IO) : Prop :=
  forall r, is_Some (m_take M r) <-> m_complete M r = true.
