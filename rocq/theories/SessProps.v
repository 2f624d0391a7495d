(** Theorems about sessions. *)
From Verif.Lib Require Import Base.
From Verif Require Import SessModel SessSpec SessLemmas SessExamples.

(** ** C79 *)
(** A request to close is not lost. In every interleaving of polls of the driver with calls of
    [close] on the handle, even if loads of the flag may miss stores: when a call has returned
    and the driver is not being polled, the connection was told to close, or the driver was
    never polled, or its last poll has been woken since it began. *)
Theorem C79_close_is_not_lost : forall R I IO (M : mux R I IO) c l s r, s = srun M (sys_new c) l ->
  ECloseRet ∈ s_log s -> s_pc s = DIdle -> s_conn s = Some r ->
  (exists n, EClose n ∈ s_log s) \/ never_polled (s_log s) \/
  (exists n after, last_poll (s_log s) n after /\ EWake n ∈ after).
Proof. exact @not_lost_lemma. Qed.
Print Assumptions C79_close_is_not_lost.

(** The next poll then tells the connection to close before polling it, whatever further calls
    of [close] do meanwhile. *)
Theorem C79_next_poll_closes : forall R I IO (M : mux R I IO) c l s r l' stale, s = srun M (sys_new c) l ->
  ECloseRet ∈ s_log s -> s_pc s = DIdle -> s_conn s = Some r -> Forall closer_step l' ->
  s_conn (srun M s (PollBegin :: l' ++ [PollLoad stale])) = Some (m_close M r) /\
  s_pc (srun M s (PollBegin :: l' ++ [PollLoad stale])) = DLoaded.
Proof. exact @next_poll_lemma. Qed.
Print Assumptions C79_next_poll_closes.

(** The driver closes the connection only after [close] was called. *)
Theorem C79_closes_only_if_asked : forall R I IO (M : mux R I IO) c l n l1 l2,
  s_log (srun M (sys_new c) l) = l1 ++ EClose n :: l2 -> ECloseCall ∈ l1.
Proof. intros R I IO M c l. exact (proj2 (asked_lemma M c l)). Qed.
Print Assumptions C79_closes_only_if_asked.

Example C79_ex : let s := srun toyM (sys_new (Some (false, false))) race in
  s_log s = [EPollBegin 1; ECloseCall; ECloseCall; EWake 1; ECloseRet; EConnPoll 1; EResult 1 DPending; ECloseRet] /\
  s_pc s = DIdle /\ s_conn s = Some (false, false) /\
  s_log (srun toyM s [PollBegin; CloseStore; PollLoad true; PollConn true; PollBegin; PollLoad false]) =
    s_log s ++ [EPollBegin 2; ECloseCall; EClose 2; EConnPoll 2; EResult 2 (DIo 7); EPollBegin 3; EResult 3 DErrGone].
Proof. repeat split. Qed.

(** ** C80 *)
(** Polling the driver never panics; after it has given the IO, or failed to take it, every poll
    says that it is over, and none says so before. *)
Theorem C80_driver_never_panics : forall R I IO (M : mux R I IO) c l n,
  EResult n DPanic ∉ s_log (srun M (sys_new c) l).
Proof. exact @no_panic_lemma. Qed.
Print Assumptions C80_driver_never_panics.
Theorem C80_driver_ends_once : forall R I IO (M : mux R I IO) r l l1 l2 n y,
  s_log (srun M (sys_new (Some r)) l) = l1 ++ EResult n y :: l2 ->
  (final y -> forall m z, EResult m z ∈ l2 -> z = DErrGone) /\
  (y = DErrGone -> exists m z, EResult m z ∈ l1 /\ final z).
Proof. exact @final_lemma. Qed.
Print Assumptions C80_driver_ends_once.

(** If a connection that says it is done gives its IO back, the driver does not lose it. *)
Theorem C80_io_is_not_lost : forall R I IO (M : mux R I IO) c l n, gives_back M ->
  EResult n DErrTake ∉ s_log (srun M (sys_new c) l).
Proof. exact @gives_lemma. Qed.
Print Assumptions C80_io_is_not_lost.
Example C80_gives_ex : gives_back toyM /\ take_iff_complete toyM.
Proof. exact toyM_fine. Qed.

(** Without [split]: the IO is gone exactly if a call took it; after that, taking and polling
    fail, closing does nothing. *)
Theorem C80_taken_once : forall R I IO (M : mux R I IO) r l l' c ys io,
  sess_run M (Some r) l = (c, ys) -> RTakeOk io ∈ ys ->
  sess_run M (Some r) (l ++ l') =
    (None, ys ++ map (fun a => match a with SIsClosed => RBool false | SClose => RUnit | STake => RTakeGone | SPoll _ => RPollGone end) l').
Proof. exact @after_take_lemma. Qed.
Print Assumptions C80_taken_once.
Theorem C80_kept_until_taken : forall R I IO (M : mux R I IO) l r c ys,
  sess_run M (Some r) l = (c, ys) -> c = None <-> exists io, RTakeOk io ∈ ys.
Proof. exact @take_lemma. Qed.
Print Assumptions C80_kept_until_taken.
Example C80_ex : sess_run toyM (Some (false, false)) [STake; SPoll true; SClose; SPoll true; SIsClosed; STake] =
  (None, [RTakeBusy; RPoll MPending; RUnit; RPoll MOk; RBool true; RTakeOk 7]).
Proof. reflexivity. Qed.

(** A session that was closed does not stay closed: once its IO was taken, which needs that it
    is closed, it says that it is not. *)
Theorem C80_closed_stays_closed_refuted : exists (M : mux (bool * bool) bool nat) r l,
  take_iff_complete M /\ gives_back M /\
  sess_run M (Some r) (l ++ [SIsClosed; STake; SIsClosed]) =
    (None, (sess_run M (Some r) l).2 ++ [RBool true; RTakeOk 7; RBool false]).
Proof. exact unclosed_lemma. Qed.
Print Assumptions C80_closed_stays_closed_refuted.
