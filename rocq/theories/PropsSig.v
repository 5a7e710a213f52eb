(** Properties C49-C54 and C66: signal sets, masks, actions, timers, ids. *)
From Verif Require Import Base SigModel SigSpec SigProofs.

(** C49: signal sets are finite sets of the numbers 1..64. *)
Theorem C49_sigset_algebra :
  members lind_sigemptyset = ∅ /\
  (forall s, s ∈ members lind_sigfillset <-> 1 <= s <= 64) /\
  forall m s, is_u64 m -> 1 <= s <= 64 ->
    (exists m', lind_sigaddset m s = Done m' /\ is_u64 m' /\ members m' = members m ∪ {[s]}) /\
    (exists m', lind_sigdelset m s = Done m' /\ is_u64 m' /\ members m' = members m ∖ {[s]}) /\
    lind_sigismember m s = Done (bool_decide (s ∈ members m)) /\
    (forall m2, is_u64 m2 -> members m2 = members m -> m2 = m).
Proof.
  exact (conj (proj1 sigset_consts) (conj (proj1 (proj2 sigset_consts))
    (fun m s Hm Hs => conj (sigaddset_spec m s Hm Hs) (conj (sigdelset_spec m s Hm Hs)
      (conj (sigismember_spec m s Hs) (fun m2 H2 He => members_inj m2 m H2 Hm He)))))).
Qed.
Print Assumptions C49_sigset_algebra.

Example C49_nonvacuous : is_u64 5 /\ 1 <= 64 <= 64 /\ lind_sigaddset 5 64 = Done (5 + 2 ^ 63).
Proof. repeat split; vm_compute; congruence. Qed.

(** C50: sigprocmask reports the old mask and installs exactly the requested
    one; all other threads' masks stay; bad requests change nothing. *)
Theorem C50_sigprocmask :
  forall (w : pworld) (c tid how cur : Z) (set : option Z),
  check_cageid c = true ->
  mask_of w c tid = Some cur ->
  exists w' r, p_sigprocmask w c tid how set = Done (w', OMask r cur) /\
    (exists cur', mask_of w' c tid = Some cur' /\
      members cur' =
        match set with
        | None => members cur
        | Some s => default (members cur) (requested how (members cur) (members s))
        end /\
      r = match set with
          | None => 0
          | Some s => if bool_decide (requested how (members cur) (members s) = None)
                      then - 22 else 0
          end) /\
    (forall c' tid', (c', tid') <> (c, tid) -> mask_of w' c' tid' = mask_of w c' tid').
Proof. exact sigprocmask_mask. Qed.
Print Assumptions C50_sigprocmask.

Example C50_nonvacuous :
  exists w, prun pinit [PThreadInit 1 7; PSigprocmask 1 7 0 (Some 512)] = Some w /\
            mask_of w 1 7 = Some 512.
Proof. run_ex pinit (ORet 0). Qed.

(** C51, the part that holds: a signal arriving while blocked runs no handler
    and stays blocked; SIG_UNBLOCK sends exactly the blocked signals that are
    being unblocked, once each, except number 64.  Missing: signals unblocked
    by SIG_SETMASK and signal 64 are lost, and SIG_UNBLOCK also sends signals
    that never arrived (next three theorems). *)
Theorem C51_blocked_signals_partial :
  (forall w c tid s cur,
     check_cageid c = true -> mask_of w c tid = Some cur -> 1 <= s <= 64 -> is_u64 cur ->
     s ∈ members cur ->
     exists w', p_gethandler w c tid s = Done (w', ORet 1) /\
       mask_of w' c tid = Some cur /\ pw_sent w' = pw_sent w) /\
  (forall w c tid cur s,
     check_cageid c = true -> mask_of w c tid = Some cur ->
     exists w' evs, p_sigprocmask w c tid 1 (Some s) = Done (w', OMask 0 cur) /\
       pw_sent w' = pw_sent w ++ evs /\ NoDup evs /\
       (forall t x, (t, x) ∈ evs <-> t = tid /\ x ∈ members cur /\ x ∈ members s /\ x <> 64)).
Proof. exact (conj arrive_blocked unblock_sends). Qed.
Print Assumptions C51_blocked_signals_partial.

(** The signal 10 is blocked, arrives, and is unblocked with SIG_SETMASK. *)
Theorem C51_pending_is_delivered_refuted : ~ pending_is_delivered.
Proof.
  intros H.
  assert (Hw : exists w0,
    prun pinit [PThreadInit 1 7; PSigprocmask 1 7 0 (Some 512)] = Some w0 /\
    mask_of w0 1 7 = Some 512 /\ exists w1, pstep w0 (PArrive 1 7 10) = Done (w1, ORet 1) /\
    exists w2, prun w1 [PSigprocmask 1 7 2 (Some 0)] = Some w2 /\ mask_of w2 1 7 = Some 0 /\
    pw_sent w2 = []).
  { run_ex pinit (ORet 0). }
  destruct Hw as (w0 & H0 & Hm & w1 & Ha & w2 & Hr & Hm2 & Hs).
  assert (Hin := H _ _ w0 w1 w2 1 7 10 512 0 H0 Hm
    ltac:(rewrite elem_members; split; [lia|reflexivity]) Ha Hr Hm2
    ltac:(rewrite elem_members; intros [_ Hb]; vm_compute in Hb; discriminate)).
  rewrite Hs, drop_nil in Hin. inversion Hin.
Qed.
Print Assumptions C51_pending_is_delivered_refuted.

(** The same loss with SIG_UNBLOCK for signal number 64. *)
Theorem C51_signal64_refuted :
  exists w0, prun pinit [PThreadInit 1 7; PSigprocmask 1 7 0 (Some (2 ^ 63))] = Some w0 /\
    exists w1, pstep w0 (PArrive 1 7 64) = Done (w1, ORet 1) /\
    exists w2, pstep w1 (PSigprocmask 1 7 1 (Some (2 ^ 63))) = Done (w2, OMask 0 (2 ^ 63)) /\
    mask_of w2 1 7 = Some 0 /\ pw_sent w2 = [].
Proof. run_ex pinit (ORet 0). Qed.
Print Assumptions C51_signal64_refuted.

(** Blocking and unblocking signal 10 sends it although it never arrived. *)
Theorem C51_no_spurious_signal_refuted : ~ no_spurious_signal.
Proof.
  intros H.
  assert (Hw : exists w, prun pinit [PThreadInit 1 7; PSigprocmask 1 7 0 (Some 512);
                                     PSigprocmask 1 7 1 (Some 512)] = Some w /\ pw_sent w = [(7, 10)]).
  { run_ex pinit (ORet 0). }
  destruct Hw as (w & Hr & Hs). apply (H _ w 7 10 Hr).
  - intros o Ho. repeat (apply elem_of_cons in Ho as [->|Ho]; [exact I|]). inversion Ho.
  - rewrite Hs. left.
Qed.
Print Assumptions C51_no_spurious_signal_refuted.

(** C52: sigaction reports the action the history installed; SIGKILL and
    SIGSTOP never have one; an arriving unblocked signal runs that handler. *)
Theorem C52_sigaction :
  (forall l w c sig act w' r old,
     prun pinit l = Some w -> pstep w (PSigaction c sig act) = Done (w', OAct r old) ->
     old = action_in (rev l) c sig /\
     (r = 0 <-> act = None \/ (sig <> 9 /\ sig <> 19)) /\ (r <> 0 -> r = -22 /\ w' = w)) /\
  (forall h c sig, sig = 9 \/ sig = 19 -> action_in h c sig = sigaction_default) /\
  (forall l w c tid s w' r cur,
     prun pinit l = Some w -> mask_of w c tid = Some cur -> 1 <= s <= 64 -> s ∉ members cur ->
     pstep w (PArrive c tid s) = Done (w', ORet r) ->
     r = sa_handler (action_in (rev l) c s) /\ w' = w).
Proof. exact (conj sigaction_reports (conj action_9_19 handler_run_is_last)). Qed.
Print Assumptions C52_sigaction.

Example C52_nonvacuous :
  exists w, prun pinit [PThreadInit 1 7; PSigaction 1 10 (Some (SigAction 77 0 0)); PFork 1 2]
            = Some w /\
     exists w', pstep w (PSigaction 2 10 None) = Done (w', OAct 0 (SigAction 77 0 0)) /\ pw_sent w' = [].
Proof. run_ex pinit (ORet 0). Qed.

(** C53, the part that holds: whole seconds are reported exactly right after
    setting.  Missing: fractions, elapsed time, disarmed timers. *)
Theorem C53_itimer_partial :
  forall w c v w1 o1 w2 r2 old2,
  0 <= tv_sec (it_value v) < 2 ^ 63 -> 0 <= tv_usec (it_value v) < 1000000 ->
  0 <= tv_sec (it_interval v) < 2 ^ 63 -> 0 <= tv_usec (it_interval v) < 1000000 ->
  (tv_sec (it_value v) <> 0 \/ tv_usec (it_value v) <> 0) ->
  pstep w (PSetitimer c 0 (Some v)) = Done (w1, o1) ->
  pstep w1 (PSetitimer c 0 None) = Done (w2, OTimer r2 old2) ->
  r2 = 0 /\ w2 = w1 /\
  tv_sec (it_value old2) = tv_sec (it_value v) /\
  tv_sec (it_interval old2) = tv_sec (it_interval v).
Proof. exact setitimer_seconds. Qed.
Print Assumptions C53_itimer_partial.

(** Setting 1.5 s and reading it back gives 1.000000 s. *)
Theorem C53_reports_exactly_refuted : ~ timer_reports_exactly.
Proof.
  intros H.
  assert (Hw : exists w1 o1,
    pstep pinit (PSetitimer 1 0 (Some (ITV (TV 0 0) (TV 1 500000)))) = Done (w1, o1) /\
    exists w2, pstep w1 (PSetitimer 1 0 None) = Done (w2, OTimer 0 (ITV (TV 0 0) (TV 1 0))) /\
    pw_sent w2 = []).
  { run_ex pinit (ORet 0). }
  destruct Hw as (w1 & o1 & H1 & w2 & H2 & _).
  assert (Hx := H [] pinit w1 w2 1 (ITV (TV 0 0) (TV 1 500000)) o1 _ _ eq_refl
    ltac:(cbn; lia) ltac:(cbn; lia) ltac:(cbn; lia) ltac:(cbn; lia) H1 H2).
  discriminate.
Qed.
Print Assumptions C53_reports_exactly_refuted.

(** A disarmed timer keeps reporting its old value. *)
Theorem C53_disarmed_refuted :
  exists w, prun pinit [PSetitimer 1 0 (Some (ITV (TV 3 0) (TV 5 0)));
                           PSetitimer 1 0 (Some (ITV (TV 0 0) (TV 0 0)))] = Some w /\
    exists w', pstep w (PSetitimer 1 0 None) = Done (w', OTimer 0 (ITV (TV 3 0) (TV 5 0))) /\ pw_sent w' = [].
Proof. run_ex pinit (ORet 0). Qed.
Print Assumptions C53_disarmed_refuted.

(** Elapsed time is not subtracted. *)
Theorem C53_elapsed_refuted :
  exists w, prun pinit [PSetitimer 1 0 (Some (ITV (TV 0 0) (TV 5 0))); PAdvance 3000000000] = Some w /\
    exists w', pstep w (PSetitimer 1 0 None) = Done (w', OTimer 0 (ITV (TV 0 0) (TV 5 0))) /\ pw_sent w' = [].
Proof. run_ex pinit (ORet 0). Qed.
Print Assumptions C53_elapsed_refuted.

(** C54: pid, parent pid and ids as functions of the history; the id calls
    answer -1 once after program start and the default id from then on. *)
Theorem C54_identity :
  (forall l w c w' r, prun pinit l = Some w ->
     (pstep w (PGetpid c) = Done (w', ORet r) -> r = c /\ w' = w) /\
     (pstep w (PGetppid c) = Done (w', ORet r) -> r = parent_in (rev l) c /\ w' = w)) /\
  (forall l w c k w' r, prun pinit l = Some w -> pstep w (PGetid c k) = Done (w', ORet r) ->
     r = if asked_in (rev l) c k then 1000 else -1).
Proof. exact (conj pid_reports id_reports). Qed.
Print Assumptions C54_identity.

Example C54_nonvacuous :
  exists w, prun pinit [PThreadInit 1 7; PGetid 1 KUid; PFork 1 5] = Some w /\
     exists w', pstep w (PGetppid 5) = Done (w', ORet 1) /\
     exists w'', pstep w' (PGetid 5 KUid) = Done (w'', ORet 1000) /\ pw_sent w'' = [].
Proof. run_ex pinit (ORet 0). Qed.

(** C66: a timer armed for a whole number of seconds sends nothing before they
    have passed and sends SIGALRM to the process's main thread at the first
    tick afterwards. *)
Theorem C66_whole_second_timer_fires_on_time :
  (forall l0 w c s i w1 o1 l w2,
    prun pinit l0 = Some w -> 1 <= s < 2 ^ 63 -> 0 <= i < 2 ^ 63 ->
    pstep w (PSetitimer c 0 (Some (ITV (TV i 0) (TV s 0)))) = Done (w1, o1) ->
    Forall (quiet_for c) l -> prun w1 l = Some w2 ->
    pw_now w2 - pw_now w < s * 1000000000 -> pw_sent w2 = pw_sent w) /\
  (forall l0 w c s i w1 o1 l w2 g,
    prun pinit l0 = Some w -> 1 <= s < 2 ^ 63 -> 0 <= i < 2 ^ 63 ->
    pstep w (PSetitimer c 0 (Some (ITV (TV i 0) (TV s 0)))) = Done (w1, o1) ->
    Forall (quiet_for c) l -> prun w1 l = Some w2 ->
    pw_now w2 - pw_now w < s * 1000000000 ->
    pw_cages w2 !! c = Some g -> pc_main g <> 0 ->
    exists w3, prun w2 [PAdvance (s * 1000000000); PTick c] = Some w3 /\
      pw_sent w3 = pw_sent w ++ [(pc_main g, 14)]).
Proof. exact (conj timer_whole_seconds timer_whole_seconds_fires). Qed.
Print Assumptions C66_whole_second_timer_fires_on_time.

Example C66_nonvacuous :
  Forall (quiet_for 1) [PAdvance 1999999999; PTick 1] /\
  exists w, prun pinit [PThreadInit 1 7] = Some w /\
    exists w1 o1, pstep w (PSetitimer 1 0 (Some (ITV (TV 1 0) (TV 2 0)))) = Done (w1, o1) /\
    exists w2, prun w1 [PAdvance 1999999999; PTick 1] = Some w2 /\
    pw_now w2 - pw_now w = 1999999999 /\ pw_sent w2 = [].
Proof. split; [repeat constructor|]. run_ex pinit (ORet 0). Qed.

(** With a fractional part the alarm comes early: 0.9 s fires after 1 ms. *)
Theorem C53_never_early_refuted : ~ timer_never_early.
Proof.
  intros H.
  assert (Hw : exists w, prun pinit [PThreadInit 1 7] = Some w /\
    exists w1 o1, pstep w (PSetitimer 1 0 (Some (ITV (TV 0 0) (TV 0 900000)))) = Done (w1, o1) /\
    exists w2, prun w1 [PAdvance 1000000; PTick 1] = Some w2 /\
    pw_now w2 = 1000000 /\ pw_now w = 0 /\ pw_sent w2 = [(7, 14)] /\ pw_sent w = []).
  { run_ex pinit (ORet 0). }
  destruct Hw as (w & H0 & w1 & o1 & H1 & w2 & H2 & Hn2 & Hn & Hs2 & Hs).
  assert (Hx := H _ w 1 0 900000 w1 o1 [PAdvance 1000000; PTick 1] w2 H0
    ltac:(lia) ltac:(lia) H1 ltac:(repeat constructor) H2 ltac:(lia)).
  rewrite Hs2, Hs in Hx. discriminate.
Qed.
Print Assumptions C53_never_early_refuted.
