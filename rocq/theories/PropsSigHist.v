(** C138: masks of threads, and who is sent which signal *)
From Verif Require Import Base SigModel SigSpec SigProofs SigHistSpec SigHistProofs.

(** The old mask that sigprocmask reports is the one of the history. *)
Theorem C138_masks : forall l w c t how set w' r old,
  prun pinit l = Some w -> pstep w (PSigprocmask c t how set) = Done (w', OMask r old) ->
  mask_in (rev l) c t = Some (members old).
Proof. exact mask_told. Qed.
Print Assumptions C138_masks.

(** A call sends the signals it should, and no others. *)
Theorem C138_sent : forall l w o w' out,
  prun pinit l = Some w -> pstep w o = Done (w', out) ->
  exists evs, pw_sent w' = pw_sent w ++ evs /\ sends_in (rev l) o evs.
Proof. exact sent_exactly. Qed.
Print Assumptions C138_sent.

(** What kill answers: EINVAL outside the table, ESRCH when nobody is there. *)
Theorem C138_kill : forall l w c p s,
  prun pinit l = Some w -> 0 <= c < 1024 -> alive_in (rev l) c = true ->
  exists w', pstep w (PKill c p s) = Done (w', ORet (if (p <? 0) || (1024 <=? p) then -22 else if alive_in (rev l) p then 0 else -3)) /\
    pw_cages w' = pw_cages w.
Proof. exact kill_answers. Qed.
Print Assumptions C138_kill.

(** Process 1 blocks signal 10 and forks; the child's thread blocks it too; a
    kill reaches the child's thread, the child's end the parent's. *)
Definition family : list pop :=
  [PThreadInit 1 7; PSigprocmask 1 7 0 (Some 512); PFork 1 2; PThreadInit 2 9; PKill 1 2 15; PKill 2 5 1; PExit 2 0].
Example C138_nonvacuous :
  exists w, prun pinit (take 4 family) = Some w /\ mask_of w 2 9 = Some 512 /\
    bool_decide (mask_in (rev (take 4 family)) 2 9 = Some {[10]}) = true /\
    exists w', prun w (drop 4 family) = Some w' /\ pw_sent w' = [(9, 15); (7, 17)].
Proof. run_ex pinit (ORet 0). Qed.

(** A child does not start with the mask of the thread that forks when another
    one started later: fork does not look who calls it. *)
Theorem C138_caller_mask_refuted :
  exists w, prun pinit [PThreadInit 1 7; PThreadInit 1 8; PSigprocmask 1 7 0 (Some 512)] = Some w /\
    mask_of w 1 7 = Some 512 /\
    exists w', pstep w (PFork 1 2) = Done (w', ORet 0) /\
    exists w'', pstep w' (PThreadInit 2 9) = Done (w'', ORet 0) /\ mask_of w'' 2 9 = Some 0.
Proof. run_ex pinit (ORet 0). Qed.
Print Assumptions C138_caller_mask_refuted.

(** The end of a process: it is gone, and its status is the answer; unless the
    parent exists and none of its threads has started, which ends the library. *)
Theorem C138_exit : forall l w c st,
  prun pinit l = Some w -> 0 <= c < 1024 -> alive_in (rev l) c = true ->
  if negb (parent_in (rev l) c =? c) && alive_in (rev l) (parent_in (rev l) c) && (main_in (rev l) (parent_in (rev l) c) =? 0)
  then pstep w (PExit c st) = Panic
  else exists w', pstep w (PExit c st) = Done (w', ORet st) /\ pw_cages w' = delete c (pw_cages w).
Proof. exact exit_answers. Qed.
Print Assumptions C138_exit.

(** This happens: the parent has just replaced its program, and the thread of
    the new one has not started, when the child ends. *)
Theorem C138_exit_refuted :
  exists w, prun pinit [PThreadInit 1 7; PFork 1 2; PThreadInit 2 9; PExec 1 1] = Some w /\ pstep w (PExit 2 0) = Panic.
Proof. run_ex pinit (ORet 0). Qed.
Print Assumptions C138_exit_refuted.

(** kill does not look at the number of the signal, and takes a process whose
    threads have not started for one with a thread of number 0. *)
Theorem C138_kill_number_refuted :
  exists w, prun pinit [PThreadInit 1 7; PFork 1 2] = Some w /\
    exists w', pstep w (PKill 1 1 1000) = Done (w', ORet 0) /\ pw_sent w' = [(7, 1000)] /\
    exists w'', pstep w' (PKill 1 2 15) = Done (w'', ORet 0) /\ pw_sent w'' = [(7, 1000); (0, 15)].
Proof. run_ex pinit (ORet 0). Qed.
Print Assumptions C138_kill_number_refuted.

(** A timer is kept over exec; when it runs out in that interval its thread
    fails at the same assertion (and leaves the timer's lock poisoned), so that
    the alarm is lost. *)
Theorem C138_alarm_refuted :
  exists w, prun pinit [PThreadInit 1 7; PSetitimer 1 0 (Some (ITV (TV 0 0) (TV 1 0))); PExec 1 1; PAdvance 2000000000] = Some w /\
    pstep w (PTick 1) = Panic.
Proof. run_ex pinit (ORet 0). Qed.
Print Assumptions C138_alarm_refuted.
