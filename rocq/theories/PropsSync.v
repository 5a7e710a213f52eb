(** C45, C47, C69, C70: semaphores and advisory locks, for every number of
    threads and every schedule. *)
From Verif Require Import Base SemModel SemSpec SemProofs LockModel LockSpec LockProofs.
Local Open Scope Z_scope.

(** ** C45: semaphores *)
(** The value is the initial value plus posts minus completed waits, and it
    stays in range. (sem_init refuses larger initial values: C46.) *)
Theorem C45_value n k tr s : 0 <= n <= SEM_VALUE_MAX -> srun n k tr s ->
  s_val s = level n tr /\ 0 <= level n tr <= SEM_VALUE_MAX.
Proof. intros Hn H. destruct (srun_inv _ _ _ _ Hn H) as [Hv Hr _ _ _]. rewrite <- Hv. done. Qed.
Print Assumptions C45_value.

(** What each call returns when it returns, [level n tr] being the value at
    that instant. *)
Theorem C45_post n k tr s i r : 0 <= n <= SEM_VALUE_MAX -> srun n k (tr ++ [SRet i SPost r]) s ->
  (level n tr < SEM_VALUE_MAX /\ r = 0) \/ (level n tr = SEM_VALUE_MAX /\ r = err EOVERFLOW).
Proof. intros Hn H. destruct (call_result _ _ _ _ _ _ _ Hn H) as (? & ? & _ & _ & Hr). cbn in Hr. tauto. Qed.
Print Assumptions C45_post.

Theorem C45_trywait n k tr s i r : 0 <= n <= SEM_VALUE_MAX -> srun n k (tr ++ [SRet i STry r]) s ->
  (0 < level n tr /\ r = 0) \/ (level n tr = 0 /\ r = err EAGAIN).
Proof. intros Hn H. destruct (call_result _ _ _ _ _ _ _ Hn H) as (? & ? & _ & _ & Hr). cbn in Hr. tauto. Qed.
Print Assumptions C45_trywait.

Theorem C45_wait n k tr s i r : 0 <= n <= SEM_VALUE_MAX -> srun n k (tr ++ [SRet i SWait r]) s ->
  0 < level n tr /\ r = 0.
Proof. intros Hn H. destruct (call_result _ _ _ _ _ _ _ Hn H) as (? & ? & _ & _ & Hr). cbn in Hr. tauto. Qed.
Print Assumptions C45_wait.

(** A timed wait fails only when the value is 0 and more ticks than its
    timeout have passed since its own call. *)
Theorem C45_timedwait n k tr s i d r : 0 <= n <= SEM_VALUE_MAX -> srun n k (tr ++ [SRet i (STimed d) r]) s ->
  (0 < level n tr /\ r = 0) \/
  (level n tr = 0 /\ r = err ETIMEDOUT /\
   exists tr1 tr2, tr = tr1 ++ SCall i (STimed d) :: tr2 /\ of_thread i tr2 = [] /\ d < ticks tr2).
Proof.
  intros Hn H. destruct (call_result _ _ _ _ _ _ _ Hn H) as (tr1 & tr2 & E & Hno & Hr). cbn in Hr.
  destruct Hr as [Hr|(Hr & Hv & Hd)]; [left; tauto|right]. split_and!; [done|done|]. by exists tr1, tr2.
Qed.
Print Assumptions C45_timedwait.

Theorem C45_getvalue n k tr s i r : 0 <= n <= SEM_VALUE_MAX -> srun n k (tr ++ [SRet i SGet r]) s -> r = level n tr.
Proof. intros Hn H. destruct (call_result _ _ _ _ _ _ _ Hn H) as (? & ? & _ & _ & Hr). exact Hr. Qed.
Print Assumptions C45_getvalue.

(** At most [n] threads are between a wait and the post that gives it back. *)
Theorem C45_at_most_n n k tr s : 0 <= n <= SEM_VALUE_MAX -> srun n k tr s -> polite tr -> insiders k tr <= n.
Proof. exact (at_most_n n k tr s). Qed.
Print Assumptions C45_at_most_n.

(** A thread waiting while the value is positive can complete its wait. *)
Theorem C45_progress n k tr s i o t : 0 <= n <= SEM_VALUE_MAX -> srun n k tr s ->
  s_pcs s !! i = Some (SIn o t) -> is_wait o = true -> 0 < level n tr ->
  exists s', srun n k (tr ++ [SRet i o 0]) s'.
Proof. exact (wait_progress n k tr s i o t). Qed.
Print Assumptions C45_progress.

(** Three threads, two of them inside, the third refused, timed out and then
    let in. *)
Definition sem_sched : list sact :=
  [SStart 0 SWait; SStart 1 SWait; SStart 2 STry; SGo 1; SGo 0; SGo 2; SStart 2 (STimed 1); SGo 2; SClock; SGo 2;
   SClock; SGo 2; SStart 2 SWait; SGo 2; SStart 1 SPost; SGo 1; SGo 2].
Example C45_nonvacuous : exists tr s, srun 2 3 tr s /\
  (insiders 3 tr =? 2) && (level 2 tr =? 0)
  && bool_decide (List.filter (fun e => match e with SRet _ _ _ => true | _ => false end) tr
       = [SRet 1 SWait 0; SRet 0 SWait 0; SRet 2 STry (err EAGAIN); SRet 2 (STimed 1) (err ETIMEDOUT);
          SRet 1 SPost 0; SRet 2 SWait 0]) = true.
Proof.
  apply (sem_ex 2 3 sem_sched (fun tr s => (insiders 3 tr =? 2) && (level 2 tr =? 0)
  && bool_decide (List.filter (fun e => match e with SRet _ _ _ => true | _ => false end) tr
       = [SRet 1 SWait 0; SRet 0 SWait 0; SRet 2 STry (err EAGAIN); SRet 2 (STimed 1) (err ETIMEDOUT);
          SRet 1 SPost 0; SRet 2 SWait 0]))).
  vm_compute. reflexivity.
Qed.
(** ... and the maximum is reached. *)
Example C45_nonvacuous_max : exists tr s, srun SEM_VALUE_MAX 1 tr s /\
  bool_decide (tr = [SCall 0 SPost; SRet 0 SPost (err EOVERFLOW)]) = true.
Proof.
  apply (sem_ex SEM_VALUE_MAX 1 [SStart 0 SPost; SGo 0] (fun tr s => bool_decide (tr = [SCall 0 SPost; SRet 0 SPost (err EOVERFLOW)]))).
  vm_compute. reflexivity.
Qed.
(** The trace of [C45_nonvacuous] is polite: its only post is by a thread that
    is inside. *)
Example C45_nonvacuous_polite : polite [SCall 0 SWait; SCall 1 SWait; SRet 1 SWait 0; SRet 0 SWait 0; SCall 1 SPost; SRet 1 SPost 0]
  /\ exists s, srun 2 3 [SCall 0 SWait; SCall 1 SWait; SRet 1 SWait 0; SRet 0 SWait 0; SCall 1 SPost; SRet 1 SPost 0] s.
Proof.
  split.
  - intros tr1 i tr2 E. destruct tr1 as [|? [|? [|? [|? [|? [|? [|? ?]]]]]]]; try discriminate E.
    injection E as <- <- <- <- <- _. reflexivity.
  - eexists. apply (ssched_run 2 3 [SStart 0 SWait; SStart 1 SWait; SGo 1; SGo 0; SStart 1 SPost; SGo 1] [] (sinit 2 3));
      [apply srun_nil|]. vm_compute. reflexivity.
Qed.

(** ** C47: advisory locks *)
(** Full statement: also when the holders opened the file separately. Missing:
    that case, see [C47_separate_refuted]. For one open file (shared through
    dup and fork): whoever holds it exclusively is the only holder. *)
Theorem C47_exclusive_partial m k tr s i j d : lrun m k tr s -> lpolite tr -> (d < m)%nat ->
  (i < k)%nat -> (j < k)%nat -> holds tr i d = Some KEx -> holds tr j d <> None -> i = j.
Proof. exact (exclusion m k tr s i j d). Qed.
Print Assumptions C47_exclusive_partial.

(** When nobody holds the open file and somebody waits for it, the threads
    already inside their calls need only go on for one of them to get it. *)
Theorem C47_waiters m k tr s i n d : lrun m k tr s -> lpolite tr -> unlocked k tr d ->
  calling tr i n d -> (lkind_of n = Some KEx \/ lkind_of n = Some KSh) -> nonblock n = false ->
  exists s' es, lcont s es s' /\ wins es d.
Proof. exact (waiters_proceed m k tr s i n d). Qed.
Print Assumptions C47_waiters.

(** Whatever file each open file refers to: two threads that opened the same
    file separately both hold it exclusively. *)
Theorem C47_separate_refuted :
  ~ (forall (file : nat -> nat) m k tr s i j d e, lrun m k tr s -> lpolite tr -> (d < m)%nat -> (e < m)%nat ->
       (i < k)%nat -> (j < k)%nat -> file d = file e ->
       holds tr i d = Some KEx -> holds tr j e <> None -> i = j).
Proof.
  intros H.
  destruct (lock_ex 2 2 [LStart 0 LOCK_EX 0; LGo 0 0; LGo 0 0; LStart 1 LOCK_EX 1; LGo 1 0; LGo 1 0]
    (fun tr s => lpolite_b [] tr && bool_decide (holds tr 0 0 = Some KEx) && bool_decide (holds tr 1 1 = Some KEx)))
    as (tr & s & Hr & Hc); [vm_compute; reflexivity|].
  apply andb_true_iff in Hc as [Hc H2]. apply andb_true_iff in Hc as [Hc H1].
  apply lpolite_dec in Hc. apply bool_decide_eq_true in H1, H2.
  assert (0%nat = 1%nat); [|done].
  apply (H (fun _ => 0%nat) 2%nat 2%nat tr s 0%nat 1%nat 0%nat 1%nat Hr Hc); [lia|lia|lia|lia|done|done|].
  rewrite H2. done.
Qed.
Print Assumptions C47_separate_refuted.

(** Two threads share one open file; a third sleeps until both have unlocked,
    and gets it. *)
Example C47_nonvacuous : exists tr s, lrun 1 3 tr s /\
  lpolite_b [] tr && bool_decide (holds tr 2 0 = Some KEx) && bool_decide (holds tr 0 0 = None)
  && bool_decide (LRet 0 LOCK_SH 0 0 ∈ tr) && bool_decide (LRet 1 LOCK_SH 0 0 ∈ tr) = true.
Proof.
  apply (lock_ex 1 3 [LStart 0 LOCK_SH 0; LGo 0 0; LStart 1 LOCK_SH 0; LGo 0 0; LGo 1 0; LGo 1 0; LStart 2 LOCK_EX 0; LGo 2 0; LGo 2 0;
     LStart 0 LOCK_UN 0; LGo 0 0; LGo 0 0; LStart 1 LOCK_UN 0; LGo 1 0; LGo 1 2; LGo 2 0; LGo 2 0]
    (fun tr s => lpolite_b [] tr && bool_decide (holds tr 2 0 = Some KEx) && bool_decide (holds tr 0 0 = None)
  && bool_decide (LRet 0 LOCK_SH 0 0 ∈ tr) && bool_decide (LRet 1 LOCK_SH 0 0 ∈ tr))).
  vm_compute. reflexivity.
Qed.
(** The hypotheses of [C47_waiters]: just after the last unlock. *)
Example C47_nonvacuous_waiters : exists tr s, lrun 1 2 tr s /\
  lpolite_b [] tr && bool_decide (holds tr 0 0 = None) && bool_decide (holds tr 1 0 = None)
  && bool_decide (l_pcs s !! 1%nat = Some (LWant LOCK_EX 0)) = true.
Proof.
  apply (lock_ex 1 2 [LStart 0 LOCK_EX 0; LGo 0 0; LGo 0 0; LStart 1 LOCK_EX 0; LGo 1 0; LGo 1 0; LStart 0 LOCK_UN 0; LGo 0 0; LGo 0 0]
    (fun tr s => lpolite_b [] tr && bool_decide (holds tr 0 0 = None) && bool_decide (holds tr 1 0 = None)
  && bool_decide (l_pcs s !! 1%nat = Some (LWant LOCK_EX 0)))).
  vm_compute. reflexivity.
Qed.

(** ** C69: changing one's own lock *)
(** A process with a single thread takes a shared lock, asks to make it
    exclusive, and sleeps for ever: nothing at all can happen any more. *)
Theorem C69_convert_refuted : exists tr s, lrun 1 1 tr s /\
  holds tr 0 0 = Some KSh /\ calling tr 0 LOCK_EX 0 /\ forall a, ldo s a = None.
Proof.
  destruct (lock_ex 1 1 [LStart 0 LOCK_SH 0; LGo 0 0; LGo 0 0; LStart 0 LOCK_EX 0; LGo 0 0; LGo 0 0]
    (fun tr s => bool_decide (holds tr 0 0 = Some KSh) && bool_decide (l_pcs s = [LSleep LOCK_EX 0])))
    as (tr & s & Hr & Hc); [vm_compute; reflexivity|].
  apply andb_true_iff in Hc as [H1 H2]. apply bool_decide_eq_true in H1, H2.
  exists tr, s. split_and!; [done|done| |].
  - apply (pc_calling 1 1 tr s 0 (LSleep LOCK_EX 0) LOCK_EX 0 Hr); [by rewrite H2|done].
  - intros [i n d|i w]; cbn [ldo]; unfold lgo; rewrite H2; destruct i as [|[|i]]; done.
Qed.
Print Assumptions C69_convert_refuted.

(** Full statement: asking for the other kind converts the caller's lock when
    nobody else's lock conflicts. Missing: the conversion itself, which never
    works. What does work is to unlock first: with every lock on the open file
    given back and no other thread inside [flock] on it, a call for either
    kind, blocking or not, goes through. *)
Theorem C69_unlock_first_partial m k tr s i n d :
  lrun m k tr s -> lpolite tr -> unlocked k tr d ->
  calling tr i n d -> (forall j n', calling tr j n' d -> j = i) ->
  (lkind_of n = Some KEx \/ lkind_of n = Some KSh) ->
  exists s' es, lcont s es s' /\ LRet i n d 0 ∈ es.
Proof. exact (alone_wins m k tr s i n d). Qed.
Print Assumptions C69_unlock_first_partial.

(** A shared holder unlocks and then gets the exclusive lock. *)
Example C69_nonvacuous : exists tr s, lrun 1 1 tr s /\
  lpolite_b [] tr && bool_decide (LRet 0 LOCK_SH 0 0 ∈ tr) && bool_decide (holds tr 0 0 = None)
  && bool_decide (l_pcs s = [LWant LOCK_EX 0]) = true.
Proof.
  apply (lock_ex 1 1 [LStart 0 LOCK_SH 0; LGo 0 0; LGo 0 0; LStart 0 LOCK_UN 0; LGo 0 0; LGo 0 0; LStart 0 LOCK_EX 0]
    (fun tr s => lpolite_b [] tr && bool_decide (LRet 0 LOCK_SH 0 0 ∈ tr) && bool_decide (holds tr 0 0 = None)
  && bool_decide (l_pcs s = [LWant LOCK_EX 0]))).
  vm_compute. reflexivity.
Qed.

(** ** C70: LOCK_NB *)
(** Full statement: a call with LOCK_NB fails with EAGAIN only when a
    conflicting lock is held. Missing: another thread being inside [flock] on
    the same open file at that moment, see [C70_spurious_refuted]. *)
Theorem C70_nonblocking_partial m k tr s i n d :
  lrun m k (tr ++ [LRet i n d (err EAGAIN)]) s -> lpolite tr ->
  (exists j x, (j < k)%nat /\ holds tr j d = Some x /\ (lkind_of n = Some KEx \/ x = KEx))
  \/ (exists j n', j <> i /\ calling tr j n' d).
Proof. exact (nb_fails m k tr s i n d). Qed.
Print Assumptions C70_nonblocking_partial.

(** A blocking call never fails. *)
Theorem C70_blocking m k tr s i n d r : lrun m k (tr ++ [LRet i n d r]) s ->
  nonblock n = false -> lkind_of n <> None -> r = 0.
Proof.
  intros H Hn Hk. destruct (nb_result _ _ _ _ _ _ _ _ H) as [?|[[_ ?]|[_ ?]]]; [done|congruence|done].
Qed.
Print Assumptions C70_blocking.

(** The numbers: exactly one of LOCK_SH, LOCK_EX and LOCK_UN, and LOCK_NB is bit 2. *)
Theorem C70_requests n : lkind_of n = asks n /\ nonblock n = Z.testbit n 2.
Proof. split; [apply lkind_asks|apply nonblock_bit]. Qed.
Print Assumptions C70_requests.

(** EINVAL is the answer to every other number, and to no number that asks for
    something; such a call ends at once and changes nothing. *)
Theorem C70_invalid m k tr s i n d r : lrun m k (tr ++ [LRet i n d r]) s -> (r = err EINVAL <-> asks n = None).
Proof. exact (inval_iff m k tr s i n d r). Qed.
Print Assumptions C70_invalid.
Theorem C70_invalid_frame s i n d s' es : ldo s (LStart i n d) = Some (s', es) -> asks n = None ->
  s' = s /\ es = [LCall i n d; LRet i n d (err EINVAL)].
Proof. exact (inval_frame s i n d s' es). Qed.
Print Assumptions C70_invalid_frame.
Example C70_nonvacuous_requests :
  asks 1 = Some KSh /\ asks 6 = Some KEx /\ asks 12 = Some KUn /\ asks 3 = None /\ asks 0 = None /\
  ldo (linit 1 1) (LStart 0 3 0) = Some (linit 1 1, [LCall 0 3 0; LRet 0 3 0 (err EINVAL)]).
Proof. repeat split. Qed.

(** Two threads ask for a shared lock without blocking; nobody ever held
    anything, and one is refused. *)
Theorem C70_spurious_refuted :
  ~ (forall m k tr s i n d, lrun m k (tr ++ [LRet i n d (err EAGAIN)]) s -> lpolite tr ->
       exists j x, (j < k)%nat /\ holds tr j d = Some x).
Proof.
  intros H.
  assert (Hs : lsched (linit 1 2) [LStart 0 5 0; LStart 1 5 0; LGo 0 0; LGo 1 0]
    = Some ([LCall 0 5 0; LCall 1 5 0] ++ [LRet 1 5 0 (err EAGAIN)], Lst [0] [true] [LIn 5 0; LIdle])) by reflexivity.
  pose proof (lsched_run 1 2 _ [] _ _ _ (lrun_nil 1 2) Hs) as Hr.
  destruct (H 1%nat 2%nat [LCall 0 5 0; LCall 1 5 0] _ 1%nat 5 0%nat Hr) as (j & x & _ & Hx).
  - apply lpolite_dec. reflexivity.
  - discriminate Hx.
Qed.
Print Assumptions C70_spurious_refuted.
Example C70_nonvacuous : exists tr s, lrun 1 2 tr s /\
  lpolite_b [] tr && bool_decide (last tr = Some (LRet 1 (Z.lor LOCK_EX LOCK_NB) 0 (err EAGAIN))) && bool_decide (holds tr 0 0 = Some KSh) = true.
Proof.
  apply (lock_ex 1 2 [LStart 0 LOCK_SH 0; LGo 0 0; LGo 0 0; LStart 1 (Z.lor LOCK_EX LOCK_NB) 0; LGo 1 0; LGo 1 0]
    (fun tr s => lpolite_b [] tr && bool_decide (last tr = Some (LRet 1 (Z.lor LOCK_EX LOCK_NB) 0 (err EAGAIN))) && bool_decide (holds tr 0 0 = Some KSh))).
  vm_compute. reflexivity.
Qed.
