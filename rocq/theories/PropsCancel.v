(** C113, C114: cancelling a process. *)
From stdpp Require Import gmap.
From Verif Require Import Base CancelModel CancelSpec CancelProofs CancelProofs2.
Local Open Scope Z_scope.

(** A thread is caught or dead only if the process was cancelled, and dead
    only if that thread was marked. *)
Theorem C113_who s l s' t : begun s -> history s l = Done s' -> gone t s' ->
  CancelFlag ∈ l /\ (at_ t Dead s' -> SetKill t true ∈ l \/ marked t s).
Proof. exact (why_dead s l s' t). Qed.
Print Assumptions C113_who.

(** The step in which a thread dies is its own, from the cancel point, with the
    mark set; it clears the mark and changes nothing else: a mutex stays held. *)
Theorem C113_moment s e s' t : happen s e = Done s' -> ~ at_ t Dead s -> at_ t Dead s' ->
  e = Go t /\ at_ t Trapped s /\ marked t s /\
  s' = Cage (<[t := Dead]> (c_pc s)) (<[t := false]> (c_table s)) (c_cancel s) (c_cvs s) (c_owner s) (c_pipe s).
Proof. exact (dies s e s' t). Qed.
Print Assumptions C113_moment.

(** A call that has seen the cancellation never returns to its caller. *)
Theorem C113_no_return s l s' t : history s l = Done s' -> gone t s -> gone t s' /\ (at_ t Dead s -> at_ t Dead s').
Proof. exact (gone_stays s l s' t). Qed.
Print Assumptions C113_no_return.

(** The runtime aborts exactly when a thread that is not in the table comes to
    a cancel point. *)
Theorem C113_aborts s e : happen s e = Panic <-> exists t, e = Go t /\ at_ t Trapped s /\ c_table s !! t = None.
Proof. split; [exact (only_abort s e)|]. intros (t & -> & H1 & H2). exact (unregistered s t H1 H2). Qed.
Print Assumptions C113_aborts.

Definition proc (p : list Z) (n w : Z) (reg : gmap Z bool) : cage :=
  Cage (list_to_map ((fun t => (t, Out)) <$> p)) reg false {[5]} ∅ {[3 := (n, w)]}.
Lemma proc_begun p n w reg : begun (proc p n w reg).
Proof.
  split; [|done]. intros t k Hk. cbn [proc c_pc] in Hk. apply elem_of_list_to_map_2 in Hk.
  apply elem_of_list_fmap in Hk. destruct Hk as (u & E & _). by injection E.
Qed.

(** That the end of a process leaves the others alone is false: a thread that
    the runtime has not registered aborts all processes. *)
Theorem C113_unregistered_refuted : ~ (forall s l, begun s -> history s l <> Panic).
Proof.
  intros H. apply (H (proc [1] 0 1 ∅) [Read 1 3; CancelFlag; Go 1; Go 1; Go 1] (proc_begun _ _ _ _)). vm_compute. reflexivity.
Qed.
Print Assumptions C113_unregistered_refuted.

(** two threads wait at the pipe; only the marked one ends *)
Definition two_readers : list event := [Read 1 3; Read 2 3; Go 1; SetKill 1 true; CancelFlag; Go 1; Go 2; Go 2; Go 1; Go 2].
Definition holds (o : outcome cage) (q : cage -> bool) : bool := match o with Done s => q s | Panic => false end.
Definition is_at (t : Z) (k : pc) (s : cage) : bool := bool_decide (c_pc s !! t = Some k).
Lemma holds_ex o q : holds o q = true -> exists s, o = Done s /\ q s = true.
Proof. destruct o as [s|]; [intros H; exists s; split; [done|exact H]|discriminate]. Qed.
Lemma is_at_spec t k s : is_at t k s = true -> at_ t k s.
Proof. unfold is_at, at_. apply bool_decide_eq_true_1. Qed.
Example C113_nonvacuous : exists s', history (proc [1; 2] 0 1 {[1 := false; 2 := false]}) two_readers = Done s' /\
  at_ 1 Dead s' /\ at_ 2 Trapped s'.
Proof.
  destruct (holds_ex (history (proc [1; 2] 0 1 {[1 := false; 2 := false]}) two_readers) (fun s => is_at 1 Dead s && is_at 2 Trapped s)) as (s' & H & Hq).
  - vm_compute. reflexivity.
  - apply andb_true_iff in Hq as (H1 & H2). exists s'. split; [exact H|]. split; by apply is_at_spec.
Qed.

(** C114: a marked thread that waits in a cancelled process comes to its end. *)

(** Reading a pipe: within three steps of its own, whatever the others do, the
    thread is dead, or its first step has completed the read. *)
Theorem C114_reader s l s' t p : history s l = Done s' -> cancelled s -> marked t s -> is_Some (c_pipe s !! p) ->
  at_ t (Reading p) s -> keeps_mark t l -> (3 <= turns t l)%nat ->
  exists l1 l2 s1, l = l1 ++ l2 /\ history s l1 = Done s1 /\
    (at_ t Dead s1 /\ (turns t l1 <= 3)%nat \/ at_ t Out s1 /\ turns t l1 = 1%nat).
Proof.
  intros H Hc Hm Hp Hk Hkm Hn. destruct (reader_ends l s s' t p (Reading p) H Hc Hm Hp Hk Hkm ltac:(auto)) as (l1 & l2 & s1 & E & Hs & Ht & [(Hd & Hb)|(Ho & _ & Hb)]); exists l1, l2, s1; auto.
Qed.
Print Assumptions C114_reader.

(** If the pipe stays empty and has a writer, the thread dies. *)
Theorem C114_empty_pipe s l s' t p w : history s l = Done s' -> cancelled s -> marked t s ->
  c_pipe s !! p = Some (0, w) -> 0 < w -> at_ t (Reading p) s -> keeps_mark t l -> quiet_pipe p s l ->
  (3 <= turns t l)%nat -> at_ t Dead s'.
Proof. exact (reader_dies l s s' t p w). Qed.
Print Assumptions C114_empty_pipe.

(** Waiting for a condition: if the broadcast of the cancellation has reached
    the thread, the mutex is free and nobody else wants it. What is missing are
    the cases refuted below. *)
Theorem C114_waiter_partial s l s' t x : history s l = Done s' -> cancelled s -> marked t s ->
  c_owner s !! x = None -> at_ t (Woken x) s -> keeps_mark t l -> sole t x s l ->
  (3 <= turns t l)%nat -> at_ t Dead s'.
Proof. exact (waiter_dies l s s' t x). Qed.
Print Assumptions C114_waiter_partial.

(** No cancellation reaches a thread asleep on a condition that nobody
    signals, *)
Theorem C114_asleep s l s' t v x : history s l = Done s' -> at_ t (Asleep v x) s -> unsignalled v l -> at_ t (Asleep v x) s'.
Proof. exact (asleep_stays l s s' t v x). Qed.
Print Assumptions C114_asleep.
(** nor one that wants a mutex of a thread the cancellation has caught, *)
Theorem C114_orphaned_mutex s l s' t u x k : history s l = Done s' -> gone u s -> c_owner s !! x = Some u ->
  k = Locking x \/ k = Woken x -> at_ t k s -> at_ t k s' /\ c_owner s' !! x = Some u.
Proof. exact (locker_stays l s s' t u x k). Qed.
Print Assumptions C114_orphaned_mutex.
(** nor one that writes to a full pipe that nobody reads. *)
Theorem C114_writer s l s' t p n w : history s l = Done s' -> at_ t (Writing p) s -> c_pipe s !! p = Some (n, w) ->
  CAPACITY - n < PAGE -> undrained p s l -> at_ t (Writing p) s'.
Proof. exact (writer_stays l s s' t p n w). Qed.
Print Assumptions C114_writer.

Definition MARK : gmap Z bool := {[1 := true; 2 := true]}.
Definition ready (s : cage) : bool := c_cancel s && bool_decide (c_table s !! 1 = Some true) && bool_decide (c_table s !! 2 = Some true).
Lemma ready_spec s : ready s = true -> cancelled s /\ marked 1 s /\ marked 2 s.
Proof. unfold ready. rewrite !andb_true_iff, !bool_decide_eq_true. intros ((A & B) & C). split_and!; done. Qed.
Lemma gos_sig l v : (forall e, e ∈ l -> exists u, e = Go u) -> unsignalled v l.
Proof. intros H. split; [intros t; split|]; intros Hin; destruct (H _ Hin) as (u & E); discriminate. Qed.

(** a thread that begins to wait after the cancellation has begun *)
Theorem C114_late_waiter_refuted : ~ (forall s t v x, comes s -> cancelled s -> marked t s -> at_ t (Asleep v x) s -> can_end t s).
Proof.
  intros H. destruct (holds_ex (history (proc [1; 2] 0 1 MARK) [Lock 1 7; Go 1; CancelFlag; Rouse 5; Wait 1 5 7]) (fun s => ready s && is_at 1 (Asleep 5 7) s)) as (s & Hs & Hq).
  { vm_compute. reflexivity. }
  apply andb_true_iff in Hq as (Hr & Ha). apply ready_spec in Hr as (R1 & R2 & _). apply is_at_spec in Ha.
  destruct (H s 1 5 7) as (l & s' & Hl & Hs' & Hd); [eexists _, _; split; [apply proc_begun|exact Hs]|done..|].
  pose proof (asleep_stays l s s' 1 5 7 Hs' Ha (gos_sig l 5 Hl)) as Hz. unfold at_ in *. congruence.
Qed.
Print Assumptions C114_late_waiter_refuted.

(** two threads that wait with the same mutex: whatever happens, they do not
    both end *)
Theorem C114_two_waiters_refuted : exists s, comes s /\ cancelled s /\ marked 1 s /\ marked 2 s /\
  at_ 1 (Woken 7) s /\ at_ 2 (Woken 7) s /\
  forall l s', history s l = Done s' -> ~ (at_ 1 Dead s' /\ at_ 2 Dead s').
Proof.
  destruct (holds_ex (history (proc [1; 2] 0 1 MARK) [Lock 1 7; Go 1; Wait 1 5 7; Lock 2 7; Go 2; Wait 2 5 7; CancelFlag; Rouse 5]) (fun s => ready s && (is_at 1 (Woken 7) s && is_at 2 (Woken 7) s))) as (s & Hs & Hq).
  { vm_compute. reflexivity. }
  apply andb_true_iff in Hq as (Hr & Ha). apply andb_true_iff in Ha as (Ha & Hb). apply ready_spec in Hr as (R1 & R2 & R3). apply is_at_spec in Ha, Hb.
  exists s. split; [eexists _, _; split; [apply proc_begun|exact Hs]|]. split_and!; [done..|].
  intros l s' Hl. eapply (two_caught l s s' 1 2 7); [done|done|lia|by left|by left].
Qed.
Print Assumptions C114_two_waiters_refuted.

(** a thread that writes to a full pipe *)
Theorem C114_writer_refuted : ~ (forall s t p, comes s -> cancelled s -> marked t s -> at_ t (Writing p) s -> can_end t s).
Proof.
  intros H. destruct (holds_ex (history (proc [1] 61441 1 MARK) [Write 1 3; CancelFlag]) (fun s => ready s && is_at 1 (Writing 3) s && (bool_decide (c_pipe s !! 3 = Some (61441, 1)) && bool_decide (c_pc s = {[1 := Writing 3]})))) as (s & Hs & Hq).
  { vm_compute. reflexivity. }
  rewrite !andb_true_iff, !bool_decide_eq_true in Hq. destruct Hq as ((Hr & Ha) & Hp & Hone). apply ready_spec in Hr as (R1 & R2 & _). apply is_at_spec in Ha.
  destruct (H s 1 3) as (l & s' & Hl & Hs' & Hd); [eexists _, _; split; [apply proc_begun|exact Hs]|done..|].
  assert (Hu : undrained 3 s l).
  { split; [|intros t Hin; destruct (Hl _ Hin) as (u & E); discriminate].
    intros t. unfold at_. rewrite Hone. split; intros E; apply lookup_singleton_Some in E as (_ & E); discriminate. }
  pose proof (writer_stays l s s' 1 3 61441 1 Hs' Ha Hp ltac:(reflexivity) Hu) as Hz. unfold at_ in *. congruence.
Qed.
Print Assumptions C114_writer_refuted.

(** a thread that wants a mutex whose owner the cancellation has caught *)
Theorem C114_locker_refuted : ~ (forall s t x, comes s -> cancelled s -> marked t s -> at_ t (Locking x) s -> can_end t s).
Proof.
  intros H. destruct (holds_ex (history (proc [1; 2] 0 1 MARK) [Lock 1 7; Go 1; Read 1 3; Lock 2 7; CancelFlag; Go 1; Go 1]) (fun s => ready s && (is_at 1 Trapped s && is_at 2 (Locking 7) s && bool_decide (c_owner s !! 7 = Some 1)))) as (s & Hs & Hq).
  { vm_compute. reflexivity. }
  rewrite !andb_true_iff, bool_decide_eq_true in Hq. destruct Hq as (Hr & (Ha & Hb) & Ho). apply ready_spec in Hr as (R1 & R2 & R3). apply is_at_spec in Ha, Hb.
  destruct (H s 2 7) as (l & s' & Hl & Hs' & Hd); [eexists _, _; split; [apply proc_begun|exact Hs]|done..|].
  destruct (locker_stays l s s' 2 1 7 (Locking 7) Hs' ltac:(by left) Ho ltac:(by left) Hb) as (Hz & _). unfold at_ in *. congruence.
Qed.
Print Assumptions C114_locker_refuted.

(** a reader of an empty pipe and one thread that waits for a condition end *)
Example C114_nonvacuous : exists s s', comes s /\ cancelled s /\ marked 1 s /\ marked 2 s /\ c_pipe s !! 3 = Some (0, 1) /\
  at_ 1 (Reading 3) s /\ at_ 2 (Woken 7) s /\ c_owner s !! 7 = None /\
  history s [Go 1; Go 2; Go 1; Go 2; Go 2; Go 1] = Done s' /\ at_ 1 Dead s' /\ at_ 2 Dead s'.
Proof.
  destruct (holds_ex (history (proc [1; 2] 0 1 MARK) [Read 1 3; Lock 2 7; Go 2; Wait 2 5 7; CancelFlag; Rouse 5])
    (fun s => ready s && (bool_decide (c_pipe s !! 3 = Some (0, 1)) && bool_decide (c_owner s !! 7 = None)) && (is_at 1 (Reading 3) s && is_at 2 (Woken 7) s) &&
      holds (history s [Go 1; Go 2; Go 1; Go 2; Go 2; Go 1]) (fun s' => is_at 1 Dead s' && is_at 2 Dead s'))) as (s & Hs & Hq).
  { vm_compute. reflexivity. }
  rewrite !andb_true_iff, !bool_decide_eq_true in Hq. destruct Hq as (((Hr & Hp & Ho) & Ha & Hb) & Hh). apply ready_spec in Hr as (R1 & R2 & R3).
  apply holds_ex in Hh as (s' & Hs' & Hq'). apply andb_true_iff in Hq' as (H1 & H2). apply is_at_spec in Ha, Hb, H1, H2.
  exists s, s'. split; [eexists _, _; split; [apply proc_begun|exact Hs]|]. split_and!; done.
Qed.
