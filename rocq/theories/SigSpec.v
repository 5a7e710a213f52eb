(** Specification vocabulary for signal sets, masks, actions and ids: plain
    finite sets and functions of the history.  Independent of the model's
    helper functions. *)
From Verif Require Import Base SigModel.

(** The set of signal numbers (1..64) a mask word stands for. *)
Definition members (m : Z) : gset Z :=
  list_to_set (List.filter (fun s => Z.testbit m (s - 1)) (seqZ 1 64)).

(** A 64-bit word. *)
Definition is_u64 (m : Z) : Prop := 0 <= m < 2 ^ 64.

(** The mask of thread [tid] of process [c]. *)
Definition mask_of (w : pworld) (c tid : Z) : option Z :=
  match pw_cages w !! c with Some g => pc_sigset g !! tid | None => None end.

(** The mask a sigprocmask request [how] (0 block, 1 unblock, 2 set) asks for;
    [None] for an invalid request. *)
Definition requested (how : Z) (old req : gset Z) : option (gset Z) :=
  if how =? 0 then Some (old ∪ req) else if how =? 1 then Some (old ∖ req)
  else if how =? 2 then Some req else None.

(** "A signal that arrives while blocked is delivered once it is unblocked":
    if [s] arrived in thread [tid] when blocked and the thread's mask later no
    longer contains [s], the thread has been sent [s] in between. *)
Definition pending_is_delivered : Prop :=
  forall l1 l2 w0 w1 w2 c tid s m0 m2,
    prun pinit l1 = Some w0 ->
    mask_of w0 c tid = Some m0 -> s ∈ members m0 ->
    pstep w0 (PArrive c tid s) = Done (w1, ORet 1) ->
    prun w1 l2 = Some w2 ->
    mask_of w2 c tid = Some m2 -> s ∉ members m2 ->
    (tid, s) ∈ drop (length (pw_sent w1)) (pw_sent w2).

(** "Changing the mask never produces a signal that did not arrive": if no
    signal [s] ever arrived and nobody sent one, nobody is sent one. *)
Definition no_spurious_signal : Prop :=
  forall l w tid s,
    prun pinit l = Some w ->
    (forall o, o ∈ l -> match o with
                        | PArrive _ _ s' | PKill _ _ s' => s' <> s
                        | PExit _ _ | PTick _ => False
                        | _ => True end) ->
    (tid, s) ∉ pw_sent w.

(** The action process [c] has for [sig] according to the history [h], newest
    call first: the last one set successfully, inherited over fork, reset by
    exec and for the initial processes. *)
Fixpoint action_in (h : list pop) (c sig : Z) : sigaction :=
  match h with
  | [] => sigaction_default
  | PSigaction c' s' (Some a) :: h' =>
      if (c' =? c) && (s' =? sig) && negb (s' =? 9) && negb (s' =? 19) then a
      else action_in h' c sig
  | PFork c' ch :: h' => if ch =? c then action_in h' c' sig else action_in h' c sig
  | PExec _ ch :: h' => if ch =? c then sigaction_default else action_in h' c sig
  | _ :: h' => action_in h' c sig
  end.

(** The parent of process [c] according to the history, newest first. *)
Fixpoint parent_in (h : list pop) (c : Z) : Z :=
  match h with
  | [] => c
  | PFork c' ch :: h' => if ch =? c then c' else parent_in h' c
  | PExec c' ch :: h' => if ch =? c then parent_in h' c' else parent_in h' c
  | _ :: h' => parent_in h' c
  end.

(** Has process [c] asked for id [k] before (itself, or an ancestor before it
    forked), since the last exec? *)
Fixpoint asked_in (h : list pop) (c : Z) (k : idkind) : bool :=
  match h with
  | [] => false
  | PGetid c' k' :: h' =>
      ((c' =? c) && match k, k' with
                    | KGid, KGid | KEgid, KEgid | KUid, KUid | KEuid, KEuid => true
                    | _, _ => false end) || asked_in h' c k
  | PFork c' ch :: h' => if ch =? c then asked_in h' c' k else asked_in h' c k
  | PExec _ ch :: h' => if ch =? c then false else asked_in h' c k
  | _ :: h' => asked_in h' c k
  end.

(** Calls that neither send signals themselves nor touch the timer of [c]. *)
Definition quiet_for (c : Z) (o : pop) : Prop :=
  match o with
  | PTick c' => c' = c
  | PAdvance _ | PGetpid _ | PGetppid _ | PGetid _ _ | PSigaction _ _ _ | PArrive _ _ _ => True
  | _ => False
  end.

(** "The value reported right after setting a timer is the value set". *)
Definition timer_reports_exactly : Prop :=
  forall l w w1 w2 c v o1 r old,
    prun pinit l = Some w ->
    0 <= tv_usec (it_value v) < 1000000 -> 0 <= tv_usec (it_interval v) < 1000000 ->
    0 <= tv_sec (it_value v) < 2 ^ 31 -> 0 <= tv_sec (it_interval v) < 2 ^ 31 ->
    pstep w (PSetitimer c 0 (Some v)) = Done (w1, o1) ->
    pstep w1 (PSetitimer c 0 None) = Done (w2, OTimer r old) ->
    old = v.

(** "An armed timer does not go off early" for microsecond values. *)
Definition timer_never_early : Prop :=
  forall l0 w c s u w1 o1 l w2,
    prun pinit l0 = Some w -> 0 <= s < 2 ^ 31 -> 0 <= u < 1000000 ->
    pstep w (PSetitimer c 0 (Some (ITV (TV 0 0) (TV s u)))) = Done (w1, o1) ->
    Forall (quiet_for c) l -> prun w1 l = Some w2 ->
    pw_now w2 - pw_now w < s * 1000000000 + u * 1000 -> pw_sent w2 = pw_sent w.
