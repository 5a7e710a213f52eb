(** Vocabulary of the semaphore properties. *)
From Verif Require Import Base SemModel.
Local Open Scope Z_scope.

Definition is_wait (o : sop) : bool := match o with SWait | STry | STimed _ => true | _ => false end.

(** Successful posts, and completed waits of any kind, in a trace. *)
Definition posts (tr : list sev) : Z :=
  Z.of_nat (length (List.filter (fun e => match e with SRet _ SPost 0 => true | _ => false end) tr)).
Definition waits (tr : list sev) : Z :=
  Z.of_nat (length (List.filter (fun e => match e with SRet _ o 0 => is_wait o | _ => false end) tr)).

(** The value a semaphore created with [n] should have. *)
Definition level (n : Z) (tr : list sev) : Z := n + posts tr - waits tr.

(** The events of one thread. *)
Definition of_thread (i : nat) (tr : list sev) : list sev :=
  List.filter (fun e => match e with SCall j _ | SRet j _ _ => bool_decide (i = j) | STick => false end) tr.

(** Thread [i] is between a completed wait and the post that gives it back. *)
Definition inside (i : nat) (tr : list sev) : bool := posts (of_thread i tr) <? waits (of_thread i tr).

(** How many of the threads [0..k-1] are inside. *)
Definition insiders (k : nat) (tr : list sev) : Z :=
  Z.of_nat (length (List.filter (fun i => inside i tr) (seq 0 k))).

(** A thread posts only after a wait of its own that it has not given back. *)
Definition polite (tr : list sev) : Prop :=
  forall tr1 i tr2, tr = tr1 ++ SCall i SPost :: tr2 -> inside i tr1 = true.

(** Ticks in a trace. *)
Definition ticks (tr : list sev) : Z :=
  Z.of_nat (length (List.filter (fun e => match e with STick => true | _ => false end) tr)).
