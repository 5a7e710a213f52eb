(** One semaphore and any number of threads calling it, at the granularity of
    the critical sections of its mutex.

    Models /repo/src/interface/misc.rs 617-703 (RustSemaphore) as called by
    sem_wait, sem_post, sem_getvalue, sem_trywait and sem_timedwait
    (fs_calls.rs 6494-6575, 6650-6818) on an address that holds a semaphore.

    Every method takes the mutex [value], looks at the number, changes it and
    releases the mutex; a waiting method that finds 0 yields while it still
    holds the mutex, releases it and goes round its loop. So one turn of a loop
    is one step. Simplified: the clock read by sem_timedwait is a counter that
    advances by explicit ticks; the number is an unbounded integer (it is a u32
    in the code, C45_value shows that it stays between 0 and 2^31-1). *)
From Verif Require Import Base.
Local Open Scope Z_scope.

(** sys_constants.rs / fs_constants.rs: SEM_VALUE_MAX *)
Definition SEM_VALUE_MAX : Z := 2147483647.

Inductive sop := SWait | STry | STimed (timeout : Z) | SPost | SGet.
#[global] Instance sop_eq : EqDecision sop.
Proof. solve_decision. Defined.

(** Outside any call; inside a call that began at [start]. *)
Inductive spc := SIdle | SIn (o : sop) (start : Z).

Record sst := Sst { s_val : Z; s_clock : Z; s_pcs : list spc }.

(** What is seen: a call begins, a call returns, time passes. *)
Inductive sev := SCall (i : nat) (o : sop) | SRet (i : nat) (o : sop) (r : Z) | STick.
#[global] Instance sev_eq : EqDecision sev.
Proof. solve_decision. Defined.

Inductive sact := SStart (i : nat) (o : sop) | SGo (i : nat) | SClock.

(** misc.rs 626-631: the initial value; [k] threads *)
Definition sinit (n : Z) (k : nat) : sst := Sst n 0 (replicate k SIdle).

Definition sdone (s : sst) (i : nat) (o : sop) (v r : Z) : option (sst * list sev) :=
  Some (Sst v (s_clock s) (<[i := SIdle]> (s_pcs s)), [SRet i o r]).

(** One turn of thread [i] inside its call. *)
Definition sgo (s : sst) (i : nat) : option (sst * list sev) :=
  match s_pcs s !! i with
  | None | Some SIdle => None
  (* misc.rs 633-646; sem_wait 6494-6518 *)
  | Some (SIn SWait t) =>
      if s_val s =? 0 then Some (s, [])
      else sdone s i SWait (if 0 <? s_val s then s_val s - 1 else 0) 0
  (* misc.rs 667-678; sem_trywait 6730-6768 *)
  | Some (SIn STry t) =>
      if s_val s =? 0 then sdone s i STry (s_val s) (err EAGAIN)
      else sdone s i STry (if 0 <? s_val s then s_val s - 1 else 0) 0
  (* misc.rs 680-701; sem_timedwait 6770-6818 *)
  | Some (SIn (STimed d) t) =>
      if s_val s =? 0 then
        if d <? s_clock s - t then sdone s i (STimed d) (s_val s) (err ETIMEDOUT)
        else Some (s, [])
      else sdone s i (STimed d) (if 0 <? s_val s then s_val s - 1 else 0) 0
  (* misc.rs 648-659; sem_post 6541-6575 *)
  | Some (SIn SPost t) =>
      if s_val s <? SEM_VALUE_MAX then sdone s i SPost (s_val s + 1) 0
      else sdone s i SPost (s_val s) (err EOVERFLOW)
  (* misc.rs 661-665; sem_getvalue 6680-6705 *)
  | Some (SIn SGet t) => sdone s i SGet (s_val s) (s_val s)
  end.

Definition sdo (s : sst) (a : sact) : option (sst * list sev) :=
  match a with
  | SStart i o =>
      match s_pcs s !! i with
      | Some SIdle => Some (Sst (s_val s) (s_clock s) (<[i := SIn o (s_clock s)]> (s_pcs s)), [SCall i o])
      | _ => None
      end
  | SGo i => sgo s i
  | SClock => Some (Sst (s_val s) (s_clock s + 1) (s_pcs s), [STick])
  end.

(** Runs of [k] threads on a semaphore created with value [n]. *)
Inductive srun (n : Z) (k : nat) : list sev -> sst -> Prop :=
| srun_nil : srun n k [] (sinit n k)
| srun_step tr s a s' es : srun n k tr s -> sdo s a = Some (s', es) -> srun n k (tr ++ es) s'.

(** A schedule, for examples. *)
Fixpoint ssched (s : sst) (as_ : list sact) : option (list sev * sst) :=
  match as_ with
  | [] => Some ([], s)
  | a :: r =>
      match sdo s a with
      | Some (s', es) =>
          match ssched s' r with Some (tr, s2) => Some (es ++ tr, s2) | None => None end
      | None => None
      end
  end.
