(** Advisory locks: any number of threads calling [flock] on any number of open
    files, at the granularity of the accesses to the mutex and the condition
    variable inside AdvisoryLock.

    Models /repo/src/interface/misc.rs 376-476 (AdvisoryLock) and
    fs_calls.rs 4576-4630 (flock_syscall) on valid descriptors. Every [open]
    makes its own AdvisoryLock (cage.rs 60-96, fs_calls.rs 165-182:
    [advlock: RustRfc::new(AdvisoryLock::new())]); dup and fork share it. So a
    lock belongs to an open file, numbered [d] here, and not to the file itself:
    which file an open file refers to plays no role in the code.

    A waiting thread gives up the mutex and sleeps until it is notified; it then
    takes the mutex again and looks again. Which sleeper [notify_one] wakes is
    left open (the argument [w] of a step). Simplified: no descriptor table, no
    invalid descriptors (C36), the guard count is an unbounded integer. *)
From Verif Require Import Base.
Local Open Scope Z_scope.

(** fs_constants.rs 97-100 *)
Definition LOCK_SH : Z := 1.
Definition LOCK_EX : Z := 2.
Definition LOCK_NB : Z := 4.
Definition LOCK_UN : Z := 8.

Inductive lkind := KSh | KEx | KUn.
#[global] Instance lkind_eq : EqDecision lkind.
Proof. solve_decision. Defined.

(** fs_calls.rs 4587-4625: exactly one of the three bits, else EINVAL *)
Definition lkind_of (n : Z) : option lkind :=
  let b := Z.land n (Z.lor LOCK_SH (Z.lor LOCK_EX LOCK_UN)) in
  if b =? LOCK_SH then Some KSh else if b =? LOCK_EX then Some KEx
  else if b =? LOCK_UN then Some KUn else None.
Definition nonblock (n : Z) : bool := Z.land n LOCK_NB =? LOCK_NB.

(** Not in a call; about to take the mutex of open file [d]; holding it; asleep
    on its condition variable. [n] is the operation argument. *)
Inductive lpc := LIdle | LWant (n : Z) (d : nat) | LIn (n : Z) (d : nat) | LSleep (n : Z) (d : nat).
#[global] Instance lpc_eq : EqDecision lpc.
Proof. solve_decision. Defined.

Record lst := Lst { l_guard : list Z; l_mutex : list bool; l_pcs : list lpc }.

Inductive lev := LCall (i : nat) (n : Z) (d : nat) | LRet (i : nat) (n : Z) (d : nat) (r : Z).
#[global] Instance lev_eq : EqDecision lev.
Proof. solve_decision. Defined.

Inductive lact := LStart (i : nat) (n : Z) (d : nat) | LGo (i w : nat).

(** misc.rs 392-397: [m] open files, [k] threads *)
Definition linit (m k : nat) : lst := Lst (replicate m 0) (replicate m false) (replicate k LIdle).

Definition lgoto (s : lst) (i : nat) (p : lpc) : lst :=
  Lst (l_guard s) (l_mutex s) (<[i := p]> (l_pcs s)).

(** The end of a call: the mutex is released and the guard has its new value. *)
Definition ldone (s : lst) (i : nat) (n : Z) (d : nat) (g r : Z) : option (lst * list lev) :=
  Some (Lst (<[d := g]> (l_guard s)) (<[d := false]> (l_mutex s)) (<[i := LIdle]> (l_pcs s)), [LRet i n d r]).

(** [Condvar::wait] up to the moment the thread sleeps *)
Definition lsleep (s : lst) (i : nat) (n : Z) (d : nat) : option (lst * list lev) :=
  Some (Lst (l_guard s) (<[d := false]> (l_mutex s)) (<[i := LSleep n d]> (l_pcs s)), []).

Definition asleep (d : nat) (p : lpc) : bool :=
  match p with LSleep _ d' => bool_decide (d = d') | _ => false end.
Definition wake (d : nat) (p : lpc) : lpc :=
  match p with LSleep n d' => if decide (d = d') then LWant n d' else p | _ => p end.

(** [Condvar::notify_all], [Condvar::notify_one]: [None] if [w] is not one of
    the sleepers although there are some *)
Definition notify_all (d : nat) (s : lst) : lst :=
  Lst (l_guard s) (l_mutex s) (map (wake d) (l_pcs s)).
Definition notify_one (d w : nat) (s : lst) : option lst :=
  if existsb (asleep d) (l_pcs s) then
    match l_pcs s !! w with
    | Some p => if asleep d p then Some (lgoto s w (wake d p)) else None
    | None => None
    end
  else Some s.

Definition lgo (s : lst) (i w : nat) : option (lst * list lev) :=
  match l_pcs s !! i with
  | Some (LWant n d) =>
      match l_mutex s !! d with
      (* [lock] / a successful [try_lock] *)
      | Some false => Some (Lst (l_guard s) (<[d := true]> (l_mutex s)) (<[i := LIn n d]> (l_pcs s)), [])
      (* a failed [try_lock] (misc.rs 421-442); otherwise wait *)
      | Some true =>
          match lkind_of n with
          | Some KUn => None
          | _ => if nonblock n then Some (lgoto s i LIdle, [LRet i n d (err EAGAIN)]) else None
          end
      | None => None
      end
  | Some (LIn n d) =>
      match l_guard s !! d, lkind_of n with
      (* misc.rs 401-407, 421-429 *)
      | Some g, Some KEx =>
          if g =? 0 then ldone s i n d (-1) 0
          else if nonblock n then ldone s i n d g (err EAGAIN) else lsleep s i n d
      (* misc.rs 411-417, 432-440 *)
      | Some g, Some KSh =>
          if 0 <=? g then ldone s i n d (g + 1) 0
          else if nonblock n then ldone s i n d g (err EAGAIN) else lsleep s i n d
      (* misc.rs 450-474; flock ignores the result (4611-4617) *)
      | Some g, Some KUn =>
          if 0 <? g then
            if g - 1 =? 0 then
              match notify_one d w s with Some s1 => ldone s1 i n d 0 0 | None => None end
            else ldone s i n d (g - 1) 0
          else if g =? -1 then ldone (notify_all d s) i n d 0 0
          else ldone s i n d g 0
      | _, _ => None
      end
  | _ => None
  end.

Definition ldo (s : lst) (a : lact) : option (lst * list lev) :=
  match a with
  | LStart i n d =>
      match l_pcs s !! i with
      | Some LIdle =>
          if bool_decide (d < length (l_guard s))%nat then
            match lkind_of n with
            | Some _ => Some (lgoto s i (LWant n d), [LCall i n d])
            | None => Some (s, [LCall i n d; LRet i n d (err EINVAL)])
            end
          else None
      | _ => None
      end
  | LGo i w => lgo s i w
  end.

Inductive lrun (m k : nat) : list lev -> lst -> Prop :=
| lrun_nil : lrun m k [] (linit m k)
| lrun_step tr s a s' es : lrun m k tr s -> ldo s a = Some (s', es) -> lrun m k (tr ++ es) s'.

Fixpoint lsched (s : lst) (as_ : list lact) : option (list lev * lst) :=
  match as_ with
  | [] => Some ([], s)
  | a :: r =>
      match ldo s a with
      | Some (s', es) =>
          match lsched s' r with Some (tr, s2) => Some (es ++ tr, s2) | None => None end
      | None => None
      end
  end.
