(** Threads of one process allocating, duplicating, closing and using
    descriptors at the same time (small-step; the rest of the descriptor
    model, [FsModel], takes one call at a time).

    The table has [m] entries, each behind its own lock (cage.rs 127-159,
    187-197).  An entry holds the number of the open object or nothing; each
    object has the reference count kept in its inode (unsigned: counting down
    from 0 aborts).

    Simplifications.  A lock is held by one thread or nobody: calls that take
    it shared are treated as if they took it alone.  What a call does to the
    object itself is left out except for the reference count, so also that it
    is discarded when the count falls to 0; whether an
    open() finds its file is an argument.  Numbers out of range and
    dup2(a, a), which take no lock, are left out. *)
From Verif Require Import Base.
Local Open Scope list_scope.
Local Open Scope nat_scope.

Inductive fcall :=
  | COpen (o : nat) (ok : bool)      (* open, socket, pipe, accept, ...: object, and whether it succeeds *)
  | CClose (k : nat)
  | CDup2 (a b : nat)
  | CUse (k : nat).                  (* read, write, fstat, ... *)

(** What a call answers *)
Inductive fans := Num (k : nat) | Zero | Full | Missing | Bad.

(** Where a thread is.  [Scan k]: about to try entry [k]; [Hold k]: holds
    the lock of the empty entry [k]; [Cl1 k]: wants the lock; [Cl1h k]: has
    it; [Cl2 k]: released it, wants it again; [Du1]: wants [a]; [Du2], [Du3],
    [Du4]: has [a], wants [b] to look at it, to close what is there, to
    store. *)
Inductive fpc :=
  | Idle
  | Scan (o : nat) (ok : bool) (k : nat) | Hold (o : nat) (ok : bool) (k : nat)
  | Cl1 (k : nat) | Cl1h (k : nat) | Cl2 (k : nat)
  | Du1 (a b : nat) | Du2 (a b : nat) | Du3 (a b : nat) | Du4 (a b : nat)
  | Us1 (k : nat) | Us2 (k : nat).

Inductive fev := Call (i : nat) (c : fcall) | Ret (i : nat) (c : fcall) (r : fans).

Record fst := Fst {
  f_slot : list (option nat);
  f_lock : list bool;
  f_ref : list nat;
  f_pc : list fpc;
  f_dead : bool                      (* the runtime aborted *)
}.
Definition finit (m q t : nat) : fst :=
  Fst (replicate m None) (replicate m false) (replicate q 0) (replicate t Idle) false.

Definition goto (i : nat) (p : fpc) (s : fst) : fst :=
  Fst (f_slot s) (f_lock s) (f_ref s) (<[i := p]> (f_pc s)) (f_dead s).
Definition lock (k : nat) (b : bool) (s : fst) : fst :=
  Fst (f_slot s) (<[k := b]> (f_lock s)) (f_ref s) (f_pc s) (f_dead s).
Definition store (k : nat) (x : option nat) (s : fst) : fst :=
  Fst (<[k := x]> (f_slot s)) (f_lock s) (f_ref s) (f_pc s) (f_dead s).
Definition addref (o : nat) (s : fst) : fst :=
  Fst (f_slot s) (f_lock s) (alter S o (f_ref s)) (f_pc s) (f_dead s).
Definition delref (o : nat) (s : fst) : fst :=
  Fst (f_slot s) (f_lock s) (alter pred o (f_ref s)) (f_pc s) (f_dead s).
Definition die (s : fst) : fst := Fst (f_slot s) (f_lock s) (f_ref s) (f_pc s) true.
(** Nobody has the lock of entry [k]. *)
Definition free (k : nat) (s : fst) : bool := bool_decide (f_lock s !! k = Some false).
Definition entry (k : nat) (s : fst) : option nat :=
  match f_slot s !! k with Some x => x | None => None end.
Definition refs (o : nat) (s : fst) : nat :=
  match f_ref s !! o with Some n => n | None => 0 end.

(** The call returns. *)
Definition ret (i : nat) (c : fcall) (r : fans) (s : fst) : option (fst * list fev) :=
  Some (goto i Idle s, [Ret i c r]).

(** One step of thread [i] *)
Definition fgo (s : fst) (i : nat) : option (fst * list fev) :=
  if f_dead s then None else
  match f_pc s !! i with
  | Some (Scan o ok k) =>
      (* cage.rs 141-158: [try_write] on each entry in turn; one that is taken
         is passed over *)
      match f_slot s !! k with
      | None => ret i (COpen o ok) Full s
      | Some x =>
          if free k s && bool_decide (x = None)
          then Some (goto i (Hold o ok k) (lock k true s), [])
          else Some (goto i (Scan o ok (S k)) s, [])
      end
  | Some (Hold o ok k) =>
      (* fs_calls.rs 198-330: the object is looked up, and on success stored,
         under the lock of the entry *)
      if ok then ret i (COpen o ok) (Num k) (lock k false (store k (Some o) (addref o s)))
      else ret i (COpen o ok) Missing (lock k false s)
  | Some (Cl1 k) =>
      (* fs_calls.rs 3600-3601 *)
      if free k s then Some (goto i (Cl1h k) (lock k true s), []) else None
  | Some (Cl1h k) =>
      (* fs_calls.rs 3602-3735: the reference count is reduced ([refcount -= 1]
         aborts at 0), the entry stays *)
      match entry k s with
      | None => ret i (CClose k) Bad (lock k false s)
      | Some o =>
          if refs o s =? 0 then Some (die s, [])
          else Some (goto i (Cl2 k) (lock k false (delref o s)), [])
      end
  | Some (Cl2 k) =>
      (* fs_calls.rs 3834-3843: the entry is emptied *)
      if free k s then ret i (CClose k) Zero (store k None s) else None
  | Some (Du1 a b) =>
      (* fs_calls.rs 3358-3369 *)
      if free a s then
        match entry a s with
        | None => ret i (CDup2 a b) Bad s
        | Some _ => Some (goto i (Du2 a b) (lock a true s), [])
        end
      else None
  | Some (Du2 a b) =>
      (* fs_calls.rs 3424-3431 *)
      if free b s then
        match entry b s with
        | None => Some (goto i (Du4 a b) s, [])
        | Some _ => Some (goto i (Du3 a b) s, [])
        end
      else None
  | Some (Du3 a b) =>
      (* fs_calls.rs 3430, 3600-3735: as [Cl1], an error is ignored *)
      if free b s then
        match entry b s with
        | None => Some (goto i (Du4 a b) s, [])
        | Some o => if refs o s =? 0 then Some (die s, []) else Some (goto i (Du4 a b) (delref o s), [])
        end
      else None
  | Some (Du4 a b) =>
      (* fs_calls.rs 3434-3435, 3451-3529 *)
      if free b s then
        match entry a s with
        | None => ret i (CDup2 a b) Bad (lock a false s)
        | Some o => ret i (CDup2 a b) (Num b) (lock a false (store b (Some o) (addref o s)))
        end
      else None
  | Some (Us1 k) => if free k s then Some (goto i (Us2 k) (lock k true s), []) else None
  | Some (Us2 k) =>
      ret i (CUse k) (match entry k s with None => Bad | Some _ => Zero end) (lock k false s)
  | _ => None
  end.

(** A call begins. *)
Definition begin (c : fcall) : fpc :=
  match c with
  | COpen o ok => Scan o ok 0
  | CClose k => Cl1 k
  | CDup2 a b => Du1 a b
  | CUse k => Us1 k
  end.
Definition legal (s : fst) (c : fcall) : bool :=
  let m := length (f_slot s) in
  match c with
  | COpen o _ => bool_decide (o < length (f_ref s))
  | CClose k | CUse k => bool_decide (k < m)
  | CDup2 a b => bool_decide (a < m) && bool_decide (b < m) && negb (a =? b)
  end.
Inductive fact := Start (i : nat) (c : fcall) | Go (i : nat).
Definition fdo (s : fst) (a : fact) : option (fst * list fev) :=
  match a with
  | Start i c =>
      match f_pc s !! i with
      | Some Idle => if negb (f_dead s) && legal s c then Some (goto i (begin c) s, [Call i c]) else None
      | _ => None
      end
  | Go i => fgo s i
  end.

(** Runs of [t] threads on a table of [m] entries and [q] objects *)
Inductive frun (m q t : nat) : list fev -> fst -> Prop :=
| frun_nil : frun m q t [] (finit m q t)
| frun_step tr s a s' es : frun m q t tr s -> fdo s a = Some (s', es) -> frun m q t (tr ++ es) s'.

Fixpoint fsched (s : fst) (l : list fact) : option (list fev * fst) :=
  match l with
  | [] => Some ([], s)
  | a :: r =>
      match fdo s a with
      | Some (s', es) => match fsched s' r with Some (tr, s2) => Some (es ++ tr, s2) | None => None end
      | None => None
      end
  end.
