(** Locks taken by the calls that use the working directory, when several
    threads make them at the same time (small-step).

    The working directory of a process is behind a lock (cage.rs 99: RustLock, a
    parking_lot RwLock; a thread that wants to read gives way to one that waits
    to write).  The table of objects FS_METADATA.inodetable is a map whose objects
    are locked in groups (dashmap); which object is in which group is not known,
    so the grouping [sh] is a parameter.

    A call is the list of its lock operations.  The calls here change neither
    names nor objects (fork and open only count references), so the objects they
    meet are those of one table.

    Simplifications.  Locks other than these two kinds are left out (table of
    descriptors, log, semaphores); a thread that wants to read an object does
    not give way to one that waits to change it. *)
From stdpp Require Import gmap.
From Verif Require Import Base PathModel FsModel.
Local Open Scope list_scope.
Local Open Scope Z_scope.

Inductive lock := LIno (g : Z) | LCwd (c : Z).
Inductive lmode := Sh | Ex.
Global Instance lock_eq_dec : EqDecision lock.
Proof. solve_decision. Defined.
Global Instance lmode_eq_dec : EqDecision lmode.
Proof. solve_decision. Defined.

Inductive ev := Take (l : lock) (m : lmode) | Drop (l : lock) (m : lmode).
Global Instance ev_eq_dec : EqDecision ev.
Proof. solve_decision. Defined.

(** A thread: the locks it holds, what it will do *)
Record thr := Thr { h_held : list (lock * lmode); h_todo : list ev }.

Definition clash (a b : lmode) : bool := match a, b with Sh, Sh => false | _, _ => true end.

(** The lock gives way to writers. *)
Definition polite (l : lock) : bool := match l with LCwd _ => true | LIno _ => false end.

(** Somebody (maybe the thread itself) holds the lock, or somebody else waits to
    write and the lock is polite. *)
Definition blocked (ts : list thr) (l : lock) (m : lmode) : bool :=
  existsb (fun t => existsb (fun e => bool_decide (fst e = l) && clash (snd e) m) (h_held t)) ts ||
  match m with
  | Sh => polite l && existsb (fun t => match h_todo t with Take l' Ex :: _ => bool_decide (l' = l) | _ => false end) ts
  | Ex => false
  end.

Fixpoint remove1 (x : lock * lmode) (h : list (lock * lmode)) : list (lock * lmode) :=
  match h with [] => [] | y :: r => if decide (x = y) then r else y :: remove1 x r end.

(** One step of thread [i]; [None]: it has nothing to do or waits. *)
Definition lgo (ts : list thr) (i : nat) : option (list thr) :=
  match ts !! i with
  | Some (Thr h (Take l m :: r)) => if blocked ts l m then None else Some (<[i := Thr ((l, m) :: h) r]> ts)
  | Some (Thr h (Drop l m :: r)) => Some (<[i := Thr (remove1 (l, m) h) r]> ts)
  | _ => None
  end.
Fixpoint lplay (ts : list thr) (l : list nat) : option (list thr) :=
  match l with [] => Some ts | i :: r => match lgo ts i with Some ts' => lplay ts' r | None => None end end.

(** ** The calls *)

(** The objects on a path, from [i] on, as far as it leads *)
Fixpoint trail (tab : gmap Z inode) (i : Z) (p : list string) : list Z :=
  i :: match p with
       | [] => []
       | f :: r =>
           match tab !! i with
           | Some x => match i_kind x, i_dict x !! f with KDir, Some j => trail tab j r | _, _ => [] end
           | None => []
           end
       end.

(** filesystem.rs 531-583: the walk keeps the lock of the directory it is in until
    it has that of the next. *)
Fixpoint handover (sh : Z -> Z) (i : Z) (tr : list Z) : list ev :=
  match tr with
  | [] => [Drop (LIno (sh i)) Sh]
  | j :: r => Take (LIno (sh j)) Sh :: Drop (LIno (sh i)) Sh :: handover sh j r
  end.
Definition walk (sh : Z -> Z) (tr : list Z) : list ev :=
  match tr with [] => [] | i :: r => Take (LIno (sh i)) Sh :: handover sh i r end.

(** An access to one object, for the time of the access *)
Definition touch (sh : Z -> Z) (e : Z * lmode) : list ev :=
  [Take (LIno (sh (fst e))) (snd e); Drop (LIno (sh (fst e))) (snd e)].

(** filesystem.rs 590-594: the working directory is read if the path is relative. *)
Definition readcwd (rel : bool) (c : Z) : list ev :=
  if rel then [Take (LCwd c) Sh; Drop (LCwd c) Sh] else [].

(** filesystem.rs 463-507: the pairs (directory, parent) that [pathnamefrominodenum]
    locks together, and the directory it ends at *)
Fixpoint ups (fuel : nat) (tab : gmap Z inode) (cur : Z) (first : bool) : list (Z * option Z) :=
  match fuel with
  | O => []
  | S k =>
      match tab !! cur with
      | Some x =>
          match i_kind x, i_dict x !! ".." with
          | KDir, Some par =>
              if (par =? ROOTINO) && negb first then [(cur, None)]
              else (cur, Some par) ::
                   match tab !! par with
                   | Some p =>
                       match i_kind p, name_in p cur with
                       | KDir, Some _ => ups k tab par (if par =? ROOTINO then false else first)
                       | _, _ => []
                       end
                   | None => []
                   end
          | _, _ => [(cur, None)]
          end
      | None => []
      end
  end.
Definition climb (sh : Z -> Z) (e : Z * option Z) : list ev :=
  let l := LIno (sh (fst e)) in
  match snd e with
  | Some par => [Take l Ex; Take (LIno (sh par)) Sh; Drop (LIno (sh par)) Sh; Drop l Ex]
  | None => [Take l Ex; Drop l Ex]
  end.

(** What the calls do, with these locks *)
Inductive ccall :=
  | CUse (rel : bool) (p : list string) (l : list (Z * lmode))   (* follow a path, then access objects one by one *)
  | CChdir (rel : bool) (p : list string) (i : Z)                (* the path leads to directory [i] *)
  | CFchdir (i : Z)                                              (* of an open directory *)
  | CFork (l : list Z) (p : list string) (i : Z)                 (* open files [l]; the working directory is [i] at [p] *)
  | CGetcwd.

Definition locks (sh : Z -> Z) (tab : gmap Z inode) (c : Z) (o : ccall) : list ev :=
  match o with
  | CUse rel p l => readcwd rel c ++ walk sh (trail tab ROOTINO p) ++ concat (map (touch sh) l)
  | CChdir rel p i =>                                        (* fs_calls.rs 3193-3217 *)
      readcwd rel c ++ walk sh (trail tab ROOTINO p) ++
      [Take (LIno (sh i)) Ex; Take (LCwd c) Ex; Drop (LCwd c) Ex; Drop (LIno (sh i)) Ex]
  | CFchdir i =>                                             (* 3113-3159 *)
      concat (map (climb sh) (ups (S (size tab)) tab i true)) ++
      match pathname_loop (S (size tab)) tab i "" true with
      | Some (Done (Some _)) => [Take (LCwd c) Ex; Drop (LCwd c) Ex]
      | _ => []
      end
  | CFork l p i =>                                           (* sys_calls.rs 215-242, 287-302, 349 *)
      concat (map (touch sh) (map (fun j => (j, Ex)) l)) ++
      [Take (LCwd c) Sh] ++ walk sh (trail tab ROOTINO p) ++ touch sh (i, Ex) ++
      [Take (LCwd c) Sh; Drop (LCwd c) Sh] ++ [Drop (LCwd c) Sh]
  | CGetcwd => [Take (LCwd c) Sh; Drop (LCwd c) Sh]          (* fs_calls.rs 5581 *)
  end.

(** Threads: each belongs to a process and makes its calls in turn. *)
Definition lstart (sh : Z -> Z) (tab : gmap Z inode) (progs : list (Z * list ccall)) : list thr :=
  map (fun e => Thr [] (concat (map (locks sh tab (fst e)) (snd e)))) progs.
