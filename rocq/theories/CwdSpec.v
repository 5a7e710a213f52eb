(** Specification vocabulary for the locks of the working directory. *)
From stdpp Require Import gmap.
From Verif Require Import Base PathModel PathSpec FsModel FsSpec FsReachSpec CwdModel.
Local Open Scope list_scope.
Local Open Scope Z_scope.

(** All threads have made all their calls. *)
Definition all_done (ts : list thr) : Prop := forall i t, ts !! i = Some t -> h_todo t = [].

(** No thread can go on, and some have not finished. *)
Definition stuck (ts : list thr) : Prop := ~ all_done ts /\ forall i, lgo ts i = None.

(** Nobody holds a lock. *)
Definition all_free (ts : list thr) : Prop := forall i t, ts !! i = Some t -> h_held t = [].

(** The state is reached by some order of steps. *)
Definition comes_to (a b : list thr) : Prop := exists l, lplay a l = Some b.

(** A process makes calls of this kind. *)
Definition makes (progs : list (Z * list ccall)) (c : Z) (P : ccall -> Prop) : Prop :=
  exists l o, In (c, l) progs /\ In o l /\ P o.
Definition is_fork (o : ccall) : Prop := match o with CFork _ _ _ => True | _ => False end.
Definition changes_cwd (o : ccall) : Prop := match o with CChdir _ _ _ | CFchdir _ => True | _ => False end.
Definition is_fchdir (o : ccall) : Prop := match o with CFchdir _ => True | _ => False end.

(** No process forks in one thread and changes its directory in another. *)
Definition apart_cwd (progs : list (Z * list ccall)) : Prop :=
  forall c, makes progs c is_fork -> makes progs c changes_cwd -> False.

(** The groups go with the tree: that of a directory comes after that of its
    parent, in some numbering [dep] of the groups. *)
Definition groups_follow (tab : gmap Z inode) (sh : Z -> Z) (dep : Z -> nat) : Prop :=
  forall d i, up tab i d -> d < i -> (dep (sh d) < dep (sh i))%nat.

(** fchdir is used only for directories that have a name. *)
Definition fchdir_named (tab : gmap Z inode) (progs : list (Z * list ccall)) : Prop :=
  forall c i, makes progs c (eq (CFchdir i)) -> exists d, inside tab d i.
