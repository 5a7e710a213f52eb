(** Specification vocabulary for calls that create, remove and move names. *)
From Verif Require Import Base PathModel PathSpec FsModel FsSpec.
Local Open Scope list_scope.
Local Open Scope Z_scope.

(** In [t'] the path [q] leads to [i]; all other paths lead where they led in
    [t] (where [q] led nowhere). *)
Definition names_plus (t t' : gmap Z inode) (q : list string) (i : Z) : Prop :=
  (forall j, ~ resolves t q j) /\
  forall p j, canonical p -> (resolves t' p j <-> resolves t p j \/ (p = q /\ j = i)).

(** In [t'] the path [q] leads nowhere; all other paths lead where they led. *)
Definition names_minus (t t' : gmap Z inode) (q : list string) : Prop :=
  forall p j, canonical p -> (resolves t' p j <-> resolves t p j /\ p <> q).

(** In [t'] what was at and below [a] is at and below [b]; nothing is left at
    or below [a]; all other paths lead where they led. *)
Definition names_moved (t t' : gmap Z inode) (a b : list string) : Prop :=
  (forall r j, canonical (b ++ r) -> (resolves t' (b ++ r) j <-> resolves t (a ++ r) j)) /\
  (forall r j, canonical (a ++ r) -> ~ resolves t' (a ++ r) j) /\
  (forall p j, canonical p -> (forall r, p <> a ++ r) -> (forall r, p <> b ++ r) -> (resolves t' p j <-> resolves t p j)).

(** All paths lead where they led. *)
Definition names_same_as (t t' : gmap Z inode) : Prop :=
  forall p j, canonical p -> (resolves t' p j <-> resolves t p j).

(** Kind, size and mode are equal (the rest is bookkeeping of links). *)
Definition same_attrs (x y : inode) : Prop := i_kind x = i_kind y /\ i_size x = i_size y /\ i_mode x = i_mode y.

(** All objects other than those in [l] are exactly as they were; those in
    [l] that are left have the same kind, size and mode. *)
Definition objects_kept (t t' : gmap Z inode) (l : list Z) : Prop :=
  forall j, (~ In j l -> t' !! j = t !! j) /\
            (In j l -> forall x y, t !! j = Some x -> t' !! j = Some y -> same_attrs x y).

(** The bytes of the file [i] *)
Definition bytes (w : world) (i : Z) : option (list Z) := d_host (w_disk w) !! i.

(** No name and no descriptor of any process refers to [i], and no object has
    this number. *)
Definition unused (w : world) (i : Z) : Prop :=
  w_ino w !! i = None /\ (forall d f, ~ entry (w_ino w) d f i) /\
  (forall k pos fl, w_fds w !! k <> Some (FFile i pos fl)) /\ bytes w i = None.

(** Pipes, descriptors, working directories are as they were. *)
Definition procs_kept (w w' : world) : Prop :=
  w_fds w' = w_fds w /\ w_cwd w' = w_cwd w /\ w_pipes w' = w_pipes w.

(** [w'] is [w] with one new object [i] at path [q]: the number was not in use;
    the path leads to it and all others are unchanged; all other objects are
    unchanged (of the directory that received the name only the entries); no
    other file's bytes change. *)
Definition creates (w w' : world) (q : list string) (i : Z) : Prop :=
  unused w i /\ names_plus (w_ino w) (w_ino w') q i /\
  (exists par, resolves (w_ino w) (removelast q) par /\ objects_kept (w_ino w) (w_ino w') [i; par]) /\
  (forall j, j <> i -> bytes w' j = bytes w j) /\ w_cwd w' = w_cwd w /\ w_pipes w' = w_pipes w.

(** The object [i] has this kind, is empty, has these permission bits, and,
    if [m] consists of permission bits only, the mode word says type [ty] and
    nothing else. *)
Definition new_object (w : world) (i : Z) (k : ikind) (ty m : Z) : Prop :=
  exists x, w_ino w !! i = Some x /\ i_kind x = k /\ i_size x = 0 /\
    Z.land (i_mode x) 511 = Z.land m 511 /\
    (Z.land m 511 = m -> Z.land (i_mode x) S_FILETYPEFLAGS = ty).

(** The result is a success. *)
Definition success (o : out) : Prop := exists r, o = Ret r /\ 0 <= r.

(** An open call with both O_CREAT (64) and O_EXCL (128) *)
Definition exclusive (fl : Z) : Prop := Z.land fl 192 = 192.

(** The call [e.2] of process [e.1] is an exclusive open of the path [q]. *)
Definition competes (w : world) (q : list string) (e : Z * op) : Prop :=
  exists p fl m cwd, e.2 = Open p fl m /\ exclusive fl /\ w_cwd w !! e.1 = Some cwd /\ denotes cwd p q.

(** The result reports an error: every result is a C int and errors are
    negative. *)
Definition failed (o : out) : Prop :=
  match o with Ret r | RetData r _ | RetDents r _ | RetFds r _ _ => r < 0 | _ => False end.

(** The transfer size, or the offset reached by lseek, is below 2 GiB, so that
    the C int result can express it. *)
Definition fits_int (w' : world) (c : Z) (o : op) : Prop :=
  match o with
  | Read _ n | Pread _ n _ | Getdents _ n => 0 <= n < 2147483648
  | Write _ bs | Pwrite _ bs _ => Z.of_nat (length bs) < 2147483648
  | Writev _ iov => Z.of_nat (length (concat iov)) < 2147483648
  | Lseek fd _ _ => forall i pos fl, w_fds w' !! (c, fd) = Some (FFile i pos fl) -> pos < 2147483648
  | _ => True
  end.
