(** Specification vocabulary for descriptors. *)
From Verif Require Import Base PathModel FsModel.
Local Open Scope list_scope.
Local Open Scope Z_scope.

(** The smallest number from [start] on that process [c] does not use *)
Definition lowest_free (m : gmap (Z * Z) fdesc) (c start fd : Z) : Prop :=
  start <= fd < 1024 /\ m !! (c, fd) = None /\ forall k, start <= k < fd -> is_Some (m !! (c, k)).
Definition none_free (m : gmap (Z * Z) fdesc) (c start : Z) : Prop :=
  forall k, start <= k < 1024 -> is_Some (m !! (c, k)).

(** The calls that allocate one descriptor, and the least number the caller
    accepts. (pipe2 allocates two.) *)
Definition alloc_from (o : op) : option Z :=
  match o with
  | Open _ _ _ | Creat _ _ | EpollCreate _ | Dup _ => Some 0
  | Fcntl _ cmd arg => if (cmd =? F_DUPFD) && (0 <=? arg) then Some arg else None
  | _ => None
  end.

(** [d'] refers to the same open file, stream or pipe end as [d], with the
    same access mode, and was at the same offset *)
Inductive same_open : fdesc -> fdesc -> Prop :=
| so_file i pos fl fl' : Z.land fl 3 = Z.land fl' 3 -> same_open (FFile i pos fl) (FFile i pos fl')
| so_stream s fl fl' : Z.land fl 3 = Z.land fl' 3 -> same_open (FStream s fl) (FStream s fl')
| so_pipe p fl fl' : Z.land fl 3 = Z.land fl' 3 -> same_open (FPipe p fl) (FPipe p fl').

(** The close-on-exec flag is set *)
Definition cloexec (d : fdesc) : Prop := Z.land (fd_flags d) O_CLOEXEC <> 0.

(** The calls that take a descriptor number, and the number *)
Definition fd_arg (o : op) : option Z :=
  match o with
  | Fchmod fd _ | Ftruncate fd _ | Fstat fd | Read fd _ | Pread fd _ _ | Write fd _ | Pwrite fd _ _
  | Writev fd _ | Lseek fd _ _ | Fsync fd | Close fd | Dup fd | Dup2 fd _ | Fcntl fd _ _ | Fchdir fd
  | Getdents fd _ => Some fd
  | _ => None
  end.

(** The other arguments of an allocating call are in order *)
Definition args_ok (m : gmap (Z * Z) fdesc) (c : Z) (o : op) : Prop :=
  match o with
  | Open p _ _ | Creat p _ => p <> ""
  | EpollCreate n => 0 < n
  | Dup fd => 0 < fd /\ 0 <= fd < 1024 /\ is_Some (m !! (c, fd))
  | Fcntl fd _ _ => 0 <= fd < 1024 /\ is_Some (m !! (c, fd))
  | _ => True
  end.

(** The table [m'] is [m] with one new descriptor, at the smallest free number *)
Definition allocated (m m' : gmap (Z * Z) fdesc) (c s r : Z) : Prop :=
  lowest_free m c s r /\ exists d, m' = <[(c, r) := d]> m.

(** In [m'] the number [n] refers to what [fd] refers to in [m], without
    close-on-exec; all other numbers are as in [m] *)
Definition dups (m m' : gmap (Z * Z) fdesc) (c fd n : Z) : Prop :=
  exists d d', m !! (c, fd) = Some d /\ same_open d d' /\ ~ cloexec d' /\ m' = <[(c, n) := d']> m.

(** The calls that check the range of the descriptor number *)
Definition checks_range (o : op) : bool :=
  match o with Dup _ | Dup2 _ _ | Getdents _ _ => true | _ => false end.

(** The other arguments do not lead to another error, or to a shortcut, first *)
Definition plain_args (o : op) : Prop :=
  match o with
  | Getdents _ n => 18 < n
  | Dup fd => fd <> 0
  | Dup2 a b => a <> b
  | _ => True
  end.

(** O_CREAT, O_EXCL, O_NOCTTY, O_TRUNC *)
Definition creation_bits : Z := 64 + 128 + 256 + 512.
