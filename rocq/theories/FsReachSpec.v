(** Reachable worlds: what the system can be in after any history of calls
    that starts on an empty disk, over any number of clean restarts.

    Some calls of the code damage its own structures. [tame] names exactly
    these situations, so that the invariants can be stated for all histories
    that avoid them; each excluded situation is shown to be reachable and
    harmful by a [_refuted] theorem (see PropsFs*.v). *)
From Verif Require Import Base PathModel FsModel FsBoot FsSpec.
Local Open Scope list_scope.

(** [tame displace w c o r]: the call [o] of process [c] in world [w], which
    returns [r], does not do one of the following:
    - fork or exec onto the number of another live process;
    - unlink in a directory that is not writable (error EPERM);
    - dup2 of an epoll descriptor onto another open descriptor;
    - pipe2 when exactly one descriptor is free;
    - (only if [displace] is false) rename onto an existing name. *)
Definition tame (displace : bool) (w : world) (c : Z) (o : op) (r : out) : Prop :=
  match o with
  | Fork ch => w_cwd w !! ch = None
  | Exec ch => ch = c \/ w_cwd w !! ch = None
  | Unlink _ => r <> Ret (err EPERM)
  | Dup2 a b => forall fl, w_fds w !! (c, a) = Some (FEpoll fl) -> a = b \/ w_fds w !! (c, b) = None
  | Pipe2 _ => forall a, r = RetFds (err ENFILE) a (-1) -> a = -1
  | Rename _ b =>
      displace = true \/ r <> Ret 0 \/
      forall cwd q i, w_cwd w !! c = Some cwd -> denotes cwd b q -> ~ resolves (w_ino w) q i
  | _ => True
  end.

(** Some write permission bit is set *)
Definition writable (x : inode) : Prop := Z.land (i_mode x) 146 <> 0.

(** What a shutdown must find so that it damages nothing: no name that it takes
    for that of a local socket ([rename] leaves such names), and, if /tmp is a
    directory, then a writable one. *)
Definition can_stop (w : world) : Prop :=
  w_dsock w = ∅ /\
  forall i x, resolves (w_ino w) ["tmp"] i -> w_ino w !! i = Some x -> i_kind x = KDir -> writable x.

(** [w] is shut down cleanly, and [w'] is the world after the next start. *)
Definition restarts (w w' : world) : Prop := exists w1, finalize w = Done w1 /\ boot (w_disk w1) = Done w'.

(** Any history of calls of any processes, in any order, with any number of
    clean shutdowns and starts in between. *)
Inductive reach (displace : bool) : world -> Prop :=
| reach_boot : reach displace fresh_world
| reach_step w c o w' r :
    reach displace w -> step w c o = Done (w', r) -> tame displace w c o r -> reach displace w'
| reach_restart w w' : reach displace w -> can_stop w -> restarts w w' -> reach displace w'.

(** All histories, without any restriction *)
Inductive reach_any : world -> Prop :=
| any_boot : reach_any fresh_world
| any_step w c o w' r : reach_any w -> step w c o = Done (w', r) -> reach_any w'.

(** Vocabulary of the properties of the directory tree and of the counters. *)

(** A directory with no entries besides '.' and '..' *)
Definition empty_dir (x : inode) : Prop := forall f i, i_dict x !! f = Some i -> f = "." \/ f = "..".

(** Directory [i] has a name in directory [d] *)
Definition inside (t : gmap Z inode) (d i : Z) : Prop :=
  exists f x, entry t d f i /\ t !! i = Some x /\ i_kind x = KDir.

(** The entry '..' of directory [i] is [d] *)
Definition up (t : gmap Z inode) (i d : Z) : Prop :=
  exists x, t !! i = Some x /\ i_kind x = KDir /\ i_dict x !! ".." = Some d.

(** [k = (process, descriptor number)] is open on object [i] *)
Definition opens (m : gmap (Z * Z) fdesc) (i : Z) (k : Z * Z) : Prop := exists pos fl, m !! k = Some (FFile i pos fl).

(** [k] is a descriptor of the read (write) end of pipe [pid] *)
Definition reads (m : gmap (Z * Z) fdesc) (pid : Z) (k : Z * Z) : Prop :=
  exists fl, m !! k = Some (FPipe pid fl) /\ is_rdonly fl = true.
Definition writes (m : gmap (Z * Z) fdesc) (pid : Z) (k : Z * Z) : Prop :=
  exists fl, m !! k = Some (FPipe pid fl) /\ is_wronly fl = true.

(** The mode word says "directory", and nothing else *)
Definition dir_mode (x : inode) : Prop := Z.land (i_mode x) S_FILETYPEFLAGS = S_IFDIR.

(** [w'] is reached from [w] by any number of further calls. *)
Inductive later (displace : bool) : world -> world -> Prop :=
| later_refl w : later displace w w
| later_step w c o w1 r w2 :
    step w c o = Done (w1, r) -> tame displace w c o r -> later displace w1 w2 -> later displace w w2.
