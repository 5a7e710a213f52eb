(** The file system, the descriptor tables and the process table as one
    sequential machine: [step] runs one system call of one process (cage).

    Modelled source: /repo/src/safeposix/filesystem.rs,
    /repo/src/safeposix/cage.rs, /repo/src/interface/file.rs (EmulatedFile),
    /repo/src/safeposix/syscalls/fs_calls.rs and sys_calls.rs (fork, exec, exit).

    Simplifications, valid for the whole file:
    - system calls are atomic (interleaving inside a call is modelled only in
      the pipe, semaphore and lock models);
    - time stamps, uid, gid and dev_id are constants in the code and omitted;
    - host file operations succeed and are complete; host memory is unbounded;
    - socket descriptors are modelled elsewhere, so no [Socket] descriptor or
      socket inode is created here ([KSock] exists for the log and for fsck);
    - arithmetic overflow is an abort (debug build), as for every [Panic];
    - DashMap shard locking is not modelled, except where one call certainly
      locks against itself ([fchdir] on the root). *)
From Verif Require Import Base CodecModel PathModel.
Local Open Scope list_scope.

(** ** Objects *)

(** filesystem.rs 44-122, the four variants of [Inode] in one record; the
    fields [size], [mode], [linkcount], [refcount] are common to all four,
    [dev] belongs to devices, [filename_to_inode_dict] to directories. *)
Inductive ikind := KFile | KDir | KChr (major minor : Z) | KSock.
Global Instance ikind_eq_dec : EqDecision ikind.
Proof. solve_decision. Defined.

Record inode := Inode {
  i_kind : ikind;
  i_size : Z;
  i_mode : Z;
  i_link : Z;
  i_ref  : Z;
  i_dict : gmap string Z
}.

Definition set_size (v : Z) (x : inode) := Inode (i_kind x) v (i_mode x) (i_link x) (i_ref x) (i_dict x).
Definition set_mode (v : Z) (x : inode) := Inode (i_kind x) (i_size x) v (i_link x) (i_ref x) (i_dict x).
Definition set_link (v : Z) (x : inode) := Inode (i_kind x) (i_size x) (i_mode x) v (i_ref x) (i_dict x).
Definition set_ref  (v : Z) (x : inode) := Inode (i_kind x) (i_size x) (i_mode x) (i_link x) v (i_dict x).
Definition set_dict (v : gmap string Z) (x : inode) := Inode (i_kind x) (i_size x) (i_mode x) (i_link x) (i_ref x) v.

(** What serde writes: [refcount] is skipped and comes back as 0
    (filesystem.rs 60-64, 78-82, 96-100, 114-118). *)
Definition strip (x : inode) : inode := set_ref 0 x.

(** filesystem.rs 131-139 *)
Definition new_dict (cur par : Z) : gmap string Z := <["..":=par]> (<[".":=cur]> ∅).

(** ** The host disk *)

(** filesystem.rs 124-129 [FilesystemMetadata] as serialised *)
Record image := Image { im_next : Z; im_tab : gmap Z inode }.

Record disk := Disk {
  d_host : gmap Z (list Z);                  (* FILEDATA<n> *)
  d_meta : option image;                     (* the metadata file *)
  d_log  : option (list (Z * option inode))  (* the log file, decoded *)
}.

(** Every change the runtime makes to the host disk, in program order. *)
Inductive peff :=
| PLog (i : Z) (x : option inode)   (* filesystem.rs 399-416 log_metadata *)
| PCreate (i : Z)                   (* file.rs 54-66: open(create) of FILEDATA<i> *)
| PRemove (i : Z)                   (* file.rs 24-32 removefile of FILEDATA<i> *)
| PWrite (i off : Z) (bs : list Z)  (* file.rs 172-202 writeat, 261-284 zerofill_at *)
| PSetLen (i n : Z)                 (* file.rs 90-107 shrink *)
| PMetaDel                          (* filesystem.rs 425: remove the metadata file *)
| PMetaPut (im : image)             (* filesystem.rs 428-432 *)
| PLogDel                           (* removal of the log file *)
| PLogNew.                          (* filesystem.rs 391-396 create_log *)

(** A host write of [bs] at byte [off]: POSIX pwrite (a gap reads as zero, an
    empty write changes nothing). *)
Definition write_at (off : Z) (bs : list Z) (c : list Z) : list Z :=
  match bs with
  | [] => c
  | _ => take (Z.to_nat off) (c ++ replicate (Z.to_nat off - length c) 0)
           ++ bs ++ drop (Z.to_nat off + length bs) c
  end.

Definition apply_eff (e : peff) (d : disk) : disk :=
  match e with
  | PLog i x => Disk (d_host d) (d_meta d) ((fun l => l ++ [(i, x)]) <$> d_log d)
  | PCreate i => Disk (<[i := default [] (d_host d !! i)]> (d_host d)) (d_meta d) (d_log d)
  | PRemove i => Disk (delete i (d_host d)) (d_meta d) (d_log d)
  | PWrite i off bs => Disk (alter (write_at off bs) i (d_host d)) (d_meta d) (d_log d)
  | PSetLen i n => Disk (alter (take (Z.to_nat n)) i (d_host d)) (d_meta d) (d_log d)
  | PMetaDel => Disk (d_host d) None (d_log d)
  | PMetaPut im => Disk (d_host d) (Some im) (d_log d)
  | PLogDel => Disk (d_host d) (d_meta d) None
  | PLogNew => Disk (d_host d) (d_meta d) (Some [])
  end.

(** ** Descriptors, pipes and the world *)

(** cage.rs 51-99. A directory or device opened through [open] is also a
    [File] descriptor. [advlock] and the epoll interest list are modelled in
    other files. *)
Inductive fdesc :=
| FFile (ino pos flags : Z)
| FStream (stream flags : Z)
| FPipe (pid flags : Z)
| FEpoll (flags : Z).
Global Instance fdesc_eq_dec : EqDecision fdesc.
Proof. solve_decision. Defined.

(** interface/pipe.rs 40-71 [EmulatedPipe]; [pid] of a descriptor is the
    identity of the shared [Arc]. *)
Record pipe := Pipe { p_buf : list Z; p_r : Z; p_w : Z }.

Record world := World {
  w_ino : gmap Z inode;            (* FS_METADATA.inodetable *)
  w_next : Z;                      (* FS_METADATA.nextinode *)
  w_fobj : gmap Z Z;               (* FILEOBJECTTABLE: recorded file sizes *)
  w_disk : disk;
  w_trace : list peff;             (* history of disk effects *)
  w_cwd : gmap Z (list string);    (* live cages and their working directory *)
  w_fds : gmap (Z * Z) fdesc;      (* (cage, fd) -> descriptor *)
  w_pipes : gmap Z pipe;
  w_npipe : Z;
  w_dsock : gset (list string)     (* NET_METADATA.domsock_paths *)
}.

Definition with_ino (f : gmap Z inode -> gmap Z inode) (w : world) : world :=
  World (f (w_ino w)) (w_next w) (w_fobj w) (w_disk w) (w_trace w) (w_cwd w) (w_fds w)
        (w_pipes w) (w_npipe w) (w_dsock w).
Definition with_next (v : Z) (w : world) : world :=
  World (w_ino w) v (w_fobj w) (w_disk w) (w_trace w) (w_cwd w) (w_fds w)
        (w_pipes w) (w_npipe w) (w_dsock w).
Definition with_fobj (f : gmap Z Z -> gmap Z Z) (w : world) : world :=
  World (w_ino w) (w_next w) (f (w_fobj w)) (w_disk w) (w_trace w) (w_cwd w) (w_fds w)
        (w_pipes w) (w_npipe w) (w_dsock w).
Definition emit (e : peff) (w : world) : world :=
  World (w_ino w) (w_next w) (w_fobj w) (apply_eff e (w_disk w)) (w_trace w ++ [e]) (w_cwd w) (w_fds w)
        (w_pipes w) (w_npipe w) (w_dsock w).
Definition with_cwd (f : gmap Z (list string) -> gmap Z (list string)) (w : world) : world :=
  World (w_ino w) (w_next w) (w_fobj w) (w_disk w) (w_trace w) (f (w_cwd w)) (w_fds w)
        (w_pipes w) (w_npipe w) (w_dsock w).
Definition with_fds (f : gmap (Z * Z) fdesc -> gmap (Z * Z) fdesc) (w : world) : world :=
  World (w_ino w) (w_next w) (w_fobj w) (w_disk w) (w_trace w) (w_cwd w) (f (w_fds w))
        (w_pipes w) (w_npipe w) (w_dsock w).
Definition with_pipes (f : gmap Z pipe -> gmap Z pipe) (w : world) : world :=
  World (w_ino w) (w_next w) (w_fobj w) (w_disk w) (w_trace w) (w_cwd w) (w_fds w)
        (f (w_pipes w)) (w_npipe w) (w_dsock w).
Definition with_npipe (v : Z) (w : world) : world :=
  World (w_ino w) (w_next w) (w_fobj w) (w_disk w) (w_trace w) (w_cwd w) (w_fds w)
        (w_pipes w) v (w_dsock w).
Definition with_dsock (f : gset (list string) -> gset (list string)) (w : world) : world :=
  World (w_ino w) (w_next w) (w_fobj w) (w_disk w) (w_trace w) (w_cwd w) (w_fds w)
        (w_pipes w) (w_npipe w) (f (w_dsock w)).

Definition put_ino (i : Z) (x : inode) : world -> world := with_ino (insert i x).
Definition del_ino (i : Z) : world -> world := with_ino (delete i).
Definition put_fd (c fd : Z) (d : fdesc) : world -> world := with_fds (insert (c, fd) d).
Definition del_fd (c fd : Z) : world -> world := with_fds (delete (c, fd)).

(** filesystem.rs 399-416: appends the current state of object [i] to the log *)
Definition log_meta (i : Z) (w : world) : world := emit (PLog i (strip <$> w_ino w !! i)) w.

(** [inodetable.get(..).unwrap()] *)
Definition get_ino (w : world) (i : Z) : outcome inode :=
  match w_ino w !! i with Some x => Done x | None => Panic end.

(** u32 decrement, checked *)
Definition dec (v : Z) : outcome Z := if v <=? 0 then Panic else Done (v - 1).

(** What a call gives back to its caller. [Blocked k]: the call has not
    returned; [k] bytes have already been transferred. *)
Inductive out :=
| Ret (r : Z)
| RetData (r : Z) (bs : list Z)
| RetStat (ino mode nlink size rdev : Z)
| RetDents (r : Z) (es : list (string * Z))
| RetPath (p : string)
| RetFds (r a b : Z)
| Blocked (k : Z).

Notation "'do' x <- e ; k" := (obind e (fun x => k)) (at level 200, x pattern, e at level 100, k at level 200, right associativity).

(** ** Path resolution *)

(** filesystem.rs 531-585, the loop over the [Normal] components *)
Fixpoint walk_from (tab : gmap Z inode) (cur prev : option Z) (ns : list string)
  : outcome (option Z * option Z) :=
  match ns with
  | [] => Done (cur, prev)
  | f :: r =>
      match cur with
      | None => Done (None, None)
      | Some i =>
          match tab !! i with
          | None => Panic                     (* curnode.unwrap() *)
          | Some x =>
              match i_kind x with
              | KDir => walk_from tab (i_dict x !! f) (Some i) r
              | _ => Done (None, None)
              end
          end
      end
  end.

(** filesystem.rs 531-585 *)
Definition metawalkandparent (tab : gmap Z inode) (ns : list string) : outcome (option Z * option Z) :=
  match tab !! ROOTINO with
  | None => Panic
  | Some _ => walk_from tab (Some ROOTINO) None ns
  end.

(** filesystem.rs 586-588 *)
Definition metawalk (tab : gmap Z inode) (ns : list string) : outcome (option Z) :=
  do r <- metawalkandparent tab ns; Done (fst r).

(** ** Descriptor allocation, cage.rs 127-159 *)
Definition next_fd (w : world) (c start : Z) : option Z :=
  find (fun fd => match w_fds w !! (c, fd) with None => true | Some _ => false end)
       (seqZ start (MAXFD - start)).

Definition in_fd_range (fd : Z) : bool := (0 <=? fd) && (fd <? MAXFD).

(** [self.get_filedescriptor(fd).unwrap()] followed by the [Option] in the slot:
    cage.rs 187-196 *)
Definition fd_slot (w : world) (c fd : Z) : outcome (option fdesc) :=
  if in_fd_range fd then Done (w_fds w !! (c, fd)) else Panic.

(** ** open, creat, mkdir, mknod *)

(** fs_calls.rs 166-182 *)
Definition file_initializer (i flags size : Z) : fdesc :=
  FFile i (if hasbit flags O_APPEND then size else 0) (Z.land flags (Z.lor O_RDWRFLAGS O_CLOEXEC)).

(** [mode & (S_IRWXA | S_FILETYPEFLAGS) == mode] *)
Definition sane_mode (mode : Z) : bool := Z.land mode (Z.lor S_IRWXA S_FILETYPEFLAGS) =? mode.

(** FILEOBJECTTABLE vacant entry: open the host file with the given size *)
Definition open_fobj (i size : Z) (w : world) : world :=
  match w_fobj w !! i with
  | Some _ => w
  | None => with_fobj (insert i size) (emit (PCreate i) w)
  end.

(** [removefile(..).unwrap()] of FILEDATA<i>: aborts if the host file is missing *)
Definition remove_host (i : Z) (w : world) : outcome world :=
  match d_host (w_disk w) !! i with
  | None => Panic
  | Some _ => Done (emit (PRemove i) w)
  end.

(** insertion of a new object: parent gets the name and a link
    (fs_calls.rs 262-289, 524-552, 702-722) *)
Definition add_child (par : Z) (f : string) (i : Z) (x : inode) (w : world) : outcome world :=
  do p <- get_ino w par;
  let w1 := put_ino par (set_link (i_link p + 1) (set_dict (<[f := i]> (i_dict p)) p)) (with_next (i + 1) w) in
  let w2 := put_ino i x w1 in
  Done (log_meta i (log_meta par w2)).

(** fs_calls.rs 184-435. The ENOTDIR branch (280-286) is unreachable because
    [metawalkandparent] returns a parent only when it is a directory. *)
Definition open_syscall (w : world) (c : Z) (cwd : list string) (path : string) (flags mode : Z)
  : outcome (world * Z) :=
  if String.eqb path "" then Done (w, err ENOENT) else
  let tp := normpath cwd path in
  match next_fd w c 0 with
  | None => Done (w, err ENFILE)
  | Some fd =>
      do r <- metawalkandparent (w_ino w) tp;
      match r with
      | (None, Some par) =>
          if negb (hasbit flags O_CREAT) then Done (w, err ENOENT)
          else if Z.land S_IFCHR flags =? S_IFCHR then Done (w, err EINVAL)
          else if negb (sane_mode mode) then Done (w, err EPERM)
          else match file_name tp with
          | None => Panic
          | Some f =>
              let i := w_next w in
              do w1 <- add_child par f i (Inode KFile 0 (Z.lor S_IFREG mode) 1 1 ∅) w;
              let w2 := open_fobj i 0 w1 in
              Done (put_fd c fd (file_initializer i flags 0) w2, fd)
          end
      | (Some i, _) =>
          if Z.land flags (Z.lor O_CREAT O_EXCL) =? Z.lor O_CREAT O_EXCL then Done (w, err EEXIST)
          else
          do x <- get_ino w i;
          match i_kind x with
          | KFile =>
              (* O_TRUNC: 326-352; no write to the log *)
              do w1 <- (if Z.land flags O_TRUNC =? O_TRUNC
                        then remove_host i (with_fobj (delete i) (put_ino i (set_size 0 x) w))
                        else Done w);
              let size := if Z.land flags O_TRUNC =? O_TRUNC then 0 else i_size x in
              let w2 := open_fobj i size w1 in
              let w3 := put_ino i (set_ref (i_ref x + 1) (set_size size x)) w2 in
              Done (put_fd c fd (file_initializer i flags size) w3, fd)
          | KDir | KChr _ _ =>
              let w1 := put_ino i (set_ref (i_ref x + 1) x) w in
              Done (put_fd c fd (file_initializer i flags (i_size x)) w1, fd)
          | KSock => Done (w, err ENXIO)
          end
      | (None, None) => Done (w, err ENOENT)
      end
  end.

(** fs_calls.rs 1128-1133 *)
Definition creat_syscall w c cwd path mode : outcome (world * Z) :=
  open_syscall w c cwd path (Z.lor (Z.lor O_CREAT O_TRUNC) O_WRONLY) mode.

(** fs_calls.rs 480-570 *)
Definition mkdir_syscall (w : world) (cwd : list string) (path : string) (mode : Z) : outcome (world * Z) :=
  if String.eqb path "" then Done (w, err ENOENT) else
  let tp := normpath cwd path in
  do r <- metawalkandparent (w_ino w) tp;
  match r with
  | (None, None) => Done (w, err ENOENT)
  | (None, Some par) =>
      match file_name tp with
      | None => Panic
      | Some f =>
          if negb (sane_mode mode) then Done (w, err EPERM) else
          let i := w_next w in
          do w1 <- add_child par f i (Inode KDir 0 (Z.lor S_IFDIR mode) 3 0 (new_dict i par)) w;
          Done (w1, 0)
      end
  | (Some _, _) => Done (w, err EEXIST)
  end.

(** fs_calls.rs 636-739 *)
Definition mknod_syscall (w : world) (cwd : list string) (path : string) (mode dev : Z) : outcome (world * Z) :=
  if String.eqb path "" then Done (w, err ENOENT) else
  let tp := normpath cwd path in
  do r <- metawalkandparent (w_ino w) tp;
  match r with
  | (None, Some par) =>
      match file_name tp with
      | None => Panic
      | Some f =>
          if negb (sane_mode mode) then Done (w, err EPERM)
          else if Z.land mode S_IFCHR =? 0 then Done (w, err EINVAL)
          else
          let i := w_next w in
          do w1 <- add_child par f i (Inode (KChr (fst (devtuple dev)) (snd (devtuple dev))) 0 mode 1 0 ∅) w;
          Done (w1, 0)
      end
  | (Some _, _) => Done (w, err EEXIST)
  | (None, None) => Done (w, err ENOENT)
  end.

(** ** link, unlink, rmdir, rename *)

(** fs_calls.rs 787-930 *)
Definition link_syscall (w : world) (cwd : list string) (oldp newp : string) : outcome (world * Z) :=
  if String.eqb oldp "" then Done (w, err ENOENT) else
  if String.eqb newp "" then Done (w, err ENOENT) else
  let op := normpath cwd oldp in
  let np := normpath cwd newp in
  match file_name np with
  | None => Panic                                   (* file_name().unwrap(), 804-809 *)
  | Some f =>
      do io <- metawalk (w_ino w) op;
      match io with
      | None => Done (w, err ENOENT)
      | Some i =>
          do x <- get_ino w i;
          match i_kind x with
          | KDir => Done (w, err EPERM)
          | _ =>
              let w1 := put_ino i (set_link (i_link x + 1) x) w in
              do r <- metawalkandparent (w_ino w1) np;
              match r with
              | (None, None) => Done (put_ino i x w1, err ENOENT)   (* revert, 903-922 *)
              | (Some _, _) => Done (put_ino i x w1, err EEXIST)
              | (None, Some par) =>
                  do p <- get_ino w1 par;
                  let w2 := put_ino par (set_link (i_link p + 1) (set_dict (<[f := i]> (i_dict p)) p)) w1 in
                  Done (log_meta i (log_meta par w2), 0)
              end
          end
      end
  end.

(** [mode & (S_IWOTH|S_IWGRP|S_IWUSR) == 0] *)
Definition no_write_bits (mode : Z) : bool :=
  Z.land mode (Z.lor (Z.lor S_IWOTH S_IWGRP) S_IWUSR) =? 0.

(** fs_calls.rs 4664-4693; the non-directory panic (4689) is kept. [Z] result 0
    or an error. *)
Definition remove_from_parent (par : Z) (tp : list string) (w : world) : outcome (world * Z) :=
  do p <- get_ino w par;
  match i_kind p with
  | KDir =>
      if no_write_bits (i_mode p) then Done (w, err EPERM) else
      match file_name tp with
      | None => Panic
      | Some f =>
          match i_dict p !! f with
          | None => Panic
          | Some _ =>
              do l <- dec (i_link p);
              Done (put_ino par (set_link l (set_dict (delete f (i_dict p)) p)) w, 0)
          end
      end
  | _ => Panic
  end.

(** fs_calls.rs 970-1075 *)
Definition unlink_syscall (w : world) (cwd : list string) (path : string) : outcome (world * Z) :=
  if String.eqb path "" then Done (w, err ENOENT) else
  let tp := normpath cwd path in
  do r <- metawalkandparent (w_ino w) tp;
  match r with
  | (None, _) => Done (w, err ENOENT)
  | (Some _, None) => Done (w, err EISDIR)
  | (Some i, Some par) =>
      do x <- get_ino w i;
      match i_kind x with
      | KDir => Done (w, err EISDIR)
      | k =>
          do l <- dec (i_link x);
          let w1 := put_ino i (set_link l x) w in
          do wr <- remove_from_parent par tp w1;
          let '(w2, res) := wr in
          if negb (res =? 0) then Done (w2, res) else
          do w3 <- (if (l =? 0) && (i_ref x =? 0)
                    then let w' := del_ino i w2 in
                         match k with KFile => remove_host i w' | _ => Done w' end
                    else Done w2);
          let w4 := with_dsock (fun s => s ∖ {[tp]}) w3 in
          Done (match k with KSock => w4 | _ => log_meta i (log_meta par w4) end, 0)
      end
  end.

(** fs_calls.rs 4730-4866 *)
Definition rmdir_syscall (w : world) (cwd : list string) (path : string) : outcome (world * Z) :=
  if String.eqb path "" then Done (w, err ENOENT) else
  let tp := normpath cwd path in
  do r <- metawalkandparent (w_ino w) tp;
  match r with
  | (None, _) => Done (w, err ENOENT)
  | (Some _, None) => Done (w, err EBUSY)
  | (Some i, Some par) =>
      do p <- get_ino w par;
      if no_write_bits (i_mode p) then Done (w, err EPERM) else
      do x <- get_ino w i;
      match i_kind x with
      | KDir =>
          if 3 <? i_link x then Done (w, err ENOTEMPTY)
          else if negb (is_dir (i_mode x)) then Panic
          else if no_write_bits (i_mode x) then Done (w, err EPERM)
          else
          let rm := i_ref x =? 0 in
          let w1 := if rm then put_ino i (set_link 2 x) w else w in
          do wr <- remove_from_parent par tp w1;
          let '(w2, res) := wr in
          if negb (res =? 0) then Done (w2, res) else
          let w3 := if rm then del_ino i w2 else w2 in
          Done (log_meta i (log_meta par w3), 0)
      | _ => Done (w, err ENOTDIR)
      end
  end.

(** fs_calls.rs 4902-4973 *)
Definition rename_syscall (w : world) (cwd : list string) (oldp newp : string) : outcome (world * Z) :=
  if String.eqb oldp "" then Done (w, err ENOENT) else
  if String.eqb newp "" then Done (w, err ENOENT) else
  let op := normpath cwd oldp in
  let np := normpath cwd newp in
  do r <- metawalkandparent (w_ino w) op;
  match r with
  | (None, _) => Done (w, err EEXIST)
  | (Some _, None) => Done (w, err EBUSY)
  | (Some i, Some par) =>
      do r2 <- metawalkandparent (w_ino w) np;
      if negb (bool_decide (snd r2 = Some par)) then Done (w, err EOPNOTSUPP) else
      do p <- get_ino w par;
      match file_name op, file_name np with
      | Some fo, Some fn =>
          let w1 := put_ino par (set_dict (delete fo (<[fn := i]> (i_dict p))) p) w in
          let w2 := log_meta par w1 in
          Done (with_dsock (fun s => (s ∪ {[np]}) ∖ {[op]}) w2, 0)
      | _, _ => Panic
      end
  end.

(** ** chmod, truncate, stat, access *)

(** fs_calls.rs 4142-4198 *)
Definition chmod_helper (i mode : Z) (w : world) : outcome (world * Z) :=
  if Z.land mode S_IRWXA =? mode then
    do x <- get_ino w i;
    let w1 := put_ino i (set_mode (Z.lor (Z.ldiff (i_mode x) S_IRWXA) mode) x) w in
    Done (match i_kind x with KSock => w1 | _ => log_meta i w1 end, 0)
  else Done (w, err EINVAL).

(** fs_calls.rs 4239-4261 *)
Definition chmod_syscall (w : world) (cwd : list string) (path : string) (mode : Z) : outcome (world * Z) :=
  do io <- metawalk (w_ino w) (normpath cwd path);
  match io with
  | Some i => chmod_helper i mode w
  | None => Done (w, err ENOENT)
  end.

(** fs_calls.rs 4299-4346 *)
Definition fchmod_syscall (w : world) (c fd mode : Z) : outcome (world * Z) :=
  do s <- fd_slot w c fd;
  match s with
  | Some (FFile i _ _) => chmod_helper i mode w
  | Some _ => Done (w, err EINVAL)
  | None => Done (w, err EBADF)
  end.

(** file.rs 261-284 [zerofill_at] on an open file object *)
Definition zerofill (i off n : Z) (w : world) : outcome world :=
  match w_fobj w !! i with
  | None => Panic
  | Some fs =>
      if fs <? off then Panic else
      Done (with_fobj (insert i (Z.max fs (off + n)))
              (emit (PWrite i off (replicate (Z.to_nat n) 0)) w))
  end.

(** file.rs 172-202 [writeat] *)
Definition writeat (i off : Z) (bs : list Z) (w : world) : outcome world :=
  match w_fobj w !! i with
  | None => Panic
  | Some fs =>
      if (off <? 0) || (fs <? off) then Panic else
      Done (with_fobj (insert i (Z.max fs (off + Z.of_nat (length bs))))
              (emit (PWrite i off bs) w))
  end.

(** file.rs 149-166 [readat]: the bytes come from the host file, the bound
    check uses the recorded size *)
Definition readat (i off n : Z) (w : world) : outcome (list Z) :=
  match w_fobj w !! i with
  | None => Panic
  | Some fs =>
      if (off <? 0) || (fs <? off) then Panic else
      Done (take (Z.to_nat n) (drop (Z.to_nat off) (default [] (d_host (w_disk w) !! i))))
  end.

(** fs_calls.rs 4975-5055. When the file is not open ([truncate] on a closed
    file) a temporary host handle of the recorded size is used and dropped. *)
Definition truncate_helper (i len : Z) (must : bool) (w : world) : outcome (world * Z) :=
  if len <? 0 then Done (w, err EINVAL) else
  do x <- get_ino w i;
  match i_kind x with
  | KFile =>
      let isopen := match w_fobj w !! i with Some _ => true | None => false end in
      if negb isopen && must then Panic else
      let w1 := if isopen then w else with_fobj (insert i (i_size x)) (emit (PCreate i) w) in
      do w2 <- (if i_size x <? len then zerofill i (i_size x) (len - i_size x) w1
                else match w_fobj w1 !! i with
                     | None => Panic
                     | Some fs => if fs <? len then Panic else
                         Done (with_fobj (insert i len) (emit (PSetLen i len) w1))
                     end);
      let w3 := if isopen then w2 else with_fobj (delete i) w2 in
      Done (log_meta i (put_ino i (set_size len x) w3), 0)
  | KChr _ _ => Done (w, err EINVAL)
  | KSock => Done (w, err EINVAL)
  | KDir => Done (w, err EISDIR)
  end.

(** fs_calls.rs 5223-5253 *)
Definition ftruncate_syscall (w : world) (c fd len : Z) : outcome (world * Z) :=
  do s <- fd_slot w c fd;
  match s with
  | Some (FFile i _ flags) =>
      if is_rdonly flags then Done (w, err EBADF) else truncate_helper i len true w
  | Some _ => Done (w, err EINVAL)
  | None => Done (w, err EBADF)
  end.

(** fs_calls.rs 5256-5272 *)
Definition truncate_syscall (w : world) (cwd : list string) (path : string) (len : Z) : outcome (world * Z) :=
  do io <- metawalk (w_ino w) (normpath cwd path);
  match io with
  | Some i => truncate_helper i len false w
  | None => Done (w, err ENOENT)
  end.

(** fs_calls.rs 1208-1259 *)
Definition stat_of (i : Z) (x : inode) : out :=
  RetStat i (i_mode x) (i_link x) (i_size x)
    (match i_kind x with KChr a b => makedev a b | _ => 0 end).

(** fs_calls.rs 1169-1203 *)
Definition stat_syscall (w : world) (cwd : list string) (path : string) : outcome out :=
  do io <- metawalk (w_ino w) (normpath cwd path);
  match io with
  | Some i => do x <- get_ino w i; Done (stat_of i x)
  | None => Done (Ret (err ENOENT))
  end.

(** fs_constants.rs 18-19 *)
Definition PIPEINODE : Z := 4277075968.

(** fs_calls.rs 1311-1377; 49590 is the mode used at 1266 *)
Definition fstat_syscall (w : world) (c fd : Z) : outcome out :=
  do s <- fd_slot w c fd;
  match s with
  | Some (FFile i _ _) => do x <- get_ino w i; Done (stat_of i x)
  | Some (FStream _ _) => Done (RetStat STREAMINODE 49590 1 0 0)
  | Some (FPipe _ _) => Done (RetStat PIPEINODE 49590 1 0 0)
  | Some (FEpoll _) => Done (RetStat PIPEINODE 49590 1 0 0)
  | None => Done (Ret (err EBADF))
  end.

(** fs_calls.rs 3019-3078 *)
Definition access_syscall (w : world) (cwd : list string) (path : string) (amode : Z) : outcome Z :=
  do io <- metawalk (w_ino w) (normpath cwd path);
  match io with
  | Some i =>
      do x <- get_ino w i;
      let m1 := if Z.land amode X_OK =? X_OK then S_IXUSR else 0 in
      let m2 := if Z.land amode W_OK =? W_OK then Z.lor m1 S_IWUSR else m1 in
      let m3 := if Z.land amode R_OK =? R_OK then Z.lor m2 S_IRUSR else m2 in
      Done (if Z.land (i_mode x) m3 =? m3 then 0 else err EACCES)
  | None => Done (err ENOENT)
  end.

(** ** read, pread, write, pwrite, writev, lseek *)

(** fs_calls.rs 1933-1957. Bytes of the random devices are not modelled (the
    returned list is empty for them). *)
Definition read_chr (maj mn n : Z) : out :=
  if (maj =? 1) && (mn =? 3) then RetData 0 []
  else if (maj =? 1) && (mn =? 5) then RetData (to_i32 n) (replicate (Z.to_nat n) 0)
  else if (maj =? 1) && ((mn =? 8) || (mn =? 9)) then RetData (to_i32 n) []
  else Ret (err EOPNOTSUPP).

(** fs_calls.rs 2421-2446 *)
Definition write_chr (maj mn n : Z) : Z :=
  if (maj =? 1) && ((mn =? 3) || (mn =? 5) || (mn =? 8) || (mn =? 9)) then to_i32 n
  else err EOPNOTSUPP.

(** pipe.rs 403-463 run with no other thread interfering *)
Definition pipe_read (p : pipe) (n : Z) (nonblock : bool) : pipe * out :=
  if n =? 0 then (p, RetData 0 []) else
  match p_buf p with
  | [] => if p_w p =? 0 then (p, RetData 0 [])
          else if nonblock then (p, Ret (err EAGAIN)) else (p, Blocked 0)
  | _ =>
      let k := Z.min n (Z.of_nat (length (p_buf p))) in
      (Pipe (drop (Z.to_nat k) (p_buf p)) (p_r p) (p_w p),
       RetData (to_i32 k) (take (Z.to_nat k) (p_buf p)))
  end.

Definition pipe_room (p : pipe) : Z := PIPE_CAPACITY - Z.of_nat (length (p_buf p)).

(** pipe.rs 211-289 run with no other thread interfering *)
Definition pipe_write (p : pipe) (bs : list Z) (nonblock : bool) : pipe * out :=
  let n := Z.of_nat (length bs) in
  if n =? 0 then (p, Ret 0)
  else if p_r p =? 0 then (p, Ret (err EPIPE))
  else if pipe_room p <? PIPE_BUF then
    (p, if nonblock then Ret (err EAGAIN) else Blocked 0)
  else
    let k := Z.min n (pipe_room p) in
    let p' := Pipe (p_buf p ++ take (Z.to_nat k) bs) (p_r p) (p_w p) in
    (* after a partial push no room is left: the loop returns or waits *)
    (p', if k =? n then Ret (to_i32 n) else if nonblock then Ret (to_i32 k) else Blocked k).

Definition get_pipe (w : world) (pid : Z) : outcome pipe :=
  match w_pipes w !! pid with Some p => Done p | None => Panic end.

(** fs_calls.rs 1580-1742 *)
Definition read_syscall (w : world) (c fd n : Z) : outcome (world * out) :=
  do s <- fd_slot w c fd;
  match s with
  | Some (FFile i pos flags) =>
      if is_wronly flags then Done (w, Ret (err EBADF)) else
      do x <- get_ino w i;
      match i_kind x with
      | KFile =>
          do bs <- readat i pos n w;
          Done (put_fd c fd (FFile i (pos + Z.of_nat (length bs)) flags) w,
                RetData (to_i32 (Z.of_nat (length bs))) bs)
      | KChr a b => Done (w, read_chr a b n)
      | KSock => Panic
      | KDir => Done (w, Ret (err EISDIR))
      end
  | Some (FStream _ _) => Done (w, Ret (err EOPNOTSUPP))
  | Some (FEpoll _) => Done (w, Ret (err EINVAL))
  | Some (FPipe pid flags) =>
      if is_wronly flags then Done (w, Ret (err EBADF)) else
      do p <- get_pipe w pid;
      let '(p', o) := pipe_read p n (hasbit flags O_NONBLOCK) in
      Done (with_pipes (insert pid p') w, o)
  | None => Done (w, Ret (err EBADF))
  end.

(** fs_calls.rs 1791-1893 *)
Definition pread_syscall (w : world) (c fd n off : Z) : outcome out :=
  do s <- fd_slot w c fd;
  match s with
  | Some (FFile i _ flags) =>
      if is_wronly flags then Done (Ret (err EBADF)) else
      do x <- get_ino w i;
      match i_kind x with
      | KFile => do bs <- readat i off n w; Done (RetData (to_i32 (Z.of_nat (length bs))) bs)
      | KChr a b => Done (read_chr a b n)
      | KSock => Panic
      | KDir => Done (Ret (err EISDIR))
      end
  | Some _ => Done (Ret (err ESPIPE))
  | None => Done (Ret (err EBADF))
  end.

(** The common part of [write], [pwrite] and [writev] on a regular file:
    fs_calls.rs 2079-2119, 2304-2345, 2681-2725. Fills the gap with zeros,
    writes, extends the recorded size and logs if it grew. *)
Definition file_write (i pos : Z) (bs : list Z) (x : inode) (w : world) : outcome world :=
  do w1 <- (if 0 <? pos - i_size x then zerofill i (i_size x) (pos - i_size x) w
            else match w_fobj w !! i with None => Panic | Some _ => Done w end);
  do w2 <- writeat i pos bs w1;
  let e := pos + Z.of_nat (length bs) in
  if i_size x <? e then Done (log_meta i (put_ino i (set_size e x) w2)) else Done w2.

(** fs_calls.rs 2009-2198. SIGPIPE on EPIPE is not modelled here. *)
Definition write_syscall (w : world) (c fd : Z) (bs : list Z) : outcome (world * out) :=
  let n := Z.of_nat (length bs) in
  do s <- fd_slot w c fd;
  match s with
  | Some (FFile i pos flags) =>
      if is_rdonly flags then Done (w, Ret (err EBADF)) else
      do x <- get_ino w i;
      match i_kind x with
      | KDir => Done (w, Ret (err EISDIR))
      | KFile =>
          do w1 <- file_write i pos bs x w;
          Done (put_fd c fd (FFile i (pos + n) flags) w1, Ret (to_i32 n))
      | KChr a b => Done (w, Ret (write_chr a b n))
      | KSock => Panic
      end
  | Some (FEpoll _) => Done (w, Ret (err EINVAL))
  | Some (FStream st _) =>
      Done (w, Ret (if (st =? 1) || (st =? 2) then to_i32 n else err EBADF))
  | Some (FPipe pid flags) =>
      if is_rdonly flags then Done (w, Ret (err EBADF)) else
      do p <- get_pipe w pid;
      let '(p', o) := pipe_write p bs (hasbit flags O_NONBLOCK) in
      Done (with_pipes (insert pid p') w, o)
  | None => Done (w, Ret (err EBADF))
  end.

(** fs_calls.rs 2244-2383 *)
Definition pwrite_syscall (w : world) (c fd : Z) (bs : list Z) (off : Z) : outcome (world * out) :=
  let n := Z.of_nat (length bs) in
  do s <- fd_slot w c fd;
  match s with
  | Some (FFile i _ flags) =>
      if is_rdonly flags then Done (w, Ret (err EBADF)) else
      do x <- get_ino w i;
      match i_kind x with
      | KDir => Done (w, Ret (err EISDIR))
      | KFile => do w1 <- file_write i off bs x w; Done (w1, Ret (to_i32 n))
      | KChr a b => Done (w, Ret (write_chr a b n))
      | KSock => Panic
      end
  | Some _ => Done (w, Ret (err ESPIPE))
  | None => Done (w, Ret (err EBADF))
  end.

(** pipe.rs 329-373 run with no other thread interfering: successive writes
    until one does not return a positive count *)
Fixpoint pipe_writev (p : pipe) (iov : list (list Z)) (nonblock : bool) (total : Z) : pipe * out :=
  match iov with
  | [] => (p, Ret (to_i32 total))
  | bs :: rest =>
      match pipe_write p bs nonblock with
      | (p', Ret r) =>
          if 0 <? r then pipe_writev p' rest nonblock (total + r)
          else if r =? err EPIPE then (p', Ret (err EPIPE))
          else if r =? err EAGAIN then (p', Ret (if total =? 0 then err EAGAIN else to_i32 total))
          else pipe_writev p' rest nonblock total
      | (p', Blocked k) => (p', Blocked (total + k))
      | (p', o) => (p', o)
      end
  end.

(** fs_calls.rs 2513-2779; on a stream the data must be UTF-8, which is
    assumed here. *)
Definition writev_syscall (w : world) (c fd : Z) (iov : list (list Z)) : outcome (world * out) :=
  let n := Z.of_nat (length (concat iov)) in
  do s <- fd_slot w c fd;
  match s with
  | Some (FFile i pos flags) =>
      if is_rdonly flags then Done (w, Ret (err EBADF)) else
      do x <- get_ino w i;
      match i_kind x with
      | KDir => Done (w, Ret (err EISDIR))
      | KFile =>
          do w1 <- file_write i pos (concat iov) x w;
          Done (put_fd c fd (FFile i (pos + n) flags) w1, Ret (to_i32 n))
      | KChr a b => Done (w, Ret (write_chr a b n))
      | KSock => Panic
      end
  | Some (FEpoll _) => Done (w, Ret (err EOPNOTSUPP))
  | Some (FStream _ _) => Done (w, Ret (to_i32 n))
  | Some (FPipe pid flags) =>
      if is_rdonly flags then Done (w, Ret (err EBADF)) else
      do p <- get_pipe w pid;
      let '(p', o) := pipe_writev p iov (hasbit flags O_NONBLOCK) 0 in
      Done (with_pipes (insert pid p') w, o)
  | None => Done (w, Ret (err EBADF))
  end.

Definition ISIZE_MAX : Z := 9223372036854775807.
Definition add_isize (a b : Z) : outcome Z :=
  if (a + b <? - ISIZE_MAX - 1) || (ISIZE_MAX <? a + b) then Panic else Done (a + b).

(** fs_calls.rs 2829-2979 *)
Definition lseek_syscall (w : world) (c fd off whence : Z) : outcome (world * Z) :=
  do s <- fd_slot w c fd;
  match s with
  | Some (FFile i pos flags) =>
      do x <- get_ino w i;
      let base len :=
        if whence =? SEEK_SET then Done (Some off)
        else if whence =? SEEK_CUR then (do e <- add_isize pos off; Done (Some e))
        else if whence =? SEEK_END then (do e <- add_isize len off; Done (Some e))
        else Done None in
      match i_kind x with
      | KFile =>
          do eo <- base (i_size x);
          match eo with
          | None => Done (w, err EINVAL)
          | Some e => if e <? 0 then Done (w, err EINVAL)
                      else Done (put_fd c fd (FFile i e flags) w, to_i32 e)
          end
      | KChr _ _ => Done (w, 0)
      | KSock => Panic
      | KDir =>
          let len := Z.of_nat (size (i_dict x)) in
          do eo <- base len;
          match eo with
          | None => Done (w, err EINVAL)
          | Some e => if (e <? 0) || (len <? e) then Done (w, err EINVAL)
                      else Done (put_fd c fd (FFile i e flags) w, to_i32 e)
          end
      end
  | Some _ => Done (w, err ESPIPE)
  | None => Done (w, err EBADF)
  end.

(** fs_calls.rs 5059-5108, 5110-5159 (fsync and fdatasync have the same
    structure); the host sync itself has no modelled effect *)
Definition fsync_syscall (w : world) (c fd : Z) : outcome Z :=
  do s <- fd_slot w c fd;
  match s with
  | Some (FFile i _ flags) =>
      if is_rdonly flags then Done (err EBADF) else
      do x <- get_ino w i;
      match i_kind x with
      | KFile => match w_fobj w !! i with Some _ => Done 0 | None => Panic end
      | _ => Done (err EROFS)
      end
  | Some _ => Done (err EINVAL)
  | None => Done (err EBADF)
  end.

(** ** close, dup, dup2, fcntl *)

Definition ENOEXEC : Z := 8.

(** pipe.rs 98-116 *)
Definition pipe_incr (flags : Z) (p : pipe) : pipe :=
  Pipe (p_buf p) (if is_rdonly flags then to_u32 (p_r p + 1) else p_r p)
       (if is_wronly flags then to_u32 (p_w p + 1) else p_w p).
Definition pipe_decr (flags : Z) (p : pipe) : pipe :=
  Pipe (p_buf p) (if is_rdonly flags then to_u32 (p_r p - 1) else p_r p)
       (if is_wronly flags then to_u32 (p_w p - 1) else p_w p).

(** fs_calls.rs 3595-3788: releases what the descriptor refers to; the slot
    itself is not cleared *)
Definition close_desc (d : fdesc) (w : world) : outcome (world * Z) :=
  match d with
  | FStream _ _ => Done (w, 0)
  | FEpoll _ => Done (w, 0)
  | FPipe pid flags =>
      do p <- get_pipe w pid;
      Done (with_pipes (insert pid (pipe_decr flags p)) w, 0)
  | FFile i _ _ =>
      do x <- get_ino w i;
      do r <- dec (i_ref x);
      let w1 := put_ino i (set_ref r x) w in
      match i_kind x with
      | KFile =>
          if r =? 0 then
            match w_fobj w1 !! i with
            | None => Panic
            | Some _ =>
                let w2 := with_fobj (delete i) w1 in
                if i_link x =? 0 then
                  do w3 <- remove_host i (del_ino i w2);
                  Done (log_meta i w3, 0)
                else Done (w2, 0)
            end
          else Done (w1, 0)
      | KDir =>
          match w_fobj w1 !! i with
          | Some _ => Done (w1, err ENOEXEC)
          | None =>
              if (i_link x =? 2) && (r =? 0) then Done (log_meta i (del_ino i w1), 0)
              else Done (w1, 0)
          end
      | KChr _ _ =>
          match w_fobj w1 !! i with
          | Some _ => Done (w1, err ENOEXEC)
          | None =>
              let w2 := if (i_link x =? 0) && (r =? 0) then del_ino i w1 else w1 in
              Done (log_meta i w2, 0)
          end
      | KSock => Panic
      end
  end.

Definition close_inner (w : world) (c fd : Z) : outcome (world * Z) :=
  do s <- fd_slot w c fd;
  match s with
  | Some d => close_desc d w
  | None => Done (w, err EBADF)
  end.

(** fs_calls.rs 3820-3844 and 3560-3564 *)
Definition close_syscall (w : world) (c fd : Z) : outcome (world * Z) :=
  do r <- close_inner w c fd;
  let '(w1, res) := r in
  if res <? 0 then Done (w1, res) else Done (del_fd c fd w1, 0).

(** fs_calls.rs 3445-3492: one more reference to what the descriptor refers to *)
Definition add_ref (d : fdesc) (w : world) : outcome (option world) :=
  match d with
  | FFile i _ _ =>
      do x <- get_ino w i;
      match i_kind x with
      | KSock => Panic
      | _ => Done (Some (put_ino i (set_ref (i_ref x + 1) x) w))
      end
  | FPipe pid flags =>
      do p <- get_pipe w pid;
      Done (Some (with_pipes (insert pid (pipe_incr flags p)) w))
  | FStream _ _ => Done (Some w)
  | FEpoll _ => Done None
  end.

(** fs_calls.rs 3495-3523 *)
Definition clear_cloexec (d : fdesc) : fdesc :=
  match d with
  | FFile i p fl => FFile i p (Z.ldiff fl O_CLOEXEC)
  | FStream s fl => FStream s (Z.ldiff fl O_CLOEXEC)
  | FPipe p fl => FPipe p (Z.ldiff fl O_CLOEXEC)
  | FEpoll fl => FEpoll fl
  end.

(** fs_calls.rs 3422-3530 *)
Definition dup2_helper (w : world) (c : Z) (d : fdesc) (newfd : Z) (fromdup2 : bool) : outcome (world * Z) :=
  do r <- (if fromdup2 then
             match w_fds w !! (c, newfd) with
             | Some _ => (do q <- close_inner w c newfd; Done (Some (fst q, newfd)))
             | None => Done (Some (w, newfd))
             end
           else match next_fd w c newfd with
                | None => Done None
                | Some fd => Done (Some (w, fd))
                end);
  match r with
  | None => Done (w, err ENFILE)
  | Some (w1, fd) =>
      do o <- add_ref d w1;
      match o with
      | None => Done (w1, err EACCES)
      | Some w2 => Done (put_fd c fd (clear_cloexec d) w2, fd)
      end
  end.

(** fs_calls.rs 3279-3306, with [start_desc = None] (the dispatcher's call) *)
Definition dup_syscall (w : world) (c fd : Z) : outcome (world * Z) :=
  if fd =? 0 then Done (w, 0) else
  if negb (in_fd_range fd) then Done (w, err EBADF) else
  match w_fds w !! (c, fd) with
  | Some d => dup2_helper w c d 0 false
  | None => Done (w, err EBADF)
  end.

(** fs_calls.rs 3342-3370 *)
Definition dup2_syscall (w : world) (c oldfd newfd : Z) : outcome (world * Z) :=
  if (MAXFD <=? newfd) || (newfd <? 0) then Done (w, err EBADF) else
  if newfd =? oldfd then Done (w, newfd) else
  if negb (in_fd_range oldfd) then Done (w, err EBADF) else
  match w_fds w !! (c, oldfd) with
  | Some d => dup2_helper w c d newfd true
  | None => Done (w, err EBADF)
  end.

Definition fd_flags (d : fdesc) : Z :=
  match d with FFile _ _ fl | FStream _ fl | FPipe _ fl | FEpoll fl => fl end.
Definition set_flags (fl : Z) (d : fdesc) : fdesc :=
  match d with
  | FFile i p _ => FFile i p fl
  | FStream s _ => FStream s fl
  | FPipe p _ => FPipe p fl
  | FEpoll _ => FEpoll fl
  end.

(** O_CREAT | O_EXCL | O_NOCTTY | O_TRUNC *)
Definition creation_flags : Z := Z.lor (Z.lor (Z.lor O_CREAT O_EXCL) O_NOCTTY) O_TRUNC.

(** fs_calls.rs 3880-3980; [arg] is an i32 *)
Definition fcntl_syscall (w : world) (c fd cmd arg : Z) : outcome (world * Z) :=
  do s <- fd_slot w c fd;
  match s with
  | None => Done (w, err EBADF)
  | Some d =>
      let fl := fd_flags d in
      if cmd =? F_GETFD then Done (w, Z.land fl O_CLOEXEC)
      else if (cmd =? F_SETFD) && (0 <=? arg) then
        Done (put_fd c fd (set_flags (if hasbit arg O_CLOEXEC then Z.lor fl O_CLOEXEC
                                      else Z.ldiff fl O_CLOEXEC) d) w, 0)
      else if cmd =? F_GETFL then Done (w, Z.ldiff fl creation_flags)
      else if (cmd =? F_SETFL) && (0 <=? arg) then
        let keep := Z.lor O_RDWRFLAGS creation_flags in
        Done (put_fd c fd (set_flags (Z.lor (Z.ldiff arg keep) (Z.land fl keep)) d) w, 0)
      else if (cmd =? F_DUPFD) && (0 <=? arg) then dup2_helper w c d arg false
      else if cmd =? F_GETOWN then Done (w, 0)
      else if (cmd =? F_SETOWN) && (0 <=? arg) then Done (w, 0)
      else Done (w, err EINVAL)
  end.

(** ** Working directory *)

(** fs_calls.rs 3193-3231 *)
Definition chdir_syscall (w : world) (c : Z) (cwd : list string) (path : string) : outcome (world * Z) :=
  let tp := normpath cwd path in
  do io <- metawalk (w_ino w) tp;
  match io with
  | Some i =>
      do x <- get_ino w i;
      match i_kind x with
      | KDir => Done (with_cwd (insert c tp) w, 0)
      | _ => Done (w, err ENOTDIR)
      end
  | None => Done (w, err ENOENT)
  end.

(** filesystem.rs 510-527: some name of [target] in directory [d] *)
Definition name_in (x : inode) (target : Z) : option string :=
  match find (fun e => snd e =? target) (map_to_list (i_dict x)) with
  | Some e => Some (fst e)
  | None => None
  end.

(** filesystem.rs 463-507. [None]: the loop has not ended within [fuel]
    iterations, or the call locks the root entry against itself. *)
Fixpoint pathname_loop (fuel : nat) (tab : gmap Z inode) (cur : Z) (acc : string) (first : bool)
  : option (outcome (option string)) :=
  match fuel with
  | O => None
  | S k =>
      match tab !! cur with
      | None => Some (Done None)
      | Some x =>
          match i_kind x with
          | KDir =>
              match i_dict x !! ".." with
              | None => Some (Done None)
              | Some par =>
                  if (par =? ROOTINO) && negb first then Some (Done (Some ("/" +:+ acc)))
                  else if par =? cur then None   (* get on an entry held by get_mut *)
                  else match tab !! par with
                  | None => Some Panic            (* 511: unwrap *)
                  | Some p =>
                      match i_kind p with
                      | KDir =>
                          match name_in p cur with
                          | None => Some (Done None)
                          | Some f => pathname_loop k tab par (f +:+ "/" +:+ acc)
                                        (if par =? ROOTINO then false else first)
                          end
                      | _ => Some (Done None)
                      end
                  end
              end
          | _ => Some (Done None)
          end
      end
  end.

(** fs_calls.rs 3113-3159 *)
Definition fchdir_syscall (w : world) (c fd : Z) (cwd : list string) : outcome (world * out) :=
  do s <- fd_slot w c fd;
  match s with
  | None => Done (w, Ret (err EBADF))
  | Some (FFile i _ _) =>
      match pathname_loop (S (size (w_ino w))) (w_ino w) i "" true with
      | None => Done (w, Blocked 0)
      | Some Panic => Panic
      | Some (Done None) => Done (w, Ret (err ENOTDIR))
      | Some (Done (Some s)) => Done (with_cwd (insert c (normpath cwd s)) w, Ret 0)
      end
  | Some _ => Done (w, Ret (err ENOTDIR))
  end.

(** fs_calls.rs 5571-5585; the NUL terminator counts *)
Definition getcwd_syscall (cwd : list string) (bufsize : Z) : out :=
  if bufsize =? 0 then Ret (err EINVAL)
  else if bufsize <? Z.of_nat (String.length (render cwd)) + 1 then Ret (err ERANGE)
  else RetPath (render cwd).

(** ** getdents *)

(** types.rs 208-218: two u64 and one u16, packed *)
Definition CLIPPED_DIRENT_SIZE : Z := 18.

(** fs_calls.rs 5467-5486: record length of one name: header, name, NUL and
    type byte, padded to a multiple of 8 *)
Definition reclen (f : string) : Z :=
  let t := CLIPPED_DIRENT_SIZE + (Z.of_nat (String.length f) + 2) in (t + 7) / 8 * 8.

(** fs_calls.rs 5460-5506: entries that fit *)
Fixpoint dents_fit (es : list (string * Z)) (bufcount bufsize : Z) : list (string * Z) * Z :=
  match es with
  | [] => ([], bufcount)
  | e :: r =>
      let b := bufcount + reclen (fst e) in
      if bufsize <? b then ([], bufcount)
      else let '(l, n) := dents_fit r b bufsize in (e :: l, n)
  end.

(** fs_calls.rs 5422-5533. The iteration order of the hash map is that of
    [map_to_list]: some fixed order for equal maps. *)
Definition getdents_syscall (w : world) (c fd bufsize : Z) : outcome (world * out) :=
  if bufsize <=? CLIPPED_DIRENT_SIZE then Done (w, Ret (err EINVAL)) else
  if negb (in_fd_range fd) then Done (w, Ret (err EBADF)) else
  match w_fds w !! (c, fd) with
  | Some (FFile i pos flags) =>
      do x <- get_ino w i;
      match i_kind x with
      | KDir =>
          let es := drop (Z.to_nat pos) (map_to_list (i_dict x)) in
          let '(l, n) := dents_fit es 0 bufsize in
          let pos' := Z.min (pos + Z.of_nat (length l)) (Z.of_nat (size (i_dict x))) in
          Done (put_fd c fd (FFile i pos' flags) w, RetDents (to_i32 n) l)
      | _ => Done (w, Ret (err ENOTDIR))
      end
  | Some _ => Done (w, Ret (err ESPIPE))
  | None => Done (w, Ret (err EBADF))
  end.

(** ** pipe2, epoll_create *)

(** fs_calls.rs 5339-5379. On ENFILE for the second descriptor the first one
    stays open. When neither descriptor is found the pipe object is dropped.
    [pipefd] entries not filled are reported as -1 here. *)
Definition pipe2_syscall (w : world) (c flags : Z) : outcome (world * out) :=
  let fl := Z.land flags (Z.lor O_CLOEXEC O_NONBLOCK) in
  let pid := w_npipe w in
  let w0 := with_npipe (pid + 1) (with_pipes (insert pid (Pipe [] 1 1)) w) in
  match next_fd w0 c 0 with
  | None => Done (w, RetFds (err ENFILE) (-1) (-1))
  | Some a =>
      let w1 := put_fd c a (FPipe pid (Z.lor O_RDONLY fl)) w0 in
      match next_fd w1 c 0 with
      | None => Done (w1, RetFds (err ENFILE) a (-1))
      | Some b => Done (put_fd c b (FPipe pid (Z.lor O_WRONLY fl)) w1, RetFds 0 a b)
      end
  end.

(** net_calls.rs 4620-4700: [epoll_create] with [size > 0] installs an epoll
    descriptor with flags 0 *)
Definition epoll_create_syscall (w : world) (c size : Z) : outcome (world * Z) :=
  if size <=? 0 then Done (w, err EINVAL) else
  match next_fd w c 0 with
  | None => Done (w, err ENFILE)
  | Some fd => Done (put_fd c fd (FEpoll 0) w, fd)
  end.

(** ** Processes *)

(** cage.rs 199-233 *)
Definition init_fdtable (c : Z) (m : gmap (Z * Z) fdesc) : gmap (Z * Z) fdesc :=
  <[(c, 0) := FStream 0 O_RDONLY]> (<[(c, 1) := FStream 1 O_WRONLY]>
    (<[(c, 2) := FStream 2 O_WRONLY]> m)).

Definition all_fds : list Z := seqZ 0 MAXFD.

(** sys_calls.rs 186-263: one descriptor is referenced again and copied *)
Definition fork_fd (ptab : gmap (Z * Z) fdesc) (c child : Z) (o : outcome world) (fd : Z) : outcome world :=
  do w <- o;
  match ptab !! (c, fd) with
  | None => Done w
  | Some d =>
      do w1 <- (match d with
                | FFile i _ _ => do x <- get_ino w i; Done (put_ino i (set_ref (i_ref x + 1) x) w)
                | FPipe pid flags => do p <- get_pipe w pid; Done (with_pipes (insert pid (pipe_incr flags p)) w)
                | _ => Done w
                end);
      Done (put_fd child fd d w1)
  end.

Definition MAXCAGE : Z := 1024.

(** sys_calls.rs 112-410, the file system part. [cagetable_insert] replaces an
    existing cage with that number: its descriptors vanish without being
    closed. *)
Definition fork_syscall (w : world) (c : Z) (cwd : list string) (child : Z) : outcome (world * Z) :=
  (* descriptors of a replaced cage disappear with it *)
  let w0 := with_fds (fun m => init_fdtable child (filter (fun kd => kd.1.1 <> child) m)) w in
  do w1 <- fold_left (fork_fd (w_fds w) c child) all_fds (Done w0);
  do io <- metawalk (w_ino w1) cwd;
  match io with
  | None => Panic
  | Some i =>
      do x <- get_ino w1 i;
      match i_kind x with
      | KDir =>
          if (child <? 0) || (MAXCAGE <=? child) then Panic else
          Done (with_cwd (insert child cwd) (put_ino i (set_ref (i_ref x + 1) x) w1), 0)
      | _ => Panic
      end
  end.

(** One [close_syscall] in a loop; its result is ignored *)
Definition close_fd_in (c : Z) (o : outcome world) (fd : Z) : outcome world :=
  do w <- o; do r <- close_syscall w c fd; Done (fst r).

(** The table object of the old cage becomes that of the new one
    (sys_calls.rs 491), slot by slot in this flat representation *)
Definition move_fd (c child : Z) (m : gmap (Z * Z) fdesc) (fd : Z) : gmap (Z * Z) fdesc :=
  match m !! (c, fd) with
  | Some d => <[(child, fd) := d]> (delete (c, fd) m)
  | None => m
  end.

(** sys_calls.rs 440-531, the file system part: close-on-exec descriptors are
    closed, the rest moves to the new cage *)
Definition exec_syscall (w : world) (c : Z) (cwd : list string) (child : Z) : outcome (world * Z) :=
  let cl := List.filter (fun fd => match w_fds w !! (c, fd) with
                                   | Some d => hasbit (fd_flags d) O_CLOEXEC
                                   | None => false end) all_fds in
  do w1 <- fold_left (close_fd_in c) cl (Done w);
  if (child <? 0) || (MAXCAGE <=? child) then Panic else
  let moved := if child =? c then w_fds w1 else
    fold_left (move_fd c child) all_fds (filter (fun kd => kd.1.1 <> child) (w_fds w1)) in
  Done (with_cwd (fun m => insert child cwd (delete c m)) (with_fds (fun _ => moved) w1), 0).

(** sys_calls.rs 563-591, the file system part; the reference that [fork]
    took on the working directory is not returned *)
Definition exit_syscall (w : world) (c status : Z) : outcome (world * Z) :=
  do w1 <- fold_left (close_fd_in c) all_fds (Done w);
  Done (with_cwd (delete c) (with_fds (filter (fun kd => kd.1.1 <> c)) w1), status).

(** ** One step *)

Inductive op :=
| Open (path : string) (flags mode : Z)
| Creat (path : string) (mode : Z)
| Mkdir (path : string) (mode : Z)
| Mknod (path : string) (mode dev : Z)
| Link (oldp newp : string)
| Unlink (path : string)
| Rmdir (path : string)
| Rename (oldp newp : string)
| Chmod (path : string) (mode : Z)
| Fchmod (fd mode : Z)
| Truncate (path : string) (len : Z)
| Ftruncate (fd len : Z)
| Stat (path : string)
| Fstat (fd : Z)
| Access (path : string) (amode : Z)
| Read (fd n : Z)
| Pread (fd n off : Z)
| Write (fd : Z) (bs : list Z)
| Pwrite (fd : Z) (bs : list Z) (off : Z)
| Writev (fd : Z) (iov : list (list Z))
| Lseek (fd off whence : Z)
| Fsync (fd : Z)
| Close (fd : Z)
| Dup (fd : Z)
| Dup2 (oldfd newfd : Z)
| Fcntl (fd cmd arg : Z)
| Chdir (path : string)
| Fchdir (fd : Z)
| Getcwd (bufsize : Z)
| Getdents (fd bufsize : Z)
| Pipe2 (flags : Z)
| EpollCreate (size : Z)
| Fork (child : Z)
| Exec (child : Z)
| Exit (status : Z).

Definition ret (o : outcome (world * Z)) : outcome (world * out) :=
  do r <- o; Done (fst r, Ret (snd r)).
Definition same (w : world) (o : outcome out) : outcome (world * out) :=
  do r <- o; Done (w, r).

(** The dispatcher looks the cage up with [cagetable_getref], which aborts for
    a cage that does not exist (misc.rs 88-91, dispatcher.rs 211-230). *)
Definition step (w : world) (c : Z) (o : op) : outcome (world * out) :=
  match w_cwd w !! c with
  | None => Panic
  | Some cwd =>
      match o with
      | Open p fl m => ret (open_syscall w c cwd p fl m)
      | Creat p m => ret (creat_syscall w c cwd p m)
      | Mkdir p m => ret (mkdir_syscall w cwd p m)
      | Mknod p m d => ret (mknod_syscall w cwd p m d)
      | Link a b => ret (link_syscall w cwd a b)
      | Unlink p => ret (unlink_syscall w cwd p)
      | Rmdir p => ret (rmdir_syscall w cwd p)
      | Rename a b => ret (rename_syscall w cwd a b)
      | Chmod p m => ret (chmod_syscall w cwd p m)
      | Fchmod fd m => ret (fchmod_syscall w c fd m)
      | Truncate p n => ret (truncate_syscall w cwd p n)
      | Ftruncate fd n => ret (ftruncate_syscall w c fd n)
      | Stat p => same w (stat_syscall w cwd p)
      | Fstat fd => same w (fstat_syscall w c fd)
      | Access p m => ret (do r <- access_syscall w cwd p m; Done (w, r))
      | Read fd n => read_syscall w c fd n
      | Pread fd n off => same w (pread_syscall w c fd n off)
      | Write fd bs => write_syscall w c fd bs
      | Pwrite fd bs off => pwrite_syscall w c fd bs off
      | Writev fd iov => writev_syscall w c fd iov
      | Lseek fd off wh => ret (lseek_syscall w c fd off wh)
      | Fsync fd => ret (do r <- fsync_syscall w c fd; Done (w, r))
      | Close fd => ret (close_syscall w c fd)
      | Dup fd => ret (dup_syscall w c fd)
      | Dup2 a b => ret (dup2_syscall w c a b)
      | Fcntl fd cmd arg => ret (fcntl_syscall w c fd cmd arg)
      | Chdir p => ret (chdir_syscall w c cwd p)
      | Fchdir fd => fchdir_syscall w c fd cwd
      | Getcwd n => Done (w, getcwd_syscall cwd n)
      | Getdents fd n => getdents_syscall w c fd n
      | Pipe2 fl => pipe2_syscall w c fl
      | EpollCreate n => ret (epoll_create_syscall w c n)
      | Fork ch => ret (fork_syscall w c cwd ch)
      | Exec ch => ret (exec_syscall w c cwd ch)
      | Exit st => ret (exit_syscall w c st)
      end
  end.

(** A history: calls in the order in which they happen, with their results. *)
Fixpoint run (w : world) (h : list (Z * op)) : option (world * list out) :=
  match h with
  | [] => Some (w, [])
  | (c, o) :: r =>
      match step w c o with
      | Panic => None
      | Done (w1, x) =>
          match run w1 r with
          | None => None
          | Some (w2, xs) => Some (w2, x :: xs)
          end
      end
  end.
