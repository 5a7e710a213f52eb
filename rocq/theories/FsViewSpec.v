(** What the file system is for its users: a map from paths to objects, the
    objects, and for each process a working directory and a table of
    descriptors; and pipes, which hold bytes. This file is a complete
    specification of the calls on files, directories, devices, pipes,
    descriptors and processes in these terms: there are no inode tables,
    directory dictionaries, reference counts, counts of readers and writers,
    open-file tables, host files or logs, and objects are never reclaimed (an
    object that nothing leads to cannot be seen). *)
From Verif Require Import Base CodecModel PathModel PathSpec FsModel FsSpec FsNameSpec.
From Coq Require Import Ascii.
Local Open Scope list_scope.
Local Open Scope Z_scope.

(** ** State *)

Inductive akind := ADir | AFile (bs : list Z) | ADev (major minor : Z).
Record aobj := AObj { o_kind : akind; o_mode : Z; o_link : Z }.

(** A descriptor: an object with a position, one of the three standard
    streams, an end of a pipe (the flags say which), or an epoll object; all
    with flags. *)
Inductive ades := DFile (i pos flags : Z) | DStream (s flags : Z) | DPipe (k flags : Z) | DEpoll (flags : Z).
Record aproc := AProc { q_cwd : list string; q_tab : gmap Z ades }.

Record view := View {
  vw_at : gmap (list string) Z;   (* the names on the way from the root |-> object *)
  vw_obj : gmap Z aobj;
  vw_next : Z;                    (* the number the next new object gets *)
  vw_proc : gmap Z aproc;
  vw_pipe : gmap Z (list Z)       (* the bytes in each pipe; pipes are numbered from 0 *)
}.

Definition with_at (f : gmap (list string) Z -> gmap (list string) Z) (a : view) : view :=
  View (f (vw_at a)) (vw_obj a) (vw_next a) (vw_proc a) (vw_pipe a).
Definition with_obj (f : gmap Z aobj -> gmap Z aobj) (a : view) : view :=
  View (vw_at a) (f (vw_obj a)) (vw_next a) (vw_proc a) (vw_pipe a).
Definition with_proc (f : gmap Z aproc -> gmap Z aproc) (a : view) : view :=
  View (vw_at a) (vw_obj a) (vw_next a) (f (vw_proc a)) (vw_pipe a).
Definition with_pipe (f : gmap Z (list Z) -> gmap Z (list Z)) (a : view) : view :=
  View (vw_at a) (vw_obj a) (vw_next a) (vw_proc a) (f (vw_pipe a)).

(** ** Paths *)

(** The pieces between the slashes *)
Fixpoint cut (s : string) : list string :=
  match s with
  | EmptyString => [""]
  | String ch r =>
      if Ascii.eqb ch "/" then "" :: cut r
      else match cut r with [] => [String ch ""] | x :: xs => String ch x :: xs end
  end.
Definition go (st : list string) (x : string) : list string :=
  if String.eqb x "" || String.eqb x "." then st
  else if String.eqb x ".." then removelast st else st ++ [x].
(** The names a path string stands for *)
Definition where_is (cwd : list string) (p : string) : list string :=
  fold_left go (cut p) (match p with String ch _ => if Ascii.eqb ch "/" then [] else cwd | _ => cwd end).

(** ** Objects *)

Definition kind_of (a : view) (i : Z) : option akind := o_kind <$> vw_obj a !! i.
Definition is_adir (a : view) (i : Z) : bool := match kind_of a i with Some ADir => true | _ => false end.
(** Some write permission bit is set *)
Definition may_write (a : view) (i : Z) : bool :=
  match vw_obj a !! i with Some o => negb (Z.land (o_mode o) 146 =? 0) | None => false end.
(** The directory in which [q] is, or would be, a name *)
Definition up_dir (a : view) (q : list string) : option Z :=
  match q with
  | [] => None
  | _ => match vw_at a !! removelast q with
         | Some d => if is_adir a d then Some d else None
         | None => None
         end
  end.
(** Nothing is directly below [q] *)
Definition none_below (a : view) (q : list string) : bool :=
  bool_decide (map_Forall (fun p (_ : Z) => p = [] \/ removelast p <> q) (vw_at a)).

(** The path of a directory: it has only one *)
Definition path_of (a : view) (i : Z) : option (list string) :=
  fst <$> List.find (fun qj : list string * Z => qj.2 =? i) (map_to_list (vw_at a)).
(** What a directory at [p] contains: the names directly below it, and "." and
    ".." (of the root, the root) *)
Definition name_below (p : list string) (qj : list string * Z) : option (string * Z) :=
  match last qj.1 with
  | Some f => if decide (removelast qj.1 = p) then Some (f, qj.2) else None
  | None => None
  end.
Definition listing (a : view) (p : list string) (i : Z) : gmap string Z :=
  <["." := i]> (<[".." := default 0 (vw_at a !! removelast p)]> (list_to_map (omap (name_below p) (map_to_list (vw_at a))))).
(** The length of the directory record of a name, and those of [es] that fit
    into [n] bytes, with their length *)
Definition record_len (f : string) : Z := (18 + Z.of_nat (String.length f) + 2 + 7) / 8 * 8.
Fixpoint records (es : list (string * Z)) (used n : Z) : list (string * Z) * Z :=
  match es with
  | [] => ([], used)
  | e :: r =>
      if n <? used + record_len (fst e) then ([], used)
      else let '(l, k) := records r (used + record_len (fst e)) n in (e :: l, k)
  end.

Definition more_links (k : Z) (o : aobj) : aobj := AObj (o_kind o) (o_mode o) (o_link o + k).
Definition new_mode (m : Z) (o : aobj) : aobj := AObj (o_kind o) (Z.lor (Z.ldiff (o_mode o) 511) m) (o_link o).
Definition new_bytes (f : list Z -> list Z) (o : aobj) : aobj :=
  match o_kind o with AFile l => AObj (AFile (f l)) (o_mode o) (o_link o) | _ => o end.

(** A new object at [q], a name in directory [d]; a directory counts a link
    for each of its names *)
Definition create (q : list string) (d : Z) (o : aobj) (a : view) : view :=
  View (<[q := vw_next a]> (vw_at a)) (<[vw_next a := o]> (alter (more_links 1) d (vw_obj a))) (vw_next a + 1) (vw_proc a) (vw_pipe a).

(** What is at and below [b] after a rename from [b] to [n], two names in the
    same directory of which [n] is free *)
Definition moved (b n p : list string) : list string :=
  if decide (b `prefix_of` p) then n ++ drop (length b) p
  else if decide (n `prefix_of` p) then b ++ drop (length n) p else p.

(** [bs] put at [off]; a gap is filled with zeros *)
Definition patch (off : Z) (bs l : list Z) : list Z :=
  take (Z.to_nat off) (l ++ replicate (Z.to_nat off - length l) 0) ++ bs ++ drop (Z.to_nat off + length bs) l.
(** cut off or extended with zeros *)
Definition resize (n : Z) (l : list Z) : list Z := take (Z.to_nat n) (l ++ replicate (Z.to_nat n - length l) 0).
Definition zlen {A} (l : list A) : Z := Z.of_nat (length l).

(** Only permission and type bits *)
Definition good_mode (m : Z) : bool := Z.land m (Z.lor 511 61440) =? m.

(** Devices: null (1,3), zero (1,5), random (1,8), urandom (1,9); the bytes of
    the last two are not specified. *)
Definition dev_read (maj mn n : Z) : out :=
  if maj =? 1 then
    if mn =? 3 then RetData 0 []
    else if mn =? 5 then RetData (to_i32 n) (replicate (Z.to_nat n) 0)
    else if (mn =? 8) || (mn =? 9) then RetData (to_i32 n) []
    else Ret (err EOPNOTSUPP)
  else Ret (err EOPNOTSUPP).
Definition dev_write (maj mn n : Z) : Z :=
  if (maj =? 1) && ((mn =? 3) || (mn =? 5) || (mn =? 8) || (mn =? 9)) then to_i32 n else err EOPNOTSUPP.

(** ** Descriptors *)

Definition lowest (t : gmap Z ades) (start : Z) : option Z :=
  find (fun fd => match t !! fd with None => true | Some _ => false end) (seqZ start (1024 - start)).
(** Process [c] has the table [f t] instead of [t] *)
Definition retab (c : Z) (f : gmap Z ades -> gmap Z ades) (a : view) : view :=
  with_proc (alter (fun pr => AProc (q_cwd pr) (f (q_tab pr))) c) a.
Definition give (c fd : Z) (d : ades) : view -> view := retab c (insert fd d).

Definition des_flags (d : ades) : Z := match d with DFile _ _ fl | DStream _ fl | DPipe _ fl | DEpoll fl => fl end.
Definition reflag (fl : Z) (d : ades) : ades :=
  match d with DFile i p _ => DFile i p fl | DStream s _ => DStream s fl | DPipe k _ => DPipe k fl | DEpoll _ => DEpoll fl end.
Definition no_cloexec (d : ades) : ades := reflag (Z.ldiff (des_flags d) O_CLOEXEC) d.
Definition write_only (fl : Z) : bool := Z.land fl 3 =? 1.
Definition read_only (fl : Z) : bool := Z.land fl 3 =? 0.

(** ** Pipes *)

(** Some process has an end of pipe [k] with flags as in [f] *)
Definition has_end (f : Z -> bool) (a : view) (k : Z) : bool :=
  existsb (fun cp : Z * aproc =>
    existsb (fun e : Z * ades => match e.2 with DPipe k' fl => (k' =? k) && f fl | _ => false end) (map_to_list (q_tab cp.2)))
    (map_to_list (vw_proc a)).

(** Up to [n] of the bytes [l] in a pipe are taken: what stays, and the answer *)
Definition take_out (l : list Z) (n : Z) (writer nonblock : bool) : list Z * out :=
  if n =? 0 then (l, RetData 0 [])
  else match l with
  | [] => ([], if negb writer then RetData 0 [] else if nonblock then Ret (err EAGAIN) else Blocked 0)
  | _ => let k := Z.min n (zlen l) in (drop (Z.to_nat k) l, RetData (to_i32 k) (take (Z.to_nat k) l))
  end.

(** [bs] are put into a pipe that holds [l]: what it holds then, and the
    answer. A pipe holds 65536 bytes; with less than 4096 free, nothing is
    written. A blocking write that does not fit writes what fits and waits. *)
Definition put_in (l bs : list Z) (reader nonblock : bool) : list Z * out :=
  let n := zlen bs in
  let room := 65536 - zlen l in
  if n =? 0 then (l, Ret 0)
  else if negb reader then (l, Ret (err EPIPE))
  else if room <? 4096 then (l, if nonblock then Ret (err EAGAIN) else Blocked 0)
  else if n <=? room then (l ++ bs, Ret (to_i32 n))
  else (l ++ take (Z.to_nat room) bs, if nonblock then Ret (to_i32 room) else Blocked room).

(** One after the other, until one does not succeed *)
Fixpoint put_all (l : list Z) (iov : list (list Z)) (reader nonblock : bool) (total : Z) : list Z * out :=
  match iov with
  | [] => (l, Ret (to_i32 total))
  | bs :: rest =>
      match put_in l bs reader nonblock with
      | (l', Ret r) =>
          if 0 <? r then put_all l' rest reader nonblock (total + r)
          else if r =? err EPIPE then (l', Ret (err EPIPE))
          else if r =? err EAGAIN then (l', Ret (if total =? 0 then err EAGAIN else to_i32 total))
          else put_all l' rest reader nonblock total
      | (l', Blocked k) => (l', Blocked (total + k))
      | (l', o) => (l', o)
      end
  end.

Definition std_tab : gmap Z ades := <[0 := DStream 0 O_RDONLY]> (<[1 := DStream 1 O_WRONLY]> (<[2 := DStream 2 O_WRONLY]> ∅)).

(** ** The calls *)

Definition no (a : view) (e : Z) : view * out := (a, Ret (err e)).
Definition yes (a : view) (r : Z) : view * out := (a, Ret r).

Definition aopen (a : view) (c : Z) (pr : aproc) (p : string) (fl m : Z) : view * out :=
  let q := where_is (q_cwd pr) p in
  if String.eqb p "" then no a ENOENT else
  match lowest (q_tab pr) 0 with
  | None => no a ENFILE
  | Some fd =>
      let keep := Z.land fl (Z.lor 3 O_CLOEXEC) in
      match vw_at a !! q, up_dir a q with
      | Some i, _ =>
          if Z.land fl 192 =? 192 then no a EEXIST else     (* O_CREAT and O_EXCL *)
          let a1 := if Z.land fl 512 =? 512 then with_obj (alter (new_bytes (fun _ => [])) i) a else a in
          let e := match kind_of a1 i with Some (AFile l) => zlen l | _ => 0 end in
          yes (give c fd (DFile i (if hasbit fl O_APPEND then e else 0) keep) a1) fd
      | None, None => no a ENOENT
      | None, Some d =>
          if negb (hasbit fl O_CREAT) then no a ENOENT
          else if Z.land S_IFCHR fl =? S_IFCHR then no a EINVAL
          else if negb (good_mode m) then no a EPERM
          else yes (give c fd (DFile (vw_next a) 0 keep) (create q d (AObj (AFile []) (Z.lor S_IFREG m) 1) a)) fd
      end
  end.

Definition amkdir (a : view) (q : list string) (m : Z) : view * out :=
  match vw_at a !! q, up_dir a q with
  | Some _, _ => no a EEXIST
  | None, None => no a ENOENT
  | None, Some d =>
      if negb (good_mode m) then no a EPERM else yes (create q d (AObj ADir (Z.lor S_IFDIR m) 3) a) 0
  end.

Definition amknod (a : view) (q : list string) (m dev : Z) : view * out :=
  match vw_at a !! q, up_dir a q with
  | Some _, _ => no a EEXIST
  | None, None => no a ENOENT
  | None, Some d =>
      if negb (good_mode m) then no a EPERM
      else if Z.land m S_IFCHR =? 0 then no a EINVAL
      else yes (create q d (AObj (ADev (fst (devtuple dev)) (snd (devtuple dev))) m 1) a) 0
  end.

Definition alink (a : view) (o n : list string) : view * out :=
  match vw_at a !! o with
  | None => no a ENOENT
  | Some i =>
      if is_adir a i then no a EPERM else
      match vw_at a !! n, up_dir a n with
      | Some _, _ => no a EEXIST
      | None, None => no a ENOENT
      | None, Some d => yes (with_at (insert n i) (with_obj (alter (more_links 1) d) (with_obj (alter (more_links 1) i) a))) 0
      end
  end.

Definition aunlink (a : view) (q : list string) : view * out :=
  match vw_at a !! q with
  | None => no a ENOENT
  | Some i =>
      if is_adir a i then no a EISDIR else
      match up_dir a q with
      | None => no a ENOENT
      | Some d => yes (with_at (delete q) (with_obj (alter (more_links (-1)) d) (with_obj (alter (more_links (-1)) i) a))) 0
      end
  end.

Definition armdir (a : view) (q : list string) : view * out :=
  match vw_at a !! q, up_dir a q with
  | None, _ => no a ENOENT
  | Some _, None => no a EBUSY                                (* the root *)
  | Some i, Some d =>
      if negb (may_write a d) then no a EPERM
      else if negb (is_adir a i) then no a ENOTDIR
      else if negb (none_below a q) then no a ENOTEMPTY
      else if negb (may_write a i) then no a EPERM
      else yes (with_at (delete q) (with_obj (alter (more_links (-1)) d) a)) 0
  end.

(** Only within one directory *)
Definition arename (a : view) (o n : list string) : view * out :=
  match vw_at a !! o, up_dir a o with
  | None, _ => no a EEXIST
  | Some _, None => no a EBUSY
  | Some _, Some d =>
      if bool_decide (up_dir a n = Some d) then yes (with_at (kmap (moved o n)) a) 0 else no a EOPNOTSUPP
  end.

Definition achmod (a : view) (i m : Z) : view * out :=
  if Z.land m 511 =? m then yes (with_obj (alter (new_mode m) i) a) 0 else no a EINVAL.

Definition atrunc (a : view) (i n : Z) : view * out :=
  if n <? 0 then no a EINVAL else
  match kind_of a i with
  | Some (AFile _) => yes (with_obj (alter (new_bytes (resize n)) i) a) 0
  | Some ADir => no a EISDIR
  | _ => no a EINVAL
  end.

Definition astat (a : view) (i : Z) : view * out :=
  match vw_obj a !! i with
  | None => no a ENOENT
  | Some o =>
      (a, RetStat i (o_mode o) (o_link o)
            (match o_kind o with AFile l => zlen l | _ => 0 end)
            (match o_kind o with ADev x y => makedev x y | _ => 0 end))
  end.

(** The owner's permission bits *)
Definition aaccess (a : view) (i w : Z) : view * out :=
  match vw_obj a !! i with
  | None => no a ENOENT
  | Some o =>
      if (Z.testbit w 2 && negb (Z.testbit (o_mode o) 8)) || (Z.testbit w 1 && negb (Z.testbit (o_mode o) 7))
         || (Z.testbit w 0 && negb (Z.testbit (o_mode o) 6)) then no a EACCES else yes a 0
  end.

(** Reading [n] bytes at [off]; [after k]: the view when [k] bytes were read *)
Definition aread (a : view) (i off n : Z) (after : Z -> view) : view * out :=
  match kind_of a i with
  | Some (AFile l) =>
      let bs := take (Z.to_nat n) (drop (Z.to_nat off) l) in (after (zlen bs), RetData (to_i32 (zlen bs)) bs)
  | Some (ADev x y) => (a, dev_read x y n)
  | _ => no a EISDIR
  end.

Definition awrite (a : view) (i off : Z) (bs : list Z) (after : view -> view) : view * out :=
  match kind_of a i with
  | Some (AFile _) => yes (after (with_obj (alter (new_bytes (patch off bs)) i) a)) (to_i32 (zlen bs))
  | Some (ADev x y) => yes a (dev_write x y (zlen bs))
  | _ => no a EISDIR
  end.

Definition aseek (a : view) (c fd i pos fl off wh : Z) : view * out :=
  match kind_of a i with
  | Some (AFile l) =>
      match (if wh =? SEEK_SET then Some off else if wh =? SEEK_CUR then Some (pos + off)
             else if wh =? SEEK_END then Some (zlen l + off) else None) with
      | None => no a EINVAL
      | Some e => if e <? 0 then no a EINVAL else yes (give c fd (DFile i e fl) a) (to_i32 e)
      end
  | Some ADir =>                                            (* entries are counted *)
      match path_of a i with
      | None => (a, Blocked 0)
      | Some p =>
          let n := Z.of_nat (size (listing a p i)) in
          match (if wh =? SEEK_SET then Some off else if wh =? SEEK_CUR then Some (pos + off)
                 else if wh =? SEEK_END then Some (n + off) else None) with
          | None => no a EINVAL
          | Some e => if (e <? 0) || (n <? e) then no a EINVAL else yes (give c fd (DFile i e fl) a) (to_i32 e)
          end
      end
  | _ => yes a 0
  end.

(** The next entries of a directory, as many as fit into [n] bytes *)
Definition agetdents (a : view) (c fd i pos fl n : Z) : view * out :=
  if is_adir a i then
    match path_of a i with
    | None => (a, Blocked 0)
    | Some p =>
        let m := listing a p i in
        let '(l, k) := records (drop (Z.to_nat pos) (map_to_list m)) 0 n in
        (give c fd (DFile i (Z.min (pos + zlen l) (Z.of_nat (size m))) fl) a, RetDents (to_i32 k) l)
    end
  else no a ENOTDIR.

(** The working directory becomes that of a descriptor; with the root, the call
    waits for itself *)
Definition afchdir (a : view) (c : Z) (pr : aproc) (i : Z) : view * out :=
  if is_adir a i then
    match path_of a i with
    | None | Some [] => (a, Blocked 0)
    | Some p => yes (with_proc (insert c (AProc p (q_tab pr))) a) 0
    end
  else no a ENOTDIR.

(** The two ends of a new pipe at the lowest free numbers *)
Definition apipe (a : view) (c : Z) (pr : aproc) (fl : Z) : view * out :=
  let keep := Z.land fl (Z.lor O_CLOEXEC O_NONBLOCK) in
  let k := Z.of_nat (size (vw_pipe a)) in
  match lowest (q_tab pr) 0 with
  | None => (a, RetFds (err ENFILE) (-1) (-1))
  | Some x =>
      let t := <[x := DPipe k (Z.lor O_RDONLY keep)]> (q_tab pr) in
      match lowest t 0 with
      | None => (a, Blocked 0)
      | Some y => (give c y (DPipe k (Z.lor O_WRONLY keep)) (give c x (DPipe k (Z.lor O_RDONLY keep)) (with_pipe (insert k []) a)), RetFds 0 x y)
      end
  end.

(** A copy of the descriptor [d] at the lowest free number from [start]; epoll
    objects have only one descriptor in a process *)
Definition adup (a : view) (c : Z) (pr : aproc) (d : ades) (start : Z) : view * out :=
  match lowest (q_tab pr) start with
  | None => no a ENFILE
  | Some n => match d with DEpoll _ => no a EACCES | _ => yes (give c n (no_cloexec d) a) n end
  end.

Definition afcntl (a : view) (c : Z) (pr : aproc) (fd cmd arg : Z) (d : ades) : view * out :=
  let fl := des_flags d in
  if cmd =? F_GETFD then yes a (Z.land fl O_CLOEXEC)
  else if (cmd =? F_SETFD) && (0 <=? arg) then
    yes (give c fd (reflag (if hasbit arg O_CLOEXEC then Z.lor fl O_CLOEXEC else Z.ldiff fl O_CLOEXEC) d) a) 0
  else if cmd =? F_GETFL then yes a (Z.ldiff fl creation_flags)
  else if (cmd =? F_SETFL) && (0 <=? arg) then
    let keep := Z.lor O_RDWRFLAGS creation_flags in
    yes (give c fd (reflag (Z.lor (Z.ldiff arg keep) (Z.land fl keep)) d) a) 0
  else if (cmd =? F_DUPFD) && (0 <=? arg) then adup a c pr d arg
  else if cmd =? F_GETOWN then yes a 0
  else if (cmd =? F_SETOWN) && (0 <=? arg) then yes a 0
  else no a EINVAL.

(** The call on the object at a path, or ENOENT *)
Definition at_path (a : view) (q : list string) (k : Z -> view * out) : view * out :=
  match vw_at a !! q with Some i => k i | None => no a ENOENT end.
(** The call on a descriptor, or EBADF *)
Definition on_fd (a : view) (pr : aproc) (fd : Z) (k : ades -> view * out) : view * out :=
  match q_tab pr !! fd with Some d => k d | None => no a EBADF end.

Definition aexec (a : view) (c : Z) (o : op) : view * out :=
  match vw_proc a !! c with
  | None => (a, Blocked 0)
  | Some pr =>
      let at' p := where_is (q_cwd pr) p in
      match o with
      | Open p fl m => aopen a c pr p fl m
      | Creat p m => aopen a c pr p (Z.lor (Z.lor O_CREAT O_TRUNC) O_WRONLY) m
      | Mkdir p m => if String.eqb p "" then no a ENOENT else amkdir a (at' p) m
      | Mknod p m d => if String.eqb p "" then no a ENOENT else amknod a (at' p) m d
      | Link x y => if String.eqb x "" || String.eqb y "" then no a ENOENT else alink a (at' x) (at' y)
      | Unlink p => if String.eqb p "" then no a ENOENT else aunlink a (at' p)
      | Rmdir p => if String.eqb p "" then no a ENOENT else armdir a (at' p)
      | Rename x y => if String.eqb x "" || String.eqb y "" then no a ENOENT else arename a (at' x) (at' y)
      | Chmod p m => at_path a (at' p) (fun i => achmod a i m)
      | Truncate p n => at_path a (at' p) (fun i => atrunc a i n)
      | Stat p => at_path a (at' p) (astat a)
      | Access p w => at_path a (at' p) (fun i => aaccess a i w)
      | Chdir p =>
          at_path a (at' p) (fun i =>
            if is_adir a i then yes (with_proc (insert c (AProc (at' p) (q_tab pr))) a) 0 else no a ENOTDIR)
      | Getcwd n =>
          if n =? 0 then no a EINVAL
          else if n <? Z.of_nat (String.length (render (q_cwd pr))) + 1 then no a ERANGE
          else (a, RetPath (render (q_cwd pr)))
      | Fchmod fd m => on_fd a pr fd (fun d => match d with DFile i _ _ => achmod a i m | _ => no a EINVAL end)
      | Ftruncate fd n =>
          on_fd a pr fd (fun d => match d with
            | DFile i _ fl => if read_only fl then no a EBADF else atrunc a i n
            | _ => no a EINVAL end)
      | Fstat fd =>
          on_fd a pr fd (fun d => match d with
            | DFile i _ _ => astat a i
            | DStream _ _ => (a, RetStat STREAMINODE 49590 1 0 0)
            | _ => (a, RetStat PIPEINODE 49590 1 0 0) end)
      | Read fd n =>
          on_fd a pr fd (fun d => match d with
            | DFile i pos fl =>
                if write_only fl then no a EBADF else aread a i pos n (fun k => give c fd (DFile i (pos + k) fl) a)
            | DPipe k fl =>
                if write_only fl then no a EBADF else
                let '(l, r) := take_out (default [] (vw_pipe a !! k)) n (has_end write_only a k) (hasbit fl O_NONBLOCK) in
                (with_pipe (insert k l) a, r)
            | DEpoll _ => no a EINVAL
            | DStream _ _ => no a EOPNOTSUPP end)
      | Pread fd n off =>
          on_fd a pr fd (fun d => match d with
            | DFile i _ fl => if write_only fl then no a EBADF else aread a i off n (fun _ => a)
            | _ => no a ESPIPE end)
      | Write fd bs =>
          on_fd a pr fd (fun d => match d with
            | DFile i pos fl => if read_only fl then no a EBADF else awrite a i pos bs (give c fd (DFile i (pos + zlen bs) fl))
            | DPipe k fl =>
                if read_only fl then no a EBADF else
                let '(l, r) := put_in (default [] (vw_pipe a !! k)) bs (has_end read_only a k) (hasbit fl O_NONBLOCK) in
                (with_pipe (insert k l) a, r)
            | DEpoll _ => no a EINVAL
            | DStream s _ => if (s =? 1) || (s =? 2) then yes a (to_i32 (zlen bs)) else no a EBADF end)
      | Writev fd iov =>
          on_fd a pr fd (fun d => match d with
            | DFile i pos fl =>
                if read_only fl then no a EBADF
                else awrite a i pos (concat iov) (give c fd (DFile i (pos + zlen (concat iov)) fl))
            | DPipe k fl =>
                if read_only fl then no a EBADF else
                let '(l, r) := put_all (default [] (vw_pipe a !! k)) iov (has_end read_only a k) (hasbit fl O_NONBLOCK) 0 in
                (with_pipe (insert k l) a, r)
            | DEpoll _ => no a EOPNOTSUPP
            | DStream _ _ => yes a (to_i32 (zlen (concat iov))) end)
      | Pwrite fd bs off =>
          on_fd a pr fd (fun d => match d with
            | DFile i _ fl => if read_only fl then no a EBADF else awrite a i off bs (fun a' => a')
            | _ => no a ESPIPE end)
      | Lseek fd off wh =>
          on_fd a pr fd (fun d => match d with DFile i pos fl => aseek a c fd i pos fl off wh | _ => no a ESPIPE end)
      | Fsync fd =>
          on_fd a pr fd (fun d => match d with
            | DFile i _ fl =>
                if read_only fl then no a EBADF
                else match kind_of a i with Some (AFile _) => yes a 0 | _ => no a EROFS end
            | _ => no a EINVAL end)
      | Close fd => on_fd a pr fd (fun _ => yes (retab c (delete fd) a) 0)
      | Dup fd => if fd =? 0 then yes a 0 else on_fd a pr fd (fun d => adup a c pr d 0)
      | Dup2 x y =>
          if (1024 <=? y) || (y <? 0) then no a EBADF else
          if y =? x then yes a y else
          on_fd a pr x (fun d => match d with DEpoll _ => no a EACCES | _ => yes (give c y (no_cloexec d) a) y end)
      | Fcntl fd cmd arg => on_fd a pr fd (afcntl a c pr fd cmd arg)
      | Fork ch => yes (with_proc (insert ch (AProc (q_cwd pr) (q_tab pr ∪ std_tab))) a) 0
      | Exec ch =>
          yes (with_proc (fun m => insert ch (AProc (q_cwd pr)
                 (filter (fun fd => hasbit (des_flags fd.2) O_CLOEXEC = false) (q_tab pr))) (delete c m)) a) 0
      | Exit st => yes (with_proc (delete c) a) st
      | Fchdir fd => on_fd a pr fd (fun d => match d with DFile i _ _ => afchdir a c pr i | _ => no a ENOTDIR end)
      | Getdents fd n =>
          if n <=? 18 then no a EINVAL else
          on_fd a pr fd (fun d => match d with DFile i pos fl => agetdents a c fd i pos fl n | _ => no a ESPIPE end)
      | Pipe2 fl => apipe a c pr fl
      | EpollCreate n =>
          if n <=? 0 then no a EINVAL else
          match lowest (q_tab pr) 0 with None => no a ENFILE | Some x => yes (give c x (DEpoll 0) a) x end
      end
  end.

(** The calls the specification covers: the process exists; a directory of
    which the call needs the entries or the path has not been removed; and the
    call is not one of those with which the code damages its own structures
    (fork and exec onto a live process, unlink in a directory that is not
    writable, rename onto an existing name, dup2 of an epoll object onto an
    open descriptor, pipe2 when one number is free). *)
Definition allowed (a : view) (c : Z) (o : op) : bool :=
  match vw_proc a !! c with
  | None => false
  | Some pr =>
      match o with
      | Fchdir fd | Getdents fd _ | Lseek fd _ _ =>
          match q_tab pr !! fd with
          | Some (DFile i _ _) => negb (is_adir a i) || match path_of a i with Some _ => true | None => false end
          | _ => true
          end
      | Dup2 x y =>
          match q_tab pr !! x with Some (DEpoll _) => (x =? y) || bool_decide (q_tab pr !! y = None) | _ => true end
      | Pipe2 _ =>
          match lowest (q_tab pr) 0 with
          | Some x => match lowest (<[x := DEpoll 0]> (q_tab pr)) 0 with Some _ => true | None => false end
          | None => true
          end
      | Fork ch => bool_decide (vw_proc a !! ch = None)
      | Exec ch => (ch =? c) || bool_decide (vw_proc a !! ch = None)
      | Unlink p => match up_dir a (where_is (q_cwd pr) p) with Some d => may_write a d | None => true end
      | Rename x y =>
          bool_decide (vw_at a !! where_is (q_cwd pr) y = None) ||
          negb (bool_decide (up_dir a (where_is (q_cwd pr) y) = up_dir a (where_is (q_cwd pr) x)))
      | _ => true
      end
  end.

(** Histories *)
Fixpoint arun (a : view) (h : list (Z * op)) : view * list out :=
  match h with
  | [] => (a, [])
  | (c, o) :: r => let '(a1, x) := aexec a c o in let '(a2, xs) := arun a1 r in (a2, x :: xs)
  end.
Fixpoint all_allowed (a : view) (h : list (Z * op)) : bool :=
  match h with
  | [] => true
  | (c, o) :: r => allowed a c o && all_allowed (fst (aexec a c o)) r
  end.

(** ** What a user finds at the first start: /, /dev with four devices, /tmp,
    and the processes 0 and 1. (Object 7 is a directory that the formatting of
    the disk makes but enters nowhere; no path leads to it.) *)
Definition boot_view : view :=
  View (list_to_map [([], 1); (["dev"], 2); (["dev"; "null"], 3); (["dev"; "zero"], 4); (["dev"; "urandom"], 5); (["dev"; "random"], 6); (["tmp"], 8)])
       (list_to_map [(1, AObj ADir 16877 5); (2, AObj ADir 16877 7); (3, AObj (ADev 1 3) 8630 1); (4, AObj (ADev 1 5) 8630 1);
                     (5, AObj (ADev 1 9) 8630 1); (6, AObj (ADev 1 8) 8630 1); (7, AObj ADir 16877 7); (8, AObj ADir 16895 3)])
       9 (list_to_map [(0, AProc [] std_tab); (1, AProc [] std_tab)]) ∅.

(** ** What it means that the view [a] shows the world [w] *)

Definition seen_des (d : ades) : fdesc :=
  match d with DFile i p fl => FFile i p fl | DStream s fl => FStream s fl | DPipe k fl => FPipe k fl | DEpoll fl => FEpoll fl end.
Definition seen_obj (x : inode) (bs : option (list Z)) : aobj :=
  AObj (match i_kind x with KFile => AFile (default [] bs) | KDir => ADir | KChr a b => ADev a b | KSock => ADir end)
       (i_mode x) (i_link x).

Record shows (w : world) (a : view) : Prop := {
  sh_at p i : vw_at a !! p = Some i <-> canonical p /\ resolves (w_ino w) p i;
  sh_obj i x : w_ino w !! i = Some x -> vw_obj a !! i = Some (seen_obj x (bytes w i));
  sh_size i x : w_ino w !! i = Some x -> i_kind x <> KFile -> i_size x = 0;
  sh_next : vw_next a = w_next w;
  sh_cwd c : w_cwd w !! c = q_cwd <$> vw_proc a !! c;
  sh_fd c fd : w_fds w !! (c, fd) = seen_des <$> (vw_proc a !! c ≫= fun pr => q_tab pr !! fd);
  sh_pipe k : vw_pipe a !! k = p_buf <$> w_pipes w !! k
}.
