(** Several processes working on the names of the file system at the same
    time (small-step; [FsModel] takes one call at a time).

    The table of objects is FS_METADATA.inodetable, a concurrent map: one
    object can be read or changed under its lock, but no lock is kept between
    the walk along a path and what follows, nor between the changes to the
    object, to its directory and to the table.  A walk keeps the directory it
    is in locked (shared) until it has fetched the next one
    (filesystem.rs 531-588), so nobody changes that directory meanwhile.

    Each process is one thread that makes the calls of its program in turn.

    Simplifications.  Paths are normalised already ([PathModel]).  Only the
    table of objects and the counter of numbers are kept: the data files, the
    log, FILEOBJECTTABLE and the times are left out.  The numbers of
    descriptors count up and are not used again ([FdRaceModel] has the
    descriptor table).  Locks are per object; the map locks groups of objects ([FsShard]);
    a process that waits for a lock simply does not move. *)
From stdpp Require Import gmap.
From Verif Require Import Base CodecModel PathModel FsModel.
Local Open Scope list_scope.
Local Open Scope Z_scope.

(** The calls *)
Inductive rop :=
  | RStat (p : list string)
  | RChmod (p : list string) (mode : Z)
  | ROpen (p : list string) (flags mode : Z)
  | RMkdir (p : list string) (mode : Z)
  | RMknod (p : list string) (mode dev : Z)
  | RLink (a b : list string)
  | RUnlink (p : list string)
  | RRmdir (p : list string)
  | RRename (a b : list string)
  | RClose (k : nat).                 (* the [k]-th file this process opened *)

(** link and rename walk twice; the second walk remembers what the first found. *)
Inductive kont := First | Second (i par : Z).

(** What a process is about to do.  [Walk o k cur has prev rest]: inside
    metawalkandparent; [cur] is [inodeno], [has] says that [curnode] is there,
    [prev] is [previnodeno]. *)
Inductive rpc :=
  | Idle
  | Root (o : rop) (k : kont)
  | Walk (o : rop) (k : kont) (cur : option Z) (has : bool) (prev : option Z) (rest : list string)
  | Look (i : Z)                                  (* stat: read the object *)
  | Mode (i mode : Z)                             (* chmod: change it *)
  | Old (i flags : Z)                             (* open of an existing object *)
  | Num (o : rop) (par : Z) (f : string)          (* creation: take a number, *)
  | Enter (o : rop) (par : Z) (f : string) (n : Z)   (* enter the name, *)
  | New (o : rop) (par n : Z)                     (* put the object into the table *)
  | LnInc (o : rop) (i : Z)                       (* link: count, then walk again, *)
  | LnEnter (i par : Z) (f : string)              (* enter the name *)
  | LnUndo (i : Z) (e : Z)                        (* or count back *)
  | UnDec (i par : Z) (f : string)                (* unlink: count down, *)
  | UnRem (i par : Z) (f : string) (gone : bool)  (* remove the name, *)
  | UnDel (i : Z)                                 (* remove the object *)
  | RmPar (i par : Z) (f : string)                (* rmdir: look at the parent, *)
  | RmSelf (i par : Z) (f : string)               (* look at the directory, *)
  | RmRem (i par : Z) (f : string) (rm : bool)    (* remove the name, *)
  | RmDel (i : Z)                                 (* remove the object *)
  | Ren (i par : Z) (fo fn : string)              (* rename: change the directory *)
  | ClDec (i : Z)                                 (* close: count down, *)
  | ClDel (i : Z).                                (* remove the object *)

(** What one step does to one object *)
Inductive edit :=
  | Put (x : inode)
  | Del
  | AddName (f : string) (n : Z)      (* the name, and one link more *)
  | DelName (f : string)              (* the name, and one link less *)
  | MvName (fo fn : string) (n : Z).

Definition run_edit (e : edit) (ox : option inode) : option inode :=
  match e with
  | Put x => Some x
  | Del => None
  | AddName f n => (fun x => set_link (i_link x + 1) (set_dict (<[f := n]> (i_dict x)) x)) <$> ox
  | DelName f => (fun x => set_link (i_link x - 1) (set_dict (delete f (i_dict x)) x)) <$> ox
  | MvName fo fn n => (fun x => set_dict (delete fo (<[fn := n]> (i_dict x))) x) <$> ox
  end.

(** Where a step leads: on, or back to the caller with an answer; an open that
    succeeded also has the object it opened. *)
Inductive rres := Go (p : rpc) | Back (r : out) | Opened (i : Z).

(** What a step does: a change of one object, whether it takes a number from
    the counter, where it leads *)
Definition ract := (option (Z * edit) * bool * rres)%type.
Definition quiet (r : rres) : outcome ract := Done (None, false, r).
Definition change (i : Z) (e : edit) (r : rres) : outcome ract := Done (Some (i, e), false, r).
Definition fail (e : Z) : rres := Back (Ret (err e)).

(** The path of a walk *)
Definition wpath (o : rop) (k : kont) : list string :=
  match o with
  | RStat p | RChmod p _ | ROpen p _ _ | RMkdir p _ | RMknod p _ _ | RUnlink p | RRmdir p => p
  | RLink a b | RRename a b => match k with First => a | Second _ _ => b end
  | RClose _ => []
  end.

(** After a walk that found [r] = (object, parent): the checks made without
    looking at the table *)
Definition after (o : rop) (k : kont) (r : option Z * option Z) : outcome ract :=
  match o with
  | RStat _ =>                                               (* fs_calls.rs 1169-1203 *)
      match fst r with Some i => quiet (Go (Look i)) | None => quiet (fail ENOENT) end
  | RChmod _ mode =>                                         (* 4251-4259, 4142-4148 *)
      match fst r with
      | Some i => if Z.land mode S_IRWXA =? mode then quiet (Go (Mode i mode)) else quiet (fail EINVAL)
      | None => quiet (fail ENOENT)
      end
  | ROpen p flags mode =>                                    (* 214-243, 319-327, 413-431 *)
      match r with
      | (Some i, _) =>
          if Z.land flags (Z.lor O_CREAT O_EXCL) =? Z.lor O_CREAT O_EXCL then quiet (fail EEXIST)
          else quiet (Go (Old i flags))
      | (None, Some par) =>
          if negb (hasbit flags O_CREAT) then quiet (fail ENOENT)
          else if Z.land S_IFCHR flags =? S_IFCHR then quiet (fail EINVAL)
          else if negb (sane_mode mode) then quiet (fail EPERM)
          else match file_name p with None => Panic | Some f => quiet (Go (Num o par f)) end
      | (None, None) => quiet (fail ENOENT)
      end
  | RMkdir p mode =>                                         (* 497-514, 564-568 *)
      match r with
      | (Some _, _) => quiet (fail EEXIST)
      | (None, Some par) =>
          match file_name p with
          | None => Panic
          | Some f => if negb (sane_mode mode) then quiet (fail EPERM) else quiet (Go (Num o par f))
          end
      | (None, None) => quiet (fail ENOENT)
      end
  | RMknod p mode dev =>                                     (* 652-679, 726-737 *)
      match r with
      | (Some _, _) => quiet (fail EEXIST)
      | (None, Some par) =>
          match file_name p with
          | None => Panic
          | Some f =>
              if negb (sane_mode mode) then quiet (fail EPERM)
              else if Z.land mode S_IFCHR =? 0 then quiet (fail EINVAL)
              else quiet (Go (Num o par f))
          end
      | (None, None) => quiet (fail ENOENT)
      end
  | RLink _ b =>                                             (* 814-825, 860-895 *)
      match k with
      | First => match fst r with Some i => quiet (Go (LnInc o i)) | None => quiet (fail ENOENT) end
      | Second i _ =>
          match r with
          | (None, None) => quiet (Go (LnUndo i (err ENOENT)))
          | (Some _, _) => quiet (Go (LnUndo i (err EEXIST)))
          | (None, Some par) =>
              match file_name b with None => Panic | Some f => quiet (Go (LnEnter i par f)) end
          end
      end
  | RUnlink p =>                                             (* 982-993 *)
      match r with
      | (None, _) => quiet (fail ENOENT)
      | (Some _, None) => quiet (fail EISDIR)
      | (Some i, Some par) =>
          match file_name p with None => Panic | Some f => quiet (Go (UnDec i par f)) end
      end
  | RRmdir p =>                                              (* 4741-4746 *)
      match r with
      | (None, _) => quiet (fail ENOENT)
      | (Some _, None) => quiet (fail EBUSY)
      | (Some i, Some par) =>
          match file_name p with None => Panic | Some f => quiet (Go (RmPar i par f)) end
      end
  | RRename a b =>                                           (* 4914-4935 *)
      match k with
      | First =>
          match r with
          | (None, _) => quiet (fail EEXIST)
          | (Some _, None) => quiet (fail EBUSY)
          | (Some i, Some par) => quiet (Go (Root o (Second i par)))
          end
      | Second i par =>
          if negb (bool_decide (snd r = Some par)) then quiet (fail EOPNOTSUPP)
          else match file_name a, file_name b with
               | Some fo, Some fn => quiet (Go (Ren i par fo fn))
               | _, _ => Panic
               end
      end
  | RClose _ => Panic
  end.

(** The new object: fs_calls.rs 248-265, 509-535, 682-693 *)
Definition newobj (o : rop) (par n : Z) : inode :=
  match o with
  | RMkdir _ mode => Inode KDir 0 (Z.lor S_IFDIR mode) 3 0 (new_dict n par)
  | RMknod _ mode dev => Inode (KChr (fst (devtuple dev)) (snd (devtuple dev))) 0 mode 1 0 ∅
  | ROpen _ _ mode => Inode KFile 0 (Z.lor S_IFREG mode) 1 1 ∅
  | _ => Inode KFile 0 0 0 0 ∅
  end.

Definition fetch (tab : gmap Z inode) (i : Z) : outcome inode :=
  match tab !! i with Some x => Done x | None => Panic end.

(** One step of a process that is at [p] *)
Definition act (tab : gmap Z inode) (next : Z) (p : rpc) : outcome ract :=
  match p with
  | Idle => Panic
  | Root o k =>                                              (* filesystem.rs 532-534 *)
      match tab !! ROOTINO with
      | None => Panic
      | Some _ => quiet (Go (Walk o k (Some ROOTINO) true None (wpath o k)))
      end
  | Walk o k cur has prev [] => after o k (cur, prev)        (* 583-585 *)
  | Walk o k cur has prev (f :: r) =>                        (* 538-580 *)
      match cur with
      | None => after o k (None, None)
      | Some i =>
          if negb has then Panic                             (* curnode.unwrap() *)
          else
          do x <- fetch tab i;
          match i_kind x with
          | KDir =>
              match i_dict x !! f with
              | Some j => quiet (Go (Walk o k (Some j) (bool_decide (is_Some (tab !! j))) (Some i) r))
              | None => quiet (Go (Walk o k None false (Some i) r))
              end
          | _ => after o k (None, None)
          end
      end
  | Look i =>                                                (* fs_calls.rs 1177-1199 *)
      do x <- fetch tab i; quiet (Back (stat_of i x))
  | Mode i mode =>                                           (* 4151-4190 *)
      do x <- fetch tab i;
      change i (Put (set_mode (Z.lor (Z.ldiff (i_mode x) S_IRWXA) mode) x)) (Back (Ret 0))
  | Old i flags =>                                           (* 333-409 *)
      do x <- fetch tab i;
      match i_kind x with
      | KSock => quiet (fail ENXIO)
      | KFile =>
          change i (Put (set_ref (i_ref x + 1)
                     (set_size (if Z.land flags O_TRUNC =? O_TRUNC then 0 else i_size x) x))) (Opened i)
      | _ => change i (Put (set_ref (i_ref x + 1) x)) (Opened i)
      end
  | Num o par f => Done (None, true, Go (Enter o par f next))   (* 268-270, 519-521, 696-698 *)
  | Enter o par f n =>                                       (* 274-288, 540-552, 704-715 *)
      do p <- fetch tab par;
      match i_kind p, o with
      | KDir, _ => change par (AddName f n) (Go (New o par n))
      | _, ROpen _ _ _ => quiet (fail ENOTDIR)
      | _, RMknod _ _ _ => quiet (Go (New o par n))
      | _, _ => Panic
      end
  | New o par n =>                                           (* 291, 555, 719 *)
      change n (Put (newobj o par n))
        (match o with ROpen _ _ _ => Opened n | _ => Back (Ret 0) end)
  | LnInc o i =>                                             (* 827-856 *)
      do x <- fetch tab i;
      match i_kind x with
      | KDir => quiet (fail EPERM)
      | _ => change i (Put (set_link (i_link x + 1) x)) (Go (Root o (Second i 0)))
      end
  | LnEnter i par f =>                                       (* 873-893 *)
      do p <- fetch tab par;
      match i_kind p with KDir => change par (AddName f i) (Back (Ret 0)) | _ => Panic end
  | LnUndo i e =>                                            (* 903-927 *)
      do x <- fetch tab i;
      do l <- dec (i_link x);
      match i_kind x with KDir => Panic | _ => change i (Put (set_link l x)) (Back (Ret e)) end
  | UnDec i par f =>                                         (* 995-1029 *)
      do x <- fetch tab i;
      match i_kind x with
      | KDir => quiet (fail EISDIR)
      | _ =>
          do l <- dec (i_link x);
          change i (Put (set_link l x)) (Go (UnRem i par f ((l =? 0) && (i_ref x =? 0))))
      end
  | UnRem i par f gone =>                                    (* 1034-1037, 4664-4693 *)
      do p <- fetch tab par;
      match i_kind p with
      | KDir =>
          if no_write_bits (i_mode p) then quiet (fail EPERM) else
          match i_dict p !! f with
          | None => Panic
          | Some _ =>
              do l <- dec (i_link p);
              change par (DelName f) (if gone then Go (UnDel i) else Back (Ret 0))
          end
      | _ => Panic
      end
  | UnDel i => change i Del (Back (Ret 0))                   (* 1045-1063 *)
  | RmPar i par f =>                                         (* 4749-4760 *)
      do p <- fetch tab par;
      match i_kind p with
      | KDir => if no_write_bits (i_mode p) then quiet (fail EPERM) else quiet (Go (RmSelf i par f))
      | _ => quiet (Go (RmSelf i par f))
      end
  | RmSelf i par f =>                                        (* 4763-4832 *)
      do x <- fetch tab i;
      match i_kind x with
      | KDir =>
          if 3 <? i_link x then quiet (fail ENOTEMPTY)
          else if negb (is_dir (i_mode x)) then Panic
          else if no_write_bits (i_mode x) then quiet (fail EPERM)
          else if i_ref x =? 0 then change i (Put (set_link 2 x)) (Go (RmRem i par f true))
          else quiet (Go (RmRem i par f false))
      | _ => quiet (fail ENOTDIR)
      end
  | RmRem i par f rm =>                                      (* 4842-4846, 4664-4693 *)
      do p <- fetch tab par;
      match i_kind p with
      | KDir =>
          if no_write_bits (i_mode p) then quiet (fail EPERM) else
          match i_dict p !! f with
          | None => Panic
          | Some _ =>
              do l <- dec (i_link p);
              change par (DelName f) (if rm then Go (RmDel i) else Back (Ret 0))
          end
      | _ => Panic
      end
  | RmDel i =>                                               (* 4850-4852 *)
      do x <- fetch tab i; change i Del (Back (Ret 0))
  | Ren i par fo fn =>                                       (* 4938-4970 *)
      do p <- fetch tab par;
      match i_kind p with
      | KDir => change par (MvName fo fn i) (Back (Ret 0))
      | _ => quiet (Back (Ret 0))
      end
  | ClDec i =>                                               (* 3673-3781 *)
      do x <- fetch tab i;
      do r <- dec (i_ref x);
      let last := match i_kind x with KDir => i_link x =? 2 | _ => i_link x =? 0 end in
      match i_kind x with
      | KSock => Panic
      | _ => change i (Put (set_ref r x)) (if (r =? 0) && last then Go (ClDel i) else Back (Ret 0))
      end
  | ClDel i => change i Del (Back (Ret 0))                   (* 3700-3703, 3744-3745, 3767-3768 *)
  end.

(** The start of a call *)
Definition begin (o : rop) (op : list (option Z)) : outcome rres :=
  match o with
  | RClose k =>                                              (* fs_calls.rs 3820-3844 *)
      match op !! k with Some (Some i) => Done (Go (ClDec i)) | _ => Done (fail EBADF) end
  | RLink _ b =>                                             (* 804-809 *)
      match file_name b with None => Panic | Some _ => Done (Go (Root o First)) end
  | _ => Done (Go (Root o First))
  end.

(** A process: where it is, the calls still to make, the files it opened (in
    order; [None] once closed), the answers it got (latest first) *)
Record proc := Proc {
  t_pc : rpc;
  t_todo : list rop;
  t_open : list (option Z);
  t_outs : list out
}.

Definition lead (r : rres) (t : proc) : proc :=
  match r with
  | Go p => Proc p (t_todo t) (t_open t) (t_outs t)
  | Back o => Proc Idle (t_todo t) (t_open t) (o :: t_outs t)
  | Opened i =>
      Proc Idle (t_todo t) (t_open t ++ [Some i]) (Ret (Z.of_nat (length (t_open t))) :: t_outs t)
  end.

(** A close() gives the descriptor up. *)
Definition drop_fd (o : rop) (op : list (option Z)) : list (option Z) :=
  match o with RClose k => <[k := None]> op | _ => op end.

Record rst := Rst {
  r_tab : gmap Z inode;
  r_next : Z;                        (* FS_METADATA.nextinode *)
  r_proc : list proc;
  r_dead : bool                      (* the runtime aborted *)
}.

(** The lock a walk holds *)
Definition holds (p : rpc) : option Z :=
  match p with Walk _ _ (Some i) true _ _ => Some i | _ => None end.

(** The object whose lock the next step takes alone ([get_mut], [remove]) *)
Definition takes (p : rpc) : option Z :=
  match p with
  | Mode i _ | Old i _ | LnInc _ i | LnUndo i _ | UnDec i _ _ | UnDel i | RmSelf i _ _ | RmDel i
  | ClDec i | ClDel i => Some i
  | Enter _ par _ _ | LnEnter _ par _ | UnRem _ par _ _ | RmPar _ par _ | RmRem _ par _ _
  | Ren _ par _ _ => Some par
  | New _ _ n => Some n
  | _ => None
  end.

(** Somebody else's walk holds the lock this process needs. *)
Definition waits (ts : list proc) (i : nat) (p : rpc) : bool :=
  match takes p with
  | None => false
  | Some x =>
      existsb (fun jt => negb (Nat.eqb (fst jt) i) && bool_decide (holds (t_pc (snd jt)) = Some x))
              (imap (fun j t => (j, t)) ts)
  end.

(** What process [t] does next, if it has anything to do: its change to the
    table, whether it takes a number, and the process afterwards *)
Definition move (tab : gmap Z inode) (next : Z) (t : proc)
  : option (outcome (option (Z * edit) * bool * proc)) :=
  match t_pc t with
  | Idle =>
      match t_todo t with
      | [] => None
      | o :: rest =>
          Some (do r <- begin o (t_open t);
                Done (None, false, lead r (Proc Idle rest (drop_fd o (t_open t)) (t_outs t))))
      end
  | p => Some (do a <- act tab next p;
               let '(e, tick, r) := a in Done (e, tick, lead r t))
  end.

Definition perform (e : option (Z * edit)) (tab : gmap Z inode) : gmap Z inode :=
  match e with Some (i, d) => partial_alter (run_edit d) i tab | None => tab end.

(** One step of process [i]; [None]: it has nothing to do or waits. *)
Definition rgo (s : rst) (i : nat) : option rst :=
  if r_dead s then None else
  match r_proc s !! i with
  | None => None
  | Some t =>
      if waits (r_proc s) i (t_pc t) then None else
      match move (r_tab s) (r_next s) t with
      | None => None
      | Some Panic => Some (Rst (r_tab s) (r_next s) (r_proc s) true)
      | Some (Done (e, tick, t')) =>
          Some (Rst (perform e (r_tab s)) (if (tick : bool) then r_next s + 1 else r_next s)
                    (<[i := t']> (r_proc s)) false)
      end
  end.

(** The processes take steps in the order given. *)
Fixpoint rplay (s : rst) (l : list nat) : option rst :=
  match l with
  | [] => Some s
  | i :: r => match rgo s i with Some s' => rplay s' r | None => None end
  end.

(** All processes at their start *)
Definition rstart (tab : gmap Z inode) (next : Z) (progs : list (list rop)) : rst :=
  Rst tab next (map (fun l => Proc Idle l [] []) progs) false.
