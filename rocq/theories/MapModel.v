(** Memory mapping of files: mmap, munmap, and the loads and stores of the
    program in the mapped memory, beside the calls of FsModel.

    Modelled source: /repo/src/safeposix/syscalls/fs_calls.rs 4413-4507
    (mmap_syscall) and 4551-4570 (munmap_syscall),
    /repo/src/interface/misc.rs 335-338 (libc_mmap),
    /repo/src/safeposix/syscalls/fs_constants.rs 101-113.

    The host kernel keeps the mappings; what it does is modelled as POSIX and
    Linux describe it. Whether it carries out a request, and at which address,
    is an argument of the operation. All processes (cages) run in one host
    process, so there is one address space.

    Simplifications: protections are those of x86 (any access right includes
    reading); bytes stored behind the end of a file in its last page are
    dropped; the memory that a process gives back when it ends is not modelled
    (the runtime does not unmap it). *)
From Verif Require Import Base CodecModel PathModel FsModel.
Local Open Scope list_scope.
Local Open Scope Z_scope.

(** fs_constants.rs 102-112 *)
Definition MAP_SHARED : Z := 1.
Definition MAP_PRIVATE : Z := 2.
Definition MAP_FIXED : Z := 16.
Definition MAP_ANONYMOUS : Z := 32.
Definition PROT_NONE : Z := 0.
Definition PROT_WRITE : Z := 2.
Definition PAGE : Z := 4096.
Definition round_up (n : Z) : Z := (n + PAGE - 1) / PAGE * PAGE.

(** What a mapping shows. A host file is named by the inode number in its name
    FILEDATA<i> and by how often a file of this name was removed before. *)
Inductive backing :=
| BAnon
| BShared (i g off : Z)
| BPriv (i g off : Z).
Record mapping := Mapping { m_lo : Z; m_len : Z; m_prot : Z; m_id : Z; m_back : backing }.

Record mstate := MState {
  s_w : world;
  s_maps : list mapping;             (* newest first: a new one hides older ones *)
  s_gen : gmap Z Z;                  (* how often FILEDATA<i> was removed *)
  s_old : gmap (Z * Z) (list Z);     (* contents of removed host files *)
  s_page : gmap (Z * Z) (list Z);    (* (mapping, page) -> the mapping's own copy *)
  s_next : Z                         (* number of the next mapping *)
}.
Definition with_w (w : world) (s : mstate) : mstate := MState w (s_maps s) (s_gen s) (s_old s) (s_page s) (s_next s).

(** ** The host's side *)

Definition gen (s : mstate) (i : Z) : Z := default 0 (s_gen s !! i).
(** The bytes of a host file, which a mapping keeps alive *)
Definition content (s : mstate) (i g : Z) : option (list Z) :=
  if g =? gen s i then d_host (w_disk (s_w s)) !! i else s_old s !! (i, g).

(** The host call mmap; [ans] is the address, or none if it fails *)
Definition host_mmap (s : mstate) (len prot : Z) (b : backing) (ans : option Z) : mstate * option Z :=
  match ans with
  | None => (s, None)
  | Some a => (MState (s_w s) (Mapping a (round_up len) prot (s_next s) b :: s_maps s) (s_gen s) (s_old s) (s_page s) (s_next s + 1), Some a)
  end.

(** misc.rs 335-338: the low 32 bits of the address, also of MAP_FAILED, which
    is -1 *)
Definition libc_mmap (s : mstate) (len prot : Z) (b : backing) (ans : option Z) : mstate * Z :=
  let '(s', r) := host_mmap s len prot b ans in (s', to_i32 (default (-1) r)).

(** The mapping at an address *)
Definition covers (a : Z) (m : mapping) : bool := (m_lo m <=? a) && (a <? m_lo m + m_len m).
Definition mapping_at (s : mstate) (a : Z) : option mapping := find (covers a) (s_maps s).

Inductive mout := MRet (r : out) | MByte (v : Z) | MStored | MSegv | MBus.

(** A byte of a file at a position; behind its last page there is nothing *)
Definition byte_at (c : option (list Z)) (pos : Z) : mout :=
  match c with
  | None => MBus
  | Some l => match l !! Z.to_nat pos with
              | Some v => MByte v
              | None => if pos <? round_up (Z.of_nat (length l)) then MByte 0 else MBus
              end
  end.
(** The page of a file around a position, filled with zeros *)
Definition page_of (l : list Z) (pos : Z) : list Z :=
  let p := take (Z.to_nat PAGE) (drop (Z.to_nat (pos / PAGE * PAGE)) l) in p ++ replicate (Z.to_nat PAGE - length p) 0.

Definition load (s : mstate) (a : Z) : mout :=
  match mapping_at s a with
  | None => MSegv
  | Some m =>
      if Z.land (m_prot m) 7 =? 0 then MSegv else
      let d := a - m_lo m in
      match m_back m with
      | BShared i g off => byte_at (content s i g) (off + d)
      | BAnon => match s_page s !! (m_id m, d / PAGE) with
                 | Some p => MByte (nth (Z.to_nat (d mod PAGE)) p 0)
                 | None => MByte 0
                 end
      | BPriv i g off => match s_page s !! (m_id m, d / PAGE) with
                         | Some p => MByte (nth (Z.to_nat (d mod PAGE)) p 0)
                         | None => byte_at (content s i g) (off + d)
                         end
      end
  end.

(** The private copy of a page, made at the first store *)
Definition own_page (s : mstate) (m : mapping) (d : Z) : option (list Z) :=
  match s_page s !! (m_id m, d / PAGE), m_back m with
  | Some p, _ => Some p
  | None, BPriv i g off => match byte_at (content s i g) (off + d), content s i g with
                           | MByte _, Some l => Some (page_of l (off + d))
                           | _, _ => None
                           end
  | None, _ => Some (replicate (Z.to_nat PAGE) 0)
  end.

Definition store (s : mstate) (a v : Z) : mstate * mout :=
  match mapping_at s a with
  | None => (s, MSegv)
  | Some m =>
      if Z.land (m_prot m) PROT_WRITE =? 0 then (s, MSegv) else
      let d := a - m_lo m in
      match m_back m with
      | BShared i g off =>
          let pos := off + d in
          match content s i g with
          | None => (s, MBus)
          | Some l =>
              if pos <? Z.of_nat (length l) then
                (if g =? gen s i then with_w (emit (PWrite i pos [v]) (s_w s)) s
                 else MState (s_w s) (s_maps s) (s_gen s) (<[(i, g) := <[Z.to_nat pos := v]> l]> (s_old s)) (s_page s) (s_next s), MStored)
              else if pos <? round_up (Z.of_nat (length l)) then (s, MStored) else (s, MBus)
          end
      | _ =>
          match own_page s m d with
          | None => (s, MBus)
          | Some p => (MState (s_w s) (s_maps s) (s_gen s) (s_old s) (<[(m_id m, d / PAGE) := <[Z.to_nat (d mod PAGE) := v]> p]> (s_page s)) (s_next s), MStored)
          end
      end
  end.

(** ** The calls *)

(** fs_calls.rs 4413-4507 *)
Definition mmap_syscall (s : mstate) (c len prot flags fd off : Z) (ans : option Z) : outcome (mstate * Z) :=
  if len =? 0 then Done (s, err EINVAL)
  else if Z.land flags (Z.lor MAP_PRIVATE MAP_SHARED) =? 0 then Done (s, err EINVAL)
  else if negb (Z.land flags MAP_PRIVATE =? 0) && negb (Z.land flags MAP_SHARED =? 0) then Done (s, err EINVAL)
  else if negb (Z.land flags MAP_ANONYMOUS =? 0) then Done (libc_mmap s len prot BAnon ans)
  else
    do d <- fd_slot (s_w s) c fd;
    match d with
    | None => Done (s, err EBADF)
    | Some (FFile i _ fl) =>
        do x <- get_ino (s_w s) i;
        match i_kind x with
        | KChr _ _ => Done (s, err EOPNOTSUPP)
        | KFile =>
            if negb (Z.land fl O_WRONLY =? 0) then Done (s, err EACCES)
            else if negb (Z.land flags MAP_SHARED =? 0) && negb (Z.land prot PROT_WRITE =? 0) && negb (Z.land fl O_RDWR =? O_RDWR) then Done (s, err EACCES)
            else if (off <? 0) || (i_size x <? off) then Done (s, err ENXIO)
            else match w_fobj (s_w s) !! i with
                 | None => Panic
                 | Some _ =>
                     let g := gen s i in
                     Done (libc_mmap s len prot (if Z.land flags MAP_SHARED =? 0 then BPriv i g off else BShared i g off) ans)
                 end
        | _ => Done (s, err EACCES)
        end
    | Some _ => Done (s, err EACCES)
    end.

(** fs_calls.rs 4551-4570 *)
Definition munmap_syscall (s : mstate) (len : Z) (ans : option Z) : mstate * Z :=
  if len =? 0 then (s, err EINVAL) else libc_mmap s len PROT_NONE BAnon ans.

(** ** The machine *)

Inductive mop :=
| Sys (c : Z) (o : op)
| Mmap (c addr len prot flags fd off : Z) (ans : option Z)
| Munmap (c addr len : Z) (ans : option Z)
| Fetch (a : Z)
| Store (a v : Z).

(** The host files that a call removed, from its effects on the disk; none of
    the three places (fs_calls.rs 362, 1060, 3708) writes to the file before, so
    the bytes are those before the call. *)
Definition removed (w w' : world) : list Z :=
  omap (fun e => match e with PRemove i => Some i | _ => None end) (drop (length (w_trace w)) (w_trace w')).
Definition detach (w : world) (i : Z) (s : mstate) : mstate :=
  MState (s_w s) (s_maps s) (<[i := gen s i + 1]> (s_gen s))
    (match d_host (w_disk w) !! i with Some l => <[(i, gen s i) := l]> (s_old s) | None => s_old s end) (s_page s) (s_next s).

Definition mstep (s : mstate) (o : mop) : outcome (mstate * mout) :=
  match o with
  | Sys c o =>
      do r <- step (s_w s) c o;
      Done (with_w (fst r) (foldr (detach (s_w s)) s (removed (s_w s) (fst r))), MRet (snd r))
  | Mmap c _ len prot flags fd off ans =>
      match w_cwd (s_w s) !! c with
      | None => Panic
      | Some _ => do r <- mmap_syscall s c len prot flags fd off ans; Done (fst r, MRet (Ret (snd r)))
      end
  | Munmap c _ len ans =>
      match w_cwd (s_w s) !! c with
      | None => Panic
      | Some _ => let r := munmap_syscall s len ans in Done (fst r, MRet (Ret (snd r)))
      end
  | Fetch a => Done (s, load s a)
  | Store a v => let r := store s a v in Done (fst r, snd r)
  end.
Fixpoint mrun (s : mstate) (h : list mop) : option (mstate * list mout) :=
  match h with
  | [] => Some (s, [])
  | o :: r => match mstep s o with
              | Panic => None
              | Done (s1, x) => match mrun s1 r with None => None | Some (s2, xs) => Some (s2, x :: xs) end
              end
  end.
