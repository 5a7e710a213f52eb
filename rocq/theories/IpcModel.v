(** System V shared memory, semaphore handles, mutex and condition-variable
    handles, for any number of processes. Calls are atomic here.

    Models /repo/src/safeposix/shm.rs 12-165, fs_calls.rs 5602-6818 (the shm,
    mutex, cond and sem calls) and the parts of fork, exec and exit that touch
    these tables (sys_calls.rs 47-70, 112-200, 331-404, 441-520, 563-590).

    Parameter [chk]: whether the build checks integer overflow (a debug build
    panics, a release build wraps); the theorems hold for both.

    Simplified. Times and permission fields other than the mode are left out.
    Addresses are the 32-bit addresses of the sandbox (the code keeps
    [shmaddr as u32]). The identifier counter is an unbounded integer (i32 in
    the code). Host calls: making the backing file fails exactly for sizes of
    2^63 or more (set_len takes an off_t); mapping it fails when the address is
    not a multiple of the page size, and otherwise when the argument [bad] of
    the call says so. A call that must wait has the outcome [IBlock] and changes
    nothing; the waiting itself is in SemModel.v. A mutex is a flag; [unlock]
    always succeeds. Condition variables have no state. *)
From Verif Require Import Base SemModel.
Local Open Scope Z_scope.

(** fs_constants.rs 118-143 *)
Definition IPC_PRIVATE : Z := 0.
Definition IPC_CREAT : Z := 512.
Definition IPC_EXCL : Z := 1024.
Definition IPC_RMID : Z := 0.
Definition IPC_STAT : Z := 2.
Definition SHM_DEST : Z := 512.
Definition SHMMIN : Z := 1.
Definition SHMMAX : Z := 4278190079.

(** shm.rs 12-21 *)
Record seg := Seg {
  g_key : Z; g_size : Z; g_segsz : Z; g_mode : Z; g_rmid : bool;
  g_nattch : Z; g_att : gmap Z Z; g_offs : list Z
}.

(** The tables of one process (cage.rs 105-125): reverse mappings
    (address, identifier), semaphores by address, mutexes, condition variables.
    The last three hold object numbers. *)
Record icage := Icage {
  c_rev : list (Z * Z); c_sem : gmap Z Z; c_mut : list (option Z); c_cv : list (option Z)
}.

(** A semaphore object: its value and whether it is process-shared. *)
Record semo := Semo { o_val : Z; o_shared : bool }.

(** shm.rs 126-145 and the objects behind the handles *)
Record ipc := Ipc {
  x_seg : gmap Z seg; x_key : gmap Z Z; x_next : Z; x_cage : gmap Z icage;
  x_sem : gmap Z semo; x_lock : gmap Z bool; x_obj : Z
}.

Definition set_seg (f : gmap Z seg -> gmap Z seg) (x : ipc) : ipc :=
  Ipc (f (x_seg x)) (x_key x) (x_next x) (x_cage x) (x_sem x) (x_lock x) (x_obj x).
Definition set_key (f : gmap Z Z -> gmap Z Z) (x : ipc) : ipc :=
  Ipc (x_seg x) (f (x_key x)) (x_next x) (x_cage x) (x_sem x) (x_lock x) (x_obj x).
Definition set_cage (f : gmap Z icage -> gmap Z icage) (x : ipc) : ipc :=
  Ipc (x_seg x) (x_key x) (x_next x) (f (x_cage x)) (x_sem x) (x_lock x) (x_obj x).
Definition set_sem (f : gmap Z semo -> gmap Z semo) (x : ipc) : ipc :=
  Ipc (x_seg x) (x_key x) (x_next x) (x_cage x) (f (x_sem x)) (x_lock x) (x_obj x).
Definition set_lock (f : gmap Z bool -> gmap Z bool) (x : ipc) : ipc :=
  Ipc (x_seg x) (x_key x) (x_next x) (x_cage x) (x_sem x) (f (x_lock x)) (x_obj x).
Definition bump_id (x : ipc) : ipc :=
  Ipc (x_seg x) (x_key x) (x_next x + 1) (x_cage x) (x_sem x) (x_lock x) (x_obj x).
Definition bump_obj (x : ipc) : ipc :=
  Ipc (x_seg x) (x_key x) (x_next x) (x_cage x) (x_sem x) (x_lock x) (x_obj x + 1).

Definition with_rev (r : list (Z * Z)) (g : icage) : icage := Icage r (c_sem g) (c_mut g) (c_cv g).
Definition with_semt (f : gmap Z Z -> gmap Z Z) (g : icage) : icage := Icage (c_rev g) (f (c_sem g)) (c_mut g) (c_cv g).
Definition with_mut (l : list (option Z)) (g : icage) : icage := Icage (c_rev g) (c_sem g) l (c_cv g).
Definition with_cv (l : list (option Z)) (g : icage) : icage := Icage (c_rev g) (c_sem g) (c_mut g) l.

Definition with_att (n : Z) (m : gmap Z Z) (s : seg) : seg :=
  Seg (g_key s) (g_size s) (g_segsz s) (g_mode s) (g_rmid s) n m (g_offs s).
Definition with_offs (l : list Z) (s : seg) : seg :=
  Seg (g_key s) (g_size s) (g_segsz s) (g_mode s) (g_rmid s) (g_nattch s) (g_att s) l.

(** u32 arithmetic *)
Definition add32 (chk : bool) (a b : Z) : outcome Z :=
  if chk && (2 ^ 32 <=? a + b) then Panic else Done (to_u32 (a + b)).
Definition sub32 (chk : bool) (a b : Z) : outcome Z :=
  if chk && (a <? b) then Panic else Done (to_u32 (a - b)).

Fixpoint ofold {A B} (f : B -> A -> outcome B) (l : list A) (b : B) : outcome B :=
  match l with [] => Done b | a :: r => obind (f b a) (fun b' => ofold f r b') end.

(** What a call gives back: a number, the segment description, or it waits. *)
Inductive iout := IRet (r : Z) | IStat (key segsz nattch mode : Z) | IBlock.
#[global] Instance iout_eq : EqDecision iout.
Proof. solve_decision. Defined.

(** ** Shared memory *)
(** fs_calls.rs 5679-5748; shm.rs 36-74, 139-145 *)
Definition shmget (x : ipc) (key size flg : Z) : outcome (ipc * iout) :=
  if key =? IPC_PRIVATE then Done (x, IRet (err ENOENT)) else
  match x_key x !! key with
  | Some id =>
      if Z.lor IPC_CREAT IPC_EXCL =? Z.land flg (Z.lor IPC_CREAT IPC_EXCL) then Done (x, IRet (err EEXIST))
      else Done (x, IRet id)
  | None =>
      if Z.land flg IPC_CREAT =? 0 then Done (x, IRet (err ENOENT))
      else if (to_u32 size <? SHMMIN) || (SHMMAX <? to_u32 size) then Done (x, IRet (err EINVAL))
      else if 2 ^ 63 <=? size then Panic
      else
        let id := x_next x in
        let s := Seg key size (to_u32 size) (Z.land flg 511) false 0 ∅ [] in
        Done (set_seg <[id := s]> (set_key <[key := id]> (bump_id x)), IRet id)
  end.

(** fs_calls.rs 5611-5620 *)
Definition addrs_of (rev : list (Z * Z)) (id : Z) : list Z :=
  map fst (List.filter (fun p => p.2 =? id) rev).

(** fs_calls.rs 5602-5609 *)
Fixpoint index_of (rev : list (Z * Z)) (addr : Z) : option nat :=
  match rev with
  | [] => None
  | p :: r => if p.1 =? addr then Some O else S <$> index_of r addr
  end.

(** shm.rs 83-90 *)
Definition att_inc (c : Z) (m : gmap Z Z) : gmap Z Z :=
  <[c := match m !! c with Some n => n + 1 | None => 1 end]> m.

Definition page_ok (addr : Z) : bool := addr mod 4096 =? 0.

(** The cage whose semaphores are copied: [keys().next()] of a hash map, any of
    them; the argument [pick] chooses. *)
Definition first_cage (m : gmap Z Z) (pick : Z) : option Z :=
  match m !! pick with
  | Some _ => Some pick
  | None => match map_to_list m with p :: _ => Some p.1 | [] => None end
  end.

(** fs_calls.rs 5777-5829; map_shm, shm.rs 76-97. Returns the result of mmap
    truncated to 32 bits: the address, or -1. *)
Definition shmat (chk : bool) (x : ipc) (c : Z) (g : icage) (id addr pick : Z) (bad : bool) : outcome (ipc * iout) :=
  match x_seg x !! id with
  | None => Done (x, IRet (err EINVAL))
  | Some s =>
      let x1 := set_cage <[c := with_rev (c_rev g ++ [(addr, id)]) g]> x in
      let copied : outcome ipc :=
        match g_offs s with
        | [] => Done x1
        | _ =>
            match first_cage (g_att s) pick with
            | None => Done x1
            | Some c2 =>
                match x_cage x1 !! c2 with
                | None => Panic
                | Some g2 =>
                    match addrs_of (c_rev g2) id with
                    | [] => Panic
                    | a0 :: _ =>
                        ofold (fun y off =>
                          obind (add32 chk a0 off) (fun a =>
                          match x_cage y !! c2 with
                          | None => Panic
                          | Some g2' =>
                              match c_sem g2' !! a with
                              | None => Panic
                              | Some o =>
                                  obind (add32 chk addr off) (fun b =>
                                  match x_cage y !! c with
                                  | None => Panic
                                  | Some g' => Done (set_cage <[c := with_semt <[b := o]> g']> y)
                                  end)
                              end
                          end)) (g_offs s) x1
                    end
                end
            end
        end in
      obind copied (fun x2 =>
        Done (set_seg <[id := with_att (g_nattch s + 1) (att_inc c (g_att s)) s]> x2,
              IRet (if bad || negb (page_ok addr) then -1 else to_i32 addr)))
  end.

(** [Vec::swap_remove] *)
Definition swap_remove {A} (i : nat) (l : list A) : list A :=
  match last l with
  | Some z => if bool_decide (S i = length l) then removelast l else <[i := z]> (removelast l)
  | None => l
  end.

(** fs_calls.rs 5862-5923; unmap_shm, shm.rs 101-123 *)
Definition shmdt (chk : bool) (x : ipc) (c : Z) (g : icage) (addr : Z) : outcome (ipc * iout) :=
  match index_of (c_rev g) addr with
  | None => Done (x, IRet (err EINVAL))
  | Some i =>
      match c_rev g !! i with
      | None => Panic
      | Some (_, id) =>
          match x_seg x !! id with
          | None => Panic
          | Some s =>
              obind (ofold (fun t off => obind (add32 chk addr off) (fun a => Done (delete a t))) (g_offs s) (c_sem g))
                (fun t =>
              match g_att s !! c with
              | None => Panic
              | Some n =>
                  let att := if n - 1 =? 0 then delete c (g_att s) else <[c := n - 1]> (g_att s) in
                  let s' := with_att (g_nattch s - 1) att s in
                  let x1 := set_cage <[c := with_rev (swap_remove i (c_rev g)) (with_semt (fun _ => t) g)]> x in
                  let x2 :=
                    if g_rmid s && (g_nattch s - 1 =? 0)
                    then set_key (delete (g_key s)) (set_seg (delete id) x1)
                    else set_seg <[id := s']> x1 in
                  Done (x2, IRet id)
              end)
          end
      end
  end.

(** fs_calls.rs 5927-5958 *)
Definition shmctl (x : ipc) (id cmd : Z) : outcome (ipc * iout) :=
  match x_seg x !! id with
  | None => Done (x, IRet (err EINVAL))
  | Some s =>
      if cmd =? IPC_STAT then Done (x, IStat (g_key s) (g_segsz s) (g_nattch s) (g_mode s))
      else if cmd =? IPC_RMID then
        if g_nattch s =? 0 then Done (set_key (delete (g_key s)) (set_seg (delete id) x), IRet 0)
        else Done (set_seg <[id := Seg (g_key s) (g_size s) (g_segsz s) (Z.lor (g_mode s) SHM_DEST) true (g_nattch s) (g_att s) (g_offs s)]> x, IRet 0)
      else Done (x, IRet (err EINVAL))
  end.

(** ** Processes *)
(** sys_calls.rs 47-70: one mapping at a time *)
Definition unmap_one (c : Z) (x : ipc) (p : Z * Z) : outcome ipc :=
  match x_seg x !! p.2 with
  | None => Panic
  | Some s =>
      if g_rmid s && (g_nattch s - 1 =? 0)
      then Done (set_key (delete (g_key s)) (set_seg (delete p.2) x))
      else Done (set_seg <[p.2 := with_att (g_nattch s - 1) (delete c (g_att s)) s]> x)
  end.

(** sys_calls.rs 112-200: a new object for every used slot *)
Fixpoint renew (n : Z) (l : list (option Z)) : list (option Z) * Z :=
  match l with
  | [] => ([], n)
  | None :: r => let '(r', n') := renew n r in (None :: r', n')
  | Some _ :: r => let '(r', n') := renew (n + 1) r in (Some n :: r', n')
  end.

(** New mutexes are unlocked. *)
Definition add_locks (l : list (option Z)) (m : gmap Z bool) : gmap Z bool :=
  foldr (fun o m => match o with Some k => <[k := false]> m | None => m end) m l.

Definition set_objs (n : Z) (m : gmap Z bool) (x : ipc) : ipc :=
  Ipc (x_seg x) (x_key x) (x_next x) (x_cage x) (x_sem x) m n.

(** sys_calls.rs 331-404: counts of the child. The semaphore table is copied
    with the same objects (331-343). *)
Definition fork_one (c ch : Z) (x : ipc) (p : Z * Z) : outcome ipc :=
  match x_seg x !! p.2 with
  | None => Panic
  | Some s =>
      match g_att s !! c with
      | None => Panic
      | Some n => Done (set_seg <[p.2 := with_att (g_nattch s + 1) (<[ch := n]> (g_att s)) s]> x)
      end
  end.

Definition ifork (x : ipc) (c : Z) (g : icage) (ch : Z) : outcome (ipc * iout) :=
  let '(muts, n1) := renew (x_obj x) (c_mut g) in
  let '(cvs, n2) := renew n1 (c_cv g) in
  obind (ofold (fork_one c ch) (c_rev g) x) (fun x1 =>
  Done (set_cage <[ch := Icage (c_rev g) (c_sem g) muts cvs]> (set_objs n2 (add_locks muts (x_lock x1)) x1), IRet 0)).

(** sys_calls.rs 441-520 *)
Definition iexec (x : ipc) (c : Z) (g : icage) (nc : Z) : outcome (ipc * iout) :=
  obind (ofold (unmap_one c) (c_rev g) (set_cage (delete c) x)) (fun x1 =>
  Done (set_cage <[nc := Icage [] ∅ [] []]> x1, IRet 0)).

(** sys_calls.rs 563-590 *)
Definition iexit (x : ipc) (c : Z) (g : icage) (status : Z) : outcome (ipc * iout) :=
  obind (ofold (unmap_one c) (c_rev g) x) (fun x1 => Done (set_cage (delete c) x1, IRet status)).

(** ** Semaphore handles *)
(** fs_calls.rs 5622-5638 *)
Fixpoint region_of (chk : bool) (x : ipc) (rev : list (Z * Z)) (a : Z) : outcome (option (Z * Z)) :=
  match rev with
  | [] => Done None
  | (addr, id) :: r =>
      match x_seg x !! id with
      | None => region_of chk x r a
      | Some s =>
          obind (add32 chk addr (to_u32 (g_size s))) (fun e =>
          if (addr <=? a) && (a <? e) then Done (Some (addr, id)) else region_of chk x r a)
      end
  end.

(** For every attached process, for every address of the segment in the
    calling process: do [f] to the entry at that address plus the offset. *)
Definition spread (chk : bool) (f : Z -> gmap Z Z -> gmap Z Z) (off : Z) (addrs : list Z) (cs : list Z) (x : ipc) : outcome ipc :=
  ofold (fun y c2 =>
    ofold (fun z addr =>
      obind (add32 chk addr off) (fun a =>
      match x_cage z !! c2 with
      | None => Panic
      | Some g2 => Done (set_cage <[c2 := with_semt (f a) g2]> z)
      end)) addrs y) cs x.

(** fs_calls.rs 6407-6465 *)
Definition sem_init (chk : bool) (x : ipc) (c : Z) (g : icage) (h pshared v : Z) : outcome (ipc * iout) :=
  if SEM_VALUE_MAX <? v then Done (x, IRet (err EINVAL)) else
  match c_sem g !! h with
  | Some _ => Done (x, IRet (err EBADF))
  | None =>
      let shared := negb (pshared =? 0) in
      let o := x_obj x in
      let x1 := set_cage <[c := with_semt <[h := o]> g]> (set_sem <[o := Semo v shared]> (bump_obj x)) in
      if shared then
        obind (region_of chk x1 (c_rev g) h) (fun reg =>
        match reg with
        | None => Done (x1, IRet 0)
        | Some (m, id) =>
            obind (sub32 chk m h) (fun off =>
            match x_seg x1 !! id with
            | None => Done (x1, IRet 0)
            | Some s =>
                obind (spread chk (fun a => <[a := o]>) off (addrs_of (c_rev g) id) (map fst (map_to_list (g_att s))) x1) (fun x2 =>
                Done (set_seg <[id := with_offs (off :: List.filter (fun z => negb (z =? off)) (g_offs s)) s]> x2, IRet 0))
            end)
        end)
      else Done (x1, IRet 0)
  end.

(** The object behind a handle. *)
Definition sem_at (x : ipc) (g : icage) (h : Z) : option (Z * semo) :=
  match c_sem g !! h with
  | Some o => match x_sem x !! o with Some so => Some (o, so) | None => None end
  | None => None
  end.
Definition put_val (o : Z) (so : semo) (v : Z) (x : ipc) : ipc := set_sem <[o := Semo v (o_shared so)]> x.

(** fs_calls.rs 6494-6575, 6680-6818 *)
Definition sem_wait (x : ipc) (g : icage) (h : Z) : outcome (ipc * iout) :=
  match sem_at x g h with
  | None => Done (x, IRet (err EINVAL))
  | Some (o, so) => if o_val so =? 0 then Done (x, IBlock) else Done (put_val o so (o_val so - 1) x, IRet 0)
  end.
Definition sem_try (x : ipc) (g : icage) (h : Z) : outcome (ipc * iout) :=
  match sem_at x g h with
  | None => Done (x, IRet (err EINVAL))
  | Some (o, so) => if o_val so =? 0 then Done (x, IRet (err EAGAIN)) else Done (put_val o so (o_val so - 1) x, IRet 0)
  end.
Definition sem_post (x : ipc) (g : icage) (h : Z) : outcome (ipc * iout) :=
  match sem_at x g h with
  | None => Done (x, IRet (err EINVAL))
  | Some (o, so) =>
      if o_val so <? SEM_VALUE_MAX then Done (put_val o so (o_val so + 1) x, IRet 0)
      else Done (x, IRet (err EOVERFLOW))
  end.
Definition sem_get (x : ipc) (g : icage) (h : Z) : outcome (ipc * iout) :=
  match sem_at x g h with
  | None => Done (x, IRet (err EINVAL))
  | Some (o, so) => Done (x, IRet (o_val so))
  end.

(** fs_calls.rs 6600-6655 *)
Definition sem_destroy (chk : bool) (x : ipc) (c : Z) (g : icage) (h : Z) : outcome (ipc * iout) :=
  match sem_at x g h with
  | None => Done (x, IRet (err EINVAL))
  | Some (o, so) =>
      let x1 := set_cage <[c := with_semt (delete h) g]> x in
      if o_shared so then
        obind (region_of chk x1 (c_rev g) h) (fun reg =>
        match reg with
        | None => Done (x1, IRet 0)
        | Some (m, id) =>
            obind (sub32 chk m h) (fun off =>
            match x_seg x1 !! id with
            | None => Done (x1, IRet 0)
            | Some s =>
                obind (spread chk delete off (addrs_of (c_rev g) id) (map fst (map_to_list (g_att s))) x1) (fun x2 =>
                Done (x2, IRet 0))
            end)
        end)
      else Done (x1, IRet 0)
  end.

(** ** Mutexes and condition variables *)
(** fs_calls.rs 5962-5992, 6122-6152: the lowest empty slot, else a new one *)
Fixpoint free_slot (l : list (option Z)) : nat :=
  match l with Some _ :: r => S (free_slot r) | _ => O end.
Definition put_slot (i : nat) (o : Z) (l : list (option Z)) : list (option Z) :=
  if bool_decide (i < length l)%nat then <[i := Some o]> l else l ++ [Some o].
(** 6000-6010 and others: the handle is in range and its slot is used *)
Definition slot (l : list (option Z)) (h : Z) : option Z :=
  if h <? 0 then None else match l !! Z.to_nat h with Some (Some o) => Some o | _ => None end.

Inductive mop := MLock | MTry | MUnlock.

(** fs_calls.rs 6022-6118. pthread calls return the error number itself, never a
    negative value, and the code hands that on. *)
Definition mutex_op (x : ipc) (g : icage) (h : Z) (o : mop) : outcome (ipc * iout) :=
  match slot (c_mut g) h with
  | None => Done (x, IRet (err EBADF))
  | Some k =>
      let locked := default false (x_lock x !! k) in
      match o with
      | MLock => if locked then Done (x, IBlock) else Done (set_lock <[k := true]> x, IRet 0)
      | MTry => if locked then Done (x, IRet EBUSY) else Done (set_lock <[k := true]> x, IRet 0)
      | MUnlock => Done (set_lock <[k := false]> x, IRet 0)
      end
  end.

(** 6180-6400: [host] is what pthread returns, 0 or an error number *)
Definition cond_op (x : ipc) (g : icage) (h : Z) (m : option Z) (host : Z) : outcome (ipc * iout) :=
  match slot (c_cv g) h with
  | None => Done (x, IRet (err EBADF))
  | Some _ =>
      match m with
      | Some mh => match slot (c_mut g) mh with None => Done (x, IRet (err EBADF)) | Some _ => Done (x, IRet host) end
      | None => Done (x, IRet host)
      end
  end.

(** ** Steps *)
Inductive iop :=
| Shmget (key size flg : Z)
| Shmat (id addr pick : Z) (bad : bool)
| Shmdt (addr : Z)
| Shmctl (id cmd : Z)
| IFork (ch : Z) | IExec (nc : Z) | IExit (status : Z)
| SemInit (h pshared v : Z) | SemWait (h : Z) | SemTry (h : Z) | SemPost (h : Z) | SemGet (h : Z) | SemDestroy (h : Z)
| MutCreate | MutDestroy (h : Z) | MutOp (h : Z) (o : mop)
| CvCreate | CvDestroy (h : Z) | CvSignal (h : Z) | CvWait (h m : Z) (host : Z).

Definition istep (chk : bool) (x : ipc) (c : Z) (o : iop) : outcome (ipc * iout) :=
  match x_cage x !! c with
  | None => Panic
  | Some g =>
      match o with
      | Shmget key size flg => shmget x key size flg
      | Shmat id addr pick bad => shmat chk x c g id addr pick bad
      | Shmdt addr => shmdt chk x c g addr
      | Shmctl id cmd => shmctl x id cmd
      | IFork ch => ifork x c g ch
      | IExec nc => iexec x c g nc
      | IExit st => iexit x c g st
      | SemInit h ps v => sem_init chk x c g h ps v
      | SemWait h => sem_wait x g h
      | SemTry h => sem_try x g h
      | SemPost h => sem_post x g h
      | SemGet h => sem_get x g h
      | SemDestroy h => sem_destroy chk x c g h
      | MutCreate =>
          let i := free_slot (c_mut g) in
          Done (set_cage <[c := with_mut (put_slot i (x_obj x) (c_mut g)) g]>
                  (set_lock <[x_obj x := false]> (bump_obj x)), IRet (Z.of_nat i))
      | MutDestroy h =>
          match slot (c_mut g) h with
          | None => Done (x, IRet (err EBADF))
          | Some _ => Done (set_cage <[c := with_mut (<[Z.to_nat h := None]> (c_mut g)) g]> x, IRet 0)
          end
      | MutOp h o => mutex_op x g h o
      | CvCreate =>
          let i := free_slot (c_cv g) in
          Done (set_cage <[c := with_cv (put_slot i (x_obj x) (c_cv g)) g]> (bump_obj x), IRet (Z.of_nat i))
      | CvDestroy h =>
          match slot (c_cv g) h with
          | None => Done (x, IRet (err EBADF))
          | Some _ => Done (set_cage <[c := with_cv (<[Z.to_nat h := None]> (c_cv g)) g]> x, IRet 0)
          end
      | CvSignal h => cond_op x g h None 0
      | CvWait h m host => cond_op x g h (Some m) host
      end
  end.

(** One process, number 1, with empty tables. *)
Definition iboot : ipc := Ipc ∅ ∅ 1 {[1 := Icage [] ∅ [] []]} ∅ ∅ 1.

(** What the caller of the runtime guarantees: the number of a new process is
    not in use (exec may keep its own), addresses are 32-bit. *)
Definition iok (x : ipc) (c : Z) (o : iop) : Prop :=
  match o with
  | IFork ch => x_cage x !! ch = None
  | IExec nc => nc = c \/ x_cage x !! nc = None
  | Shmat _ addr _ _ => 0 <= addr < 2 ^ 32
  | Shmget _ size _ => 0 <= size < 2 ^ 64
  | SemInit _ _ v => 0 <= v < 2 ^ 32
  | CvWait _ _ host => 0 <= host
  | _ => True
  end.

Record iev := Iev { e_c : Z; e_op : iop; e_out : iout }.

Inductive irun (chk : bool) : list iev -> ipc -> Prop :=
| irun_nil : irun chk [] iboot
| irun_step tr x c o x' r : irun chk tr x -> iok x c o -> istep chk x c o = Done (x', r) ->
    irun chk (tr ++ [Iev c o r]) x'.
