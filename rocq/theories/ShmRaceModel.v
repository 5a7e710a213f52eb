(** Shared-memory calls of several threads, one lock operation at a time.

    Models the locking of /repo/src/safeposix/syscalls/fs_calls.rs: shmat
    5777-5829, shmdt 5862-5923 and shmctl(IPC_RMID) 5927-5958. shmat holds the
    entry of the segment in [SHM_METADATA.shmtable] (a DashMap guard) and then
    locks its process's [rev_shm]. shmdt locks [rev_shm] and then takes the
    entry. IPC_RMID marks the segment under the guard, drops the guard, and then
    takes the entry again to delete it.

    Simplified: one segment that exists at the start; no semaphores in it, so
    shmat locks no other process's [rev_shm]; keys, sizes and the mapping itself
    are left out (IpcModel.v has them). A panic releases the locks of its thread. A DashMap shard may cover several
    entries; here the lock covers this one segment only. *)
From Verif Require Import Base.
Local Open Scope Z_scope.

Inductive rcall := RAttach (a : Z) | RDetach (a : Z) | RRemove.
Inductive rpc :=
| RIdle
| RIn (o : rcall)         (* the call has begun, nothing is locked *)
| RShard (a : Z)          (* shmat holds the entry and wants rev_shm *)
| RPushed (a : Z)         (* shmat holds the entry, rev_shm is updated and unlocked *)
| RRev (a : Z)            (* shmdt holds rev_shm and wants the entry *)
| RMarked                 (* IPC_RMID has dropped the guard and wants the entry again *)
| RDead.                  (* the thread has panicked *)

(** The segment (marked, attach count), the thread holding its entry, the
    attached addresses and the holder of rev_shm per process, and the threads
    with their processes. *)
Record rst := Rst {
  r_seg : option (bool * Z); r_shard : option nat;
  r_rev : gmap Z (list Z); r_lock : gmap Z nat; r_pcs : list (Z * rpc)
}.

Inductive rev_ev := RCall (t : nat) (o : rcall) | RRet (t : nat) (o : rcall) (r : Z) | RPanic (t : nat) | RTau.

Definition rrevs (s : rst) (p : Z) : list Z := default [] (r_rev s !! p).
Fixpoint rdrop (a : Z) (l : list Z) : list Z :=
  match l with [] => [] | b :: r => if a =? b then r else b :: rdrop a r end.

Definition rpcset (t : nat) (p : Z) (pc : rpc) (s : rst) : rst :=
  Rst (r_seg s) (r_shard s) (r_rev s) (r_lock s) (<[t := (p, pc)]> (r_pcs s)).
Definition rsetseg (g : option (bool * Z)) (s : rst) : rst := Rst g (r_shard s) (r_rev s) (r_lock s) (r_pcs s).
Definition rsetsh (h : option nat) (s : rst) : rst := Rst (r_seg s) h (r_rev s) (r_lock s) (r_pcs s).
Definition rsetrev (p : Z) (l : list Z) (s : rst) : rst := Rst (r_seg s) (r_shard s) (<[p := l]> (r_rev s)) (r_lock s) (r_pcs s).
Definition rsetlk (f : gmap Z nat -> gmap Z nat) (s : rst) : rst := Rst (r_seg s) (r_shard s) (r_rev s) (f (r_lock s)) (r_pcs s).

Definition free {A} (o : option A) : bool := match o with None => true | _ => false end.

(** One step of thread [t]; [None] when it must wait. The identifier of the
    segment is 1. *)
Definition rgo (s : rst) (t : nat) : option (rst * rev_ev) :=
  match r_pcs s !! t with
  | Some (p, RIn (RAttach a)) =>
      if free (r_shard s) then
        match r_seg s with
        | None => Some (rpcset t p RIdle s, RRet t (RAttach a) (err EINVAL))
        | Some _ => Some (rpcset t p (RShard a) (rsetsh (Some t) s), RTau)
        end
      else None
  | Some (p, RShard a) =>
      if free (r_lock s !! p) then Some (rpcset t p (RPushed a) (rsetrev p (rrevs s p ++ [a]) s), RTau) else None
  | Some (p, RPushed a) =>
      match r_seg s with
      | Some (m, n) => Some (rpcset t p RIdle (rsetsh None (rsetseg (Some (m, n + 1)) s)), RRet t (RAttach a) a)
      | None => Some (rpcset t p RDead (rsetsh None s), RPanic t)
      end
  | Some (p, RIn (RDetach a)) =>
      if free (r_lock s !! p) then
        if existsb (Z.eqb a) (rrevs s p) then Some (rpcset t p (RRev a) (rsetlk <[p := t]> s), RTau)
        else Some (rpcset t p RIdle s, RRet t (RDetach a) (err EINVAL))
      else None
  | Some (p, RRev a) =>
      if free (r_shard s) then
        match r_seg s with
        | None => Some (rpcset t p RDead (rsetlk (delete p) s), RPanic t)
        | Some (m, n) =>
            let g := if m && (n - 1 =? 0) then None else Some (m, n - 1) in
            Some (rpcset t p RIdle (rsetlk (delete p) (rsetrev p (rdrop a (rrevs s p)) (rsetseg g s))), RRet t (RDetach a) 1)
        end
      else None
  | Some (p, RIn RRemove) =>
      if free (r_shard s) then
        match r_seg s with
        | None => Some (rpcset t p RIdle s, RRet t RRemove (err EINVAL))
        | Some (m, n) =>
            if n =? 0 then Some (rpcset t p RMarked (rsetseg (Some (true, n)) s), RTau)
            else Some (rpcset t p RIdle (rsetseg (Some (true, n)) s), RRet t RRemove 0)
        end
      else None
  | Some (p, RMarked) =>
      if free (r_shard s) then Some (rpcset t p RIdle (rsetseg None s), RRet t RRemove 0) else None
  | _ => None
  end.

Definition rstart (s : rst) (t : nat) (o : rcall) : option (rst * rev_ev) :=
  match r_pcs s !! t with
  | Some (p, RIdle) => Some (rpcset t p (RIn o) s, RCall t o)
  | _ => None
  end.

(** Threads of the given processes, a segment without attachments. *)
Definition rboot (ps : list Z) : rst := Rst (Some (false, 0)) None ∅ ∅ (map (fun p => (p, RIdle)) ps).

Inductive ract := RStart (t : nat) (o : rcall) | RGo (t : nat).
Definition rstep (s : rst) (a : ract) : option (rst * rev_ev) :=
  match a with RStart t o => rstart s t o | RGo t => rgo s t end.

Inductive rrun (ps : list Z) : list rev_ev -> rst -> Prop :=
| rrun_nil : rrun ps [] (rboot ps)
| rrun_step tr s a s' e : rrun ps tr s -> rstep s a = Some (s', e) -> rrun ps (tr ++ [e]) s'.

(** The thread is inside a call. *)
Definition rbusy (s : rst) (t : nat) : bool :=
  match r_pcs s !! t with
  | Some (_, RIdle) | Some (_, RDead) | None => false
  | Some _ => true
  end.
