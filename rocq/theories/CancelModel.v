(** The end of a process while its threads wait inside the library.

    Modelled source: /repo/src/safeposix/dispatcher.rs 953-986 (lindcancelinit,
    lindsetthreadkill, lindcheckthread, lindthreadremove), cage.rs 168-177
    (signalcvs), interface/misc.rs 227-247 (check_thread, cancelpoint), and the
    places where calls look for a cancellation: fs_calls.rs 1704-1737 (read of
    a pipe), 6249-6300 (cond_wait). The same loop is in net_calls.rs 1979-2019,
    2026-2085, 2158-2199 and 3236-3262. Calls that wait without looking: write
    to a full pipe (pipe.rs 211-290, fs_calls.rs 2162-2190) and mutex_lock
    (fs_calls.rs 6018-6050).

    Simplifications: one process; a pipe is a number of bytes and a number of
    writers, its read end stays open, and a call moves one byte; a condition variable wakes only when it
    is signalled; the lock of the descriptor that a reader holds and what
    pthread_exit unwinds are left out. *)
From stdpp Require Import gmap.
From Verif Require Import Base.
Local Open Scope Z_scope.

(** where a thread is *)
Inductive pc :=
| Out                      (* in the program *)
| Reading (p : Z)          (* in read_from_pipe *)
| Again (p : Z)            (* read_from_pipe answered EAGAIN *)
| Writing (p : Z)          (* in write_to_pipe *)
| Locking (x : Z)          (* in pthread_mutex_lock *)
| Asleep (v x : Z)         (* in pthread_cond_wait *)
| Woken (x : Z)            (* the same, signalled, waiting for the mutex *)
| Back (x : Z)             (* pthread_cond_wait returned *)
| Trapped                  (* in the loop around cancelpoint *)
| Dead.
Record cage := Cage {
  c_pc : gmap Z pc;              (* threads *)
  c_table : gmap Z bool;         (* thread_table *)
  c_cancel : bool;               (* cancelstatus *)
  c_cvs : gset Z;                (* cv_table *)
  c_owner : gmap Z Z;            (* mutexes that are held *)
  c_pipe : gmap Z (Z * Z)        (* bytes and writers *)
}.
(** sys_constants / fs_constants: the capacity of a pipe; pipe.rs 255-260: a page must be free *)
Definition CAPACITY : Z := 65536.
Definition PAGE : Z := 4096.
Definition set_pc (t : Z) (k : pc) (s : cage) : cage := Cage (<[t := k]> (c_pc s)) (c_table s) (c_cancel s) (c_cvs s) (c_owner s) (c_pipe s).
Definition set_pipe (p : Z) (x : Z * Z) (s : cage) : cage := Cage (c_pc s) (c_table s) (c_cancel s) (c_cvs s) (c_owner s) (<[p := x]> (c_pipe s)).
Definition set_owner (x t : Z) (s : cage) : cage := Cage (c_pc s) (c_table s) (c_cancel s) (c_cvs s) (<[x := t]> (c_owner s)) (c_pipe s).
Definition free_owner (x : Z) (s : cage) : cage := Cage (c_pc s) (c_table s) (c_cancel s) (c_cvs s) (delete x (c_owner s)) (c_pipe s).
Definition set_table (f : gmap Z bool -> gmap Z bool) (s : cage) : cage := Cage (c_pc s) (f (c_table s)) (c_cancel s) (c_cvs s) (c_owner s) (c_pipe s).

(** What can happen: a thread begins a call; a thread goes on; the runtime
    around the library cancels, marks or forgets a thread. *)
Inductive event :=
| Read (t p : Z) | Write (t p : Z) | Lock (t x : Z) | Unlock (t x : Z) | Wait (t v x : Z)
| Signal (t v : Z) | Broadcast (t v : Z) | Destroy (t v : Z) | CloseW (t p : Z)
| Go (t : Z)
| CancelFlag | Rouse (v : Z) | SetKill (t : Z) (b : bool) | Remove (t : Z).

(** pthread_cond_broadcast *)
Definition wake (v : Z) (k : pc) : pc := match k with Asleep v' x => if v' =? v then Woken x else k | _ => k end.
(** misc.rs 227-247 *)
Definition cancelpoint (t : Z) (s : cage) : outcome cage :=
  match c_table s !! t with
  | None => Panic
  | Some true => Done (set_pc t Dead (set_table (insert t false) s))
  | Some false => Done s
  end.
(** a thread goes on *)
Definition go (t : Z) (s : cage) : outcome cage :=
  match c_pc s !! t with
  | Some (Reading p) =>
      match c_pipe s !! p with
      | Some (n, w) =>
          if 0 <? n then Done (set_pc t Out (set_pipe p (n - 1, w) s))
          else if w =? 0 then Done (set_pc t Out s) else Done (set_pc t (Again p) s)
      | None => Done s
      end
  | Some (Again p) => Done (set_pc t (if c_cancel s then Trapped else Reading p) s)
  | Some (Writing p) =>
      match c_pipe s !! p with
      | Some (n, w) => if CAPACITY - n <? PAGE then Done s else Done (set_pc t Out (set_pipe p (n + 1, w) s))
      | None => Done s
      end
  | Some (Locking x) => match c_owner s !! x with None => Done (set_pc t Out (set_owner x t s)) | Some _ => Done s end
  | Some (Woken x) => match c_owner s !! x with None => Done (set_pc t (Back x) (set_owner x t s)) | Some _ => Done s end
  | Some (Back x) => Done (set_pc t (if c_cancel s then Trapped else Out) s)
  | Some Trapped => cancelpoint t s
  | _ => Done s
  end.
(** a thread that is in the program begins a call *)
Definition begins (t : Z) (s : cage) (k : cage) : cage := match c_pc s !! t with Some Out => k | _ => s end.
(** the first sleeper *)
Definition sleeper (v : Z) (s : cage) : option (Z * Z) :=
  head (omap (fun tk => match snd tk with Asleep v' x => if v' =? v then Some (fst tk, x) else None | _ => None end) (map_to_list (c_pc s))).
Definition happen (s : cage) (e : event) : outcome cage :=
  match e with
  | Read t p => Done (begins t s (set_pc t (Reading p) s))
  | Write t p => Done (begins t s (set_pc t (Writing p) s))
  | Lock t x => Done (begins t s (set_pc t (Locking x) s))
  | Unlock t x => Done (begins t s (if bool_decide (c_owner s !! x = Some t) then free_owner x s else s))
  | Wait t v x => Done (begins t s (if bool_decide (c_owner s !! x = Some t) && bool_decide (v ∈ c_cvs s) then set_pc t (Asleep v x) (free_owner x s) else s))
  | Signal t v => Done (begins t s (match sleeper v s with Some (u, x) => set_pc u (Woken x) s | None => s end))
  | Broadcast t v => Done (begins t s (Cage (wake v <$> c_pc s) (c_table s) (c_cancel s) (c_cvs s) (c_owner s) (c_pipe s)))
  | Destroy t v => Done (begins t s (Cage (c_pc s) (c_table s) (c_cancel s) (c_cvs s ∖ {[v]}) (c_owner s) (c_pipe s)))
  | CloseW t p => Done (begins t s (match c_pipe s !! p with Some (n, w) => set_pipe p (n, Z.max 0 (w - 1)) s | None => s end))
  | Go t => go t s
  (* dispatcher.rs 955-958 *)
  | CancelFlag => Done (Cage (c_pc s) (c_table s) true (c_cvs s) (c_owner s) (c_pipe s))
  (* dispatcher.rs 959, cage.rs 168-177: one turn of the loop *)
  | Rouse v => Done (if bool_decide (v ∈ c_cvs s) then Cage (wake v <$> c_pc s) (c_table s) (c_cancel s) (c_cvs s) (c_owner s) (c_pipe s) else s)
  | SetKill t b => Done (set_table (insert t b) s)
  | Remove t => Done (set_table (delete t) s)
  end.
Fixpoint history (s : cage) (l : list event) : outcome cage :=
  match l with [] => Done s | e :: r => match happen s e with Done s1 => history s1 r | Panic => Panic end end.
