(** The entry point for the calls of processes, signals, timers, shared memory,
    semaphores, mutexes and condition variables: a call is a number and six
    words, and the memory of the caller.

    Modelled source: /repo/src/safeposix/dispatcher.rs 15-125 (the numbers),
    128-158 (the macros), 374-379, 646-673, 787-935; the converters of
    /repo/src/interface/types.rs 220-299, 404-414, 720-757, 784-826; the records
    of types.rs 96-113, 122-159; the order of reading and writing memory in
    /repo/src/safeposix/syscalls/sys_calls.rs 739-866 and fs_calls.rs 5927-5958.

    The calls themselves are those of SigModel and IpcModel. Simplifications:
    memory is a total function from addresses to bytes, one for all processes,
    as in AbiModel; the bytes of attached segments are in SegModel; the flag of
    shmat (the rights) is there too. A host call that IpcModel leaves open is
    answered by [e_host], [e_pick] and [e_bad]; a time limit is over if [e_late].
    Records that are copied as a whole have bytes between their fields, and the
    record of IPC_STAT has times and process numbers that IpcModel does not keep:
    [e_junk] says what is stored there. *)
From stdpp Require Import gmap.
From Verif Require Import Base AbiModel EntryModel SemModel IpcModel SigModel.
Local Open Scope list_scope.
Local Open Scope Z_scope.

(** errno 110 *)
Definition TIMED_OUT : Z := -110.

Record env := Env { e_tid : Z; e_host : Z; e_pick : Z; e_bad : bool; e_late : bool; e_junk : Z -> Z }.
Record gst := Gst { g_p : pworld; g_x : ipc; g_m : mem }.
(** [Rep s None]: the call waits *)
Inductive reply := Rep (s : gst) (r : option Z) | Crash | Outside.

(** ** Records in memory *)
Definition junk (e : env) (p : Z) (n : nat) : list Z := map (e_junk e) (seqZ p (Z.of_nat n)).
(** types.rs 153-159 *)
Definition act_at (m : mem) (p : Z) : sigaction :=
  SigAction (of_le (load m p 4)) (of_le (load m (p + 8) 8)) (to_i32 (of_le (load m (p + 16) 4))).
Definition put_act (e : env) (m : mem) (p : Z) (s : sigaction) : mem :=
  store m p (le 4 (sa_handler s) ++ junk e (p + 4) 4 ++ le 8 (sa_mask s) ++ le 4 (sa_flags s) ++ junk e (p + 20) 4).
(** types.rs 96-106 *)
Definition long_at (m : mem) (p : Z) : Z := to_i64 (of_le (load m p 8)).
Definition timer_at (m : mem) (p : Z) : itimerval :=
  ITV (TV (long_at m p) (long_at m (p + 8))) (TV (long_at m (p + 16)) (long_at m (p + 24))).
Definition put_timer (m : mem) (p : Z) (v : itimerval) : mem :=
  store m p (le 8 (tv_sec (it_interval v)) ++ le 8 (tv_usec (it_interval v)) ++ le 8 (tv_sec (it_value v)) ++ le 8 (tv_usec (it_value v))).
(** types.rs 122-149, shm.rs 41-62 *)
Definition put_shm (e : env) (m : mem) (p key segsz nattch mode : Z) : mem :=
  store m p (le 4 key ++ le 4 1000 ++ le 4 1000 ++ le 4 1000 ++ le 4 1000 ++ le 2 mode ++ replicate 14 0 ++ le 4 segsz
    ++ junk e (p + 40) 32 ++ le 4 nattch ++ junk e (p + 76) 4).

(** ** Arguments *)
Inductive todo :=
| Bad (r : Z)
| Fault
| Away
| OnP (o : pop)
| OnI (o : iop)
| OnTimed (o : iop)
| OnBoth (o : pop) (q : iop)
| Action (sig act old : Z)
| Mask (how set old : Z)
| Itimer (which new old : Z)
| StatTo (id p : Z).
Definition arg {A} (e : AbiModel.res A) (k : A -> todo) : todo :=
  match e with Fail r => Bad r | Ok v => k v end.
Notation "'let!' x ':=' e 'in' k" := (arg e (fun x => k)) (at level 200, x name, k at level 200).
(** types.rs 738-757: the product of the nanoseconds overflows in a build that
    checks, and wraps in one that does not *)
Definition limit_at (chk : bool) (m : mem) (p : Z) : outcome (AbiModel.res unit) :=
  if p =? 0 then Done (Fail (err EFAULT)) else
  let sec := of_le (load m p 8) in
  let nsec := long_at m (p + 8) in
  if (nsec <? 0) || (AbiModel.NS <=? nsec) then Done (Fail (err EINVAL)) else
  match (if chk then mul32 nsec 1000000000 else Done (to_u32 (nsec * 1000000000))) with
  | Panic => Panic
  | Done n => match AbiModel.duration_new sec n with Panic => Panic | Done _ => Done (Ok tt) end
  end.
Definition with_limit (chk : bool) (m : mem) (p : Z) (k : todo) : todo :=
  match limit_at chk m p with Panic => Fault | Done e => arg e (fun _ => k) end.

Definition decode (chk : bool) (m : mem) (e : env) (c n : Z) (a : args) : todo :=
  if n =? 29 then OnP (PGetppid c)
  else if n =? 30 then let! st := get_int (a1 a) in OnBoth (PExit c st) (IExit st)
  else if n =? 31 then OnP (PGetpid c)
  else if n =? 50 then OnP (PGetid c KUid)
  else if n =? 51 then OnP (PGetid c KEuid)
  else if n =? 52 then OnP (PGetid c KGid)
  else if n =? 53 then OnP (PGetid c KEgid)
  else if n =? 62 then let! k := get_int (a1 a) in let! z := get_ulong (a2 a) in let! f := get_int (a3 a) in OnI (Shmget k z f)
  else if n =? 63 then let! id := get_int (a1 a) in let! p := get_ptr (a2 a) in let! f := get_int (a3 a) in OnI (Shmat id (to_u32 p) (e_pick e) (e_bad e))
  else if n =? 64 then let! p := get_ptr (a1 a) in OnI (Shmdt (to_u32 p))
  else if n =? 65 then
    let! cmd := get_int (a2 a) in
    if cmd =? IPC_STAT then let! p := get_ptr (a3 a) in let! id := get_int (a1 a) in StatTo id p
    else let! id := get_int (a1 a) in OnI (Shmctl id cmd)
  else if n =? 68 then let! ch := get_ulong (a1 a) in OnBoth (PFork c ch) (IFork ch)
  else if n =? 69 then let! ch := get_ulong (a1 a) in OnBoth (PExec c ch) (IExec ch)
  else if n =? 70 then OnI MutCreate
  else if n =? 71 then let! h := get_int (a1 a) in OnI (MutDestroy h)
  else if n =? 72 then let! h := get_int (a1 a) in OnI (MutOp h MLock)
  else if n =? 73 then let! h := get_int (a1 a) in OnI (MutOp h MTry)
  else if n =? 74 then let! h := get_int (a1 a) in OnI (MutOp h MUnlock)
  else if n =? 75 then OnI CvCreate
  else if n =? 76 then let! h := get_int (a1 a) in OnI (CvDestroy h)
  else if n =? 77 then let! h := get_int (a1 a) in let! k := get_int (a2 a) in OnI (CvWait h k (e_host e))
  else if n =? 78 then let! h := get_int (a1 a) in OnI (CvSignal h)
  else if n =? 79 then let! h := get_int (a1 a) in OnI (CvSignal h)
  else if n =? 80 then let! h := get_int (a1 a) in let! k := get_int (a2 a) in with_limit chk m (a3 a) (OnI (CvWait h k (e_host e)))
  else if n =? 91 then let! h := get_uint (a1 a) in let! s := get_int (a2 a) in let! v := get_uint (a3 a) in OnI (SemInit h s v)
  else if n =? 92 then let! h := get_uint (a1 a) in OnI (SemWait h)
  else if n =? 93 then let! h := get_uint (a1 a) in OnI (SemTry h)
  else if n =? 94 then let! h := get_uint (a1 a) in with_limit chk m (a2 a) (OnTimed (SemWait h))
  else if n =? 95 then let! h := get_uint (a1 a) in OnI (SemPost h)
  else if n =? 96 then let! h := get_uint (a1 a) in OnI (SemDestroy h)
  else if n =? 97 then let! h := get_uint (a1 a) in OnI (SemGet h)
  else if n =? 147 then let! sig := get_int (a1 a) in Action sig (a2 a) (a3 a)
  else if n =? 148 then let! t := get_int (a1 a) in let! sig := get_int (a2 a) in OnP (PKill c t sig)
  else if n =? 149 then let! how := get_int (a1 a) in Mask how (a2 a) (a3 a)
  else if n =? 150 then let! which := get_int (a1 a) in Itimer which (a2 a) (a3 a)
  else Away.

(** ** The call *)
Definition p_number (y : pout) : Z := match y with ORet r | OAct r _ | OMask r _ | OTimer r _ => r end.
Definition i_number (y : iout) : option Z := match y with IRet r => Some r | IStat _ _ _ _ => Some 0 | IBlock => None end.
Definition perform (chk : bool) (s : gst) (e : env) (c : Z) (t : todo) : reply :=
  let w := g_p s in let x := g_x s in let m := g_m s in
  match t with
  | Bad r => Rep s (Some r)
  | Fault => Crash
  | Away => Outside
  | OnP o => match pstep w o with Done (w', y) => Rep (Gst w' x m) (Some (p_number y)) | Panic => Crash end
  | OnI o => match istep chk x c o with Done (x', y) => Rep (Gst w x' m) (i_number y) | Panic => Crash end
  | OnTimed o =>
      (* fs_calls.rs 6780-6818 *)
      match istep chk x c o with
      | Done (x', IBlock) => Rep (Gst w x' m) (if e_late e then Some TIMED_OUT else None)
      | Done (x', y) => Rep (Gst w x' m) (i_number y)
      | Panic => Crash
      end
  | OnBoth o q =>
      match pstep w o, istep chk x c q with
      | Done (w', y), Done (x', _) => Rep (Gst w' x' m) (Some (p_number y))
      | _, _ => Crash
      end
  | Action sig act old =>
      (* sys_calls.rs 739-769: the old action is stored, then the new one is read *)
      match pstep w (PSigaction c sig None) with
      | Done (_, OAct _ a) =>
          let m1 := if old =? 0 then m else put_act e m old a in
          match pstep w (PSigaction c sig (if act =? 0 then None else Some (act_at m1 act))) with
          | Done (w', y) => Rep (Gst w' x m1) (Some (p_number y))
          | Panic => Crash
          end
      | _ => Crash
      end
  | Mask how set old =>
      (* sys_calls.rs 788-831 *)
      match pstep w (PSigprocmask c (e_tid e) how None) with
      | Done (_, OMask _ v) =>
          let m1 := if old =? 0 then m else store m old (le 8 v) in
          match pstep w (PSigprocmask c (e_tid e) how (if set =? 0 then None else Some (of_le (load m1 set 8)))) with
          | Done (w', y) => Rep (Gst w' x m1) (Some (p_number y))
          | Panic => Crash
          end
      | _ => Crash
      end
  | Itimer which new old =>
      (* sys_calls.rs 833-866 *)
      match pstep w (PSetitimer c which None) with
      | Done (_, y) =>
          let m1 := match y with OTimer _ v => if old =? 0 then m else put_timer m old v | _ => m end in
          match pstep w (PSetitimer c which (if new =? 0 then None else Some (timer_at m1 new))) with
          | Done (w', y') => Rep (Gst w' x m1) (Some (p_number y'))
          | Panic => Crash
          end
      | Panic => Crash
      end
  | StatTo id p =>
      match istep chk x c (Shmctl id IPC_STAT) with
      | Done (x', IStat key segsz nattch mode) => Rep (Gst w x' (put_shm e m p key segsz nattch mode)) (Some 0)
      | Done (x', y) => Rep (Gst w x' m) (i_number y)
      | Panic => Crash
      end
  end.
(** dispatcher.rs 210-235 *)
Definition enter (chk : bool) (s : gst) (e : env) (c n : Z) (a : args) : reply :=
  perform chk s e c (decode chk (g_m s) e c n a).

Definition gboot : gst := Gst pinit iboot (fun _ => 0).
