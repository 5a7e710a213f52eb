(** Process identity, signal masks, signal actions and interval timers.

    Models /repo/src/safeposix/syscalls/sys_calls.rs (fork 112-410, exec
    440-531, exit 563-591, getpid .. setitimer 606-866),
    /repo/src/safeposix/dispatcher.rs (rustposix_thread_init 191-208,
    lindgetsighandler 1009-1034, lindrustinit 1042-1090),
    /repo/src/interface/misc.rs (signal sets 347-365, lind_kill_from_id
    368-374, cage table 73-96) and /repo/src/interface/timer.rs.

    Only the fields of [Cage] these calls touch are present here; descriptors,
    shared memory and semaphores are modelled in other files.  The production
    setting RUSTPOSIX_TESTSUITE = false is modelled.  A host thread signal
    ([lind_threadkill]) is recorded in the list [pw_sent]. *)
From Verif Require Import Base.

(* ------------------------------------------------------------------ *)
(** * Signal sets, misc.rs 347-365 *)

(** [!x] on u64 *)
Definition not_u64 (x : Z) : Z := Z.lxor x (2 ^ 64 - 1).

(** [1u64 << (signum - 1)]: the shift amount is checked in a debug build. *)
Definition sig_bit (signum : Z) : outcome Z :=
  if (0 <=? signum - 1) && (signum - 1 <? 64)
  then Done (Z.shiftl 1 (signum - 1)) else Panic.

(** misc.rs 347-349 *)
Definition lind_sigemptyset : Z := 0.
(** misc.rs 351-353 *)
Definition lind_sigfillset : Z := 2 ^ 64 - 1.
(** misc.rs 355-357 *)
Definition lind_sigaddset (set signum : Z) : outcome Z :=
  obind (sig_bit signum) (fun b => Done (Z.lor set b)).
(** misc.rs 359-361 *)
Definition lind_sigdelset (set signum : Z) : outcome Z :=
  obind (sig_bit signum) (fun b => Done (Z.land set (not_u64 b))).
(** misc.rs 363-365 *)
Definition lind_sigismember (set signum : Z) : outcome bool :=
  obind (sig_bit signum) (fun b => Done (negb (Z.land set b =? 0))).

(* ------------------------------------------------------------------ *)
(** * Records *)

(** types.rs 153-159, [default()] is all zero *)
Record sigaction := SigAction { sa_handler : Z; sa_mask : Z; sa_flags : Z }.
Definition sigaction_default : sigaction := SigAction 0 0 0.

(** timer.rs 36-46.  Durations and instants are nanoseconds.  [t_threads] is
    the number of host threads currently running [tick] on this timer. *)
Record timer := Timer {
  t_cageid : Z; t_start : Z; t_curr : Z; t_next : Z;
  t_ticking : bool; t_threads : Z }.

(** timer.rs 54-65 *)
Definition timer_new (cageid now : Z) : timer := Timer cageid now 0 0 false 0.

(** cage.rs 104-124, the fields used by this file *)
Record pcage := PCage {
  pc_parent : Z;
  pc_getgid : Z; pc_getuid : Z; pc_getegid : Z; pc_geteuid : Z;
  pc_handlers : gmap Z sigaction;
  pc_sigset : gmap Z Z;
  pc_main : Z;
  pc_timer : timer }.

Record pworld := PWorld {
  pw_cages : gmap Z pcage;
  pw_now : Z;                       (* host clock, nanoseconds *)
  pw_sent : list (Z * Z) }.         (* (thread, signal) given to the host *)

Definition set_cage (w : pworld) (c : Z) (g : pcage) : pworld :=
  PWorld (<[c := g]> (pw_cages w)) (pw_now w) (pw_sent w).
Definition send (w : pworld) (evs : list (Z * Z)) : pworld :=
  PWorld (pw_cages w) (pw_now w) (pw_sent w ++ evs).

(** dispatcher.rs 1042-1090: cage 0 and cage 1, each its own parent *)
Definition pcage_init (c now : Z) : pcage :=
  PCage c (-1) (-1) (-1) (-1) ∅ ∅ 0 (timer_new c now).
Definition pinit : pworld :=
  PWorld (<[0 := pcage_init 0 0]> (<[1 := pcage_init 1 0]> ∅)) 0 [].

(** misc.rs 54-63 MAXCAGEID *)
Definition MAXCAGEID : Z := 1024.

(** misc.rs: [check_cageid], panics outside the table *)
Definition check_cageid (c : Z) : bool := (0 <=? c) && (c <? MAXCAGEID).

(** misc.rs 83-86: [cagetable_getref] *)
Definition getref (w : pworld) (c : Z) : outcome pcage :=
  if check_cageid c then
    match pw_cages w !! c with Some g => Done g | None => Panic end
  else Panic.

(* ------------------------------------------------------------------ *)
(** * Output of a call *)
Record timeval := TV { tv_sec : Z; tv_usec : Z }.
Record itimerval := ITV { it_interval : timeval; it_value : timeval }.

Inductive pout :=
| ORet (r : Z)
| OAct (r : Z) (old : sigaction)
| OMask (r : Z) (old : Z)
| OTimer (r : Z) (old : itimerval).

Definition done_ret (w : pworld) (r : Z) : outcome (pworld * pout) := Done (w, ORet r).

(* ------------------------------------------------------------------ *)
(** * Fork, exec, exit *)

(** sys_calls.rs 112-410: the parts that concern ids, signals and timers
    (305-329, 347-390). *)
Definition p_fork (w : pworld) (c child : Z) : outcome (pworld * pout) :=
  obind (getref w c) (fun g =>
  match pc_sigset g !! pc_main g with
  | None => Panic                                      (* unwrap, line 323 *)
  | Some m =>
    if check_cageid child then
      done_ret (set_cage w child
        (PCage c (pc_getgid g) (pc_getuid g) (pc_getegid g) (pc_geteuid g)
               (pc_handlers g) (<[0 := m]> ∅) 0 (timer_new child (pw_now w)))) 0
    else Panic
  end).

(** sys_calls.rs 440-531: the timer object is kept and re-owned (525,
    timer.rs 136-141). *)
Definition p_exec (w : pworld) (c child : Z) : outcome (pworld * pout) :=
  obind (getref w c) (fun g =>
  match pc_sigset g !! pc_main g with
  | None => Panic                                      (* unwrap, line 496 *)
  | Some m =>
    if check_cageid child then
      let w1 := PWorld (delete c (pw_cages w)) (pw_now w) (pw_sent w) in
      let t := pc_timer g in
      done_ret (set_cage w1 child
        (PCage (pc_parent g) (-1) (-1) (-1) (-1) ∅ (<[0 := m]> ∅) 0
          (Timer child (t_start t) (t_curr t) (t_next t) (t_ticking t) (t_threads t)))) 0
    else Panic
  end).

(** misc.rs 368-374 [lind_kill_from_id] *)
Definition kill_from_id (w : pworld) (c sig : Z) : outcome pworld :=
  if check_cageid c then
    match pw_cages w !! c with
    | Some g => if pc_main g =? 0 then Panic           (* assert!, line 371 *)
                else Done (send w [(pc_main g, sig)])
    | None => Done w
    end
  else Panic.

(** sys_calls.rs 563-591 *)
Definition SIGCHLD : Z := 17.
Definition p_exit (w : pworld) (c status : Z) : outcome (pworld * pout) :=
  obind (getref w c) (fun g =>
  let w1 := PWorld (delete c (pw_cages w)) (pw_now w) (pw_sent w) in
  if c =? pc_parent g then done_ret w1 status
  else obind (kill_from_id w1 (pc_parent g) SIGCHLD) (fun w2 => done_ret w2 status)).

(* ------------------------------------------------------------------ *)
(** * Identity, sys_calls.rs 606-737 *)

Definition p_getpid (w : pworld) (c : Z) : outcome (pworld * pout) :=
  obind (getref w c) (fun _ => done_ret w (to_i32 c)).
Definition p_getppid (w : pworld) (c : Z) : outcome (pworld * pout) :=
  obind (getref w c) (fun g => done_ret w (to_i32 (pc_parent g))).

(** The four id calls share one shape: the first call (field = -1) returns -1
    and stores the default, later calls return the default.
    645-656 getgid, 673-683 getegid, 700-710 getuid, 727-737 geteuid. *)
Inductive idkind := KGid | KEgid | KUid | KEuid.
Definition id_get (k : idkind) (g : pcage) : Z :=
  match k with KGid => pc_getgid g | KEgid => pc_getegid g
             | KUid => pc_getuid g | KEuid => pc_geteuid g end.
Definition id_set (k : idkind) (g : pcage) (v : Z) : pcage :=
  match g with PCage p gid uid egid euid h s m t =>
  match k with
  | KGid => PCage p v uid egid euid h s m t
  | KUid => PCage p gid v egid euid h s m t
  | KEgid => PCage p gid uid v euid h s m t
  | KEuid => PCage p gid uid egid v h s m t
  end end.
Definition id_default (k : idkind) : Z :=
  match k with KGid | KEgid => DEFAULT_GID | _ => DEFAULT_UID end.

Definition p_getid (w : pworld) (c : Z) (k : idkind) : outcome (pworld * pout) :=
  obind (getref w c) (fun g =>
  if id_get k g =? -1
  then done_ret (set_cage w c (id_set k g (id_default k))) (-1)
  else done_ret w (id_default k)).

(* ------------------------------------------------------------------ *)
(** * Signals *)

(** sys_calls.rs 739-769.  [oact] is always requested in the model: the old
    action is part of the output. *)
Definition p_sigaction (w : pworld) (c sig : Z) (act : option sigaction)
  : outcome (pworld * pout) :=
  obind (getref w c) (fun g =>
  let old := default sigaction_default (pc_handlers g !! sig) in
  match act with
  | Some a =>
      if (sig =? 9) || (sig =? 19) then Done (w, OAct (err EINVAL) old)
      else Done (set_cage w c
             (PCage (pc_parent g) (pc_getgid g) (pc_getuid g) (pc_getegid g) (pc_geteuid g)
                (<[sig := a]> (pc_handlers g)) (pc_sigset g) (pc_main g) (pc_timer g)),
             OAct 0 old)
  | None => Done (w, OAct 0 old)
  end).

(** sys_calls.rs 771-786 *)
Definition p_kill (w : pworld) (c target sig : Z) : outcome (pworld * pout) :=
  obind (getref w c) (fun _ =>
  if (target <? 0) || (MAXCAGEID <=? target) then done_ret w (err EINVAL)
  else match pw_cages w !! target with
       | Some g => done_ret (send w [(pc_main g, sig)]) 0
       | None => done_ret w (err ESRCH)
       end).

(** cage.rs 179-185: signals 1..SIGNAL_MAX exclusive, in increasing order *)
Definition pending_list (sigset : Z) : list Z :=
  List.filter (fun s => match lind_sigismember sigset s with Done b => b | Panic => false end)
              (seqZ 1 63).
Definition send_pending (w : pworld) (sigset tid : Z) : pworld :=
  send w (map (fun s => (tid, s)) (pending_list sigset)).

Definition SIG_BLOCK : Z := 0.
Definition SIG_UNBLOCK : Z := 1.
Definition SIG_SETMASK : Z := 2.

Definition set_mask (g : pcage) (tid m : Z) : pcage :=
  PCage (pc_parent g) (pc_getgid g) (pc_getuid g) (pc_getegid g) (pc_geteuid g)
        (pc_handlers g) (<[tid := m]> (pc_sigset g)) (pc_main g) (pc_timer g).

(** sys_calls.rs 788-831, [tid] is [get_pthreadid()]; the old mask is always
    reported.  [pendingsignals = curr & set] is computed from the mask, as in
    the source (813). *)
Definition p_sigprocmask (w : pworld) (c tid how : Z) (set : option Z)
  : outcome (pworld * pout) :=
  obind (getref w c) (fun g =>
  match pc_sigset g !! tid with
  | None => Panic                                      (* unwrap, line 797 *)
  | Some cur =>
    match set with
    | None => Done (w, OMask 0 cur)
    | Some s =>
      if how =? SIG_BLOCK then
        Done (set_cage w c (set_mask g tid (Z.lor cur s)), OMask 0 cur)
      else if how =? SIG_UNBLOCK then
        Done (send_pending (set_cage w c (set_mask g tid (Z.land cur (not_u64 s))))
                (Z.land cur s) tid, OMask 0 cur)
      else if how =? SIG_SETMASK then
        Done (set_cage w c (set_mask g tid s), OMask 0 cur)
      else Done (w, OMask (err EINVAL) cur)
    end
  end).

(** dispatcher.rs 191-208: a host thread of the process starts.  The pending
    set is never read in the source and is left out. *)
Definition p_thread_init (w : pworld) (c tid : Z) : outcome (pworld * pout) :=
  obind (getref w c) (fun g =>
  let inh := default 0 (pc_sigset g !! 0) in
  let ss := <[tid := inh]> (delete 0 (pc_sigset g)) in
  done_ret (set_cage w c
    (PCage (pc_parent g) (pc_getgid g) (pc_getuid g) (pc_getegid g) (pc_geteuid g)
           (pc_handlers g) ss tid (pc_timer g))) 0).

(** dispatcher.rs 1009-1034: called by the host when signal [signo] arrives in
    thread [tid]; the answer is the handler to run, 0 for none, 1 for "blocked".
    Both [sigset] and [pendingset] are the mask (1013-1014). *)
Definition p_gethandler (w : pworld) (c tid signo : Z) : outcome (pworld * pout) :=
  obind (getref w c) (fun g =>
  match pc_sigset g !! tid with
  | None => Panic
  | Some cur =>
    obind (lind_sigismember cur signo) (fun blocked =>
    if negb blocked then
      done_ret w (match pc_handlers g !! signo with Some a => sa_handler a | None => 0 end)
    else
      obind (lind_sigaddset cur signo) (fun m' =>
      done_ret (set_cage w c (set_mask g tid m')) 1))
  end).

(* ------------------------------------------------------------------ *)
(** * Interval timers *)

Definition NS : Z := 1000000000.

(** [Duration::new(secs as u64, nanos as u32)]: carries nanoseconds, panics
    if the seconds overflow. *)
Definition duration_new (sec usec : Z) : outcome Z :=
  let s := to_u64 sec in let n := to_u32 usec in
  if s + n / NS <? 2 ^ 64 then Done (s * NS + n) else Panic.

(** sys_calls.rs 842-845: [as_secs], [subsec_millis] *)
Definition duration_report (d : Z) : timeval := TV (d / NS) ((d mod NS) / 1000000).

(** timer.rs 74-98 [_set_itimer] *)
Definition timer_set (t : timer) (now curr next : Z) : timer :=
  if curr =? 0 then
    Timer (t_cageid t) (t_start t) (t_curr t) (t_next t) false (t_threads t)
  else
    Timer (t_cageid t) now curr next true
          (if t_ticking t then t_threads t else t_threads t + 1).

Definition set_timer (g : pcage) (t : timer) : pcage :=
  PCage (pc_parent g) (pc_getgid g) (pc_getuid g) (pc_getegid g) (pc_geteuid g)
        (pc_handlers g) (pc_sigset g) (pc_main g) t.

(** sys_calls.rs 833-866, ITIMER_REAL = 0; the old value is always reported
    for ITIMER_REAL. *)
Definition p_setitimer (w : pworld) (c which : Z) (new : option itimerval)
  : outcome (pworld * pout) :=
  obind (getref w c) (fun g =>
  if which =? 0 then
    let t := pc_timer g in
    let old := ITV (duration_report (t_next t)) (duration_report (t_curr t)) in
    match new with
    | None => Done (w, OTimer 0 old)
    | Some v =>
      obind (duration_new (tv_sec (it_value v)) (tv_usec (it_value v))) (fun cd =>
      obind (duration_new (tv_sec (it_interval v)) (tv_usec (it_interval v))) (fun nd =>
      Done (set_cage w c (set_timer g (timer_set t (pw_now w) cd nd)), OTimer 0 old)))
    end
  else done_ret w 0).

(** timer.rs 105-134: one iteration of the loop of one ticking thread of the
    timer owned by cage [c]; the thread stops if the timer is off. *)
Definition p_tick (w : pworld) (c : Z) : outcome (pworld * pout) :=
  obind (getref w c) (fun g =>
  let t := pc_timer g in
  if t_threads t <=? 0 then done_ret w 0 else
  if t_ticking t then
    if t_curr t - (pw_now w - t_start t) <=? 0 then
      obind (kill_from_id w (t_cageid t) 14) (fun w1 =>
      done_ret (set_cage w1 c (set_timer g (timer_set t (pw_now w) (t_next t) (t_next t)))) 1)
    else done_ret w 0
  else
    done_ret (set_cage w c (set_timer g
      (Timer (t_cageid t) (t_start t) (t_curr t) (t_next t) false (t_threads t - 1)))) 0).

(** The host clock advances. *)
Definition p_advance (w : pworld) (d : Z) : pworld :=
  PWorld (pw_cages w) (pw_now w + Z.max 0 d) (pw_sent w).

(* ------------------------------------------------------------------ *)
(** * Histories *)

Inductive pop :=
| PFork (c child : Z) | PExec (c child : Z) | PExit (c status : Z)
| PGetpid (c : Z) | PGetppid (c : Z) | PGetid (c : Z) (k : idkind)
| PSigaction (c sig : Z) (act : option sigaction)
| PKill (c target sig : Z)
| PSigprocmask (c tid how : Z) (set : option Z)
| PThreadInit (c tid : Z)
| PArrive (c tid signo : Z)
| PSetitimer (c which : Z) (new : option itimerval)
| PTick (c : Z) | PAdvance (d : Z).

Definition pstep (w : pworld) (o : pop) : outcome (pworld * pout) :=
  match o with
  | PFork c ch => p_fork w c ch
  | PExec c ch => p_exec w c ch
  | PExit c s => p_exit w c s
  | PGetpid c => p_getpid w c
  | PGetppid c => p_getppid w c
  | PGetid c k => p_getid w c k
  | PSigaction c s a => p_sigaction w c s a
  | PKill c t s => p_kill w c t s
  | PSigprocmask c t h s => p_sigprocmask w c t h s
  | PThreadInit c t => p_thread_init w c t
  | PArrive c t s => p_gethandler w c t s
  | PSetitimer c wh n => p_setitimer w c wh n
  | PTick c => p_tick w c
  | PAdvance d => Done (p_advance w d, ORet 0)
  end.

(** A history runs left to right; [None] if some call aborts the runtime. *)
Fixpoint prun (w : pworld) (l : list pop) : option pworld :=
  match l with
  | [] => Some w
  | o :: l' => match pstep w o with Done (w', _) => prun w' l' | Panic => None end
  end.
