(** Specification vocabulary for the entry point of the calls of processes,
    signals, timers, shared memory, semaphores, mutexes and condition variables
    (C129-C132): what the words of a call mean, which memory it may change, what
    lies there afterwards. *)
From stdpp Require Import gmap.
From Verif Require Import Base AbiModel AbiSpec EntryModel EntrySpec WireSpec SemModel IpcModel SigModel GateModel.
Local Open Scope list_scope.
Local Open Scope Z_scope.

(** ** Records *)
(** an action: handler, mask, flags *)
Definition action_of (m : Z -> Z) (p : Z) : sigaction := SigAction (number_at m p) (word_at m (p + 8)) (int_at m (p + 16)).
Definition times_of (m : Z -> Z) (p : Z) : itimerval :=
  ITV (TV (signed 64 (word_at m p)) (signed 64 (word_at m (p + 8)))) (TV (signed 64 (word_at m (p + 16))) (signed 64 (word_at m (p + 24)))).
(** a record that is given only if the pointer is not null *)
Definition given {A} (m : Z -> Z) (p : Z) (f : (Z -> Z) -> Z -> A) : option A := if p =? 0 then None else Some (f m p).
(** the record that is read and the one that is written do not overlap *)
Definition clear_of (p q n : Z) : Prop := p = 0 \/ q = 0 \/ p + n <= q \/ q + n <= p.

(** ** What the words ask for *)
Inductive req :=
| ForP (o : pop)              (* a call of SigModel *)
| ForI (o : iop)              (* a call of IpcModel *)
| ForTimed (o : iop)          (* one that waits for a limited time *)
| ForBoth (o : pop) (q : iop). (* processes are in both models *)
(** the calls whose words are understood one by one, from left to right *)
Definition gtable : list (Z * list aty) :=
  [ (29, []);                   (* getppid *)
    (30, [AInt]);               (* exit *)
    (31, []);                   (* getpid *)
    (50, []);                   (* getuid *)
    (51, []);                   (* geteuid *)
    (52, []);                   (* getgid *)
    (53, []);                   (* getegid *)
    (62, [AInt; ASize; AInt]);  (* shmget *)
    (63, [AInt; APtr; AInt]);   (* shmat *)
    (64, [APtr]);               (* shmdt *)
    (68, [ASize]);              (* fork *)
    (69, [ASize]);              (* exec *)
    (70, []);                   (* mutex_create *)
    (71, [AInt]);               (* mutex_destroy *)
    (72, [AInt]);               (* mutex_lock *)
    (73, [AInt]);               (* mutex_trylock *)
    (74, [AInt]);               (* mutex_unlock *)
    (75, []);                   (* cond_create *)
    (76, [AInt]);               (* cond_destroy *)
    (77, [AInt; AInt]);         (* cond_wait *)
    (78, [AInt]);               (* cond_broadcast *)
    (79, [AInt]);               (* cond_signal *)
    (91, [AUint; AInt; AUint]); (* sem_init *)
    (92, [AUint]);              (* sem_wait *)
    (93, [AUint]);              (* sem_trywait *)
    (95, [AUint]);              (* sem_post *)
    (96, [AUint]);              (* sem_destroy *)
    (97, [AUint]);              (* sem_getvalue *)
    (148, [AInt; AInt]) ].      (* kill *)
Definition gmeaning (c : Z) (e : env) (n : Z) (vs : list val) : option req :=
  match n, vs with
  | 29, [] => Some (ForP (PGetppid c))
  | 30, [Num st] => Some (ForBoth (PExit c st) (IExit st))
  | 31, [] => Some (ForP (PGetpid c))
  | 50, [] => Some (ForP (PGetid c KUid))
  | 51, [] => Some (ForP (PGetid c KEuid))
  | 52, [] => Some (ForP (PGetid c KGid))
  | 53, [] => Some (ForP (PGetid c KEgid))
  | 62, [Num k; Num z; Num f] => Some (ForI (Shmget k z f))
  | 63, [Num id; Num p; Num f] => Some (ForI (Shmat id (p mod 2 ^ 32) (e_pick e) (e_bad e)))
  | 64, [Num p] => Some (ForI (Shmdt (p mod 2 ^ 32)))
  | 68, [Num ch] => Some (ForBoth (PFork c ch) (IFork ch))
  | 69, [Num ch] => Some (ForBoth (PExec c ch) (IExec ch))
  | 70, [] => Some (ForI MutCreate)
  | 71, [Num h] => Some (ForI (MutDestroy h))
  | 72, [Num h] => Some (ForI (MutOp h MLock))
  | 73, [Num h] => Some (ForI (MutOp h MTry))
  | 74, [Num h] => Some (ForI (MutOp h MUnlock))
  | 75, [] => Some (ForI CvCreate)
  | 76, [Num h] => Some (ForI (CvDestroy h))
  | 77, [Num h; Num k] => Some (ForI (CvWait h k (e_host e)))
  | 78, [Num h] | 79, [Num h] => Some (ForI (CvSignal h))
  | 91, [Num h; Num s; Num v] => Some (ForI (SemInit h s v))
  | 92, [Num h] => Some (ForI (SemWait h))
  | 93, [Num h] => Some (ForI (SemTry h))
  | 95, [Num h] => Some (ForI (SemPost h))
  | 96, [Num h] => Some (ForI (SemDestroy h))
  | 97, [Num h] => Some (ForI (SemGet h))
  | 148, [Num t; Num sig] => Some (ForP (PKill c t sig))
  | _, _ => None
  end.
(** the record of a time limit: seconds, nanoseconds *)
Definition nanos (m : Z -> Z) (p : Z) : Z := signed 64 (word_at m (p + 8)).
Definition limit_valid (m : Z -> Z) (p : Z) : Prop := p <> 0 /\ 0 <= nanos m p < 1000000000.
(** the code multiplies the nanoseconds by 10^9 and adds the carry to the seconds *)
Definition limit_fits (chk : bool) (m : Z -> Z) (p : Z) : Prop :=
  (chk = true -> nanos m p * 1000000000 < 2 ^ 32) /\ word_at m p + (nanos m p * 1000000000) mod 2 ^ 32 / 1000000000 < 2 ^ 64.
Inductive asks (chk : bool) (m : Z -> Z) (c : Z) (e : env) (a : args) : Z -> req -> Prop :=
| as_plain n ts vs q : (n, ts) ∈ gtable -> well_typed m ts (words a) vs -> gmeaning c e n vs = Some q -> asks chk m c e a n q
| as_shmctl id cmd : int_word (a1 a) id -> int_word (a2 a) cmd -> (cmd = 2 -> a3 a <> 0) -> asks chk m c e a 65 (ForI (Shmctl id cmd))
| as_cond h k : int_word (a1 a) h -> int_word (a2 a) k -> limit_valid m (a3 a) -> limit_fits chk m (a3 a) ->
    asks chk m c e a 80 (ForI (CvWait h k (e_host e)))
| as_sem : a1 a < 2 ^ 32 -> limit_valid m (a2 a) -> limit_fits chk m (a2 a) -> asks chk m c e a 94 (ForTimed (SemWait (a1 a)))
| as_action sig : int_word (a1 a) sig -> clear_of (a2 a) (a3 a) 24 -> asks chk m c e a 147 (ForP (PSigaction c sig (given m (a2 a) action_of)))
| as_mask how : int_word (a1 a) how -> clear_of (a2 a) (a3 a) 8 -> asks chk m c e a 149 (ForP (PSigprocmask c (e_tid e) how (given m (a2 a) word_at)))
| as_timer which : int_word (a1 a) which -> clear_of (a2 a) (a3 a) 32 ->
    asks chk m c e a 150 (ForP (PSetitimer c which (given m (a2 a) times_of))).
(** the words are refused with this answer *)
Inductive declines (m : Z -> Z) (a : args) : Z -> Z -> Prop :=
| de_plain n ts r : (n, ts) ∈ gtable -> first_bad m ts (words a) r -> declines m a n r
| de_ctl_cmd : 2 ^ 32 <= a2 a -> declines m a 65 (-22)
| de_ctl_null : a2 a = 2 -> a3 a = 0 -> declines m a 65 (-14)
| de_ctl_id : a2 a < 2 ^ 32 -> (a2 a = 2 -> a3 a <> 0) -> 2 ^ 32 <= a1 a -> declines m a 65 (-22)
| de_cond_int : 2 ^ 32 <= a1 a \/ 2 ^ 32 <= a2 a -> declines m a 80 (-22)
| de_cond_null : a1 a < 2 ^ 32 -> a2 a < 2 ^ 32 -> a3 a = 0 -> declines m a 80 (-14)
| de_cond_nanos : a1 a < 2 ^ 32 -> a2 a < 2 ^ 32 -> a3 a <> 0 -> ~ limit_valid m (a3 a) -> declines m a 80 (-22)
| de_sem_int : 2 ^ 32 <= a1 a -> declines m a 94 (-22)
| de_sem_null : a1 a < 2 ^ 32 -> a2 a = 0 -> declines m a 94 (-14)
| de_sem_nanos : a1 a < 2 ^ 32 -> a2 a <> 0 -> ~ limit_valid m (a2 a) -> declines m a 94 (-22)
| de_signal n : n = 147 \/ n = 149 \/ n = 150 -> 2 ^ 32 <= a1 a -> declines m a n (-22).
(** the time limit brings the library down *)
Inductive aborts (chk : bool) (m : Z -> Z) (a : args) : Z -> Prop :=
| ab_cond : a1 a < 2 ^ 32 -> a2 a < 2 ^ 32 -> limit_valid m (a3 a) -> ~ limit_fits chk m (a3 a) -> aborts chk m a 80
| ab_sem : a1 a < 2 ^ 32 -> limit_valid m (a2 a) -> ~ limit_fits chk m (a2 a) -> aborts chk m a 94.
(** signal calls whose two records overlap *)
Definition overlapping (a : args) (n : Z) : Prop :=
  n = 147 /\ ~ clear_of (a2 a) (a3 a) 24 \/ n = 149 /\ ~ clear_of (a2 a) (a3 a) 8 \/ n = 150 /\ ~ clear_of (a2 a) (a3 a) 32.
Definition gcalls : list Z := map fst gtable ++ [65; 80; 94; 147; 149; 150].

(** ** The answers *)
Definition p_answer (y : pout) : Z := match y with ORet r | OAct r _ | OMask r _ | OTimer r _ => r end.
Definition i_answer (y : iout) : option Z := match y with IRet r => Some r | IStat _ _ _ _ => Some 0 | IBlock => None end.

(** the call is made, and answered with its number; a call that is not possible
    brings the library down *)
Definition does (chk : bool) (s : gst) (e : env) (c : Z) (q : req) (y : reply) : Prop :=
  match q with
  | ForP o => match pstep (g_p s) o with
              | Done (w', z) => exists m', y = Rep (Gst w' (g_x s) m') (Some (p_answer z))
              | Panic => y = Crash
              end
  | ForI o => match istep chk (g_x s) c o with
              | Done (x', z) => exists m', y = Rep (Gst (g_p s) x' m') (i_answer z)
              | Panic => y = Crash
              end
  | ForTimed o => match istep chk (g_x s) c o with
              | Done (x', z) => exists m', y = Rep (Gst (g_p s) x' m') (match z with IBlock => if e_late e then Some (-110) else None | _ => i_answer z end)
              | Panic => y = Crash
              end
  | ForBoth o o' => match pstep (g_p s) o, istep chk (g_x s) c o' with
              | Done (w', z), Done (x', _) => y = Rep (Gst w' x' (g_m s)) (Some (p_answer z))
              | _, _ => y = Crash
              end
  end.

(** ** Memory *)
(** the addresses at which the call may change the caller's memory *)
Definition may_change (n : Z) (a : args) (q : Z) : Prop :=
  a3 a <> 0 /\
  match n with
  | 65 => a2 a = 2 /\ a3 a <= q < a3 a + 80
  | 147 => a3 a <= q < a3 a + 24
  | 149 => a3 a <= q < a3 a + 8
  | 150 => a1 a = 0 /\ a3 a <= q < a3 a + 32
  | _ => False
  end.

(** the records that calls store *)
Definition action_lies (m : Z -> Z) (p : Z) (s : sigaction) : Prop :=
  field m p 4 (sa_handler s) /\ field m (p + 8) 8 (sa_mask s) /\ field m (p + 16) 4 (sa_flags s).
Definition times_lie (m : Z -> Z) (p : Z) (v : itimerval) : Prop :=
  field m p 8 (tv_sec (it_interval v)) /\ field m (p + 8) 8 (tv_usec (it_interval v)) /\
  field m (p + 16) 8 (tv_sec (it_value v)) /\ field m (p + 24) 8 (tv_usec (it_value v)).
(** key, owner and maker, rights, size, attachments *)
Definition segment_lies (m : Z -> Z) (p key size count mode : Z) : Prop :=
  field m p 4 key /\ field m (p + 4) 4 1000 /\ field m (p + 8) 4 1000 /\ field m (p + 12) 4 1000 /\ field m (p + 16) 4 1000 /\
  field m (p + 20) 2 mode /\ field m (p + 36) 4 size /\ field m (p + 72) 4 count.
(** a call that does not set what [c] does on [sig] *)
Definition keeps_action (c sig : Z) (o : pop) : bool :=
  match o with
  | PSigaction c' s' _ => negb ((c' =? c) && (s' =? sig))
  | PFork _ ch | PExec _ ch => negb (ch =? c)
  | _ => true
  end.

(** ** Histories: what the processes did, as lists of calls of the two models *)
(** processes write memory, call (words that are understood or refused), the
    host does things of its own (a thread starts, a signal arrives, a timer
    ticks, the clock goes on), and calls that waited go on *)
Definition host_op (o : pop) : bool :=
  match o with PThreadInit _ _ | PArrive _ _ _ | PTick _ | PAdvance _ => true | _ => false end.
Definition waiting_op (o : iop) : bool := match o with SemWait _ | MutOp _ MLock => true | _ => false end.
Definition p_calls (q : req) : list pop := match q with ForP o | ForBoth o _ => [o] | _ => [] end.
Definition i_calls (q : req) : list iop := match q with ForI o | ForTimed o | ForBoth _ o => [o] | _ => [] end.
(** a new process number is free *)
Definition new_number (s : gst) (c : Z) (q : req) : Prop :=
  match q with
  | ForBoth _ (IFork ch) => x_cage (g_x s) !! ch = None
  | ForBoth _ (IExec nc) => nc = c \/ x_cage (g_x s) !! nc = None
  | _ => True
  end.
Inductive grun (chk : bool) : list pop -> list (Z * iop) -> gst -> Prop :=
| gr_boot : grun chk [] [] gboot
| gr_memory ps qs s m : grun chk ps qs s -> bytes_only m -> grun chk ps qs (Gst (g_p s) (g_x s) m)
| gr_call ps qs s c e n a q s' r : grun chk ps qs s -> bytes_only (g_m s) -> Forall is_word (words a) -> 0 <= e_host e ->
    asks chk (g_m s) c e a n q -> new_number s c q -> enter chk s e c n a = Rep s' r ->
    grun chk (ps ++ p_calls q) (qs ++ map (pair c) (i_calls q)) s'
| gr_refused ps qs s c e n a v s' r : grun chk ps qs s -> bytes_only (g_m s) -> Forall is_word (words a) ->
    declines (g_m s) a n v -> enter chk s e c n a = Rep s' r -> grun chk ps qs s'
| gr_host ps qs s o w y : grun chk ps qs s -> host_op o = true -> pstep (g_p s) o = Done (w, y) -> grun chk (ps ++ [o]) qs (Gst w (g_x s) (g_m s))
| gr_resume ps qs s c o x y : grun chk ps qs s -> waiting_op o = true -> istep chk (g_x s) c o = Done (x, y) ->
    grun chk ps (qs ++ [(c, o)]) (Gst (g_p s) x (g_m s)).

(** ** Programs *)
Inductive gact :=
| Poke (p v : Z)                           (* the process writes a byte *)
| Call (c n : Z) (ws : list Z) (e : env)
| Host (o : pop).
Definition words_of (l : list Z) : args := Args (nth 0 l 0) (nth 1 l 0) (nth 2 l 0) (nth 3 l 0) (nth 4 l 0) (nth 5 l 0).
Definition pokes (p : Z) (bs : list Z) : list gact := imap (fun i v => Poke (p + Z.of_nat i) v) bs.
(** process 1, thread 7, nothing fails *)
Definition calm : env := Env 7 0 0 false false (fun _ => 0).
Definition call (n : Z) (ws : list Z) : gact := Call 1 n ws calm.
(** memory holds [b] everywhere at first *)
Definition start (b : Z) : gst := Gst pinit iboot (fun _ => b).
Fixpoint play (chk : bool) (s : gst) (l : list gact) : option (gst * list (option Z)) :=
  match l with
  | [] => Some (s, [])
  | Poke p v :: l => play chk (Gst (g_p s) (g_x s) (fun q => if q =? p then v else g_m s q)) l
  | Host o :: l => match pstep (g_p s) o with Done (w, _) => play chk (Gst w (g_x s) (g_m s)) l | Panic => None end
  | Call c n ws e :: l =>
      match enter chk s e c n (words_of ws) with
      | Rep s' r => match play chk s' l with Some (s'', rs) => Some (s'', r :: rs) | None => None end
      | _ => None
      end
  end.
(** the calls answer [ys]; afterwards these bytes lie at [p] *)
Definition gives (chk : bool) (b : Z) (l : list gact) (ys : list (option Z)) (p : Z) (bs : list Z) : bool :=
  match play chk (start b) l with
  | Some (s, rs) => bool_decide (rs = ys) && bool_decide (map (fun i => g_m s (p + Z.of_nat i)) (seq 0 (length bs)) = bs)
  | None => false
  end.
(** after these calls, this one brings the library down *)
Definition goes_down (chk : bool) (l : list gact) (n : Z) (ws : list Z) : bool :=
  match play chk (start 0) l with
  | Some (s, _) => match enter chk s calm 1 n (words_of ws) with Crash => true | _ => false end
  | None => false
  end.
