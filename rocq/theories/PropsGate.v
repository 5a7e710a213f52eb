(** C129-C132: the entry point for processes, signals, timers, shared memory,
    semaphores, mutexes and condition variables. *)
From stdpp Require Import gmap.
From Verif Require Import Base AbiModel AbiSpec EntryModel EntrySpec WireSpec SemModel IpcModel IpcSpec SigModel SigSpec WireProofs GateModel GateSpec GateProofs GateProofs2 GateProofs3.
Local Open Scope list_scope.
Local Open Scope Z_scope.

(** ** C129: what the words mean *)

(** A call whose words are understood is the call asked for, of the process that
    made it; its answer is that call's number. *)
Theorem C129_understood : forall chk s c e a n q, bytes_only (g_m s) -> Forall is_word (words a) -> asks chk (g_m s) c e a n q ->
  does chk s e c q (enter chk s e c n a).
Proof. exact understood. Qed.
Print Assumptions C129_understood.

(** Words that stand for nothing are refused, and nothing changes. *)
Theorem C129_refused : forall chk s c e a n r, bytes_only (g_m s) -> Forall is_word (words a) -> declines (g_m s) a n r ->
  enter chk s e c n a = Rep s (Some r).
Proof. exact declined. Qed.
Print Assumptions C129_refused.

(** A time limit that does not fit brings the library down. *)
Theorem C129_limit_aborts : forall chk s c e a n, bytes_only (g_m s) -> Forall is_word (words a) -> aborts chk (g_m s) a n ->
  enter chk s e c n a = Crash.
Proof. exact limit_aborts. Qed.
Print Assumptions C129_limit_aborts.

(** Nothing else happens, but for signal calls whose records overlap (C131). *)
Theorem C129_cases : forall chk m c e a n, bytes_only m -> Forall is_word (words a) -> n ∈ gcalls ->
  (exists q, asks chk m c e a n q) \/ (exists r, declines m a n r) \/ aborts chk m a n \/ overlapping a n.
Proof. exact all_cases. Qed.
Print Assumptions C129_cases.

Theorem C129_unique : (forall chk m c e a n q q', asks chk m c e a n q -> asks chk m c e a n q' -> q = q') /\
  (forall m a n r r', bytes_only m -> Forall is_word (words a) -> declines m a n r -> declines m a n r' -> r = r').
Proof. exact (conj asks_unique declines_unique). Qed.
Print Assumptions C129_unique.

(** Other numbers are not calls of this kind. *)
Theorem C129_other_numbers : forall chk s e c n a, n ∉ gcalls -> enter chk s e c n a = Outside.
Proof. exact unknown_away. Qed.
Print Assumptions C129_other_numbers.

(** So every history of calls is a history of the two models: what is proved of
    those (C42-C46, C49-C54, C66, C71) holds for programs that use numbers and
    words. *)
Theorem C129_history : forall chk ps qs s, grun chk ps qs s ->
  prun pinit ps = Some (g_p s) /\ exists tr, irun chk tr (g_x s) /\ map (fun v => (e_c v, e_op v)) tr = qs.
Proof. exact history. Qed.
Print Assumptions C129_history.

Example C129_nonvacuous :
  asks true (fun _ => 0) 1 calm (words_of [2; 2 ^ 32 - 9]) 148 (ForP (PKill 1 2 (-9))) /\
  declines (fun _ => 0) (words_of [7; 0; 0]) 63 (-14) /\
  aborts true (fun p => if p =? 208 then 5 else 0) (words_of [1; 1; 200]) 80 /\
  gives true 0 ([Host (PThreadInit 1 7); call 31 []; call 68 [2]; call 62 [7; 100; 512]; call 63 [1; 4096; 0]; call 91 [4096; 1; 2]; call 92 [4096]; call 97 [4096]; call 70 []; call 72 [0]; call 73 [0]; call 73 [9]])
    [Some 1; Some 0; Some 1; Some 4096; Some 0; Some 0; Some 1; Some 0; Some 0; Some 16; Some (-9)] 0 [] = true /\
  exists s, grun true [PThreadInit 1 7; PFork 1 2] [(1, IFork 2)] s.
Proof.
  split; [|split; [|split; [|split]]].
  - apply (as_plain _ _ _ _ _ 148 [AInt; AInt] [Num 2; Num (-9)]); [unfold gtable; now repeat constructor| |reflexivity].
    constructor; [exact (st_int _ 2 ltac:(unfold is_int; lia))|]. constructor; [exact (st_int _ (-9) ltac:(unfold is_int; lia))|constructor].
  - apply (de_plain _ _ 63 [AInt; APtr; AInt]); [unfold gtable; now repeat constructor|]. exists 1%nat, [Num 7], APtr, 0. split; [|split; [reflexivity|split; [reflexivity|constructor]]].
    constructor; [exact (st_int _ 7 ltac:(unfold is_int; lia))|constructor].
  - apply ab_cond; [vm_compute; reflexivity|vm_compute; reflexivity| |].
    + split; [discriminate|]. vm_compute. split; [discriminate|reflexivity].
    + intros [H _]. specialize (H eq_refl). vm_compute in H. discriminate H.
  - vm_compute. reflexivity.
  - assert (G : exists s, grun true [PThreadInit 1 7] [] s /\ g_m s = (fun _ => 0) /\ x_cage (g_x s) !! 2 = None /\
      exists s' r, enter true s calm 1 68 (words_of [2]) = Rep s' r).
    { eexists. split; [|split; [|split]].
      - eapply (gr_host true [] [] gboot (PThreadInit 1 7) _ _ (gr_boot true) eq_refl). vm_compute. reflexivity.
      - reflexivity.
      - reflexivity.
      - eexists _, _. vm_compute. reflexivity. }
    destruct G as (s & G & M & X & s' & r & E). exists s'. refine (gr_call true [PThreadInit 1 7] [] s 1 calm 68 (words_of [2]) (ForBoth (PFork 1 2) (IFork 2)) s' r G _ _ _ _ X E).
    + intros p. rewrite M. split; [discriminate|reflexivity].
    + repeat constructor; unfold is_word; cbn; lia.
    + cbn. lia.
    + apply (as_plain _ _ _ _ _ 68 [ASize] [Num 2]); [unfold gtable; now repeat constructor| |reflexivity]. constructor; [|constructor]. apply st_size. unfold is_word. cbn. lia.
Qed.

(** ** C130: the caller's memory *)

(** Only the record that the call is given for its results may change. *)
Theorem C130_frame : forall chk s c e a n s' r, Forall is_word (words a) -> enter chk s e c n a = Rep s' r ->
  forall q, ~ may_change n a q -> g_m s' q = g_m s q.
Proof. exact frame. Qed.
Print Assumptions C130_frame.

(** sigaction stores the action that the history of calls has set. *)
Theorem C130_action : forall chk ps qs s c e a sig s' r, grun chk ps qs s -> int_word (a1 a) sig -> a3 a <> 0 -> enter chk s e c 147 a = Rep s' r ->
  action_lies (g_m s') (a3 a) (action_in (rev ps) c sig).
Proof. exact action_reported. Qed.
Print Assumptions C130_action.

(** sigprocmask stores the thread's mask. *)
Theorem C130_mask : forall chk s c e a s' r, a1 a < 2 ^ 32 -> Forall is_word (words a) -> a3 a <> 0 -> enter chk s e c 149 a = Rep s' r ->
  exists cur, mask_of (g_p s) c (e_tid e) = Some cur /\ field (g_m s') (a3 a) 8 cur.
Proof. exact mask_stored. Qed.
Print Assumptions C130_mask.

(** setitimer of the real timer stores what C53 is about. *)
Theorem C130_timer : forall chk s c e a s' r, a1 a = 0 -> a3 a <> 0 -> enter chk s e c 150 a = Rep s' r ->
  exists v, pstep (g_p s) (PSetitimer c 0 None) = Done (g_p s, OTimer 0 v) /\ times_lie (g_m s') (a3 a) v.
Proof. exact timer_stored. Qed.
Print Assumptions C130_timer.

(** IPC_STAT stores key, size and number of attachments of the segment. *)
Theorem C130_segment : forall chk tr s c e a id s', irun chk tr (g_x s) -> maps_ok tr -> int_word (a1 a) id -> a2 a = 2 -> a3 a <> 0 ->
  enter chk s e c 65 a = Rep s' (Some 0) ->
  exists z mode, In z (existing tr) /\ z_id z = id /\ segment_lies (g_m s') (a3 a) (z_key z) (z_size z) (attach_count tr id) mode.
Proof. exact segment_reported. Qed.
Print Assumptions C130_segment.

(** Full claim: a call that fails leaves memory as it was. It does, but for
    sigaction and sigprocmask (below). *)
Theorem C130_failed_partial : forall chk s c e a n s' r, Forall is_word (words a) -> enter chk s e c n a = Rep s' (Some r) -> r < 0 -> n <> 147 -> n <> 149 ->
  g_m s' = g_m s.
Proof. exact failed. Qed.
Print Assumptions C130_failed_partial.

(** A sigaction of SIGKILL, and a sigprocmask with a request that does not
    exist, answer EINVAL after they have stored the old value. *)
Theorem C130_failed_refuted : forall chk,
  gives chk 7 [call 147 [9; 1000; 2000]] [Some (-22)] 2000 [0; 0; 0; 0] = true /\
  gives chk 7 [Host (PThreadInit 1 7); call 149 [5; 1000; 2000]] [Some (-22)] 2000 [0; 0; 0; 0; 0; 0; 0; 0] = true.
Proof. intros []; split; vm_compute; reflexivity. Qed.
Print Assumptions C130_failed_refuted.

(** setitimer of the other timers answers 0, but stores nothing. *)
Theorem C130_other_timers_refuted : forall chk, gives chk 7 [call 150 [1; 0; 2000]; call 150 [9; 0; 2000]] [Some 0; Some 0] 2000 [7; 7; 7; 7; 7; 7; 7; 7] = true.
Proof. intros []; vm_compute; reflexivity. Qed.
Print Assumptions C130_other_timers_refuted.

Example C130_nonvacuous : forall chk,
  gives chk 7 [call 62 [5; 4097; 950]; call 63 [1; 8192; 0]; call 65 [1; 2; 2000]] [Some 1; Some 8192; Some 0] 1998
    ([7; 7; 5; 0; 0; 0] ++ [232; 3; 0; 0] ++ [232; 3; 0; 0]) = true /\
  gives chk 7 [call 62 [5; 4097; 950]; call 63 [1; 8192; 0]; call 65 [1; 2; 2000]] [Some 1; Some 8192; Some 0] 2036 [1; 16; 0; 0] = true /\
  gives chk 7 [call 62 [5; 4097; 950]; call 63 [1; 8192; 0]; call 65 [1; 2; 2000]] [Some 1; Some 8192; Some 0] 2072 [1; 0; 0; 0; 0; 0; 0; 0; 7] = true /\
  gives chk 0 (pokes 1000 [5] ++ pokes 1008 [6] ++ pokes 1016 [4] ++ [call 147 [10; 1000; 0]; call 147 [10; 0; 2000]]) [Some 0; Some 0] 2000
    [5; 0; 0; 0; 0; 0; 0; 0; 6; 0; 0; 0; 0; 0; 0; 0; 4; 0; 0; 0] = true.
Proof. intros []; (split; [|split; [|split]]); vm_compute; reflexivity. Qed.

(** ** C131: new and old value *)

(** Full claim: sigaction, sigprocmask and setitimer set the value that the record
    holds when the call is made, and store the one that was there before, also if
    both are the same record. It holds for records that do not overlap. *)
Theorem C131_apart_partial : forall chk s c e a v, bytes_only (g_m s) -> Forall is_word (words a) -> int_word (a1 a) v ->
  (clear_of (a2 a) (a3 a) 24 -> does chk s e c (ForP (PSigaction c v (given (g_m s) (a2 a) action_of))) (enter chk s e c 147 a)) /\
  (clear_of (a2 a) (a3 a) 8 -> does chk s e c (ForP (PSigprocmask c (e_tid e) v (given (g_m s) (a2 a) word_at))) (enter chk s e c 149 a)) /\
  (clear_of (a2 a) (a3 a) 32 -> does chk s e c (ForP (PSetitimer c v (given (g_m s) (a2 a) times_of))) (enter chk s e c 150 a)).
Proof.
  intros chk s c e a v B W V.
  exact (conj (fun K => understood chk s c e a 147 _ B W (as_action _ _ _ _ _ v V K))
        (conj (fun K => understood chk s c e a 149 _ B W (as_mask _ _ _ _ _ v V K)) (fun K => understood chk s c e a 150 _ B W (as_timer _ _ _ _ _ v V K)))).
Qed.
Print Assumptions C131_apart_partial.

(** The action that a program has set is the one that it reads back, whatever
    other calls come between. *)
Theorem C131_returned_partial : forall chk c sig ps qs s e a s1 mid qs2 s2 e2 b s3 r,
  grun chk ps qs s -> bytes_only (g_m s) -> Forall is_word (words a) -> int_word (a1 a) sig -> a2 a <> 0 -> clear_of (a2 a) (a3 a) 24 ->
  enter chk s e c 147 a = Rep s1 (Some 0) ->
  grun chk (ps ++ PSigaction c sig (Some (action_of (g_m s) (a2 a))) :: mid) qs2 s2 -> Forall (fun o => keeps_action c sig o = true) mid ->
  int_word (a1 b) sig -> a3 b <> 0 -> enter chk s2 e2 c 147 b = Rep s3 r ->
  action_lies (g_m s3) (a3 b) (action_of (g_m s) (a2 a)).
Proof. exact action_returned. Qed.
Print Assumptions C131_returned_partial.

(** With one record for both, the new value is lost: the old one is stored
    before the new one is read. The second line of each is the same program with
    two records. *)
Theorem C131_same_record_refuted : forall chk,
  (* sigaction: the handler stays 0 instead of 5 *)
  gives chk 0 (pokes 1000 [5] ++ [call 147 [10; 1000; 1000]; call 147 [10; 0; 2000]]) [Some 0; Some 0] 2000 [0] = true /\
  gives chk 0 (pokes 1000 [5] ++ [call 147 [10; 1000; 1500]; call 147 [10; 0; 2000]]) [Some 0; Some 0] 2000 [5] = true /\
  (* block signal 2: the mask stays empty *)
  gives chk 0 (Host (PThreadInit 1 7) :: pokes 1000 [2] ++ [call 149 [0; 1000; 1000]; call 149 [0; 0; 2000]]) [Some 0; Some 0] 2000 [0] = true /\
  gives chk 0 (Host (PThreadInit 1 7) :: pokes 1000 [2] ++ [call 149 [0; 1000; 1500]; call 149 [0; 0; 2000]]) [Some 0; Some 0] 2000 [2] = true /\
  (* unblock signal 2 of 2 and 3: both are unblocked *)
  gives chk 0 (Host (PThreadInit 1 7) :: pokes 1000 [2] ++ pokes 3000 [6] ++ [call 149 [2; 3000; 0]; call 149 [1; 1000; 1000]; call 149 [0; 0; 2000]]) [Some 0; Some 0; Some 0] 2000 [0] = true /\
  gives chk 0 (Host (PThreadInit 1 7) :: pokes 1000 [2] ++ pokes 3000 [6] ++ [call 149 [2; 3000; 0]; call 149 [1; 1000; 1500]; call 149 [0; 0; 2000]]) [Some 0; Some 0; Some 0] 2000 [4] = true /\
  (* a timer of five seconds is not set *)
  gives chk 0 (pokes 1016 [5] ++ [call 150 [0; 1000; 1000]; call 150 [0; 0; 2000]]) [Some 0; Some 0] 2016 [0] = true /\
  gives chk 0 (pokes 1016 [5] ++ [call 150 [0; 1000; 1500]; call 150 [0; 0; 2000]]) [Some 0; Some 0] 2016 [5] = true.
Proof. intros []; repeat (split; [vm_compute; reflexivity|]); vm_compute; reflexivity. Qed.
Print Assumptions C131_same_record_refuted.

Example C131_nonvacuous : forall chk,
  gives chk 0 (pokes 1000 [5] ++ [Host (PThreadInit 1 7); call 147 [10; 1000; 0]; call 68 [2]] ++ pokes 1000 [8] ++ [call 147 [11; 1000; 0]; call 147 [10; 0; 2000]; Call 2 147 [10; 0; 3000] calm])
    [Some 0; Some 0; Some 0; Some 0; Some 0] 2000 [5] = true /\ keeps_action 1 10 (PFork 1 2) = true /\ keeps_action 1 10 (PSigaction 1 11 None) = true.
Proof. intros []; (split; [vm_compute; reflexivity|split; reflexivity]). Qed.

(** ** C132: optional pointers and time limits *)

(** Full claim: sem_timedwait of any valid time limit (nanoseconds below 10^9)
    takes the semaphore at once if its value is not zero, else waits, and says
    ETIMEDOUT when the limit is over. It holds for at most four nanoseconds, and
    for builds that do not check overflow. *)
Theorem C132_timed_partial : forall chk s c e a, bytes_only (g_m s) -> Forall is_word (words a) -> a1 a < 2 ^ 32 ->
  limit_valid (g_m s) (a2 a) -> word_at (g_m s) (a2 a) < 2 ^ 64 - 4 -> chk = false \/ nanos (g_m s) (a2 a) <= 4 ->
  does chk s e c (ForTimed (SemWait (a1 a))) (enter chk s e c 94 a).
Proof. exact timed. Qed.
Print Assumptions C132_timed_partial.

(** With five nanoseconds a build that checks overflow goes down, although the
    semaphore is free; cond_timedwait likewise. *)
Theorem C132_timed_refuted :
  goes_down true (pokes 208 [5] ++ [call 91 [4096; 0; 1]]) 94 [4096; 200] = true /\
  gives true 0 (pokes 208 [5] ++ [call 91 [4096; 0; 1]; call 92 [4096]; call 97 [4096]]) [Some 0; Some 0; Some 0] 0 [] = true /\
  goes_down true (pokes 208 [5] ++ [call 70 []; call 75 []; call 72 [0]]) 80 [0; 0; 200] = true.
Proof. split; [|split]; vm_compute; reflexivity. Qed.
Print Assumptions C132_timed_refuted.

(** Documented: shmat with the null address takes an address that the system
    chooses. The null address is refused with EFAULT. *)
Theorem C132_null_refuted : forall chk f s c e id p, p = 0 -> bytes_only (g_m s) -> int_word id f ->
  (forall v, is_word v -> enter chk s e c 63 (Args id p v 0 0 0) = Rep s (Some (-14))).
Proof.
  intros chk f s c e id p -> B V v W. apply declined; [exact B| |].
  - assert (X : is_word id) by (destruct V as [_ V]; rewrite V; unfold is_word; pose proof (Z.mod_pos_bound f (2 ^ 32) ltac:(lia)); lia).
    assert (Z0 : is_word 0) by (split; [discriminate|reflexivity]).
    exact (Forall_cons_2 _ _ _ X (Forall_cons_2 _ _ _ Z0 (Forall_cons_2 _ _ _ W (Forall_cons_2 _ _ _ Z0 (Forall_cons_2 _ _ _ Z0 (Forall_cons_2 _ _ _ Z0 (Forall_nil_2 _))))))).
  - apply (de_plain _ _ 63 [AInt; APtr; AInt]); [unfold gtable; now repeat constructor|]. exists 1%nat, [Num f], APtr, 0. split; [|split; [reflexivity|split; [reflexivity|constructor]]].
    destruct V as [I V]. rewrite V. constructor; [exact (st_int _ f I)|constructor].
Qed.
Print Assumptions C132_null_refuted.

Example C132_nonvacuous :
  gives true 0 (pokes 200 [1] ++ pokes 208 [4] ++ [call 91 [4096; 0; 1]; call 94 [4096; 200]; call 94 [4096; 200]; Call 1 94 [4096; 200] (Env 7 0 0 false true (fun _ => 0))])
    [Some 0; Some 0; None; Some (-110)] 0 [] = true /\
  gives false 0 (pokes 208 [0; 202; 154; 59] ++ [call 91 [4096; 0; 1]; call 94 [4096; 200]; call 94 [4096; 0]]) [Some 0; Some (-22); Some (-14)] 0 [] = true /\
  gives false 0 (pokes 208 [255; 201; 154; 59] ++ [call 91 [4096; 0; 1]; call 94 [4096; 200]]) [Some 0; Some 0] 0 [] = true /\
  gives true 0 [call 62 [7; 100; 512]; call 63 [1; 0; 0]; call 63 [1; 4096; 0]] [Some 1; Some (-14); Some 4096] 0 [] = true.
Proof. split; [|split; [|split]]; vm_compute; reflexivity. Qed.
