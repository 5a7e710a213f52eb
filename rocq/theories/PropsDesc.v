(** Properties C14, C15, C17, C18, C19, C20, C21, C36, C67: descriptors. *)
From Verif Require Import Base PathModel PathSpec FsModel FsBoot FsSpec FsReachSpec FdSpec FsTree FsDesc.
Local Open Scope list_scope.
Local Open Scope Z_scope.

(** Process 1 opens a file, a pipe and an epoll instance. *)
Definition hist_desc : list (Z * op) :=
  [(1, Open "/f" 66 438); (1, Write 3 [7; 8; 9]); (1, Pipe2 524288); (1, EpollCreate 1); (1, Dup 3)].

(** ** C14 *)
(** A call that allocates a descriptor and succeeds returns the smallest free
    number that is not below the requested minimum, and changes no other
    descriptor of any process. Missing: dup(0), see below. *)
Theorem C14_lowest_free_partial : forall w c o w' r m,
  alloc_from o = Some m -> o <> Dup 0 -> step w c o = Done (w', Ret r) -> 0 <= r ->
  allocated (w_fds w) (w_fds w') c m r.
Proof. exact alloc_lowest. Qed.
Print Assumptions C14_lowest_free_partial.

(** ENFILE only when no number is free, and without any effect. *)
Theorem C14_enfile_only_when_full : forall w c o w' m,
  alloc_from o = Some m -> step w c o = Done (w', Ret (err ENFILE)) -> none_free (w_fds w) c m /\ w' = w.
Proof. exact ENFILE_alloc. Qed.
Print Assumptions C14_enfile_only_when_full.

(** ENFILE whenever no number is free (and the other arguments are in order). *)
Theorem C14_full_gives_enfile : forall w c o m,
  alloc_from o = Some m -> is_Some (w_cwd w !! c) -> args_ok (w_fds w) c o ->
  none_free (w_fds w) c m -> step w c o = Done (w, Ret (err ENFILE)).
Proof. exact full_ENFILE. Qed.
Print Assumptions C14_full_gives_enfile.

(** A hole in the table is reused; a minimum is respected; a full table. *)
Example C14_nonvacuous :
  (exists wx, run fresh_world (hist_desc ++ [(1, Close 4); (1, Open "/f" 0 0); (1, Fcntl 3 F_DUPFD 10); (1, Fcntl 3 F_DUPFD 10)]) = Some wx /\
     drop 6 wx.2 = [Ret 4; Ret 10; Ret 11]) /\
  (exists wx, run fresh_world (map (fun k => (1, Dup2 1 k)) (seqZ 3 1020) ++ [(1, Dup 1); (1, Dup 1); (1, Open "/f" 66 438); (1, EpollCreate 5)]) = Some wx /\
     drop 1020 wx.2 = [Ret 1023; Ret (err ENFILE); Ret (err ENFILE); Ret (err ENFILE)]).
Proof. split; run_ex (fresh_world, @nil out) (Ret 0). Qed.

(** C14 is false of dup(0): it returns 0, which is in use, and duplicates
    nothing (fs_calls.rs 3287-3289). *)
Theorem C14_lowest_free_refuted :
  is_Some (w_fds fresh_world !! (1, 0)) /\ step fresh_world 1 (Dup 0) = Done (fresh_world, Ret 0).
Proof.
  split.
  - assert (H : match w_fds fresh_world !! (1, 0) with Some _ => true | None => false end = true) by (vm_compute; reflexivity).
    destruct (w_fds fresh_world !! (1, 0)); [eauto|discriminate].
  - assert (H : match w_cwd fresh_world !! 1 with Some _ => true | None => false end = true) by (vm_compute; reflexivity).
    unfold step. destruct (w_cwd fresh_world !! 1); [reflexivity|discriminate].
Qed.
Print Assumptions C14_lowest_free_refuted.

(** ** C15 *)
(** No call changes the descriptors or the working directory of another
    process [c'], except fork or exec with the number [c'] as target. Holds in
    every state, reachable or not. *)
Theorem C15_isolation_partial : forall w c o w' r c',
  step w c o = Done (w', r) -> c' <> c -> (forall ch, o = Fork ch \/ o = Exec ch -> c' <> ch) ->
  w_cwd w' !! c' = w_cwd w !! c' /\ forall fd, w_fds w' !! (c', fd) = w_fds w !! (c', fd).
Proof. exact isolation. Qed.
Print Assumptions C15_isolation_partial.

Example C15_nonvacuous : exists wx,
  run fresh_world (hist_desc ++ [(1, Fork 2); (2, Mkdir "/d" 511); (2, Chdir "/d"); (2, Close 3); (2, Lseek 7 2 0); (1, Read 3 1); (1, Getcwd 100); (2, Getcwd 100); (1, Lseek 7 0 1)]) = Some wx /\
  drop 10 wx.2 = [RetData 0 []; RetPath "/"; RetPath "/d"; Ret 3].
Proof. run_ex (fresh_world, @nil out) (Ret 0). Qed.

(** C15 is false in general: fork with the number of a live process replaces
    that process. *)
Theorem C15_isolation_refuted : exists w w',
  reach_any w /\ step w 1 (Fork 2) = Done (w', Ret 0) /\
  is_Some (w_fds w !! (2, 3)) /\ w_fds w' !! (2, 3) = None.
Proof.
  assert (H : exists wx, run fresh_world [(1, Fork 2); (2, Open "/f" 66 438)] = Some wx /\
    match w_fds wx.1 !! (2, 3) with Some _ => true | None => false end = true /\
    exists w', step wx.1 1 (Fork 2) = Done (w', Ret 0) /\ match w_fds w' !! (2, 3) with Some _ => true | None => false end = false).
  { apply (ex_some (fresh_world, @nil out)); [vm_compute; reflexivity|]. split; [vm_compute; reflexivity|]. run_ex fresh_world (Ret 0). }
  destruct H as (wx & Hr & H1 & w' & Hs & H2). exists wx.1, w'. split; [exact (run_any _ _ Hr)|]. split; [exact Hs|].
  split; [destruct (w_fds wx.1 !! (2, 3)); [eauto|discriminate]|]. destruct (w_fds w' !! (2, 3)); [discriminate|reflexivity].
Qed.
Print Assumptions C15_isolation_refuted.

(** ** C17 *)
(** dup, F_DUPFD and dup2: the new number refers to the same object in the
    same access mode at the same offset, close-on-exec is clear, every other
    number of every process is unchanged. Missing: sharing of the offset
    afterwards, dup(0) and dup2(a, a) with a closed. *)
Theorem C17_dup_partial : forall w c fd w' n,
  step w c (Dup fd) = Done (w', Ret n) -> 0 <= n -> fd <> 0 -> dups (w_fds w) (w_fds w') c fd n.
Proof. exact dup_dups. Qed.
Print Assumptions C17_dup_partial.

Theorem C17_dupfd_partial : forall w c fd arg w' n,
  step w c (Fcntl fd F_DUPFD arg) = Done (w', Ret n) -> 0 <= n -> dups (w_fds w) (w_fds w') c fd n /\ arg <= n.
Proof. exact dupfd_dups. Qed.
Print Assumptions C17_dupfd_partial.

Theorem C17_dup2_partial : forall w c a b w' n,
  step w c (Dup2 a b) = Done (w', Ret n) -> 0 <= n -> a <> b -> n = b /\ dups (w_fds w) (w_fds w') c a b.
Proof. exact dup2_dups. Qed.
Print Assumptions C17_dup2_partial.

Example C17_nonvacuous : exists wx,
  run fresh_world (hist_desc ++ [(1, Fcntl 4 F_GETFD 0); (1, Dup 4); (1, Fcntl 8 F_GETFD 0); (1, Dup2 3 4); (1, Fcntl 3 F_DUPFD 20)]) = Some wx /\
  drop 5 wx.2 = [Ret 524288; Ret 8; Ret 0; Ret 4; Ret 20].
Proof. run_ex (fresh_world, @nil out) (Ret 0). Qed.

(** C17 is false: (1) the offset is copied, not shared: after dup a write
    through one number does not move the other, so the second write overwrites
    the first; (2) dup2(a, a) of a closed number succeeds. *)
Theorem C17_shared_offset_refuted :
  (exists wx, run fresh_world [(1, Open "/f" 66 438); (1, Dup 3); (1, Write 3 [1; 2]); (1, Write 4 [9]); (1, Pread 3 10 0)] = Some wx /\
     drop 1 wx.2 = [Ret 4; Ret 2; Ret 1; RetData 2 [9; 2]]) /\
  (exists wx, run fresh_world [(1, Fstat 7); (1, Dup2 7 7)] = Some wx /\ wx.2 = [Ret (err EBADF); Ret 7]).
Proof. split; run_ex (fresh_world, @nil out) (Ret 0). Qed.
Print Assumptions C17_shared_offset_refuted.

(** ** C18 *)
(** Closing an open descriptor succeeds, removes exactly that number, and the
    second close fails with EBADF (histories that avoid [tame]). *)
Theorem C18_close_partial : forall w c fd d, reach true w -> w_fds w !! (c, fd) = Some d ->
  exists w', step w c (Close fd) = Done (w', Ret 0) /\ w_fds w' = delete (c, fd) (w_fds w) /\ w_cwd w' = w_cwd w /\
             step w' c (Close fd) = Done (w', Ret (err EBADF)).
Proof. exact close_exact. Qed.
Print Assumptions C18_close_partial.

Example C18_nonvacuous : exists wx,
  run fresh_world (hist_desc ++ [(1, Unlink "/f"); (1, Close 3); (1, Close 3); (1, Close 4); (1, Close 6); (1, Close 7)]) = Some wx /\
  drop 6 wx.2 = [Ret 0; Ret (err EBADF); Ret 0; Ret 0; Ret 0].
Proof. run_ex (fresh_world, @nil out) (Ret 0). Qed.

(** C18 is false in general: dup2 of an epoll descriptor onto an open file
    fails with EACCES after the file's reference has been given up; closing
    the descriptor then aborts. *)
Theorem C18_close_refuted : exists w,
  reach_any w /\ is_Some (w_fds w !! (1, 3)) /\ step w 1 (Close 3) = Panic.
Proof.
  assert (H : exists wx, run fresh_world [(1, Open "/f" 66 438); (1, EpollCreate 1); (1, Dup2 4 3)] = Some wx /\
    match w_fds wx.1 !! (1, 3) with Some _ => true | None => false end = true /\
    match step wx.1 1 (Close 3) with Panic => true | Done _ => false end = true) by run_ex (fresh_world, @nil out) (Ret 0).
  destruct H as (wx & Hr & H1 & H2). exists wx.1. split; [exact (run_any _ _ Hr)|].
  split; [destruct (w_fds wx.1 !! (1, 3)); [eauto|discriminate]|]. destruct (step wx.1 1 (Close 3)); [discriminate|reflexivity].
Qed.
Print Assumptions C18_close_refuted.

(** ** C19 *)
(** fork: all descriptors of the parent are in the child, identical; the only
    additional ones can be the three standard streams. *)
Theorem C19_fork_partial : forall w c ch w', reach true w -> w_cwd w !! ch = None -> step w c (Fork ch) = Done (w', Ret 0) ->
  forall a fd, w_fds w' !! (a, fd) =
    if a =? ch then match w_fds w !! (c, fd) with Some d => Some d | None => init_fdtable ch ∅ !! (ch, fd) end
    else w_fds w !! (a, fd).
Proof. exact fork_fds. Qed.
Print Assumptions C19_fork_partial.

(** hence exactly the parent's, if the parent has its standard streams open *)
Theorem C19_fork_exact_partial : forall w c ch w', reach true w -> w_cwd w !! ch = None -> step w c (Fork ch) = Done (w', Ret 0) ->
  (forall fd, 0 <= fd < 3 -> is_Some (w_fds w !! (c, fd))) ->
  forall fd, w_fds w' !! (ch, fd) = w_fds w !! (c, fd).
Proof. exact fork_exact. Qed.
Print Assumptions C19_fork_exact_partial.

(** exec keeps exactly the descriptors without close-on-exec and touches no
    other process *)
Theorem C19_exec_partial : forall w c ch w' r, reach true w -> (ch = c \/ w_cwd w !! ch = None) -> step w c (Exec ch) = Done (w', r) ->
  (forall fd d, w_fds w' !! (ch, fd) = Some d <-> w_fds w !! (c, fd) = Some d /\ ~ cloexec d) /\
  (forall a fd, a <> ch -> a <> c -> w_fds w' !! (a, fd) = w_fds w !! (a, fd)) /\
  (ch <> c -> forall fd, w_fds w' !! (c, fd) = None).
Proof. exact exec_exact. Qed.
Print Assumptions C19_exec_partial.

(** exit releases all descriptors of the process and nothing else *)
Theorem C19_exit_partial : forall w c st w' r, reach true w -> step w c (Exit st) = Done (w', r) ->
  w_cwd w' = delete c (w_cwd w) /\ forall a fd, w_fds w' !! (a, fd) = if a =? c then None else w_fds w !! (a, fd).
Proof. exact exit_fds. Qed.
Print Assumptions C19_exit_partial.

Example C19_nonvacuous : exists wx,
  run fresh_world (hist_desc ++ [(1, Fork 2); (2, Exec 3); (3, Fcntl 4 F_GETFD 0); (3, Fcntl 7 F_GETFL 0); (3, Exit 5); (1, Pread 7 9 0); (1, Fcntl 4 F_GETFD 0)]) = Some wx /\
  drop 5 wx.2 = [Ret 0; Ret 0; Ret (err EBADF); Ret 2; Ret 5; RetData 3 [7; 8; 9]; Ret 524288].
Proof. run_ex (fresh_world, @nil out) (Ret 0). Qed.

(** C19 is false in general: a parent that has closed its standard input gets
    a child in which descriptor 0 is open. *)
Theorem C19_fork_refuted : exists w w',
  reach true w /\ w_cwd w !! 2 = None /\ step w 1 (Fork 2) = Done (w', Ret 0) /\
  w_fds w !! (1, 0) = None /\ is_Some (w_fds w' !! (2, 0)).
Proof.
  assert (H : exists w, step fresh_world 1 (Close 0) = Done (w, Ret 0) /\
    (match w_cwd w !! 2 with None => true | Some _ => false end = true /\
     match w_fds w !! (1, 0) with None => true | Some _ => false end = true /\
     exists w', step w 1 (Fork 2) = Done (w', Ret 0) /\
     match w_fds w' !! (2, 0) with None => false | Some _ => true end = true)) by run_ex fresh_world (Ret 0).
  destruct H as (w & S1 & H1 & H2 & w' & S2 & H3). exists w, w'.
  split; [eapply reach_step; [constructor|exact S1|exact I]|]. split; [destruct (w_cwd w !! 2); [discriminate|reflexivity]|].
  split; [exact S2|]. split; [destruct (w_fds w !! (1, 0)); [discriminate|reflexivity]|].
  destruct (w_fds w' !! (2, 0)); [eauto|discriminate].
Qed.
Print Assumptions C19_fork_refuted.

(** ** C20 *)
Theorem C20_setfd_getfd : forall w c fd arg w',
  step w c (Fcntl fd F_SETFD arg) = Done (w', Ret 0) ->
  step w' c (Fcntl fd F_GETFD 0) = Done (w', Ret (Z.land arg O_CLOEXEC)).
Proof. exact setfd_getfd. Qed.
Print Assumptions C20_setfd_getfd.

Theorem C20_setfl_keeps_access_mode : forall w c fd arg w' r d,
  step w c (Fcntl fd F_SETFL arg) = Done (w', r) -> w_fds w !! (c, fd) = Some d ->
  exists d', w_fds w' !! (c, fd) = Some d' /\ Z.land (fd_flags d') 3 = Z.land (fd_flags d) 3.
Proof. exact setfl_mode. Qed.
Print Assumptions C20_setfl_keeps_access_mode.

Theorem C20_getfl_no_creation_flags : forall w c fd a w' r,
  step w c (Fcntl fd F_GETFL a) = Done (w', Ret r) -> 0 <= r ->
  Z.land r creation_bits = 0 /\ exists d, w_fds w !! (c, fd) = Some d /\ Z.land r 3 = Z.land (fd_flags d) 3.
Proof. exact getfl_bits. Qed.
Print Assumptions C20_getfl_no_creation_flags.

(** F_DUPFD is in C17; every other command leaves the whole world alone except
    the flag word of this descriptor. *)
Theorem C20_fcntl_affects_nothing_else : forall w c fd cmd arg w' r,
  step w c (Fcntl fd cmd arg) = Done (w', r) -> cmd <> F_DUPFD ->
  w' = w \/ exists d fl, w_fds w !! (c, fd) = Some d /\ w' = put_fd c fd (set_flags fl d) w.
Proof. exact fcntl_frame. Qed.
Print Assumptions C20_fcntl_affects_nothing_else.

Example C20_nonvacuous : exists wx,
  run fresh_world (hist_desc ++ [(1, Fcntl 3 F_SETFD 524288); (1, Fcntl 3 F_GETFD 0); (1, Fcntl 3 F_SETFD 0); (1, Fcntl 3 F_GETFD 0);
    (1, Fcntl 3 F_SETFL 2625); (1, Fcntl 3 F_GETFL 0); (1, Fcntl 7 F_GETFL 0)]) = Some wx /\
  drop 5 wx.2 = [Ret 0; Ret 524288; Ret 0; Ret 0; Ret 0; Ret 2050; Ret 2].
Proof. run_ex (fresh_world, @nil out) (Ret 0). Qed.

(** ** C67 *)
(** C67 is false: F_SETFL sets the close-on-exec flag to whatever the
    O_CLOEXEC bit of its argument is. *)
Theorem C67_setfl_overwrites_cloexec_refuted : forall w c fd arg w',
  step w c (Fcntl fd F_SETFL arg) = Done (w', Ret 0) ->
  step w' c (Fcntl fd F_GETFD 0) = Done (w', Ret (Z.land arg O_CLOEXEC)).
Proof. exact setfl_getfd. Qed.
Print Assumptions C67_setfl_overwrites_cloexec_refuted.

(** So O_NONBLOCK set in the usual way on a close-on-exec descriptor makes it
    survive exec; and F_SETFD with the POSIX value FD_CLOEXEC = 1 sets nothing. *)
Theorem C67_setfl_cloexec_refuted :
  (exists wx, run fresh_world [(1, Open "/f" (66 + 524288) 438); (1, Fcntl 3 F_GETFD 0); (1, Fcntl 3 F_SETFL 2048); (1, Fcntl 3 F_GETFD 0); (1, Exec 2); (2, Fstat 3)] = Some wx /\
     drop 1 wx.2 = [Ret 524288; Ret 0; Ret 0; Ret 0; RetStat 9 33206 1 0 0]) /\
  (exists wx, run fresh_world [(1, Open "/f" 66 438); (1, Fcntl 3 F_SETFD 1); (1, Fcntl 3 F_GETFD 0)] = Some wx /\
     wx.2 = [Ret 3; Ret 0; Ret 0]).
Proof. split; run_ex (fresh_world, @nil out) (Ret 0). Qed.
Print Assumptions C67_setfl_cloexec_refuted.

(** Full statement: close-on-exec changes only through F_SETFD and the status
    flags only through F_SETFL. Missing: an F_SETFL whose argument was not read
    with F_GETFL first. With the usual read-modify-write (F_GETFL, add or
    remove other bits, F_SETFL) close-on-exec is kept, because F_GETFL reports
    it among the status flags. *)
Theorem C67_idiom_partial : forall w c fd g e n w',
  step w c (Fcntl fd F_GETFL 0) = Done (w, Ret g) -> step w c (Fcntl fd F_GETFD 0) = Done (w, Ret e) -> 0 <= e ->
  Z.land n O_CLOEXEC = 0 -> step w c (Fcntl fd F_SETFL (Z.lor g n)) = Done (w', Ret 0) ->
  step w' c (Fcntl fd F_GETFD 0) = Done (w', Ret e).
Proof. exact setfl_idiom. Qed.
Print Assumptions C67_idiom_partial.

(** The other direction: F_SETFD changes nothing F_GETFL reports but that bit. *)
Theorem C67_setfd_keeps_status_partial : forall w c fd arg w' g,
  step w c (Fcntl fd F_GETFL 0) = Done (w, Ret g) -> step w c (Fcntl fd F_SETFD arg) = Done (w', Ret 0) ->
  exists g', step w' c (Fcntl fd F_GETFL 0) = Done (w', Ret g') /\ Z.ldiff g' O_CLOEXEC = Z.ldiff g O_CLOEXEC.
Proof. exact setfd_getfl. Qed.
Print Assumptions C67_setfd_keeps_status_partial.

Example C67_nonvacuous : exists wx,
  run fresh_world [(1, Open "/f" (66 + 524288) 438); (1, Fcntl 3 F_GETFL 0); (1, Fcntl 3 F_SETFL (Z.lor 524290 2048));
    (1, Fcntl 3 F_GETFD 0); (1, Fcntl 3 F_SETFD 0); (1, Fcntl 3 F_GETFL 0)] = Some wx /\
  drop 1 wx.2 = [Ret 524290; Ret 0; Ret 524288; Ret 0; Ret 2050].
Proof. run_ex (fresh_world, @nil out) (Ret 0). Qed.

(** ** C21 *)
(** A number that is in the legal range but not open: EBADF, no effect. *)
Theorem C21_closed_number_ebadf_partial : forall w c o fd,
  fd_arg o = Some fd -> is_Some (w_cwd w !! c) -> plain_args o -> 0 <= fd < 1024 ->
  w_fds w !! (c, fd) = None -> step w c o = Done (w, Ret (err EBADF)).
Proof. exact bad_in_range. Qed.
Print Assumptions C21_closed_number_ebadf_partial.

(** A number out of range: EBADF from dup, dup2 and getdents only, all other
    calls abort the runtime. So C21 is false in every state. *)
Theorem C21_out_of_range_refuted : forall w c o fd,
  fd_arg o = Some fd -> is_Some (w_cwd w !! c) -> plain_args o -> fd < 0 \/ 1024 <= fd ->
  step w c o = if checks_range o then Done (w, Ret (err EBADF)) else Panic.
Proof. exact bad_out_of_range. Qed.
Print Assumptions C21_out_of_range_refuted.

Example C21_nonvacuous :
  is_Some (w_cwd fresh_world !! 1) /\ w_fds fresh_world !! (1, 17) = None /\
  (exists wx, run fresh_world [(1, Read 17 5); (1, Write 17 [1]); (1, Close 17); (1, Dup (-1)); (1, Dup2 5000 1)] = Some wx /\
     wx.2 = replicate 5 (Ret (err EBADF))).
Proof.
  assert (H : match w_cwd fresh_world !! 1 with Some _ => true | None => false end = true) by (vm_compute; reflexivity).
  assert (H' : match w_fds fresh_world !! (1, 17) with Some _ => true | None => false end = false) by (vm_compute; reflexivity).
  split; [destruct (w_cwd fresh_world !! 1); [eauto|discriminate]|].
  split; [destruct (w_fds fresh_world !! (1, 17)); [discriminate|reflexivity]|].
  run_ex (fresh_world, @nil out) (Ret 0).
Qed.

(** ** C36 *)
(** pipe2 that succeeds: the two smallest free numbers become the read and the
    write end of one new empty pipe; nothing else changes. *)
Theorem C36_pipe2_success : forall w c fl w' a b, step w c (Pipe2 fl) = Done (w', RetFds 0 a b) ->
  lowest_free (w_fds w) c 0 a /\ a < b /\ (w_fds w !! (c, b) = None) /\ (forall k, 0 <= k < b -> k <> a -> is_Some (w_fds w !! (c, k))) /\
  w_pipes w' = <[w_npipe w := Pipe [] 1 1]> (w_pipes w) /\
  exists f1 f2, w_fds w' = <[(c, b) := FPipe (w_npipe w) f2]> (<[(c, a) := FPipe (w_npipe w) f1]> (w_fds w)) /\
    is_rdonly f1 = true /\ is_wronly f2 = true.
Proof. exact pipe2_success. Qed.
Print Assumptions C36_pipe2_success.

(** It fails without effect when no number is free. Missing: exactly one free
    number, see below. *)
Theorem C36_pipe2_all_or_nothing_partial : forall w c fl, is_Some (w_cwd w !! c) ->
  exists w' r a b, step w c (Pipe2 fl) = Done (w', RetFds r a b) /\
  (none_free (w_fds w) c 0 /\ w' = w /\ r = err ENFILE \/
   (exists a, lowest_free (w_fds w) c 0 a /\ none_free (<[(c, a) := FEpoll 0]> (w_fds w)) c 0) \/
   r = 0).
Proof. exact pipe2_total. Qed.
Print Assumptions C36_pipe2_all_or_nothing_partial.

Example C36_nonvacuous : exists wx,
  run fresh_world [(1, Close 1); (1, Pipe2 0); (1, Write 3 [5; 6]); (1, Read 1 9)] = Some wx /\
  drop 1 wx.2 = [RetFds 0 1 3; Ret 2; RetData 2 [5; 6]].
Proof. run_ex (fresh_world, @nil out) (Ret 0). Qed.

(** C36 is false in general: with one free number left, pipe2 fails with
    ENFILE but leaves a descriptor of a pipe behind. *)
Theorem C36_pipe2_all_or_nothing_refuted : exists wx,
  run fresh_world (map (fun k => (1, Dup2 1 k)) (seqZ 3 1020) ++ [(1, Fstat 1023); (1, Pipe2 0); (1, Fstat 1023)]) = Some wx /\
  drop 1020 wx.2 = [Ret (err EBADF); RetFds (err ENFILE) 1023 (-1); RetStat PIPEINODE 49590 1 0 0].
Proof. run_ex (fresh_world, @nil out) (Ret 0). Qed.
Print Assumptions C36_pipe2_all_or_nothing_refuted.
