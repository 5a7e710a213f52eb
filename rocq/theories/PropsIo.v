(** Properties C22-C28: contents of files, offsets, access modes, permission
    bits, directory listings. *)
From Verif Require Import Base PathModel PathSpec FsModel FsBoot FsSpec FsReachSpec FsReach FdSpec FsNameSpec FsTree FsIoSpec FsPos FsMode FsIo.
Local Open Scope list_scope.
Local Open Scope Z_scope.

(** ** C22 *)
(** Take any file [i] with contents [l] and any history of calls of any
    processes during which it exists. The write, writev, pwrite, ftruncate,
    truncate and truncating open calls on it, whichever name or descriptor
    they use, act as array operations applied one after the other; nothing
    else changes it; and at the end every reader sees that array. *)
Theorem C22_refines_array : forall w i l h acts w',
  reach true w -> bytes w i = Some l -> requests i w h acts w' ->
  exists l', applied_all acts l l' /\ seen_as w' i l'.
Proof. exact io_refines. Qed.
Print Assumptions C22_refines_array.

(** The contents of every reachable file are seen *)
Theorem C22_seen : forall w i l, reach true w -> bytes w i = Some l -> seen_as w i l.
Proof. intros w i l Hr. apply bytes_seen. exact (reach_winv _ _ Hr). Qed.
Print Assumptions C22_seen.

(** A write or writev puts all its bytes at the offset of the descriptor,
    returns their number and advances the offset by it; a pwrite puts them
    where it is told and leaves the offset alone. (Fewer than 2 GiB at a
    time.) *)
Theorem C22_write : forall w c fd i pos fl l bs,
  reach true w -> w_fds w !! (c, fd) = Some (FFile i pos fl) -> bytes w i = Some l -> Z.land fl 3 <> 0 -> len bs < 2147483648 ->
  exists w' l', step w c (Write fd bs) = Done (w', Ret (len bs)) /\
    w_fds w' = <[(c, fd) := FFile i (pos + len bs) fl]> (w_fds w) /\ bytes w' i = Some l' /\ applied (AWrite pos bs) l l'.
Proof. exact write_exact. Qed.
Print Assumptions C22_write.
Theorem C22_writev : forall w c fd i pos fl l iov,
  reach true w -> w_fds w !! (c, fd) = Some (FFile i pos fl) -> bytes w i = Some l -> Z.land fl 3 <> 0 -> len (concat iov) < 2147483648 ->
  exists w' l', step w c (Writev fd iov) = Done (w', Ret (len (concat iov))) /\
    w_fds w' = <[(c, fd) := FFile i (pos + len (concat iov)) fl]> (w_fds w) /\ bytes w' i = Some l' /\ applied (AWrite pos (concat iov)) l l'.
Proof. exact writev_exact. Qed.
Print Assumptions C22_writev.
Theorem C22_pwrite : forall w c fd i pos fl l bs off,
  reach true w -> w_fds w !! (c, fd) = Some (FFile i pos fl) -> bytes w i = Some l -> Z.land fl 3 <> 0 -> len bs < 2147483648 -> 0 <= off ->
  exists w' l', step w c (Pwrite fd bs off) = Done (w', Ret (len bs)) /\
    w_fds w' = w_fds w /\ bytes w' i = Some l' /\ applied (AWrite off bs) l l'.
Proof. exact pwrite_exact. Qed.
Print Assumptions C22_pwrite.

(** "abc", then "xy" at 5, then cut to 6: "abc", two zeros, "x" *)
Definition h22 : list (Z * op) := [(1, Open "/f" 66 420); (1, Write 3 [97; 98; 99]); (1, Pwrite 3 [120; 121] 5); (1, Ftruncate 3 6)].
Example C22_nonvacuous :
  (exists w1, step fresh_world 1 (Open "/f" 66 420) = Done (w1, Ret 3) /\ bytes w1 9 = Some [] /\
   w_fds w1 !! (1, 3) = Some (FFile 9 0 2)) /\
  exists wx, run fresh_world (h22 ++ [(1, Pread 3 100 0); (1, Fstat 3); (1, Stat "/f")]) = Some wx /\
    drop 4 wx.2 = [RetData 6 [97; 98; 99; 0; 0; 120]; RetStat 9 33188 1 6 0; RetStat 9 33188 1 6 0].
Proof. split; [run_ex fresh_world (Ret 0)|run_ex (fresh_world, @nil out) (Ret 0)]. Qed.

Example C22_nonvacuous_requests : exists w w', reach true w /\ bytes w 9 = Some [] /\
  requests 9 w [(1, Pwrite 3 [120; 121] 5); (1, Stat "/f"); (1, Ftruncate 3 6)] [AWrite 5 [120; 121]; AResize 6] w'.
Proof.
  assert (H : exists w0, step fresh_world 1 (Open "/f" 66 420) = Done (w0, Ret 3) /\ w_fds w0 !! (1, 3) = Some (FFile 9 0 2) /\ bytes w0 9 = Some [] /\
    exists w1, step w0 1 (Pwrite 3 [120; 121] 5) = Done (w1, Ret 2) /\ bool_decide (is_Some (w_ino w1 !! 9)) = true /\
    exists w2, step w1 1 (Stat "/f") = Done (w2, RetStat 9 33188 1 7 0) /\ bool_decide (is_Some (w_ino w2 !! 9)) = true /\ w_fds w2 !! (1, 3) = Some (FFile 9 0 2) /\
    exists w3, step w2 1 (Ftruncate 3 6) = Done (w3, Ret 0) /\ bool_decide (is_Some (w_ino w3 !! 9)) = true).
  { run_ex fresh_world (Ret 0). }
  destruct H as (w0 & S0 & D0 & B0 & w1 & S1 & I1 & w2 & S2 & I2 & D2 & w3 & S3 & I3).
  apply bool_decide_eq_true in I1, I2, I3.
  exists w0, w3. split; [exact (reach_step true _ _ _ _ _ (reach_boot true) S0 I)|]. split; [exact B0|].
  refine (rq_change _ _ _ _ _ _ _ _ _ _ S1 I _ I1 _). { refine (ch_pwrite _ _ _ _ _ _ _ _ D0 _). discriminate. }
  refine (rq_other _ _ _ _ _ _ _ _ _ S2 I _ I2 _). { intros a Hc. inversion Hc. }
  refine (rq_change _ _ _ _ _ _ _ _ _ _ S3 I _ I3 _). { refine (ch_ftruncate _ _ _ _ _ _ _ D2 _ _); [discriminate|lia]. }
  apply rq_nil.
Qed.

(** The array operation of a write of no bytes beyond the end extends the
    file (as [applied] says); POSIX says it does nothing. *)
Theorem C22_empty_write_refuted : exists wx,
  run fresh_world [(1, Open "/f" 66 420); (1, Pwrite 3 [] 5); (1, Fstat 3)] = Some wx /\ drop 1 wx.2 = [Ret 0; RetStat 9 33188 1 5 0].
Proof. run_ex (fresh_world, @nil out) (Ret 0). Qed.
Print Assumptions C22_empty_write_refuted.

(** ** C23 *)
(** A read at an offset not beyond the end returns exactly the bytes of the
    file there, at most [n], as many as there are, and advances the offset by
    their number; nothing else changes. Missing: offsets beyond the end. *)
Theorem C23_read_partial : forall w c fd i pos fl l n,
  reach true w -> w_fds w !! (c, fd) = Some (FFile i pos fl) -> bytes w i = Some l ->
  Z.land fl 3 <> 1 -> 0 <= n < 2147483648 -> pos <= len l ->
  exists bs, slice l pos n bs /\
    step w c (Read fd n) = Done (with_fds (insert (c, fd) (FFile i (pos + len bs) fl)) w, RetData (len bs) bs).
Proof. exact read_exact. Qed.
Print Assumptions C23_read_partial.

(** In particular 0 at the end *)
Theorem C23_eof : forall w c fd i fl l n,
  reach true w -> w_fds w !! (c, fd) = Some (FFile i (len l) fl) -> bytes w i = Some l ->
  Z.land fl 3 <> 1 -> 0 <= n < 2147483648 ->
  exists w', step w c (Read fd n) = Done (w', RetData 0 []).
Proof.
  intros w c fd i fl l n Hr Hd Hl Hfl Hn. destruct (C23_read_partial w c fd i (len l) fl l n Hr Hd Hl Hfl Hn (Z.le_refl _)) as (bs & [Hs _] & E).
  assert (bs = []) as -> by (destruct bs; [reflexivity|unfold len in Hs; cbn in Hs; lia]). eexists. exact E.
Qed.
Print Assumptions C23_eof.

Example C23_nonvacuous : exists wx,
  run fresh_world [(1, Open "/f" 66 420); (1, Write 3 [97; 98; 99]); (1, Lseek 3 1 0); (1, Read 3 1); (1, Read 3 9); (1, Read 3 9)] = Some wx /\
  drop 3 wx.2 = [RetData 1 [98]; RetData 1 [99]; RetData 0 []].
Proof. run_ex (fresh_world, @nil out) (Ret 0). Qed.

(** C23 is false beyond the end: read and pread there stop the whole library
    (a panic in readat) instead of returning 0. *)
Theorem C23_beyond_end_refuted : exists wx,
  run fresh_world [(1, Open "/f" 66 420); (1, Lseek 3 1 0)] = Some wx /\ reach true wx.1 /\
  w_fds wx.1 !! (1, 3) = Some (FFile 9 1 2) /\ bytes wx.1 9 = Some [] /\
  step wx.1 1 (Read 3 1) = Panic /\ step wx.1 1 (Pread 3 1 1) = Panic.
Proof.
  assert (H : exists wx, run fresh_world [(1, Open "/f" 66 420); (1, Lseek 3 1 0)] = Some wx /\
    w_fds wx.1 !! (1, 3) = Some (FFile 9 1 2) /\ bytes wx.1 9 = Some [] /\ step wx.1 1 (Read 3 1) = Panic /\ step wx.1 1 (Pread 3 1 1) = Panic).
  { run_ex (fresh_world, @nil out) (Ret 0). }
  destruct H as (wx & Hr & H). exists wx. split; [exact Hr|]. split; [|exact H]. refine (run_plain true _ wx _ Hr). reflexivity.
Qed.
Print Assumptions C23_beyond_end_refuted.

(** ** C24 *)
Theorem C24_lseek_partial : forall w c fd i pos fl l off wh e,
  reach true w -> w_fds w !! (c, fd) = Some (FFile i pos fl) -> bytes w i = Some l ->
  target wh off pos (len l) = Some e -> 0 <= e < 2147483648 ->
  step w c (Lseek fd off wh) = Done (with_fds (insert (c, fd) (FFile i e fl)) w, Ret e).
Proof. exact lseek_ok. Qed.
Print Assumptions C24_lseek_partial.

Theorem C24_einval : forall w c fd i pos fl l off wh,
  reach true w -> w_fds w !! (c, fd) = Some (FFile i pos fl) -> bytes w i = Some l ->
  (target wh off pos (len l) = None \/ exists e, target wh off pos (len l) = Some e /\ isize_ok e /\ e < 0) ->
  step w c (Lseek fd off wh) = Done (w, Ret (err EINVAL)).
Proof. exact lseek_neg. Qed.
Print Assumptions C24_einval.

Example C24_nonvacuous : exists wx,
  run fresh_world [(1, Open "/f" 66 420); (1, Write 3 [97; 98; 99]); (1, Lseek 3 (-1) 2); (1, Lseek 3 5 1); (1, Lseek 3 (-8) 1); (1, Lseek 3 1 7); (1, Lseek 3 0 1)] = Some wx /\
  drop 2 wx.2 = [Ret 2; Ret 7; Ret (err EINVAL); Ret (err EINVAL); Ret 7].
Proof. run_ex (fresh_world, @nil out) (Ret 0). Qed.

(** C24 is false for offsets of 2 GiB and more: the offset moves, but the
    result is truncated to 32 bits, here to a number that looks like an error;
    and a displacement that leaves 64 bits stops the library. *)
Theorem C24_large_refuted : exists wx,
  run fresh_world [(1, Open "/f" 66 420); (1, Lseek 3 2147483648 0); (1, Lseek 3 (-2147483641) 1)] = Some wx /\
  drop 1 wx.2 = [Ret (-2147483648); Ret 7] /\ step wx.1 1 (Lseek 3 9223372036854775807 1) = Panic.
Proof. run_ex (fresh_world, @nil out) (Ret 0). Qed.
Print Assumptions C24_large_refuted.

(** ** C25 *)
(** No call that takes a read-only descriptor changes any file. ("tame"
    excludes the calls listed at its definition, here dup2 of an epoll
    descriptor.) *)
Theorem C25_read_only : forall w c o w' r fd j pos fl i,
  reach true w -> step w c o = Done (w', r) -> tame true w c o r ->
  fd_arg o = Some fd -> w_fds w !! (c, fd) = Some (FFile j pos fl) -> Z.land fl 3 = 0 ->
  is_Some (w_ino w !! i) -> is_Some (w_ino w' !! i) -> bytes w' i = bytes w i.
Proof. exact rdonly_quiet. Qed.
Print Assumptions C25_read_only.

(** No call that takes a write-only descriptor returns data. *)
Theorem C25_write_only : forall w c o w' r fd j pos fl,
  reach true w -> step w c o = Done (w', r) ->
  fd_arg o = Some fd -> w_fds w !! (c, fd) = Some (FFile j pos fl) -> Z.land fl 3 = 1 -> forall n bs, r <> RetData n bs.
Proof. exact wronly_nodata. Qed.
Print Assumptions C25_write_only.

(** The access mode is the one given to open ... *)
Theorem C25_mode_of_open : forall w c p fl m w' fd,
  reach true w -> step w c (Open p fl m) = Done (w', Ret fd) -> 0 <= fd ->
  exists i pos fl', w_fds w' !! (c, fd) = Some (FFile i pos fl') /\ Z.land fl' 3 = Z.land fl 3.
Proof. exact open_mode. Qed.
Print Assumptions C25_mode_of_open.

(** ... and no call by anyone changes it or makes the number refer to another
    thing, except dup2 onto the number (and except closing it). *)
Theorem C25_mode_fixed : forall w c o w' r a fd d d',
  reach true w -> step w c o = Done (w', r) -> tame true w c o r -> (forall x y, o = Dup2 x y -> (a, fd) <> (c, y)) ->
  w_fds w !! (a, fd) = Some d -> w_fds w' !! (a, fd) = Some d' -> same_access d d'.
Proof. intros w c o w' r a fd d d' Hr H Ht Hn Hd Hd'. exact (step_keep w c o w' r (a, fd) (reach_winv _ _ Hr) H Ht Hn d d' Hd Hd'). Qed.
Print Assumptions C25_mode_fixed.

Example C25_nonvacuous : exists wx,
  run fresh_world [(1, Open "/f" 66 420); (1, Write 3 [97]); (1, Open "/f" 0 0); (1, Open "/f" 1 0);
    (1, Write 4 [98]); (1, Ftruncate 4 0); (1, Pwrite 4 [98] 0); (1, Writev 4 [[98]]); (1, Fcntl 4 4 2); (1, Write 4 [98]);
    (1, Read 5 1); (1, Pread 5 1 0); (1, Read 4 9)] = Some wx /\
  drop 2 wx.2 = [Ret 4; Ret 5; Ret (err EBADF); Ret (err EBADF); Ret (err EBADF); Ret (err EBADF); Ret 0; Ret (err EBADF);
    Ret (err EBADF); Ret (err EBADF); RetData 1 [97]].
Proof. run_ex (fresh_world, @nil out) (Ret 0). Qed.

(** ** C26 *)
(** Missing: everything after the open. What the code does with O_APPEND is to
    set the initial offset to the end of the file (so a first write, if nobody
    else writes in between, goes to the end by C22). *)
Theorem C26_append_open_partial : forall w c cwd p q fl m w' fd i l,
  reach true w -> w_cwd w !! c = Some cwd -> denotes cwd p q -> resolves (w_ino w) q i ->
  bytes w i = Some l -> Z.land fl 1024 <> 0 -> Z.land fl 512 <> 512 -> step w c (Open p fl m) = Done (w', Ret fd) -> 0 <= fd ->
  bytes w' i = Some l /\ exists fl', w_fds w' !! (c, fd) = Some (FFile i (len l) fl') /\ Z.land fl' 3 = Z.land fl 3.
Proof. exact append_open. Qed.
Print Assumptions C26_append_open_partial.

Example C26_nonvacuous : exists wx,
  run fresh_world [(1, Open "/f" 66 420); (1, Write 3 [97; 98]); (1, Open "/f" 1025 0); (1, Write 4 [99]); (1, Pread 3 9 0)] = Some wx /\
  drop 2 wx.2 = [Ret 4; Ret 1; RetData 3 [97; 98; 99]].
Proof. run_ex (fresh_world, @nil out) (Ret 0). Qed.

(** C26 is false. Two descriptors opened with O_APPEND: the second write
    overwrites the first. And after lseek a write goes to the offset. *)
Theorem C26_append_refuted :
  (exists wx, run fresh_world [(1, Open "/f" 1090 420); (1, Open "/f" 1026 0); (1, Write 3 [97; 98]); (1, Write 4 [99]); (1, Pread 3 9 0)] = Some wx /\
     drop 2 wx.2 = [Ret 2; Ret 1; RetData 2 [99; 98]]) /\
  (exists wx, run fresh_world [(1, Open "/f" 1090 420); (1, Write 3 [97; 98]); (1, Lseek 3 0 0); (1, Write 3 [99]); (1, Pread 3 9 0)] = Some wx /\
     drop 3 wx.2 = [Ret 1; RetData 2 [99; 98]]).
Proof. split; run_ex (fresh_world, @nil out) (Ret 0). Qed.
Print Assumptions C26_append_refuted.

(** ** C27 *)
Theorem C27_chmod : forall w c cwd p q i x mode,
  reach true w -> w_cwd w !! c = Some cwd -> denotes cwd p q -> resolves (w_ino w) q i -> w_ino w !! i = Some x ->
  (Z.land mode 511 = mode -> exists w' m', step w c (Chmod p mode) = Done (w', Ret 0) /\ perms (i_mode x) mode m' /\
     w_ino w' = <[i := set_mode m' x]> (w_ino w) /\
     w_fds w' = w_fds w /\ w_cwd w' = w_cwd w /\ w_next w' = w_next w /\ (forall j, bytes w' j = bytes w j) /\ w_pipes w' = w_pipes w) /\
  (Z.land mode 511 <> mode -> step w c (Chmod p mode) = Done (w, Ret (err EINVAL))).
Proof. exact chmod_exact. Qed.
Print Assumptions C27_chmod.

Theorem C27_fchmod : forall w c fd i pos fl x mode,
  reach true w -> w_fds w !! (c, fd) = Some (FFile i pos fl) -> w_ino w !! i = Some x ->
  (Z.land mode 511 = mode -> exists w' m', step w c (Fchmod fd mode) = Done (w', Ret 0) /\ perms (i_mode x) mode m' /\
     w_ino w' = <[i := set_mode m' x]> (w_ino w) /\
     w_fds w' = w_fds w /\ w_cwd w' = w_cwd w /\ w_next w' = w_next w /\ (forall j, bytes w' j = bytes w j) /\ w_pipes w' = w_pipes w) /\
  (Z.land mode 511 <> mode -> step w c (Fchmod fd mode) = Done (w, Ret (err EINVAL))).
Proof. exact fchmod_exact. Qed.
Print Assumptions C27_fchmod.

Theorem C27_access : forall w c cwd p q i x amode,
  reach true w -> w_cwd w !! c = Some cwd -> denotes cwd p q -> resolves (w_ino w) q i -> w_ino w !! i = Some x ->
  (owner_may (i_mode x) amode -> step w c (Access p amode) = Done (w, Ret 0)) /\
  (~ owner_may (i_mode x) amode -> step w c (Access p amode) = Done (w, Ret (err EACCES))).
Proof. exact access_exact. Qed.
Print Assumptions C27_access.

Example C27_nonvacuous : exists wx,
  run fresh_world [(1, Open "/f" 66 420); (1, Access "/f" 6); (1, Access "/f" 1); (1, Chmod "/f" 320); (1, Stat "/f"); (1, Access "/f" 5); (1, Access "/f" 2);
    (1, Fchmod 3 128); (1, Stat "/f"); (1, Chmod "/f" 512); (1, Stat "/f")] = Some wx /\
  drop 1 wx.2 = [Ret 0; Ret (err EACCES); Ret 0; RetStat 9 33088 1 0 0; Ret 0; Ret (err EACCES); Ret 0; RetStat 9 32896 1 0 0; Ret (err EINVAL); RetStat 9 32896 1 0 0].
Proof. run_ex (fresh_world, @nil out) (Ret 0). Qed.

(** ** C28 *)
(** Repeated getdents calls from the start of a directory, with any buffer
    sizes: the entries returned one after the other form a duplicate-free part
    of the directory; and if every buffer is large enough for every entry,
    then a call returns 0 exactly when all entries have been returned. *)
Theorem C28_listing : forall w c fd d fl x ns,
  reach true w -> w_fds w !! (c, fd) = Some (FFile d 0 fl) -> w_ino w !! d = Some x -> i_kind x = KDir ->
  Forall (fun n => 18 < n < 2147483648) ns ->
  exists w' outs ls, run w (map (fun n => (c, Getdents fd n)) ns) = Some (w', outs) /\ Forall2 lists outs ls /\
    NoDup (concat ls) /\ (forall f j, (f, j) ∈ concat ls -> i_dict x !! f = Some j) /\
    (Forall (fun n => forall f j, i_dict x !! f = Some j -> holds n f) ns ->
       (forall l1 l2, ls = l1 ++ [] :: l2 -> forall f j, i_dict x !! f = Some j -> (f, j) ∈ concat l1) /\
       ((size (i_dict x) < length ns)%nat -> exists l1 l2, ls = l1 ++ [] :: l2)).
Proof. exact getdents_listing. Qed.
Print Assumptions C28_listing.

Example C28_nonvacuous : exists wx,
  run fresh_world ([(1, Mkdir "/d" 493); (1, Open "/d/a" 66 420); (1, Mkdir "/d/bb" 493); (1, Open "/d" 0 0)] ++
    map (fun n => (1, Getdents 4 n)) [30; 50; 40; 200; 300]) = Some wx /\
  match drop 4 wx.2 with
  | [RetDents 24 [a]; RetDents 48 [b; c]; RetDents 24 [d]; RetDents 0 []; RetDents 0 []] => 
     bool_decide (list_to_map [a; b; c; d] = (list_to_map [(".", 9); ("..", 1); ("a", 10); ("bb", 11)] : gmap string Z)) = true
  | _ => False
  end.
Proof. run_ex (fresh_world, @nil out) (Ret 0). Qed.

(** A buffer that is accepted (more than 18 bytes) but too small for the next
    entry is answered with 0, as if the listing were complete. *)
Theorem C28_small_buffer_refuted : exists wx,
  run fresh_world [(1, Mkdir "/d" 493); (1, Open "/d" 0 0); (1, Getdents 3 19)] = Some wx /\ drop 1 wx.2 = [Ret 3; RetDents 0 []].
Proof. run_ex (fresh_world, @nil out) (Ret 0). Qed.
Print Assumptions C28_small_buffer_refuted.
