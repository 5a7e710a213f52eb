(** Properties C06-C12: creating, removing, linking and moving names; failed
    calls; object numbers. *)
From Verif Require Import Base CodecModel PathModel PathSpec FsModel FsBoot FsSpec FsReachSpec FdSpec FsNameSpec FsTree
  FsNameProofs FsFail ExclModel ExclProofs.
From stdpp Require Import relations.
Local Open Scope list_scope.
Local Open Scope Z_scope.

(** ** C06 *)
(** A creating open: the path led nowhere; now it leads to a regular file that
    did not exist before, empty, with the requested permission bits; all other
    paths, objects, bytes, working directories and pipes are as before; the
    only new descriptor is the returned one. Missing: the type bits of the
    mode when the mode argument has type bits itself, see below. *)
Theorem C06_open_creates_partial : forall w c cwd p fl m w' fd q,
  reach true w -> w_cwd w !! c = Some cwd -> denotes cwd p q ->
  step w c (Open p fl m) = Done (w', Ret fd) -> 0 <= fd -> (forall i, ~ resolves (w_ino w) q i) ->
  exists i fl', creates w w' q i /\ new_object w' i KFile S_IFREG m /\ bytes w' i = Some [] /\
    w_fds w' = <[(c, fd) := FFile i 0 fl']> (w_fds w) /\ Z.land fl' 3 = Z.land fl 3 /\ w_fds w !! (c, fd) = None.
Proof. exact create_file. Qed.
Print Assumptions C06_open_creates_partial.

Theorem C06_mkdir_creates_partial : forall w c cwd p m w' r q,
  reach true w -> w_cwd w !! c = Some cwd -> denotes cwd p q ->
  step w c (Mkdir p m) = Done (w', Ret r) -> 0 <= r ->
  exists i, creates w w' q i /\ new_object w' i KDir S_IFDIR m /\ (forall x, w_ino w' !! i = Some x -> empty_dir x) /\
    w_fds w' = w_fds w /\ bytes w' i = None.
Proof. exact mkdir_creates. Qed.
Print Assumptions C06_mkdir_creates_partial.

Theorem C06_mknod_creates : forall w c cwd p m d w' r q,
  reach true w -> w_cwd w !! c = Some cwd -> denotes cwd p q ->
  step w c (Mknod p m d) = Done (w', Ret r) -> 0 <= r ->
  exists i x, creates w w' q i /\ w_ino w' !! i = Some x /\ i_kind x = KChr (fst (devtuple d)) (snd (devtuple d)) /\
    i_mode x = m /\ i_size x = 0 /\ w_fds w' = w_fds w /\ bytes w' i = None.
Proof. exact mknod_creates. Qed.
Print Assumptions C06_mknod_creates.

Example C06_nonvacuous : exists wx,
  run fresh_world [(1, Mkdir "/d" 493); (1, Chdir "d"); (1, Open "f" 66 420); (1, Mknod "../n" 8630 259); (1, Stat "/d/f"); (1, Stat "/d"); (1, Stat "/n")] = Some wx /\
  drop 2 wx.2 = [Ret 3; Ret 0; RetStat 10 33188 1 0 0; RetStat 9 16877 4 0 0; RetStat 11 8630 1 0 259].
Proof. run_ex (fresh_world, @nil out) (Ret 0). Qed.

(** C06 is false of the type when the mode argument has type bits: they are
    or-ed into the type. A regular file created with mode 0o040666 reports the
    mode 0o140666, whose type bits are those of a socket. *)
Theorem C06_type_refuted : exists w,
  step fresh_world 1 (Open "/f" 66 16822) = Done (w, Ret 3) /\
  exists w2, step w 1 (Stat "/f") = Done (w2, RetStat 9 49590 1 0 0) /\ Z.land 49590 S_FILETYPEFLAGS = 49152.
Proof. run_ex fresh_world (Ret 0). Qed.
Print Assumptions C06_type_refuted.

(** ** C07 *)
(** open with O_CREAT|O_EXCL (system calls atomic): it succeeds only if the
    path led nowhere, and then creates (C06). *)
Theorem C07_only_if_missing : forall w c cwd p fl m q w' r,
  reach true w -> w_cwd w !! c = Some cwd -> denotes cwd p q -> exclusive fl ->
  step w c (Open p fl m) = Done (w', Ret r) -> 0 <= r -> forall i, ~ resolves (w_ino w) q i.
Proof. exact excl_success. Qed.
Print Assumptions C07_only_if_missing.

(** If the path leads somewhere: EEXIST and no effect. (If the table of
    descriptors is full: ENFILE, C14.) *)
Theorem C07_eexist : forall w c cwd p fl m q i,
  reach true w -> w_cwd w !! c = Some cwd -> p <> "" -> denotes cwd p q -> exclusive fl ->
  resolves (w_ino w) q i -> ~ none_free (w_fds w) c 0 -> step w c (Open p fl m) = Done (w, Ret (err EEXIST)).
Proof. exact excl_exists. Qed.
Print Assumptions C07_eexist.

(** Any number of exclusive opens of the same path by any processes, in any
    order: if no call is interrupted by another, exactly one succeeds, or none
    does, and then none would have succeeded by itself. *)
Theorem C07_one_winner_partial : forall q l w w' outs,
  reach true w -> Forall (competes w q) l -> run w l = Some (w', outs) ->
  (Forall (fun o => ~ success o) outs /\ w' = w /\ forall e w1 o, e ∈ l -> step w e.1 e.2 = Done (w1, o) -> ~ success o) \/
  exists o1 o o2, outs = o1 ++ o :: o2 /\ success o /\ Forall (fun o => ~ success o) o1 /\ Forall (fun o => ~ success o) o2.
Proof. exact race. Qed.
Print Assumptions C07_one_winner_partial.

Example C07_nonvacuous : exists wx,
  run fresh_world [(1, Fork 2); (2, Chdir "/tmp"); (2, Open "f" 194 438); (1, Open "/tmp/f" 193 0); (1, Open "/tmp/../tmp/f" 192 438)] = Some wx /\
  drop 2 wx.2 = [Ret 3; Ret (err EEXIST); Ret (err EEXIST)].
Proof. run_ex (fresh_world, @nil out) (Ret 0). Qed.

(** The calls of different processes are not atomic. Between the walk that
    finds the name missing and the insertion into the directory no lock is
    held: two calls can both succeed, with different objects, and the name is
    left with the second one. *)
Theorem C07_race_refuted : exists s,
  ereach 9 2 s /\ e_pcs s = [PMade 9; PMade 10] /\ e_entry s = Some 10.
Proof.
  exists (Est (Some 10) 11 [PMade 9; PMade 10]). split; [|split; reflexivity].
  unfold ereach, einit. cbn [replicate].
  eapply rtc_l; [apply (es_walk_none 0%nat); reflexivity|]. cbn.
  eapply rtc_l; [apply (es_walk_none 1%nat); reflexivity|]. cbn.
  eapply rtc_l; [apply (es_alloc 0%nat); reflexivity|]. cbn.
  eapply rtc_l; [apply (es_alloc 1%nat); reflexivity|]. cbn.
  eapply rtc_l; [apply (es_insert 0%nat); reflexivity|]. cbn.
  eapply rtc_l; [apply (es_insert 1%nat); reflexivity|]. apply rtc_refl.
Qed.
Print Assumptions C07_race_refuted.

(** What does hold for all interleavings of any number of threads: no two
    winners have the same object; the name refers to the object of one of the
    winners; EEXIST is returned only when some call has won. *)
Theorem C07_race_partial : forall next k s, ereach next k s ->
  (forall i j n, e_pcs s !! i = Some (PMade n) -> e_pcs s !! j = Some (PMade n) -> i = j) /\
  (forall n, e_entry s = Some n -> exists i, e_pcs s !! i = Some (PMade n)) /\
  (forall i, e_pcs s !! i = Some PExists -> exists j n, e_pcs s !! j = Some (PMade n)) /\
  (forall i n, e_pcs s !! i = Some (PMade n) -> is_Some (e_entry s)).
Proof.
  intros next k s H. apply reach_einv in H as [I1 I2 I3 I4 I5]. split; [|split; [|split]].
  - intros i j n Hi Hj. exact (I2 _ _ _ _ n Hi Hj eq_refl eq_refl).
  - exact I5.
  - intros i Hi. destruct (I4 i Hi) as [n Hn]. destruct (I5 n Hn) as [j Hj]. eauto.
  - exact I3.
Qed.
Print Assumptions C07_race_partial.

(** ** C08 *)
(** unlink: the path led to a non-directory and leads nowhere now; all other
    paths, objects, bytes, descriptors are as before; if a descriptor or
    another path refers to the object, it and its bytes stay. *)
Theorem C08_unlink : forall w c cwd p q w' r,
  reach true w -> w_cwd w !! c = Some cwd -> denotes cwd p q ->
  step w c (Unlink p) = Done (w', Ret r) -> 0 <= r ->
  exists i x, resolves (w_ino w) q i /\ w_ino w !! i = Some x /\ i_kind x <> KDir /\
    names_minus (w_ino w) (w_ino w') q /\
    (exists par, resolves (w_ino w) (removelast q) par /\ objects_kept (w_ino w) (w_ino w') [i; par]) /\
    (forall j, j <> i -> bytes w' j = bytes w j) /\ procs_kept w w' /\
    ((exists k, opens (w_fds w) i k) \/ (exists p', canonical p' /\ p' <> q /\ resolves (w_ino w) p' i) ->
       is_Some (w_ino w' !! i) /\ bytes w' i = bytes w i).
Proof. exact unlink_thm. Qed.
Print Assumptions C08_unlink.

(** Every positioned read through any descriptor of any process gives the same
    result before and after an unlink. *)
Theorem C08_reads_unchanged : forall w c p w' r c' fd i pos fl n off,
  reach true w -> step w c (Unlink p) = Done (w', Ret r) -> 0 <= r ->
  w_fds w !! (c', fd) = Some (FFile i pos fl) -> is_Some (w_cwd w !! c') ->
  exists o, step w c' (Pread fd n off) = Done (w, o) /\ step w' c' (Pread fd n off) = Done (w', o) \/
            step w c' (Pread fd n off) = Panic /\ step w' c' (Pread fd n off) = Panic.
Proof. exact unlink_reads. Qed.
Print Assumptions C08_reads_unchanged.

(** In every reachable state: an object that is not a directory exists exactly
    as long as it has a name or a descriptor, and has storage exactly if it is
    a regular file. Missing: histories with displacing renames. *)
Theorem C08_lifetime_partial : forall w i, reach false w ->
  (forall x, w_ino w !! i = Some x -> i_kind x <> KDir -> (exists d f, entry (w_ino w) d f i) \/ exists k, opens (w_fds w) i k) /\
  ((exists d f, entry (w_ino w) d f i) \/ (exists k, opens (w_fds w) i k) -> is_Some (w_ino w !! i)) /\
  (is_Some (bytes w i) <-> exists x, w_ino w !! i = Some x /\ i_kind x = KFile).
Proof. exact lifetime. Qed.
Print Assumptions C08_lifetime_partial.

(** An unlinked open file can be read and written through both descriptors of
    two processes, and is gone after the last close. *)
Definition hist_unlink : list (Z * op) :=
  [(1, Open "/f" 66 438); (1, Write 3 [1; 2; 3]); (1, Fork 2); (1, Unlink "/f"); (1, Stat "/f"); (2, Pread 3 9 0);
   (1, Pwrite 3 [7] 1); (2, Pread 3 9 0); (1, Close 3); (2, Pread 3 9 0)].
Example C08_nonvacuous : exists wx,
  run fresh_world hist_unlink = Some wx /\
  drop 3 wx.2 = [Ret 0; Ret (err ENOENT); RetData 3 [1; 2; 3]; Ret 1; RetData 3 [1; 7; 3]; Ret 0; RetData 3 [1; 7; 3]] /\
  bytes wx.1 9 = Some [1; 7; 3] /\
  exists w2, step wx.1 2 (Close 3) = Done (w2, Ret 0) /\ bytes w2 9 = None /\ w_ino w2 !! 9 = None.
Proof.
  apply (ex_some (fresh_world, @nil out)); [vm_compute; reflexivity|]. split; [vm_compute; reflexivity|].
  split; [vm_compute; reflexivity|]. run_ex fresh_world (Ret 0).
Qed.

(** With a displacing rename the lifetime claim is false: after
    rename("/a", "/b") onto an existing closed file "/b" the old "/b" has
    neither a name nor a descriptor, but the object and its bytes stay. *)
Theorem C08_lifetime_refuted : exists w,
  reach true w /\ bytes w 10 = Some [5; 6] /\ is_Some (w_ino w !! 10) /\
  (forall d f, ~ entry (w_ino w) d f 10) /\ (forall k, ~ opens (w_fds w) 10 k).
Proof.
  assert (H : exists wx, run fresh_world [(1, Open "/a" 66 438); (1, Close 3); (1, Open "/b" 66 438); (1, Write 3 [5; 6]); (1, Close 3)] = Some wx /\
    exists w', step wx.1 1 (Rename "/a" "/b") = Done (w', Ret 0) /\
      (bytes w' 10, match w_ino w' !! 10 with Some _ => true | None => false end,
       forallb (fun e => forallb (fun f => negb (f.2 =? 10)) (map_to_list (i_dict e.2))) (map_to_list (w_ino w')),
       forallb (fun e => match e.2 with FFile i _ _ => negb (i =? 10) | _ => true end) (map_to_list (w_fds w'))) = (Some [5; 6], true, true, true)).
  { apply (ex_some (fresh_world, @nil out)); [vm_compute; reflexivity|]. run_ex fresh_world (Ret 0). }
  destruct H as (wx & Hr & w' & Hs & Hc). injection Hc as H1 H2 H3 H4. exists w'.
  split; [|split; [exact H1|split; [destruct (w_ino w' !! 10); [eauto|discriminate]|split]]].
  - refine (reach_step true wx.1 1 (Rename "/a" "/b") w' (Ret 0) _ Hs _); [|left; reflexivity]. refine (run_plain true _ wx _ Hr). reflexivity.
  - intros d f (_ & _ & x & Hx & Hf). rewrite forallb_forall in H3. apply elem_of_map_to_list in Hx, Hf.
    apply elem_of_list_In in Hx, Hf. specialize (H3 _ Hx). rewrite forallb_forall in H3. specialize (H3 _ Hf). discriminate.
  - intros k (pos & fl & Hk). rewrite forallb_forall in H4. apply elem_of_map_to_list in Hk. apply elem_of_list_In in Hk.
    specialize (H4 _ Hk). discriminate.
Qed.
Print Assumptions C08_lifetime_refuted.

(** ** C09 *)
(** link: the new path led nowhere; now both lead to the same object; all
    other paths, all bytes, descriptors are as before, and so are all objects
    except for link counts and the one directory entry. *)
Theorem C09_link : forall w c cwd a b qa qb w' r,
  reach true w -> w_cwd w !! c = Some cwd -> denotes cwd a qa -> denotes cwd b qb ->
  step w c (Link a b) = Done (w', Ret r) -> 0 <= r ->
  exists i x, resolves (w_ino w) qa i /\ w_ino w !! i = Some x /\ i_kind x <> KDir /\
    names_plus (w_ino w) (w_ino w') qb i /\ resolves (w_ino w') qa i /\ resolves (w_ino w') qb i /\
    (exists par, resolves (w_ino w) (removelast qb) par /\ objects_kept (w_ino w) (w_ino w') [i; par]) /\
    (forall j, bytes w' j = bytes w j) /\ procs_kept w w'.
Proof. exact link_thm. Qed.
Print Assumptions C09_link.

(** Removing one of several names leaves each other name with the same object,
    its kind, size, mode and bytes. *)
Theorem C09_unlink_one : forall w c cwd p q w' r i p',
  reach true w -> w_cwd w !! c = Some cwd -> denotes cwd p q ->
  step w c (Unlink p) = Done (w', Ret r) -> 0 <= r ->
  resolves (w_ino w) q i -> canonical p' -> p' <> q -> resolves (w_ino w) p' i ->
  resolves (w_ino w') p' i /\ (forall j, ~ resolves (w_ino w') q j) /\ bytes w' i = bytes w i /\
  exists x x', w_ino w !! i = Some x /\ w_ino w' !! i = Some x' /\ same_attrs x x'.
Proof. exact unlink_alias. Qed.
Print Assumptions C09_unlink_one.

Example C09_nonvacuous : exists wx,
  run fresh_world [(1, Open "/f" 66 438); (1, Write 3 [1; 2; 3]); (1, Close 3); (1, Link "/f" "/tmp/g"); (1, Stat "/f"); (1, Stat "/tmp/g"); (1, Unlink "/f");
     (1, Stat "/f"); (1, Stat "/tmp/g"); (1, Open "/tmp/g" 0 0); (1, Read 3 9)] = Some wx /\
  drop 3 wx.2 = [Ret 0; RetStat 9 33206 2 3 0; RetStat 9 33206 2 3 0; Ret 0; Ret (err ENOENT); RetStat 9 33206 1 3 0; Ret 3; RetData 3 [1; 2; 3]].
Proof. run_ex (fresh_world, @nil out) (Ret 0). Qed.

(** ** C10 *)
(** rename between different paths: what was at and below the old path is at
    and below the new one, nothing is left at the old one, all other paths,
    all other objects, all bytes and descriptors are as before. Missing: equal
    paths, and the link count of a displaced object. *)
Theorem C10_rename_partial : forall w c cwd a b qa qb w' r,
  reach true w -> w_cwd w !! c = Some cwd -> denotes cwd a qa -> denotes cwd b qb ->
  step w c (Rename a b) = Done (w', Ret r) -> 0 <= r ->
  exists i, resolves (w_ino w) qa i /\ (qa <> qb -> resolves (w_ino w') qb i /\ names_moved (w_ino w) (w_ino w') qa qb) /\
    (exists par, resolves (w_ino w) (removelast qa) par /\ removelast qb = removelast qa /\ objects_kept (w_ino w) (w_ino w') [par]) /\
    (forall j, bytes w' j = bytes w j) /\ procs_kept w w'.
Proof. exact rename_thm. Qed.
Print Assumptions C10_rename_partial.

Example C10_nonvacuous : exists wx,
  run fresh_world [(1, Mkdir "/d" 493); (1, Open "/d/f" 66 438); (1, Rename "/d" "/e"); (1, Stat "/d/f"); (1, Stat "/e/f")] = Some wx /\
  drop 2 wx.2 = [Ret 0; Ret (err ENOENT); RetStat 10 33206 1 0 0].
Proof. run_ex (fresh_world, @nil out) (Ret 0). Qed.

(** C10 is false (1) for equal paths: rename("/f", "/f") succeeds and removes
    the name; (2) for a displaced object: "/b" with the second name "/c" still
    reports two links after it has lost the name "/b". *)
Theorem C10_rename_refuted :
  (exists wx, run fresh_world [(1, Open "/f" 66 438); (1, Rename "/f" "/f"); (1, Stat "/f")] = Some wx /\
     drop 1 wx.2 = [Ret 0; Ret (err ENOENT)]) /\
  (exists wx, run fresh_world [(1, Open "/a" 66 438); (1, Open "/b" 66 438); (1, Link "/b" "/c"); (1, Rename "/a" "/b"); (1, Stat "/b"); (1, Stat "/c")] = Some wx /\
     drop 2 wx.2 = [Ret 0; Ret 0; RetStat 9 33206 1 0 0; RetStat 10 33206 2 0 0]).
Proof. split; run_ex (fresh_world, @nil out) (Ret 0). Qed.
Print Assumptions C10_rename_refuted.

(** ** C11 *)
(** A call that returns an error leaves the whole state as it was: tree,
    contents, descriptors, working directories, pipes, disk and log. Excluded
    are the situations listed in [tame], results that do not fit into an int,
    and exit (whose result is the caller's status). *)
Theorem C11_no_effect_partial : forall w c o w' r,
  reach true w -> step w c o = Done (w', r) -> failed r ->
  tame true w c o r -> fits_int w' c o -> (forall st, o <> Exit st) -> w' = w.
Proof. exact failure_no_effect. Qed.
Print Assumptions C11_no_effect_partial.

Example C11_nonvacuous : exists wx,
  run fresh_world [(1, Open "/f" 66 438); (1, Mkdir "/f" 511); (1, Link "/f" "/tmp/x/y"); (1, Unlink "/tmp"); (1, Rename "/f" "/tmp/f"); (1, Rmdir "/"); (1, Read 9 4);
     (1, Truncate "/f" (-1)); (1, Lseek 3 (-1) 0); (1, Chmod "/f" 4096); (1, Fcntl 3 77 0); (1, Close 9); (1, Chdir "/f")] = Some wx /\
  drop 1 wx.2 = [Ret (err EEXIST); Ret (err ENOENT); Ret (err EISDIR); Ret (err EOPNOTSUPP); Ret (err EBUSY); Ret (err EBADF);
     Ret (err EINVAL); Ret (err EINVAL); Ret (err EINVAL); Ret (err EINVAL); Ret (err EBADF); Ret (err ENOTDIR)].
Proof. run_ex (fresh_world, @nil out) (Ret 0). Qed.

(** C11 is false in each excluded situation:
    (1) unlink in a directory without write permission returns EPERM, but the
        link count of the file has gone down to 0;
    (2) dup2 of an epoll descriptor onto an open file returns EACCES, but the
        file (unlinked before) has been destroyed;
    (3) pipe2 with one free number returns ENFILE, but that number is taken;
    (4) lseek to 2^32 - 9 returns -9, the value of EBADF, but the offset has
        moved. *)
Theorem C11_no_effect_refuted :
  (exists wx, run fresh_world [(1, Mkdir "/d" 511); (1, Open "/d/f" 66 438); (1, Chmod "/d" 365); (1, Fstat 3); (1, Unlink "/d/f"); (1, Fstat 3)] = Some wx /\
     drop 3 wx.2 = [RetStat 10 33206 1 0 0; Ret (err EPERM); RetStat 10 33206 0 0 0]) /\
  (exists wx, run fresh_world [(1, Open "/f" 66 438); (1, EpollCreate 1); (1, Unlink "/f"); (1, Fstat 3); (1, Dup2 4 3)] = Some wx /\
     drop 3 wx.2 = [RetStat 9 33206 0 0 0; Ret (err EACCES)] /\ step wx.1 1 (Fstat 3) = Panic) /\
  (exists wx, run fresh_world (map (fun k => (1, Dup2 1 k)) (seqZ 3 1020) ++ [(1, Fstat 1023); (1, Pipe2 0); (1, Fcntl 1023 F_GETFD 0)]) = Some wx /\
     drop 1020 wx.2 = [Ret (err EBADF); RetFds (err ENFILE) 1023 (-1); Ret 0]) /\
  (exists wx, run fresh_world [(1, Open "/f" 66 438); (1, Lseek 3 4294967287 0); (1, Lseek 3 (-4294967286) 1)] = Some wx /\
     drop 1 wx.2 = [Ret (err EBADF); Ret 1]).
Proof. split; [|split; [|split]]; run_ex (fresh_world, @nil out) (Ret 0). Qed.
Print Assumptions C11_no_effect_refuted.

(** ** C12 *)
(** Within one run a number whose object has been destroyed is never used
    again. Missing: restarts, see PropsCrash.v. *)
Theorem C12_no_reuse_partial : forall w w1 w2 i,
  reach true w -> later true w w1 -> later true w1 w2 ->
  is_Some (w_ino w !! i) -> w_ino w1 !! i = None -> w_ino w2 !! i = None.
Proof. exact no_reuse. Qed.
Print Assumptions C12_no_reuse_partial.

Example C12_nonvacuous : exists wx,
  run fresh_world [(1, Open "/f" 66 438); (1, Fstat 3); (1, Unlink "/f"); (1, Close 3); (1, Open "/f" 66 438); (1, Fstat 3)] = Some wx /\
  drop 1 wx.2 = [RetStat 9 33206 1 0 0; Ret 0; Ret 0; Ret 3; RetStat 10 33206 1 0 0].
Proof. run_ex (fresh_world, @nil out) (Ret 0). Qed.
