(** C12 (across crashes), C38-C41, C75: crashes, recovery and shutdown.

    [boot_core d] is the start-up on the disk [d]: loading the image, replaying
    the log, checking. [boot d] also empties /tmp. *)
From Verif Require Import Base PathModel PathSpec FsModel FsBoot FsSpec FsNames FsTr FsReachSpec FsReach FsTree FsWalk FsCrashSpec FsCrash3 FsCrash4 FsCrash5.
Local Open Scope list_scope.
Local Open Scope Z_scope.

Definition w_none : world := World ∅ 0 ∅ empty_disk [] ∅ ∅ ∅ 0 ∅.

(** Proof help for closed examples *)
Lemma ex_done1 (x : outcome world) (P : world -> Prop) :
  (match x with Done _ => true | Panic => false end) = true ->
  P (match x with Done w => w | Panic => w_none end) -> exists w, x = Done w /\ P w.
Proof. destruct x; [eauto|discriminate]. Qed.
Local Instance image_eq_dec : EqDecision image.
Proof. solve_decision. Defined.
Local Instance peff_eq_dec : EqDecision peff.
Proof. solve_decision. Defined.
Lemma ex_point w w' (n : nat) (P : disk -> Prop) :
  bool_decide (w_trace w' = w_trace w ++ drop (length (w_trace w)) (w_trace w')) = true ->
  P (after (take n (drop (length (w_trace w)) (w_trace w'))) (w_disk w)) -> exists d, crash_point w w' d /\ P d.
Proof.
  intros E%bool_decide_eq_true H. eexists. split; [|exact H]. eexists _, (drop n (drop (length (w_trace w)) (w_trace w'))). split; [|reflexivity].
  rewrite take_drop. exact E.
Qed.

(** ** C38 Recovery reproduces the file system *)

(** The process dies after any history of calls. The next start succeeds and
    shows the same tree with the same objects; kinds, modes, link counts,
    entries and file contents on the host are the same. Partial: a file that
    was empty may come back with another recorded size, and directories that
    were removed while open come back without a name. *)
Theorem C38_recovery_partial :
  forall w, reach true w ->
    exists w', boot_core (crash w) = Done w' /\ kept size_ok w w' /\ d_host (w_disk w') = d_host (w_disk w).
Proof. intros w H. destruct (recovered w H) as (w' & H1 & H2 & H3 & _). eauto. Qed.
Print Assumptions C38_recovery_partial.

(** Files and devices that had no name left are gone. *)
Theorem C38_nameless_gone :
  forall w w' i x, reach false w -> boot_core (crash w) = Done w' ->
    w_ino w !! i = Some x -> i_kind x <> KDir -> ~ has_name (w_ino w) i -> w_ino w' !! i = None.
Proof. exact nameless_gone. Qed.
Print Assumptions C38_nameless_gone.

(** A case: a directory with a file of five bytes, and an open file whose name
    is removed; after the crash the first is there, the second is not. *)
Example C38_nonvacuous :
  lives empty_disk
    [(false, [(1, Mkdir "/d" 511); (1, Open "/d/f" (Z.lor O_CREAT O_RDWR) 438); (1, Write 3 [1; 2; 3; 4; 5]);
              (1, Open "/g" (Z.lor O_CREAT O_RDWR) 438); (1, Unlink "/g"); (1, Fstat 4)]);
     (false, [(1, Stat "/d"); (1, Stat "/d/f"); (1, Stat "/g"); (1, Open "/d/f" O_RDONLY 0); (1, Read 3 10)])]
  = Some [[Ret 0; Ret 3; Ret 5; Ret 4; Ret 0; RetStat 11 33206 0 0 0];
          [RetStat 9 16895 4 0 0; RetStat 10 33206 1 5 0; Ret (err ENOENT); Ret 3; RetData 5 [1; 2; 3; 4; 5]]].
Proof. vm_compute. reflexivity. Qed.

(** The sizes are not always recovered: truncation by [open] is not logged. The
    file has size 0 before the crash and size 5 afterwards. *)
Theorem C38_truncate_refuted :
  lives empty_disk
    [(false, [(1, Open "/f" (Z.lor O_CREAT O_RDWR) 438); (1, Write 3 [1; 2; 3; 4; 5]); (1, Close 3);
              (1, Open "/f" (Z.lor O_TRUNC O_RDWR) 438); (1, Close 3); (1, Stat "/f")]);
     (false, [(1, Stat "/f")])]
  = Some [[Ret 3; Ret 5; Ret 0; Ret 3; Ret 0; RetStat 9 33206 1 0 0]; [RetStat 9 33206 1 5 0]].
Proof. vm_compute. reflexivity. Qed.
Print Assumptions C38_truncate_refuted.

(** A directory removed while open has no name left, is never freed, and is
    recovered. *)
Theorem C38_removed_dir_refuted :
  exists w, (exists xs, run fresh_world [(1, Mkdir "/d" 511); (1, Open "/d" O_RDONLY 0); (1, Rmdir "/d"); (1, Close 3)] = Some (w, xs)) /\
    reach true w /\ ~ has_name (w_ino w) 9 /\
    exists w', boot_core (crash w) = Done w' /\ bool_decide (is_Some (w_ino w' !! 9)) = true.
Proof.
  assert (H : exists wx, run fresh_world [(1, Mkdir "/d" 511); (1, Open "/d" O_RDONLY 0); (1, Rmdir "/d"); (1, Close 3)] = Some wx /\
     bool_decide (map_Forall (fun _ j => j <> 9) (names (w_ino wx.1))) = true).
  { run_ex (fresh_world, @nil out) (Ret 0). }
  destruct H as (wx & Hr & Hn). assert (R : reach true wx.1) by (refine (run_plain true _ wx _ Hr); reflexivity).
  exists wx.1. split; [exists wx.2; destruct wx; exact Hr|]. split; [exact R|]. split.
  { intros (d & f & He). apply names_entry in He. apply bool_decide_eq_true in Hn. exact (Hn _ _ He eq_refl). }
  clear Hn R.
  destruct (run fresh_world [(1, Mkdir "/d" 511); (1, Open "/d" O_RDONLY 0); (1, Rmdir "/d"); (1, Close 3)]) as [p|] eqn:E; [|discriminate Hr].
  injection Hr as <-.
  assert (G : match run fresh_world [(1, Mkdir "/d" 511); (1, Open "/d" O_RDONLY 0); (1, Rmdir "/d"); (1, Close 3)] with
     | Some (w, _) => match boot_core (crash w) with Done w' => bool_decide (is_Some (w_ino w' !! 9)) | Panic => false end | None => false end = true)
    by (vm_compute; reflexivity).
  rewrite E in G. destruct p as [w xs]. cbn [fst]. destruct (boot_core (crash w)) as [w'|]; [|discriminate G]. eauto.
Qed.
Print Assumptions C38_removed_dir_refuted.

(** ** C39 A crash inside a call leaves a consistent tree *)

(** The process dies at any moment of any call. The next start succeeds and
    every directory entry refers to an existing object. Partial: if the call
    creates an object, the entry of this new object may refer to nothing. *)
Theorem C39_mid_call_partial :
  forall w c o w' r d,
    reach true w -> step w c o = Done (w', r) -> tame true w c o r -> crash_point w w' d ->
    exists w2, boot_core d = Done w2 /\
      whole_but (fun i => w_next w' = w_next w + 1 /\ i = w_next w) (w_ino w2).
Proof. exact mid_call_whole. Qed.
Print Assumptions C39_mid_call_partial.

(** A case: [link] dies after its first log record, with the new name in the
    directory and the old link count in the file. *)
Example C39_nonvacuous :
  exists w, reach true w /\ exists w', step w 1 (Link "/f" "/g") = Done (w', Ret 0) /\
    tame true w 1 (Link "/f" "/g") (Ret 0) /\ w_next w' = w_next w /\
    exists d, crash_point w w' d /\ exists w2, boot d = Done w2 /\
      match run w2 [(1, Stat "/f"); (1, Stat "/g")] with Some (_, xs) => xs = [RetStat 9 33206 1 0 0; RetStat 9 33206 1 0 0] | None => False end.
Proof.
  assert (H : exists w, step fresh_world 1 (Open "/f" (Z.lor O_CREAT O_RDWR) 438) = Done (w, Ret 3) /\
    exists w', step w 1 (Link "/f" "/g") = Done (w', Ret 0) /\ w_next w' = w_next w /\
    exists d, crash_point w w' d /\ exists w2, boot d = Done w2 /\
      match run w2 [(1, Stat "/f"); (1, Stat "/g")] with Some (_, xs) => xs = [RetStat 9 33206 1 0 0; RetStat 9 33206 1 0 0] | None => False end).
  { apply (ex_done_b fresh_world); [vm_compute; reflexivity|]. apply (ex_done_b fresh_world); [vm_compute; reflexivity|].
    split; [vm_compute; reflexivity|]. apply (ex_point _ _ 1); [vm_compute; reflexivity|]. apply ex_done1; vm_compute; reflexivity. }
  destruct H as (w & Hs & w' & Hs' & Hn & Hd). exists w. split; [exact (reach_step true _ _ _ _ _ (reach_boot true) Hs I)|].
  exists w'. split; [exact Hs'|]. split; [exact I|]. split; [exact Hn|exact Hd].
Qed.

(** Creation: the directory is logged before the new object. After a crash
    between the two the name is there and the object is not, and looking the
    name up aborts the whole system. *)
Theorem C39_create_refuted :
  exists w', step fresh_world 1 (Mkdir "/d" 511) = Done (w', Ret 0) /\
    exists d, crash_point fresh_world w' d /\ exists w2, boot d = Done w2 /\
      entryb (w_ino w2) ROOTINO "d" 9 = true /\ w_ino w2 !! 9 = None /\
      bool_decide (is_Some (w_cwd w2 !! 1)) = true /\ step w2 1 (Stat "/d") = Panic.
Proof.
  apply (ex_done_b fresh_world); [vm_compute; reflexivity|]. apply (ex_point _ _ 1); [vm_compute; reflexivity|].
  apply ex_done1; [vm_compute; reflexivity|]. run_ex fresh_world (Ret 0).
Qed.
Print Assumptions C39_create_refuted.

(** ** C40 Recovery is idempotent *)

(** Crashing and recovering after a recovery that found an empty log changes
    nothing; so from the second recovery on nothing changes any more. Partial:
    not true of the first recovery. *)
Theorem C40_again_partial :
  forall d w1 w2, d_meta d <> None -> d_log d = Some [] -> boot_core d = Done w1 -> boot_core (crash w1) = Done w2 -> same_tree w1 w2.
Proof. intros d w1 w2 H1 H2 H3 H4. exact (empty_log_same d w1 w2 H2 H3 H4 H1). Qed.
Print Assumptions C40_again_partial.
Theorem C40_third_partial :
  forall d w1 w2 w3, boot_core d = Done w1 -> boot_core (crash w1) = Done w2 -> boot_core (crash w2) = Done w3 -> same_tree w2 w3.
Proof. exact third_same. Qed.
Print Assumptions C40_third_partial.

(** What the second recovery shows, for any log: the image that was last
    written out, checked; the recovered changes are lost. *)
Theorem C40_second_recovery :
  forall d im w1 w2, d_meta d = Some im -> boot_core d = Done w1 -> boot_core (crash w1) = Done w2 ->
    forall i y, w_ino w2 !! i = Some y <->
      exists z, im_tab im !! i = Some z /\ fsck_keep z = true /\ y = if decide (i = ROOTINO) then set_ref (i_ref z + 2) z else z.
Proof. exact second_image. Qed.
Print Assumptions C40_second_recovery.

(** A directory made before the first crash is there after it, and is gone
    after a second crash, although nothing was done in between. *)
Theorem C40_idempotent_refuted :
  lives empty_disk [(false, [(1, Mkdir "/d" 511)]); (false, [(1, Stat "/d")]); (false, [(1, Stat "/d")])]
  = Some [[Ret 0]; [RetStat 9 16895 3 0 0]; [Ret (err ENOENT)]].
Proof. vm_compute. reflexivity. Qed.
Print Assumptions C40_idempotent_refuted.

(** A case for the three statements above: the disk of a running system. *)
Example C40_nonvacuous :
  exists w, step fresh_world 1 (Mkdir "/d" 511) = Done (w, Ret 0) /\
    bool_decide (is_Some (d_meta (crash w))) = true /\
    exists w1, boot_core (crash w) = Done w1 /\ exists w2, boot_core (crash w1) = Done w2 /\
      d_log (crash w1) = Some [] /\ exists w3, boot_core (crash w2) = Done w3 /\
      bool_decide (is_Some (w_ino w1 !! 9)) = true /\ bool_decide (is_Some (w_ino w2 !! 9)) = false /\ bool_decide (is_Some (w_ino w3 !! 6)) = true.
Proof.
  apply (ex_done_b fresh_world); [vm_compute; reflexivity|]. split; [vm_compute; reflexivity|].
  apply ex_done1; [vm_compute; reflexivity|]. apply ex_done1; [vm_compute; reflexivity|]. split; [vm_compute; reflexivity|].
  apply ex_done1; [vm_compute; reflexivity|]. run_ex fresh_world (Ret 0).
Qed.

(** ** C12 Object numbers are never reused: across crashes *)

(** After one crash numbering goes on above every number ever used. *)
Theorem C12_recovery_partial :
  forall w w', reach true w -> boot_core (crash w) = Done w' -> w_next w <= w_next w'.
Proof. intros w w' H Hb. destruct (recovered w H) as (w2 & Hb2 & _ & _ & Hn). rewrite Hb in Hb2. injection Hb2 as <-. exact Hn. Qed.
Print Assumptions C12_recovery_partial.

(** After two crashes it does not: the new file [/g] gets the number of the old
    file [/f], is empty, and reading it returns the old contents. *)
Theorem C12_two_crashes_refuted :
  lives empty_disk
    [(false, [(1, Open "/a" (Z.lor O_CREAT O_RDWR) 438); (1, Open "/f" (Z.lor O_CREAT O_RDWR) 438); (1, Write 4 [1; 2; 3; 4; 5]); (1, Stat "/f")]);
     (false, []);
     (false, [(1, Open "/g" (Z.lor O_CREAT O_RDWR) 438); (1, Stat "/g"); (1, Read 3 5)])]
  = Some [[Ret 3; Ret 4; Ret 5; RetStat 10 33206 1 5 0]; []; [Ret 3; RetStat 10 33206 1 0 0; RetData 5 [1; 2; 3; 4; 5]]].
Proof. vm_compute. reflexivity. Qed.
Print Assumptions C12_two_crashes_refuted.

(** ** C75 A call interrupted by a crash is done or not done *)

(** Calls other than link, unlink, rmdir, exec and exit which create nothing:
    what the next start shows is the tree before the call or the tree after
    it. Partial: see the refutations for the others. *)
Theorem C75_all_or_nothing_partial :
  forall w c o w' r d,
    reach true w -> step w c o = Done (w', r) -> tame true w c o r -> several o = false -> w_next w' = w_next w -> crash_point w w' d ->
    exists wd wr, boot_core d = Done wd /\ (boot_core (crash w) = Done wr \/ boot_core (crash w') = Done wr) /\ same_tree wd wr.
Proof. exact atomic_single. Qed.
Print Assumptions C75_all_or_nothing_partial.

(** A case: a write that grows a file, dying after the data is written and
    before the log record. *)
Example C75_nonvacuous :
  exists w, step fresh_world 1 (Open "/f" (Z.lor O_CREAT O_RDWR) 438) = Done (w, Ret 3) /\
    exists w', step w 1 (Write 3 [7; 8]) = Done (w', Ret 2) /\ w_next w' = w_next w /\
    exists d, crash_point w w' d /\ d_host d !! 9 = Some [7; 8] /\ exists wd, boot d = Done wd /\
      match step wd 1 (Stat "/f") with Done (_, x) => x = RetStat 9 33206 1 0 0 | Panic => False end.
Proof.
  apply (ex_done_b fresh_world); [vm_compute; reflexivity|]. apply (ex_done_b fresh_world); [vm_compute; reflexivity|].
  split; [vm_compute; reflexivity|]. apply (ex_point _ _ 1); [vm_compute; reflexivity|]. split; [vm_compute; reflexivity|].
  apply ex_done1; vm_compute; reflexivity.
Qed.

(** Removing a file: the host file goes before the name. After a crash in
    between, the name and the size are as before, the contents are gone, and a
    second attempt to remove the file aborts the whole system. *)
Theorem C75_unlink_refuted :
  exists wx, run fresh_world [(1, Open "/f" (Z.lor O_CREAT O_RDWR) 438); (1, Write 3 [1; 2; 3; 4; 5]); (1, Close 3)] = Some wx /\
    exists w', step wx.1 1 (Unlink "/f") = Done (w', Ret 0) /\
    exists d, crash_point wx.1 w' d /\ d_host d !! 9 = None /\ exists wd, boot d = Done wd /\
      match step wd 1 (Stat "/f") with Done (_, x) => x = RetStat 9 33206 1 5 0 | Panic => False end /\
      step wd 1 (Unlink "/f") = Panic.
Proof.
  apply (ex_some (fresh_world, @nil out)); [vm_compute; reflexivity|]. apply (ex_done_b fresh_world); [vm_compute; reflexivity|].
  apply (ex_point _ _ 1); [vm_compute; reflexivity|]. split; [vm_compute; reflexivity|]. apply ex_done1; [vm_compute; reflexivity|].
  run_ex fresh_world (Ret 0).
Qed.
Print Assumptions C75_unlink_refuted.

(** ** C41 Clean shutdown preserves the file system *)

(** The last stage of a shutdown, after /tmp has been emptied and all processes
    are gone, writes the table out. Starting again shows the same tree, every
    object with the same attributes and size, and the same host files. *)
Theorem C41_save_partial :
  forall w, reach true w ->
    exists w', boot_core (w_disk (save w)) = Done w' /\ kept size_eq w w' /\
      (forall i x, w_ino w !! i = Some x -> is_Some (w_ino w' !! i)) /\
      d_host (w_disk w') = d_host (w_disk w) /\ w_next w' = w_next w.
Proof. exact saved. Qed.
Print Assumptions C41_save_partial.

(** The process dies in this stage: nothing is lost, except at the moment when
    the old table has been removed and the new one is not written. *)
Theorem C41_save_crash_partial :
  forall w d, reach true w -> crash_point w (save w) d -> d_meta d <> None ->
    exists w', boot_core d = Done w' /\ kept size_ok w w' /\ d_host (w_disk w') = d_host (w_disk w).
Proof. exact save_crash. Qed.
Print Assumptions C41_save_crash_partial.

(** A case: a file and a directory outside /tmp, a file in /tmp, all left open,
    and a second name in /tmp; then a clean shutdown. *)
Example C41_nonvacuous :
  lives empty_disk
    [(true, [(1, Mkdir "/d" 511); (1, Open "/d/a" (Z.lor O_CREAT O_RDWR) 438); (1, Write 3 [1; 2]);
             (1, Open "/tmp/a" (Z.lor O_CREAT O_RDWR) 438); (1, Mkdir "/tmp/k" 511); (1, Link "/d/a" "/tmp/k/m"); (1, Mknod "/n" (Z.lor S_IFCHR 438) 259)]);
     (false, [(1, Stat "/d"); (1, Stat "/d/a"); (1, Stat "/tmp/a"); (1, Stat "/tmp/k"); (1, Stat "/n"); (1, Open "/d/a" O_RDONLY 0); (1, Read 3 9)])]
  = Some [[Ret 0; Ret 3; Ret 2; Ret 4; Ret 0; Ret 0; Ret 0];
          [RetStat 9 16895 4 0 0; RetStat 10 33206 1 2 0; Ret (err ENOENT); Ret (err ENOENT); RetStat 13 8630 1 0 259; Ret 3; RetData 2 [1; 2]]].
Proof. vm_compute. reflexivity. Qed.

(** The whole of a clean shutdown and the start that follows it, after any
    history of calls and of such restarts: nothing outside /tmp is lost, moved,
    added or changed, and there is a directory /tmp. Partial: it is required
    that no name is registered as that of a local socket (which [rename] does,
    see below), that /tmp can be written, and that the shutdown and the start
    come to an end. The world [w'] is again one that [reach] is about. *)
Theorem C41_restart_partial :
  forall w w', reach true w -> can_stop w -> restarts w w' ->
    outside_kept w w' /\ exists i x, resolves (w_ino w') ["tmp"] i /\ w_ino w' !! i = Some x /\ i_kind x = KDir.
Proof. exact (restart_kept true). Qed.
Print Assumptions C41_restart_partial.

Definition can_stopb (w : world) : bool :=
  bool_decide (w_dsock w = ∅) &&
  match metawalk (w_ino w) ["tmp"] with
  | Done (Some i) => match w_ino w !! i with Some x => negb (no_write_bits (i_mode x)) | None => true end
  | _ => false
  end.
Lemma can_stopb_ok w : is_Some (w_ino w !! ROOTINO) -> can_stopb w = true -> can_stop w.
Proof.
  intros Hr H. unfold can_stopb in H. apply andb_true_iff in H as [H1 H2]. apply bool_decide_eq_true in H1. split; [exact H1|].
  intros i x Hi Hx _. rewrite (resolves_metawalk _ _ _ Hr Hi), Hx in H2. unfold no_write_bits in H2. unfold writable.
  change (Z.lor (Z.lor S_IWOTH S_IWGRP) S_IWUSR) with 146 in H2. apply negb_true_iff, Z.eqb_neq in H2. exact H2.
Qed.

(** A case that meets the hypotheses: a file with names inside and outside
    /tmp, open when the system is shut down. *)
Example C41_restart_nonvacuous :
  exists w w' x y, reach true w /\ can_stop w /\ restarts w w' /\
    resolves (w_ino w) ["d"; "a"] 10 /\ resolves (w_ino w) ["tmp"; "b"] 10 /\
    w_ino w !! 10 = Some x /\ i_link x = 2 /\ i_ref x = 1 /\
    resolves (w_ino w') ["d"; "a"] 10 /\ (forall i, ~ resolves (w_ino w') ["tmp"; "b"] i) /\
    w_ino w' !! 10 = Some y /\ i_link y = 1 /\ i_ref y = 0.
Proof.
  set (h := [(1, Mkdir "/d" 511); (1, Open "/d/a" (Z.lor O_CREAT O_RDWR) 438); (1, Write 3 [1; 2]); (1, Link "/d/a" "/tmp/b")]).
  assert (H : exists wx, run fresh_world h = Some wx /\ can_stopb wx.1 = true /\
     metawalk (w_ino wx.1) ["d"; "a"] = Done (Some 10) /\ metawalk (w_ino wx.1) ["tmp"; "b"] = Done (Some 10) /\
     (exists x, w_ino wx.1 !! 10 = Some x /\ i_link x = 2 /\ i_ref x = 1) /\
     exists w1, finalize wx.1 = Done w1 /\ exists w', boot (w_disk w1) = Done w' /\
     metawalk (w_ino w') ["d"; "a"] = Done (Some 10) /\ metawalk (w_ino w') ["tmp"; "b"] = Done None /\
     exists y, w_ino w' !! 10 = Some y /\ i_link y = 1 /\ i_ref y = 0).
  { apply (ex_some (fresh_world, @nil out)); [vm_compute; reflexivity|cbv beta]. do 3 (split; [vm_compute; reflexivity|]).
    split; [run_ex (Inode KFile 0 0 0 0 ∅) (Ret 0)|]. apply ex_done1; [vm_compute; reflexivity|]. apply ex_done1; [vm_compute; reflexivity|].
    do 2 (split; [vm_compute; reflexivity|]). run_ex (Inode KFile 0 0 0 0 ∅) (Ret 0). }
  destruct H as (wx & Hr & H2 & H3 & H4 & (x & H5) & w1 & H6 & w' & H7 & H8 & H9 & y & H10).
  pose proof (run_plain true h wx eq_refl Hr) as Hre.
  assert (H1 : is_Some (w_ino wx.1 !! ROOTINO)) by (destruct (n_root _ _ (v_n _ (u_inv _ (reach_winv _ _ Hre)))) as (r & Hr1 & _); exists r; exact Hr1).
  exists wx.1, w', x, y. split; [exact Hre|]. split; [exact (can_stopb_ok _ H1 H2)|].
  split; [exists w1; auto|]. apply metawalk_resolves in H3, H4, H8. split; [exact H3|]. split; [exact H4|].
  destruct H5 as (? & ? & ?). destruct H10 as (? & ? & ?). repeat (split; [assumption|]).
  split; [exact (metawalk_none _ _ H9)|]. auto.
Qed.

(** /tmp is not writable: at shutdown the failing removal of /tmp/b takes a
    link from the file, and so does the one at start-up. The file /a, whose
    other name is outside /tmp, then has no link left: closing it once deletes
    it, although the name is still there. *)
Theorem C41_tmpmode_refuted :
  let h := [(1, Open "/a" (Z.lor O_CREAT O_RDWR) 438); (1, Write 3 [1; 2]); (1, Close 3); (1, Link "/a" "/tmp/b"); (1, Chmod "/tmp" 365); (1, Stat "/a")] in
  let g := [(1, Stat "/a"); (1, Open "/a" O_RDONLY 0); (1, Read 3 9); (1, Close 3)] in
  lives empty_disk [(true, h); (false, g)]
  = Some [[Ret 3; Ret 2; Ret 0; Ret 0; Ret 0; RetStat 9 33206 2 2 0]; [RetStat 9 33206 0 2 0; Ret 3; RetData 2 [1; 2]; Ret 0]] /\
  lives empty_disk [(true, h); (false, g ++ [(1, Stat "/a")])] = None.
Proof. split; vm_compute; reflexivity. Qed.
Print Assumptions C41_tmpmode_refuted.

(** /tmp is a regular file: neither a shutdown nor the next start comes to an
    end (the model's [Panic] stands for the endless loop here). *)
Theorem C41_tmpfile_refuted :
  exists wx, run fresh_world [(1, Rmdir "/tmp"); (1, Open "/tmp" (Z.lor O_CREAT O_RDWR) 438)] = Some wx /\
    wx.2 = [Ret 0; Ret 3] /\ finalize wx.1 = Panic /\ boot (crash wx.1) = Panic.
Proof. run_ex (fresh_world, @nil out) (Ret 0). Qed.
Print Assumptions C41_tmpfile_refuted.

(** A renamed file is taken for a local socket and deleted by the shutdown. *)
Theorem C41_rename_refuted :
  lives empty_disk
    [(true, [(1, Open "/a" (Z.lor O_CREAT O_RDWR) 438); (1, Write 3 [1; 2]); (1, Close 3); (1, Rename "/a" "/b"); (1, Stat "/b")]);
     (false, [(1, Stat "/b")])]
  = Some [[Ret 3; Ret 2; Ret 0; Ret 0; RetStat 9 33206 1 2 0]; [Ret (err ENOENT)]].
Proof. vm_compute. reflexivity. Qed.
Print Assumptions C41_rename_refuted.

(** If it is open at that time, the shutdown aborts. *)
Theorem C41_rename_open_refuted :
  exists wx, run fresh_world [(1, Open "/a" (Z.lor O_CREAT O_RDWR) 438); (1, Rename "/a" "/b")] = Some wx /\ finalize wx.1 = Panic.
Proof. run_ex (fresh_world, @nil out) (Ret 0). Qed.
Print Assumptions C41_rename_open_refuted.

(** The process dies between the removal of the old table and the writing of
    the new one: the next start formats the disk, everything is lost. *)
Theorem C41_crash_refuted :
  exists w, step fresh_world 1 (Mkdir "/d" 511) = Done (w, Ret 0) /\
    exists w', finalize w = Done w' /\ exists d, crash_point w w' d /\ exists w2, boot d = Done w2 /\
      match step w2 1 (Stat "/d") with Done (_, x) => x = Ret (err ENOENT) | Panic => False end.
Proof.
  apply (ex_done_b fresh_world); [vm_compute; reflexivity|]. apply ex_done1; [vm_compute; reflexivity|].
  apply (ex_point _ _ 1); [vm_compute; reflexivity|]. apply ex_done1; vm_compute; reflexivity.
Qed.
Print Assumptions C41_crash_refuted.
