(** Properties C03, C04, C05, C13, C16, C35: the directory tree and the
    reference counters. *)
From Verif Require Import Base PathModel PathSpec FsModel FsBoot FsSpec FsReachSpec FsTree FsAnySteps.
Local Open Scope list_scope.
Local Open Scope Z_scope.

(** A history with two directories, a file with two names, a device, an open
    descriptor used by two processes and a pipe. *)
Definition hist_tree : list (Z * op) :=
  [(1, Mkdir "/a" 511); (1, Mkdir "/a/b" 511); (1, Open "/a/b/f" 66 438); (1, Link "/a/b/f" "/a/g");
   (1, Mknod "/a/n" 8630 259); (1, Write 3 [1; 2; 3]); (1, Dup 3); (1, Chdir "/a/b"); (1, Open "../g" 0 0)].
(** unlink in a directory without write permission *)
Definition hist_eperm : list (Z * op) :=
  [(1, Mkdir "/d" 511); (1, Open "/d/f" 66 438); (1, Close 3); (1, Chmod "/d" 365); (1, Unlink "/d/f")].

(** C03, for all histories that avoid the situations named in [tame]: every
    name in every directory refers to an existing object. *)
Theorem C03_no_dangling_names_partial : forall w d f i,
  reach true w -> entry (w_ino w) d f i -> is_Some (w_ino w !! i).
Proof. intros w d f i. apply entry_exists. Qed.
Print Assumptions C03_no_dangling_names_partial.

(** C03: hence path lookup never aborts; [stat] answers with the object
    that the path leads to, or ENOENT if there is none. *)
Theorem C03_lookup_never_aborts_partial : forall w c cwd p,
  reach true w -> w_cwd w !! c = Some cwd ->
  (exists i x q, denotes cwd p q /\ resolves (w_ino w) q i /\ w_ino w !! i = Some x /\ step w c (Stat p) = Done (w, stat_of i x)) \/
  ((forall q i, denotes cwd p q -> ~ resolves (w_ino w) q i) /\ step w c (Stat p) = Done (w, Ret (err ENOENT))).
Proof. exact stat_lookup. Qed.
Print Assumptions C03_lookup_never_aborts_partial.

Theorem C03_path_calls_never_abort_partial : forall w c cwd p o,
  reach true w -> w_cwd w !! c = Some cwd ->
  (exists m, o = Access p m) \/ o = Stat p \/ o = Chdir p \/ (exists m, o = Chmod p m) ->
  exists w' r, step w c o = Done (w', r).
Proof. exact path_calls_total. Qed.
Print Assumptions C03_path_calls_never_abort_partial.

Example C03_nonvacuous : exists w,
  reach true w /\ entry (w_ino w) 10 "f" 11 /\ entry (w_ino w) 9 "g" 11 /\ is_Some (w_cwd w !! 1).
Proof.
  assert (H : exists wx, run fresh_world hist_tree = Some wx /\
     entryb (w_ino wx.1) 10 "f" 11 = true /\ entryb (w_ino wx.1) 9 "g" 11 = true /\
     match w_cwd wx.1 !! 1 with Some _ => true | None => false end = true) by run_ex (fresh_world, @nil out) (Ret 0).
  destruct H as (wx & Hr & H1 & H2 & H3). exists wx.1.
  split; [exact (run_plain true hist_tree wx eq_refl Hr)|]. split; [apply entryb_entry; exact H1|].
  split; [apply entryb_entry; exact H2|]. destruct (w_cwd wx.1 !! 1); [eauto|discriminate].
Qed.

(** C03 is false for all histories: unlink of a file in a directory without
    write permission fails with EPERM, but has already decremented the link
    count. The next last close then frees the object although the name is
    still there, and looking the name up aborts the runtime. *)
Theorem C03_no_dangling_names_refuted :
  ~ (forall w d f i, reach_any w -> entry (w_ino w) d f i -> is_Some (w_ino w !! i)) /\
  (exists w, reach_any w /\ is_Some (w_cwd w !! 1) /\ step w 1 (Stat "/d/f") = Panic).
Proof.
  assert (H : exists wx, run fresh_world (hist_eperm ++ [(1, Open "/d/f" 0 0); (1, Close 3)]) = Some wx /\
     entryb (w_ino wx.1) 9 "f" 10 = true /\
     match w_ino wx.1 !! 10 with Some _ => true | None => false end = false /\
     match w_cwd wx.1 !! 1 with Some _ => true | None => false end = true /\
     match step wx.1 1 (Stat "/d/f") with Panic => true | _ => false end = true) by run_ex (fresh_world, @nil out) (Ret 0).
  destruct H as (wx & Hr & H1 & H2 & H3 & H4). split.
  - intros Hall. destruct (Hall wx.1 9 "f" 10 (run_any _ _ Hr) (entryb_entry _ _ _ _ H1)) as [x Hx].
    rewrite Hx in H2. discriminate.
  - exists wx.1. split; [exact (run_any _ _ Hr)|]. split; [destruct (w_cwd wx.1 !! 1); [eauto|discriminate]|].
    destruct (step wx.1 1 (Stat "/d/f")); [discriminate|reflexivity].
Qed.
Print Assumptions C03_no_dangling_names_refuted.

(** C04, for histories that avoid [tame] and rename onto an existing name: the
    link count of a file or device is the number of its names. [l] is any
    duplicate-free list of exactly the directory entries for [i]. *)
Theorem C04_link_count_partial : forall w i x l,
  reach false w -> w_ino w !! i = Some x -> i_kind x <> KDir ->
  NoDup l -> (forall d f, (d, f) ∈ l <-> entry (w_ino w) d f i) -> i_link x = Z.of_nat (length l).
Proof. exact link_count. Qed.
Print Assumptions C04_link_count_partial.

(** C04: it is the number [stat] reports. *)
Theorem C04_stat_reports_names_partial : forall w c p w' i mode nlink size rdev l x,
  reach false w -> step w c (Stat p) = Done (w', RetStat i mode nlink size rdev) ->
  w_ino w !! i = Some x -> i_kind x <> KDir ->
  NoDup l -> (forall d f, (d, f) ∈ l <-> entry (w_ino w) d f i) -> nlink = Z.of_nat (length l).
Proof. exact stat_link_count. Qed.
Print Assumptions C04_stat_reports_names_partial.

(** C04 with rename onto existing names allowed: never too few links. *)
Theorem C04_link_count_lower_bound_partial : forall w i x l,
  reach true w -> w_ino w !! i = Some x -> i_kind x <> KDir ->
  NoDup l -> (forall d f, (d, f) ∈ l <-> entry (w_ino w) d f i) -> Z.of_nat (length l) <= i_link x.
Proof. exact link_count_le. Qed.
Print Assumptions C04_link_count_lower_bound_partial.

Example C04_nonvacuous : exists w x,
  reach false w /\ w_ino w !! 11 = Some x /\ i_kind x = KFile /\ i_link x = 2 /\
  exists l, NoDup l /\ (forall d f, (d, f) ∈ l <-> entry (w_ino w) d f 11) /\ length l = 2%nat.
Proof.
  assert (H : exists wx, run fresh_world hist_tree = Some wx /\
     match w_ino wx.1 !! 11 with Some x => bool_decide (i_kind x = KFile) && (i_link x =? 2) | None => false end = true)
    by run_ex (fresh_world, @nil out) (Ret 0).
  destruct H as (wx & Hr & H1). pose proof (run_plain false hist_tree wx eq_refl Hr) as Hre.
  destruct (w_ino wx.1 !! 11) as [x|] eqn:E; [|discriminate]. apply andb_true_iff in H1 as [H1 H2].
  apply bool_decide_eq_true in H1. apply Z.eqb_eq in H2. destruct (entries_list (w_ino wx.1) 11) as (l & Hl & He).
  exists wx.1, x. repeat (split; [assumption|]). exists l. split; [assumption|]. split; [assumption|].
  assert (Hn : i_kind x <> KDir) by congruence.
  pose proof (link_count wx.1 11 x l Hre E Hn Hl He). lia.
Qed.

(** C04 is false for all histories: after the failed unlink of C03 the count
    is 0 although one name exists; after a rename onto an existing name the
    displaced file still counts the name it lost. *)
Theorem C04_link_count_refuted :
  (exists w x, reach_any w /\ w_ino w !! 10 = Some x /\ i_kind x = KFile /\ i_link x = 0 /\ entry (w_ino w) 9 "f" 10) /\
  (exists w x, reach_any w /\ w_ino w !! 10 = Some x /\ i_kind x = KFile /\ i_link x = 1 /\ forall d f, ~ entry (w_ino w) d f 10).
Proof.
  assert (H : exists wx, run fresh_world hist_eperm = Some wx /\
     entryb (w_ino wx.1) 9 "f" 10 = true /\
     match w_ino wx.1 !! 10 with Some x => bool_decide (i_kind x = KFile) && (i_link x =? 0) | None => false end = true)
    by run_ex (fresh_world, @nil out) (Ret 0).
  assert (H' : exists wx, run fresh_world
     [(1, Open "/a" 66 438); (1, Open "/b" 66 438); (1, Close 3); (1, Close 4); (1, Rename "/a" "/b")] = Some wx /\
     bool_decide (FsNames.nnames (w_ino wx.1) 10 = 0) = true /\
     match w_ino wx.1 !! 10 with Some x => bool_decide (i_kind x = KFile) && (i_link x =? 1) | None => false end = true)
    by run_ex (fresh_world, @nil out) (Ret 0).
  split.
  - destruct H as (wx & Hr & H1 & H2). destruct (w_ino wx.1 !! 10) as [x|] eqn:E; [|discriminate].
    apply andb_true_iff in H2 as [H2 H3]. apply bool_decide_eq_true in H2. apply Z.eqb_eq in H3.
    exists wx.1, x. split; [exact (run_any _ _ Hr)|]. repeat (split; [assumption|]). apply entryb_entry. exact H1.
  - destruct H' as (wx & Hr & H1 & H2). destruct (w_ino wx.1 !! 10) as [x|] eqn:E; [|discriminate].
    apply andb_true_iff in H2 as [H2 H3]. apply bool_decide_eq_true in H1, H2. apply Z.eqb_eq in H3.
    exists wx.1, x. split; [exact (run_any _ _ Hr)|]. repeat (split; [assumption|]). apply nnames_none. exact H1.
Qed.
Print Assumptions C04_link_count_refuted.

(** C05, for histories that avoid [tame] and rename onto an existing name, and
    directories whose mode word has no other file-type bits than "directory":
    rmdir succeeds exactly on empty directories. *)
Theorem C05_rmdir_exactly_empty_partial : forall w c cwd p dir f i x d y,
  reach false w -> w_cwd w !! c = Some cwd -> p <> "" ->
  denotes cwd p (dir ++ [f]) -> resolves (w_ino w) dir d -> resolves (w_ino w) (dir ++ [f]) i ->
  w_ino w !! d = Some y -> w_ino w !! i = Some x -> i_kind x = KDir ->
  writable y -> writable x -> dir_mode x ->
  (empty_dir x -> exists w', step w c (Rmdir p) = Done (w', Ret 0)) /\
  (~ empty_dir x -> step w c (Rmdir p) = Done (w, Ret (err ENOTEMPTY))).
Proof. exact rmdir_iff. Qed.
Print Assumptions C05_rmdir_exactly_empty_partial.

(** C05, after any history whatever: what a successful rmdir removes is an
    empty directory. *)
Theorem C05_rmdir_never_nonempty : forall w c p w' cwd q i,
  reach_any w -> w_cwd w !! c = Some cwd -> step w c (Rmdir p) = Done (w', Ret 0) ->
  denotes cwd p q -> resolves (w_ino w) q i ->
  exists x, w_ino w !! i = Some x /\ i_kind x = KDir /\ empty_dir x.
Proof. exact any_rmdir. Qed.
Print Assumptions C05_rmdir_never_nonempty.

(** Both cases occur: /a/e is empty, /a/b is not. *)
Example C05_nonvacuous : exists w x y,
  reach false w /\ w_cwd w !! 1 = Some ["a"; "b"] /\
  denotes ["a"; "b"] "../e" (["a"] ++ ["e"]) /\ resolves (w_ino w) ["a"] 9 /\ resolves (w_ino w) (["a"] ++ ["e"]) 13 /\
  w_ino w !! 9 = Some y /\ w_ino w !! 13 = Some x /\ i_kind x = KDir /\ writable y /\ writable x /\ dir_mode x /\ empty_dir x.
Proof.
  assert (H : exists wx, run fresh_world (hist_tree ++ [(1, Mkdir "/a/e" 511)]) = Some wx /\
     bool_decide (w_cwd wx.1 !! 1 = Some ["a"; "b"]) = true /\
     metawalk (w_ino wx.1) ["a"] = Done (Some 9) /\
     dir_check wx.1 ["a"; "e"] 13 = true /\
     match w_ino wx.1 !! 13 with Some x => is_dir (i_mode x) | None => false end = true /\
     match w_ino wx.1 !! 9 with Some y => negb (Z.land (i_mode y) 146 =? 0) | None => false end = true)
     by run_ex (fresh_world, @nil out) (Ret 0).
  destruct H as (wx & Hr & H1 & H2 & H3 & H4 & H5). apply bool_decide_eq_true in H1.
  apply dir_check_sound in H3 as (x & Hres & Hx & Hk & He & Hw).
  destruct (w_ino wx.1 !! 9) as [y|] eqn:Ey; [|discriminate]. rewrite Hx in H4.
  exists wx.1, x, y. split; [exact (run_plain false (hist_tree ++ [(1, Mkdir "/a/e" 511)]) wx eq_refl Hr)|]. split; [assumption|].
  split; [apply FsWalk.denotes_normpath; vm_compute; reflexivity|].
  split; [apply FsWalk.metawalk_resolves; assumption|]. repeat (split; [assumption|]).
  split; [|split; [assumption|split; [apply Z.eqb_eq; exact H4|assumption]]].
  unfold writable. destruct (Z.eqb_spec (Z.land (i_mode y) 146) 0); [discriminate|assumption].
Qed.

Example C05_both_cases : exists wx,
  run fresh_world (hist_tree ++ [(1, Mkdir "/a/e" 511); (1, Rmdir "../e"); (1, Rmdir "/a/b")]) = Some wx /\
  drop 10 wx.2 = [Ret 0; Ret (err ENOTEMPTY)].
Proof. run_ex (fresh_world, @nil out) (Ret 0). Qed.

(** C05 is false in general: (1) a rename onto an existing name leaves the
    directory's link count too high, so that the emptied directory is refused
    as non-empty; (2) mkdir accepts file-type bits in its mode, and rmdir of
    such a directory aborts. *)
Theorem C05_rmdir_exactly_empty_refuted :
  (exists w x, reach_any w /\ resolves (w_ino w) ["d"] 9 /\ w_ino w !! 9 = Some x /\ i_kind x = KDir /\
     empty_dir x /\ writable x /\ dir_mode x /\ step w 1 (Rmdir "/d") = Done (w, Ret (err ENOTEMPTY))) /\
  (exists w x, reach_any w /\ resolves (w_ino w) ["d"] 9 /\ w_ino w !! 9 = Some x /\ i_kind x = KDir /\
     empty_dir x /\ writable x /\ step w 1 (Rmdir "/d") = Panic).
Proof.
  assert (H : exists wx, run fresh_world
     [(1, Mkdir "/d" 511); (1, Open "/d/a" 66 438); (1, Open "/d/b" 66 438); (1, Rename "/d/a" "/d/b"); (1, Unlink "/d/b")] = Some wx /\
     dir_check wx.1 ["d"] 9 = true /\
     match w_ino wx.1 !! 9 with Some x => is_dir (i_mode x) | None => false end = true /\
     match step wx.1 1 (Rmdir "/d") with Done (_, Ret r) => r =? err ENOTEMPTY | _ => false end = true)
    by run_ex (fresh_world, @nil out) (Ret 0).
  assert (H' : exists wx, run fresh_world [(1, Mkdir "/d" 33279)] = Some wx /\
     dir_check wx.1 ["d"] 9 = true /\ match step wx.1 1 (Rmdir "/d") with Panic => true | _ => false end = true)
    by run_ex (fresh_world, @nil out) (Ret 0).
  split.
  - destruct H as (wx & Hr & H1 & H2 & H3). apply dir_check_sound in H1 as (x & Hres & Hx & Hk & He & Hw).
    rewrite Hx in H2. exists wx.1, x. split; [exact (run_any _ _ Hr)|]. repeat (split; [assumption|]).
    split; [apply Z.eqb_eq; exact H2|]. apply rmdir_enotempty. exact H3.
  - destruct H' as (wx & Hr & H1 & H2). apply dir_check_sound in H1 as (x & Hres & Hx & Hk & He & Hw).
    exists wx.1, x. split; [exact (run_any _ _ Hr)|]. repeat (split; [assumption|]).
    destruct (step wx.1 1 (Rmdir "/d")); [discriminate|reflexivity].
Qed.
Print Assumptions C05_rmdir_exactly_empty_refuted.

(** C13, after any history whatever: a directory has at most one name, ... *)
Theorem C13_one_name : forall w i x d f d' f',
  reach_any w -> w_ino w !! i = Some x -> i_kind x = KDir ->
  entry (w_ino w) d f i -> entry (w_ino w) d' f' i -> d = d' /\ f = f'.
Proof. exact any_one_name. Qed.
Print Assumptions C13_one_name.

(** ... hence at most one path, ... *)
Theorem C13_one_path : forall w p q i x,
  reach_any w -> w_ino w !! i = Some x -> i_kind x = KDir ->
  canonical p -> canonical q -> resolves (w_ino w) p i -> resolves (w_ino w) q i -> p = q.
Proof. exact any_unique_path. Qed.
Print Assumptions C13_one_path.

(** ... its '..' is the directory that contains the name, ... *)
Theorem C13_dotdot_is_parent : forall w i d,
  reach_any w -> inside (w_ino w) d i -> up (w_ino w) i d.
Proof. intros w i d Hr H. exact (proj1 (any_up w i d Hr H)). Qed.
Print Assumptions C13_dotdot_is_parent.

(** ... no directory is inside itself, ... *)
Theorem C13_acyclic : forall w i, reach_any w -> ~ tc (inside (w_ino w)) i i.
Proof. exact any_acyclic. Qed.
Print Assumptions C13_acyclic.

(** ... and following '..' from a directory with a name reaches the root, even
    if a directory on the way has lost its own name to a rename. *)
Theorem C13_up_reaches_root : forall w d i,
  reach_any w -> inside (w_ino w) d i -> rtc (up (w_ino w)) i ROOTINO.
Proof. exact any_up_root. Qed.
Print Assumptions C13_up_reaches_root.

(** '..' of the root is the root. *)
Theorem C13_root_dotdot : forall w, reach_any w -> up (w_ino w) ROOTINO ROOTINO.
Proof. exact any_root_up. Qed.
Print Assumptions C13_root_dotdot.

(** A directory that contains another one loses its name to a rename. *)
Definition hist_lost : list (Z * op) :=
  [(1, Mkdir "/a" 511); (1, Mkdir "/a/b" 511); (1, Mkdir "/a/b/c" 511); (1, Mkdir "/a/d" 511); (1, Rename "/a/d" "/a/b")].
Example C13_nonvacuous_lost : exists w,
  reach_any w /\ inside (w_ino w) 10 11 /\ up (w_ino w) 10 9 /\ ~ (exists d, inside (w_ino w) d 10).
Proof.
  assert (H : exists wx, run fresh_world hist_lost = Some wx /\
     entryb (w_ino wx.1) 10 "c" 11 = true /\
     match w_ino wx.1 !! 11 with Some x => bool_decide (i_kind x = KDir) | None => false end = true /\
     match w_ino wx.1 !! 10 with Some x => bool_decide (i_kind x = KDir /\ i_dict x !! ".." = Some 9) | None => false end = true /\
     bool_decide (map_Forall (fun _ x => map_Forall (fun f j => j = 10 -> f = "." \/ f = "..") (i_dict x)) (w_ino wx.1)) = true)
    by run_ex (fresh_world, @nil out) (Ret 0).
  destruct H as (wx & Hr & H1 & H2 & H3 & H4). exists wx.1. split; [exact (run_any hist_lost wx Hr)|].
  destruct (w_ino wx.1 !! 11) as [x|] eqn:E; [|discriminate]. destruct (w_ino wx.1 !! 10) as [y|] eqn:E9; [|discriminate].
  apply bool_decide_eq_true in H2, H3, H4. destruct H3 as [H3 H3']. split; [exists "c", x; split; [apply entryb_entry; exact H1|auto]|].
  split; [exists y; auto|]. intros (d & f & z & (Hf1 & Hf2 & u & Hu & Hf) & _). destruct (H4 _ _ Hu _ _ Hf eq_refl); contradiction.
Qed.

Example C13_nonvacuous : exists w,
  reach false w /\ inside (w_ino w) 9 10 /\ inside (w_ino w) ROOTINO 9 /\ resolves (w_ino w) ["a"; "b"] 10.
Proof.
  assert (H : exists wx, run fresh_world hist_tree = Some wx /\
     entryb (w_ino wx.1) 9 "b" 10 = true /\ entryb (w_ino wx.1) 1 "a" 9 = true /\
     match w_ino wx.1 !! 10 with Some x => bool_decide (i_kind x = KDir) | None => false end = true /\
     match w_ino wx.1 !! 9 with Some x => bool_decide (i_kind x = KDir) | None => false end = true /\
     metawalk (w_ino wx.1) ["a"; "b"] = Done (Some 10)) by run_ex (fresh_world, @nil out) (Ret 0).
  destruct H as (wx & Hr & H1 & H2 & H3 & H4 & H5). exists wx.1. split; [exact (run_plain false hist_tree wx eq_refl Hr)|].
  destruct (w_ino wx.1 !! 10) as [x|] eqn:E; [|discriminate]. destruct (w_ino wx.1 !! 9) as [y|] eqn:E9; [|discriminate].
  apply bool_decide_eq_true in H3, H4. split; [exists "b", x; split; [apply entryb_entry; exact H1|auto]|].
  split; [exists "a", y; split; [apply entryb_entry; exact H2|auto]|]. apply FsWalk.metawalk_resolves. exact H5.
Qed.

(** C16, for histories that avoid [tame]: the open count of a file is the
    number of descriptors open on it in all processes. *)
Theorem C16_open_count_partial : forall w i x l,
  reach true w -> w_ino w !! i = Some x -> i_kind x <> KDir ->
  NoDup l -> (forall k, k ∈ l <-> opens (w_fds w) i k) -> i_ref x = Z.of_nat (length l).
Proof. exact open_count. Qed.
Print Assumptions C16_open_count_partial.

(** C16: closing an open descriptor never aborts (no underflow) and succeeds. *)
Theorem C16_close_never_underflows_partial : forall w c fd d,
  reach true w -> w_fds w !! (c, fd) = Some d -> exists w', step w c (Close fd) = Done (w', Ret 0).
Proof. exact close_succeeds. Qed.
Print Assumptions C16_close_never_underflows_partial.

(** C16: an open object exists, and an open regular file has its storage, of
    exactly the recorded size. *)
Theorem C16_open_file_kept_partial : forall w i k, reach true w -> opens (w_fds w) i k ->
  exists x, w_ino w !! i = Some x /\
  (i_kind x = KFile -> exists b, d_host (w_disk w) !! i = Some b /\ Z.of_nat (length b) = i_size x).
Proof. exact open_alive. Qed.
Print Assumptions C16_open_file_kept_partial.

(** Three descriptors of two processes *)
Example C16_nonvacuous : exists w x l,
  reach true w /\ w_ino w !! 9 = Some x /\ i_kind x = KFile /\ i_ref x = 4 /\
  NoDup l /\ (forall k, k ∈ l <-> opens (w_fds w) 9 k) /\ length l = 4%nat.
Proof.
  assert (H : exists w1, step fresh_world 1 (Open "/f" 66 438) = Done (w1, Ret 3) /\
     exists w2, step w1 1 (Dup 3) = Done (w2, Ret 4) /\
     (match w_cwd w2 !! 2 with None => true | Some _ => false end = true /\
     exists w3, step w2 1 (Fork 2) = Done (w3, Ret 0) /\
     match w_ino w3 !! 9 with Some x => bool_decide (i_kind x = KFile) && (i_ref x =? 4) | None => false end = true)) by run_ex fresh_world (Ret 0).
  destruct H as (w1 & S1 & w2 & S2 & Hc & w3 & S3 & H).
  assert (Hr : reach true w3).
  { eapply reach_step; [|exact S3|].
    - eapply reach_step; [|exact S2|exact I]. eapply reach_step; [constructor|exact S1|exact I].
    - cbn. destruct (w_cwd w2 !! 2); [discriminate|reflexivity]. }
  destruct (w_ino w3 !! 9) as [x|] eqn:E; [|discriminate]. apply andb_true_iff in H as [H1 H2].
  apply bool_decide_eq_true in H1. apply Z.eqb_eq in H2. destruct (opens_list (w_fds w3) 9) as (l & Hl & Ho).
  exists w3, x, l. repeat (split; [assumption|]). assert (Hn : i_kind x <> KDir) by congruence.
  pose proof (open_count w3 9 x l Hr E Hn Hl Ho). lia.
Qed.

(** C16 is false for all histories: forking onto the number of a live process
    drops that process' descriptors without closing them. *)
Theorem C16_open_count_refuted : exists w x l,
  reach_any w /\ w_ino w !! 9 = Some x /\ i_kind x = KFile /\
  NoDup l /\ (forall k, k ∈ l <-> opens (w_fds w) 9 k) /\ i_ref x = 3 /\ length l = 2%nat.
Proof.
  assert (H : exists wx, run fresh_world [(1, Open "/f" 66 438); (1, Fork 2); (1, Fork 2)] = Some wx /\
     match w_ino wx.1 !! 9 with Some x => bool_decide (i_kind x = KFile) && (i_ref x =? 3) | None => false end = true /\
     (FsTr.nfds (w_fds wx.1) 9 =? 2) = true) by run_ex (fresh_world, @nil out) (Ret 0).
  destruct H as (wx & Hr & H & Hn). destruct (w_ino wx.1 !! 9) as [x|] eqn:E; [|discriminate].
  apply andb_true_iff in H as [H1 H2]. apply bool_decide_eq_true in H1. apply Z.eqb_eq in H2, Hn.
  destruct (opens_list (w_fds wx.1) 9) as (l & Hl & Ho). exists wx.1, x, l.
  split; [exact (run_any _ _ Hr)|]. repeat (split; [assumption|]). rewrite (nfds_list _ _ _ Hl Ho) in Hn. lia.
Qed.
Print Assumptions C16_open_count_refuted.

(** C35, for histories that avoid [tame]: the two counters of a pipe are the
    numbers of descriptors of its read and write end in all processes. *)
Theorem C35_pipe_end_counts_partial : forall w pid p lr lw,
  reach true w -> w_pipes w !! pid = Some p ->
  NoDup lr -> (forall k, k ∈ lr <-> reads (w_fds w) pid k) ->
  NoDup lw -> (forall k, k ∈ lw <-> writes (w_fds w) pid k) ->
  p_r p = Z.of_nat (length lr) /\ p_w p = Z.of_nat (length lw).
Proof. exact pipe_counts. Qed.
Print Assumptions C35_pipe_end_counts_partial.

Example C35_nonvacuous : exists w p,
  reach true w /\ w_pipes w !! 0 = Some p /\ p_r p = 2 /\ p_w p = 3.
Proof.
  assert (H : exists w1, step fresh_world 1 (Pipe2 0) = Done (w1, RetFds 0 3 4) /\
     exists w2, step w1 1 (Dup 4) = Done (w2, Ret 5) /\
     (match w_cwd w2 !! 2 with None => true | Some _ => false end = true /\
     exists w3, step w2 1 (Fork 2) = Done (w3, Ret 0) /\
     exists w4, step w3 2 (Close 4) = Done (w4, Ret 0) /\
     match w_pipes w4 !! 0 with Some p => (p_r p =? 2) && (p_w p =? 3) | None => false end = true)) by run_ex fresh_world (Ret 0).
  destruct H as (w1 & S1 & w2 & S2 & Hc & w3 & S3 & w4 & S4 & H).
  destruct (w_pipes w4 !! 0) as [p|] eqn:E; [|discriminate]. apply andb_true_iff in H as [H1 H2].
  apply Z.eqb_eq in H1, H2. exists w4, p. split; [|auto].
  eapply reach_step; [|exact S4|exact I]. eapply reach_step; [|exact S3|cbn; destruct (w_cwd w2 !! 2); [discriminate|reflexivity]].
  eapply reach_step; [|exact S2|exact I]. eapply reach_step; [constructor|exact S1|]. intros a Ha. discriminate.
Qed.

(** C35 is false for all histories, for the same reason as C16: after forking
    twice onto the same number, the pipe counts descriptors that are gone; its
    reader will never see the end of the stream. *)
Theorem C35_pipe_end_counts_refuted : exists w p lw,
  reach_any w /\ w_pipes w !! 0 = Some p /\
  NoDup lw /\ (forall k, k ∈ lw <-> writes (w_fds w) 0 k) /\ p_w p = 3 /\ length lw = 2%nat.
Proof.
  assert (H : exists wx, run fresh_world [(1, Pipe2 0); (1, Fork 2); (1, Fork 2)] = Some wx /\
     match w_pipes wx.1 !! 0 with Some p => p_w p =? 3 | None => false end = true /\
     (FsTr.nwr (w_fds wx.1) 0 =? 2) = true) by run_ex (fresh_world, @nil out) (Ret 0).
  destruct H as (wx & Hr & H & Hn). destruct (w_pipes wx.1 !! 0) as [p|] eqn:E; [|discriminate].
  apply Z.eqb_eq in H, Hn. destruct (writes_list (w_fds wx.1) 0) as (l & Hl & Ho). exists wx.1, p, l.
  split; [exact (run_any _ _ Hr)|]. repeat (split; [assumption|]). rewrite (nwr_list _ _ _ Hl Ho) in Hn. lia.
Qed.
Print Assumptions C35_pipe_end_counts_refuted.
