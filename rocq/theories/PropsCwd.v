(** C104: calls that use the working directory, made by several threads at the
    same time, come to an end. *)
From stdpp Require Import gmap.
From Verif Require Import Base PathModel PathSpec FsModel FsBoot FsSpec FsWalk FsNames FsReachSpec FsTree FsAnySteps
  CwdModel CwdSpec CwdProofs.
Local Open Scope list_scope.
Local Open Scope Z_scope.

(** Any number of threads of any number of processes make any calls.  If fchdir
    is used, then only for directories with a name, and the groups of the map
    follow the tree; no process forks in one thread and changes its directory in
    another.  Then however the threads are interleaved they never all wait, and
    the run can be carried on until all calls have returned and all locks are
    free.  (Every run is finite: each step uses up an operation.) *)
Theorem C104_ends_partial : forall w sh dep progs ts,
  reach_any w -> apart_cwd progs -> fchdir_named (w_ino w) progs ->
  ((exists c, makes progs c is_fchdir) -> groups_follow (w_ino w) sh dep) ->
  comes_to (lstart sh (w_ino w) progs) ts ->
  ~ stuck ts /\ exists ts', comes_to ts ts' /\ all_done ts' /\ all_free ts'.
Proof. exact calls_end. Qed.
Print Assumptions C104_ends_partial.

(** Without fchdir it holds for every grouping of the objects, ... *)
Theorem C104_no_fchdir_partial : forall w sh progs ts,
  reach_any w -> apart_cwd progs -> (forall c, ~ makes progs c is_fchdir) ->
  comes_to (lstart sh (w_ino w) progs) ts ->
  ~ stuck ts /\ exists ts', comes_to ts ts' /\ all_done ts' /\ all_free ts'.
Proof.
  intros w sh progs ts Hr Ha Hn. apply (calls_end w sh (fun _ => 0%nat) progs ts Hr Ha).
  - intros c i (l & o & H1 & H2 & <-). destruct (Hn c). exists l, (CFchdir i). split; [exact H1|]. split; [exact H2|exact I].
  - intros [c Hc]. destruct (Hn c Hc).
Qed.
Print Assumptions C104_no_fchdir_partial.

(** ... and with fchdir if every object has a lock of its own. *)
Theorem C104_own_locks_partial : forall w progs ts,
  reach_any w -> apart_cwd progs -> fchdir_named (w_ino w) progs ->
  comes_to (lstart (fun i => i) (w_ino w) progs) ts ->
  ~ stuck ts /\ exists ts', comes_to ts ts' /\ all_done ts' /\ all_free ts'.
Proof. intros w progs ts Hr Ha Hn. apply (calls_end w _ Z.to_nat progs ts Hr Ha Hn). intros _. exact (objects_follow w Hr). Qed.
Print Assumptions C104_own_locks_partial.

(** A directory tree /a/b, /c/d; process 1 works in /a *)
Definition hist_cwd : list (Z * op) :=
  [(1, Mkdir "/a" 511); (1, Mkdir "/a/b" 511); (1, Mkdir "/c" 511); (1, Mkdir "/c/d" 511); (1, Chdir "/a")].
Lemma cwd_ex (q : world -> bool) :
  (match run fresh_world hist_cwd with Some wx => q wx.1 | None => false end) = true ->
  exists w, reach_any w /\ q w = true.
Proof.
  intros H. destruct (run fresh_world hist_cwd) as [wx|] eqn:E; [|discriminate H].
  exists wx.1. split; [exact (run_any hist_cwd wx E)|exact H].
Qed.
Definition in_cwd (w : world) (c : Z) (p : list string) : bool := bool_decide (w_cwd w !! c = Some p).
Definition at_path (w : world) (p : list string) (i : Z) : bool :=
  match metawalk (w_ino w) p with Done (Some j) => j =? i | _ => false end.

(** If one thread of a process forks while another changes directory, both can
    wait for each other, even if every object has a lock of its own: the fork
    holds the working directory and wants the directory /a; the chdir holds /a
    and wants the working directory. *)
Theorem C104_fork_chdir_refuted : exists w ts,
  reach_any w /\ w_cwd w !! 1 = Some ["a"] /\ metawalk (w_ino w) ["a"] = Done (Some 9) /\
  comes_to (lstart (fun i => i) (w_ino w) [(1, [CChdir false ["a"] 9]); (1, [CFork [] ["a"] 9])]) ts /\ stuck ts.
Proof.
  destruct (cwd_ex (fun w => in_cwd w 1 ["a"] && at_path w ["a"] 9 &&
    match lplay (lstart (fun i => i) (w_ino w) [(1, [CChdir false ["a"] 9]); (1, [CFork [] ["a"] 9])]) [1; 1; 0; 0; 0; 0; 0]%nat with
    | Some ts => stuckb ts | None => false end)) as (w & Hr & H); [vm_compute; reflexivity|].
  apply andb_prop in H as [H H3]. apply andb_prop in H as [H1 H2].
  destruct (lplay _ _) as [ts|] eqn:E in H3; [|discriminate H3]. exists w, ts. split; [exact Hr|].
  split; [apply bool_decide_eq_true in H1; exact H1|]. split.
  - unfold at_path in H2. destruct (metawalk _ _) as [[j|]|]; try discriminate H2. apply Z.eqb_eq in H2. subst j. reflexivity.
  - split; [eexists; exact E|apply stuckb_ok; exact H3].
Qed.
Print Assumptions C104_fork_chdir_refuted.

(** fchdir waits for itself if the directory and its parent fall into one group
    of the map, ... *)
Theorem C104_fchdir_same_group : forall w sh c d i,
  reach_any w -> up (w_ino w) i d -> sh d = sh i ->
  exists ts, comes_to (lstart sh (w_ino w) [(c, [CFchdir i])]) ts /\ stuck ts.
Proof. intros w sh c d i Hr Hu E. exact (fchdir_hangs w sh c i d Hr Hu E). Qed.
Print Assumptions C104_fchdir_same_group.

(** ... and always if the directory is the root, whose parent is the root. *)
Theorem C104_fchdir_root_refuted : forall w sh c,
  reach_any w -> exists ts, comes_to (lstart sh (w_ino w) [(c, [CFchdir ROOTINO])]) ts /\ stuck ts.
Proof. intros w sh c Hr. exact (fchdir_hangs w sh c ROOTINO ROOTINO Hr (any_root_up w Hr) eq_refl). Qed.
Print Assumptions C104_fchdir_root_refuted.

(** Two calls of fchdir, for /a/b and /c/d, in two processes, wait for each other
    if the groups cross; each alone comes to an end. *)
Definition cross (i : Z) : Z := if (i =? 9) || (i =? 12) then 1 else if (i =? 10) || (i =? 11) then 2 else 3.
Theorem C104_fchdir_crossing_refuted : exists w ts,
  reach_any w /\ metawalk (w_ino w) ["a"; "b"] = Done (Some 10) /\ metawalk (w_ino w) ["c"; "d"] = Done (Some 12) /\
  comes_to (lstart cross (w_ino w) [(1, [CFchdir 10]); (2, [CFchdir 12])]) ts /\ stuck ts.
Proof.
  destruct (cwd_ex (fun w => at_path w ["a"; "b"] 10 && at_path w ["c"; "d"] 12 &&
    match lplay (lstart cross (w_ino w) [(1, [CFchdir 10]); (2, [CFchdir 12])]) [0; 1]%nat with
    | Some ts => stuckb ts | None => false end)) as (w & Hr & H); [vm_compute; reflexivity|].
  apply andb_prop in H as [H H3]. apply andb_prop in H as [H1 H2]. unfold at_path in H1, H2.
  destruct (lplay _ _) as [ts|] eqn:E in H3; [|discriminate H3]. exists w, ts. split; [exact Hr|].
  destruct (metawalk _ _) as [[j|]|] in H1 |- *; try discriminate H1. apply Z.eqb_eq in H1. subst j.
  destruct (metawalk _ _) as [[j|]|] in H2 |- *; try discriminate H2. apply Z.eqb_eq in H2. subst j.
  split; [reflexivity|]. split; [reflexivity|]. split; [eexists; exact E|apply stuckb_ok; exact H3].
Qed.
Print Assumptions C104_fchdir_crossing_refuted.

(** Two threads of process 1 change directory, by path and by descriptor; process
    2 forks.  In the state reached, the chdir holds the directory and waits for
    the working directory, which the other thread is about to write. *)
Definition progs_ex : list (Z * list ccall) :=
  [(1, [CChdir true ["a"; "b"] 10; CGetcwd]); (1, [CFchdir 10; CUse true ["c"; "d"] [(12, Ex)]]); (2, [CFork [10; 12] [] ROOTINO])].
Example C104_nonvacuous : exists w ts t,
  reach_any w /\ apart_cwd progs_ex /\ fchdir_named (w_ino w) progs_ex /\
  comes_to (lstart (fun i => i) (w_ino w) progs_ex) ts /\ ts !! 0%nat = Some t /\ lgo ts 0%nat = None /\ h_todo t <> [].
Proof.
  destruct (cwd_ex (fun w => entryb (w_ino w) 9 "b" 10 &&
    match w_ino w !! 10 with Some x => match i_kind x with KDir => true | _ => false end | None => false end &&
    match lplay (lstart (fun i => i) (w_ino w) progs_ex) ([1; 1; 1; 1; 1; 1; 1; 1] ++ [0; 0; 0; 0; 0; 0; 0; 0; 0] ++ [1; 1; 1])%nat with
    | Some ts => match ts !! 0%nat with Some t => match h_todo t with [] => false | _ => match lgo ts 0%nat with None => true | _ => false end end | None => false end
    | None => false end)) as (w & Hr & H); [vm_compute; reflexivity|].
  apply andb_prop in H as [H H3]. apply andb_prop in H as [H1 H2].
  destruct (w_ino w !! 10) as [x|] eqn:Ex; [|discriminate H2]. destruct (i_kind x) eqn:Ek; try discriminate H2.
  destruct (lplay _ _) as [ts|] eqn:E in H3; [|discriminate H3]. destruct (ts !! 0%nat) as [t|] eqn:Et; [|discriminate H3].
  exists w, ts, t. split; [exact Hr|]. split; [|split; [|split; [eexists; exact E|]]].
  - intros c (l & o & H4 & H5 & H6) (l' & o' & H4' & H5' & H6'). unfold progs_ex in H4, H4'. cbn [In] in H4, H4'.
    destruct H4 as [[= <- <-]|[[= <- <-]|[[= <- <-]|[]]]]; cbn [In] in H5;
      [destruct H5 as [<-|[<-|[]]]; exact H6|destruct H5 as [<-|[<-|[]]]; exact H6|].
    destruct H4' as [[= <- ]|[[= <- ]|[[= <-]|[]]]]. cbn [In] in H5'. destruct H5' as [<-|[]]. exact H6'.
  - intros c i (l & o & H4 & H5 & H6). subst o. unfold progs_ex in H4. cbn [In] in H4.
    destruct H4 as [[= <- <-]|[[= <- <-]|[[= <- <-]|[]]]]; cbn [In] in H5.
    + destruct H5 as [H5|[H5|[]]]; discriminate H5.
    + destruct H5 as [[= <-]|[H5|[]]]; [|discriminate H5]. exists 9, "b", x. split; [apply entryb_entry; exact H1|auto].
    + destruct H5 as [H5|[]]; discriminate H5.
  - split; [exact Et|]. destruct (h_todo t); [discriminate H3|]. destruct (lgo ts 0%nat); [discriminate H3|]. split; [reflexivity|discriminate].
Qed.

(** /a/b and its parent in one group *)
Example C104_same_group_nonvacuous : exists w,
  reach_any w /\ up (w_ino w) 10 9 /\ (fun i => i mod 1) 9 = (fun i => i mod 1) 10.
Proof.
  destruct (cwd_ex (fun w => match w_ino w !! 10 with
    | Some x => match i_kind x, i_dict x !! ".." with KDir, Some 9 => true | _, _ => false end | None => false end)) as (w & Hr & H); [vm_compute; reflexivity|].
  exists w. split; [exact Hr|]. split; [|reflexivity]. destruct (w_ino w !! 10) as [x|] eqn:Ex; [|discriminate H].
  exists x. split; [exact Ex|]. destruct (i_kind x); try discriminate H. split; [reflexivity|].
  destruct (i_dict x !! "..") as [z|]; [|discriminate H]. f_equal. repeat (destruct z as [|z|z]; try discriminate H; try reflexivity).
Qed.
