(** C105: the file system is a map from paths to files. *)
From stdpp Require Import gmap.
From Verif Require Import Base CodecModel PathModel PathSpec FsModel FsBoot FsSpec FsReachSpec FsTree FsViewSpec FsView5 FsView6.
Local Open Scope list_scope.
Local Open Scope Z_scope.

(** One call, in any state of the file system that can be reached: it answers
    what the specification answers, and afterwards the file system is again
    what the specification says. (Missing: calls that need the entries or the
    path of a directory that was removed, and the calls with which the code
    damages its structures; see [allowed].) *)
Theorem C105_call_partial : forall w a c o w' r,
  reach false w -> shows w a -> allowed a c o = true -> step w c o = Done (w', r) ->
  exists a', aexec a c o = (a', r) /\ shows w' a'.
Proof. exact step_view. Qed.
Print Assumptions C105_call_partial.

(** Whole histories of any number of processes *)
Theorem C105_history_partial : forall h w a w' outs,
  reach false w -> shows w a -> all_allowed a h = true -> run w h = Some (w', outs) ->
  exists a', arun a h = (a', outs) /\ shows w' a' /\ reach false w'.
Proof. exact run_view. Qed.
Print Assumptions C105_history_partial.

(** From the first start: the answers of every history are computed by the
    specification alone. *)
Theorem C105_from_start_partial : forall h w' outs,
  all_allowed boot_view h = true -> run fresh_world h = Some (w', outs) ->
  outs = snd (arun boot_view h) /\ shows w' (fst (arun boot_view h)).
Proof.
  intros h w' outs Ha H. destruct (run_view h _ _ _ _ (reach_boot false) boot_shows Ha H) as (a' & E & Hs & _). rewrite E. auto.
Qed.
Print Assumptions C105_from_start_partial.

(** Every state that can be reached, also through clean shutdowns and starts,
    is described by some view. *)
Theorem C105_has_view : forall w, reach false w -> exists a, shows w a.
Proof. intros w Hr. exists (view_of w). exact (view_of_shows w Hr). Qed.
Print Assumptions C105_has_view.

(** Nothing else matters: two states with the same view cannot be told apart by
    any history of calls. *)
Theorem C105_only_view_partial : forall h w1 w2 a w1' w2' o1 o2,
  reach false w1 -> reach false w2 -> shows w1 a -> shows w2 a -> all_allowed a h = true ->
  run w1 h = Some (w1', o1) -> run w2 h = Some (w2', o2) -> o1 = o2.
Proof.
  intros h w1 w2 a w1' w2' o1 o2 R1 R2 S1 S2 Ha H1 H2.
  destruct (run_view h _ _ _ _ R1 S1 Ha H1) as (a1 & E1 & _). destruct (run_view h _ _ _ _ R2 S2 Ha H2) as (a2 & E2 & _). congruence.
Qed.
Print Assumptions C105_only_view_partial.

(** Two processes: files are made, linked, written, renamed, removed while open,
    shared through fork *)
Definition hist_view : list (Z * op) :=
  [(1, Mkdir "/a" 511); (1, Open "/a/f" 66 438); (1, Write 3 [7; 8; 9]); (1, Link "/a/f" "/a/g"); (1, Fork 2); (2, Chdir "/a");
   (2, Unlink "f"); (2, Stat "g"); (1, Lseek 3 0 0); (1, Read 3 2); (2, Rename "g" "h"); (1, Unlink "a/h"); (1, Rmdir "/a");
   (2, Pread 3 5 1); (2, Dup2 3 9); (2, Ftruncate 9 1); (1, Fstat 3); (2, Exit 0); (1, Close 3); (1, Stat "/a/h"); (1, Getcwd 10)].
Example C105_nonvacuous :
  all_allowed boot_view hist_view = true /\
  exists w outs, run fresh_world hist_view = Some (w, outs) /\
    outs = [Ret 0; Ret 3; Ret 3; Ret 0; Ret 0; Ret 0; Ret 0; RetStat 10 33206 1 3 0; Ret 0; RetData 2 [7; 8]; Ret 0; Ret 0; Ret 0;
            RetData 2 [8; 9]; Ret 9; Ret 0; RetStat 10 33206 0 1 0; Ret 0; Ret 0; Ret (-2); RetPath "/"] /\
    shows w (fst (arun boot_view hist_view)).
Proof.
  assert (Ha : all_allowed boot_view hist_view = true) by (vm_compute; reflexivity). split; [exact Ha|].
  destruct (run fresh_world hist_view) as [[w outs]|] eqn:E.
  - exists w, outs. split; [reflexivity|]. destruct (C105_from_start_partial _ _ _ Ha E) as [-> Hs]. split; [vm_compute; reflexivity|exact Hs].
  - exfalso. assert (K : match run fresh_world hist_view with Some _ => true | None => false end = true) by (vm_compute; reflexivity).
    rewrite E in K. discriminate K.
Qed.

(** A pipe between parent and child: bytes, the end of the data when the last
    writer is gone, a full pipe, no reader *)
Definition hist_pipe : list (Z * op) :=
  [(1, Pipe2 0); (1, Fork 2); (1, Close 3); (2, Close 4); (1, Write 4 [1; 2; 3]); (2, Read 3 2); (1, Writev 4 [[4]; []; [5; 6]]); (2, Read 3 10);
   (2, Read 3 1); (1, Close 4); (2, Read 3 1); (2, Fstat 3); (2, Lseek 3 0 0); (2, Pipe2 2048); (2, Write 5 (replicate (Z.to_nat 65535) 7)); (2, Write 5 [1; 2]);
   (2, Read 4 3); (2, Dup 5); (2, Close 4); (2, Write 6 [1]); (2, EpollCreate 1); (2, Dup 4); (2, Read 4 1)].
Example C105_nonvacuous_pipe :
  all_allowed boot_view hist_pipe = true /\
  exists w outs, run fresh_world hist_pipe = Some (w, outs) /\
    outs = [RetFds 0 3 4; Ret 0; Ret 0; Ret 0; Ret 3; RetData 2 [1; 2]; Ret 3; RetData 4 [3; 4; 5; 6]; Blocked 0; Ret 0; RetData 0 [];
            RetStat 4277075968 49590 1 0 0; Ret (-29); RetFds 0 4 5; Ret 65535; Ret (-11); RetData 3 [7; 7; 7]; Ret 6; Ret 0; Ret (-32); Ret 4;
            Ret (-13); Ret (-22)] /\
    shows w (fst (arun boot_view hist_pipe)).
Proof.
  assert (Ha : all_allowed boot_view hist_pipe = true) by (vm_compute; reflexivity). split; [exact Ha|].
  destruct (run fresh_world hist_pipe) as [[w outs]|] eqn:E.
  - exists w, outs. split; [reflexivity|]. destruct (C105_from_start_partial _ _ _ Ha E) as [-> Hs]. split; [vm_compute; reflexivity|exact Hs].
  - exfalso. assert (K : match run fresh_world hist_pipe with Some _ => true | None => false end = true) by (vm_compute; reflexivity).
    rewrite E in K. discriminate K.
Qed.

(** Directories by descriptor: entries in pieces, seeking among them, the
    working directory, also after the directory was renamed *)
Definition hist_dir : list (Z * op) :=
  [(1, Mkdir "/a" 511); (1, Mkdir "/a/b" 511); (1, Creat "/a/f" 438); (1, Open "/a" 0 0); (1, Getdents 4 30); (1, Getdents 4 200); (1, Getdents 4 200);
   (1, Lseek 4 0 0); (1, Lseek 4 9 0); (1, Open "/a/b" 0 0); (1, Rename "/a" "/c"); (1, Fchdir 5); (1, Getcwd 100); (1, Fchdir 3); (1, Getdents 5 18);
   (1, Open "/" 0 0); (1, Fchdir 6); (1, Stat "../f"); (1, Getdents 5 100)].
Example C105_nonvacuous_dir :
  all_allowed boot_view hist_dir = true /\
  exists w outs, run fresh_world hist_dir = Some (w, outs) /\ shows w (fst (arun boot_view hist_dir)) /\
    drop 7 outs = [Ret 0; Ret (-22); Ret 5; Ret 0; Ret 0; RetPath "/c/b"; Ret (-20); Ret (-22); Ret 6; Blocked 0; RetStat 11 33206 1 0 0;
                   RetDents 48 [(".", 10); ("..", 9)]] /\
    exists es1 es2 n1 n2, drop 4 (take 7 outs) = [RetDents n1 es1; RetDents n2 es2; RetDents 0 []] /\ es1 <> [] /\ es2 <> [] /\
      es1 ++ es2 ≡ₚ [(".", 9); ("..", 1); ("b", 10); ("f", 11)].
Proof.
  assert (Ha : all_allowed boot_view hist_dir = true) by (vm_compute; reflexivity). split; [exact Ha|].
  destruct (run fresh_world hist_dir) as [[w outs]|] eqn:E.
  - exists w, outs. split; [reflexivity|]. destruct (C105_from_start_partial _ _ _ Ha E) as [-> Hs]. split; [exact Hs|]. split; [vm_compute; reflexivity|].
    do 4 eexists. split; [vm_compute; reflexivity|]. split; [discriminate|]. split; [discriminate|].
    cbn [app]. apply (Permutation_app_comm [("b", 10); ("f", 11)] [(".", 9); ("..", 1)]).
  - exfalso. assert (K : match run fresh_world hist_dir with Some _ => true | None => false end = true) by (vm_compute; reflexivity).
    rewrite E in K. discriminate K.
Qed.
