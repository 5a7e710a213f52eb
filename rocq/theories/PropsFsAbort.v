(** C106: which file-system calls bring the runtime down. *)
From stdpp Require Import gmap.
From Verif Require Import Base CodecModel PathModel PathSpec FsModel FsBoot FsSpec FsReachSpec FsTree FsViewSpec FsAbortSpec FsView5 FsView6 FsView8.
Local Open Scope list_scope.
Local Open Scope Z_scope.

(** The full claim, that no call aborts, is false. Each of these histories runs
    to its last call, and that call brings the runtime down: close of a
    negative number; a read behind the end of a file after an lseek; pwrite at
    a negative offset; a link called "/"; rmdir of an empty directory that
    mkdir made with mode bits of a regular file; fork in a removed working
    directory; fchdir with a number that no descriptor can have; lseek on a
    directory by more than 64 bits hold. *)
Definition killers : list (list (Z * op)) :=
  [ [(1, Close (-1))];
    [(1, Open "/f" 66 438); (1, Lseek 3 1 0); (1, Read 3 1)];
    [(1, Open "/f" 66 438); (1, Pwrite 3 [1] (-1))];
    [(1, Open "/f" 66 438); (1, Link "/f" "/")];
    [(1, Mkdir "/d" 33279); (1, Rmdir "/d")];
    [(1, Mkdir "/d" 511); (1, Chdir "/d"); (1, Rmdir "/d"); (1, Fork 2)];
    [(1, Fchdir 1024)];
    [(1, Open "/" 0 0); (1, Lseek 3 1 0); (1, Lseek 3 9223372036854775807 1)] ].
Theorem C106_refuted : forall h, h ∈ killers -> is_Some (run fresh_world (removelast h)) /\ run fresh_world h = None.
Proof.
  assert (K : forallb (fun h => match run fresh_world (removelast h) with Some _ => match run fresh_world h with None => true | Some _ => false end | None => false end) killers = true)
    by (vm_compute; reflexivity).
  rewrite forallb_forall in K. intros h Hh. apply elem_of_list_In in Hh. apply K in Hh.
  destruct (run fresh_world (removelast h)) as [x|]; [|discriminate Hh]. destruct (run fresh_world h); [discriminate Hh|]. split; [exists x|]; reflexivity.
Qed.
Print Assumptions C106_refuted.

(** Exactly the calls that [aborts] lists bring the runtime down, in every
    reachable state. (Missing: the calls that [allowed] excludes.) *)
Theorem C106_exact_partial : forall w a c o,
  reach false w -> shows w a -> allowed a c o = true -> (step w c o = Panic <-> aborts a c o = true).
Proof. exact call_aborts. Qed.
Print Assumptions C106_exact_partial.

(** Histories: all calls of a history return iff the specification says that
    none aborts. *)
Theorem C106_history_partial : forall h w a,
  reach false w -> shows w a -> all_allowed a h = true -> (run w h = None <-> all_fine a h = false).
Proof. exact run_fine. Qed.
Print Assumptions C106_history_partial.

(** Total correctness: such a history runs, with the answers of the
    specification, to a state that the specification describes. *)
Theorem C106_total_partial : forall h w a,
  reach false w -> shows w a -> all_allowed a h = true -> all_fine a h = true ->
  exists w', run w h = Some (w', snd (arun a h)) /\ shows w' (fst (arun a h)).
Proof. exact run_total. Qed.
Print Assumptions C106_total_partial.

(** Calls with a path or with no argument but descriptors that are checked never
    abort, whatever the arguments. *)
Definition safe_call (o : op) : bool :=
  match o with
  | Open _ _ _ | Creat _ _ | Mkdir _ _ | Mknod _ _ _ | Unlink _ | Rename _ _ | Chmod _ _ | Truncate _ _ | Stat _ | Access _ _
  | Chdir _ | Getcwd _ | Getdents _ _ | Pipe2 _ | EpollCreate _ | Dup _ | Dup2 _ _ | Exit _ => true
  | _ => false end.
Theorem C106_safe_partial : forall w a c o,
  reach false w -> shows w a -> allowed a c o = true -> safe_call o = true -> exists w' r, step w c o = Done (w', r).
Proof.
  intros w a c o Hr Hs Ha Hc. pose proof (call_fine w a c o Hr Hs Ha) as E. destruct (step w c o) as [[w' r]|]; [eauto|]. exfalso.
  destruct (allowed_proc _ _ _ Ha) as [pr Hp]. assert (K : aborts a c o = false) by (unfold aborts; rewrite Hp; destruct o; first [reflexivity|discriminate Hc]).
  rewrite K in E. discriminate E.
Qed.
Print Assumptions C106_safe_partial.

(** A history of two processes that is allowed and of which no call aborts *)
Definition hist_fine : list (Z * op) :=
  [(1, Mkdir "/a" 511); (1, Open "/a/f" 66 438); (1, Write 3 [7; 8; 9]); (1, Link "/a/f" "/a/g"); (1, Fork 2); (2, Chdir "/a"); (2, Lseek 3 1 0); (2, Read 3 9);
   (2, Lseek 3 5 1); (2, Pread 3 1 3); (1, Pwrite 3 [1] 9); (2, Read 3 1); (1, Close 700); (2, Exec 2); (2, Unlink "f"); (2, Unlink "g"); (1, Rmdir "/a"); (2, Fcntl 3 0 12);
   (2, Fsync 12); (2, Ftruncate 12 4); (2, Exit 5); (1, Fork 2); (1, Dup2 3 4); (2, Close 3);
   (1, Pipe2 0); (1, Write 6 [5; 6]); (1, Fork 3); (3, Close 6); (1, Exit 0); (3, Read 5 9); (3, Read 5 1); (3, EpollCreate 1); (3, Dup 6); (3, Open "/tmp" 0 0); (3, Fchdir 7); (3, Lseek 7 1 2);
   (3, Getdents 7 18)].
Example C106_nonvacuous : all_allowed boot_view hist_fine = true /\ all_fine boot_view hist_fine = true /\ reach false fresh_world /\ shows fresh_world boot_view /\
  snd (arun boot_view hist_fine) = [Ret 0; Ret 3; Ret 3; Ret 0; Ret 0; Ret 0; Ret 1; RetData 2 [8; 9]; Ret 8; RetData 0 []; Ret 1; RetData 1 [0]; Ret (-9); Ret 0; Ret 0; Ret 0; Ret 0; Ret 12;
    Ret 0; Ret 0; Ret 5; Ret 0; Ret 4; Ret 0;
    RetFds 0 5 6; Ret 2; Ret 0; Ret 0; Ret 0; RetData 2 [5; 6]; RetData 0 []; Ret 6; Ret (-13); Ret 7; Ret 0; Ret (-22); Ret (-22)].
Proof.
  split; [vm_compute; reflexivity|]. split; [vm_compute; reflexivity|]. split; [exact (reach_boot false)|]. split; [exact boot_shows|]. vm_compute. reflexivity.
Qed.
(** and calls of each kind that abort *)
Example C106_nonvacuous_aborts : forall h, h ∈ killers -> all_allowed boot_view h = true /\ all_fine boot_view h = false /\ all_fine boot_view (removelast h) = true.
Proof.
  assert (K : forallb (fun h => all_allowed boot_view h && negb (all_fine boot_view h) && all_fine boot_view (removelast h)) killers = true) by (vm_compute; reflexivity).
  rewrite forallb_forall in K. intros h Hh. apply elem_of_list_In in Hh. apply K in Hh. apply andb_true_iff in Hh as [Hh H3]. apply andb_true_iff in Hh as [H1 H2].
  apply negb_true_iff in H2. auto.
Qed.
