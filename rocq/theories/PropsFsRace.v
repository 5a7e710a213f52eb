(** Processes that use the file system at the same time: C98, C99, C100 *)
From stdpp Require Import gmap.
From Verif Require Import Base PathModel PathSpec FsModel FsBoot FsSpec FsReachSpec FsTree
  FsRaceModel FsRaceSpec FsRaceSerial FsRaceTie FsRaceEnd FsRaceCheck FsShard.
Local Open Scope list_scope.
Local Open Scope Z_scope.

(** ** C98 Calls on the same names at the same time have the effect of some order

    Each witness: a file system that some history of calls led to, programs of
    two processes, a state [s] these processes can get to, in which something
    holds that no order of the calls leads to. *)

Ltac odd_hist hist progs sched P Q :=
  apply (odd_ok hist progs sched P Q eq_refl); [run_ex (fresh_world, @List.nil out) (Ret 0)|intros s; cbv beta].

(** stat() while mkdir() creates the directory: the runtime aborts, as the name
    is there before the object is. *)
Theorem C98_stat_mkdir_refuted : exists w s,
  reach false w /\
  let s0 := rstart (w_ino w) (w_next w) [[RMkdir ["a"] 511]; [RStat ["a"]]] in
  rsteps s0 s /\ r_dead s = true /\ forall s', in_turn s0 s' -> r_dead s' <> true.
Proof.
  odd_hist (@List.nil (Z * op)) [[RMkdir ["a"] 511]; [RStat ["a"]]] (replicate 6 0 ++ replicate 5 1)%nat r_dead (fun s => r_dead s = true).
  reflexivity.
Qed.
Print Assumptions C98_stat_mkdir_refuted.

(** Two unlink() of one name: the runtime aborts, as both count the last link
    down. *)
Definition hist_file : list (Z * op) := [(1, Creat "/a" 438); (1, Close 3)].
Theorem C98_unlink_unlink_refuted : exists w s,
  reach false w /\
  let s0 := rstart (w_ino w) (w_next w) [[RUnlink ["a"]]; [RUnlink ["a"]]] in
  rsteps s0 s /\ r_dead s = true /\ forall s', in_turn s0 s' -> r_dead s' <> true.
Proof.
  odd_hist hist_file [[RUnlink ["a"]]; [RUnlink ["a"]]] (replicate 5 0 ++ replicate 5 1)%nat r_dead (fun s => r_dead s = true).
  reflexivity.
Qed.
Print Assumptions C98_unlink_unlink_refuted.

(** unlink() of a name that rename() moves away: the runtime aborts. *)
Theorem C98_unlink_rename_refuted : exists w s,
  reach false w /\
  let s0 := rstart (w_ino w) (w_next w) [[RRename ["a"] ["b"]]; [RUnlink ["a"]]] in
  rsteps s0 s /\ r_dead s = true /\ forall s', in_turn s0 s' -> r_dead s' <> true.
Proof.
  odd_hist hist_file [[RRename ["a"] ["b"]]; [RUnlink ["a"]]] (replicate 5 1 ++ replicate 8 0 ++ [1])%nat r_dead (fun s => r_dead s = true).
  reflexivity.
Qed.
Print Assumptions C98_unlink_rename_refuted.

(** open() while unlink() removes the last name: the descriptor is for an
    object that does not exist any more (closing it aborts the runtime). *)
Theorem C98_open_unlink_refuted : exists w s,
  reach false w /\
  let s0 := rstart (w_ino w) (w_next w) [[RUnlink ["a"]]; [ROpen ["a"] O_RDONLY 0]] in
  let bad s := exists i, has_open s 1 [i] /\ r_tab s !! i = None in
  rsteps s0 s /\ bad s /\ forall s', in_turn s0 s' -> ~ bad s'.
Proof.
  odd_hist hist_file [[RUnlink ["a"]]; [ROpen ["a"] O_RDONLY 0]] (replicate 5 0 ++ replicate 5 1 ++ replicate 2 0)%nat
    (fun s => match r_proc s !! 1%nat with
              | Some t => match t_open t with [Some i] => bool_decide (r_tab s !! i = None) | _ => false end
              | None => false end)
    (fun s => exists i, has_open s 1 [i] /\ r_tab s !! i = None).
  unfold has_open. destruct (r_proc s !! 1%nat) as [t|].
  - destruct (t_open t) as [|[i|] [|? ?]] eqn:E; try (split; [discriminate|]; intros (j & (u & [= <-] & H) & _); rewrite E in H; discriminate H).
    rewrite bool_decide_eq_true. split; [intros H; exists i; split; [exists t; auto|exact H]|].
    intros (j & (u & [= <-] & H) & Hn). rewrite E in H. injection H as ->. exact Hn.
  - split; [discriminate|]. intros (j & (u & [=] & _) & _).
Qed.
Print Assumptions C98_open_unlink_refuted.

(** link() while unlink() removes the last name: both succeed, and the new name
    is for an object that does not exist. *)
Theorem C98_link_unlink_refuted : exists w s,
  reach false w /\
  let s0 := rstart (w_ino w) (w_next w) [[RUnlink ["a"]]; [RLink ["a"] ["b"]]] in
  let bad s := answers s 0 [0] /\ answers s 1 [0] /\ exists i, resolves (r_tab s) ["b"] i /\ r_tab s !! i = None in
  rsteps s0 s /\ bad s /\ forall s', in_turn s0 s' -> ~ bad s'.
Proof.
  odd_hist hist_file [[RUnlink ["a"]]; [RLink ["a"] ["b"]]]
    (replicate 4 1 ++ replicate 5 0 ++ [1] ++ replicate 2 0 ++ replicate 4 1)%nat
    (fun s => answersb s 0 [0] && (answersb s 1 [0] && brokenb (r_tab s) ["b"]))
    (fun s => answers s 0 [0] /\ answers s 1 [0] /\ exists i, resolves (r_tab s) ["b"] i /\ r_tab s !! i = None).
  rewrite !andb_true_iff, !answersb_ok, brokenb_ok by discriminate. reflexivity.
Qed.
Print Assumptions C98_link_unlink_refuted.

(** rmdir() while a file is created in the directory: both succeed, and the
    file is nowhere. *)
Theorem C98_rmdir_create_refuted : exists w s,
  reach false w /\
  let s0 := rstart (w_ino w) (w_next w) [[RRmdir ["d"]]; [ROpen ["d"; "x"] (Z.lor O_CREAT O_RDWR) 438]] in
  let bad s := answers s 0 [0] /\ answers s 1 [0] /\ forall i, ~ resolves (r_tab s) ["d"; "x"] i in
  rsteps s0 s /\ bad s /\ forall s', in_turn s0 s' -> ~ bad s'.
Proof.
  odd_hist [(1, Mkdir "/d" 511)] [[RRmdir ["d"]]; [ROpen ["d"; "x"] (Z.lor O_CREAT O_RDWR) 438]]
    (replicate 6 0 ++ replicate 8 1 ++ replicate 2 0)%nat
    (fun s => answersb s 0 [0] && (answersb s 1 [0] && nowhereb (r_tab s) ["d"; "x"]))
    (fun s => answers s 0 [0] /\ answers s 1 [0] /\ forall i, ~ resolves (r_tab s) ["d"; "x"] i).
  rewrite !andb_true_iff, !answersb_ok, nowhereb_ok by discriminate. reflexivity.
Qed.
Print Assumptions C98_rmdir_create_refuted.

(** Two mkdir() of one name: both succeed. *)
Theorem C98_mkdir_mkdir_refuted : exists w s,
  reach false w /\
  let s0 := rstart (w_ino w) (w_next w) [[RMkdir ["d"] 511]; [RMkdir ["d"] 511]] in
  let bad s := answers s 0 [0] /\ answers s 1 [0] in
  rsteps s0 s /\ bad s /\ forall s', in_turn s0 s' -> ~ bad s'.
Proof.
  odd_hist (@List.nil (Z * op)) [[RMkdir ["d"] 511]; [RMkdir ["d"] 511]]
    (replicate 4 0 ++ replicate 4 1 ++ replicate 3 0 ++ replicate 3 1)%nat
    (fun s => answersb s 0 [0] && answersb s 1 [0])
    (fun s => answers s 0 [0] /\ answers s 1 [0]).
  rewrite !andb_true_iff, !answersb_ok. reflexivity.
Qed.
Print Assumptions C98_mkdir_mkdir_refuted.

(** ... and a file that was created in the directory meanwhile is lost. *)
Theorem C98_late_mkdir_refuted : exists w s,
  reach false w /\
  let s0 := rstart (w_ino w) (w_next w)
              [[RMkdir ["d"] 511]; [RMkdir ["d"] 511; ROpen ["d"; "x"] (Z.lor O_CREAT O_RDWR) 438]] in
  let bad s := answers s 1 [0; 0] /\ forall i, ~ resolves (r_tab s) ["d"; "x"] i in
  rsteps s0 s /\ bad s /\ forall s', in_turn s0 s' -> ~ bad s'.
Proof.
  odd_hist (@List.nil (Z * op)) [[RMkdir ["d"] 511]; [RMkdir ["d"] 511; ROpen ["d"; "x"] (Z.lor O_CREAT O_RDWR) 438]]
    (replicate 4 0 ++ replicate 15 1 ++ replicate 3 0)%nat
    (fun s => answersb s 1 [0; 0] && nowhereb (r_tab s) ["d"; "x"])
    (fun s => answers s 1 [0; 0] /\ forall i, ~ resolves (r_tab s) ["d"; "x"] i).
  rewrite !andb_true_iff, !answersb_ok, nowhereb_ok by discriminate. reflexivity.
Qed.
Print Assumptions C98_late_mkdir_refuted.

(** Two open() that create one file: each gets a file of its own. *)
Theorem C98_create_create_refuted : exists w s,
  reach false w /\
  let o := ROpen ["a"] (Z.lor O_CREAT O_RDWR) 438 in
  let s0 := rstart (w_ino w) (w_next w) [[o]; [o]] in
  let bad s := exists i j, has_open s 0 [i] /\ has_open s 1 [j] /\ i <> j in
  rsteps s0 s /\ bad s /\ forall s', in_turn s0 s' -> ~ bad s'.
Proof.
  odd_hist (@List.nil (Z * op)) [[ROpen ["a"] (Z.lor O_CREAT O_RDWR) 438]; [ROpen ["a"] (Z.lor O_CREAT O_RDWR) 438]]
    (replicate 4 0 ++ replicate 4 1 ++ replicate 3 0 ++ replicate 3 1)%nat
    (fun s => match r_proc s !! 0%nat, r_proc s !! 1%nat with
              | Some t, Some u => match t_open t, t_open u with [Some i], [Some j] => negb (i =? j) | _, _ => false end
              | _, _ => false end)
    (fun s => exists i j, has_open s 0 [i] /\ has_open s 1 [j] /\ i <> j).
  unfold has_open. split.
  - destruct (r_proc s !! 0%nat) as [t|]; [|discriminate]. destruct (r_proc s !! 1%nat) as [u|]; [|discriminate].
    destruct (t_open t) as [|[i|] [|? ?]] eqn:Et; try discriminate. destruct (t_open u) as [|[j|] [|? ?]] eqn:Eu; try discriminate.
    rewrite negb_true_iff, Z.eqb_neq. intros H. exists i, j. split; [exists t; auto|]. split; [exists u; auto|exact H].
  - intros (i & j & (t & Ht & Et) & (u & Hu & Eu) & H). rewrite Ht, Hu, Et, Eu. cbn. apply negb_true_iff, Z.eqb_neq, H.
Qed.
Print Assumptions C98_create_create_refuted.

(** ** C99 Processes that work on separate names do not disturb each other *)

(** Whatever the processes did at once, they could have done it in turn, with
    the same answers and the same file system. *)
Theorem C99_serial_partial : forall tab next bs progs s,
  separate tab next bs -> length progs = length bs ->
  (forall i b l, bs !! i = Some b -> progs !! i = Some l -> stays_in b l) ->
  rsteps (rstart tab next progs) s -> r_dead s = false -> all_rest s ->
  in_turn (rstart tab next progs) s.
Proof. intros. eapply separate_turn; eauto. Qed.
Print Assumptions C99_serial_partial.

(** They abort the runtime only if they can do so in turn. *)
Theorem C99_abort_partial : forall tab next bs progs s,
  separate tab next bs -> length progs = length bs ->
  (forall i b l, bs !! i = Some b -> progs !! i = Some l -> stays_in b l) ->
  rsteps (rstart tab next progs) s -> r_dead s = true ->
  exists s', in_turn (rstart tab next progs) s' /\ r_dead s' = true.
Proof. intros. eapply separate_abort; eauto. Qed.
Print Assumptions C99_abort_partial.

(** After every history, names are separate if none is above another, each is
    in an existing directory, and no file has names below two of them. *)
Theorem C99_separate : forall disp w bs,
  reach disp w ->
  (forall b, b ∈ bs -> canonical b /\ b <> []) ->
  (forall i j a b, bs !! i = Some a -> bs !! j = Some b -> i <> j -> ~ a `prefix_of` b) ->
  (forall b p f, b ∈ bs -> b = p ++ [f] ->
     exists d x, resolves (w_ino w) p d /\ w_ino w !! d = Some x /\ i_kind x = KDir) ->
  (forall a b p q i x, a ∈ bs -> b ∈ bs -> canonical p -> canonical q -> a `prefix_of` p -> b `prefix_of` q ->
     resolves (w_ino w) p i -> resolves (w_ino w) q i -> w_ino w !! i = Some x -> i_kind x <> KDir -> a = b) ->
  separate (w_ino w) (w_next w) bs.
Proof. exact reach_separate. Qed.
Print Assumptions C99_separate.

(** A call made while nobody else does anything is the call of the other
    properties: the same file system afterwards, the same answer. *)
Theorem C99_alone : forall disp w c cwd o ro w' r,
  reach disp w -> w_cwd w !! c = Some cwd -> asks cwd o ro ->
  step w c o = Done (w', r) -> r <> Ret (err ENFILE) ->
  forall s i t rest, r_tab s = w_ino w -> r_next s = w_next w -> r_dead s = false -> all_rest s ->
  r_proc s !! i = Some t -> t_todo t = ro :: rest ->
  exists t', (forall s', one_call i s s' <-> s' = Rst (w_ino w') (w_next w') (<[i := t']> (r_proc s)) false) /\
    t_todo t' = rest /\ same_answer w' c ro r t t'.
Proof.
  intros disp w c cwd o ro w' r Hr Hc Ha Hs Hn s i t rest E1 E2 Hd Hrest Ht Et.
  destruct (call_tie disp w c cwd o ro w' r Hr Hc Ha Hs Hn s i t rest E1 E2 Hd Hrest Ht Et) as (t' & H & H2).
  exists t'. split; [|exact H2]. intros s'. split; [intros H'; exact (one_call_det _ _ _ _ H' H)|intros ->; exact H].
Qed.
Print Assumptions C99_alone.

(** Two processes with names of their own in the same directory, one of which
    exists already.  Their calls overlap. *)
Definition bases : list (list string) := [["d"; "a"]; ["d"; "b"]].
Definition prog_a : list rop := [RMkdir ["d"; "a"] 511; ROpen ["d"; "a"; "x"] (Z.lor O_CREAT O_RDWR) 438; RClose 0].
Definition prog_b : list rop := [RLink ["d"; "b"; "y"] ["d"; "b"; "z"]; RUnlink ["d"; "b"; "y"]; RStat ["d"; "b"; "y"]].
Definition hist_sep : list (Z * op) :=
  [(1, Mkdir "/d" 511); (1, Mkdir "/d/b" 511); (1, Creat "/d/b/y" 438); (1, Close 3)].
Example C99_nonvacuous : exists w s,
  reach false w /\ separate (w_ino w) (w_next w) bases /\
  (forall i b l, bases !! i = Some b -> [prog_a; prog_b] !! i = Some l -> stays_in b l) /\
  rsteps (rstart (w_ino w) (w_next w) [prog_a; prog_b]) s /\ r_dead s = false /\ all_rest s /\
  answers s 0 [0; 0; 0] /\ answers s 1 [err ENOENT; 0; 0].
Proof.
  assert (H : exists wx, run fresh_world hist_sep = Some wx /\
    (bool_decide (one_name (w_ino wx.1)) && forallb (pardirb (w_ino wx.1)) bases &&
     match rplay (rstart (w_ino wx.1) (w_next wx.1) [prog_a; prog_b])
             (concat (replicate 19 [0; 1]) ++ replicate 8 1)%nat
     with Some s => negb (r_dead s) && (Nat.eqb (length (r_proc s)) 2 && restb 0 s && restb 1 s) && answersb s 0 [0; 0; 0] && answersb s 1 [err ENOENT; 0; 0] | None => false end)
    = true) by run_ex (fresh_world, @List.nil out) (Ret 0).
  destruct H as (wx & Hr & H). apply andb_true_iff in H as [H H2]. apply andb_true_iff in H as [H0 H1].
  apply bool_decide_eq_true in H0. rewrite forallb_forall in H1.
  destruct (rplay _ _) as [s|] eqn:E; [|discriminate H2].
  repeat rewrite andb_true_iff in H2. destruct H2 as (((Hd & ((Hl & Ha) & Hb)) & Hx) & Hy).
  apply negb_true_iff in Hd. apply Nat.eqb_eq in Hl. apply restb_ok in Ha, Hb. apply answersb_ok in Hx, Hy.
  assert (R : reach false wx.1) by exact (run_plain false hist_sep wx eq_refl Hr).
  assert (Hap : forall i j a b, bases !! i = Some a -> bases !! j = Some b -> i <> j -> ~ a `prefix_of` b).
  { intros [|[|i]] [|[|j]] a b [= <-] [= <-] Hij; try congruence; intros [k Hk]; discriminate Hk. }
  exists wx.1, s. split; [exact R|]. split.
  { apply (reach_separate false); [exact R| |exact Hap| |apply (one_name_files false); assumption].
    - intros b Hb'. unfold bases in Hb'. repeat (apply elem_of_cons in Hb' as [->|Hb']; [split; [repeat constructor; discriminate|discriminate]|]).
      apply elem_of_nil in Hb' as [].
    - intros b p f Hb' E'. apply elem_of_list_In in Hb'. exact (pardirb_ok _ _ _ _ (H1 b Hb') E'). }
  split.
  { intros [|[|i]] b l [= <-] [= <-]; intros o p Ho Hp; unfold prog_a, prog_b in Ho;
      repeat (apply elem_of_cons in Ho as [->|Ho];
        [cbn [paths] in Hp; repeat (apply elem_of_cons in Hp as [->|Hp]; [split; [repeat constructor; discriminate|eexists; reflexivity]|]);
         apply elem_of_nil in Hp as []|]); apply elem_of_nil in Ho as []. }
  split; [exact (rplay_rsteps _ _ _ E)|]. split; [exact Hd|]. split; [|split; assumption].
  intros [|[|i]]; [exact Ha|exact Hb|]. intros t Ht. apply lookup_lt_Some in Ht. lia.
Qed.

(** ** C100 Calls that overlap come to an end *)

(** However the processes take their steps, there are not more than [most_steps]
    of them. *)
Theorem C100_bounded : forall tab next progs l s,
  rplay (rstart tab next progs) l = Some s -> (length l <= most_steps progs)%nat.
Proof. intros tab next progs l s H. etransitivity; [exact (rplay_bound _ _ _ H)|apply start_bound]. Qed.
Print Assumptions C100_bounded.

(** As long as some process has something left to do, some process can go on,
    in whatever state the processes are. *)
Theorem C100_no_deadlock : forall s,
  r_dead s = false -> ~ finished s -> exists i s', rgo s i = Some s'.
Proof. exact no_deadlock. Qed.
Print Assumptions C100_no_deadlock.

(** So every run can be carried on to the end of all programs (or an abort). *)
Theorem C100_ends : forall s,
  exists l s', rplay s l = Some s' /\ (r_dead s' = true \/ finished s').
Proof. exact can_end. Qed.
Print Assumptions C100_ends.

(** A process that waits: the other is in the directory it wants to change. *)
Example C100_nonvacuous : exists w s,
  reach false w /\
  rsteps (rstart (w_ino w) (w_next w) [[RMkdir ["a"] 511]; [RStat ["b"]]]) s /\
  ~ finished s /\ rgo s 0 = None /\ r_dead s = false.
Proof.
  assert (H : exists wx, run fresh_world [] = Some wx /\
     match rplay (rstart (w_ino wx.1) (w_next wx.1) [[RMkdir ["a"] 511]; [RStat ["b"]]]) (replicate 5 0 ++ replicate 2 1)%nat
     with Some s => negb (r_dead s) && negb (restb 0 s) && match rgo s 0 with None => true | Some _ => false end | None => false end
    = true) by run_ex (fresh_world, @List.nil out) (Ret 0).
  destruct H as (wx & Hr & H). destruct (rplay _ _) as [s|] eqn:E; [|discriminate H].
  repeat rewrite andb_true_iff in H. destruct H as ((Hd & Ha) & Hg). apply negb_true_iff in Hd, Ha.
  exists wx.1, s. split; [exact (run_plain false [] wx eq_refl Hr)|]. split; [exact (rplay_rsteps _ _ _ E)|].
  split; [|split; [destruct (rgo s 0); [discriminate Hg|reflexivity]|exact Hd]].
  intros Hf. assert (C : restb 0 s = true) by (apply restb_ok; intros t Ht; exact (proj1 (Hf _ _ Ht))). rewrite C in Ha. discriminate Ha.
Qed.

(** The map of objects locks groups of objects.  Whatever the groups are, the
    processes can only take steps that they can take with a lock for each object
    (so what C98 and C99 say of all runs holds of these), ... *)
Theorem C100_groups_same_runs : forall sh s l s', rplay_sh sh s l = Some s' -> rplay s l = Some s'.
Proof. intros sh s l s'. exact (rplay_sh_rplay sh l s s'). Qed.
Print Assumptions C100_groups_same_runs.

(** ... some process can always go on, ... *)
Theorem C100_groups_no_deadlock : forall sh s,
  r_dead s = false -> ~ finished s -> exists i s', rgo_sh sh s i = Some s'.
Proof. exact no_deadlock_sh. Qed.
Print Assumptions C100_groups_no_deadlock.

(** ... and every run can be carried on to the end. *)
Theorem C100_groups_ends : forall sh s,
  exists l s', rplay_sh sh s l = Some s' /\ (r_dead s' = true \/ finished s').
Proof. exact can_end_sh. Qed.
Print Assumptions C100_groups_ends.

(** A process that waits only because of the groups: it is about to put its new
    object into the map while the other's walk holds the root. *)
Example C100_groups_nonvacuous : exists w s,
  reach false w /\
  rsteps (rstart (w_ino w) (w_next w) [[RMkdir ["a"] 511]; [RStat ["b"]]]) s /\
  ~ finished s /\ rgo_sh (fun _ => 0) s 0 = None /\ rgo s 0 <> None /\ r_dead s = false.
Proof.
  assert (H : exists wx, run fresh_world [] = Some wx /\
     match rplay (rstart (w_ino wx.1) (w_next wx.1) [[RMkdir ["a"] 511]; [RStat ["b"]]]) (replicate 6 0 ++ replicate 2 1)%nat
     with Some s => negb (r_dead s) && negb (restb 0 s) && match rgo_sh (fun _ => 0%Z) s 0 with None => true | Some _ => false end &&
                    match rgo s 0 with None => false | Some _ => true end | None => false end
    = true) by run_ex (fresh_world, @List.nil out) (Ret 0).
  destruct H as (wx & Hr & H). destruct (rplay _ _) as [s|] eqn:E; [|discriminate H].
  repeat rewrite andb_true_iff in H. destruct H as (((Hd & Ha) & Hg) & Hg2). apply negb_true_iff in Hd, Ha.
  exists wx.1, s. split; [exact (run_plain false [] wx eq_refl Hr)|]. split; [exact (rplay_rsteps _ _ _ E)|].
  split; [|split; [destruct (rgo_sh (fun _ => 0%Z) s 0); [discriminate Hg|reflexivity]|split; [destruct (rgo s 0); [discriminate|discriminate Hg2]|exact Hd]]].
  intros Hf. assert (C : restb 0 s = true) by (apply restb_ok; intros t Ht; exact (proj1 (Hf _ _ Ht))). rewrite C in Ha. discriminate Ha.
Qed.
