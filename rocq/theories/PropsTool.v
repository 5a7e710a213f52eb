(** C115, C116: the commands of the file-system tool; C105 for programs that
    choose their calls by earlier answers. *)
From stdpp Require Import gmap.
From Verif Require Import Base CodecModel PathModel PathSpec FsModel FsBoot FsSpec FsReachSpec FsTree FsViewSpec FsAbortSpec FsView5 FsView6 FsView8 FsCopyModel ToolModel ToolSpec ToolProofs1 ToolProofs4.
Local Open Scope list_scope.
Local Open Scope Z_scope.

(** ** Programs *)

(** A program that decides after each answer which call to make next prints and
    does what the specification says, and no call brings the runtime down.
    (Missing: the calls that [allowed] excludes.) *)
Theorem C105_program_partial : forall c p w a a' ss e,
  reach false w -> shows w a -> aprog a c p = Some (a', ss, e) ->
  exists w', wprog w c p = Done (w', ss, e) /\ shows w' a' /\ reach false w'.
Proof. exact prog_sim. Qed.
Print Assumptions C105_program_partial.

(** ** deltree *)

(** The claim that deltree removes the tree at a name, and nothing else, holds
    of the trees in which the type bits of the modes are true and every
    directory's records fit into one buffer. (Missing: the other trees, for
    which it is false, see below.) *)
Theorem C115_deltree_partial : forall w a c pr path q i d,
  reach false w -> shows w a -> vw_proc a !! c = Some pr ->
  path <> "" -> where_is (q_cwd pr) path = q -> vw_at a !! q = Some i ->
  up_dir a q = Some d -> may_write a d = true -> tool_ok a pr q -> small_dirs a q ->
  exists n0, forall n, (n0 <= n)%nat -> exists w' a',
    wprog w c (deltree n path Stop) = Done (w', [], Finished) /\ shows w' a' /\ reach false w' /\ without (within q) (within q) a a'.
Proof. exact deltree_run. Qed.
Print Assumptions C115_deltree_partial.

(** format: at the root everything below goes. *)
Theorem C115_format_partial : forall w a c pr path i,
  reach false w -> shows w a -> vw_proc a !! c = Some pr ->
  path <> "" -> where_is (q_cwd pr) path = [] -> vw_at a !! [] = Some i -> is_adir a i = true ->
  tool_ok a pr [] -> small_dirs a [] ->
  exists n0, forall n, (n0 <= n)%nat -> exists w' a',
    wprog w c (deltree n path Stop) = Done (w', [], Finished) /\ shows w' a' /\ reach false w' /\ without (below []) (within []) a a'.
Proof. exact format_run. Qed.
Print Assumptions C115_format_partial.

(** Runs of the specification from the first start *)
Lemma from_boot h : all_allowed boot_view h = true -> all_fine boot_view h = true ->
  exists w, reach false w /\ shows w (fst (arun boot_view h)).
Proof.
  intros H1 H2. destruct (run_total h _ _ (reach_boot false) boot_shows H1 H2) as (w & E & Hs).
  destruct (run_view h _ _ _ _ (reach_boot false) boot_shows H1 E) as (a' & _ & _ & Hr). exists w. auto.
Qed.

(** A directory of 24 names of 3001 letters: the first buffer has room for
    some of them; when these are gone, the position behind them is behind the
    end, and the others are never seen. *)
Definition long_name (k : nat) : string := String (Ascii.ascii_of_nat (65 + k)) (repeat_str (Z.to_nat 3000) "x").
Definition hist_big : list (Z * op) :=
  [(1, Mkdir "/d" 511); (1, Creat "/f" 438); (1, Close 3)] ++ map (fun k => (1, Link "/f" ("/d/" +:+ long_name k))) (seq 0 24).

Theorem C115_deltree_refuted : exists w a pr i d n w' a',
  reach false w /\ shows w a /\ vw_proc a !! 1 = Some pr /\ where_is (q_cwd pr) "/d" = ["d"] /\ vw_at a !! ["d"] = Some i /\
  up_dir a ["d"] = Some d /\ may_write a d = true /\ tool_ok a pr ["d"] /\
  wprog w 1 (deltree n "/d" Stop) = Done (w', [], Finished) /\ shows w' a' /\ vw_at a' !! ["d"] = Some i.
Proof.
  destruct (from_boot hist_big) as (w & Hr & Hs); [vm_compute; reflexivity|vm_compute; reflexivity|].
  remember (fst (arun boot_view hist_big)) as big_view eqn:Eb.
  assert (K : match vw_proc big_view !! 1, vw_at big_view !! ["d"] with
     | Some pr, Some i => bool_decide (where_is (q_cwd pr) "/d" = ["d"]) && okb big_view pr ["d"] &&
        match up_dir big_view ["d"] with Some d => may_write big_view d | None => false end &&
        match aprog big_view 1 (deltree 5 "/d" Stop) with Some (a', [], Finished) => bool_decide (vw_at a' !! ["d"] = Some i) | _ => false end
     | _, _ => false end = true) by (rewrite Eb; vm_compute; reflexivity). clear Eb.
  destruct (vw_proc big_view !! 1) as [pr|] eqn:Ep; [|discriminate K]. destruct (vw_at big_view !! ["d"]) as [i|] eqn:Ei; [|discriminate K].
  apply andb_true_iff in K as [K K4]. apply andb_true_iff in K as [K K3]. apply andb_true_iff in K as [K1 K2].
  destruct (up_dir big_view ["d"]) as [d|] eqn:Eu; [|discriminate K3].
  destruct (aprog big_view 1 (deltree 5 "/d" Stop)) as [[[a' [|]] [| |]]|] eqn:Er; try discriminate K4.
  apply bool_decide_eq_true in K1, K4. apply okb_ok in K2.
  destruct (prog_sim _ _ _ _ _ _ _ Hr Hs Er) as (w' & E' & Hs' & _).
  exists w, big_view, pr, i, d, 5%nat, w', a'. split; [exact Hr|]. split; [exact Hs|]. split; [exact Ep|]. split; [exact K1|]. split; [exact Ei|]. split; [exact Eu|].
  split; [exact K3|]. split; [exact K2|]. split; [exact E'|]. split; [exact Hs'|exact K4].
Qed.
Print Assumptions C115_deltree_refuted.

(** A directory made with the mode bits of a regular file is taken for a file,
    which unlink refuses: it stays, and with it all directories above it. *)
Definition hist_lying : list (Z * op) := [(1, Mkdir "/d" 511); (1, Mkdir "/d/e" 33279)].
Theorem C115_deltree_mode_refuted : exists w a pr i d n w' a',
  reach false w /\ shows w a /\ vw_proc a !! 1 = Some pr /\ where_is (q_cwd pr) "/d" = ["d"] /\ vw_at a !! ["d"] = Some i /\
  up_dir a ["d"] = Some d /\ may_write a d = true /\ small_dirs a ["d"] /\
  wprog w 1 (deltree n "/d" Stop) = Done (w', [], Finished) /\ shows w' a' /\ vw_at a' !! ["d"] = Some i.
Proof.
  destruct (from_boot hist_lying) as (w & Hr & Hs); [vm_compute; reflexivity|vm_compute; reflexivity|].
  remember (fst (arun boot_view hist_lying)) as v eqn:Eb.
  assert (K : match vw_proc v !! 1, vw_at v !! ["d"] with
     | Some pr, Some i => bool_decide (where_is (q_cwd pr) "/d" = ["d"]) && smallb v ["d"] &&
        match up_dir v ["d"] with Some d => may_write v d | None => false end &&
        match aprog v 1 (deltree 5 "/d" Stop) with Some (a', [], Finished) => bool_decide (vw_at a' !! ["d"] = Some i) | _ => false end
     | _, _ => false end = true) by (rewrite Eb; vm_compute; reflexivity). clear Eb.
  destruct (vw_proc v !! 1) as [pr|] eqn:Ep; [|discriminate K]. destruct (vw_at v !! ["d"]) as [i|] eqn:Ei; [|discriminate K].
  apply andb_true_iff in K as [K K4]. apply andb_true_iff in K as [K K3]. apply andb_true_iff in K as [K1 K2].
  destruct (up_dir v ["d"]) as [d|] eqn:Eu; [|discriminate K3].
  destruct (aprog v 1 (deltree 5 "/d" Stop)) as [[[a' [|]] [| |]]|] eqn:Er; try discriminate K4.
  apply bool_decide_eq_true in K1, K4. apply (smallb_ok _ ["d"]) in K2.
  destruct (prog_sim _ _ _ _ _ _ _ Hr Hs Er) as (w' & E' & Hs' & _).
  exists w, v, pr, i, d, 5%nat, w', a'. split; [exact Hr|]. split; [exact Hs|]. split; [exact Ep|]. split; [exact K1|]. split; [exact Ei|]. split; [exact Eu|].
  split; [exact K3|]. split; [exact K2|]. split; [exact E'|]. split; [exact Hs'|exact K4].
Qed.
Print Assumptions C115_deltree_mode_refuted.

(** A tree with directories, files, a second link, and a file open elsewhere *)
Definition hist_tree : list (Z * op) :=
  [(1, Mkdir "/a" 511); (1, Mkdir "/a/b" 365); (1, Creat "/a/f" 438); (1, Mkdir "/c" 511); (1, Link "/a/f" "/c/g"); (1, Fork 2); (2, Chdir "/a"); (2, Mkdir "x" 511); (2, Creat "x/y" 256)].
Definition tree_view : view := fst (arun boot_view hist_tree).
Example C115_nonvacuous : exists w pr i d, reach false w /\ shows w tree_view /\ vw_proc tree_view !! 2 = Some pr /\ where_is (q_cwd pr) "../a/" = ["a"] /\
  vw_at tree_view !! ["a"] = Some i /\ up_dir tree_view ["a"] = Some d /\ may_write tree_view d = true /\ tool_ok tree_view pr ["a"] /\ small_dirs tree_view ["a"] /\
  match aprog tree_view 2 (deltree 9 "../a/" Stop) with
  | Some (a', ss, e) => ss = [] /\ e = Finished /\ vw_at a' !! ["a"] = None /\ vw_at a' !! ["a"; "x"; "y"] = None /\ vw_at a' !! ["c"; "g"] = vw_at tree_view !! ["a"; "f"]
  | None => False end.
Proof.
  destruct (from_boot hist_tree) as (w & Hr & Hs); [vm_compute; reflexivity|vm_compute; reflexivity|].
  assert (K : match vw_proc tree_view !! 2, vw_at tree_view !! ["a"] with
     | Some pr, Some i => bool_decide (where_is (q_cwd pr) "../a/" = ["a"]) && okb tree_view pr ["a"] && smallb tree_view ["a"] &&
        match up_dir tree_view ["a"] with Some d => may_write tree_view d | None => false end
     | _, _ => false end = true) by (vm_compute; reflexivity).
  assert (R : match aprog tree_view 2 (deltree 9 "../a/" Stop) with
     | Some (a', ss, e) => ss = [] /\ e = Finished /\ vw_at a' !! ["a"] = None /\ vw_at a' !! ["a"; "x"; "y"] = None /\ vw_at a' !! ["c"; "g"] = vw_at tree_view !! ["a"; "f"]
     | None => False end) by (vm_compute; repeat split).
  destruct (vw_proc tree_view !! 2) as [pr|] eqn:Ep; [|discriminate K]. destruct (vw_at tree_view !! ["a"]) as [i|] eqn:Ei; [|discriminate K].
  apply andb_true_iff in K as [K K4]. apply andb_true_iff in K as [K K3]. apply andb_true_iff in K as [K1 K2].
  destruct (up_dir tree_view ["a"]) as [d|] eqn:Eu; [|discriminate K4].
  exists w, pr, i, d. split; [exact Hr|]. split; [exact Hs|]. split; [reflexivity|]. split; [exact (proj1 (bool_decide_eq_true _) K1)|]. split; [reflexivity|]. split; [reflexivity|].
  split; [exact K4|]. split; [exact (okb_ok _ _ _ K2)|]. split; [exact (smallb_ok _ _ K3)|exact R].
Qed.

(** ** ls and tree *)

(** ls of a directory, of any size: each name in it once, directories with a
    slash, and a newline; nothing in the file system changes. (Missing: names
    of more than 65508 bytes, and directories whose modes lie.) *)
Theorem C116_ls_partial : forall w a c pr path q i,
  reach false w -> shows w a -> vw_proc a !! c = Some pr ->
  path <> "" -> where_is (q_cwd pr) path = q -> vw_at a !! q = Some i -> is_adir a i = true ->
  tool_ok a pr q -> small_names a q ->
  exists n0, forall n, (n0 <= n)%nat -> exists w' l,
    wprog w c (ls n path Stop) = Done (w', map (ls_word a q path) l ++ [newline], Finished) /\ shows w' a /\ reach false w' /\ names_in a q l.
Proof. exact ls_run. Qed.
Print Assumptions C116_ls_partial.

(** ls of anything but a directory prints the name as it was given. *)
Theorem C116_ls_file : forall w a c pr path q i n,
  reach false w -> shows w a -> vw_proc a !! c = Some pr ->
  where_is (q_cwd pr) path = q -> vw_at a !! q = Some i -> is_adir a i = false -> says_truth a i ->
  exists w', wprog w c (ls n path Stop) = Done (w', [path +:+ " "; newline], Finished) /\ shows w' a /\ reach false w'.
Proof. exact ls_file_run. Qed.
Print Assumptions C116_ls_file.

(** On a name that does not exist the commands print nothing and change nothing. *)
Theorem C116_missing : forall w a c pr path n level,
  reach false w -> shows w a -> vw_proc a !! c = Some pr -> vw_at a !! where_is (q_cwd pr) path = None ->
  (exists w', wprog w c (ls n path Stop) = Done (w', [], Finished) /\ shows w' a /\ reach false w') /\
  (exists w', wprog w c (tree (S n) path level Stop) = Done (w', [], Finished) /\ shows w' a /\ reach false w') /\
  exists w', wprog w c (deltree (S n) path Stop) = Done (w', [], Finished) /\ shows w' a /\ reach false w'.
Proof.
  intros w a c pr path n level Hr Hs Hp Hi. split; [eapply ls_none_run; eauto|]. split; [eapply tree_none_run; eauto|eapply deltree_none_run; eauto].
Qed.
Print Assumptions C116_missing.

(** The name printed for what [r] leads to from [path] leads there: given to a
    call it names that object. *)
Theorem C116_printed : forall w a pr path r i,
  reach false w -> shows w a -> path <> "" -> vw_at a !! (where_is (q_cwd pr) path ++ r) = Some i ->
  vw_at a !! where_is (q_cwd pr) (fold_left down r path) = Some i.
Proof. intros w a pr path r i Hr Hs Hne Hi. rewrite (printed_leads a pr path r i); [exact Hi|exists w; auto|exact Hne|exact Hi]. Qed.
Print Assumptions C116_printed.

(** tree draws everything below the name; nothing in the file system changes. *)
Theorem C116_tree_partial : forall w a c pr path q i level,
  reach false w -> shows w a -> vw_proc a !! c = Some pr ->
  path <> "" -> where_is (q_cwd pr) path = q -> vw_at a !! q = Some i ->
  tool_ok a pr q -> small_names a q ->
  exists n0, forall n, (n0 <= n)%nat -> exists w' ss,
    wprog w c (tree n path level Stop) = Done (w', ss, Finished) /\ shows w' a /\ reach false w' /\ drawing a q path level ss.
Proof. exact tree_run. Qed.
Print Assumptions C116_tree_partial.

(** A drawing has exactly one line for each name at any depth below. *)
Theorem C116_drawing_complete : forall w a q path level ss,
  reach false w -> shows w a -> drawing a q path level ss ->
  exists L, ss = map (line_for path level) L /\ NoDup L /\ forall r, r ∈ L <-> r <> [] /\ is_Some (vw_at a !! (q ++ r)).
Proof. intros w a q path level ss Hr Hs. apply drawing_lines. exists w. auto. Qed.
Print Assumptions C116_drawing_complete.

(** A name whose record is longer than the buffer: getdents answers 0, which is
    taken for the end of the directory, and ls leaves out the name. *)
Definition hist_name : list (Z * op) := [(1, Mkdir "/d" 511); (1, Creat ("/d/" +:+ repeat_str (Z.to_nat 65530) "x") 438); (1, Close 3)].
Theorem C116_ls_refuted : exists w a pr i n w' ss f,
  reach false w /\ shows w a /\ vw_proc a !! 1 = Some pr /\ where_is (q_cwd pr) "/d" = ["d"] /\ vw_at a !! ["d"] = Some i /\ is_adir a i = true /\ tool_ok a pr ["d"] /\
  wprog w 1 (ls n "/d" Stop) = Done (w', ss, Finished) /\ is_Some (vw_at a !! ["d"; f]) /\ ~ ls_word a ["d"] "/d" f ∈ ss.
Proof.
  destruct (from_boot hist_name) as (w & Hr & Hs); [vm_compute; reflexivity|vm_compute; reflexivity|].
  remember (fst (arun boot_view hist_name)) as v eqn:Eb. remember (repeat_str (Z.to_nat 65530) "x") as f eqn:Ef.
  assert (K : match vw_proc v !! 1, vw_at v !! ["d"] with
     | Some pr, Some i => bool_decide (where_is (q_cwd pr) "/d" = ["d"]) && okb v pr ["d"] && is_adir v i &&
        match aprog v 1 (ls 5 "/d" Stop) with Some (_, ss, Finished) => match vw_at v !! ["d"; f] with Some _ => bool_decide (~ ls_word v ["d"] "/d" f ∈ ss) | None => false end | _ => false end
     | _, _ => false end = true) by (rewrite Eb, Ef; vm_compute; reflexivity). clear Eb Ef.
  destruct (vw_proc v !! 1) as [pr|] eqn:Ep; [|discriminate K]. destruct (vw_at v !! ["d"]) as [i|] eqn:Ei; [|discriminate K].
  apply andb_true_iff in K as [K K4]. apply andb_true_iff in K as [K K3]. apply andb_true_iff in K as [K1 K2].
  destruct (aprog v 1 (ls 5 "/d" Stop)) as [[[a' ss] [| |]]|] eqn:Er; try discriminate K4. destruct (vw_at v !! ["d"; f]) as [j|] eqn:Ej; [|discriminate K4].
  apply bool_decide_eq_true in K1, K4. apply okb_ok in K2.
  destruct (prog_sim _ _ _ _ _ _ _ Hr Hs Er) as (w' & E' & Hs' & _).
  exists w, v, pr, i, 5%nat, w', ss, f. split; [exact Hr|]. split; [exact Hs|]. split; [exact Ep|]. split; [exact K1|]. split; [exact Ei|]. split; [exact K3|].
  split; [exact K2|]. split; [exact E'|]. split; [exists j; exact Ej|exact K4].
Qed.
Print Assumptions C116_ls_refuted.

Example C116_nonvacuous : exists w pr i, reach false w /\ shows w tree_view /\ vw_proc tree_view !! 2 = Some pr /\ where_is (q_cwd pr) "." = ["a"] /\
  vw_at tree_view !! ["a"] = Some i /\ is_adir tree_view i = true /\ tool_ok tree_view pr ["a"] /\ small_names tree_view ["a"] /\
  match aprog tree_view 2 (tree 30 "." 0 Stop) with
  | Some (_, ss, e) => ss ≡ₚ [drawn 0 "./x"; drawn 1 "./x/y"; drawn 0 "./b"; drawn 0 "./f"] /\ e = Finished
  | None => False end.
Proof.
  destruct (from_boot hist_tree) as (w & Hr & Hs); [vm_compute; reflexivity|vm_compute; reflexivity|].
  assert (K : match vw_proc tree_view !! 2, vw_at tree_view !! ["a"] with
     | Some pr, Some i => bool_decide (where_is (q_cwd pr) "." = ["a"]) && okb tree_view pr ["a"] && shortb tree_view && is_adir tree_view i
     | _, _ => false end = true) by (vm_compute; reflexivity).
  assert (R : match aprog tree_view 2 (tree 30 "." 0 Stop) with
     | Some (_, ss, e) => bool_decide (ss ≡ₚ [drawn 0 "./x"; drawn 1 "./x/y"; drawn 0 "./b"; drawn 0 "./f"]) && match e with Finished => true | _ => false end
     | None => false end = true) by (vm_compute; reflexivity).
  destruct (aprog tree_view 2 (tree 30 "." 0 Stop)) as [[[a' ss] [| |]]|]; try (rewrite andb_false_r in R; discriminate R); [|discriminate R].
  apply andb_true_iff in R as [R _]. apply bool_decide_eq_true in R.
  destruct (vw_proc tree_view !! 2) as [pr|] eqn:Ep; [|discriminate K]. destruct (vw_at tree_view !! ["a"]) as [i|] eqn:Ei; [|discriminate K].
  apply andb_true_iff in K as [K K4]. apply andb_true_iff in K as [K K3]. apply andb_true_iff in K as [K1 K2].
  exists w, pr, i. split; [exact Hr|]. split; [exact Hs|]. split; [reflexivity|]. split; [exact (proj1 (bool_decide_eq_true _) K1)|]. split; [reflexivity|].
  split; [exact K4|]. split; [exact (okb_ok _ _ _ K2)|]. split; [exact (shortb_ok _ _ K3)|]. split; [exact R|reflexivity].
Qed.

Example C116_file_nonvacuous : exists w pr i, reach false w /\ shows w tree_view /\ vw_proc tree_view !! 2 = Some pr /\ where_is (q_cwd pr) "x/../f" = ["a"; "f"] /\
  vw_at tree_view !! ["a"; "f"] = Some i /\ is_adir tree_view i = false /\ says_truth tree_view i /\ vw_at tree_view !! where_is (q_cwd pr) "x/f" = None /\
  fold_left down ["x"; "y"] "." = "./x/y" /\ is_Some (vw_at tree_view !! (where_is (q_cwd pr) "." ++ ["x"; "y"])).
Proof.
  destruct (from_boot hist_tree) as (w & Hr & Hs); [vm_compute; reflexivity|vm_compute; reflexivity|].
  assert (K : match vw_proc tree_view !! 2, vw_at tree_view !! ["a"; "f"] with
     | Some pr, Some i => bool_decide (where_is (q_cwd pr) "x/../f" = ["a"; "f"]) && negb (is_adir tree_view i) &&
         match vw_obj tree_view !! i with Some o => Bool.eqb (says_dir (o_mode o)) (is_adir tree_view i) | None => true end &&
         bool_decide (vw_at tree_view !! where_is (q_cwd pr) "x/f" = None) && bool_decide (is_Some (vw_at tree_view !! (where_is (q_cwd pr) "." ++ ["x"; "y"])))
     | _, _ => false end = true) by (vm_compute; reflexivity).
  destruct (vw_proc tree_view !! 2) as [pr|] eqn:Ep; [|discriminate K]. destruct (vw_at tree_view !! ["a"; "f"]) as [i|] eqn:Ei; [|discriminate K].
  apply andb_true_iff in K as [K K5]. apply andb_true_iff in K as [K K4]. apply andb_true_iff in K as [K K3]. apply andb_true_iff in K as [K1 K2].
  apply negb_true_iff in K2. apply bool_decide_eq_true in K1, K4, K5.
  exists w, pr, i. split; [exact Hr|]. split; [exact Hs|]. split; [reflexivity|]. split; [exact K1|]. split; [reflexivity|]. split; [exact K2|].
  split; [unfold says_truth; destruct (vw_obj tree_view !! i) as [o|]; [exact (Bool.eqb_prop _ _ K3)|exact I]|]. split; [exact K4|]. split; [reflexivity|exact K5].
Qed.

(** format on the file system of the first start *)
Example C115_format_nonvacuous : exists pr i, reach false fresh_world /\ shows fresh_world boot_view /\ vw_proc boot_view !! 1 = Some pr /\ where_is (q_cwd pr) "/" = [] /\
  vw_at boot_view !! [] = Some i /\ is_adir boot_view i = true /\ tool_ok boot_view pr [] /\ small_dirs boot_view [] /\
  match aprog boot_view 1 (deltree 9 "/" Stop) with
  | Some (a', ss, e) => ss = [] /\ e = Finished /\ size (vw_at boot_view) <> 1%nat /\ size (vw_at a') = 1%nat
  | None => False end.
Proof.
  assert (K : match vw_proc boot_view !! 1, vw_at boot_view !! [] with
     | Some pr, Some i => bool_decide (where_is (q_cwd pr) "/" = []) && okb boot_view pr [] && smallb boot_view [] && is_adir boot_view i
     | _, _ => false end = true) by (vm_compute; reflexivity).
  assert (R : match aprog boot_view 1 (deltree 9 "/" Stop) with
     | Some (a', ss, e) => ss = [] /\ e = Finished /\ size (vw_at boot_view) <> 1%nat /\ size (vw_at a') = 1%nat
     | None => False end) by (vm_compute; repeat split; discriminate).
  destruct (vw_proc boot_view !! 1) as [pr|] eqn:Ep; [|discriminate K]. destruct (vw_at boot_view !! []) as [i|] eqn:Ei; [|discriminate K].
  apply andb_true_iff in K as [K K4]. apply andb_true_iff in K as [K K3]. apply andb_true_iff in K as [K1 K2].
  exists pr, i. split; [exact (reach_boot false)|]. split; [exact boot_shows|]. split; [reflexivity|]. split; [exact (proj1 (bool_decide_eq_true _) K1)|]. split; [reflexivity|].
  split; [exact K4|]. split; [exact (okb_ok _ _ _ K2)|]. split; [exact (smallb_ok _ _ K3)|exact R].
Qed.
