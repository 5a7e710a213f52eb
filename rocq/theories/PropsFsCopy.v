(** The tools that copy files of the host into the file system: C102, C103 *)
From stdpp Require Import gmap.
From Verif Require Import Base PathModel PathSpec FsModel FsBoot FsSpec FsReachSpec FsWinv FsReach FsTree FsNameSpec FdSpec FsIoSpec
  FsCopyModel FsCopySpec FsCopyProofs FsCopyTree FsCopyUpdate FsCopyCheck.
Local Open Scope list_scope.
Local Open Scope Z_scope.

Lemma ex_done1 (x : outcome world) (P : world -> Prop) :
  (match x with Done _ => true | Panic => false end) = true ->
  P (match x with Done w => w | Panic => fresh_world end) -> exists w, x = Done w /\ P w.
Proof. destruct x; [eauto|discriminate]. Qed.

(** ** C102 Copying a host tree puts every file at its path and touches nothing else *)

(** Whatever the tree and wherever it goes (also without the permission to create
    directories): if the tool ends, no path leads elsewhere than before, new are
    only the paths of the files and the directories on the way, objects that none
    of these paths led to keep size and bytes, and the process has the descriptors
    and the working directory it had. *)
Theorem C102_only_adds :
  forall c create t p w w' cwd,
    reach true w -> w_cwd w !! c = Some cwd -> host_ok t -> p <> "" ->
    cp_dir c create t p w = Done w' ->
    added (paths (normpath cwd p) t) w w' /\ w_fds w' = w_fds w /\ w_cwd w' = w_cwd w /\ reach true w'.
Proof.
  intros c create t p w w' cwd Hr Hc Ht Hp H. destruct (cp_dir_added c create t p w w' cwd Ht Hp Hr Hc H) as (R & [P1 P2] & A). auto.
Qed.
Print Assumptions C102_only_adds.

(** If the root is none of the paths, nothing is in the way, no two of the paths
    are names of one file and a descriptor is free, the tool ends and every file
    is there with its bytes. *)
Theorem C102_copied_partial :
  forall c t p w cwd,
    reach true w -> w_cwd w !! c = Some cwd -> host_ok t -> p <> "" ->
    ~ In [] (paths (normpath cwd p) t) ->
    (forall q, In q (paths (normpath cwd p) t) -> way_free w q) ->
    unlinked w (paths (normpath cwd p) t) ->
    ~ none_free (w_fds w) c 0 ->
    exists w', cp_dir c true t p w = Done w' /\ forall q bs, In (q, bs) (files (normpath cwd p) t) -> holds_file w' q bs.
Proof. intros c t p w cwd Hr Hc Ht Hp. exact (cp_dir_ok c t p w cwd Ht Hp Hr Hc). Qed.
Print Assumptions C102_copied_partial.

(** A file system with a directory, a file in it, and a second name of the file *)
Definition hist_copy : list (Z * op) :=
  [(1, Mkdir "/d" 511); (1, Open "/d/f" (Z.lor O_CREAT O_RDWR) 438); (1, Write 3 [1; 2]); (1, Close 3); (1, Link "/d/f" "/h"); (1, Creat "/d/g" 438); (1, Close 3)].
Definition some_tree : htree := HDir [("f", HFile [5; 6; 7]); ("n", HDir [("x", HFile [8]); ("y", HFile [])]); ("g", HFile [])].

Example C102_nonvacuous : exists wx, run fresh_world hist_copy = Some wx /\
  exists w', cp_dir 1 true some_tree "/d" wx.1 = Done w' /\
    holds_file w' ["d"; "f"] [5; 6; 7] /\ holds_file w' ["d"; "n"; "x"] [8] /\ holds_file w' ["d"; "n"; "y"] [] /\ holds_file w' ["d"; "g"] [] /\
    added [["d"; "f"]; ["d"; "n"; "x"]; ["d"; "n"; "y"]; ["d"; "g"]] wx.1 w'.
Proof.
  assert (H : exists wx, run fresh_world hist_copy = Some wx /\ w_cwd wx.1 !! 1 = Some [] /\
    forallb (way_freeb wx.1) (paths ["d"] some_tree) = true /\ unlinkedb wx.1 (paths ["d"] some_tree) = true /\
    match next_fd wx.1 1 0 with Some _ => true | None => false end = true) by run_ex (fresh_world, @List.nil out) (Ret 0).
  destruct H as (wx & Hrun & Hc & Hway & Hun & Hfd). exists wx. split; [exact Hrun|].
  pose proof (run_plain true hist_copy wx eq_refl Hrun) as Hr. pose proof (reach_winv _ _ Hr) as Hw.
  assert (Hok : host_ok some_tree).
  { unfold some_tree. cbn. assert (G : forall a, In a ["f"; "n"; "g"; "x"; "y"] -> good_name a) by (intros a [<-|[<-|[<-|[<-|[<-|[]]]]]]; repeat split; (discriminate || reflexivity)).
    assert (N : NoDup ["f"; "n"; "g"]) by (apply (bool_decide_unpack _); vm_compute; exact I).
    assert (N' : NoDup ["x"; "y"]) by (apply (bool_decide_unpack _); vm_compute; exact I).
    split; [exact N|]. split; [apply Forall_forall; intros a Ha; apply G; apply elem_of_list_In in Ha; cbn in *; tauto|].
    split; [exact I|]. split; [|auto]. split; [exact N'|]. split; [apply Forall_forall; intros a Ha; apply G; apply elem_of_list_In in Ha; cbn in *; tauto|auto]. }
  assert (En : normpath [] "/d" = ["d"]) by reflexivity.
  destruct (C102_copied_partial 1 some_tree "/d" wx.1 [] Hr Hc Hok ltac:(discriminate)) as (w' & E & F).
  - rewrite En. cbn. intuition discriminate.
  - rewrite En. intros q Hq. apply way_freeb_ok; [exact Hw|]. rewrite forallb_forall in Hway. exact (Hway q Hq).
  - rewrite En. apply unlinkedb_ok; [exact Hw| |exact Hun]. unfold paths. apply Forall_fmap, (files_canonical ["d"] some_tree); [|exact Hok].
    constructor; [repeat split; (discriminate || reflexivity)|constructor].
  - apply fd_free_ok. destruct (next_fd wx.1 1 0); [discriminate|discriminate Hfd].
  - exists w'. split; [exact E|]. rewrite En in F. cbn in F.
    destruct (C102_only_adds 1 true some_tree "/d" wx.1 w' [] Hr Hc Hok ltac:(discriminate) E) as (A & _). rewrite En in A.
    split; [apply F; auto|]. split; [apply F; auto|]. split; [apply F; auto|]. split; [apply F; auto|exact A].
Qed.

(** Empty directories are not copied. *)
Theorem C102_empty_dir_refuted :
  exists w', cp_dir 1 true (HDir [("e", HDir []); ("f", HFile [7])]) "/a" fresh_world = Done w' /\
    exists wy, run w' [(1, Stat "/a/e"); (1, Stat "/a/f")] = Some wy /\ wy.2 = [Ret (err ENOENT); RetStat 10 33279 1 1 0].
Proof. apply ex_done1; [vm_compute; reflexivity|]. run_ex (fresh_world, @List.nil out) (Ret 0). Qed.
Print Assumptions C102_empty_dir_refuted.

(** A file copied onto an existing directory, or onto the root: the tool aborts,
    unless the file is empty: then it reports success onto the directory. *)
Theorem C102_onto_dir_refuted :
  cp_dir 1 true (HFile [7]) "/tmp" fresh_world = Panic /\ cp_dir 1 true (HFile [7]) "/" fresh_world = Panic /\
  exists w', cp_file 1 true [] "/tmp" fresh_world = Done (w', true) /\
    exists wy, run w' [(1, Access "/tmp" 0); (1, Rmdir "/tmp")] = Some wy /\ wy.2 = [Ret 0; Ret 0].
Proof. split; [vm_compute; reflexivity|]. split; [vm_compute; reflexivity|]. apply (ex_done_b fresh_world); [vm_compute; reflexivity|]. run_ex (fresh_world, @List.nil out) (Ret 0). Qed.
Print Assumptions C102_onto_dir_refuted.

(** Two files copied onto two names of one file: both have the bytes of the last. *)
Theorem C102_hard_link_refuted :
  exists wx, run fresh_world [(1, Creat "/a" 438); (1, Close 3); (1, Link "/a" "/b")] = Some wx /\
  exists w', cp_dir 1 true (HDir [("a", HFile [1]); ("b", HFile [2])]) "/" wx.1 = Done w' /\
    exists wy, run w' [(1, Open "/a" O_RDONLY 0); (1, Read 3 10)] = Some wy /\ wy.2 = [Ret 3; RetData 1 [2]].
Proof.
  apply (ex_some (fresh_world, @List.nil out)); [vm_compute; reflexivity|]. cbv beta. apply ex_done1; [vm_compute; reflexivity|]. run_ex (fresh_world, @List.nil out) (Ret 0).
Qed.
Print Assumptions C102_hard_link_refuted.

(** ** C103 Updating brings every file to the contents of the host, writes only what differs,
       and leaves other names of a replaced file alone *)

(** If the root is none of the paths, every file can be updated and a descriptor is
    free, the tool ends, every file has the bytes of the host, and the rest of the
    file system, with all files that had these bytes already, is as before. *)
Theorem C103_updated_partial :
  forall c t p w cwd,
    reach true w -> w_cwd w !! c = Some cwd -> host_ok t -> p <> "" ->
    ~ In [] (paths (normpath cwd p) t) ->
    (forall q bs, In (q, bs) (files (normpath cwd p) t) -> can_update w q bs) ->
    ~ none_free (w_fds w) c 0 ->
    exists w', update_dir c t p w = Done w' /\ w_fds w' = w_fds w /\ w_cwd w' = w_cwd w /\
      (forall q bs, In (q, bs) (files (normpath cwd p) t) -> holds_file w' q bs) /\
      replaced (fun q => exists bs, In (q, bs) (files (normpath cwd p) t) /\ ~ holds_file w q bs) w w'.
Proof. intros c t p w cwd Hr Hc Ht Hp. exact (update_dir_ok c t p w cwd Ht Hp Hr Hc). Qed.
Print Assumptions C103_updated_partial.

(** Another name of a file that is replaced keeps the old bytes; a file that is up
    to date is not written; missing files come with their directories. *)
Definition some_update : htree := HDir [("f", HFile [1; 9]); ("g", HFile []); ("n", HDir [("x", HFile [8])])].
Example C103_nonvacuous : exists wx, run fresh_world hist_copy = Some wx /\
  exists w', update_dir 1 some_update "/d" wx.1 = Done w' /\
    holds_file w' ["d"; "f"] [1; 9] /\ holds_file w' ["d"; "g"] [] /\ holds_file w' ["d"; "n"; "x"] [8] /\ holds_file w' ["h"] [1; 2].
Proof.
  assert (H : exists wx, run fresh_world hist_copy = Some wx /\ w_cwd wx.1 !! 1 = Some [] /\
    forallb (fun e => can_updateb wx.1 (fst e) (snd e)) (files ["d"] some_update) = true /\
    match next_fd wx.1 1 0 with Some _ => true | None => false end = true /\
    match leads wx.1 ["h"] with Some (i, x) => bool_decide (i_kind x = KFile) && bool_decide (bytes wx.1 i = Some [1; 2]) | None => false end = true) by run_ex (fresh_world, @List.nil out) (Ret 0).
  destruct H as (wx & Hrun & Hc & Hup & Hfd & Hh). exists wx. split; [exact Hrun|].
  pose proof (run_plain true hist_copy wx eq_refl Hrun) as Hr. pose proof (reach_winv _ _ Hr) as Hw.
  assert (G : forall a, In a ["f"; "n"; "g"; "x"; "d"; "h"] -> good_name a) by (intros a [<-|[<-|[<-|[<-|[<-|[<-|[]]]]]]]; repeat split; (discriminate || reflexivity)).
  assert (Hok : host_ok some_update).
  { unfold some_update. cbn.
    assert (N : NoDup ["f"; "g"; "n"]) by (apply (bool_decide_unpack _); vm_compute; exact I).
    assert (N' : NoDup ["x"]) by (apply (bool_decide_unpack _); vm_compute; exact I).
    split; [exact N|]. split; [apply Forall_forall; intros a Ha; apply G; apply elem_of_list_In in Ha; cbn in *; tauto|].
    split; [exact I|]. split; [exact I|]. split; [|auto]. split; [exact N'|]. split; [apply Forall_forall; intros a Ha; apply G; apply elem_of_list_In in Ha; cbn in *; tauto|auto]. }
  assert (En : normpath [] "/d" = ["d"]) by reflexivity.
  assert (Hd : canonical ["d"]) by (constructor; [apply G; cbn; tauto|constructor]).
  destruct (C103_updated_partial 1 some_update "/d" wx.1 [] Hr Hc Hok ltac:(discriminate)) as (w' & E & _ & _ & F & U).
  - rewrite En. cbn. intuition discriminate.
  - rewrite En. intros q bs Hq. rewrite forallb_forall in Hup. specialize (Hup _ Hq). apply can_updateb_ok; [exact Hw| |exact Hup].
    pose proof (files_canonical ["d"] some_update Hd Hok) as K. rewrite Forall_forall in K. exact (K _ (proj2 (elem_of_list_In _ _) Hq)).
  - apply fd_free_ok. destruct (next_fd wx.1 1 0); [discriminate|discriminate Hfd].
  - exists w'. split; [exact E|]. rewrite En in F, U. split; [apply F; cbn; auto|]. split; [apply F; cbn; auto|]. split; [apply F; cbn; auto|].
    assert (Hhc : canonical ["h"]) by (constructor; [apply G; cbn; tauto|constructor]).
    apply (replaced_holds _ wx.1 w' ["h"] [1; 2] Hw Hhc U).
    + intros (bs & Hin & _). cbn in Hin. intuition discriminate.
    + destruct (leads wx.1 ["h"]) as [[i x]|] eqn:El; [|discriminate Hh]. apply leads_some in El as [E1 E2]. apply andb_prop in Hh as [Hh1 Hh2].
      apply bool_decide_eq_true in Hh1. apply bool_decide_eq_true in Hh2. exists i, x. auto.
Qed.

(** An empty file of the host whose directory is missing: the tool aborts. *)
Theorem C103_empty_file_refuted :
  update_dir 1 (HFile []) "/x/y" fresh_world = Panic /\
  exists w', update_dir 1 (HFile [5]) "/x/y" fresh_world = Done w' /\ exists wy, run w' [(1, Access "/x/y" 0)] = Some wy /\ wy.2 = [Ret 0].
Proof. split; [vm_compute; reflexivity|]. apply ex_done1; [vm_compute; reflexivity|]. run_ex (fresh_world, @List.nil out) (Ret 0). Qed.
Print Assumptions C103_empty_file_refuted.

(** In a directory without write permission the old file is not removed, and the
    new bytes go into it: its other names have them too. *)
Theorem C103_readonly_dir_refuted :
  exists wx, run fresh_world (hist_copy ++ [(1, Chmod "/d" 365)]) = Some wx /\
  exists w', update_dir 1 (HFile [1; 9]) "/d/f" wx.1 = Done w' /\
    exists wy, run w' [(1, Open "/h" O_RDONLY 0); (1, Read 3 10)] = Some wy /\ wy.2 = [Ret 3; RetData 2 [1; 9]].
Proof.
  apply (ex_some (fresh_world, @List.nil out)); [vm_compute; reflexivity|]. cbv beta. apply ex_done1; [vm_compute; reflexivity|]. run_ex (fresh_world, @List.nil out) (Ret 0).
Qed.
Print Assumptions C103_readonly_dir_refuted.
