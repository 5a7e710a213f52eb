(** Which calls remove host files. *)
From Verif Require Import Base CodecModel PathModel PathSpec PathProofs FsModel FsSpec FsWalk FsNames FsTr FsSteps FsReachSpec MapModel.
Local Open Scope list_scope.
Local Open Scope Z_scope.
Opaque all_fds next_fd.

(** The disk effects between [w] and [w'] remove only files in [R] *)
Definition ext (R : Z -> Prop) (w w' : world) : Prop :=
  exists es, w_trace w' = w_trace w ++ es /\ forall i, PRemove i ∈ es -> R i.
Definition none (_ : Z) : Prop := False.
Implicit Types (R : Z -> Prop).

Lemma ext_refl R w : ext R w w.
Proof. exists []. split; [rewrite app_nil_r; reflexivity|]. intros i H. apply elem_of_nil in H. destruct H. Qed.
Lemma ext_trans R a b c : ext R a b -> ext R b c -> ext R a c.
Proof.
  intros (e1 & A1 & A2) (e2 & B1 & B2). exists (e1 ++ e2). split; [rewrite B1, A1, app_assoc; reflexivity|].
  intros i H. apply elem_of_app in H as [H|H]; auto.
Qed.
Lemma ext_mono (R R1 : Z -> Prop) w w' : (forall i, R i -> R1 i) -> ext R w w' -> ext R1 w w'.
Proof. intros H (es & A & B). exists es. auto. Qed.
Lemma ext_emit R w w1 e : (forall i, e = PRemove i -> R i) -> ext R w w1 -> ext R w (emit e w1).
Proof.
  intros He (es & A & B). exists (es ++ [e]). split; [cbn; rewrite A, app_assoc; reflexivity|].
  intros i H. apply elem_of_app in H as [H|H]; [auto|]. apply elem_of_list_singleton in H. auto.
Qed.
Lemma ext_log R w w1 i : ext R w w1 -> ext R w (log_meta i w1).
Proof. apply ext_emit. intros j [=]. Qed.
Lemma ext_open_fobj R w w1 i n : ext R w w1 -> ext R w (open_fobj i n w1).
Proof. unfold open_fobj. destruct (w_fobj w1 !! i); [auto|]. intros H. change (ext R w (emit (PCreate i) w1)). apply ext_emit; [intros j [=]|exact H]. Qed.
Lemma ext_zerofill R w w1 w2 i a n : zerofill i a n w1 = Done w2 -> ext R w w1 -> ext R w w2.
Proof.
  unfold zerofill. destruct (w_fobj w1 !! i) as [fs|]; [|discriminate]. destruct (fs <? a); [discriminate|]. intros [= <-] H.
  exact (ext_emit R w w1 (PWrite i a _) ltac:(intros j [=]) H).
Qed.
Lemma ext_writeat R w w1 w2 i a n : writeat i a n w1 = Done w2 -> ext R w w1 -> ext R w w2.
Proof.
  unfold writeat. destruct (w_fobj w1 !! i) as [fs|]; [|discriminate]. destruct (_ || _); [discriminate|]. intros [= <-] H.
  exact (ext_emit R w w1 (PWrite i a n) ltac:(intros j [=]) H).
Qed.
Lemma ext_remove R w w1 w2 i : remove_host i w1 = Done w2 -> R i -> ext R w w1 -> ext R w w2.
Proof.
  unfold remove_host. destruct (d_host (w_disk w1) !! i); [|discriminate]. intros [= <-] Hi H. apply ext_emit; [|exact H]. intros j [= <-]. exact Hi.
Qed.
Lemma ext_add_child R w w1 w2 par f i x : add_child par f i x w1 = Done w2 -> ext R w w1 -> ext R w w2.
Proof.
  unfold add_child. destruct (get_ino w1 par); [|discriminate]. cbn [obind]. intros [= <-] H. apply ext_log, ext_log. exact H.
Qed.
Lemma ext_file_write R w w1 w2 i pos bs x : file_write i pos bs x w1 = Done w2 -> ext R w w1 -> ext R w w2.
Proof.
  unfold file_write. intros E H.
  destruct (if 0 <? pos - i_size x then _ else _) as [wa|] eqn:Ea; cbn [obind] in E; [|discriminate E].
  destruct (writeat i pos bs wa) as [wb|] eqn:Eb; cbn [obind] in E; [|discriminate E].
  assert (Ha : ext R w wa) by (destruct (0 <? pos - i_size x); [exact (ext_zerofill _ _ _ _ _ _ _ Ea H)|destruct (w_fobj w1 !! i); [injection Ea as <-; exact H|discriminate Ea]]).
  pose proof (ext_writeat _ _ _ _ _ _ _ Eb Ha) as Hb. destruct (i_size x <? _); injection E as <-; [apply ext_log; exact Hb|exact Hb].
Qed.

(** Solves goals about compositions of updates without removal *)
Ltac ext_step := match goal with
  | |- ext _ ?w ?w => apply ext_refl
  | |- ext ?R ?w (with_ino _ ?u) => change (ext R w u)
  | |- ext ?R ?w (with_next _ ?u) => change (ext R w u)
  | |- ext ?R ?w (with_fobj _ ?u) => change (ext R w u)
  | |- ext ?R ?w (with_cwd _ ?u) => change (ext R w u)
  | |- ext ?R ?w (with_fds _ ?u) => change (ext R w u)
  | |- ext ?R ?w (with_pipes _ ?u) => change (ext R w u)
  | |- ext ?R ?w (with_npipe _ ?u) => change (ext R w u)
  | |- ext ?R ?w (with_dsock _ ?u) => change (ext R w u)
  | |- ext ?R ?w (put_ino _ _ ?u) => change (ext R w u)
  | |- ext ?R ?w (del_ino _ ?u) => change (ext R w u)
  | |- ext ?R ?w (put_fd _ _ _ ?u) => change (ext R w u)
  | |- ext ?R ?w (del_fd _ _ ?u) => change (ext R w u)
  | |- ext _ _ (log_meta _ _) => apply ext_log
  | |- ext _ _ (open_fobj _ _ _) => apply ext_open_fobj
  | |- ext _ _ (emit _ _) => apply ext_emit; [let j := fresh "j" in intros j [=]|]
  | |- ext _ _ (if ?b then _ else _) => destruct b
  | |- ext _ _ (match ?x with KFile => _ | KDir => _ | KChr _ _ => _ | KSock => _ end) => destruct x
  | E : zerofill _ _ _ _ = Done ?u |- ext _ _ ?u => apply (ext_zerofill _ _ _ _ _ _ _ E); clear E
  | E : writeat _ _ _ _ = Done ?u |- ext _ _ ?u => apply (ext_writeat _ _ _ _ _ _ _ E); clear E
  | E : add_child _ _ _ _ _ = Done ?u |- ext _ _ ?u => apply (ext_add_child _ _ _ _ _ _ _ _ E); clear E
  | E : file_write _ _ _ _ _ = Done ?u |- ext _ _ ?u => apply (ext_file_write _ _ _ _ _ _ _ _ E); clear E
  end.
(** Takes a call apart *)
Ltac part H :=
  repeat (cbn [obind ret same fst snd] in H; match type of H with
  | Panic = Done _ => discriminate H
  | Done _ = Done _ => injection H as ? ?; subst
  | Done _ = Done _ => injection H as ?; subst
  | obind ?o _ = Done _ => let E := fresh "E" in destruct o eqn:E; cbn [obind] in H; [|discriminate H]
  | context [match ?x with _ => _ end] =>
      lazymatch x with
      | context [match _ with _ => _ end] => fail
      | _ => let E := fresh "E" in destruct x eqn:E
      end
  end).

Section S.
Context (w : world) (c : Z).

Lemma ext_mkdir cwd p m w' (r : Z) : mkdir_syscall w cwd p m = Done (w', r) -> ext none w w'.
Proof. unfold mkdir_syscall. intros H. part H; repeat ext_step. Qed.
Lemma ext_mknod cwd p m d w' (r : Z) : mknod_syscall w cwd p m d = Done (w', r) -> ext none w w'.
Proof. unfold mknod_syscall. intros H. part H; repeat ext_step. Qed.
Lemma ext_link cwd p q w' (r : Z) : link_syscall w cwd p q = Done (w', r) -> ext none w w'.
Proof. unfold link_syscall. intros H. part H; repeat ext_step. Qed.
Lemma ext_rfp R w0 w1 w2 par tp (r : Z) : remove_from_parent par tp w1 = Done (w2, r) -> ext R w0 w1 -> ext R w0 w2.
Proof. unfold remove_from_parent. intros H. part H; intros; repeat ext_step; assumption. Qed.
Lemma ext_rmdir cwd p w' (r : Z) : rmdir_syscall w cwd p = Done (w', r) -> ext none w w'.
Proof. unfold rmdir_syscall. intros H. part H; repeat ext_step; (match goal with E : remove_from_parent _ _ _ = Done _ |- _ => apply (ext_rfp _ _ _ _ _ _ _ E) end); repeat ext_step. Qed.
Lemma ext_rename cwd p q w' (r : Z) : rename_syscall w cwd p q = Done (w', r) -> ext none w w'.
Proof. unfold rename_syscall. intros H. part H; repeat ext_step. Qed.
Lemma ext_chmodh i m w' (r : Z) : chmod_helper i m w = Done (w', r) -> ext none w w'.
Proof. unfold chmod_helper. intros H. part H; repeat ext_step. Qed.
Lemma ext_trunch i n b w' (r : Z) : truncate_helper i n b w = Done (w', r) -> ext none w w'.
Proof. unfold truncate_helper. intros H. part H; repeat ext_step; (match goal with E : (if _ then _ else _) = Done _ |- _ => part E end); repeat ext_step. Qed.
Lemma ext_read fd n w' (r : out) : read_syscall w c fd n = Done (w', r) -> ext none w w'.
Proof. unfold read_syscall. intros H. part H; repeat ext_step. Qed.
Lemma ext_write fd n w' (r : out) : write_syscall w c fd n = Done (w', r) -> ext none w w'.
Proof. unfold write_syscall. intros H. part H; repeat ext_step. Qed.
Lemma ext_pwrite fd n o w' (r : out) : pwrite_syscall w c fd n o = Done (w', r) -> ext none w w'.
Proof. unfold pwrite_syscall. intros H. part H; repeat ext_step. Qed.
Lemma ext_writev fd n w' (r : out) : writev_syscall w c fd n = Done (w', r) -> ext none w w'.
Proof. unfold writev_syscall. intros H. part H; repeat ext_step. Qed.
Lemma ext_lseek fd o h w' (r : Z) : lseek_syscall w c fd o h = Done (w', r) -> ext none w w'.
Proof. unfold lseek_syscall. intros H. part H; repeat ext_step. Qed.
Lemma ext_addref d w' : add_ref d w = Done (Some w') -> ext none w w'.
Proof. unfold add_ref. intros H. part H; first [discriminate H|repeat ext_step]. Qed.
Lemma ext_chdir cwd p w' (r : Z) : chdir_syscall w c cwd p = Done (w', r) -> ext none w w'.
Proof. unfold chdir_syscall. intros H. part H; repeat ext_step. Qed.
Lemma ext_fchdir fd cwd w' (r : out) : fchdir_syscall w c fd cwd = Done (w', r) -> ext none w w'.
Proof. unfold fchdir_syscall. intros H. part H; repeat ext_step. Qed.
Lemma ext_getdents fd n w' (r : out) : getdents_syscall w c fd n = Done (w', r) -> ext none w w'.
Proof. unfold getdents_syscall. intros H. part H; repeat ext_step. Qed.
Lemma ext_pipe2 fl w' (r : out) : pipe2_syscall w c fl = Done (w', r) -> ext none w w'.
Proof. unfold pipe2_syscall. intros H. part H; repeat ext_step. Qed.
Lemma ext_epoll n w' (r : Z) : epoll_create_syscall w c n = Done (w', r) -> ext none w w'.
Proof. unfold epoll_create_syscall. intros H. part H; repeat ext_step. Qed.

(** ** Calls that give up a reference *)
(** Only files whose object is gone afterwards are removed, and no object comes back *)
Definition drops (w w' : world) : Prop :=
  ext (fun i => w_ino w' !! i = None) w w' /\ forall i, w_ino w !! i = None -> w_ino w' !! i = None.
Lemma drops_refl w0 : drops w0 w0.
Proof. split; [apply ext_refl|auto]. Qed.
Lemma drops_trans a b d : drops a b -> drops b d -> drops a d.
Proof. intros [A1 A2] [B1 B2]. split; [|auto]. apply (ext_trans _ a b d); [|exact B1]. revert A1. apply ext_mono. exact B2. Qed.
Lemma drops_same w1 w2 : w_trace w2 = w_trace w1 -> w_ino w2 = w_ino w1 -> drops w1 w2.
Proof. intros H1 H2. split; [exists []; rewrite app_nil_r; split; [exact H1|intros i H; apply elem_of_nil in H; destruct H]|rewrite H2; auto]. Qed.
Lemma drops_put w1 w2 i x : is_Some (w_ino w1 !! i) -> w_trace w2 = w_trace w1 -> w_ino w2 = <[i := x]> (w_ino w1) -> drops w1 w2.
Proof.
  intros Hi H1 H2. split; [exists []; rewrite app_nil_r; split; [exact H1|intros j H; apply elem_of_nil in H; destruct H]|].
  intros j Hj. rewrite H2. destruct (decide (i = j)) as [<-|]; [rewrite Hj in Hi; destruct Hi; discriminate|]. rewrite lookup_insert_ne by assumption. exact Hj.
Qed.
Lemma drops_log w1 w2 i : drops w1 w2 -> drops w1 (log_meta i w2).
Proof. intros [H1 H2]. split; [apply ext_log; exact H1|exact H2]. Qed.
Lemma drops_del w1 i x : drops w1 (del_ino i (put_ino i x w1)).
Proof.
  split; [exists []; rewrite app_nil_r; split; [reflexivity|intros j H; apply elem_of_nil in H; destruct H]|].
  intros j Hj. cbn. rewrite delete_insert_delete. destruct (decide (i = j)) as [<-|]; [apply lookup_delete|rewrite lookup_delete_ne by assumption; exact Hj].
Qed.

Lemma close_desc_drops d w1 w2 r : close_desc d w1 = Done (w2, r) -> drops w1 w2.
Proof.
  unfold close_desc. destruct d as [i pos fl|st fl|pid fl|fl]; intros H.
  - destruct (get_ino w1 i) as [x|] eqn:Ex; cbn [obind] in H; [|discriminate H]. apply get_ino_done in Ex.
    destruct (dec (i_ref x)) as [k|]; cbn [obind] in H; [|discriminate H].
    assert (P : drops w1 (put_ino i (set_ref k x) w1)) by (apply (drops_put _ _ i (set_ref k x)); [rewrite Ex; eauto|reflexivity|reflexivity]).
    destruct (i_kind x).
    + destruct (k =? 0); [|injection H as <- _; exact P]. destruct (w_fobj _ !! i); [|discriminate H].
      destruct (i_link x =? 0); [|injection H as <- _; eapply drops_trans; [exact P|apply drops_same; reflexivity]].
      match type of H with context [remove_host i ?u] => destruct (remove_host i u) as [w3|] eqn:Er; cbn [obind] in H; [|discriminate H] end.
      injection H as <- _. apply drops_log. destruct (drops_del w1 i (set_ref k x)) as [_ D2].
      unfold remove_host in Er. match type of Er with context [match ?y with _ => _ end] => destruct y; [|discriminate Er] end. injection Er as <-.
      split; [|exact D2]. exists [PRemove i]. split; [reflexivity|]. intros j Hj. apply elem_of_list_singleton in Hj. injection Hj as ->. cbn. apply lookup_delete.
    + destruct (w_fobj _ !! i); [injection H as <- _; exact P|]. destruct (_ && _); injection H as <- _; [apply drops_log, drops_del|exact P].
    + destruct (w_fobj _ !! i); [injection H as <- _; exact P|]. injection H as <- _. apply drops_log. destruct (_ && _); [apply drops_del|exact P].
    + discriminate H.
  - injection H as <- _. apply drops_refl.
  - destruct (get_pipe w1 pid); cbn [obind] in H; [|discriminate H]. injection H as <- _. apply drops_same; reflexivity.
  - injection H as <- _. apply drops_refl.
Qed.
Lemma close_inner_drops w1 w2 fd (r : Z) : close_inner w1 c fd = Done (w2, r) -> drops w1 w2.
Proof.
  unfold close_inner. destruct (fd_slot w1 c fd) as [[d|]|]; cbn [obind]; intros H; [exact (close_desc_drops _ _ _ _ H)|injection H as <- _; apply drops_refl|discriminate H].
Qed.
Lemma close_drops w1 w2 fd (r : Z) : close_syscall w1 c fd = Done (w2, r) -> drops w1 w2.
Proof.
  unfold close_syscall. destruct (close_inner w1 c fd) as [[wa k]|] eqn:E; cbn [obind]; [|discriminate]. apply close_inner_drops in E.
  destruct (k <? 0); intros [= <- _]; [exact E|]. eapply drops_trans; [exact E|apply drops_same; reflexivity].
Qed.
Lemma close_all_drops l : forall w1 w2, fold_left (close_fd_in c) l (Done w1) = Done w2 -> drops w1 w2.
Proof.
  induction l as [|fd l IH]; intros w1 w2 H; cbn [fold_left] in H; [injection H as <-; apply drops_refl|].
  unfold close_fd_in at 2 in H. cbn [obind] in H. destruct (close_syscall w1 c fd) as [[wa k]|] eqn:E; cbn [obind fst] in H.
  - eapply drops_trans; [exact (close_drops _ _ _ _ E)|exact (IH _ _ H)].
  - exfalso. clear -H. induction l as [|fd' l IH]; cbn [fold_left] in H; [discriminate H|exact (IH H)].
Qed.
Lemma add_ref_drops d w1 w2 : add_ref d w1 = Done (Some w2) -> drops w1 w2.
Proof.
  unfold add_ref. destruct d as [i pos fl|st fl|pid fl|fl]; intros H.
  - destruct (get_ino w1 i) as [x|] eqn:Ex; cbn [obind] in H; [|discriminate H]. apply get_ino_done in Ex.
    assert (P : drops w1 (put_ino i (set_ref (i_ref x + 1) x) w1)) by (eapply drops_put; [rewrite Ex; eauto|reflexivity|reflexivity]).
    destruct (i_kind x); [injection H as <-; exact P|injection H as <-; exact P|injection H as <-; exact P|discriminate H].
  - injection H as <-. apply drops_refl.
  - destruct (get_pipe w1 pid); cbn [obind] in H; [|discriminate H]. injection H as <-. apply drops_same; reflexivity.
  - discriminate H.
Qed.
Lemma dup2h_drops d fd b w' (r : Z) : dup2_helper w c d fd b = Done (w', r) -> drops w w'.
Proof.
  unfold dup2_helper. intros H. destruct (if b then _ else _) as [o|] eqn:E; cbn [obind] in H; [|discriminate H].
  destruct o as [[w1 fd1]|]; [|injection H as <- _; apply drops_refl].
  assert (D : drops w w1).
  { destruct b; [|destruct (next_fd w c fd); [injection E as <- _; apply drops_refl|discriminate E]]. destruct (w_fds w !! (c, fd)); [|injection E as <- _; apply drops_refl].
    destruct (close_inner w c fd) as [[wa k]|] eqn:Ec; cbn [obind fst] in E; [|discriminate E]. injection E as <- _. exact (close_inner_drops _ _ _ _ Ec). }
  destruct (add_ref d w1) as [[w2|]|] eqn:Ea; cbn [obind] in H; [| |discriminate H].
  - injection H as <- _. eapply drops_trans; [exact D|]. eapply drops_trans; [exact (add_ref_drops _ _ _ Ea)|apply drops_same; reflexivity].
  - injection H as <- _. exact D.
Qed.
Lemma dup_drops fd w' (r : Z) : dup_syscall w c fd = Done (w', r) -> drops w w'.
Proof.
  unfold dup_syscall. destruct (fd =? 0); [intros [= <- _]; apply drops_refl|]. destruct (negb _); [intros [= <- _]; apply drops_refl|].
  destruct (w_fds w !! (c, fd)); [apply dup2h_drops|intros [= <- _]; apply drops_refl].
Qed.
Lemma dup2_drops a b w' (r : Z) : dup2_syscall w c a b = Done (w', r) -> drops w w'.
Proof.
  unfold dup2_syscall. destruct (_ || _); [intros [= <- _]; apply drops_refl|]. destruct (b =? a); [intros [= <- _]; apply drops_refl|].
  destruct (negb _); [intros [= <- _]; apply drops_refl|]. destruct (w_fds w !! (c, a)); [apply dup2h_drops|intros [= <- _]; apply drops_refl].
Qed.
Lemma fcntl_drops fd cmd arg w' (r : Z) : fcntl_syscall w c fd cmd arg = Done (w', r) -> drops w w'.
Proof.
  unfold fcntl_syscall. intros H. destruct (fd_slot w c fd) as [[d|]|]; cbn [obind] in H; [| |discriminate H]; [|injection H as <- _; apply drops_refl].
  repeat match type of H with (if ?b then _ else _) = _ => destruct b end; try (injection H as <- _; first [apply drops_refl|apply drops_same; reflexivity]).
  exact (dup2h_drops _ _ _ _ _ H).
Qed.
Lemma exec_drops cwd ch w' (r : Z) : exec_syscall w c cwd ch = Done (w', r) -> drops w w'.
Proof.
  unfold exec_syscall. intros H. destruct (fold_left _ _ (Done w)) as [w1|] eqn:E; cbn [obind] in H; [|discriminate H]. apply close_all_drops in E.
  destruct (_ || _); [discriminate H|]. injection H as <- _. eapply drops_trans; [exact E|apply drops_same; reflexivity].
Qed.
Lemma exit_drops st w' (r : Z) : exit_syscall w c st = Done (w', r) -> drops w w'.
Proof.
  unfold exit_syscall. intros H. destruct (fold_left _ _ (Done w)) as [w1|] eqn:E; cbn [obind] in H; [|discriminate H]. apply close_all_drops in E.
  injection H as <- _. eapply drops_trans; [exact E|apply drops_same; reflexivity].
Qed.
Lemma ext_fork_all l ptab child : forall w1 w2, fold_left (fork_fd ptab c child) l (Done w1) = Done w2 -> ext none w1 w2.
Proof.
  induction l as [|fd l IH]; intros w1 w2 H; cbn [fold_left] in H; [injection H as <-; apply ext_refl|].
  assert (N : forall l', fold_left (fork_fd ptab c child) l' Panic = Panic) by (clear; induction l' as [|y l' IHl']; [reflexivity|exact IHl']).
  destruct (fork_fd ptab c child (Done w1) fd) as [wa|] eqn:E; [|rewrite N in H; discriminate H].
  eapply ext_trans; [|exact (IH _ _ H)]. unfold fork_fd in E. cbn [obind] in E. part E; repeat ext_step; (match goal with E1 : _ = Done ?u |- ext _ _ ?u => part E1 end); repeat ext_step.
Qed.
Lemma ext_fork cwd ch w' (r : Z) : fork_syscall w c cwd ch = Done (w', r) -> ext none w w'.
Proof.
  unfold fork_syscall. intros H. match type of H with context [fold_left ?f ?l (Done ?u)] => destruct (fold_left f l (Done u)) as [w1|] eqn:E; cbn [obind] in H; [|discriminate H]; apply ext_fork_all in E; change (ext none w w1) in E end.
  part H; repeat ext_step; exact E.
Qed.
Lemma unlink_ext cwd p w' (r : Z) : unlink_syscall w cwd p = Done (w', r) -> ext (fun i => w_ino w' !! i = None) w w'.
Proof.
  unfold unlink_syscall. intros H. destruct (String.eqb p ""); [injection H as <- _; apply ext_refl|].
  destruct (metawalkandparent (w_ino w) (normpath cwd p)) as [[[i|] [par|]]|]; cbn [obind] in H; try discriminate H; try (injection H as <- _; apply ext_refl).
  destruct (get_ino w i) as [x|]; cbn [obind] in H; [|discriminate H].
  assert (G : forall k, (do l <- dec (i_link x);
          let w1 := put_ino i (set_link l x) w in
          do wr <- remove_from_parent par (normpath cwd p) w1;
          let '(w2, res) := wr in
          if negb (res =? 0) then Done (w2, res) else
          do w3 <- (if (l =? 0) && (i_ref x =? 0)
                    then let w' := del_ino i w2 in
                         match k with KFile => remove_host i w' | _ => Done w' end
                    else Done w2);
          let w4 := with_dsock (fun s => s ∖ {[normpath cwd p]}) w3 in
          Done (match k with KSock => w4 | _ => log_meta i (log_meta par w4) end, 0)) = Done (w', r) -> ext (fun i => w_ino w' !! i = None) w w').
  { clear H. intros k H. destruct (dec (i_link x)) as [l|]; cbn [obind] in H; [|discriminate H].
    match type of H with context [remove_from_parent ?a ?b ?u] => destruct (remove_from_parent a b u) as [[w2 res]|] eqn:E; cbn [obind] in H; [|discriminate H] end.
    assert (E0 : forall R, ext R w w2) by (intros R; apply (ext_rfp _ _ _ _ _ _ _ E); repeat ext_step).
    destruct (negb _); [injection H as <- _; apply E0|].
    destruct (_ && _).
    - destruct k; cbv zeta in H.
      + match type of H with context [remove_host i ?u] => destruct (remove_host i u) as [w3|] eqn:Er; cbn [obind] in H; [|discriminate H] end.
        injection H as <- _. repeat ext_step. apply (ext_remove _ _ _ _ _ Er); [|repeat ext_step; apply E0].
        unfold remove_host in Er. match type of Er with context [match ?y with _ => _ end] => destruct y; [|discriminate Er] end. injection Er as <-. cbn. apply lookup_delete.
      + cbn [obind] in H. injection H as <- _. repeat ext_step. apply E0.
      + cbn [obind] in H. injection H as <- _. repeat ext_step. apply E0.
      + cbn [obind] in H. injection H as <- _. repeat ext_step. apply E0.
    - cbn [obind] in H. injection H as <- _. repeat ext_step; apply E0. }
  destruct (i_kind x) as [| |ma mi|] eqn:Ek; [exact (G KFile H)|injection H as <- _; apply ext_refl|exact (G (KChr ma mi) H)|exact (G KSock H)].
Qed.

(** open removes only the file that it truncates *)
Lemma open_ext cwd p fl m w' (r : Z) : open_syscall w c cwd p fl m = Done (w', r) ->
  ext (fun i => Z.land fl O_TRUNC = O_TRUNC /\ resolves (w_ino w) (normpath cwd p) i) w w'.
Proof.
  unfold open_syscall. intros H. destruct (String.eqb p ""); [injection H as <- _; apply ext_refl|].
  destruct (next_fd w c 0) as [fd|]; [|injection H as <- _; apply ext_refl].
  destruct (metawalkandparent (w_ino w) (normpath cwd p)) as [[[i|] op]|] eqn:Em; cbn [obind] in H; [| |discriminate H].
  - destruct (_ =? Z.lor O_CREAT O_EXCL); [injection H as <- _; apply ext_refl|]. destruct (get_ino w i) as [x|]; cbn [obind] in H; [|discriminate H].
    assert (Hr : resolves (w_ino w) (normpath cwd p) i) by (apply metawalk_resolves; unfold metawalk; rewrite Em; reflexivity).
    destruct (i_kind x).
    + destruct (Z.eqb_spec (Z.land fl O_TRUNC) O_TRUNC) as [Ht|Ht].
      * match type of H with context [remove_host i ?u] => destruct (remove_host i u) as [w3|] eqn:Er; cbn [obind] in H; [|discriminate H] end.
        injection H as <- _. repeat ext_step. apply (ext_remove _ _ _ _ _ Er); [auto|repeat ext_step].
      * cbn [obind] in H. injection H as <- _. repeat ext_step.
    + injection H as <- _. repeat ext_step.
    + injection H as <- _. repeat ext_step.
    + injection H as <- _. apply ext_refl.
  - destruct op as [par|]; [|injection H as <- _; apply ext_refl]. part H; repeat ext_step.
Qed.
End S.

(** ** All calls *)
Definition truncates (w : world) (c : Z) (o : op) (i : Z) : Prop :=
  exists cwd p, w_cwd w !! c = Some cwd /\ resolves (w_ino w) (normpath cwd p) i /\
    ((exists fl m, o = Open p fl m /\ Z.land fl O_TRUNC = O_TRUNC) \/ exists m, o = Creat p m).

Lemma step_ext w c o w' r : step w c o = Done (w', r) -> ext (fun i => truncates w c o i \/ w_ino w' !! i = None) w w'.
Proof.
  intros H. unfold step in H. destruct (w_cwd w !! c) as [cwd|] eqn:Hc; [|discriminate H].
  assert (N : ext none w w' -> ext (fun i => truncates w c o i \/ w_ino w' !! i = None) w w') by (apply ext_mono; intros i []).
  assert (D : drops w w' -> ext (fun i => truncates w c o i \/ w_ino w' !! i = None) w w') by (intros [D _]; revert D; apply ext_mono; auto).
  assert (U : ext (fun i => w_ino w' !! i = None) w w' -> ext (fun i => truncates w c o i \/ w_ino w' !! i = None) w w') by (apply ext_mono; auto).
  destruct o; unfold ret, same in H;
    (* the calls that answer a number *)
    try match type of H with obind ?e (fun r => Done (fst r, Ret (snd r))) = _ => destruct e as [[w1 r1]|] eqn:E; cbn [obind fst snd] in H; [|discriminate H]; injection H as -> _ end;
    (* the calls that change nothing *)
    try match type of H with obind ?e (fun r => Done (w, r)) = _ => destruct e; cbn [obind] in H; [|discriminate H]; injection H as <- _; apply ext_refl end.
  - apply open_ext in E. revert E. apply ext_mono. intros i [Ht Hr]. left. exists cwd, path. split; [exact Hc|]. split; [exact Hr|]. left. eauto.
  - apply open_ext in E. revert E. apply ext_mono. intros i [Ht Hr]. left. exists cwd, path. split; [exact Hc|]. split; [exact Hr|]. right. eauto.
  - exact (N (ext_mkdir _ _ _ _ _ _ E)).
  - exact (N (ext_mknod _ _ _ _ _ _ _ E)).
  - exact (N (ext_link _ _ _ _ _ _ E)).
  - exact (U (unlink_ext _ _ _ _ _ E)).
  - exact (N (ext_rmdir _ _ _ _ _ E)).
  - exact (N (ext_rename _ _ _ _ _ _ E)).
  - unfold chmod_syscall in E. part E; [|apply N, ext_refl]. exact (N (ext_chmodh _ _ _ _ _ E)).
  - unfold fchmod_syscall in E. part E; [exact (N (ext_chmodh _ _ _ _ _ E))|apply N, ext_refl..].
  - unfold truncate_syscall in E. part E; [|apply N, ext_refl]. exact (N (ext_trunch _ _ _ _ _ _ E)).
  - unfold ftruncate_syscall in E. part E; try (apply N, ext_refl). exact (N (ext_trunch _ _ _ _ _ _ E)).
  - destruct (access_syscall w cwd path amode); cbn [obind] in E; [|discriminate E]. injection E as <- _. apply ext_refl.
  - exact (N (ext_read _ _ _ _ _ _ H)).
  - exact (N (ext_write _ _ _ _ _ _ H)).
  - exact (N (ext_pwrite _ _ _ _ _ _ _ H)).
  - exact (N (ext_writev _ _ _ _ _ _ H)).
  - exact (N (ext_lseek _ _ _ _ _ _ _ E)).
  - destruct (fsync_syscall w c fd); cbn [obind] in E; [|discriminate E]. injection E as <- _. apply ext_refl.
  - exact (D (close_drops _ _ _ _ _ E)).
  - exact (D (dup_drops _ _ _ _ _ E)).
  - exact (D (dup2_drops _ _ _ _ _ _ E)).
  - exact (D (fcntl_drops _ _ _ _ _ _ _ E)).
  - exact (N (ext_chdir _ _ _ _ _ _ E)).
  - exact (N (ext_fchdir _ _ _ _ _ _ H)).
  - injection H as <- _. apply ext_refl.
  - exact (N (ext_getdents _ _ _ _ _ _ H)).
  - exact (N (ext_pipe2 _ _ _ _ _ H)).
  - exact (N (ext_epoll _ _ _ _ _ E)).
  - exact (N (ext_fork _ _ _ _ _ _ E)).
  - exact (D (exec_drops _ _ _ _ _ _ E)).
  - exact (D (exit_drops _ _ _ _ _ E)).
Qed.
