(** Every call keeps the agreement between disk and memory, and recovery. *)
From Verif Require Import Base PathModel PathSpec PathProofs FsModel FsBoot FsSpec FsWalk Count FsNames FsTr FsInv FsInv2
  FsSteps FsSteps2 FsFrame FsReachSpec FsTmp FsRestart FsReach FsPath FsCrashSpec FsCrash FsCrash2.
Local Open Scope list_scope.
Local Open Scope Z_scope.

Opaque all_fds.

Lemma onelog_effs w w' : onelog w w' -> exists es, effs w w' es.
Proof.
  intros [(es & E & _)|(w1 & i & x & (es & [E1 E2] & _) & T & D)]; [eauto|].
  exists (es ++ [PLog i x]). split.
  - rewrite T, E1, app_assoc. reflexivity.
  - rewrite D, after_app, E2. reflexivity.
Qed.

Lemma app_split {A} (l1 : list A) : forall l2 a b, l1 ++ l2 = a ++ b -> (exists l, l1 = a ++ l) \/ (exists l, a = l1 ++ l /\ l2 = l ++ b).
Proof.
  induction l1 as [|x l1 IH]; intros l2 a b H; cbn in *; [right; exists a; auto|].
  destruct a as [|y a]; cbn in *; [left; eauto|]. injection H as -> H.
  destruct (IH _ _ _ H) as [[l ->]|(l & -> & ->)]; [left; eauto|right; eauto].
Qed.

Lemma cp_split w w1 w2 es1 es2 d : effs w w1 es1 -> effs w1 w2 es2 -> crash_point w w2 d -> crash_point w w1 d \/ crash_point w1 w2 d.
Proof.
  intros [A1 A2] [B1 B2] (a & b & H & ->). rewrite B1, A1, <- app_assoc in H. apply app_inv_head in H.
  destruct (app_split _ _ _ _ H) as [[l ->]|(l & -> & ->)].
  - left. exists a, l. auto.
  - right. exists l, b. split; [exact B1|]. rewrite A2, after_app. reflexivity.
Qed.

Lemma onelog_good w w' n n' d : inv_n (w_ino w) n -> inv_n (w_ino w') n' -> ds [] w -> ds [] w' -> onelog w w' -> crash_point w w' d -> good d.
Proof.
  intros Hi Hi' Hd Hd' Ho Hp. destruct (onelog_point _ _ _ Ho Hp) as [E|E].
  - exact (good_meq _ _ E (ds_good _ _ Hi Hd)).
  - exact (good_meq _ _ E (ds_good _ _ Hi' Hd')).
Qed.

(** ** Closing many descriptors *)
Definition dg (w w' : world) : Prop :=
  ds [] w' /\ (exists es, effs w w' es) /\ forall d, crash_point w w' d -> good d.

Lemma close_fold_dg c l : forall w w', inv (core_of w) -> ds [] w ->
  fold_left (close_fd_in c) l (Done w) = Done w' -> dg w w'.
Proof.
  induction l as [|fd l IH]; intros w w' Hi Hd H.
  - cbn in H. injection H as <-. split; [exact Hd|]. split; [exists []; split; [rewrite app_nil_r; reflexivity|reflexivity]|].
    intros d Hp. exact (onelog_good _ _ _ _ _ (v_n _ Hi) (v_n _ Hi) Hd Hd (or_introl (quiet_refl w)) Hp).
  - cbn [fold_left] in H. unfold close_fd_in at 2 in H. cbn [obind] in H.
    destruct (close_syscall w c fd) as [[w1 r]|] eqn:Ec; cbn [obind fst] in H; [|rewrite close_in_panic in H; discriminate H].
    destruct (close_trs true _ _ _ _ _ Hi Ec) as (Ht & _ & _). pose proof (trs_inv _ _ _ Ht Hi) as Hi1.
    destruct (close_dq _ _ _ _ _ Ec) as [K Ho]. pose proof (K Hd) as Hd1.
    destruct (IH w1 w' Hi1 Hd1 H) as (Hd2 & (es2 & E2) & G2). destruct (onelog_effs _ _ Ho) as [es1 E1].
    split; [exact Hd2|]. split.
    + exists (es1 ++ es2). destruct E1 as [A1 A2], E2 as [B1 B2]. split; [rewrite B1, A1, app_assoc; reflexivity|rewrite B2, A2, after_app; reflexivity].
    + intros d Hp. destruct (cp_split _ _ _ _ _ _ E1 E2 Hp) as [Hp1|Hp2]; [|exact (G2 _ Hp2)].
      exact (onelog_good _ _ _ _ _ (v_n _ Hi) (v_n _ Hi1) Hd Hd1 Ho Hp1).
Qed.

Definition silent (w w' : world) : Prop := (ds [] w -> ds [] w') /\ w_disk w' = w_disk w /\ w_trace w' = w_trace w.
Lemma silent_refl w : silent w w. Proof. repeat split; auto. Qed.
Lemma silent_trans a b c : silent a b -> silent b c -> silent a c.
Proof. intros (A1 & A2 & A3) (B1 & B2 & B3). split; [auto|]. split; congruence. Qed.
Lemma silent_dq w w' : silent w w' -> dq w w'.
Proof. intros (A1 & A2 & A3). split; [exact A1|]. exact (onelog_eq w w w' A2 A3 (or_introl (quiet_refl w))). Qed.

Lemma fork_fold_silent ptab c child l : forall w w', fold_left (fork_fd ptab c child) l (Done w) = Done w' -> silent w w'.
Proof.
  induction l as [|fd l IH]; intros w w' H; [cbn in H; injection H as <-; apply silent_refl|].
  cbn [fold_left] in H. destruct (fork_fd ptab c child (Done w) fd) as [w1|] eqn:E; [|rewrite fork_fd_panic in H; discriminate H].
  apply silent_trans with w1; [|exact (IH _ _ H)]. clear IH H. unfold fork_fd in E. cbn [obind] in E.
  destruct (ptab !! (c, fd)) as [d|]; [|injection E as <-; apply silent_refl].
  match type of E with obind ?o _ = _ => destruct o as [w2|] eqn:E2; cbn [obind] in E; [|discriminate E] end. injection E as <-.
  assert (S : silent w w2); [|exact S]. destruct d as [i pos fl|st fl|pid fl|fl].
  - destruct (get_ino w i) as [x|] eqn:Hx; cbn [obind] in E2; [|discriminate E2]. apply get_ino_done in Hx. injection E2 as <-.
    split; [|split; reflexivity]. intros Hd. exact (ds_same [] i (set_ref (i_ref x + 1) x) x w Hx eq_refl Hd).
  - injection E2 as <-. apply silent_refl.
  - destruct (get_pipe w pid); cbn [obind] in E2; [|discriminate E2]. injection E2 as <-. exact (silent_refl w).
  - injection E2 as <-. apply silent_refl.
Qed.

Lemma fork_dq w c cwd child w' r : fork_syscall w c cwd child = Done (w', r) -> dq w w'.
Proof.
  intros H. unfold fork_syscall in H.
  match type of H with obind ?o _ = _ => destruct o as [w1|] eqn:E; cbn [obind] in H; [|discriminate H] end.
  apply fork_fold_silent in E. match type of E with silent ?a _ => assert (S : silent w w1) by exact E end. clear E.
  destruct (metawalk _ _) as [[i|]|]; cbn [obind] in H; [|discriminate H|discriminate H].
  destruct (get_ino w1 i) as [x|] eqn:Hx; cbn [obind] in H; [|discriminate H]. apply get_ino_done in Hx.
  destruct (i_kind x); try discriminate H. destruct (_ || _) in H; [discriminate H|]. injection H as <- _.
  apply silent_dq. apply silent_trans with w1; [exact S|]. split; [|split; reflexivity].
  intros Hd. exact (ds_same [] i (set_ref (i_ref x + 1) x) x w1 Hx eq_refl Hd).
Qed.

(** ** Every call *)
Definition outcome_ok (w w' : world) : Prop :=
  (ds [] w -> ds [] w') /\
  (ds [] w -> forall d, crash_point w w' d -> good d \/ w_next w' = w_next w + 1 /\ good_but (fun i => i = w_next w) d).

Lemma step_dq w c o w' r : winv w -> step w c o = Done (w', r) -> tame true w c o r ->
  match o with
  | Link _ _ | Unlink _ | Rmdir _ => dt w w'
  | Exec _ | Exit _ => ds [] w -> dg w w'
  | _ => dqn w w'
  end.
Proof.
  intros Hw H Ht. pose proof (dqn_dq _ _ (dq_refl w)) as Ho. pose proof (u_inv _ Hw) as Hi. unfold step in H.
  destruct (w_cwd w !! c) as [cwd|] eqn:Hc; [|discriminate H]. pose proof (u_cwd _ Hw _ _ Hc) as Hcan.
  Ltac k1 H Ho := injection H as <- _; exact Ho.
  destruct o; unfold ret, same in H; cbn [tame] in Ht; cbv iota.
  - peelw H. exact (open_dq _ _ _ _ _ _ _ _ H).
  - peelw H. exact (open_dq _ _ _ _ _ _ _ _ H).
  - peelw H. exact (mkdir_dq _ _ _ _ _ _ H).
  - peelw H. exact (mknod_dq _ _ _ _ _ _ _ H).
  - peelw H. exact (link_dt _ _ _ _ _ _ Hi Hcan H).
  - peelw H. refine (unlink_dt _ _ _ _ _ Hi Hcan H _). congruence.
  - peelw H. exact (rmdir_dt _ _ _ _ _ Hi Hcan H).
  - peelw H. apply dqn_dq. exact (rename_dq _ _ _ _ _ _ H).
  - peelw H. unfold chmod_syscall in H. brk H; try exact Ho. apply dqn_dq. exact (chmod_dq _ _ _ _ _ _ (v_n _ Hi) H).
  - peelw H. unfold fchmod_syscall in H. destruct (fd_slot w c fd) as [s|]; cbn [obind] in H; [|discriminate H].
    destruct s as [[]|]; try (k1 H Ho). apply dqn_dq. exact (chmod_dq _ _ _ _ _ _ (v_n _ Hi) H).
  - peelw H. unfold truncate_syscall in H. brk H; try exact Ho. apply dqn_dq. exact (truncate_dq _ _ _ _ _ _ H).
  - peelw H. unfold ftruncate_syscall in H. destruct (fd_slot w c fd) as [s|]; cbn [obind] in H; [|discriminate H].
    destruct s as [[]|]; try (k1 H Ho). destruct (is_rdonly _); [k1 H Ho|]. apply dqn_dq. exact (truncate_dq _ _ _ _ _ _ H).
  - brk H; exact Ho.
  - brk H; exact Ho.
  - peelw H; brk H; exact Ho.
  - unfold read_syscall in H. destruct (fd_slot w c fd) as [s|] eqn:Es; cbn [obind] in H; [|discriminate H].
    destruct s as [[j pos fl|st fl|pid fl|fl]|]; try (k1 H Ho).
    + destruct (is_wronly _); [k1 H Ho|]. destruct (get_ino w j) as [x|]; cbn [obind] in H; [|discriminate H].
      destruct (i_kind x); try (k1 H Ho); [|discriminate H]. destruct (readat _ _ _ _); cbn [obind] in H; [|discriminate H].
      k1 H Ho.
    + destruct (is_wronly _); [k1 H Ho|]. destruct (get_pipe w pid); cbn [obind] in H; [|discriminate H].
      destruct (pipe_read _ _ _). k1 H Ho.
  - brk H; exact Ho.
  - unfold write_syscall in H. destruct (fd_slot w c fd) as [s|] eqn:Es; cbn [obind] in H; [|discriminate H].
    destruct s as [[j pos fl|st fl|pid fl|fl]|]; try (k1 H Ho).
    + destruct (is_rdonly _); [k1 H Ho|]. destruct (get_ino w j) as [x|]; cbn [obind] in H; [|discriminate H].
      destruct (i_kind x); try (k1 H Ho); [|discriminate H]. destruct (file_write _ _ _ _ _) as [w1|] eqn:E; cbn [obind] in H; [|discriminate H].
      apply file_write_dq in E. injection H as <- _. apply dqn_dq. exact E.
    + destruct (is_rdonly _); [k1 H Ho|]. destruct (get_pipe w pid); cbn [obind] in H; [|discriminate H].
      destruct (pipe_write _ _ _). k1 H Ho.
  - unfold pwrite_syscall in H. destruct (fd_slot w c fd) as [s|] eqn:Es; cbn [obind] in H; [|discriminate H].
    destruct s as [[j pos fl|st fl|pid fl|fl]|]; try (k1 H Ho).
    destruct (is_rdonly _); [k1 H Ho|]. destruct (get_ino w j) as [x|]; cbn [obind] in H; [|discriminate H].
    destruct (i_kind x); try (k1 H Ho); [|discriminate H]. destruct (file_write _ _ _ _ _) as [w1|] eqn:E; cbn [obind] in H; [|discriminate H].
    apply file_write_dq in E. injection H as <- _. apply dqn_dq. exact E.
  - unfold writev_syscall in H. destruct (fd_slot w c fd) as [s|] eqn:Es; cbn [obind] in H; [|discriminate H].
    destruct s as [[j pos fl|st fl|pid fl|fl]|]; try (k1 H Ho).
    + destruct (is_rdonly _); [k1 H Ho|]. destruct (get_ino w j) as [x|]; cbn [obind] in H; [|discriminate H].
      destruct (i_kind x); try (k1 H Ho); [|discriminate H]. destruct (file_write _ _ _ _ _) as [w1|] eqn:E; cbn [obind] in H; [|discriminate H].
      apply file_write_dq in E. injection H as <- _. apply dqn_dq. exact E.
    + destruct (is_rdonly _); [k1 H Ho|]. destruct (get_pipe w pid); cbn [obind] in H; [|discriminate H].
      destruct (pipe_writev _ _ _ _). k1 H Ho.
  - peelw H. unfold lseek_syscall in H. destruct (fd_slot w c fd) as [s|] eqn:Es; cbn [obind] in H; [|discriminate H].
    destruct s as [[j pos fl|st fl|pid fl|fl]|]; try (k1 H Ho).
    destruct (get_ino w j) as [x|]; cbn [obind] in H; [|discriminate H].
    destruct (i_kind x); try (k1 H Ho); try discriminate H;
      (match type of H with obind ?q _ = _ => destruct q as [[e|]|]; cbn [obind] in H; [| |discriminate H] end;
       [|k1 H Ho]);
      (match type of H with (if ?b then _ else _) = _ => destruct b eqn:Eb end; [k1 H Ho|]); k1 H Ho.
  - peelw H; brk H; exact Ho.
  - peelw H. apply dqn_dq. exact (close_dq _ _ _ _ _ H).
  - peelw H. unfold dup_syscall in H. destruct (fd =? 0); [k1 H Ho|]. destruct (negb _); [k1 H Ho|].
    destruct (w_fds w !! (c, fd)) eqn:Ed; [|k1 H Ho]. apply dqn_dq. exact (dup2_dq _ _ _ _ _ _ _ H).
  - peelw H. unfold dup2_syscall in H. destruct (_ || _) in H; [k1 H Ho|]. destruct (newfd =? oldfd); [k1 H Ho|].
    destruct (negb _); [k1 H Ho|].
    destruct (w_fds w !! (c, oldfd)) eqn:Ed; [|k1 H Ho]. apply dqn_dq. exact (dup2_dq _ _ _ _ _ _ _ H).
  - peelw H. unfold fcntl_syscall in H. destruct (fd_slot w c fd) as [s|] eqn:Es; cbn [obind] in H; [|discriminate H].
    destruct s as [d|]; [|k1 H Ho].
    destruct (cmd =? F_GETFD); [k1 H Ho|]. destruct (_ && _) in H; [k1 H Ho|]. destruct (cmd =? F_GETFL); [k1 H Ho|].
    destruct (_ && _) in H; [k1 H Ho|].
    destruct (_ && _) in H; [apply dqn_dq; exact (dup2_dq _ _ _ _ _ _ _ H)|].
    destruct (cmd =? F_GETOWN); [k1 H Ho|]. destruct (_ && _) in H; k1 H Ho.
  - peelw H. unfold chdir_syscall in H. destruct (metawalk _ _) as [[j|]|]; cbn [obind] in H; [|k1 H Ho|discriminate H].
    destruct (get_ino w j) as [x|]; cbn [obind] in H; [|discriminate H]. destruct (i_kind x); k1 H Ho.
  - unfold fchdir_syscall in H. destruct (fd_slot w c fd) as [s|]; cbn [obind] in H; [|discriminate H].
    destruct s as [[]|]; try (k1 H Ho).
    destruct (pathname_loop _ _ _ _ _) as [[[]|]|]; try discriminate H; k1 H Ho.
  - k1 H Ho.
  - unfold getdents_syscall in H. destruct (_ <=? _) in H; [k1 H Ho|].
    destruct (negb _); [k1 H Ho|]. destruct (w_fds w !! (c, fd)) as [[j pos fl| | |]|] eqn:Ed; try (k1 H Ho).
    destruct (get_ino w j) as [x|]; cbn [obind] in H; [|discriminate H]. destruct (i_kind x); try (k1 H Ho).
    destruct (dents_fit _ _ _) as [l n]. k1 H Ho.
  - unfold pipe2_syscall in H. destruct (next_fd _ c 0) as [a|] eqn:Ea in H; [|k1 H Ho].
    destruct (next_fd _ c 0) as [b|] eqn:Eb in H; k1 H Ho.
  - peelw H. unfold epoll_create_syscall in H. destruct (_ <=? 0) in H; [k1 H Ho|].
    destruct (next_fd w c 0) eqn:Ea; k1 H Ho.
  - peelw H. apply dqn_dq. exact (fork_dq _ _ _ _ _ _ H).
  - peelw H. intros Hd. unfold exec_syscall in H.
    destruct (fold_left _ _ (Done w)) as [w1|] eqn:Ef; cbn [obind] in H; [|discriminate H].
    destruct ((child <? 0) || (MAXCAGE <=? child)); [discriminate H|]. injection H as <- _.
    exact (close_fold_dg _ _ _ _ Hi Hd Ef).
  - peelw H. intros Hd. unfold exit_syscall in H.
    destruct (fold_left _ _ (Done w)) as [w1|] eqn:Ef; cbn [obind] in H; [|discriminate H]. injection H as <- _.
    exact (close_fold_dg _ _ _ _ Hi Hd Ef).
Qed.

Lemma step_outcome w c o w' r : winv w -> step w c o = Done (w', r) -> tame true w c o r -> outcome_ok w w'.
Proof.
  intros Hw H Ht. pose proof (step_winv _ _ _ _ _ _ Hw H Ht) as Hw'. pose proof (step_dq _ _ _ _ _ Hw H Ht) as K.
  pose proof (v_n _ (u_inv _ Hw)) as Hi. pose proof (v_n _ (u_inv _ Hw')) as Hi'. clear H Ht.
  assert (A : dqn w w' -> outcome_ok w w').
  { intros [K1 [K2|K2]]; (split; [exact K1|]); intros Hd d Hp; [left; exact (onelog_good _ _ _ _ _ Hi Hi' Hd (K1 Hd) K2 Hp)|right].
    split; [destruct K2 as (? & ? & ? & ? & ? & _ & _ & _ & Hn); exact Hn|].
    refine (newlog_good _ _ _ _ _ Hi _ Hi' Hd (K1 Hd) K2 Hp). intros i Hs. destruct Hs as [y Hy]. exact (proj2 (n_range _ _ Hi _ _ Hy)). }
  assert (B : dt w w' -> outcome_ok w w').
  { intros [K1 [K2|K2]]; (split; [exact K1|]); intros Hd d Hp; left;
      [exact (onelog_good _ _ _ _ _ Hi Hi' Hd (K1 Hd) K2 Hp)|exact (twolog_good _ _ _ _ _ Hi Hi' Hd (K1 Hd) K2 Hp)]. }
  assert (C : (ds [] w -> dg w w') -> outcome_ok w w').
  { intros K1. split; [intros Hd; exact (proj1 (K1 Hd))|]. intros Hd d Hp. left. exact (proj2 (proj2 (K1 Hd)) d Hp). }
  destruct o; auto.
Qed.

Lemma inode_eq_dec : EqDecision inode.
Proof. solve_decision. Defined.
Global Existing Instance inode_eq_dec.

Definition ds_check (w : world) : bool :=
  match logged (w_disk w) with
  | Some t => bool_decide (t = strip <$> w_ino w) && (w_next w <=? nextno (w_disk w))
  | None => false
  end.
Lemma fresh_ds : ds [] fresh_world.
Proof.
  assert (E : ds_check fresh_world = true) by (vm_compute; reflexivity).
  unfold ds_check in E. destruct (logged (w_disk fresh_world)) as [t|] eqn:El; [|discriminate E].
  apply andb_true_iff in E as [E1 E2]. apply bool_decide_eq_true in E1. subst t.
  exists (strip <$> w_ino fresh_world). split; [exact El|]. split; [|lia].
  intros i _. rewrite lookup_fmap. apply sat_refl.
Qed.

Lemma later_ds w w' : later true w w' -> winv w -> ds [] w -> ds [] w'.
Proof.
  induction 1 as [|w c o w1 r w2 Hs Ht _ IH]; [auto|]. intros Hw Hd. apply (IH (step_winv _ _ _ _ _ _ Hw Hs Ht)).
  exact (proj1 (step_outcome _ _ _ _ _ Hw Hs Ht) Hd).
Qed.

Lemma starts_ds w w' : starts w w' -> ds [] w'.
Proof.
  intros H. exists (strip <$> w_ino w). unfold logged, nextno. rewrite (ss_meta _ _ H), (ss_log _ _ H). cbn.
  split; [reflexivity|]. split; [|rewrite (ss_next _ _ H); lia]. intros i _. left. rewrite lookup_fmap.
  destruct (w_ino w' !! i) as [y|] eqn:Hy.
  - destruct (starts_get _ _ _ _ H Hy) as (x & r & -> & -> & _). reflexivity.
  - destruct (w_ino w !! i) as [x|] eqn:Hx; [|reflexivity]. destruct (starts_put _ _ _ _ H Hx). congruence.
Qed.

Lemma reach_ds w : reach true w -> ds [] w.
Proof.
  induction 1 as [|w c o w' r Hr IH Hs Ht|w w' Hr IH Hst Hre]; [exact fresh_ds| |].
  - exact (proj1 (step_outcome _ _ _ _ _ (reach_winv _ _ Hr) Hs Ht) IH).
  - pose proof (reach_ok _ _ Hr) as Hok. destruct (restart_shape true w w' Hok Hst Hre) as (w3 & w4 & R).
    pose proof (later_ok _ _ _ (rs_later _ _ _ _ _ R) Hok) as Hok3. pose proof (rs_starts _ _ _ _ _ R) as S4.
    exact (later_ds w4 w' (rs_later2 _ _ _ _ _ R) (starts_winv _ _ (proj1 Hok3) (rs_fds _ _ _ _ _ R) S4) (starts_ds _ _ S4)).
Qed.
