(** The specification machine of FsViewSpec: descriptors, processes, and
    whole histories. *)
From Verif Require Import Base CodecModel PathModel PathSpec PathProofs FsModel FsBoot FsSpec FsWalk Count FsNames FsTr FsInv FsInv2
  FsSteps FsSteps2 FsFrame FsReachSpec FsWinv FsTmp FsReach FsTree FsNameSpec FsPath FdSpec FsDesc FsOps FsNameProofs FsIoSpec FsIo FsFail FsViewSpec FsViewInv FsView1 FsView2 FsView3 FsViewDir FsViewPipe FsView4.
Local Open Scope list_scope.
Local Open Scope Z_scope.
Opaque all_fds next_fd.

Lemma tab_eq w a c pr fd : shows w a -> vw_proc a !! c = Some pr -> w_fds w !! (c, fd) = seen_des <$> q_tab pr !! fd.
Proof. intros Hs Hp. rewrite (sh_fd _ _ Hs), Hp. reflexivity. Qed.

Lemma tab_range w a c pr fd d : shows w a -> winv w -> vw_proc a !! c = Some pr -> q_tab pr !! fd = Some d -> 0 <= fd < MAXFD.
Proof.
  intros Hs Hw Hp Hd. apply (u_key _ Hw c fd (seen_des d)). rewrite (tab_eq _ _ _ _ _ Hs Hp), Hd. reflexivity.
Qed.

Definition is_epoll (d : ades) : bool := match d with DEpoll _ => true | _ => false end.
Lemma cloexec_eq d : is_epoll d = false -> clear_cloexec (seen_des d) = seen_des (no_cloexec d).
Proof. destruct d; [reflexivity..|discriminate]. Qed.
(** Only an epoll object has no count of its descriptors *)
Lemma add_ref_none d w : add_ref (seen_des d) w = Done None <-> is_epoll d = true.
Proof.
  destruct d as [i pos fl|s fl|k fl|fl]; cbn [seen_des add_ref is_epoll]; split; intros H; try discriminate H; try reflexivity.
  - destruct (get_ino w i) as [x|]; cbn [obind] in H; [|discriminate H]. destruct (i_kind x); discriminate H.
  - destruct (get_pipe w k) as [p|]; cbn [obind] in H; discriminate H.
Qed.
Lemma epoll_case {A} d (x y : A) : match d with DEpoll _ => x | _ => y end = if is_epoll d then x else y.
Proof. destruct d; reflexivity. Qed.
Lemma flags_eq d : fd_flags (seen_des d) = des_flags d.
Proof. destruct d; reflexivity. Qed.
Lemma reflag_eq fl d : set_flags fl (seen_des d) = seen_des (reflag fl d).
Proof. destruct d; reflexivity. Qed.

Lemma s_close w a c pr fd w' o : reach false w -> shows w a -> vw_proc a !! c = Some pr -> step w c (Close fd) = Done (w', o) -> follows w a c (Close fd) w' o.
Proof.
  intros Hr Hs Hp Hst. start Hr Hs Hp Hst H Hw Hcan. apply ret_done in H as (r & H & ->). unfold on_fd. destruct (q_tab pr !! fd) as [d|] eqn:Eq.
  - pose proof (tab_eq w a c pr fd Hs Hp) as E. rewrite Eq in E. cbn in E.
    destruct (close_exact w c fd _ (reach_weaken _ Hr) E) as (w1 & H1 & Hf & Hc & _). rewrite H1 in Hst. injection Hst as -> <-.
    eexists. split; [reflexivity|]. unfold retab. apply (shows_quiet w); [exact Hs|eapply close_quiet; eauto; apply winv_dirs3; exact Hw| |].
    + intros c'. rewrite Hc. exact (cwd_retab w a c _ Hs c').
    + apply (fds_del w a c pr _ fd Hs Hp). exact Hf.
  - unfold close_syscall, close_inner in H. destruct (fd_slot w c fd) as [s|] eqn:Es; cbn [obind] in H; [|discriminate H].
    rewrite (slot_view _ _ _ _ _ _ Hs Hp Es), Eq in H. cbn in H. same_view H Hs.
Qed.

(** [dup] without closing *)
Lemma adup_view w a c pr d start w' r : winv w -> shows w a -> vw_proc a !! c = Some pr ->
  dup2_helper w c (seen_des d) start false = Done (w', r) -> exists a', adup a c pr d start = (a', Ret r) /\ shows w' a'.
Proof.
  intros Hw Hs Hp H. unfold dup2_helper in H. unfold adup. rewrite (lowest_eq w a c pr start Hs Hp).
  destruct (next_fd w c start) as [n|]; cbn [obind] in H; [|same_view H Hs].
  destruct (add_ref (seen_des d) w) as [[w1|]|] eqn:Ea; cbn [obind] in H; [| |discriminate H].
  2:{ apply add_ref_none in Ea. rewrite epoll_case, Ea. same_view H Hs. }
  assert (Ee : is_epoll d = false) by (destruct (is_epoll d) eqn:Ee; [|reflexivity]; apply (add_ref_none d w) in Ee; congruence).
  rewrite epoll_case, Ee. injection H as <- <-. eexists. split; [reflexivity|]. rewrite (cloexec_eq d Ee). destruct (add_ref_kp _ _ _ Ea) as [K1 K2].
  unfold give, retab. apply (shows_quiet w); [exact Hs| | |].
  - eapply quiet_trans; [eapply add_ref_quiet; exact Ea|apply quiet_same; reflexivity].
  - intros c'. wcbn. rewrite K2. exact (cwd_retab w a c _ Hs c').
  - apply (fds_put w a c pr _ n _ Hs Hp). wcbn. rewrite K1. reflexivity.
Qed.

Lemma s_dup w a c pr fd w' o : reach false w -> shows w a -> vw_proc a !! c = Some pr -> step w c (Dup fd) = Done (w', o) -> follows w a c (Dup fd) w' o.
Proof.
  intros Hr Hs Hp Hst. start Hr Hs Hp Hst H Hw Hcan. apply ret_done in H as (r & H & ->). unfold dup_syscall in H.
  destruct (fd =? 0); [same_view H Hs|]. unfold on_fd. rewrite (tab_eq w a c pr fd Hs Hp) in H. destruct (q_tab pr !! fd) as [d|] eqn:Eq.
  - pose proof (tab_range _ _ _ _ _ _ Hs Hw Hp Eq) as Hrg. unfold in_fd_range in H.
    destruct (Z.leb_spec 0 fd); [|lia]. destruct (Z.ltb_spec fd MAXFD); [|lia]. cbn [andb negb fmap option_fmap option_map] in H. eapply adup_view; eauto.
  - cbn [fmap option_fmap option_map] in H. destruct (negb _); same_view H Hs.
Qed.

Lemma s_dup2 w a c pr x y w' o : reach false w -> shows w a -> vw_proc a !! c = Some pr -> allowed a c (Dup2 x y) = true ->
  step w c (Dup2 x y) = Done (w', o) -> follows w a c (Dup2 x y) w' o.
Proof.
  intros Hr Hs Hp Hal Hst. start Hr Hs Hp Hst H Hw Hcan. apply ret_done in H as (r & H & ->). unfold dup2_syscall in H. change MAXFD with 1024 in H.
  unfold allowed in Hal. rewrite Hp in Hal.
  destruct ((1024 <=? y) || (y <? 0)); [same_view H Hs|]. destruct (Z.eqb_spec y x) as [Eyx|Nyx]; [same_view H Hs|].
  unfold on_fd. rewrite (tab_eq w a c pr x Hs Hp) in H. destruct (q_tab pr !! x) as [d|] eqn:Eq.
  2:{ cbn [fmap option_fmap option_map] in H. destruct (negb _); same_view H Hs. }
  pose proof (tab_range _ _ _ _ _ _ Hs Hw Hp Eq) as Hrg. unfold in_fd_range in H.
  destruct (Z.leb_spec 0 x); [|lia]. destruct (Z.ltb_spec x MAXFD); [|lia]. cbn [andb negb fmap option_fmap option_map] in H.
  unfold dup2_helper in H.
  rewrite epoll_case. destruct (is_epoll d) eqn:Ee.
  { assert (Hfree : q_tab pr !! y = None).
    { destruct d; try discriminate Ee. apply orb_true_iff in Hal as [Hal|Hal]; [lia|]. apply bool_decide_eq_true in Hal. exact Hal. }
    rewrite (tab_eq w a c pr y Hs Hp), Hfree in H. cbn [fmap option_fmap option_map obind] in H.
    pose proof (proj2 (add_ref_none d w) Ee) as Ea. rewrite Ea in H. cbn [obind] in H. same_view H Hs. }
  assert (K : exists w1, quiet w w1 /\ kp w w1 /\
     (do o <- add_ref (seen_des d) w1; match o with None => Done (w1, err EACCES) | Some w2 => Done (put_fd c y (clear_cloexec (seen_des d)) w2, y) end) = Done (w', r)).
  { destruct (w_fds w !! (c, y)) as [e|].
    - destruct (close_inner w c y) as [[w1 r1]|] eqn:Ec; cbn [obind fst] in H; [|discriminate H]. exists w1.
      split; [eapply close_inner_quiet; eauto; apply winv_dirs3; exact Hw|]. split; [|exact H].
      unfold close_inner in Ec. destruct (fd_slot w c y) as [[e'|]|]; cbn [obind] in Ec; [|injection Ec as <- _; apply kp_refl|discriminate Ec].
      eapply close_desc_kp; eauto.
    - cbn [obind] in H. exists w. split; [apply quiet_refl|]. split; [apply kp_refl|exact H]. }
  clear H. destruct K as (w1 & Q1 & [K1 K2] & H).
  destruct (add_ref (seen_des d) w1) as [[w2|]|] eqn:Ea; cbn [obind] in H; [| |discriminate H].
  2:{ apply add_ref_none in Ea. congruence. }
  injection H as <- <-. eexists. split; [reflexivity|]. rewrite (cloexec_eq d Ee). destruct (add_ref_kp _ _ _ Ea) as [K3 K4].
  unfold give, retab. apply (shows_quiet w); [exact Hs| | |].
  - eapply quiet_trans; [exact Q1|]. eapply quiet_trans; [eapply add_ref_quiet; exact Ea|apply quiet_same; reflexivity].
  - intros c'. wcbn. rewrite K4, K2. exact (cwd_retab w a c _ Hs c').
  - apply (fds_put w a c pr _ y _ Hs Hp). wcbn. rewrite K3, K1. reflexivity.
Qed.

Lemma s_fcntl w a c pr fd cmd arg w' o : reach false w -> shows w a -> vw_proc a !! c = Some pr -> step w c (Fcntl fd cmd arg) = Done (w', o) -> follows w a c (Fcntl fd cmd arg) w' o.
Proof.
  intros Hr Hs Hp Hst. start Hr Hs Hp Hst H Hw Hcan. apply ret_done in H as (r & H & ->). unfold fcntl_syscall in H.
  destruct (fd_slot w c fd) as [s|] eqn:Es; cbn [obind] in H; [|discriminate H]. rewrite (slot_view _ _ _ _ _ _ Hs Hp Es) in H. unfold on_fd.
  destruct (q_tab pr !! fd) as [d|] eqn:Eq; cbn [fmap option_fmap option_map] in H; [|same_view H Hs]. rewrite flags_eq in H. unfold afcntl. cbv zeta in *.
  destruct (cmd =? F_GETFD); [same_view H Hs|].
  destruct ((cmd =? F_SETFD) && (0 <=? arg)).
  { injection H as <- <-. eexists. split; [reflexivity|]. rewrite reflag_eq. apply (give_view w a c pr fd _ Hs Hp). }
  destruct (cmd =? F_GETFL); [same_view H Hs|].
  destruct ((cmd =? F_SETFL) && (0 <=? arg)).
  { injection H as <- <-. eexists. split; [reflexivity|]. rewrite reflag_eq. apply (give_view w a c pr fd _ Hs Hp). }
  destruct ((cmd =? F_DUPFD) && (0 <=? arg)); [eapply adup_view; eauto|].
  destruct (cmd =? F_GETOWN); [same_view H Hs|]. destruct ((cmd =? F_SETOWN) && (0 <=? arg)); same_view H Hs.
Qed.

(** ** Processes *)
Lemma std_eq c fd : init_fdtable c ∅ !! (c, fd) = seen_des <$> std_tab !! fd.
Proof.
  unfold init_fdtable, std_tab.
  destruct (decide (fd = 0)) as [->|]; [rewrite !lookup_insert; reflexivity|]. rewrite (lookup_insert_ne _ (c, 0)), (lookup_insert_ne _ 0) by congruence.
  destruct (decide (fd = 1)) as [->|]; [rewrite !lookup_insert; reflexivity|]. rewrite (lookup_insert_ne _ (c, 1)), (lookup_insert_ne _ 1) by congruence.
  destruct (decide (fd = 2)) as [->|]; [rewrite !lookup_insert; reflexivity|]. rewrite (lookup_insert_ne _ (c, 2)), (lookup_insert_ne _ 2) by congruence.
  rewrite !lookup_empty. reflexivity.
Qed.

Lemma s_fork w a c pr ch w' o : reach false w -> shows w a -> vw_proc a !! c = Some pr -> allowed a c (Fork ch) = true ->
  step w c (Fork ch) = Done (w', o) -> follows w a c (Fork ch) w' o.
Proof.
  intros Hr Hs Hp Hal Hst. start Hr Hs Hp Hst H Hw Hcan. apply ret_done in H as (r & H & ->). unfold allowed in Hal. rewrite Hp in Hal. apply bool_decide_eq_true in Hal.
  assert (Hch : w_cwd w !! ch = None) by (rewrite (sh_cwd _ _ Hs), Hal; reflexivity).
  assert (Hne : c <> ch) by congruence. 
  destruct (fork_trs false w c (q_cwd pr) ch w' r (u_inv _ Hw) Hne (no_fds _ _ Hw Hch) H) as (_ & -> & Hcw & _ & _ & _).
  pose proof (fork_fds w c ch w' (reach_weaken _ Hr) Hch Hst) as Hf.
  eexists. split; [reflexivity|]. apply (shows_quiet w); [exact Hs| | |].
  - unfold fork_syscall in H. cbv zeta in H. match type of H with obind ?q _ = _ => destruct q as [w1|] eqn:E1; cbn [obind] in H; [|discriminate H] end.
    apply fork_fold_quiet in E1. destruct (metawalk (w_ino w1) (q_cwd pr)) as [[i|]|]; cbn [obind] in H; try discriminate H.
    destruct (get_ino w1 i) as [x|] eqn:Hx; cbn [obind] in H; [|discriminate H]. apply get_ino_done in Hx.
    destruct (i_kind x); try discriminate H. destruct (_ || _) in H; [discriminate H|]. injection H as <-.
    eapply quiet_trans; [|eapply quiet_trans; [exact E1|eapply quiet_trans; [apply (quiet_ref w1 i x (i_ref x + 1) Hx)|]]]; apply quiet_same; reflexivity.
  - intros c'. rewrite Hcw. destruct (decide (ch = c')) as [<-|Hn]; [rewrite !lookup_insert; reflexivity|].
    rewrite !lookup_insert_ne by assumption. apply (sh_cwd _ _ Hs).
  - intros c' fd. rewrite Hf. destruct (Z.eqb_spec c' ch) as [->|Hn].
    + rewrite lookup_insert. cbn [mbind option_bind q_tab]. rewrite (tab_eq w a c pr fd Hs Hp), std_eq. rewrite lookup_union.
      destruct (q_tab pr !! fd) as [d|]; [cbn; destruct (std_tab !! fd); reflexivity|]. cbn. destruct (std_tab !! fd); reflexivity.
    + rewrite lookup_insert_ne by congruence. apply (sh_fd _ _ Hs).
Qed.

Lemma s_exec w a c pr ch w' o : reach false w -> shows w a -> vw_proc a !! c = Some pr -> allowed a c (Exec ch) = true ->
  step w c (Exec ch) = Done (w', o) -> follows w a c (Exec ch) w' o.
Proof.
  intros Hr Hs Hp Hal Hst. start Hr Hs Hp Hst H Hw Hcan. apply ret_done in H as (r & H & ->). unfold allowed in Hal. rewrite Hp in Hal.
  assert (Hch : ch = c \/ w_cwd w !! ch = None).
  { apply orb_true_iff in Hal as [Hal|Hal]; [left; lia|]. apply bool_decide_eq_true in Hal. right. rewrite (sh_cwd _ _ Hs), Hal. reflexivity. }
  assert (Hkey : forall a0 fd d, w_fds w !! (a0, fd) = Some d -> 0 <= fd < MAXFD) by (intros a0 fd d Hd; apply (u_key _ Hw _ _ _ Hd)).
  assert (Hch' : ch = c \/ forall fd, w_fds w !! (ch, fd) = None) by (destruct Hch; [auto|right; apply no_fds; assumption]).
  destruct (exec_trs false w c (q_cwd pr) ch w' r (u_inv _ Hw) Hkey Hch' H) as (_ & -> & Hcw & _ & Hf).
  eexists. split; [reflexivity|]. apply (shows_quiet w); [exact Hs| | |].
  - unfold exec_syscall in H. cbv zeta in H. match type of H with obind ?q _ = _ => destruct q as [w1|] eqn:E1; cbn [obind] in H; [|discriminate H] end.
    apply close_fold_quiet in E1; [|apply winv_dirs3; exact Hw]. destruct (_ || _) in H; [discriminate H|]. injection H as <-.
    eapply quiet_trans; [exact E1|apply quiet_same; reflexivity].
  - intros c'. rewrite Hcw. destruct (decide (ch = c')) as [<-|Hn]; [rewrite !lookup_insert; reflexivity|].
    rewrite !lookup_insert_ne by assumption. destruct (decide (c = c')) as [<-|Hn2]; [rewrite !lookup_delete; reflexivity|].
    rewrite !lookup_delete_ne by assumption. apply (sh_cwd _ _ Hs).
  - intros c' fd. rewrite Hf. destruct (Z.eqb_spec c' ch) as [->|Hn].
    + rewrite lookup_insert. cbn [mbind option_bind q_tab]. rewrite (tab_eq w a c pr fd Hs Hp).
      destruct (filter (fun kd : Z * ades => hasbit (des_flags kd.2) O_CLOEXEC = false) (q_tab pr) !! fd) as [d|] eqn:Ef.
      * apply map_filter_lookup_Some in Ef as [E1 E2]. cbn in E2. rewrite E1. cbn. rewrite flags_eq, E2. reflexivity.
      * apply map_filter_lookup_None in Ef as [E1|E1]; [rewrite E1; reflexivity|]. destruct (q_tab pr !! fd) as [d|]; [|reflexivity].
        cbn. rewrite flags_eq. specialize (E1 d eq_refl). cbn in E1. destruct (hasbit _ _); [reflexivity|]. exfalso. apply E1. reflexivity.
    + rewrite lookup_insert_ne by congruence. destruct (Z.eqb_spec c' c) as [->|Hn2]; [rewrite lookup_delete; reflexivity|].
      rewrite lookup_delete_ne by congruence. apply (sh_fd _ _ Hs).
Qed.

Lemma s_exit w a c pr st w' o : reach false w -> shows w a -> vw_proc a !! c = Some pr ->
  step w c (Exit st) = Done (w', o) -> follows w a c (Exit st) w' o.
Proof.
  intros Hr Hs Hp Hst. start Hr Hs Hp Hst H Hw Hcan. apply ret_done in H as (r & H & ->).
  assert (Hkey : forall a0 fd d, w_fds w !! (a0, fd) = Some d -> 0 <= fd < MAXFD) by (intros a0 fd d Hd; apply (u_key _ Hw _ _ _ Hd)).
  destruct (exit_trs false w c st w' r (u_inv _ Hw) Hkey H) as (_ & -> & Hcw & Hf).
  eexists. split; [reflexivity|]. apply (shows_quiet w); [exact Hs| | |].
  - unfold exit_syscall in H. match type of H with obind ?q _ = _ => destruct q as [w1|] eqn:E1; cbn [obind] in H; [|discriminate H] end.
    apply close_fold_quiet in E1; [|apply winv_dirs3; exact Hw]. injection H as <-.
    eapply quiet_trans; [exact E1|apply quiet_same; reflexivity].
  - intros c'. rewrite Hcw. destruct (decide (c = c')) as [<-|Hn2]; [rewrite !lookup_delete; reflexivity|].
    rewrite !lookup_delete_ne by assumption. apply (sh_cwd _ _ Hs).
  - intros c' fd. rewrite Hf. destruct (Z.eqb_spec c' c) as [->|Hn2]; [rewrite lookup_delete; reflexivity|].
    rewrite lookup_delete_ne by congruence. apply (sh_fd _ _ Hs).
Qed.

(** ** Allowed calls are tame *)
Lemma allowed_proc a c o : allowed a c o = true -> exists pr, vw_proc a !! c = Some pr.
Proof. unfold allowed. destruct (vw_proc a !! c); [eauto|discriminate]. Qed.

Lemma allowed_tame w a c o w' r : reach false w -> shows w a -> allowed a c o = true -> step w c o = Done (w', r) -> tame false w c o r.
Proof.
  intros Hr Hs Hal Hst. pose proof (reach_winv _ _ Hr) as Hw. destruct (allowed_proc _ _ _ Hal) as [pr Hp].
  pose proof (proc_canonical _ _ _ _ Hw Hs Hp) as Hcan.
  unfold allowed in Hal. rewrite Hp in Hal. destruct o; cbn [tame]; try exact I; try discriminate Hal.
  - rewrite where_is_eq in Hal. pose proof (normpath_canonical (q_cwd pr) path Hcan) as Hq. 
    unfold step in Hst. rewrite (cwd_of _ _ _ _ Hs Hp) in Hst. apply ret_done in Hst as (r' & H & ->). intros E. injection E as ->.
    unfold unlink_syscall in H. destruct (String.eqb path ""); [discriminate H|]. pose proof (mw_view _ _ _ Hs Hw Hq) as Em. rewrite Em in H. cbn [obind] in H.
    destruct (vw_at a !! normpath (q_cwd pr) path) as [i|] eqn:Ea; [|discriminate H].
    destruct (up_dir a (normpath (q_cwd pr) path)) as [d|] eqn:Eu; [|discriminate H].
    destruct (place_of _ _ _ _ Hq Em) as (dir & f & y & Hpl & Hfn & Hyf). pose proof (pl_ino _ _ _ _ _ _ Hpl) as Hy.
    rewrite (may_write_eq _ _ _ _ Hs Hy) in Hal. apply negb_true_iff in Hal.
    destruct (get_ino w i) as [x|] eqn:Hx; cbn [obind] in H; [|discriminate H]. apply get_ino_done in Hx.
    destruct (decide (i_kind x = KDir)) as [Hk|Hk]; [rewrite Hk in H; discriminate H|].
    assert (Hrm : forall l w2 s, remove_from_parent d (normpath (q_cwd pr) path) (put_ino i (set_link l x) w) = Done (w2, s) -> s = 0).
    { intros l w2 s E. assert (i <> d) by (intros ->; pose proof (pl_dir _ _ _ _ _ _ Hpl); congruence).
      unfold remove_from_parent, get_ino in E. wcbn1 E. rewrite lookup_insert_ne, Hy in E by assumption. cbn [obind] in E.
      rewrite (pl_dir _ _ _ _ _ _ Hpl), Hal, Hfn, Hyf in E. destruct (dec (i_link y)); cbn [obind] in E; [|discriminate E]. injection E as _ <-. reflexivity. }
    destruct (i_kind x); try congruence; destruct (dec (i_link x)) as [l|]; cbn [obind] in H; try discriminate H;
      destruct (remove_from_parent _ _ _) as [[w2 s]|] eqn:Er in H; cbn [obind] in H; try discriminate H; apply Hrm in Er as ->;
      cbn [Z.eqb negb] in H; match type of H with obind ?o _ = _ => destruct o; cbn [obind] in H; discriminate H end.
  - rewrite !where_is_eq in Hal. right.
    pose proof (normpath_canonical (q_cwd pr) oldp Hcan) as Hqx. pose proof (normpath_canonical (q_cwd pr) newp Hcan) as Hqy.
    apply orb_true_iff in Hal as [Hal|Hal].
    + right. apply bool_decide_eq_true in Hal. intros cwd q i Hc Hd. rewrite (cwd_of _ _ _ _ Hs Hp) in Hc. injection Hc as <-.
      apply denotes_normpath in Hd as ->. apply (at_none w a _ Hs Hqy). exact Hal.
    + left. apply negb_true_iff, bool_decide_eq_false in Hal. intros ->.
      unfold step in Hst. rewrite (cwd_of _ _ _ _ Hs Hp) in Hst. apply ret_done in Hst as (r' & H & E). injection E as <-.
      unfold rename_syscall in H. destruct (String.eqb oldp ""); [discriminate H|]. destruct (String.eqb newp ""); [discriminate H|].
      rewrite (mw_view _ _ _ Hs Hw Hqx) in H. cbn [obind] in H. destruct (vw_at a !! normpath (q_cwd pr) oldp) as [i|]; [|discriminate H].
      destruct (up_dir a (normpath (q_cwd pr) oldp)) as [d|]; [|discriminate H]. rewrite (mw_view _ _ _ Hs Hw Hqy) in H. cbn [obind snd] in H.
      rewrite bool_decide_eq_false_2 in H by exact Hal. discriminate H.
  - intros fl Hfl. rewrite (tab_eq w a c pr _ Hs Hp) in Hfl. destruct (q_tab pr !! oldfd) as [[]|]; try discriminate Hfl.
    apply orb_true_iff in Hal as [Hal|Hal]; [left; lia|]. apply bool_decide_eq_true in Hal. right. rewrite (tab_eq w a c pr _ Hs Hp), Hal. reflexivity.
  - assert (Hal' : allowed a c (Pipe2 flags) = true) by (unfold allowed; rewrite Hp; exact Hal).
    destruct (s_pipe2 w a c pr flags w' r Hr Hs Hp Hal' Hst) as (a' & E & _). unfold aexec, apipe in E. rewrite Hp in E. cbv zeta in E.
    intros x ->. destruct (lowest (q_tab pr) 0); [|injection E as _ <-; reflexivity].
    destruct (lowest (<[_ := DPipe _ _]> _) 0); discriminate E.
  - apply bool_decide_eq_true in Hal. rewrite (sh_cwd _ _ Hs), Hal. reflexivity.
  - apply orb_true_iff in Hal as [Hal|Hal]; [left; lia|]. apply bool_decide_eq_true in Hal. right. rewrite (sh_cwd _ _ Hs), Hal. reflexivity.
Qed.

(** ** One call *)
Lemma step_view w a c o w' r : reach false w -> shows w a -> allowed a c o = true -> step w c o = Done (w', r) ->
  exists a', aexec a c o = (a', r) /\ shows w' a'.
Proof.
  intros Hr Hs Hal Hst. pose proof (reach_winv _ _ Hr) as Hw. pose proof (allowed_tame _ _ _ _ _ _ Hr Hs Hal Hst) as Ht.
  pose proof (step_winv false _ _ _ _ _ Hw Hst Ht) as Hw'. destruct (allowed_proc _ _ _ Hal) as [pr Hp]. pose proof (cwd_of _ _ _ _ Hs Hp) as Hc.
  destruct o.
  - unfold step in Hst. rewrite Hc in Hst. apply ret_done in Hst as (r' & H & ->). unfold aexec. rewrite Hp. exact (open_view w a c pr _ _ _ w' r' Hw Hw' Hs Hp H).
  - unfold step in Hst. rewrite Hc in Hst. apply ret_done in Hst as (r' & H & ->). unfold aexec. rewrite Hp. exact (open_view w a c pr _ _ _ w' r' Hw Hw' Hs Hp H).
  - unfold step in Hst. rewrite Hc in Hst. apply ret_done in Hst as (r' & H & ->). unfold aexec. rewrite Hp. exact (mkdir_view w a c pr _ _ w' r' Hw Hw' Hs Hp H).
  - unfold step in Hst. rewrite Hc in Hst. apply ret_done in Hst as (r' & H & ->). unfold aexec. rewrite Hp. exact (mknod_view w a c pr _ _ _ w' r' Hw Hw' Hs Hp H).
  - assert (E : exists r', r = Ret r') by (unfold step in Hst; rewrite Hc in Hst; apply ret_done in Hst as (r' & _ & ->); eauto).
    destruct E as [r' ->]. eapply link_view; eauto.
  - assert (E : exists r', r = Ret r') by (unfold step in Hst; rewrite Hc in Hst; apply ret_done in Hst as (r' & _ & ->); eauto).
    destruct E as [r' ->]. eapply unlink_view; eauto.
  - assert (E : exists r', r = Ret r') by (unfold step in Hst; rewrite Hc in Hst; apply ret_done in Hst as (r' & _ & ->); eauto).
    destruct E as [r' ->]. eapply rmdir_view; eauto.
  - assert (E : exists r', r = Ret r') by (unfold step in Hst; rewrite Hc in Hst; apply ret_done in Hst as (r' & _ & ->); eauto).
    destruct E as [r' ->]. eapply rename_view; eauto.
  - eapply s_chmod; eauto.
  - eapply s_fchmod; eauto.
  - eapply s_truncate; eauto.
  - eapply s_ftruncate; eauto.
  - eapply s_stat; eauto.
  - eapply s_fstat; eauto.
  - eapply s_access; eauto.
  - eapply s_read; eauto.
  - eapply s_pread; eauto.
  - eapply s_write; eauto.
  - eapply s_pwrite; eauto.
  - eapply s_writev; eauto.
  - eapply s_lseek; eauto.
  - eapply s_fsync; eauto.
  - eapply s_close; eauto.
  - eapply s_dup; eauto.
  - eapply s_dup2; eauto.
  - eapply s_fcntl; eauto.
  - eapply s_chdir; eauto.
  - eapply s_fchdir; eauto.
  - eapply s_getcwd; eauto.
  - eapply s_getdents; eauto.
  - eapply s_pipe2; eauto.
  - eapply s_epoll; eauto.
  - eapply s_fork; eauto.
  - eapply s_exec; eauto.
  - eapply s_exit; eauto.
Qed.

(** ** Histories *)
Lemma run_view h : forall w a w' outs, reach false w -> shows w a -> all_allowed a h = true -> run w h = Some (w', outs) ->
  exists a', arun a h = (a', outs) /\ shows w' a' /\ reach false w'.
Proof.
  induction h as [|[c o] h IH]; intros w a w' outs Hr Hs Hal H; cbn [run arun all_allowed] in *.
  - injection H as <- <-. eauto.
  - apply andb_true_iff in Hal as [H1 H2]. destruct (step w c o) as [[w1 x]|] eqn:Est; [|discriminate H].
    destruct (run w1 h) as [[w2 xs]|] eqn:Er; [|discriminate H]. injection H as <- <-.
    destruct (step_view _ _ _ _ _ _ Hr Hs H1 Est) as (a1 & E1 & Hs1). rewrite E1 in H2 |- *. cbn [fst] in H2.
    assert (Hr1 : reach false w1) by (eapply reach_step; [exact Hr|exact Est|eapply allowed_tame; eauto]).
    destruct (IH _ _ _ _ Hr1 Hs1 H2 Er) as (a2 & E2 & Hs2 & Hr2). rewrite E2. eauto.
Qed.
