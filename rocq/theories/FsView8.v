(** Which calls abort: descriptors and processes; the theorem for all calls. *)
From Verif Require Import Base CodecModel PathModel PathSpec PathProofs FsModel FsBoot FsSpec FsWalk Count FsNames FsTr FsInv FsInv2
  FsSteps FsSteps2 FsFrame FsReachSpec FsWinv FsTmp FsReach FsTree FsNameSpec FsPath FdSpec FsDesc FsOps FsNameProofs FsIoSpec FsIo FsFail FsViewSpec FsAbortSpec
  FsView1 FsView2 FsView3 FsView4 FsView5 FsView7.
Local Open Scope list_scope.
Local Open Scope Z_scope.
Opaque all_fds next_fd.

(** A loop of closes *)
Lemma close_fold_total c l : forall w, winv w -> is_Some (w_cwd w !! c) -> (forall fd, fd ∈ l -> 0 <= fd < MAXFD) ->
  exists w', fold_left (close_fd_in c) l (Done w) = Done w'.
Proof.
  induction l as [|fd l IH]; intros w Hw Hc Hl; cbn [fold_left]; [eauto|].
  assert (K : exists w1, close_fd_in c (Done w) fd = Done w1 /\ winv w1 /\ w_cwd w1 = w_cwd w).
  { unfold close_fd_in. cbn [obind]. destruct (w_fds w !! (c, fd)) as [d|] eqn:Ed.
    - destruct (close_total w c fd d Hw Hc Ed) as (w1 & H & _). pose proof (step_winv false _ _ _ _ _ Hw H I) as Hw1.
      pose proof (step_frame _ _ _ _ _ H eq_refl) as [_ Hcw]. destruct Hc as [cwd Hc]. unfold step in H. rewrite Hc in H. apply ret_done in H as (r & -> & _).
      cbn [obind fst]. eauto.
    - unfold close_syscall, close_inner, fd_slot, in_fd_range. pose proof (Hl fd ltac:(left)). destruct (Z.leb_spec 0 fd), (Z.ltb_spec fd MAXFD); try lia.
      cbn [andb obind]. rewrite Ed. cbn [obind fst]. eexists. split; [reflexivity|auto]. }
  destruct K as (w1 & -> & Hw1 & E). apply IH; [assumption|rewrite E; assumption|]. intros x Hx. apply Hl. right. exact Hx.
Qed.

(** The table copied by fork *)
Lemma fork_fold_total ptab c ch l : forall w, (forall fd d, ptab !! (c, fd) = Some d -> match d with FFile i _ _ => is_Some (w_ino w !! i) | FPipe k _ => is_Some (w_pipes w !! k) | _ => True end) ->
  exists w', fold_left (fork_fd ptab c ch) l (Done w) = Done w' /\ (forall i x, w_ino w !! i = Some x -> exists r, w_ino w' !! i = Some (set_ref r x)) /\
    (forall i, w_ino w !! i = None -> w_ino w' !! i = None) /\ (forall k, is_Some (w_pipes w !! k) -> is_Some (w_pipes w' !! k)).
Proof.
  induction l as [|fd l IH]; intros w H; cbn [fold_left].
  { exists w. split; [reflexivity|]. split; [|auto]. intros i x Hx. exists (i_ref x). destruct x. exact Hx. }
  assert (K : exists w1, fork_fd ptab c ch (Done w) fd = Done w1 /\ (forall i x, w_ino w !! i = Some x -> exists r, w_ino w1 !! i = Some (set_ref r x)) /\
    (forall i, w_ino w !! i = None -> w_ino w1 !! i = None) /\ (forall k, is_Some (w_pipes w !! k) -> is_Some (w_pipes w1 !! k))).
  { assert (Z0 : forall i x, w_ino w !! i = Some x -> exists r, w_ino w !! i = Some (set_ref r x)) by (intros i x Hx; exists (i_ref x); destruct x; exact Hx).
    unfold fork_fd. cbn [obind]. destruct (ptab !! (c, fd)) as [d|] eqn:Ed; [|eauto]. specialize (H _ _ Ed). destruct d as [i pos fl|s fl|k fl|fl]; [|eexists; split; [reflexivity|auto]| |eexists; split; [reflexivity|auto]].
    2:{ destruct H as [p Hk]. unfold get_pipe. rewrite Hk. cbn [obind]. eexists. split; [reflexivity|]. wcbn. split; [auto|]. split; [auto|].
        intros k' Hk'. apply lookup_insert_is_Some'. auto. }
    destruct H as [x Hx]. unfold get_ino. rewrite Hx. cbn [obind]. eexists. split; [reflexivity|]. wcbn. split.
    - intros j y Hy. destruct (decide (i = j)) as [<-|Hn]; [rewrite lookup_insert; assert (y = x) by congruence; subst y; eauto|].
      rewrite lookup_insert_ne by assumption. auto.
    - split; [|auto]. intros j Hj. rewrite lookup_insert_ne by congruence. exact Hj. }
  destruct K as (w1 & -> & K1 & K0 & Kp). destruct (IH w1) as (w2 & -> & K2 & K3 & K4).
  { intros g d Hd. specialize (H _ _ Hd). destruct d; auto. destruct H as [x Hx]. destruct (K1 _ _ Hx) as [r Hr]. eauto. }
  exists w2. split; [reflexivity|]. split; [|split; auto]. intros i x Hx. destruct (K1 _ _ Hx) as [r Hr]. destruct (K2 _ _ Hr) as [r2 Hr2]. exists r2. exact Hr2.
Qed.

Lemma walk_reref t t' ns : (forall i x, t !! i = Some x -> exists r, t' !! i = Some (set_ref r x)) -> (forall i, t !! i = None -> t' !! i = None) ->
  forall a b, walk_from t' a b ns = walk_from t a b ns.
Proof.
  intros H1 H2. induction ns as [|f ns IH]; intros a b; [reflexivity|]. cbn [walk_from]. destruct a as [d|]; [|reflexivity].
  destruct (t !! d) as [x|] eqn:Ed; [destruct (H1 _ _ Ed) as [r ->]|rewrite (H2 _ Ed); reflexivity]. cbn. destruct (i_kind x); try reflexivity. apply IH.
Qed.
Lemma mw_reref t t' q : (forall i x, t !! i = Some x -> exists r, t' !! i = Some (set_ref r x)) -> (forall i, t !! i = None -> t' !! i = None) ->
  metawalk t' q = metawalk t q.
Proof.
  intros H1 H2. unfold metawalk, metawalkandparent. destruct (t !! ROOTINO) as [x|] eqn:Ed; [destruct (H1 _ _ Ed) as [r ->]|rewrite (H2 _ Ed); reflexivity].
  rewrite (walk_reref t t' q H1 H2). reflexivity.
Qed.

Section S.
Variables (w : world) (a : view) (c : Z) (pr : aproc).
Hypotheses (Hr : reach false w) (Hs : shows w a) (Hp : vw_proc a !! c = Some pr).
Let Hw : winv w := reach_winv _ _ Hr.
Let Hc : is_Some (w_cwd w !! c).
Proof. rewrite (cwd_of _ _ _ _ Hs Hp). eauto. Qed.

Lemma a_exit st : ok (step w c (Exit st)) = true.
Proof using Hr Hs Hp.
  enter Hs Hp. unfold exit_syscall. destruct (close_fold_total c all_fds w Hw Hc) as [w1 ->]; [|reflexivity]. intros fd. apply all_fds_elem.
Qed.

Lemma a_exec ch : ok (step w c (Exec ch)) = negb (bad_proc ch).
Proof using Hr Hs Hp.
  enter Hs Hp. unfold exec_syscall. cbv zeta. match goal with |- context [fold_left (close_fd_in c) ?l _] => destruct (close_fold_total c l w Hw Hc) as [w1 ->] end.
  - intros fd Hfd. apply all_fds_elem. apply elem_of_list_In in Hfd. apply filter_In in Hfd as [Hfd _]. apply elem_of_list_In. exact Hfd.
  - cbn [obind]. change MAXCAGE with 1024. unfold bad_proc. destruct (_ || _); reflexivity.
Qed.

Lemma a_fork ch : allowed a c (Fork ch) = true -> ok (step w c (Fork ch)) = negb (aborts a c (Fork ch)).
Proof using Hr Hs Hp.
  intros _. unfold aborts. rewrite Hp. cbv zeta. enter Hs Hp. unfold fork_syscall. cbv zeta.
  match goal with |- context [fold_left (fork_fd _ c ch) all_fds (Done ?w0)] => destruct (fork_fold_total (w_fds w) c ch all_fds w0) as (w1 & -> & K1 & K2 & _) end.
  { intros fd d Hd. pose proof Hd as Hd2. rewrite (tab_eq w a c pr fd Hs Hp) in Hd2. destruct (q_tab pr !! fd) as [[i pos fl|s fl|k fl|fl]|] eqn:Ed; [| | | |discriminate Hd2].
    - cbn in Hd2. injection Hd2 as <-. destruct (open_ino _ _ _ _ _ _ _ _ Hw Hs Hp Ed) as (x & Hx & _). wcbn. eauto.
    - cbn in Hd2. injection Hd2 as <-. exact I.
    - cbn in Hd2. injection Hd2 as <-. destruct (p_fd _ _ _ (v_p _ (u_inv _ Hw)) _ _ _ Hd) as [Hk _]. exact Hk.
    - cbn in Hd2. injection Hd2 as <-. exact I. }
  wcbn1 K1. wcbn1 K2. cbn [obind]. rewrite (mw_reref _ _ _ K1 K2). rewrite (mwk_view _ _ _ Hs Hw (proc_canonical _ _ _ _ Hw Hs Hp)). cbn [obind].
  destruct (vw_at a !! q_cwd pr) as [i|] eqn:Ea; [|cbn [negb]; rewrite orb_true_r; reflexivity].
  destruct (at_exists _ _ _ _ Hs Hw Ea) as [x Hx]. rewrite (is_adir_eq _ _ _ _ Hs Hw Hx). unfold isdirk. destruct (K1 _ _ Hx) as [r Hx1]. unfold get_ino. rewrite Hx1. cbn.
  change MAXCAGE with 1024. unfold bad_proc. destruct (i_kind x); cbn [negb]; rewrite ?orb_true_r, ?orb_false_r; try reflexivity. destruct (_ || _); reflexivity.
Qed.

Lemma a_dup2 x y : ok (step w c (Dup2 x y)) = true.
Proof using Hr Hs Hp.
  enter Hs Hp. unfold dup2_syscall. change MAXFD with 1024. destruct (_ || _); [reflexivity|]. destruct (Z.eqb_spec y x) as [|Hxy]; [reflexivity|].
  destruct (negb _); [reflexivity|]. destruct (w_fds w !! (c, x)) as [d0|] eqn:Ed0; [|reflexivity]. pose proof Ed0 as Ed. rewrite (tab_eq w a c pr x Hs Hp) in Ed.
  destruct (q_tab pr !! x) as [d|] eqn:Eq; [|discriminate Ed]. cbn in Ed. injection Ed as <-. unfold dup2_helper.
  assert (Hgo : forall w1, (forall i pos fl, d = DFile i pos fl -> exists z, w_ino w1 !! i = Some z /\ i_kind z <> KSock) ->
     (forall k fl, d = DPipe k fl -> is_Some (w_pipes w1 !! k)) ->
     ok (do o <- add_ref (seen_des d) w1; match o with None => Done (w1, err EACCES) | Some w2 => Done (put_fd c y (clear_cloexec (seen_des d)) w2, y) end) = true).
  { intros w1 H Hpp. destruct d as [i pos fl|s fl|k fl|fl]; cbn [seen_des add_ref obind]; [|reflexivity| |reflexivity].
    2:{ destruct (Hpp _ _ eq_refl) as [p Hk]. unfold get_pipe. rewrite Hk. reflexivity. }
    destruct (H _ _ _ eq_refl) as (z & Hz & Hk).
    unfold get_ino. rewrite Hz. cbn [obind]. destruct (i_kind z); try reflexivity. congruence. }
  destruct (w_fds w !! (c, y)) as [e|] eqn:Ee; cbn [obind].
  - destruct (close_total w c y e Hw Hc Ee) as (w2 & H & Hf2). pose proof (step_winv false _ _ _ _ _ Hw H I) as Hw2.
    unfold step in H. rewrite (cwd_of _ _ _ _ Hs Hp) in H. apply ret_done in H as (r2 & H & _). unfold close_syscall in H.
    destruct (close_inner w c y) as [[w1 r1]|] eqn:Ec; cbn [obind] in H; [|discriminate H]. cbn [obind fst]. apply Hgo.
    assert (E : w_ino w2 = w_ino w1) by (destruct (r1 <? 0) in H; injection H as <- _; reflexivity).
    2:{ assert (E' : w_pipes w2 = w_pipes w1) by (destruct (r1 <? 0) in H; injection H as <- _; reflexivity).
        intros k fl ->. rewrite <- E'. destruct (p_fd _ _ _ (v_p _ (u_inv _ Hw2)) (c, x) k fl) as [Hk _]; [|exact Hk].
        cbn. rewrite Hf2, lookup_delete_ne by congruence. exact Ed0. }
    intros i pos fl ->. rewrite <- E. destruct (u_inv _ Hw2) as [Hn2 Hr2 _ _]. cbn in Hn2, Hr2. destruct (r_fd _ _ Hr2 (c, x) i pos fl) as [z Hz].
    { rewrite Hf2, lookup_delete_ne by congruence. exact Ed0. }
    exists z. split; [exact Hz|]. exact (n_sock _ _ Hn2 _ _ Hz).
  - apply Hgo; [intros i pos fl ->; destruct (open_ino _ _ _ _ _ _ _ _ Hw Hs Hp Eq) as (z & Hz & Hk & _); eauto|].
    intros k fl ->. destruct (p_fd _ _ _ (v_p _ (u_inv _ Hw)) _ _ _ Ed0) as [Hk _]. exact Hk.
Qed.
End S.

(** ** All calls *)
Lemma call_fine w a c o : reach false w -> shows w a -> allowed a c o = true -> ok (step w c o) = negb (aborts a c o).
Proof.
  intros Hr Hs Hal. destruct (allowed_proc _ _ _ Hal) as [pr Hp].
  assert (T : forall b : bool, aborts a c o = b -> ok (step w c o) = negb b -> ok (step w c o) = negb (aborts a c o)) by (intros b -> H; exact H).
  assert (U : forall b : bool, (match vw_proc a !! c with Some _ => b | None => true end) = b) by (intros b; rewrite Hp; reflexivity).
  destruct o; unfold allowed in Hal; rewrite Hp in Hal; try discriminate Hal.
  - apply (T false); [unfold aborts; apply U|exact (a_open w a c pr Hr Hs Hp _ _ _)].
  - apply (T false); [unfold aborts; apply U|exact (a_creat w a c pr Hr Hs Hp _ _)].
  - apply (T false); [unfold aborts; apply U|exact (a_mkdir w a c pr Hr Hs Hp _ _)].
  - apply (T false); [unfold aborts; apply U|exact (a_mknod w a c pr Hr Hs Hp _ _ _)].
  - rewrite (a_link w a c pr Hr Hs Hp _ _). unfold aborts. rewrite Hp. reflexivity.
  - apply (T false); [unfold aborts; apply U|exact (a_unlink w a c pr Hr Hs Hp _)].
  - exact (a_rmdir w a c pr Hr Hs Hp _).
  - apply (T false); [unfold aborts; apply U|exact (a_rename w a c pr Hr Hs Hp _ _)].
  - apply (T false); [unfold aborts; apply U|exact (a_chmod w a c pr Hr Hs Hp _ _)].
  - apply (T (bad_fd fd)); [unfold aborts; apply U|exact (a_fchmod w a c pr Hr Hs Hp _ _)].
  - apply (T false); [unfold aborts; apply U|exact (a_truncate w a c pr Hr Hs Hp _ _)].
  - apply (T (bad_fd fd)); [unfold aborts; apply U|exact (a_ftruncate w a c pr Hr Hs Hp _ _)].
  - apply (T false); [unfold aborts; apply U|exact (a_stat w a c pr Hr Hs Hp _)].
  - apply (T (bad_fd fd)); [unfold aborts; apply U|exact (a_fstat w a c pr Hr Hs Hp _)].
  - apply (T false); [unfold aborts; apply U|exact (a_access w a c pr Hr Hs Hp _ _)].
  - exact (a_read w a c pr Hr Hs Hp _ _).
  - exact (a_pread w a c pr Hr Hs Hp _ _ _).
  - exact (a_write w a c pr Hr Hs Hp _ _).
  - exact (a_pwrite w a c pr Hr Hs Hp _ _ _).
  - exact (a_writev w a c pr Hr Hs Hp _ _).
  - apply (a_lseek w a c pr Hr Hs Hp). unfold allowed. rewrite Hp. exact Hal.
  - apply (T (bad_fd fd)); [unfold aborts; apply U|exact (a_fsync w a c pr Hr Hs Hp _)].
  - apply (T (bad_fd fd)); [unfold aborts; apply U|exact (a_close w a c pr Hr Hs Hp _)].
  - apply (T false); [unfold aborts; apply U|exact (a_dup w a c pr Hr Hs Hp _)].
  - apply (T false); [unfold aborts; apply U|exact (a_dup2 w a c pr Hr Hs Hp _ _)].
  - apply (T (bad_fd fd)); [unfold aborts; apply U|exact (a_fcntl w a c pr Hr Hs Hp _ _ _)].
  - apply (T false); [unfold aborts; apply U|exact (a_chdir w a c pr Hr Hs Hp _)].
  - apply (T (bad_fd fd)); [unfold aborts; apply U|]. apply (a_fchdir w a c pr Hr Hs Hp). unfold allowed. rewrite Hp. exact Hal.
  - apply (T false); [unfold aborts; apply U|]. unfold step. rewrite (cwd_of _ _ _ _ Hs Hp). reflexivity.
  - apply (T false); [unfold aborts; apply U|exact (a_getdents w a c pr Hr Hs Hp _ _)].
  - apply (T false); [unfold aborts; apply U|exact (a_pipe2 w a c pr Hs Hp _)].
  - apply (T false); [unfold aborts; apply U|exact (a_epoll w a c pr Hs Hp _)].
  - apply (a_fork w a c pr Hr Hs Hp). unfold allowed. rewrite Hp. exact Hal.
  - apply (T (bad_proc child)); [unfold aborts; apply U|exact (a_exec w a c pr Hr Hs Hp _)].
  - apply (T false); [unfold aborts; apply U|exact (a_exit w a c pr Hr Hs Hp _)].
Qed.

Lemma call_aborts w a c o : reach false w -> shows w a -> allowed a c o = true -> (step w c o = Panic <-> aborts a c o = true).
Proof.
  intros Hr Hs Hal. pose proof (call_fine w a c o Hr Hs Hal) as H. destruct (step w c o); cbn [ok] in H; destruct (aborts a c o); cbn [negb] in H; split; intros E; (discriminate E || discriminate H || reflexivity).
Qed.

(** ** Histories *)
Lemma run_total h : forall w a, reach false w -> shows w a -> all_allowed a h = true -> all_fine a h = true ->
  exists w', run w h = Some (w', snd (arun a h)) /\ shows w' (fst (arun a h)).
Proof.
  induction h as [|[c o] h IH]; intros w a Hr Hs Hal Hf; cbn [run arun all_allowed all_fine] in *.
  { exists w. split; [reflexivity|exact Hs]. }
  apply andb_true_iff in Hal as [Ha1 Ha2]. apply andb_true_iff in Hf as [Hf1 Hf2]. pose proof (call_fine w a c o Hr Hs Ha1) as E. rewrite Hf1 in E.
  destruct (step w c o) as [[w1 r]|] eqn:Hst; [|discriminate E]. clear E.
  destruct (step_view _ _ _ _ _ _ Hr Hs Ha1 Hst) as (a1 & Ea & Hs1). rewrite Ea in *. cbn [fst] in Ha2, Hf2.
  pose proof (allowed_tame _ _ _ _ _ _ Hr Hs Ha1 Hst) as Ht.
  destruct (IH w1 a1) as (w2 & E2 & Hs2); [econstructor; eassumption|assumption|assumption|assumption|].
  destruct (arun a1 h) as [a2 xs]. cbn [fst snd] in *. exists w2. rewrite E2. split; [reflexivity|exact Hs2].
Qed.

Lemma run_fine h : forall w a, reach false w -> shows w a -> all_allowed a h = true -> (run w h = None <-> all_fine a h = false).
Proof.
  induction h as [|[c o] h IH]; intros w a Hr Hs Hal; cbn [run all_allowed all_fine] in *; [split; discriminate|].
  apply andb_true_iff in Hal as [Ha1 Ha2]. pose proof (call_fine w a c o Hr Hs Ha1) as E.
  destruct (step w c o) as [[w1 r]|] eqn:Hst; cbn [ok] in E; rewrite <- E; cbn [andb]; [|split; reflexivity].
  destruct (step_view _ _ _ _ _ _ Hr Hs Ha1 Hst) as (a1 & Ea & Hs1). rewrite Ea in *. cbn [fst] in Ha2 |- *.
  pose proof (allowed_tame _ _ _ _ _ _ Hr Hs Ha1 Hst) as Ht.
  rewrite <- (IH w1 a1); [|econstructor; eassumption|assumption|assumption]. destruct (run w1 h) as [[w2 xs]|]; split; congruence.
Qed.
