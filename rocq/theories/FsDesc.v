(** Proofs about descriptors. *)
From Verif Require Import Base PathModel PathSpec PathProofs FsModel FsBoot FsSpec FsWalk Count FsNames FsTr FsInv FsInv2
  FsSteps FsSteps2 FsFrame FsReachSpec FsReach FsTree FdSpec.
Local Open Scope list_scope.
Local Open Scope Z_scope.
Opaque all_fds.

(** *** Allocation *)
Lemma find_seqZ (f : Z -> bool) n : forall s, 
  match find f (seqZ s (Z.of_nat n)) with
  | Some x => s <= x < s + Z.of_nat n /\ f x = true /\ forall k, s <= k < x -> f k = false
  | None => forall k, s <= k < s + Z.of_nat n -> f k = false
  end.
Proof.
  induction n as [|n IH]; intros s; [change (seqZ s (Z.of_nat 0)) with ([] : list Z); cbn [find]; intros; lia|].
  rewrite seqZ_cons by lia. cbn [find]. destruct (f s) eqn:E.
  - split; [lia|]. split; [assumption|]. intros; lia.
  - replace (Z.pred (Z.of_nat (S n))) with (Z.of_nat n) by lia. specialize (IH (Z.succ s)).
    destruct (find f _) as [x|].
    + destruct IH as (? & ? & IH). split; [lia|]. split; [assumption|]. intros k ?. destruct (decide (k = s)) as [->|]; [assumption|]. apply IH. lia.
    + intros k ?. destruct (decide (k = s)) as [->|]; [assumption|]. apply IH. lia.
Qed.

Lemma next_fd_spec w c s : match next_fd w c s with Some fd => lowest_free (w_fds w) c s fd | None => none_free (w_fds w) c s end.
Proof.
  unfold next_fd. destruct (Z.le_gt_cases s MAXFD) as [Hs|Hs].
  - replace (MAXFD - s) with (Z.of_nat (Z.to_nat (MAXFD - s))) by lia.
    pose proof (find_seqZ (fun fd => match w_fds w !! (c, fd) with Some _ => false | None => true end) (Z.to_nat (MAXFD - s)) s) as H.
    destruct (find _ _) as [x|].
    + destruct H as (H1 & H2 & H3). split; [unfold MAXFD in *; lia|]. destruct (w_fds w !! (c, x)) eqn:E; [discriminate|].
      split; [reflexivity|]. intros k Hk. apply H3 in Hk. destruct (w_fds w !! (c, k)); [eauto|discriminate].
    + intros k Hk. specialize (H k). destruct (w_fds w !! (c, k)); [eauto|]. exfalso. assert (true = false); [|discriminate]. apply H. unfold MAXFD in *; lia.
  - replace (seqZ s (MAXFD - s)) with ([] : list Z); [cbn; intros k ?; unfold MAXFD in *; lia|].
    unfold seqZ. replace (Z.to_nat (MAXFD - s)) with 0%nat by lia. reflexivity.
Qed.

Lemma lowest_free_det m c s a b : lowest_free m c s a -> lowest_free m c s b -> a = b.
Proof.
  intros (A1 & A2 & A3) (B1 & B2 & B3). destruct (Z.lt_trichotomy a b) as [H|[H|H]]; [|assumption|].
  - destruct (B3 a) as [x Hx]; [lia|congruence].
  - destruct (A3 b) as [x Hx]; [lia|congruence].
Qed.

Lemma lowest_none m c s a : lowest_free m c s a -> none_free m c s -> False.
Proof. intros (A1 & A2 & A3) H. destruct (H a) as [x Hx]; [lia|congruence]. Qed.

Lemma next_fd_some_eq w c s fd : next_fd w c s = Some fd -> lowest_free (w_fds w) c s fd.
Proof. intros H. pose proof (next_fd_spec w c s). rewrite H in *. assumption. Qed.
Lemma next_fd_none_eq w c s : next_fd w c s = None <-> none_free (w_fds w) c s.
Proof.
  pose proof (next_fd_spec w c s) as H. destruct (next_fd w c s) as [x|]; split; intros; try congruence; try assumption.
  exfalso. eapply lowest_none; eauto.
Qed.

Lemma errneg e : 0 < e -> err e < 0.
Proof. unfold err. lia. Qed.

Lemma open_alloc w c cwd p fl m w' r : open_syscall w c cwd p fl m = Done (w', r) -> 0 <= r ->
  allocated (w_fds w) (w_fds w') c 0 r.
Proof.
  intros H Hr. unfold open_syscall in H.
  destruct (String.eqb p ""); [injection H as _ <-; cbn in Hr; lia|].
  destruct (next_fd w c 0) as [fd|] eqn:En; [|injection H as _ <-; cbn in Hr; lia]. apply next_fd_some_eq in En.
  destruct (metawalkandparent _ _) as [[[i|] [par|]]|]; cbn [obind] in H; try discriminate.
  - match type of H with (if ?b then _ else _) = _ => destruct b end; [injection H as _ <-; cbn in Hr; lia|].
    destruct (get_ino w i) as [x|] eqn:Ex; cbn [obind] in H; [|discriminate].
    destruct (i_kind x); try (injection H as <- <-; split; [assumption|wcbn; eauto]); try (injection H as _ <-; cbn in Hr; lia).
    match type of H with obind ?q _ = _ => destruct q as [w1|] eqn:E1 end; cbn [obind] in H; [|discriminate]. injection H as <- <-.
    split; [assumption|]. wcbn.
    match goal with |- context [open_fobj i ?s w1] => destruct (open_fobj_kp i s w1) as [-> _] end.
    assert (w_fds w1 = w_fds w) as ->; [|eauto]. match type of E1 with (if ?b then _ else _) = _ => destruct b end; [apply remove_host_kp in E1 as [-> _]; reflexivity|congruence].
  - match type of H with (if ?b then _ else _) = _ => destruct b end; [injection H as _ <-; cbn in Hr; lia|].
    destruct (get_ino w i) as [x|] eqn:Ex; cbn [obind] in H; [|discriminate].
    destruct (i_kind x); try (injection H as <- <-; split; [assumption|wcbn; eauto]); try (injection H as _ <-; cbn in Hr; lia).
    match type of H with obind ?q _ = _ => destruct q as [w1|] eqn:E1 end; cbn [obind] in H; [|discriminate]. injection H as <- <-.
    split; [assumption|]. wcbn.
    match goal with |- context [open_fobj i ?s w1] => destruct (open_fobj_kp i s w1) as [-> _] end.
    assert (w_fds w1 = w_fds w) as ->; [|eauto]. match type of E1 with (if ?b then _ else _) = _ => destruct b end; [apply remove_host_kp in E1 as [-> _]; reflexivity|congruence].
  - destruct (negb _); [injection H as _ <-; cbn in Hr; lia|]. match type of H with (if ?b then _ else _) = _ => destruct b end; [injection H as _ <-; cbn in Hr; lia|].
    destruct (negb _); [injection H as _ <-; cbn in Hr; lia|]. destruct (file_name _); [|discriminate].
    destruct (add_child _ _ _ _ _) as [w1|] eqn:Ea; cbn [obind] in H; [|discriminate]. injection H as <- <-.
    split; [assumption|]. wcbn. destruct (open_fobj_kp (w_next w) 0 w1) as [-> _]. apply add_child_kp in Ea as [-> _]. eauto.
  - injection H as _ <-; cbn in Hr; lia.
Qed.

Lemma dup2_alloc w c d s w' r : dup2_helper w c d s false = Done (w', r) -> 0 <= r ->
  lowest_free (w_fds w) c s r /\ w_fds w' = <[(c, r) := clear_cloexec d]> (w_fds w) /\ (forall fl, d <> FEpoll fl).
Proof.
  intros H Hr. unfold dup2_helper in H. cbn [obind] in H. destruct (next_fd w c s) as [fd|] eqn:En; cbn [obind] in H; [|injection H as _ <-; cbn in Hr; lia].
  apply next_fd_some_eq in En. destruct (add_ref d w) as [[w2|]|] eqn:Ea; cbn [obind] in H; [|injection H as _ <-; cbn in Hr; lia|discriminate].
  injection H as <- <-. split; [assumption|]. wcbn. pose proof (add_ref_kp _ _ _ Ea) as [-> _]. split; [reflexivity|].
  intros fl ->. cbn in Ea. discriminate.
Qed.

Lemma alloc_lowest w c o w' r m : alloc_from o = Some m -> o <> Dup 0 -> step w c o = Done (w', Ret r) -> 0 <= r ->
  allocated (w_fds w) (w_fds w') c m r.
Proof.
  intros Ha Hd H Hr. unfold step in H. destruct (w_cwd w !! c) as [cwd|]; [|discriminate].
  destruct o; try discriminate Ha; unfold ret in H; cbn in Ha.
  - injection Ha as <-. peel H. eapply open_alloc; eauto.
  - injection Ha as <-. peel H. eapply open_alloc; eauto.
  - injection Ha as <-. peel H. unfold dup_syscall in H. destruct (Z.eqb_spec fd 0) as [->|]; [congruence|].
    destruct (negb _); [injection H as _ <-; cbn in Hr; lia|].
    destruct (w_fds w !! (c, fd)) as [d|]; [|injection H as _ <-; cbn in Hr; lia].
    apply dup2_alloc in H as (? & ? & ?); [|assumption]. split; eauto.
  - destruct ((cmd =? F_DUPFD) && (0 <=? arg)) eqn:E; [|discriminate]. injection Ha as <-.
    apply andb_true_iff in E as [E1 E2]. apply Z.eqb_eq in E1. subst cmd. peel H. unfold fcntl_syscall in H.
    destruct (fd_slot w c fd) as [[d|]|]; cbn [obind] in H; [|injection H as _ <-; cbn in Hr; lia|discriminate].
    change (F_DUPFD =? F_GETFD) with false in H. change (F_DUPFD =? F_SETFD) with false in H.
    change (F_DUPFD =? F_GETFL) with false in H. change (F_DUPFD =? F_SETFL) with false in H.
    cbn [andb] in H. change (F_DUPFD =? F_DUPFD) with true in H. rewrite E2 in H. cbn [andb] in H.
    apply dup2_alloc in H as (? & ? & ?); [|assumption]. split; eauto.
  - injection Ha as <-. peel H. unfold epoll_create_syscall in H. destruct (_ <=? _); [injection H as _ <-; cbn in Hr; lia|].
    destruct (next_fd w c 0) as [fd|] eqn:En; [|injection H as _ <-; cbn in Hr; lia]. injection H as <- <-.
    apply next_fd_some_eq in En. split; [assumption|]. wcbn. eauto.
Qed.

(** exhausting the descriptor table *)
Ltac peelc H := match type of H with
  | obind ?o _ = Done _ => let E := fresh "E" in let e1 := fresh in let e2 := fresh in
      destruct o as [[? ?]|] eqn:E; cbn [obind fst snd] in H; [|discriminate H];
      injection H as e1 e2; rewrite e1 in E; clear e1; first [rewrite e2 in E; clear e2 | subst]; rename E into H end.

Lemma ENFILE_alloc w c o w' m : alloc_from o = Some m -> step w c o = Done (w', Ret (err ENFILE)) ->
  none_free (w_fds w) c m /\ w' = w.
Proof.
  intros Ha H. unfold step in H. destruct (w_cwd w !! c) as [cwd|]; [|discriminate].
  assert (Hopen : forall p fl md, open_syscall w c cwd p fl md = Done (w', err ENFILE) -> none_free (w_fds w) c 0 /\ w' = w).
  { intros p fl md Ho. unfold open_syscall in Ho. destruct (String.eqb p ""); [discriminate|].
    destruct (next_fd w c 0) as [fd|] eqn:En.
    - exfalso. apply next_fd_some_eq in En. destruct En as [En _].
      destruct (metawalkandparent _ _) as [[[i|] [par|]]|]; cbn [obind] in Ho; try discriminate.
      + match type of Ho with (if ?b then _ else _) = _ => destruct b end; [discriminate|].
        destruct (get_ino w i) as [x|]; cbn [obind] in Ho; [|discriminate].
        destruct (i_kind x); try (injection Ho as _ E; cbn in E; lia); try discriminate.
        match type of Ho with obind ?q _ = _ => destruct q as [w1|] end; cbn [obind] in Ho; [|discriminate]. injection Ho as _ E. cbn in E. lia.
      + match type of Ho with (if ?b then _ else _) = _ => destruct b end; [discriminate|].
        destruct (get_ino w i) as [x|]; cbn [obind] in Ho; [|discriminate].
        destruct (i_kind x); try (injection Ho as _ E; cbn in E; lia); try discriminate.
        match type of Ho with obind ?q _ = _ => destruct q as [w1|] end; cbn [obind] in Ho; [|discriminate]. injection Ho as _ E. cbn in E. lia.
      + destruct (negb _); [discriminate|]. match type of Ho with (if ?b then _ else _) = _ => destruct b end; [discriminate|].
        destruct (negb _); [discriminate|]. destruct (file_name _); [|discriminate].
        destruct (add_child _ _ _ _ _) as [w1|]; cbn [obind] in Ho; [|discriminate]. injection Ho as _ E. cbn in E. lia.
    - apply next_fd_none_eq in En. split; [assumption|congruence]. }
  assert (Hdup : forall d s, dup2_helper w c d s false = Done (w', err ENFILE) -> 0 <= s -> none_free (w_fds w) c s /\ w' = w).
  { intros d s Ho Hs. unfold dup2_helper in Ho. cbn [obind] in Ho. destruct (next_fd w c s) as [fd|] eqn:En; cbn [obind] in Ho.
    - exfalso. apply next_fd_some_eq in En. destruct En as [En _].
      destruct (add_ref d w) as [[w2|]|]; cbn [obind] in Ho; try discriminate. injection Ho as _ E. cbn in E. lia.
    - apply next_fd_none_eq in En. split; [assumption|congruence]. }
  destruct o; try discriminate Ha; unfold ret in H; cbn in Ha.
  - injection Ha as <-. peelc H. eapply Hopen; eauto.
  - injection Ha as <-. peelc H. eapply Hopen; eauto.
  - injection Ha as <-. peelc H. unfold dup_syscall in H. destruct (Z.eqb_spec fd 0) as [->|]; [discriminate|].
    destruct (negb _); [discriminate|].
    destruct (w_fds w !! (c, fd)) as [d|]; [|discriminate]. eapply Hdup; eauto. lia.
  - destruct ((cmd =? F_DUPFD) && (0 <=? arg)) eqn:E; [|discriminate]. injection Ha as <-.
    apply andb_true_iff in E as [E1 E2]. apply Z.eqb_eq in E1. subst cmd. peelc H. unfold fcntl_syscall in H.
    destruct (fd_slot w c fd) as [[d|]|]; cbn [obind] in H; try discriminate.
    change (F_DUPFD =? F_GETFD) with false in H. change (F_DUPFD =? F_SETFD) with false in H.
    change (F_DUPFD =? F_GETFL) with false in H. change (F_DUPFD =? F_SETFL) with false in H.
    cbn [andb] in H. change (F_DUPFD =? F_DUPFD) with true in H. rewrite E2 in H. cbn [andb] in H.
    eapply Hdup; eauto. lia.
  - injection Ha as <-. peelc H. unfold epoll_create_syscall in H. destruct (_ <=? _); [discriminate|].
    destruct (next_fd w c 0) as [fd|] eqn:En.
    + exfalso. apply next_fd_some_eq in En. destruct En as [En _]. injection H as _ E. cbn in E. lia.
    + apply next_fd_none_eq in En. split; [assumption|congruence].
Qed.

Lemma full_ENFILE w c o m : alloc_from o = Some m -> is_Some (w_cwd w !! c) -> args_ok (w_fds w) c o ->
  none_free (w_fds w) c m -> step w c o = Done (w, Ret (err ENFILE)).
Proof.
  intros Ha [cwd Hc] Hok Hn. unfold step. rewrite Hc. apply next_fd_none_eq in Hn. destruct o; try discriminate; cbn in Ha, Hok.
  - injection Ha as <-. unfold ret, open_syscall. destruct (String.eqb_spec path ""); [contradiction|]. rewrite Hn. reflexivity.
  - injection Ha as <-. unfold ret, creat_syscall, open_syscall. destruct (String.eqb_spec path ""); [contradiction|]. rewrite Hn. reflexivity.
  - injection Ha as <-. destruct Hok as (H0 & Hr & [d Hd]). unfold ret, dup_syscall. destruct (Z.eqb_spec fd 0); [lia|].
    unfold in_fd_range. destruct (Z.leb_spec 0 fd), (Z.ltb_spec fd MAXFD); unfold MAXFD in *; try lia. cbn [andb negb].
    rewrite Hd. unfold dup2_helper. cbn [obind]. rewrite Hn. reflexivity.
  - destruct ((cmd =? F_DUPFD) && (0 <=? arg)) eqn:E; [|discriminate]. injection Ha as <-.
    apply andb_true_iff in E as [E1 E2]. apply Z.eqb_eq in E1. subst cmd. destruct Hok as (Hr & [d Hd]).
    unfold ret, fcntl_syscall, fd_slot, in_fd_range. destruct (Z.leb_spec 0 fd), (Z.ltb_spec fd MAXFD); unfold MAXFD in *; try lia.
    cbn [andb negb obind]. rewrite Hd.
    change (F_DUPFD =? F_GETFD) with false. change (F_DUPFD =? F_SETFD) with false.
    change (F_DUPFD =? F_GETFL) with false. change (F_DUPFD =? F_SETFL) with false.
    change (F_DUPFD =? F_DUPFD) with true. rewrite E2. cbn [andb]. unfold dup2_helper. cbn [obind]. rewrite Hn. reflexivity.
  - injection Ha as <-. unfold ret, epoll_create_syscall. destruct (Z.leb_spec size 0); [lia|]. rewrite Hn. reflexivity.
Qed.

(** *** Isolation *)
Lemma fdchg_other c m m' a fd : fdchg c m m' -> a <> c -> m' !! (a, fd) = m !! (a, fd).
Proof. intros H Ha. destruct (decide (m' !! (a, fd) = m !! (a, fd))) as [|Hn]; [assumption|]. apply H in Hn as [? _]. contradiction. Qed.
Lemma close_other w c fd w' r c' g : close_syscall w c fd = Done (w', r) -> c' <> c ->
  w_fds w' !! (c', g) = w_fds w !! (c', g) /\ w_cwd w' = w_cwd w.
Proof.
  intros H Hc. apply close_frame in H as [H ->]. split; [|reflexivity]. eapply fdchg_other; eauto.
Qed.

Lemma close_fold_other c l : forall w w' c' g, fold_left (close_fd_in c) l (Done w) = Done w' -> c' <> c ->
  w_fds w' !! (c', g) = w_fds w !! (c', g) /\ w_cwd w' = w_cwd w.
Proof.
  induction l as [|fd l IH]; intros w w' c' g H Hc; cbn [fold_left] in H.
  - injection H as <-. auto.
  - unfold close_fd_in at 2 in H. cbn [obind] in H.
    destruct (close_syscall w c fd) as [[w1 r]|] eqn:E; cbn [obind fst] in H; [|rewrite close_in_panic in H; discriminate].
    destruct (close_other _ _ _ _ _ c' g E Hc) as [A B]. destruct (IH _ _ c' g H Hc) as [A' B']. split; congruence.
Qed.

Lemma fork_fold_other ptab c child l : forall w w' c' g, fold_left (fork_fd ptab c child) l (Done w) = Done w' -> c' <> child ->
  w_fds w' !! (c', g) = w_fds w !! (c', g) /\ w_cwd w' = w_cwd w.
Proof.
  induction l as [|fd l IH]; intros w w' c' g H Hc; cbn [fold_left] in H.
  - injection H as <-. auto.
  - destruct (fork_fd ptab c child (Done w) fd) as [w1|] eqn:E; [|rewrite fork_fd_panic in H; discriminate].
    destruct (IH _ _ c' g H Hc) as [A' B']. rewrite A', B'. clear A' B' H IH.
    unfold fork_fd in E. cbn [obind] in E. destruct (ptab !! (c, fd)) as [d|]; [|injection E as <-; auto].
    match type of E with obind ?q _ = _ => destruct q as [w2|] eqn:E1 end; cbn [obind] in E; [|discriminate]. injection E as <-.
    wcbn. rewrite lookup_insert_ne by congruence.
    destruct d; [destruct (get_ino w _); cbn [obind] in E1; [|discriminate]|idtac|destruct (get_pipe w _); cbn [obind] in E1; [|discriminate]|idtac];
      injection E1 as <-; wcbn; auto.
Qed.

Lemma move_fold_other c child l : forall m c' g, c' <> c -> c' <> child ->
  fold_left (move_fd c child) l m !! (c', g) = m !! (c', g).
Proof.
  induction l as [|fd l IH]; intros m c' g H1 H2; cbn [fold_left]; [reflexivity|].
  rewrite IH by assumption. unfold move_fd. destruct (m !! (c, fd)); [|reflexivity].
  rewrite lookup_insert_ne, lookup_delete_ne by congruence. reflexivity.
Qed.

Lemma filter_other (m : gmap (Z * Z) fdesc) c c' g : c' <> c -> filter (fun kd => kd.1.1 <> c) m !! (c', g) = m !! (c', g).
Proof.
  intros H. destruct (m !! (c', g)) as [d|] eqn:E.
  - apply map_filter_lookup_Some. split; [assumption|]. cbn. assumption.
  - apply map_filter_lookup_None. auto.
Qed.

Lemma isolation w c o w' r c' : step w c o = Done (w', r) -> c' <> c ->
  (forall ch, o = Fork ch \/ o = Exec ch -> c' <> ch) ->
  w_cwd w' !! c' = w_cwd w !! c' /\ forall fd, w_fds w' !! (c', fd) = w_fds w !! (c', fd).
Proof.
  intros H Hne Hch. destruct (calls_proc o) eqn:Ep.
  2: { apply step_frame in H as [H ->]; [|assumption]. split; [reflexivity|]. intros fd. eapply fdchg_other; eauto. }
  unfold step in H. destruct (w_cwd w !! c) as [cwd|] eqn:Hc; [|discriminate H]. destruct o; try discriminate Ep; unfold ret in H.
  - peelc H. unfold chdir_syscall in H. brk H; try (match type of H with match i_kind ?x with _ => _ end = _ => destruct (i_kind x) end; injection H as <- <-); wcbn; try (rewrite lookup_insert_ne by congruence); auto.
  - unfold fchdir_syscall in H. destruct (fd_slot w c fd) as [[[]|]|]; cbn [obind] in H; brk H;
    try (match type of H with match ?x with _ => _ end = _ => destruct x as [[?|]|] end; [injection H as <- <-|injection H as <- <-|discriminate]); wcbn; try (rewrite lookup_insert_ne by congruence); auto.
  - peelc H. assert (Hc1 : c' <> child) by (apply Hch; auto). unfold fork_syscall in H.
    match type of H with obind ?q _ = _ => destruct q as [w1|] eqn:E1 end; cbn [obind] in H; [|discriminate].
    assert (G : forall g, w_fds w1 !! (c', g) = w_fds w !! (c', g) /\ w_cwd w1 = w_cwd w).
    { intros g. apply fork_fold_other with (c' := c') (g := g) in E1 as [A B]; [|assumption]. rewrite A, B. wcbn.
      split; [|reflexivity]. rewrite init_fdtable_lookup. destruct (Z.eqb_spec c' child); [contradiction|]. apply filter_other. assumption. }
    destruct (metawalk _ _) as [[i|]|]; cbn [obind] in H; try discriminate H.
    destruct (get_ino w1 i) as [x|]; cbn [obind] in H; [|discriminate H]. destruct (i_kind x); try discriminate H.
    destruct (_ || _); [discriminate|]. injection H as <- <-. wcbn. rewrite lookup_insert_ne by congruence.
    split; [destruct (G 0) as [_ ->]; reflexivity|]. intros fd. apply G.
  - peelc H. assert (Hc1 : c' <> child) by (apply Hch; auto). unfold exec_syscall in H.
    match type of H with obind ?q _ = _ => destruct q as [w1|] eqn:E1 end; cbn [obind] in H; [|discriminate].
    assert (G : forall g, w_fds w1 !! (c', g) = w_fds w !! (c', g) /\ w_cwd w1 = w_cwd w)
      by (intros g; exact (close_fold_other _ _ _ _ _ g E1 Hne)).
    destruct (_ || _); [discriminate|]. injection H as <- <-. wcbn. rewrite lookup_insert_ne, lookup_delete_ne by congruence.
    split; [destruct (G 0) as [_ ->]; reflexivity|]. intros fd. destruct (child =? c); [apply G|].
    rewrite move_fold_other by assumption. rewrite filter_other by assumption. apply G.
  - peelc H. unfold exit_syscall in H. match type of H with obind ?q _ = _ => destruct q as [w1|] eqn:E1 end; cbn [obind] in H; [|discriminate].
    assert (G : forall g, w_fds w1 !! (c', g) = w_fds w !! (c', g) /\ w_cwd w1 = w_cwd w)
      by (intros g; exact (close_fold_other _ _ _ _ _ g E1 Hne)).
    injection H as <- <-. wcbn. rewrite lookup_delete_ne by congruence. split; [destruct (G 0) as [_ ->]; reflexivity|].
    intros fd. rewrite filter_other by assumption. apply G.
Qed.

(** *** dup *)
Lemma same_open_clear d : (forall fl, d <> FEpoll fl) -> same_open d (clear_cloexec d) /\ ~ cloexec (clear_cloexec d).
Proof.
  intros Hd. assert (L : forall fl, Z.land fl 3 = Z.land (Z.ldiff fl O_CLOEXEC) 3) by (intros; symmetry; apply land_ldiff3; reflexivity).
  assert (K : forall fl, Z.land (Z.ldiff fl O_CLOEXEC) O_CLOEXEC = 0) by (intros; apply Z.land_ldiff).
  destruct d; cbn; unfold cloexec; cbn [fd_flags].
  - split; [constructor; apply L|]. rewrite K. lia.
  - split; [constructor; apply L|]. rewrite K. lia.
  - split; [constructor; apply L|]. rewrite K. lia.
  - exfalso. eapply Hd; reflexivity.
Qed.

Lemma dup_dups w c fd w' n : step w c (Dup fd) = Done (w', Ret n) -> 0 <= n -> fd <> 0 -> dups (w_fds w) (w_fds w') c fd n.
Proof.
  intros H Hn Hf. unfold step in H. destruct (w_cwd w !! c); [|discriminate]. unfold ret in H. peelc H.
  unfold dup_syscall in H. destruct (Z.eqb_spec fd 0); [contradiction|]. destruct (negb _); [negr H|].
  destruct (w_fds w !! (c, fd)) as [d|] eqn:E; [|negr H]. apply dup2_alloc in H as (H1 & H2 & H3); [|assumption].
  destruct (same_open_clear d H3). exists d, (clear_cloexec d). auto.
Qed.

Lemma dupfd_dups w c fd arg w' n : step w c (Fcntl fd F_DUPFD arg) = Done (w', Ret n) -> 0 <= n ->
  dups (w_fds w) (w_fds w') c fd n /\ arg <= n.
Proof.
  intros H Hn. unfold step in H. destruct (w_cwd w !! c); [|discriminate]. unfold ret in H. peelc H. unfold fcntl_syscall in H.
  destruct (fd_slot w c fd) as [[d|]|] eqn:E; cbn [obind] in H; try discriminate; [|negr H].
  change (F_DUPFD =? F_GETFD) with false in H. change (F_DUPFD =? F_SETFD) with false in H.
  change (F_DUPFD =? F_GETFL) with false in H. change (F_DUPFD =? F_SETFL) with false in H.
  cbn [andb] in H. change (F_DUPFD =? F_DUPFD) with true in H. cbn [andb] in H.
  destruct (0 <=? arg); [|change (F_DUPFD =? F_GETOWN) with false in H; change (F_DUPFD =? F_SETOWN) with false in H; cbn [andb] in H; negr H].
  apply fd_slot_done in E as [E _]. apply dup2_alloc in H as (H1 & H2 & H3); [|assumption].
  destruct (same_open_clear d H3). split; [exists d, (clear_cloexec d); auto|]. destruct H1. lia.
Qed.

Lemma dup2_dups w c a b w' n : step w c (Dup2 a b) = Done (w', Ret n) -> 0 <= n -> a <> b -> n = b /\ dups (w_fds w) (w_fds w') c a b.
Proof.
  intros H Hn Hab. unfold step in H. destruct (w_cwd w !! c); [|discriminate]. unfold ret in H. peelc H. unfold dup2_syscall in H.
  destruct (_ || _); [negr H|]. destruct (Z.eqb_spec b a); [congruence|]. destruct (negb _); [negr H|].
  destruct (w_fds w !! (c, a)) as [d|] eqn:E; [|negr H]. unfold dup2_helper in H.
  assert (exists w1, w_fds w1 = w_fds w /\ (do o <- add_ref d w1; match o with None => Done (w1, err EACCES) | Some w2 => Done (put_fd c b (clear_cloexec d) w2, b) end) = Done (w', n)) as (w1 & Hw1 & H').
  { destruct (w_fds w !! (c, b)) as [db|] eqn:Eb; cbn [obind] in H; [|exists w; auto].
    destruct (close_inner w c b) as [[w1 r1]|] eqn:Ec; cbn [obind fst] in H; [|discriminate]. exists w1. split; [|assumption].
    unfold close_inner in Ec. destruct (fd_slot w c b) as [[d1|]|]; cbn [obind] in Ec; try discriminate.
    - apply close_desc_kp in Ec as [-> _]. reflexivity.
    - congruence. }
  destruct (add_ref d w1) as [[w2|]|] eqn:Ea; cbn [obind] in H'; [|negr H'|discriminate]. injection H' as <- <-.
  split; [reflexivity|]. wcbn. pose proof (add_ref_kp _ _ _ Ea) as [-> _]. rewrite Hw1.
  destruct (same_open_clear d) as [S1 S2]; [intros fl ->; cbn in Ea; discriminate|]. exists d, (clear_cloexec d). auto.
Qed.

(** *** close *)
Lemma close_exact w c fd d : reach true w -> w_fds w !! (c, fd) = Some d ->
  exists w', step w c (Close fd) = Done (w', Ret 0) /\ w_fds w' = delete (c, fd) (w_fds w) /\ w_cwd w' = w_cwd w /\
             step w' c (Close fd) = Done (w', Ret (err EBADF)).
Proof.
  intros Hr Hd. apply reach_winv in Hr. destruct (u_key _ Hr _ _ _ Hd) as [Hfd Hc].
  destruct (close_total w c fd d Hr Hc Hd) as (w' & H & Hf). exists w'. split; [assumption|]. split; [assumption|].
  pose proof (step_frame _ _ _ _ _ H eq_refl) as [_ Hcw]. split; [assumption|]. destruct Hc as [cwd Hc].
  unfold step. rewrite Hcw, Hc. unfold ret, close_syscall, close_inner, fd_slot, in_fd_range.
  destruct (Z.leb_spec 0 fd), (Z.ltb_spec fd MAXFD); try lia. cbn [andb obind]. rewrite Hf, lookup_delete. reflexivity.
Qed.

(** *** fork, exec, exit *)
Lemma fork_fds w c ch w' : reach true w -> w_cwd w !! ch = None -> step w c (Fork ch) = Done (w', Ret 0) ->
  forall a fd, w_fds w' !! (a, fd) =
    if a =? ch then match w_fds w !! (c, fd) with Some d => Some d | None => init_fdtable ch ∅ !! (ch, fd) end
    else w_fds w !! (a, fd).
Proof.
  intros Hr Hch H a fd. apply reach_winv in Hr. unfold step in H. destruct (w_cwd w !! c) as [cwd|] eqn:Hc; [|discriminate].
  unfold ret in H. peelc H. assert (Hne : c <> ch) by congruence.
  pose proof (no_fds _ _ Hr Hch) as Hno.
  destruct (fork_trs true w c cwd ch w' 0 (u_inv _ Hr) Hne Hno H) as (_ & _ & _ & _ & G1 & G2).
  destruct (Z.eqb_spec a ch) as [->|]; [|apply G1; assumption]. rewrite G2. destruct (bool_decide_reflect (0 <= fd < MAXFD)) as [|Hb]; [reflexivity|].
  destruct (w_fds w !! (c, fd)) as [d|] eqn:E; [|reflexivity]. apply (u_key _ Hr) in E as [E _]. contradiction.
Qed.

Lemma exec_fds w c ch w' r : reach true w -> (ch = c \/ w_cwd w !! ch = None) -> step w c (Exec ch) = Done (w', r) ->
  forall a fd, w_fds w' !! (a, fd) =
    if a =? ch then match w_fds w !! (c, fd) with
                    | Some d => if hasbit (fd_flags d) O_CLOEXEC then None else Some d
                    | None => None end
    else if a =? c then None else w_fds w !! (a, fd).
Proof.
  intros Hr Hch H. apply reach_winv in Hr. unfold step in H. destruct (w_cwd w !! c) as [cwd|] eqn:Hc; [|discriminate].
  unfold ret in H. peelc H.
  assert (Hch' : ch = c \/ forall fd, w_fds w !! (ch, fd) = None) by (destruct Hch; [auto|right; apply no_fds; assumption]).
  assert (Hk : forall a fd d, w_fds w !! (a, fd) = Some d -> 0 <= fd < MAXFD) by (intros a fd d Hd; apply (u_key _ Hr _ _ _ Hd)).
  destruct (exec_trs true w c cwd ch _ _ (u_inv _ Hr) Hk Hch' H) as (_ & _ & _ & _ & G). exact G.
Qed.

Lemma exit_fds w c st w' r : reach true w -> step w c (Exit st) = Done (w', r) ->
  w_cwd w' = delete c (w_cwd w) /\ forall a fd, w_fds w' !! (a, fd) = if a =? c then None else w_fds w !! (a, fd).
Proof.
  intros Hr H. apply reach_winv in Hr. unfold step in H. destruct (w_cwd w !! c) as [cwd|] eqn:Hc; [|discriminate].
  unfold ret in H. peelc H.
  assert (Hk : forall a fd d, w_fds w !! (a, fd) = Some d -> 0 <= fd < MAXFD) by (intros a fd d Hd; apply (u_key _ Hr _ _ _ Hd)).
  destruct (exit_trs true w c st _ _ (u_inv _ Hr) Hk H) as (_ & _ & ? & G). auto.
Qed.

(** *** fcntl *)
Lemma fcntl_frame w c fd cmd arg w' r : step w c (Fcntl fd cmd arg) = Done (w', r) -> cmd <> F_DUPFD ->
  w' = w \/ exists d fl, w_fds w !! (c, fd) = Some d /\ w' = put_fd c fd (set_flags fl d) w.
Proof.
  intros H Hc. unfold step in H. destruct (w_cwd w !! c); [|discriminate]. unfold ret in H. peelc H. unfold fcntl_syscall in H.
  destruct (fd_slot w c fd) as [[d|]|] eqn:E; cbn [obind] in H; try discriminate; [|left; congruence].
  apply fd_slot_done in E as [E _].
  repeat (match type of H with (if ?b then _ else _) = _ => destruct b eqn:?; [first [left; congruence | right; injection H as <- _; eauto | idtac]|] end); [|left; congruence].
  exfalso. apply Hc. match goal with X : (cmd =? F_DUPFD) && _ = true |- _ => apply andb_true_iff in X as [X _]; apply Z.eqb_eq in X; exact X end.
Qed.

Lemma set_fd_flags_get fl d : fd_flags (set_flags fl d) = fl.
Proof. destruct d; reflexivity. Qed.

Lemma hasbit_land a b : hasbit a b = negb (Z.land a b =? 0).
Proof. reflexivity. Qed.

Lemma setfd_getfd w c fd arg w' : step w c (Fcntl fd F_SETFD arg) = Done (w', Ret 0) ->
  step w' c (Fcntl fd F_GETFD 0) = Done (w', Ret (Z.land arg O_CLOEXEC)).
Proof.
  intros H. unfold step in H |- *. destruct (w_cwd w !! c) eqn:Ec; [|discriminate]. unfold ret in H. peelc H. unfold fcntl_syscall in H.
  destruct (fd_slot w c fd) as [[d|]|] eqn:E; cbn [obind] in H; try discriminate. apply fd_slot_done in E as [E Hr].
  change (F_SETFD =? F_GETFD) with false in H. change (F_SETFD =? F_SETFD) with true in H. cbn [andb] in H.
  destruct (Z.leb_spec 0 arg); [|discriminate]. injection H as <-. wcbn. rewrite Ec. unfold ret, fcntl_syscall, fd_slot, in_fd_range.
  destruct (Z.leb_spec 0 fd), (Z.ltb_spec fd MAXFD); try lia. wcbn. rewrite lookup_insert. cbn [andb obind].
  change (F_GETFD =? F_GETFD) with true. cbn [obind fst snd]. rewrite set_fd_flags_get. do 3 f_equal. unfold hasbit.
  pose proof (Z.land_nonneg arg O_CLOEXEC) as Hn.
  assert (Hb : Z.land arg O_CLOEXEC = 0 \/ Z.land arg O_CLOEXEC = O_CLOEXEC).
  { destruct (Z.testbit arg 19) eqn:Et; [right|left]; apply Z.bits_inj'; intros n Hn0; rewrite Z.land_spec;
      change O_CLOEXEC with (2 ^ 19); rewrite ?Z.bits_0; destruct (Z.eq_dec n 19) as [->|Hne];
      rewrite ?Z.pow2_bits_true, ?Z.pow2_bits_false, ?Et, ?andb_true_r, ?andb_false_r by lia; reflexivity. }
  destruct Hb as [->| ->].
  - cbn [Z.eqb negb]. apply Z.land_ldiff.
  - change (negb (O_CLOEXEC =? 0)) with true. cbv iota. rewrite Z.land_lor_distr_l, Z.land_diag. apply Z.bits_inj'. intros n Hn0.
    rewrite Z.lor_spec, Z.land_spec. destruct (Z.testbit (fd_flags d) n), (Z.testbit O_CLOEXEC n); reflexivity.
Qed.

Lemma setfl_mode w c fd arg w' r d : step w c (Fcntl fd F_SETFL arg) = Done (w', r) -> w_fds w !! (c, fd) = Some d ->
  exists d', w_fds w' !! (c, fd) = Some d' /\ Z.land (fd_flags d') 3 = Z.land (fd_flags d) 3.
Proof.
  intros H Hd. unfold step in H. destruct (w_cwd w !! c) eqn:Ec; [|discriminate]. unfold ret in H. peelc H. unfold fcntl_syscall in H.
  destruct (fd_slot w c fd) as [[d0|]|] eqn:E; cbn [obind] in H; try discriminate; apply fd_slot_done in E as [E Hr]; [|congruence].
  assert (d0 = d) by congruence. subst d0.
  change (F_SETFL =? F_GETFD) with false in H. change (F_SETFL =? F_SETFD) with false in H. change (F_SETFL =? F_GETFL) with false in H.
  change (F_SETFL =? F_SETFL) with true in H. change (F_SETFL =? F_DUPFD) with false in H. change (F_SETFL =? F_GETOWN) with false in H.
  change (F_SETFL =? F_SETOWN) with false in H. cbn [andb] in H. destruct (0 <=? arg).
  - injection H as <- _. wcbn. rewrite lookup_insert. eexists. split; [reflexivity|]. rewrite set_fd_flags_get. apply land_setfl3. reflexivity.
  - injection H as <- _. eauto.
Qed.

Lemma getfl_bits w c fd a w' r : step w c (Fcntl fd F_GETFL a) = Done (w', Ret r) -> 0 <= r -> Z.land r creation_bits = 0 /\
  exists d, w_fds w !! (c, fd) = Some d /\ Z.land r 3 = Z.land (fd_flags d) 3.
Proof.
  intros H Hr. unfold step in H. destruct (w_cwd w !! c) eqn:Ec; [|discriminate]. unfold ret in H. peelc H. unfold fcntl_syscall in H.
  destruct (fd_slot w c fd) as [[d0|]|] eqn:E; cbn [obind] in H; try discriminate; apply fd_slot_done in E as [E _]; [|negr H].
  change (F_GETFL =? F_GETFD) with false in H. change (F_GETFL =? F_SETFD) with false in H. change (F_GETFL =? F_GETFL) with true in H.
  cbn [andb] in H. injection H as _ <-. split; [apply Z.land_ldiff|]. exists d0. split; [congruence|]. apply land_ldiff3. reflexivity.
Qed.

(** *** Bad descriptor numbers *)
Lemma bad_in_range w c o fd : fd_arg o = Some fd -> is_Some (w_cwd w !! c) -> plain_args o -> 0 <= fd < 1024 ->
  w_fds w !! (c, fd) = None -> step w c o = Done (w, Ret (err EBADF)).
Proof.
  intros Ha [cwd Hc] Hp Hr Hn. unfold step. rewrite Hc.
  assert (Hs : fd_slot w c fd = Done None).
  { unfold fd_slot, in_fd_range. destruct (Z.leb_spec 0 fd), (Z.ltb_spec fd MAXFD); unfold MAXFD in *; try lia. cbn. rewrite Hn. reflexivity. }
  assert (Hi : in_fd_range fd = true).
  { unfold in_fd_range. destruct (Z.leb_spec 0 fd), (Z.ltb_spec fd MAXFD); unfold MAXFD in *; try lia; reflexivity. }
  destruct o; cbn in Ha; try discriminate; injection Ha as ->; unfold ret, same; cbn in Hp.
  1-11,14,15: unfold fchmod_syscall, ftruncate_syscall, fstat_syscall, read_syscall, pread_syscall, write_syscall, pwrite_syscall, writev_syscall,
    lseek_syscall, fsync_syscall, close_syscall, close_inner, fcntl_syscall, fchdir_syscall; rewrite Hs; reflexivity.
  - unfold dup_syscall. destruct (Z.eqb_spec fd 0); [contradiction|]. rewrite Hi, Hn. reflexivity.
  - unfold dup2_syscall. destruct (_ || _); [reflexivity|]. destruct (Z.eqb_spec newfd fd); [congruence|]. rewrite Hi, Hn. reflexivity.
  - unfold getdents_syscall. destruct (Z.leb_spec bufsize CLIPPED_DIRENT_SIZE); [unfold CLIPPED_DIRENT_SIZE in *; lia|]. rewrite Hi, Hn. reflexivity.
Qed.

Lemma bad_out_of_range w c o fd : fd_arg o = Some fd -> is_Some (w_cwd w !! c) -> plain_args o -> fd < 0 \/ 1024 <= fd ->
  step w c o = if checks_range o then Done (w, Ret (err EBADF)) else Panic.
Proof.
  intros Ha [cwd Hc] Hp Hr. unfold step. rewrite Hc.
  assert (Hi : in_fd_range fd = false).
  { unfold in_fd_range. destruct (Z.leb_spec 0 fd), (Z.ltb_spec fd MAXFD); unfold MAXFD in *; try lia; reflexivity. }
  assert (Hs : fd_slot w c fd = Panic) by (unfold fd_slot; rewrite Hi; reflexivity).
  destruct o; cbn in Ha; try discriminate; injection Ha as ->; unfold ret, same; cbn in Hp; cbn [checks_range].
  1-11,14,15: unfold fchmod_syscall, ftruncate_syscall, fstat_syscall, read_syscall, pread_syscall, write_syscall, pwrite_syscall, writev_syscall,
    lseek_syscall, fsync_syscall, close_syscall, close_inner, fcntl_syscall, fchdir_syscall; rewrite Hs; reflexivity.
  - unfold dup_syscall. destruct (Z.eqb_spec fd 0); [contradiction|]. rewrite Hi. reflexivity.
  - unfold dup2_syscall. destruct (_ || _); [reflexivity|]. destruct (Z.eqb_spec newfd fd); [congruence|]. rewrite Hi. reflexivity.
  - unfold getdents_syscall. destruct (Z.leb_spec bufsize CLIPPED_DIRENT_SIZE); [unfold CLIPPED_DIRENT_SIZE in *; lia|]. rewrite Hi. reflexivity.
Qed.

(** *** pipe2 *)
Lemma pipe2_success w c fl w' a b : step w c (Pipe2 fl) = Done (w', RetFds 0 a b) ->
  lowest_free (w_fds w) c 0 a /\ a < b /\ (w_fds w !! (c, b) = None) /\ (forall k, 0 <= k < b -> k <> a -> is_Some (w_fds w !! (c, k))) /\
  w_pipes w' = <[w_npipe w := Pipe [] 1 1]> (w_pipes w) /\
  exists f1 f2, w_fds w' = <[(c, b) := FPipe (w_npipe w) f2]> (<[(c, a) := FPipe (w_npipe w) f1]> (w_fds w)) /\
    is_rdonly f1 = true /\ is_wronly f2 = true.
Proof.
  intros H. unfold step in H. destruct (w_cwd w !! c) eqn:Ec; [|discriminate]. unfold pipe2_syscall in H.
  match type of H with match next_fd ?w0 c 0 with _ => _ end = _ => destruct (next_fd w0 c 0) as [a0|] eqn:Ea end; [|discriminate].
  apply next_fd_some_eq in Ea. wcbn.
  match type of H with match next_fd ?w0 c 0 with _ => _ end = _ => destruct (next_fd w0 c 0) as [b0|] eqn:Eb end; [|discriminate].
  apply next_fd_some_eq in Eb. wcbn1 Eb. injection H as <- -> ->. wcbn1 Ea. split; [assumption|].
  destruct Ea as (A1 & A2 & A3), Eb as (B1 & B2 & B3).
  assert (Hab : a <> b) by (intros ->; rewrite lookup_insert in B2; discriminate).
  rewrite lookup_insert_ne in B2 by congruence.
  assert (a < b). { destruct (Z.lt_trichotomy a b) as [|[|Hl]]; [assumption|contradiction|]. destruct (A3 b) as [x Hx]; [lia|]. congruence. }
  split; [assumption|]. split; [assumption|]. split.
  { intros k Hk Hka. specialize (B3 k ltac:(lia)). rewrite lookup_insert_ne in B3 by congruence. assumption. }
  split; [reflexivity|]. do 2 eexists. split; [reflexivity|].
  destruct (rdwr_pipe fl) as (?&?&?&?). auto.
Qed.

Lemma pipe2_failure w c fl w' : step w c (Pipe2 fl) = Done (w', RetFds (err ENFILE) (-1) (-1)) -> w' = w /\ none_free (w_fds w) c 0.
Proof.
  intros H. unfold step in H. destruct (w_cwd w !! c) eqn:Ec; [|discriminate]. unfold pipe2_syscall in H.
  match type of H with match next_fd ?w0 c 0 with _ => _ end = _ => destruct (next_fd w0 c 0) as [a0|] eqn:Ea end.
  - apply next_fd_some_eq in Ea. destruct Ea as [Ea _]. destruct (next_fd _ c 0); [discriminate|]. injection H as _ H. lia.
  - apply next_fd_none_eq in Ea. wcbn1 Ea. split; [congruence|assumption].
Qed.

Lemma pipe2_total w c fl : is_Some (w_cwd w !! c) -> exists w' r a b, step w c (Pipe2 fl) = Done (w', RetFds r a b) /\
  (none_free (w_fds w) c 0 /\ w' = w /\ r = err ENFILE \/
   (exists a, lowest_free (w_fds w) c 0 a /\ none_free (<[(c, a) := FEpoll 0]> (w_fds w)) c 0) \/
   r = 0).
Proof.
  intros [cwd Hc]. unfold step. rewrite Hc. unfold pipe2_syscall.
  match goal with |- context [match next_fd ?w0 c 0 with _ => _ end] => destruct (next_fd w0 c 0) as [a0|] eqn:Ea end.
  - apply next_fd_some_eq in Ea. wcbn1 Ea.
    match goal with |- context [match next_fd ?w0 c 0 with _ => _ end] => destruct (next_fd w0 c 0) as [b0|] eqn:Eb end.
    + do 4 eexists. split; [reflexivity|]. auto.
    + do 4 eexists. split; [reflexivity|]. right. left. exists a0. split; [assumption|]. apply next_fd_none_eq in Eb. wcbn1 Eb.
      intros k Hk. specialize (Eb k Hk). destruct (decide (k = a0)) as [->|]; [rewrite lookup_insert; eauto|].
      rewrite lookup_insert_ne in Eb |- * by congruence. assumption.
  - apply next_fd_none_eq in Ea. wcbn1 Ea. do 4 eexists. split; [reflexivity|]. auto.
Qed.

Lemma fork_exact w c ch w' : reach true w -> w_cwd w !! ch = None -> step w c (Fork ch) = Done (w', Ret 0) ->
  (forall fd, 0 <= fd < 3 -> is_Some (w_fds w !! (c, fd))) ->
  forall fd, w_fds w' !! (ch, fd) = w_fds w !! (c, fd).
Proof.
  intros Hr Hch H Hs fd. rewrite (fork_fds _ _ _ _ Hr Hch H), Z.eqb_refl. destruct (w_fds w !! (c, fd)) eqn:E; [reflexivity|].
  rewrite init_fdtable_lookup, Z.eqb_refl.
  assert (Hn : ~ 0 <= fd < 3) by (intros Hx; apply Hs in Hx as [? ?]; congruence).
  destruct (Z.eqb_spec fd 0); [lia|]. destruct (Z.eqb_spec fd 1); [lia|]. destruct (Z.eqb_spec fd 2); [lia|]. apply lookup_empty.
Qed.

Lemma exec_exact w c ch w' r : reach true w -> (ch = c \/ w_cwd w !! ch = None) -> step w c (Exec ch) = Done (w', r) ->
  (forall fd d, w_fds w' !! (ch, fd) = Some d <-> w_fds w !! (c, fd) = Some d /\ ~ cloexec d) /\
  (forall a fd, a <> ch -> a <> c -> w_fds w' !! (a, fd) = w_fds w !! (a, fd)) /\
  (ch <> c -> forall fd, w_fds w' !! (c, fd) = None).
Proof.
  intros Hr Hch H. pose proof (exec_fds _ _ _ _ _ Hr Hch H) as G. split; [|split].
  - intros fd d. rewrite G, Z.eqb_refl. unfold cloexec. destruct (w_fds w !! (c, fd)) as [d0|]; [|split; [discriminate|intros [? _]; discriminate]].
    unfold hasbit. destruct (Z.eqb_spec (Z.land (fd_flags d0) O_CLOEXEC) 0) as [He|He]; cbn [negb]; split.
    + intros [= <-]. auto.
    + intros [[= <-] _]. reflexivity.
    + discriminate.
    + intros [[= <-] Hx]. contradiction.
  - intros a fd H1 H2. rewrite G. destruct (Z.eqb_spec a ch), (Z.eqb_spec a c); congruence.
  - intros Hne fd. rewrite G. destruct (Z.eqb_spec c ch); [congruence|]. rewrite Z.eqb_refl. reflexivity.
Qed.

Lemma setfl_getfd w c fd arg w' : step w c (Fcntl fd F_SETFL arg) = Done (w', Ret 0) ->
  step w' c (Fcntl fd F_GETFD 0) = Done (w', Ret (Z.land arg O_CLOEXEC)).
Proof.
  intros H. unfold step in H |- *. destruct (w_cwd w !! c) eqn:Ec; [|discriminate]. unfold ret in H. peelc H. unfold fcntl_syscall in H.
  destruct (fd_slot w c fd) as [[d|]|] eqn:E; cbn [obind] in H; try discriminate. apply fd_slot_done in E as [E Hr].
  change (F_SETFL =? F_GETFD) with false in H. change (F_SETFL =? F_SETFD) with false in H. change (F_SETFL =? F_GETFL) with false in H.
  change (F_SETFL =? F_SETFL) with true in H. cbn [andb] in H.
  destruct (Z.leb_spec 0 arg); [|discriminate]. injection H as <-. wcbn. rewrite Ec. unfold ret, fcntl_syscall, fd_slot, in_fd_range.
  destruct (Z.leb_spec 0 fd), (Z.ltb_spec fd MAXFD); try lia. wcbn. rewrite lookup_insert. cbn [andb obind].
  change (F_GETFD =? F_GETFD) with true. cbn [obind fst snd]. rewrite set_fd_flags_get. do 3 f_equal.
  apply Z.bits_inj'. intros n Hn0. rewrite Z.land_spec, Z.lor_spec, Z.ldiff_spec, !Z.land_spec.
  change O_CLOEXEC with (2 ^ 19). destruct (Z.eq_dec n 19) as [->|Hne].
  - replace (Z.testbit (Z.lor O_RDWRFLAGS creation_flags) 19) with false by reflexivity.
    rewrite Z.pow2_bits_true by lia. cbn [negb]. rewrite !andb_true_r, andb_false_r, orb_false_r. reflexivity.
  - rewrite Z.pow2_bits_false by lia. rewrite !andb_false_r. reflexivity.
Qed.

(** The usual read-modify-write of the status flags. *)
Lemma setfl_idiom w c fd g e n w' :
  step w c (Fcntl fd F_GETFL 0) = Done (w, Ret g) -> step w c (Fcntl fd F_GETFD 0) = Done (w, Ret e) -> 0 <= e ->
  Z.land n O_CLOEXEC = 0 -> step w c (Fcntl fd F_SETFL (Z.lor g n)) = Done (w', Ret 0) ->
  step w' c (Fcntl fd F_GETFD 0) = Done (w', Ret e).
Proof.
  intros Hg He H0 Hn Hs. rewrite (setfl_getfd _ _ _ _ _ Hs). do 3 f_equal.
  rewrite Z.land_lor_distr_l, Hn, Z.lor_0_r.
  unfold step in Hg, He. destruct (w_cwd w !! c) eqn:Ec; [|discriminate Hg].
  unfold ret in Hg, He. peelc Hg. peelc He. unfold fcntl_syscall in Hg, He.
  destruct (fd_slot w c fd) as [[d|]|] eqn:E; cbn [obind] in Hg, He; [| |discriminate Hg].
  - change (F_GETFD =? F_GETFD) with true in He. cbv iota in He. injection He as <-.
    change (F_GETFL =? F_GETFD) with false in Hg. change (F_GETFL =? F_SETFD) with false in Hg.
    change (F_GETFL =? F_GETFL) with true in Hg. cbn [andb] in Hg. injection Hg as <-.
    apply Z.bits_inj'. intros k Hk. rewrite !Z.land_spec, Z.ldiff_spec. change O_CLOEXEC with (2 ^ 19).
    destruct (Z.eq_dec k 19) as [->|Hne].
    + replace (Z.testbit creation_flags 19) with false by reflexivity. cbn [negb]. by rewrite andb_true_r.
    + rewrite Z.pow2_bits_false by lia. by rewrite !andb_false_r.
  - injection He as <-. exfalso. revert H0. unfold err, EBADF. lia.
Qed.

(** F_SETFD changes nothing that F_GETFL reports but the O_CLOEXEC bit. *)
Lemma setfd_getfl w c fd arg w' g :
  step w c (Fcntl fd F_GETFL 0) = Done (w, Ret g) -> step w c (Fcntl fd F_SETFD arg) = Done (w', Ret 0) ->
  exists g', step w' c (Fcntl fd F_GETFL 0) = Done (w', Ret g') /\ Z.ldiff g' O_CLOEXEC = Z.ldiff g O_CLOEXEC.
Proof.
  intros Hg H. unfold step in H, Hg |- *. destruct (w_cwd w !! c) eqn:Ec; [|discriminate H].
  unfold ret in H, Hg. peelc H. peelc Hg. unfold fcntl_syscall in H, Hg.
  destruct (fd_slot w c fd) as [[d|]|] eqn:E; cbn [obind] in H, Hg; [|discriminate H|discriminate H]. apply fd_slot_done in E as [E Hr].
  change (F_SETFD =? F_GETFD) with false in H. change (F_SETFD =? F_SETFD) with true in H. cbn [andb] in H.
  change (F_GETFL =? F_GETFD) with false in Hg. change (F_GETFL =? F_SETFD) with false in Hg.
  change (F_GETFL =? F_GETFL) with true in Hg. cbn [andb] in Hg. injection Hg as <-.
  destruct (Z.leb_spec 0 arg); [|discriminate H]. injection H as <-. wcbn. rewrite Ec. unfold ret, fcntl_syscall, fd_slot, in_fd_range.
  destruct (Z.leb_spec 0 fd), (Z.ltb_spec fd MAXFD); try lia. wcbn. rewrite lookup_insert. cbn [andb obind].
  change (F_GETFL =? F_GETFD) with false. change (F_GETFL =? F_SETFD) with false. change (F_GETFL =? F_GETFL) with true.
  cbn [andb obind fst snd]. rewrite set_fd_flags_get. eexists. split; [reflexivity|].
  apply Z.bits_inj'. intros k Hk. destruct (hasbit arg O_CLOEXEC); rewrite !Z.ldiff_spec, ?Z.lor_spec, ?Z.ldiff_spec;
    destruct (Z.testbit (fd_flags d) k), (Z.testbit O_CLOEXEC k), (Z.testbit creation_flags k); reflexivity.
Qed.
