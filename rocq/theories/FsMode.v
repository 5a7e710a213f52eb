(** The access mode of a descriptor never changes. *)
From Verif Require Import Base PathModel PathSpec PathProofs FsModel FsBoot FsSpec FsWalk Count FsNames FsTr FsInv FsInv2
  FsSteps FsSteps2 FsFrame FsReachSpec FsReach FsTree FdSpec FsDesc FsPos FsIoSpec.
Local Open Scope list_scope.
Local Open Scope Z_scope.
Opaque all_fds.

Definition keepk (k : Z * Z) (m m' : gmap (Z * Z) fdesc) : Prop :=
  forall d d', m !! k = Some d -> m' !! k = Some d' -> same_access d d'.

Lemma same_access_refl d : same_access d d.
Proof. split; [reflexivity|]. destruct d; reflexivity || exact I. Qed.
Lemma keepk_refl k m : keepk k m m.
Proof. intros d d' H1 H2. assert (d' = d) as -> by congruence. apply same_access_refl. Qed.
Lemma keepk_kp k w w' : kp w w' -> keepk k (w_fds w) (w_fds w').
Proof. intros [-> _]. apply keepk_refl. Qed.
Lemma keepk_free k m m' k1 d1 : keepk k m m' -> m !! k1 = None -> keepk k m (<[k1 := d1]> m').
Proof. intros H Hn d d' H1 H2. apply lookup_insert_Some in H2 as [[-> _]|[_ H2]]; [congruence|eauto]. Qed.
Lemma keepk_same k m m' k1 d0 d1 : keepk k m m' -> m !! k1 = Some d0 -> same_access d0 d1 -> keepk k m (<[k1 := d1]> m').
Proof. intros H Hn Hs d d' H1 H2. apply lookup_insert_Some in H2 as [[-> <-]|[_ H2]]; [assert (d = d0) as -> by congruence; assumption|eauto]. Qed.
Lemma keepk_other k m m' k1 d1 : keepk k m m' -> k1 <> k -> keepk k m (<[k1 := d1]> m').
Proof. intros H Hn d d' H1 H2. rewrite lookup_insert_ne in H2 by assumption. eauto. Qed.
Lemma keepk_del k m m' k1 : keepk k m m' -> keepk k m (delete k1 m').
Proof. intros H d d' H1 H2. apply lookup_delete_Some in H2 as [_ H2]. eauto. Qed.

Lemma same_access_fl d v : Z.land v 3 = Z.land (fd_flags d) 3 -> same_access d (set_flags v d).
Proof. intros H. split; [destruct d; exact H|]. destruct d; reflexivity || exact I. Qed.
Lemma same_access_pos i p q fl : same_access (FFile i p fl) (FFile i q fl).
Proof. split; reflexivity. Qed.

Lemma open_keep k w c cwd p fl m w' r : open_syscall w c cwd p fl m = Done (w', r) -> keepk k (w_fds w) (w_fds w').
Proof.
  unfold open_syscall. intros H.
  destruct (String.eqb p ""); [injection H as <- _; apply keepk_refl|]. destruct (next_fd w c 0) as [fd|] eqn:Hfd; [|injection H as <- _; apply keepk_refl].
  apply next_fd_some in Hfd as [Hfd _].
  destruct (metawalkandparent _ _) as [[[i|] op]|]; cbn [obind] in H; [| |discriminate H].
  - destruct (_ =? _) in H; [injection H as <- _; apply keepk_refl|]. destruct (get_ino w i) as [x|] eqn:Hx; cbn [obind] in H; [|discriminate H].
    destruct (i_kind x); try (injection H as <- _; apply keepk_refl).
    + match type of H with obind ?q _ = _ => destruct q as [w1|] eqn:E1; cbn [obind] in H; [|discriminate H] end.
      assert (K : kp w w1). { destruct (_ =? _) in E1; [|injection E1 as <-; apply kp_refl]. apply remove_host_kp in E1. exact E1. }
      injection H as <- _. apply keepk_free; [|exact Hfd]. apply keepk_kp.  eapply kp_trans; [exact K|].
      match goal with |- kp _ (put_ino _ _ (open_fobj _ ?s w1)) => exact (open_fobj_kp i s w1) end.
    + injection H as <- _. apply keepk_free; [apply keepk_refl|exact Hfd].
    + injection H as <- _. apply keepk_free; [apply keepk_refl|exact Hfd].
  - destruct op as [par|]; [|injection H as <- _; apply keepk_refl]. destruct (negb _); [injection H as <- _; apply keepk_refl|].
    destruct (_ =? S_IFCHR); [injection H as <- _; apply keepk_refl|]. destruct (negb _); [injection H as <- _; apply keepk_refl|].
    destruct (file_name _); [|discriminate H]. destruct (add_child _ _ _ _ _) as [w1|] eqn:E; cbn [obind] in H; [|discriminate H].
    injection H as <- _. apply add_child_kp in E. apply keepk_free; [|exact Hfd]. apply keepk_kp. eapply kp_trans; [exact E|]. apply open_fobj_kp.
Qed.

Lemma close_keep w c fd w' r : close_inner w c fd = Done (w', r) -> w_fds w' = w_fds w.
Proof.
  unfold close_inner. intros H. destruct (fd_slot w c fd) as [[d|]|]; cbn [obind] in H; [|injection H as <- _; reflexivity|discriminate H].
  apply close_desc_kp in H. exact (proj1 H).
Qed.

Lemma dup2_keep k w c d n from w' r : (from = true -> (c, n) <> k) -> dup2_helper w c d n from = Done (w', r) -> keepk k (w_fds w) (w_fds w').
Proof.
  unfold dup2_helper. intros Hk H.
  match type of H with obind ?q _ = _ => destruct q as [q0|] eqn:E1; cbn [obind] in H; [|discriminate H] end.
  assert (K : match q0 with Some (w1, fd) => w_fds w1 = w_fds w /\ ((c, fd) <> k \/ w_fds w !! (c, fd) = None) | None => True end).
  { destruct from.
    - specialize (Hk eq_refl). destruct (w_fds w !! (c, n)); [|injection E1 as <-; auto].
      destruct (close_inner w c n) as [[w1 r1]|] eqn:E; cbn [obind] in E1; [|discriminate E1]. injection E1 as <-. cbn. apply close_keep in E. auto.
    - destruct (next_fd w c n) as [q|] eqn:E; injection E1 as <-; [|exact I]. apply next_fd_some in E as [E _]. auto. }
  destruct q0 as [[w1 fd]|]; [|injection H as <- _; apply keepk_refl]. destruct K as [K1 K2].
  destruct (add_ref d w1) as [[w2|]|] eqn:E; cbn [obind] in H; [| |discriminate H]; injection H as <- _; [|rewrite K1; apply keepk_refl].
  apply add_ref_kp in E as [E _]. wcbn. rewrite E, K1. destruct K2 as [K2|K2]; [apply keepk_other|apply keepk_free]; try assumption; apply keepk_refl.
Qed.

Lemma ldiff3 fl : Z.land (Z.ldiff fl O_CLOEXEC) 3 = Z.land fl 3.
Proof.
  apply Z.bits_inj'. intros j Hj. rewrite !Z.land_spec, Z.ldiff_spec. change 3 with (Z.ones 2). rewrite Z.testbit_ones_nonneg by lia.
  destruct (Z.ltb_spec j 2); [|rewrite !andb_false_r; reflexivity]. rewrite !andb_true_r.
  change O_CLOEXEC with (2 ^ 19). rewrite Z.pow2_bits_false by lia. apply andb_true_r.
Qed.
Lemma setfl3 arg fl : Z.land (Z.lor (Z.ldiff arg (Z.lor O_RDWRFLAGS creation_flags)) (Z.land fl (Z.lor O_RDWRFLAGS creation_flags))) 3 = Z.land fl 3.
Proof.
  assert (E : forall j, 0 <= j < 2 -> Z.testbit (Z.lor O_RDWRFLAGS creation_flags) j = true).
  { intros j Hj. assert (j = 0 \/ j = 1) as [->| ->] by lia; reflexivity. }
  apply Z.bits_inj'. intros j Hj. rewrite !Z.land_spec, Z.lor_spec, Z.ldiff_spec, Z.land_spec. change 3 with (Z.ones 2). rewrite Z.testbit_ones_nonneg by lia.
  destruct (Z.ltb_spec j 2); [|rewrite !andb_false_r; reflexivity]. rewrite E by lia. cbn. rewrite !andb_true_r, andb_false_r. reflexivity.
Qed.

Lemma step_keep w c o w' r k : winv w -> step w c o = Done (w', r) -> tame true w c o r ->
  (forall a b, o = Dup2 a b -> k <> (c, b)) -> keepk k (w_fds w) (w_fds w').
Proof.
  intros Hw H Ht Hk2. pose proof (keepk_refl k (w_fds w)) as Ho. pose proof (u_inv _ Hw) as Hi. unfold step in H.
  destruct (w_cwd w !! c) as [cwd|] eqn:Hc; [|discriminate H].
  assert (Hkey : forall a fd d, w_fds w !! (a, fd) = Some d -> 0 <= fd < MAXFD) by (intros; eapply (u_key _ Hw); eauto).
  Ltac k0 H Ho := injection H as <- _; exact Ho.
  destruct o; unfold ret, same in H; cbn [tame] in Ht.
  - peelw H. eapply open_keep; eauto.
  - peelw H. eapply open_keep; eauto.
  - peelw H. unfold mkdir_syscall in H. brk H; try exact Ho. match goal with E : add_child _ _ _ _ _ = _ |- _ => apply add_child_kp in E; exact (keepk_kp _ _ _ E) end.
  - peelw H. unfold mknod_syscall in H. brk H; try exact Ho. match goal with E : add_child _ _ _ _ _ = _ |- _ => apply add_child_kp in E; exact (keepk_kp _ _ _ E) end.
  - peelw H. unfold link_syscall in H. destruct (String.eqb oldp ""); [k0 H Ho|]. destruct (String.eqb newp ""); [k0 H Ho|].
    destruct (file_name _); [|discriminate H]. destruct (metawalk _ _) as [[i|]|]; cbn [obind] in H; [|k0 H Ho|discriminate H].
    destruct (get_ino w i) as [x|]; cbn [obind] in H; [|discriminate H].
    destruct (i_kind x); brk H; exact Ho.
  - peelw H. unfold unlink_syscall in H. destruct (String.eqb path ""); [k0 H Ho|].
    destruct (metawalkandparent _ _) as [[[i|] op]|]; cbn [obind] in H; [|k0 H Ho|discriminate H].
    destruct op as [par|]; [|k0 H Ho].
    destruct (get_ino w i) as [x|]; cbn [obind] in H; [|discriminate H].
    destruct (i_kind x) eqn:Hk; [|k0 H Ho| |];
      (destruct (dec _) as [l|]; cbn [obind] in H; [|discriminate H];
       destruct (remove_from_parent _ _ _) as [[w2 r2]|] eqn:E; cbn [obind] in H; [|discriminate H];
       apply remove_from_parent_kp in E; pose proof (keepk_kp k _ _ E) as Ho2;
       destruct (negb _); [k0 H Ho2|];
       destruct (_ && _) in H; cbn [obind] in H; try (k0 H Ho2)).
    destruct (remove_host _ _) as [w3|] eqn:E1; cbn [obind] in H; [|discriminate H]. apply remove_host_kp in E1.
    injection H as <- _. wcbn. destruct E1 as [-> _]. exact Ho2.
  - peelw H. unfold rmdir_syscall in H. destruct (String.eqb path ""); [k0 H Ho|].
    destruct (metawalkandparent _ _) as [[[i|] op]|]; cbn [obind] in H; [|k0 H Ho|discriminate H].
    destruct op as [par|]; [|k0 H Ho].
    destruct (get_ino w par) as [p|]; cbn [obind] in H; [|discriminate H].
    destruct (no_write_bits (i_mode p)); [k0 H Ho|].
    destruct (get_ino w i) as [x|]; cbn [obind] in H; [|discriminate H].
    destruct (i_kind x); try (k0 H Ho).
    destruct (3 <? i_link x); [k0 H Ho|]. destruct (negb (is_dir _)); [discriminate H|]. destruct (no_write_bits (i_mode x)); [k0 H Ho|].
    destruct (remove_from_parent _ _ _) as [[w2 r2]|] eqn:E; cbn [obind] in H; [|discriminate H].
    apply remove_from_parent_kp in E. assert (K : kp w w2) by (destruct (i_ref x =? 0); exact E). pose proof (keepk_kp k _ _ K) as Ho2.
    destruct (negb _); injection H as <- _; [exact Ho2|]. destruct (i_ref x =? 0); exact Ho2.
  - peelw H. unfold rename_syscall in H. brk H; exact Ho.
  - peelw H. unfold chmod_syscall in H. brk H; try exact Ho. apply chmod_kp in H. eapply keepk_kp; eauto.
  - peelw H. unfold fchmod_syscall in H. destruct (fd_slot w c fd) as [s|]; cbn [obind] in H; [|discriminate H].
    destruct s as [[]|]; try (k0 H Ho). apply chmod_kp in H. eapply keepk_kp; eauto.
  - peelw H. unfold truncate_syscall in H. brk H; try exact Ho. apply truncate_kp in H. eapply keepk_kp; eauto.
  - peelw H. unfold ftruncate_syscall in H. destruct (fd_slot w c fd) as [s|]; cbn [obind] in H; [|discriminate H].
    destruct s as [[]|]; try (k0 H Ho). destruct (is_rdonly _); [k0 H Ho|]. apply truncate_kp in H. eapply keepk_kp; eauto.
  - brk H; exact Ho.
  - brk H; exact Ho.
  - peelw H; brk H; exact Ho.
  - unfold read_syscall in H. destruct (fd_slot w c fd) as [s|] eqn:Es; cbn [obind] in H; [|discriminate H]. apply fd_slot_done in Es as [-> _].
    destruct (w_fds w !! (c, fd)) as [[j pos fl|st fl|pid fl|fl]|] eqn:Ed; try (k0 H Ho).
    + destruct (is_wronly _); [k0 H Ho|]. destruct (get_ino w j) as [x|]; cbn [obind] in H; [|discriminate H].
      destruct (i_kind x); try (k0 H Ho); [|discriminate H]. destruct (readat _ _ _ _); cbn [obind] in H; [|discriminate H].
      injection H as <- _. eapply keepk_same; [exact Ho|exact Ed|apply same_access_pos].
    + destruct (is_wronly _); [k0 H Ho|]. destruct (get_pipe w pid); cbn [obind] in H; [|discriminate H].
      destruct (pipe_read _ _ _). k0 H Ho.
  - brk H; exact Ho.
  - unfold write_syscall in H. destruct (fd_slot w c fd) as [s|] eqn:Es; cbn [obind] in H; [|discriminate H]. apply fd_slot_done in Es as [-> _].
    destruct (w_fds w !! (c, fd)) as [[j pos fl|st fl|pid fl|fl]|] eqn:Ed; try (k0 H Ho).
    + destruct (is_rdonly _); [k0 H Ho|]. destruct (get_ino w j) as [x|]; cbn [obind] in H; [|discriminate H].
      destruct (i_kind x); try (k0 H Ho); [|discriminate H]. destruct (file_write _ _ _ _ _) eqn:E; cbn [obind] in H; [|discriminate H].
      apply file_write_kp in E. injection H as <- _. eapply keepk_same; [exact (keepk_kp _ _ _ E)|exact Ed|apply same_access_pos].
    + destruct (is_rdonly _); [k0 H Ho|]. destruct (get_pipe w pid); cbn [obind] in H; [|discriminate H].
      destruct (pipe_write _ _ _). k0 H Ho.
  - unfold pwrite_syscall in H. destruct (fd_slot w c fd) as [s|] eqn:Es; cbn [obind] in H; [|discriminate H]. apply fd_slot_done in Es as [-> _].
    destruct (w_fds w !! (c, fd)) as [[j pos fl|st fl|pid fl|fl]|] eqn:Ed; try (k0 H Ho).
    destruct (is_rdonly _); [k0 H Ho|]. destruct (get_ino w j) as [x|]; cbn [obind] in H; [|discriminate H].
    destruct (i_kind x); try (k0 H Ho); [|discriminate H]. destruct (file_write _ _ _ _ _) eqn:E; cbn [obind] in H; [|discriminate H].
    apply file_write_kp in E. injection H as <- _. eapply keepk_kp; eauto.
  - unfold writev_syscall in H. destruct (fd_slot w c fd) as [s|] eqn:Es; cbn [obind] in H; [|discriminate H]. apply fd_slot_done in Es as [-> _].
    destruct (w_fds w !! (c, fd)) as [[j pos fl|st fl|pid fl|fl]|] eqn:Ed; try (k0 H Ho).
    + destruct (is_rdonly _); [k0 H Ho|]. destruct (get_ino w j) as [x|]; cbn [obind] in H; [|discriminate H].
      destruct (i_kind x); try (k0 H Ho); [|discriminate H]. destruct (file_write _ _ _ _ _) eqn:E; cbn [obind] in H; [|discriminate H].
      apply file_write_kp in E. injection H as <- _. eapply keepk_same; [exact (keepk_kp _ _ _ E)|exact Ed|apply same_access_pos].
    + destruct (is_rdonly _); [k0 H Ho|]. destruct (get_pipe w pid); cbn [obind] in H; [|discriminate H].
      destruct (pipe_writev _ _ _ _). k0 H Ho.
  - peelw H. unfold lseek_syscall in H. destruct (fd_slot w c fd) as [s|] eqn:Es; cbn [obind] in H; [|discriminate H]. apply fd_slot_done in Es as [-> _].
    destruct (w_fds w !! (c, fd)) as [[j pos fl|st fl|pid fl|fl]|] eqn:Ed; try (k0 H Ho).
    destruct (get_ino w j) as [x|]; cbn [obind] in H; [|discriminate H].
    destruct (i_kind x); try (k0 H Ho); try discriminate H;
      (match type of H with obind ?q _ = _ => destruct q as [[e|]|]; cbn [obind] in H; [| |discriminate H] end;
       [|k0 H Ho]);
      (match type of H with (if ?b then _ else _) = _ => destruct b eqn:Eb end; [k0 H Ho|]); injection H as <- _;
      (eapply keepk_same; [exact Ho|exact Ed|apply same_access_pos]).
  - peelw H; brk H; exact Ho.
  - peelw H. unfold close_syscall in H. destruct (close_inner w c fd) as [[w1 r1]|] eqn:E; cbn [obind] in H; [|discriminate H].
    apply close_keep in E. destruct (r1 <? 0); injection H as <- _; wcbn; rewrite E; [exact Ho|]. apply keepk_del. exact Ho.
  - peelw H. unfold dup_syscall in H. destruct (fd =? 0); [k0 H Ho|]. destruct (negb _); [k0 H Ho|].
    destruct (w_fds w !! (c, fd)) eqn:Ed; [|k0 H Ho]. eapply dup2_keep; [|exact H]. discriminate.
  - peelw H. unfold dup2_syscall in H. destruct (_ || _) in H; [k0 H Ho|]. destruct (newfd =? oldfd); [k0 H Ho|].
    destruct (negb _); [k0 H Ho|].
    destruct (w_fds w !! (c, oldfd)) eqn:Ed; [|k0 H Ho]. eapply dup2_keep; [|exact H]. intros _ E. exact (Hk2 _ _ eq_refl (eq_sym E)).
  - peelw H. unfold fcntl_syscall in H. destruct (fd_slot w c fd) as [s|] eqn:Es; cbn [obind] in H; [|discriminate H]. apply fd_slot_done in Es as [-> _].
    destruct (w_fds w !! (c, fd)) as [d|] eqn:Ed; [|k0 H Ho].
    destruct (cmd =? F_GETFD); [k0 H Ho|].
    destruct (_ && _) in H; [injection H as <- _; eapply keepk_same; [exact Ho|exact Ed|apply same_access_fl; destruct (hasbit arg O_CLOEXEC); [rewrite Z.land_lor_distr_l; apply Z.lor_0_r|rewrite ldiff3; reflexivity]]|].
    destruct (cmd =? F_GETFL); [k0 H Ho|].
    destruct (_ && _) in H; [injection H as <- _; eapply keepk_same; [exact Ho|exact Ed|apply same_access_fl; apply setfl3]|].
    destruct (_ && _) in H; [eapply dup2_keep; [|exact H]; discriminate|].
    destruct (cmd =? F_GETOWN); [k0 H Ho|]. destruct (_ && _) in H; k0 H Ho.
  - peelw H. unfold chdir_syscall in H. destruct (metawalk _ _) as [[j|]|]; cbn [obind] in H; [|k0 H Ho|discriminate H].
    destruct (get_ino w j) as [x|]; cbn [obind] in H; [|discriminate H]. destruct (i_kind x); k0 H Ho.
  - unfold fchdir_syscall in H. destruct (fd_slot w c fd) as [s|]; cbn [obind] in H; [|discriminate H].
    destruct s as [[]|]; try (k0 H Ho).
    destruct (pathname_loop _ _ _ _ _) as [[[]|]|]; try discriminate H; k0 H Ho.
  - k0 H Ho.
  - unfold getdents_syscall in H. destruct (_ <=? _) in H; [k0 H Ho|].
    destruct (negb _); [k0 H Ho|]. destruct (w_fds w !! (c, fd)) as [[j pos fl| | |]|] eqn:Ed; try (k0 H Ho).
    destruct (get_ino w j) as [x|]; cbn [obind] in H; [|discriminate H]. destruct (i_kind x); try (k0 H Ho).
    destruct (dents_fit _ _ _) as [l n]. injection H as <- _. eapply keepk_same; [exact Ho|exact Ed|apply same_access_pos].
  - unfold pipe2_syscall in H. destruct (next_fd _ c 0) as [a|] eqn:Ea in H; [|k0 H Ho]. apply next_fd_some in Ea as [Ea _]. wcbn1 Ea.
    destruct (next_fd _ c 0) as [b|] eqn:Eb in H; injection H as <- _; [|apply keepk_free; [exact Ho|exact Ea]].
    apply next_fd_some in Eb as [Eb _]. wcbn1 Eb. wcbn. apply lookup_insert_None in Eb as [Eb _].
    apply keepk_free; [|exact Eb]. apply keepk_free; [exact Ho|exact Ea].
  - peelw H. unfold epoll_create_syscall in H. destruct (_ <=? 0) in H; [k0 H Ho|].
    destruct (next_fd w c 0) eqn:Ea; [|k0 H Ho]. apply next_fd_some in Ea as [Ea _]. injection H as <- _. apply keepk_free; [exact Ho|exact Ea].
  - peelw H. assert (Hne : c <> child) by congruence.
    destruct (fork_trs true _ _ _ _ _ _ Hi Hne (no_fds _ _ Hw Ht) H) as (_ & _ & _ & _ & F1 & F2).
    destruct k as [a fd]. intros d d' H1 H2. destruct (decide (a = child)) as [->|Hne']; [rewrite (no_fds _ _ Hw Ht) in H1; discriminate H1|].
    rewrite F1 in H2 by assumption. exact (Ho _ _ H1 H2).
  - peelw H. assert (Hfree : child = c \/ forall fd, w_fds w !! (child, fd) = None) by (destruct Ht; [auto|right; apply no_fds; assumption]).
    destruct (exec_trs true _ _ _ _ _ _ Hi Hkey Hfree H) as (_ & _ & _ & _ & F).
    destruct k as [a fd]. intros d d' H1 H2. rewrite F in H2. destruct (Z.eqb_spec a child) as [->|].
    + destruct Hfree as [->|Hf]; [|rewrite Hf in H1; discriminate H1]. rewrite H1 in H2. destruct (hasbit _ _); [discriminate H2|]. injection H2 as <-. apply same_access_refl.
    + destruct (a =? c); [discriminate H2|]. exact (Ho _ _ H1 H2).
  - peelw H. destruct (exit_trs true _ _ _ _ _ Hi Hkey H) as (_ & _ & _ & F).
    destruct k as [a fd]. intros d d' H1 H2. rewrite F in H2. destruct (a =? c); [discriminate H2|]. exact (Ho _ _ H1 H2).
Qed.
