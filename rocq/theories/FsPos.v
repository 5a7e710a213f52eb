(** Offsets and sizes are never negative. *)
From Verif Require Import Base PathModel PathSpec PathProofs FsModel FsBoot FsSpec FsWalk Count FsNames FsTr FsInv FsInv2
  FsSteps FsSteps2 FsFrame FsReachSpec FsTmp FsRestart FsReach FsTree FdSpec FsDesc.
From stdpp Require Import relations.
Local Open Scope list_scope.
Local Open Scope Z_scope.
Opaque all_fds.

(** ** Sizes *)
Definition sizes (t : gmap Z inode) : Prop := forall i x, t !! i = Some x -> 0 <= i_size x.

Lemma sizes_ins t i x : sizes t -> 0 <= i_size x -> sizes (<[i := x]> t).
Proof. intros H Hx j y Hy. apply lookup_insert_Some in Hy as [[_ <-]|[_ Hy]]; eauto. Qed.
Lemma sizes_del t i : sizes t -> sizes (delete i t).
Proof. intros H j y Hy. apply lookup_delete_Some in Hy as [_ Hy]. eauto. Qed.

Lemma tr_sizes disp k k' : tr disp k k' -> sizes (k_ino k) -> sizes (k_ino k').
Proof.
  intros H Hs. destruct H; cbn in *; try exact Hs; try (apply sizes_ins; [exact Hs|cbn; try lia; eauto]; fail).
  - destruct H4 as (_ & E & _). apply sizes_ins; [apply sizes_ins|]; [exact Hs|cbn; eauto|lia].
  - apply sizes_ins; [apply sizes_ins|]; [exact Hs|cbn; eauto|lia].
  - apply sizes_ins; [apply sizes_ins|]; [exact Hs|cbn; eauto|cbn; eauto].
  - unfold un_ino. assert (sizes (<[par:=par_rem f p]> (<[i:=set_link (i_link x - 1) x]> t))).
    { apply sizes_ins; [apply sizes_ins|]; [exact Hs|cbn; eauto|cbn; eauto]. }
    destruct (un_gone x); [apply sizes_del|]; assumption.
  - assert (sizes (<[par:=par_rem f p]> t)) by (apply sizes_ins; [exact Hs|cbn; eauto]). destruct (i_ref x =? 0); [apply sizes_del|]; assumption.
  - unfold rel_ino. destruct (gone x); [apply sizes_del; exact Hs|]. apply sizes_ins; [exact Hs|cbn; eauto].
Qed.

Lemma trs_sizes disp k k' : trs disp k k' -> sizes (k_ino k) -> sizes (k_ino k').
Proof. induction 1 as [|a b d Hab _ IH]; [auto|]. intros Hs. apply IH. eapply tr_sizes; eauto. Qed.

Lemma fresh_sizes : sizes (w_ino fresh_world).
Proof.
  assert (H : map_Forall (fun _ x => (0 <=? i_size x) = true) (w_ino fresh_world)).
  { apply (bool_decide_unpack _). vm_compute. exact I. }
  intros i x Hx. specialize (H i x Hx). cbn beta in H. lia.
Qed.

(** ** Offsets *)
Definition offsets (m : gmap (Z * Z) fdesc) : Prop := forall k i pos fl, m !! k = Some (FFile i pos fl) -> 0 <= pos.
Definition okoff (d : fdesc) : Prop := forall i pos fl, d = FFile i pos fl -> 0 <= pos.

Lemma offsets_get m k d : offsets m -> m !! k = Some d -> okoff d.
Proof. intros H Hk i pos fl ->. eauto. Qed.
Lemma offsets_ins m k d : offsets m -> okoff d -> offsets (<[k := d]> m).
Proof. intros H Hd j i pos fl Hj. apply lookup_insert_Some in Hj as [[_ ->]|[_ Hj]]; eauto. Qed.
Lemma offsets_del m k : offsets m -> offsets (delete k m).
Proof. intros H j i pos fl Hj. apply lookup_delete_Some in Hj as [_ Hj]. eauto. Qed.
Lemma offsets_kp w w' : kp w w' -> offsets (w_fds w) -> offsets (w_fds w').
Proof. intros [-> _]. auto. Qed.
Lemma offsets_put w c fd d : offsets (w_fds w) -> okoff d -> offsets (w_fds (put_fd c fd d w)).
Proof. intros H Hd. cbn. apply offsets_ins; assumption. Qed.
Lemma okoff_cl d : okoff d -> okoff (clear_cloexec d).
Proof. intros H. destruct d; cbn; try (intros ? ? ? E; discriminate E). intros ? ? ? [= <- <- <-]. eapply H; eauto. Qed.
Lemma okoff_fl v d : okoff d -> okoff (set_flags v d).
Proof. intros H. destruct d; cbn; try (intros ? ? ? E; discriminate E). intros ? ? ? [= <- <- <-]. eapply H; eauto. Qed.
Lemma okoff_file i pos fl : 0 <= pos -> okoff (FFile i pos fl).
Proof. intros H ? ? ? [= <- <- <-]. assumption. Qed.

Lemma open_off w c cwd p fl m w' r : sizes (w_ino w) -> offsets (w_fds w) ->
  open_syscall w c cwd p fl m = Done (w', r) -> offsets (w_fds w').
Proof.
  unfold open_syscall. intros Hs Ho H.
  assert (Hfi : forall i s, 0 <= s -> okoff (file_initializer i fl s)) by (intros; unfold file_initializer; apply okoff_file; destruct (hasbit fl O_APPEND); lia).
  destruct (String.eqb p ""); [injection H as <- _; exact Ho|]. destruct (next_fd w c 0) as [fd|]; [|injection H as <- _; exact Ho].
  destruct (metawalkandparent _ _) as [[[i|] op]|]; cbn [obind] in H; [| |discriminate H].
  - destruct (_ =? _) in H; [injection H as <- _; exact Ho|]. destruct (get_ino w i) as [x|] eqn:Hx; cbn [obind] in H; [|discriminate H].
    apply get_ino_done in Hx. destruct (i_kind x); try (injection H as <- _; exact Ho).
    + match type of H with obind ?q _ = _ => destruct q as [w1|] eqn:E1; cbn [obind] in H; [|discriminate H] end.
      assert (K : kp w w1). { destruct (_ =? _) in E1; [|injection E1 as <-; apply kp_refl]. apply remove_host_kp in E1. exact E1. }
      injection H as <- _. apply offsets_put.
      * eapply offsets_kp; [|exact Ho]. eapply kp_trans; [exact K|].
        match goal with |- kp _ (put_ino _ _ (open_fobj _ ?s w1)) => exact (open_fobj_kp i s w1) end.
      * apply Hfi. destruct (_ =? _); [lia|eauto].
    + injection H as <- _. apply offsets_put; [exact Ho|]. apply Hfi. eauto.
    + injection H as <- _. apply offsets_put; [exact Ho|]. apply Hfi. eauto.
  - destruct op as [par|]; [|injection H as <- _; exact Ho]. destruct (negb _); [injection H as <- _; exact Ho|].
    destruct (_ =? S_IFCHR); [injection H as <- _; exact Ho|]. destruct (negb _); [injection H as <- _; exact Ho|].
    destruct (file_name _); [|discriminate H]. destruct (add_child _ _ _ _ _) as [w1|] eqn:E; cbn [obind] in H; [|discriminate H].
    injection H as <- _. apply add_child_kp in E. apply offsets_put; [|apply Hfi; lia].
    eapply offsets_kp; [|exact Ho]. eapply kp_trans; [exact E|]. apply open_fobj_kp.
Qed.

Lemma close_off w c fd w' r : offsets (w_fds w) -> close_inner w c fd = Done (w', r) -> offsets (w_fds w').
Proof.
  unfold close_inner. intros Ho H. destruct (fd_slot w c fd) as [[d|]|]; cbn [obind] in H; [|injection H as <- _; exact Ho|discriminate H].
  apply close_desc_kp in H. exact (offsets_kp _ _ H Ho).
Qed.

Lemma dup2_off w c d n from w' r : offsets (w_fds w) -> okoff d -> dup2_helper w c d n from = Done (w', r) -> offsets (w_fds w').
Proof.
  unfold dup2_helper. intros Ho Hd H.
  match type of H with obind ?q _ = _ => destruct q as [q0|] eqn:E1; cbn [obind] in H; [|discriminate H] end.
  assert (K : match q0 with Some (w1, _) => offsets (w_fds w1) | None => True end).
  { destruct from.
    - destruct (w_fds w !! (c, n)); [|injection E1 as <-; exact Ho].
      destruct (close_inner w c n) as [[w1 r1]|] eqn:E; cbn [obind] in E1; [|discriminate E1]. injection E1 as <-. cbn. eapply close_off; eauto.
    - destruct (next_fd w c n); injection E1 as <-; [exact Ho|exact I]. }
  destruct q0 as [[w1 fd]|]; [|injection H as <- _; exact Ho].
  destruct (add_ref d w1) as [[w2|]|] eqn:E; cbn [obind] in H; [| |discriminate H]; injection H as <- _; [|exact K].
  apply add_ref_kp in E. apply offsets_put; [eapply offsets_kp; eauto|apply okoff_cl; assumption].
Qed.

Lemma step_off w c o w' r : winv w -> sizes (w_ino w) -> offsets (w_fds w) ->
  step w c o = Done (w', r) -> tame true w c o r -> offsets (w_fds w').
Proof.
  intros Hw Hs Ho H Ht. pose proof (u_inv _ Hw) as Hi. unfold step in H.
  destruct (w_cwd w !! c) as [cwd|] eqn:Hc; [|discriminate H].
  assert (Hkey : forall a fd d, w_fds w !! (a, fd) = Some d -> 0 <= fd < MAXFD) by (intros; eapply (u_key _ Hw); eauto).
  Ltac k0 H Ho := injection H as <- _; exact Ho.
  destruct o; unfold ret, same in H; cbn [tame] in Ht.
  - peelw H. eapply open_off; eauto.
  - peelw H. eapply open_off; eauto.
  - peelw H. unfold mkdir_syscall in H. brk H; try exact Ho. match goal with E : add_child _ _ _ _ _ = _ |- _ => apply add_child_kp in E; exact (offsets_kp _ _ E Ho) end.
  - peelw H. unfold mknod_syscall in H. brk H; try exact Ho. match goal with E : add_child _ _ _ _ _ = _ |- _ => apply add_child_kp in E; exact (offsets_kp _ _ E Ho) end.
  - peelw H. unfold link_syscall in H. destruct (String.eqb oldp ""); [k0 H Ho|]. destruct (String.eqb newp ""); [k0 H Ho|].
    destruct (file_name _); [|discriminate H]. destruct (metawalk _ _) as [[i|]|]; cbn [obind] in H; [|k0 H Ho|discriminate H].
    destruct (get_ino w i) as [x|]; cbn [obind] in H; [|discriminate H].
    destruct (i_kind x); brk H; exact Ho.
  - peelw H. unfold unlink_syscall in H. destruct (String.eqb path ""); [k0 H Ho|].
    destruct (metawalkandparent _ _) as [[[i|] op]|]; cbn [obind] in H; [|k0 H Ho|discriminate H].
    destruct op as [par|]; [|k0 H Ho].
    destruct (get_ino w i) as [x|]; cbn [obind] in H; [|discriminate H].
    destruct (i_kind x) eqn:Hk; [|k0 H Ho| |];
      (destruct (dec _) as [l|]; cbn [obind] in H; [|discriminate H];
       destruct (remove_from_parent _ _ _) as [[w2 r2]|] eqn:E; cbn [obind] in H; [|discriminate H];
       apply remove_from_parent_kp in E; pose proof (offsets_kp _ _ E Ho) as Ho2;
       destruct (negb _); [k0 H Ho2|];
       destruct (_ && _) in H; cbn [obind] in H; try (k0 H Ho2)).
    destruct (remove_host _ _) as [w3|] eqn:E1; cbn [obind] in H; [|discriminate H]. apply remove_host_kp in E1.
    injection H as <- _. wcbn. eapply offsets_kp; [exact E1|]. exact Ho2.
  - peelw H. unfold rmdir_syscall in H. destruct (String.eqb path ""); [k0 H Ho|].
    destruct (metawalkandparent _ _) as [[[i|] op]|]; cbn [obind] in H; [|k0 H Ho|discriminate H].
    destruct op as [par|]; [|k0 H Ho].
    destruct (get_ino w par) as [p|]; cbn [obind] in H; [|discriminate H].
    destruct (no_write_bits (i_mode p)); [k0 H Ho|].
    destruct (get_ino w i) as [x|]; cbn [obind] in H; [|discriminate H].
    destruct (i_kind x); try (k0 H Ho).
    destruct (3 <? i_link x); [k0 H Ho|]. destruct (negb (is_dir _)); [discriminate H|]. destruct (no_write_bits (i_mode x)); [k0 H Ho|].
    destruct (remove_from_parent _ _ _) as [[w2 r2]|] eqn:E; cbn [obind] in H; [|discriminate H].
    apply remove_from_parent_kp in E. assert (K : kp w w2) by (destruct (i_ref x =? 0); exact E). pose proof (offsets_kp _ _ K Ho) as Ho2.
    destruct (negb _); injection H as <- _; [exact Ho2|]. destruct (i_ref x =? 0); exact Ho2.
  - peelw H. unfold rename_syscall in H. brk H; exact Ho.
  - peelw H. unfold chmod_syscall in H. brk H; try exact Ho. apply chmod_kp in H. eapply offsets_kp; eauto.
  - peelw H. unfold fchmod_syscall in H. destruct (fd_slot w c fd) as [s|]; cbn [obind] in H; [|discriminate H].
    destruct s as [[]|]; try (k0 H Ho). apply chmod_kp in H. eapply offsets_kp; eauto.
  - peelw H. unfold truncate_syscall in H. brk H; try exact Ho. apply truncate_kp in H. eapply offsets_kp; eauto.
  - peelw H. unfold ftruncate_syscall in H. destruct (fd_slot w c fd) as [s|]; cbn [obind] in H; [|discriminate H].
    destruct s as [[]|]; try (k0 H Ho). destruct (is_rdonly _); [k0 H Ho|]. apply truncate_kp in H. eapply offsets_kp; eauto.
  - brk H; exact Ho.
  - brk H; exact Ho.
  - peelw H; brk H; exact Ho.
  - unfold read_syscall in H. destruct (fd_slot w c fd) as [s|] eqn:Es; cbn [obind] in H; [|discriminate H]. apply fd_slot_done in Es as [-> _].
    destruct (w_fds w !! (c, fd)) as [[j pos fl|st fl|pid fl|fl]|] eqn:Ed; try (k0 H Ho).
    + destruct (is_wronly _); [k0 H Ho|]. destruct (get_ino w j) as [x|]; cbn [obind] in H; [|discriminate H].
      destruct (i_kind x); try (k0 H Ho); [|discriminate H]. destruct (readat _ _ _ _); cbn [obind] in H; [|discriminate H].
      injection H as <- _. apply offsets_put; [exact Ho|]. apply okoff_file. pose proof (Ho _ _ _ _ Ed). lia.
    + destruct (is_wronly _); [k0 H Ho|]. destruct (get_pipe w pid); cbn [obind] in H; [|discriminate H].
      destruct (pipe_read _ _ _). k0 H Ho.
  - brk H; exact Ho.
  - unfold write_syscall in H. destruct (fd_slot w c fd) as [s|] eqn:Es; cbn [obind] in H; [|discriminate H]. apply fd_slot_done in Es as [-> _].
    destruct (w_fds w !! (c, fd)) as [[j pos fl|st fl|pid fl|fl]|] eqn:Ed; try (k0 H Ho).
    + destruct (is_rdonly _); [k0 H Ho|]. destruct (get_ino w j) as [x|]; cbn [obind] in H; [|discriminate H].
      destruct (i_kind x); try (k0 H Ho); [|discriminate H]. destruct (file_write _ _ _ _ _) eqn:E; cbn [obind] in H; [|discriminate H].
      apply file_write_kp in E. injection H as <- _. apply offsets_put; [eapply offsets_kp; eauto|]. apply okoff_file. pose proof (Ho _ _ _ _ Ed). lia.
    + destruct (is_rdonly _); [k0 H Ho|]. destruct (get_pipe w pid); cbn [obind] in H; [|discriminate H].
      destruct (pipe_write _ _ _). k0 H Ho.
  - unfold pwrite_syscall in H. destruct (fd_slot w c fd) as [s|] eqn:Es; cbn [obind] in H; [|discriminate H]. apply fd_slot_done in Es as [-> _].
    destruct (w_fds w !! (c, fd)) as [[j pos fl|st fl|pid fl|fl]|] eqn:Ed; try (k0 H Ho).
    destruct (is_rdonly _); [k0 H Ho|]. destruct (get_ino w j) as [x|]; cbn [obind] in H; [|discriminate H].
    destruct (i_kind x); try (k0 H Ho); [|discriminate H]. destruct (file_write _ _ _ _ _) eqn:E; cbn [obind] in H; [|discriminate H].
    apply file_write_kp in E. injection H as <- _. eapply offsets_kp; eauto.
  - unfold writev_syscall in H. destruct (fd_slot w c fd) as [s|] eqn:Es; cbn [obind] in H; [|discriminate H]. apply fd_slot_done in Es as [-> _].
    destruct (w_fds w !! (c, fd)) as [[j pos fl|st fl|pid fl|fl]|] eqn:Ed; try (k0 H Ho).
    + destruct (is_rdonly _); [k0 H Ho|]. destruct (get_ino w j) as [x|]; cbn [obind] in H; [|discriminate H].
      destruct (i_kind x); try (k0 H Ho); [|discriminate H]. destruct (file_write _ _ _ _ _) eqn:E; cbn [obind] in H; [|discriminate H].
      apply file_write_kp in E. injection H as <- _. apply offsets_put; [eapply offsets_kp; eauto|]. apply okoff_file. pose proof (Ho _ _ _ _ Ed). lia.
    + destruct (is_rdonly _); [k0 H Ho|]. destruct (get_pipe w pid); cbn [obind] in H; [|discriminate H].
      destruct (pipe_writev _ _ _ _). k0 H Ho.
  - peelw H. unfold lseek_syscall in H. destruct (fd_slot w c fd) as [s|] eqn:Es; cbn [obind] in H; [|discriminate H].
    destruct s as [[j pos fl|st fl|pid fl|fl]|]; try (k0 H Ho).
    destruct (get_ino w j) as [x|]; cbn [obind] in H; [|discriminate H].
    destruct (i_kind x); try (k0 H Ho); try discriminate H;
      (match type of H with obind ?q _ = _ => destruct q as [[e|]|]; cbn [obind] in H; [| |discriminate H] end;
       [|k0 H Ho]);
      (match type of H with (if ?b then _ else _) = _ => destruct b eqn:Eb end; [k0 H Ho|]); injection H as <- _;
      apply offsets_put; [exact Ho|apply okoff_file; lia|exact Ho|apply okoff_file; lia].
  - peelw H; brk H; exact Ho.
  - peelw H. unfold close_syscall in H. destruct (close_inner w c fd) as [[w1 r1]|] eqn:E; cbn [obind] in H; [|discriminate H].
    pose proof (close_off _ _ _ _ _ Ho E) as Ho1. destruct (r1 <? 0); injection H as <- _; [exact Ho1|]. cbn. apply offsets_del. exact Ho1.
  - peelw H. unfold dup_syscall in H. destruct (fd =? 0); [k0 H Ho|]. destruct (negb _); [k0 H Ho|].
    destruct (w_fds w !! (c, fd)) eqn:Ed; [|k0 H Ho]. eapply dup2_off; [exact Ho| |exact H]. eapply offsets_get; eauto.
  - peelw H. unfold dup2_syscall in H. destruct (_ || _) in H; [k0 H Ho|]. destruct (newfd =? oldfd); [k0 H Ho|].
    destruct (negb _); [k0 H Ho|].
    destruct (w_fds w !! (c, oldfd)) eqn:Ed; [|k0 H Ho]. eapply dup2_off; [exact Ho| |exact H]. eapply offsets_get; eauto.
  - peelw H. unfold fcntl_syscall in H. destruct (fd_slot w c fd) as [s|] eqn:Es; cbn [obind] in H; [|discriminate H]. apply fd_slot_done in Es as [-> _].
    destruct (w_fds w !! (c, fd)) as [d|] eqn:Ed; [|k0 H Ho]. pose proof (offsets_get _ _ _ Ho Ed) as Hd.
    destruct (cmd =? F_GETFD); [k0 H Ho|].
    destruct (_ && _) in H; [injection H as <- _; apply offsets_put; [exact Ho|apply okoff_fl; exact Hd]|].
    destruct (cmd =? F_GETFL); [k0 H Ho|].
    destruct (_ && _) in H; [injection H as <- _; apply offsets_put; [exact Ho|apply okoff_fl; exact Hd]|].
    destruct (_ && _) in H; [eapply dup2_off; eauto|].
    destruct (cmd =? F_GETOWN); [k0 H Ho|]. destruct (_ && _) in H; k0 H Ho.
  - peelw H. unfold chdir_syscall in H. destruct (metawalk _ _) as [[j|]|]; cbn [obind] in H; [|k0 H Ho|discriminate H].
    destruct (get_ino w j) as [x|]; cbn [obind] in H; [|discriminate H]. destruct (i_kind x); k0 H Ho.
  - unfold fchdir_syscall in H. destruct (fd_slot w c fd) as [s|]; cbn [obind] in H; [|discriminate H].
    destruct s as [[]|]; try (k0 H Ho).
    destruct (pathname_loop _ _ _ _ _) as [[[]|]|]; try discriminate H; k0 H Ho.
  - k0 H Ho.
  - unfold getdents_syscall in H. destruct (_ <=? _) in H; [k0 H Ho|].
    destruct (negb _); [k0 H Ho|]. destruct (w_fds w !! (c, fd)) as [[j pos fl| | |]|] eqn:Ed; try (k0 H Ho).
    destruct (get_ino w j) as [x|]; cbn [obind] in H; [|discriminate H]. destruct (i_kind x); try (k0 H Ho).
    destruct (dents_fit _ _ _) as [l n]. injection H as <- _. apply offsets_put; [exact Ho|]. apply okoff_file. pose proof (Ho _ _ _ _ Ed). lia.
  - unfold pipe2_syscall in H. destruct (next_fd _ c 0) as [a|] in H; [|k0 H Ho].
    assert (Hp : forall q fl, okoff (FPipe q fl)) by (intros ? ? ? ? ? E; discriminate E).
    destruct (next_fd _ c 0) as [b|] in H; injection H as <- _; repeat (apply offsets_put; [|apply Hp]); exact Ho.
  - peelw H. unfold epoll_create_syscall in H. destruct (_ <=? 0) in H; [k0 H Ho|].
    destruct (next_fd w c 0); [|k0 H Ho]. injection H as <- _. apply offsets_put; [exact Ho|]. intros ? ? ? E; discriminate E.
  - peelw H. assert (Hne : c <> child) by congruence.
    destruct (fork_trs true _ _ _ _ _ _ Hi Hne (no_fds _ _ Hw Ht) H) as (_ & _ & _ & _ & F1 & F2).
    intros [a fd] i pos fl Hk. destruct (decide (a = child)) as [->|Hne']; [|rewrite F1 in Hk by assumption; eauto].
    rewrite F2 in Hk. destruct (if bool_decide _ then _ else _) as [d|] eqn:E.
    + case_bool_decide; [|discriminate E]. injection Hk as ->. eauto.
    + unfold init_fdtable in Hk. rewrite !lookup_insert_Some, lookup_empty in Hk. clear - Hk.
      destruct Hk as [[_ Hk]|[_ [[_ Hk]|[_ [[_ Hk]|[_ Hk]]]]]]; discriminate Hk.
  - peelw H. assert (Hfree : child = c \/ forall fd, w_fds w !! (child, fd) = None) by (destruct Ht; [auto|right; apply no_fds; assumption]).
    destruct (exec_trs true _ _ _ _ _ _ Hi Hkey Hfree H) as (_ & _ & _ & _ & F).
    intros [a fd] i pos fl Hk. rewrite F in Hk. destruct (a =? child).
    + destruct (w_fds w !! (c, fd)) as [d|] eqn:E; [|discriminate Hk]. destruct (hasbit _ _); [discriminate Hk|]. injection Hk as ->. eauto.
    + destruct (a =? c); [discriminate Hk|eauto].
  - peelw H. destruct (exit_trs true _ _ _ _ _ Hi Hkey H) as (_ & _ & _ & F).
    intros [a fd] i pos fl Hk. rewrite F in Hk. destruct (a =? c); [discriminate Hk|eauto].
Qed.

Lemma later_off w w' : later true w w' -> winv w -> sizes (w_ino w) /\ offsets (w_fds w) -> sizes (w_ino w') /\ offsets (w_fds w').
Proof.
  induction 1 as [|w c o w1 r w2 Hs Ht _ IH]; [auto|]. intros Hw [I1 I2]. apply (IH (step_winv _ _ _ _ _ _ Hw Hs Ht)).
  split; [|eapply step_off; eauto]. eapply (trs_sizes true (core_of w) (core_of w1)); [|exact I1]. eapply step_trs; eauto.
Qed.

Lemma reach_off w : reach true w -> sizes (w_ino w) /\ offsets (w_fds w).
Proof.
  induction 1 as [|w c o w' r Hw IH H Ht|w w' Hr IH Hst Hre].
  - split; [apply fresh_sizes|]. intros k i pos fl Hk. apply fresh_fd in Hk as [(s & fl0 & E) _]. discriminate E.
  - exact (later_off w w' (later_one _ _ _ _ _ _ H Ht) (reach_winv _ _ Hw) IH).
  - pose proof (reach_ok _ _ Hr) as Hok. destruct (restart_shape true w w' Hok Hst Hre) as (w3 & w4 & R).
    pose proof (later_ok _ _ _ (rs_later _ _ _ _ _ R) Hok) as Hok3. pose proof (rs_starts _ _ _ _ _ R) as S4.
    refine (later_off w4 w' (rs_later2 _ _ _ _ _ R) (starts_winv _ _ (proj1 Hok3) (rs_fds _ _ _ _ _ R) S4) _).
    destruct (later_off w w3 (rs_later _ _ _ _ _ R) (proj1 Hok) IH) as [I1 _]. split.
    + intros i y Hy. destruct (starts_get _ _ _ _ S4 Hy) as (x & q & Hx & -> & _). exact (I1 _ _ Hx).
    + intros k i pos fl Hk. apply (start_fd _ _ _ _ S4) in Hk as [(s & fl0 & E) _]. discriminate E.
Qed.
