(** What a call may change in the descriptor tables and working directories. *)
From Verif Require Import Base PathModel PathSpec PathProofs FsModel FsBoot FsSpec FsWalk Count FsNames FsTr FsInv FsSteps FsSteps2.
Local Open Scope list_scope.
Local Open Scope Z_scope.

Definition kp (w w' : world) : Prop := w_fds w' = w_fds w /\ w_cwd w' = w_cwd w.

Lemma kp_refl w : kp w w.
Proof. split; reflexivity. Qed.
Lemma kp_trans a b c : kp a b -> kp b c -> kp a c.
Proof. unfold kp. intros [-> ->] [-> ->]. split; reflexivity. Qed.

(** Only slots of cage [c], and only legal slot numbers, differ *)
Definition fdchg (c : Z) (m m' : gmap (Z * Z) fdesc) : Prop :=
  forall a fd, m' !! (a, fd) <> m !! (a, fd) -> a = c /\ 0 <= fd < MAXFD.

Lemma fdchg_refl c m : fdchg c m m.
Proof. intros a fd H. congruence. Qed.
Lemma fdchg_ins c m fd d : 0 <= fd < MAXFD -> fdchg c m (<[(c, fd) := d]> m).
Proof.
  intros Hr a fd'. destruct (decide ((c, fd) = (a, fd'))) as [[= <- <-]|Hne]; [auto|].
  rewrite lookup_insert_ne by assumption. congruence.
Qed.
Lemma fdchg_del c m fd : 0 <= fd < MAXFD -> fdchg c m (delete (c, fd) m).
Proof.
  intros Hr a fd'. destruct (decide ((c, fd) = (a, fd'))) as [[= <- <-]|Hne]; [auto|].
  rewrite lookup_delete_ne by assumption. congruence.
Qed.
Lemma fdchg_trans c m1 m2 m3 : fdchg c m1 m2 -> fdchg c m2 m3 -> fdchg c m1 m3.
Proof.
  intros H1 H2 a fd H. destruct (decide (m2 !! (a, fd) = m1 !! (a, fd))) as [E|E].
  - apply H2. congruence.
  - apply H1. exact E.
Qed.

Ltac kpauto := repeat match goal with
  | |- kp _ (match ?x with _ => _ end) => destruct x
  | _ => first [exact (conj eq_refl eq_refl)]
  end.

Lemma add_child_kp par f i x w w' : add_child par f i x w = Done w' -> kp w w'.
Proof. unfold add_child. intros H. brk H. split; reflexivity. Qed.
Lemma open_fobj_kp i s w : kp w (open_fobj i s w).
Proof. unfold open_fobj. kpauto. Qed.
Lemma remove_host_kp i w w' : remove_host i w = Done w' -> kp w w'.
Proof. unfold remove_host. intros H. brk H. split; reflexivity. Qed.
Lemma remove_from_parent_kp par tp w w' r : remove_from_parent par tp w = Done (w', r) -> kp w w'.
Proof. unfold remove_from_parent. intros H. brk H. destruct (i_kind _); try discriminate. brk H; split; reflexivity. Qed.
Lemma zerofill_kp i a b w w' : zerofill i a b w = Done w' -> kp w w'.
Proof. unfold zerofill. intros H. brk H. split; reflexivity. Qed.
Lemma writeat_kp i a b w w' : writeat i a b w = Done w' -> kp w w'.
Proof. unfold writeat. intros H. brk H. split; reflexivity. Qed.
Lemma file_write_kp i pos bs x w w' : file_write i pos bs x w = Done w' -> kp w w'.
Proof.
  unfold file_write. intros H.
  match type of H with obind ?o _ = _ => destruct o as [w1|] eqn:E1; cbn [obind] in H; [|discriminate] end.
  destruct (writeat i pos bs w1) as [w2|] eqn:E2; cbn [obind] in H; [|discriminate].
  assert (kp w w1) by (destruct (0 <? _) in E1; [eapply zerofill_kp; eauto|destruct (w_fobj w !! i) in E1; [injection E1 as <-; apply kp_refl|discriminate]]).
  apply writeat_kp in E2. pose proof (kp_trans _ _ _ H0 E2).
  destruct (i_size x <? _); injection H as <-; exact H1.
Qed.
Lemma truncate_kp i len m w w' r : truncate_helper i len m w = Done (w', r) -> kp w w'.
Proof.
  unfold truncate_helper. intros H. destruct (len <? 0); [brk H; apply kp_refl|].
  destruct (get_ino w i) as [x|]; cbn [obind] in H; [|discriminate].
  destruct (i_kind x); try (brk H; apply kp_refl).
  destruct (negb _ && m) in H; [discriminate|].
  match type of H with obind ?o _ = _ => destruct o as [w1|] eqn:E1; cbn [obind] in H; [|discriminate] end.
  match type of E1 with context [if ?b then w else ?e] => set (w0 := if b then w else e) in * end.
  assert (K0 : kp w w0) by (subst w0; destruct (w_fobj w !! i); split; reflexivity). clearbody w0.
  assert (K1 : kp w0 w1).
  { destruct (i_size x <? len) in E1; [eapply zerofill_kp; eauto|].
    destruct (w_fobj w0 !! i) in E1; [|discriminate]. destruct (_ <? len) in E1; [discriminate|].
    injection E1 as <-. split; reflexivity. }
  injection H as <- <-. eapply kp_trans; [exact K0|]. eapply kp_trans; [exact K1|].
  destruct (w_fobj w !! i); split; reflexivity.
Qed.
Lemma chmod_kp i m w w' r : chmod_helper i m w = Done (w', r) -> kp w w'.
Proof. unfold chmod_helper. intros H. brk H; [|split; reflexivity]. destruct (i_kind _); split; reflexivity. Qed.
Lemma close_desc_kp d w w' r : close_desc d w = Done (w', r) -> kp w w'.
Proof.
  unfold close_desc. intros H. destruct d as [i pos fl|st fl|pid fl|fl].
  - destruct (get_ino w i) as [x|]; cbn [obind] in H; [|discriminate].
    destruct (dec (i_ref x)) as [r0|]; cbn [obind] in H; [|discriminate].
    destruct (i_kind x).
    + destruct (r0 =? 0); [|injection H as <- <-; split; reflexivity].
      destruct (_ !! i) in H; [|discriminate]. destruct (i_link x =? 0); [|injection H as <- <-; split; reflexivity].
      destruct (remove_host i _) as [w3|] eqn:E; cbn [obind] in H; [|discriminate].
      injection H as <- <-. apply remove_host_kp in E. exact E.
    + destruct (_ !! i) in H; [injection H as <- <-; split; reflexivity|].
      destruct (_ && _) in H; injection H as <- <-; split; reflexivity.
    + destruct (_ !! i) in H; [injection H as <- <-; split; reflexivity|].
      injection H as <- <-. destruct (_ && _); split; reflexivity.
    + discriminate.
  - injection H as <- <-. split; reflexivity.
  - brk H. split; reflexivity.
  - injection H as <- <-. split; reflexivity.
Qed.
Lemma add_ref_kp d w w' : add_ref d w = Done (Some w') -> kp w w'.
Proof.
  unfold add_ref. intros H. destruct d.
  - destruct (get_ino w ino) as [x|]; cbn [obind] in H; [|discriminate].
    destruct (i_kind x); try discriminate; injection H as <-; split; reflexivity.
  - injection H as <-. apply kp_refl.
  - brk H. split; reflexivity.
  - discriminate.
Qed.

(** The calls other than those of process management *)
Definition calls_proc (o : op) : bool :=
  match o with Fork _ | Exec _ | Exit _ | Chdir _ | Fchdir _ => true | _ => false end.

Definition frame (c : Z) (w w' : world) : Prop := fdchg c (w_fds w) (w_fds w') /\ w_cwd w' = w_cwd w.
Lemma frame_kp c w w' : kp w w' -> frame c w w'.
Proof. intros [H1 H2]. split; [rewrite H1; apply fdchg_refl|exact H2]. Qed.
Lemma frame_refl c w : frame c w w.
Proof. apply frame_kp, kp_refl. Qed.
Lemma frame_put c w w' fd d : 0 <= fd < MAXFD -> kp w w' -> frame c w (put_fd c fd d w').
Proof. intros Hr [H1 H2]. split; cbn; [rewrite H1; apply fdchg_ins; assumption|exact H2]. Qed.

Ltac fr := first [apply frame_refl | apply frame_kp; assumption].

Lemma open_frame w c cwd p fl m w' r : open_syscall w c cwd p fl m = Done (w', r) -> frame c w w'.
Proof.
  unfold open_syscall. intros H. destruct (String.eqb p ""); [brk H; fr|].
  destruct (next_fd w c 0) as [fd|] eqn:Hfd; [|brk H; fr]. apply next_fd_some in Hfd as [_ Hfd].
  destruct (metawalkandparent _ _) as [[[i|] op]|]; cbn [obind] in H; [| |discriminate].
  - destruct (_ =? _) in H; [brk H; fr|]. destruct (get_ino w i) as [x|]; cbn [obind] in H; [|discriminate].
    destruct (i_kind x).
    + match type of H with obind ?o _ = _ => destruct o as [w1|] eqn:E1; cbn [obind] in H; [|discriminate] end.
      assert (kp w w1). { destruct (_ =? _) in E1; [|injection E1 as <-; apply kp_refl]. apply remove_host_kp in E1. exact E1. }
      injection H as <- <-. apply frame_put; [assumption|].
      match goal with |- kp _ (put_ino _ _ (open_fobj _ ?s w1)) => pose proof (open_fobj_kp i s w1) as K end.
      eapply kp_trans; [eassumption|]. exact K.
    + injection H as <- <-. apply frame_put; [assumption|split; reflexivity].
    + injection H as <- <-. apply frame_put; [assumption|split; reflexivity].
    + brk H; fr.
  - destruct op as [par|]; [|brk H; fr]. destruct (negb _); [brk H; fr|]. destruct (_ =? S_IFCHR); [brk H; fr|].
    destruct (negb _); [brk H; fr|]. destruct (file_name _); [|discriminate].
    destruct (add_child _ _ _ _ w) as [w1|] eqn:E; cbn [obind] in H; [|discriminate]. injection H as <- <-.
    apply frame_put; [assumption|]. apply add_child_kp in E. eapply kp_trans; [exact E|]. apply open_fobj_kp.
Qed.

Lemma close_frame w c fd w' r : close_syscall w c fd = Done (w', r) -> frame c w w'.
Proof.
  unfold close_syscall, close_inner. intros H.
  destruct (fd_slot w c fd) as [s|] eqn:Es; cbn [obind] in H; [|discriminate]. apply fd_slot_done in Es as [-> Hr].
  destruct (w_fds w !! (c, fd)) as [d|].
  - destruct (close_desc d w) as [[w1 r1]|] eqn:Ec; cbn [obind] in H; [|discriminate]. apply close_desc_kp in Ec as [K1 K2].
    destruct (r1 <? 0); injection H as <- <-; [split; [rewrite K1; apply fdchg_refl|exact K2]|].
    split; cbn; [rewrite K1; apply fdchg_del; assumption|exact K2].
  - cbn in H. injection H as <- <-. fr.
Qed.

Lemma dup2_helper_frame w c d newfd from w' r : 0 <= newfd -> (from = true -> newfd < MAXFD) ->
  dup2_helper w c d newfd from = Done (w', r) -> frame c w w'.
Proof.
  unfold dup2_helper. intros H0 Hlt H.
  match type of H with obind ?o _ = _ => destruct o as [q|] eqn:E1; cbn [obind] in H; [|discriminate] end.
  destruct q as [[w1 fd]|]; [|injection H as <- <-; fr].
  assert (kp w w1 /\ 0 <= fd < MAXFD) as [K Hr].
  { destruct from.
    - specialize (Hlt eq_refl). destruct (w_fds w !! (c, newfd)).
      + unfold close_inner in E1. destruct (fd_slot w c newfd) as [s|] eqn:Es; cbn [obind] in E1; [|discriminate].
        apply fd_slot_done in Es as [-> Hr]. destruct (w_fds w !! (c, newfd)) as [d'|].
        * destruct (close_desc d' w) as [[w2 r2]|] eqn:Ec; cbn [obind fst] in E1; [|discriminate].
          injection E1 as <- <-. split; [|lia]. eapply close_desc_kp; eauto.
        * cbn in E1. injection E1 as <- <-. split; [apply kp_refl|lia].
      + injection E1 as <- <-. split; [apply kp_refl|lia].
    - destruct (next_fd w c newfd) eqn:En; [|discriminate]. injection E1 as <- <-. apply next_fd_some in En as [_ En].
      split; [apply kp_refl|lia]. }
  destruct (add_ref d w1) as [[w2|]|] eqn:E2; cbn [obind] in H; [| |discriminate].
  - injection H as <- <-. apply frame_put; [assumption|]. eapply kp_trans; [exact K|]. eapply add_ref_kp; eauto.
  - injection H as <- <-. apply frame_kp. exact K.
Qed.

Lemma frame_fdata c w w' fd d : 0 <= fd < MAXFD -> kp w w' -> frame c w (put_fd c fd d w').
Proof. apply frame_put. Qed.

Ltac peel H := match type of H with
  | obind ?o _ = Done _ => let E := fresh "E" in destruct o as [[? ?]|] eqn:E; cbn [obind fst snd] in H; [|discriminate H];
      injection H as <- <-; rename E into H end.

Lemma step_frame w c o w' r : step w c o = Done (w', r) -> calls_proc o = false -> frame c w w'.
Proof.
  unfold step. intros H Hp. destruct (w_cwd w !! c) as [cwd|]; [|discriminate].
  destruct o; try discriminate Hp; unfold ret, same in H.
  - destruct (open_syscall _ _ _ _ _ _) as [[w1 r1]|] eqn:E; cbn [obind fst snd] in H; [|discriminate].
    injection H as <- <-. eapply open_frame; eauto.
  - destruct (creat_syscall _ _ _ _ _) as [[w1 r1]|] eqn:E; cbn [obind fst snd] in H; [|discriminate].
    injection H as <- <-. eapply open_frame; eauto.
  - peel H. unfold mkdir_syscall in H. brk H; try fr. match goal with E : add_child _ _ _ _ _ = _ |- _ => apply add_child_kp in E end. fr.
  - peel H. unfold mknod_syscall in H. brk H; try fr. match goal with E : add_child _ _ _ _ _ = _ |- _ => apply add_child_kp in E end. fr.
  - peel H. unfold link_syscall in H. destruct (String.eqb oldp ""); [brk H; fr|]. destruct (String.eqb newp ""); [brk H; fr|].
    destruct (file_name _); [|discriminate]. destruct (metawalk _ _) as [[i|]|]; cbn [obind] in H; [|brk H; fr|discriminate].
    destruct (get_ino w i) as [x|]; cbn [obind] in H; [|discriminate].
    destruct (i_kind x); brk H; try fr; split; cbn; first [apply fdchg_refl|reflexivity].
  - peel H. unfold unlink_syscall in H. destruct (String.eqb path ""); [brk H; fr|].
    destruct (metawalkandparent _ _) as [[[i|] op]|]; cbn [obind] in H; [|brk H; fr|discriminate].
    destruct op as [par|]; [|brk H; fr].
    destruct (get_ino w i) as [x|]; cbn [obind] in H; [|discriminate].
    assert (forall k, k <> KDir -> k = i_kind x -> frame c w w0); [|destruct (i_kind x); [|brk H; fr| |]; eapply H0; eauto; discriminate].
    intros k Hk Ek.
    assert (H' : (do l <- dec (i_link x);
          let w1 := put_ino i (set_link l x) w in
          do wr <- remove_from_parent par (normpath cwd path) w1;
          let '(w2, res) := wr in
          if negb (res =? 0) then Done (w2, res) else
          do w3 <- (if (l =? 0) && (i_ref x =? 0)
                    then let w' := del_ino i w2 in
                         match k with KFile => remove_host i w' | _ => Done w' end
                    else Done w2);
          let w4 := with_dsock (fun s => s ∖ {[normpath cwd path]}) w3 in
          Done (match k with KSock => w4 | _ => log_meta i (log_meta par w4) end, 0)) = Done (w0, z)).
    { rewrite <- H. subst k. destruct (i_kind x); try reflexivity. contradiction. }
    clear H. destruct (dec _) as [l|]; cbn [obind] in H'; [|discriminate].
    destruct (remove_from_parent _ _ _) as [[w2 r2]|] eqn:E; cbn [obind] in H'; [|discriminate].
    apply remove_from_parent_kp in E. assert (K : kp w w2) by exact E. clear E.
    destruct (negb _); [injection H' as <- <-; fr|].
    match type of H' with obind ?o _ = _ => destruct o as [w3|] eqn:E1; cbn [obind] in H'; [|discriminate] end.
    assert (K3 : kp w w3).
    { destruct (_ && _) in E1; [|injection E1 as <-; exact K].
      destruct k; try (injection E1 as <-; exact K). apply remove_host_kp in E1. exact (kp_trans _ _ _ K E1). }
    injection H' as <- <-. apply frame_kp. destruct k; exact K3.
  - peel H. unfold rmdir_syscall in H. destruct (String.eqb path ""); [brk H; fr|].
    destruct (metawalkandparent _ _) as [[[i|] op]|]; cbn [obind] in H; [|brk H; fr|discriminate].
    destruct op as [par|]; [|brk H; fr].
    destruct (get_ino w par) as [p|]; cbn [obind] in H; [|discriminate].
    destruct (no_write_bits (i_mode p)); [brk H; fr|].
    destruct (get_ino w i) as [x|]; cbn [obind] in H; [|discriminate].
    destruct (i_kind x); try (brk H; fr).
    destruct (3 <? i_link x); [brk H; fr|]. destruct (negb (is_dir _)); [discriminate|]. destruct (no_write_bits (i_mode x)); [brk H; fr|].
    destruct (remove_from_parent _ _ _) as [[w2 r2]|] eqn:E; cbn [obind] in H; [|discriminate].
    apply remove_from_parent_kp in E. assert (K : kp w w2) by (destruct (i_ref x =? 0); exact E). clear E.
    destruct (negb _); injection H as <- <-; [fr|].
    apply frame_kp. destruct (i_ref x =? 0); exact K.
  - peel H. unfold rename_syscall in H. brk H; try fr. split; cbn; first [apply fdchg_refl|reflexivity].
  - peel H. unfold chmod_syscall in H. brk H; try fr. apply chmod_kp in H. fr.
  - peel H. unfold fchmod_syscall in H. destruct (fd_slot w c fd) as [s|]; cbn [obind] in H; [|discriminate].
    destruct s as [[]|]; try (brk H; fr). apply chmod_kp in H. fr.
  - peel H. unfold truncate_syscall in H. brk H; try fr. apply truncate_kp in H. fr.
  - peel H. unfold ftruncate_syscall in H. destruct (fd_slot w c fd) as [s|]; cbn [obind] in H; [|discriminate].
    destruct s as [[]|]; try (brk H; fr). destruct (is_rdonly _); [brk H; fr|].
    apply truncate_kp in H. fr.
  - brk H; fr.
  - brk H; fr.
  - peel H; brk H; fr.
  - unfold read_syscall in H. destruct (fd_slot w c fd) as [s|] eqn:Es; cbn [obind] in H; [|discriminate]. apply fd_slot_done in Es as [-> Hr].
    destruct (w_fds w !! (c, fd)) as [[]|]; try (brk H; fr).
    + destruct (is_wronly _); [brk H; fr|]. destruct (get_ino w ino) as [x|]; cbn [obind] in H; [|discriminate].
      destruct (i_kind x); try (brk H; fr). brk H. apply frame_put; [assumption|apply kp_refl].
    + brk H; try fr; split; cbn; first [apply fdchg_refl|reflexivity].
  - brk H; fr.
  - unfold write_syscall in H. destruct (fd_slot w c fd) as [s|] eqn:Es; cbn [obind] in H; [|discriminate]. apply fd_slot_done in Es as [-> Hr].
    destruct (w_fds w !! (c, fd)) as [[]|]; try (brk H; fr).
    + destruct (is_rdonly _); [brk H; fr|]. destruct (get_ino w ino) as [x|]; cbn [obind] in H; [|discriminate].
      destruct (i_kind x); try (brk H; fr). destruct (file_write _ _ _ _ _) eqn:E; cbn [obind] in H; [|discriminate].
      injection H as <- <-. apply file_write_kp in E. apply frame_put; assumption.
    + brk H; try fr; split; cbn; first [apply fdchg_refl|reflexivity].
  - unfold pwrite_syscall in H. destruct (fd_slot w c fd) as [s|] eqn:Es; cbn [obind] in H; [|discriminate]. apply fd_slot_done in Es as [-> Hr].
    destruct (w_fds w !! (c, fd)) as [[]|]; try (brk H; fr).
    destruct (is_rdonly _); [brk H; fr|]. destruct (get_ino w ino) as [x|]; cbn [obind] in H; [|discriminate].
    destruct (i_kind x); try (brk H; fr). destruct (file_write _ _ _ _ _) eqn:E; cbn [obind] in H; [|discriminate].
    injection H as <- <-. apply file_write_kp in E. fr.
  - unfold writev_syscall in H. destruct (fd_slot w c fd) as [s|] eqn:Es; cbn [obind] in H; [|discriminate]. apply fd_slot_done in Es as [-> Hr].
    destruct (w_fds w !! (c, fd)) as [[]|]; try (brk H; fr).
    + destruct (is_rdonly _); [brk H; fr|]. destruct (get_ino w ino) as [x|]; cbn [obind] in H; [|discriminate].
      destruct (i_kind x); try (brk H; fr). destruct (file_write _ _ _ _ _) eqn:E; cbn [obind] in H; [|discriminate].
      injection H as <- <-. apply file_write_kp in E. apply frame_put; assumption.
    + brk H; try fr; split; cbn; first [apply fdchg_refl|reflexivity].
  - peel H. unfold lseek_syscall in H. destruct (fd_slot w c fd) as [s|] eqn:Es; cbn [obind] in H; [|discriminate]. apply fd_slot_done in Es as [-> Hr].
    destruct (w_fds w !! (c, fd)) as [[]|]; try (brk H; fr).
    destruct (get_ino w ino) as [x|]; cbn [obind] in H; [|discriminate].
    destruct (i_kind x); try (brk H; fr);
      match type of H with obind ?o _ = _ => destruct o as [[e|]|]; cbn [obind] in H; [| |discriminate] end;
      try (brk H; fr); destruct (_ <? 0) in H; cbn [orb] in H; try (brk H; fr); brk H; try fr; apply frame_put; first [assumption|apply kp_refl].
  - peel H; brk H; fr.
  - destruct (close_syscall w c fd) as [[w1 r1]|] eqn:E; cbn [obind fst snd] in H; [|discriminate]. injection H as <- <-.
    eapply close_frame; eauto.
  - peel H. unfold dup_syscall in H. destruct (fd =? 0); [brk H; fr|]. destruct (negb _); [brk H; fr|].
    destruct (w_fds w !! (c, fd)); [|brk H; fr].
    eapply dup2_helper_frame; [| |exact H]; [lia|discriminate].
  - peel H. unfold dup2_syscall in H. destruct (_ || _) eqn:Er in H; [brk H; fr|]. destruct (newfd =? oldfd); [brk H; fr|]. destruct (negb _); [brk H; fr|].
    destruct (w_fds w !! (c, oldfd)); [|brk H; fr].
    eapply dup2_helper_frame; [| |exact H]; [lia|lia].
  - peel H. unfold fcntl_syscall in H. destruct (fd_slot w c fd) as [s|] eqn:Es; cbn [obind] in H; [|discriminate]. apply fd_slot_done in Es as [-> Hr].
    destruct (w_fds w !! (c, fd)) as [d|]; [|brk H; fr].
    destruct (cmd =? F_GETFD); [brk H; fr|].
    destruct (_ && _) in H; [brk H; apply frame_put; [assumption|apply kp_refl]|].
    destruct (cmd =? F_GETFL); [brk H; fr|].
    destruct (_ && _) in H; [brk H; apply frame_put; [assumption|apply kp_refl]|].
    destruct (_ && _) eqn:Ea in H.
    + eapply dup2_helper_frame; [| |exact H]; [lia|discriminate].
    + brk H; fr.
  - injection H as <- <-. fr.
  - unfold getdents_syscall in H. destruct (_ <=? _) in H; [brk H; fr|]. unfold in_fd_range in H.
    destruct ((0 <=? fd) && (fd <? MAXFD)) eqn:Er; cbn [negb] in H; [|brk H; fr].
    destruct (w_fds w !! (c, fd)) as [[]|]; try (brk H; fr).
    destruct (get_ino w ino) as [x|]; cbn [obind] in H; [|discriminate]. destruct (i_kind x); try (brk H; fr).
    destruct (dents_fit _ _ _) as [l n] in H. injection H as <- <-. apply frame_put; [lia|apply kp_refl].
  - unfold pipe2_syscall in H. destruct (next_fd _ c 0) as [a|] eqn:Ea in H; [|injection H as <- <-; fr].
    apply next_fd_some in Ea as [_ Ea].
    destruct (next_fd _ c 0) as [b|] eqn:Eb in H; injection H as <- <-.
    + apply next_fd_some in Eb as [_ Eb]. split; [|reflexivity]. cbn.
      eapply fdchg_trans; apply fdchg_ins; assumption.
    + split; [|reflexivity]. cbn. apply fdchg_ins; assumption.
  - peel H. unfold epoll_create_syscall in H. destruct (_ <=? 0) in H; [brk H; fr|].
    destruct (next_fd w c 0) as [fd|] eqn:E; [|brk H; fr]. apply next_fd_some in E as [_ E]. brk H. apply frame_put; [assumption|apply kp_refl].
Qed.
