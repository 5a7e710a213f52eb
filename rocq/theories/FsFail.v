(** Failed calls have no effect; object numbers are not reused. *)
From Verif Require Import Base PathModel PathSpec PathProofs FsModel FsBoot FsSpec FsWalk Count FsNames FsTr FsInv FsInv2
  FsSteps FsSteps2 FsFrame FsReachSpec FsReach FsTree FsNameSpec FsPath FdSpec FsDesc FsOps FsNameProofs.
Local Open Scope list_scope.
Local Open Scope Z_scope.
Opaque all_fds.

Lemma to_i32_pos n : 0 <= n < 2147483648 -> to_i32 n = n.
Proof. intros H. unfold to_i32, wrap_u. rewrite Z.mod_small by lia. destruct (Z.ltb_spec n (2 ^ 31)); lia. Qed.

Lemma put_ino_same w i x : w_ino w !! i = Some x -> put_ino i x w = w.
Proof. intros H. destruct w. unfold put_ino, with_ino. cbn in *. rewrite insert_id by exact H. reflexivity. Qed.
Lemma put_ino_twice w i x y : w_ino w !! i = Some x -> put_ino i x (put_ino i y w) = w.
Proof. intros H. destruct w. unfold put_ino, with_ino. cbn in *. rewrite insert_insert, insert_id by exact H. reflexivity. Qed.
Lemma put_pipe_same w i x : w_pipes w !! i = Some x -> with_pipes (insert i x) w = w.
Proof. intros H. destruct w. unfold with_pipes. cbn in *. rewrite insert_id by exact H. reflexivity. Qed.

Ltac same H := first [injection H as <- <-; reflexivity | injection H as <- _; reflexivity | discriminate H].
(** [H] says that the call returned something that is not an error *)
Ltac pos H := exfalso; injection H as _ <-; cbn in *; lia.

Lemma mkdir_fails w cwd p m w' r : mkdir_syscall w cwd p m = Done (w', r) -> r < 0 -> w' = w.
Proof.
  unfold mkdir_syscall. intros H Hr. destruct (String.eqb p ""); [same H|].
  destruct (metawalkandparent _ _) as [[[i|] [par|]]|]; cbn [obind] in H; try (same H).
  destruct (file_name _); [|discriminate H]. destruct (negb _); [same H|].
  destruct (add_child _ _ _ _ _); cbn [obind] in H; [|discriminate H]. pos H.
Qed.

Lemma mknod_fails w cwd p m d w' r : mknod_syscall w cwd p m d = Done (w', r) -> r < 0 -> w' = w.
Proof.
  unfold mknod_syscall. intros H Hr. destruct (String.eqb p ""); [same H|].
  destruct (metawalkandparent _ _) as [[[i|] [par|]]|]; cbn [obind] in H; try (same H).
  destruct (file_name _); [|discriminate H]. destruct (negb _); [same H|]. destruct (_ =? 0); [same H|].
  destruct (add_child _ _ _ _ _); cbn [obind] in H; [|discriminate H]. pos H.
Qed.

Lemma link_fails w cwd a b w' r : link_syscall w cwd a b = Done (w', r) -> r < 0 -> w' = w.
Proof.
  unfold link_syscall. intros H Hr. destruct (String.eqb a ""); [same H|]. destruct (String.eqb b ""); [same H|].
  destruct (file_name _) as [f|]; [|discriminate H]. destruct (metawalk _ _) as [[i|]|]; cbn [obind] in H; try (same H).
  destruct (get_ino w i) as [x|] eqn:Hx; cbn [obind] in H; [|discriminate H]. apply get_ino_done in Hx.
  assert (Hrest : forall q : option Z * option Z, match q with
     | (None, None) => Done (put_ino i x (put_ino i (set_link (i_link x + 1) x) w), err ENOENT)
     | (None, Some par) => do p <- get_ino (put_ino i (set_link (i_link x + 1) x) w) par;
         Done (log_meta i (log_meta par (put_ino par (set_link (i_link p + 1) (set_dict (<[f := i]> (i_dict p)) p)) (put_ino i (set_link (i_link x + 1) x) w))), 0)
     | (Some _, _) => Done (put_ino i x (put_ino i (set_link (i_link x + 1) x) w), err EEXIST)
     end = Done (w', r) -> w' = w).
  { intros [[j|] [par|]] H'; try (injection H' as <- <-; apply put_ino_twice; exact Hx).
    destruct (get_ino _ par); cbn [obind] in H'; [|discriminate H']. pos H'. }
  destruct (i_kind x); [|same H| |];
    (match type of H with obind ?q _ = _ => destruct q as [qq|]; cbn [obind] in H; [|discriminate H] end; exact (Hrest qq H)).
Qed.

Lemma unlink_fails w cwd p w' r : unlink_syscall w cwd p = Done (w', r) -> r < 0 -> r <> err EPERM -> w' = w.
Proof.
  unfold unlink_syscall. intros H Hr Hne. destruct (String.eqb p ""); [same H|].
  destruct (metawalkandparent _ _) as [[[i|] [par|]]|]; cbn [obind] in H; try (same H).
  destruct (get_ino w i) as [x|] eqn:Hx; cbn [obind] in H; [|discriminate H].
  assert (Hk : i_kind x = KDir \/ i_kind x <> KDir) by (destruct (i_kind x); auto; right; discriminate).
  destruct Hk as [Hk|Hk]; [rewrite Hk in H; same H|].
  exfalso. assert (Hrm : forall w1 w2 s, remove_from_parent par (normpath cwd p) w1 = Done (w2, s) -> s = 0 \/ s = err EPERM).
  { intros w1 w2 s Hs. unfold remove_from_parent in Hs. destruct (get_ino w1 par) as [q|]; cbn [obind] in Hs; [|discriminate Hs].
    destruct (i_kind q); try discriminate Hs. destruct (no_write_bits _); [injection Hs as _ <-; auto|].
    destruct (file_name _) as [f|]; [|discriminate Hs]. destruct (i_dict q !! f); [|discriminate Hs]. destruct (dec (i_link q)); cbn [obind] in Hs; [|discriminate Hs].
    injection Hs as _ <-. auto. }
  destruct (i_kind x); try congruence; destruct (dec (i_link x)) as [l|]; cbn [obind] in H; try discriminate H;
    destruct (remove_from_parent _ _ _) as [[w2 s]|] eqn:Es; cbn [obind] in H; try discriminate H;
    (destruct (Z.eqb_spec s 0) as [Hs0|Hs0]; cbn [negb] in H;
      [|injection H as _ Hs; apply Hrm in Es as [?|?]; congruence]);
    (match type of H with obind ?q _ = _ => destruct q; cbn [obind] in H; [|discriminate H] end; injection H as _ <-; lia).
Qed.

Lemma rmdir_fails w cwd p w' r : winv w -> canonical cwd -> rmdir_syscall w cwd p = Done (w', r) -> r < 0 -> w' = w.
Proof.
  unfold rmdir_syscall. intros Hw Hc H Hr. destruct (String.eqb p ""); [same H|].
  pose proof (normpath_canonical cwd p Hc) as Hcp.
  destruct (metawalkandparent _ _) as [[[i|] [par|]]|] eqn:Hm; cbn [obind] in H; try (same H).
  destruct (get_ino w par) as [q|] eqn:Hq; cbn [obind] in H; [|discriminate H]. apply get_ino_done in Hq.
  destruct (no_write_bits (i_mode q)) eqn:Hnw; [same H|].
  destruct (get_ino w i) as [x|] eqn:Hx; cbn [obind] in H; [|discriminate H]. apply get_ino_done in Hx.
  destruct (i_kind x) eqn:Hk; try (same H). destruct (3 <? i_link x); [same H|]. destruct (negb (is_dir _)); [same H|].
  destruct (no_write_bits (i_mode x)); [same H|]. exfalso.
  destruct (place_of _ _ _ _ Hcp Hm) as (dir & f & q' & Hpl & Hf & Hqf). pose proof (pl_ino _ _ _ _ _ _ Hpl) as Hq'. assert (q' = q) by congruence. subst q'.
  pose proof (v_n _ (u_inv _ Hw)) as Hn. wcbn. pose proof (place_name _ _ _ _ _ _ _ _ Hn Hpl Hqf) as Hnm.
  destruct (n_up _ _ Hn _ _ _ _ Hx Hk Hnm) as [_ Hlt].
  match type of H with obind (remove_from_parent _ _ ?w1) _ = _ => assert (H1 : w_ino w1 !! par = Some q); [|set (w2 := w1) in *] end.
  { destruct (i_ref x =? 0); [|exact Hq]. cbn. rewrite lookup_insert_ne by lia. exact Hq. }
  unfold remove_from_parent, get_ino in H. rewrite H1 in H. cbn [obind] in H. rewrite (pl_dir _ _ _ _ _ _ Hpl), Hnw, Hf, Hqf in H.
  destruct (dec _); cbn [obind] in H; [|discriminate H]. cbn in H. injection H as _ <-. lia.
Qed.

Lemma rename_fails w cwd a b w' r : rename_syscall w cwd a b = Done (w', r) -> r < 0 -> w' = w.
Proof.
  unfold rename_syscall. intros H Hr. destruct (String.eqb a ""); [same H|]. destruct (String.eqb b ""); [same H|].
  destruct (metawalkandparent _ _) as [[[i|] [par|]]|]; cbn [obind] in H; try (same H).
  destruct (metawalkandparent _ _) as [r2|]; cbn [obind] in H; [|discriminate H]. destruct (negb _); [same H|].
  destruct (get_ino w par); cbn [obind] in H; [|discriminate H].
  destruct (file_name _); [|discriminate H]. destruct (file_name _); [|discriminate H]. pos H.
Qed.

Lemma chmod_fails i m w w' r : chmod_helper i m w = Done (w', r) -> r < 0 -> w' = w.
Proof.
  unfold chmod_helper. intros H Hr. destruct (_ =? m); [|same H]. destruct (get_ino w i); cbn [obind] in H; [|discriminate H]. pos H.
Qed.
Lemma trunc_fails i n b w w' r : truncate_helper i n b w = Done (w', r) -> r < 0 -> w' = w.
Proof.
  unfold truncate_helper. intros H Hr. destruct (n <? 0); [same H|]. destruct (get_ino w i) as [x|]; cbn [obind] in H; [|discriminate H].
  destruct (i_kind x); try (same H).
  match type of H with (if ?b then _ else _) = _ => destruct b; [discriminate H|] end.
  match type of H with obind ?q _ = _ => destruct q; cbn [obind] in H; [|discriminate H] end. pos H.
Qed.

Lemma pipe_read_fails p n nb p' o : 0 <= n < 2147483648 -> pipe_read p n nb = (p', o) -> failed o -> p' = p.
Proof.
  unfold pipe_read. intros Hn H Hf. destruct (n =? 0); [injection H as <- _; reflexivity|].
  destruct (p_buf p) as [|b bs] eqn:E.
  - destruct (p_w p =? 0); [injection H as <- _; reflexivity|]. destruct nb; injection H as <- _; reflexivity.
  - exfalso. rewrite <- E in H. injection H as _ <-. cbn [failed] in Hf. rewrite to_i32_pos in Hf by lia. lia.
Qed.
Lemma pipe_write_le p bs nb p' r : Z.of_nat (length bs) < 2147483648 -> pipe_write p bs nb = (p', Ret r) -> r <= 0 ->
  p' = p /\ (r = 0 /\ bs = [] \/ r = err EPIPE /\ p_r p = 0 \/ r = err EAGAIN).
Proof.
  unfold pipe_write. intros Hn H Hr. destruct (Z.eqb_spec (Z.of_nat (length bs)) 0).
  { injection H as <- <-. split; [reflexivity|]. left. split; [reflexivity|]. destruct bs; [reflexivity|cbn in *; lia]. }
  destruct (Z.eqb_spec (p_r p) 0); [injection H as <- <-; auto|].
  destruct (Z.ltb_spec (pipe_room p) PIPE_BUF) as [|Hroom].
  { destruct nb; [|discriminate H]. injection H as <- <-. auto. }
  exfalso. assert (0 < PIPE_BUF) by reflexivity. destruct (_ =? _) in H.
  - injection H as _ <-. rewrite to_i32_pos in Hr by lia. lia.
  - destruct nb; [|discriminate H]. injection H as _ <-. rewrite to_i32_pos in Hr by lia. lia.
Qed.
Lemma pipe_write_pos p bs nb p' r : Z.of_nat (length bs) < 2147483648 -> pipe_write p bs nb = (p', Ret r) -> 0 < r ->
  r <= Z.of_nat (length bs) /\ p_r p' = p_r p /\ p_r p <> 0.
Proof.
  unfold pipe_write. intros Hn H Hr. destruct (Z.eqb_spec (Z.of_nat (length bs)) 0); [injection H as _ <-; lia|].
  destruct (Z.eqb_spec (p_r p) 0); [injection H as _ <-; cbn in Hr; lia|].
  destruct (Z.ltb_spec (pipe_room p) PIPE_BUF) as [|Hroom].
  { destruct nb; [|discriminate H]. injection H as _ <-. cbn in Hr. lia. }
  assert (0 < PIPE_BUF) by reflexivity. destruct (_ =? _) in H.
  - injection H as <- <-. rewrite to_i32_pos in * by lia. cbn. split; [lia|auto].
  - destruct nb; [|discriminate H]. injection H as <- <-. rewrite to_i32_pos in * by lia. cbn. split; [lia|auto].
Qed.
Lemma pipe_write_fails p bs nb p' o : Z.of_nat (length bs) < 2147483648 -> pipe_write p bs nb = (p', o) -> failed o -> p' = p.
Proof.
  intros Hn H Hf. assert (Ho : exists r, o = Ret r \/ o = Blocked r).
  { unfold pipe_write in H. repeat match type of H with (if ?b then _ else _) = _ => destruct b; [injection H as _ <-; try destruct nb; eauto|] end.
    destruct (_ =? _) in H; [injection H as _ <-; eauto|]. destruct nb; injection H as _ <-; eauto. }
  destruct Ho as (r & [->| ->]); [|contradiction]. cbn in Hf. eapply pipe_write_le; eauto. lia.
Qed.
Lemma pipe_writev_fails nb iov : forall p tot p' o, 0 <= tot -> tot + Z.of_nat (length (concat iov)) < 2147483648 ->
  (0 < tot -> p_r p <> 0) -> pipe_writev p iov nb tot = (p', o) -> failed o -> p' = p /\ tot = 0.
Proof.
  induction iov as [|bs iov IH]; intros p tot p' o H0 Hn Hp H Hf; cbn [pipe_writev concat] in *.
  - exfalso. injection H as _ <-. cbn [failed] in Hf. rewrite to_i32_pos in Hf by (cbn in Hn; lia). lia.
  - rewrite app_length, Nat2Z.inj_add in Hn. destruct (pipe_write p bs nb) as [p1 o1] eqn:E.
    destruct o1 as [r| | | | | |k]; try (injection H as <- <-; exfalso; unfold pipe_write in E;
      repeat match type of E with (if ?b then _ else _) = _ => destruct b; [destruct nb; discriminate E|] end;
      destruct (_ =? _) in E; [discriminate E|destruct nb; discriminate E]); [|injection H as _ <-; contradiction].
    destruct (Z.ltb_spec 0 r) as [Hr|Hr].
    + exfalso. apply pipe_write_pos in E as (Hle & Er & Hne); [|lia|lia].
      assert (X : p' = p1 /\ tot + r = 0) by (apply (IH p1 (tot + r) p' o); [lia|lia|intros; congruence|exact H|exact Hf]). lia.
    + apply pipe_write_le in E as (-> & Hc); [|lia|lia].
      destruct Hc as [(-> & ->)|[(-> & Hpr)| ->]].
      * cbn in H. exact (IH _ _ _ _ H0 Hn Hp H Hf).
      * rewrite Z.eqb_refl in H. injection H as <- _. split; [reflexivity|]. destruct (Z.eq_dec tot 0); [assumption|]. exfalso. apply Hp; [lia|assumption].
      * change (err EAGAIN =? err EPIPE) with false in H. rewrite Z.eqb_refl in H. injection H as <- <-. split; [reflexivity|].
        destruct (Z.eqb_spec tot 0); [assumption|]. exfalso. cbn [failed] in Hf. rewrite to_i32_pos in Hf by lia. lia.
Qed.

Lemma get_pipe_done w pid p : get_pipe w pid = Done p -> w_pipes w !! pid = Some p.
Proof. unfold get_pipe. destruct (_ !! _); congruence. Qed.

Lemma read_fails w c fd n w' o : 0 <= n < 2147483648 -> read_syscall w c fd n = Done (w', o) -> failed o -> w' = w.
Proof.
  unfold read_syscall. intros Hn H Hf. destruct (fd_slot w c fd) as [s|]; cbn [obind] in H; [|discriminate H].
  destruct s as [[i pos fl|st fl|pid fl|fl]|]; try (same H).
  - destruct (is_wronly fl); [same H|]. destruct (get_ino w i) as [x|]; cbn [obind] in H; [|discriminate H].
    destruct (i_kind x); try (same H). unfold readat in H. destruct (w_fobj w !! i); [|discriminate H].
    destruct (_ || _); [discriminate H|]. cbn [obind] in H. exfalso. injection H as _ <-. cbn [failed] in Hf.
    rewrite take_length, to_i32_pos in Hf by lia. lia.
  - destruct (is_wronly fl); [same H|]. destruct (get_pipe w pid) as [p|] eqn:E; cbn [obind] in H; [|discriminate H].
    destruct (pipe_read p n _) as [p' o'] eqn:Er. injection H as <- ->. apply pipe_read_fails in Er; [|assumption|assumption]. subst p'.
    apply put_pipe_same, get_pipe_done, E.
Qed.

Lemma write_out_pos n : 0 <= n < 2147483648 -> 0 <= to_i32 n.
Proof. intros H. rewrite to_i32_pos; lia. Qed.

Lemma write_fails w c fd bs w' o : Z.of_nat (length bs) < 2147483648 -> write_syscall w c fd bs = Done (w', o) -> failed o -> w' = w.
Proof.
  unfold write_syscall. intros Hn H Hf. destruct (fd_slot w c fd) as [s|]; cbn [obind] in H; [|discriminate H].
  destruct s as [[i pos fl|st fl|pid fl|fl]|]; try (same H).
  - destruct (is_rdonly fl); [same H|]. destruct (get_ino w i) as [x|]; cbn [obind] in H; [|discriminate H].
    destruct (i_kind x); try (same H). destruct (file_write _ _ _ _ _); cbn [obind] in H; [|discriminate H].
    exfalso. injection H as _ <-. cbn [failed] in Hf. pose proof (write_out_pos (Z.of_nat (length bs))). lia.
  - destruct (is_rdonly fl); [same H|]. destruct (get_pipe w pid) as [p|] eqn:E; cbn [obind] in H; [|discriminate H].
    destruct (pipe_write p bs _) as [p' o'] eqn:Er. injection H as <- ->. apply pipe_write_fails in Er; [|assumption|assumption]. subst p'.
    apply put_pipe_same, get_pipe_done, E.
Qed.
Lemma pwrite_fails w c fd bs off w' o : Z.of_nat (length bs) < 2147483648 -> pwrite_syscall w c fd bs off = Done (w', o) -> failed o -> w' = w.
Proof.
  unfold pwrite_syscall. intros Hn H Hf. destruct (fd_slot w c fd) as [s|]; cbn [obind] in H; [|discriminate H].
  destruct s as [[i pos fl|st fl|pid fl|fl]|]; try (same H).
  destruct (is_rdonly fl); [same H|]. destruct (get_ino w i) as [x|]; cbn [obind] in H; [|discriminate H].
  destruct (i_kind x); try (same H). destruct (file_write _ _ _ _ _); cbn [obind] in H; [|discriminate H].
  exfalso. injection H as _ <-. cbn [failed] in Hf. pose proof (write_out_pos (Z.of_nat (length bs))). lia.
Qed.
Lemma writev_fails w c fd iov w' o : Z.of_nat (length (concat iov)) < 2147483648 -> writev_syscall w c fd iov = Done (w', o) -> failed o -> w' = w.
Proof.
  unfold writev_syscall. intros Hn H Hf. destruct (fd_slot w c fd) as [s|]; cbn [obind] in H; [|discriminate H].
  destruct s as [[i pos fl|st fl|pid fl|fl]|]; try (same H).
  - destruct (is_rdonly fl); [same H|]. destruct (get_ino w i) as [x|]; cbn [obind] in H; [|discriminate H].
    destruct (i_kind x); try (same H). destruct (file_write _ _ _ _ _); cbn [obind] in H; [|discriminate H].
    exfalso. injection H as _ <-. cbn [failed] in Hf. pose proof (write_out_pos (Z.of_nat (length (concat iov)))). lia.
  - destruct (is_rdonly fl); [same H|]. destruct (get_pipe w pid) as [p|] eqn:E; cbn [obind] in H; [|discriminate H].
    destruct (pipe_writev p iov _ 0) as [p' o'] eqn:Er. injection H as <- ->. apply pipe_writev_fails in Er as [-> _]; try lia; [|exact Hf].
    apply put_pipe_same, get_pipe_done, E.
Qed.

Lemma lseek_fails w c fd off wh w' r : (forall i pos fl, w_fds w' !! (c, fd) = Some (FFile i pos fl) -> pos < 2147483648) ->
  lseek_syscall w c fd off wh = Done (w', r) -> r < 0 -> w' = w.
Proof.
  unfold lseek_syscall. intros Hg H Hr. destruct (fd_slot w c fd) as [s|]; cbn [obind] in H; [|discriminate H].
  destruct s as [[i pos fl|st fl|pid fl|fl]|]; try (same H).
  destruct (get_ino w i) as [x|]; cbn [obind] in H; [|discriminate H].
  destruct (i_kind x); try (same H);
    match type of H with obind ?q _ = _ => destruct q as [[e|]|]; cbn [obind] in H; try (same H) end;
    match type of H with (if ?b then _ else _) = _ => destruct b eqn:Eb; [same H|] end; exfalso; injection H as <- <-;
    specialize (Hg i e fl (lookup_insert _ _ _)); pose proof (write_out_pos e); lia.
Qed.

Lemma close_desc_ret d w w' r : winv w -> close_desc d w = Done (w', r) -> r = 0.
Proof.
  unfold close_desc. intros Hw H. pose proof (v_d _ (u_inv _ Hw)) as Hd. wcbn.
  destruct d as [i pos fl|st fl|pid fl|fl].
  - destruct (get_ino w i) as [x|] eqn:Hx; cbn [obind] in H; [|discriminate H]. apply get_ino_done in Hx.
    destruct (dec _) as [v|]; cbn [obind] in H; [|discriminate H].
    specialize (Hd i). rewrite Hx in Hd. unfold okdata, isfile in Hd.
    destruct (i_kind x).
    + destruct (_ =? 0); [|injection H as _ <-; reflexivity]. destruct (_ !! i) in H; [|discriminate H].
      destruct (_ =? 0) in H; [|injection H as _ <-; reflexivity]. destruct (remove_host _ _); cbn [obind] in H; [|discriminate H].
      injection H as _ <-; reflexivity.
    + destruct Hd as [Hd _]. wcbn1 H. rewrite Hd in H. destruct (_ && _); injection H as _ <-; reflexivity.
    + destruct Hd as [Hd _]. wcbn1 H. rewrite Hd in H. injection H as _ <-; reflexivity.
    + discriminate H.
  - injection H as _ <-; reflexivity.
  - destruct (get_pipe _ _); cbn [obind] in H; [|discriminate H]. injection H as _ <-; reflexivity.
  - injection H as _ <-; reflexivity.
Qed.

Lemma close_fails w c fd w' r : winv w -> close_syscall w c fd = Done (w', r) -> r < 0 -> w' = w.
Proof.
  unfold close_syscall, close_inner. intros Hw H Hr. destruct (fd_slot w c fd) as [s|]; cbn [obind] in H; [|discriminate H].
  destruct s as [d|]; [|cbn in H; same H]. destruct (close_desc d w) as [[w1 r1]|] eqn:E; cbn [obind] in H; [|discriminate H].
  rewrite (close_desc_ret _ _ _ _ Hw E) in H. cbn in H. pos H.
Qed.

Lemma dup_helper_fails w c d n w' r : 0 <= n -> dup2_helper w c d n false = Done (w', r) -> r < 0 -> w' = w.
Proof.
  unfold dup2_helper. intros Hn H Hr. destruct (next_fd w c n) as [fd|] eqn:E; cbn [obind] in H; [|same H].
  apply next_fd_some in E as [_ E]. destruct (add_ref d w) as [[w2|]|]; cbn [obind] in H; [|same H|discriminate H].
  exfalso. injection H as _ <-. lia.
Qed.

Lemma add_ref_none d w : add_ref d w = Done None -> exists fl, d = FEpoll fl.
Proof.
  unfold add_ref. intros H. destruct d as [i pos fl|st fl|pid fl|fl].
  - destruct (get_ino w i) as [x|]; cbn [obind] in H; [|discriminate H]. destruct (i_kind x); discriminate H.
  - discriminate H.
  - destruct (get_pipe w pid); discriminate H.
  - eauto.
Qed.

Lemma dup2_fails w c a b w' r : (forall fl, w_fds w !! (c, a) = Some (FEpoll fl) -> a = b \/ w_fds w !! (c, b) = None) ->
  dup2_syscall w c a b = Done (w', r) -> r < 0 -> w' = w.
Proof.
  unfold dup2_syscall. intros Hg H Hr. destruct (_ || _) eqn:Er; [same H|]. destruct (Z.eqb_spec b a) as [->|Hne]; [same H|].
  destruct (negb _); [same H|]. destruct (w_fds w !! (c, a)) as [d|]; [|same H]. unfold dup2_helper in H.
  match type of H with obind ?q _ = _ => destruct q as [[[w1 fd]|]|] eqn:E; cbn [obind] in H; [| |discriminate H] end.
  - assert (fd = b) as ->.
    { destruct (w_fds w !! (c, b)); [|congruence]. destruct (close_inner w c b); cbn [obind] in E; [congruence|discriminate E]. }
    destruct (add_ref d w1) as [[w2|]|] eqn:Ea; cbn [obind] in H; [exfalso; injection H as _ <-; lia| |discriminate H].
    apply add_ref_none in Ea as [fl ->]. destruct (Hg fl eq_refl) as [?|Hb]; [congruence|]. rewrite Hb in E. injection E as <-. same H.
  - exfalso. destruct (w_fds w !! (c, b)); [|discriminate E]. destruct (close_inner w c b); cbn [obind] in E; discriminate E.
Qed.

Lemma fcntl_fails w c fd cmd arg w' r : fcntl_syscall w c fd cmd arg = Done (w', r) -> r < 0 -> w' = w.
Proof.
  unfold fcntl_syscall. intros H Hr. destruct (fd_slot w c fd) as [s|]; cbn [obind] in H; [|discriminate H].
  destruct s as [d|]; [|same H]. destruct (cmd =? F_GETFD); [same H|].
  destruct (_ && _) in H; [pos H|]. destruct (cmd =? F_GETFL); [same H|]. destruct (_ && _) in H; [pos H|].
  destruct (_ && _) eqn:E in H; [|destruct (cmd =? F_GETOWN); [same H|]; destruct (_ && _) in H; same H].
  eapply dup_helper_fails; [|exact H|exact Hr]. lia.
Qed.

Lemma dents_fit_bound es : forall b n, 0 <= b <= n -> 0 <= (dents_fit es b n).2 <= n.
Proof.
  induction es as [|e es IH]; intros b n H; cbn [dents_fit]; [cbn; lia|].
  destruct (Z.ltb_spec n (b + reclen e.1)); [cbn; lia|].
  assert (0 <= reclen e.1). { unfold reclen, CLIPPED_DIRENT_SIZE. apply Z.mul_nonneg_nonneg; [|lia]. apply Z.div_pos; lia. }
  specialize (IH (b + reclen e.1) n ltac:(lia)). destruct (dents_fit es _ n). exact IH.
Qed.

Lemma getdents_fails w c fd n w' o : 0 <= n < 2147483648 -> getdents_syscall w c fd n = Done (w', o) -> failed o -> w' = w.
Proof.
  unfold getdents_syscall. intros Hn H Hf. destruct (_ <=? _); [same H|]. destruct (negb _); [same H|].
  destruct (w_fds w !! (c, fd)) as [[i pos fl|st fl|pid fl|fl]|]; try (same H).
  destruct (get_ino w i) as [x|]; cbn [obind] in H; [|discriminate H]. destruct (i_kind x); try (same H).
  match type of H with context [dents_fit ?es 0 n] => pose proof (dents_fit_bound es 0 n ltac:(lia)) as Hb; destruct (dents_fit es 0 n) as [l k] end.
  exfalso. injection H as _ <-. cbn [failed snd] in *. pose proof (write_out_pos k). lia.
Qed.

(** *** C11 *)
Lemma failure_no_effect w c o w' r : reach true w -> step w c o = Done (w', r) -> failed r ->
  tame true w c o r -> fits_int w' c o -> (forall st, o <> Exit st) -> w' = w.
Proof.
  intros Hreach H Hf Ht Hg Hx. pose proof (reach_winv _ _ Hreach) as Hw. pose proof H as Hst.
  unfold step in H. destruct (w_cwd w !! c) as [cwd|] eqn:Hc; [|discriminate H]. pose proof (u_cwd _ Hw _ _ Hc) as Hcan.
  destruct o; unfold ret, FsModel.same in H; cbn [tame fits_int] in *.
  - peelw H. cbn in Hf. exact (open_fails _ _ _ _ _ _ _ Hst Hf).
  - peelw H. cbn in Hf. refine (open_fails w c path (Z.lor (Z.lor O_CREAT O_TRUNC) O_WRONLY) mode w0 z _ Hf). unfold step. rewrite Hc. unfold ret.
    unfold creat_syscall in H. rewrite H. reflexivity.
  - peelw H. exact (mkdir_fails _ _ _ _ _ _ H Hf).
  - peelw H. exact (mknod_fails _ _ _ _ _ _ _ H Hf).
  - peelw H. exact (link_fails _ _ _ _ _ _ H Hf).
  - peelw H. apply (unlink_fails _ _ _ _ _ H Hf). congruence.
  - peelw H. exact (rmdir_fails _ _ _ _ _ Hw Hcan H Hf).
  - peelw H. exact (rename_fails _ _ _ _ _ _ H Hf).
  - peelw H. unfold chmod_syscall in H. destruct (metawalk _ _) as [[i|]|]; cbn [obind] in H; [|same H|discriminate H]. exact (chmod_fails _ _ _ _ _ H Hf).
  - peelw H. unfold fchmod_syscall in H. destruct (fd_slot _ _ _) as [[[]|]|]; cbn [obind] in H; try (same H). exact (chmod_fails _ _ _ _ _ H Hf).
  - peelw H. unfold truncate_syscall in H. destruct (metawalk _ _) as [[i|]|]; cbn [obind] in H; [|same H|discriminate H]. exact (trunc_fails _ _ _ _ _ _ H Hf).
  - peelw H. unfold ftruncate_syscall in H. destruct (fd_slot _ _ _) as [[[]|]|]; cbn [obind] in H; try (same H).
    destruct (is_rdonly _); [same H|]. exact (trunc_fails _ _ _ _ _ _ H Hf).
  - destruct (stat_syscall _ _ _); cbn [obind] in H; same H.
  - destruct (fstat_syscall _ _ _); cbn [obind] in H; same H.
  - destruct (access_syscall _ _ _ _); cbn [obind] in H; same H.
  - exact (read_fails _ _ _ _ _ _ Hg H Hf).
  - destruct (pread_syscall _ _ _ _ _); cbn [obind] in H; same H.
  - exact (write_fails _ _ _ _ _ _ Hg H Hf).
  - exact (pwrite_fails _ _ _ _ _ _ _ Hg H Hf).
  - exact (writev_fails _ _ _ _ _ _ Hg H Hf).
  - peelw H. exact (lseek_fails _ _ _ _ _ _ _ Hg H Hf).
  - destruct (fsync_syscall _ _ _); cbn [obind] in H; same H.
  - peelw H. exact (close_fails _ _ _ _ _ Hw H Hf).
  - peelw H. unfold dup_syscall in H. destruct (fd =? 0); [same H|]. destruct (negb _); [same H|]. destruct (w_fds w !! _); [|same H].
    exact (dup_helper_fails _ _ _ _ _ _ (Z.le_refl 0) H Hf).
  - peelw H. exact (dup2_fails _ _ _ _ _ _ Ht H Hf).
  - peelw H. exact (fcntl_fails _ _ _ _ _ _ _ H Hf).
  - peelw H. unfold chdir_syscall in H. destruct (metawalk _ _) as [[i|]|]; cbn [obind] in H; [|same H|discriminate H].
    destruct (get_ino w i) as [x|]; cbn [obind] in H; [|discriminate H]. destruct (i_kind x); try (same H). exfalso. injection H as _ <-. cbn in Hf. lia.
  - unfold fchdir_syscall in H. destruct (fd_slot _ _ _) as [[[]|]|]; cbn [obind] in H; try (same H).
    destruct (pathname_loop _ _ _ _ _) as [[[s|]|]|]; try (same H). exfalso. injection H as _ <-. cbn in Hf. lia.
  - same H.
  - exact (getdents_fails _ _ _ _ _ _ Hg H Hf).
  - unfold pipe2_syscall in H. destruct (next_fd _ c 0) as [a|] eqn:Ea; [|same H]. apply next_fd_some in Ea as [_ Ea].
    destruct (next_fd _ c 0) as [b|].
    + exfalso. injection H as _ <-. cbn in Hf. lia.
    + exfalso. injection H as _ <-. specialize (Ht a eq_refl). lia.
  - peelw H. unfold epoll_create_syscall in H. destruct (_ <=? 0); [same H|]. destruct (next_fd w c 0) as [b|] eqn:E; [|same H].
    apply next_fd_some in E as [_ E]. exfalso. injection H as _ <-. cbn in Hf. lia.
  - peelw H. unfold fork_syscall in H. destruct (fold_left _ _ _) as [w1|]; cbn [obind] in H; [|discriminate H].
    destruct (metawalk _ _) as [[i|]|]; cbn [obind] in H; try discriminate H. destruct (get_ino w1 i) as [x|]; cbn [obind] in H; [|discriminate H].
    destruct (i_kind x); try discriminate H. destruct (_ || _); [discriminate H|]. exfalso. injection H as _ <-. cbn in Hf. lia.
  - peelw H. unfold exec_syscall in H. destruct (fold_left _ _ _) as [w1|]; cbn [obind] in H; [|discriminate H].
    destruct (_ || _); [discriminate H|]. exfalso. injection H as _ <-. cbn in Hf. lia.
  - exfalso. exact (Hx _ eq_refl).
Qed.

(** *** C12 *)
Definition grows (k k' : core) : Prop :=
  k_next k <= k_next k' /\ forall i, is_Some (k_ino k' !! i) -> is_Some (k_ino k !! i) \/ k_next k <= i.

Lemma ins_old (t : gmap Z inode) i x y j : t !! i = Some y -> is_Some (<[i := x]> t !! j) -> is_Some (t !! j).
Proof. intros Hi. destruct (decide (i = j)) as [<-|]; [eauto|rewrite lookup_insert_ne by assumption; auto]. Qed.
Lemma del_old (t : gmap Z inode) i j : is_Some (delete i t !! j) -> is_Some (t !! j).
Proof. intros [x H]. apply lookup_delete_Some in H as [_ H]. eauto. Qed.

Lemma tr_grows disp k k' : tr disp k k' -> grows k k'.
Proof.
  intros H. split; [destruct H; cbn; lia|]. intros j Hj. destruct H; cbn in *; auto;
    try (left; eapply ins_old; eauto; fail).
  - destruct (decide (n = j)) as [<-|]; [right; lia|]. rewrite lookup_insert_ne in Hj by assumption. left. eapply ins_old; eauto.
  - destruct (decide (n = j)) as [<-|]; [right; lia|]. rewrite lookup_insert_ne in Hj by assumption. left. eapply ins_old; eauto.
  - left. destruct (decide (par = j)) as [<-|]; [eauto|]. rewrite lookup_insert_ne in Hj by assumption. exact (ins_old _ _ _ _ _ H Hj).
  - left. unfold un_ino in Hj. assert (Hj' : is_Some (<[par:=par_rem f p]> (<[i:=set_link (i_link x - 1) x]> t) !! j)).
    { destruct (un_gone x); [eapply del_old; eauto|exact Hj]. }
    destruct (decide (par = j)) as [<-|]; [eauto|]. rewrite lookup_insert_ne in Hj' by assumption. exact (ins_old _ _ _ _ _ H Hj').
  - left. assert (Hj' : is_Some (<[par:=par_rem f p]> t !! j)) by (destruct (i_ref x =? 0); [eapply del_old; eauto|exact Hj]).
    eapply ins_old; eauto.
  - left. unfold rel_ino in Hj. destruct (gone x); [eapply del_old; eauto|eapply ins_old; eauto].
Qed.

Lemma trs_grows disp k k' : trs disp k k' -> grows k k'.
Proof.
  induction 1 as [k|k1 k2 k3 H _ [IH1 IH2]]; [split; [lia|auto]|]. apply tr_grows in H as [H1 H2]. split; [lia|].
  intros i Hi. apply IH2 in Hi as [Hi|Hi]; [|right; lia]. auto.
Qed.

Lemma later_grows disp w w' : winv w -> later disp w w' -> winv w' /\ grows (core_of w) (core_of w').
Proof.
  intros Hw H. induction H as [w|w c o w1 r w2 Hs Ht _ IH]; [split; [assumption|split; [lia|auto]]|].
  pose proof (step_winv _ _ _ _ _ _ Hw Hs Ht) as Hw1. destruct (IH Hw1) as [Hw2 [G1 G2]]. split; [assumption|].
  pose proof (trs_grows _ _ _ (step_trs _ _ _ _ _ _ Hw Hs Ht)) as [S1 S2]. split; [lia|].
  intros i Hi. apply G2 in Hi as [Hi|Hi]; [|right; lia]. auto.
Qed.

Lemma no_reuse w w1 w2 i : reach true w -> later true w w1 -> later true w1 w2 ->
  is_Some (w_ino w !! i) -> w_ino w1 !! i = None -> w_ino w2 !! i = None.
Proof.
  intros Hr H1 H2 Hi Hn. pose proof (reach_winv _ _ Hr) as Hw. destruct (later_grows _ _ _ Hw H1) as [Hw1 [G1 _]].
  destruct (later_grows _ _ _ Hw1 H2) as [_ [_ G2]]. destruct (w_ino w2 !! i) as [x|] eqn:E; [|reflexivity]. exfalso.
  destruct Hi as [y Hi]. pose proof (n_range _ _ (v_n _ (u_inv _ Hw)) _ _ Hi) as Hrg. wcbn.
  destruct (G2 i) as [[z Hz]|Hz]; [eauto|congruence|lia].
Qed.
