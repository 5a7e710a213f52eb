(** Every system call is a sequence of transitions: descriptors and processes. *)
From Verif Require Import Base PathModel PathSpec PathProofs FsModel FsSpec FsWalk Count FsNames FsTr FsInv FsSteps.
Local Open Scope list_scope.
Local Open Scope Z_scope.

(** *** Access mode bits survive the flag operations *)
Lemma land_ldiff3 a k : Z.land k 3 = 0 -> Z.land (Z.ldiff a k) 3 = Z.land a 3.
Proof.
  intros H. apply Z.bits_inj'. intros n Hn. rewrite !Z.land_spec, Z.ldiff_spec.
  assert (E : Z.testbit (Z.land k 3) n = false) by (rewrite H; apply Z.bits_0).
  rewrite Z.land_spec in E. destruct (Z.testbit a n), (Z.testbit k n), (Z.testbit 3 n); cbn in *; congruence.
Qed.
Lemma land_lor3 a k : Z.land k 3 = 0 -> Z.land (Z.lor a k) 3 = Z.land a 3.
Proof. intros H. rewrite Z.land_lor_distr_l, H, Z.lor_0_r. reflexivity. Qed.
Lemma land_setfl3 a fl k : Z.land k 3 = 3 -> Z.land (Z.lor (Z.ldiff a k) (Z.land fl k)) 3 = Z.land fl 3.
Proof.
  intros H. apply Z.bits_inj'. intros n Hn. rewrite !Z.land_spec, Z.lor_spec, Z.ldiff_spec, Z.land_spec.
  assert (E : Z.testbit (Z.land k 3) n = Z.testbit 3 n) by (rewrite H; reflexivity).
  rewrite Z.land_spec in E. destruct (Z.testbit a n), (Z.testbit k n), (Z.testbit 3 n), (Z.testbit fl n); cbn in *; congruence.
Qed.

Lemma target_flags d fl : Z.land fl 3 = Z.land (fd_flags d) 3 -> target_of (set_flags fl d) = target_of d.
Proof.
  intros H. destruct d; cbn in *; try reflexivity. unfold is_rdonly, is_wronly, O_RDWRFLAGS. rewrite H. reflexivity.
Qed.
Lemma target_clear d : target_of (clear_cloexec d) = target_of d.
Proof.
  destruct d; cbn; try reflexivity. unfold is_rdonly, is_wronly, O_RDWRFLAGS. rewrite land_ldiff3 by reflexivity. reflexivity.
Qed.

(** *** Pipes *)
Lemma pipe_read_shape p n nb p' o : pipe_read p n nb = (p', o) ->
  exists buf, p' = Pipe buf (p_r p) (p_w p) /\ (length buf <= length (p_buf p))%nat.
Proof.
  unfold pipe_read. destruct p as [b r w]. cbn. destruct (n =? 0); [intros [= <- _]; eauto|].
  destruct b as [|z b].
  - destruct (w =? 0); [intros [= <- _]; eauto|]. destruct nb; intros [= <- _]; eauto.
  - intros [= <- _]. eexists. split; [reflexivity|]. rewrite drop_length. lia.
Qed.

Lemma pipe_write_shape p bs nb p' o : Z.of_nat (length (p_buf p)) <= PIPE_CAPACITY -> pipe_write p bs nb = (p', o) ->
  exists buf, p' = Pipe buf (p_r p) (p_w p) /\ Z.of_nat (length buf) <= PIPE_CAPACITY.
Proof.
  unfold pipe_write, pipe_room. destruct p as [b r w]. cbn [p_buf p_r p_w]. intros Hc.
  destruct (_ =? 0); [intros [= <- _]; eauto|]. destruct (r =? 0); [intros [= <- _]; eauto|].
  destruct (_ <? PIPE_BUF) eqn:E; [intros [= <- _]; eauto|].
  intros H. assert (Hp : p' = Pipe (b ++ take (Z.to_nat (Z.min (Z.of_nat (length bs)) (PIPE_CAPACITY - Z.of_nat (length b)))) bs) r w) by congruence.
  rewrite Hp. eexists. split; [reflexivity|]. rewrite app_length, take_length. lia.
Qed.

Lemma pipe_writev_shape iov : forall p nb t p' o, Z.of_nat (length (p_buf p)) <= PIPE_CAPACITY -> pipe_writev p iov nb t = (p', o) ->
  exists buf, p' = Pipe buf (p_r p) (p_w p) /\ Z.of_nat (length buf) <= PIPE_CAPACITY.
Proof.
  induction iov as [|bs iov IH]; intros p nb t p' o Hc H; cbn [pipe_writev] in H.
  - injection H as <- _. destruct p; eauto.
  - destruct (pipe_write p bs nb) as [p1 o1] eqn:E.
    destruct (pipe_write_shape _ _ _ _ _ Hc E) as (buf & -> & Hb).
    assert (Hrec : forall t1, pipe_writev (Pipe buf (p_r p) (p_w p)) iov nb t1 = (p', o) ->
      exists buf, p' = Pipe buf (p_r p) (p_w p) /\ Z.of_nat (length buf) <= PIPE_CAPACITY).
    { intros t1 Hr. apply IH in Hr; [exact Hr|exact Hb]. }
    destruct o1; try (injection H as <- _; eauto; fail).
    destruct (0 <? r); [eauto|]. destruct (r =? err EPIPE); [injection H as <- _; eauto|].
    destruct (r =? err EAGAIN); [injection H as <- _; eauto|]. eauto.
Qed.

Section Steps2.
Context (disp : bool).
Notation TR := (trs disp).
Hint Resolve nil : core.

Lemma pipe_data_trs w pid p buf :
  w_pipes w !! pid = Some p -> Z.of_nat (length buf) <= PIPE_CAPACITY ->
  TR (core_of w) (core_of (with_pipes (insert pid (Pipe buf (p_r p) (p_w p))) w)).
Proof. intros H1 H2. wcbn. apply one, t_pipe_data; auto. Qed.

Lemma fd_same_trs w c fd d d' : w_fds w !! (c, fd) = Some d -> target_of d' = target_of d ->
  TR (core_of w) (core_of (put_fd c fd d' w)).
Proof. intros H1 H2. wcbn. apply one. eapply t_same; eauto. Qed.

Lemma truncate_trs w i len must w' r : inv (core_of w) ->
  truncate_helper i len must w = Done (w', r) ->
  TR (core_of w) (core_of w') /\ w_fds w' = w_fds w /\ w_cwd w' = w_cwd w.
Proof.
  intros Hi H. unfold truncate_helper in H. destruct (len <? 0) eqn:El; [brk H; auto|].
  destruct (get_ino w i) as [x|] eqn:Hx; cbn [obind] in H; [|discriminate]. apply get_ino_done in Hx.
  destruct (i_kind x) eqn:Hk; try (brk H; auto; fail).
  destruct (inv_file w i x Hi Hx Hk) as (Hf & b & Hb & Hlen).
  assert (Hlow : forall fo' h' bb,
    (forall j, j <> i -> fo' !! j = w_fobj w !! j /\ h' !! j = d_host (w_disk w) !! j) ->
    fo' !! i = (fun _ => len) <$> w_fobj w !! i -> h' !! i = Some bb -> Z.of_nat (length bb) = len ->
    TR (core_of w) (Core (<[i := set_size len x]> (w_ino w)) (w_next w) fo' h' (w_fds w) (w_pipes w) (w_npipe w))).
  { intros fo' h' bb H1 H2 H3 H4. apply one. eapply t_data; eauto. lia. }
  unfold zerofill in H.
  destruct (w_fobj w !! i) as [fs|] eqn:Ef.
  - assert (fs = i_size x) by (destruct (0 <? i_ref x); congruence). subst fs. cbn [negb andb] in H.
    destruct (i_size x <? len) eqn:E1.
    + rewrite Ef, Z.ltb_irrefl in H. cbn [obind] in H. injection H as <- <-. wcbn. split; [|auto].
      apply (Hlow _ _ (write_at (i_size x) (replicate (Z.to_nat (len - i_size x)) 0) b)).
      * intros j Hj. rewrite lookup_insert_ne, lookup_alter_ne by congruence. auto.
      * rewrite lookup_insert. cbn. f_equal. lia.
      * rewrite lookup_alter, Hb. reflexivity.
      * rewrite write_at_length by lia. rewrite replicate_length. lia.
    + rewrite Ef in H. destruct (i_size x <? len) eqn:E2; [discriminate|]. cbn [obind] in H.
      injection H as <- <-. wcbn. split; [|auto].
      apply (Hlow _ _ (take (Z.to_nat len) b)).
      * intros j Hj. rewrite lookup_insert_ne, lookup_alter_ne by congruence. auto.
      * rewrite lookup_insert. reflexivity.
      * rewrite lookup_alter, Hb. reflexivity.
      * rewrite take_length. lia.
  - cbn [negb andb] in H. destruct must; [discriminate|]. wcbn1 H. rewrite lookup_insert in H.
    destruct (i_size x <? len) eqn:E1.
    + rewrite Z.ltb_irrefl in H. wcbn1 H. injection H as <- <-. wcbn. split; [|auto].
      apply (Hlow _ _ (write_at (i_size x) (replicate (Z.to_nat (len - i_size x)) 0) b)).
      * intros j Hj. rewrite lookup_delete_ne, !lookup_insert_ne, lookup_alter_ne, lookup_insert_ne by congruence. auto.
      * rewrite lookup_delete. reflexivity.
      * rewrite lookup_alter, lookup_insert, Hb. reflexivity.
      * rewrite write_at_length by lia. rewrite replicate_length. lia.
    + wcbn1 H. injection H as <- <-. wcbn. split; [|auto].
      apply (Hlow _ _ (take (Z.to_nat len) b)).
      * intros j Hj. rewrite lookup_delete_ne, !lookup_insert_ne, lookup_alter_ne, lookup_insert_ne by congruence. auto.
      * rewrite lookup_delete. reflexivity.
      * rewrite lookup_alter, lookup_insert, Hb. reflexivity.
      * rewrite take_length. lia.
Qed.

Lemma read_trs w c fd n w' o : inv (core_of w) -> read_syscall w c fd n = Done (w', o) -> TR (core_of w) (core_of w').
Proof.
  intros Hi H. unfold read_syscall in H.
  destruct (fd_slot w c fd) as [s|] eqn:Es; cbn [obind] in H; [|discriminate]. apply fd_slot_done in Es as [-> _].
  destruct (w_fds w !! (c, fd)) as [[i pos fl|st fl|pid fl|fl]|] eqn:Ed; try (brk H; auto; fail).
  - destruct (is_wronly fl); [brk H; auto|].
    destruct (get_ino w i) as [x|] eqn:Hx; cbn [obind] in H; [|discriminate].
    destruct (i_kind x); try (brk H; auto; fail).
    destruct (readat i pos n w) as [bs|]; cbn [obind] in H; [|discriminate].
    injection H as <- <-. eapply fd_same_trs; eauto.
  - destruct (is_wronly fl); [brk H; auto|].
    destruct (get_pipe w pid) as [p|] eqn:Hp; cbn [obind] in H; [|discriminate]. apply get_pipe_done in Hp.
    destruct (pipe_read p n _) as [p' o'] eqn:Er. injection H as <- <-.
    destruct (pipe_read_shape _ _ _ _ _ Er) as (buf & -> & Hl). apply pipe_data_trs; auto.
    destruct (p_cnt _ _ _ (v_p _ Hi) _ _ Hp) as (_ & _ & ? & _). lia.
Qed.

Lemma write_trs w c fd bs w' o : inv (core_of w) -> write_syscall w c fd bs = Done (w', o) -> TR (core_of w) (core_of w').
Proof.
  intros Hi H. unfold write_syscall in H.
  destruct (fd_slot w c fd) as [s|] eqn:Es; cbn [obind] in H; [|discriminate]. apply fd_slot_done in Es as [-> _].
  destruct (w_fds w !! (c, fd)) as [[i pos fl|st fl|pid fl|fl]|] eqn:Ed; try (brk H; auto; fail).
  - destruct (is_rdonly fl); [brk H; auto|].
    destruct (get_ino w i) as [x|] eqn:Hx; cbn [obind] in H; [|discriminate]. apply get_ino_done in Hx.
    destruct (i_kind x) eqn:Hk; try (brk H; auto; fail).
    destruct (file_write i pos bs x w) as [w1|] eqn:Ew; cbn [obind] in H; [|discriminate].
    injection H as <- <-. destruct (file_write_trs disp _ _ _ _ _ _ Hi Hx Hk Ew) as (Ht & Hfd & _).
    eapply rtc_transitive; [exact Ht|]. eapply fd_same_trs; [rewrite Hfd; eauto|reflexivity].
  - destruct (is_rdonly fl); [brk H; auto|].
    destruct (get_pipe w pid) as [p|] eqn:Hp; cbn [obind] in H; [|discriminate]. apply get_pipe_done in Hp.
    destruct (pipe_write p bs _) as [p' o'] eqn:Er. injection H as <- <-.
    destruct (p_cnt _ _ _ (v_p _ Hi) _ _ Hp) as (_ & _ & ? & _).
    destruct (pipe_write_shape _ _ _ _ _ H Er) as (buf & -> & Hl). apply pipe_data_trs; auto.
Qed.

Lemma pwrite_trs w c fd bs off w' o : inv (core_of w) -> pwrite_syscall w c fd bs off = Done (w', o) -> TR (core_of w) (core_of w').
Proof.
  intros Hi H. unfold pwrite_syscall in H.
  destruct (fd_slot w c fd) as [s|] eqn:Es; cbn [obind] in H; [|discriminate]. apply fd_slot_done in Es as [-> _].
  destruct (w_fds w !! (c, fd)) as [[i pos fl|st fl|pid fl|fl]|] eqn:Ed; try (brk H; auto; fail).
  destruct (is_rdonly fl); [brk H; auto|].
  destruct (get_ino w i) as [x|] eqn:Hx; cbn [obind] in H; [|discriminate]. apply get_ino_done in Hx.
  destruct (i_kind x) eqn:Hk; try (brk H; auto; fail).
  destruct (file_write i off bs x w) as [w1|] eqn:Ew; cbn [obind] in H; [|discriminate].
  injection H as <- <-. eapply file_write_trs; eauto.
Qed.

Lemma writev_trs w c fd iov w' o : inv (core_of w) -> writev_syscall w c fd iov = Done (w', o) -> TR (core_of w) (core_of w').
Proof.
  intros Hi H. unfold writev_syscall in H.
  destruct (fd_slot w c fd) as [s|] eqn:Es; cbn [obind] in H; [|discriminate]. apply fd_slot_done in Es as [-> _].
  destruct (w_fds w !! (c, fd)) as [[i pos fl|st fl|pid fl|fl]|] eqn:Ed; try (brk H; auto; fail).
  - destruct (is_rdonly fl); [brk H; auto|].
    destruct (get_ino w i) as [x|] eqn:Hx; cbn [obind] in H; [|discriminate]. apply get_ino_done in Hx.
    destruct (i_kind x) eqn:Hk; try (brk H; auto; fail).
    destruct (file_write i pos (concat iov) x w) as [w1|] eqn:Ew; cbn [obind] in H; [|discriminate].
    injection H as <- <-. destruct (file_write_trs disp _ _ _ _ _ _ Hi Hx Hk Ew) as (Ht & Hfd & _).
    eapply rtc_transitive; [exact Ht|]. eapply fd_same_trs; [rewrite Hfd; eauto|reflexivity].
  - destruct (is_rdonly fl); [brk H; auto|].
    destruct (get_pipe w pid) as [p|] eqn:Hp; cbn [obind] in H; [|discriminate]. apply get_pipe_done in Hp.
    destruct (pipe_writev p iov _ 0) as [p' o'] eqn:Er. injection H as <- <-.
    destruct (p_cnt _ _ _ (v_p _ Hi) _ _ Hp) as (_ & _ & ? & _).
    destruct (pipe_writev_shape _ _ _ _ _ _ H Er) as (buf & -> & Hl). apply pipe_data_trs; auto.
Qed.

Lemma lseek_trs w c fd off wh w' r : lseek_syscall w c fd off wh = Done (w', r) -> TR (core_of w) (core_of w').
Proof.
  intros H. unfold lseek_syscall in H.
  destruct (fd_slot w c fd) as [s|] eqn:Es; cbn [obind] in H; [|discriminate]. apply fd_slot_done in Es as [-> _].
  destruct (w_fds w !! (c, fd)) as [[i pos fl|st fl|pid fl|fl]|] eqn:Ed; try (brk H; auto; fail).
  destruct (get_ino w i) as [x|] eqn:Hx; cbn [obind] in H; [|discriminate].
  destruct (i_kind x); try (brk H; auto; fail);
    match type of H with obind ?o _ = _ => destruct o as [[e|]|]; cbn [obind] in H; [| |discriminate] end;
    try (brk H; auto; fail);
    match type of H with (if ?b then _ else _) = _ => destruct b end; injection H as <- <-; auto;
    eapply fd_same_trs; eauto.
Qed.

(** *** close *)
Lemma close_desc_trs w k d w' r : inv (core_of w) -> w_fds w !! k = Some d -> close_desc d w = Done (w', r) ->
  TR (core_of w) (core_of (with_fds (delete k) w')) /\ r = 0 /\ w_fds w' = w_fds w /\ w_cwd w' = w_cwd w.
Proof.
  intros Hi Hk H. unfold close_desc in H. destruct d as [i pos fl|st fl|pid fl|fl].
  - destruct (get_ino w i) as [x|] eqn:Hx; cbn [obind] in H; [|discriminate]. apply get_ino_done in Hx.
    destruct (dec (i_ref x)) as [r0|] eqn:Er; cbn [obind] in H; [|discriminate]. apply dec_done in Er as [-> Hpos].
    pose proof (t_close disp (w_ino w) (w_next w) (w_fobj w) (d_host (w_disk w)) (w_fds w) (w_pipes w) (w_npipe w)
      i x k pos fl Hx Hk) as Ht. unfold rel_ino, rel_fobj, rel_host, gone, last_ref, isfile in Ht.
    replace (i_ref x - 1 =? 0) with (i_ref x =? 1) in H by lia.
    destruct (i_kind x) as [| |ma mi|] eqn:Ek; [| | |discriminate].
    + destruct (i_ref x =? 1) eqn:E1; cbn [andb] in Ht.
      * wcbn1 H. destruct (w_fobj w !! i) eqn:Ef; [|discriminate].
        destruct (i_link x =? 0) eqn:E2.
        -- unfold remove_host in H. wcbn1 H. destruct (d_host (w_disk w) !! i) eqn:Eh; [|discriminate].
           brk H. wcbn. rewrite delete_insert_delete. split; [apply one; exact Ht|auto].
        -- brk H. wcbn. split; [apply one; exact Ht|auto].
      * brk H. wcbn. split; [apply one; exact Ht|auto].
    + assert (Hno : w_fobj w !! i = None).
      { pose proof (v_d _ Hi i) as Hd. cbn in Hd. rewrite Hx in Hd. unfold okdata, isfile in Hd. rewrite Ek in Hd. tauto. }
      wcbn1 H. rewrite Hno in H. rewrite andb_comm in H.
      destruct ((i_ref x =? 1) && (i_link x =? 2)) eqn:E1; brk H; wcbn; try rewrite delete_insert_delete;
        cbn [andb] in Ht; (split; [apply one; exact Ht|auto]).
    + assert (Hno : w_fobj w !! i = None).
      { pose proof (v_d _ Hi i) as Hd. cbn in Hd. rewrite Hx in Hd. unfold okdata, isfile in Hd. rewrite Ek in Hd. tauto. }
      wcbn1 H. rewrite Hno in H. rewrite andb_comm in H.
      destruct ((i_ref x =? 1) && (i_link x =? 0)) eqn:E1; brk H; wcbn; try rewrite delete_insert_delete;
        cbn [andb] in Ht; (split; [apply one; exact Ht|auto]).
  - brk H. wcbn. split; [|auto]. apply one. eapply t_close_other; eauto.
  - destruct (get_pipe w pid) as [p|] eqn:Hp; cbn [obind] in H; [|discriminate]. apply get_pipe_done in Hp.
    brk H. wcbn. split; [|auto]. apply one. eapply t_close_pipe; eauto.
  - brk H. wcbn. split; [|auto]. apply one. eapply t_close_other; eauto.
Qed.

Lemma close_trs w c fd w' r : inv (core_of w) -> close_syscall w c fd = Done (w', r) ->
  TR (core_of w) (core_of w') /\ w_fds w' = delete (c, fd) (w_fds w) /\ w_cwd w' = w_cwd w.
Proof.
  intros Hi H. unfold close_syscall, close_inner in H.
  destruct (fd_slot w c fd) as [s|] eqn:Es; cbn [obind] in H; [|discriminate]. apply fd_slot_done in Es as [-> _].
  destruct (w_fds w !! (c, fd)) as [d|] eqn:Ed.
  - destruct (close_desc d w) as [[w1 r1]|] eqn:Ec; cbn [obind] in H; [|discriminate].
    destruct (close_desc_trs _ _ _ _ _ Hi Ed Ec) as (Ht & -> & Hf & Hcw). cbn in H. injection H as <- <-.
    split; [exact Ht|]. wcbn. rewrite Hf, Hcw. auto.
  - cbn in H. injection H as <- <-. rewrite delete_notin by assumption. auto.
Qed.

(** *** dup *)
Lemma add_ref_trs w c k0 fd d w' : inv (core_of w) ->
  w_fds w !! k0 = Some d -> k0 <> (c, fd) -> w_fds w !! (c, fd) = None -> add_ref d w = Done (Some w') ->
  forall d', target_of d' = target_of d ->
  TR (core_of w) (core_of (put_fd c fd d' w')) /\ w_fds w' = w_fds w /\ w_cwd w' = w_cwd w.
Proof.
  intros Hi Hk Hne Hno H d' Hd'. unfold add_ref in H. destruct d as [i pos fl|st fl|pid fl|fl]; [| | |discriminate].
  - destruct (get_ino w i) as [x|] eqn:Hx; cbn [obind] in H; [|discriminate]. apply get_ino_done in Hx.
    assert (w' = put_ino i (set_ref (i_ref x + 1) x) w) as -> by (destruct (i_kind x); congruence).
    destruct d' as [i' pos' fl'| | |]; cbn in Hd'; try discriminate. injection Hd' as ->.
    wcbn. split; [|auto]. apply one. eapply t_dup; eauto.
  - injection H as <-. wcbn. split; [|auto]. apply one, t_put_other; auto.
  - destruct (get_pipe w pid) as [p|] eqn:Hp; cbn [obind] in H; [|discriminate]. apply get_pipe_done in Hp.
    injection H as <-. destruct d' as [| |pid' fl'|]; cbn in Hd'; try discriminate. injection Hd' as -> E1 E2.
    wcbn. split; [|auto].
    replace (pipe_incr fl p) with (pipe_incr fl' p) by (unfold pipe_incr; rewrite E1, E2; reflexivity).
    apply one. eapply t_dup_pipe; eauto.
Qed.

Lemma dup2_helper_trs w c oldfd d newfd from w' r : inv (core_of w) ->
  w_fds w !! (c, oldfd) = Some d -> (from = true -> oldfd <> newfd) ->
  (from = true -> is_Some (w_fds w !! (c, newfd)) -> match d with FEpoll _ => False | _ => True end) ->
  dup2_helper w c d newfd from = Done (w', r) -> TR (core_of w) (core_of w').
Proof.
  intros Hi Hd Hne Hep H. unfold dup2_helper in H. destruct from.
  - destruct (w_fds w !! (c, newfd)) as [d2|] eqn:E2.
    + unfold close_inner in H. destruct (fd_slot w c newfd) as [s|] eqn:Es; cbn [obind] in H; [|discriminate].
      apply fd_slot_done in Es as [-> _]. rewrite E2 in H.
      destruct (close_desc d2 w) as [[w1 r1]|] eqn:Ec; cbn [obind fst] in H; [|discriminate].
      destruct (close_desc_trs _ _ _ _ _ Hi E2 Ec) as (Ht & -> & Hf & Hcw).
      pose proof (trs_inv _ _ _ Ht Hi) as Hi1.
      assert (Hd1 : w_fds (with_fds (delete (c, newfd)) w1) !! (c, oldfd) = Some d).
      { wcbn. rewrite Hf, lookup_delete_ne; [exact Hd|]. specialize (Hne eq_refl). congruence. }
      destruct (add_ref d w1) as [[w2|]|] eqn:Ea; cbn [obind] in H; [|exfalso|discriminate].
      2: { specialize (Hep eq_refl ltac:(eauto)). destruct d; cbn in Ea; try contradiction; try discriminate.
           - destruct (get_ino w1 ino); cbn in Ea; [|discriminate]. destruct (i_kind a); discriminate.
           - destruct (get_pipe w1 pid); discriminate. }
      injection H as <- <-.
      assert (Ea' : add_ref d (with_fds (delete (c, newfd)) w1) = Done (Some (with_fds (delete (c, newfd)) w2))).
      { unfold add_ref, get_ino, get_pipe in *. destruct d as [i pos fl|st fl|pid fl|fl]; wcbn.
        - destruct (w_ino w1 !! i) as [x|]; cbn [obind] in *; [|discriminate].
          destruct (i_kind x); try discriminate; injection Ea as <-; reflexivity.
        - injection Ea as <-. reflexivity.
        - destruct (w_pipes w1 !! pid); cbn [obind] in *; [|discriminate]. injection Ea as <-. reflexivity.
        - discriminate. }
      destruct (add_ref_trs _ c _ newfd _ _ Hi1 Hd1 ltac:(specialize (Hne eq_refl); congruence)
        ltac:(wcbn; apply lookup_delete) Ea' (clear_cloexec d) (target_clear d)) as (Ht2 & Hf2 & _).
      eapply rtc_transitive; [exact Ht|].
      replace (core_of (put_fd c newfd (clear_cloexec d) w2))
        with (core_of (put_fd c newfd (clear_cloexec d) (with_fds (delete (c, newfd)) w2))); [exact Ht2|].
      wcbn. rewrite insert_delete_insert. reflexivity.
    + cbn [obind] in H. destruct (add_ref d w) as [[w2|]|] eqn:Ea; cbn [obind] in H; [| |discriminate].
      * injection H as <- <-. eapply add_ref_trs; eauto using target_clear. specialize (Hne eq_refl). congruence.
      * injection H as <- <-. auto.
  - destruct (next_fd w c newfd) as [fd|] eqn:En; cbn [obind] in H; [|injection H as <- <-; auto].
    apply next_fd_some in En as [En _].
    destruct (add_ref d w) as [[w2|]|] eqn:Ea; cbn [obind] in H; [| |discriminate].
    * injection H as <- <-. eapply add_ref_trs; eauto using target_clear. congruence.
    * injection H as <- <-. auto.
Qed.

Lemma fcntl_trs w c fd cmd arg w' r : inv (core_of w) -> fcntl_syscall w c fd cmd arg = Done (w', r) -> TR (core_of w) (core_of w').
Proof.
  intros Hi H. unfold fcntl_syscall in H.
  destruct (fd_slot w c fd) as [s|] eqn:Es; cbn [obind] in H; [|discriminate]. apply fd_slot_done in Es as [-> _].
  destruct (w_fds w !! (c, fd)) as [d|] eqn:Ed; [|brk H; auto].
  destruct (cmd =? F_GETFD); [brk H; auto|].
  destruct ((cmd =? F_SETFD) && (0 <=? arg)).
  { injection H as <- <-. eapply fd_same_trs; eauto. apply target_flags.
    destruct (hasbit arg O_CLOEXEC); [apply land_lor3; reflexivity|apply land_ldiff3; reflexivity]. }
  destruct (cmd =? F_GETFL); [brk H; auto|].
  destruct ((cmd =? F_SETFL) && (0 <=? arg)).
  { injection H as <- <-. eapply fd_same_trs; eauto. apply target_flags. apply land_setfl3. reflexivity. }
  destruct ((cmd =? F_DUPFD) && (0 <=? arg)).
  { eapply dup2_helper_trs; eauto; discriminate. }
  brk H; auto.
Qed.

Lemma getdents_trs w c fd n w' o : getdents_syscall w c fd n = Done (w', o) -> TR (core_of w) (core_of w').
Proof.
  intros H. unfold getdents_syscall in H. destruct (n <=? _); [brk H; auto|]. destruct (negb _); [brk H; auto|].
  destruct (w_fds w !! (c, fd)) as [[i pos fl|st fl|pid fl|fl]|] eqn:Ed; try (brk H; auto; fail).
  destruct (get_ino w i) as [x|] eqn:Hx; cbn [obind] in H; [|discriminate].
  destruct (i_kind x); try (brk H; auto; fail).
  destruct (dents_fit _ 0 n) as [l m]. injection H as <- <-. eapply fd_same_trs; eauto.
Qed.

Lemma rdwr_pipe fl : let k := Z.land fl (Z.lor O_CLOEXEC O_NONBLOCK) in
  is_rdonly (Z.lor O_RDONLY k) = true /\ is_wronly (Z.lor O_RDONLY k) = false /\
  is_rdonly (Z.lor O_WRONLY k) = false /\ is_wronly (Z.lor O_WRONLY k) = true.
Proof.
  cbn zeta. unfold is_rdonly, is_wronly, O_RDWRFLAGS.
  rewrite !land_lor3; [auto| |]; rewrite <- Z.land_assoc; change (Z.land (Z.lor O_CLOEXEC O_NONBLOCK) 3) with 0; apply Z.land_0_r.
Qed.

Lemma pipe2_trs w c fl w' o : pipe2_syscall w c fl = Done (w', o) ->
  (forall a, o = RetFds (err ENFILE) a (-1) -> a = -1) -> TR (core_of w) (core_of w').
Proof.
  intros H Ho. unfold pipe2_syscall in H. destruct (rdwr_pipe fl) as (R1 & R2 & R3 & R4). cbn zeta in *.
  destruct (next_fd _ c 0) as [a|] eqn:Ea in H; [|injection H as <- <-; auto]. apply next_fd_some in Ea as [Ea Har].
  destruct (next_fd _ c 0) as [b|] eqn:Eb in H; [|injection H as <- <-; specialize (Ho a eq_refl); lia].
  apply next_fd_some in Eb as [Eb _]. injection H as <- <-. wcbn.
  assert (a <> b) by (intros ->; rewrite lookup_insert in Eb; discriminate).
  rewrite lookup_insert_ne in Eb by congruence.
  apply one, t_pipe2; auto. congruence.
Qed.

Lemma epoll_trs w c n w' r : epoll_create_syscall w c n = Done (w', r) -> TR (core_of w) (core_of w').
Proof.
  unfold epoll_create_syscall. intros H. destruct (n <=? 0); [brk H; auto|].
  destruct (next_fd w c 0) eqn:E; [|brk H; auto]. apply next_fd_some in E as [E _]. injection H as <- <-. wcbn.
  apply one, t_put_other; auto.
Qed.

(** *** fork, exec, exit *)
Lemma filter_fresh (m : gmap (Z * Z) fdesc) c : (forall fd, m !! (c, fd) = None) ->
  filter (fun kd => kd.1.1 <> c) m = m.
Proof.
  intros H. apply map_eq. intros [a b]. destruct (m !! (a, b)) as [d|] eqn:E.
  - apply map_filter_lookup_Some. split; [assumption|]. cbn. intros ->. congruence.
  - apply map_filter_lookup_None. auto.
Qed.

Lemma put_over_trs w c fd d : (w_fds w !! (c, fd) = None \/ exists d0, w_fds w !! (c, fd) = Some d0 /\ target_of d0 = TNone) ->
  target_of d = TNone -> TR (core_of w) (core_of (put_fd c fd d w)).
Proof.
  intros [H|(d0 & H & H0)] Hd; wcbn.
  - apply one, t_put_other; auto.
  - eapply two; [eapply t_close_other; eauto|]. rewrite <- (insert_delete_insert (w_fds w)).
    apply one, t_put_other; auto. apply lookup_delete.
Qed.

Lemma fork_fd_trs ptab w c child fd w' : inv (core_of w) -> c <> child ->
  w_fds w !! (c, fd) = ptab !! (c, fd) ->
  (w_fds w !! (child, fd) = None \/ exists d0, w_fds w !! (child, fd) = Some d0 /\ target_of d0 = TNone) ->
  fork_fd ptab c child (Done w) fd = Done w' ->
  TR (core_of w) (core_of w') /\ w_cwd w' = w_cwd w /\
  w_fds w' = match ptab !! (c, fd) with Some d => <[(child, fd) := d]> (w_fds w) | None => w_fds w end.
Proof.
  intros Hi Hne Hp Hs H. unfold fork_fd in H. cbn [obind] in H.
  destruct (ptab !! (c, fd)) as [d|] eqn:Ed; [|injection H as <-; auto].
  (* first clear the child's slot *)
  assert (Hcl : exists w0, w0 = with_fds (delete (child, fd)) w /\ TR (core_of w) (core_of w0)).
  { eexists. split; [reflexivity|]. destruct Hs as [Hs|(d0 & Hs & H0)]; wcbn.
    - rewrite delete_notin by assumption. auto.
    - apply one. eapply t_close_other; eauto. }
  destruct Hcl as (w0 & E0 & Ht0). pose proof (trs_inv _ _ _ Ht0 Hi) as Hi0.
  assert (Hd0 : w_fds w0 !! (c, fd) = Some d) by (subst w0; wcbn; rewrite lookup_delete_ne by congruence; exact Hp).
  assert (Hn0 : w_fds w0 !! (child, fd) = None) by (subst w0; wcbn; apply lookup_delete).
  assert (Hgo : forall w1 w1', add_ref d w0 = Done (Some w1) -> w_fds w1' = w_fds w ->
      core_of (put_fd child fd d w1) = core_of (put_fd child fd d w1') -> w_cwd w1' = w_cwd w ->
      TR (core_of w) (core_of (put_fd child fd d w1')) /\ w_cwd (put_fd child fd d w1') = w_cwd w /\
      w_fds (put_fd child fd d w1') = <[(child, fd) := d]> (w_fds w)).
  { intros w1 w1' Ha Hf Hcore Hcw. wcbn. rewrite Hf, Hcw. split; [|auto].
    destruct (add_ref_trs _ child _ fd _ _ Hi0 Hd0 ltac:(congruence) Hn0 Ha d eq_refl) as (Ht & _).
    eapply rtc_transitive; [exact Ht0|]. wcbn. rewrite Hcore, Hf in Ht. exact Ht. }
  destruct d as [i pos fl|st fl|pid fl|fl]; cbn [obind] in H.
  - destruct (get_ino w i) as [x|] eqn:Hx; cbn [obind] in H; [|discriminate]. injection H as <-.
    assert (Hsock : i_kind x <> KSock) by (eapply (n_sock _ _ (v_n _ Hi)); apply get_ino_done in Hx; exact Hx).
    apply (Hgo (put_ino i (set_ref (i_ref x + 1) x) w0)); subst w0; try reflexivity.
    + unfold add_ref, get_ino in *. wcbn. rewrite (get_ino_done w i x Hx). cbn [obind].
      destruct (i_kind x); congruence || reflexivity.
    + wcbn. rewrite insert_delete_insert. reflexivity.
  - injection H as <-. apply (Hgo w0); subst w0; try reflexivity. wcbn. rewrite insert_delete_insert. reflexivity.
  - destruct (get_pipe w pid) as [p|] eqn:Hx; cbn [obind] in H; [|discriminate]. injection H as <-.
    apply (Hgo (with_pipes (insert pid (pipe_incr fl p)) w0)); subst w0; try reflexivity.
    + unfold add_ref, get_pipe in *. wcbn. rewrite (get_pipe_done w pid p Hx). reflexivity.
    + wcbn. rewrite insert_delete_insert. reflexivity.
  - injection H as <-. wcbn. split; [|auto]. eapply rtc_transitive; [exact Ht0|].
    eapply rtc_transitive; [apply (put_over_trs w0 child fd (FEpoll fl)); auto|]. subst w0. wcbn.
    rewrite insert_delete_insert. apply rtc_refl.
Qed.

Lemma fork_fd_panic ptab c child l : fold_left (fork_fd ptab c child) l Panic = Panic.
Proof. induction l; cbn; auto. Qed.

Lemma fork_fold_trs ptab c child l : forall w w', inv (core_of w) -> c <> child -> NoDup l ->
  (forall fd, w_fds w !! (c, fd) = ptab !! (c, fd)) ->
  (forall fd, fd ∈ l -> w_fds w !! (child, fd) = None \/ exists d0, w_fds w !! (child, fd) = Some d0 /\ target_of d0 = TNone) ->
  fold_left (fork_fd ptab c child) l (Done w) = Done w' ->
  TR (core_of w) (core_of w') /\ w_cwd w' = w_cwd w /\
  (forall a fd, a <> child -> w_fds w' !! (a, fd) = w_fds w !! (a, fd)) /\
  (forall fd, fd ∉ l -> w_fds w' !! (child, fd) = w_fds w !! (child, fd)) /\
  (forall fd d, fd ∈ l -> ptab !! (c, fd) = Some d -> w_fds w' !! (child, fd) = Some d) /\
  (forall fd, fd ∈ l -> ptab !! (c, fd) = None -> w_fds w' !! (child, fd) = w_fds w !! (child, fd)).
Proof.
  induction l as [|fd l IH]; intros w w' Hi Hne Hnd Hc Hs H.
  - cbn in H. injection H as <-. repeat split; auto; intros; set_solver.
  - cbn [fold_left] in H. destruct (fork_fd ptab c child (Done w) fd) as [w1|] eqn:E1; [|rewrite fork_fd_panic in H; discriminate].
    inversion Hnd as [|? ? Hnin Hnd']; subst.
    destruct (fork_fd_trs _ _ _ _ _ _ Hi Hne (Hc fd) (Hs fd ltac:(set_solver)) E1) as (Ht & Hcw & Hf).
    assert (Hother : forall a g, (a, g) <> (child, fd) -> w_fds w1 !! (a, g) = w_fds w !! (a, g)).
    { intros a g Hag. rewrite Hf. destruct (ptab !! (c, fd)); [|reflexivity]. rewrite lookup_insert_ne by congruence. reflexivity. }
    destruct (IH w1 w') as (Ht2 & Hcw2 & G1 & G2 & G3 & G4); auto.
    + eapply trs_inv; eauto.
    + intros g. rewrite Hother by congruence. apply Hc.
    + intros g Hg. rewrite Hother by congruence. apply Hs. set_solver.
    + split; [eapply rtc_transitive; eauto|]. split; [congruence|]. repeat split.
      * intros a g Ha. rewrite G1 by assumption. apply Hother. congruence.
      * intros g Hg. rewrite G2 by set_solver. apply Hother. set_solver.
      * intros g d Hg Hd. apply elem_of_cons in Hg as [->|Hg]; [|eauto].
        rewrite G2 by assumption. rewrite Hf, Hd. apply lookup_insert.
      * intros g Hg Hd. apply elem_of_cons in Hg as [->|Hg].
        -- rewrite G2 by assumption. rewrite Hf, Hd. reflexivity.
        -- rewrite G4 by assumption. apply Hother. set_solver.
Qed.

Lemma all_fds_nodup : NoDup all_fds.
Proof. apply NoDup_seqZ. Qed.
Lemma all_fds_elem fd : fd ∈ all_fds <-> 0 <= fd < MAXFD.
Proof. unfold all_fds. rewrite elem_of_seqZ. lia. Qed.

Opaque all_fds.

Lemma init_fdtable_lookup child m a fd :
  init_fdtable child m !! (a, fd) =
  if (a =? child) then if fd =? 0 then Some (FStream 0 O_RDONLY) else if fd =? 1 then Some (FStream 1 O_WRONLY)
    else if fd =? 2 then Some (FStream 2 O_WRONLY) else m !! (a, fd)
  else m !! (a, fd).
Proof.
  unfold init_fdtable. destruct (Z.eqb_spec a child) as [->|Hne].
  - destruct (Z.eqb_spec fd 0) as [->|]; [apply lookup_insert|]. rewrite lookup_insert_ne by congruence.
    destruct (Z.eqb_spec fd 1) as [->|]; [apply lookup_insert|]. rewrite lookup_insert_ne by congruence.
    destruct (Z.eqb_spec fd 2) as [->|]; [apply lookup_insert|]. rewrite lookup_insert_ne by congruence. reflexivity.
  - rewrite !lookup_insert_ne by congruence. reflexivity.
Qed.

Lemma fork_trs w c cwd child w' r : inv (core_of w) -> c <> child -> (forall fd, w_fds w !! (child, fd) = None) ->
  fork_syscall w c cwd child = Done (w', r) ->
  TR (core_of w) (core_of w') /\ r = 0 /\ w_cwd w' = <[child := cwd]> (w_cwd w) /\ 0 <= child < MAXCAGE /\
  (forall a fd, a <> child -> w_fds w' !! (a, fd) = w_fds w !! (a, fd)) /\
  (forall fd, w_fds w' !! (child, fd) =
     match (if bool_decide (0 <= fd < MAXFD) then w_fds w !! (c, fd) else None) with
     | Some d => Some d
     | None => init_fdtable child ∅ !! (child, fd)
     end).
Proof.
  intros Hi Hne Hfr H. unfold fork_syscall in H.
  set (w0 := with_fds _ w) in H.
  assert (Hf0 : w_fds w0 = init_fdtable child (w_fds w)).
  { subst w0. wcbn. rewrite filter_fresh by assumption. reflexivity. }
  assert (Ht0 : TR (core_of w) (core_of w0)).
  { eapply rtc_transitive; [apply (put_over_trs w child 2 (FStream 2 O_WRONLY)); auto|].
    eapply rtc_transitive; [apply (put_over_trs _ child 1 (FStream 1 O_WRONLY)); auto|].
    { left. wcbn. rewrite lookup_insert_ne by congruence. apply Hfr. }
    eapply rtc_transitive; [apply (put_over_trs _ child 0 (FStream 0 O_RDONLY)); auto|].
    { left. wcbn. rewrite !lookup_insert_ne by congruence. apply Hfr. }
    subst w0. wcbn. rewrite filter_fresh by assumption. apply rtc_refl. }
  pose proof (trs_inv _ _ _ Ht0 Hi) as Hi0.
  assert (Hcw0 : w_cwd w0 = w_cwd w) by reflexivity.
  destruct (fold_left _ all_fds (Done w0)) as [w1|] eqn:Ef; cbn [obind] in H; [|discriminate].
  apply fork_fold_trs in Ef as (Ht1 & Hcw1 & G1 & G2 & G3 & G4); auto using all_fds_nodup.
  2: { intros fd. rewrite Hf0, init_fdtable_lookup. destruct (Z.eqb_spec c child); [congruence|reflexivity]. }
  2: { intros fd _. rewrite Hf0, init_fdtable_lookup, Z.eqb_refl, Hfr.
       destruct (fd =? 0); [right; eauto|]. destruct (fd =? 1); [right; eauto|]. destruct (fd =? 2); [right; eauto|]. auto. }
  destruct (metawalk (w_ino w1) cwd) as [[i|]|]; cbn [obind] in H; try discriminate.
  destruct (get_ino w1 i) as [x|] eqn:Hx; cbn [obind] in H; [|discriminate]. apply get_ino_done in Hx.
  destruct (i_kind x) eqn:Hk; try discriminate.
  destruct ((child <? 0) || (MAXCAGE <=? child)) eqn:Em; [discriminate|]. injection H as <- <-. wcbn.
  split; [|split; [reflexivity|split; [congruence|split; [lia|split]]]].
  - eapply rtc_transitive; [exact Ht0|]. eapply rtc_transitive; [exact Ht1|]. apply one, t_dirref; auto.
  - intros a fd Ha. rewrite G1 by assumption. rewrite Hf0, init_fdtable_lookup.
    destruct (Z.eqb_spec a child); [congruence|reflexivity].
  - intros fd. assert (Hnone : w_fds w0 !! (child, fd) = init_fdtable child ∅ !! (child, fd)).
    { rewrite Hf0, !init_fdtable_lookup, Hfr, lookup_empty. reflexivity. }
    destruct (bool_decide_reflect (0 <= fd < MAXFD)) as [Hr|Hr].
    + rewrite <- all_fds_elem in Hr. destruct (w_fds w !! (c, fd)) as [d|] eqn:Ed.
      * apply G3; auto.
      * rewrite G4 by assumption. exact Hnone.
    + rewrite <- all_fds_elem in Hr. rewrite G2 by assumption. exact Hnone.
Qed.

Lemma close_in_panic c l : fold_left (close_fd_in c) l Panic = Panic.
Proof. induction l; cbn; auto. Qed.

Lemma close_fold_trs c l : forall w w', inv (core_of w) ->
  fold_left (close_fd_in c) l (Done w) = Done w' ->
  TR (core_of w) (core_of w') /\ w_cwd w' = w_cwd w /\
  (forall a fd, w_fds w' !! (a, fd) = if bool_decide (a = c /\ fd ∈ l) then None else w_fds w !! (a, fd)).
Proof.
  induction l as [|fd l IH]; intros w w' Hi H.
  - cbn in H. injection H as <-. repeat split; auto. intros a fd. rewrite bool_decide_eq_false_2; [reflexivity|].
    intros [_ Hc]. set_solver.
  - cbn [fold_left] in H. unfold close_fd_in at 2 in H. cbn [obind] in H.
    destruct (close_syscall w c fd) as [[w1 r]|] eqn:Ec; cbn [obind fst] in H; [|rewrite close_in_panic in H; discriminate].
    destruct (close_trs _ _ _ _ _ Hi Ec) as (Ht & Hf & Hcw).
    destruct (IH w1 w') as (Ht2 & Hcw2 & G); auto. { eapply trs_inv; eauto. }
    split; [eapply rtc_transitive; eauto|]. split; [congruence|].
    intros a g. rewrite G, Hf. repeat case_bool_decide; try reflexivity.
    + exfalso. apply H1. set_solver.
    + destruct H1 as [-> Hg]. apply elem_of_cons in Hg as [->|Hg]; [apply lookup_delete|].
      exfalso. apply H0. auto.
    + rewrite lookup_delete_ne; [reflexivity|]. intros [= <- <-]. apply H1. set_solver.
Qed.

Lemma move_fold_trs c child l : forall w, c <> child -> NoDup l ->
  (forall fd, fd ∈ l -> w_fds w !! (child, fd) = None) ->
  TR (core_of w) (core_of (with_fds (fun m => fold_left (move_fd c child) l m) w)) /\
  (forall a fd, fold_left (move_fd c child) l (w_fds w) !! (a, fd) =
     if bool_decide (fd ∈ l) then
       if a =? c then None else if a =? child then w_fds w !! (c, fd) else w_fds w !! (a, fd)
     else w_fds w !! (a, fd)).
Proof.
  induction l as [|fd l IH]; intros w Hne Hnd Hs.
  - split; [apply nil|]. intros a fd. rewrite bool_decide_eq_false_2 by set_solver. reflexivity.
  - inversion Hnd as [|? ? Hnin Hnd']; subst.
    set (w1 := with_fds (fun m => move_fd c child m fd) w).
    assert (Ht : TR (core_of w) (core_of w1)).
    { subst w1. unfold move_fd. wcbn. destruct (w_fds w !! (c, fd)) as [d|] eqn:E; [|apply nil].
      apply one. apply t_move; auto. apply Hs. set_solver. }
    assert (Hf1 : forall a g, w_fds w1 !! (a, g) = if g =? fd then
       if a =? c then None else if a =? child then w_fds w !! (c, fd) else w_fds w !! (a, g) else w_fds w !! (a, g)).
    { intros a g. subst w1. unfold move_fd. wcbn. destruct (w_fds w !! (c, fd)) as [d|] eqn:E.
      - destruct (Z.eqb_spec g fd) as [->|].
        + destruct (Z.eqb_spec a c) as [->|].
          * rewrite lookup_insert_ne by congruence. apply lookup_delete.
          * destruct (Z.eqb_spec a child) as [->|]; [apply lookup_insert|].
            rewrite lookup_insert_ne, lookup_delete_ne by congruence. reflexivity.
        + rewrite lookup_insert_ne, lookup_delete_ne by congruence. reflexivity.
      - destruct (Z.eqb_spec g fd) as [->|]; [|reflexivity].
        destruct (Z.eqb_spec a c) as [->|]; [assumption|].
        destruct (Z.eqb_spec a child) as [->|]; [|reflexivity]. apply Hs. set_solver. }
    destruct (IH w1) as (Ht2 & G); auto.
    { intros g Hg. rewrite Hf1. destruct (Z.eqb_spec g fd) as [->|]; [contradiction|]. apply Hs. set_solver. }
    split.
    + eapply rtc_transitive; [exact Ht|]. exact Ht2.
    + intros a g. cbn [fold_left].
      replace (move_fd c child (w_fds w) fd) with (w_fds w1) by reflexivity. rewrite G, !Hf1.
      destruct (Z.eqb_spec g fd) as [->|Hgf].
      * rewrite bool_decide_eq_false_2 by assumption. rewrite bool_decide_eq_true_2 by set_solver. reflexivity.
      * repeat case_bool_decide; try reflexivity; exfalso; set_solver.
Qed.

Lemma exec_trs w c cwd child w' r : inv (core_of w) -> (forall a fd d, w_fds w !! (a, fd) = Some d -> 0 <= fd < MAXFD) ->
  (child = c \/ forall fd, w_fds w !! (child, fd) = None) ->
  exec_syscall w c cwd child = Done (w', r) ->
  TR (core_of w) (core_of w') /\ r = 0 /\ w_cwd w' = <[child := cwd]> (delete c (w_cwd w)) /\ 0 <= child < MAXCAGE /\
  (forall a fd, w_fds w' !! (a, fd) =
     if a =? child then match w_fds w !! (c, fd) with
                        | Some d => if hasbit (fd_flags d) O_CLOEXEC then None else Some d
                        | None => None end
     else if a =? c then None else w_fds w !! (a, fd)).
Proof.
  intros Hi Hkey Hch H. unfold exec_syscall in H.
  set (cl := List.filter _ all_fds) in H.
  assert (Hcl : forall fd, fd ∈ cl <-> 0 <= fd < MAXFD /\ exists d, w_fds w !! (c, fd) = Some d /\ hasbit (fd_flags d) O_CLOEXEC = true).
  { intros fd. subst cl. rewrite elem_of_list_In, filter_In, <- elem_of_list_In, all_fds_elem.
    destruct (w_fds w !! (c, fd)) as [d|]; split; intros [? ?]; split; eauto; try discriminate.
    - destruct H1 as (? & [= <-] & ?). assumption.
    - destruct H1 as (? & ? & ?). discriminate. }
  clearbody cl.
  destruct (fold_left _ cl (Done w)) as [w1|] eqn:Ef; cbn [obind] in H; [|discriminate].
  destruct (close_fold_trs _ _ _ _ Hi Ef) as (Ht & Hcw & G).
  destruct ((child <? 0) || (MAXCAGE <=? child)) eqn:Em; [discriminate|].
  assert (Hkept : forall fd, w_fds w1 !! (c, fd) = match w_fds w !! (c, fd) with
                        | Some d => if hasbit (fd_flags d) O_CLOEXEC then None else Some d
                        | None => None end).
  { intros fd. rewrite G. case_bool_decide as Hb.
    - destruct Hb as [_ Hb]. apply Hcl in Hb as (_ & d & Hd & Hx). rewrite Hd, Hx. reflexivity.
    - destruct (w_fds w !! (c, fd)) as [d|] eqn:Ed; [|reflexivity].
      destruct (hasbit (fd_flags d) O_CLOEXEC) eqn:Ex; [|reflexivity].
      exfalso. apply Hb. split; [reflexivity|]. apply Hcl. split; [eapply Hkey; eauto|eauto]. }
  assert (Hoth : forall a fd, a <> c -> w_fds w1 !! (a, fd) = w_fds w !! (a, fd)).
  { intros a fd Ha. rewrite G. case_bool_decide; [|reflexivity]. tauto. }
  destruct (Z.eqb_spec child c) as [->|Hne].
  - injection H as <- <-. wcbn. split; [exact Ht|]. split; [reflexivity|]. split; [congruence|]. split; [lia|].
    intros a fd. destruct (Z.eqb_spec a c) as [->|]; [apply Hkept|apply Hoth; assumption].
  - destruct Hch as [?|Hch]; [contradiction|].
    assert (Hn1 : forall fd, w_fds w1 !! (child, fd) = None) by (intros fd; rewrite Hoth by assumption; apply Hch).
    rewrite filter_fresh in H by assumption. injection H as <- <-.
    destruct (move_fold_trs c child all_fds w1 ltac:(congruence) all_fds_nodup (fun fd _ => Hn1 fd)) as (Ht2 & G2).
    wcbn. split; [eapply rtc_transitive; [exact Ht|exact Ht2]|]. split; [reflexivity|]. split; [congruence|]. split; [lia|].
    intros a fd. rewrite G2. case_bool_decide as Hb; rewrite all_fds_elem in Hb.
    + destruct (Z.eqb_spec a c) as [->|].
      * destruct (Z.eqb_spec c child); [congruence|reflexivity].
      * destruct (Z.eqb_spec a child) as [->|]; [apply Hkept|apply Hoth; assumption].
    + assert (Hnone : forall a, w_fds w !! (a, fd) = None).
      { intros a'. destruct (w_fds w !! (a', fd)) eqn:E; [|reflexivity]. apply Hkey in E. contradiction. }
      rewrite G. rewrite !Hnone. destruct (bool_decide _), (a =? child), (a =? c); reflexivity.
Qed.

Lemma exit_trs w c st w' r : inv (core_of w) -> (forall a fd d, w_fds w !! (a, fd) = Some d -> 0 <= fd < MAXFD) ->
  exit_syscall w c st = Done (w', r) ->
  TR (core_of w) (core_of w') /\ r = st /\ w_cwd w' = delete c (w_cwd w) /\
  (forall a fd, w_fds w' !! (a, fd) = if a =? c then None else w_fds w !! (a, fd)).
Proof.
  intros Hi Hkey H. unfold exit_syscall in H.
  destruct (fold_left _ all_fds (Done w)) as [w1|] eqn:Ef; cbn [obind] in H; [|discriminate].
  destruct (close_fold_trs _ _ _ _ Hi Ef) as (Ht & Hcw & G).
  assert (Hn : forall fd, w_fds w1 !! (c, fd) = None).
  { intros fd. rewrite G. case_bool_decide as Hb; [reflexivity|]. destruct (w_fds w !! (c, fd)) eqn:E; [|reflexivity].
    exfalso. apply Hb. split; [reflexivity|]. apply all_fds_elem. eapply Hkey; eauto. }
  injection H as <- <-. wcbn. rewrite filter_fresh by assumption. rewrite Hcw.
  split; [exact Ht|]. split; [reflexivity|]. split; [reflexivity|].
  intros a fd. destruct (Z.eqb_spec a c) as [->|]; [apply Hn|]. rewrite G. case_bool_decide; [tauto|reflexivity].
Qed.

End Steps2.
