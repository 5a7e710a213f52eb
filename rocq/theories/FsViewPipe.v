(** Pipes as the view shows them: there are readers (writers) of a pipe, as
    the model counts them, exactly when some process has such an end; and the
    model's operations on the buffer are those of the specification. *)
From Verif Require Import Base CodecModel PathModel PathSpec PathProofs FsModel FsBoot FsSpec FsWalk Count FsNames FsTr FsInv FsInv2
  FsSteps FsSteps2 FsFrame FsReachSpec FsWinv FsNameSpec FsPath FdSpec FsDesc FsOps FsTmp FsRestart FsReach FsTree FsNameProofs FsIoSpec FsIo FsFail
  FsViewSpec FsView1 FsView2.
Local Open Scope list_scope.
Local Open Scope Z_scope.

Section pipes.
Context (w : world) (a : view) (Hr : reach false w) (Hs : shows w a).

Lemma has_end_iff f k : has_end f a k = true <-> exists key fl, w_fds w !! key = Some (FPipe k fl) /\ f fl = true.
Proof.
  unfold has_end. rewrite existsb_exists. split.
  - intros ([c pr] & Hin & H). apply elem_of_list_In, elem_of_map_to_list in Hin. apply existsb_exists in H as ([fd d] & Hd & H).
    apply elem_of_list_In, elem_of_map_to_list in Hd. cbn [fst snd] in *. destruct d as [| |k' fl|]; try discriminate H.
    apply andb_true_iff in H as [H1 H2]. apply Z.eqb_eq in H1 as ->. exists (c, fd), fl. split; [|exact H2].
    rewrite (sh_fd _ _ Hs), Hin. cbn [mbind option_bind]. rewrite Hd. reflexivity.
  - intros ([c fd] & fl & Hk & Hf). rewrite (sh_fd _ _ Hs) in Hk. destruct (vw_proc a !! c) as [pr|] eqn:Ep; [|discriminate Hk].
    cbn [mbind option_bind] in Hk. destruct (q_tab pr !! fd) as [d|] eqn:Ed; [|discriminate Hk]. cbn in Hk.
    destruct d as [| |k' fl'|]; try discriminate Hk. injection Hk as -> ->.
    exists (c, pr). split; [apply elem_of_list_In, elem_of_map_to_list; exact Ep|]. apply existsb_exists. exists (fd, DPipe k fl).
    split; [apply elem_of_list_In, elem_of_map_to_list; exact Ed|]. cbn. rewrite Z.eqb_refl. exact Hf.
Qed.

Lemma counts k p : w_pipes w !! k = Some p -> p_r p = nrd (w_fds w) k /\ p_w p = nwr (w_fds w) k.
Proof.
  intros Hp. pose proof (reach_winv _ _ Hr) as Hw. destruct (p_cnt _ _ _ (v_p _ (u_inv _ Hw)) _ _ Hp) as (-> & -> & _). cbn.
  assert (Hbox : forall c fd d, w_fds w !! (c, fd) = Some d -> 0 <= c < MAXCAGE /\ 0 <= fd < MAXFD).
  { intros c fd d Hd. apply (u_key _ Hw) in Hd as [? [cwd Hc]]. split; [|assumption]. eapply u_cage; eauto. }
  pose proof (box_size (w_fds w) (onread k) Hbox). pose proof (box_size (w_fds w) (onwrite k) Hbox).
  unfold nrd, nwr, to_u32, wrap_u, MAXCAGE, MAXFD in *. rewrite !Z.mod_small by lia. auto.
Qed.

Lemma readers k p : w_pipes w !! k = Some p -> has_end read_only a k = negb (p_r p =? 0).
Proof.
  intros Hp. destruct (counts _ _ Hp) as [E _]. apply eq_iff_eq_true. rewrite has_end_iff, negb_true_iff, Z.eqb_neq, E. unfold nrd.
  pose proof (cnt_pos (onread k) (w_fds w)) as Hc. pose proof (cnt_nonneg (onread k) (w_fds w)). split.
  - intros (key & fl & Hk & Hf). enough (0 < cnt (onread k) (w_fds w)) by lia. apply Hc. exists key, (FPipe k fl). split; [exact Hk|].
    unfold onread. cbn. rewrite Z.eqb_refl, rdonly3. exact Hf.
  - intros Hne. assert (Hpos : 0 < cnt (onread k) (w_fds w)) by lia. apply Hc in Hpos as (key & d & Hk & Hd). unfold onread in Hd. cbn [snd] in Hd.
    destruct d; cbn in Hd; try discriminate Hd. apply andb_true_iff in Hd as [H1 H2]. apply Z.eqb_eq in H1 as ->. rewrite rdonly3 in H2. eauto.
Qed.

Lemma writers k p : w_pipes w !! k = Some p -> has_end write_only a k = negb (p_w p =? 0).
Proof.
  intros Hp. destruct (counts _ _ Hp) as [_ E]. apply eq_iff_eq_true. rewrite has_end_iff, negb_true_iff, Z.eqb_neq, E. unfold nwr.
  pose proof (cnt_pos (onwrite k) (w_fds w)) as Hc. pose proof (cnt_nonneg (onwrite k) (w_fds w)). split.
  - intros (key & fl & Hk & Hf). enough (0 < cnt (onwrite k) (w_fds w)) by lia. apply Hc. exists key, (FPipe k fl). split; [exact Hk|].
    unfold onwrite. cbn. rewrite Z.eqb_refl, wronly3. exact Hf.
  - intros Hne. assert (Hpos : 0 < cnt (onwrite k) (w_fds w)) by lia. apply Hc in Hpos as (key & d & Hk & Hd). unfold onwrite in Hd. cbn [snd] in Hd.
    destruct d; cbn in Hd; try discriminate Hd. apply andb_true_iff in Hd as [H1 H2]. apply Z.eqb_eq in H1 as ->. rewrite wronly3 in H2. eauto.
Qed.

(** The bytes of one pipe change *)
Lemma pipe_view k p' : shows (with_pipes (insert k p') w) (with_pipe (insert k (p_buf p')) a).
Proof.
  apply (shows_keep w _ a); try reflexivity; try exact Hs.
  - apply same_dirs_refl.
  - intros i x Hx. split; [exact (sh_obj _ _ Hs _ _ Hx)|exact (sh_size _ _ Hs _ _ Hx)].
  - exact (sh_cwd _ _ Hs).
  - exact (sh_fd _ _ Hs).
  - intros j. cbn. destruct (decide (k = j)) as [<-|Hne]; [rewrite !lookup_insert; reflexivity|].
    rewrite !lookup_insert_ne by assumption. exact (sh_pipe _ _ Hs j).
Qed.
End pipes.

Lemma pipe_read_eq p n nb p' o : pipe_read p n nb = (p', o) -> take_out (p_buf p) n (negb (p_w p =? 0)) nb = (p_buf p', o).
Proof.
  unfold pipe_read, take_out. rewrite negb_involutive. destruct (n =? 0); [intros [= <- <-]; reflexivity|].
  destruct (p_buf p) as [|b l] eqn:Eb.
  - destruct (p_w p =? 0); [|destruct nb]; intros [= <- <-]; rewrite Eb; reflexivity.
  - intros [= <- <-]. reflexivity.
Qed.

Lemma pipe_write_eq p bs nb p' o : pipe_write p bs nb = (p', o) ->
  put_in (p_buf p) bs (negb (p_r p =? 0)) nb = (p_buf p', o) /\ p_r p' = p_r p.
Proof.
  unfold pipe_write, put_in, pipe_room, zlen. rewrite negb_involutive. change PIPE_CAPACITY with 65536. change PIPE_BUF with 4096.
  destruct (Z.of_nat (length bs) =? 0); [intros [= <- <-]; auto|]. destruct (p_r p =? 0); [intros [= <- <-]; auto|].
  destruct (65536 - Z.of_nat (length (p_buf p)) <? 4096) eqn:El; [intros [= <- <-]; auto|]. apply Z.ltb_ge in El.
  destruct (Z.leb_spec (Z.of_nat (length bs)) (65536 - Z.of_nat (length (p_buf p)))) as [Hle|Hgt].
  - rewrite (Z.min_l _ _ Hle), Z.eqb_refl, Nat2Z.id, firstn_all. intros [= <- <-]. auto.
  - rewrite (Z.min_r _ (65536 - Z.of_nat (length (p_buf p)))) by lia.
    replace (_ =? _) with false by (symmetry; apply Z.eqb_neq; lia). intros [= <- <-]. auto.
Qed.

Lemma pipe_writev_eq nb iov : forall p total p' o, pipe_writev p iov nb total = (p', o) ->
  put_all (p_buf p) iov (negb (p_r p =? 0)) nb total = (p_buf p', o).
Proof.
  induction iov as [|bs iov IH]; intros p total p' o; cbn [pipe_writev put_all]; [intros [= <- <-]; reflexivity|].
  destruct (pipe_write p bs nb) as [p1 o1] eqn:E. apply pipe_write_eq in E as [-> Er].
  destruct o1 as [r| | | | | |k]; try (intros [= <- <-]; reflexivity).
  rewrite <- Er. destruct (0 <? r); [apply IH|]. destruct (r =? err EPIPE); [intros [= <- <-]; reflexivity|].
  destruct (r =? err EAGAIN); [intros [= <- <-]; reflexivity|]. apply IH.
Qed.
