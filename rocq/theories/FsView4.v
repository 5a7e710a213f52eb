(** The specification machine of FsViewSpec: calls on data, descriptors and
    processes. *)
From Verif Require Import Base CodecModel PathModel PathSpec PathProofs FsModel FsBoot FsSpec FsWalk Count FsNames FsTr FsInv FsInv2
  FsSteps FsSteps2 FsFrame FsReachSpec FsWinv FsTmp FsReach FsTree FsNameSpec FsPath FdSpec FsDesc FsOps FsNameProofs FsIoSpec FsIo FsFail FsViewSpec FsViewInv FsView1 FsView2 FsView3 FsViewDir FsViewPipe.
Local Open Scope list_scope.
Local Open Scope Z_scope.
Opaque all_fds next_fd.

Definition follows (w : world) (a : view) (c : Z) (op0 : op) (w' : world) (r : out) : Prop :=
  exists a', aexec a c op0 = (a', r) /\ shows w' a'.

Lemma give_view w a c pr fd d : shows w a -> vw_proc a !! c = Some pr -> shows (put_fd c fd (seen_des d) w) (give c fd d a).
Proof.
  intros Hs Hp. unfold give, retab. apply (shows_quiet w); [exact Hs|apply quiet_same; reflexivity|exact (cwd_retab w a c _ Hs)|].
  apply (fds_put w a c pr _ fd d Hs Hp). reflexivity.
Qed.

Lemma kind_view w a i x : shows w a -> w_ino w !! i = Some x -> kind_of a i = Some (o_kind (seen_obj x (bytes w i))).
Proof. intros Hs Hx. unfold kind_of. rewrite (sh_obj _ _ Hs _ _ Hx). reflexivity. Qed.

Lemma obj_view w a i x : shows w a -> w_ino w !! i = Some x -> vw_obj a !! i = Some (seen_obj x (bytes w i)).
Proof. intros Hs Hx. exact (sh_obj _ _ Hs _ _ Hx). Qed.

(** ** chmod *)
Lemma chmod_view w a i m w' r : shows w a -> winv w -> is_Some (w_ino w !! i) -> chmod_helper i m w = Done (w', r) ->
  exists a', achmod a i m = (a', Ret r) /\ shows w' a'.
Proof.
  intros Hs Hw [x Hx] H. unfold chmod_helper in H. unfold achmod. change S_IRWXA with 511 in H.
  destruct (Z.land m 511 =? m); [|same_view H Hs]. unfold get_ino in H. rewrite Hx in H. cbn [obind] in H.
  set (w1 := put_ino i (set_mode (Z.lor (Z.ldiff (i_mode x) 511) m) x) w) in *.
  assert (Hs1 : shows w1 (with_obj (alter (new_mode m) i) a)).
  { apply (shows_keep w w1 a); try reflexivity; try exact Hs.
    - unfold w1. wcbn. apply (same_dirs_one _ _ x); (assumption || reflexivity).
    - apply (one_obj w w1 a _ i x (set_mode (Z.lor (Z.ldiff (i_mode x) 511) m) x) Hs Hx).
      + reflexivity.
      + intros. reflexivity.
      + reflexivity.
      + exact (sh_size _ _ Hs _ _ Hx).
    - exact (sh_cwd _ _ Hs).
    - exact (sh_fd _ _ Hs).
    - exact (sh_pipe _ _ Hs). }
  assert (Hs2 : shows (log_meta i w1) (with_obj (alter (new_mode m) i) a)).
  { assert (E : with_obj (alter (new_mode m) i) a = with_proc (fun p => p) (with_obj (alter (new_mode m) i) a)) by reflexivity.
    rewrite E. apply (shows_quiet w1); [exact Hs1|apply quiet_same; reflexivity|exact (sh_cwd _ _ Hs1)|exact (sh_fd _ _ Hs1)]. }
  eexists. split; [|destruct (i_kind x); injection H as <- <-; eassumption]. injection H as _ <-. reflexivity.
Qed.

(** ** The bytes of one file change *)
Lemma data_view w w' a i x y l f : shows w a -> w_ino w !! i = Some x -> i_kind x = KFile -> bytes w i = Some l ->
  w_ino w' = <[i := y]> (w_ino w) -> i_kind y = i_kind x -> i_dict y = i_dict x -> i_mode y = i_mode x -> i_link y = i_link x ->
  d_host (w_disk w') = <[i := f l]> (d_host (w_disk w)) -> w_next w' = w_next w -> kp w w' -> w_pipes w' = w_pipes w ->
  shows w' (with_obj (alter (new_bytes f) i) a).
Proof.
  intros Hs Hx Hk Hl Ht E1 E2 E3 E4 Hh Hn [K1 K2] K3. apply (shows_keep w w' a); try reflexivity; try assumption.
  - rewrite Ht. apply (same_dirs_one _ _ x); assumption.
  - apply (one_obj w w' a _ i x y Hs Hx Ht).
    + intros j Hj _. unfold bytes. rewrite Hh, lookup_insert_ne by congruence. reflexivity.
    + unfold seen_obj. rewrite E1, E3, E4, Hk. unfold new_bytes. cbn [o_kind o_mode o_link]. rewrite Hl. unfold bytes.
      rewrite Hh, lookup_insert. reflexivity.
    + congruence.
  - rewrite K2. exact (sh_cwd _ _ Hs).
  - rewrite K1. exact (sh_fd _ _ Hs).
  - rewrite K3. exact (sh_pipe _ _ Hs).
Qed.

Lemma patch_eq pos bs l : 0 <= pos -> write_at pos bs (padded pos l) = patch pos bs l.
Proof.
  intros Hp. unfold padded, len. destruct (Z.ltb_spec 0 (pos - Z.of_nat (length l))) as [Hlt|Hge].
  - assert (E : write_at (Z.of_nat (length l)) (replicate (Z.to_nat (pos - Z.of_nat (length l))) 0) l
        = l ++ replicate (Z.to_nat pos - length l) 0).
    { unfold write_at. replace (Z.to_nat (pos - Z.of_nat (length l))) with (Z.to_nat pos - length l)%nat by lia.
      destruct (replicate (Z.to_nat pos - length l) 0) as [|z r] eqn:Er.
      - rewrite app_nil_r. reflexivity.
      - rewrite Nat2Z.id, Nat.sub_diag. cbn [replicate]. rewrite app_nil_r, firstn_all. rewrite (drop_ge l) by lia. rewrite app_nil_r. reflexivity. }
    rewrite E. unfold patch. rewrite (drop_ge l) by lia.
    assert (El : length (l ++ replicate (Z.to_nat pos - length l) 0) = Z.to_nat pos) by (rewrite app_length, replicate_length; lia).
    unfold write_at. destruct bs as [|z r].
    + rewrite (take_ge (l ++ _)) by lia. rewrite !app_nil_r. reflexivity.
    + rewrite El, Nat.sub_diag. cbn [replicate]. rewrite app_nil_r. rewrite (drop_ge (l ++ _)) by lia. reflexivity.
  - unfold patch. replace (Z.to_nat pos - length l)%nat with 0%nat by lia. cbn [replicate]. rewrite app_nil_r.
    unfold write_at. destruct bs as [|z r].
    + cbn [app length]. rewrite Nat.add_0_r. symmetry. apply take_drop.
    + replace (Z.to_nat pos - length l)%nat with 0%nat by lia. cbn [replicate]. rewrite app_nil_r. reflexivity.
Qed.

Lemma resize_eq n l : 0 <= n ->
  (if len l <? n then write_at (len l) (replicate (Z.to_nat (n - len l)) 0) l else take (Z.to_nat n) l) = resize n l.
Proof.
  intros Hn. unfold resize, len. destruct (Z.ltb_spec (Z.of_nat (length l)) n) as [Hlt|Hge].
  - replace (Z.to_nat (n - Z.of_nat (length l))) with (Z.to_nat n - length l)%nat by lia.
    rewrite (take_ge (l ++ _)) by (rewrite app_length, replicate_length; lia).
    unfold write_at. destruct (replicate (Z.to_nat n - length l) 0) as [|z r] eqn:Er; [rewrite app_nil_r; reflexivity|].
    rewrite Nat2Z.id, Nat.sub_diag. cbn [replicate]. rewrite app_nil_r, firstn_all. rewrite (drop_ge l) by lia. rewrite app_nil_r. reflexivity.
  - replace (Z.to_nat n - length l)%nat with 0%nat by lia. cbn [replicate]. rewrite app_nil_r. reflexivity.
Qed.

Definition resized (x y : inode) : Prop := exists s, y = set_size s x.

Lemma file_write_ino i pos bs x w w' : w_ino w !! i = Some x -> file_write i pos bs x w = Done w' ->
  (exists y, w_ino w' = <[i := y]> (w_ino w) /\ resized x y) /\ w_next w' = w_next w /\ w_pipes w' = w_pipes w.
Proof.
  intros Hx H. unfold file_write in H.
  match type of H with obind ?q _ = _ => destruct q as [w1|] eqn:E1; cbn [obind] in H; [|discriminate H] end.
  destruct (writeat i pos bs w1) as [w2|] eqn:E2; cbn [obind] in H; [|discriminate H].
  assert (K1 : w_ino w1 = w_ino w /\ w_next w1 = w_next w /\ w_pipes w1 = w_pipes w).
  { destruct (0 <? pos - i_size x).
    - unfold zerofill in E1. destruct (w_fobj w !! i); [|discriminate E1]. destruct (_ <? _) in E1; [discriminate E1|]. injection E1 as <-. auto.
    - destruct (w_fobj w !! i); [|discriminate E1]. injection E1 as <-. auto. }
  assert (K2 : w_ino w2 = w_ino w /\ w_next w2 = w_next w /\ w_pipes w2 = w_pipes w).
  { unfold writeat in E2. destruct (w_fobj w1 !! i); [|discriminate E2]. destruct (_ || _) in E2; [discriminate E2|]. injection E2 as <-. exact K1. }
  destruct K2 as [K2 K3]. destruct (i_size x <? _); injection H as <-.
  - split; [|exact K3]. eexists. split; [wcbn; rewrite K2; reflexivity|]. eexists. reflexivity.
  - split; [|exact K3]. exists x. split; [rewrite K2, insert_id by exact Hx; reflexivity|]. exists (i_size x). destruct x. reflexivity.
Qed.

Lemma truncate_ino i n must x w w' r : w_ino w !! i = Some x -> i_kind x = KFile -> 0 <= n -> truncate_helper i n must w = Done (w', r) ->
  (exists y, w_ino w' = <[i := y]> (w_ino w) /\ resized x y) /\ w_next w' = w_next w /\ w_pipes w' = w_pipes w.
Proof.
  intros Hx Hk Hn H. unfold truncate_helper in H. destruct (Z.ltb_spec n 0); [lia|].
  unfold get_ino in H. rewrite Hx in H. cbn [obind] in H. rewrite Hk in H. destruct (_ && must) in H; [discriminate H|].
  match type of H with obind ?q _ = _ => destruct q as [w2|] eqn:E2; cbn [obind] in H; [|discriminate H] end.
  match type of E2 with context [if ?b then w else ?e] => set (w1 := if b then w else e) in * end.
  assert (K1 : w_ino w1 = w_ino w /\ w_next w1 = w_next w /\ w_pipes w1 = w_pipes w) by (subst w1; destruct (w_fobj w !! i); auto). clearbody w1.
  assert (K2 : w_ino w2 = w_ino w /\ w_next w2 = w_next w /\ w_pipes w2 = w_pipes w).
  { destruct (i_size x <? n).
    - unfold zerofill in E2. destruct (w_fobj w1 !! i); [|discriminate E2]. destruct (_ <? _) in E2; [discriminate E2|]. injection E2 as <-. exact K1.
    - destruct (w_fobj w1 !! i); [|discriminate E2]. destruct (_ <? _) in E2; [discriminate E2|]. injection E2 as <-. exact K1. }
  destruct K2 as [K2 K3]. injection H as <- _. split; [|destruct (w_fobj w !! i); exact K3].
  eexists. split; [wcbn; destruct (w_fobj w !! i); wcbn; rewrite K2; reflexivity|]. eexists. reflexivity.
Qed.

Lemma write_view w a i pos bs x w' : shows w a -> winv w -> w_ino w !! i = Some x -> i_kind x = KFile ->
  file_write i pos bs x w = Done w' -> shows w' (with_obj (alter (new_bytes (patch pos bs)) i) a).
Proof.
  intros Hs Hw Hx Hk H. destruct (inv_file w i x (u_inv _ Hw) Hx Hk) as (_ & l & Hl & _).
  destruct (file_write_post _ _ _ _ _ _ _ (u_inv _ Hw) Hx Hk Hl H) as [Hp Hh].
  destruct (file_write_ino _ _ _ _ _ _ Hx H) as [(y & Hy & (s & ->)) [Hn Hpi]].
  apply (data_view w w' a i x (set_size s x) l); try assumption; try reflexivity.
  - rewrite Hh, patch_eq by exact Hp. reflexivity.
  - eapply file_write_kp; eauto.
Qed.

Lemma trunc_view w a i n must w' r : shows w a -> winv w -> is_Some (w_ino w !! i) ->
  truncate_helper i n must w = Done (w', r) -> exists a', atrunc a i n = (a', Ret r) /\ shows w' a'.
Proof.
  intros Hs Hw [x Hx] H. unfold atrunc. pose proof H as H0. unfold truncate_helper in H.
  destruct (n <? 0) eqn:En; [same_view H Hs|]. apply Z.ltb_ge in En. rewrite (kind_view _ _ _ _ Hs Hx). unfold seen_obj. cbn [o_kind].
  unfold get_ino in H. rewrite Hx in H. cbn [obind] in H. destruct (i_kind x) eqn:Hk.
  - destruct (inv_file w i x (u_inv _ Hw) Hx Hk) as (_ & l & Hl & _).
    destruct (truncate_post _ _ _ _ _ _ _ _ (u_inv _ Hw) Hx Hk Hl En H0) as [-> Hh].
    destruct (truncate_ino _ _ _ _ _ _ _ Hx Hk En H0) as [(y & Hy & (s & ->)) [Hn Hpi]].
    eexists. split; [reflexivity|]. apply (data_view w w' a i x (set_size s x) l); try assumption; try reflexivity.
    + rewrite Hh, resize_eq by exact En. reflexivity.
    + eapply truncate_kp; eauto.
  - same_view H Hs.
  - same_view H Hs.
  - exfalso. exact (n_sock _ _ (v_n _ (u_inv _ Hw)) _ _ Hx Hk).
Qed.

(** ** Calls on paths *)
Ltac start Hr Hs Hp Hst H Hw Hcan :=
  pose proof (reach_winv _ _ Hr) as Hw; pose proof (proc_canonical _ _ _ _ Hw Hs Hp) as Hcan;
  unfold follows; unfold aexec; rewrite Hp; pose proof Hst as H; unfold step in H; rewrite (cwd_of _ _ _ _ Hs Hp) in H; cbv zeta.

Lemma ret_done (e : outcome (world * Z)) w' o : ret e = Done (w', o) -> exists r, e = Done (w', r) /\ o = Ret r.
Proof. unfold ret. destruct e as [[w1 r1]|]; cbn [obind fst snd]; [|discriminate]. intros H. injection H as <- <-. eauto. Qed.

Lemma same_done w (e : outcome out) w' o : same w e = Done (w', o) -> e = Done o /\ w' = w.
Proof. unfold same. destruct e as [o1|]; cbn [obind]; [|discriminate]. intros H. injection H as <- <-. auto. Qed.

Lemma s_chmod w a c pr p m w' o : reach false w -> shows w a -> vw_proc a !! c = Some pr -> step w c (Chmod p m) = Done (w', o) -> follows w a c (Chmod p m) w' o.
Proof.
  intros Hr Hs Hp Hst. start Hr Hs Hp Hst H Hw Hcan. apply ret_done in H as (r & H & ->). rewrite where_is_eq. unfold at_path, chmod_syscall in *.
  rewrite (mwk_view _ _ _ Hs Hw (normpath_canonical (q_cwd pr) p Hcan)) in H. cbn [obind] in H.
  destruct (vw_at a !! normpath (q_cwd pr) p) as [i|] eqn:Ea; [|same_view H Hs].
  destruct (at_exists _ _ _ _ Hs Hw Ea) as [x Hx]. eapply chmod_view; eauto.
Qed.

Lemma s_truncate w a c pr p n w' o : reach false w -> shows w a -> vw_proc a !! c = Some pr -> step w c (Truncate p n) = Done (w', o) -> follows w a c (Truncate p n) w' o.
Proof.
  intros Hr Hs Hp Hst. start Hr Hs Hp Hst H Hw Hcan. apply ret_done in H as (r & H & ->). rewrite where_is_eq. unfold at_path, truncate_syscall in *.
  rewrite (mwk_view _ _ _ Hs Hw (normpath_canonical (q_cwd pr) p Hcan)) in H. cbn [obind] in H.
  destruct (vw_at a !! normpath (q_cwd pr) p) as [i|] eqn:Ea; [|same_view H Hs].
  destruct (at_exists _ _ _ _ Hs Hw Ea) as [x Hx]. eapply trunc_view; eauto.
Qed.

Lemma stat_view w a i x : shows w a -> winv w -> w_ino w !! i = Some x -> astat a i = (a, stat_of i x).
Proof.
  intros Hs Hw Hx. unfold astat. rewrite (sh_obj _ _ Hs _ _ Hx). unfold seen_obj, stat_of. cbn [o_mode o_link o_kind].
  pose proof (sh_size _ _ Hs _ _ Hx) as Hsz. destruct (i_kind x) eqn:Hk.
  - destruct (inv_file w i x (u_inv _ Hw) Hx Hk) as (_ & l & Hl & E). unfold bytes. rewrite Hl. cbn [default from_option id]. unfold zlen. rewrite E. reflexivity.
  - rewrite Hsz by congruence. reflexivity.
  - rewrite Hsz by congruence. reflexivity.
  - rewrite Hsz by congruence. reflexivity.
Qed.

Lemma s_stat w a c pr p w' o : reach false w -> shows w a -> vw_proc a !! c = Some pr -> step w c (Stat p) = Done (w', o) -> follows w a c (Stat p) w' o.
Proof.
  intros Hr Hs Hp Hst. start Hr Hs Hp Hst H Hw Hcan. apply same_done in H as [H ->]. rewrite where_is_eq. unfold at_path, stat_syscall in *.
  rewrite (mwk_view _ _ _ Hs Hw (normpath_canonical (q_cwd pr) p Hcan)) in H. cbn [obind] in H.
  destruct (vw_at a !! normpath (q_cwd pr) p) as [i|] eqn:Ea.
  - destruct (at_exists _ _ _ _ Hs Hw Ea) as [x Hx]. unfold get_ino in H. rewrite Hx in H. cbn [obind] in H. injection H as <-.
    exists a. split; [eapply stat_view; eauto|exact Hs].
  - injection H as <-. exists a. split; [reflexivity|exact Hs].
Qed.

Lemma s_access w a c pr p m w' o : reach false w -> shows w a -> vw_proc a !! c = Some pr -> step w c (Access p m) = Done (w', o) -> follows w a c (Access p m) w' o.
Proof.
  intros Hr Hs Hp Hst. start Hr Hs Hp Hst H Hw Hcan. rewrite where_is_eq. unfold at_path. pose proof (normpath_canonical (q_cwd pr) p Hcan) as Hq.
  destruct (vw_at a !! normpath (q_cwd pr) p) as [i|] eqn:Ea.
  - destruct (at_exists _ _ _ _ Hs Hw Ea) as [x Hx]. pose proof (proj1 (sh_at _ _ Hs _ _) Ea) as [_ Hri].
    destruct (access_exact w c (q_cwd pr) p _ i x m (reach_weaken _ Hr) (cwd_of _ _ _ _ Hs Hp) (proj2 (denotes_normpath _ _ _) eq_refl) Hri Hx) as [A1 A2].
    unfold aaccess. rewrite (sh_obj _ _ Hs _ _ Hx). unfold seen_obj. cbn [o_mode]. unfold owner_may in A1, A2.
    match goal with |- context [if ?b then no a EACCES else _] => destruct b eqn:Eb end.
    + assert (Hn : ~ owner_may (i_mode x) m).
      { intros (O3 & O2 & O1). apply orb_true_iff in Eb as [Eb|Eb]; [apply orb_true_iff in Eb as [Eb|Eb]|]; apply andb_true_iff in Eb as [B1 B2];
          apply negb_true_iff in B2; [rewrite (O3 B1) in B2|rewrite (O2 B1) in B2|rewrite (O1 B1) in B2]; discriminate B2. }
      rewrite (A2 Hn) in Hst. injection Hst as <- <-. exists a. split; [reflexivity|exact Hs].
    + assert (Hn : owner_may (i_mode x) m).
      { apply orb_false_iff in Eb as [Eb B0]; apply orb_false_iff in Eb as [B2 B1]. unfold owner_may.
        split; [|split]; intros E; rewrite E in *; cbn [andb] in *; apply negb_false_iff; assumption. }
      rewrite (A1 Hn) in Hst. injection Hst as <- <-. exists a. split; [reflexivity|exact Hs].
  - apply ret_done in H as (r & H & ->). unfold access_syscall in H. rewrite (mwk_view _ _ _ Hs Hw Hq), Ea in H. cbn [obind] in H. same_view H Hs.
Qed.

Lemma s_chdir w a c pr p w' o : reach false w -> shows w a -> vw_proc a !! c = Some pr -> step w c (Chdir p) = Done (w', o) -> follows w a c (Chdir p) w' o.
Proof.
  intros Hr Hs Hp Hst. start Hr Hs Hp Hst H Hw Hcan. apply ret_done in H as (r & H & ->). rewrite where_is_eq. unfold at_path, chdir_syscall in *. cbv zeta in H.
  rewrite (mwk_view _ _ _ Hs Hw (normpath_canonical (q_cwd pr) p Hcan)) in H. cbn [obind] in H.
  destruct (vw_at a !! normpath (q_cwd pr) p) as [i|] eqn:Ea; [|same_view H Hs].
  destruct (at_exists _ _ _ _ Hs Hw Ea) as [x Hx]. unfold get_ino in H. rewrite Hx in H. cbn [obind] in H.
  rewrite (is_adir_eq _ _ _ _ Hs Hw Hx). destruct (isdirk x) eqn:Ed.
  - apply isdirk_true in Ed. rewrite Ed in H. injection H as <- <-. eexists. split; [reflexivity|].
    apply (shows_quiet w); [exact Hs|apply quiet_same; reflexivity| |].
    + intros c'. wcbn. destruct (decide (c = c')) as [<-|Hne]; [rewrite !lookup_insert; reflexivity|].
      rewrite !lookup_insert_ne by assumption. apply (sh_cwd _ _ Hs).
    + intros c' fd. wcbn. rewrite (sh_fd _ _ Hs). destruct (decide (c = c')) as [<-|Hne]; [rewrite lookup_insert, Hp; reflexivity|].
      rewrite lookup_insert_ne by assumption. reflexivity.
  - assert (Hk : i_kind x <> KDir) by (intros E; apply isdirk_true in E; congruence).
    destruct (i_kind x); try congruence; same_view H Hs.
Qed.

Lemma s_getcwd w a c pr n w' o : reach false w -> shows w a -> vw_proc a !! c = Some pr -> step w c (Getcwd n) = Done (w', o) -> follows w a c (Getcwd n) w' o.
Proof.
  intros Hr Hs Hp Hst. start Hr Hs Hp Hst H Hw Hcan. injection H as <- <-. unfold getcwd_syscall.
  destruct (n =? 0); [exists a; split; [reflexivity|exact Hs]|]. destruct (n <? _); exists a; (split; [reflexivity|exact Hs]).
Qed.

(** ** Calls on descriptors *)
Ltac slot Hs Hp H :=
  match type of H with obind (fd_slot ?w ?c ?fd) _ = _ =>
    let E := fresh "Eslot" in destruct (fd_slot w c fd) as [s|] eqn:E; cbn [obind] in H; [|discriminate H];
    rewrite (slot_view _ _ _ _ _ _ Hs Hp E) in H; clear E end;
  unfold on_fd;
  match type of H with context [seen_des <$> ?o] => destruct o as [[i pos fl|st fl|pk fl|fl]|] eqn:Eq; cbn [fmap option_fmap option_map seen_des] in H end.

Ltac the_ino H i Hx :=
  unfold get_ino in H; match type of H with context [w_ino ?w !! i] => destruct (w_ino w !! i) as [x|] eqn:Hx; cbn [obind] in H; [|discriminate H] end.

Lemma s_fchmod w a c pr fd m w' o : reach false w -> shows w a -> vw_proc a !! c = Some pr -> step w c (Fchmod fd m) = Done (w', o) -> follows w a c (Fchmod fd m) w' o.
Proof.
  intros Hr Hs Hp Hst. start Hr Hs Hp Hst H Hw Hcan. apply ret_done in H as (r & H & ->). unfold fchmod_syscall in H.
  slot Hs Hp H; [|same_view H Hs..].
  pose proof H as H0. unfold chmod_helper in H0. unfold achmod. change S_IRWXA with 511 in H0. destruct (Z.land m 511 =? m) eqn:Em; [|same_view H0 Hs].
  the_ino H0 i Hx. destruct (chmod_view w a i m w' r Hs Hw ltac:(eauto) H) as (a' & E & Hs'). unfold achmod in E. rewrite Em in E. eauto.
Qed.

Lemma s_ftruncate w a c pr fd n w' o : reach false w -> shows w a -> vw_proc a !! c = Some pr -> step w c (Ftruncate fd n) = Done (w', o) -> follows w a c (Ftruncate fd n) w' o.
Proof.
  intros Hr Hs Hp Hst. start Hr Hs Hp Hst H Hw Hcan. apply ret_done in H as (r & H & ->). unfold ftruncate_syscall in H.
  slot Hs Hp H; [|same_view H Hs..]. rewrite rdonly3 in H. unfold read_only. destruct (Z.land fl 3 =? 0); [same_view H Hs|].
  pose proof H as H0. unfold truncate_helper in H0. destruct (n <? 0) eqn:En.
  { unfold atrunc. rewrite En. same_view H0 Hs. }
  the_ino H0 i Hx. eapply trunc_view; eauto.
Qed.

Lemma s_fstat w a c pr fd w' o : reach false w -> shows w a -> vw_proc a !! c = Some pr -> step w c (Fstat fd) = Done (w', o) -> follows w a c (Fstat fd) w' o.
Proof.
  intros Hr Hs Hp Hst. start Hr Hs Hp Hst H Hw Hcan. apply same_done in H as [H ->]. unfold fstat_syscall in H.
  slot Hs Hp H.
  - the_ino H i Hx. injection H as <-. exists a. split; [eapply stat_view; eauto|exact Hs].
  - injection H as <-. exists a. split; [reflexivity|exact Hs].
  - injection H as <-. exists a. split; [reflexivity|exact Hs].
  - injection H as <-. exists a. split; [reflexivity|exact Hs].
  - injection H as <-. exists a. split; [reflexivity|exact Hs].
Qed.

(** A pipe, its bytes, and the state after an operation on it *)
Ltac the_pipe Hs H k p Hpk :=
  unfold get_pipe in H; match type of H with context [w_pipes ?w !! k] => destruct (w_pipes w !! k) as [p|] eqn:Hpk; cbn [obind] in H; [|discriminate H] end;
  rewrite (sh_pipe _ _ Hs k), Hpk; cbn [fmap option_fmap option_map default from_option id].

Lemma read_dev a0 b n : read_chr a0 b n = dev_read a0 b n.
Proof. unfold read_chr, dev_read. destruct (a0 =? 1); reflexivity. Qed.

Lemma s_read w a c pr fd n w' o : reach false w -> shows w a -> vw_proc a !! c = Some pr -> step w c (Read fd n) = Done (w', o) -> follows w a c (Read fd n) w' o.
Proof.
  intros Hr Hs Hp Hst. start Hr Hs Hp Hst H Hw Hcan. unfold read_syscall in H.
  slot Hs Hp H; [|same_view H Hs| |same_view H Hs|same_view H Hs].
  2:{ rewrite wronly3 in H. unfold write_only at 1. destruct (Z.land fl 3 =? 1); [same_view H Hs|]. the_pipe Hs H pk p Hpk.
      rewrite (writers w a Hr Hs _ _ Hpk). destruct (pipe_read p n _) as [p' o'] eqn:E. rewrite (pipe_read_eq _ _ _ _ _ E). injection H as <- <-.
      eexists. split; [reflexivity|]. exact (pipe_view w a Hs pk p'). }
  rewrite wronly3 in H. unfold write_only. destruct (Z.land fl 3 =? 1); [same_view H Hs|].
  the_ino H i Hx. unfold aread. rewrite (kind_view _ _ _ _ Hs Hx). unfold seen_obj. cbn [o_kind]. destruct (i_kind x) eqn:Hk.
  - unfold readat in H. destruct (w_fobj w !! i); [|discriminate H]. destruct (_ || _) in H; cbn [obind] in H; [discriminate H|]. injection H as <- <-.
    eexists. split; [reflexivity|]. apply (give_view w a c pr fd (DFile i _ fl) Hs Hp).
  - same_view H Hs.
  - rewrite read_dev in H. same_view H Hs.
  - discriminate H.
Qed.

Lemma s_pread w a c pr fd n off w' o : reach false w -> shows w a -> vw_proc a !! c = Some pr -> step w c (Pread fd n off) = Done (w', o) -> follows w a c (Pread fd n off) w' o.
Proof.
  intros Hr Hs Hp Hst. start Hr Hs Hp Hst H Hw Hcan. apply same_done in H as [H ->]. unfold pread_syscall in H.
  assert (K : forall o', Done o' = Done o -> exists a', (a, o') = (a', o) /\ shows w a') by (intros o' [= ->]; eauto).
  slot Hs Hp H; [|exact (K _ H)..]. rewrite wronly3 in H. unfold write_only. destruct (Z.land fl 3 =? 1); [exact (K _ H)|].
  the_ino H i Hx. unfold aread. rewrite (kind_view _ _ _ _ Hs Hx). unfold seen_obj. cbn [o_kind]. destruct (i_kind x) eqn:Hk.
  - unfold readat in H. destruct (w_fobj w !! i); [|discriminate H]. destruct (_ || _) in H; cbn [obind] in H; [discriminate H|]. exact (K _ H).
  - exact (K _ H).
  - rewrite read_dev in H. exact (K _ H).
  - discriminate H.
Qed.

Lemma write_some w a c pr fd i pos fl bs w' o : reach false w -> winv w -> shows w a -> vw_proc a !! c = Some pr ->
  (do x <- get_ino w i;
      match i_kind x with
      | KDir => Done (w, Ret (err EISDIR))
      | KFile =>
          do w1 <- file_write i pos bs x w;
          Done (put_fd c fd (FFile i (pos + Z.of_nat (length bs)) fl) w1, Ret (to_i32 (Z.of_nat (length bs))))
      | KChr a b => Done (w, Ret (write_chr a b (Z.of_nat (length bs))))
      | KSock => Panic
      end) = Done (w', o) ->
  exists a', awrite a i pos bs (give c fd (DFile i (pos + zlen bs) fl)) = (a', o) /\ shows w' a'.
Proof.
  intros Hr Hw Hs Hp H. the_ino H i Hx. unfold awrite. rewrite (kind_view _ _ _ _ Hs Hx). unfold seen_obj. cbn [o_kind]. destruct (i_kind x) eqn:Hk.
  - destruct (file_write i pos bs x w) as [w1|] eqn:Ew; cbn [obind] in H; [|discriminate H]. injection H as <- <-.
    eexists. split; [reflexivity|]. pose proof (write_view w a i pos bs x w1 Hs Hw Hx Hk Ew) as Hs1.
    apply (give_view w1 _ c pr fd (DFile i _ fl) Hs1 Hp).
  - same_view H Hs.
  - same_view H Hs.
  - discriminate H.
Qed.

Lemma s_write w a c pr fd bs w' o : reach false w -> shows w a -> vw_proc a !! c = Some pr -> step w c (Write fd bs) = Done (w', o) -> follows w a c (Write fd bs) w' o.
Proof.
  intros Hr Hs Hp Hst. start Hr Hs Hp Hst H Hw Hcan. unfold write_syscall in H.
  slot Hs Hp H.
  - rewrite rdonly3 in H. unfold read_only. destruct (Z.land fl 3 =? 0); [same_view H Hs|]. eapply write_some; eauto.
  - injection H as <- <-. exists a. split; [destruct (_ || _); reflexivity|exact Hs].
  - rewrite rdonly3 in H. unfold read_only at 1. destruct (Z.land fl 3 =? 0); [same_view H Hs|]. the_pipe Hs H pk p Hpk.
    rewrite (readers w a Hr Hs _ _ Hpk). destruct (pipe_write p bs _) as [p' o'] eqn:E. rewrite (proj1 (pipe_write_eq _ _ _ _ _ E)). injection H as <- <-.
    eexists. split; [reflexivity|]. exact (pipe_view w a Hs pk p').
  - same_view H Hs.
  - same_view H Hs.
Qed.

Lemma s_writev w a c pr fd iov w' o : reach false w -> shows w a -> vw_proc a !! c = Some pr -> step w c (Writev fd iov) = Done (w', o) -> follows w a c (Writev fd iov) w' o.
Proof.
  intros Hr Hs Hp Hst. start Hr Hs Hp Hst H Hw Hcan. unfold writev_syscall in H.
  slot Hs Hp H.
  - rewrite rdonly3 in H. unfold read_only. destruct (Z.land fl 3 =? 0); [same_view H Hs|]. eapply write_some; eauto.
  - same_view H Hs.
  - rewrite rdonly3 in H. unfold read_only at 1. destruct (Z.land fl 3 =? 0); [same_view H Hs|]. the_pipe Hs H pk p Hpk.
    rewrite (readers w a Hr Hs _ _ Hpk). destruct (pipe_writev p iov _ 0) as [p' o'] eqn:E. rewrite (pipe_writev_eq _ _ _ _ _ _ E). injection H as <- <-.
    eexists. split; [reflexivity|]. exact (pipe_view w a Hs pk p').
  - same_view H Hs.
  - same_view H Hs.
Qed.

Lemma s_pwrite w a c pr fd bs off w' o : reach false w -> shows w a -> vw_proc a !! c = Some pr -> step w c (Pwrite fd bs off) = Done (w', o) -> follows w a c (Pwrite fd bs off) w' o.
Proof.
  intros Hr Hs Hp Hst. start Hr Hs Hp Hst H Hw Hcan. unfold pwrite_syscall in H.
  slot Hs Hp H; [|same_view H Hs..].
  rewrite rdonly3 in H. unfold read_only. destruct (Z.land fl 3 =? 0); [same_view H Hs|].
  the_ino H i Hx. unfold awrite. rewrite (kind_view _ _ _ _ Hs Hx). unfold seen_obj. cbn [o_kind]. destruct (i_kind x) eqn:Hk.
  - destruct (file_write i off bs x w) as [w1|] eqn:Ew; cbn [obind] in H; [|discriminate H]. injection H as <- <-.
    eexists. split; [reflexivity|]. exact (write_view w a i off bs x w1 Hs Hw Hx Hk Ew).
  - same_view H Hs.
  - same_view H Hs.
  - discriminate H.
Qed.

Lemma add_isize_done x y z : add_isize x y = Done z -> z = x + y.
Proof. unfold add_isize. destruct (_ || _); [discriminate|]. intros H. injection H as <-. reflexivity. Qed.

Lemma s_lseek w a c pr fd off wh w' o : reach false w -> shows w a -> vw_proc a !! c = Some pr -> allowed a c (Lseek fd off wh) = true ->
  step w c (Lseek fd off wh) = Done (w', o) -> follows w a c (Lseek fd off wh) w' o.
Proof.
  intros Hr Hs Hp Hal Hst. start Hr Hs Hp Hst H Hw Hcan. apply ret_done in H as (r & H & ->). unfold lseek_syscall in H. unfold allowed in Hal. rewrite Hp in Hal.
  slot Hs Hp H; [|same_view H Hs..].
  the_ino H i Hx. rewrite (is_adir_eq _ _ _ _ Hs Hw Hx) in Hal. unfold aseek. rewrite (kind_view _ _ _ _ Hs Hx). unfold seen_obj. cbn [o_kind].
  destruct (i_kind x) eqn:Hk.
  - destruct (inv_file w i x (u_inv _ Hw) Hx Hk) as (_ & l & Hl & El). unfold bytes. rewrite Hl. cbn [default from_option id]. unfold zlen. rewrite El.
    assert (K : forall e, (if e <? 0 then Done (w, err EINVAL) else Done (put_fd c fd (FFile i e fl) w, to_i32 e)) = Done (w', r) ->
      exists a', (if e <? 0 then no a EINVAL else yes (give c fd (DFile i e fl) a) (to_i32 e)) = (a', Ret r) /\ shows w' a').
    { intros e He. destruct (e <? 0); [same_view He Hs|]. injection He as <- <-. eexists. split; [reflexivity|]. apply (give_view w a c pr fd (DFile i e fl) Hs Hp). }
    destruct (wh =? SEEK_SET); [cbn [obind] in H; exact (K _ H)|].
    destruct (wh =? SEEK_CUR).
    { destruct (add_isize pos off) as [e|] eqn:E; cbn [obind] in H; [|discriminate H]. apply add_isize_done in E as ->. exact (K _ H). }
    destruct (wh =? SEEK_END).
    { destruct (add_isize (i_size x) off) as [e|] eqn:E; cbn [obind] in H; [|discriminate H]. apply add_isize_done in E as ->. exact (K _ H). }
    cbn [obind] in H. same_view H Hs.
  - unfold isdirk in Hal. rewrite Hk in Hal. cbn [negb orb] in Hal. destruct (path_of a i) as [q|] eqn:Eq2; [|discriminate Hal].
    apply (path_of_iff w a Hr Hs i x q Hx Hk) in Eq2. rewrite (listing_eq w a Hr Hs q i x Eq2 Hx Hk).
    assert (K : forall e, (if (e <? 0) || (Z.of_nat (size (i_dict x)) <? e) then Done (w, err EINVAL) else Done (put_fd c fd (FFile i e fl) w, to_i32 e)) = Done (w', r) ->
      exists a', (if (e <? 0) || (Z.of_nat (size (i_dict x)) <? e) then no a EINVAL else yes (give c fd (DFile i e fl) a) (to_i32 e)) = (a', Ret r) /\ shows w' a').
    { intros e He. destruct (_ || _); [same_view He Hs|]. injection He as <- <-. eexists. split; [reflexivity|]. apply (give_view w a c pr fd (DFile i e fl) Hs Hp). }
    destruct (wh =? SEEK_SET); [cbn [obind] in H; exact (K _ H)|].
    destruct (wh =? SEEK_CUR).
    { destruct (add_isize pos off) as [e|] eqn:E; cbn [obind] in H; [|discriminate H]. apply add_isize_done in E as ->. exact (K _ H). }
    destruct (wh =? SEEK_END).
    { destruct (add_isize _ off) as [e|] eqn:E; cbn [obind] in H; [|discriminate H]. apply add_isize_done in E as ->. exact (K _ H). }
    cbn [obind] in H. same_view H Hs.
  - same_view H Hs.
  - discriminate H.
Qed.

Lemma s_fsync w a c pr fd w' o : reach false w -> shows w a -> vw_proc a !! c = Some pr -> step w c (Fsync fd) = Done (w', o) -> follows w a c (Fsync fd) w' o.
Proof.
  intros Hr Hs Hp Hst. start Hr Hs Hp Hst H Hw Hcan. apply ret_done in H as (r & H & ->).
  destruct (fsync_syscall w c fd) as [r1|] eqn:E; cbn [obind] in H; [|discriminate H]. injection H as <- ->. unfold fsync_syscall in E.
  assert (K : forall o', Done o' = Done r -> exists a', (a, Ret o') = (a', Ret r) /\ shows w a') by (intros o' [= ->]; eauto).
  slot Hs Hp E; [|exact (K _ E)..]. rewrite rdonly3 in E. unfold read_only. destruct (Z.land fl 3 =? 0); [exact (K _ E)|].
  the_ino E i Hx. rewrite (kind_view _ _ _ _ Hs Hx). unfold seen_obj. cbn [o_kind]. destruct (i_kind x) eqn:Hk.
  - destruct (w_fobj w !! i); [|discriminate E]. exact (K _ E).
  - exact (K _ E).
  - exact (K _ E).
  - exact (K _ E).
Qed.

(** ** Directories by descriptor *)
Lemma fd_here w a c pr fd : shows w a -> vw_proc a !! c = Some pr -> w_fds w !! (c, fd) = seen_des <$> q_tab pr !! fd.
Proof. intros Hs Hp. rewrite (sh_fd _ _ Hs), Hp. reflexivity. Qed.

Lemma s_getdents w a c pr fd n w' o : reach false w -> shows w a -> vw_proc a !! c = Some pr -> allowed a c (Getdents fd n) = true ->
  step w c (Getdents fd n) = Done (w', o) -> follows w a c (Getdents fd n) w' o.
Proof.
  intros Hr Hs Hp Hal Hst. start Hr Hs Hp Hst H Hw Hcan. unfold getdents_syscall in H. unfold allowed in Hal. rewrite Hp in Hal.
  change CLIPPED_DIRENT_SIZE with 18 in H. destruct (n <=? 18); [same_view H Hs|]. pose proof (fd_here _ _ _ _ fd Hs Hp) as Hf.
  destruct (in_fd_range fd) eqn:Ei; cbn [negb] in H.
  2:{ assert (E : w_fds w !! (c, fd) = None).
      { destruct (w_fds w !! (c, fd)) as [d|] eqn:E; [|reflexivity]. apply (u_key _ Hw) in E as [E _]. unfold in_fd_range, MAXFD in *. lia. }
      rewrite E in Hf. unfold on_fd. destruct (q_tab pr !! fd); [discriminate Hf|]. same_view H Hs. }
  rewrite Hf in H. unfold on_fd. destruct (q_tab pr !! fd) as [[i pos fl|st fl|pk fl|fl]|] eqn:Eq; cbn [fmap option_fmap option_map seen_des] in H; try same_view H Hs.
  the_ino H i Hx. unfold agetdents. rewrite (is_adir_eq _ _ _ _ Hs Hw Hx) in *. destruct (isdirk x) eqn:Ek.
  - apply isdirk_true in Ek. rewrite Ek in H. cbn [negb orb] in Hal. destruct (path_of a i) as [q|] eqn:Eq2; [|discriminate Hal].
    apply (path_of_iff w a Hr Hs i x q Hx Ek) in Eq2. cbv zeta. rewrite (listing_eq w a Hr Hs q i x Eq2 Hx Ek), records_eq.
    destruct (dents_fit _ _ _) as [l k]. injection H as <- <-. eexists. split; [reflexivity|]. apply (give_view w a c pr fd (DFile i _ fl) Hs Hp).
  - assert (Hk : i_kind x <> KDir) by (intros E; apply isdirk_true in E; congruence).
    destruct (i_kind x); try congruence; same_view H Hs.
Qed.

Lemma s_fchdir w a c pr fd w' o : reach false w -> shows w a -> vw_proc a !! c = Some pr -> allowed a c (Fchdir fd) = true ->
  step w c (Fchdir fd) = Done (w', o) -> follows w a c (Fchdir fd) w' o.
Proof.
  intros Hr Hs Hp Hal Hst. start Hr Hs Hp Hst H Hw Hcan. unfold fchdir_syscall in H. unfold allowed in Hal. rewrite Hp in Hal.
  slot Hs Hp H; [|same_view H Hs..].
  destruct (w_ino w !! i) as [x|] eqn:Hx.
  2:{ exfalso. pose proof (fd_here _ _ _ _ fd Hs Hp) as Hf. rewrite Eq in Hf. cbn in Hf.
      destruct (r_fd _ _ (v_r _ (u_inv _ Hw)) _ _ _ _ Hf) as [y Hy]. cbn in Hy. congruence. }
  unfold afchdir. rewrite (is_adir_eq _ _ _ _ Hs Hw Hx) in *. destruct (isdirk x) eqn:Ek.
  - apply isdirk_true in Ek. cbn [negb orb] in Hal. destruct (path_of a i) as [q|] eqn:Eq2; [|discriminate Hal].
    apply (path_of_iff w a Hr Hs i x q Hx Ek) in Eq2. rewrite (fchdir_path w a Hr Hs q i x Eq2 Hx Ek) in H.
    destruct q as [|f q]; [same_view H Hs|]. apply (sh_at _ _ Hs) in Eq2 as [Hcq _]. rewrite (norm_slashed _ _ Hcq) in H.
    injection H as <- <-. eexists. split; [reflexivity|].
    apply (shows_quiet w); [exact Hs|apply quiet_same; reflexivity| |].
    + intros c'. wcbn. destruct (decide (c = c')) as [<-|Hne]; [rewrite !lookup_insert; reflexivity|].
      rewrite !lookup_insert_ne by assumption. apply (sh_cwd _ _ Hs).
    + intros c' fd'. wcbn. rewrite (sh_fd _ _ Hs). destruct (decide (c = c')) as [<-|Hne]; [rewrite lookup_insert, Hp; reflexivity|].
      rewrite lookup_insert_ne by assumption. reflexivity.
  - assert (Hk : i_kind x <> KDir) by (intros E; apply isdirk_true in E; congruence).
    rewrite (fchdir_other w i x Hx Hk) in H. same_view H Hs.
Qed.

(** ** New pipes and epoll objects *)
Lemma s_pipe2 w a c pr fl w' o : reach false w -> shows w a -> vw_proc a !! c = Some pr -> allowed a c (Pipe2 fl) = true ->
  step w c (Pipe2 fl) = Done (w', o) -> follows w a c (Pipe2 fl) w' o.
Proof.
  intros Hr Hs Hp Hal Hst. start Hr Hs Hp Hst H Hw Hcan. unfold pipe2_syscall in H. unfold allowed in Hal. rewrite Hp in Hal. cbv zeta in H.
  assert (Hk : Z.of_nat (size (vw_pipe a)) = w_npipe w).
  { rewrite (proj2 (reach_tidy _ _ Hr)). f_equal. assert (E : vw_pipe a = p_buf <$> w_pipes w) by (apply map_eq; intros k; rewrite (sh_pipe _ _ Hs), lookup_fmap; reflexivity).
    rewrite E. apply map_size_fmap. }
  unfold apipe. cbv zeta. rewrite Hk. set (k := w_npipe w) in *. set (w0 := with_npipe (k + 1) (with_pipes (insert k (Pipe [] 1 1)) w)) in *.
  assert (Hs0 : shows w0 (with_pipe (insert k []) a)).
  { pose proof (pipe_view w a Hs k (Pipe [] 1 1)) as Hv. destruct Hv as [V1 V2 V3 V4 V5 V6 V7]. constructor; assumption. }
  rewrite <- (lowest_eq w0 _ c pr 0 Hs0 Hp) in H. destruct (lowest (q_tab pr) 0) as [x|] eqn:Ex; [|same_view H Hs].
  pose proof (give_view w0 _ c pr x (DPipe k (Z.lor O_RDONLY (Z.land fl (Z.lor O_CLOEXEC O_NONBLOCK)))) Hs0 Hp) as Hs1. cbn [seen_des] in Hs1.
  match type of Hs1 with shows ?u ?b => set (w1 := u) in *; set (a1 := b) in * end.
  assert (Hp1 : vw_proc a1 !! c = Some (AProc (q_cwd pr) (<[x := DPipe k (Z.lor O_RDONLY (Z.land fl (Z.lor O_CLOEXEC O_NONBLOCK)))]> (q_tab pr)))).
  { unfold a1, give, retab. cbn. rewrite lookup_alter, Hp. reflexivity. }
  rewrite <- (lowest_eq w1 a1 c _ 0 Hs1 Hp1) in H. cbn [q_tab] in H.
  assert (El : forall d e, lowest (<[x := d]> (q_tab pr)) 0 = lowest (<[x := e]> (q_tab pr)) 0).
  { intros d e. unfold lowest. induction (seqZ 0 (1024 - 0)) as [|fd l IH]; [reflexivity|]. cbn [find].
    rewrite IH. destruct (decide (x = fd)) as [<-|Hne]; [rewrite !lookup_insert|rewrite !lookup_insert_ne by assumption]; reflexivity. }
  rewrite (El (DEpoll 0) (DPipe k (Z.lor O_RDONLY (Z.land fl (Z.lor O_CLOEXEC O_NONBLOCK))))) in Hal.
  destruct (lowest (<[x := DPipe k _]> (q_tab pr)) 0) as [y|]; [|discriminate Hal]. injection H as <- <-. eexists. split; [reflexivity|].
  exact (give_view w1 a1 c _ y (DPipe k (Z.lor O_WRONLY (Z.land fl (Z.lor O_CLOEXEC O_NONBLOCK)))) Hs1 Hp1).
Qed.

Lemma s_epoll w a c pr n w' o : reach false w -> shows w a -> vw_proc a !! c = Some pr ->
  step w c (EpollCreate n) = Done (w', o) -> follows w a c (EpollCreate n) w' o.
Proof.
  intros Hr Hs Hp Hst. start Hr Hs Hp Hst H Hw Hcan. apply ret_done in H as (r & H & ->). unfold epoll_create_syscall in H.
  destruct (n <=? 0); [same_view H Hs|]. rewrite <- (lowest_eq w a c pr 0 Hs Hp) in H. destruct (lowest (q_tab pr) 0) as [x|]; [|same_view H Hs].
  injection H as <- <-. eexists. split; [reflexivity|]. exact (give_view w a c pr x (DEpoll 0) Hs Hp).
Qed.
