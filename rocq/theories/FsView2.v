(** The specification machine of FsViewSpec: calls that change names. *)
From Verif Require Import Base CodecModel PathModel PathSpec PathProofs FsModel FsBoot FsSpec FsWalk Count FsNames FsTr FsInv FsInv2
  FsSteps FsSteps2 FsFrame FsReachSpec FsWinv FsReach FsTree FsNameSpec FsPath FdSpec FsDesc FsOps FsNameProofs FsIoSpec FsIo FsFail FsViewSpec FsView1.
Local Open Scope list_scope.
Local Open Scope Z_scope.
Opaque all_fds next_fd.

Ltac same_view H Hs := injection H as <- <-; eexists; split; [reflexivity|exact Hs].

Lemma proc_canonical w a c pr : winv w -> shows w a -> vw_proc a !! c = Some pr -> canonical (q_cwd pr).
Proof. intros Hw Hs Hp. apply (u_cwd _ Hw c). rewrite (sh_cwd _ _ Hs), Hp. reflexivity. Qed.

Lemma cwd_of w a c pr : shows w a -> vw_proc a !! c = Some pr -> w_cwd w !! c = Some (q_cwd pr).
Proof. intros Hs Hp. rewrite (sh_cwd _ _ Hs), Hp. reflexivity. Qed.

Lemma place_up w a q dir f par x : shows w a -> winv w -> place (w_ino w) q dir f par x -> up_dir a q = Some par.
Proof.
  intros Hs Hw Hpl.
  assert (Ed : vw_at a !! dir = Some par) by (apply (sh_at _ _ Hs); split; [apply Hpl|exact (pl_res _ _ _ _ _ _ Hpl)]).
  pose proof (is_adir_eq _ _ _ _ Hs Hw (pl_ino _ _ _ _ _ _ Hpl)) as Ea.
  rewrite (proj2 (isdirk_true x) (pl_dir _ _ _ _ _ _ Hpl)) in Ea.
  rewrite (pl_path _ _ _ _ _ _ Hpl). unfold up_dir. rewrite removelast_last, Ed, Ea. destruct (dir ++ [f]) eqn:E; [|reflexivity].
  destruct dir; discriminate.
Qed.

(** ** A new object *)
Lemma create_view w w' a q dir f par y x P : winv w -> winv w' -> shows w a -> canonical q ->
  place (w_ino w) q dir f par y -> i_dict y !! f = None ->
  w_ino w' = <[w_next w := x]> (<[par := par_add f (w_next w) y]> (w_ino w)) -> w_next w' = w_next w + 1 ->
  (forall g j, i_dict x !! g = Some j -> dotb g = true) -> i_size x = 0 ->
  (forall j, j <> w_next w -> bytes w' j = bytes w j) -> w_cwd w' = w_cwd w -> w_pipes w' = w_pipes w ->
  (forall c, w_cwd w' !! c = q_cwd <$> P !! c) ->
  (forall c fd, w_fds w' !! (c, fd) = seen_des <$> (P !! c ≫= fun pr => q_tab pr !! fd)) ->
  shows w' (with_proc (fun _ => P) (create q par (seen_obj x (bytes w' (w_next w))) a)).
Proof.
  intros Hw Hw' Hs Hc Hpl Hf Ht Hn Hx Hsz Hb H1 H2 Hcw Hfd.
  destruct (creates_intro w w' q dir f par y (w_next w) x Hw Hw' Hc Hpl Hf eq_refl Ht Hx Hb H1 H2) as (Hu & [Hp1 Hp2] & _).
  destruct Hu as (U1 & _). pose proof (pl_ino _ _ _ _ _ _ Hpl) as Hy. assert (Hne : w_next w <> par) by congruence.
  pose proof (sh_next _ _ Hs) as Hnx.
  constructor; cbn [with_proc create vw_at vw_obj vw_next vw_proc]; rewrite ?Hnx.
  - intros p i. rewrite lookup_insert_Some. split.
    + intros [[<- <-]|[Hne' Hp]]; [split; [assumption|]; apply Hp2; auto|].
      apply (sh_at _ _ Hs) in Hp as [Hcp Hp]. split; [assumption|]. apply Hp2; auto.
    + intros [Hcp Hp]. apply Hp2 in Hp as [Hp|[-> ->]]; [|auto|assumption].
      right. split; [intros <-; exact (Hp1 _ Hp)|]. apply (sh_at _ _ Hs). auto.
  - intros i z. rewrite Ht. destruct (decide (w_next w = i)) as [<-|Hi].
    + rewrite !lookup_insert. intros [= <-]. reflexivity.
    + rewrite (lookup_insert_ne (alter _ _ _)), lookup_insert_ne by assumption. rewrite (Hb i) by congruence. destruct (decide (par = i)) as [<-|Hi2].
      * rewrite lookup_insert, lookup_alter. intros [= <-]. rewrite (sh_obj _ _ Hs _ _ Hy). reflexivity.
      * rewrite lookup_insert_ne, lookup_alter_ne by congruence. apply (sh_obj _ _ Hs).
  - intros i z. rewrite Ht. destruct (decide (w_next w = i)) as [<-|Hi].
    + rewrite lookup_insert. intros [= <-] _. exact Hsz.
    + rewrite lookup_insert_ne by assumption. destruct (decide (par = i)) as [<-|Hi2].
      * rewrite lookup_insert. intros [= <-]. exact (sh_size _ _ Hs _ _ Hy).
      * rewrite lookup_insert_ne by assumption. apply (sh_size _ _ Hs).
  - congruence.
  - exact Hcw.
  - exact Hfd.
  - intros k. rewrite H2. apply (sh_pipe _ _ Hs).
Qed.

Lemma mkdir_view w a c pr p m w' r : winv w -> winv w' -> shows w a -> vw_proc a !! c = Some pr ->
  mkdir_syscall w (q_cwd pr) p m = Done (w', r) ->
  exists a', (if String.eqb p "" then no a ENOENT else amkdir a (where_is (q_cwd pr) p) m) = (a', Ret r) /\ shows w' a'.
Proof.
  intros Hw Hw' Hs Hp H. pose proof (proc_canonical _ _ _ _ Hw Hs Hp) as Hcan. rewrite where_is_eq.
  pose proof (normpath_canonical (q_cwd pr) p Hcan) as Hq. pose proof H as H0. unfold mkdir_syscall in H.
  destruct (String.eqb p ""); [same_view H Hs|]. rewrite (mw_view _ _ _ Hs Hw Hq) in H. cbn [obind] in H. unfold amkdir.
  destruct (vw_at a !! normpath (q_cwd pr) p) as [i|] eqn:Ea; [same_view H Hs|].
  destruct (up_dir a (normpath (q_cwd pr) p)) as [d|] eqn:Eu; [|same_view H Hs].
  destruct (file_name (normpath (q_cwd pr) p)) as [f|]; [|discriminate]. change (sane_mode m) with (good_mode m) in H.
  destruct (good_mode m); cbn [negb] in *; [|same_view H Hs].
  assert (Hr : 0 <= r). { destruct (add_child _ _ _ _ _) in H; cbn [obind] in H; [|discriminate]. injection H as _ <-. lia. }
  destruct (mkdir_post _ _ _ _ _ _ Hcan H0 Hr) as (dir & f' & par & y & Hpl & Hf & -> & _ & [H1 H2 H3 (H4 & H5 & H6)]).
  pose proof (place_up _ _ _ _ _ _ _ Hs Hw Hpl) as E. rewrite Eu in E. injection E as ->.
  eexists. split; [reflexivity|].
  apply (create_view w w' a _ dir f' par y (new_dir (w_next w) par m) (vw_proc a)); try assumption; try reflexivity.
  - intros g j. cbn. unfold new_dict. rewrite lookup_insert_Some. intros [[<- _]|[_ Hg]]; [reflexivity|].
    rewrite lookup_insert_Some, lookup_empty in Hg. destruct Hg as [[<- _]|[_ ?]]; [reflexivity|discriminate].
  - intros j _. unfold bytes. rewrite H3. reflexivity.
  - rewrite H5. apply (sh_cwd _ _ Hs).
  - rewrite H4. apply (sh_fd _ _ Hs).
Qed.

Lemma mknod_view w a c pr p m dv w' r : winv w -> winv w' -> shows w a -> vw_proc a !! c = Some pr ->
  mknod_syscall w (q_cwd pr) p m dv = Done (w', r) ->
  exists a', (if String.eqb p "" then no a ENOENT else amknod a (where_is (q_cwd pr) p) m dv) = (a', Ret r) /\ shows w' a'.
Proof.
  intros Hw Hw' Hs Hp H. pose proof (proc_canonical _ _ _ _ Hw Hs Hp) as Hcan. rewrite where_is_eq.
  pose proof (normpath_canonical (q_cwd pr) p Hcan) as Hq. pose proof H as H0. unfold mknod_syscall in H.
  destruct (String.eqb p ""); [same_view H Hs|]. rewrite (mw_view _ _ _ Hs Hw Hq) in H. cbn [obind] in H. unfold amknod.
  destruct (vw_at a !! normpath (q_cwd pr) p) as [i|] eqn:Ea; [same_view H Hs|].
  destruct (up_dir a (normpath (q_cwd pr) p)) as [d|] eqn:Eu; [|same_view H Hs].
  destruct (file_name (normpath (q_cwd pr) p)) as [f|]; [|discriminate]. change (sane_mode m) with (good_mode m) in H.
  destruct (good_mode m); cbn [negb] in *; [|same_view H Hs].
  destruct (Z.land m S_IFCHR =? 0); [same_view H Hs|].
  assert (Hr : 0 <= r). { destruct (add_child _ _ _ _ _) in H; cbn [obind] in H; [|discriminate]. injection H as _ <-. lia. }
  destruct (mknod_post _ _ _ _ _ _ _ Hcan H0 Hr) as (dir & f' & par & y & Hpl & Hf & -> & _ & _ & [H1 H2 H3 (H4 & H5 & H6)]).
  pose proof (place_up _ _ _ _ _ _ _ Hs Hw Hpl) as E. rewrite Eu in E. injection E as ->.
  eexists. split; [reflexivity|].
  apply (create_view w w' a _ dir f' par y (new_dev m dv) (vw_proc a)); try assumption; try reflexivity.
  - intros g j. cbn. rewrite lookup_empty. discriminate.
  - intros j _. unfold bytes. rewrite H3. reflexivity.
  - rewrite H5. apply (sh_cwd _ _ Hs).
  - rewrite H4. apply (sh_fd _ _ Hs).
Qed.

(** ** One object changes *)
Lemma one_obj w w' a g i x y : shows w a -> w_ino w !! i = Some x -> w_ino w' = <[i := y]> (w_ino w) ->
  (forall j, j <> i -> is_Some (w_ino w !! j) -> bytes w' j = bytes w j) ->
  g (seen_obj x (bytes w i)) = seen_obj y (bytes w' i) -> (i_kind y <> KFile -> i_size y = 0) ->
  forall j z, w_ino w' !! j = Some z ->
    alter g i (vw_obj a) !! j = Some (seen_obj z (bytes w' j)) /\ (i_kind z <> KFile -> i_size z = 0).
Proof.
  intros Hs Hx Ht Hb Hg Hsz j z Hz. rewrite Ht in Hz. destruct (decide (i = j)) as [<-|Hne].
  - rewrite lookup_insert in Hz. injection Hz as <-. rewrite lookup_alter, (sh_obj _ _ Hs _ _ Hx). cbn. rewrite Hg. auto.
  - rewrite lookup_insert_ne in Hz by assumption. rewrite lookup_alter_ne by assumption. rewrite Hb by (eauto || congruence).
    split; [apply (sh_obj _ _ Hs); assumption|apply (sh_size _ _ Hs _ _ Hz)].
Qed.

Lemma no_obj w w' a : shows w a -> w_ino w' = w_ino w -> (forall j, is_Some (w_ino w !! j) -> bytes w' j = bytes w j) ->
  forall j z, w_ino w' !! j = Some z ->
    vw_obj a !! j = Some (seen_obj z (bytes w' j)) /\ (i_kind z <> KFile -> i_size z = 0).
Proof.
  intros Hs Ht Hb j z Hz. rewrite Ht in Hz. rewrite Hb by eauto. split; [apply (sh_obj _ _ Hs); assumption|apply (sh_size _ _ Hs _ _ Hz)].
Qed.

Lemma land192 fl : (Z.land fl (Z.lor O_CREAT O_EXCL) =? Z.lor O_CREAT O_EXCL) = (Z.land fl 192 =? 192).
Proof. reflexivity. Qed.
Lemma land512 fl : (Z.land fl O_TRUNC =? O_TRUNC) = (Z.land fl 512 =? 512).
Proof. reflexivity. Qed.

Lemma open_view w a c pr p fl m w' r : winv w -> winv w' -> shows w a -> vw_proc a !! c = Some pr ->
  open_syscall w c (q_cwd pr) p fl m = Done (w', r) ->
  exists a', aopen a c pr p fl m = (a', Ret r) /\ shows w' a'.
Proof.
  intros Hw Hw' Hs Hp H. pose proof (proc_canonical _ _ _ _ Hw Hs Hp) as Hcan. unfold aopen. rewrite where_is_eq. cbv zeta.
  pose proof (normpath_canonical (q_cwd pr) p Hcan) as Hq. pose proof H as H0. unfold open_syscall in H.
  destruct (String.eqb p ""); [same_view H Hs|]. rewrite (lowest_eq w a c pr 0 Hs Hp).
  destruct (next_fd w c 0) as [fd|] eqn:Efd; [|same_view H Hs]. apply next_fd_some in Efd as [_ Hfd].
  rewrite (mw_view _ _ _ Hs Hw Hq) in H. cbn [obind] in H. rewrite land192 in H. rewrite land512 in H.
  destruct (vw_at a !! normpath (q_cwd pr) p) as [i|] eqn:Ea.
  - destruct (Z.land fl 192 =? 192); [same_view H Hs|].
    destruct (at_exists _ _ _ _ Hs Hw Ea) as [x Hx]. unfold get_ino in H. rewrite Hx in H. cbn [obind] in H.
    destruct (i_kind x) as [| |ma mi|] eqn:Ek.
    + destruct (inv_file w i x (u_inv _ Hw) Hx Ek) as (Hfo & l & Hl & Hsz).
      assert (Hk0 : vw_obj a !! i = Some (AObj (AFile l) (i_mode x) (i_link x))).
      { rewrite (sh_obj _ _ Hs _ _ Hx). unfold seen_obj, bytes. rewrite Ek, Hl. reflexivity. }
      destruct (Z.land fl 512 =? 512) eqn:Et.
      * unfold remove_host in H. wcbn1 H. rewrite Hl in H. unfold open_fobj in H. wcbn1 H. rewrite lookup_delete in H. injection H as <- <-.
        eexists. split; [reflexivity|]. unfold kind_of, with_obj. cbn [vw_obj]. rewrite lookup_alter, Hk0. cbn [fmap option_fmap option_map new_bytes o_kind o_mode o_link].
        eapply shows_keep; [exact Hs| |reflexivity|reflexivity|reflexivity| | | |exact (sh_pipe _ _ Hs)].
        -- wcbn. rewrite insert_insert. eapply same_dirs_one; eauto.
        -- apply (one_obj w _ a _ i x (set_ref (i_ref x + 1) (set_size 0 x)) Hs Hx).
           ++ wcbn. apply insert_insert.
           ++ intros j Hj _. unfold bytes. wcbn. rewrite lookup_insert_ne, lookup_delete_ne by congruence. reflexivity.
           ++ unfold seen_obj, bytes, new_bytes. wcbn. cbn [i_kind set_ref set_size i_mode i_link]. rewrite Ek. cbn [o_kind o_mode o_link].
              rewrite lookup_insert, lookup_delete. reflexivity.
           ++ cbn. congruence.
        -- exact (cwd_retab w a c _ Hs).
        -- apply (fds_put w a c pr _ fd _ Hs Hp). reflexivity.
      * cbn [obind] in H. injection H as <- <-. eexists. split; [reflexivity|]. unfold kind_of. rewrite Hk0. cbn [fmap option_fmap option_map o_kind].
        assert (Q : quiet w (put_ino i (set_ref (i_ref x + 1) (set_size (i_size x) x)) (open_fobj i (i_size x) w))).
        { eapply quiet_trans; [|apply (quiet_ref _ i x)]; [|unfold open_fobj; destruct (w_fobj w !! i); exact Hx].
          unfold open_fobj. destruct (w_fobj w !! i); [apply quiet_refl|]. apply quiet_same; [reflexivity|reflexivity| |reflexivity].
          intros j _. unfold bytes. wcbn. rewrite Hl. cbn [default from_option]. rewrite insert_id by exact Hl. reflexivity. }
        unfold file_initializer. unfold zlen. rewrite Hsz.
        eapply shows_quiet; [exact Hs| | |].
        -- eapply quiet_trans; [exact Q|]. apply quiet_same; reflexivity.
        -- unfold open_fobj. destruct (w_fobj w !! i); exact (cwd_retab w a c _ Hs).
        -- apply (fds_put w a c pr _ fd (DFile i (if hasbit fl O_APPEND then i_size x else 0) (Z.land fl (Z.lor 3 O_CLOEXEC))) Hs Hp).
           unfold open_fobj. destruct (w_fobj w !! i); reflexivity.
    + pose proof (sh_size _ _ Hs _ _ Hx ltac:(congruence)) as Hz.
      assert (Hk0 : vw_obj a !! i = Some (AObj ADir (i_mode x) (i_link x))).
      { rewrite (sh_obj _ _ Hs _ _ Hx). unfold seen_obj. rewrite Ek. reflexivity. }
      assert (Hal : with_obj (alter (new_bytes (fun _ => [])) i) a = a).
      { destruct a as [aa ao an ap aq]. unfold with_obj. cbn in Hk0 |- *. f_equal. rewrite <- (insert_id ao i _ Hk0) at 2.
        apply map_eq. intros j. destruct (decide (i = j)) as [<-|Hne]; [rewrite lookup_alter, lookup_insert, Hk0; reflexivity|].
        rewrite lookup_alter_ne, lookup_insert_ne by assumption. reflexivity. }
      rewrite Hal. injection H as <- <-. eexists. split; [destruct (Z.land fl 512 =? 512); reflexivity|].
      unfold kind_of. replace (if Z.land fl 512 =? 512 then a else a) with a by (destruct (Z.land fl 512 =? 512); reflexivity). rewrite Hk0. cbn [fmap option_fmap option_map o_kind].
      unfold file_initializer. rewrite Hz. eapply shows_quiet; [exact Hs| | |].
      * eapply quiet_trans; [apply (quiet_ref w i x (i_ref x + 1) Hx)|]. apply quiet_same; reflexivity.
      * exact (cwd_retab w a c _ Hs).
      * apply (fds_put w a c pr _ fd _ Hs Hp). reflexivity.
    + pose proof (sh_size _ _ Hs _ _ Hx ltac:(congruence)) as Hz.
      assert (Hk0 : vw_obj a !! i = Some (AObj (ADev ma mi) (i_mode x) (i_link x))).
      { rewrite (sh_obj _ _ Hs _ _ Hx). unfold seen_obj. rewrite Ek. reflexivity. }
      assert (Hal : with_obj (alter (new_bytes (fun _ => [])) i) a = a).
      { destruct a as [aa ao an ap aq]. unfold with_obj. cbn in Hk0 |- *. f_equal. rewrite <- (insert_id ao i _ Hk0) at 2.
        apply map_eq. intros j. destruct (decide (i = j)) as [<-|Hne]; [rewrite lookup_alter, lookup_insert, Hk0; reflexivity|].
        rewrite lookup_alter_ne, lookup_insert_ne by assumption. reflexivity. }
      rewrite Hal. injection H as <- <-. eexists. split; [destruct (Z.land fl 512 =? 512); reflexivity|].
      unfold kind_of. replace (if Z.land fl 512 =? 512 then a else a) with a by (destruct (Z.land fl 512 =? 512); reflexivity). rewrite Hk0. cbn [fmap option_fmap option_map o_kind].
      unfold file_initializer. rewrite Hz. eapply shows_quiet; [exact Hs| | |].
      * eapply quiet_trans; [apply (quiet_ref w i x (i_ref x + 1) Hx)|]. apply quiet_same; reflexivity.
      * exact (cwd_retab w a c _ Hs).
      * apply (fds_put w a c pr _ fd _ Hs Hp). reflexivity.
    + exfalso. exact (n_sock _ _ (v_n _ (u_inv _ Hw)) _ _ Hx Ek).
  - destruct (up_dir a (normpath (q_cwd pr) p)) as [d|] eqn:Eu; [|same_view H Hs].
    destruct (hasbit fl O_CREAT); cbn [negb] in *; [|same_view H Hs].
    destruct (Z.land S_IFCHR fl =? S_IFCHR); [same_view H Hs|]. change (sane_mode m) with (good_mode m) in H.
    destruct (good_mode m); cbn [negb] in *; [|same_view H Hs].
    destruct (file_name (normpath (q_cwd pr) p)) as [f|]; [|discriminate].
    assert (Hr : r = fd). { destruct (add_child _ _ _ _ _) in H; cbn [obind] in H; [|discriminate]. injection H as _ <-. reflexivity. }
    subst r. assert (Hm : metawalk (w_ino w) (normpath (q_cwd pr) p) = Done None) by (rewrite (mwk_view _ _ _ Hs Hw Hq), Ea; reflexivity).
    destruct (open_new_post _ _ _ _ _ _ _ _ (u_inv _ Hw) Hcan H0 ltac:(lia) Hm)
      as (dir & f' & par & y & Hpl & Hf & _ & _ & Hfree & H1 & H2 & H3 & H4 & H5 & H6).
    pose proof (place_up _ _ _ _ _ _ _ Hs Hw Hpl) as E. rewrite Eu in E. injection E as ->.
    eexists. split; [reflexivity|].
    assert (Eb : AObj (AFile []) (Z.lor S_IFREG m) 1 = seen_obj (new_file m) (bytes w' (w_next w))).
    { unfold seen_obj, bytes. rewrite H3, lookup_insert. reflexivity. }
    rewrite Eb, <- (sh_next _ _ Hs) at 1. rewrite (sh_next _ _ Hs).
    apply (create_view w w' a _ dir f' par y (new_file m)
      (vw_proc (give c fd (DFile (w_next w) 0 (Z.land fl (Z.lor 3 O_CLOEXEC))) a))); try assumption; try reflexivity.
    + intros g j. cbn. rewrite lookup_empty. discriminate.
    + intros j Hj. unfold bytes. rewrite H3, lookup_insert_ne by congruence. reflexivity.
    + rewrite H5. exact (cwd_retab w a c _ Hs).
    + apply (fds_put w a c pr _ fd _ Hs Hp). exact H4.
Qed.
