(** The specification machine of FsViewSpec: paths, lookups, and changes that
    leave the paths alone. *)
From Verif Require Import Base CodecModel PathModel PathSpec PathProofs FsModel FsBoot FsSpec FsWalk Count FsNames FsTr FsInv FsInv2
  FsSteps FsSteps2 FsFrame FsReachSpec FsWinv FsReach FsTree FsNameSpec FsPath FdSpec FsDesc FsOps FsNameProofs FsIoSpec FsIo FsFail FsViewSpec.
From Coq Require Import Ascii.
Local Open Scope list_scope.
Local Open Scope Z_scope.
Opaque all_fds next_fd.

(** ** Paths *)
Lemma cut_words p : words p (cut p).
Proof.
  assert (H : forall s, cut s <> []).
  { intros s. destruct s as [|ch r]; cbn; [discriminate|]. destruct (Ascii.eqb ch "/"); [discriminate|]. destruct (cut r); discriminate. }
  induction p as [|ch r IH]; cbn; [constructor; reflexivity|].
  destruct (Ascii.eqb ch "/") eqn:E.
  - apply Ascii.eqb_eq in E. subst ch. exact (words_cons "" r (cut r) eq_refl IH).
  - destruct (cut r) as [|x xs] eqn:Ec; [exfalso; exact (H r Ec)|].
    inversion IH as [w Hw|w r' ws Hw Hr E1 E2]; subst.
    + constructor. cbn. rewrite E. exact Hw.
    + apply (words_cons (String ch x) r' xs); [cbn; rewrite E; exact Hw|exact Hr].
Qed.

Lemma go_walks ws : forall st, walks st ws (fold_left go ws st).
Proof.
  induction ws as [|x ws IH]; intros st; cbn [fold_left]; [constructor|]. unfold go at 2.
  destruct (String.eqb_spec x "") as [->|H1]; [apply walks_stay; auto|].
  destruct (String.eqb_spec x ".") as [->|H2]; [apply walks_stay; auto|]. cbn [orb].
  destruct (String.eqb_spec x "..") as [->|H3]; [|apply walks_down; auto].
  destruct (rev st) as [|y r] eqn:Er.
  - assert (st = []) as -> by (rewrite <- (rev_involutive st), Er; reflexivity). apply walks_root, IH.
  - assert (st = rev r ++ [y]) as -> by (rewrite <- (rev_involutive st), Er; reflexivity).
    apply walks_up. rewrite removelast_last. apply IH.
Qed.

Lemma where_is_eq cwd p : where_is cwd p = normpath cwd p.
Proof.
  apply denotes_normpath. unfold where_is. econstructor; [apply cut_words| | |apply go_walks].
  - intros [r ->]. reflexivity.
  - intros H. destruct p as [|ch r]; [reflexivity|]. destruct (Ascii.eqb ch "/") eqn:E; [|reflexivity].
    apply Ascii.eqb_eq in E. subst ch. exfalso. apply H. exists r. reflexivity.
Qed.

(** ** Lookups *)
Lemma seen_file x b : i_kind x = KFile -> o_kind (seen_obj x b) = AFile (default [] b).
Proof. intros H. unfold seen_obj. rewrite H. reflexivity. Qed.

Lemma is_adir_eq w a i x : shows w a -> winv w -> w_ino w !! i = Some x -> is_adir a i = isdirk x.
Proof.
  intros Hs Hw Hx. pose proof (n_sock _ _ (v_n _ (u_inv _ Hw)) _ _ Hx) as Hk.
  unfold is_adir, kind_of, isdirk. rewrite (sh_obj _ _ Hs _ _ Hx). cbn. destruct (i_kind x); congruence.
Qed.

Lemma at_exists w a q i : shows w a -> winv w -> vw_at a !! q = Some i -> exists x, w_ino w !! i = Some x.
Proof.
  intros Hs Hw H. apply (sh_at _ _ Hs) in H as [Hc H]. destruct (resolves_exists w q i Hw Hc H) as [x Hx]. eauto.
Qed.

Lemma at_none w a q : shows w a -> canonical q -> vw_at a !! q = None <-> forall i, ~ resolves (w_ino w) q i.
Proof.
  intros Hs Hc. split.
  - intros H i Hi. assert (vw_at a !! q = Some i) by (apply (sh_at _ _ Hs); auto). congruence.
  - intros H. destruct (vw_at a !! q) as [i|] eqn:E; [|reflexivity]. apply (sh_at _ _ Hs) in E as [_ E]. exfalso. exact (H _ E).
Qed.

Lemma mw_view w a q : shows w a -> winv w -> canonical q -> metawalkandparent (w_ino w) q = Done (vw_at a !! q, up_dir a q).
Proof.
  intros Hs Hw Hc. destruct (mwap_done w q Hw Hc) as (r & p & H).
  assert (Hr : r = vw_at a !! q).
  { destruct r as [i|].
    - symmetry. apply (sh_at _ _ Hs). split; [assumption|]. apply metawalk_resolves. unfold metawalk. rewrite H. reflexivity.
    - symmetry. apply (at_none w a q Hs Hc). apply metawalk_none. unfold metawalk. rewrite H. reflexivity. }
  subst r. rewrite H. f_equal. f_equal.
  destruct p as [par|].
  - destruct (place_of _ _ _ _ Hc H) as (dir & f & x & Hpl & _ & _).
    assert (Ed : vw_at a !! dir = Some par) by (apply (sh_at _ _ Hs); split; [apply Hpl|exact (pl_res _ _ _ _ _ _ Hpl)]).
    pose proof (is_adir_eq _ _ _ _ Hs Hw (pl_ino _ _ _ _ _ _ Hpl)) as Ea.
    rewrite (proj2 (isdirk_true x) (pl_dir _ _ _ _ _ _ Hpl)) in Ea.
    rewrite (pl_path _ _ _ _ _ _ Hpl). unfold up_dir. rewrite removelast_last, Ed, Ea. destruct (dir ++ [f]) eqn:E; [|reflexivity].
    destruct dir; discriminate.
  - unfold up_dir. destruct q as [|y r']; [reflexivity|]. destruct (@exists_last _ (y :: r') ltac:(discriminate)) as (dir & f & E).
    rewrite E in *. rewrite removelast_last.
    destruct (vw_at a !! dir) as [d|] eqn:Ed; [|reflexivity]. destruct (is_adir a d) eqn:Ea; [|reflexivity]. exfalso.
    destruct (at_exists _ _ _ _ Hs Hw Ed) as [x Hx]. rewrite (is_adir_eq _ _ _ _ Hs Hw Hx) in Ea. apply isdirk_true in Ea.
    apply (sh_at _ _ Hs) in Ed as [Hcd Hd]. pose proof (resolves_metawalk _ _ _ (root_some _ Hw) Hd) as Hm.
    unfold metawalk, metawalkandparent in Hm. unfold metawalkandparent in H.
    destruct (w_ino w !! ROOTINO); [|discriminate]. rewrite walk_from_snoc in H.
    destruct (walk_from (w_ino w) (Some ROOTINO) None dir) as [[u v]|]; cbn [obind fst] in *; [|discriminate].
    injection Hm as ->. rewrite Hx, Ea in H. discriminate.
Qed.

Lemma mwk_view w a q : shows w a -> winv w -> canonical q -> metawalk (w_ino w) q = Done (vw_at a !! q).
Proof. intros Hs Hw Hc. unfold metawalk. rewrite (mw_view _ _ _ Hs Hw Hc). reflexivity. Qed.

(** ** Changes that keep the paths *)
Lemma res_ext t t' p i :
  (forall d x, t !! d = Some x -> i_kind x = KDir -> exists y, t' !! d = Some y /\ i_kind y = KDir /\ i_dict y = i_dict x) ->
  resolves t p i -> resolves t' p i.
Proof.
  intros H. induction 1 as [|p d x f i Hp IH Hx Hk Hf]; [constructor|].
  destruct (H _ _ Hx Hk) as (y & Hy & Hky & Hd). eapply res_step; eauto. rewrite Hd. exact Hf.
Qed.

(** The directories of both tables have the same entries *)
Definition same_dirs (t t' : gmap Z inode) : Prop :=
  (forall d x, t !! d = Some x -> i_kind x = KDir -> exists y, t' !! d = Some y /\ i_kind y = KDir /\ i_dict y = i_dict x) /\
  (forall d x, t' !! d = Some x -> i_kind x = KDir -> exists y, t !! d = Some y /\ i_kind y = KDir /\ i_dict y = i_dict x).

Lemma same_dirs_refl t : same_dirs t t.
Proof. split; eauto. Qed.

Lemma same_dirs_one t i x y : t !! i = Some x -> i_kind y = i_kind x -> i_dict y = i_dict x -> same_dirs t (<[i := y]> t).
Proof.
  intros Hx Hk Hd. split; intros d z Hz Hkz; destruct (decide (i = d)) as [<-|Hne].
  - rewrite lookup_insert. exists y. split; [reflexivity|]. assert (z = x) by congruence. subst z. split; congruence.
  - rewrite lookup_insert_ne by assumption. eauto.
  - rewrite lookup_insert in Hz. injection Hz as <-. exists x. split; [assumption|]. split; congruence.
  - rewrite lookup_insert_ne in Hz by assumption. eauto.
Qed.

Lemma shows_keep w w' a a' : shows w a -> same_dirs (w_ino w) (w_ino w') ->
  vw_at a' = vw_at a -> w_next w' = w_next w -> vw_next a' = vw_next a ->
  (forall i y, w_ino w' !! i = Some y -> vw_obj a' !! i = Some (seen_obj y (bytes w' i)) /\ (i_kind y <> KFile -> i_size y = 0)) ->
  (forall c, w_cwd w' !! c = q_cwd <$> vw_proc a' !! c) ->
  (forall c fd, w_fds w' !! (c, fd) = seen_des <$> (vw_proc a' !! c ≫= fun pr => q_tab pr !! fd)) ->
  (forall k, vw_pipe a' !! k = p_buf <$> w_pipes w' !! k) ->
  shows w' a'.
Proof.
  intros Hs [D1 D2] Ha Hn Hn' Ho Hc Hf Hpp. constructor.
  - intros p i. rewrite Ha, (sh_at _ _ Hs). split; intros [? ?]; split; try assumption; eapply res_ext; eauto.
  - intros i x Hx. exact (proj1 (Ho _ _ Hx)).
  - intros i x Hx. exact (proj2 (Ho _ _ Hx)).
  - rewrite Hn', Hn. apply (sh_next _ _ Hs).
  - exact Hc.
  - exact Hf.
  - exact Hpp.
Qed.

(** ** Descriptor tables *)
Lemma lowest_eq w a c pr s : shows w a -> vw_proc a !! c = Some pr -> lowest (q_tab pr) s = next_fd w c s.
Proof.
  intros Hs Hp. Transparent next_fd. unfold lowest, next_fd. change MAXFD with 1024.
  induction (seqZ s (1024 - s)) as [|fd l IH]; cbn [find]; [reflexivity|].
  rewrite (sh_fd _ _ Hs), Hp. cbn. destruct (q_tab pr !! fd); cbn; [exact IH|reflexivity].
Qed.
Opaque next_fd.

Lemma slot_view w a c pr fd s : shows w a -> vw_proc a !! c = Some pr -> fd_slot w c fd = Done s -> s = seen_des <$> q_tab pr !! fd.
Proof.
  intros Hs Hp H. unfold fd_slot in H. destruct (in_fd_range fd); [|discriminate]. injection H as <-. rewrite (sh_fd _ _ Hs), Hp. reflexivity.
Qed.

Lemma proc_of w a c cwd : shows w a -> w_cwd w !! c = Some cwd -> exists pr, vw_proc a !! c = Some pr /\ q_cwd pr = cwd.
Proof.
  intros Hs H. rewrite (sh_cwd _ _ Hs) in H. destruct (vw_proc a !! c) as [pr|]; [|discriminate]. injection H as <-. eauto.
Qed.

(** ** Only bookkeeping changes *)
Definition quiet (w w' : world) : Prop :=
  (forall i y, w_ino w' !! i = Some y -> exists x, w_ino w !! i = Some x /\ y = set_ref (i_ref y) x /\ bytes w' i = bytes w i) /\
  (forall i x, w_ino w !! i = Some x -> i_kind x = KDir -> exists r, w_ino w' !! i = Some (set_ref r x)) /\
  w_next w' = w_next w /\
  (forall k, p_buf <$> w_pipes w' !! k = p_buf <$> w_pipes w !! k).

Lemma quiet_refl w : quiet w w.
Proof.
  split; [|split; [|split; reflexivity]].
  - intros i y Hy. exists y. destruct y. auto.
  - intros i x Hx _. exists (i_ref x). destruct x. exact Hx.
Qed.

Lemma quiet_trans w1 w2 w3 : quiet w1 w2 -> quiet w2 w3 -> quiet w1 w3.
Proof.
  intros (A1 & A2 & A3 & A4) (B1 & B2 & B3 & B4). split; [|split; [|split; [congruence|intros k; rewrite B4; apply A4]]].
  - intros i y Hy. destruct (B1 _ _ Hy) as (x & Hx & E & Eb). destruct (A1 _ _ Hx) as (z & Hz & E' & Eb'). exists z.
    split; [assumption|]. split; [|congruence]. rewrite E, E'. destruct z. reflexivity.
  - intros i x Hx Hk. destruct (A2 _ _ Hx Hk) as [r Hr]. destruct (B2 _ _ Hr Hk) as [r' Hr']. exists r'. rewrite Hr'. destruct x. reflexivity.
Qed.

Lemma quiet_dirs w w' : quiet w w' -> same_dirs (w_ino w) (w_ino w').
Proof.
  intros (A1 & A2 & _). split.
  - intros d x Hx Hk. destruct (A2 _ _ Hx Hk) as [r Hr]. eexists. split; [exact Hr|]. split; [exact Hk|reflexivity].
  - intros d y Hy Hk. destruct (A1 _ _ Hy) as (x & Hx & E & _). exists x. split; [assumption|]. rewrite E in Hk |- *. split; [exact Hk|reflexivity].
Qed.

Lemma quiet_obj w w' a : shows w a -> quiet w w' ->
  forall i y, w_ino w' !! i = Some y -> vw_obj a !! i = Some (seen_obj y (bytes w' i)) /\ (i_kind y <> KFile -> i_size y = 0).
Proof.
  intros Hs (A1 & _) i y Hy. destruct (A1 _ _ Hy) as (x & Hx & E & Eb). rewrite Eb, E. split; [exact (sh_obj _ _ Hs _ _ Hx)|].
  intros Hk. exact (sh_size _ _ Hs _ _ Hx Hk).
Qed.

Lemma shows_quiet w w' a f : shows w a -> quiet w w' ->
  (forall c, w_cwd w' !! c = q_cwd <$> f (vw_proc a) !! c) ->
  (forall c fd, w_fds w' !! (c, fd) = seen_des <$> (f (vw_proc a) !! c ≫= fun pr => q_tab pr !! fd)) ->
  shows w' (with_proc f a).
Proof.
  intros Hs Hq Hc Hf. apply (shows_keep w w' a); [exact Hs|apply quiet_dirs; exact Hq|reflexivity|apply Hq|reflexivity| |exact Hc|exact Hf|].
  - exact (quiet_obj w w' a Hs Hq).
  - intros k. destruct Hq as (_ & _ & _ & Hq). rewrite Hq. apply (sh_pipe _ _ Hs).
Qed.

(** the table of [c] changes at one place *)
Lemma fds_put w a c pr m fd d : shows w a -> vw_proc a !! c = Some pr -> m = <[(c, fd) := seen_des d]> (w_fds w) ->
  forall c' fd', m !! (c', fd') = seen_des <$> (vw_proc (give c fd d a) !! c' ≫= fun pr => q_tab pr !! fd').
Proof.
  intros Hs Hp -> c' fd'. unfold give, retab, with_proc. cbn [vw_proc]. destruct (decide (c = c')) as [<-|Hc].
  - rewrite lookup_alter, Hp. cbn. destruct (decide (fd = fd')) as [<-|Hf].
    + rewrite !lookup_insert. reflexivity.
    + rewrite !lookup_insert_ne by congruence. rewrite (sh_fd _ _ Hs), Hp. reflexivity.
  - rewrite lookup_alter_ne, lookup_insert_ne by congruence. apply (sh_fd _ _ Hs).
Qed.

Lemma fds_del w a c pr m fd : shows w a -> vw_proc a !! c = Some pr -> m = delete (c, fd) (w_fds w) ->
  forall c' fd', m !! (c', fd') = seen_des <$> (vw_proc (retab c (delete fd) a) !! c' ≫= fun pr => q_tab pr !! fd').
Proof.
  intros Hs Hp -> c' fd'. unfold retab, with_proc. cbn [vw_proc]. destruct (decide (c = c')) as [<-|Hc].
  - rewrite lookup_alter, Hp. cbn. destruct (decide (fd = fd')) as [<-|Hf].
    + rewrite !lookup_delete. reflexivity.
    + rewrite !lookup_delete_ne by congruence. rewrite (sh_fd _ _ Hs), Hp. reflexivity.
  - rewrite lookup_alter_ne, lookup_delete_ne by congruence. apply (sh_fd _ _ Hs).
Qed.

Lemma cwd_retab w a c f : shows w a -> forall c', w_cwd w !! c' = q_cwd <$> vw_proc (retab c f a) !! c'.
Proof.
  intros Hs c'. rewrite (sh_cwd _ _ Hs). unfold retab, with_proc. cbn [vw_proc]. destruct (decide (c = c')) as [<-|Hc].
  - rewrite lookup_alter. destruct (vw_proc a !! c); reflexivity.
  - rewrite lookup_alter_ne by congruence. reflexivity.
Qed.

(** ** References to objects *)
Definition dirs3 (w : world) : Prop := forall i x, w_ino w !! i = Some x -> i_kind x = KDir -> 2 < i_link x.
Lemma winv_dirs3 w : winv w -> dirs3 w.
Proof. intros Hw i x Hx Hk. pose proof (n_dlink _ _ (v_n _ (u_inv _ Hw)) _ _ Hx Hk) as H. pose proof (nkids_nonneg (w_ino w) i). wcbn. lia. Qed.

Lemma quiet_dirs3 w w' : quiet w w' -> dirs3 w -> dirs3 w'.
Proof. intros (A1 & _) H i y Hy Hk. destruct (A1 _ _ Hy) as (x & Hx & E & _). rewrite E in Hk |- *. exact (H _ _ Hx Hk). Qed.

Lemma quiet_ref w i x r : w_ino w !! i = Some x -> quiet w (put_ino i (set_ref r x) w).
Proof.
  intros Hx. split; [|split; [|split; reflexivity]]; wcbn.
  - intros j y Hy. destruct (decide (i = j)) as [<-|Hne].
    + rewrite lookup_insert in Hy. injection Hy as <-. exists x. auto.
    + rewrite lookup_insert_ne in Hy by assumption. exists y. destruct y. auto.
  - intros j y Hy Hk. destruct (decide (i = j)) as [<-|Hne].
    + rewrite lookup_insert. assert (y = x) by congruence. subst. eauto.
    + rewrite lookup_insert_ne by assumption. exists (i_ref y). destruct y. exact Hy.
Qed.

Lemma quiet_del w i x : w_ino w !! i = Some x -> i_kind x <> KDir -> quiet w (del_ino i w).
Proof.
  intros Hx Hk. split; [|split; [|split; reflexivity]]; wcbn.
  - intros j y Hy. apply lookup_delete_Some in Hy as [_ Hy]. exists y. destruct y. auto.
  - intros j y Hy Hky. rewrite lookup_delete_ne by congruence. exists (i_ref y). destruct y. exact Hy.
Qed.

(** same inodes, numbers and bytes of the objects *)
Lemma quiet_same w w' : w_ino w' = w_ino w -> w_next w' = w_next w -> (forall i, is_Some (w_ino w !! i) -> bytes w' i = bytes w i) ->
  (forall k, p_buf <$> w_pipes w' !! k = p_buf <$> w_pipes w !! k) -> quiet w w'.
Proof.
  intros E1 E2 E3 E4. split; [|split; [|split; [exact E2|exact E4]]]; rewrite E1.
  - intros i y Hy. exists y. rewrite E3 by eauto. destruct y. auto.
  - intros i x Hx _. exists (i_ref x). destruct x. exact Hx.
Qed.

(** the counts of a pipe change *)
Lemma quiet_pipe w pid p p' : get_pipe w pid = Done p -> p_buf p' = p_buf p -> quiet w (with_pipes (insert pid p') w).
Proof.
  intros Hp Hb. unfold get_pipe in Hp. destruct (w_pipes w !! pid) as [p0|] eqn:E; [|discriminate]. injection Hp as ->.
  apply quiet_same; try reflexivity. intros k. wcbn. destruct (decide (pid = k)) as [<-|Hne].
  - rewrite lookup_insert, E. cbn. f_equal. exact Hb.
  - rewrite lookup_insert_ne by exact Hne. reflexivity.
Qed.
Lemma decr_buf fl p : p_buf (pipe_decr fl p) = p_buf p.
Proof. unfold pipe_decr. repeat match goal with |- context [if ?b then _ else _] => destruct b end; reflexivity. Qed.
Lemma incr_buf fl p : p_buf (pipe_incr fl p) = p_buf p.
Proof. unfold pipe_incr. repeat match goal with |- context [if ?b then _ else _] => destruct b end; reflexivity. Qed.

Lemma close_desc_quiet d w w' r : dirs3 w -> close_desc d w = Done (w', r) -> quiet w w'.
Proof.
  intros H3 H. destruct d as [i pos fl|s fl|pid fl|fl]; cbn [close_desc] in H.
  - unfold get_ino in H. destruct (w_ino w !! i) as [x|] eqn:Hx; cbn [obind] in H; [|discriminate].
    destruct (dec (i_ref x)) as [r0|] eqn:Hd; cbn [obind] in H; [|discriminate].
    pose proof (quiet_ref w i x r0 Hx) as Q.
    destruct (i_kind x) as [| |ma mi|] eqn:Ek; [| | |discriminate].
    + destruct (r0 =? 0); [|injection H as <- <-; exact Q].
      destruct (w_fobj (put_ino i (set_ref r0 x) w) !! i); [|discriminate].
      destruct (i_link x =? 0); [|injection H as <- <-; eapply quiet_trans; [exact Q|]; apply quiet_same; reflexivity].
      unfold remove_host in H. destruct (d_host _ !! i); cbn [obind] in H; [|discriminate]. injection H as <- <-.
      eapply quiet_trans; [exact Q|]. split; [|split; [|split; reflexivity]]; wcbn.
      * intros j y Hy. apply lookup_delete_Some in Hy as [Hne Hy]. exists y. split; [exact Hy|]. split; [destruct y; reflexivity|].
        unfold bytes. wcbn. apply lookup_delete_ne. exact Hne.
      * intros j y Hy Hk. destruct (decide (i = j)) as [<-|Hne]; [rewrite lookup_insert in Hy; injection Hy as <-; cbn in Hk; congruence|].
        rewrite lookup_delete_ne by assumption. exists (i_ref y). destruct y. exact Hy.
    + destruct (w_fobj (put_ino i (set_ref r0 x) w) !! i); [injection H as <- <-; exact Q|].
      destruct (Z.eqb_spec (i_link x) 2) as [E|_]; [pose proof (H3 _ _ Hx Ek); lia|]. cbn [andb] in H. injection H as <- <-. exact Q.
    + destruct (w_fobj (put_ino i (set_ref r0 x) w) !! i); [injection H as <- <-; exact Q|]. injection H as <- <-.
      eapply quiet_trans; [exact Q|]. destruct ((i_link x =? 0) && (r0 =? 0)); [|apply quiet_same; reflexivity].
      eapply quiet_trans; [apply (quiet_del _ i (set_ref r0 x))|apply quiet_same; reflexivity]; [wcbn; apply lookup_insert|].
      cbn. congruence.
  - injection H as <- <-. apply quiet_refl.
  - destruct (get_pipe w pid) as [p|] eqn:Ep; cbn [obind] in H; [|discriminate]. injection H as <- <-. apply (quiet_pipe w pid p _ Ep), decr_buf.
  - injection H as <- <-. apply quiet_refl.
Qed.

Lemma close_inner_quiet w c fd w' r : dirs3 w -> close_inner w c fd = Done (w', r) -> quiet w w'.
Proof.
  intros H3 H. unfold close_inner in H. destruct (fd_slot w c fd) as [[d|]|]; cbn [obind] in H; [|injection H as <- <-; apply quiet_refl|discriminate].
  eapply close_desc_quiet; eauto.
Qed.

Lemma close_quiet w c fd w' r : dirs3 w -> close_syscall w c fd = Done (w', r) -> quiet w w'.
Proof.
  intros H3 H. unfold close_syscall in H. destruct (close_inner w c fd) as [[w1 r1]|] eqn:E; cbn [obind] in H; [|discriminate].
  apply close_inner_quiet in E; [|assumption].
  destruct (r1 <? 0); injection H as <- <-; [exact E|]. eapply quiet_trans; [exact E|]. apply quiet_same; reflexivity.
Qed.

Lemma close_fold_quiet c l : forall w w', dirs3 w -> fold_left (close_fd_in c) l (Done w) = Done w' -> quiet w w'.
Proof.
  induction l as [|fd l IH]; intros w w' H3 H; cbn [fold_left] in H; [injection H as <-; apply quiet_refl|].
  unfold close_fd_in in H at 2. cbn [obind] in H. destruct (close_syscall w c fd) as [[w1 r1]|] eqn:E; cbn [obind fst] in H.
  - apply close_quiet in E; [|assumption]. eapply quiet_trans; [exact E|]. apply IH; [eapply quiet_dirs3; eauto|exact H].
  - exfalso. clear -H. induction l as [|fd l IH]; cbn [fold_left] in H; [discriminate|]. apply IH. exact H.
Qed.

Lemma add_ref_quiet d w w' : add_ref d w = Done (Some w') -> quiet w w'.
Proof.
  intros H. destruct d as [i pos fl|s fl|pid fl|fl]; cbn [add_ref] in H.
  - unfold get_ino in H. destruct (w_ino w !! i) as [x|] eqn:Hx; cbn [obind] in H; [|discriminate].
    pose proof (quiet_ref w i x (i_ref x + 1) Hx) as Q. destruct (i_kind x); try discriminate; injection H as <-; exact Q.
  - injection H as <-. apply quiet_refl.
  - destruct (get_pipe w pid) as [p|] eqn:Ep; cbn [obind] in H; [|discriminate]. injection H as <-. apply (quiet_pipe w pid p _ Ep), incr_buf.
  - discriminate.
Qed.

Lemma fork_fold_quiet ptab c ch l : forall w w', fold_left (fork_fd ptab c ch) l (Done w) = Done w' -> quiet w w'.
Proof.
  induction l as [|fd l IH]; intros w w' H; cbn [fold_left] in H; [injection H as <-; apply quiet_refl|].
  unfold fork_fd in H at 2. cbn [obind] in H.
  assert (P : forall l, fold_left (fork_fd ptab c ch) l Panic = Done w' -> False).
  { clear. induction l as [|fd l IH]; cbn [fold_left]; [discriminate|exact IH]. }
  destruct (ptab !! (c, fd)) as [d|]; [|apply IH; exact H].
  match type of H with context [obind ?o _] => destruct o as [w1|] eqn:E end; cbn [obind] in H; [|exfalso; exact (P _ H)].
  assert (Q : quiet w w1).
  { destruct d as [i pos fl|s fl|pid fl|fl].
    - unfold get_ino in E. destruct (w_ino w !! i) as [x|] eqn:Hx; cbn [obind] in E; [|discriminate]. injection E as <-. apply quiet_ref. exact Hx.
    - injection E as <-. apply quiet_refl.
    - destruct (get_pipe w pid) as [p|] eqn:Ep; cbn [obind] in E; [|discriminate]. injection E as <-. apply (quiet_pipe w pid p _ Ep), incr_buf.
    - injection E as <-. apply quiet_refl. }
  eapply quiet_trans; [exact Q|]. eapply quiet_trans; [|apply IH; exact H]. apply quiet_same; reflexivity.
Qed.
