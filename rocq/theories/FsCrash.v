(** What the metadata file and the log say agrees with the live table after
    every call, and at every moment in between the recovered tree is whole. *)
From Verif Require Import Base PathModel PathSpec PathProofs FsModel FsBoot FsSpec FsWalk Count FsNames FsTr FsInv FsInv2
  FsSteps FsSteps2 FsFrame FsReachSpec FsReach FsCrashSpec.
Local Open Scope list_scope.
Local Open Scope Z_scope.

Opaque all_fds.

(** ** The table that recovery reads *)
Definition logged (d : disk) : option (gmap Z inode) :=
  match d_meta d, d_log d with Some im, Some l => Some (replay (im_tab im) l) | _, _ => None end.
Definition nextno (d : disk) : Z :=
  match d_meta d, d_log d with Some im, Some l => replay_max (im_next im) l + 1 | _, _ => 0 end.

Lemma logged_log d t i x : logged d = Some t -> logged (apply_eff (PLog i x) d) = Some (replay_one t (i, x)).
Proof.
  unfold logged. cbn [apply_eff d_meta d_log]. destruct (d_meta d); [|discriminate]. destruct (d_log d); [|discriminate].
  intros [= <-]. cbn. unfold replay. rewrite fold_left_app. reflexivity.
Qed.
Lemma nextno_log d t i x : logged d = Some t ->
  nextno (apply_eff (PLog i x) d) = match x with Some _ => Z.max (nextno d) (i + 1) | None => nextno d end.
Proof.
  unfold logged, nextno. cbn [apply_eff d_meta d_log]. destruct (d_meta d) as [im|]; [|discriminate]. destruct (d_log d); [|discriminate].
  intros _. cbn. unfold replay_max. rewrite fold_left_app. cbn. destruct x; lia.
Qed.

(** Agreement of a recorded object with the live one. Truncation by [open] is
    not recorded, so an empty file may be recorded with an old size. *)
Definition sat (r x : option inode) : Prop :=
  r = strip <$> x \/
  exists y s, x = Some y /\ i_kind y = KFile /\ i_size y = 0 /\ r = Some (strip (set_size s y)).

Definition ds (D : list Z) (w : world) : Prop :=
  exists t, logged (w_disk w) = Some t /\ (forall i, i ∉ D -> sat (t !! i) (w_ino w !! i)) /\ w_next w <= nextno (w_disk w).

Lemma sat_refl x : sat (strip <$> x) x.
Proof. left. reflexivity. Qed.

Lemma ds_put D i x w : ds D w -> ds (i :: D) (put_ino i x w).
Proof.
  intros (t & H1 & H2 & H3). exists t. split; [exact H1|]. split; [|exact H3].
  intros j Hj. apply not_elem_of_cons in Hj as [Hne Hj]. wcbn. rewrite lookup_insert_ne by congruence. auto.
Qed.
Lemma ds_del D i w : ds D w -> ds (i :: D) (del_ino i w).
Proof.
  intros (t & H1 & H2 & H3). exists t. split; [exact H1|]. split; [|exact H3].
  intros j Hj. apply not_elem_of_cons in Hj as [Hne Hj]. wcbn. rewrite lookup_delete_ne by congruence. auto.
Qed.
Lemma ds_log i D D' w : (forall j, j ∉ D' -> j <> i -> j ∉ D) -> ds D w -> ds D' (log_meta i w).
Proof.
  intros HD (t & H1 & H2 & H3). exists (replay_one t (i, strip <$> w_ino w !! i)).
  split; [exact (logged_log _ _ _ _ H1)|]. split.
  - intros j Hj. unfold log_meta, emit. cbn [w_ino]. unfold replay_one. cbn [fst snd]. destruct (decide (j = i)) as [->|Hne].
    + destruct (w_ino w !! i) as [x|]; cbn [fmap option_fmap option_map].
      * rewrite lookup_insert. left. reflexivity.
      * rewrite lookup_delete. left. reflexivity.
    + destruct (w_ino w !! i) as [x|]; cbn [fmap option_fmap option_map].
      * rewrite lookup_insert_ne by congruence. auto.
      * rewrite lookup_delete_ne by congruence. auto.
  - unfold log_meta, emit. cbn [w_next w_disk]. rewrite (nextno_log _ _ _ _ H1). destruct (_ <$> _); lia.
Qed.
Lemma sat_strip r x y : strip x = strip y -> sat r (Some y) -> sat r (Some x).
Proof.
  intros E [H|(y' & s & [= <-] & H1 & H2 & H3)].
  - left. rewrite H. cbn. congruence.
  - right. exists x, s. destruct x, y; cbn in *. injection E as -> -> -> -> ->. auto.
Qed.
Lemma ds_same D i x y w : w_ino w !! i = Some y -> strip x = strip y -> ds D w -> ds D (put_ino i x w).
Proof.
  intros Hy E (t & H1 & H2 & H3). exists t. split; [exact H1|]. split; [|exact H3].
  intros j Hj. wcbn. destruct (decide (i = j)) as [<-|Hne].
  - rewrite lookup_insert. apply sat_strip with y; [exact E|]. rewrite <- Hy. auto.
  - rewrite lookup_insert_ne by congruence. auto.
Qed.
Lemma ds_trunc D i x y w : w_ino w !! i = Some y -> i_kind y = KFile -> strip x = strip (set_size 0 y) -> ds D w -> ds D (put_ino i x w).
Proof.
  intros Hy Hk E (t & H1 & H2 & H3). exists t. split; [exact H1|]. split; [|exact H3].
  intros j Hj. wcbn. destruct (decide (i = j)) as [<-|Hne].
  - rewrite lookup_insert. specialize (H2 _ Hj). rewrite Hy in H2. right.
    destruct x as [k1 s1 m1 l1 r1 d1], y as [k2 s2 m2 l2 r2 d2]. cbn in *. injection E as -> -> -> -> ->. subst k2.
    destruct H2 as [H2|(y' & s & [= <-] & _ & Hs & H2)]; rewrite H2; cbn.
    + exists (Inode KFile 0 m2 l2 r1 d2), s2. auto.
    + exists (Inode KFile 0 m2 l2 r1 d2), s. auto.
  - rewrite lookup_insert_ne by congruence. auto.
Qed.
Lemma ds_sub D D' w : (forall j, j ∈ D -> j ∈ D') -> ds D w -> ds D' w.
Proof. intros HD (t & H1 & H2 & H3). exists t. split; [exact H1|]. split; [|exact H3]. intros i Hi. apply H2. intros Hc. apply Hi, HD, Hc. Qed.

Lemma ds_new par f x w w' : ds [] w -> add_child par f (w_next w) x w = Done w' -> ds [] w'.
Proof.
  intros (t & H1 & H2 & H3) H. unfold add_child in H. destruct (get_ino w par) as [p|] eqn:Hp; cbn [obind] in H; [|discriminate H].
  injection H as <-. set (i := w_next w).
  set (w2 := put_ino i x (put_ino par _ (with_next (i + 1) w))).
  assert (Hi2 : w_ino w2 !! i = Some x) by apply lookup_insert.
  exists (replay_one (replay_one t (par, strip <$> w_ino w2 !! par)) (i, strip <$> w_ino w2 !! i)).
  assert (E1 : logged (w_disk w2) = Some t) by exact H1.
  pose proof (logged_log _ _ par (strip <$> w_ino w2 !! par) E1) as E2.
  split; [exact (logged_log _ _ _ _ E2)|]. split.
  - intros j _. change (w_ino (log_meta i (log_meta par w2))) with (w_ino w2). rewrite Hi2. unfold replay_one at 1. cbn [fst snd fmap option_fmap option_map].
    destruct (decide (i = j)) as [<-|Hne]; [rewrite lookup_insert, Hi2; left; reflexivity|].
    rewrite lookup_insert_ne by assumption. unfold replay_one. cbn [fst snd].
    assert (Hpar : is_Some (w_ino w2 !! par)).
    { subst w2. unfold put_ino, with_ino. cbn [w_ino with_next]. apply lookup_insert_is_Some'. right. rewrite lookup_insert. eauto. }
    destruct Hpar as [p' Hp']. rewrite Hp'. cbn [fmap option_fmap option_map].
    destruct (decide (par = j)) as [<-|Hne2]; [rewrite lookup_insert, Hp'; left; reflexivity|].
    rewrite lookup_insert_ne by assumption. subst w2. unfold put_ino, with_ino. cbn [w_ino with_next].
    rewrite !lookup_insert_ne by assumption. apply H2. apply not_elem_of_nil.
  - change (w_next (log_meta i (log_meta par w2))) with (i + 1).
    unfold log_meta at 1, emit at 1. cbn [w_disk]. change (w_ino (log_meta par w2)) with (w_ino w2). rewrite Hi2.
    rewrite (nextno_log _ _ i _ E2). cbn [fmap option_fmap option_map]. lia.
Qed.

(** ** Effects on the host disk *)
Definition hosty (e : peff) : Prop := match e with PCreate _ | PRemove _ | PWrite _ _ _ | PSetLen _ _ => True | _ => False end.

Definition effs (w w' : world) (es : list peff) : Prop :=
  w_trace w' = w_trace w ++ es /\ w_disk w' = after es (w_disk w).
Definition quiet (w w' : world) : Prop := exists es, effs w w' es /\ Forall hosty es.

Lemma after_app a b d : after (a ++ b) d = after b (after a d).
Proof. apply fold_left_app. Qed.
Lemma quiet_refl w : quiet w w.
Proof. exists []. split; [split; [rewrite app_nil_r; reflexivity|reflexivity]|constructor]. Qed.
Lemma quiet_emit w w1 e : hosty e -> quiet w w1 -> quiet w (emit e w1).
Proof.
  intros He (es & [E1 E2] & F). exists (es ++ [e]). split; [split|].
  - cbn. rewrite E1, <- app_assoc. reflexivity.
  - cbn [emit w_disk]. rewrite after_app, E2. reflexivity.
  - apply Forall_app. split; [exact F|]. constructor; [exact He|constructor].
Qed.
Lemma quiet_trans a b c : quiet a b -> quiet b c -> quiet a c.
Proof.
  intros (e1 & [A1 A2] & A3) (e2 & [B1 B2] & B3). exists (e1 ++ e2). split; [split|].
  - rewrite B1, A1, app_assoc. reflexivity.
  - rewrite B2, A2, after_app. reflexivity.
  - apply Forall_app. auto.
Qed.

Lemma hosty_disk e d : hosty e -> d_meta (apply_eff e d) = d_meta d /\ d_log (apply_eff e d) = d_log d.
Proof. destruct e; cbn; tauto. Qed.
Lemma hosty_after es : forall d, Forall hosty es -> d_meta (after es d) = d_meta d /\ d_log (after es d) = d_log d.
Proof.
  induction es as [|e es IH]; intros d H; [auto|]. inversion H as [|? ? He Hes]; subst. cbn.
  destruct (IH (apply_eff e d) Hes) as [E1 E2]. destruct (hosty_disk e d He) as [F1 F2].
  change (d_meta (after es (apply_eff e d)) = d_meta d /\ d_log (after es (apply_eff e d)) = d_log d). rewrite E1, E2. auto.
Qed.

(** At most one log record, written last *)
Definition onelog (w w' : world) : Prop :=
  quiet w w' \/ exists w1 i x, quiet w w1 /\ w_trace w' = w_trace w1 ++ [PLog i x] /\ w_disk w' = apply_eff (PLog i x) (w_disk w1).

Lemma onelog_log w w1 i : quiet w w1 -> onelog w (log_meta i w1).
Proof. intros H. right. exists w1, i, (strip <$> w_ino w1 !! i). auto. Qed.

(** Same metadata and log *)
Definition meq (d d' : disk) : Prop := d_meta d = d_meta d' /\ d_log d = d_log d'.
Lemma meq_refl d : meq d d. Proof. split; reflexivity. Qed.
Lemma logged_meq d d' : meq d d' -> logged d = logged d' /\ nextno d = nextno d'.
Proof. intros [H1 H2]. unfold logged, nextno. rewrite H1, H2. auto. Qed.

Lemma app_snoc_prefix {A} (l1 l2 es : list A) e : l1 ++ l2 = es ++ [e] -> (exists l, es = l1 ++ l) \/ l1 = es ++ [e].
Proof.
  revert es. induction l1 as [|a l1 IH]; intros es H; cbn in *; [left; eauto|].
  destruct es as [|b es]; cbn in H.
  - injection H as -> H. apply app_eq_nil in H as [-> ->]. auto.
  - injection H as -> H. destruct (IH _ H) as [[l ->]| ->]; eauto.
Qed.

Lemma quiet_point w w' d : quiet w w' -> crash_point w w' d -> meq d (w_disk w).
Proof.
  intros (es & [E1 E2] & F) (a & b & H & ->). rewrite E1 in H. apply app_inv_head in H. subst es.
  apply Forall_app in F as [F _]. apply hosty_after. exact F.
Qed.
Lemma onelog_point w w' d : onelog w w' -> crash_point w w' d -> meq d (w_disk w) \/ meq d (w_disk w').
Proof.
  intros [H|(w1 & i & x & (es & [E1 E2] & F) & T & D)] Hp; [left; exact (quiet_point _ _ _ H Hp)|].
  destruct Hp as (a & b & Hab & ->). rewrite T, E1, <- app_assoc in Hab. apply app_inv_head in Hab. symmetry in Hab.
  destruct (app_snoc_prefix _ _ _ _ Hab) as [[l ->]| ->].
  - left. apply Forall_app in F as [F _]. apply hosty_after. exact F.
  - right. rewrite after_app, <- E2, D. split; reflexivity.
Qed.

(** ** Pieces of system calls *)
Lemma remove_host_eq i w w' : remove_host i w = Done w' -> w' = emit (PRemove i) w.
Proof. unfold remove_host. destruct (_ !! i); [|discriminate]. intros [= <-]. reflexivity. Qed.
Lemma zerofill_eq i a n w w' : zerofill i a n w = Done w' -> exists g e, hosty e /\ w' = with_fobj g (emit e w).
Proof.
  unfold zerofill. destruct (_ !! i); [|discriminate]. destruct (_ <? a); [discriminate|]. intros [= <-].
  eexists _, (PWrite i a _). split; [exact I|reflexivity].
Qed.
Lemma writeat_eq i a b w w' : writeat i a b w = Done w' -> exists g e, hosty e /\ w' = with_fobj g (emit e w).
Proof.
  unfold writeat. destruct (_ !! i); [|discriminate]. destruct (_ || _); [discriminate|]. intros [= <-].
  eexists _, (PWrite i a _). split; [exact I|reflexivity].
Qed.
Lemma ds_hosty D e w : hosty e -> ds D w -> ds D (emit e w).
Proof.
  intros He (t & H1 & H2 & H3). exists t. destruct (logged_meq (apply_eff e (w_disk w)) (w_disk w) (hosty_disk e _ He)) as [E1 E2].
  cbn [emit w_disk w_ino w_next]. rewrite E1, E2. auto.
Qed.

(** A call that touches no recorded field: same table up to reference counts,
    quiet disk *)
Definition dq (w w' : world) : Prop := (ds [] w -> ds [] w') /\ onelog w w'.
Lemma dq_refl w : dq w w.
Proof. split; [auto|left; apply quiet_refl]. Qed.

Lemma open_fobj_eq i s w : open_fobj i s w = w \/ exists g e, hosty e /\ open_fobj i s w = with_fobj g (emit e w).
Proof. unfold open_fobj. destruct (_ !! i); [auto|]. right. eexists _, (PCreate i). split; [exact I|reflexivity]. Qed.
Lemma ds_open_fobj D i s w : ds D w -> ds D (open_fobj i s w).
Proof. intros H. destruct (open_fobj_eq i s w) as [-> |(g & e & He & ->)]; [exact H|]. exact (ds_hosty _ _ _ He H). Qed.
Lemma quiet_open_fobj w0 i s w : quiet w0 w -> quiet w0 (open_fobj i s w).
Proof. intros H. destruct (open_fobj_eq i s w) as [-> |(g & e & He & ->)]; [exact H|]. exact (quiet_emit _ _ _ He H). Qed.
Lemma open_fobj_ino i s w : w_ino (open_fobj i s w) = w_ino w /\ w_next (open_fobj i s w) = w_next w.
Proof. unfold open_fobj. destruct (_ !! i); split; reflexivity. Qed.

(** Creation logs the directory, then the new object, and takes the next
    object number *)
Definition newlog (w w' : world) : Prop :=
  exists w1 par q f x, quiet w1 w' /\
    let p' := set_link (i_link q + 1) (set_dict (<[f := w_next w]> (i_dict q)) q) in
    (par <> w_next w ->
     w_trace w1 = (w_trace w ++ [PLog par (Some (strip p'))]) ++ [PLog (w_next w) (Some (strip x))] /\
     w_disk w1 = apply_eff (PLog (w_next w) (Some (strip x))) (apply_eff (PLog par (Some (strip p'))) (w_disk w)) /\
     w_ino w' !! par = Some p') /\
    w_ino w !! par = Some q /\ w_next w' = w_next w + 1.
Definition dqn (w w' : world) : Prop := (ds [] w -> ds [] w') /\ (onelog w w' \/ newlog w w').
Lemma dqn_dq w w' : dq w w' -> dqn w w'.
Proof. intros [H1 H2]. split; auto. Qed.
Lemma add_child_new par f x w w' w2 : add_child par f (w_next w) x w = Done w' -> quiet w' w2 ->
  w_ino w2 = w_ino w' -> w_next w2 = w_next w' -> newlog w w2.
Proof.
  unfold add_child. intros H Q E1 E2. destruct (get_ino w par) as [q|] eqn:Hq; cbn [obind] in H; [|discriminate H]. apply get_ino_done in Hq.
  injection H as <-. eexists _, par, q, f, x. split; [exact Q|]. split; [|split; [exact Hq|rewrite E2; reflexivity]].
  intros Hne. rewrite E1. set (p' := set_link _ _). unfold log_meta, emit. cbn [w_ino w_trace w_disk].
  assert (G1 : w_ino (put_ino (w_next w) x (put_ino par p' (with_next (w_next w + 1) w))) !! par = Some p').
  { cbn [put_ino with_ino w_ino]. rewrite lookup_insert_ne by congruence. apply lookup_insert. }
  assert (G2 : w_ino (put_ino (w_next w) x (put_ino par p' (with_next (w_next w + 1) w))) !! w_next w = Some x) by apply lookup_insert.
  rewrite G1, G2. split; [reflexivity|]. split; reflexivity.
Qed.

Lemma open_dq w c cwd p fl m w' r : open_syscall w c cwd p fl m = Done (w', r) -> dqn w w'.
Proof.
  intros H. pose proof (dqn_dq _ _ (dq_refl w)) as Ho. unfold open_syscall in H.
  destruct (String.eqb p ""); [injection H as <- _; exact Ho|].
  destruct (next_fd w c 0) as [fd|] eqn:Hfd; [|injection H as <- _; exact Ho].
  destruct (metawalkandparent (w_ino w) (normpath cwd p)) as [[[i|] par]|]; cbn [obind] in H; [| |discriminate H].
  - clear par. destruct (_ =? _) in H; [injection H as <- _; exact Ho|].
    destruct (get_ino w i) as [x|] eqn:Hx; cbn [obind] in H; [|discriminate H]. apply get_ino_done in Hx.
    destruct (i_kind x) eqn:Hk.
    + apply dqn_dq. destruct (Z.land fl O_TRUNC =? O_TRUNC).
      * match type of H with obind ?o _ = _ => destruct o as [w1|] eqn:E; cbn [obind] in H; [|discriminate H] end.
        apply remove_host_eq in E. injection H as <- _. subst w1. split.
        -- intros Hd. pose proof (ds_trunc [] i (set_size 0 x) x w Hx Hk eq_refl Hd) as Hd1.
           set (w0 := emit (PRemove i) _). assert (Hd0 : ds [] w0) by exact Hd1. clear Hd1.
           assert (Hi0 : w_ino w0 !! i = Some (set_size 0 x)) by apply lookup_insert. clearbody w0.
           refine (ds_same [] i _ (set_size 0 x) (open_fobj i 0 w0) _ _ _); [|reflexivity|].
           ++ rewrite (proj1 (open_fobj_ino _ _ _)). exact Hi0.
           ++ apply ds_open_fobj. exact Hd0.
        -- left. refine (quiet_open_fobj w i 0 _ _). refine (quiet_emit w _ (PRemove i) I _). exact (quiet_refl w).
      * cbn [obind] in H. injection H as <- _. split.
        -- intros Hd. refine (ds_same [] i _ x (open_fobj i (i_size x) w) _ _ _).
           ++ rewrite (proj1 (open_fobj_ino _ _ _)). exact Hx.
           ++ destruct x; reflexivity.
           ++ apply ds_open_fobj. exact Hd.
        -- left. refine (quiet_open_fobj w i _ _ _). exact (quiet_refl w).
    + apply dqn_dq. injection H as <- _. split; [intros Hd; exact (ds_same [] i (set_ref (i_ref x + 1) x) x w Hx eq_refl Hd)|left; exact (quiet_refl w)].
    + apply dqn_dq. injection H as <- _. split; [intros Hd; exact (ds_same [] i (set_ref (i_ref x + 1) x) x w Hx eq_refl Hd)|left; exact (quiet_refl w)].
    + injection H as <- _. exact Ho.
  - destruct par as [par|]; [|injection H as <- _; exact Ho].
    destruct (negb (hasbit fl O_CREAT)); [injection H as <- _; exact Ho|].
    destruct (_ =? S_IFCHR); [injection H as <- _; exact Ho|].
    destruct (negb (sane_mode m)); [injection H as <- _; exact Ho|].
    destruct (file_name _) as [f|]; [|discriminate H].
    destruct (add_child par f (w_next w) _ w) as [w1|] eqn:E; cbn [obind] in H; [|discriminate H]. injection H as <- _.
    split.
    + intros Hd. exact (ds_open_fobj [] (w_next w) 0 w1 (ds_new _ _ _ _ _ Hd E)).
    + right. refine (add_child_new _ _ _ _ _ _ E (quiet_open_fobj w1 (w_next w) 0 w1 (quiet_refl w1)) _ _);
        [exact (proj1 (open_fobj_ino (w_next w) 0 w1))|exact (proj2 (open_fobj_ino (w_next w) 0 w1))].
Qed.

Lemma add_dq par f x w w' : add_child par f (w_next w) x w = Done w' -> dqn w w'.
Proof.
  intros E. split; [intros Hd; exact (ds_new _ _ _ _ _ Hd E)|]. right. exact (add_child_new _ _ _ _ _ _ E (quiet_refl w') eq_refl eq_refl).
Qed.
Lemma mkdir_dq w cwd p m w' r : mkdir_syscall w cwd p m = Done (w', r) -> dqn w w'.
Proof.
  intros H. pose proof (dqn_dq _ _ (dq_refl w)) as Ho. unfold mkdir_syscall in H. brk H; try exact Ho.
  match goal with E : add_child _ _ _ _ _ = _ |- _ => exact (add_dq _ _ _ _ _ E) end.
Qed.
Lemma mknod_dq w cwd p m d w' r : mknod_syscall w cwd p m d = Done (w', r) -> dqn w w'.
Proof.
  intros H. pose proof (dqn_dq _ _ (dq_refl w)) as Ho. unfold mknod_syscall in H. brk H; try exact Ho.
  match goal with E : add_child _ _ _ _ _ = _ |- _ => exact (add_dq _ _ _ _ _ E) end.
Qed.

Lemma chmod_dq w n i m w' r : inv_n (w_ino w) n -> chmod_helper i m w = Done (w', r) -> dq w w'.
Proof.
  intros Hi H. unfold chmod_helper in H. destruct (_ =? m); [|injection H as <- _; apply dq_refl].
  destruct (get_ino w i) as [x|] eqn:Hx; cbn [obind] in H; [|discriminate H]. apply get_ino_done in Hx.
  pose proof (n_sock _ _ Hi _ _ Hx) as Hs. injection H as <- _.
  destruct (i_kind x); try congruence;
    (split; [intros Hd; refine (ds_log i [i] [] _ _ (ds_put [] i _ w Hd)); set_solver|exact (onelog_log w (put_ino i _ w) i (quiet_refl w))]).
Qed.

Lemma truncate_dq w i len b w' r : truncate_helper i len b w = Done (w', r) -> dq w w'.
Proof.
  intros H. unfold truncate_helper in H. destruct (len <? 0); [injection H as <- _; apply dq_refl|].
  destruct (get_ino w i) as [x|] eqn:Hx; cbn [obind] in H; [|discriminate H]. apply get_ino_done in Hx.
  destruct (i_kind x); try (injection H as <- _; apply dq_refl).
  destruct (negb _ && b) in H; [discriminate H|].
  match type of H with obind ?o _ = _ => destruct o as [w2|] eqn:E2; cbn [obind] in H; [|discriminate H] end.
  match type of E2 with context [if ?b then w else ?e] => set (w1 := if b then w else e) in * end.
  assert (K1 : (ds [] w -> ds [] w1) /\ quiet w w1).
  { subst w1. destruct (w_fobj w !! i); [split; [auto|apply quiet_refl]|].
    split; [intros Hd; exact (ds_hosty [] (PCreate i) w I Hd)|exact (quiet_emit w w (PCreate i) I (quiet_refl w))]. }
  clearbody w1. destruct K1 as [K1 Q1].
  assert (K2 : (ds [] w1 -> ds [] w2) /\ quiet w w2).
  { destruct (i_size x <? len).
    - apply zerofill_eq in E2 as (g & e & He & ->). split; [intros Hd; exact (ds_hosty [] e w1 He Hd)|exact (quiet_emit w w1 e He Q1)].
    - destruct (w_fobj w1 !! i); [|discriminate E2]. destruct (_ <? len) in E2; [discriminate E2|]. injection E2 as <-.
      split; [intros Hd; exact (ds_hosty [] (PSetLen i len) w1 I Hd)|exact (quiet_emit w w1 (PSetLen i len) I Q1)]. }
  destruct K2 as [K2 Q2]. injection H as <- _.
  match goal with |- context [if ?b then w2 else ?e] => set (w3 := if b then w2 else e) end.
  assert (K3 : (ds [] w2 -> ds [] w3) /\ quiet w w3).
  { subst w3. destruct (w_fobj w !! i); [split; [auto|exact Q2]|]. split; [intros Hd; exact Hd|exact Q2]. }
  clearbody w3. destruct K3 as [K3 Q3]. split.
  - intros Hd. refine (ds_log i [i] [] _ _ (ds_put [] i _ w3 (K3 (K2 (K1 Hd))))). set_solver.
  - exact (onelog_log w (put_ino i _ w3) i Q3).
Qed.

Lemma file_write_dq i pos bs x w w' : file_write i pos bs x w = Done w' -> dq w w'.
Proof.
  intros H. unfold file_write in H.
  match type of H with obind ?o _ = _ => destruct o as [w1|] eqn:E1; cbn [obind] in H; [|discriminate H] end.
  destruct (writeat i pos bs w1) as [w2|] eqn:E2; cbn [obind] in H; [|discriminate H].
  assert (K1 : (ds [] w -> ds [] w1) /\ quiet w w1).
  { destruct (0 <? _) in E1; [apply zerofill_eq in E1 as (g & e & He & ->);
      split; [intros Hd; exact (ds_hosty [] e w He Hd)|exact (quiet_emit w w e He (quiet_refl w))]|].
    destruct (w_fobj w !! i) in E1; [injection E1 as <-|discriminate E1]. split; [auto|apply quiet_refl]. }
  destruct K1 as [K1 Q1]. apply writeat_eq in E2 as (g & e & He & ->).
  assert (Q2 : quiet w (with_fobj g (emit e w1))) by exact (quiet_emit w w1 e He Q1).
  assert (K2 : ds [] w -> ds [] (with_fobj g (emit e w1))) by (intros Hd; exact (ds_hosty [] e w1 He (K1 Hd))).
  set (w2 := with_fobj g (emit e w1)) in *. clearbody w2.
  destruct (i_size x <? _); injection H as <-; [|split; [exact K2|left; exact Q2]]. split.
  - intros Hd. refine (ds_log i [i] [] _ _ (ds_put [] i _ w2 (K2 Hd))). set_solver.
  - exact (onelog_log w (put_ino i _ w2) i Q2).
Qed.

Lemma close_desc_dq d w w' r : close_desc d w = Done (w', r) -> dq w w'.
Proof.
  intros H. unfold close_desc in H. destruct d as [i pos fl|st fl|pid fl|fl].
  - destruct (get_ino w i) as [x|] eqn:Hx; cbn [obind] in H; [|discriminate H]. apply get_ino_done in Hx.
    destruct (dec (i_ref x)) as [r0|]; cbn [obind] in H; [|discriminate H].
    assert (K : ds [] w -> ds [] (put_ino i (set_ref r0 x) w)) by (intros Hd; exact (ds_same [] i (set_ref r0 x) x w Hx eq_refl Hd)).
    set (w1 := put_ino i (set_ref r0 x) w) in *. assert (Q : quiet w w1) by exact (quiet_refl w). clearbody w1.
    assert (Hq : dq w w1) by (split; [exact K|left; exact Q]).
    assert (Hdel : ds [] w -> ds [] (log_meta i (del_ino i w1))).
    { intros Hd. refine (ds_log i [i] [] _ _ (ds_del [] i w1 (K Hd))). set_solver. }
    destruct (i_kind x).
    + destruct (r0 =? 0); [|injection H as <- _; exact Hq].
      destruct (w_fobj w1 !! i); [|discriminate H]. destruct (i_link x =? 0); [|injection H as <- _; exact Hq].
      destruct (remove_host i _) as [w3|] eqn:E3; cbn [obind] in H; [|discriminate H]. apply remove_host_eq in E3. subst w3.
      injection H as <- _. split.
      * intros Hd. refine (ds_log i [i] [] _ _ (ds_hosty [i] (PRemove i) (del_ino i w1) I (ds_del [] i w1 (K Hd)))). set_solver.
      * exact (onelog_log w (emit (PRemove i) (del_ino i w1)) i (quiet_emit w (del_ino i w1) (PRemove i) I Q)).
    + destruct (w_fobj w1 !! i); [injection H as <- _; exact Hq|].
      destruct (_ && _) in H; injection H as <- _; [|exact Hq].
      split; [exact Hdel|exact (onelog_log w (del_ino i w1) i Q)].
    + destruct (w_fobj w1 !! i); [injection H as <- _; exact Hq|]. injection H as <- _.
      destruct (_ && _).
      * split; [exact Hdel|exact (onelog_log w (del_ino i w1) i Q)].
      * split; [|exact (onelog_log w w1 i Q)]. intros Hd. refine (ds_log i [] [] w1 _ (K Hd)). auto.
    + discriminate H.
  - injection H as <- _. apply dq_refl.
  - destruct (get_pipe w pid); cbn [obind] in H; [|discriminate H]. injection H as <- _. exact (dq_refl w).
  - injection H as <- _. apply dq_refl.
Qed.
Lemma close_inner_dq w c fd w' r : close_inner w c fd = Done (w', r) -> dq w w'.
Proof.
  unfold close_inner. intros H. destruct (fd_slot w c fd) as [[d|]|]; cbn [obind] in H; [|injection H as <- _; apply dq_refl|discriminate H].
  exact (close_desc_dq _ _ _ _ H).
Qed.
Lemma close_dq w c fd w' r : close_syscall w c fd = Done (w', r) -> dq w w'.
Proof.
  unfold close_syscall. intros H. destruct (close_inner w c fd) as [[w1 r1]|] eqn:E; cbn [obind] in H; [|discriminate H].
  apply close_inner_dq in E. destruct (r1 <? 0); injection H as <- _; exact E.
Qed.
Lemma add_ref_dq d w w' : add_ref d w = Done (Some w') -> (ds [] w -> ds [] w') /\ w_disk w' = w_disk w /\ w_trace w' = w_trace w.
Proof.
  unfold add_ref. intros H. destruct d as [i pos fl|st fl|pid fl|fl].
  - destruct (get_ino w i) as [x|] eqn:Hx; cbn [obind] in H; [|discriminate H]. apply get_ino_done in Hx.
    destruct (i_kind x); try discriminate H; injection H as <-;
      (split; [intros Hd; exact (ds_same [] i (set_ref (i_ref x + 1) x) x w Hx eq_refl Hd)|auto]).
  - injection H as <-. auto.
  - destruct (get_pipe w pid); cbn [obind] in H; [|discriminate H]. injection H as <-. split; [intros Hd; exact Hd|auto].
  - discriminate H.
Qed.
Lemma onelog_eq w w1 w2 : w_disk w2 = w_disk w1 -> w_trace w2 = w_trace w1 -> onelog w w1 -> onelog w w2.
Proof.
  intros E1 E2 [(es & [A B] & F)|(w0 & i & x & Q & A & B)].
  - left. exists es. rewrite <- E2 in A. rewrite <- E1 in B. split; [split; assumption|exact F].
  - right. exists w0, i, x. rewrite E1, E2. auto.
Qed.
Lemma dup2_dq w c d n from w' r : dup2_helper w c d n from = Done (w', r) -> dq w w'.
Proof.
  intros H. unfold dup2_helper in H.
  match type of H with obind ?q _ = _ => destruct q as [q0|] eqn:E1; cbn [obind] in H; [|discriminate H] end.
  assert (K : match q0 with Some (w1, fd) => dq w w1 | None => True end).
  { destruct from.
    - destruct (w_fds w !! (c, n)); [|injection E1 as <-; apply dq_refl].
      destruct (close_inner w c n) as [[w1 r1]|] eqn:E; cbn [obind] in E1; [|discriminate E1]. injection E1 as <-. exact (close_inner_dq _ _ _ _ _ E).
    - destruct (next_fd w c n) as [q|] eqn:E; injection E1 as <-; [|exact I]. apply dq_refl. }
  destruct q0 as [[w1 fd]|]; [|injection H as <- _; apply dq_refl].
  destruct (add_ref d w1) as [[w2|]|] eqn:E; cbn [obind] in H; [| |discriminate H]; injection H as <- _; [|exact K].
  apply add_ref_dq in E as (E3 & E4 & E5). destruct K as [K1 K2]. split; [intros Hd; exact (E3 (K1 Hd))|].
  exact (onelog_eq w w1 (put_fd c fd (clear_cloexec d) w2) E4 E5 K2).
Qed.
