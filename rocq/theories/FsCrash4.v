(** Start-up after a crash. *)
From Verif Require Import Base PathModel PathSpec PathProofs FsModel FsBoot FsSpec FsWalk Count FsNames FsTr FsInv FsInv2
  FsSteps FsSteps2 FsFrame FsReachSpec FsTmp FsRestart FsReach FsTree FsCrashSpec FsCrash FsCrash2 FsCrash3.
Local Open Scope list_scope.
Local Open Scope Z_scope.

Definition empty_log (d : disk) : disk := Disk (d_host d) (d_meta d) (Some []).

Lemma boot_core_logged d t : logged d = Some t -> (exists r, fsck t !! ROOTINO = Some r /\ i_kind r = KDir) ->
  exists w, boot_core d = Done w /\ w_ino w = rooted (fsck t) /\ w_next w = nextno d /\ w_disk w = empty_log d.
Proof.
  intros Hl (r & Hr & Hk). unfold boot_core, load_fs. unfold logged in Hl. unfold nextno.
  destruct (d_meta d) as [im|] eqn:Em; [|discriminate Hl]. destruct (d_log d) as [l|] eqn:El; [|discriminate Hl]. injection Hl as Hl.
  cbn [im_tab im_next]. rewrite Hl. rewrite obind_assoc2, (incref_twice _ _ Hr Hk). cbn [obind].
  eexists. split; [reflexivity|]. split; [reflexivity|]. split; [reflexivity|]. unfold empty_log. rewrite Em. cbn. rewrite Em. reflexivity.
Qed.

Lemma rooted_lookup t i y : rooted t !! i = Some y -> exists z, t !! i = Some z /\ same_attrs y z /\ i_size y = i_size z.
Proof.
  unfold rooted. destruct (t !! ROOTINO) as [r|] eqn:Hr.
  - destruct (decide (ROOTINO = i)) as [<-|Hne].
    + rewrite lookup_insert. intros [= <-]. exists r. split; [exact Hr|]. repeat split.
    + rewrite lookup_insert_ne by assumption. intros ->. exists y. split; [reflexivity|]. repeat split.
  - intros ->. exists y. split; [reflexivity|]. repeat split.
Qed.
Lemma rooted_lookup_back t i z : t !! i = Some z -> exists y, rooted t !! i = Some y /\ same_attrs y z /\ i_size y = i_size z.
Proof.
  intros Hz. unfold rooted. destruct (t !! ROOTINO) as [r|] eqn:Hr.
  - destruct (decide (ROOTINO = i)) as [<-|Hne].
    + rewrite lookup_insert. exists (set_ref (i_ref r + 2) r). rewrite Hr in Hz. injection Hz as <-. split; [reflexivity|]. repeat split.
    + rewrite lookup_insert_ne by assumption. exists z. split; [exact Hz|]. repeat split.
  - exists z. split; [exact Hz|]. repeat split.
Qed.

Lemma same_attrs_trans a b c : same_attrs a b -> same_attrs b c -> same_attrs a c.
Proof. intros (A1 & A2 & A3 & A4) (B1 & B2 & B3 & B4). repeat split; congruence. Qed.

Lemma rooted_whole t : whole t -> whole (rooted t).
Proof.
  intros H d f i (F1 & F2 & y & Hy & Hf). apply rooted_lookup in Hy as (z & Hz & (_ & _ & _ & A) & _).
  destruct (H d f i) as [v Hv].
  - split; [exact F1|]. split; [exact F2|]. exists z. split; [exact Hz|congruence].
  - apply rooted_lookup_back in Hv as (v' & Hv' & _). eauto.
Qed.

Lemma resolves_same u v : (forall d x, u !! d = Some x -> i_kind x = KDir -> exists y, v !! d = Some y /\ same_attrs y x) ->
  forall q i, resolves u q i -> resolves v q i.
Proof.
  intros Hdir q i H. induction H as [|p d x f i H IH Hx Hk Hf]; [constructor|].
  destruct (Hdir _ _ Hx Hk) as (y & Hy & A1 & _ & _ & A4). eapply res_step; [exact IH|exact Hy|congruence|congruence].
Qed.

Lemma sat_kept w n t w' : inv_n (w_ino w) n -> (forall i, sat (t !! i) (w_ino w !! i)) -> w_ino w' = rooted (fsck t) -> kept size_ok w w'.
Proof.
  intros Hi Hs Ei.
  assert (Hback : forall i y, w_ino w' !! i = Some y -> exists x, w_ino w !! i = Some x /\ same_attrs y x /\ size_ok y x).
  { intros i y. rewrite Ei. intros Hy. apply rooted_lookup in Hy as (z & Hz & A & B). apply fsck_lookup in Hz as [Hz _].
    pose proof (Hs i) as S. destruct (sat_back _ _ _ S Hz) as [x Hx]. rewrite Hx in S. apply sat_some in S as (z' & Ez & A' & _ & B').
    rewrite Hz in Ez. injection Ez as <-. exists x. split; [exact Hx|]. split; [exact (same_attrs_trans _ _ _ A A')|]. unfold size_ok. rewrite B. exact B'. }
  split; [|split; [|exact Hback]].
  - intros q i. split; apply resolves_same.
    + intros d x Hx Hk. destruct (dir_kept _ _ _ Hi Hs _ _ Hx Hk) as (y & Hy & A). apply rooted_lookup_back in Hy as (y' & Hy' & A' & _).
      exists y'. rewrite Ei. split; [exact Hy'|]. exact (same_attrs_trans _ _ _ A' A).
    + intros d x Hx _. destruct (Hback _ _ Hx) as (y & Hy & (A1 & A2 & A3 & A4) & _). exists y. split; [exact Hy|]. repeat split; congruence.
  - intros i x (d & f & He) Hx. apply names_entry in He. destruct (named_kept _ _ _ Hi Hs _ _ He) as (x' & y & Hx' & Hy & A & B).
    rewrite Hx in Hx'. injection Hx' as <-. apply rooted_lookup_back in Hy as (y' & Hy' & A' & B').
    exists y'. rewrite Ei. split; [exact Hy'|]. split; [exact (same_attrs_trans _ _ _ A' A)|]. unfold size_ok. rewrite B'. exact B.
Qed.

Lemma recovered w : reach true w -> exists w', boot_core (crash w) = Done w' /\
  kept size_ok w w' /\ d_host (w_disk w') = d_host (w_disk w) /\ w_next w <= w_next w'.
Proof.
  intros Hr. pose proof (reach_winv _ _ Hr) as Hw. pose proof (v_n _ (u_inv _ Hw)) as Hi. cbn in Hi.
  destruct (reach_ds _ Hr) as (t & H1 & H2 & H3). assert (Hs : forall i, sat (t !! i) (w_ino w !! i)) by (intros i; apply H2, not_elem_of_nil).
  destruct (boot_core_logged _ _ H1 (root_kept _ _ _ Hi Hs)) as (w' & Hb & Ei & En & Ed).
  exists w'. split; [exact Hb|]. split; [exact (sat_kept _ _ _ _ Hi Hs Ei)|]. split; [rewrite Ed; reflexivity|]. rewrite En. exact H3.
Qed.

Lemma nameless_gone w w' i x : reach false w -> boot_core (crash w) = Done w' ->
  w_ino w !! i = Some x -> i_kind x <> KDir -> ~ has_name (w_ino w) i -> w_ino w' !! i = None.
Proof.
  intros Hr Hb Hx Hk Hn. pose proof (reach_inv2 _ Hr) as I2. pose proof (reach_weaken _ Hr) as Hr'.
  destruct (w_ino w' !! i) as [y|] eqn:Hy; [|reflexivity]. exfalso.
  pose proof (v_n _ (u_inv _ (reach_winv _ _ Hr'))) as Hi. cbn in Hi.
  destruct (reach_ds _ Hr') as (t & H1 & H2 & _). assert (Hs : forall i, sat (t !! i) (w_ino w !! i)) by (intros j; apply H2, not_elem_of_nil).
  destruct (boot_core_logged _ _ H1 (root_kept _ _ _ Hi Hs)) as (w2 & Hb2 & Ei & _). unfold crash in Hb. rewrite Hb in Hb2. injection Hb2 as <-.
  rewrite Ei in Hy. apply rooted_lookup in Hy as (z & Hz & _). apply fsck_lookup in Hz as [Hz Hkeep].
  pose proof (Hs i) as S. rewrite Hx in S. apply sat_some in S as (z' & Ez & (A1 & _ & A3 & _) & _). rewrite Hz in Ez. injection Ez as <-.
  assert (E0 : i_link x = 0). { rewrite (s_link _ _ I2 _ _ Hx Hk). apply nnames_zero. intros [d f] Hc. apply Hn. exists d, f. apply names_entry. exact Hc. }
  unfold fsck_keep in Hkeep. rewrite A1, A3, E0 in Hkeep. destruct (i_kind x); try discriminate Hkeep.
Qed.

Lemma rooted_whole_but e t : whole_but e t -> whole_but e (rooted t).
Proof.
  intros H d f i (F1 & F2 & y & Hy & Hf). apply rooted_lookup in Hy as (z & Hz & (_ & _ & _ & A) & _).
  destruct (H d f i) as [[v Hv]|He].
  - split; [exact F1|]. split; [exact F2|]. exists z. split; [exact Hz|congruence].
  - left. apply rooted_lookup_back in Hv as (v' & Hv' & _). eauto.
  - right. exact He.
Qed.

Lemma good_boot d : good d -> exists w, boot_core d = Done w /\ whole (w_ino w).
Proof.
  intros (t & H1 & H2 & H3). destruct (boot_core_logged _ _ H1 H2) as (w & Hb & Ei & _). exists w. split; [exact Hb|]. rewrite Ei. apply rooted_whole, H3.
Qed.
Lemma good_but_boot e d : good_but e d -> exists w, boot_core d = Done w /\ whole_but e (w_ino w).
Proof.
  intros (t & H1 & H2 & H3). destruct (boot_core_logged _ _ H1 H2) as (w & Hb & Ei & _). exists w. split; [exact Hb|]. rewrite Ei. apply rooted_whole_but, H3.
Qed.

Lemma mid_call_whole w c o w' r d : reach true w -> step w c o = Done (w', r) -> tame true w c o r ->
  crash_point w w' d -> exists w2, boot_core d = Done w2 /\ whole_but (fun i => w_next w' = w_next w + 1 /\ i = w_next w) (w_ino w2).
Proof.
  intros Hr Hs Ht Hp. destruct (proj2 (step_outcome _ _ _ _ _ (reach_winv _ _ Hr) Hs Ht) (reach_ds _ Hr) d Hp) as [G|[Hn G]].
  - destruct (good_boot _ G) as (w2 & Hb & W). exists w2. split; [exact Hb|]. intros a f i E. left. exact (W _ _ _ E).
  - destruct (good_but_boot _ _ G) as (w2 & Hb & W). exists w2. split; [exact Hb|]. intros a f i E. destruct (W _ _ _ E); auto.
Qed.

Lemma meq_boot d d' w' : meq d d' -> boot_core d' = Done w' -> exists w, boot_core d = Done w /\ same_tree w w'.
Proof.
  intros [E1 E2] H. unfold boot_core, load_fs in *. rewrite E1, E2.
  assert (G : forall es1 es2 (t : gmap Z inode) n a b,
    same_tree (fold_left (fun w e => emit e w) es1 (World t n ∅ d a (<[0 := []]> (<[1 := []]> ∅)) b ∅ 0 ∅))
              (fold_left (fun w e => emit e w) es2 (World t n ∅ d' a (<[0 := []]> (<[1 := []]> ∅)) b ∅ 0 ∅))).
  { intros es1 es2 t n a b.
    assert (F : forall es w, w_ino (fold_left (fun w e => emit e w) es w) = w_ino w /\ w_next (fold_left (fun w e => emit e w) es w) = w_next w).
    { induction es as [|e es IH]; intros w; [auto|]. cbn. destruct (IH (emit e w)) as [F1 F2]. rewrite F1, F2. auto. }
    split; [rewrite (proj1 (F es1 _)), (proj1 (F es2 _))|rewrite (proj2 (F es1 _)), (proj2 (F es2 _))]; reflexivity. }
  destruct (match d_meta d' with Some im => match d_log d' with Some l => _ | None => _ end | None => _ end) as [es im] in *.
  destruct (incref_root (im_tab im)) as [t1|]; cbn [obind] in *; [|discriminate H].
  destruct (incref_root t1) as [t2|]; cbn [obind] in *; [|discriminate H]. injection H as <-.
  eexists. split; [reflexivity|]. apply G.
Qed.

Lemma atomic_single w c o w' r d : reach true w -> step w c o = Done (w', r) -> tame true w c o r ->
  several o = false -> w_next w' = w_next w -> crash_point w w' d ->
  exists wd wr, boot_core d = Done wd /\ (boot_core (crash w) = Done wr \/ boot_core (crash w') = Done wr) /\ same_tree wd wr.
Proof.
  intros Hr Hs Ht Ho Hn Hp. pose proof (reach_winv _ _ Hr) as Hw.
  pose proof (step_dq _ _ _ _ _ Hw Hs Ht) as K. assert (K' : dqn w w') by (destruct o; first [discriminate Ho|exact K]). clear K.
  pose proof (reach_step true _ _ _ _ _ Hr Hs Ht) as Hr'.
  destruct (proj2 K') as [K2|(? & ? & ? & ? & ? & _ & _ & _ & Hn')]; [|lia].
  destruct (onelog_point _ _ _ K2 Hp) as [E|E].
  - destruct (recovered _ Hr) as (wr & Hb & _). destruct (meq_boot _ _ _ E Hb) as (wd & Hd & S). exists wd, wr. auto.
  - destruct (recovered _ Hr') as (wr & Hb & _). destruct (meq_boot _ _ _ E Hb) as (wd & Hd & S). exists wd, wr. auto.
Qed.


(** ** Recovering again *)
Lemma boot_core_disk d w : boot_core d = Done w -> exists im, d_meta (w_disk w) = Some im /\ d_log (w_disk w) = Some [] /\
  d_host (w_disk w) = d_host d /\ (d_meta d = None /\ im = format_image \/ d_meta d = Some im).
Proof.
  unfold boot_core, load_fs. intros H. destruct (d_meta d) as [im|] eqn:Em.
  - exists im. destruct (d_log d) as [l|] eqn:El; cbn [im_tab im_next] in H;
      (destruct (incref_root _) as [t1|]; cbn [obind] in H; [|discriminate H]);
      (destruct (incref_root t1) as [t2|]; cbn [obind] in H; [|discriminate H]); injection H as <-; cbn; rewrite ?Em; auto 7.
  - exists format_image. cbn [im_tab im_next] in H;
      (destruct (incref_root _) as [t1|]; cbn [obind] in H; [|discriminate H]);
      (destruct (incref_root t1) as [t2|]; cbn [obind] in H; [|discriminate H]); injection H as <-; cbn; rewrite ?Em; auto 7.
Qed.

Lemma boot_core_cases d w : boot_core d = Done w -> exists t, (exists r, t !! ROOTINO = Some r /\ i_kind r = KDir) /\ w_ino w = rooted t /\
  match d_meta d, d_log d with
  | Some im, Some l => t = fsck (replay (im_tab im) l) /\ w_next w = replay_max (im_next im) l + 1
  | Some im, None => t = im_tab im /\ w_next w = im_next im
  | None, _ => t = im_tab format_image /\ w_next w = im_next format_image
  end.
Proof.
  unfold boot_core. destruct (load_fs d) as [es im] eqn:El.
  intros H. rewrite obind_assoc2 in H.
  assert (R : exists r, im_tab im !! ROOTINO = Some r /\ i_kind r = KDir).
  { destruct (incref_root (im_tab im)) as [t1|] eqn:E; [|discriminate H]. clear H. unfold incref_root in E.
    destruct (im_tab im !! ROOTINO) as [r|]; [|discriminate E]. exists r. split; [reflexivity|]. destruct (i_kind r); try discriminate E. reflexivity. }
  destruct R as (r & Hr & Hk). rewrite (incref_twice _ _ Hr Hk) in H. cbn [obind] in H. injection H as <-.
  exists (im_tab im). split; [eauto|].
  assert (F : forall es w, w_ino (fold_left (fun w e => emit e w) es w) = w_ino w /\ w_next (fold_left (fun w e => emit e w) es w) = w_next w).
  { clear. induction es as [|e es IH]; intros w; [auto|]. cbn. destruct (IH (emit e w)) as [F1 F2]. rewrite F1, F2. auto. }
  rewrite (proj1 (F es _)), (proj2 (F es _)). split; [reflexivity|]. cbn [w_next].
  unfold load_fs in El. destruct (d_meta d); [destruct (d_log d)|]; injection El as <- <-; auto.
Qed.

Lemma third_same d w1 w2 w3 : boot_core d = Done w1 -> boot_core (crash w1) = Done w2 -> boot_core (crash w2) = Done w3 -> same_tree w2 w3.
Proof.
  unfold crash. intros H1 H2 H3. destruct (boot_core_disk _ _ H1) as (im & A1 & A2 & _). destruct (boot_core_disk _ _ H2) as (im' & B1 & B2 & _ & B3).
  destruct (boot_core_cases _ _ H2) as (t & _ & T1 & T2). destruct (boot_core_cases _ _ H3) as (t' & _ & T1' & T2').
  rewrite A1, A2 in T2. destruct B3 as [[B3 _]|B3]; [congruence|]. rewrite B1, B2 in T2'. rewrite A1 in B3. injection B3 as <-.
  destruct T2 as [-> T2]. destruct T2' as [-> T2']. unfold same_tree. split; congruence.
Qed.
Lemma empty_log_same d w1 w2 : d_log d = Some [] -> boot_core d = Done w1 -> boot_core (crash w1) = Done w2 ->
  d_meta d <> None -> same_tree w1 w2.
Proof.
  unfold crash. intros Hl H1 H2 Hm. destruct (boot_core_disk _ _ H1) as (im & A1 & A2 & _ & A3). destruct A3 as [[A3 _]|A3]; [congruence|].
  destruct (boot_core_cases _ _ H1) as (t & _ & T1 & T2). destruct (boot_core_cases _ _ H2) as (t' & _ & T1' & T2').
  rewrite A1, A2 in T2'. rewrite A3, Hl in T2. destruct T2 as [-> T2]. destruct T2' as [-> T2']. unfold same_tree. split; congruence.
Qed.
(** What the second recovery shows is the last saved image, whatever the log
    held *)
Lemma second_image d im w1 w2 : d_meta d = Some im -> boot_core d = Done w1 -> boot_core (crash w1) = Done w2 ->
  forall i y, w_ino w2 !! i = Some y <-> exists z, im_tab im !! i = Some z /\ fsck_keep z = true /\
     y = if decide (i = ROOTINO) then set_ref (i_ref z + 2) z else z.
Proof.
  unfold crash. intros Hm H1 H2 i y. destruct (boot_core_disk _ _ H1) as (im' & A1 & A2 & _ & A3). destruct A3 as [[A3 _]|A3]; [congruence|].
  destruct (boot_core_cases _ _ H2) as (t' & (r & Hr & _) & T1' & T2'). rewrite A1, A2 in T2'. rewrite A3 in Hm. injection Hm as ->. destruct T2' as [-> _].
  rewrite T1'. unfold rooted. rewrite Hr. change (replay (im_tab im) []) with (im_tab im) in *. clear - Hr.
  destruct (decide (i = ROOTINO)) as [->|Hne].
  - rewrite lookup_insert. apply fsck_lookup in Hr as [Hr Hk]. split.
    + intros [= <-]. exists r. auto.
    + intros (z & Hz & _ & ->). rewrite Hr in Hz. injection Hz as <-. reflexivity.
  - rewrite lookup_insert_ne by congruence. rewrite fsck_lookup. split.
    + intros [Hy Hk]. exists y. auto.
    + intros (z & Hz & Hk & ->). auto.
Qed.

(** ** Shutdown: writing the table out *)
Lemma replay_lookup l : forall i, (exists r, forall t', replay t' l !! i = r) \/ forall t', replay t' l !! i = t' !! i.
Proof.
  induction l as [|[j v] l IH]; intros i; [right; reflexivity|].
  destruct (IH i) as [[r H]|H].
  - left. exists r. intros t'. exact (H _).
  - destruct (decide (j = i)) as [->|Hne].
    + left. exists v. intros t'. cbn [replay fold_left]. etransitivity; [exact (H _)|]. unfold replay_one. cbn [fst snd].
      destruct v; [apply lookup_insert|apply lookup_delete].
    + right. intros t'. cbn [replay fold_left]. etransitivity; [exact (H _)|]. unfold replay_one. cbn [fst snd].
      destruct v; [apply lookup_insert_ne|apply lookup_delete_ne]; exact Hne.
Qed.

Lemma after_log t l u : (forall i : Z, sat (replay t l !! i) (u !! i)) -> forall i, sat (replay (strip <$> u) l !! i) (u !! i).
Proof.
  intros H i. destruct (replay_lookup l i) as [[r E]|E]; rewrite E.
  - rewrite <- (E t). apply H.
  - rewrite lookup_fmap. apply sat_refl.
Qed.

Lemma save_done w : exists w', boot_core (w_disk (save w)) = Done w' /\ w_ino w' = rooted (strip <$> w_ino w) /\ w_next w' = w_next w /\
  d_host (w_disk w') = d_host (w_disk w)
  \/ forall r, w_ino w !! ROOTINO = Some r -> i_kind r <> KDir.
Proof.
  destruct (w_ino w !! ROOTINO) as [r|] eqn:Hr; [|exists w; right; congruence].
  destruct (decide (i_kind r = KDir)) as [Hk|Hk]; [|exists w; right; congruence].
  assert (Hr' : (strip <$> w_ino w) !! ROOTINO = Some (strip r)) by (rewrite lookup_fmap, Hr; reflexivity).
  unfold boot_core, load_fs.
  assert (E : d_meta (w_disk (save w)) = Some (Image (w_next w) (strip <$> w_ino w)) /\ d_log (w_disk (save w)) = None /\ d_host (w_disk (save w)) = d_host (w_disk w)).
  { unfold save. cbn. destruct (d_log (w_disk w)) eqn:El; cbn; auto. }
  destruct E as (E1 & E2 & E3). rewrite E1, E2. cbn [im_tab im_next].
  rewrite obind_assoc2, (incref_twice _ (strip r) Hr' Hk). cbn [obind]. eexists. left. split; [reflexivity|]. cbn. auto.
Qed.

Lemma saved w : reach true w -> exists w', boot_core (w_disk (save w)) = Done w' /\ kept size_eq w w' /\
  (forall i x, w_ino w !! i = Some x -> is_Some (w_ino w' !! i)) /\
  d_host (w_disk w') = d_host (w_disk w) /\ w_next w' = w_next w.
Proof.
  intros Hr. pose proof (v_n _ (u_inv _ (reach_winv _ _ Hr))) as Hi. cbn in Hi. destruct (n_root _ _ Hi) as (r & Hr1 & Hr2).
  destruct (save_done w) as (w' & [(Hb & Ei & En & Eh)|Hc]); [|exfalso; exact (Hc _ Hr1 Hr2)].
  exists w'. split; [exact Hb|].
  assert (Hback : forall i y, w_ino w' !! i = Some y -> exists x, w_ino w !! i = Some x /\ same_attrs y x /\ size_eq y x).
  { intros i y. rewrite Ei. intros Hy. apply rooted_lookup in Hy as (z & Hz & A & B). rewrite lookup_fmap in Hz.
    destruct (w_ino w !! i) as [x|]; [|discriminate Hz]. injection Hz as <-. exists x. split; [reflexivity|]. split; [exact A|exact B]. }
  assert (Hfwd : forall i x, w_ino w !! i = Some x -> exists y, w_ino w' !! i = Some y /\ same_attrs y x /\ size_eq y x).
  { intros i x Hx. destruct (rooted_lookup_back (strip <$> w_ino w) i (strip x)) as (y & Hy & A & B); [rewrite lookup_fmap, Hx; reflexivity|].
    exists y. rewrite Ei. split; [exact Hy|]. split; [exact A|exact B]. }
  split; [|split; [|split; [exact Eh|exact En]]].
  - split; [|split; [|exact Hback]].
    + intros q i. split; apply resolves_same.
      * intros d x Hx _. destruct (Hfwd _ _ Hx) as (y & Hy & A & _). eauto.
      * intros d x Hx _. destruct (Hback _ _ Hx) as (y & Hy & (A1 & A2 & A3 & A4) & _). exists y. split; [exact Hy|]. repeat split; congruence.
    + intros i x _ Hx. exact (Hfwd _ _ Hx).
  - intros i x Hx. destruct (Hfwd _ _ Hx) as (y & Hy & _). eauto.
Qed.

Lemma save_trace w l : d_log (w_disk w) = Some l -> w_trace (save w) = w_trace w ++ [PMetaDel; PMetaPut (Image (w_next w) (strip <$> w_ino w)); PLogDel].
Proof. intros Hl. unfold save. cbn. rewrite Hl. cbn. rewrite <- !app_assoc. reflexivity. Qed.

Lemma kept_weaken w w' : kept size_eq w w' -> kept size_ok w w'.
Proof.
  intros (H1 & H2 & H3). split; [exact H1|]. split.
  - intros i x Hn Hx. destruct (H2 _ _ Hn Hx) as (y & Hy & A & B). exists y. split; [exact Hy|]. split; [exact A|left; exact B].
  - intros i y Hy. destruct (H3 _ _ Hy) as (x & Hx & A & B). exists x. split; [exact Hx|]. split; [exact A|left; exact B].
Qed.

Lemma save_crash w d : reach true w -> crash_point w (save w) d -> d_meta d <> None ->
  exists w', boot_core d = Done w' /\ kept size_ok w w' /\ d_host (w_disk w') = d_host (w_disk w).
Proof.
  intros Hr (a & b & Hab & ->) Hm. pose proof (v_n _ (u_inv _ (reach_winv _ _ Hr))) as Hi. cbn in Hi.
  destruct (reach_ds _ Hr) as (t & H1 & H2 & _).
  assert (Hl : exists im l, d_meta (w_disk w) = Some im /\ d_log (w_disk w) = Some l /\ t = replay (im_tab im) l).
  { unfold logged in H1. destruct (d_meta (w_disk w)) as [im|]; [|discriminate H1]. destruct (d_log (w_disk w)) as [l|]; [|discriminate H1].
    exists im, l. injection H1 as <-. auto. }
  destruct Hl as (im & l & Em & El & ->). rewrite (save_trace _ _ El) in Hab. apply app_inv_head in Hab.
  destruct a as [|a0 a].
  { destruct (recovered _ Hr) as (w' & Hb & K & Hh & _). exists w'. auto. }
  injection Hab as <- Hab. destruct a as [|a1 a]. { exfalso. apply Hm. reflexivity. }
  injection Hab as <- Hab. destruct a as [|a2 a].
  - assert (Hs : forall i, sat (replay (strip <$> w_ino w) l !! i) (w_ino w !! i)) by (apply (after_log (im_tab im)); intros i; apply H2, not_elem_of_nil).
    set (d := after _ _). assert (L : logged d = Some (replay (strip <$> w_ino w) l)) by (unfold logged, d; cbn; rewrite El; reflexivity).
    destruct (boot_core_logged _ _ L (root_kept _ _ _ Hi Hs)) as (w' & Hb & Ei & _ & Ed). exists w'. split; [exact Hb|].
    split; [exact (sat_kept _ _ _ _ Hi Hs Ei)|]. rewrite Ed. reflexivity.
  - injection Hab as <- Hab. destruct a as [|? ?]; [|discriminate Hab].
    destruct (saved _ Hr) as (w' & Hb & K & _ & Hh & _). exists w'. split; [|split; [exact (kept_weaken _ _ K)|exact Hh]].
    revert Hb. unfold save. cbn. rewrite El. cbn. auto.
Qed.
