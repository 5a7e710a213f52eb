(** The specification machine of FsViewSpec: link, unlink, rmdir, rename. *)
From Verif Require Import Base CodecModel PathModel PathSpec PathProofs FsModel FsBoot FsSpec FsWalk Count FsNames FsTr FsInv FsInv2
  FsSteps FsSteps2 FsFrame FsReachSpec FsWinv FsTmp FsReach FsTree FsNameSpec FsPath FdSpec FsDesc FsOps FsNameProofs FsIoSpec FsIo FsFail FsViewSpec FsView1 FsView2.
Local Open Scope list_scope.
Local Open Scope Z_scope.
Opaque all_fds next_fd.

(** Walks do not look at links, modes and sizes *)
Lemma walk_relink t i x y ns : t !! i = Some x -> i_kind y = i_kind x -> i_dict y = i_dict x ->
  forall a b, walk_from (<[i := y]> t) a b ns = walk_from t a b ns.
Proof.
  intros Hx Hk Hd. induction ns as [|f ns IH]; intros a b; [reflexivity|]. cbn [walk_from]. destruct a as [d|]; [|reflexivity].
  destruct (decide (i = d)) as [<-|Hne].
  - rewrite lookup_insert, Hx, Hk, Hd. destruct (i_kind x); try reflexivity; apply IH.
  - rewrite lookup_insert_ne by assumption. destruct (t !! d) as [z|]; [|reflexivity]. destruct (i_kind z); try reflexivity; apply IH.
Qed.

Lemma mw_relink t i x y q : t !! i = Some x -> i_kind y = i_kind x -> i_dict y = i_dict x ->
  metawalkandparent (<[i := y]> t) q = metawalkandparent t q.
Proof.
  intros Hx Hk Hd. unfold metawalkandparent. rewrite (walk_relink t i x y q Hx Hk Hd).
  destruct (decide (i = ROOTINO)) as [->|Hne]; [rewrite lookup_insert, Hx; reflexivity|rewrite lookup_insert_ne by assumption; reflexivity].
Qed.

(** Objects whose count of links changes *)
Lemma relink_obj w w' a (m : gmap Z aobj) : shows w a ->
  (forall j z, w_ino w' !! j = Some z -> exists z0 k, w_ino w !! j = Some z0 /\ i_kind z = i_kind z0 /\ i_mode z = i_mode z0 /\
     i_size z = i_size z0 /\ i_link z = i_link z0 + k /\ bytes w' j = bytes w j /\ m !! j = more_links k <$> vw_obj a !! j) ->
  forall j z, w_ino w' !! j = Some z -> m !! j = Some (seen_obj z (bytes w' j)) /\ (i_kind z <> KFile -> i_size z = 0).
Proof.
  intros Hs H j z Hz. destruct (H _ _ Hz) as (z0 & k & Hz0 & E1 & E2 & E3 & E4 & E5 & E6).
  rewrite E6, (sh_obj _ _ Hs _ _ Hz0), E5, E1, E3. split; [|exact (sh_size _ _ Hs _ _ Hz0)].
  cbn. unfold more_links, seen_obj. cbn. rewrite E1, E2, E4. reflexivity.
Qed.

Lemma links0 o : more_links 0 o = o.
Proof. destruct o as [k m l]. unfold more_links. cbn. f_equal. lia. Qed.
Lemma links0_fmap (o : option aobj) : more_links 0 <$> o = o.
Proof. destruct o; [cbn; rewrite links0|]; reflexivity. Qed.

(** Names, objects and processes put together *)
Lemma shows_names (w w' : world) (a : view) (m : gmap (list string) Z) (obj : gmap Z aobj) : shows w a ->
  (forall p i, m !! p = Some i <-> canonical p /\ resolves (w_ino w') p i) ->
  (forall j z, w_ino w' !! j = Some z -> obj !! j = Some (seen_obj z (bytes w' j)) /\ (i_kind z <> KFile -> i_size z = 0)) ->
  w_next w' = w_next w -> procs_kept w w' -> shows w' (View m obj (vw_next a) (vw_proc a) (vw_pipe a)).
Proof.
  intros Hs Hm Ho Hn (P1 & P2 & P3). constructor; cbn [vw_at vw_obj vw_next vw_proc vw_pipe].
  - exact Hm.
  - intros i x Hx. exact (proj1 (Ho _ _ Hx)).
  - intros i x Hx. exact (proj2 (Ho _ _ Hx)).
  - rewrite Hn. apply (sh_next _ _ Hs).
  - rewrite P2. apply (sh_cwd _ _ Hs).
  - rewrite P1. apply (sh_fd _ _ Hs).
  - rewrite P3. apply (sh_pipe _ _ Hs).
Qed.

Lemma plus_at w w' a q i : shows w a -> canonical q -> names_plus (w_ino w) (w_ino w') q i ->
  forall p j, <[q := i]> (vw_at a) !! p = Some j <-> canonical p /\ resolves (w_ino w') p j.
Proof.
  intros Hs Hq [Hp1 Hp2] p j. rewrite lookup_insert_Some. split.
  - intros [[<- <-]|[Hne' Hp]]; [split; [assumption|]; apply Hp2; auto|].
    apply (sh_at _ _ Hs) in Hp as [Hcp Hp]. split; [assumption|]. apply Hp2; auto.
  - intros [Hcp Hp]. apply Hp2 in Hp as [Hp|[-> ->]]; [|auto|assumption].
    right. split; [intros <-; exact (Hp1 _ Hp)|]. apply (sh_at _ _ Hs). auto.
Qed.

Lemma minus_at w w' a q : shows w a -> names_minus (w_ino w) (w_ino w') q ->
  forall p j, delete q (vw_at a) !! p = Some j <-> canonical p /\ resolves (w_ino w') p j.
Proof.
  intros Hs Hm p j. rewrite lookup_delete_Some, (sh_at _ _ Hs). split.
  - intros (Hne & Hc & Hp). split; [assumption|]. apply Hm; auto.
  - intros [Hc Hp]. apply Hm in Hp as [Hp Hne]; auto.
Qed.

(** The step of a call that returns a number *)
Ltac open_step Hs Hp Hst H :=
  pose proof Hst as H; unfold step, ret in H; rewrite (cwd_of _ _ _ _ Hs Hp) in H; peelc H;
  repeat match goal with v : world |- _ => clear v | v : Z |- _ => clear v end.

Lemma link_view w a c pr x0 y0 w' r : reach false w -> shows w a -> vw_proc a !! c = Some pr ->
  step w c (Link x0 y0) = Done (w', Ret r) ->
  exists a', aexec a c (Link x0 y0) = (a', Ret r) /\ shows w' a'.
Proof.
  intros Hr Hs Hp Hst. pose proof (reach_winv _ _ Hr) as Hw. open_step Hs Hp Hst H.
  pose proof (proc_canonical _ _ _ _ Hw Hs Hp) as Hcan. unfold aexec. rewrite Hp, !where_is_eq.
  pose proof (normpath_canonical (q_cwd pr) x0 Hcan) as Hqx. pose proof (normpath_canonical (q_cwd pr) y0 Hcan) as Hqy.
  pose proof H as H0. unfold link_syscall in H.
  destruct (String.eqb x0 ""); [same_view H Hs|]. destruct (String.eqb y0 ""); [same_view H Hs|]. cbn [orb].
  destruct (file_name (normpath (q_cwd pr) y0)) as [f|]; [|discriminate H].
  rewrite (mwk_view _ _ _ Hs Hw Hqx) in H. cbn [obind] in H. unfold alink.
  destruct (vw_at a !! normpath (q_cwd pr) x0) as [i|] eqn:Ea; [|same_view H Hs].
  destruct (at_exists _ _ _ _ Hs Hw Ea) as [x Hx]. unfold get_ino in H at 1. rewrite Hx in H. cbn [obind] in H.
  rewrite (is_adir_eq _ _ _ _ Hs Hw Hx).
  destruct (isdirk x) eqn:Ed; [apply isdirk_true in Ed; rewrite Ed in H; same_view H Hs|].
  assert (Hk : i_kind x <> KDir) by (intros E; apply isdirk_true in E; congruence).
  assert (H1 : (do r0 <- metawalkandparent (w_ino (put_ino i (set_link (i_link x + 1) x) w)) (normpath (q_cwd pr) y0);
              match r0 with
              | (None, None) => Done (put_ino i x (put_ino i (set_link (i_link x + 1) x) w), err ENOENT)
              | (Some _, _) => Done (put_ino i x (put_ino i (set_link (i_link x + 1) x) w), err EEXIST)
              | (None, Some par) =>
                  do p <- get_ino (put_ino i (set_link (i_link x + 1) x) w) par;
                  let w2 := put_ino par (set_link (i_link p + 1) (set_dict (<[f := i]> (i_dict p)) p)) (put_ino i (set_link (i_link x + 1) x) w) in
                  Done (log_meta i (log_meta par w2), 0)
              end) = Done (w', r)).
  { destruct (i_kind x); try congruence; exact H. }
  clear H. wcbn1 H1. rewrite (mw_relink _ i x) in H1 by (assumption || reflexivity).
  rewrite (mw_view _ _ _ Hs Hw Hqy) in H1. cbn [obind] in H1.
  assert (Hfail : r < 0 -> w' = w) by (intros; eapply link_fails; eauto).
  destruct (vw_at a !! normpath (q_cwd pr) y0) as [j|] eqn:Ey.
  { injection H1 as _ <-. rewrite Hfail by (cbn; lia). eexists. split; [reflexivity|exact Hs]. }
  destruct (up_dir a (normpath (q_cwd pr) y0)) as [d|] eqn:Eu.
  2:{ injection H1 as _ <-. rewrite Hfail by (cbn; lia). eexists. split; [reflexivity|exact Hs]. }
  assert (Hr0 : 0 <= r). { destruct (get_ino _ d); cbn [obind] in H1; [|discriminate H1]. injection H1 as _ <-. lia. }
  clear H1. destruct (link_post _ _ _ _ _ _ Hcan H0 Hr0) as (dir & f' & par & q & i' & x' & -> & Hri & Hx' & _ & Hpl & Hf & Hne & G1 & G2 & G3 & G4).
  pose proof (place_up _ _ _ _ _ _ _ Hs Hw Hpl) as E. rewrite Eu in E. injection E as ->.
  assert (Eii : i' = i). { apply (sh_at _ _ Hs) in Ea as [_ Ea]. eapply resolves_det; eauto. }
  subst i'. assert (x' = x) by congruence. subst x'.
  destruct (link_thm w c (q_cwd pr) x0 y0 _ _ w' 0 (reach_weaken _ Hr) (cwd_of _ _ _ _ Hs Hp) (proj2 (denotes_normpath _ _ _) eq_refl)
    (proj2 (denotes_normpath _ _ _) eq_refl) Hst Hr0) as (i' & x' & Hi' & _ & _ & Hplus & _).
  assert (i' = i) by (eapply resolves_det; eauto). subst i'.
  eexists. split; [reflexivity|]. unfold with_at, with_obj. cbn [vw_at vw_obj vw_next vw_proc].
  apply (shows_names w w' a); try assumption; [apply plus_at with (w := w); assumption|].
  apply (relink_obj w w' a); [exact Hs|]. intros j z Hz. rewrite G1 in Hz.
  assert (Eb : bytes w' j = bytes w j) by (unfold bytes; rewrite G3; reflexivity).
  pose proof (pl_ino _ _ _ _ _ _ Hpl) as Hq. destruct (decide (par = j)) as [<-|Hpj].
  - rewrite lookup_insert in Hz. injection Hz as <-. exists q, 1. rewrite lookup_alter, lookup_alter_ne by assumption.
    repeat split; try assumption.
  - rewrite lookup_insert_ne in Hz by assumption. rewrite lookup_alter_ne by assumption. destruct (decide (i = j)) as [<-|Hij].
    + rewrite lookup_insert in Hz. injection Hz as <-. exists x, 1. rewrite lookup_alter. repeat split; try assumption.
    + rewrite lookup_insert_ne in Hz by assumption. rewrite lookup_alter_ne by assumption. exists z, 0. rewrite links0_fmap.
      repeat split; try assumption. lia.
Qed.

Lemma root_up w a q i : shows w a -> winv w -> vw_at a !! q = Some i -> up_dir a q = None -> is_adir a i = true.
Proof.
  intros Hs Hw Ha Hu. destruct (at_exists _ _ _ _ Hs Hw Ha) as [x Hx]. rewrite (is_adir_eq _ _ _ _ Hs Hw Hx).
  apply (sh_at _ _ Hs) in Ha as [Hc Hq]. destruct q as [|z r].
  - inversion Hq; subst; [|destruct p; discriminate]. destruct (n_root _ _ (v_n _ (u_inv _ Hw))) as (y & Hy & Hk). wcbn.
    apply isdirk_true. congruence.
  - exfalso. destruct (@exists_last _ (z :: r) ltac:(discriminate)) as (dir & f & E). rewrite E in *. clear E z r.
    apply resolves_snoc in Hq as (d & y & Hd & Hy & Hk & _). apply canonical_snoc in Hc as [Hc _].
    assert (Ed : vw_at a !! dir = Some d) by (apply (sh_at _ _ Hs); auto). unfold up_dir in Hu. rewrite removelast_last, Ed in Hu.
    rewrite (is_adir_eq _ _ _ _ Hs Hw Hy), (proj2 (isdirk_true y) Hk) in Hu. destruct dir; discriminate Hu.
Qed.

Lemma may_write_eq w a i x : shows w a -> w_ino w !! i = Some x -> may_write a i = negb (no_write_bits (i_mode x)).
Proof. intros Hs Hx. unfold may_write. rewrite (sh_obj _ _ Hs _ _ Hx). reflexivity. Qed.

Lemma unlink_view w a c pr p w' r : reach false w -> shows w a -> vw_proc a !! c = Some pr -> allowed a c (Unlink p) = true ->
  step w c (Unlink p) = Done (w', Ret r) ->
  exists a', aexec a c (Unlink p) = (a', Ret r) /\ shows w' a'.
Proof.
  intros Hr Hs Hp Hal Hst. pose proof (reach_winv _ _ Hr) as Hw. open_step Hs Hp Hst H.
  pose proof (proc_canonical _ _ _ _ Hw Hs Hp) as Hcan. unfold aexec. unfold allowed in Hal. rewrite Hp, !where_is_eq in *.
  pose proof (normpath_canonical (q_cwd pr) p Hcan) as Hq. pose proof H as H0. unfold unlink_syscall in H.
  destruct (String.eqb p ""); [same_view H Hs|].
  rewrite (mw_view _ _ _ Hs Hw Hq) in H. cbn [obind] in H. unfold aunlink.
  destruct (vw_at a !! normpath (q_cwd pr) p) as [i|] eqn:Ea; [|same_view H Hs].
  destruct (up_dir a (normpath (q_cwd pr) p)) as [d|] eqn:Eu.
  2:{ rewrite (root_up _ _ _ _ Hs Hw Ea Eu). same_view H Hs. }
  destruct (at_exists _ _ _ _ Hs Hw Ea) as [x Hx]. unfold get_ino in H at 1. rewrite Hx in H. cbn [obind] in H.
  rewrite (is_adir_eq _ _ _ _ Hs Hw Hx).
  destruct (isdirk x) eqn:Ed; [apply isdirk_true in Ed; rewrite Ed in H; same_view H Hs|].
  assert (Hk : i_kind x <> KDir) by (intros E; apply isdirk_true in E; congruence).
  destruct (place_of _ _ _ _ Hq (eq_trans (mw_view _ _ _ Hs Hw Hq) (f_equal2 (fun u v => Done (u, v)) Ea Eu))) as (dir & f & y & Hpl & Hfn & Hyf).
  pose proof (pl_ino _ _ _ _ _ _ Hpl) as Hy.
  assert (Hr0 : 0 <= r).
  { rewrite (may_write_eq _ _ _ _ Hs Hy) in Hal. apply negb_true_iff in Hal.
    assert (Hrm : forall l w2 s, remove_from_parent d (normpath (q_cwd pr) p) (put_ino i (set_link l x) w) = Done (w2, s) -> s = 0).
    { intros l w2 s E. assert (i <> d) by (intros ->; pose proof (pl_dir _ _ _ _ _ _ Hpl); congruence).
      unfold remove_from_parent, get_ino in E. wcbn1 E. rewrite lookup_insert_ne, Hy in E by assumption. cbn [obind] in E.
      rewrite (pl_dir _ _ _ _ _ _ Hpl), Hal, Hfn, Hyf in E. destruct (dec (i_link y)); cbn [obind] in E; [|discriminate E]. injection E as _ <-. reflexivity. }
    destruct (i_kind x); try congruence; destruct (dec (i_link x)) as [l|]; cbn [obind] in H; try discriminate H;
      destruct (remove_from_parent _ _ _) as [[w2 s]|] eqn:Er in H; cbn [obind] in H; try discriminate H; apply Hrm in Er as ->;
      cbn [Z.eqb negb] in H; match type of H with obind ?o _ = _ => destruct o; cbn [obind] in H; [|discriminate H] end;
      injection H as _ <-; lia. }
  clear H. destruct (unlink_post _ _ _ _ _ (u_inv _ Hw) Hcan H0 Hr0) as (dir' & f' & par & q & i' & x' & -> & Hpl' & Hqf & Hx' & _ & Hne & G1 & G2 & G3 & G4).
  pose proof (place_up _ _ _ _ _ _ _ Hs Hw Hpl') as E. rewrite Eu in E. injection E as ->.
  assert (Hri : resolves (w_ino w) (normpath (q_cwd pr) p) i') .
  { rewrite (pl_path _ _ _ _ _ _ Hpl'). eapply res_step; [exact (pl_res _ _ _ _ _ _ Hpl')|exact (pl_ino _ _ _ _ _ _ Hpl')|exact (pl_dir _ _ _ _ _ _ Hpl')|exact Hqf]. }
  assert (Eii : i' = i). { apply (sh_at _ _ Hs) in Ea as [_ Ea]. eapply resolves_det; eauto. }
  subst i'. assert (x' = x) by congruence. subst x'.
  destruct (unlink_thm w c (q_cwd pr) p _ w' 0 (reach_weaken _ Hr) (cwd_of _ _ _ _ Hs Hp) (proj2 (denotes_normpath _ _ _) eq_refl)
    Hst Hr0) as (i' & x' & Hi' & _ & _ & Hminus & _).
  eexists. split; [reflexivity|]. unfold with_at, with_obj. cbn [vw_at vw_obj vw_next vw_proc].
  apply (shows_names w w' a); try assumption; [apply minus_at with (w := w); assumption|].
  pose proof (pl_ino _ _ _ _ _ _ Hpl') as Hq'.
  apply (relink_obj w w' a); [exact Hs|]. intros j z Hz. rewrite G1 in Hz. unfold un_ino in Hz.
  destruct (decide (par = j)) as [<-|Hpj].
  - assert (z = par_rem f' q).
    { destruct (un_gone x); [rewrite lookup_delete_ne in Hz by assumption|]; rewrite lookup_insert in Hz; congruence. }
    subst z. exists q, (-1). rewrite lookup_alter, lookup_alter_ne by assumption. repeat split; try assumption.
    unfold bytes. rewrite G2. unfold un_host. destruct (_ && _); [apply lookup_delete_ne; assumption|reflexivity].
  - destruct (decide (i = j)) as [<-|Hij].
    + destruct (un_gone x) eqn:Eg; [rewrite lookup_delete in Hz; discriminate Hz|].
      rewrite lookup_insert_ne, lookup_insert in Hz by congruence. injection Hz as <-. exists x, (-1).
      rewrite lookup_alter_ne, lookup_alter by congruence. repeat split; try assumption.
      unfold bytes. rewrite G2. unfold un_host. rewrite Eg, andb_false_r. reflexivity.
    + assert (Hz' : w_ino w !! j = Some z).
      { destruct (un_gone x); [rewrite lookup_delete_ne in Hz by assumption|]; rewrite !lookup_insert_ne in Hz by assumption; exact Hz. }
      exists z, 0. rewrite !lookup_alter_ne, links0_fmap by assumption. repeat split; try assumption; [lia|].
      unfold bytes. rewrite G2. unfold un_host. destruct (_ && _); [apply lookup_delete_ne; assumption|reflexivity].
Qed.

(** ** rmdir *)
Lemma none_below_eq w a q i x : shows w a -> winv w -> goodt (w_ino w) -> vw_at a !! q = Some i -> w_ino w !! i = Some x ->
  i_kind x = KDir -> none_below a q = true <-> empty_dir x.
Proof.
  intros Hs Hw Hg Ha Hx Hk. pose proof (proj1 (sh_at _ _ Hs _ _) Ha) as [Hcq Hq]. unfold none_below. rewrite bool_decide_eq_true. split.
  - intros H f j Hf. destruct (dotb f) eqn:Ed.
    { unfold dotb in Ed. apply orb_true_iff in Ed as [Ed|Ed]; apply String.eqb_eq in Ed; auto. }
    exfalso. assert (Hc : canonical (q ++ [f])) by (apply Forall_app; split; [assumption|]; repeat constructor; apply (Hg _ _ Hx _ _ Hf Ed)).
    assert (Hr : resolves (w_ino w) (q ++ [f]) j) by (eapply res_step; eauto).
    assert (Hat : vw_at a !! (q ++ [f]) = Some j) by (apply (sh_at _ _ Hs); auto).
    destruct (H _ _ Hat) as [E|E]; [destruct q; discriminate E|]. apply E. apply removelast_last.
  - intros He p j Hp. destruct p as [|z r]; [auto|]. right. destruct (@exists_last _ (z :: r) ltac:(discriminate)) as (dir & f & E).
    rewrite E in *. rewrite removelast_last. intros ->. apply (sh_at _ _ Hs) in Hp as [Hc Hp].
    apply resolves_snoc in Hp as (d & y & Hd & Hy & _ & Hf). assert (d = i) by (eapply resolves_det; eauto). subst d.
    assert (y = x) by congruence. subst y. apply canonical_snoc in Hc as [_ Hdot]. apply dotb_false in Hdot as [D1 D2].
    destruct (He _ _ Hf); contradiction.
Qed.

Lemma rmdir_view w a c pr p w' r : reach false w -> winv w' -> shows w a -> vw_proc a !! c = Some pr ->
  step w c (Rmdir p) = Done (w', Ret r) ->
  exists a', aexec a c (Rmdir p) = (a', Ret r) /\ shows w' a'.
Proof.
  intros Hr Hw' Hs Hp Hst. pose proof (reach_winv _ _ Hr) as Hw. pose proof (reach_inv2 _ Hr) as H2. open_step Hs Hp Hst H.
  pose proof (proc_canonical _ _ _ _ Hw Hs Hp) as Hcan. unfold aexec. rewrite Hp, !where_is_eq in *.
  pose proof (normpath_canonical (q_cwd pr) p Hcan) as Hq. unfold rmdir_syscall in H.
  destruct (String.eqb p ""); [same_view H Hs|].
  pose proof (mw_view _ _ _ Hs Hw Hq) as Em. rewrite Em in H. cbn [obind] in H. unfold armdir.
  destruct (vw_at a !! normpath (q_cwd pr) p) as [i|] eqn:Ea; [|same_view H Hs].
  destruct (up_dir a (normpath (q_cwd pr) p)) as [d|] eqn:Eu; [|same_view H Hs].
  destruct (place_of _ _ _ _ Hq Em) as (dir & f & y & Hpl & Hfn & Hyf).
  pose proof (pl_ino _ _ _ _ _ _ Hpl) as Hy. pose proof (pl_dir _ _ _ _ _ _ Hpl) as Hyk.
  rewrite (may_write_eq _ _ _ _ Hs Hy), negb_involutive. unfold get_ino in H at 1. rewrite Hy in H. cbn [obind] in H.
  destruct (no_write_bits (i_mode y)) eqn:Ewy; [same_view H Hs|].
  destruct (at_exists _ _ _ _ Hs Hw Ea) as [x Hx]. unfold get_ino in H at 1. rewrite Hx in H. cbn [obind] in H.
  rewrite (is_adir_eq _ _ _ _ Hs Hw Hx). destruct (isdirk x) eqn:Ed; cbn [negb].
  2:{ assert (Hk : i_kind x <> KDir) by (intros E; apply isdirk_true in E; congruence).
      destruct (i_kind x); try congruence; same_view H Hs. }
  apply isdirk_true in Ed. rewrite Ed in H.
  pose proof (v_n _ (u_inv _ Hw)) as Hn. pose proof (v_n _ (u_inv _ Hw')) as Hn'. wcbn. pose proof (place_name _ _ _ _ _ _ _ _ Hn Hpl Hyf) as Hnm.
  assert (Hi7 : i <> 7) by (intros ->; exact (s_seven _ _ H2 _ Hnm)).
  pose proof (s_dlink _ _ H2 _ _ Hx Ed Hi7) as Hl. pose proof (nkids_nonneg (w_ino w) i) as Hnn.
  assert (Hnb : negb (none_below a (normpath (q_cwd pr) p)) = (3 <? i_link x)).
  { pose proof (none_below_eq w a _ i x Hs Hw (proj2 (reach_ok _ _ Hr)) Ea Hx Ed) as Hb. pose proof (nkids_zero_dict _ _ _ Hx) as Hz.
    change (forall f i, i_dict x !! f = Some i -> f = "." \/ f = "..") with (empty_dir x) in Hz.
    destruct (none_below a _); cbn [negb]; symmetry.
    - apply Z.ltb_ge. assert (nkids (w_ino w) i = 0) by (apply Hz, Hb; reflexivity). lia.
    - apply Z.ltb_lt. assert (nkids (w_ino w) i <> 0) by (intros E; apply Hz in E; apply Hb in E; discriminate E). lia. }
  rewrite Hnb. destruct (3 <? i_link x) eqn:E3; [same_view H Hs|].
  destruct (is_dir (i_mode x)); cbn [negb] in H; [|discriminate H].
  rewrite (may_write_eq _ _ _ _ Hs Hx), negb_involutive. destruct (no_write_bits (i_mode x)); [same_view H Hs|].
  destruct (n_up _ _ Hn _ _ _ _ Hx Ed Hnm) as [_ Hlt].
  assert (Hz0 : nkids (w_ino w) i = 0) by (apply Z.ltb_ge in E3; lia).
  pose proof (proj1 (nkids_zero_dict _ _ _ Hx) Hz0) as He.
  unfold remove_from_parent, get_ino in H.
  assert (Hy1 : w_ino (if i_ref x =? 0 then put_ino i (set_link 2 x) w else w) !! d = Some y).
  { destruct (i_ref x =? 0); [|exact Hy]. wcbn. rewrite lookup_insert_ne by lia. exact Hy. }
  rewrite Hy1 in H. cbn [obind] in H. rewrite Hyk, Ewy, Hfn, Hyf in H.
  destruct (dec (i_link y)) as [l|] eqn:El; cbn [obind] in H; [|discriminate H]. apply dec_done in El as [-> _].
  cbn [Z.eqb negb] in H. injection H as <- <-. eexists. split; [reflexivity|].
  assert (G1 : w_ino (log_meta i (log_meta d (if i_ref x =? 0 then del_ino i (put_ino d (set_link (i_link y - 1) (set_dict (delete f (i_dict y)) y))
      (if i_ref x =? 0 then put_ino i (set_link 2 x) w else w)) else put_ino d (set_link (i_link y - 1) (set_dict (delete f (i_dict y)) y))
      (if i_ref x =? 0 then put_ino i (set_link 2 x) w else w)))) =
     if i_ref x =? 0 then delete i (<[d := par_rem f y]> (w_ino w)) else <[d := par_rem f y]> (w_ino w)).
  { destruct (i_ref x =? 0); wcbn; [|reflexivity]. rewrite insert_commute by lia. rewrite delete_insert_delete. reflexivity. }
  set (w1 := log_meta i _) in *.
  assert (Hng : forall g, names (w_ino w) !! (i, g) = None).
  { intros g. rewrite names_lookup, Hx. destruct (dotb g) eqn:Eg; [reflexivity|]. destruct (i_dict x !! g) eqn:E; [|reflexivity].
    apply He in E. apply dotb_false in Eg as [? ?]. destruct E; contradiction. }
  assert (Hminus : names_minus (w_ino w) (w_ino w1) (normpath (q_cwd pr) p)).
  { rewrite (pl_path _ _ _ _ _ _ Hpl). eapply (minus_paths _ _ _ _ d y dir f i Hn Hn' Hy Hyk).
    - eapply place_canonical; eauto.
    - exact (pl_res _ _ _ _ _ _ Hpl).
    - exact Hnm.
    - rewrite G1. pose proof (names_rem (w_ino w) d y (par_rem f y) f Hy eq_refl) as E. destruct (i_ref x =? 0); [|exact E].
      rewrite names_del; [exact E|]. intros g. rewrite E. apply lookup_delete_None. right. apply Hng.
    - exact Hng. }
  unfold with_at, with_obj. cbn [vw_at vw_obj vw_next vw_proc].
  assert (Hho : d_host (w_disk w1) = d_host (w_disk w)) by (unfold w1; destruct (i_ref x =? 0); reflexivity).
  apply (shows_names w w1 a); [exact Hs|apply minus_at with (w := w); assumption| | |].
  - apply (relink_obj w w1 a); [exact Hs|]. intros j z Hz. rewrite G1 in Hz.
    assert (Eb : bytes w1 j = bytes w j) by (unfold bytes; rewrite Hho; reflexivity).
    destruct (decide (d = j)) as [<-|Hdj].
    + assert (z = par_rem f y).
      { destruct (i_ref x =? 0); [rewrite lookup_delete_ne in Hz by lia|]; rewrite lookup_insert in Hz; congruence. }
      subst z. exists y, (-1). rewrite lookup_alter. repeat split; try assumption.
    + assert (Hz' : w_ino w !! j = Some z).
      { destruct (i_ref x =? 0); [apply lookup_delete_Some in Hz as [_ Hz]|]; rewrite lookup_insert_ne in Hz by assumption; exact Hz. }
      exists z, 0. rewrite lookup_alter_ne, links0_fmap by assumption. repeat split; try assumption. lia.
  - unfold w1. destruct (i_ref x =? 0); reflexivity.
  - unfold w1. destruct (i_ref x =? 0); (split; [|split]); reflexivity.
Qed.

(** ** rename *)
Lemma moved_inv o n p : length o = length n -> o <> n -> moved o n (moved o n p) = p.
Proof.
  intros Hl Hne.
  assert (K : forall u v r : list string, length u = length v -> u <> v -> ~ u `prefix_of` v ++ r).
  { intros u v r E Huv [k Hk]. apply Huv. symmetry in Hk. apply app_inj_1 in Hk as [? _]; [assumption|exact E]. }
  assert (D : forall u r : list string, drop (length u) (u ++ r) = r) by (intros; apply drop_app).
  unfold moved at 2. destruct (decide (o `prefix_of` p)) as [[r ->]|H1].
  - rewrite D. unfold moved. destruct (decide (o `prefix_of` n ++ r)) as [H|_]; [exfalso; exact (K _ _ _ Hl Hne H)|].
    destruct (decide (n `prefix_of` n ++ r)) as [_|H]; [rewrite D; reflexivity|]. exfalso. apply H. exists r. reflexivity.
  - destruct (decide (n `prefix_of` p)) as [[r ->]|H2].
    + rewrite D. unfold moved. destruct (decide (o `prefix_of` o ++ r)) as [_|H]; [rewrite D; reflexivity|]. exfalso. apply H. exists r. reflexivity.
    + unfold moved. rewrite !decide_False by assumption. reflexivity.
Qed.

Lemma resolves_app t p r i : resolves t (p ++ r) i -> exists j, resolves t p j.
Proof.
  revert i. induction r as [|f r IH] using rev_ind; intros i; [rewrite app_nil_r; eauto|].
  rewrite app_assoc. intros H. apply resolves_snoc in H as (d & y & Hd & _). eauto.
Qed.

Lemma moved_at w w' a o n : shows w a -> canonical o -> canonical n -> length o = length n -> o <> n ->
  (forall j, ~ resolves (w_ino w) n j) -> names_moved (w_ino w) (w_ino w') o n ->
  forall p j, (kmap (moved o n) (vw_at a) : gmap (list string) Z) !! p = Some j <-> canonical p /\ resolves (w_ino w') p j.
Proof.
  intros Hs Ho Hn Hl Hne Hfree (M1 & M2 & M3) p j.
  assert (Hinj : Inj (=) (=) (moved o n)).
  { intros u v E. rewrite <- (moved_inv o n u Hl Hne), <- (moved_inv o n v Hl Hne), E. reflexivity. }
  assert (D : forall u r : list string, drop (length u) (u ++ r) = r) by (intros; apply drop_app).
  assert (Mo : forall r, moved o n (o ++ r) = n ++ r).
  { intros r. unfold moved. rewrite decide_True by (exists r; reflexivity). rewrite D. reflexivity. }
  pose proof (lookup_kmap_Some (M2 := gmap (list string)) (moved o n) (vw_at a) p j) as K. rewrite K. clear K. split.
  - intros (k & -> & Hk). apply (sh_at _ _ Hs) in Hk as [Hck Hk]. unfold moved.
    destruct (decide (o `prefix_of` k)) as [[r ->]|H1].
    + rewrite D. apply Forall_app in Hck as [_ Hcr]. assert (Hc : canonical (n ++ r)) by (apply Forall_app; auto).
      split; [exact Hc|]. apply M1; assumption.
    + destruct (decide (n `prefix_of` k)) as [[r ->]|H2].
      * exfalso. apply resolves_app in Hk as [i Hi]. exact (Hfree _ Hi).
      * split; [exact Hck|]. apply M3; try assumption.
        -- intros r ->. apply H1. exists r. reflexivity.
        -- intros r ->. apply H2. exists r. reflexivity.
  - intros [Hc Hp]. destruct (decide (n `prefix_of` p)) as [[r ->]|H2].
    + exists (o ++ r). split; [symmetry; apply Mo|]. apply M1 in Hp; [|exact Hc]. apply (sh_at _ _ Hs). split; [|exact Hp].
      apply Forall_app in Hc as [_ Hcr]. apply Forall_app. auto.
    + destruct (decide (o `prefix_of` p)) as [[r ->]|H1]; [exfalso; exact (M2 _ _ Hc Hp)|].
      exists p. split; [unfold moved; rewrite !decide_False by assumption; reflexivity|]. apply (sh_at _ _ Hs). split; [exact Hc|].
      apply M3 in Hp; [exact Hp|exact Hc| |].
      * intros r ->. apply H1. exists r. reflexivity.
      * intros r ->. apply H2. exists r. reflexivity.
Qed.

Lemma rename_view w a c pr x0 y0 w' r : reach false w -> winv w' -> shows w a -> vw_proc a !! c = Some pr -> allowed a c (Rename x0 y0) = true ->
  step w c (Rename x0 y0) = Done (w', Ret r) ->
  exists a', aexec a c (Rename x0 y0) = (a', Ret r) /\ shows w' a'.
Proof.
  intros Hr Hw' Hs Hp Hal Hst. pose proof (reach_winv _ _ Hr) as Hw. open_step Hs Hp Hst H.
  pose proof (proc_canonical _ _ _ _ Hw Hs Hp) as Hcan. unfold aexec. unfold allowed in Hal. rewrite Hp, !where_is_eq in *.
  pose proof (normpath_canonical (q_cwd pr) x0 Hcan) as Hqx. pose proof (normpath_canonical (q_cwd pr) y0 Hcan) as Hqy.
  pose proof H as H0. unfold rename_syscall in H.
  destruct (String.eqb x0 ""); [same_view H Hs|]. destruct (String.eqb y0 ""); [same_view H Hs|]. cbn [orb].
  rewrite (mw_view _ _ _ Hs Hw Hqx) in H. cbn [obind] in H. unfold arename.
  destruct (vw_at a !! normpath (q_cwd pr) x0) as [i|] eqn:Ea; [|same_view H Hs].
  destruct (up_dir a (normpath (q_cwd pr) x0)) as [d|] eqn:Eu; [|same_view H Hs].
  rewrite (mw_view _ _ _ Hs Hw Hqy) in H. cbn [obind snd] in H.
  destruct (bool_decide (up_dir a (normpath (q_cwd pr) y0) = Some d)) eqn:Eb; cbn [negb] in H; [|same_view H Hs].
  cbn [negb] in Hal. rewrite orb_false_r in Hal. apply bool_decide_eq_true in Hal.
  assert (Hr0 : 0 <= r).
  { destruct (get_ino w d); cbn [obind] in H; [|discriminate H]. do 2 (destruct (file_name _) in H; [|discriminate H]). injection H as _ <-. lia. }
  clear H. destruct (rename_post _ _ _ _ _ _ _ (v_n _ (u_inv _ Hw)) Hcan H0 Hr0) as (dir & fo & fn & par & q & i' & -> & Hpl & Hqf & Hpl2 & G1 & G2 & G3 & G4).
  assert (Hne : normpath (q_cwd pr) x0 <> normpath (q_cwd pr) y0) by congruence.
  destruct (rename_thm w c (q_cwd pr) x0 y0 _ _ w' 0 (reach_weaken _ Hr) (cwd_of _ _ _ _ Hs Hp) (proj2 (denotes_normpath _ _ _) eq_refl)
    (proj2 (denotes_normpath _ _ _) eq_refl) Hst Hr0) as (i2 & _ & Hmv & _). destruct (Hmv Hne) as [_ Hm].
  eexists. split; [reflexivity|]. unfold with_at. apply (shows_names w w' a); try assumption.
  - apply (moved_at w w' a); try assumption.
    + rewrite (pl_path _ _ _ _ _ _ Hpl), (pl_path _ _ _ _ _ _ Hpl2), !app_length. reflexivity.
    + apply (at_none w a _ Hs Hqy). exact Hal.
  - apply (relink_obj w w' a); [exact Hs|]. intros j z Hz. rewrite G1 in Hz. 
    assert (Ebb : bytes w' j = bytes w j) by (unfold bytes; rewrite G3; reflexivity).
    pose proof (pl_ino _ _ _ _ _ _ Hpl) as Hq. destruct (decide (par = j)) as [<-|Hpj].
    + rewrite lookup_insert in Hz. injection Hz as <-. exists q, 0. rewrite links0_fmap. repeat split; try assumption. cbn. lia.
    + rewrite lookup_insert_ne in Hz by assumption. exists z, 0. rewrite links0_fmap. repeat split; try assumption. lia.
Qed.
