(** Directories as the view shows them: the path of a directory, its entries,
    and the walk from a directory to the root with which fchdir finds its name. *)
From Verif Require Import Base CodecModel PathModel PathSpec PathProofs FsModel FsBoot FsSpec FsWalk Count FsNames FsTr FsInv FsInv2
  FsSteps FsSteps2 FsFrame FsReachSpec FsWinv FsNameSpec FsPath FsOps FsTmp FsRestart FsReach FsTree FsViewSpec FsViewInv FsView1.
From Coq Require Import Ascii.
Local Open Scope list_scope.
Local Open Scope Z_scope.

Section dirs.
Context (w : world) (a : view) (Hr : reach false w) (Hs : shows w a).

Let Hw : winv w := reach_winv _ _ Hr.
Let Hn : inv_n (w_ino w) (w_next w) := v_n _ (u_inv _ Hw).
Let Hd : dots (w_ino w) := proj1 (reach_tidy _ _ Hr).
Let Hg : goodt (w_ino w) := proj2 (reach_ok _ _ Hr).
Let H2 : inv2 (w_ino w) (w_next w) := reach_inv2 _ Hr.

(** *** The path of a directory *)
Lemma path_of_iff i x p : w_ino w !! i = Some x -> i_kind x = KDir -> path_of a i = Some p <-> vw_at a !! p = Some i.
Proof.
  intros Hx Hk. unfold path_of. destruct (List.find _ _) as [[q j]|] eqn:E; cbn [fmap option_fmap option_map fst].
  - apply List.find_some in E as [E1 E2]. cbn [snd] in E2. apply Z.eqb_eq in E2 as ->.
    apply elem_of_list_In, elem_of_map_to_list in E1. split; [intros [= <-]; exact E1|].
    intros Hp. apply (sh_at _ _ Hs) in E1 as [C1 R1]. apply (sh_at _ _ Hs) in Hp as [C2 R2].
    f_equal. exact (dir_path _ _ _ _ _ _ Hn C1 C2 Hx Hk R1 R2).
  - split; [discriminate|]. intros Hp. exfalso. apply elem_of_map_to_list, elem_of_list_In in Hp.
    pose proof (List.find_none _ _ E _ Hp) as F. cbn [snd] in F. rewrite Z.eqb_refl in F. discriminate F.
Qed.

Lemma step_down p f i : canonical (p ++ [f]) -> resolves (w_ino w) (p ++ [f]) i ->
  exists d y, resolves (w_ino w) p d /\ w_ino w !! d = Some y /\ i_kind y = KDir /\ i_dict y !! f = Some i /\ names (w_ino w) !! (d, f) = Some i.
Proof.
  intros Hc Hp. apply canonical_snoc in Hc as [_ Hf]. apply resolves_snoc in Hp as (d & y & Hp & Hy & Hk & Hi).
  exists d, y. split; [exact Hp|]. split; [exact Hy|]. split; [exact Hk|]. split; [exact Hi|]. rewrite names_lookup, Hf, Hy. exact Hi.
Qed.

Lemma not_seven p i : canonical p -> resolves (w_ino w) p i -> i <> 7.
Proof.
  intros Hc Hp. destruct p as [|f p _] using rev_ind.
  - apply resolves_nil in Hp as ->. discriminate.
  - destruct (step_down _ _ _ Hc Hp) as (d & y & _ & _ & _ & _ & Hi). intros ->. exact (s_seven _ _ H2 _ Hi).
Qed.

Lemma dot_of p i x : canonical p -> resolves (w_ino w) p i -> w_ino w !! i = Some x -> i_kind x = KDir -> i_dict x !! "." = Some i.
Proof. intros Hc Hp Hx Hk. exact (proj1 (Hd _ _ Hx Hk (not_seven _ _ Hc Hp))). Qed.

Lemma dotdot_of p i x : canonical p -> resolves (w_ino w) p i -> w_ino w !! i = Some x -> i_kind x = KDir ->
  exists d, i_dict x !! ".." = Some d /\ resolves (w_ino w) (removelast p) d /\ (p <> [] -> d < i).
Proof.
  intros Hc Hp Hx Hk. destruct p as [|f p _] using rev_ind.
  - pose proof (resolves_nil _ _ Hp) as ->. exists ROOTINO. split; [|split; [constructor|congruence]].
    exact (proj2 (Hd _ _ Hx Hk ltac:(discriminate)) eq_refl).
  - destruct (step_down _ _ _ Hc Hp) as (d & y & Hrd & _ & _ & _ & Hi). exists d. rewrite removelast_last.
    destruct (n_up _ _ Hn _ _ _ _ Hx Hk Hi). auto.
Qed.

(** *** The entries of a directory *)
Lemma below_in p f j : In (f, j) (omap (name_below p) (map_to_list (vw_at a))) <-> vw_at a !! (p ++ [f]) = Some j.
Proof.
  rewrite <- elem_of_list_In, elem_of_list_omap. split.
  - intros ([q k] & Hq & E). apply elem_of_map_to_list in Hq. unfold name_below in E. cbn [fst snd] in E.
    destruct (last q) as [g|] eqn:El; [|discriminate E]. destruct (decide _) as [Er|]; [|discriminate E]. injection E as -> ->.
    apply last_Some in El as [l ->]. rewrite removelast_last in Er. subst l. exact Hq.
  - intros Hp. exists (p ++ [f], j). split; [apply elem_of_map_to_list; exact Hp|]. unfold name_below. cbn [fst snd].
    rewrite last_snoc, removelast_last, decide_True by reflexivity. reflexivity.
Qed.

Lemma listing_eq p i x : vw_at a !! p = Some i -> w_ino w !! i = Some x -> i_kind x = KDir -> listing a p i = i_dict x.
Proof.
  intros Hp Hx Hk. apply (sh_at _ _ Hs) in Hp as [Hc Hp]. unfold listing. apply map_eq. intros f.
  destruct (decide (f = ".")) as [->|N1].
  { rewrite lookup_insert. symmetry. exact (dot_of _ _ _ Hc Hp Hx Hk). }
  rewrite lookup_insert_ne by congruence. destruct (decide (f = "..")) as [->|N2].
  { rewrite lookup_insert. destruct (dotdot_of _ _ _ Hc Hp Hx Hk) as (d & Ed & Hrd & _).
    assert (Hcr : canonical (removelast p)).
    { destruct p as [|g p _] using rev_ind; [constructor|]. rewrite removelast_last. exact (proj1 (canonical_snoc _ _ Hc)). }
    rewrite (proj2 (sh_at _ _ Hs _ _) (conj Hcr Hrd)), Ed. reflexivity. }
  rewrite lookup_insert_ne by congruence.
  assert (K : forall j, vw_at a !! (p ++ [f]) = Some j <-> i_dict x !! f = Some j).
  { intros j. rewrite (sh_at _ _ Hs). split.
    - intros [Hcf Hrf]. destruct (step_down _ _ _ Hcf Hrf) as (d & y & Hrd & Hy & _ & Hi & _).
      pose proof (resolves_det _ _ _ _ Hp Hrd) as ->. congruence.
    - intros Hj. split; [|exact (res_step _ _ _ _ _ _ Hp Hx Hk Hj)]. apply Forall_app. split; [exact Hc|]. constructor; [|constructor].
      apply (Hg _ _ Hx _ _ Hj). apply dotb_false. auto. }
  apply option_eq. intros j. rewrite <- K. split.
  - intros H. apply elem_of_list_to_map_2 in H. apply elem_of_list_In, below_in in H. exact H.
  - intros H. apply elem_of_list_to_map_1'; [|apply elem_of_list_In, below_in; exact H].
    intros k Hk'. apply elem_of_list_In, below_in in Hk'. congruence.
Qed.

(** *** Records *)
Lemma records_eq l : forall u n, records l u n = dents_fit l u n.
Proof.
  induction l as [|[f i] l IH]; intros u n; cbn [records dents_fit fst]; [reflexivity|].
  assert (E : record_len f = reclen f) by (unfold record_len, reclen, CLIPPED_DIRENT_SIZE; f_equal; f_equal; lia).
  rewrite E. destruct (n <? u + reclen f); [reflexivity|]. rewrite IH. reflexivity.
Qed.

(** *** The walk to the root *)
Fixpoint slashed (p : list string) : string := match p with [] => "" | f :: r => f +:+ "/" +:+ slashed r end.

Lemma sapp_assoc x y z : (x +:+ y) +:+ z = x +:+ y +:+ z.
Proof. induction x as [|ch x IH]; [reflexivity|]. change (String ch ((x +:+ y) +:+ z) = String ch (x +:+ y +:+ z)). rewrite IH. reflexivity. Qed.

Lemma slashed_snoc p f s : slashed (p ++ [f]) +:+ s = slashed p +:+ f +:+ "/" +:+ s.
Proof. induction p as [|g p IH]; cbn [slashed app]; [|rewrite !sapp_assoc, IH; reflexivity]. rewrite !sapp_assoc. reflexivity. Qed.

Lemma cut_word f s : has_slash f = false -> cut (f +:+ "/" +:+ s) = f :: cut s.
Proof.
  induction f as [|ch f IH]; [reflexivity|]. cbn [has_slash]. intros H. apply orb_false_iff in H as [H1 H3].
  change (String ch f +:+ "/" +:+ s) with (String ch (f +:+ "/" +:+ s)). cbn [cut]. rewrite H1, (IH H3). reflexivity.
Qed.

Lemma cut_slashed p : canonical p -> cut (slashed p) = p ++ [""].
Proof.
  induction 1 as [|f p Hf _ IH]; [reflexivity|]. cbn [slashed app]. rewrite cut_word by apply Hf. rewrite IH. reflexivity.
Qed.

Lemma go_names p : canonical p -> forall st, fold_left go p st = st ++ p.
Proof.
  induction 1 as [|f p (F1 & F2 & F3 & _) _ IH]; intros st; cbn [fold_left]; [rewrite app_nil_r; reflexivity|].
  unfold go at 2. apply String.eqb_neq in F1, F2, F3. rewrite F1, F2, F3. cbn [orb]. rewrite IH, <- app_assoc. reflexivity.
Qed.

Lemma norm_slashed cwd p : canonical p -> normpath cwd ("/" +:+ slashed p) = p.
Proof.
  intros Hc. rewrite <- where_is_eq. unfold where_is. change ("/" +:+ slashed p) with (String "/" (slashed p)).
  cbn [cut]. change (Ascii.eqb "/" "/") with true. cbv iota. rewrite (cut_slashed p Hc). cbn [fold_left]. change (go [] "") with (@List.nil string).
  rewrite fold_left_app, (go_names p Hc). reflexivity.
Qed.

Lemma name_in_eq p f d y i x : canonical (p ++ [f]) -> resolves (w_ino w) p d -> w_ino w !! d = Some y -> i_kind y = KDir ->
  i_dict y !! f = Some i -> w_ino w !! i = Some x -> i_kind x = KDir -> name_in y i = Some f.
Proof.
  intros Hc Hp Hy Hky Hi Hx Hk. destruct (canonical_snoc _ _ Hc) as [Hcp Hf].
  assert (Hnm : names (w_ino w) !! (d, f) = Some i) by (rewrite names_lookup, Hf, Hy; exact Hi).
  destruct (n_up _ _ Hn _ _ _ _ Hx Hk Hnm) as [_ Hlt].
  unfold name_in. destruct (List.find _ _) as [[g j]|] eqn:E.
  - apply List.find_some in E as [E1 E2]. cbn [snd] in E2. apply Z.eqb_eq in E2 as ->. apply elem_of_list_In, elem_of_map_to_list in E1.
    cbn [fst]. f_equal. destruct (dotb g) eqn:Eg.
    + exfalso. unfold dotb in Eg. apply orb_true_iff in Eg as [E|E]; apply String.eqb_eq in E; subst g.
      * rewrite (dot_of _ _ _ Hcp Hp Hy Hky) in E1. injection E1 as ->. lia.
      * destruct (dotdot_of _ _ _ Hcp Hp Hy Hky) as (e & Ee & Hre & Hle). rewrite E1 in Ee. injection Ee as <-.
        destruct (decide (p = [])) as [->|Hne]; [|specialize (Hle Hne); lia].
        apply resolves_nil in Hre. apply resolves_nil in Hp. lia.
    + assert (Hng : names (w_ino w) !! (d, g) = Some i) by (rewrite names_lookup, Eg, Hy; exact E1).
      pose proof (n_one _ _ Hn _ _ _ _ Hx Hk Hnm Hng) as E. injection E as ->. reflexivity.
  - exfalso. apply elem_of_map_to_list, elem_of_list_In in Hi. pose proof (List.find_none _ _ E _ Hi) as F.
    cbn [snd] in F. rewrite Z.eqb_refl in F. discriminate F.
Qed.

Lemma loop_path p : forall i x s k, canonical p -> p <> [] -> resolves (w_ino w) p i -> w_ino w !! i = Some x -> i_kind x = KDir ->
  (length p < k)%nat -> pathname_loop k (w_ino w) i s true = Some (Done (Some ("/" +:+ slashed p +:+ s))).
Proof.
  induction p as [|f p IH] using rev_ind; intros i x s k Hc Hne Hp Hx Hk Hlen; [congruence|].
  rewrite app_length in Hlen. cbn [length] in Hlen. destruct k as [|k]; [lia|]. cbn [pathname_loop]. rewrite Hx, Hk.
  destruct (step_down _ _ _ Hc Hp) as (d & y & Hrd & Hy & Hky & Hi & Hnm). destruct (n_up _ _ Hn _ _ _ _ Hx Hk Hnm) as [Hup Hlt].
  rewrite Hup. cbn [negb]. rewrite andb_false_r. replace (d =? i) with false by (symmetry; apply Z.eqb_neq; lia).
  rewrite Hy, Hky, (name_in_eq _ _ _ _ _ _ Hc Hrd Hy Hky Hi Hx Hk). destruct (canonical_snoc _ _ Hc) as [Hcp _].
  rewrite slashed_snoc. destruct (decide (p = [])) as [->|Hp0].
  - apply resolves_nil in Hrd as ->. rewrite Z.eqb_refl. destruct k as [|k]; [lia|]. cbn [pathname_loop]. rewrite Hy, Hky.
    rewrite (proj2 (Hd _ _ Hy Hky ltac:(discriminate)) eq_refl), Z.eqb_refl. reflexivity.
  - assert (Hdr : d <> ROOTINO).
    { destruct p as [|g p _] using rev_ind; [congruence|]. destruct (step_down _ _ _ Hcp Hrd) as (e & z & _ & _ & _ & _ & Hnd).
      exact (proj2 (n_ent _ _ Hn _ _ _ Hnd)). }
    apply Z.eqb_neq in Hdr. rewrite Hdr. apply (IH d y); auto. lia.
Qed.

Lemma chain p : forall i x, canonical p -> resolves (w_ino w) p i -> w_ino w !! i = Some x -> i_kind x = KDir ->
  exists l : list Z, NoDup l /\ length l = S (length p) /\ Forall (fun j => is_Some (w_ino w !! j) /\ j <= i) l.
Proof.
  induction p as [|f p IH] using rev_ind; intros i x Hc Hp Hx Hk.
  - exists [i]. split; [apply NoDup_singleton|]. split; [reflexivity|]. constructor; [|constructor]. split; [eauto|lia].
  - destruct (step_down _ _ _ Hc Hp) as (d & y & Hrd & Hy & Hky & Hi & Hnm). destruct (n_up _ _ Hn _ _ _ _ Hx Hk Hnm) as [_ Hlt].
    destruct (IH d y (proj1 (canonical_snoc _ _ Hc)) Hrd Hy Hky) as (l & L1 & L2 & L3). exists (i :: l). split.
    + constructor; [|exact L1]. intros Hin. rewrite Forall_forall in L3. apply L3 in Hin. lia.
    + split; [rewrite app_length; cbn [length]; lia|]. constructor; [split; [eauto|lia]|].
      eapply Forall_impl; [exact L3|]. cbn. intros j [A B]. split; [exact A|lia].
Qed.

Lemma path_short p i x : canonical p -> resolves (w_ino w) p i -> w_ino w !! i = Some x -> i_kind x = KDir -> (length p < size (w_ino w))%nat.
Proof.
  intros Hc Hp Hx Hk. destruct (chain p i x Hc Hp Hx Hk) as (l & L1 & L2 & L3).
  rewrite <- size_dom. enough (length l <= size (dom (w_ino w)))%nat by lia.
  rewrite <- (size_list_to_set (C := gset Z) l L1). apply subseteq_size. intros j Hj. apply elem_of_list_to_set in Hj.
  rewrite Forall_forall in L3. apply elem_of_dom. apply (L3 _ Hj).
Qed.

(** What fchdir finds for the directory at [p] *)
Lemma fchdir_path p i x : vw_at a !! p = Some i -> w_ino w !! i = Some x -> i_kind x = KDir ->
  pathname_loop (S (size (w_ino w))) (w_ino w) i "" true =
    match p with [] => None | _ => Some (Done (Some ("/" +:+ slashed p))) end.
Proof.
  intros Hp Hx Hk. apply (sh_at _ _ Hs) in Hp as [Hc Hp]. destruct (decide (p = [])) as [->|Hne].
  - apply resolves_nil in Hp as ->. cbn [pathname_loop]. rewrite Hx, Hk.
    rewrite (proj2 (Hd _ _ Hx Hk ltac:(discriminate)) eq_refl). cbn [negb]. rewrite andb_false_r, Z.eqb_refl. reflexivity.
  - rewrite (loop_path p i x "" _ Hc Hne Hp Hx Hk) by (pose proof (path_short p i x Hc Hp Hx Hk); lia).
    assert (E : slashed p +:+ "" = slashed p).
    { generalize (slashed p). intros q. induction q as [|ch q IH]; [reflexivity|]. change (String ch (q +:+ "") = String ch q). rewrite IH. reflexivity. }
    rewrite E. destruct p; [congruence|reflexivity].
Qed.

(** An object that is not a directory has no entries to look through *)
Lemma fchdir_other i x : w_ino w !! i = Some x -> i_kind x <> KDir ->
  pathname_loop (S (size (w_ino w))) (w_ino w) i "" true = Some (Done None).
Proof. intros Hx Hk. cbn [pathname_loop]. rewrite Hx. destruct (i_kind x); congruence. Qed.
End dirs.
