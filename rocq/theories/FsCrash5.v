(** What a clean shutdown and start leave. *)
From Verif Require Import Base PathModel PathSpec PathProofs FsModel FsBoot FsSpec FsWalk Count FsNames FsTr FsInv FsInv2
  FsSteps FsSteps2 FsFrame FsReachSpec FsWinv FsNameSpec FsPath FsOps FsTmp FsRestart FsReach FsNameProofs FsCrashSpec.
Local Open Scope list_scope.
Local Open Scope Z_scope.
Opaque all_fds next_fd.

Lemma keeps_outside w w' : keeps ["tmp"] w w' -> outside_kept w w'.
Proof.
  intros H q i Hq Hno. assert (Hp : ~ ["tmp"] `prefix_of` q) by (intros [r ->]; exact (Hno r eq_refl)). split; [split|].
  - exact (ke_old _ _ _ H _ _ Hq (or_introl Hp)).
  - exact (ke_new _ _ _ H _ _ Hq).
  - intros x Hr Hx. destruct (ke_obj _ _ _ H _ _ _ Hq Hp Hr Hx) as (y & Hy & E1 & E2 & E3 & _ & E5 & E6).
    exists y. repeat (split; [assumption|]). intros Hl _. apply E6. intros q' Hq' [r ->]. exact (Hl r Hq').
Qed.

Lemma outside_trans a b d : keeps ["tmp"] a b -> outside_kept b d -> outside_kept a d.
Proof.
  intros K H. pose proof (keeps_outside _ _ K) as K'. intros q i Hq Hno. destruct (K' q i Hq Hno) as [A1 A2]. destruct (H q i Hq Hno) as [B1 B2].
  split; [rewrite A1; exact B1|]. intros x Hr Hx. destruct (A2 x Hr Hx) as (y & Hy & E1 & E2 & E3 & E4 & E5).
  destruct (B2 y (proj1 A1 Hr) Hy) as (z & Hz & F1 & F2 & F3 & F4 & F5). exists z. split; [exact Hz|].
  do 4 (split; [congruence|]). intros Hl Ht. rewrite F5, E5; try assumption; [reflexivity| |].
  - intros r Hc Hr'. apply (Hl r Hc). exact (ke_new _ _ _ K _ _ Hc Hr').
  - destruct Ht as [Ht|[j Hj]]; [left; exact Ht|right; exists j]. exact (ke_old _ _ _ K _ _ canonical_tmp (or_intror eq_refl) Hj).
Qed.

(** /tmp is made when there is none *)
Lemma mkdir_outside w w' r : winv w -> winv w' -> (forall i, ~ resolves (w_ino w) ["tmp"] i) ->
  step w 0 (Mkdir "/tmp" S_IRWXA) = Done (w', Ret r) -> outside_kept w w' /\ has_dir w'.
Proof.
  intros Hw Hw' Hno H. unfold step in H. destruct (w_cwd w !! 0) as [cwd|] eqn:Hcwd; [|discriminate H]. unfold ret in H.
  destruct (mkdir_syscall w cwd "/tmp" S_IRWXA) as [[w1 r1]|] eqn:Em; cbn [obind] in H; [|discriminate H]. injection H as <- <-.
  pose proof (u_cwd _ Hw _ _ Hcwd) as Hc. assert (E : normpath cwd "/tmp" = ["tmp"]) by reflexivity.
  pose proof (v_n _ (u_inv _ Hw)) as Hn. cbn in Hn. destruct (n_root _ _ Hn) as (rt & Hrt & Hrk).
  assert (Hd0 : i_dict rt !! "tmp" = None).
  { destruct (i_dict rt !! "tmp") as [j|] eqn:Ej; [|reflexivity]. exfalso. apply (Hno j). apply (res_step _ [] ROOTINO rt "tmp" j); [constructor|assumption..]. }
  assert (Hr0 : r1 = 0).
  { unfold mkdir_syscall in Em. rewrite E in Em. cbn [String.eqb] in Em. unfold metawalkandparent in Em. rewrite Hrt in Em. cbn [walk_from] in Em.
    rewrite Hrt, Hrk, Hd0 in Em. cbn [walk_from obind] in Em. change (file_name ["tmp"]) with (Some "tmp") in Em.
    change (negb (sane_mode S_IRWXA)) with false in Em. cbv iota in Em.
    match type of Em with obind ?o _ = _ => destruct o as [w2|]; cbn [obind] in Em; [|discriminate Em] end. injection Em as _ <-. reflexivity. }
  subst r1. destruct (mkdir_post _ _ _ _ _ _ Hc Em ltac:(lia)) as (dir & f & par & q & Hpl & Hf & _ & _ & Ha).
  rewrite E in Hpl. assert (Ep : ["tmp"] = dir ++ [f]) by exact (pl_path _ _ _ _ _ _ Hpl). destruct (snoc_eq [] dir "tmp" f Ep) as [<- <-].
  assert (par = ROOTINO) by exact (resolves_nil _ _ (pl_res _ _ _ _ _ _ Hpl)). subst par.
  assert (q = rt) by (pose proof (pl_ino _ _ _ _ _ _ Hpl); congruence). subst q.
  destruct (creates_intro w w1 ["tmp"] [] "tmp" ROOTINO rt (w_next w) (new_dir (w_next w) ROOTINO S_IRWXA) Hw Hw' canonical_tmp Hpl Hf eq_refl (a_ino _ _ _ _ _ _ _ Ha))
    as (Hu & [Hp1 Hp2] & _).
  - intros g j. cbn. unfold new_dict. intros Hg. apply lookup_insert_Some in Hg as [[<- _]|[_ Hg]]; [reflexivity|].
    apply lookup_insert_Some in Hg as [[<- _]|[_ Hg]]; [reflexivity|]. rewrite lookup_empty in Hg. discriminate Hg.
  - intros j _. unfold bytes. rewrite (a_host _ _ _ _ _ _ _ Ha). reflexivity.
  - apply (a_kept _ _ _ _ _ _ _ Ha).
  - apply (a_kept _ _ _ _ _ _ _ Ha).
  - pose proof (a_ino _ _ _ _ _ _ _ Ha) as Ei. pose proof (n_range _ _ Hn) as Hrng.
    split.
    2:{ exists (w_next w), (new_dir (w_next w) ROOTINO S_IRWXA). split; [apply Hp2; [exact canonical_tmp|auto]|].
        rewrite Ei, lookup_insert. auto. }
    intros p i Hp Hout. split.
    + rewrite (Hp2 _ _ Hp). split; [auto|]. intros [?|[-> _]]; [assumption|]. exfalso. exact (Hout [] eq_refl).
    + intros x Hr Hx. assert (Hne : w_next w <> i) by (pose proof (Hrng _ _ Hx); lia). rewrite Ei, lookup_insert_ne by assumption.
      rewrite (a_host _ _ _ _ _ _ _ Ha). destruct (decide (ROOTINO = i)) as [<-|Hne2].
      * rewrite lookup_insert. assert (x = rt) by congruence. subst x. eexists. split; [reflexivity|].
        do 4 (split; [reflexivity|]). intros _ [Hq|[j Hj]]; [|exfalso; exact (Hno _ Hj)].
        exfalso. clear Hout. induction p as [|g dir' _] using rev_ind; [exact (Hq eq_refl)|].
        destruct (resolves_snoc _ _ _ _ Hr) as (d' & x' & H1 & H2 & _ & H3).
        destruct (canonical_snoc _ _ Hp) as [_ Hg]. refine (proj2 (n_ent _ _ Hn d' g ROOTINO _) eq_refl). rewrite names_lookup, Hg, H2. exact H3.
      * rewrite lookup_insert_ne by assumption. exists x. auto 10.
Qed.

Lemma restart_kept disp w w' : reach disp w -> can_stop w -> restarts w w' ->
  outside_kept w w' /\ has_dir w'.
Proof.
  intros Hr Hst Hre. pose proof (reach_ok _ _ Hr) as Hok. destruct (restart_shape true w w' Hok Hst Hre) as (w3 & w4 & R).
  pose proof (later_ok _ _ _ (rs_later _ _ _ _ _ R) Hok) as Hok3. pose proof (rs_starts _ _ _ _ _ R) as S4.
  assert (Hok4 : okw w4) by (split; [exact (starts_winv _ _ (proj1 Hok3) (rs_fds _ _ _ _ _ R) S4)|exact (starts_good _ _ (proj2 Hok3) S4)]).
  pose proof (later_ok _ _ _ (rs_later2 _ _ _ _ _ R) Hok4) as Hok'.
  assert (K4 : keeps ["tmp"] w w4).
  { apply (keeps_trans _ _ w3); [exact (rs_keeps _ _ _ _ _ R)| |exact canonical_tmp].
    exact (still_keeps _ _ _ _ _ (v_n _ (u_inv _ (proj1 Hok3))) (v_n _ (u_inv _ (proj1 Hok4))) canonical_tmp (starts_still _ _ S4)). }
  destruct (rs_end _ _ _ _ _ R) as [[K5 (i & x & Hi & Hx & Hk)]|[Hno [r Hs]]].
  - split; [exact (outside_trans _ _ _ K4 (keeps_outside _ _ K5))|].
    destruct (ke_self _ _ _ K5 _ _ Hi Hx) as (y & Hy & E & _).
    exists i, y. split; [exact (ke_old _ _ _ K5 _ _ canonical_tmp (or_intror eq_refl) Hi)|]. split; [exact Hy|congruence].
  - destruct (mkdir_outside w4 w' r (proj1 Hok4) (proj1 Hok') Hno Hs) as [A B]. split; [exact (outside_trans _ _ _ K4 A)|exact B].
Qed.
