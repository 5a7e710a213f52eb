(** Proofs about the directory tree and the reference counts. *)
From Verif Require Import Base PathModel PathSpec PathProofs FsModel FsBoot FsSpec FsWalk Count FsNames FsTr FsInv FsInv2
  FsSteps FsSteps2 FsFrame FsReachSpec FsReach.
Local Open Scope list_scope.
Local Open Scope Z_scope.
Opaque all_fds.

(** *** Histories *)
Definition plain (o : op) : bool :=
  match o with Fork _ | Exec _ | Unlink _ | Dup2 _ _ | Pipe2 _ | Rename _ _ => false | _ => true end.

Lemma plain_tame disp w c o r : plain o = true -> tame disp w c o r.
Proof. destruct o; try discriminate; intros _; exact I. Qed.

Lemma reach_run disp h : forall w w' xs, reach disp w -> forallb (fun e => plain e.2) h = true ->
  run w h = Some (w', xs) -> reach disp w'.
Proof.
  induction h as [|[c o] h IH]; intros w w' xs Hr Hp H; cbn in H; [congruence|].
  cbn in Hp. apply andb_true_iff in Hp as [Hp1 Hp2].
  destruct (step w c o) as [[w1 x]|] eqn:Es; [|discriminate].
  destruct (run w1 h) as [[w2 ys]|] eqn:Er; [|discriminate]. injection H as <- <-.
  eapply (IH w1); eauto. eapply reach_step; eauto. apply plain_tame. exact Hp1.
Qed.

Lemma reach_any_run h : forall w w' xs, reach_any w -> run w h = Some (w', xs) -> reach_any w'.
Proof.
  induction h as [|[c o] h IH]; intros w w' xs Hr H; cbn in H; [congruence|].
  destruct (step w c o) as [[w1 x]|] eqn:Es; [|discriminate].
  destruct (run w1 h) as [[w2 ys]|] eqn:Er; [|discriminate]. injection H as <- <-.
  eapply (IH w1); eauto. eapply any_step; eauto.
Qed.

Lemma reach_weaken w : reach false w -> reach true w.
Proof.
  induction 1 as [|w c o w' r Hr IH Hs Ht|w w' Hr IH Hst Hre]; [constructor| |exact (reach_restart _ _ _ IH Hst Hre)]. eapply reach_step; eauto.
  destruct o; try exact Ht; exact I || (left; reflexivity).
Qed.

(** *** C03 *)
Lemma entry_exists disp w d f i : reach disp w -> entry (w_ino w) d f i -> is_Some (w_ino w !! i).
Proof.
  intros Hr He. apply names_entry in He. apply reach_winv in Hr. destruct (u_inv _ Hr) as [Hn _ _ _].
  apply (n_ent _ _ Hn) in He. tauto.
Qed.

Lemma root_some w : winv w -> is_Some (w_ino w !! ROOTINO).
Proof. intros H. destruct (n_root _ _ (v_n _ (u_inv _ H))) as (r & ? & _). eauto. Qed.

Lemma resolves_exists w p i : winv w -> canonical p -> resolves (w_ino w) p i -> is_Some (w_ino w !! i).
Proof.
  intros Hw Hc H. apply resolves_named in H; [|assumption]. destruct H as [->|[[d f] Hk]]; [apply root_some; assumption|].
  apply (n_ent _ _ (v_n _ (u_inv _ Hw))) in Hk. tauto.
Qed.

Lemma canonical_app a b : canonical (a ++ b) -> canonical a /\ canonical b.
Proof. unfold canonical. rewrite Forall_app. auto. Qed.

Lemma metawalk_done w p : winv w -> canonical p ->
  exists o, metawalk (w_ino w) p = Done o /\ forall i, o = Some i -> is_Some (w_ino w !! i).
Proof.
  intros Hw Hc. destruct (metawalk (w_ino w) p) as [o|] eqn:E.
  - exists o. split; [reflexivity|]. intros i ->. eapply resolves_exists; eauto. apply metawalk_resolves. exact E.
  - exfalso. apply metawalk_panic in E as [E|(a & f & b & d & -> & Hd & E)].
    + destruct (root_some w Hw). congruence.
    + apply canonical_app in Hc as [Hc _]. destruct (resolves_exists w a d Hw Hc Hd). congruence.
Qed.

Lemma mwap_done w p : winv w -> canonical p -> exists a b, metawalkandparent (w_ino w) p = Done (a, b).
Proof.
  intros Hw Hc. destruct (metawalk_done w p Hw Hc) as (o & H & _). unfold metawalk in H.
  destruct (metawalkandparent (w_ino w) p) as [[a b]|]; [eauto|discriminate].
Qed.

Lemma stat_total w c cwd p : winv w -> w_cwd w !! c = Some cwd ->
  (exists i x, w_ino w !! i = Some x /\ resolves (w_ino w) (normpath cwd p) i /\ step w c (Stat p) = Done (w, stat_of i x)) \/
  ((forall i, ~ resolves (w_ino w) (normpath cwd p) i) /\ step w c (Stat p) = Done (w, Ret (err ENOENT))).
Proof.
  intros Hw Hc. pose proof (normpath_canonical cwd p (u_cwd _ Hw _ _ Hc)) as Hcan.
  destruct (metawalk_done w _ Hw Hcan) as (o & Hm & Ho). unfold step, same, stat_syscall. rewrite Hc, Hm. cbn [obind].
  destruct o as [i|].
  - left. destruct (Ho i eq_refl) as [x Hx]. exists i, x. split; [assumption|]. split; [apply metawalk_resolves; assumption|].
    unfold get_ino. rewrite Hx. reflexivity.
  - right. split; [apply metawalk_none; assumption|reflexivity].
Qed.

Lemma lookup_calls_total w c cwd p : winv w -> w_cwd w !! c = Some cwd -> forall o,
  (exists m, o = Access p m) \/ o = Stat p \/ o = Chdir p \/ (exists m, o = Chmod p m) -> exists w' r, step w c o = Done (w', r).
Proof.
  intros Hw Hc o Ho. pose proof (normpath_canonical cwd p (u_cwd _ Hw _ _ Hc)) as Hcan.
  destruct (metawalk_done w _ Hw Hcan) as (r & Hm & Hr).
  assert (Hg : forall i, r = Some i -> exists x, get_ino w i = Done x).
  { intros i Hi. destruct (Hr i Hi) as [x Hx]. exists x. unfold get_ino. rewrite Hx. reflexivity. }
  destruct Ho as [[m ->]|[->|[->|[m ->]]]]; unfold step, same, ret; rewrite Hc.
  - unfold access_syscall. rewrite Hm. cbn [obind]. destruct r as [i|]; [|cbn; eauto].
    destruct (Hg i eq_refl) as [x ->]. cbn [obind]. eauto.
  - unfold stat_syscall. rewrite Hm. cbn [obind]. destruct r as [i|]; [|cbn; eauto].
    destruct (Hg i eq_refl) as [x ->]. cbn [obind]. eauto.
  - unfold chdir_syscall. rewrite Hm. cbn [obind]. destruct r as [i|]; [|cbn; eauto].
    destruct (Hg i eq_refl) as [x ->]. cbn [obind]. destruct (i_kind x); cbn [obind]; eauto.
  - unfold chmod_syscall. rewrite Hm. cbn [obind]. destruct r as [i|]; [|cbn; eauto].
    unfold chmod_helper. destruct (_ =? m); [|cbn; eauto]. destruct (Hg i eq_refl) as [x ->]. cbn [obind]. eauto.
Qed.

(** *** C04 *)
Lemma nnames_list t i (l : list (Z * string)) : NoDup l -> (forall d f, (d, f) ∈ l <-> entry t d f i) ->
  nnames t i = Z.of_nat (length l).
Proof.
  intros Hl He. apply cnt_list; [assumption|]. intros [d f]. rewrite He, <- names_entry. split.
  - intros H. exists i. split; [assumption|]. cbn. apply Z.eqb_refl.
  - intros (a & Ha & Hb). cbn in Hb. assert (a = i) by lia. congruence.
Qed.

Lemma link_count w i x l : reach false w -> w_ino w !! i = Some x -> i_kind x <> KDir ->
  NoDup l -> (forall d f, (d, f) ∈ l <-> entry (w_ino w) d f i) -> i_link x = Z.of_nat (length l).
Proof.
  intros Hr Hi Hk Hl He. rewrite <- (nnames_list _ _ _ Hl He). eapply s_link; eauto. apply reach_inv2. assumption.
Qed.

Lemma link_count_le w i x l : reach true w -> w_ino w !! i = Some x -> i_kind x <> KDir ->
  NoDup l -> (forall d f, (d, f) ∈ l <-> entry (w_ino w) d f i) -> Z.of_nat (length l) <= i_link x.
Proof.
  intros Hr Hi Hk Hl He. rewrite <- (nnames_list _ _ _ Hl He). apply reach_winv in Hr.
  eapply n_link; eauto. apply Hr.
Qed.

(** There is such a list, so the statements above are about something *)
Lemma entries_list t i : exists l : list (Z * string), NoDup l /\ forall d f, (d, f) ∈ l <-> entry t d f i.
Proof.
  exists (filter (fun k => names t !! k = Some i) (elements (dom (names t)))). split.
  - apply NoDup_filter, NoDup_elements.
  - intros d f. rewrite elem_of_list_filter, elem_of_elements, elem_of_dom, <- names_entry. split; [tauto|].
    intros H. rewrite H. eauto.
Qed.

(** *** C05 *)
Lemma rmdir_success_empty w c p w' cwd i x : reach true w -> w_cwd w !! c = Some cwd ->
  step w c (Rmdir p) = Done (w', Ret 0) -> resolves (w_ino w) (normpath cwd p) i -> w_ino w !! i = Some x ->
  i_kind x = KDir /\ empty_dir x.
Proof.
  intros Hr Hc H Hres Hx. pose proof (reach_winv _ _ Hr) as Hw. unfold step, ret in H. rewrite Hc in H.
  destruct (rmdir_syscall w cwd p) as [[w1 r1]|] eqn:E; cbn [obind fst snd] in H; [|discriminate]. injection H as <- ->.
  unfold rmdir_syscall in E. destruct (String.eqb p ""); [discriminate|].
  destruct (metawalkandparent _ _) as [[[j|] op]|] eqn:Em; cbn [obind] in E; [|discriminate|discriminate].
  assert (j = i).
  { eapply resolves_det; [|exact Hres]. apply metawalk_resolves. eapply mwap_metawalk; eauto. }
  subst j. destruct op as [par|]; [|discriminate].
  destruct (get_ino w par) as [q|]; cbn [obind] in E; [|discriminate]. destruct (no_write_bits (i_mode q)); [discriminate|].
  unfold get_ino in E at 1. rewrite Hx in E. cbn [obind] in E. destruct (i_kind x) eqn:Hk; try discriminate.
  destruct (Z.ltb_spec 3 (i_link x)); [discriminate|]. split; [reflexivity|].
  pose proof (n_dlink _ _ (v_n _ (u_inv _ Hw)) _ _ Hx Hk) as Hd. cbn in Hd. pose proof (nkids_nonneg (w_ino w) i).
  assert (Hz : nkids (w_ino w) i = 0) by lia. exact (proj1 (nkids_zero_dict _ _ _ Hx) Hz).
Qed.

Lemma rmdir_exact w c cwd p dir f i x d y : reach false w -> w_cwd w !! c = Some cwd -> p <> "" ->
  denotes cwd p (dir ++ [f]) -> resolves (w_ino w) dir d -> resolves (w_ino w) (dir ++ [f]) i ->
  w_ino w !! d = Some y -> w_ino w !! i = Some x -> i_kind x = KDir ->
  no_write_bits (i_mode y) = false -> no_write_bits (i_mode x) = false -> is_dir (i_mode x) = true ->
  (empty_dir x -> exists w', step w c (Rmdir p) = Done (w', Ret 0)) /\
  (~ empty_dir x -> step w c (Rmdir p) = Done (w, Ret (err ENOTEMPTY))).
Proof.
  intros Hr Hc Hp Hden Hd Hi Hy Hx Hk Hwy Hwx Hm.
  pose proof (reach_winv _ _ Hr) as Hw. pose proof (reach_inv2 _ Hr) as H2. pose proof (v_n _ (u_inv _ Hw)) as Hn. cbn in Hn.
  apply denotes_normpath in Hden.
  pose proof (normpath_canonical cwd p (u_cwd _ Hw _ _ Hc)) as Hcan. rewrite <- Hden in Hcan.
  apply resolves_snoc in Hi as (d' & y' & Hd' & Hy' & Hky & Hf).
  assert (d' = d) by (eapply resolves_det; eauto). subst d'. assert (y' = y) by congruence. subst y'.
  apply canonical_snoc in Hcan as [Hcand Hdot].
  assert (Hnm : names (w_ino w) !! (d, f) = Some i) by (rewrite names_lookup, Hdot, Hy; exact Hf).
  assert (Hwalk : metawalkandparent (w_ino w) (dir ++ [f]) = Done (Some i, Some d)).
  { pose proof (resolves_metawalk _ _ _ (root_some _ Hw) Hd) as Hmd. unfold metawalk in Hmd.
    unfold metawalkandparent in *. destruct (w_ino w !! ROOTINO); [|discriminate].
    rewrite walk_from_snoc. destruct (walk_from _ _ _ dir) as [[a b]|]; cbn [obind fst] in *; [|discriminate].
    injection Hmd as ->. rewrite Hy, Hky, Hf. reflexivity. }
  assert (Hi7 : i <> 7) by (intros ->; exact (s_seven _ _ H2 _ Hnm)).
  pose proof (s_dlink _ _ H2 _ _ Hx Hk Hi7) as Hlk.
  destruct (n_up _ _ Hn _ _ _ _ Hx Hk Hnm) as [_ Hlt].
  unfold step, ret. rewrite Hc. unfold rmdir_syscall. rewrite <- Hden.
  destruct (String.eqb_spec p ""); [contradiction|]. rewrite Hwalk. cbn [obind].
  unfold get_ino at 1 3. rewrite Hy. cbn [obind]. rewrite Hwy. unfold get_ino at 1 2. rewrite Hx. cbn [obind]. rewrite Hk.
  split; intros He.
  - assert (Hz : nkids (w_ino w) i = 0) by exact (proj2 (nkids_zero_dict _ _ _ Hx) He).
    destruct (Z.ltb_spec 3 (i_link x)); [lia|]. rewrite Hm. cbn [negb]. rewrite Hwx.
    assert (Hrm : forall w1, w_ino w1 !! d = Some y -> exists w2, remove_from_parent d (dir ++ [f]) w1 = Done (w2, 0)).
    { intros w1 H1. unfold remove_from_parent, get_ino. rewrite H1. cbn [obind]. rewrite Hky, Hwy.
      unfold file_name. rewrite last_snoc, Hf. unfold dec. pose proof (n_dlink _ _ Hn _ _ Hy Hky). pose proof (nkids_nonneg (w_ino w) d).
      destruct (Z.leb_spec (i_link y) 0); [lia|]. cbn [obind]. eauto. }
    match goal with |- context [remove_from_parent d (dir ++ [f]) ?w1] => destruct (Hrm w1) as [w2 ->] end.
    { destruct (i_ref x =? 0); [|assumption]. cbn. rewrite lookup_insert_ne by lia. assumption. }
    cbn. eauto.
  - assert (Hz : nkids (w_ino w) i <> 0) by (intros Hz; apply He; exact (proj1 (nkids_zero_dict _ _ _ Hx) Hz)).
    pose proof (nkids_nonneg (w_ino w) i). destruct (Z.ltb_spec 3 (i_link x)); [|lia]. reflexivity.
Qed.

(** *** C13 *)
Lemma dir_one_name disp w i x d f d' f' : reach disp w -> w_ino w !! i = Some x -> i_kind x = KDir ->
  entry (w_ino w) d f i -> entry (w_ino w) d' f' i -> d = d' /\ f = f'.
Proof.
  intros Hr Hx Hk H1 H2. apply names_entry in H1, H2. apply reach_winv in Hr.
  pose proof (n_one _ _ (v_n _ (u_inv _ Hr)) _ _ _ _ Hx Hk H1 H2) as E. injection E as -> ->. auto.
Qed.

Lemma dir_parent disp w i x d f : reach disp w -> w_ino w !! i = Some x -> i_kind x = KDir ->
  entry (w_ino w) d f i -> i_dict x !! ".." = Some d.
Proof.
  intros Hr Hx Hk H1. apply names_entry in H1. apply reach_winv in Hr.
  eapply n_up; eauto. apply Hr.
Qed.

Lemma inside_lt disp w d i : reach disp w -> tc (inside (w_ino w)) d i -> d < i.
Proof.
  intros Hr. apply reach_winv in Hr. pose proof (v_n _ (u_inv _ Hr)) as Hn. cbn in Hn.
  induction 1 as [a b (f & x & He & Hx & Hk)|a b c' (f & x & He & Hx & Hk) _ IH].
  - apply names_entry in He. destruct (n_up _ _ Hn _ _ _ _ Hx Hk He). lia.
  - apply names_entry in He. destruct (n_up _ _ Hn _ _ _ _ Hx Hk He). lia.
Qed.

Lemma inside_acyclic disp w i : reach disp w -> ~ tc (inside (w_ino w)) i i.
Proof. intros Hr H. apply (inside_lt _ _ _ _ Hr) in H. lia. Qed.

Lemma up_root w i x d f : reach false w -> entry (w_ino w) d f i -> w_ino w !! i = Some x -> i_kind x = KDir ->
  rtc (up (w_ino w)) i ROOTINO.
Proof.
  intros Hr. pose proof (reach_winv _ _ Hr) as Hw. pose proof (v_n _ (u_inv _ Hw)) as Hn. cbn in Hn.
  pose proof (reach_inv2 _ Hr) as H2.
  assert (Hind : forall n i x d f, (Z.to_nat i < n)%nat -> names (w_ino w) !! (d, f) = Some i -> w_ino w !! i = Some x ->
    i_kind x = KDir -> rtc (up (w_ino w)) i ROOTINO).
  { induction n as [|n IH]; intros i' x' d' f' Hlt He Hx Hk; [lia|].
    destruct (n_up _ _ Hn _ _ _ _ Hx Hk He) as [Hup Hd].
    eapply rtc_l; [exists x'; eauto|].
    destruct (s_kids _ _ H2 _ _ _ He) as [->|[[d2 f2] He2]]; [apply rtc_refl|].
    destruct (n_ent _ _ Hn _ _ _ He2) as [[y Hy] _].
    assert (Hky : i_kind y = KDir).
    { destruct (decide (i_kind y = KDir)) as [?|Hny]; [assumption|]. exfalso.
      pose proof (n_flat _ _ Hn _ _ Hy Hny) as Hempty. rewrite names_lookup, Hy, Hempty, lookup_empty in He. destruct (dotb f'); discriminate. }
    pose proof (n_range _ _ Hn _ _ Hy). pose proof (n_range _ _ Hn _ _ Hx).
    eapply (IH d' y d2 f2); eauto. lia. }
  intros He Hx Hk. apply names_entry in He. eapply Hind; eauto.
Qed.

(** A directory that is named by a path has only one such path *)
Lemma dir_unique_path disp w p q i x : reach disp w -> w_ino w !! i = Some x -> i_kind x = KDir ->
  canonical p -> canonical q -> resolves (w_ino w) p i -> resolves (w_ino w) q i -> p = q.
Proof.
  intros Hr. pose proof (reach_winv _ _ Hr) as Hw. pose proof (v_n _ (u_inv _ Hw)) as Hn. cbn in Hn.
  revert q i x. induction p as [|f p IH] using rev_ind; intros q i x Hx Hk Hp Hq H1 H2.
  - apply resolves_nil in H1. subst i. destruct q as [|g q _] using rev_ind; [reflexivity|].
    exfalso. apply resolves_snoc in H2 as (d & y & _ & Hy & _ & Hg). apply canonical_snoc in Hq as [_ Hq].
    assert (Hnm : names (w_ino w) !! (d, g) = Some ROOTINO) by (rewrite names_lookup, Hq, Hy; exact Hg).
    apply (n_ent _ _ Hn) in Hnm. tauto.
  - apply resolves_snoc in H1 as (d & y & H1 & Hy & Hky & Hf). apply canonical_snoc in Hp as [Hp Hdf].
    assert (Hnm : names (w_ino w) !! (d, f) = Some i) by (rewrite names_lookup, Hdf, Hy; exact Hf).
    destruct q as [|g q _] using rev_ind.
    + exfalso. apply resolves_nil in H2. subst i. apply (n_ent _ _ Hn) in Hnm. tauto.
    + apply resolves_snoc in H2 as (d2 & y2 & H2 & Hy2 & Hky2 & Hg). apply canonical_snoc in Hq as [Hq Hdg].
      assert (Hnm2 : names (w_ino w) !! (d2, g) = Some i) by (rewrite names_lookup, Hdg, Hy2; exact Hg).
      pose proof (n_one _ _ Hn _ _ _ _ Hx Hk Hnm Hnm2) as E. injection E as <- <-.
      f_equal. eapply IH; eauto.
Qed.

(** *** C16 *)
Lemma nfds_list m i (l : list (Z * Z)) : NoDup l -> (forall k, k ∈ l <-> opens m i k) -> nfds m i = Z.of_nat (length l).
Proof.
  intros Hl He. apply cnt_list; [assumption|]. intros k. rewrite He. unfold opens, onfile. split.
  - intros (pos & fl & H). exists (FFile i pos fl). split; [assumption|]. cbn. apply Z.eqb_refl.
  - intros (d & Hd & Ho). destruct d; cbn in Ho; try discriminate. assert (ino = i) by lia. subst. eauto.
Qed.

Lemma open_count w i x l : reach true w -> w_ino w !! i = Some x -> i_kind x <> KDir ->
  NoDup l -> (forall k, k ∈ l <-> opens (w_fds w) i k) -> i_ref x = Z.of_nat (length l).
Proof.
  intros Hr Hx Hk Hl He. apply reach_winv in Hr. rewrite <- (nfds_list _ _ _ Hl He).
  destruct (r_ref _ _ (v_r _ (u_inv _ Hr)) _ _ Hx) as [H _]. apply H. assumption.
Qed.

Lemma opens_list m i : exists l : list (Z * Z), NoDup l /\ forall k, k ∈ l <-> opens m i k.
Proof.
  exists (filter (fun k => onfile i (k, default (FStream 0 0) (m !! k)) = true) (elements (dom m))). split.
  - apply NoDup_filter, NoDup_elements.
  - intros k. rewrite elem_of_list_filter, elem_of_elements, elem_of_dom. unfold opens, onfile. split.
    + intros [H [d Hd]]. rewrite Hd in H. cbn in H. destruct d; cbn in H; try discriminate. assert (ino = i) by lia. subst. eauto.
    + intros (pos & fl & H). rewrite H. cbn. split; [apply Z.eqb_refl|eauto].
Qed.

(** An open file is never reclaimed *)
Lemma open_alive w i k : reach true w -> opens (w_fds w) i k -> exists x, w_ino w !! i = Some x /\
  (i_kind x = KFile -> exists b, d_host (w_disk w) !! i = Some b /\ Z.of_nat (length b) = i_size x).
Proof.
  intros Hr (pos & fl & Hk). apply reach_winv in Hr. destruct (u_inv _ Hr) as [Hn Hrr Hd _]. cbn in *.
  destruct (r_fd _ _ Hrr _ _ _ _ Hk) as [x Hx]. exists x. split; [assumption|]. intros Hkf.
  specialize (Hd i). rewrite Hx in Hd. unfold okdata, isfile in Hd. rewrite Hkf in Hd. tauto.
Qed.

(** Closing an open descriptor always succeeds *)
Lemma close_total w c fd d : winv w -> is_Some (w_cwd w !! c) -> w_fds w !! (c, fd) = Some d ->
  exists w', step w c (Close fd) = Done (w', Ret 0) /\ w_fds w' = delete (c, fd) (w_fds w).
Proof.
  intros Hw [cwd Hc] Hd. destruct (u_key _ Hw _ _ _ Hd) as [Hr _]. destruct (u_inv _ Hw) as [Hn Hrr Hdd Hp]. cbn in *.
  assert (Hs : fd_slot w c fd = Done (Some d)).
  { unfold fd_slot, in_fd_range. destruct (Z.leb_spec 0 fd), (Z.ltb_spec fd MAXFD); try lia. cbn. rewrite Hd. reflexivity. }
  assert (exists w1, close_desc d w = Done (w1, 0)) as [w1 Hcl].
  { destruct d as [i pos fl|st fl|pid fl|fl]; cbn [close_desc]; eauto.
    - destruct (r_fd _ _ Hrr _ _ _ _ Hd) as [x Hx]. unfold get_ino. rewrite Hx. cbn [obind].
      destruct (r_ref _ _ Hrr _ _ Hx) as [R1 R2].
      assert (Hpos : 0 < nfds (w_fds w) i).
      { apply cnt_pos. exists (c, fd), (FFile i pos fl). split; [assumption|]. unfold onfile. cbn. apply Z.eqb_refl. }
      assert (0 < i_ref x). { destruct (decide (i_kind x = KDir)) as [Hk|Hk]; [specialize (R2 Hk); lia|destruct (R1 Hk); lia]. }
      unfold dec. destruct (Z.leb_spec (i_ref x) 0); [lia|]. cbn [obind].
      specialize (Hdd i). rewrite Hx in Hdd. unfold okdata, isfile in Hdd.
      pose proof (n_sock _ _ Hn _ _ Hx).
      destruct (i_kind x) eqn:Hk; cbn.
      + destruct Hdd as [Hf (b & Hb & Hlen)]. destruct (Z.ltb_spec 0 (i_ref x)); [|lia].
        destruct (_ =? 0); [|eauto]. rewrite Hf. destruct (i_link x =? 0); [|eauto].
        unfold remove_host. cbn. rewrite Hb. cbn. eauto.
      + destruct Hdd as [Hf _]. rewrite Hf. destruct (_ && _); eauto.
      + destruct Hdd as [Hf _]. rewrite Hf. eauto.
      + contradiction.
    - destruct (p_fd _ _ _ Hp _ _ _ Hd) as [[p Hpp] _]. unfold get_pipe. rewrite Hpp. cbn. eauto. }
  unfold step, ret, close_syscall, close_inner. rewrite Hc, Hs. cbn [obind]. rewrite Hcl. cbn.
  eexists. split; [reflexivity|]. apply close_desc_kp in Hcl as [K _]. cbn. rewrite K. reflexivity.
Qed.

(** *** C35 *)
Lemma box_size (m : gmap (Z * Z) fdesc) (p : (Z * Z) * fdesc -> bool) :
  (forall c fd d, m !! (c, fd) = Some d -> 0 <= c < MAXCAGE /\ 0 <= fd < MAXFD) -> 0 <= cnt p m <= MAXCAGE * MAXFD.
Proof.
  intros H. split; [apply cnt_nonneg|]. unfold cnt.
  assert (size (filter (fun e => p e = true) m) <= length (list_prod (seqZ 0 MAXCAGE) (seqZ 0 MAXFD)))%nat as Hle.
  { unfold size, map_size. rewrite <- (fmap_length fst). apply submseteq_length, NoDup_submseteq; [apply NoDup_fst_map_to_list|].
    intros [c fd] Hin. apply elem_of_list_fmap in Hin as ([k d] & -> & Hin). cbn.
    apply elem_of_map_to_list, map_filter_lookup_Some in Hin as [Hin _]. destruct k as [c' fd']. cbn.
    apply H in Hin as [? ?]. apply elem_of_list_In, in_prod; apply elem_of_list_In, elem_of_seqZ; lia. }
  rewrite prod_length, !seqZ_length in Hle. apply inj_le in Hle. rewrite Nat2Z.inj_mul, !Z2Nat.id in Hle by (unfold MAXCAGE, MAXFD; lia).
  exact Hle.
Qed.

Lemma nrd_list m pid (l : list (Z * Z)) : NoDup l -> (forall k, k ∈ l <-> reads m pid k) -> nrd m pid = Z.of_nat (length l).
Proof.
  intros Hl He. apply cnt_list; [assumption|]. intros k. rewrite He. unfold reads, onread. split.
  - intros (fl & H & Hb). exists (FPipe pid fl). split; [assumption|]. cbn. rewrite Z.eqb_refl. exact Hb.
  - intros (d & Hd & Ho). destruct d; cbn in Ho; try discriminate. apply andb_true_iff in Ho as [Ho Hb]. assert (pid0 = pid) by lia. subst. eauto.
Qed.
Lemma nwr_list m pid (l : list (Z * Z)) : NoDup l -> (forall k, k ∈ l <-> writes m pid k) -> nwr m pid = Z.of_nat (length l).
Proof.
  intros Hl He. apply cnt_list; [assumption|]. intros k. rewrite He. unfold writes, onwrite. split.
  - intros (fl & H & Hb). exists (FPipe pid fl). split; [assumption|]. cbn. rewrite Z.eqb_refl. exact Hb.
  - intros (d & Hd & Ho). destruct d; cbn in Ho; try discriminate. apply andb_true_iff in Ho as [Ho Hb]. assert (pid0 = pid) by lia. subst. eauto.
Qed.

Lemma pipe_counts w pid p lr lw : reach true w -> w_pipes w !! pid = Some p ->
  NoDup lr -> (forall k, k ∈ lr <-> reads (w_fds w) pid k) -> NoDup lw -> (forall k, k ∈ lw <-> writes (w_fds w) pid k) ->
  p_r p = Z.of_nat (length lr) /\ p_w p = Z.of_nat (length lw).
Proof.
  intros Hr Hp Hl1 H1 Hl2 H2. apply reach_winv in Hr. rewrite <- (nrd_list _ _ _ Hl1 H1), <- (nwr_list _ _ _ Hl2 H2).
  destruct (p_cnt _ _ _ (v_p _ (u_inv _ Hr)) _ _ Hp) as (-> & -> & _). cbn.
  assert (Hbox : forall c fd d, w_fds w !! (c, fd) = Some d -> 0 <= c < MAXCAGE /\ 0 <= fd < MAXFD).
  { intros c fd d Hd. apply (u_key _ Hr) in Hd as [? [cwd Hc]]. split; [|assumption]. eapply u_cage; eauto. }
  pose proof (box_size (w_fds w) (onread pid) Hbox). pose proof (box_size (w_fds w) (onwrite pid) Hbox).
  unfold nrd, nwr, to_u32, wrap_u, MAXCAGE, MAXFD in *. rewrite !Z.mod_small by lia. auto.
Qed.

Lemma pipe_fd_alive w k pid fl : reach true w -> w_fds w !! k = Some (FPipe pid fl) -> is_Some (w_pipes w !! pid).
Proof. intros Hr Hk. apply reach_winv in Hr. apply (p_fd _ _ _ (v_p _ (u_inv _ Hr)) _ _ _ Hk). Qed.

Lemma pipe_bounded w pid p : reach true w -> w_pipes w !! pid = Some p -> Z.of_nat (length (p_buf p)) <= PIPE_CAPACITY.
Proof. intros Hr Hp. apply reach_winv in Hr. apply (p_cnt _ _ _ (v_p _ (u_inv _ Hr)) _ _ Hp). Qed.

(** *** Helpers for concrete histories *)
Lemma run_any h wx : run fresh_world h = Some wx -> reach_any wx.1.
Proof. destruct wx. intros H. eapply reach_any_run; [constructor|exact H]. Qed.

Lemma run_plain disp h wx : forallb (fun e => plain e.2) h = true -> run fresh_world h = Some wx -> reach disp wx.1.
Proof. destruct wx. intros Hp H. eapply reach_run; [constructor|exact Hp|exact H]. Qed.

Definition entryb (t : gmap Z inode) (d : Z) (f : string) (i : Z) : bool :=
  negb (dotb f) && match t !! d with
  | Some x => match i_dict x !! f with Some j => j =? i | None => false end
  | None => false end.
Lemma entryb_entry t d f i : entryb t d f i = true -> entry t d f i.
Proof.
  intros H. apply names_entry. unfold entryb in H. apply andb_true_iff in H as [Hd H]. rewrite names_lookup.
  destruct (dotb f); [discriminate|]. destruct (t !! d) as [x|]; [|discriminate].
  destruct (i_dict x !! f) as [j|]; [|discriminate]. assert (j = i) by lia. congruence.
Qed.

Lemma stat_lookup w c cwd p : reach true w -> w_cwd w !! c = Some cwd ->
  (exists i x q, denotes cwd p q /\ resolves (w_ino w) q i /\ w_ino w !! i = Some x /\ step w c (Stat p) = Done (w, stat_of i x)) \/
  ((forall q i, denotes cwd p q -> ~ resolves (w_ino w) q i) /\ step w c (Stat p) = Done (w, Ret (err ENOENT))).
Proof.
  intros Hr Hc. destruct (stat_total w c cwd p (reach_winv _ _ Hr) Hc) as [(i & x & Hx & Hres & Hs)|[Hn Hs]].
  - left. exists i, x, (normpath cwd p). split; [apply denotes_normpath; reflexivity|auto].
  - right. split; [|assumption]. intros q i Hq. apply denotes_normpath in Hq. subst q. apply Hn.
Qed.

Lemma path_calls_total w c cwd p o : reach true w -> w_cwd w !! c = Some cwd ->
  (exists m, o = Access p m) \/ o = Stat p \/ o = Chdir p \/ (exists m, o = Chmod p m) ->
  exists w' r, step w c o = Done (w', r).
Proof. intros Hr Hc. apply (lookup_calls_total w c cwd p (reach_winv _ _ Hr) Hc). Qed.

Lemma stat_link_count w c p w' i mode nlink sz rdev l x :
  reach false w -> step w c (Stat p) = Done (w', RetStat i mode nlink sz rdev) ->
  w_ino w !! i = Some x -> i_kind x <> KDir ->
  NoDup l -> (forall d f, (d, f) ∈ l <-> entry (w_ino w) d f i) -> nlink = Z.of_nat (length l).
Proof.
  intros Hr Hs Hx Hk Hl He. unfold step in Hs. destruct (w_cwd w !! c) as [cwd|]; [|discriminate].
  unfold same, stat_syscall in Hs. destruct (metawalk _ _) as [[j|]|]; cbn in Hs; try discriminate.
  unfold get_ino in Hs. destruct (w_ino w !! j) as [y|] eqn:Ey; cbn in Hs; [|discriminate].
  injection Hs as <- -> _ <- _ _. assert (y = x) by congruence. subst y. eapply link_count; eauto.
Qed.

Lemma nnames_none t i : nnames t i = 0 -> forall d f, ~ entry t d f i.
Proof. intros H d f He. apply names_entry in He. rewrite nnames_zero in H. exact (H _ He). Qed.

Lemma rmdir_iff w c cwd p dir f i x d y : reach false w -> w_cwd w !! c = Some cwd -> p <> "" ->
  denotes cwd p (dir ++ [f]) -> resolves (w_ino w) dir d -> resolves (w_ino w) (dir ++ [f]) i ->
  w_ino w !! d = Some y -> w_ino w !! i = Some x -> i_kind x = KDir ->
  writable y -> writable x -> dir_mode x ->
  (empty_dir x -> exists w', step w c (Rmdir p) = Done (w', Ret 0)) /\
  (~ empty_dir x -> step w c (Rmdir p) = Done (w, Ret (err ENOTEMPTY))).
Proof.
  intros Hr Hc Hp Hden Hd Hi Hy Hx Hk Hwy Hwx Hm. eapply rmdir_exact; eauto.
  - unfold no_write_bits. apply Z.eqb_neq. exact Hwy.
  - unfold no_write_bits. apply Z.eqb_neq. exact Hwx.
  - unfold is_dir. apply Z.eqb_eq. exact Hm.
Qed.

(** what [rmdir] removes *)
Lemma rmdir_never_nonempty w c p w' cwd q i : reach true w -> w_cwd w !! c = Some cwd ->
  step w c (Rmdir p) = Done (w', Ret 0) -> denotes cwd p q -> resolves (w_ino w) q i ->
  exists x, w_ino w !! i = Some x /\ i_kind x = KDir /\ empty_dir x.
Proof.
  intros Hr Hc H Hden Hres. apply denotes_normpath in Hden. subst q. pose proof (reach_winv _ _ Hr) as Hw.
  destruct (resolves_exists w _ i Hw (normpath_canonical cwd p (u_cwd _ Hw _ _ Hc)) Hres) as [x Hx].
  exists x. split; [assumption|]. eapply rmdir_success_empty; eauto.
Qed.

Lemma close_succeeds w c fd d : reach true w -> w_fds w !! (c, fd) = Some d ->
  exists w', step w c (Close fd) = Done (w', Ret 0).
Proof.
  intros Hr Hd. apply reach_winv in Hr. destruct (u_key _ Hr _ _ _ Hd) as [_ Hc].
  destruct (close_total w c fd d Hr Hc Hd) as (w' & H & _). eauto.
Qed.

Lemma writes_list m pid : exists l : list (Z * Z), NoDup l /\ forall k, k ∈ l <-> writes m pid k.
Proof.
  exists (filter (fun k => onwrite pid (k, default (FStream 0 0) (m !! k)) = true) (elements (dom m))). split.
  - apply NoDup_filter, NoDup_elements.
  - intros k. rewrite elem_of_list_filter, elem_of_elements, elem_of_dom. unfold writes, onwrite. split.
    + intros [H [d Hd]]. rewrite Hd in H. cbn in H. destruct d; cbn in H; try discriminate.
      apply andb_true_iff in H as [H1 H2]. assert (pid0 = pid) by lia. subst. eauto.
    + intros (fl & H & Hb). rewrite H. cbn. rewrite Z.eqb_refl. split; [exact Hb|eauto].
Qed.

Lemma rmdir_enotempty w c p :
  match step w c (Rmdir p) with Done (_, Ret r) => r =? err ENOTEMPTY | _ => false end = true ->
  step w c (Rmdir p) = Done (w, Ret (err ENOTEMPTY)).
Proof.
  destruct (step w c (Rmdir p)) as [[w' r]|] eqn:E; [|discriminate]. destruct r; try discriminate. intros Hz.
  apply Z.eqb_eq in Hz. subst r. enough (w' = w) by congruence.
  unfold step, ret in E. destruct (w_cwd w !! c) as [cwd|]; [|discriminate].
  destruct (rmdir_syscall w cwd p) as [[w1 r]|] eqn:Er; cbn [obind fst snd] in E; [|discriminate]. injection E as <- ->.
  unfold rmdir_syscall in Er. destruct (String.eqb p ""); [congruence|].
  destruct (metawalkandparent _ _) as [[[j|] [par|]]|]; cbn [obind] in Er; try congruence.
  destruct (get_ino w par) as [q|]; cbn [obind] in Er; [|discriminate]. destruct (no_write_bits (i_mode q)); [congruence|].
  destruct (get_ino w j) as [x|]; cbn [obind] in Er; [|discriminate]. destruct (i_kind x); try congruence.
  destruct (3 <? i_link x); [congruence|]. destruct (negb (is_dir (i_mode x))); [congruence|].
  destruct (no_write_bits (i_mode x)); [congruence|].
  destruct (remove_from_parent _ _ _) as [[w2 res]|] eqn:Erm; cbn [obind] in Er; [|discriminate].
  destruct (negb (res =? 0)); [|discriminate]. injection Er as -> ->.
  unfold remove_from_parent in Erm. destruct (get_ino _ par) as [y|]; cbn [obind] in Erm; [|discriminate].
  destruct (i_kind y); try discriminate. destruct (no_write_bits _); [discriminate|].
  destruct (file_name _); [|discriminate]. destruct (i_dict y !! _); [|discriminate].
  destruct (dec _); cbn in Erm; discriminate.
Qed.

Definition dir_check (w : world) (p : list string) (i : Z) : bool :=
  match metawalk (w_ino w) p with Done (Some j) => j =? i | _ => false end &&
  match w_ino w !! i with
  | Some x => bool_decide (i_kind x = KDir) && (nkids (w_ino w) i =? 0) && negb (Z.land (i_mode x) 146 =? 0)
  | None => false end.
Lemma dir_check_sound w p i : dir_check w p i = true ->
  exists x, resolves (w_ino w) p i /\ w_ino w !! i = Some x /\ i_kind x = KDir /\ empty_dir x /\ writable x.
Proof.
  unfold dir_check. intros H. apply andb_true_iff in H as [H1 H2].
  destruct (metawalk (w_ino w) p) as [[j|]|] eqn:E; try discriminate. apply Z.eqb_eq in H1. subst j.
  destruct (w_ino w !! i) as [x|] eqn:Ex; [|discriminate]. apply andb_true_iff in H2 as [H2 H3]. apply andb_true_iff in H2 as [H2 H4].
  apply bool_decide_eq_true in H2. exists x. split; [apply metawalk_resolves; assumption|]. split; [reflexivity|]. split; [assumption|]. split.
  - apply Z.eqb_eq in H4. exact (proj1 (nkids_zero_dict _ _ _ Ex) H4).
  - unfold writable. destruct (Z.eqb_spec (Z.land (i_mode x) 146) 0); [discriminate|assumption].
Qed.
