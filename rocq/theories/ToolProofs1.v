(** Programs on worlds and on views; facts about views that show a reachable world. *)
From Verif Require Import Base CodecModel PathModel PathSpec PathProofs FsModel FsBoot FsSpec FsWalk Count FsNames FsTr FsInv FsInv2
  FsSteps FsSteps2 FsFrame FsReachSpec FsWinv FsTmp FsReach FsTree FsNameSpec FsPath FdSpec FsDesc FsOps FsNameProofs FsIoSpec FsIo FsFail FsViewSpec FsAbortSpec
  FsView1 FsView2 FsView3 FsViewDir FsView4 FsView5 FsView7 FsView8 FsCopyModel FsCopyTree ToolModel ToolSpec.
Local Open Scope list_scope.
Local Open Scope Z_scope.
Opaque all_fds next_fd.

(** ** Programs *)
Lemma prog_sim c p : forall w a a' ss e, reach false w -> shows w a -> aprog a c p = Some (a', ss, e) ->
  exists w', wprog w c p = Done (w', ss, e) /\ shows w' a' /\ reach false w'.
Proof.
  induction p as [| | |o k IH|s p IH]; intros w a a' ss e Hr Hs H; cbn [aprog wprog] in *.
  - injection H as <- <- <-. eauto.
  - injection H as <- <- <-. eauto.
  - injection H as <- <- <-. eauto.
  - destruct (allowed a c o) eqn:Ha; [|discriminate H]. destruct (aborts a c o) eqn:Hb; [discriminate H|]. cbn [andb negb] in H.
    pose proof (call_fine w a c o Hr Hs Ha) as E. rewrite Hb in E. destruct (step w c o) as [[w1 r]|] eqn:Hst; [|discriminate E]. clear E. cbn [obind fst snd].
    destruct (step_view _ _ _ _ _ _ Hr Hs Ha Hst) as (a1 & Ea & Hs1). rewrite Ea in H.
    apply (IH r w1 a1 a' ss e); [econstructor; [exact Hr|exact Hst|exact (allowed_tame _ _ _ _ _ _ Hr Hs Ha Hst)]|exact Hs1|exact H].
  - destruct (aprog a c p) as [[[a1 s1] e1]|] eqn:E; [|discriminate H]. injection H as <- <- <-.
    destruct (IH _ _ _ _ _ Hr Hs E) as (w' & -> & Hs' & Hr'). cbn [obind fst snd]. eauto.
Qed.

Definition good (a : view) : Prop := exists w, reach false w /\ shows w a.

Lemma good_step a c o a' x : good a -> allowed a c o = true -> aborts a c o = false -> aexec a c o = (a', x) -> good a'.
Proof.
  intros (w & Hr & Hs) Ha Hb Hx. pose proof (call_fine w a c o Hr Hs Ha) as E. rewrite Hb in E.
  destruct (step w c o) as [[w1 r]|] eqn:Hst; [|discriminate E].
  destruct (step_view _ _ _ _ _ _ Hr Hs Ha Hst) as (a1 & Ea & Hs1). assert (a1 = a') by congruence. subst a1.
  exists w1. split; [|exact Hs1]. econstructor; [exact Hr|exact Hst|exact (allowed_tame _ _ _ _ _ _ Hr Hs Ha Hst)].
Qed.

(** ** Views *)
Lemma good_at a p i : good a -> vw_at a !! p = Some i -> canonical p /\ exists o, vw_obj a !! i = Some o.
Proof.
  intros (w & Hr & Hs) H. destruct (at_exists _ _ _ _ Hs (reach_winv _ _ Hr) H) as [x Hx]. split; [apply (sh_at _ _ Hs) in H; tauto|].
  exists (seen_obj x (bytes w i)). exact (sh_obj _ _ Hs _ _ Hx).
Qed.
Lemma adir_kind w a i : reach false w -> shows w a -> forall x, w_ino w !! i = Some x -> is_adir a i = true -> i_kind x = KDir.
Proof. intros Hr Hs x Hx H. rewrite (is_adir_eq _ _ _ _ Hs (reach_winv _ _ Hr) Hx) in H. apply isdirk_true. exact H. Qed.
Lemma good_up a p f j : good a -> vw_at a !! (p ++ [f]) = Some j -> exists i, vw_at a !! p = Some i /\ is_adir a i = true.
Proof.
  intros (w & Hr & Hs) H. apply (sh_at _ _ Hs) in H as [Hc H]. destruct (step_down w p f j Hc H) as (d & y & Hd & Hy & Hk & _).
  exists d. split; [apply (sh_at _ _ Hs); split; [exact (proj1 (canonical_snoc _ _ Hc))|exact Hd]|].
  rewrite (is_adir_eq _ _ _ _ Hs (reach_winv _ _ Hr) Hy). apply isdirk_true. exact Hk.
Qed.
Lemma good_dir a p q i : good a -> vw_at a !! p = Some i -> vw_at a !! q = Some i -> is_adir a i = true -> p = q.
Proof.
  intros (w & Hr & Hs) Hp Hq Hd. destruct (at_exists _ _ _ _ Hs (reach_winv _ _ Hr) Hp) as [x Hx].
  pose proof (adir_kind _ _ _ Hr Hs _ Hx Hd) as Hk. apply (path_of_iff w a Hr Hs i x _ Hx Hk) in Hp, Hq. congruence.
Qed.
Lemma good_path a p i : good a -> vw_at a !! p = Some i -> is_adir a i = true -> path_of a i = Some p.
Proof.
  intros (w & Hr & Hs) Hp Hd. destruct (at_exists _ _ _ _ Hs (reach_winv _ _ Hr) Hp) as [x Hx].
  apply (path_of_iff w a Hr Hs i x _ Hx (adir_kind _ _ _ Hr Hs _ Hx Hd)). exact Hp.
Qed.
Lemma good_down a p r j : good a -> vw_at a !! (p ++ r) = Some j -> exists i, vw_at a !! p = Some i /\ (r <> [] -> is_adir a i = true).
Proof.
  intros Hg. revert j. induction r as [|f r IH] using rev_ind; intros j H; [rewrite app_nil_r in H; eauto|].
  rewrite app_assoc in H. apply (good_up _ _ _ _ Hg) in H as (i & H & Hd). destruct (IH _ H) as (i' & Hi' & Hd'). exists i'. split; [exact Hi'|].
  intros _. destruct r as [|g r]; [|apply Hd'; discriminate]. rewrite app_nil_r in H. congruence.
Qed.
Lemma good_cwd a c pr : good a -> vw_proc a !! c = Some pr -> canonical (q_cwd pr).
Proof. intros (w & Hr & Hs) Hp. exact (proc_canonical _ _ _ _ (reach_winv _ _ Hr) Hs Hp). Qed.
Lemma good_tab a c pr fd d : good a -> vw_proc a !! c = Some pr -> q_tab pr !! fd = Some d -> 0 <= fd < 1024.
Proof. intros (w & Hr & Hs) Hp Hd. exact (tab_range _ _ _ _ _ _ Hs (reach_winv _ _ Hr) Hp Hd). Qed.

Lemma listing_look a p i f : listing a p i !! f =
  if String.eqb f "." then Some i else if String.eqb f ".." then Some (default 0 (vw_at a !! removelast p)) else vw_at a !! (p ++ [f]).
Proof.
  unfold listing. destruct (String.eqb_spec f ".") as [->|N1]; [apply lookup_insert|]. rewrite lookup_insert_ne by congruence.
  destruct (String.eqb_spec f "..") as [->|N2]; [apply lookup_insert|]. rewrite lookup_insert_ne by congruence.
  apply option_eq. intros j. split.
  - intros H. apply elem_of_list_to_map_2 in H. apply elem_of_list_In, below_in in H. exact H.
  - intros H. apply elem_of_list_to_map_1'; [|apply elem_of_list_In, below_in; exact H].
    intros k Hk'. apply elem_of_list_In, below_in in Hk'. congruence.
Qed.
Lemma listing_ext a a' p i : (forall f, vw_at a' !! (p ++ [f]) = vw_at a !! (p ++ [f])) -> vw_at a' !! removelast p = vw_at a !! removelast p ->
  listing a' p i = listing a p i.
Proof. intros H1 H2. apply map_eq. intros f. rewrite !listing_look, H1, H2. reflexivity. Qed.

Lemma lowest_none t : lowest t 0 = None -> 1024 <= Z.of_nat (size t).
Proof.
  unfold lowest. intros H. assert (K : forall fd, 0 <= fd < 1024 -> is_Some (t !! fd)).
  { intros fd Hfd. pose proof (List.find_none _ _ H fd) as F. cbv beta in F. destruct (t !! fd); [eauto|]. exfalso.
    assert (true = false); [|discriminate]. apply F. apply elem_of_list_In, elem_of_seqZ. lia. }
  assert (S : list_to_set (seqZ 0 1024) ⊆ dom t) by (intros fd Hfd; apply elem_of_list_to_set, elem_of_seqZ in Hfd; apply elem_of_dom, K; lia).
  apply subseteq_size in S. rewrite size_list_to_set in S by apply NoDup_seqZ. rewrite seqZ_length, size_dom in S. lia.
Qed.
Lemma lowest_some t fd : lowest t 0 = Some fd -> t !! fd = None /\ 0 <= fd < 1024.
Proof.
  unfold lowest. intros H. apply List.find_some in H as [H1 H2]. apply elem_of_list_In, elem_of_seqZ in H1. split; [|lia]. destruct (t !! fd); [discriminate H2|reflexivity].
Qed.

Lemma retab_eq c f a pr : vw_proc a !! c = Some pr -> retab c f a = with_proc (insert c (AProc (q_cwd pr) (f (q_tab pr)))) a.
Proof.
  intros Hp. unfold retab, with_proc. f_equal. apply map_eq. intros c'. destruct (decide (c = c')) as [<-|Hne].
  - rewrite lookup_alter, lookup_insert, Hp. reflexivity.
  - rewrite lookup_alter_ne, lookup_insert_ne by assumption. reflexivity.
Qed.

(** ** Removing *)
Lemma without_refl D a : without (fun _ => False) D a a.
Proof. constructor; auto. intros p i. tauto. Qed.
Lemma without_trans Q1 D1 Q2 D2 a b d : without Q1 D1 a b -> without Q2 D2 b d -> without (fun p => Q1 p \/ Q2 p) (fun p => D1 p \/ D2 p) a d.
Proof.
  intros [A1 K1 M1 T1 N1 P1 I1] [A2 K2 M2 T2 N2 P2 I2]. constructor; [| | | |congruence|congruence|congruence].
  - intros p i. rewrite A2, A1. tauto.
  - intros i. rewrite K2. apply K1.
  - intros i. destruct (M2 i) as [E2|(E2 & p & Hp & Hi)].
    + rewrite E2. destruct (M1 i) as [E1|(E1 & p & Hp & Hi)]; [left; exact E1|right; split; [exact E1|eauto]].
    + right. split; [unfold is_adir in *; rewrite <- K1; exact E2|]. exists p. split; [right; exact Hp|]. apply A1 in Hi. tauto.
  - intros i. rewrite T2. apply T1.
Qed.
Lemma without_weaken (Q D Q' D' : list string -> Prop) a a' : without Q D a a' -> (forall p, is_Some (vw_at a !! p) -> Q p <-> Q' p) -> (forall p, D p -> D' p) -> without Q' D' a a'.
Proof.
  intros [A1 K1 M1 T1 N1 P1 I1] HQ HD. constructor; auto.
  - intros p i. rewrite A1. split; intros [H1 H2]; (split; [exact H1|]); [rewrite <- HQ by eauto|rewrite HQ by eauto]; exact H2.
  - intros i. destruct (M1 i) as [E|(E & p & Hp & Hi)]; [left; exact E|right; eauto].
Qed.
Lemma without_dir Q D a a' i : without Q D a a' -> is_adir a' i = is_adir a i.
Proof. intros H. unfold is_adir. rewrite (wo_kind _ _ _ _ H). reflexivity. Qed.
Lemma without_none Q D a a' p : without Q D a a' -> vw_at a !! p = None -> vw_at a' !! p = None.
Proof. intros H E. destruct (vw_at a' !! p) as [i|] eqn:F; [|reflexivity]. apply (wo_at _ _ _ _ H) in F. destruct F. congruence. Qed.
Lemma without_same Q D a a' p : without Q D a a' -> ~ Q p -> vw_at a' !! p = vw_at a !! p.
Proof.
  intros H E. apply option_eq. intros i. rewrite (wo_at _ _ _ _ H). tauto.
Qed.
Lemma obj_mode_write a i o : vw_obj a !! i = Some o -> may_write a i = negb (Z.land (o_mode o) 146 =? 0).
Proof. intros H. unfold may_write. rewrite H. reflexivity. Qed.
Lemma may_write_mode a a' i : (o_mode <$> vw_obj a' !! i) = (o_mode <$> vw_obj a !! i) -> may_write a' i = may_write a i.
Proof. unfold may_write. destruct (vw_obj a' !! i), (vw_obj a !! i); cbn; intros E; try discriminate E; [injection E as ->|]; reflexivity. Qed.
Lemma truth_same a a' i : kind_of a' i = kind_of a i -> (says_dir ∘ o_mode <$> vw_obj a' !! i) = (says_dir ∘ o_mode <$> vw_obj a !! i) -> says_truth a i -> says_truth a' i.
Proof.
  intros K T. unfold says_truth, is_adir. rewrite K. destruct (vw_obj a' !! i), (vw_obj a !! i); cbn in T; try discriminate T; [injection T as ->|]; auto.
Qed.

(** link counts *)
Definition relinked (a a' : view) : Prop := forall i, (fun o => (o_kind o, o_mode o)) <$> vw_obj a' !! i = (fun o => (o_kind o, o_mode o)) <$> vw_obj a !! i.
Lemma relinked_without Q a a' D : relinked a a' -> (forall p i, vw_at a' !! p = Some i <-> vw_at a !! p = Some i /\ ~ Q p) ->
  vw_next a' = vw_next a -> vw_proc a' = vw_proc a -> vw_pipe a' = vw_pipe a -> without Q D a a'.
Proof.
  intros R A N P I. constructor; auto.
  - intros i. specialize (R i). unfold kind_of. destruct (vw_obj a' !! i), (vw_obj a !! i); cbn in *; congruence.
  - intros i. left. specialize (R i). destruct (vw_obj a' !! i), (vw_obj a !! i); cbn in *; congruence.
  - intros i. specialize (R i). destruct (vw_obj a' !! i), (vw_obj a !! i); cbn in *; congruence.
Qed.
Lemma relinked_alter a m k i : relinked a m -> relinked a (with_obj (alter (more_links k) i) m).
Proof.
  intros R j. unfold with_obj. cbn [vw_obj]. destruct (decide (i = j)) as [<-|Hne]; [rewrite lookup_alter|rewrite lookup_alter_ne by assumption; apply R].
  rewrite <- R. destruct (vw_obj m !! i); reflexivity.
Qed.
