(** Three facts of every state that can be reached, used by the view: the
    first two entries of a directory are the directory itself and its parent,
    and pipes are numbered in the order in which they were made. *)
From Verif Require Import Base CodecModel PathModel PathSpec PathProofs FsModel FsBoot FsSpec FsWalk Count FsNames FsTr FsInv FsInv2
  FsSteps FsSteps2 FsFrame FsReachSpec FsWinv FsNameSpec FsPath FsOps FsTmp FsRestart FsReach FsTree.
Local Open Scope list_scope.
Local Open Scope Z_scope.

(** ** The entries "." and ".."

    Inode 7 is the directory that formatting leaves without a name
    (filesystem.rs 218-230); its "." is 2. *)
Definition dots (t : gmap Z inode) : Prop :=
  forall i x, t !! i = Some x -> i_kind x = KDir -> i <> 7 ->
    i_dict x !! "." = Some i /\ (i = ROOTINO -> i_dict x !! ".." = Some ROOTINO).

Lemma dots_insert t i x : dots t ->
  (i_kind x = KDir -> i <> 7 -> i_dict x !! "." = Some i /\ (i = ROOTINO -> i_dict x !! ".." = Some ROOTINO)) -> dots (<[i := x]> t).
Proof.
  intros H Hx j y. rewrite lookup_insert_Some. intros [[<- <-]|[_ Hj]]; [exact Hx|exact (H _ _ Hj)].
Qed.
Lemma dots_delete t i : dots t -> dots (delete i t).
Proof. intros H j y Hj. apply lookup_delete_Some in Hj as [_ Hj]. exact (H _ _ Hj). Qed.

Lemma dotb_ne f : dotb f = false -> f <> "." /\ f <> "..".
Proof. intros H. split; intros ->; discriminate H. Qed.

Lemma dots_add t par p f n : dots t -> t !! par = Some p -> dotb f = false -> dots (<[par := par_add f n p]> t).
Proof.
  intros H Hp Hf. apply dots_insert; [exact H|]. intros Hk H7. destruct (H _ _ Hp Hk H7) as [A B]. destruct (dotb_ne _ Hf) as [N1 N2].
  unfold par_add. cbn. rewrite !lookup_insert_ne by assumption. auto.
Qed.
Lemma dots_rem t par p f : dots t -> t !! par = Some p -> dotb f = false -> dots (<[par := par_rem f p]> t).
Proof.
  intros H Hp Hf. apply dots_insert; [exact H|]. intros Hk H7. destruct (H _ _ Hp Hk H7) as [A B]. destruct (dotb_ne _ Hf) as [N1 N2].
  unfold par_rem. cbn. rewrite !lookup_delete_ne by assumption. auto.
Qed.

Lemma tr_dots disp k k' : tr disp k k' -> inv k -> dots (k_ino k) -> dots (k_ino k').
Proof.
  intros Ht Hi Hg. pose proof (v_n _ Hi) as Hn. destruct Ht; cbn [k_ino k_next] in *; try exact Hg.
  - apply dots_insert; [exact (dots_add _ _ _ _ _ Hg H H2)|]. intros Hk _.
    destruct H4 as (_ & _ & [(_ & _ & Hd)|((a & b & Hx) & _)]); [|congruence]. rewrite Hd, new_dict_dot. split; [reflexivity|].
    destruct (n_root _ _ Hn) as (q & Hq & _). pose proof (n_range _ _ Hn _ _ Hq). lia.
  - apply dots_insert; [exact (dots_add _ _ _ _ _ Hg H H2)|]. intros Hk. congruence.
  - apply dots_insert; [exact Hg|]. exact (Hg _ _ H).
  - apply dots_insert; [exact Hg|]. exact (Hg _ _ H).
  - assert (i <> par) by congruence. apply dots_add; [| |assumption].
    + apply dots_insert; [exact Hg|]. exact (Hg _ _ H).
    + rewrite lookup_insert_ne by assumption. assumption.
  - assert (i <> par) by congruence. unfold un_ino.
    assert (K : dots (<[par := par_rem f p]> (<[i := set_link (i_link x - 1) x]> t))).
    { apply dots_rem; [| |assumption].
      + apply dots_insert; [exact Hg|exact (Hg _ _ H)].
      + rewrite lookup_insert_ne by assumption. assumption. }
    destruct (un_gone x); [apply dots_delete|]; exact K.
  - assert (K : dots (<[par := par_rem f p]> t)) by (apply dots_rem; assumption).
    destruct (i_ref x =? 0); [apply dots_delete|]; exact K.
  - apply dots_insert; [exact Hg|]. intros Hk H7. destruct (Hg _ _ H Hk H7) as [A B].
    destruct (dotb_ne _ H2) as [N1 N2], (dotb_ne _ H3) as [N3 N4]. cbn.
    rewrite !lookup_delete_ne, !lookup_insert_ne by assumption. auto.
  - apply dots_insert; [exact Hg|]. exact (Hg _ _ H).
  - apply dots_insert; [exact Hg|]. exact (Hg _ _ H).
  - unfold rel_ino. destruct (gone x); [apply dots_delete; exact Hg|]. apply dots_insert; [exact Hg|]. exact (Hg _ _ H).
  - apply dots_insert; [exact Hg|]. exact (Hg _ _ H).
  - apply dots_insert; [exact Hg|]. exact (Hg _ _ H).
Qed.

(** ** The numbers of pipes *)
Definition counted (ps : gmap Z pipe) (np : Z) : Prop := np = Z.of_nat (size ps).

Lemma counted_over ps np k p q : counted ps np -> ps !! k = Some p -> counted (<[k := q]> ps) np.
Proof. intros H Hk. unfold counted. rewrite map_size_insert_Some; eauto. Qed.

Lemma tr_counted disp k k' : tr disp k k' -> inv k -> counted (k_pipes k) (k_npipe k) -> counted (k_pipes k') (k_npipe k').
Proof.
  intros Ht Hi Hg. pose proof (v_p _ Hi) as Hp. destruct Ht; cbn [k_pipes k_npipe k_fds] in *; try exact Hg.
  - eapply counted_over; eauto.
  - eapply counted_over; eauto.
  - assert (Hnone : ps !! np = None).
    { destruct (ps !! np) eqn:E; [|reflexivity]. apply (p_cnt _ _ _ Hp) in E. lia. }
    unfold counted in *. rewrite map_size_insert_None by exact Hnone. lia.
  - eapply counted_over; eauto.
Qed.

(** ** Reachable states *)
Definition tidy (w : world) : Prop := dots (w_ino w) /\ counted (w_pipes w) (w_npipe w).

Lemma step_tidy disp w c o w' r : winv w -> step w c o = Done (w', r) -> tame disp w c o r -> tidy w -> tidy w'.
Proof.
  intros Hw H Ht. pose proof (step_trs _ _ _ _ _ _ Hw H Ht) as Htr. pose proof (u_inv _ Hw) as Hi. revert Hi.
  change (inv (core_of w) -> (dots (k_ino (core_of w)) /\ counted (k_pipes (core_of w)) (k_npipe (core_of w))) ->
    (dots (k_ino (core_of w')) /\ counted (k_pipes (core_of w')) (k_npipe (core_of w')))).
  induction Htr as [|a b d Hab _ IH]; [auto|]. intros Hi [G1 G2]. apply IH; [exact (tr_inv _ _ _ Hab Hi)|].
  split; [exact (tr_dots _ _ _ Hab Hi G1)|exact (tr_counted _ _ _ Hab Hi G2)].
Qed.

Lemma later_tidy disp w w' : later disp w w' -> winv w -> tidy w -> tidy w'.
Proof.
  induction 1 as [|w c o w1 r w2 Hs Ht _ IH]; [auto|]. intros Hw I2. apply (IH (step_winv _ _ _ _ _ _ Hw Hs Ht)).
  exact (step_tidy _ _ _ _ _ _ Hw Hs Ht I2).
Qed.

Definition dotsb (ix : Z * inode) : bool :=
  match i_kind ix.2 with
  | KDir => (ix.1 =? 7) || bool_decide (i_dict ix.2 !! "." = Some ix.1) && (negb (ix.1 =? ROOTINO) || bool_decide (i_dict ix.2 !! ".." = Some ROOTINO))
  | _ => true
  end.

Lemma fresh_tidy : tidy fresh_world.
Proof.
  split.
  - assert (H : forallb dotsb (map_to_list (w_ino fresh_world)) = true) by (vm_compute; reflexivity).
    intros i x Hx Hk H7. apply elem_of_map_to_list, elem_of_list_In in Hx.
    pose proof (proj1 (forallb_forall _ _) H _ Hx) as E. unfold dotsb in E. cbn [fst snd] in E. rewrite Hk in E.
    rewrite (proj2 (Z.eqb_neq _ _) H7), orb_false_l in E. apply andb_true_iff in E as [E1 E2]. apply bool_decide_eq_true in E1. split; [exact E1|]. intros ->.
    apply orb_true_iff in E2 as [E2|E2]; [discriminate E2|]. apply bool_decide_eq_true in E2. exact E2.
  - unfold counted. vm_compute. reflexivity.
Qed.

Lemma reach_tidy disp w : reach disp w -> tidy w.
Proof.
  induction 1 as [|w c o w' r Hr IH Hs Ht|w w' Hr IH Hst Hre].
  - exact fresh_tidy.
  - eapply step_tidy; eauto. apply (reach_winv _ _ Hr).
  - pose proof (reach_ok _ _ Hr) as Hok. destruct (restart_shape disp w w' Hok Hst Hre) as (w3 & w4 & R).
    pose proof (later_ok _ _ _ (rs_later _ _ _ _ _ R) Hok) as Hok3.
    apply (later_tidy disp w4 w' (rs_later2 _ _ _ _ _ R)); [exact (starts_winv _ _ (proj1 Hok3) (rs_fds _ _ _ _ _ R) (rs_starts _ _ _ _ _ R))|].
    pose proof (rs_starts _ _ _ _ _ R) as Hs4. split.
    + intros i y Hy. destruct (starts_get _ _ _ _ Hs4 Hy) as (x & r & Hx & -> & _).
      exact (proj1 (later_tidy disp w w3 (rs_later _ _ _ _ _ R) (proj1 Hok) IH) _ _ Hx).
    + unfold counted. rewrite (ss_pipes _ _ Hs4), (ss_npipe _ _ Hs4), map_size_empty. reflexivity.
Qed.
