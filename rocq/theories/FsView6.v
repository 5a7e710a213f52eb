(** Every reachable state whose descriptors are files or standard streams has
    a view. *)
From Verif Require Import Base CodecModel PathModel PathSpec PathProofs FsModel FsBoot FsSpec FsWalk Count FsNames FsTr FsInv FsInv2
  FsSteps FsSteps2 FsFrame FsReachSpec FsWinv FsTmp FsRestart FsReach FsTree FsNameSpec FsPath FdSpec FsDesc FsOps FsNameProofs FsIoSpec FsIo FsFail FsViewSpec FsView1.
Local Open Scope list_scope.
Local Open Scope Z_scope.
Opaque all_fds next_fd.

(** *** Only files have a size *)
Definition sized (t : gmap Z inode) : Prop := forall i x, t !! i = Some x -> i_kind x <> KFile -> i_size x = 0.

Lemma sized_insert t d x : sized t -> (i_kind x <> KFile -> i_size x = 0) -> sized (<[d := x]> t).
Proof.
  intros H Hx e y. destruct (decide (d = e)) as [<-|]; [rewrite lookup_insert; intros [= <-]; exact Hx|].
  rewrite lookup_insert_ne by assumption. apply H.
Qed.
Lemma sized_delete t d : sized t -> sized (delete d t).
Proof. intros H e y Hy. apply lookup_delete_Some in Hy as [_ Hy]. exact (H _ _ Hy). Qed.

Lemma tr_sized disp k k' : tr disp k k' -> sized (k_ino k) -> sized (k_ino k').
Proof.
  intros Ht Hg. destruct Ht; cbn [k_ino] in *; try exact Hg.
  - apply sized_insert; [apply sized_insert; [exact Hg|exact (Hg _ _ H)]|]. intros _. apply H4.
  - apply sized_insert; [apply sized_insert; [exact Hg|exact (Hg _ _ H)]|]. intros _. assumption.
  - apply sized_insert; [exact Hg|]. exact (Hg _ _ H).
  - apply sized_insert; [exact Hg|]. reflexivity.
  - apply sized_insert; [apply sized_insert; [exact Hg|exact (Hg _ _ H)]|exact (Hg _ _ H1)].
  - unfold un_ino. assert (K : sized (<[par := par_rem f p]> (<[i := set_link (i_link x - 1) x]> t))).
    { apply sized_insert; [apply sized_insert; [exact Hg|exact (Hg _ _ H)]|exact (Hg _ _ H1)]. }
    destruct (un_gone x); [apply sized_delete|]; exact K.
  - assert (K : sized (<[par := par_rem f p]> t)) by (apply sized_insert; [exact Hg|exact (Hg _ _ H1)]).
    destruct (i_ref x =? 0); [apply sized_delete|]; exact K.
  - apply sized_insert; [exact Hg|]. exact (Hg _ _ H).
  - apply sized_insert; [exact Hg|]. exact (Hg _ _ H).
  - apply sized_insert; [exact Hg|]. cbn. congruence.
  - unfold rel_ino. destruct (gone x); [apply sized_delete; exact Hg|]. apply sized_insert; [exact Hg|]. exact (Hg _ _ H).
  - apply sized_insert; [exact Hg|]. exact (Hg _ _ H).
  - apply sized_insert; [exact Hg|]. exact (Hg _ _ H).
Qed.

Lemma step_sized disp w c o w' r : winv w -> step w c o = Done (w', r) -> tame disp w c o r -> sized (w_ino w) -> sized (w_ino w').
Proof.
  intros Hw H Ht. pose proof (step_trs _ _ _ _ _ _ Hw H Ht) as Htr.
  change (sized (k_ino (core_of w)) -> sized (k_ino (core_of w'))).
  induction Htr as [|a b d Hab _ IH]; [auto|]. intros Hg. apply IH. exact (tr_sized _ _ _ Hab Hg).
Qed.

Lemma later_sized disp w w' : later disp w w' -> winv w -> sized (w_ino w) -> sized (w_ino w').
Proof.
  induction 1 as [|w c o w1 r w2 Hs Ht _ IH]; [auto|]. intros Hw I2. apply (IH (step_winv _ _ _ _ _ _ Hw Hs Ht)).
  exact (step_sized _ _ _ _ _ _ Hw Hs Ht I2).
Qed.

Lemma reach_sized disp w : reach disp w -> sized (w_ino w).
Proof.
  induction 1 as [|w c o w' r Hr IH Hs Ht|w w' Hr IH Hst Hre].
  - assert (H : bool_decide (map_Forall (fun (_ : Z) x => (i_size x =? 0) = true) (w_ino fresh_world)) = true) by (vm_compute; reflexivity).
    intros i x Hx _. apply Z.eqb_eq. exact (map_Forall_get _ _ H _ _ Hx).
  - eapply step_sized; eauto. apply (reach_winv _ _ Hr).
  - pose proof (reach_ok _ _ Hr) as Hok. destruct (restart_shape disp w w' Hok Hst Hre) as (w3 & w4 & R).
    pose proof (later_ok _ _ _ (rs_later _ _ _ _ _ R) Hok) as Hok3.
    apply (later_sized disp w4 w' (rs_later2 _ _ _ _ _ R)); [exact (starts_winv _ _ (proj1 Hok3) (rs_fds _ _ _ _ _ R) (rs_starts _ _ _ _ _ R))|].
    intros i y Hy. destruct (starts_get _ _ _ _ (rs_starts _ _ _ _ _ R) Hy) as (x & r & Hx & -> & _).
    exact (later_sized disp w w3 (rs_later _ _ _ _ _ R) (proj1 Hok) IH _ _ Hx).
Qed.

(** *** All paths, layer by layer *)
Definition below (t : gmap Z inode) (pi : list string * Z) : list (list string * Z) :=
  match t !! pi.2 with
  | Some x => match i_kind x with
              | KDir => map (fun fj => (pi.1 ++ [fj.1], fj.2)) (List.filter (fun fj => negb (dotb fj.1)) (map_to_list (i_dict x)))
              | _ => []
              end
  | None => []
  end.
Fixpoint layer (t : gmap Z inode) (n : nat) : list (list string * Z) :=
  match n with O => [([], ROOTINO)] | S m => flat_map (below t) (layer t m) end.

Lemma below_spec t p d q i : goodt t -> In (q, i) (below t (p, d)) <-> exists f x, q = p ++ [f] /\ good_name f /\ t !! d = Some x /\ i_kind x = KDir /\ i_dict x !! f = Some i.
Proof.
  intros Hg. unfold below. cbn [fst snd]. split.
  - destruct (t !! d) as [x|] eqn:Hx; [|intros []]. destruct (i_kind x) eqn:Hk; try (intros []; fail). intros H. apply in_map_iff in H as ([f j] & E & H). injection E as <- <-.
    apply filter_In in H as [H Hd]. cbn in Hd. apply negb_true_iff in Hd. apply elem_of_list_In, elem_of_map_to_list in H. exists f, x. split; [reflexivity|]. split; [exact (Hg _ _ Hx _ _ H Hd)|auto].
  - intros (f & x & -> & Hf & -> & -> & Hi). apply in_map_iff. exists (f, i). split; [reflexivity|]. apply filter_In. split; [apply elem_of_list_In, elem_of_map_to_list; exact Hi|].
    cbn. apply negb_true_iff, dotb_false. unfold good_name in Hf. tauto.
Qed.

Lemma layer_spec t n : goodt t -> forall q i, In (q, i) (layer t n) <-> length q = n /\ canonical q /\ resolves t q i.
Proof.
  intros Hg. induction n as [|n IH]; intros q i; cbn [layer].
  - split.
    + intros [[= <- <-]|[]]. split; [reflexivity|]. split; [constructor|constructor].
    + intros (Hl & _ & Hr). destruct q; [|discriminate Hl]. apply resolves_nil in Hr as ->. left. reflexivity.
  - rewrite in_flat_map. split.
    + intros ([p d] & Hp & H). apply IH in Hp as (Hl & Hc & Hr). apply (below_spec _ _ _ _ _ Hg) in H as (f & x & -> & Hf & Hx & Hk & Hi).
      split; [rewrite app_length; cbn; lia|]. split; [apply Forall_app; split; [exact Hc|constructor; [exact Hf|constructor]]|]. exact (res_step _ _ _ _ _ _ Hr Hx Hk Hi).
    + intros (Hl & Hc & Hr). destruct q as [|f p _] using rev_ind; [discriminate Hl|]. rewrite app_length in Hl. cbn in Hl.
      apply Forall_app in Hc as [Hc Hf]. apply Forall_inv in Hf. apply resolves_snoc in Hr as (d & x & Hr & Hx & Hk & Hi).
      exists (p, d). split; [apply IH; split; [lia|auto]|]. apply (below_spec _ _ _ _ _ Hg). exists f, x. auto.
Qed.

(** A path is not longer than the number of its object *)
Lemma dir_deep t n p : inv_n t n -> canonical p -> forall i x, resolves t p i -> t !! i = Some x -> i_kind x = KDir -> Z.of_nat (length p) < i.
Proof.
  intros Hn. induction p as [|f p IH] using rev_ind; intros Hc i x Hr Hx Hk.
  - apply resolves_nil in Hr as ->. cbn. unfold ROOTINO. lia.
  - apply canonical_snoc in Hc as [Hc Hf]. apply resolves_snoc in Hr as (d & y & Hr & Hy & Hky & Hi). specialize (IH Hc _ _ Hr Hy Hky).
    assert (Hnm : names t !! (d, f) = Some i) by (rewrite names_lookup, Hf, Hy; exact Hi).
    destruct (n_up _ _ Hn _ _ _ _ Hx Hk Hnm) as [_ Hlt]. rewrite app_length. cbn [length]. lia.
Qed.
Lemma path_deep t n p i : inv_n t n -> canonical p -> resolves t p i -> Z.of_nat (length p) < n.
Proof.
  intros Hn Hc Hr. destruct p as [|f p _] using rev_ind.
  - destruct (n_root _ _ Hn) as (x & Hx & _). apply (n_range _ _ Hn) in Hx. cbn. lia.
  - apply canonical_snoc in Hc as [Hc _]. apply resolves_snoc in Hr as (d & y & Hr & Hy & Hky & Hi).
    pose proof (dir_deep _ _ _ Hn Hc _ _ Hr Hy Hky). apply (n_range _ _ Hn) in Hy. rewrite app_length. cbn [length]. lia.
Qed.

Definition all_paths (t : gmap Z inode) (n : Z) : gmap (list string) Z := list_to_map (flat_map (layer t) (seq 0 (Z.to_nat n))).

Lemma all_paths_spec t n q i : inv_n t n -> goodt t -> all_paths t n !! q = Some i <-> canonical q /\ resolves t q i.
Proof.
  intros Hn Hg. unfold all_paths.
  assert (K : forall j, (q, j) ∈ flat_map (layer t) (seq 0 (Z.to_nat n)) <-> canonical q /\ resolves t q j).
  { intros j. rewrite elem_of_list_In, in_flat_map. split.
    - intros (m & _ & H). apply (layer_spec _ _ Hg) in H. tauto.
    - intros (Hc & Hr). exists (length q). split; [|apply (layer_spec _ _ Hg); auto]. apply in_seq. pose proof (path_deep _ _ _ _ Hn Hc Hr). lia. }
  split.
  - intros H. apply elem_of_list_to_map_2 in H. apply K. exact H.
  - intros H. apply elem_of_list_to_map_1'; [|apply K; exact H]. intros j Hj. apply K in Hj as [_ Hj]. exact (resolves_det _ _ _ _ (proj2 H) Hj).
Qed.

(** *** Descriptors *)
Definition read_des (d : fdesc) : ades :=
  match d with FFile i p fl => DFile i p fl | FStream s fl => DStream s fl | FPipe k fl => DPipe k fl | FEpoll fl => DEpoll fl end.
Lemma seen_read d : seen_des (read_des d) = d.
Proof. destruct d; reflexivity. Qed.
Lemma read_seen d : read_des (seen_des d) = d.
Proof. destruct d; reflexivity. Qed.

Definition tab_of (w : world) (c : Z) : gmap Z ades :=
  list_to_map (flat_map (fun kd : Z * Z * fdesc => if kd.1.1 =? c then [(kd.1.2, read_des kd.2)] else []) (map_to_list (w_fds w))).

Lemma tab_of_spec w c fd : w_fds w !! (c, fd) = seen_des <$> tab_of w c !! fd.
Proof.
  assert (K : forall d, (fd, d) ∈ flat_map (fun kd : Z * Z * fdesc => if kd.1.1 =? c then [(kd.1.2, read_des kd.2)] else []) (map_to_list (w_fds w))
     <-> w_fds w !! (c, fd) = Some (seen_des d)).
  { intros d. rewrite elem_of_list_In, in_flat_map. split.
    - intros ([[c' fd'] e] & He & H). cbn [fst snd] in H. destruct (Z.eqb_spec c' c) as [->|]; [|destruct H]. apply elem_of_list_In, elem_of_map_to_list in He.
      destruct H as [[= -> <-]|[]]. rewrite seen_read. exact He.
    - intros H. exists ((c, fd), seen_des d). split; [apply elem_of_list_In, elem_of_map_to_list; exact H|]. cbn [fst snd]. rewrite Z.eqb_refl, read_seen. left. reflexivity. }
  unfold tab_of. match goal with |- _ = _ <$> list_to_map ?l !! _ => destruct (list_to_map (M := gmap Z ades) l !! fd) as [d|] eqn:E end.
  - apply elem_of_list_to_map_2 in E. apply K in E. exact E.
  - cbn. destruct (w_fds w !! (c, fd)) as [e|] eqn:He; [|reflexivity]. exfalso. apply not_elem_of_list_to_map in E. apply E. apply elem_of_list_fmap.
    exists (fd, read_des e). split; [reflexivity|]. apply K. rewrite seen_read. reflexivity.
Qed.

Definition view_of (w : world) : view :=
  View (all_paths (w_ino w) (w_next w)) (map_imap (fun i x => Some (seen_obj x (bytes w i))) (w_ino w)) (w_next w)
    (map_imap (fun c cwd => Some (AProc cwd (tab_of w c))) (w_cwd w)) (p_buf <$> w_pipes w).

Lemma view_of_shows w : reach false w -> shows w (view_of w).
Proof.
  intros Hr. destruct (reach_ok _ _ Hr) as [Hw Hg]. constructor; cbn [view_of vw_at vw_obj vw_next vw_proc vw_pipe].
  - intros p i. apply all_paths_spec; [apply (v_n _ (u_inv _ Hw))|exact Hg].
  - intros i x Hx. rewrite map_lookup_imap, Hx. reflexivity.
  - exact (reach_sized _ _ Hr).
  - reflexivity.
  - intros c. rewrite map_lookup_imap. destruct (w_cwd w !! c); reflexivity.
  - intros c fd. rewrite map_lookup_imap. destruct (w_cwd w !! c) as [cwd|] eqn:Hc; cbn [mbind option_bind q_tab].
    + apply tab_of_spec.
    + rewrite (no_fds _ _ Hw Hc). reflexivity.
  - intros k. apply lookup_fmap.
Qed.

(** *** The first start *)
Global Instance akind_eq_dec : EqDecision akind. Proof. solve_decision. Defined.
Global Instance aobj_eq_dec : EqDecision aobj. Proof. solve_decision. Defined.
Global Instance ades_eq_dec : EqDecision ades. Proof. solve_decision. Defined.
Global Instance aproc_eq_dec : EqDecision aproc. Proof. solve_decision. Defined.

Lemma boot_view_eq : view_of fresh_world = boot_view.
Proof.
  assert (H1 : bool_decide (vw_at (view_of fresh_world) = vw_at boot_view) = true) by (vm_compute; reflexivity).
  assert (H2 : bool_decide (vw_obj (view_of fresh_world) = vw_obj boot_view) = true) by (vm_compute; reflexivity).
  assert (H3 : bool_decide (vw_next (view_of fresh_world) = vw_next boot_view) = true) by (vm_compute; reflexivity).
  assert (H4 : bool_decide (vw_proc (view_of fresh_world) = vw_proc boot_view) = true) by (vm_compute; reflexivity).
  assert (H5 : bool_decide (vw_pipe (view_of fresh_world) = vw_pipe boot_view) = true) by (vm_compute; reflexivity).
  apply bool_decide_eq_true in H1, H2, H3, H4, H5. destruct (view_of fresh_world) as [a1 a2 a3 a4 a5], boot_view as [b1 b2 b3 b4 b5].
  simpl in H1, H2, H3, H4, H5. congruence.
Qed.

Lemma boot_shows : shows fresh_world boot_view.
Proof. rewrite <- boot_view_eq. apply view_of_shows, reach_boot. Qed.
