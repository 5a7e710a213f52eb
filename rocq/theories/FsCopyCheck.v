(** Decision procedures for the examples about the copy tools. *)
From stdpp Require Import gmap.
From Verif Require Import Base PathModel PathSpec FsModel FsBoot FsSpec FsWalk FsReachSpec FsWinv FsReach FsTree FsNameSpec FsOps FdSpec FsDesc FsIoSpec FsIo
  FsCopyModel FsCopySpec FsCopyProofs.
Local Open Scope list_scope.
Local Open Scope Z_scope.

(** Where a path leads *)
Definition leads (w : world) (q : list string) : option (Z * inode) :=
  match metawalk (w_ino w) q with
  | Done (Some i) => match w_ino w !! i with Some x => Some (i, x) | None => None end
  | _ => None
  end.
Lemma leads_ok w q i x : winv w -> resolves (w_ino w) q i -> w_ino w !! i = Some x -> leads w q = Some (i, x).
Proof. intros Hw H Hx. unfold leads. rewrite (resolves_metawalk _ _ _ (root_some _ Hw) H), Hx. reflexivity. Qed.
Lemma leads_some w q i x : leads w q = Some (i, x) -> resolves (w_ino w) q i /\ w_ino w !! i = Some x.
Proof.
  unfold leads. destruct (metawalk (w_ino w) q) as [[j|]|] eqn:E; [|discriminate..]. destruct (w_ino w !! j) as [y|] eqn:Ey; [|discriminate].
  intros [= -> ->]. split; [apply metawalk_resolves; exact E|exact Ey].
Qed.

Definition way_freeb (w : world) (q : list string) : bool :=
  match leads w q with Some (_, x) => bool_decide (i_kind x = KFile) | None => true end &&
  forallb (fun n => match leads w (take n q) with
    | Some (_, x) => bool_decide (i_kind x = KDir) && (Z.land (i_mode x) S_FILETYPEFLAGS =? S_IFDIR) | None => true end) (seq 0 (length q)).
Lemma way_freeb_ok w q : winv w -> way_freeb w q = true -> way_free w q.
Proof.
  intros Hw H. apply andb_prop in H as [H1 H2]. split.
  - intros i x Hi Hx. rewrite (leads_ok _ _ _ _ Hw Hi Hx) in H1. apply bool_decide_eq_true in H1. exact H1.
  - intros p f r i x Eq Hi Hx. rewrite forallb_forall in H2. specialize (H2 (length p)).
    rewrite Eq, take_app, (leads_ok _ _ _ _ Hw Hi Hx) in H2.
    assert (K : In (length p) (seq 0 (length (p ++ f :: r)))) by (apply in_seq; rewrite app_length; cbn; lia). specialize (H2 K).
    apply andb_prop in H2 as [H2 H3]. apply bool_decide_eq_true in H2. apply Z.eqb_eq in H3. split; [exact H2|exact H3].
Qed.

Definition unlinkedb (w : world) (L : list (list string)) : bool :=
  forallb (fun a => forallb (fun b => bool_decide (a = b) ||
    match leads w a, leads w b with Some (i, _), Some (j, _) => negb (i =? j) | _, _ => true end) L) L.
Lemma unlinkedb_ok w L : winv w -> Forall canonical L -> unlinkedb w L = true -> unlinked w L.
Proof.
  intros Hw HL H a b i Ha Hb Hi Hj. unfold unlinkedb in H. rewrite forallb_forall in H. specialize (H a Ha). cbv beta in H. rewrite forallb_forall in H. specialize (H b Hb).
  rewrite Forall_forall in HL. destruct (resolves_exists _ _ _ Hw (HL a (proj2 (elem_of_list_In _ _) Ha)) Hi) as [x Hx]. cbv beta in H.
  rewrite (leads_ok _ _ _ _ Hw Hi Hx), (leads_ok _ _ _ _ Hw Hj Hx), Z.eqb_refl in H. cbn [negb] in H. rewrite orb_false_r in H. apply bool_decide_eq_true in H. exact H.
Qed.

Definition can_updateb (w : world) (q : list string) (bs : list Z) : bool :=
  way_freeb w q &&
  match leads w q with
  | Some (i, x) =>
      match bytes w i with Some l => len l <? 2147483648 | None => true end &&
      (Z.land (i_mode x) S_FILETYPEFLAGS =? S_IFREG) &&
      match leads w (removelast q) with Some (_, y) => negb (Z.land (i_mode y) 146 =? 0) | None => true end
  | None => negb (bool_decide (bs = [])) || match leads w (removelast q) with Some _ => true | None => false end
  end.
Lemma can_updateb_ok w q bs : winv w -> canonical q -> can_updateb w q bs = true -> can_update w q bs.
Proof.
  intros Hw Hq H. apply andb_prop in H as [H1 H2]. pose proof (way_freeb_ok _ _ Hw H1) as Hway.
  assert (Hex : forall i, resolves (w_ino w) q i -> exists x, w_ino w !! i = Some x /\ leads w q = Some (i, x)).
  { intros i Hi. destruct (resolves_exists _ _ _ Hw Hq Hi) as [x Hx]. exists x. split; [exact Hx|exact (leads_ok _ _ _ _ Hw Hi Hx)]. }
  constructor.
  - exact Hway.
  - intros i l Hi Hl. destruct (Hex i Hi) as (x & Hx & E). rewrite E, Hl in H2. apply andb_prop in H2 as [H2 _]. apply andb_prop in H2 as [H2 _]. lia.
  - intros i x Hi Hx. destruct (Hex i Hi) as (x' & Hx' & E). assert (x' = x) by congruence. subst x'. rewrite E in H2. apply andb_prop in H2 as [H2 _]. apply andb_prop in H2 as [_ H2]. lia.
  - intros i d y Hi Hd Hy. destruct (Hex i Hi) as (x & Hx & E). rewrite E, (leads_ok _ _ _ _ Hw Hd Hy) in H2. apply andb_prop in H2 as [_ H2].
    unfold writable. apply negb_true_iff, Z.eqb_neq in H2. exact H2.
  - intros -> Hno. destruct (leads w q) as [[i x]|] eqn:E; [apply leads_some in E as [E _]; exfalso; exact (Hno _ E)|].
    cbn in H2. destruct (leads w (removelast q)) as [[d y]|] eqn:E2; [|discriminate H2]. apply leads_some in E2 as [E2 _]. eauto.
Qed.

Lemma fd_free_ok w c : next_fd w c 0 <> None -> ~ none_free (w_fds w) c 0.
Proof. intros H K. apply H, next_fd_none_eq, K. Qed.
