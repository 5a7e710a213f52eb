(** Shared memory: in careful histories the table of attachments is what the
    memory shows. *)
From Verif Require Import Base SemModel IpcModel IpcSpec IpcProofs IpcShm SegModel SegSpec SegProofs.
Local Open Scope list_scope.
Local Open Scope Z_scope.

(** ** Projection to the calls *)
Lemma calls_cons e h : calls (e :: h) = calls h ++ match call_of e with Some k => [k] | None => [] end.
Proof. unfold calls. cbn [rev]. rewrite omap_app. cbn. destruct (call_of e); done. Qed.

Lemma step_calls chk s c o s' r : sok s c o -> sstep chk s c o = Done (s', r) ->
  match call_of (Sev c o r) with
  | Some k => e_c k = c /\ iok (t_x s) c (e_op k) /\ istep chk (t_x s) c (e_op k) = Done (t_x s', e_out k)
  | None => t_x s' = t_x s
  end.
Proof.
  intros Hok H. unfold sstep in H. destruct (x_cage (t_x s) !! c) as [g|] eqn:Hg; [|discriminate H].
  destruct o; cbn in H.
  - destruct (istep chk (t_x s) c o) as [[x' r']|] eqn:E; [|discriminate H]. injection H as <- <-. destruct Hok. cbn. auto.
  - destruct (istep chk (t_x s) c _) as [[x' r']|] eqn:E; [|discriminate H]. injection H as <- <-. cbn. repeat split; try apply low_range. exact E.
  - destruct (istep chk (t_x s) c _) as [[x' r']|] eqn:E; [|discriminate H]. injection H as <- <-. cbn. auto.
  - destruct (istep chk (t_x s) c _) as [[x' r']|] eqn:E; [|discriminate H]. injection H as <- <-. cbn. auto.
  - destruct (istep chk (t_x s) c _) as [[x' r']|] eqn:E; [|discriminate H]. injection H as <- <-. cbn. auto.
  - injection H as <- <-. cbn. destruct (t_view s p); done.
  - injection H as H. destruct (t_view s p) as [| |? ? []]; injection H as <- <-; done.
Qed.
Lemma run_calls chk h s : srun chk h s -> irun chk (calls h) (t_x s).
Proof.
  induction 1 as [|h s c o s' r Hr IH Hok Hs]; [constructor|]. rewrite calls_cons. pose proof (step_calls _ _ _ _ _ _ Hok Hs) as K.
  destruct (call_of _) as [k|].
  - destruct K as (E1 & E2 & E3). destruct k as [kc ko kr]; cbn in *. subst kc. econstructor; eauto.
  - rewrite K, app_nil_r. done.
Qed.
Lemma failed_maps chk h s : srun chk h s -> no_failed_map h -> maps_ok (calls h).
Proof.
  induction 1 as [|h s c o s' r Hr IH Hok Hs]; [constructor|]. intros [He Hh]. rewrite calls_cons. apply Forall_app. split; [apply IH; exact Hh|].
  cbn in He. unfold call_of. cbn [v_op v_out v_c]. destruct r; try constructor. destruct o; repeat constructor; cbn; try done.
  - destruct Hok as [Hp _]. destruct o; done.
  - intuition.
  - change (local p) with (to_u32 p). rewrite low_aligned. unfold aligned. apply Z.eqb_eq. intuition.
Qed.

(** ** Processes *)
Lemma unmap_cages c l x x' : ofold (unmap_one c) l x = Done x' -> x_cage x' = x_cage x.
Proof.
  apply (ofold_inv (fun y => x_cage y = x_cage x)); [|done]. intros y p z Hy H. unfold unmap_one in H.
  destruct (x_seg y !! p.2) as [s|]; [|discriminate H]. destruct (g_rmid s && _); injection H as <-; done.
Qed.
Lemma fork_cages c ch l x x' : ofold (fork_one c ch) l x = Done x' -> x_cage x' = x_cage x.
Proof.
  apply (ofold_inv (fun y => x_cage y = x_cage x)); [|done]. intros y p z Hy H. unfold fork_one in H.
  destruct (x_seg y !! p.2) as [s|]; [|discriminate H]. destruct (g_att s !! c); [|discriminate H]. injection H as <-; done.
Qed.
Lemma shape_dom (R R' : gmap Z icage) c : c_rev <$> R' = c_rev <$> R -> is_Some (R' !! c) <-> is_Some (R !! c).
Proof.
  intros H. assert (E : (c_rev <$> R') !! c = (c_rev <$> R) !! c) by (rewrite H; done). rewrite !lookup_fmap in E.
  destruct (R' !! c), (R !! c); try discriminate E; split; eauto.
Qed.
Lemma dom_insert {A} (R : gmap Z A) c g g' k : R !! c = Some g -> is_Some (<[c := g']> R !! k) <-> is_Some (R !! k).
Proof.
  intros H. destruct (decide (c = k)) as [<-|Hne]; [rewrite lookup_insert, H; split; eauto|]. rewrite lookup_insert_ne by done. done.
Qed.
Definition alive_after (c : Z) (o : iop) (k : Z) (before : Prop) : Prop :=
  match o with
  | IFork ch => k = ch \/ before
  | IExec nc => k = nc \/ (k <> c /\ before)
  | IExit _ => k <> c /\ before
  | _ => before
  end.
Lemma istep_cages chk x c o x' r k : istep chk x c o = Done (x', r) -> is_Some (x_cage x' !! k) <-> alive_after c o k (is_Some (x_cage x !! k)).
Proof.
  intros H. destruct (shm_op o) eqn:Eo.
  2:{ pose proof (other_shape _ _ _ _ _ _ Eo H) as E. injection E as _ _ _ E. rewrite (shape_dom _ _ k E). destruct o; done. }
  unfold istep in H. destruct (x_cage x !! c) as [g|] eqn:Hg; [|discriminate H].
  destruct o; try discriminate Eo; clear Eo; cbn [alive_after].
  - unfold shmget in H. destruct (key =? _); [injection H as <- _; done|].
    destruct (x_key x !! key); [destruct (_ =? _); injection H as <- _; done|].
    destruct (_ =? 0); [injection H as <- _; done|]. destruct (_ || _); [injection H as <- _; done|].
    destruct (_ <=? _); [discriminate H|]. injection H as <- _; done.
  - destruct (x_seg x !! id) as [s|] eqn:E; [|unfold shmat in H; rewrite E in H; injection H as <- _; done].
    destruct (shmat_shape x chk c g id addr pick bad x' r s Hg E H) as [_ Hsh]. injection Hsh as _ _ _ H4.
    assert (Ek : (c_rev <$> x_cage x') !! k = (<[c:=c_rev g ++ [(addr, id)]]> (c_rev <$> x_cage x)) !! k) by (rewrite H4; done).
    rewrite lookup_fmap in Ek. destruct (decide (c = k)) as [<-|Hne].
    + rewrite lookup_insert in Ek. destruct (x_cage x' !! c); [|discriminate Ek]. rewrite Hg. split; eauto.
    + rewrite lookup_insert_ne, lookup_fmap in Ek by done. destruct (x_cage x' !! k), (x_cage x !! k); try discriminate Ek; split; eauto.
  - unfold shmdt in H. destruct (index_of (c_rev g) addr) as [i|]; [|injection H as <- _; done].
    destruct (c_rev g !! i) as [[a1 id]|]; [|discriminate H]. destruct (x_seg x !! id) as [s|]; [|discriminate H].
    destruct (ofold _ _ _) as [t|]; [|discriminate H]. cbn [obind] in H. destruct (g_att s !! c) as [n|]; [|discriminate H].
    injection H as <- _. destruct (g_rmid s && _); cbn; exact (dom_insert _ _ _ _ _ Hg).
  - unfold shmctl in H. destruct (x_seg x !! id) as [s|]; [|injection H as <- _; done].
    destruct (cmd =? IPC_STAT); [injection H as <- _; done|]. destruct (cmd =? IPC_RMID); [|injection H as <- _; done].
    destruct (g_nattch s =? 0); injection H as <- _; done.
  - unfold ifork in H. destruct (renew (x_obj x) (c_mut g)) as [m n1]. destruct (renew n1 (c_cv g)) as [v n2].
    destruct (ofold _ _ _) as [y|] eqn:E; [|discriminate H]. injection H as <- _. apply fork_cages in E. cbn. rewrite E.
    destruct (decide (ch = k)) as [<-|Hne]; [rewrite lookup_insert; split; eauto|]. rewrite lookup_insert_ne by done. split; [auto|].
    intros [->|?]; done.
  - unfold iexec in H. destruct (ofold _ _ _) as [y|] eqn:E; [|discriminate H]. injection H as <- _. apply unmap_cages in E. cbn. rewrite E. cbn.
    destruct (decide (nc = k)) as [<-|Hne]; [rewrite lookup_insert; split; eauto|]. rewrite lookup_insert_ne by done.
    destruct (decide (c = k)) as [<-|Hc].
    + rewrite lookup_delete. split; [intros [? K]; discriminate K|]. intros [->|[? _]]; done.
    + rewrite lookup_delete_ne by done. split; [auto|]. intros [->|[_ ?]]; done.
  - unfold iexit in H. destruct (ofold _ _ _) as [y|] eqn:E; [|discriminate H]. injection H as <- _. apply unmap_cages in E. cbn. rewrite E.
    destruct (decide (c = k)) as [<-|Hc].
    + rewrite lookup_delete. split; [intros [? K]; discriminate K|]. intros [? _]; done.
    + rewrite lookup_delete_ne by done. split; [auto|]. intros [_ ?]; done.
Qed.
Lemma run_running chk h s : srun chk h s -> forall k, is_Some (x_cage (t_x s) !! k) <-> running h k = true.
Proof.
  induction 1 as [|h s c o s' r Hr IH Hok Hs]; intros k.
  - cbn. destruct (decide (1 = k)) as [<-|Hne]; [rewrite lookup_singleton; split; eauto|].
    rewrite lookup_singleton_ne by done. split; [intros [? K]; discriminate K|]. lia.
  - pose proof (step_calls _ _ _ _ _ _ Hok Hs) as K. unfold call_of in K. cbn [v_op v_out v_c] in K.
    assert (Hcall : match o with Fetch _ | Store _ _ => True | _ => exists r', r = Call r' end).
    { unfold sstep in Hs. destruct (x_cage (t_x s) !! c); [|discriminate Hs]. destruct o; try done;
        (destruct (istep chk (t_x s) c _) as [[x' r']|]; [|discriminate Hs]; injection Hs as _ <-; eauto). }
    cbn [running v_op v_c]. destruct o.
    + destruct Hcall as [r' ->]. destruct K as (_ & _ & K). cbn in K. rewrite (istep_cages _ _ _ _ _ _ k K).
      destruct Hok as [Hp _]. destruct o; try discriminate Hp; cbn [alive_after]; rewrite IH; try done.
      rewrite andb_true_iff, negb_true_iff, Z.eqb_neq. done.
    + destruct Hcall as [r' ->]. destruct K as (_ & _ & K). cbn in K. rewrite (istep_cages _ _ _ _ _ _ k K). cbn. apply IH.
    + destruct Hcall as [r' ->]. destruct K as (_ & _ & K). cbn in K. rewrite (istep_cages _ _ _ _ _ _ k K). cbn. apply IH.
    + destruct Hcall as [r' ->]. destruct K as (_ & _ & K). cbn in K. rewrite (istep_cages _ _ _ _ _ _ k K). cbn.
      rewrite IH, orb_true_iff, Z.eqb_eq. done.
    + destruct Hcall as [r' ->]. destruct K as (_ & _ & K). cbn in K. rewrite (istep_cages _ _ _ _ _ _ k K). cbn.
      rewrite IH, orb_true_iff, andb_true_iff, negb_true_iff, Z.eqb_eq, Z.eqb_neq. done.
    + assert (E : t_x s' = t_x s) by (destruct r; exact K). rewrite E. apply IH.
    + assert (E : t_x s' = t_x s) by (destruct r; exact K). rewrite E. apply IH.
Qed.
