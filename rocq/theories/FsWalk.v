(** Path resolution: the model's walk against [resolves]. *)
From Verif Require Import Base PathModel PathSpec PathProofs FsModel FsSpec.
From Coq Require Import Ascii.
Local Open Scope list_scope.

Lemma walk_from_app t cur prev a b :
  walk_from t cur prev (a ++ b) =
  (do r <- walk_from t cur prev a;
   match b with [] => Done r | _ => match r with (None, _) => Done (None, None) | (c, p) => walk_from t c p b end end).
Proof.
  revert cur prev. induction a as [|f a IH]; intros cur prev.
  - cbn. destruct b; [destruct cur; reflexivity|]. destruct cur; reflexivity.
  - cbn. destruct cur as [i|].
    + destruct (t !! i) as [x|]; [|reflexivity].
      destruct (i_kind x); try apply IH; destruct b; reflexivity.
    + destruct b; reflexivity.
Qed.

Lemma walk_from_snoc t cur prev a f :
  walk_from t cur prev (a ++ [f]) =
  (do r <- walk_from t cur prev a;
   match r with
   | (None, _) => Done (None, None)
   | (Some d, _) =>
       match t !! d with
       | None => Panic
       | Some x => match i_kind x with KDir => Done (i_dict x !! f, Some d) | _ => Done (None, None) end
       end
   end).
Proof.
  rewrite walk_from_app. destruct (walk_from t cur prev a) as [[[d|] p]|]; cbn; try reflexivity.
Qed.

(** What the parent returned by a walk is. *)
Lemma walk_parent t p r par :
  metawalkandparent t p = Done (r, Some par) ->
  exists dir f x, p = dir ++ [f] /\ t !! par = Some x /\ i_kind x = KDir /\ i_dict x !! f = r
    /\ metawalk t dir = Done (Some par) /\ file_name p = Some f.
Proof.
  unfold metawalk, metawalkandparent. destruct (t !! ROOTINO) as [rt|] eqn:Hr; [|discriminate].
  destruct p as [|f dir _] using rev_ind; [cbn; congruence|].
  rewrite walk_from_snoc. intros H.
  destruct (walk_from t (Some ROOTINO) None dir) as [[[d|] pp]|] eqn:Hw; cbn in H; try congruence.
  destruct (t !! d) as [x|] eqn:Hd; [|congruence].
  destruct (i_kind x) eqn:Hk; try congruence. injection H as <- <-.
  exists dir, f, x. rewrite Hw. cbn. unfold file_name. rewrite last_snoc. repeat split; auto.
Qed.

Lemma walk_none_parent t p i :
  metawalkandparent t p = Done (Some i, None) -> p = [] /\ i = ROOTINO.
Proof.
  unfold metawalkandparent. destruct (t !! ROOTINO) as [rt|] eqn:Hr; [|discriminate].
  destruct p as [|f dir _] using rev_ind; [cbn; intros [= <-]; auto|].
  rewrite walk_from_snoc. intros H.
  destruct (walk_from t (Some ROOTINO) None dir) as [[[d|] pp]|] eqn:Hw; cbn in H; try congruence.
  destruct (t !! d) as [x|] eqn:Hd; [|congruence].
  destruct (i_kind x) eqn:Hk; congruence.
Qed.

Lemma metawalk_snoc t dir f :
  metawalk t (dir ++ [f]) =
  (do d <- metawalk t dir;
   match d with
   | None => Done None
   | Some d =>
       match t !! d with
       | None => Panic
       | Some x => Done (match i_kind x with KDir => i_dict x !! f | _ => None end)
       end
   end).
Proof.
  unfold metawalk, metawalkandparent. destruct (t !! ROOTINO); [|reflexivity].
  rewrite walk_from_snoc. destruct (walk_from t (Some ROOTINO) None dir) as [[[d|] p]|]; cbn; try reflexivity.
  destruct (t !! d) as [x|]; cbn; [|reflexivity]. destruct (i_kind x); reflexivity.
Qed.

Lemma metawalk_resolves t p i : metawalk t p = Done (Some i) -> resolves t p i.
Proof.
  revert i. induction p as [|f p IH] using rev_ind; intros i.
  - unfold metawalk, metawalkandparent. destruct (t !! ROOTINO); cbn; [intros [= <-]; constructor|discriminate].
  - rewrite metawalk_snoc. destruct (metawalk t p) as [[d|]|] eqn:Hm; cbn; try congruence.
    destruct (t !! d) as [x|] eqn:Hd; [|congruence]. destruct (i_kind x) eqn:Hk; intros H; try congruence.
    injection H as H. eapply res_step; eauto.
Qed.

Lemma resolves_metawalk t p i : is_Some (t !! ROOTINO) -> resolves t p i -> metawalk t p = Done (Some i).
Proof.
  intros [r Hr]. induction 1 as [|p d x f i H IH Hd Hk Hf].
  - unfold metawalk, metawalkandparent. rewrite Hr. reflexivity.
  - rewrite metawalk_snoc, IH. cbn. rewrite Hd, Hk, Hf. reflexivity.
Qed.

Lemma resolves_nil t i : resolves t [] i -> i = ROOTINO.
Proof. intros H. inversion H; [reflexivity|]. destruct p; discriminate. Qed.

Lemma resolves_snoc t p f i :
  resolves t (p ++ [f]) i ->
  exists d x, resolves t p d /\ t !! d = Some x /\ i_kind x = KDir /\ i_dict x !! f = Some i.
Proof.
  intros H. inversion H as [|p' d x f' i' H1 H2 H3 H4 E].
  - destruct p; discriminate.
  - apply app_inj_tail in E as [-> ->]. eauto 6.
Qed.

Lemma resolves_det t p i j : resolves t p i -> resolves t p j -> i = j.
Proof.
  intros H. revert j. induction H as [|p d x f i H IH Hd Hk Hf]; intros j Hj.
  - symmetry. apply resolves_nil with t. exact Hj.
  - apply resolves_snoc in Hj as (d' & x' & Hp & Hd' & _ & Hf'). apply IH in Hp as <-. congruence.
Qed.

(** The walk aborts exactly when a proper prefix names a missing object. *)
Lemma metawalk_panic t p :
  metawalk t p = Panic <->
  t !! ROOTINO = None \/
  exists a f b d, p = a ++ f :: b /\ resolves t a d /\ t !! d = None.
Proof.
  destruct (t !! ROOTINO) as [rt|] eqn:Hr.
  2: { split; [auto|]. intros _. unfold metawalk, metawalkandparent. rewrite Hr. reflexivity. }
  split.
  - intros H. right. induction p as [|f p IH] using rev_ind.
    + unfold metawalk, metawalkandparent in H. rewrite Hr in H. discriminate.
    + rewrite metawalk_snoc in H. destruct (metawalk t p) as [[d|]|] eqn:Hm; cbn in H; try congruence.
      * destruct (t !! d) as [x|] eqn:Hd; [congruence|].
        exists p, f, [], d. split; [reflexivity|]. split; [apply metawalk_resolves; assumption|assumption].
      * destruct (IH eq_refl) as (a & g & b & d & -> & ? & ?).
        exists a, g, (b ++ [f]), d. rewrite <- app_assoc. auto.
  - intros [?|(a & f & b & d & -> & Hres & Hd)]; [congruence|].
    assert (Hp : metawalk t (a ++ [f]) = Panic).
    { rewrite metawalk_snoc, (resolves_metawalk t a d); [|rewrite Hr; eauto|assumption]. cbn. rewrite Hd. reflexivity. }
    replace (a ++ f :: b) with ((a ++ [f]) ++ b) by (rewrite <- app_assoc; reflexivity).
    induction b as [|g b IH] using rev_ind; [rewrite app_nil_r; exact Hp|].
    rewrite app_assoc, metawalk_snoc, IH. reflexivity.
Qed.

Lemma metawalk_none t p : metawalk t p = Done None -> forall i, ~ resolves t p i.
Proof.
  intros H i Hr. destruct (t !! ROOTINO) eqn:E.
  - rewrite (resolves_metawalk t p i) in H; [congruence|eauto|assumption].
  - unfold metawalk, metawalkandparent in H. rewrite E in H. discriminate.
Qed.

(** ** Equal spellings *)

Lemma denotes_normpath cwd p r : denotes cwd p r <-> r = normpath cwd p.
Proof.
  split.
  - intros [ws st r' Hw Ha Hn H]. apply (normpath_walks cwd p ws Hw).
    destruct (has_root p) eqn:E.
    + apply has_root_absolute in E. rewrite (Ha E) in H. exact H.
    + rewrite Hn in H; [exact H|]. intros Hc. apply has_root_absolute in Hc. congruence.
  - intros ->. econstructor.
    + apply words_split. reflexivity.
    + intros H. apply has_root_absolute in H. instantiate (1 := if has_root p then [] else cwd). rewrite H. reflexivity.
    + intros H. destruct (has_root p) eqn:E; [|reflexivity]. exfalso. apply H, has_root_absolute, E.
    + apply (normpath_walks cwd p _ (proj2 (words_split p _) eq_refl)). reflexivity.
Qed.

Lemma same_path_ne cwd p q : same_path cwd p q ->
  String.eqb p "" = false /\ String.eqb q "" = false /\ normpath cwd p = normpath cwd q.
Proof.
  intros (Hp & Hq & r & H1 & H2).
  apply denotes_normpath in H1. apply denotes_normpath in H2.
  repeat split; try congruence; apply String.eqb_neq; assumption.
Qed.

Lemma step_same_call w c cwd o o' :
  w_cwd w !! c = Some cwd -> same_call cwd o o' -> step w c o = step w c o'.
Proof.
  intros Hc H. unfold step. rewrite Hc.
  destruct H;
    repeat match goal with H : same_path _ _ _ |- _ => apply same_path_ne in H as (? & ? & ?) end;
    unfold open_syscall, creat_syscall, mkdir_syscall, mknod_syscall, link_syscall, unlink_syscall,
      rmdir_syscall, rename_syscall, chmod_syscall, truncate_syscall, stat_syscall, access_syscall, chdir_syscall;
    unfold open_syscall;
    repeat match goal with H : String.eqb _ _ = false |- _ => rewrite H; clear H end;
    repeat match goal with H : normpath _ _ = _ |- _ => rewrite H; clear H end; reflexivity.
Qed.

(** chdir(p) and then a relative [q] looks up the same names as "p/q". *)
Lemma chdir_normpath w c cwd p w1 :
  w_cwd w !! c = Some cwd -> step w c (Chdir p) = Done (w1, Ret 0) ->
  w_cwd w1 !! c = Some (normpath cwd p) /\ w_ino w1 = w_ino w.
Proof.
  intros Hc. unfold step. rewrite Hc. unfold chdir_syscall, ret.
  destruct (metawalk (w_ino w) (normpath cwd p)) as [[i|]|]; cbn; try discriminate.
  unfold get_ino. destruct (w_ino w !! i) as [x|]; cbn; [|discriminate].
  destruct (i_kind x); cbn; intros [= <-]; cbn; split; try reflexivity.
  apply lookup_insert.
Qed.

Lemma chdir_then_stat w c cwd p q w1 :
  w_cwd w !! c = Some cwd -> p <> "" -> has_root q = false ->
  step w c (Chdir p) = Done (w1, Ret 0) ->
  forall o, (exists w', step w1 c (Stat q) = Done (w', o)) <->
            (exists w', step w c (Stat (p +:+ String "/" q)) = Done (w', o)).
Proof.
  intros Hc Hp Hq Hs o. destruct (chdir_normpath _ _ _ _ _ Hc Hs) as [Hc1 Hi].
  unfold step. rewrite Hc, Hc1. unfold same, stat_syscall, get_ino. rewrite Hi.
  rewrite (normpath_join cwd p q Hp Hq).
  destruct (metawalk (w_ino w) (normpath (normpath cwd p) q)) as [[i|]|]; cbn;
    [|split; intros [? [= <- <-]]; eauto|split; intros [? ?]; discriminate].
  destruct (w_ino w !! i); cbn; split; intros [? H]; try discriminate; injection H as <- <-; eauto.
Qed.
