(** A call that nobody interrupts does what [FsModel.step] does. *)
From stdpp Require Import gmap.
From Verif Require Import Base PathModel PathSpec CodecModel FsModel FsSpec FsWalk Count FsNames FsTr FsInv FsReachSpec FsWinv FsTmp FsRestart FsReach FsTree FsSteps
  FsRaceModel FsRaceSpec FsRaceOrder FsRaceProofs FsRaceSerial.
Local Open Scope list_scope.
Local Open Scope Z_scope.
Opaque next_fd.

(** From [p] on alone *)
Inductive runs : gmap Z inode -> Z -> rpc -> gmap Z inode -> Z -> rres -> Prop :=
  | runs_end tab next p e k r :
      (forall q, r <> Go q) -> act tab next p = Done (e, k, r) ->
      runs tab next p (perform e tab) (if (k : bool) then next + 1 else next) r
  | runs_go tab next p e k q T N R :
      act tab next p = Done (e, k, Go q) ->
      runs (perform e tab) (if (k : bool) then next + 1 else next) q T N R -> runs tab next p T N R.

Definition runs_res tab next (res : rres) T N R : Prop :=
  match res with Go p => runs tab next p T N R | _ => T = tab /\ N = next /\ R = res end.

Lemma runs_one tab next p e k r T N R :
  act tab next p = Done (e, k, r) -> runs_res (perform e tab) (if (k : bool) then next + 1 else next) r T N R -> runs tab next p T N R.
Proof.
  intros Ha Hr. destruct r as [q|o|x]; [exact (runs_go _ _ _ _ _ _ _ _ _ Ha Hr)|..];
    destruct Hr as (-> & -> & ->); (apply runs_end; [intros q [=]|exact Ha]).
Qed.

Lemma act_not_idle tab next p a : act tab next p = Done a -> p <> Idle.
Proof. intros H ->. discriminate H. Qed.

Lemma move_act tab next t e k r :
  act tab next (t_pc t) = Done (e, k, r) -> move tab next t = Some (Done (e, k, lead r t)).
Proof.
  intros H. unfold move. destruct (t_pc t); try discriminate H; rewrite H; reflexivity.
Qed.

Lemma runs_goes tab next p T N R : runs tab next p T N R ->
  forall s i t, r_tab s = tab -> r_next s = next -> r_dead s = false -> r_proc s !! i = Some t -> t_pc t = p ->
  (forall j, j <> i -> at_rest j s) ->
  goes_on i s (Rst T N (<[i := lead R t]> (r_proc s)) false).
Proof.
  induction 1 as [tab next p e k r Hr Ha|tab next p e k q T N R Ha _ IH]; intros s i t <- <- Hd Ht <- Hrest.
  - eapply on_step; [intros H; exact (act_not_idle _ _ _ _ Ha (H t Ht))| |].
    + apply ust_rgo; [exact Hrest|]. split; [exact Hd|]. exists t, e, k. eexists. split; [exact Ht|].
      split; [exact (move_act _ _ _ _ _ _ Ha)|reflexivity].
    + apply on_end. left. intros u. cbn. rewrite list_lookup_insert by (apply lookup_lt_Some in Ht; exact Ht).
      intros [= <-]. destruct r as [q|o|x]; [destruct (Hr q eq_refl)|reflexivity|reflexivity].
  - assert (Hs : ust i s (Rst (perform e (r_tab s)) (if k then r_next s + 1 else r_next s) (<[i := lead (Go q) t]> (r_proc s)) false)).
    { split; [exact Hd|]. exists t, e, k. eexists. split; [exact Ht|]. split; [exact (move_act _ _ _ _ _ _ Ha)|reflexivity]. }
    eapply on_step; [intros H; exact (act_not_idle _ _ _ _ Ha (H t Ht))|exact (ust_rgo _ _ _ Hrest Hs)|].
    assert (Hl : r_proc (Rst (perform e (r_tab s)) (if k then r_next s + 1 else r_next s) (<[i := lead (Go q) t]> (r_proc s)) false) !! i
                 = Some (lead (Go q) t)).
    { cbn. apply list_lookup_insert. apply lookup_lt_Some in Ht. exact Ht. }
    pose proof (IH (Rst _ _ _ false) i _ eq_refl eq_refl eq_refl Hl eq_refl) as G. cbn [r_proc] in G. rewrite list_insert_insert in G.
    assert (E : lead R (lead (Go q) t) = lead R t) by (destruct R; reflexivity). rewrite E in G. apply G.
    intros j Hj. apply (rest_other j i s _ Hj Hs), Hrest, Hj.
Qed.

Lemma runs_call s i t o rest T N R :
  r_dead s = false -> all_rest s -> r_proc s !! i = Some t -> t_todo t = o :: rest ->
  begin o (t_open t) = Done (Go (Root o First)) ->
  runs (r_tab s) (r_next s) (Root o First) T N R ->
  exists t', one_call i s (Rst T N (<[i := t']> (r_proc s)) false) /\
    t' = lead R (Proc Idle rest (drop_fd o (t_open t)) (t_outs t)).
Proof.
  intros Hd Hr Ht Et Hb Hruns. eexists. split; [|reflexivity].
  set (t1 := lead (Go (Root o First)) (Proc Idle rest (drop_fd o (t_open t)) (t_outs t))).
  assert (Hs : ust i s (Rst (r_tab s) (r_next s) (<[i := t1]> (r_proc s)) false)).
  { split; [exact Hd|]. exists t, None, false, t1. split; [exact Ht|]. split; [|reflexivity].
    unfold move. rewrite (Hr i t Ht), Et, Hb. reflexivity. }
  split; [apply Hr|]. eexists. split; [exact (ust_rgo _ _ _ (fun j _ => Hr j) Hs)|].
  assert (Hl : r_proc (Rst (r_tab s) (r_next s) (<[i := t1]> (r_proc s)) false) !! i = Some t1).
  { cbn. apply list_lookup_insert. apply lookup_lt_Some in Ht. exact Ht. }
  pose proof (runs_goes _ _ _ _ _ _ Hruns (Rst _ _ _ false) i _ eq_refl eq_refl eq_refl Hl eq_refl) as G. cbn [r_proc] in G.
  rewrite list_insert_insert in G.
  assert (E : lead R t1 = lead R (Proc Idle rest (drop_fd o (t_open t)) (t_outs t))) by (destruct R; reflexivity).
  rewrite <- E. apply G. intros j Hj. apply (rest_other j i s _ Hj Hs), Hr.
Qed.

(** *** Walks *)
Lemma after_quiet o k r a : after o k r = Done a -> exists res, a = (None, false, res).
Proof.
  intros H. destruct r as [x q].
  destruct o; cbn [after fst] in H;
    repeat (match type of H with
            | quiet ?r = Done _ => injection H as <-; exists r; reflexivity
            | Panic = _ => discriminate H
            | context[match ?x with _ => _ end] => destruct x
            end).
Qed.

Lemma runs_walk tab next o k rest : forall cur has prev r res T N R,
  walk_from tab cur prev rest = Done r -> after o k r = Done (None, false, res) ->
  (forall i, cur = Some i -> has = bool_decide (is_Some (tab !! i))) ->
  runs_res tab next res T N R -> runs tab next (Walk o k cur has prev rest) T N R.
Proof.
  induction rest as [|f rest IH]; intros cur has prev r res T N R Hw Ha Hh Hr; cbn [walk_from] in Hw.
  - injection Hw as <-. exact (runs_one _ _ (Walk o k cur has prev []) _ _ _ _ _ _ Ha Hr).
  - destruct cur as [i|].
    2: { injection Hw as <-. exact (runs_one _ _ (Walk o k None has prev (f :: rest)) _ _ _ _ _ _ Ha Hr). }
    rewrite (Hh i eq_refl). destruct (tab !! i) as [x|] eqn:Ei; [|discriminate Hw].
    rewrite bool_decide_true by eauto.
    assert (Hact : act tab next (Walk o k (Some i) true prev (f :: rest)) =
      match i_kind x with
      | KDir => match i_dict x !! f with
                | Some j => quiet (Go (Walk o k (Some j) (bool_decide (is_Some (tab !! j))) (Some i) rest))
                | None => quiet (Go (Walk o k None false (Some i) rest))
                end
      | _ => after o k (None, None)
      end).
    { cbn [act negb]. unfold fetch. rewrite Ei. reflexivity. }
    destruct (i_kind x); try (injection Hw as <-; rewrite Ha in Hact; exact (runs_one _ _ _ _ _ _ _ _ _ Hact Hr)).
    destruct (i_dict x !! f) as [j|].
    + apply (runs_one _ _ _ _ _ _ _ _ _ Hact). cbn [runs_res perform].
      apply (IH _ _ _ _ _ _ _ _ Hw Ha); [|exact Hr]. intros z [= <-]. reflexivity.
    + apply (runs_one _ _ _ _ _ _ _ _ _ Hact). cbn [runs_res perform].
      apply (IH _ _ _ _ _ _ _ _ Hw Ha); [|exact Hr]. intros z [=].
Qed.

Lemma runs_root tab next o k r res T N R :
  metawalkandparent tab (wpath o k) = Done r -> after o k r = Done (None, false, res) ->
  runs_res tab next res T N R -> runs tab next (Root o k) T N R.
Proof.
  intros Hw Ha Hr. unfold metawalkandparent in Hw. destruct (tab !! ROOTINO) as [rt|] eqn:Ert; [|discriminate Hw].
  apply (runs_one tab next (Root o k) None false (Go (Walk o k (Some ROOTINO) true None (wpath o k)))).
  - cbn [act]. rewrite Ert. reflexivity.
  - cbn [runs_res perform]. apply (runs_walk _ _ _ _ _ _ _ _ _ _ _ _ _ Hw Ha); [|exact Hr].
    intros i [= <-]. rewrite bool_decide_true; [reflexivity|]. rewrite Ert. eauto.
Qed.

Lemma par_dir tab p r par : metawalkandparent tab p = Done (r, Some par) -> exists x, tab !! par = Some x /\ i_kind x = KDir.
Proof. intros H. apply walk_parent in H as (dir & f & x & _ & Hx & Hk & _). eauto. Qed.

(** *** The calls *)
Lemma stat_tie w cwd p r :
  stat_syscall w cwd p = Done r ->
  runs (w_ino w) (w_next w) (Root (RStat (normpath cwd p)) First) (w_ino w) (w_next w) (Back r).
Proof.
  unfold stat_syscall, metawalk. intros H. destruct (metawalkandparent _ _) as [[x q]|] eqn:Hw; [|discriminate H].
  cbn [obind fst] in H. destruct x as [i|].
  - unfold get_ino in H. destruct (w_ino w !! i) as [x|] eqn:Ei; [|discriminate H]. injection H as <-.
    eapply runs_root; [exact Hw|reflexivity|]. cbn [runs_res]. eapply runs_one; [cbn [act]; unfold fetch; rewrite Ei; reflexivity|].
    cbn. auto.
  - injection H as <-. eapply runs_root; [exact Hw|reflexivity|]. cbn. auto.
Qed.

Lemma perform_put i x tab : perform (Some (i, Put x)) tab = <[i := x]> tab.
Proof. reflexivity. Qed.
Lemma perform_add i f n y tab : tab !! i = Some y ->
  perform (Some (i, AddName f n)) tab = <[i := set_link (i_link y + 1) (set_dict (<[f := n]> (i_dict y)) y)]> tab.
Proof. intros H. cbn. apply map_eq. intros j. destruct (decide (j = i)) as [->|Hj].
  - rewrite lookup_partial_alter, lookup_insert, H. reflexivity.
  - rewrite lookup_partial_alter_ne, lookup_insert_ne by congruence. reflexivity.
Qed.
Lemma perform_delname i f y tab : tab !! i = Some y ->
  perform (Some (i, DelName f)) tab = <[i := set_link (i_link y - 1) (set_dict (delete f (i_dict y)) y)]> tab.
Proof. intros H. cbn. apply map_eq. intros j. destruct (decide (j = i)) as [->|Hj].
  - rewrite lookup_partial_alter, lookup_insert, H. reflexivity.
  - rewrite lookup_partial_alter_ne, lookup_insert_ne by congruence. reflexivity.
Qed.
Lemma perform_mv i fo fn n y tab : tab !! i = Some y ->
  perform (Some (i, MvName fo fn n)) tab = <[i := set_dict (delete fo (<[fn := n]> (i_dict y))) y]> tab.
Proof. intros H. cbn. apply map_eq. intros j. destruct (decide (j = i)) as [->|Hj].
  - rewrite lookup_partial_alter, lookup_insert, H. reflexivity.
  - rewrite lookup_partial_alter_ne, lookup_insert_ne by congruence. reflexivity.
Qed.
Lemma perform_del i tab : perform (Some (i, Del)) tab = delete i tab.
Proof. reflexivity. Qed.

Lemma chmod_tie w cwd p m w' r :
  chmod_syscall w cwd p m = Done (w', r) ->
  runs (w_ino w) (w_next w) (Root (RChmod (normpath cwd p) m) First) (w_ino w') (w_next w') (Back (Ret r)).
Proof.
  unfold chmod_syscall, metawalk. intros H. destruct (metawalkandparent _ _) as [[x q]|] eqn:Hw; [|discriminate H].
  cbn [obind fst] in H. destruct x as [i|].
  2: { injection H as <- <-. eapply runs_root; [exact Hw|reflexivity|]. cbn. auto. }
  unfold chmod_helper in H. destruct (Z.land m S_IRWXA =? m) eqn:Em.
  2: { injection H as <- <-. eapply runs_root; [exact Hw|cbn [after fst]; rewrite Em; reflexivity|]. cbn. auto. }
  unfold get_ino in H. destruct (w_ino w !! i) as [x|] eqn:Ei; [|discriminate H]. injection H as <- <-.
  eapply runs_root; [exact Hw|cbn [after fst]; rewrite Em; reflexivity|]. cbn [runs_res].
  eapply runs_one; [cbn [act]; unfold fetch; rewrite Ei; reflexivity|].
  cbn [runs_res]. rewrite perform_put. destruct (i_kind x); auto.
Qed.

(** Creation *)
Lemma create_tie w o par f x w1 : 
  add_child par f (w_next w) x w = Done w1 -> newobj o par (w_next w) = x ->
  (exists y, w_ino w !! par = Some y /\ i_kind y = KDir) ->
  (match o with ROpen _ _ _ | RMkdir _ _ | RMknod _ _ _ => True | _ => False end) ->
  runs (w_ino w) (w_next w) (Num o par f) (w_ino w1) (w_next w1)
    (match o with ROpen _ _ _ => Opened (w_next w) | _ => Back (Ret 0) end).
Proof.
  intros H Hx (y & Ey & Ky) Ho. unfold add_child, get_ino in H. rewrite Ey in H. cbn [obind] in H. injection H as <-. cbn.
  eapply runs_go; [reflexivity|]. cbn [perform].
  eapply runs_go; [cbn [act]; unfold fetch; rewrite Ey; cbn [obind]; rewrite Ky; reflexivity|].
  rewrite (perform_add _ _ _ _ _ Ey).
  eapply runs_one; [reflexivity|]. rewrite perform_put, Hx. destruct o; try destruct Ho; cbn; auto.
Qed.

Lemma mkdir_tie w cwd p m w' r :
  p <> "" -> mkdir_syscall w cwd p m = Done (w', r) ->
  runs (w_ino w) (w_next w) (Root (RMkdir (normpath cwd p) m) First) (w_ino w') (w_next w') (Back (Ret r)).
Proof.
  intros Hp H. unfold mkdir_syscall in H. rewrite (proj2 (String.eqb_neq _ _) Hp) in H.
  destruct (metawalkandparent _ _) as [[x q]|] eqn:Hw; [|discriminate H]. cbn [obind] in H.
  destruct x as [i|]; [injection H as <- <-; eapply runs_root; [exact Hw|reflexivity|]; cbn; auto|].
  destruct q as [par|]; [|injection H as <- <-; eapply runs_root; [exact Hw|reflexivity|]; cbn; auto].
  destruct (file_name (normpath cwd p)) as [f|] eqn:Ef; [|discriminate H].
  destruct (negb (sane_mode m)) eqn:Em.
  { injection H as <- <-. eapply runs_root; [exact Hw|cbn [after]; rewrite Ef, Em; reflexivity|]. cbn. auto. }
  destruct (add_child _ _ _ _ _) as [w1|] eqn:Ea; [|discriminate H]. injection H as <- <-.
  eapply runs_root; [exact Hw|cbn [after]; rewrite Ef, Em; reflexivity|]. cbn [runs_res].
  exact (create_tie w (RMkdir (normpath cwd p) m) par f _ w1 Ea eq_refl (par_dir _ _ _ _ Hw) I).
Qed.

Lemma mknod_tie w cwd p m d w' r :
  p <> "" -> mknod_syscall w cwd p m d = Done (w', r) ->
  runs (w_ino w) (w_next w) (Root (RMknod (normpath cwd p) m d) First) (w_ino w') (w_next w') (Back (Ret r)).
Proof.
  intros Hp H. unfold mknod_syscall in H. rewrite (proj2 (String.eqb_neq _ _) Hp) in H.
  destruct (metawalkandparent _ _) as [[x q]|] eqn:Hw; [|discriminate H]. cbn [obind] in H.
  destruct x as [i|]; [injection H as <- <-; eapply runs_root; [exact Hw|reflexivity|]; cbn; auto|].
  destruct q as [par|]; [|injection H as <- <-; eapply runs_root; [exact Hw|reflexivity|]; cbn; auto].
  destruct (file_name (normpath cwd p)) as [f|] eqn:Ef; [|discriminate H].
  destruct (negb (sane_mode m)) eqn:Em.
  { injection H as <- <-. eapply runs_root; [exact Hw|cbn [after]; rewrite Ef, Em; reflexivity|]. cbn. auto. }
  destruct (Z.land m S_IFCHR =? 0) eqn:Ec.
  { injection H as <- <-. eapply runs_root; [exact Hw|cbn [after]; rewrite Ef, Em, Ec; reflexivity|]. cbn. auto. }
  destruct (add_child _ _ _ _ _) as [w1|] eqn:Ea; [|discriminate H]. injection H as <- <-.
  eapply runs_root; [exact Hw|cbn [after]; rewrite Ef, Em, Ec; reflexivity|]. cbn [runs_res].
  exact (create_tie w (RMknod (normpath cwd p) m d) par f _ w1 Ea eq_refl (par_dir _ _ _ _ Hw) I).
Qed.

Lemma open_fobj_ino i n w : w_ino (open_fobj i n w) = w_ino w /\ w_next (open_fobj i n w) = w_next w.
Proof. unfold open_fobj. destruct (w_fobj w !! i); split; reflexivity. Qed.
Lemma remove_host_ino i w w' : remove_host i w = Done w' -> w_ino w' = w_ino w /\ w_next w' = w_next w.
Proof. unfold remove_host. destruct (d_host (w_disk w) !! i); [|discriminate]. intros [= <-]. split; reflexivity. Qed.
Lemma find_in (P : Z -> bool) l x : find P l = Some x -> x ∈ l.
Proof. intros H. apply find_some in H as [H _]. apply elem_of_list_In. exact H. Qed.
Transparent next_fd.
Lemma next_fd_pos w c fd : next_fd w c 0 = Some fd -> 0 <= fd.
Proof. intros H. apply find_in in H. apply elem_of_seqZ in H. lia. Qed.
Opaque next_fd.

Lemma open_tie w c cwd p fl m w' r :
  p <> "" -> open_syscall w c cwd p fl m = Done (w', r) -> r <> err ENFILE ->
  exists R, runs (w_ino w) (w_next w) (Root (ROpen (normpath cwd p) fl m) First) (w_ino w') (w_next w') R /\
    (if r <? 0 then R = Back (Ret r) else exists i pos g, w_fds w' !! (c, r) = Some (FFile i pos g) /\ R = Opened i).
Proof.
  intros Hp H Hr. unfold open_syscall in H. rewrite (proj2 (String.eqb_neq _ _) Hp) in H.
  destruct (next_fd w c 0) as [fd|] eqn:Efd; [|injection H as _ <-; destruct (Hr eq_refl)].
  assert (Hfd : (fd <? 0) = false) by (apply next_fd_pos in Efd; apply Z.ltb_ge; exact Efd).
  destruct (metawalkandparent _ _) as [[x q]|] eqn:Hw; [|discriminate H]. cbn [obind] in H.
  destruct x as [i|].
  - destruct (_ =? _) eqn:Ee.
    { injection H as <- <-. eexists. split; [eapply runs_root; [exact Hw|cbn [after]; rewrite Ee; reflexivity|]; cbn; auto|reflexivity]. }
    unfold get_ino in H. destruct (w_ino w !! i) as [x|] eqn:Ei; [|discriminate H]. cbn [obind] in H.
    destruct (i_kind x) eqn:Ek.
    + destruct (if Z.land fl O_TRUNC =? O_TRUNC then _ else _) as [w1|] eqn:E1; [|discriminate H]. cbn [obind] in H. injection H as <- <-.
      rewrite Hfd.
      assert (E2 : (w_ino w1 = w_ino w \/ exists y, w_ino w1 = <[i := y]> (w_ino w)) /\ w_next w1 = w_next w).
      { destruct (Z.land fl O_TRUNC =? O_TRUNC); [|injection E1 as <-; auto].
        apply remove_host_ino in E1 as [-> ->]. cbn. split; [right; eauto|reflexivity]. }
      destruct E2 as [E2 En]. destruct (open_fobj_ino i (if Z.land fl O_TRUNC =? O_TRUNC then 0 else i_size x) w1) as [O1 O2].
      eexists. split.
      * eapply runs_root; [exact Hw|cbn [after]; rewrite Ee; reflexivity|]. cbn [runs_res].
        eapply runs_one; [cbn [act]; unfold fetch; rewrite Ei; cbn [obind]; rewrite Ek; reflexivity|].
        cbn [runs_res]. rewrite perform_put. cbn. rewrite O1, O2, En. split; [|auto].
        destruct E2 as [->|[y ->]]; [reflexivity|]. rewrite insert_insert. reflexivity.
      * exists i. eexists _, _. split; [cbn; apply lookup_insert|reflexivity].
    + injection H as <- <-. rewrite Hfd. eexists. split.
      * eapply runs_root; [exact Hw|cbn [after]; rewrite Ee; reflexivity|]. cbn [runs_res].
        eapply runs_one; [cbn [act]; unfold fetch; rewrite Ei; cbn [obind]; rewrite Ek; reflexivity|]. cbn. auto.
      * exists i. eexists _, _. split; [cbn; apply lookup_insert|reflexivity].
    + injection H as <- <-. rewrite Hfd. eexists. split.
      * eapply runs_root; [exact Hw|cbn [after]; rewrite Ee; reflexivity|]. cbn [runs_res].
        eapply runs_one; [cbn [act]; unfold fetch; rewrite Ei; cbn [obind]; rewrite Ek; reflexivity|]. cbn. auto.
      * exists i. eexists _, _. split; [cbn; apply lookup_insert|reflexivity].
    + injection H as <- <-. eexists. split; [|reflexivity].
      eapply runs_root; [exact Hw|cbn [after]; rewrite Ee; reflexivity|]. cbn [runs_res].
      eapply runs_one; [cbn [act]; unfold fetch; rewrite Ei; cbn [obind]; rewrite Ek; reflexivity|]. cbn. auto.
  - destruct q as [par|]; [|injection H as <- <-; eexists; split; [eapply runs_root; [exact Hw|reflexivity|]; cbn; auto|reflexivity]].
    destruct (negb (hasbit fl O_CREAT)) eqn:E1.
    { injection H as <- <-. eexists. split; [eapply runs_root; [exact Hw|cbn [after]; rewrite E1; reflexivity|]; cbn; auto|reflexivity]. }
    destruct (Z.land S_IFCHR fl =? S_IFCHR) eqn:E2.
    { injection H as <- <-. eexists. split; [eapply runs_root; [exact Hw|cbn [after]; rewrite E1, E2; reflexivity|]; cbn; auto|reflexivity]. }
    destruct (negb (sane_mode m)) eqn:E3.
    { injection H as <- <-. eexists. split; [eapply runs_root; [exact Hw|cbn [after]; rewrite E1, E2, E3; reflexivity|]; cbn; auto|reflexivity]. }
    destruct (file_name (normpath cwd p)) as [f|] eqn:Ef; [|discriminate H].
    destruct (add_child _ _ _ _ _) as [w1|] eqn:Ea; [|discriminate H]. injection H as <- <-. rewrite Hfd.
    destruct (open_fobj_ino (w_next w) 0 w1) as [O1 O2].
    eexists. split.
    + eapply runs_root; [exact Hw|cbn [after]; rewrite E1, E2, E3, Ef; reflexivity|]. cbn [runs_res]. cbn. rewrite O1, O2.
      exact (create_tie w (ROpen (normpath cwd p) fl m) par f _ w1 Ea eq_refl (par_dir _ _ _ _ Hw) I).
    + exists (w_next w). eexists _, _. split; [cbn; apply lookup_insert|reflexivity].
Qed.

Lemma get_ino_done w i x : get_ino w i = Done x -> w_ino w !! i = Some x.
Proof. unfold get_ino. destruct (w_ino w !! i); [intros [= <-]; reflexivity|discriminate]. Qed.
Lemma fetch_some tab i x : tab !! i = Some x -> fetch tab i = Done x.
Proof. intros H. unfold fetch. rewrite H. reflexivity. Qed.
Lemma dec_done v l : dec v = Done l -> l = v - 1.
Proof. unfold dec. destruct (v <=? 0); [discriminate|]. intros [= <-]. reflexivity. Qed.

Lemma link_tie w cwd p q w' r :
  (forall i x, w_ino w !! i = Some x -> 0 <= i_link x) ->
  p <> "" -> q <> "" -> link_syscall w cwd p q = Done (w', r) ->
  is_Some (file_name (normpath cwd q)) /\
  runs (w_ino w) (w_next w) (Root (RLink (normpath cwd p) (normpath cwd q)) First) (w_ino w') (w_next w') (Back (Ret r)).
Proof.
  intros Hpos Hp Hq H. unfold link_syscall, metawalk in H.
  rewrite (proj2 (String.eqb_neq _ _) Hp), (proj2 (String.eqb_neq _ _) Hq) in H.
  destruct (file_name (normpath cwd q)) as [f|] eqn:Ef; [|discriminate H]. split; [eauto|].
  destruct (metawalkandparent _ (normpath cwd p)) as [[x y]|] eqn:Hw; [|discriminate H]. cbn [obind fst] in H.
  destruct x as [i|]; [|injection H as <- <-; eapply runs_root; [exact Hw|reflexivity|]; cbn; auto].
  destruct (get_ino w i) as [x|] eqn:Ei; [|discriminate H]. cbn [obind] in H. apply get_ino_done in Ei.
  eapply runs_root; [exact Hw|reflexivity|]. cbn [runs_res].
  destruct (decide (i_kind x = KDir)) as [Ek|Ek].
  { rewrite Ek in H. injection H as <- <-. eapply runs_one; [cbn [act]; rewrite (fetch_some _ _ _ Ei); cbn [obind]; rewrite Ek; reflexivity|].
    cbn. auto. }
  set (w1 := put_ino i (set_link (i_link x + 1) x) w) in *.
  assert (H' : (do r <- metawalkandparent (w_ino w1) (normpath cwd q);
              match r with
              | (None, None) => Done (put_ino i x w1, err ENOENT)
              | (Some _, _) => Done (put_ino i x w1, err EEXIST)
              | (None, Some par) =>
                  do p <- get_ino w1 par;
                  let w2 := put_ino par (set_link (i_link p + 1) (set_dict (<[f := i]> (i_dict p)) p)) w1 in
                  Done (log_meta i (log_meta par w2), 0)
              end) = Done (w', r)) by (destruct (i_kind x); [exact H|destruct (Ek eq_refl)|exact H|exact H]).
  clear H. destruct (metawalkandparent (w_ino w1) (normpath cwd q)) as [[u v]|] eqn:Hw2; [|discriminate H']. cbn [obind] in H'.
  apply (runs_go _ _ _ (Some (i, Put (set_link (i_link x + 1) x))) false (Root (RLink (normpath cwd p) (normpath cwd q)) (Second i 0))).
  { cbn [act]. rewrite (fetch_some _ _ _ Ei). cbn [obind]. destruct (i_kind x); [reflexivity|destruct (Ek eq_refl)|reflexivity|reflexivity]. }
  rewrite perform_put. change (<[i := set_link (i_link x + 1) x]> (w_ino w)) with (w_ino w1). cbv iota.
  assert (Hundo : forall e, runs (w_ino w1) (w_next w) (LnUndo i e) (w_ino (put_ino i x w1)) (w_next w) (Back (Ret e))).
  { intros e. assert (E1 : w_ino w1 !! i = Some (set_link (i_link x + 1) x)) by apply lookup_insert.
    assert (E0 : 0 <= i_link x) by exact (Hpos i x Ei).
    eapply runs_one.
    - cbn [act]. rewrite (fetch_some _ _ _ E1). cbn [obind]. unfold dec. cbn [i_link set_link i_kind].
      destruct (i_link x + 1 <=? 0) eqn:E2; [apply Z.leb_le in E2; lia|]. cbn [obind].
      instantiate (1 := Back (Ret e)). instantiate (1 := false).
      instantiate (1 := Some (i, Put (set_link (i_link x + 1 - 1) (set_link (i_link x + 1) x)))).
      destruct (i_kind x); [reflexivity|destruct (Ek eq_refl)|reflexivity|reflexivity].
    - cbn [runs_res]. rewrite perform_put. split; [|auto]. cbn. f_equal.
      unfold set_link. cbn. rewrite Z.add_simpl_r. destruct x; reflexivity. }
  destruct u as [j|].
  { injection H' as <- <-. eapply runs_root; [exact Hw2|reflexivity|]. exact (Hundo (err EEXIST)). }
  destruct v as [par|].
  2: { injection H' as <- <-. eapply runs_root; [exact Hw2|reflexivity|]. exact (Hundo (err ENOENT)). }
  destruct (get_ino w1 par) as [y0|] eqn:Epar; [|discriminate H']. cbn [obind] in H'. injection H' as <- <-.
  apply get_ino_done in Epar. destruct (par_dir _ _ _ _ Hw2) as (y1 & Ey1 & Ky1). rewrite Epar in Ey1. injection Ey1 as <-.
  eapply runs_root; [exact Hw2|cbn [after]; rewrite Ef; reflexivity|]. cbn [runs_res].
  eapply runs_one; [cbn [act]; rewrite (fetch_some _ _ _ Epar); cbn [obind]; rewrite Ky1; reflexivity|].
  cbn [runs_res]. rewrite (perform_add _ _ _ _ _ Epar). cbn. auto.
Qed.

(** What [remove_from_parent] does to the directory *)
Lemma rfp_tie w par tp w2 res f : remove_from_parent par tp w = Done (w2, res) -> file_name tp = Some f ->
  exists p, w_ino w !! par = Some p /\ i_kind p = KDir /\
    (no_write_bits (i_mode p) = true /\ w2 = w /\ res = err EPERM \/
     no_write_bits (i_mode p) = false /\ (exists j, i_dict p !! f = Some j) /\ dec (i_link p) = Done (i_link p - 1) /\ res = 0 /\
     w_ino w2 = <[par := set_link (i_link p - 1) (set_dict (delete f (i_dict p)) p)]> (w_ino w) /\ w_next w2 = w_next w).
Proof.
  intros H Hf. unfold remove_from_parent in H. destruct (get_ino w par) as [p|] eqn:Ep; [|discriminate H]. cbn [obind] in H.
  apply get_ino_done in Ep. exists p. split; [exact Ep|]. destruct (i_kind p); try discriminate H. split; [reflexivity|].
  destruct (no_write_bits (i_mode p)); [injection H as <- <-; left; auto|]. right. split; [reflexivity|].
  rewrite Hf in H. destruct (i_dict p !! f) as [j|]; [|discriminate H]. split; [eauto|].
  destruct (dec (i_link p)) as [l|] eqn:Ed; [|discriminate H]. cbn [obind] in H. injection H as <- <-.
  rewrite (dec_done _ _ Ed). auto.
Qed.

Lemma unlink_tie w cwd p w' r :
  p <> "" -> unlink_syscall w cwd p = Done (w', r) ->
  runs (w_ino w) (w_next w) (Root (RUnlink (normpath cwd p)) First) (w_ino w') (w_next w') (Back (Ret r)).
Proof.
  intros Hp H. unfold unlink_syscall in H. rewrite (proj2 (String.eqb_neq _ _) Hp) in H.
  destruct (metawalkandparent _ _) as [[x q]|] eqn:Hw; [|discriminate H]. cbn [obind] in H.
  destruct x as [i|]; [|injection H as <- <-; eapply runs_root; [exact Hw|reflexivity|]; cbn; auto].
  destruct q as [par|]; [|injection H as <- <-; eapply runs_root; [exact Hw|reflexivity|]; cbn; auto].
  destruct (get_ino w i) as [x|] eqn:Ei; [|discriminate H]. cbn [obind] in H. apply get_ino_done in Ei.
  assert (Hf : exists f, file_name (normpath cwd p) = Some f) by (apply walk_parent in Hw as (? & f & ? & _ & _ & _ & _ & _ & Hf); eauto).
  destruct Hf as [f Hf].
  eapply runs_root; [exact Hw|cbn [after]; rewrite Hf; reflexivity|]. cbn [runs_res].
  destruct (decide (i_kind x = KDir)) as [Ek|Ek].
  { rewrite Ek in H. injection H as <- <-. eapply runs_one; [cbn [act]; rewrite (fetch_some _ _ _ Ei); cbn [obind]; rewrite Ek; reflexivity|].
    cbn. auto. }
  assert (H' : (do l <- dec (i_link x);
          let w1 := put_ino i (set_link l x) w in
          do wr <- remove_from_parent par (normpath cwd p) w1;
          let '(w2, res) := wr in
          if negb (res =? 0) then Done (w2, res) else
          do w3 <- (if (l =? 0) && (i_ref x =? 0)
                    then let w' := del_ino i w2 in
                         match i_kind x with KFile => remove_host i w' | _ => Done w' end
                    else Done w2);
          let w4 := with_dsock (fun s => s ∖ {[normpath cwd p]}) w3 in
          Done (match i_kind x with KSock => w4 | _ => log_meta i (log_meta par w4) end, 0)) = Done (w', r))
    by (destruct (i_kind x); [exact H|destruct (Ek eq_refl)|exact H|exact H]).
  clear H. destruct (dec (i_link x)) as [l|] eqn:El; [|discriminate H']. cbn [obind] in H'.
  set (w1 := put_ino i (set_link l x) w) in *. cbv zeta in H'.
  destruct (remove_from_parent par (normpath cwd p) w1) as [[w2 res]|] eqn:Erp; [|discriminate H']. cbn [obind] in H'.
  apply (runs_go _ _ _ (Some (i, Put (set_link l x))) false (UnRem i par f ((l =? 0) && (i_ref x =? 0)))).
  { cbn [act]. rewrite (fetch_some _ _ _ Ei). cbn [obind]. rewrite El. cbn [obind].
    destruct (i_kind x); [reflexivity|destruct (Ek eq_refl)|reflexivity|reflexivity]. }
  rewrite perform_put. change (<[i := set_link l x]> (w_ino w)) with (w_ino w1). cbv iota.
  destruct (rfp_tie _ _ _ _ _ _ Erp Hf) as (y & Ey & Ky & [(Hn & -> & ->)|(Hn & (j & Hj) & Hd & -> & Et & En)]).
  { injection H' as <- <-. eapply runs_one; [cbn [act]; rewrite (fetch_some _ _ _ Ey); cbn [obind]; rewrite Ky, Hn; reflexivity|].
    cbn. auto. }
  cbn [negb Z.eqb] in H'.
  destruct ((l =? 0) && (i_ref x =? 0)) eqn:Eg.
  - destruct (match i_kind x with KFile => _ | _ => _ end) as [w3|] eqn:E3; [|discriminate H']. cbn [obind] in H'. injection H' as <- <-.
    assert (E4 : w_ino w3 = delete i (w_ino w2) /\ w_next w3 = w_next w2).
    { destruct (i_kind x); [apply remove_host_ino in E3; exact E3|injection E3 as <-; auto..]. }
    destruct E4 as [E4 E5].
    eapply runs_go; [cbn [act]; rewrite (fetch_some _ _ _ Ey); cbn [obind]; rewrite Ky, Hn, Hj, Hd; reflexivity|].
    rewrite (perform_delname _ _ _ _ Ey), <- Et. eapply runs_one; [reflexivity|]. cbn [runs_res]. rewrite perform_del, <- E4.
    replace (w_next w) with (w_next w3) by (rewrite E5, En; reflexivity). destruct (i_kind x); auto.
  - cbn [obind] in H'. injection H' as <- <-.
    eapply runs_one; [cbn [act]; rewrite (fetch_some _ _ _ Ey); cbn [obind]; rewrite Ky, Hn, Hj, Hd; reflexivity|].
    rewrite (perform_delname _ _ _ _ Ey), <- Et. cbn [runs_res].
    replace (w_next w) with (w_next w2) by (rewrite En; reflexivity). destruct (i_kind x); auto.
Qed.

Lemma rmdir_tie w cwd p w' r :
  p <> "" -> rmdir_syscall w cwd p = Done (w', r) ->
  runs (w_ino w) (w_next w) (Root (RRmdir (normpath cwd p)) First) (w_ino w') (w_next w') (Back (Ret r)).
Proof.
  intros Hp H. unfold rmdir_syscall in H. rewrite (proj2 (String.eqb_neq _ _) Hp) in H.
  destruct (metawalkandparent _ _) as [[x q]|] eqn:Hw; [|discriminate H]. cbn [obind] in H.
  destruct x as [i|]; [|injection H as <- <-; eapply runs_root; [exact Hw|reflexivity|]; cbn; auto].
  destruct q as [par|]; [|injection H as <- <-; eapply runs_root; [exact Hw|reflexivity|]; cbn; auto].
  destruct (get_ino w par) as [y|] eqn:Ep; [|discriminate H]. cbn [obind] in H. apply get_ino_done in Ep.
  assert (Hf : exists f, file_name (normpath cwd p) = Some f) by (apply walk_parent in Hw as (? & f & ? & _ & _ & _ & _ & _ & Hf); eauto).
  destruct Hf as [f Hf]. destruct (par_dir _ _ _ _ Hw) as (y1 & Ey1 & Ky). rewrite Ep in Ey1. injection Ey1 as <-.
  eapply runs_root; [exact Hw|cbn [after]; rewrite Hf; reflexivity|]. cbn [runs_res].
  destruct (no_write_bits (i_mode y)) eqn:Eno.
  { injection H as <- <-. eapply runs_one; [cbn [act]; rewrite (fetch_some _ _ _ Ep); cbn [obind]; rewrite Ky, Eno; reflexivity|]. cbn. auto. }
  eapply runs_go; [cbn [act]; rewrite (fetch_some _ _ _ Ep); cbn [obind]; rewrite Ky, Eno; reflexivity|]. cbn [perform]. cbv iota.
  destruct (get_ino w i) as [x|] eqn:Ei; [|discriminate H]. cbn [obind] in H. apply get_ino_done in Ei.
  destruct (i_kind x) eqn:Ek;
    try (injection H as <- <-; eapply runs_one; [cbn [act]; rewrite (fetch_some _ _ _ Ei); cbn [obind]; rewrite Ek; reflexivity|]; cbn; auto; fail).
  destruct (3 <? i_link x) eqn:E3.
  { injection H as <- <-. eapply runs_one; [cbn [act]; rewrite (fetch_some _ _ _ Ei); cbn [obind]; rewrite Ek, E3; reflexivity|]. cbn. auto. }
  destruct (negb (is_dir (i_mode x))) eqn:E4; [discriminate H|].
  destruct (no_write_bits (i_mode x)) eqn:E5.
  { injection H as <- <-. eapply runs_one; [cbn [act]; rewrite (fetch_some _ _ _ Ei); cbn [obind]; rewrite Ek, E3, E4, E5; reflexivity|]. cbn. auto. }
  cbv zeta in H. destruct (i_ref x =? 0) eqn:E6; cbv iota in H.
  - set (w1 := put_ino i (set_link 2 x) w) in *.
    eapply runs_go; [cbn [act]; rewrite (fetch_some _ _ _ Ei); cbn [obind]; rewrite Ek, E3, E4, E5, E6; reflexivity|].
    rewrite perform_put. change (<[i := set_link 2 x]> (w_ino w)) with (w_ino w1). cbv iota.
    destruct (remove_from_parent par (normpath cwd p) w1) as [[w2 res]|] eqn:Erp; [|discriminate H]. cbn [obind] in H.
    destruct (rfp_tie _ _ _ _ _ _ Erp Hf) as (z & Ez & Kz & [(Hn & -> & ->)|(Hn & (j & Hj) & Hd & -> & Et & En)]).
    { injection H as <- <-. eapply runs_one; [cbn [act]; rewrite (fetch_some _ _ _ Ez); cbn [obind]; rewrite Kz, Hn; reflexivity|].
      cbn. auto. }
    cbn [negb Z.eqb] in H. injection H as <- <-.
    eapply runs_go; [cbn [act]; rewrite (fetch_some _ _ _ Ez); cbn [obind]; rewrite Kz, Hn, Hj, Hd; reflexivity|].
    rewrite (perform_delname _ _ _ _ Ez), <- Et. cbv iota.
    assert (Ei2 : exists u, w_ino w2 !! i = Some u).
    { rewrite Et. destruct (decide (par = i)) as [->|Hne]; [rewrite lookup_insert; eauto|].
      rewrite lookup_insert_ne by exact Hne. unfold w1. cbn. rewrite lookup_insert. eauto. }
    destruct Ei2 as [u Eu]. eapply runs_one; [cbn [act]; rewrite (fetch_some _ _ _ Eu); reflexivity|].
    cbn [runs_res]. rewrite perform_del. cbn. rewrite En. auto.
  - eapply runs_go; [cbn [act]; rewrite (fetch_some _ _ _ Ei); cbn [obind]; rewrite Ek, E3, E4, E5, E6; reflexivity|].
    cbn [perform]. cbv iota.
    destruct (remove_from_parent par (normpath cwd p) w) as [[w2 res]|] eqn:Erp; [|discriminate H]. cbn [obind] in H.
    destruct (rfp_tie _ _ _ _ _ _ Erp Hf) as (z & Ez & Kz & [(Hn & -> & ->)|(Hn & (j & Hj) & Hd & -> & Et & En)]).
    { injection H as <- <-. eapply runs_one; [cbn [act]; rewrite (fetch_some _ _ _ Ez); cbn [obind]; rewrite Kz, Hn; reflexivity|].
      cbn. auto. }
    cbn [negb Z.eqb] in H. injection H as <- <-.
    eapply runs_one; [cbn [act]; rewrite (fetch_some _ _ _ Ez); cbn [obind]; rewrite Kz, Hn, Hj, Hd; reflexivity|].
    rewrite (perform_delname _ _ _ _ Ez), <- Et. cbn [runs_res]. cbn. rewrite En. auto.
Qed.

Lemma rename_tie w cwd p q w' r :
  p <> "" -> q <> "" -> rename_syscall w cwd p q = Done (w', r) ->
  runs (w_ino w) (w_next w) (Root (RRename (normpath cwd p) (normpath cwd q)) First) (w_ino w') (w_next w') (Back (Ret r)).
Proof.
  intros Hp Hq H. unfold rename_syscall in H.
  rewrite (proj2 (String.eqb_neq _ _) Hp), (proj2 (String.eqb_neq _ _) Hq) in H.
  destruct (metawalkandparent _ (normpath cwd p)) as [[x y]|] eqn:Hw; [|discriminate H]. cbn [obind] in H.
  destruct x as [i|]; [|injection H as <- <-; eapply runs_root; [exact Hw|reflexivity|]; cbn; auto].
  destruct y as [par|]; [|injection H as <- <-; eapply runs_root; [exact Hw|reflexivity|]; cbn; auto].
  destruct (metawalkandparent _ (normpath cwd q)) as [r2|] eqn:Hw2; [|discriminate H]. cbn [obind] in H.
  eapply runs_root; [exact Hw|reflexivity|]. cbn [runs_res].
  destruct (negb (bool_decide (snd r2 = Some par))) eqn:Eb.
  { injection H as <- <-. eapply runs_root; [exact Hw2|cbn [after]; rewrite Eb; reflexivity|]. cbn. auto. }
  destruct (get_ino w par) as [z|] eqn:Ep; [|discriminate H]. cbn [obind] in H. apply get_ino_done in Ep.
  destruct (par_dir _ _ _ _ Hw) as (y1 & Ey1 & Ky). rewrite Ep in Ey1. injection Ey1 as <-.
  destruct (file_name (normpath cwd p)) as [fo|] eqn:Efo; [|discriminate H].
  destruct (file_name (normpath cwd q)) as [fn|] eqn:Efn; [|discriminate H]. injection H as <- <-.
  eapply runs_root; [exact Hw2|cbn [after]; rewrite Eb, Efo, Efn; reflexivity|]. cbn [runs_res].
  eapply runs_one; [cbn [act]; rewrite (fetch_some _ _ _ Ep); cbn [obind]; rewrite Ky; reflexivity|].
  rewrite (perform_mv _ _ _ _ _ _ Ep). cbn. auto.
Qed.

(** *** Any of the calls *)
Lemma one_call_det i s a b : one_call i s a -> one_call i s b -> a = b.
Proof.
  intros (_ & a1 & Ha & Ga) (_ & b1 & Hb & Gb). rewrite Ha in Hb. injection Hb as <-.
  clear Ha. revert b Gb. induction Ga as [s1 He|s1 s2 a Hn Hs _ IH]; intros b Gb.
  - destruct Gb as [s1 _|s1 s3 b Hn Hs _]; [reflexivity|]. destruct He as [He|He]; [destruct (Hn He)|].
    unfold rgo in Hs. rewrite He in Hs. discriminate Hs.
  - destruct Gb as [s1 [He|He]|s1 s3 b _ Hs' Gb]; [destruct (Hn He)|unfold rgo in Hs; rewrite He in Hs; discriminate Hs|].
    rewrite Hs in Hs'. injection Hs' as <-. exact (IH _ Gb).
Qed.

Lemma call_tie disp w c cwd o ro w' r :
  reach disp w -> w_cwd w !! c = Some cwd -> asks cwd o ro -> step w c o = Done (w', r) -> r <> Ret (err ENFILE) ->
  forall s i t rest, r_tab s = w_ino w -> r_next s = w_next w -> r_dead s = false -> all_rest s ->
  r_proc s !! i = Some t -> t_todo t = ro :: rest ->
  exists t', one_call i s (Rst (w_ino w') (w_next w') (<[i := t']> (r_proc s)) false) /\
    t_todo t' = rest /\ same_answer w' c ro r t t'.
Proof.
  intros Hreach Hc Ha Hs Hr s i t rest E1 E2 Hd Hrest Ht Et.
  assert (Hpos : forall i x, w_ino w !! i = Some x -> 0 <= i_link x).
  { intros j x Hx. apply reach_winv in Hreach. pose proof (v_n _ (u_inv _ Hreach)) as Hn.
    destruct (decide (i_kind x = KDir)) as [Hk|Hk].
    - pose proof (n_dlink _ _ Hn _ _ Hx Hk). pose proof (nkids_nonneg (w_ino w) j). cbn in *. lia.
    - pose proof (n_link _ _ Hn _ _ Hx Hk). pose proof (cnt_nonneg (fun e : Z * string * Z => e.2 =? j) (names (w_ino w))). unfold nnames in *. cbn in *. lia. }
  assert (Hfin : forall R, begin ro (t_open t) = Done (Go (Root ro First)) -> drop_fd ro (t_open t) = t_open t ->
    runs (w_ino w) (w_next w) (Root ro First) (w_ino w') (w_next w') R ->
    (forall t', t' = lead R (Proc Idle rest (t_open t) (t_outs t)) -> same_answer w' c ro r t t') ->
    exists t', one_call i s (Rst (w_ino w') (w_next w') (<[i := t']> (r_proc s)) false) /\
    t_todo t' = rest /\ same_answer w' c ro r t t').
  { intros R Hb Hdr Hrun Hans. rewrite <- E1, <- E2 in Hrun.
    destruct (runs_call s i t ro rest _ _ R Hd Hrest Ht Et Hb Hrun) as (t' & Hcall & Et').
    rewrite Hdr in Et'. exists t'. split; [exact Hcall|]. split; [subst t'; destruct R; reflexivity|exact (Hans _ Et')]. }
  unfold step in Hs. rewrite Hc in Hs.
  destruct Ha as [p|p m|p fl m Hp|p m Hp|p m Hp|p m d Hp|p q Hp Hq|p Hp|p Hp|p q Hp Hq]; unfold ret, same in Hs.
  - destruct (stat_syscall w cwd p) as [x|] eqn:E; [|discriminate Hs]. injection Hs as <- <-.
    apply (Hfin _ eq_refl eq_refl (stat_tie _ _ _ _ E)). intros t' ->. split; reflexivity.
  - destruct (chmod_syscall w cwd p m) as [[w1 x]|] eqn:E; [|discriminate Hs]. injection Hs as <- <-.
    apply (Hfin _ eq_refl eq_refl (chmod_tie _ _ _ _ _ _ E)). intros t' ->. split; reflexivity.
  - destruct (open_syscall w c cwd p fl m) as [[w1 x]|] eqn:E; [|discriminate Hs]. injection Hs as <- <-.
    destruct (open_tie _ _ _ _ _ _ _ _ Hp E) as (R & Hrun & HR); [cbn in Hr; congruence|].
    apply (Hfin R eq_refl eq_refl Hrun). intros t' ->. unfold same_answer. cbn [snd fst] in *.
    destruct (x <? 0); [subst R; split; reflexivity|]. destruct HR as (j & pos & g & Hj & ->). exists j, pos, g. auto.
  - unfold creat_syscall in Hs. destruct (open_syscall w c cwd p _ m) as [[w1 x]|] eqn:E; [|discriminate Hs]. injection Hs as <- <-.
    destruct (open_tie _ _ _ _ _ _ _ _ Hp E) as (R & Hrun & HR); [cbn in Hr; congruence|].
    apply (Hfin R eq_refl eq_refl Hrun). intros t' ->. unfold same_answer. cbn [snd fst] in *.
    destruct (x <? 0); [subst R; split; reflexivity|]. destruct HR as (j & pos & g & Hj & ->). exists j, pos, g. auto.
  - destruct (mkdir_syscall w cwd p m) as [[w1 x]|] eqn:E; [|discriminate Hs]. injection Hs as <- <-.
    apply (Hfin _ eq_refl eq_refl (mkdir_tie _ _ _ _ _ _ Hp E)). intros t' ->. split; reflexivity.
  - destruct (mknod_syscall w cwd p m d) as [[w1 x]|] eqn:E; [|discriminate Hs]. injection Hs as <- <-.
    apply (Hfin _ eq_refl eq_refl (mknod_tie _ _ _ _ _ _ _ Hp E)). intros t' ->. split; reflexivity.
  - destruct (link_syscall w cwd p q) as [[w1 x]|] eqn:E; [|discriminate Hs]. injection Hs as <- <-.
    destruct (link_tie _ _ _ _ _ _ Hpos Hp Hq E) as [[f Hf] Hrun].
    refine (Hfin _ _ eq_refl Hrun _); [cbn; rewrite Hf; reflexivity|]. intros t' ->. split; reflexivity.
  - destruct (unlink_syscall w cwd p) as [[w1 x]|] eqn:E; [|discriminate Hs]. injection Hs as <- <-.
    apply (Hfin _ eq_refl eq_refl (unlink_tie _ _ _ _ _ Hp E)). intros t' ->. split; reflexivity.
  - destruct (rmdir_syscall w cwd p) as [[w1 x]|] eqn:E; [|discriminate Hs]. injection Hs as <- <-.
    apply (Hfin _ eq_refl eq_refl (rmdir_tie _ _ _ _ _ Hp E)). intros t' ->. split; reflexivity.
  - destruct (rename_syscall w cwd p q) as [[w1 x]|] eqn:E; [|discriminate Hs]. injection Hs as <- <-.
    apply (Hfin _ eq_refl eq_refl (rename_tie _ _ _ _ _ _ Hp Hq E)). intros t' ->. split; reflexivity.
Qed.

(** *** Names in a file system that some history led to *)
Lemma dict_size t d x : t !! d = Some x -> Z.of_nat (size (i_dict x)) <= 2 + nkids t d.
Proof.
  intros Hx. set (m := delete ".." (delete "." (i_dict x))).
  assert (Hm : Z.of_nat (size (i_dict x)) <= 2 + Z.of_nat (size m)).
  { unfold m. rewrite !map_size_delete. destruct (delete "." (i_dict x) !! ".."), (i_dict x !! "."); cbn; lia. }
  assert (Hk : nkids t d = Z.of_nat (length ((fun e : string * Z => (d, e.1)) <$> map_to_list m))).
  { apply cnt_list.
    - apply (NoDup_fmap_2_strong (fun e : string * Z => (d, e.1))); [|apply NoDup_map_to_list].
      intros [f1 j1] [f2 j2] H1 H2 [= ->]. apply elem_of_map_to_list in H1, H2. rewrite H1 in H2. injection H2 as ->. reflexivity.
    - intros [d' f]. rewrite elem_of_list_fmap. split.
      + intros ([f' j] & [= -> ->] & H). apply elem_of_map_to_list in H. unfold m in H.
        apply lookup_delete_Some in H as [N1 H]. apply lookup_delete_Some in H as [N2 H].
        exists j. split; [|cbn; apply Z.eqb_refl]. apply names_entry. split; [congruence|]. split; [congruence|]. eauto.
      + intros (j & H & Hb). cbn in Hb. apply Z.eqb_eq in Hb as ->. apply names_entry in H as (N1 & N2 & y & Hy & Hf).
        rewrite Hx in Hy. injection Hy as <-. exists (f, j). split; [reflexivity|]. apply elem_of_map_to_list.
        unfold m. rewrite !lookup_delete_ne by congruence. exact Hf. }
  rewrite fmap_length in Hk. change (length (map_to_list m)) with (size m) in Hk. lia.
Qed.

Lemma reach_separate disp w bs :
  reach disp w ->
  (forall b, b ∈ bs -> canonical b /\ b <> []) ->
  (forall i j a b, bs !! i = Some a -> bs !! j = Some b -> i <> j -> ~ a `prefix_of` b) ->
  (forall b p f, b ∈ bs -> b = p ++ [f] -> exists d x, resolves (w_ino w) p d /\ w_ino w !! d = Some x /\ i_kind x = KDir) ->
  (forall a b p q i x, a ∈ bs -> b ∈ bs -> canonical p -> canonical q -> a `prefix_of` p -> b `prefix_of` q ->
     resolves (w_ino w) p i -> resolves (w_ino w) q i -> w_ino w !! i = Some x -> i_kind x <> KDir -> a = b) ->
  separate (w_ino w) (w_next w) bs.
Proof.
  intros Hr Hc Hap Hpar Hlink. pose proof (reach_winv _ _ Hr) as Hw. pose proof (v_n _ (u_inv _ Hw)) as Hn. cbn in Hn.
  assert (Habove : forall b p f r, b ∈ bs -> b = p ++ f :: r ->
    exists d x, resolves (w_ino w) p d /\ w_ino w !! d = Some x /\ i_kind x = KDir /\ Z.of_nat (size (i_dict x)) <= i_link x).
  { intros b p f r Hb E.
    assert (H : exists d x, resolves (w_ino w) p d /\ w_ino w !! d = Some x /\ i_kind x = KDir).
    { destruct r as [|g r _] using rev_ind; [exact (Hpar b p f Hb E)|].
      destruct (Hpar b (p ++ f :: r) g Hb) as (d & x & Hd & _); [rewrite E, <- app_assoc; reflexivity|].
      clear -Hd. revert d Hd. induction r as [|h r IH] using rev_ind; intros d Hd.
      - apply resolves_snoc in Hd as (e & y & He & Hy & Ky & _). eauto.
      - replace (p ++ f :: r ++ [h]) with ((p ++ f :: r) ++ [h]) in Hd by (rewrite <- app_assoc; reflexivity).
        apply resolves_snoc in Hd as (e & y & He & _). exact (IH e He). }
    destruct H as (d & x & Hd & Hx & Hk). exists d, x. split; [exact Hd|]. split; [exact Hx|]. split; [exact Hk|].
    pose proof (n_dlink _ _ Hn _ _ Hx Hk). pose proof (dict_size _ _ _ Hx). lia. }
  split.
  - exact Hc.
  - exact Hap.
  - exact Habove.
  - intros p q i Cp Cq (a & Ia & Ha) (b & Ib & Hb) Rp Rq.
    assert (Hex : is_Some (w_ino w !! i)) by exact (resolves_exists w p i Hw Cp Rp). destruct Hex as [x Hx].
    destruct (decide (i_kind x = KDir)) as [Hk|Hk].
    { left. exact (dir_unique_path _ w p q i x Hr Hx Hk Cp Cq Rp Rq). }
    assert (Hdown : forall c p, c ∈ bs -> (p `prefix_of` c \/ c `prefix_of` p) -> resolves (w_ino w) p i -> c `prefix_of` p).
    { intros c p0 Ic [[k Ek]|Hp0] R0; [|exact Hp0]. destruct k as [|f k]; [rewrite app_nil_r in Ek; rewrite Ek; reflexivity|].
      destruct (Habove c p0 f k Ic Ek) as (d & y & Rd & Hy & Ky & _). rewrite (resolves_det _ _ _ _ Rd R0) in Hy.
      rewrite Hx in Hy. injection Hy as <-. destruct (Hk Ky). }
    pose proof (Hdown a p Ia Ha Rp) as Pa. pose proof (Hdown b q Ib Hb Rq) as Pb.
    right. exists a. split; [exact Ia|]. split; [exact Pa|].
    rewrite (Hlink a b p q i x Ia Ib Cp Cq Pa Pb Rp Rq Hx Hk). exact Pb.
  - destruct (n_root _ _ Hn) as (rt & Hrt & _).
    assert (Hlt : forall i x, w_ino w !! i = Some x -> i < w_next w) by (intros i x Hx; apply (n_range _ _ Hn _ _ Hx)).
    split; [exact (Hlt _ _ Hrt)|]. split; [exact Hlt|].
    intros d f i He. apply names_entry in He. apply (n_ent _ _ Hn) in He as [[x Hx] _]. exact (Hlt _ _ Hx).
Qed.
