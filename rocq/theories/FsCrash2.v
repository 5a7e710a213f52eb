(** Every reachable world agrees with what recovery would read, and every
    moment of a call that creates nothing leaves a whole tree. *)
From Verif Require Import Base PathModel PathSpec PathProofs FsModel FsBoot FsSpec FsWalk Count FsNames FsTr FsInv FsInv2
  FsSteps FsSteps2 FsFrame FsReachSpec FsReach FsCrashSpec FsCrash.
Local Open Scope list_scope.
Local Open Scope Z_scope.

Opaque all_fds.

(** ** The recovered table is whole *)
Definition good (d : disk) : Prop :=
  exists t, logged d = Some t /\ (exists r, fsck t !! ROOTINO = Some r /\ i_kind r = KDir) /\ whole (fsck t).

Definition good_but (e : Z -> Prop) (d : disk) : Prop :=
  exists t, logged d = Some t /\ (exists r, fsck t !! ROOTINO = Some r /\ i_kind r = KDir) /\ whole_but e (fsck t).
Lemma whole_none t : whole t <-> whole_but (fun _ => False) t.
Proof. split; intros H d f i E; [left; exact (H _ _ _ E)|]. destruct (H _ _ _ E) as [|[]]; assumption. Qed.
Lemma good_good_but e d : good d -> good_but e d.
Proof. intros (t & H1 & H2 & H3). exists t. split; [exact H1|]. split; [exact H2|]. intros a f i E. left. exact (H3 _ _ _ E). Qed.

Lemma good_meq d d' : meq d d' -> good d' -> good d.
Proof. intros H (t & H1 & H2). exists t. rewrite (proj1 (logged_meq _ _ H)). auto. Qed.

Lemma fsck_lookup t i x : fsck t !! i = Some x <-> t !! i = Some x /\ fsck_keep x = true.
Proof. unfold fsck. rewrite map_filter_lookup_Some. reflexivity. Qed.

Lemma sat_some r x : sat r (Some x) -> exists y, r = Some y /\ same_attrs y x /\ i_ref y = 0 /\
  (i_size y = i_size x \/ i_kind x = KFile /\ i_size x = 0).
Proof.
  intros [->|(y & s & [= <-] & Hk & Hs & ->)]; cbn.
  - exists (strip x). split; [reflexivity|]. repeat split; auto.
  - exists (strip (set_size s x)). split; [reflexivity|]. repeat split; auto.
Qed.
Lemma sat_none r : sat r None -> r = None.
Proof. intros [->|(y & s & [=] & _)]. reflexivity. Qed.
Lemma sat_back r x y : sat r x -> r = Some y -> exists z, x = Some z.
Proof. intros H ->. destruct x; [eauto|]. apply sat_none in H. discriminate H. Qed.

Section Kept.
Context (t u : gmap Z inode) (n : Z) (Hi : inv_n u n) (Hs : forall i, sat (t !! i) (u !! i)).

Lemma dir_kept d x : u !! d = Some x -> i_kind x = KDir ->
  exists y, fsck t !! d = Some y /\ same_attrs y x.
Proof using Hi Hs.
  intros Hx Hk. pose proof (Hs d) as H. rewrite Hx in H. apply sat_some in H as (y & Ey & A & _ & _).
  exists y. split; [|exact A]. apply fsck_lookup. split; [exact Ey|]. unfold fsck_keep. destruct A as (A1 & _ & A3 & _).
  rewrite A1, Hk. pose proof (n_dlink _ _ Hi d x Hx Hk). pose proof (nkids_nonneg u d). lia.
Qed.
Lemma named_kept k i : names u !! k = Some i ->
  exists x y, u !! i = Some x /\ fsck t !! i = Some y /\ same_attrs y x /\ (i_size y = i_size x \/ i_kind x = KFile /\ i_size x = 0).
Proof using Hi Hs.
  intros Hk. destruct k as [d f]. destruct (n_ent _ _ Hi _ _ _ Hk) as [[x Hx] _].
  pose proof (Hs i) as H. rewrite Hx in H. apply sat_some in H as (y & Ey & A & _ & B).
  exists x, y. split; [exact Hx|]. split; [|auto]. apply fsck_lookup. split; [exact Ey|]. unfold fsck_keep. pose proof A as (A1 & _ & A3 & _).
  rewrite A1. destruct (decide (i_kind x = KDir)) as [Ek|Ek].
  - rewrite Ek. pose proof (n_dlink _ _ Hi i x Hx Ek). pose proof (nkids_nonneg u i). lia.
  - pose proof (n_link _ _ Hi i x Hx Ek) as Hl. assert (nnames u i <> 0) by (rewrite nnames_zero; intros Hc; exact (Hc _ Hk)).
    pose proof (nnames_nonneg u i). pose proof (n_sock _ _ Hi i x Hx). destruct (i_kind x); try congruence; lia.
Qed.
Lemma fsck_names d f i : entry (fsck t) d f i -> names u !! (d, f) = Some i.
Proof using Hs.
  intros (H1 & H2 & y & Hy & Hf). apply fsck_lookup in Hy as [Hy _]. pose proof (Hs d) as H.
  destruct (sat_back _ _ _ H Hy) as [x Hx]. rewrite Hx in H. apply sat_some in H as (y' & Ey & (_ & _ & _ & A) & _).
  rewrite Hy in Ey. injection Ey as <-. apply names_entry. split; [exact H1|]. split; [exact H2|]. exists x. split; [exact Hx|]. congruence.
Qed.
Lemma root_kept : exists r, fsck t !! ROOTINO = Some r /\ i_kind r = KDir.
Proof using Hi Hs.
  destruct (n_root _ _ Hi) as (r & Hr & Hk). destruct (dir_kept _ _ Hr Hk) as (y & Hy & A & _). exists y. split; [exact Hy|congruence].
Qed.
Lemma whole_kept : whole (fsck t).
Proof using Hi Hs.
  intros d f i He. apply fsck_names in He. destruct (named_kept _ _ He) as (x & y & _ & Hy & _). eauto.
Qed.

(** One directory replaced by another version of it, whose entries have names
    already, except possibly those of the objects in [e] *)
Lemma mid_kept (e : Z -> Prop) par q p' : u !! par = Some q -> i_kind q = KDir -> fsck_keep p' = true -> i_kind p' = KDir ->
  (forall f j, dotb f = false -> i_dict p' !! f = Some j -> (exists k, names u !! k = Some j) \/ e j) ->
  (exists r, fsck (<[par := p']> t) !! ROOTINO = Some r /\ i_kind r = KDir) /\ whole_but e (fsck (<[par := p']> t)).
Proof using Hi Hs.
  intros Hq Hqk Hkeep Hpk Hp. split.
  - destruct (decide (par = ROOTINO)) as [->|Hne].
    + exists p'. split; [|exact Hpk]. apply fsck_lookup. rewrite lookup_insert. auto.
    + destruct root_kept as (r & Hr & Hk). exists r. split; [|exact Hk]. apply fsck_lookup in Hr as [? ?]. apply fsck_lookup.
      rewrite lookup_insert_ne by assumption. auto.
  - intros d f i (F1 & F2 & y & Hy & Hf).
    assert (Hd : (exists k, names u !! k = Some i) \/ e i).
    { apply fsck_lookup in Hy as [Hy Hyk]. destruct (decide (par = d)) as [->|Hne].
      - rewrite lookup_insert in Hy. injection Hy as <-. apply (Hp f); [apply dotb_false; auto|exact Hf].
      - rewrite lookup_insert_ne in Hy by assumption. left. exists (d, f). apply fsck_names. split; [exact F1|]. split; [exact F2|].
        exists y. split; [apply fsck_lookup; auto|exact Hf]. }
    destruct Hd as [[k Hk]|He]; [left|right; exact He]. destruct (decide (par = i)) as [->|Hne].
    + exists p'. apply fsck_lookup. rewrite lookup_insert. auto.
    + destruct (named_kept _ _ Hk) as (x & z & _ & Hz & _). exists z. apply fsck_lookup in Hz as [? ?]. apply fsck_lookup.
      rewrite lookup_insert_ne by assumption. auto.
Qed.
End Kept.

Lemma ds_good w n : inv_n (w_ino w) n -> ds [] w -> good (w_disk w).
Proof.
  intros Hi (t & H1 & H2 & _). assert (Hs : forall i, sat (t !! i) (w_ino w !! i)) by (intros i; apply H2, not_elem_of_nil).
  exists t. split; [exact H1|]. split; [exact (root_kept _ _ _ Hi Hs)|exact (whole_kept _ _ _ Hi Hs)].
Qed.

(** ** Two log records: the directory first, then the object *)
Definition twolog (w w' : world) : Prop :=
  exists w1 par q p' i x, quiet w w1 /\
    w_trace w' = (w_trace w1 ++ [PLog par (Some (strip p'))]) ++ [PLog i x] /\
    w_disk w' = apply_eff (PLog i x) (apply_eff (PLog par (Some (strip p'))) (w_disk w1)) /\
    w_ino w !! par = Some q /\ i_kind q = KDir /\ w_ino w' !! par = Some p' /\ i_kind p' = KDir /\
    (forall f j, dotb f = false -> i_dict p' !! f = Some j -> exists k, names (w_ino w) !! k = Some j).

Lemma quiet_disk w w1 : quiet w w1 -> meq (w_disk w1) (w_disk w).
Proof. intros (es & [_ E] & F). rewrite E. exact (hosty_after es _ F). Qed.
Lemma meq_log i x d d' : meq d d' -> meq (apply_eff (PLog i x) d) (apply_eff (PLog i x) d').
Proof. intros [H1 H2]. split; cbn; congruence. Qed.
Lemma meq_trans a b c : meq a b -> meq b c -> meq a c.
Proof. intros [A1 A2] [B1 B2]. split; congruence. Qed.
Lemma meq_sym a b : meq a b -> meq b a.
Proof. intros [A1 A2]. split; congruence. Qed.

Lemma twolog_good w w' n n' d : inv_n (w_ino w) n -> inv_n (w_ino w') n' -> ds [] w -> ds [] w' -> twolog w w' ->
  crash_point w w' d -> good d.
Proof.
  intros Hi Hi' Hd Hd' (w1 & par & q & p' & i & x & Q & T & D & Hq & Hqk & Hp & Hpk & Hn) (a & b & Hab & ->).
  pose proof (quiet_disk _ _ Q) as Qd. destruct Q as (es & [E1 E2] & F). rewrite T, E1, <- !app_assoc in Hab. apply app_inv_head in Hab.
  rewrite app_assoc in Hab. symmetry in Hab. destruct (app_snoc_prefix _ _ _ _ Hab) as [[l Hl]| ->].
  - symmetry in Hl. destruct (app_snoc_prefix _ _ _ _ Hl) as [[l' ->]| ->].
    + apply Forall_app in F as [F _]. refine (good_meq _ _ _ (ds_good _ _ Hi Hd)). exact (hosty_after _ _ F).
    + rewrite after_app, <- E2. cbn [after fold_left].
      refine (good_meq _ (apply_eff (PLog par (Some (strip p'))) (w_disk w)) (meq_log _ _ _ _ Qd) _).
      destruct Hd as (t & H1 & H2 & _). assert (Hs : forall j, sat (t !! j) (w_ino w !! j)) by (intros j; apply H2, not_elem_of_nil).
      exists (<[par := strip p']> t). split; [exact (logged_log _ _ _ _ H1)|].
      rewrite whole_none. apply (mid_kept t (w_ino w) n Hi Hs (fun _ => False) par q (strip p') Hq Hqk).
      * unfold fsck_keep. change (i_kind (strip p')) with (i_kind p'). rewrite Hpk. change (i_link (strip p')) with (i_link p').
        pose proof (n_dlink _ _ Hi' _ _ Hp Hpk). pose proof (nkids_nonneg (w_ino w') par). lia.
      * exact Hpk.
      * intros f j Hf Hj. left. exact (Hn f j Hf Hj).
  - rewrite after_app, after_app, <- E2. refine (good_meq _ (w_disk w') _ (ds_good _ _ Hi' Hd')). rewrite D. split; reflexivity.
Qed.

(** ** Creation *)
Lemma newlog_good w w' n n' d : inv_n (w_ino w) n -> (forall i, is_Some (w_ino w !! i) -> i < w_next w) -> inv_n (w_ino w') n' ->
  ds [] w -> ds [] w' -> newlog w w' -> crash_point w w' d -> good_but (fun i => i = w_next w) d.
Proof.
  intros Hi Hb Hi' Hd Hd' (w1 & par & q & f & x & Q & T & Hq & Hn) (a & b & Hab & ->).
  assert (Hne : par <> w_next w). { specialize (Hb par (mk_is_Some _ _ Hq)). lia. }
  specialize (T Hne) as (T & D & Hp). set (p' := set_link _ _) in *.
  assert (Hpk : i_kind p' = KDir).
  { destruct (decide (i_kind p' = KDir)) as [|Hk]; [assumption|]. pose proof (n_flat _ _ Hi' _ _ Hp Hk) as E.
    assert (E2 : i_dict p' !! f = Some (w_next w)) by apply lookup_insert. rewrite E in E2. rewrite lookup_empty in E2. discriminate E2. }
  pose proof (quiet_disk _ _ Q) as Qd. destruct Q as (es & [E1 E2] & F). rewrite E1, T, <- !app_assoc in Hab. apply app_inv_head in Hab.
  cbn [app] in Hab. destruct a as [|a0 a]; [exact (good_good_but _ _ (ds_good _ _ Hi Hd))|].
  cbn [app] in Hab. injection Hab as <- Hab. destruct a as [|a1 a].
  - cbn [after fold_left]. destruct Hd as (t & H1 & H2 & _). assert (Hs : forall j, sat (t !! j) (w_ino w !! j)) by (intros j; apply H2, not_elem_of_nil).
    exists (<[par := strip p']> t). split; [exact (logged_log _ _ _ _ H1)|].
    apply (mid_kept t (w_ino w) n Hi Hs (fun i => i = w_next w) par q (strip p') Hq Hpk).
    + unfold fsck_keep. change (i_kind (strip p')) with (i_kind p'). rewrite Hpk. change (i_link (strip p')) with (i_link p').
      pose proof (n_dlink _ _ Hi' _ _ Hp Hpk). pose proof (nkids_nonneg (w_ino w') par). lia.
    + exact Hpk.
    + intros g j Hg. change (i_dict (strip p')) with (<[f := w_next w]> (i_dict q)). intros Hj.
      destruct (decide (f = g)) as [<-|Hfg]; [right; rewrite lookup_insert in Hj; congruence|left].
      rewrite lookup_insert_ne in Hj by assumption. exists (par, g). rewrite names_lookup, Hg, Hq. exact Hj.
  - cbn [app] in Hab. injection Hab as <- Hab. apply good_good_but. refine (good_meq _ (w_disk w') _ (ds_good _ _ Hi' Hd')).
    change (after (PLog par (Some (strip p')) :: PLog (w_next w) (Some (strip x)) :: a) (w_disk w))
      with (after a (apply_eff (PLog (w_next w) (Some (strip x))) (apply_eff (PLog par (Some (strip p'))) (w_disk w)))).
    rewrite <- D. apply (meq_trans _ (w_disk w1)); [|exact (meq_sym _ _ Qd)].
    subst es. apply Forall_app in F as [F _]. exact (hosty_after _ _ F).
Qed.

Definition dt (w w' : world) : Prop := (ds [] w -> ds [] w') /\ (onelog w w' \/ twolog w w').
Lemma dt_refl w : dt w w.
Proof. destruct (dq_refl w). split; auto. Qed.

Lemma link_dt w cwd a b w' r : inv (core_of w) -> canonical cwd -> link_syscall w cwd a b = Done (w', r) -> dt w w'.
Proof.
  intros Hi Hc H. pose proof (dt_refl w) as Ho. unfold link_syscall in H.
  destruct (String.eqb a ""); [injection H as <- _; exact Ho|]. destruct (String.eqb b ""); [injection H as <- _; exact Ho|].
  pose proof (normpath_canonical cwd a Hc) as Hca. pose proof (normpath_canonical cwd b Hc) as Hcb.
  destruct (file_name (normpath cwd b)) as [f|] eqn:Hfb; [|discriminate H].
  destruct (metawalk (w_ino w) (normpath cwd a)) as [[i|]|] eqn:Hma; cbn [obind] in H; [|injection H as <- _; exact Ho|discriminate H].
  destruct (get_ino w i) as [x|] eqn:Hx; cbn [obind] in H; [|discriminate H]. apply get_ino_done in Hx.
  destruct (decide (i_kind x = KDir)) as [Hk|Hk]. { rewrite Hk in H. injection H as <- _. exact Ho. }
  assert (Hrev : dt w (put_ino i x (put_ino i (set_link (i_link x + 1) x) w))).
  { replace (put_ino i x (put_ino i (set_link (i_link x + 1) x) w)) with w; [exact Ho|].
    unfold put_ino, with_ino. cbn. rewrite insert_insert, insert_id by assumption. destruct w; reflexivity. }
  assert (H' : (do r0 <- metawalkandparent (<[i := set_link (i_link x + 1) x]> (w_ino w)) (normpath cwd b);
      match r0 with
      | (None, None) => Done (put_ino i x (put_ino i (set_link (i_link x + 1) x) w), err ENOENT)
      | (Some _, _) => Done (put_ino i x (put_ino i (set_link (i_link x + 1) x) w), err EEXIST)
      | (None, Some par) =>
          do p <- get_ino (put_ino i (set_link (i_link x + 1) x) w) par;
          Done (log_meta i (log_meta par (put_ino par (set_link (i_link p + 1) (set_dict (<[f := i]> (i_dict p)) p)) (put_ino i (set_link (i_link x + 1) x) w))), 0)
      end) = Done (w', r)).
  { destruct (i_kind x); try congruence; exact H. }
  clear H. rename H' into H.
  destruct (metawalkandparent _ (normpath cwd b)) as [[[j|] [par|]]|] eqn:Hw; cbn [obind] in H; try discriminate H;
    try (injection H as <- _; exact Hrev).
  destruct (walk_par _ _ _ _ Hcb Hw) as (f' & q & Hf & Hq & Hqk & Hqf & Hdot & Hnm).
  assert (f' = f) by congruence. subst f'.
  assert (Hne : par <> i).
  { intros ->. rewrite lookup_insert in Hq. injection Hq as <-. cbn in Hqk. congruence. }
  unfold get_ino in H. cbn [put_ino with_ino w_ino] in H. rewrite Hq in H. cbn [obind] in H. injection H as <- _.
  rewrite lookup_insert_ne in Hq by congruence.
  set (p' := set_link (i_link q + 1) (set_dict (<[f := i]> (i_dict q)) q)).
  set (w2 := put_ino par p' (put_ino i (set_link (i_link x + 1) x) w)).
  split.
  - intros Hd. refine (ds_log i [i] [] _ _ (ds_log par [par; i] [i] w2 _ (ds_put [i] par p' _ (ds_put [] i _ w Hd)))); set_solver.
  - right. exists w, par, q, p', i, (strip <$> w_ino w2 !! i).
    assert (Hp2 : w_ino w2 !! par = Some p') by apply lookup_insert.
    assert (Hl : log_meta par w2 = emit (PLog par (Some (strip p'))) w2) by (unfold log_meta; rewrite Hp2; reflexivity).
    split; [exact (quiet_refl w)|]. rewrite Hl. split; [reflexivity|]. split; [reflexivity|].
    split; [exact Hq|]. split; [exact Hqk|]. split; [exact Hp2|]. split; [exact Hqk|].
    intros g j Hg. change (i_dict p') with (<[f := i]> (i_dict q)). intros Hj.
    destruct (decide (f = g)) as [<-|Hfg].
    + rewrite lookup_insert in Hj. injection Hj as <-. apply metawalk_named in Hma; [|assumption]. destruct Hma as [->|Hk']; [|exact Hk'].
      destruct (n_root _ _ (v_n _ Hi)) as (rt & Hr1 & Hr2). cbn in Hr1. congruence.
    + rewrite lookup_insert_ne in Hj by assumption. exists (par, g). rewrite names_lookup, Hg, Hq. exact Hj.
Qed.

Lemma kind_match (k : ikind) {A} (X : ikind -> A) (Y : A) : k <> KDir ->
  match k with KDir => Y | k' => X k' end = X k.
Proof. destruct k; congruence. Qed.

Lemma unlink_dt w cwd p w' r : inv (core_of w) -> canonical cwd -> unlink_syscall w cwd p = Done (w', r) -> r <> err EPERM -> dt w w'.
Proof.
  intros Hi Hc H Hr. pose proof (dt_refl w) as Ho. unfold unlink_syscall in H. destruct (String.eqb p ""); [injection H as <- _; exact Ho|].
  pose proof (normpath_canonical cwd p Hc) as Hcp.
  destruct (metawalkandparent (w_ino w) (normpath cwd p)) as [[[i|] par]|] eqn:Hw; cbn [obind] in H; [|injection H as <- _; exact Ho|discriminate H].
  destruct par as [par|]; [|injection H as <- _; exact Ho].
  destruct (walk_par _ _ _ _ Hcp Hw) as (f & q & Hf & Hq & Hqk & Hqf & Hdot & Hnm).
  destruct (get_ino w i) as [x|] eqn:Hx; cbn [obind] in H; [|discriminate H]. apply get_ino_done in Hx.
  assert (Hsock : i_kind x <> KSock) by exact (n_sock _ _ (v_n _ Hi) _ _ Hx).
  destruct (decide (i_kind x = KDir)) as [Hk|Hk]. { rewrite Hk in H. injection H as <- _. exact Ho. }
  assert (Hne : par <> i) by congruence.
  destruct (dec (i_link x)) as [l|] eqn:Hl; [|destruct (i_kind x); cbn [obind] in H; congruence].
  apply dec_done in Hl as [-> Hpos].
  unfold remove_from_parent, get_ino in H. cbn [obind] in H. cbn [put_ino with_ino w_ino] in H.
  rewrite lookup_insert_ne in H by congruence. rewrite Hq in H. cbn [obind] in H. rewrite Hqk, Hf, Hqf in H.
  assert (Hb : no_write_bits (i_mode q) = false).
  { destruct (no_write_bits (i_mode q)) eqn:E; [|reflexivity]. exfalso.
    destruct (i_kind x); try contradiction; cbn [obind] in H;
      change (negb (err EPERM =? 0)) with true in H; cbv iota in H; injection H as _ Hr'; apply Hr; symmetry; exact Hr'. }
  rewrite Hb in H.
  destruct (dec (i_link q)) as [lq|] eqn:Hlq; [|destruct (i_kind x); cbn in H; congruence].
  apply dec_done in Hlq as [-> _].
  set (p' := set_link (i_link q - 1) (set_dict (delete f (i_dict q)) q)) in *.
  set (w1 := put_ino i (set_link (i_link x - 1) x) w) in *.
  set (w2 := put_ino par p' w1) in *.
  assert (Hw3 : exists w3, quiet w w3 /\ (ds [] w -> ds [par; i] w3) /\ w_ino w3 !! par = Some p' /\
     w' = log_meta i (log_meta par (with_dsock (fun s => s ∖ {[normpath cwd p]}) w3))).
  { assert (Q2 : quiet w w2) by exact (quiet_refl w).
    assert (K2 : ds [] w -> ds [par; i] w2) by (intros Hd; exact (ds_put [i] par p' w1 (ds_put [] i _ w Hd))).
    assert (P2 : w_ino w2 !! par = Some p') by apply lookup_insert.
    assert (P3 : w_ino (del_ino i w2) !! par = Some p').
    { change (w_ino (del_ino i w2)) with (delete i (w_ino w2)). rewrite lookup_delete_ne by congruence. exact P2. }
    assert (K3 : ds [] w -> ds [par; i] (del_ino i w2)).
    { intros Hd. refine (ds_sub [i; par; i] [par; i] _ _ (ds_del _ i w2 (K2 Hd))). set_solver. }
    destruct (i_kind x) as [| |ma mi|] eqn:Ek; try congruence; cbn [obind] in H; cbn [Z.eqb negb] in H;
      destruct ((i_link x - 1 =? 0) && (i_ref x =? 0)) eqn:Eg; cbn [obind] in H.
    - match type of H with context [remove_host i ?u] => destruct (remove_host i u) as [w3|] eqn:E3; cbn [obind] in H; [|discriminate H] end. apply remove_host_eq in E3. change (w3 = emit (PRemove i) (del_ino i w2)) in E3. subst w3.
      injection H as <- _. exists (emit (PRemove i) (del_ino i w2)). split; [exact (quiet_emit w (del_ino i w2) (PRemove i) I Q2)|].
      split; [intros Hd; exact (ds_hosty _ (PRemove i) _ I (K3 Hd))|]. split; [exact P3|reflexivity].
    - injection H as <- _. exists w2. auto.
    - injection H as <- _. exists (del_ino i w2). split; [exact Q2|]. auto.
    - injection H as <- _. exists w2. auto. }
  clear H. destruct Hw3 as (w3 & Q & K & P & ->). set (w4 := with_dsock _ w3).
  assert (Hp4 : w_ino w4 !! par = Some p') by exact P.
  assert (Hl4 : log_meta par w4 = emit (PLog par (Some (strip p'))) w4) by (unfold log_meta; rewrite Hp4; reflexivity).
  split.
  - intros Hd. refine (ds_log i [i] [] _ _ (ds_log par [par; i] [i] w4 _ (K Hd))); set_solver.
  - right. exists w3, par, q, p', i, (strip <$> w_ino w4 !! i). split; [exact Q|]. rewrite Hl4.
    split; [reflexivity|]. split; [reflexivity|]. split; [exact Hq|]. split; [exact Hqk|]. split; [exact Hp4|]. split; [exact Hqk|].
    intros g j Hg. change (i_dict p') with (delete f (i_dict q)). intros Hj. apply lookup_delete_Some in Hj as [_ Hj].
    exists (par, g). rewrite names_lookup, Hg, Hq. exact Hj.
Qed.

Lemma rmdir_dt w cwd p w' r : inv (core_of w) -> canonical cwd -> rmdir_syscall w cwd p = Done (w', r) -> dt w w'.
Proof.
  intros Hi Hc H. pose proof (dt_refl w) as Ho. unfold rmdir_syscall in H. destruct (String.eqb p ""); [injection H as <- _; exact Ho|].
  pose proof (normpath_canonical cwd p Hc) as Hcp.
  destruct (metawalkandparent (w_ino w) (normpath cwd p)) as [[[i|] par]|] eqn:Hw; cbn [obind] in H; [|injection H as <- _; exact Ho|discriminate H].
  destruct par as [par|]; [|injection H as <- _; exact Ho].
  destruct (walk_par _ _ _ _ Hcp Hw) as (f & q & Hf & Hq & Hqk & Hqf & Hdot & Hnm).
  destruct (get_ino w par) as [q'|] eqn:Hq'; cbn [obind] in H; [|discriminate H]. apply get_ino_done in Hq'.
  assert (q' = q) by congruence. subst q'. clear Hq'.
  destruct (no_write_bits (i_mode q)) eqn:Eb; [injection H as <- _; exact Ho|].
  destruct (get_ino w i) as [x|] eqn:Hx; cbn [obind] in H; [|discriminate H]. apply get_ino_done in Hx.
  destruct (i_kind x) eqn:Ek; try (injection H as <- _; exact Ho).
  destruct (3 <? i_link x); [injection H as <- _; exact Ho|].
  destruct (negb (is_dir (i_mode x))); [discriminate H|].
  destruct (no_write_bits (i_mode x)); [injection H as <- _; exact Ho|].
  assert (Hin : names (w_ino w) !! (par, f) = Some i) by (rewrite names_lookup, Hdot, Hq; exact Hqf).
  assert (Hne : par <> i). { destruct (n_up _ _ (v_n _ Hi) _ _ _ _ Hx Ek Hin) as [_ ?]. lia. }
  assert (Hw3 : exists w3, quiet w w3 /\ (ds [] w -> ds [par; i] w3) /\
     w_ino w3 !! par = Some (set_link (i_link q - 1) (set_dict (delete f (i_dict q)) q)) /\ w' = log_meta i (log_meta par w3)).
  { unfold remove_from_parent, get_ino in H. destruct (i_ref x =? 0).
    - cbn [put_ino with_ino w_ino] in H. rewrite lookup_insert_ne in H by congruence. rewrite Hq in H. cbn [obind] in H. rewrite Hqk, Eb, Hf, Hqf in H.
      destruct (dec (i_link q)) as [lq|] eqn:Hlq; cbn [obind] in H; [|discriminate H]. apply dec_done in Hlq as [-> _]. cbn [Z.eqb negb] in H.
      injection H as <- _. set (w1 := put_ino i (set_link 2 x) w). eexists (del_ino i (put_ino par _ w1)).
      split; [exact (quiet_refl w)|]. split; [|split; [|reflexivity]].
      + intros Hd. refine (ds_sub [i; par; i] [par; i] _ _ (ds_del _ i _ (ds_put [i] par _ w1 (ds_put [] i _ w Hd)))). set_solver.
      + cbn [put_ino del_ino with_ino w_ino]. rewrite lookup_delete_ne by congruence. apply lookup_insert.
    - rewrite Hq in H. cbn [obind] in H. rewrite Hqk, Eb, Hf, Hqf in H.
      destruct (dec (i_link q)) as [lq|] eqn:Hlq; cbn [obind] in H; [|discriminate H]. apply dec_done in Hlq as [-> _]. cbn [Z.eqb negb] in H.
      injection H as <- _. eexists (put_ino par _ w). split; [exact (quiet_refl w)|]. split; [|split; [|reflexivity]].
      + intros Hd. refine (ds_sub [par] [par; i] _ _ (ds_put [] par _ w Hd)). set_solver.
      + apply lookup_insert. }
  clear H. destruct Hw3 as (w4 & Q & K & P & ->).
  set (p' := set_link (i_link q - 1) (set_dict (delete f (i_dict q)) q)) in *.
  assert (Hl4 : log_meta par w4 = emit (PLog par (Some (strip p'))) w4) by (unfold log_meta; rewrite P; reflexivity).
  split.
  - intros Hd. refine (ds_log i [i] [] _ _ (ds_log par [par; i] [i] w4 _ (K Hd))); set_solver.
  - right. exists w4, par, q, p', i, (strip <$> w_ino w4 !! i). split; [exact Q|]. rewrite Hl4.
    split; [reflexivity|]. split; [reflexivity|]. split; [exact Hq|]. split; [exact Hqk|]. split; [exact P|]. split; [exact Hqk|].
    intros g j Hg. change (i_dict p') with (delete f (i_dict q)). intros Hj. apply lookup_delete_Some in Hj as [_ Hj].
    exists (par, g). rewrite names_lookup, Hg, Hq. exact Hj.
Qed.

Lemma rename_dq w cwd a b w' r : rename_syscall w cwd a b = Done (w', r) -> dq w w'.
Proof.
  intros H. pose proof (dq_refl w) as Ho. unfold rename_syscall in H. brk H; try exact Ho.
  split; [|exact (onelog_log w (put_ino _ _ w) _ (quiet_refl w))].
  intros Hd. refine (ds_log _ [_] [] _ _ (ds_put [] _ _ w Hd)). set_solver.
Qed.
