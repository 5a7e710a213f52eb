(** Paths as walks over the map of names, and what one changed name does to
    all paths. *)
From Verif Require Import Base PathModel PathSpec FsModel FsSpec FsWalk Count FsNames FsTr FsInv FsSteps FsNameSpec.
Local Open Scope list_scope.
Local Open Scope Z_scope.

Fixpoint nwalk (m : gmap (Z * string) Z) (d : Z) (q : list string) : option Z :=
  match q with
  | [] => Some d
  | f :: r => match m !! (d, f) with Some e => nwalk m e r | None => None end
  end.

Lemma nwalk_app m p : forall d q, nwalk m d (p ++ q) = match nwalk m d p with Some e => nwalk m e q | None => None end.
Proof. induction p as [|f p IH]; intros d q; cbn; [reflexivity|]. destruct (m !! (d, f)); [apply IH|reflexivity]. Qed.

Lemma nwalk_agree m m' q : forall d,
  (forall p1 g p2 e, q = p1 ++ g :: p2 -> nwalk m d p1 = Some e -> m' !! (e, g) = m !! (e, g)) -> nwalk m' d q = nwalk m d q.
Proof.
  induction q as [|f q IH]; intros d H; [reflexivity|]. cbn.
  rewrite (H [] f q d eq_refl eq_refl). destruct (m !! (d, f)) as [e|] eqn:E; [|reflexivity].
  apply IH. intros p1 g p2 e' -> He. apply (H (f :: p1) g p2 e'); [reflexivity|]. cbn. rewrite E. exact He.
Qed.

Lemma resolves_nwalk t n q i : inv_n t n -> canonical q -> resolves t q i <-> nwalk (names t) ROOTINO q = Some i.
Proof.
  intros Hn. revert i. induction q as [|f q IH] using rev_ind; intros i Hq.
  - cbn. split; [intros H; apply resolves_nil in H; congruence|intros [= <-]; constructor].
  - apply canonical_snoc in Hq as [Hq Hf]. rewrite nwalk_app. split.
    + intros H. apply resolves_snoc in H as (d & x & H & Hx & Hk & Hi). apply IH in H; [|assumption]. rewrite H. cbn.
      rewrite names_lookup, Hf, Hx, Hi. reflexivity.
    + destruct (nwalk (names t) ROOTINO q) as [d|] eqn:E; [|discriminate]. cbn.
      destruct (names t !! (d, f)) as [e|] eqn:En; [|discriminate]. intros [= <-].
      destruct (n_par_dir _ _ _ _ _ Hn En) as (x & Hx & Hk). rewrite names_lookup, Hf, Hx in En.
      eapply res_step; eauto. apply IH; auto.
Qed.

(** A directory has only one path *)
Lemma nwalk_unique t n p : forall q i x, inv_n t n -> t !! i = Some x -> i_kind x = KDir ->
  nwalk (names t) ROOTINO p = Some i -> nwalk (names t) ROOTINO q = Some i -> p = q.
Proof.
  induction p as [|f p IH] using rev_ind; intros q i x Hn Hx Hk H1 H2.
  - cbn in H1. injection H1 as <-. destruct q as [|g q _] using rev_ind; [reflexivity|].
    exfalso. rewrite nwalk_app in H2. destruct (nwalk _ _ q) as [d|]; [|discriminate]. cbn in H2.
    destruct (names t !! (d, g)) as [e|] eqn:E; [|discriminate]. injection H2 as ->. apply (n_ent _ _ Hn) in E. tauto.
  - rewrite nwalk_app in H1. destruct (nwalk _ _ p) as [d|] eqn:E1; [|discriminate]. cbn in H1.
    destruct (names t !! (d, f)) as [e|] eqn:En; [|discriminate]. injection H1 as ->.
    destruct q as [|g q _] using rev_ind.
    + exfalso. cbn in H2. injection H2 as <-. apply (n_ent _ _ Hn) in En. tauto.
    + rewrite nwalk_app in H2. destruct (nwalk _ _ q) as [d2|] eqn:E2; [|discriminate]. cbn in H2.
      destruct (names t !! (d2, g)) as [e|] eqn:En2; [|discriminate]. injection H2 as ->.
      pose proof (n_one _ _ Hn _ _ _ _ Hx Hk En En2) as E. injection E as <- <-. f_equal.
      destruct (n_par_dir _ _ _ _ _ Hn En) as (y & Hy & Hky). eapply IH; eauto.
Qed.

(** The names of one directory [par], whose path is [dir], may change. *)
Section edit.
  Variables (t : gmap Z inode) (n : Z) (m' : gmap (Z * string) Z) (par : Z) (p : inode) (dir : list string).
  Hypothesis Hn : inv_n t n.
  Hypothesis Hp : t !! par = Some p.
  Hypothesis Hk : i_kind p = KDir.
  Hypothesis Hdir : nwalk (names t) ROOTINO dir = Some par.
  Let m := names t.
  Hypothesis Hm : forall d f, d <> par -> m' !! (d, f) = m !! (d, f).

  Lemma edit_away q : (forall f r, q = dir ++ f :: r -> m' !! (par, f) = m !! (par, f)) -> nwalk m' ROOTINO q = nwalk m ROOTINO q.
  Proof.
    intros H. apply nwalk_agree. intros p1 g p2 e E He. destruct (decide (e = par)) as [->|]; [|apply Hm; assumption].
    assert (p1 = dir) as -> by (eapply nwalk_unique; eauto). eapply H; eauto.
  Qed.

  Lemma edit_dir : nwalk m' ROOTINO dir = Some par.
  Proof.
    rewrite edit_away; [exact Hdir|]. intros f r E. exfalso.
    assert (Hl : length dir = (length dir + S (length r))%nat) by (rewrite E at 1; rewrite app_length; reflexivity). lia.
  Qed.

  (** below a child *)
  Lemma edit_below f i r : m !! (par, f) = Some i -> nwalk m' i r = nwalk m i r.
  Proof.
    intros Hf. apply nwalk_agree. intros p1 g p2 e E He. destruct (decide (e = par)) as [->|]; [|apply Hm; assumption].
    exfalso. assert (Hw : nwalk m ROOTINO (dir ++ f :: p1) = Some par).
    { subst m. rewrite nwalk_app, Hdir. cbn. rewrite Hf. exact He. }
    pose proof (nwalk_unique _ _ _ _ _ _ Hn Hp Hk Hdir Hw) as Ed.
    assert (Hl : length dir = (length dir + S (length p1))%nat) by (rewrite Ed at 1; rewrite app_length; reflexivity). lia.
  Qed.

  Lemma edit_at f r : nwalk m' ROOTINO (dir ++ f :: r) = match m' !! (par, f) with Some e => nwalk m' e r | None => None end.
  Proof. rewrite nwalk_app, edit_dir. reflexivity. Qed.
  Lemma edit_at0 f r : nwalk m ROOTINO (dir ++ f :: r) = match m !! (par, f) with Some e => nwalk m e r | None => None end.
  Proof. subst m. rewrite nwalk_app, Hdir. reflexivity. Qed.
End edit.

Lemma flat_walk (m : gmap (Z * string) Z) i r : (forall g, m !! (i, g) = None) -> nwalk m i r = match r with [] => Some i | _ => None end.
Proof. intros H. destruct r; [reflexivity|]. cbn. rewrite H. reflexivity. Qed.

Lemma prefix_dec (q dir : list string) : (exists f r, q = dir ++ f :: r) \/ (forall f r, q <> dir ++ f :: r).
Proof.
  destruct (decide (dir `prefix_of` q)) as [[l ->]|H].
  - destruct l as [|f r]; [right|left; eauto]. intros f r E. rewrite app_nil_r in E.
    assert (Hl : length dir = (length dir + S (length r))%nat) by (rewrite E at 1; rewrite app_length; reflexivity). lia.
  - right. intros f r ->. apply H. exists (f :: r). reflexivity.
Qed.

Lemma plus_paths t n t' n' par p dir f i : inv_n t n -> inv_n t' n' -> t !! par = Some p -> i_kind p = KDir ->
  canonical (dir ++ [f]) -> resolves t dir par -> names t !! (par, f) = None ->
  names t' = <[(par, f) := i]> (names t) -> (forall g, names t !! (i, g) = None) -> i <> par ->
  names_plus t t' (dir ++ [f]) i.
Proof.
  intros Hn Hn' Hp Hk Hc Hd Hf Ht Hi Hne. pose proof (canonical_snoc _ _ Hc) as [Hcd Hdf].
  apply (resolves_nwalk _ _ _ _ Hn Hcd) in Hd.
  assert (Hm : forall d g, d <> par -> names t' !! (d, g) = names t !! (d, g)).
  { intros d g Hdg. rewrite Ht, lookup_insert_ne by congruence. reflexivity. }
  split.
  - intros j. rewrite (resolves_nwalk _ _ _ _ Hn Hc). rewrite (edit_at0 t par dir Hd), Hf. discriminate.
  - intros q j Hq. rewrite (resolves_nwalk _ _ _ _ Hn Hq), (resolves_nwalk _ _ _ _ Hn' Hq).
    destruct (prefix_dec q dir) as [(g & r & ->)|Hno].
    + rewrite (edit_at t n (names t') par p dir Hn Hp Hk Hd Hm), (edit_at0 t par dir Hd). rewrite Ht at 1.
      destruct (decide (g = f)) as [->|Hg].
      * rewrite lookup_insert, Hf. rewrite flat_walk by (intros g; rewrite Hm by assumption; apply Hi).
        destruct r as [|h r]; split; intros H.
        -- injection H as <-. right; auto.
        -- destruct H as [?|[_ ->]]; [discriminate|reflexivity].
        -- discriminate.
        -- destruct H as [?|[E _]]; [discriminate|]. apply app_inv_head in E. discriminate.
      * rewrite lookup_insert_ne by congruence. destruct (names t !! (par, g)) as [e|] eqn:Eg.
        -- rewrite (edit_below t n (names t') par p dir Hn Hp Hk Hd Hm g) by exact Eg. split; [auto|].
           intros [?|[E _]]; [assumption|]. apply app_inv_head in E. congruence.
        -- split; [auto|]. intros [?|[E _]]; [assumption|]. apply app_inv_head in E. congruence.
    + rewrite (edit_away t n (names t') par p dir Hn Hp Hk Hd Hm) by (intros g r E; destruct (Hno _ _ E)).
      split; [auto|]. intros [?|[-> _]]; [assumption|]. destruct (Hno f []). reflexivity.
Qed.

Lemma minus_paths t n t' n' par p dir f i : inv_n t n -> inv_n t' n' -> t !! par = Some p -> i_kind p = KDir ->
  canonical (dir ++ [f]) -> resolves t dir par -> names t !! (par, f) = Some i ->
  names t' = delete (par, f) (names t) -> (forall g, names t !! (i, g) = None) ->
  names_minus t t' (dir ++ [f]).
Proof.
  intros Hn Hn' Hp Hk Hc Hd Hf Ht Hi. pose proof (canonical_snoc _ _ Hc) as [Hcd Hdf].
  apply (resolves_nwalk _ _ _ _ Hn Hcd) in Hd.
  assert (Hm : forall d g, d <> par -> names t' !! (d, g) = names t !! (d, g)).
  { intros d g Hdg. rewrite Ht, lookup_delete_ne by congruence. reflexivity. }
  intros q j Hq. rewrite (resolves_nwalk _ _ _ _ Hn Hq), (resolves_nwalk _ _ _ _ Hn' Hq).
  destruct (prefix_dec q dir) as [(g & r & ->)|Hno].
  - rewrite (edit_at t n (names t') par p dir Hn Hp Hk Hd Hm), (edit_at0 t par dir Hd). rewrite Ht at 1.
    destruct (decide (g = f)) as [->|Hg].
    + rewrite lookup_delete, Hf. rewrite flat_walk by exact Hi.
      destruct r as [|h r]; split; intros H; try discriminate; destruct H as [H ?]; [contradiction|discriminate].
    + rewrite lookup_delete_ne by congruence.
      assert (Hx : dir ++ g :: r <> dir ++ [f]) by (intros E; apply app_inv_head in E; congruence).
      destruct (names t !! (par, g)) as [e|] eqn:Eg.
      * rewrite (edit_below t n (names t') par p dir Hn Hp Hk Hd Hm g) by exact Eg. tauto.
      * split; [intros ?; discriminate|intros [? _]; discriminate].
  - rewrite (edit_away t n (names t') par p dir Hn Hp Hk Hd Hm) by (intros g r E; destruct (Hno _ _ E)).
    split; [|tauto]. intros H. split; [assumption|]. intros ->. destruct (Hno f []). reflexivity.
Qed.

Lemma moved_paths t n t' n' par p dir fo fn i : inv_n t n -> inv_n t' n' -> t !! par = Some p -> i_kind p = KDir ->
  canonical (dir ++ [fo]) -> canonical (dir ++ [fn]) -> fo <> fn -> resolves t dir par -> names t !! (par, fo) = Some i ->
  names t' = delete (par, fo) (<[(par, fn) := i]> (names t)) ->
  names_moved t t' (dir ++ [fo]) (dir ++ [fn]).
Proof.
  intros Hn Hn' Hp Hk Hc Hc2 Hff Hd Hf Ht. pose proof (canonical_snoc _ _ Hc) as [Hcd Hdf].
  apply (resolves_nwalk _ _ _ _ Hn Hcd) in Hd.
  assert (Hm : forall d g, d <> par -> names t' !! (d, g) = names t !! (d, g)).
  { intros d g Hdg. rewrite Ht, lookup_delete_ne, lookup_insert_ne by congruence. reflexivity. }
  assert (Hcan : forall r, canonical (dir ++ [fn] ++ r) -> canonical (dir ++ [fo] ++ r)).
  { intros r. unfold canonical in *. rewrite !Forall_app in *. tauto. }
  split; [|split].
  - intros r j Hq. rewrite <- !app_assoc in *. rewrite (resolves_nwalk _ _ _ _ Hn (Hcan _ Hq)), (resolves_nwalk _ _ _ _ Hn' Hq). cbn [app].
    rewrite (edit_at t n (names t') par p dir Hn Hp Hk Hd Hm), (edit_at0 t par dir Hd). rewrite Ht at 1.
    rewrite lookup_delete_ne, lookup_insert, Hf by congruence.
    rewrite (edit_below t n (names t') par p dir Hn Hp Hk Hd Hm fo) by exact Hf. reflexivity.
  - intros r j Hq. rewrite <- !app_assoc in *. rewrite (resolves_nwalk _ _ _ _ Hn' Hq). cbn [app].
    rewrite (edit_at t n (names t') par p dir Hn Hp Hk Hd Hm). rewrite Ht at 1. rewrite lookup_delete. discriminate.
  - intros q j Hq H1 H2. rewrite (resolves_nwalk _ _ _ _ Hn Hq), (resolves_nwalk _ _ _ _ Hn' Hq).
    rewrite (edit_away t n (names t') par p dir Hn Hp Hk Hd Hm); [reflexivity|].
    intros g r E. rewrite Ht, lookup_delete_ne, lookup_insert_ne; [reflexivity| |]; intros [= <-].
    + apply (H2 r). rewrite <- app_assoc. exact E.
    + apply (H1 r). rewrite <- app_assoc. exact E.
Qed.

Lemma same_paths t n t' n' : inv_n t n -> inv_n t' n' -> names t' = names t -> names_same_as t t'.
Proof. intros Hn Hn' E q j Hq. rewrite (resolves_nwalk _ _ _ _ Hn Hq), (resolves_nwalk _ _ _ _ Hn' Hq), E. reflexivity. Qed.
