(** The exact version of the structural invariant: it holds as long as no
    rename displaces an existing name. *)
From Verif Require Import Base PathModel FsModel FsSpec Count FsNames FsTr FsInv.
Local Open Scope list_scope.
Local Open Scope Z_scope.

Record inv2 (t : gmap Z inode) (next : Z) : Prop := {
  s_link i x : t !! i = Some x -> i_kind x <> KDir -> i_link x = nnames t i;
  s_dlink i x : t !! i = Some x -> i_kind x = KDir -> i <> 7 -> i_link x = 3 + nkids t i;
  s_kids d f i : names t !! (d, f) = Some i -> named t d;
  s_seven k : names t !! k <> Some 7;
  s_next : 8 <= next
}.

Lemma inv2_meta t n i x y : inv2 t n -> t !! i = Some y -> i_kind x = i_kind y -> i_dict x = i_dict y ->
  i_link x = i_link y -> inv2 (<[i := x]> t) n.
Proof.
  intros H Hi Hk Hd Hl. pose proof (names_same t i x y Hi Hd) as Hn.
  assert (Hget : forall j z, <[i := x]> t !! j = Some z ->
    exists z', t !! j = Some z' /\ i_kind z = i_kind z' /\ i_link z = i_link z').
  { intros j z. destruct (decide (i = j)) as [<-|].
    - rewrite lookup_insert. intros [= <-]. eauto.
    - rewrite lookup_insert_ne by assumption. eauto. }
  constructor; unfold nnames, nkids, named; rewrite ?Hn.
  - intros j z Hz Hk'. apply Hget in Hz as (z' & Hz & E1 & E2). rewrite E2. apply (s_link _ _ H); congruence.
  - intros j z Hz Hk' H7. apply Hget in Hz as (z' & Hz & E1 & E2). rewrite E2. apply (s_dlink _ _ H); congruence.
  - apply (s_kids _ _ H).
  - apply (s_seven _ _ H).
  - apply (s_next _ _ H).
Qed.

Lemma inv2_del t n i : inv2 t n -> i <> ROOTINO -> nkids t i = 0 -> inv2 (delete i t) n.
Proof.
  intros H Hi Hk. rewrite nkids_zero in Hk. pose proof (names_del t i Hk) as Hn.
  constructor; unfold nnames, nkids, named; rewrite ?Hn.
  - intros j z Hz. apply lookup_delete_Some in Hz as [_ Hz]. apply (s_link _ _ H); assumption.
  - intros j z Hz. apply lookup_delete_Some in Hz as [_ Hz]. apply (s_dlink _ _ H); assumption.
  - apply (s_kids _ _ H).
  - apply (s_seven _ _ H).
  - apply (s_next _ _ H).
Qed.

(** one more name for [i] in [par] *)
Lemma inv2_add t n par p p' f i :
  inv_n t n -> 8 <= n ->
  (forall j x, t !! j = Some x -> i_kind x <> KDir -> i_link x = nnames t j + (if i =? j then 1 else 0)) ->
  (forall j x, t !! j = Some x -> i_kind x = KDir -> j <> 7 -> i_link x = 3 + nkids t j) ->
  (forall d f i, names t !! (d, f) = Some i -> named t d) -> (forall k, names t !! k <> Some 7) ->
  t !! par = Some p -> i_kind p = KDir -> dotb f = false -> i_dict p !! f = None -> i_kind p' = KDir ->
  i_dict p' = <[f := i]> (i_dict p) -> i_link p' = i_link p + 1 -> named t par -> i <> 7 ->
  inv2 (<[par := p']> t) n.
Proof.
  intros Hn Hnext H1 H2 H3 H4 Hp Hk Hf Hs Hk' Hd Hl Hnm H7.
  pose proof (names_add t par p p' f i Hp Hf Hd) as Hnames.
  assert (Hnamed : forall d, named t d -> named (<[par := p']> t) d).
  { intros d [->|[k Hk1]]; [left; reflexivity|]. right. exists k. rewrite Hnames, lookup_insert_ne; [assumption|].
    intros <-. rewrite names_lookup, Hf, Hp in Hk1. congruence. }
  constructor; auto.
  - intros j x Hj Hkj. rewrite (nnames_add t par p p' f i j) by assumption.
    destruct (decide (par = j)) as [<-|]; [rewrite lookup_insert in Hj; congruence|].
    rewrite lookup_insert_ne in Hj by assumption. auto.
  - intros j x Hj Hkj Hj7. rewrite (nkids_add t par p p' f i j) by assumption.
    destruct (Z.eqb_spec par j) as [<-|].
    + rewrite lookup_insert in Hj. injection Hj as <-. rewrite Hl. rewrite (H2 _ _ Hp Hk Hj7). lia.
    + rewrite lookup_insert_ne in Hj by assumption. rewrite (H2 _ _ Hj Hkj Hj7). lia.
  - intros d g j. rewrite Hnames, lookup_insert_Some. intros [[[= <- <-] _]|[_ Hj]]; eauto.
  - intros k. rewrite Hnames, lookup_insert_Some. intros [[_ ?]|[_ ?]]; [congruence|]. eapply H4; eauto.
Qed.

(** one name less in [par]; the object has no entries of its own *)
Lemma inv2_rem t n par p p' f i :
  inv_n t n -> inv2 t n -> t !! par = Some p -> i_kind p = KDir -> dotb f = false -> i_dict p !! f = Some i -> i_kind p' = KDir ->
  i_dict p' = delete f (i_dict p) -> i_link p' = i_link p - 1 -> nkids t i = 0 ->
  (forall j x, <[par := p']> t !! j = Some x -> i_kind x <> KDir -> i_link x = nnames (<[par := p']> t) j + (if i =? j then 1 else 0))
  /\ (forall j x, <[par := p']> t !! j = Some x -> i_kind x = KDir -> j <> 7 -> i_link x = 3 + nkids (<[par := p']> t) j)
  /\ (forall d f i, names (<[par := p']> t) !! (d, f) = Some i -> named (<[par := p']> t) d)
  /\ (forall k, names (<[par := p']> t) !! k <> Some 7).
Proof.
  intros Hn H Hp Hk Hf Hs Hk' Hd Hl Hz.
  pose proof (names_rem t par p p' f Hp Hd) as Hnames.
  repeat split.
  - intros j x Hj Hkj. rewrite (nnames_rem t par p p' f i j) by assumption.
    destruct (decide (par = j)) as [<-|]; [rewrite lookup_insert in Hj; congruence|].
    rewrite lookup_insert_ne in Hj by assumption. rewrite (s_link _ _ H _ _ Hj Hkj). lia.
  - intros j x Hj Hkj Hj7. rewrite (nkids_rem t par p p' f i j) by assumption.
    destruct (Z.eqb_spec par j) as [<-|].
    + rewrite lookup_insert in Hj. injection Hj as <-. rewrite Hl. rewrite (s_dlink _ _ H _ _ Hp Hk Hj7). lia.
    + rewrite lookup_insert_ne in Hj by assumption. rewrite (s_dlink _ _ H _ _ Hj Hkj Hj7). lia.
  - intros d g j. rewrite Hnames. intros Hj. apply lookup_delete_Some in Hj as [_ Hj].
    destruct (s_kids _ _ H _ _ _ Hj) as [->|[k Hk1]]; [left; reflexivity|]. right. exists k.
    rewrite Hnames, lookup_delete_ne; [assumption|]. intros <-.
    rewrite names_lookup, Hf, Hp, Hs in Hk1. injection Hk1 as ->.
    rewrite nkids_zero in Hz. specialize (Hz g). congruence.
  - intros k. rewrite Hnames. intros Hj. apply lookup_delete_Some in Hj as [_ Hj]. eapply s_seven; eauto.
Qed.

Lemma inv2_create t n par p f x :
  inv_n t n -> inv2 t n -> t !! par = Some p -> i_kind p = KDir -> i_dict p !! f = None -> dotb f = false ->
  named t par ->
  (i_kind x <> KDir -> i_dict x = ∅ /\ i_link x = 1) ->
  (i_kind x = KDir -> i_link x = 3 /\ i_dict x = new_dict n par) -> i_kind x <> KSock ->
  inv2 (<[n := x]> (<[par := par_add f n p]> t)) (n + 1).
Proof.
  intros Hn H Hp Hk Hs Hf Hnm Hfile Hdir Hsock.
  pose proof (inv_next_none _ _ Hn) as Hnone.
  assert (Hne : par <> n) by congruence.
  pose proof (s_next _ _ H) as Hnx.
  assert (Hdots : forall g j, i_dict x !! g = Some j -> dotb g = true).
  { intros g j Hg. destruct (decide (i_kind x = KDir)) as [Hx|Hx].
    - destruct (Hdir Hx) as [_ E]. rewrite E in Hg. eapply new_dict_dots; eauto.
    - destruct (Hfile Hx) as [E _]. rewrite E, lookup_empty in Hg. discriminate. }
  pose proof (names_new t n x Hnone Hdots) as Hnames.
  rewrite insert_commute by congruence.
  assert (Hz : nnames t n = 0).
  { apply nnames_zero. intros [d g] Hk'. destruct (n_ent _ _ Hn _ _ _ Hk') as [[? ?] _]. congruence. }
  assert (Hz2 : nkids t n = 0).
  { apply nkids_zero. intros g. rewrite names_lookup, Hnone. destruct (dotb g); reflexivity. }
  assert (Hn1 : inv_n (<[n := x]> t) (n + 1)).
  { apply inv_n_new; auto.
    - intros Hx. destruct (Hfile Hx). split; [assumption|lia].
    - intros Hx. destruct (Hdir Hx) as [E1 E2]. rewrite E1, E2, new_dict_dot, new_dict_dotdot. eauto with lia. }
  eapply (inv2_add _ _ par p _ f n); eauto; unfold nnames, nkids, named; rewrite ?Hnames; try lia.
  - intros j y Hj Hkj. destruct (Z.eqb_spec n j) as [<-|].
    + rewrite lookup_insert in Hj. injection Hj as <-. fold (nnames t n). rewrite Hz. apply Hfile in Hkj. lia.
    + rewrite lookup_insert_ne in Hj by assumption. rewrite (s_link _ _ H _ _ Hj Hkj). unfold nnames. lia.
  - intros j y Hj Hkj Hj7. destruct (Z.eqb_spec n j) as [<-|].
    + rewrite lookup_insert in Hj. injection Hj as <-. fold (nkids t n). rewrite Hz2. apply Hdir in Hkj. lia.
    + rewrite lookup_insert_ne in Hj by assumption. rewrite (s_dlink _ _ H _ _ Hj Hkj Hj7). reflexivity.
  - apply (s_kids _ _ H).
  - apply (s_seven _ _ H).
  - rewrite lookup_insert_ne by congruence. exact Hp.
  - exact Hnm.
Qed.

Lemma nkids_flat t n i x : inv_n t n -> t !! i = Some x -> i_kind x <> KDir -> nkids t i = 0.
Proof.
  intros H Hi Hk. apply nkids_zero. intros g. rewrite names_lookup. destruct (dotb g); [reflexivity|].
  rewrite Hi, (n_flat _ _ H _ _ Hi Hk). apply lookup_empty.
Qed.

Lemma inv2_of t n : 8 <= n ->
  (forall j x, t !! j = Some x -> i_kind x <> KDir -> i_link x = nnames t j) ->
  (forall j x, t !! j = Some x -> i_kind x = KDir -> j <> 7 -> i_link x = 3 + nkids t j) ->
  (forall d f i, names t !! (d, f) = Some i -> named t d) -> (forall k, names t !! k <> Some 7) -> inv2 t n.
Proof. intros. constructor; auto. Qed.

Lemma tr_inv2 k k' : tr false k k' -> inv k -> inv2 (k_ino k) (k_next k) -> inv2 (k_ino k') (k_next k').
Proof.
  intros Ht [Hn Hr Hd _] HS. destruct Ht; cbn in *; try exact HS;
    try (eapply inv2_meta; eauto; reflexivity).
  - (* new *) destruct H4 as (_ & _ & [(Hx & Hl & Hdx)|((a & b & Hx) & Hl & Hdx)]);
      apply inv2_create; auto; rewrite Hx; try discriminate; try congruence; auto.
  - (* newfile *) apply inv2_create; auto; rewrite H4; try discriminate; auto.
  - (* link *)
    assert (Hne : i <> par) by congruence.
    pose proof (names_same t i (set_link (i_link x + 1) x) x H eq_refl) as Hns.
    eapply (inv2_add (<[i := set_link (i_link x + 1) x]> t) _ par p _ f i);
      eauto using s_next; unfold nnames, nkids, named; rewrite ?Hns.
    + pose proof (n_link _ _ Hn _ _ H H0). eapply inv_n_meta; eauto; cbn; [lia|congruence].
    + intros j y Hj Hkj. destruct (Z.eqb_spec i j) as [<-|].
      * rewrite lookup_insert in Hj. injection Hj as <-. cbn. rewrite (s_link _ _ HS _ _ H H0). reflexivity.
      * rewrite lookup_insert_ne in Hj by assumption. rewrite (s_link _ _ HS _ _ Hj Hkj). unfold nnames. lia.
    + intros j y Hj Hkj Hj7. destruct (Z.eqb_spec i j) as [<-|].
      * rewrite lookup_insert in Hj. injection Hj as <-. cbn in Hkj. congruence.
      * rewrite lookup_insert_ne in Hj by assumption. rewrite (s_dlink _ _ HS _ _ Hj Hkj Hj7). reflexivity.
    + apply (s_kids _ _ HS).
    + apply (s_seven _ _ HS).
    + rewrite lookup_insert_ne by assumption. exact H1.
    + exact H5.
    + intros ->. destruct H6 as [k Hk]. exact (s_seven _ _ HS _ Hk).
  - (* unlink *)
    assert (Hne : i <> par) by congruence.
    pose proof (nkids_flat _ _ _ _ Hn H H0) as Hz.
    destruct (inv2_rem t n par p (par_rem f p) f i Hn HS H1 H2 H4 H3 H2 eq_refl eq_refl Hz) as (A & B & C & D).
    set (t1 := <[par := par_rem f p]> t) in *.
    assert (H1i : t1 !! i = Some x) by (unfold t1; rewrite lookup_insert_ne by congruence; exact H).
    assert (Hinv2 : inv2 (<[i := set_link (i_link x - 1) x]> t1) n).
    { pose proof (names_same t1 i (set_link (i_link x - 1) x) x H1i eq_refl) as Hns.
      apply inv2_of; unfold nnames, nkids, named; rewrite ?Hns; auto; [apply (s_next _ _ HS)| |].
      - intros j y Hj Hkj. destruct (Z.eqb_spec i j) as [<-|].
        + rewrite lookup_insert in Hj. injection Hj as <-. cbn. rewrite (A _ _ H1i H0), Z.eqb_refl. unfold nnames. lia.
        + rewrite lookup_insert_ne in Hj by assumption. rewrite (A _ _ Hj Hkj). unfold nnames.
          destruct (Z.eqb_spec i j); [congruence|]. lia.
      - intros j y Hj Hkj Hj7. destruct (Z.eqb_spec i j) as [<-|].
        + rewrite lookup_insert in Hj. injection Hj as <-. cbn in Hkj. congruence.
        + rewrite lookup_insert_ne in Hj by assumption. apply B; auto. }
    unfold un_ino. rewrite insert_commute by congruence. fold t1.
    destruct (un_gone x); [|exact Hinv2]. apply inv2_del; auto.
    + destruct (n_root _ _ Hn) as (r & Hr' & Hrk). intros ->. congruence.
    + apply nkids_zero. intros g. rewrite names_lookup. destruct (dotb g); [reflexivity|].
      rewrite lookup_insert. cbn. rewrite (n_flat _ _ Hn _ _ H H0). apply lookup_empty.
  - (* rmdir *)
    assert (Hin : names t !! (par, f) = Some i) by (rewrite names_lookup, H4, H1; exact H3).
    assert (Hz : nkids t i = 0).
    { pose proof (n_dlink _ _ Hn _ _ H H0). pose proof (nkids_nonneg t i). lia. }
    destruct (inv2_rem t n par p (par_rem f p) f i Hn HS H1 H2 H4 H3 H2 eq_refl eq_refl Hz) as (A & B & C & D).
    assert (Hnp : par <> i).
    { intros ->. destruct (n_up _ _ Hn _ _ _ _ H H0 Hin). lia. }
    assert (Hinv2 : inv2 (<[par := par_rem f p]> t) n).
    { apply inv2_of; auto; [apply (s_next _ _ HS)|]. intros j y Hj Hkj. rewrite (A _ _ Hj Hkj).
      destruct (Z.eqb_spec i j) as [<-|]; [|lia]. rewrite lookup_insert_ne in Hj by congruence. congruence. }
    destruct (i_ref x =? 0); [|exact Hinv2]. apply inv2_del; auto.
    + destruct (n_ent _ _ Hn _ _ _ Hin). assumption.
    + rewrite (nkids_rem t par p _ f i i) by (assumption || reflexivity).
      destruct (Z.eqb_spec par i); [congruence|lia].
  - (* rename *)
    assert (Hfree : i_dict p !! fn1 = None) by (destruct H4; [assumption|discriminate]).
    assert (Hff : fo1 <> fn1) by congruence.
    assert (Hin : names t !! (par, fo1) = Some i) by (rewrite names_lookup, H2, H; exact H1).
    assert (Hno : names t !! (par, fn1) = None) by (rewrite names_lookup, H3, H; exact Hfree).
    set (p3 := set_dict (delete fo1 (<[fn1 := i]> (i_dict p))) p).
    assert (Hnames : names (<[par := p3]> t) = <[(par, fn1) := i]> (delete (par, fo1) (names t))).
    { apply map_eq. intros [d g]. rewrite names_lookup. destruct (decide (d = par)) as [->|Hdp].
      - rewrite lookup_insert. unfold p3. cbn [i_dict set_dict].
        destruct (decide (g = fn1)) as [->|Hg1].
        + rewrite H3, lookup_insert, lookup_delete_ne by congruence. apply lookup_insert.
        + rewrite lookup_insert_ne by congruence. destruct (decide (g = fo1)) as [->|Hg2].
          * rewrite H2, !lookup_delete. reflexivity.
          * rewrite !lookup_delete_ne, lookup_insert_ne by congruence. rewrite names_lookup, H. reflexivity.
      - rewrite !lookup_insert_ne, lookup_delete_ne by congruence. rewrite names_lookup. reflexivity. }
    assert (Hnn : forall j, nnames (<[par := p3]> t) j = nnames t j).
    { intros j. unfold nnames. rewrite Hnames, cnt_insert_new by (rewrite lookup_delete_ne by congruence; exact Hno).
      rewrite (cnt_delete _ _ _ i) by exact Hin. cbn. destruct (i =? j); lia. }
    assert (Hnk : forall j, nkids (<[par := p3]> t) j = nkids t j).
    { intros j. unfold nkids. rewrite Hnames, cnt_insert_new by (rewrite lookup_delete_ne by congruence; exact Hno).
      rewrite (cnt_delete _ _ _ i) by exact Hin. cbn. destruct (par =? j); lia. }
    assert (Hget : forall j z, <[par := p3]> t !! j = Some z ->
      exists z', t !! j = Some z' /\ i_kind z = i_kind z' /\ i_link z = i_link z').
    { intros j z. destruct (decide (par = j)) as [<-|].
      - rewrite lookup_insert. intros [= <-]. eauto.
      - rewrite lookup_insert_ne by assumption. eauto. }
    apply inv2_of; [apply (s_next _ _ HS)| | | |].
    + intros j y Hj Hkj. rewrite Hnn. apply Hget in Hj as (z & Hj & E1 & E2). rewrite E2. apply (s_link _ _ HS); congruence.
    + intros j y Hj Hkj Hj7. rewrite Hnk. apply Hget in Hj as (z & Hj & E1 & E2). rewrite E2. apply (s_dlink _ _ HS); congruence.
    + assert (Hnamed : forall d, named t d -> named (<[par := p3]> t) d).
      { intros d [->|[k Hk]]; [left; reflexivity|]. right. destruct (decide (k = (par, fo1))) as [->|Hk1].
        - rewrite Hin in Hk. injection Hk as <-. exists (par, fn1). rewrite Hnames. apply lookup_insert.
        - exists k. rewrite Hnames. destruct (decide (k = (par, fn1))) as [->|]; [congruence|].
          rewrite lookup_insert_ne, lookup_delete_ne by congruence. exact Hk. }
      intros d g j. rewrite Hnames, lookup_insert_Some. intros [[[= <- <-] _]|[_ Hj]].
      * apply Hnamed. eapply s_kids; eauto.
      * apply lookup_delete_Some in Hj as [_ Hj]. apply Hnamed. eapply s_kids; eauto.
    + intros k. rewrite Hnames, lookup_insert_Some. intros [[_ ->]|[_ Hj]].
      * eapply s_seven; eauto.
      * apply lookup_delete_Some in Hj as [_ Hj]. eapply s_seven; eauto.
  - (* close *)
    unfold rel_ino. destruct (gone x) eqn:Eg; [|eapply inv2_meta; eauto; reflexivity].
    unfold gone in Eg. apply andb_true_iff in Eg as [_ Eg].
    assert (Hk : i_kind x <> KDir).
    { intros Hk. rewrite Hk in Eg. pose proof (n_dlink _ _ Hn _ _ H Hk). pose proof (nkids_nonneg t i). lia. }
    apply inv2_del; auto.
    + destruct (n_root _ _ Hn) as (r & Hr' & Hrk). intros ->. congruence.
    + eapply nkids_flat; eauto.
Qed.

Lemma trs_inv2 k k' : trs false k k' -> inv k -> inv2 (k_ino k) (k_next k) -> inv2 (k_ino k') (k_next k').
Proof.
  induction 1 as [|k1 k2 k3 Ht _ IH]; [auto|]. intros Hi H2. apply IH.
  - eapply tr_inv; eauto.
  - eapply tr_inv2; eauto.
Qed.
