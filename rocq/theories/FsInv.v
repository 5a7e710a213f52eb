(** Every transition preserves the invariants. *)
From Verif Require Import Base PathModel FsModel FsSpec Count FsNames FsTr.
Local Open Scope list_scope.

Lemma new_dict_dots i par f j : new_dict i par !! f = Some j -> dotb f = true.
Proof.
  unfold new_dict. rewrite !lookup_insert_Some, lookup_empty. unfold dotb.
  intros [[<- _]|[_ [[<- _]|[_ [=]]]]]; reflexivity.
Qed.

Lemma new_dict_dot i par : new_dict i par !! "." = Some i.
Proof. unfold new_dict. rewrite lookup_insert_ne by discriminate. apply lookup_insert. Qed.
Lemma new_dict_dotdot i par : new_dict i par !! ".." = Some par.
Proof. unfold new_dict. apply lookup_insert. Qed.

Lemma nnames_same t i x y j : t !! i = Some y -> i_dict x = i_dict y -> nnames (<[i := x]> t) j = nnames t j.
Proof. intros Hi Hd. unfold nnames. rewrite (names_same t i x y Hi Hd). reflexivity. Qed.
Lemma nkids_same t i x y j : t !! i = Some y -> i_dict x = i_dict y -> nkids (<[i := x]> t) j = nkids t j.
Proof. intros Hi Hd. unfold nkids. rewrite (names_same t i x y Hi Hd). reflexivity. Qed.

(** A fresh object together with its name *)
Lemma inv_n_create t n par p f x :
  inv_n t n -> t !! par = Some p -> i_kind p = KDir -> i_dict p !! f = None -> dotb f = false ->
  i_kind x <> KSock ->
  (i_kind x <> KDir -> i_dict x = ∅ /\ 1 <= i_link x) ->
  (i_kind x = KDir -> i_link x = 3 /\ i_dict x = new_dict n par) ->
  inv_n (<[n := x]> (<[par := par_add f n p]> t)) (n + 1).
Proof.
  intros H Hp Hk Hs Hf Hsock Hfile Hdir.
  assert (Hne : par <> n) by (pose proof (n_range _ _ H _ _ Hp); lia).
  rewrite insert_commute by congruence.
  assert (Hdots : forall g j, i_dict x !! g = Some j -> dotb g = true).
  { intros g j Hg. destruct (decide (i_kind x = KDir)) as [Hx|Hx].
    - destruct (Hdir Hx) as [_ E]. rewrite E in Hg. eapply new_dict_dots; eauto.
    - destruct (Hfile Hx) as [E _]. rewrite E, lookup_empty in Hg. discriminate. }
  assert (Hn1 : inv_n (<[n := x]> t) (n + 1)).
  { apply inv_n_new; auto.
    - intros Hx. destruct (Hfile Hx). split; [assumption|lia].
    - intros Hx. destruct (Hdir Hx) as [E1 E2]. rewrite E1, E2, new_dict_dot, new_dict_dotdot. eauto with lia. }
  assert (Hnone : t !! n = None).
  { destruct (t !! n) eqn:E; [|reflexivity]. apply (n_range _ _ H) in E. lia. }
  assert (Hz : nnames (<[n := x]> t) n = 0).
  { apply nnames_zero. intros [d g]. rewrite (names_new t n x Hnone Hdots). intros Hk'.
    destruct (n_ent _ _ H _ _ _ Hk') as [[? ?] _]. congruence. }
  eapply (inv_n_add _ _ par p _ f n x); eauto.
  - rewrite lookup_insert_ne by congruence. exact Hp.
  - cbn. lia.
  - apply lookup_insert.
  - destruct (n_root _ _ H) as (r & Hr & _). pose proof (n_range _ _ H _ _ Hr). lia.
  - intros Hx. rewrite Hz. apply Hfile in Hx. lia.
  - intros Hx. split; [exact Hz|]. destruct (Hdir Hx) as [_ ->]. split; [apply new_dict_dotdot|].
    pose proof (n_range _ _ H _ _ Hp). lia.
Qed.

Lemma tr_inv_n disp k k' : tr disp k k' -> inv k -> inv_n (k_ino k') (k_next k').
Proof.
  intros Ht [Hn Hr Hd _]. destruct Ht; cbn in *; try exact Hn;
    try (eapply inv_n_meta'; eauto; reflexivity).
  - (* new *) destruct H4 as (_ & _ & [(Hx & Hl & Hdx)|((a & b & Hx) & Hl & Hdx)]);
      eapply inv_n_create; eauto; rewrite Hx; try discriminate; try congruence.
    intros _. split; [assumption|lia].
  - (* newfile *) eapply inv_n_create; eauto; rewrite H4; try discriminate. intros _. split; [assumption|lia].
  - (* link *)
    assert (Hne : i <> par) by congruence.
    pose proof (n_link _ _ Hn _ _ H H0) as Hl.
    eapply (inv_n_add (<[i := set_link (i_link x + 1) x]> t) _ par p _ f i (set_link (i_link x + 1) x)); eauto.
    + eapply inv_n_meta; eauto; cbn.
      * intros _. lia.
      * congruence.
    + rewrite lookup_insert_ne by assumption. exact H1.
    + cbn. lia.
    + apply lookup_insert.
    + destruct (n_root _ _ Hn) as (r & Hr' & Hrk). intros ->. congruence.
    + cbn. intros _. rewrite (nnames_same t i _ x) by (assumption || reflexivity). lia.
    + cbn. congruence.
  - (* unlink *)
    assert (Hne : i <> par) by congruence.
    pose proof (n_link _ _ Hn _ _ H H0) as Hl.
    assert (Hinv1 : inv_n (<[par := par_rem f p]> t) n).
    { eapply (inv_n_rem t n par p _ f i); eauto; reflexivity. }
    assert (Hc : nnames (<[par := par_rem f p]> t) i = nnames t i - 1).
    { rewrite (nnames_rem t par p _ f i i) by (assumption || reflexivity). rewrite Z.eqb_refl. lia. }
    assert (Hinv2 : inv_n (<[i := set_link (i_link x - 1) x]> (<[par := par_rem f p]> t)) n).
    { eapply (inv_n_meta _ n i _ x); eauto; try reflexivity.
      - rewrite lookup_insert_ne by congruence. exact H.
      - cbn. intros _. lia.
      - cbn. congruence. }
    unfold un_ino. rewrite insert_commute by congruence.
    destruct (un_gone x) eqn:Eg; [|exact Hinv2].
    unfold un_gone in Eg. apply andb_true_iff in Eg as [Eg1 Eg2].
    rewrite delete_insert_delete. apply inv_n_del; auto.
    + destruct (n_root _ _ Hn) as (r & Hr' & Hrk). intros ->. congruence.
    + pose proof (nnames_nonneg (<[par := par_rem f p]> t) i). lia.
    + apply nkids_zero. intros g. rewrite names_lookup. destruct (dotb g); [reflexivity|].
      rewrite lookup_insert_ne by congruence. rewrite H, (n_flat _ _ Hn _ _ H H0). apply lookup_empty.
  - (* rmdir *)
    assert (Hin : names t !! (par, f) = Some i) by (rewrite names_lookup, H4, H1; exact H3).
    assert (Hne : i <> par). { destruct (n_up _ _ Hn _ _ _ _ H H0 Hin) as [_ ?]. lia. }
    assert (Hinv1 : inv_n (<[par := par_rem f p]> t) n).
    { eapply (inv_n_rem t n par p _ f i); eauto; reflexivity. }
    destruct (i_ref x =? 0); [|exact Hinv1].
    apply inv_n_del; auto.
    + destruct (n_ent _ _ Hn _ _ _ Hin) as [_ ?]. assumption.
    + rewrite (nnames_rem t par p _ f i i) by (assumption || reflexivity). rewrite Z.eqb_refl.
      enough (nnames t i = 1) by lia.
      unfold nnames. rewrite (cnt_list _ _ [(par, f)]); [reflexivity|repeat constructor; set_solver|].
      intros [d g]. rewrite elem_of_list_singleton. split.
      * intros [= -> ->]. exists i. split; [assumption|cbn; apply Z.eqb_refl].
      * intros (a & Ha & Hai). cbn in Hai. assert (a = i) by lia. subst a. eapply (n_one _ _ Hn i x); eauto.
    + pose proof (n_dlink _ _ Hn _ _ H H0). pose proof (nkids_nonneg t i).
      rewrite (nkids_rem t par p _ f i i) by (assumption || reflexivity).
      destruct (Z.eqb_spec par i); lia.
  - (* rename *)
    assert (Hin : names t !! (par, fo1) = Some i) by (rewrite names_lookup, H2, H; exact H1).
    destruct (decide (fo1 = fn1)) as [<-|Hff].
    + rewrite delete_insert_delete.
      eapply (inv_n_rem t n par p _ fo1 i); eauto; try reflexivity. cbn. lia.
    + (* the displaced name, if any, goes first *)
      set (p1 := set_dict (delete fn1 (i_dict p)) p).
      assert (Hinv1 : inv_n (<[par := p1]> t) n).
      { destruct (i_dict p !! fn1) as [j|] eqn:Ej.
        - eapply (inv_n_rem t n par p _ fn1 j); eauto; try reflexivity. cbn. lia.
        - eapply (inv_n_meta' _ _ par p1 p); eauto; try reflexivity. cbn. apply delete_notin. exact Ej. }
      set (t1 := <[par := p1]> t) in *.
      assert (Hp1 : t1 !! par = Some p1) by apply lookup_insert.
      assert (Hin1 : i_dict p1 !! fo1 = Some i) by (cbn; rewrite lookup_delete_ne by congruence; exact H1).
      set (p2 := set_link (i_link p - 1) (set_dict (delete fo1 (i_dict p1)) p1)).
      assert (Hinv2 : inv_n (<[par := p2]> t1) n).
      { eapply (inv_n_rem t1 n par p1 _ fo1 i); eauto; try reflexivity. }
      set (t2 := <[par := p2]> t1) in *.
      assert (Hp2 : t2 !! par = Some p2) by apply lookup_insert.
      set (p3 := set_dict (delete fo1 (<[fn1 := i]> (i_dict p))) p).
      assert (E : i_dict p3 = <[fn1 := i]> (i_dict p2)).
      { cbn. rewrite (delete_insert_ne (i_dict p)) by assumption.
        rewrite (delete_commute (i_dict p)). rewrite insert_delete_insert. reflexivity. }
      destruct (n_ent _ _ Hn _ _ _ Hin) as [[x Hx] Hroot].
      replace (<[par := p3]> t) with (<[par := p3]> t2) by (unfold t2, t1; rewrite !insert_insert; reflexivity).
      assert (Hipar : i_kind x = KDir -> par < i /\ i_dict x !! ".." = Some par).
      { intros Hxk. destruct (n_up _ _ Hn _ _ _ _ Hx Hxk Hin). auto. }
      assert (Hxt2 : exists x2, t2 !! i = Some x2 /\ i_kind x2 = i_kind x /\
                       (i_kind x <> KDir -> x2 = x) /\ (i_kind x = KDir -> x2 = x)).
      { exists x. assert (par <> i).
        { intros ->. assert (Hxk : i_kind x = KDir) by congruence. apply Hipar in Hxk. lia. }
        unfold t2, t1. rewrite !lookup_insert_ne by assumption. auto. }
      destruct Hxt2 as (x2 & Hx2 & Hk2 & Hf2 & Hd2).
      assert (Hcnt : nnames t2 i = nnames t1 i - 1).
      { unfold t2. rewrite (nnames_rem t1 par p1 _ fo1 i i) by (assumption || reflexivity).
        rewrite Z.eqb_refl. lia. }
      eapply (inv_n_add t2 n par p2 _ fn1 i x2); eauto.
      * cbn. rewrite lookup_delete_ne by congruence. apply lookup_delete.
      * cbn. lia.
      * intros Hxk. rewrite Hcnt. rewrite Hk2 in Hxk.
        assert (t1 !! i = Some x).
        { unfold t1. rewrite lookup_insert_ne; [assumption|]. intros ->. congruence. }
        pose proof (n_link _ _ Hinv1 _ _ H6 Hxk). rewrite Hf2 by assumption. lia.
      * intros Hxk. rewrite Hk2 in Hxk. destruct (Hipar Hxk) as [Hlt Hup].
        rewrite Hd2 by assumption. split; [|split; [exact Hup|exact Hlt]].
        rewrite Hcnt. assert (Hle : nnames t1 i <= 1).
        { assert (Ht1i : t1 !! i = Some x) by (unfold t1; rewrite lookup_insert_ne by lia; assumption).
          unfold nnames. rewrite (cnt_list _ _ [(par, fo1)]); [cbn; lia|repeat constructor; set_solver|].
          intros [d g]. rewrite elem_of_list_singleton. split.
          - intros [= -> ->]. exists i. split; [|cbn; apply Z.eqb_refl].
            rewrite names_lookup, H2, Hp1. exact Hin1.
          - intros (a & Ha & Hai). cbn in Hai. assert (a = i) by lia. subst a.
            assert (names t1 !! (par, fo1) = Some i) by (rewrite names_lookup, H2, Hp1; exact Hin1).
            eapply (n_one _ _ Hinv1); eauto. }
        pose proof (nnames_nonneg t2 i). lia.
  - (* close *)
    unfold rel_ino. destruct (gone x) eqn:Eg; [|eapply inv_n_meta'; eauto; reflexivity].
    unfold gone in Eg. apply andb_true_iff in Eg as [_ Eg].
    assert (Hk : i_kind x <> KDir).
    { intros Hk. rewrite Hk in Eg. pose proof (n_dlink _ _ Hn _ _ H Hk). pose proof (nkids_nonneg t i). lia. }
    pose proof (n_link _ _ Hn _ _ H Hk). pose proof (nnames_nonneg t i).
    apply inv_n_del; auto.
    + destruct (n_root _ _ Hn) as (r & Hr' & Hrk). intros ->. congruence.
    + destruct (i_kind x); try lia; congruence.
    + apply nkids_zero. intros g. rewrite names_lookup. destruct (dotb g); [reflexivity|].
      rewrite H, (n_flat _ _ Hn _ _ H Hk). apply lookup_empty.
Qed.

(** ** References *)
Lemma isf_file j pos fl i : isf (FFile j pos fl) i = (j =? i).
Proof. reflexivity. Qed.

Lemma okref_same x x' n : okref x n -> i_kind x' = i_kind x -> i_ref x' = i_ref x -> i_link x' = i_link x -> okref x' n.
Proof. unfold okref. intros [H1 H2] -> -> ->. auto. Qed.

Lemma okref_open x n : okref x n -> 0 <= n -> okref (set_ref (i_ref x + 1) x) (n + 1).
Proof. unfold okref. cbn. intros [H1 H2] Hn. split; intros Hk; [destruct (H1 Hk); lia|specialize (H2 Hk); lia]. Qed.

Lemma inv_r_open t fds i x k pos fl :
  inv_r t fds -> t !! i = Some x -> fds !! k = None ->
  forall x', i_kind x' = i_kind x -> i_ref x' = i_ref x + 1 -> i_link x' = i_link x ->
  inv_r (<[i := x']> t) (<[k := FFile i pos fl]> fds).
Proof.
  intros H Hi Hk x' E1 E2 E3. apply inv_r_upd with (fds := fds); auto.
  - intros k2 j p2 f2. rewrite lookup_insert_Some. intros [[_ [= -> _ _]]|[_ ?]]; eauto 6.
  - intros j Hj. rewrite nfds_new by assumption. rewrite isf_file.
    destruct (Z.eqb_spec i j); [congruence|]. unfold b2z. lia.
  - rewrite nfds_new by assumption. rewrite isf_file, Z.eqb_refl. unfold b2z.
    pose proof (r_ref _ _ H _ _ Hi) as Hok. pose proof (nfds_nonneg fds i).
    apply (okref_same (set_ref (i_ref x + 1) x)); auto. apply okref_open; auto.
Qed.

Lemma inv_r_meta t fds i x x' : inv_r t fds -> t !! i = Some x ->
  i_kind x' = i_kind x -> i_ref x' = i_ref x -> (i_kind x <> KDir -> i_link x' <> 0 \/ 0 < i_ref x) ->
  inv_r (<[i := x']> t) fds.
Proof.
  intros H Hi E1 E2 E3. apply inv_r_upd with (fds := fds); auto.
  - intros; eauto 6.
  - destruct (r_ref _ _ H _ _ Hi) as [H1 H2]. split; rewrite E1, E2; intros Hk.
    + destruct (H1 Hk). auto.
    + auto.
Qed.

Lemma inv_r_new t fds n x : inv_r t fds -> t !! n = None -> i_ref x = 0 ->
  (i_kind x <> KDir -> i_link x <> 0) -> inv_r (<[n := x]> t) fds.
Proof.
  intros H Hn E1 E2. apply inv_r_upd with (fds := fds); auto.
  - intros; eauto 6.
  - rewrite (nfds_none t fds n H Hn). split; rewrite E1; intros Hk; [auto|lia].
Qed.

Lemma inv_next_none t n : inv_n t n -> t !! n = None.
Proof. intros H. destruct (t !! n) eqn:E; [|reflexivity]. apply (n_range _ _ H) in E. lia. Qed.

Lemma tr_inv_r disp k k' : tr disp k k' -> inv k -> inv_r (k_ino k') (k_fds k').
Proof.
  intros Ht [Hn Hr Hd _]. destruct Ht; cbn in *; try exact Hr.
  - (* new *) pose proof (inv_next_none _ _ Hn) as Hnone.
    assert (Hne : par <> n) by congruence.
    destruct H4 as (Hx0 & _ & Hx).
    apply inv_r_new; auto.
    + eapply inv_r_meta; eauto; congruence.
    + rewrite lookup_insert_ne by assumption. exact Hnone.
    + intros Hk. destruct Hx as [(? & _)|(_ & ? & _)]; [contradiction|lia].
  - (* newfile *) pose proof (inv_next_none _ _ Hn) as Hnone.
    assert (Hne : par <> n) by congruence.
    set (x0 := set_ref 0 x). rewrite <- (insert_insert _ n x x0).
    eapply (inv_r_open _ _ n x0); auto.
    + apply inv_r_new; auto.
      * eapply inv_r_meta; eauto; congruence.
      * rewrite lookup_insert_ne by assumption. exact Hnone.
      * cbn. lia.
    + apply lookup_insert.
  - eapply inv_r_open; eauto.
  - eapply inv_r_open; eauto.
  - (* link *) pose proof (n_link _ _ Hn _ _ H H0). pose proof (nnames_nonneg t i).
    eapply (inv_r_meta _ _ par p); auto; try congruence.
    + eapply inv_r_meta; eauto. cbn. lia.
    + rewrite lookup_insert_ne by congruence. exact H1.
  - (* unlink *)
    assert (Hne : i <> par) by congruence.
    assert (Hr1 : inv_r (<[par := par_rem f p]> t) fds).
    { eapply inv_r_meta; eauto; congruence. }
    destruct (r_ref _ _ Hr _ _ H) as [Hok _]. destruct (Hok H0) as [Href Hlive].
    pose proof (nfds_nonneg fds i).
    unfold un_ino. rewrite insert_commute by congruence. unfold un_gone.
    destruct ((i_link x =? 1) && (i_ref x =? 0)) eqn:Eg.
    + rewrite delete_insert_delete. apply inv_r_del; auto. lia.
    + eapply (inv_r_meta _ _ i x); auto.
      * rewrite lookup_insert_ne by congruence. exact H.
      * intros _. cbn. lia.
  - (* rmdir *)
    assert (Hr1 : inv_r (<[par := par_rem f p]> t) fds).
    { eapply inv_r_meta; eauto; congruence. }
    destruct (i_ref x =? 0) eqn:E; [|exact Hr1].
    apply inv_r_del; auto. destruct (r_ref _ _ Hr _ _ H) as [_ Hok].
    specialize (Hok H0). pose proof (nfds_nonneg fds i). lia.
  - (* rename *) eapply inv_r_meta; eauto; congruence.
  - (* mode *) eapply inv_r_meta; eauto. intros Hk. cbn. destruct (r_ref _ _ Hr _ _ H) as [Hok _]. apply Hok, Hk.
  - (* data *) eapply inv_r_meta; eauto. intros Hk. cbn. destruct (r_ref _ _ Hr _ _ H) as [Hok _]. apply Hok, Hk.
  - (* close *)
    destruct (r_ref _ _ Hr _ _ H) as [Hok1 Hok2].
    assert (Hcnt : nfds (delete k fds) i = nfds fds i - 1).
    { rewrite (nfds_del _ _ _ _ H0), isf_file, Z.eqb_refl. reflexivity. }
    assert (Hoth : forall j, j <> i -> nfds (delete k fds) j = nfds fds j).
    { intros j Hj. rewrite (nfds_del _ _ _ _ H0), isf_file. destruct (Z.eqb_spec i j); [congruence|]. cbn. lia. }
    assert (Hr1 : inv_r (<[i := set_ref (i_ref x - 1) (set_link (if gone x then 1 else i_link x) x)]> t) (delete k fds)).
    { apply inv_r_upd with (fds := fds); auto.
      - intros k2 j p2 f2 Hk2. apply lookup_delete_Some in Hk2 as [_ Hk2]. eauto 6.
      - rewrite Hcnt. split; cbn; intros Hk.
        + destruct (Hok1 Hk) as [E1 E2]. split; [lia|]. destruct (gone x) eqn:Eg; [lia|].
          unfold gone, last_ref in Eg. destruct (i_kind x) eqn:Ek; try lia; try congruence.
          exfalso. exact (n_sock _ _ Hn _ _ H Ek).
        + specialize (Hok2 Hk). lia. }
    unfold rel_ino. destruct (gone x) eqn:Eg.
    + replace (delete i t) with (delete i (<[i := set_ref (i_ref x - 1) (set_link 1 x)]> t)) by apply delete_insert_delete.
      apply inv_r_del; auto. rewrite Hcnt. unfold gone, last_ref in Eg.
      destruct (decide (i_kind x = KDir)) as [Hk|Hk].
      * specialize (Hok2 Hk). assert (0 < nfds fds i); [|lia]. apply cnt_pos. exists k, (FFile i pos fl).
        split; [assumption|]. unfold onfile. cbn. apply Z.eqb_refl.
      * destruct (Hok1 Hk). lia.
    + destruct x; exact Hr1.
  - (* close pipe *) apply inv_r_fds with (fds := fds); auto.
    + intros k2 j p2 f2 Hk2. apply lookup_delete_Some in Hk2 as [_ Hk2]. eauto 6.
    + intros j. rewrite (nfds_del _ _ _ _ H). cbn. lia.
  - (* close other *) apply inv_r_fds with (fds := fds); auto.
    + intros k2 j p2 f2 Hk2. apply lookup_delete_Some in Hk2 as [_ Hk2]. eauto 6.
    + intros j. rewrite (nfds_del _ _ _ _ H). unfold isf. rewrite H0. cbn. lia.
  - (* dup *) eapply inv_r_open; eauto.
  - (* dup pipe *) apply inv_r_fds with (fds := fds); auto.
    + intros k2 j p2 f2. rewrite lookup_insert_Some. intros [[_ [=]]|[_ ?]]. eauto 6.
    + intros j. rewrite nfds_new by assumption. cbn. lia.
  - (* put other *) apply inv_r_fds with (fds := fds); auto.
    + intros k2 j p2 f2. rewrite lookup_insert_Some. intros [[_ ->]|[_ ?]]; [discriminate|]. eauto 6.
    + intros j. rewrite nfds_new by assumption. unfold isf. rewrite H0. cbn. lia.
  - (* move *) apply inv_r_fds with (fds := fds); auto.
    + intros k2 j p2 f2. rewrite lookup_insert_Some, lookup_delete_Some. intros [[_ ->]|[_ [_ ?]]]; eauto 6.
    + intros j. rewrite nfds_new by (rewrite lookup_delete_None; auto). rewrite (nfds_del _ _ _ _ H). lia.
  - (* same *) apply inv_r_fds with (fds := fds); auto.
    + intros k2 j p2 f2. rewrite lookup_insert_Some. intros [[<- ->]|[_ ?]]; [|eauto 6].
      destruct d; cbn in H0; try discriminate. injection H0 as ->. eauto 6.
    + intros j. rewrite (nfds_over _ _ _ _ _ H). unfold isf. rewrite H0. lia.
  - (* dirref *) apply inv_r_upd with (fds := fds); auto.
    + intros; eauto 6.
    + destruct (r_ref _ _ Hr _ _ H) as [_ Hok]. split; cbn; [congruence|]. intros _. specialize (Hok H0). lia.
  - (* pipe2 *) apply inv_r_fds with (fds := fds); auto.
    + intros k2 j p2 f2. rewrite !lookup_insert_Some. intros [[_ [=]]|[_ [[_ [=]]|[_ ?]]]]. eauto 6.
    + intros j. rewrite nfds_new by (rewrite lookup_insert_ne by congruence; assumption).
      rewrite nfds_new by assumption. cbn. lia.
Qed.

(** ** File data *)
Lemma okdata_same x x' of ob : okdata (Some x) of ob -> i_kind x' = i_kind x -> i_size x' = i_size x ->
  (0 <? i_ref x') = (0 <? i_ref x) -> okdata (Some x') of ob.
Proof. unfold okdata, isfile. intros H -> -> ->. exact H. Qed.

Lemma inv_d_meta t fo h i x x' : inv_d t fo h -> t !! i = Some x ->
  i_kind x' = i_kind x -> i_size x' = i_size x -> (0 <? i_ref x') = (0 <? i_ref x) ->
  inv_d (<[i := x']> t) fo h.
Proof.
  intros H Hi E1 E2 E3. apply inv_d_upd with fo h; auto.
  apply okdata_same with x; auto. rewrite <- Hi. apply H.
Qed.

Lemma inv_d_meta_nf t fo h i x x' : inv_d t fo h -> t !! i = Some x ->
  i_kind x <> KFile -> i_kind x' = i_kind x -> inv_d (<[i := x']> t) fo h.
Proof.
  intros H Hi Hk E. apply inv_d_upd with fo h; auto.
  specialize (H i). rewrite Hi in H. unfold okdata, isfile in *. rewrite E.
  destruct (i_kind x); try exact H. congruence.
Qed.

Lemma tr_inv_d disp k k' : tr disp k k' -> inv k -> inv_d (k_ino k') (k_fobj k') (k_host k').
Proof.
  intros Ht [Hn Hr Hd _]. destruct Ht; cbn in *; try exact Hd;
    try (eapply inv_d_meta; eauto; reflexivity).
  - (* new *) pose proof (inv_next_none _ _ Hn) as Hnone.
    apply inv_d_upd with fo h; auto.
    + eapply inv_d_meta; eauto; reflexivity.
    + specialize (Hd n). rewrite Hnone in Hd. unfold okdata, isfile in *.
      destruct H4 as (_ & _ & [(-> & _)|((a & b & ->) & _)]); exact Hd.
  - (* newfile *) apply inv_d_upd with fo h; auto.
    + eapply inv_d_meta; eauto; reflexivity.
    + intros j Hj. rewrite !lookup_insert_ne by congruence. auto.
    + rewrite !lookup_insert. unfold okdata, isfile. rewrite H4, H5, H7. cbn. split; [reflexivity|].
      exists []. auto.
  - (* open *) pose proof (Hd i) as Hdi. rewrite H in Hdi.
    destruct (r_ref _ _ Hr _ _ H) as [Hok _]. pose proof (nfds_nonneg fds i).
    unfold fobj_open, host_open. unfold okdata, isfile in Hdi.
    destruct (i_kind x) eqn:Ek; try (eapply inv_d_meta_nf; eauto; congruence).
    destruct Hdi as (Hf & b & Hb & Hlen). destruct (Hok ltac:(congruence)) as [Href _].
    rewrite Hf. destruct (0 <? i_ref x) eqn:Ep.
    + eapply inv_d_meta; eauto. cbn. lia.
    + rewrite Hb. cbn [default from_option]. unfold id. rewrite (insert_id h i b) by assumption.
      apply inv_d_upd with fo h; auto.
      * intros j Hj. rewrite lookup_insert_ne by congruence. auto.
      * rewrite lookup_insert. unfold okdata, isfile. cbn. rewrite Ek.
        destruct (0 <? i_ref x + 1) eqn:E; [|lia]. eauto.
  - (* trunc *) destruct (r_ref _ _ Hr _ _ H) as [Hok _]. pose proof (nfds_nonneg fds i).
    destruct (Hok ltac:(congruence)) as [Href _].
    apply inv_d_upd with fo h; auto.
    + intros j Hj. rewrite !lookup_insert_ne by congruence. auto.
    + rewrite !lookup_insert. unfold okdata, isfile. cbn. rewrite H0.
      destruct (0 <? i_ref x + 1) eqn:E; [|lia]. split; [reflexivity|]. exists []. auto.
  - (* link *) apply (inv_d_meta _ _ _ par p); auto.
    + eapply inv_d_meta; eauto; reflexivity.
    + rewrite lookup_insert_ne by congruence. exact H1.
  - (* unlink *)
    assert (Hne : i <> par) by congruence.
    assert (Hd1 : inv_d (<[par := par_rem f p]> t) fo h) by (eapply inv_d_meta; eauto; reflexivity).
    unfold un_ino, un_host. rewrite insert_commute by congruence.
    pose proof (Hd i) as Hdi. rewrite H in Hdi. unfold okdata in Hdi.
    destruct (un_gone x) eqn:Eg.
    + rewrite delete_insert_delete. destruct (isfile x) eqn:Ef; cbn [andb].
      * destruct Hdi as [Hf _]. unfold un_gone in Eg. apply inv_d_del with fo h; auto.
        -- intros j Hj. rewrite lookup_delete_ne by congruence. auto.
        -- rewrite Hf. destruct (0 <? i_ref x) eqn:E; [lia|reflexivity].
        -- apply lookup_delete.
      * destruct Hdi. apply inv_d_del with fo h; auto.
    + rewrite andb_false_r. eapply (inv_d_meta _ _ _ i x); auto.
      rewrite lookup_insert_ne by congruence. exact H.
  - (* rmdir *)
    assert (Hd1 : inv_d (<[par := par_rem f p]> t) fo h) by (eapply inv_d_meta; eauto; reflexivity).
    destruct (i_ref x =? 0); [|exact Hd1].
    pose proof (Hd i) as Hdi. rewrite H in Hdi. unfold okdata, isfile in Hdi. rewrite H0 in Hdi. destruct Hdi.
    apply inv_d_del with fo h; auto.
  - (* data *) apply inv_d_upd with fo h; auto. rewrite H3, H4.
    pose proof (Hd i) as Hdi. rewrite H in Hdi. unfold okdata, isfile in *. cbn. rewrite H0 in *.
    destruct Hdi as [-> _]. split; [|eauto]. destruct (0 <? i_ref x); reflexivity.
  - (* close *)
    destruct (r_ref _ _ Hr _ _ H) as [Hok1 Hok2].
    assert (Hpos : 0 < nfds fds i).
    { apply cnt_pos. exists k, (FFile i pos fl). split; [assumption|]. unfold onfile. cbn. apply Z.eqb_refl. }
    pose proof (Hd i) as Hdi. rewrite H in Hdi. unfold okdata in Hdi.
    unfold rel_ino, rel_fobj, rel_host. destruct (isfile x) eqn:Ef; cbn [andb].
    + assert (Ek : i_kind x = KFile) by (unfold isfile in Ef; destruct (i_kind x); congruence).
      destruct (Hok1 ltac:(congruence)) as [Href Hlive]. destruct Hdi as (Hf & b & Hb & Hlen).
      destruct (gone x) eqn:Eg.
      * unfold gone in Eg. destruct (last_ref x) eqn:El; [|discriminate].
        apply inv_d_del with fo h; auto.
        -- intros j Hj. rewrite !lookup_delete_ne by congruence. auto.
        -- apply lookup_delete.
        -- apply lookup_delete.
      * destruct (last_ref x) eqn:El; unfold last_ref in El.
        -- apply inv_d_upd with fo h; auto.
           ++ intros j Hj. rewrite lookup_delete_ne by congruence. auto.
           ++ rewrite lookup_delete, Hb. unfold okdata, isfile. cbn. rewrite Ek.
              destruct (0 <? i_ref x - 1) eqn:E; [lia|]. eauto.
        -- eapply inv_d_meta; eauto. cbn. lia.
    + destruct Hdi as [Hf Hb]. destruct (gone x).
      * apply inv_d_del with fo h; auto.
      * eapply inv_d_meta_nf; eauto. unfold isfile in Ef. destruct (i_kind x); congruence.
  - (* dup *)
    destruct (r_ref _ _ Hr _ _ H) as [Hok1 Hok2].
    assert (Hpos : 0 < nfds fds i).
    { apply cnt_pos. exists k', (FFile i pos' fl'). split; [assumption|]. unfold onfile. cbn. apply Z.eqb_refl. }
    destruct (decide (i_kind x = KFile)) as [Ek|Ek].
    + eapply inv_d_meta; eauto. cbn. destruct (Hok1 ltac:(congruence)). lia.
    + eapply inv_d_meta_nf; eauto.
  - (* dirref *) eapply inv_d_meta_nf; eauto. congruence.
Qed.

(** ** Pipes *)
Lemma to_u32_add a : to_u32 (to_u32 a + 1) = to_u32 (a + 1).
Proof. unfold to_u32, wrap_u. rewrite Zplus_mod_idemp_l. reflexivity. Qed.
Lemma to_u32_sub a : to_u32 (to_u32 a - 1) = to_u32 (a - 1).
Proof. unfold to_u32, wrap_u. rewrite Zminus_mod_idemp_l. reflexivity. Qed.

Lemma inv_p_same fds ps np fds' : inv_p fds ps np ->
  (forall k pid fl, fds' !! k = Some (FPipe pid fl) -> exists k' fl', fds !! k' = Some (FPipe pid fl')
      /\ is_rdonly fl = is_rdonly fl' /\ is_wronly fl = is_wronly fl') ->
  (forall q, nrd fds' q = nrd fds q /\ nwr fds' q = nwr fds q) -> inv_p fds' ps np.
Proof.
  intros H Hf Hn. apply inv_p_fds with fds; auto.
  intros k pid fl Hk. destruct (Hf _ _ _ Hk) as (k' & fl' & Hk' & -> & ->). eapply p_fd; eauto.
Qed.

Lemma inv_p_upd fds ps np fds' pid p :
  inv_p fds ps np -> is_Some (ps !! pid) ->
  (forall k q fl, fds' !! k = Some (FPipe q fl) -> exists k' fl', fds !! k' = Some (FPipe q fl')
      /\ is_rdonly fl = is_rdonly fl' /\ is_wronly fl = is_wronly fl') ->
  (forall q, q <> pid -> nrd fds' q = nrd fds q /\ nwr fds' q = nwr fds q) ->
  p_r p = to_u32 (nrd fds' pid) -> p_w p = to_u32 (nwr fds' pid) ->
  Z.of_nat (length (p_buf p)) <= PIPE_CAPACITY ->
  inv_p fds' (<[pid := p]> ps) np.
Proof.
  intros H [p0 Hp0] Hf Hn H1 H2 H3. constructor.
  - intros k q fl Hk. destruct (Hf _ _ _ Hk) as (k' & fl' & Hk' & -> & ->).
    destruct (p_fd _ _ _ H _ _ _ Hk') as [? ?]. split; [|assumption].
    apply lookup_insert_is_Some'. auto.
  - intros q p'. rewrite lookup_insert_Some. intros [[<- <-]|[? Hp]].
    + destruct (p_cnt _ _ _ H _ _ Hp0) as (_ & _ & _ & ?). auto.
    + destruct (Hn q) as [-> ->]; [congruence|]. eapply p_cnt; eauto.
Qed.

Lemma tr_inv_p disp k k' : tr disp k k' -> inv k -> inv_p (k_fds k') (k_pipes k') (k_npipe k').
Proof.
  intros Ht [Hn Hr Hd Hp]. destruct Ht; cbn in *; try exact Hp;
    try (apply inv_p_same with fds; auto;
      [intros k2 q f2; rewrite lookup_insert_Some; intros [[_ [=]]|[_ ?]]; eauto 6
      |intros q; rewrite nrd_new, nwr_new by assumption; cbn; lia]).
  - (* close *) apply inv_p_same with fds; auto.
    + intros k2 q f2 Hk2. apply lookup_delete_Some in Hk2 as [_ Hk2]. eauto 6.
    + intros q. rewrite (nrd_del _ _ _ _ H0), (nwr_del _ _ _ _ H0). cbn. lia.
  - (* close pipe *) destruct (p_cnt _ _ _ Hp _ _ H0) as (E1 & E2 & E3 & _).
    eapply inv_p_upd; eauto.
    + intros k2 q f2 Hk2. apply lookup_delete_Some in Hk2 as [_ Hk2]. eauto 6.
    + intros q Hq. rewrite (nrd_del _ _ _ _ H), (nwr_del _ _ _ _ H). unfold isr, isw. cbn.
      destruct (Z.eqb_spec pid q); [congruence|]. cbn. lia.
    + rewrite (nrd_del _ _ _ _ H). unfold isr. cbn. rewrite Z.eqb_refl. cbn. rewrite E1.
      destruct (is_rdonly fl); cbn; [apply to_u32_sub|f_equal; lia].
    + rewrite (nwr_del _ _ _ _ H). unfold isw. cbn. rewrite Z.eqb_refl. cbn. rewrite E2.
      destruct (is_wronly fl); cbn; [apply to_u32_sub|f_equal; lia].
  - (* close other *) apply inv_p_same with fds; auto.
    + intros k2 q f2 Hk2. apply lookup_delete_Some in Hk2 as [_ Hk2]. eauto 6.
    + intros q. rewrite (nrd_del _ _ _ _ H), (nwr_del _ _ _ _ H). unfold isr, isw. rewrite H0. cbn. lia.
  - (* dup pipe *) destruct (p_cnt _ _ _ Hp _ _ H) as (E1 & E2 & E3 & _).
    eapply inv_p_upd; eauto.
    + intros k2 q f2. rewrite lookup_insert_Some. intros [[_ [= -> ->]]|[_ ?]]; eauto 6.
    + intros q Hq. rewrite nrd_new, nwr_new by assumption. unfold isr, isw. cbn.
      destruct (Z.eqb_spec pid q); [congruence|]. cbn. lia.
    + rewrite nrd_new by assumption. unfold isr. cbn. rewrite Z.eqb_refl. cbn. rewrite E1.
      destruct (is_rdonly fl); cbn; [apply to_u32_add|f_equal; lia].
    + rewrite nwr_new by assumption. unfold isw. cbn. rewrite Z.eqb_refl. cbn. rewrite E2.
      destruct (is_wronly fl); cbn; [apply to_u32_add|f_equal; lia].
  - (* put other *) apply inv_p_same with fds; auto.
    + intros k2 q f2. rewrite lookup_insert_Some. intros [[_ ->]|[_ ?]]; [discriminate|]. eauto 6.
    + intros q. rewrite nrd_new, nwr_new by assumption. unfold isr, isw. rewrite H0. cbn. lia.
  - (* move *) apply inv_p_same with fds; auto.
    + intros k2 q f2. rewrite lookup_insert_Some, lookup_delete_Some. intros [[_ ->]|[_ [_ ?]]]; eauto 6.
    + intros q. rewrite nrd_new, nwr_new by (rewrite lookup_delete_None; auto).
      rewrite (nrd_del _ _ _ _ H), (nwr_del _ _ _ _ H). lia.
  - (* same *) apply inv_p_same with fds; auto.
    + intros k2 q f2. rewrite lookup_insert_Some. intros [[<- ->]|[_ ?]]; [|eauto 6].
      destruct d; cbn in H0; try discriminate. injection H0 as -> E1 E2. eauto 6.
    + intros q. rewrite (nrd_over _ _ _ _ _ H), (nwr_over _ _ _ _ _ H). unfold isr, isw. rewrite H0. lia.
  - (* pipe2 *)
    assert (Hnone : ps !! np = None).
    { destruct (ps !! np) eqn:E; [|reflexivity]. apply (p_cnt _ _ _ Hp) in E. lia. }
    destruct (nrd_none _ _ _ _ Hp Hnone) as [Z1 Z2].
    assert (Hb : <[a := FPipe np fl1]> fds !! b = None) by (rewrite lookup_insert_ne by congruence; assumption).
    constructor.
    + intros k q fl. rewrite !lookup_insert_Some. intros [[_ [= -> ->]]|[_ [[_ [= -> ->]]|[_ Hk]]]].
      * rewrite lookup_insert. eauto.
      * rewrite lookup_insert. eauto.
      * destruct (p_fd _ _ _ Hp _ _ _ Hk). split; [|assumption]. apply lookup_insert_is_Some'. auto.
    + intros q p. rewrite !nrd_new, !nwr_new by assumption. unfold isr, isw. cbn. rewrite H2, H3, H4, H5.
      rewrite lookup_insert_Some. intros [[<- <-]|[Hq Hpq]].
      * rewrite Z.eqb_refl, Z1, Z2. cbn. unfold PIPE_CAPACITY. repeat split; try reflexivity; lia.
      * destruct (Z.eqb_spec np q); [congruence|]. cbn. destruct (p_cnt _ _ _ Hp _ _ Hpq) as (E1 & E2 & E3 & ?).
        rewrite !Z.add_0_r. repeat split; auto. lia.
  - (* pipe data *) destruct (p_cnt _ _ _ Hp _ _ H) as (E1 & E2 & E3 & _).
    eapply inv_p_upd; eauto.
Qed.

Theorem tr_inv disp k k' : tr disp k k' -> inv k -> inv k'.
Proof.
  intros Ht Hk. constructor.
  - eapply tr_inv_n; eauto.
  - eapply tr_inv_r; eauto.
  - eapply tr_inv_d; eauto.
  - eapply tr_inv_p; eauto.
Qed.

Definition trs (disp : bool) := rtc (tr disp).

Lemma trs_inv disp k k' : trs disp k k' -> inv k -> inv k'.
Proof. induction 1; auto. intros. apply IHrtc. eapply tr_inv; eauto. Qed.
