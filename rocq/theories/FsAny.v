(** The directory structure after any history whatever: an invariant that needs
    no condition on the calls. *)
From Verif Require Import Base PathModel FsModel FsSpec Count FsNames FsTr FsReachSpec.
Local Open Scope list_scope.
Local Open Scope Z_scope.

(** The structure: [N] is the names, [D i] is the '..' and the link count of
    directory [i].  [L] collects directories that have lost their name to a
    rename onto it. *)
Definition alive (N : gmap (Z * string) Z) (L : gmap Z Z) (d : Z) : Prop :=
  d = ROOTINO \/ (exists k, N !! k = Some d) \/ is_Some (L !! d).
Definition kidsN (N : gmap (Z * string) Z) (d : Z) : Z := cnt (fun e => e.1.1 =? d) N.
Definition kidsL (L : gmap Z Z) (d : Z) : Z := cnt (fun e => e.2 =? d) L.

Record jv (N : gmap (Z * string) Z) (D : Z -> option (option Z * Z)) (n : Z) (L : gmap Z Z) : Prop := {
  v_root : exists l, D ROOTINO = Some (Some ROOTINO, l);
  v_range i e : D i = Some e -> 1 <= i < n;
  v_ent k i : N !! k = Some i -> i < n /\ i <> ROOTINO;
  v_one i e k k' : D i = Some e -> N !! k = Some i -> N !! k' = Some i -> k = k';
  v_up i u l d f : D i = Some (u, l) -> N !! (d, f) = Some i -> u = Some d /\ d < i;
  v_par d f i : N !! (d, f) = Some i -> D d <> None;
  v_alive d f i : N !! (d, f) = Some i -> alive N L d;
  v_lost i d : L !! i = Some d ->
    (exists l, D i = Some (Some d, l)) /\ d < i /\ D d <> None /\ (forall k, N !! k <> Some i) /\ alive N L d;
  v_link i u l : D i = Some (u, l) -> 3 + kidsN N i + kidsL L i <= l
}.

Lemma kidsN_nonneg N i : 0 <= kidsN N i.
Proof. apply cnt_nonneg. Qed.
Lemma kidsL_nonneg L i : 0 <= kidsL L i.
Proof. apply cnt_nonneg. Qed.
Lemma kidsN_zero N i : kidsN N i <= 0 -> forall f, N !! (i, f) = None.
Proof.
  intros H f. destruct (N !! (i, f)) as [j|] eqn:E; [|reflexivity]. exfalso.
  assert (0 < kidsN N i); [|lia]. apply cnt_pos. exists (i, f), j. split; [exact E|cbn; apply Z.eqb_refl].
Qed.
Lemma kidsL_zero L i : kidsL L i <= 0 -> forall j, L !! j <> Some i.
Proof.
  intros H j E. assert (0 < kidsL L i); [|lia]. apply cnt_pos. exists j, i. split; [exact E|cbn; apply Z.eqb_refl].
Qed.

Lemma jv_same N D D' n L : (forall j, D' j = D j) -> jv N D n L -> jv N D' n L.
Proof.
  intros E H. constructor; intros; rewrite ?E in *.
  - exact (v_root _ _ _ _ H).
  - exact (v_range _ _ _ _ H _ _ H0).
  - exact (v_ent _ _ _ _ H _ _ H0).
  - exact (v_one _ _ _ _ H _ _ _ _ H0 H1 H2).
  - exact (v_up _ _ _ _ H _ _ _ _ _ H0 H1).
  - exact (v_par _ _ _ _ H _ _ _ H0).
  - exact (v_alive _ _ _ _ H _ _ _ H0).
  - exact (v_lost _ _ _ _ H _ _ H0).
  - exact (v_link _ _ _ _ H _ _ _ H0).
Qed.
Lemma jv_dec N D n L : jv N D n L -> forall j, D j = None \/ exists u l, D j = Some (u, l).
Proof. intros _ j. destruct (D j) as [[u l]|]; eauto. Qed.

(** A name is added: for a new object [i = n] or for one that is no directory. *)
Lemma jv_add N D D' n n' L par f i u lp :
  jv N D n L -> D par = Some (u, lp) -> alive N L par -> N !! (par, f) = None ->
  n <= n' -> i < n' -> i <> ROOTINO -> 1 <= i ->
  (D i = None) -> (D' i = None \/ i = n /\ D' i = Some (Some par, 3)) ->
  D' par = Some (u, lp + 1) -> (forall j, j <> par -> j <> i -> D' j = D j) ->
  jv (<[(par, f) := i]> N) D' n' L.
Proof.
  intros H Hp Ha Hf Hn Hi Hr H1 Hdi Hdi' Hdp Hd.
  assert (Hpi : par <> i) by (intros ->; congruence).
  assert (Hpr := v_range _ _ _ _ H _ _ Hp).
  assert (Hold : forall j e, D' j = Some e -> j <> i -> exists e0, D j = Some e0 /\ e0.1 = e.1).
  { intros j e E Hj. destruct (decide (j = par)) as [->|Hjp].
    - rewrite Hdp in E. injection E as <-. exists (u, lp). auto.
    - rewrite (Hd _ Hjp Hj) in E. eauto. }
  assert (Hkeep : forall j, D j <> None -> D' j <> None).
  { intros j Hj. destruct (decide (j = par)) as [->|Hjp]; [congruence|]. destruct (decide (j = i)) as [->|Hji]; [congruence|]. rewrite (Hd _ Hjp Hji). exact Hj. }
  assert (Hnone : forall k, D' i <> None -> N !! k <> Some i).
  { intros k Hx Hk. destruct Hdi' as [?|[-> _]]; [contradiction|]. destruct (v_ent _ _ _ _ H _ _ Hk). lia. }
  assert (Hal : forall d, alive N L d -> alive (<[(par, f) := i]> N) L d).
  { intros d [->|[[k Hk]|Hl]]; [left; reflexivity| |right; right; exact Hl]. right. left. exists k. rewrite lookup_insert_ne; [exact Hk|]. intros <-. congruence. }
  constructor.
  - destruct (v_root _ _ _ _ H) as [l0 E0]. assert (ROOTINO <> i) by congruence.
    destruct (decide (ROOTINO = par)) as [<-|Hx]; [|rewrite Hd by congruence; eauto]. rewrite Hp in E0. injection E0 as -> _. eauto.
  - intros j e E. destruct (decide (j = i)) as [->|Hj]; [lia|]. destruct (Hold _ _ E Hj) as (e0 & E0 & _). apply (v_range _ _ _ _ H) in E0. lia.
  - intros k j. rewrite lookup_insert_Some. intros [[_ <-]|[_ Hk]]; [lia|]. destruct (v_ent _ _ _ _ H _ _ Hk). split; [lia|assumption].
  - intros j e k k' E. rewrite !lookup_insert_Some. intros [[<- <-]|[Hk1 Hk]] [[<- Hj]|[Hk2 Hk']]; try reflexivity.
    + exfalso. eapply Hnone; [rewrite E; discriminate|exact Hk'].
    + subst j. exfalso. eapply Hnone; [rewrite E; discriminate|exact Hk].
    + destruct (decide (j = i)) as [->|Hj].
      * exfalso. eapply Hnone; [rewrite E; discriminate|exact Hk].
      * destruct (Hold _ _ E Hj) as (e0 & E0 & _). exact (v_one _ _ _ _ H _ _ _ _ E0 Hk Hk').
  - intros j u' l d g E. rewrite lookup_insert_Some. intros [[[= <- <-] <-]|[_ Hk]].
    + destruct Hdi' as [?|[-> Hx]]; [congruence|]. rewrite Hx in E. injection E as <- _. split; [reflexivity|lia].
    + destruct (decide (j = i)) as [->|Hj].
      * exfalso. eapply Hnone; [rewrite E; discriminate|exact Hk].
      * destruct (Hold _ _ E Hj) as ([u0 l0] & E0 & Eu). cbn in Eu. subst u0. exact (v_up _ _ _ _ H _ _ _ _ _ E0 Hk).
  - intros d g j. rewrite lookup_insert_Some. intros [[[= <- <-] _]|[_ Hk]]; [congruence|]. apply Hkeep. exact (v_par _ _ _ _ H _ _ _ Hk).
  - intros d g j. rewrite lookup_insert_Some. intros [[[= <- <-] _]|[_ Hk]]; apply Hal; [exact Ha|]. exact (v_alive _ _ _ _ H _ _ _ Hk).
  - intros j d Hj. destruct (v_lost _ _ _ _ H _ _ Hj) as ((l & E) & Hlt & Hdd & Hno & Hald).
    assert (Hji : j <> i) by (intros ->; congruence).
    split; [|split; [exact Hlt|split; [apply Hkeep; exact Hdd|split; [|apply Hal; exact Hald]]]].
    + destruct (decide (j = par)) as [->|Hjp]; [|rewrite (Hd _ Hjp Hji); eauto]. rewrite Hp in E. injection E as -> ->. eauto.
    + intros k. rewrite lookup_insert_Some. intros [[_ ?]|[_ Hk]]; [congruence|exact (Hno _ Hk)].
  - intros j u' l E. unfold kidsN. rewrite cnt_insert_new by exact Hf. cbn [fst]. destruct (decide (j = i)) as [->|Hji].
    + destruct Hdi' as [?|[-> Hx]]; [congruence|]. rewrite Hx in E. injection E as _ <-.
      assert (K1 : cnt (fun e => e.1.1 =? n) N = 0).
      { apply cnt_zero. intros [d g] a Hk. cbn. destruct (Z.eqb_spec d n) as [->|]; [|reflexivity]. exfalso. exact (v_par _ _ _ _ H _ _ _ Hk Hdi). }
      assert (K2 : kidsL L n = 0).
      { apply cnt_zero. intros j d Hj. cbn. destruct (Z.eqb_spec d n) as [->|]; [|reflexivity]. exfalso. destruct (v_lost _ _ _ _ H _ _ Hj) as (_ & _ & X & _). exact (X Hdi). }
      rewrite K1, K2. destruct (Z.eqb_spec par n); [contradiction|lia].
    + destruct (decide (j = par)) as [->|Hjp].
      * rewrite Hdp in E. injection E as <- <-. rewrite Z.eqb_refl. pose proof (v_link _ _ _ _ H _ _ _ Hp) as X. unfold kidsN in X. lia.
      * rewrite (Hd _ Hjp Hji) in E. destruct (Z.eqb_spec par j); [congruence|]. pose proof (v_link _ _ _ _ H _ _ _ E) as X. unfold kidsN in X. lia.
Qed.

(** A name is removed: of an object that is no directory, or of a directory with
    link count 3, which may go away. *)
Lemma jv_rem N D D' n L par f i u lp :
  jv N D n L -> D par = Some (u, lp) -> N !! (par, f) = Some i ->
  (D i = None \/ exists v l, D i = Some (v, l) /\ l <= 3) ->
  (D' i = D i \/ D' i = None) ->
  D' par = Some (u, lp - 1) -> (forall j, j <> par -> j <> i -> D' j = D j) ->
  jv (delete (par, f) N) D' n L.
Proof.
  intros H Hp Hf Hi Hi' Hdp Hd.
  destruct (v_ent _ _ _ _ H _ _ Hf) as [Hin Hir].
  assert (Hpi : par <> i).
  { intros ->. destruct Hi as [?|(v & l & E & _)]; [congruence|]. destruct (v_up _ _ _ _ H _ _ _ _ _ E Hf). lia. }
  assert (Hki : D i <> None -> kidsN N i <= 0 /\ kidsL L i <= 0).
  { intros X. destruct Hi as [?|(v & l & E & Hl)]; [contradiction|]. pose proof (v_link _ _ _ _ H _ _ _ E). pose proof (kidsN_nonneg N i). pose proof (kidsL_nonneg L i). lia. }
  assert (Hold : forall j e, D' j = Some e -> exists e0, D j = Some e0 /\ e0.1 = e.1).
  { intros j e E. destruct (decide (j = par)) as [->|Hjp].
    - rewrite Hdp in E. injection E as <-. exists (u, lp). auto.
    - destruct (decide (j = i)) as [->|Hji]; [destruct Hi' as [X|X]; [rewrite X in E; eauto|congruence]|]. rewrite (Hd _ Hjp Hji) in E. eauto. }
  assert (Hkeep : forall j, D j <> None -> j <> i -> D' j <> None).
  { intros j Hj Hji. destruct (decide (j = par)) as [->|Hjp]; [congruence|]. rewrite (Hd _ Hjp Hji). exact Hj. }
  (* what is needed as a parent is not [i] *)
  assert (HnN : forall d g j, N !! (d, g) = Some j -> d <> i).
  { intros d g j Hk ->. pose proof (v_par _ _ _ _ H _ _ _ Hk) as X. destruct (Hki X) as [Y _]. rewrite (kidsN_zero _ _ Y) in Hk. discriminate Hk. }
  assert (HnL : forall j d, L !! j = Some d -> d <> i).
  { intros j d Hj ->. destruct (v_lost _ _ _ _ H _ _ Hj) as (_ & _ & X & _). destruct (Hki X) as [_ Y]. exact (kidsL_zero _ _ Y _ Hj). }
  assert (Hal : forall d, d <> i -> alive N L d -> alive (delete (par, f) N) L d).
  { intros d Hdi [->|[[k Hk]|Hl]]; [left; reflexivity| |right; right; exact Hl]. right. left. exists k. rewrite lookup_delete_ne; [exact Hk|]. intros <-. congruence. }
  assert (HLi : L !! i = None).
  { destruct (L !! i) as [d|] eqn:E; [|reflexivity]. destruct (v_lost _ _ _ _ H _ _ E) as (_ & _ & _ & X & _). exfalso. exact (X _ Hf). }
  constructor.
  - destruct (v_root _ _ _ _ H) as [l0 E0].
    destruct (decide (ROOTINO = par)) as [<-|Hx]; [|rewrite Hd by congruence; eauto]. rewrite Hp in E0. injection E0 as -> _. eauto.
  - intros j e E. destruct (Hold _ _ E) as (e0 & E0 & _). exact (v_range _ _ _ _ H _ _ E0).
  - intros k j. rewrite lookup_delete_Some. intros [_ Hk]. exact (v_ent _ _ _ _ H _ _ Hk).
  - intros j e k k' E. rewrite !lookup_delete_Some. intros [_ Hk] [_ Hk']. destruct (Hold _ _ E) as (e0 & E0 & _). exact (v_one _ _ _ _ H _ _ _ _ E0 Hk Hk').
  - intros j v l d g E. rewrite lookup_delete_Some. intros [_ Hk]. destruct (Hold _ _ E) as ([u0 l0] & E0 & Eu). cbn in Eu. subst u0. exact (v_up _ _ _ _ H _ _ _ _ _ E0 Hk).
  - intros d g j. rewrite lookup_delete_Some. intros [_ Hk]. apply Hkeep; [exact (v_par _ _ _ _ H _ _ _ Hk)|exact (HnN _ _ _ Hk)].
  - intros d g j. rewrite lookup_delete_Some. intros [_ Hk]. apply Hal; [exact (HnN _ _ _ Hk)|exact (v_alive _ _ _ _ H _ _ _ Hk)].
  - intros j d Hj. destruct (v_lost _ _ _ _ H _ _ Hj) as ((l & E) & Hlt & Hdd & Hno & Hald).
    assert (Hji : j <> i) by congruence. pose proof (HnL _ _ Hj) as Hdi.
    split; [|split; [exact Hlt|split; [apply Hkeep; assumption|split; [|apply Hal; assumption]]]].
    + destruct (decide (j = par)) as [->|Hjp]; [|rewrite (Hd _ Hjp Hji); eauto]. rewrite Hp in E. injection E as -> ->. eauto.
    + intros k. rewrite lookup_delete_Some. intros [_ Hk]. exact (Hno _ Hk).
  - intros j v l E. unfold kidsN. rewrite (cnt_delete _ _ _ _ Hf). cbn [fst]. destruct (decide (j = par)) as [->|Hjp].
    + rewrite Hdp in E. injection E as <- <-. rewrite Z.eqb_refl. pose proof (v_link _ _ _ _ H _ _ _ Hp) as X. unfold kidsN in X. lia.
    + assert (E0 : D j = Some (v, l)).
      { destruct (decide (j = i)) as [->|Hji]; [destruct Hi' as [X|X]; congruence|]. rewrite (Hd _ Hjp Hji) in E. exact E. }
      destruct (Z.eqb_spec par j); [congruence|]. pose proof (v_link _ _ _ _ H _ _ _ E0) as X. unfold kidsN in X. lia.
Qed.

(** A name disappears without the counts noticing; a directory is then lost. *)
Lemma jv_lose N D n L par f i :
  jv N D n L -> N !! (par, f) = Some i -> exists L', jv (delete (par, f) N) D n L'.
Proof.
  intros H Hf. destruct (v_ent _ _ _ _ H _ _ Hf) as [Hin Hir].
  assert (HLi : L !! i = None).
  { destruct (L !! i) as [d|] eqn:E; [|reflexivity]. destruct (v_lost _ _ _ _ H _ _ E) as (_ & _ & _ & X & _). exfalso. exact (X _ Hf). }
  assert (Hsub : forall k j, delete (par, f) N !! k = Some j -> N !! k = Some j) by (intros k j Hk; apply lookup_delete_Some in Hk; tauto).
  destruct (D i) as [[v l]|] eqn:Ei.
  - destruct (v_up _ _ _ _ H _ _ _ _ _ Ei Hf) as [-> Hlt]. exists (<[i := par]> L).
    assert (Hal : forall d, alive N L d -> alive (delete (par, f) N) (<[i := par]> L) d).
    { intros d [->|[[k Hk]|Hl]]; [left; reflexivity| |right; right; rewrite lookup_insert_is_Some'; auto].
      destruct (decide (d = i)) as [->|Hdi]; [right; right; rewrite lookup_insert; eauto|]. right. left. exists k. rewrite lookup_delete_ne; [exact Hk|]. intros <-. congruence. }
    constructor.
    + exact (v_root _ _ _ _ H).
    + exact (v_range _ _ _ _ H).
    + intros k j Hk%Hsub. exact (v_ent _ _ _ _ H _ _ Hk).
    + intros j e k k' E Hk%Hsub Hk'%Hsub. exact (v_one _ _ _ _ H _ _ _ _ E Hk Hk').
    + intros j u l' d g E Hk%Hsub. exact (v_up _ _ _ _ H _ _ _ _ _ E Hk).
    + intros d g j Hk%Hsub. exact (v_par _ _ _ _ H _ _ _ Hk).
    + intros d g j Hk%Hsub. apply Hal. exact (v_alive _ _ _ _ H _ _ _ Hk).
    + intros j d. rewrite lookup_insert_Some. intros [[<- <-]|[Hne Hj]].
      * split; [eauto|]. split; [exact Hlt|]. split; [exact (v_par _ _ _ _ H _ _ _ Hf)|]. split; [|apply Hal; exact (v_alive _ _ _ _ H _ _ _ Hf)].
        intros k Hk. apply lookup_delete_Some in Hk as [Hne Hk]. apply Hne. exact (v_one _ _ _ _ H _ _ _ _ Ei Hf Hk).
      * destruct (v_lost _ _ _ _ H _ _ Hj) as (E & Hlt' & Hdd & Hno & Hald). split; [exact E|]. split; [exact Hlt'|]. split; [exact Hdd|]. split; [|apply Hal; exact Hald].
        intros k Hk%Hsub. exact (Hno _ Hk).
    + intros j u l' E. unfold kidsN, kidsL. rewrite (cnt_delete _ _ _ _ Hf), cnt_insert_new by exact HLi. cbn [fst snd].
      pose proof (v_link _ _ _ _ H _ _ _ E) as X. unfold kidsN, kidsL in X. destruct (par =? j); lia.
  - exists L.
    assert (Hal : forall d, D d <> None -> alive N L d -> alive (delete (par, f) N) L d).
    { intros d Hdd [->|[[k Hk]|Hl]]; [left; reflexivity| |right; right; exact Hl].
      right. left. exists k. rewrite lookup_delete_ne; [exact Hk|]. intros <-. congruence. }
    constructor.
    + exact (v_root _ _ _ _ H).
    + exact (v_range _ _ _ _ H).
    + intros k j Hk%Hsub. exact (v_ent _ _ _ _ H _ _ Hk).
    + intros j e k k' E Hk%Hsub Hk'%Hsub. exact (v_one _ _ _ _ H _ _ _ _ E Hk Hk').
    + intros j u l' d g E Hk%Hsub. exact (v_up _ _ _ _ H _ _ _ _ _ E Hk).
    + intros d g j Hk%Hsub. exact (v_par _ _ _ _ H _ _ _ Hk).
    + intros d g j Hk%Hsub. apply Hal; [exact (v_par _ _ _ _ H _ _ _ Hk)|exact (v_alive _ _ _ _ H _ _ _ Hk)].
    + intros j d Hj. destruct (v_lost _ _ _ _ H _ _ Hj) as (E & Hlt' & Hdd & Hno & Hald). split; [exact E|]. split; [exact Hlt'|]. split; [exact Hdd|]. split; [|apply Hal; assumption].
      intros k Hk%Hsub. exact (Hno _ Hk).
    + intros j u l' E. unfold kidsN. rewrite (cnt_delete _ _ _ _ Hf). cbn [fst].
      pose proof (v_link _ _ _ _ H _ _ _ E) as X. unfold kidsN in X. destruct (par =? j); lia.
Qed.

(** A name is changed to a free one of the same directory. *)
Lemma jv_move N D n L par f g i :
  jv N D n L -> N !! (par, f) = Some i -> N !! (par, g) = None -> jv (delete (par, f) (<[(par, g) := i]> N)) D n L.
Proof.
  intros H Hf Hg. assert (Hne : f <> g) by congruence.
  set (N' := delete (par, f) (<[(par, g) := i]> N)).
  set (old := fun k : Z * string => if decide (k = (par, g)) then (par, f) else k).
  assert (HN : forall k j, N' !! k = Some j -> N !! old k = Some j /\ (old k).1 = k.1 /\ k <> (par, f)).
  { intros k j. unfold N', old. rewrite lookup_delete_Some, lookup_insert_Some. intros [Hx [[<- <-]|[Hy Hk]]].
    - rewrite decide_True by reflexivity. auto.
    - rewrite decide_False by congruence. auto. }
  assert (HN2 : forall k j, N !! k = Some j -> exists k', N' !! k' = Some j).
  { intros k j Hk. unfold N'. destruct (decide (k = (par, f))) as [->|Hk1].
    - exists (par, g). rewrite lookup_delete_ne by congruence. rewrite lookup_insert. congruence.
    - exists k. rewrite lookup_delete_ne, lookup_insert_ne; [exact Hk| |congruence]. intros <-. congruence. }
  assert (Hal : forall d, alive N L d -> alive N' L d).
  { intros d [->|[[k Hk]|Hl]]; [left; reflexivity| |right; right; exact Hl]. right. left. exact (HN2 _ _ Hk). }
  assert (Hentry : forall d h j, N' !! (d, h) = Some j -> exists h', N !! (d, h') = Some j).
  { intros d h j (Hk & Hd & _)%HN. destruct (old (d, h)) as [d' h'] eqn:E. cbn in Hd. subst d'. eauto. }
  constructor.
  - exact (v_root _ _ _ _ H).
  - exact (v_range _ _ _ _ H).
  - intros k j (Hk & _)%HN. exact (v_ent _ _ _ _ H _ _ Hk).
  - intros j e k k' E (Hk & _ & C1)%HN (Hk' & _ & C2)%HN. pose proof (v_one _ _ _ _ H _ _ _ _ E Hk Hk') as X. unfold old in X.
    destruct (decide (k = (par, g))), (decide (k' = (par, g))); congruence.
  - intros j u l d h E (h' & Hk)%Hentry. exact (v_up _ _ _ _ H _ _ _ _ _ E Hk).
  - intros d h j (h' & Hk)%Hentry. exact (v_par _ _ _ _ H _ _ _ Hk).
  - intros d h j (h' & Hk)%Hentry. apply Hal. exact (v_alive _ _ _ _ H _ _ _ Hk).
  - intros j d Hj. destruct (v_lost _ _ _ _ H _ _ Hj) as (E & Hlt' & Hdd & Hno & Hald). split; [exact E|]. split; [exact Hlt'|]. split; [exact Hdd|]. split; [|apply Hal; exact Hald].
    intros k (Hk & _)%HN. exact (Hno _ Hk).
  - intros j u l' E. unfold N', kidsN. rewrite (cnt_delete _ _ (par, f) i) by (rewrite lookup_insert_ne by congruence; exact Hf).
    rewrite cnt_insert_new by exact Hg. cbn [fst].
    pose proof (v_link _ _ _ _ H _ _ _ E) as X. unfold kidsN in X. destruct (par =? j); lia.
Qed.
