(** The names of a directory table as one finite map, and the structural
    invariant of the tree. *)
From Verif Require Import Base PathModel FsModel FsSpec Count.
Local Open Scope list_scope.

Definition dotb (f : string) : bool := String.eqb f "." || String.eqb f "..".

Lemma dotb_false f : dotb f = false <-> f <> "." /\ f <> "..".
Proof.
  unfold dotb. rewrite orb_false_iff, !String.eqb_neq. reflexivity.
Qed.

Definition names (t : gmap Z inode) : gmap (Z * string) Z :=
  filter (fun e => dotb e.1.2 = false) (gmap_uncurry (i_dict <$> t)).

Lemma names_lookup t d f :
  names t !! (d, f) =
  if dotb f then None else match t !! d with Some x => i_dict x !! f | None => None end.
Proof.
  unfold names. destruct (dotb f) eqn:E.
  - apply map_filter_lookup_None. right. intros i Hi. cbn. congruence.
  - destruct (t !! d) as [x|] eqn:Hd.
    + apply option_eq. intros i. rewrite map_filter_lookup_Some, lookup_gmap_uncurry, lookup_fmap, Hd. cbn.
      split; [intros [? ?]; assumption|auto].
    + apply map_filter_lookup_None. left. rewrite lookup_gmap_uncurry, lookup_fmap, Hd. reflexivity.
Qed.

Lemma names_entry t d f i : names t !! (d, f) = Some i <-> entry t d f i.
Proof.
  rewrite names_lookup. unfold entry. destruct (dotb f) eqn:E.
  - split; [discriminate|]. intros (H1 & H2 & _). assert (dotb f = false) by (apply dotb_false; auto). congruence.
  - apply dotb_false in E as [H1 H2]. destruct (t !! d) as [x|].
    + split; [intros; repeat split; eauto|]. intros (_ & _ & x' & [= <-] & ?). assumption.
    + split; [discriminate|]. intros (_ & _ & x' & ? & _). discriminate.
Qed.

(** Effects of table updates on the names *)
Lemma names_same t i x y : t !! i = Some y -> i_dict x = i_dict y -> names (<[i := x]> t) = names t.
Proof.
  intros Hi Hd. apply map_eq. intros [d f]. rewrite !names_lookup. destruct (dotb f); [reflexivity|].
  destruct (decide (i = d)) as [->|].
  - rewrite lookup_insert, Hi, Hd. reflexivity.
  - rewrite lookup_insert_ne by assumption. reflexivity.
Qed.

Lemma names_new t i x : t !! i = None -> (forall f j, i_dict x !! f = Some j -> dotb f = true) ->
  names (<[i := x]> t) = names t.
Proof.
  intros Hi Hd. apply map_eq. intros [d f]. rewrite !names_lookup. destruct (dotb f) eqn:E; [reflexivity|].
  destruct (decide (i = d)) as [->|].
  - rewrite lookup_insert, Hi. destruct (i_dict x !! f) eqn:Ef; [|reflexivity]. apply Hd in Ef. congruence.
  - rewrite lookup_insert_ne by assumption. reflexivity.
Qed.

Lemma names_del t i : (forall f, names t !! (i, f) = None) -> names (delete i t) = names t.
Proof.
  intros Hn. apply map_eq. intros [d f]. destruct (decide (i = d)) as [->|].
  - rewrite Hn, names_lookup, lookup_delete. destruct (dotb f); reflexivity.
  - rewrite !names_lookup, lookup_delete_ne by assumption. reflexivity.
Qed.

Lemma names_add t par p p' f i : t !! par = Some p -> dotb f = false -> i_dict p' = <[f := i]> (i_dict p) ->
  names (<[par := p']> t) = <[(par, f) := i]> (names t).
Proof.
  intros Hp Hf Hd. apply map_eq. intros [d g]. rewrite names_lookup.
  destruct (decide ((par, f) = (d, g))) as [[= <- <-]|Hne].
  - rewrite Hf, !lookup_insert, Hd, lookup_insert. reflexivity.
  - rewrite (lookup_insert_ne (names t)) by assumption. rewrite names_lookup. destruct (dotb g); [reflexivity|].
    destruct (decide (par = d)) as [->|].
    + rewrite lookup_insert, Hp, Hd, lookup_insert_ne by congruence. reflexivity.
    + rewrite lookup_insert_ne by assumption. reflexivity.
Qed.

Lemma names_rem t par p p' f : t !! par = Some p -> i_dict p' = delete f (i_dict p) ->
  names (<[par := p']> t) = delete (par, f) (names t).
Proof.
  intros Hp Hd. apply map_eq. intros [d g]. rewrite names_lookup.
  destruct (decide ((par, f) = (d, g))) as [[= <- <-]|Hne].
  - rewrite lookup_delete, lookup_insert, Hd, lookup_delete. destruct (dotb f); reflexivity.
  - rewrite (lookup_delete_ne (names t)) by assumption. rewrite names_lookup. destruct (dotb g); [reflexivity|].
    destruct (decide (par = d)) as [->|].
    + rewrite lookup_insert, Hp, Hd, lookup_delete_ne by congruence. reflexivity.
    + rewrite lookup_insert_ne by assumption. reflexivity.
Qed.

(** Number of names of an object, number of names in a directory *)
Definition nnames (t : gmap Z inode) (i : Z) : Z := cnt (fun e => e.2 =? i) (names t).
Definition nkids (t : gmap Z inode) (d : Z) : Z := cnt (fun e => e.1.1 =? d) (names t).

Lemma nnames_nonneg t i : 0 <= nnames t i.
Proof. apply cnt_nonneg. Qed.
Lemma nkids_nonneg t i : 0 <= nkids t i.
Proof. apply cnt_nonneg. Qed.

Lemma nnames_zero t i : nnames t i = 0 <-> forall k, names t !! k <> Some i.
Proof.
  unfold nnames. rewrite cnt_zero. split.
  - intros H k Hk. specialize (H k i Hk). cbn in H. lia.
  - intros H k a Ha. cbn. destruct (Z.eqb_spec a i) as [->|]; [|reflexivity]. exfalso. exact (H k Ha).
Qed.

Lemma nkids_zero t d : nkids t d = 0 <-> forall f, names t !! (d, f) = None.
Proof.
  unfold nkids. rewrite cnt_zero. split.
  - intros H f. destruct (names t !! (d, f)) eqn:E; [|reflexivity]. specialize (H _ _ E). cbn in H. lia.
  - intros H [d' f] a Ha. cbn. destruct (Z.eqb_spec d' d) as [->|]; [|reflexivity]. rewrite H in Ha. discriminate.
Qed.

(** Only administrative names in the dictionary: no children *)
Lemma nkids_zero_dict t d x : t !! d = Some x ->
  (nkids t d = 0 <-> forall f j, i_dict x !! f = Some j -> f = "." \/ f = "..").
Proof.
  intros Hd. rewrite nkids_zero. split.
  - intros H f j Hf. specialize (H f). rewrite names_lookup, Hd in H. destruct (dotb f) eqn:E; [|congruence].
    unfold dotb in E. apply orb_true_iff in E. rewrite !String.eqb_eq in E. exact E.
  - intros H f. rewrite names_lookup, Hd. destruct (dotb f) eqn:E; [reflexivity|].
    destruct (i_dict x !! f) eqn:Ef; [|reflexivity]. apply dotb_false in E as [? ?].
    destruct (H _ _ Ef); contradiction.
Qed.

(** ** Structural invariant *)
Record inv_n (t : gmap Z inode) (next : Z) : Prop := {
  n_root : exists r, t !! ROOTINO = Some r /\ i_kind r = KDir;
  n_range i x : t !! i = Some x -> 1 <= i < next;
  n_sock i x : t !! i = Some x -> i_kind x <> KSock;
  n_flat i x : t !! i = Some x -> i_kind x <> KDir -> i_dict x = ∅;
  n_ent d f i : names t !! (d, f) = Some i -> is_Some (t !! i) /\ i <> ROOTINO;
  n_one i x k k' : t !! i = Some x -> i_kind x = KDir -> names t !! k = Some i -> names t !! k' = Some i -> k = k';
  n_up i x d f : t !! i = Some x -> i_kind x = KDir -> names t !! (d, f) = Some i ->
    i_dict x !! ".." = Some d /\ d < i;
  n_dots i x : t !! i = Some x -> i_kind x = KDir -> is_Some (i_dict x !! ".") /\ is_Some (i_dict x !! "..");
  n_link i x : t !! i = Some x -> i_kind x <> KDir -> nnames t i <= i_link x;
  n_dlink i x : t !! i = Some x -> i_kind x = KDir -> 3 + nkids t i <= i_link x;
}.

Lemma n_par_dir t next d f i : inv_n t next -> names t !! (d, f) = Some i ->
  exists x, t !! d = Some x /\ i_kind x = KDir.
Proof.
  intros H Hn. rewrite names_lookup in Hn. destruct (dotb f); [discriminate|].
  destruct (t !! d) as [x|] eqn:Hd; [|discriminate]. exists x. split; [reflexivity|].
  destruct (decide (i_kind x = KDir)) as [|Hk]; [assumption|].
  rewrite (n_flat _ _ H d x Hd Hk), lookup_empty in Hn. discriminate.
Qed.

(** P1: another object of the same kind and with the same entries, whose link
    count still covers the names *)
Lemma inv_n_meta t next i x y :
  inv_n t next -> t !! i = Some y -> i_kind x = i_kind y -> i_dict x = i_dict y ->
  (i_kind x <> KDir -> nnames t i <= i_link x) -> (i_kind x = KDir -> 3 + nkids t i <= i_link x) ->
  inv_n (<[i := x]> t) next.
Proof.
  intros H Hi Hk Hd Hl1 Hl2. pose proof (names_same t i x y Hi Hd) as Hn.
  assert (Hget : forall j z, <[i := x]> t !! j = Some z ->
            exists z', t !! j = Some z' /\ i_kind z = i_kind z' /\ i_dict z = i_dict z').
  { intros j z. destruct (decide (i = j)) as [<-|].
    - rewrite lookup_insert. intros [= <-]. eauto.
    - rewrite lookup_insert_ne by assumption. eauto. }
  constructor.
  - destruct (n_root _ _ H) as (r & Hr & Hrk). destruct (decide (i = ROOTINO)) as [->|].
    + exists x. rewrite lookup_insert. split; [reflexivity|]. congruence.
    + exists r. rewrite lookup_insert_ne by assumption. auto.
  - intros j z Hz. apply Hget in Hz as (z' & ? & _). eapply n_range; eauto.
  - intros j z Hz. apply Hget in Hz as (z' & ? & -> & _). eapply n_sock; eauto.
  - intros j z Hz. apply Hget in Hz as (z' & ? & -> & ->). eapply n_flat; eauto.
  - intros d f j. rewrite Hn. intros Hj. destruct (n_ent _ _ H _ _ _ Hj) as [? ?]. split; [|assumption].
    apply lookup_insert_is_Some'. auto.
  - intros j z k k' Hz. rewrite Hn. apply Hget in Hz as (z' & ? & -> & _). eapply n_one; eauto.
  - intros j z d f Hz. rewrite Hn. apply Hget in Hz as (z' & ? & -> & ->). eapply n_up; eauto.
  - intros j z Hz. apply Hget in Hz as (z' & ? & -> & ->). eapply n_dots; eauto.
  - intros j z. unfold nnames. rewrite Hn. destruct (decide (i = j)) as [<-|].
    + rewrite lookup_insert. intros [= <-]. exact Hl1.
    + rewrite lookup_insert_ne by assumption. apply (n_link _ _ H).
  - intros j z. unfold nkids. rewrite Hn. destruct (decide (i = j)) as [<-|].
    + rewrite lookup_insert. intros [= <-]. exact Hl2.
    + rewrite lookup_insert_ne by assumption. apply (n_dlink _ _ H).
Qed.

Lemma inv_n_meta' t next i x y :
  inv_n t next -> t !! i = Some y -> i_kind x = i_kind y -> i_dict x = i_dict y -> i_link x = i_link y ->
  inv_n (<[i := x]> t) next.
Proof.
  intros H Hi Hk Hd Hl. eapply inv_n_meta; eauto; rewrite Hl, Hk; intros.
  - eapply n_link; eauto.
  - eapply n_dlink; eauto.
Qed.

(** P2: removal of an object without names and without children *)
Lemma inv_n_del t next i : inv_n t next -> i <> ROOTINO -> nnames t i = 0 -> nkids t i = 0 ->
  inv_n (delete i t) next.
Proof.
  intros H Hi H1 H2. rewrite nnames_zero in H1. rewrite nkids_zero in H2.
  pose proof (names_del t i H2) as Hn.
  assert (Hget : forall j z, delete i t !! j = Some z -> t !! j = Some z).
  { intros j z Hz. apply lookup_delete_Some in Hz as [_ ?]. assumption. }
  constructor; unfold nnames, nkids; rewrite ?Hn.
  - destruct (n_root _ _ H) as (r & Hr & Hrk). exists r. rewrite lookup_delete_ne by assumption. auto.
  - intros j z Hz%Hget. eapply n_range; eauto.
  - intros j z Hz%Hget. eapply n_sock; eauto.
  - intros j z Hz%Hget. eapply n_flat; eauto.
  - intros d f j Hj. destruct (n_ent _ _ H _ _ _ Hj) as [? ?]. split; [|assumption].
    rewrite lookup_delete_ne; [assumption|]. intros ->. exact (H1 _ Hj).
  - intros j z k k' Hz%Hget. eapply n_one; eauto.
  - intros j z d f Hz%Hget. eapply n_up; eauto.
  - intros j z Hz%Hget. eapply n_dots; eauto.
  - intros j z Hz%Hget. apply (n_link _ _ H); assumption.
  - intros j z Hz%Hget. apply (n_dlink _ _ H); assumption.
Qed.

(** P7: a fresh object without names and children *)
Lemma inv_n_new t next x : inv_n t next ->
  i_kind x <> KSock -> (i_kind x <> KDir -> i_dict x = ∅ /\ 0 <= i_link x) ->
  (forall f j, i_dict x !! f = Some j -> dotb f = true) ->
  (i_kind x = KDir -> is_Some (i_dict x !! ".") /\ is_Some (i_dict x !! "..") /\ 3 <= i_link x) ->
  inv_n (<[next := x]> t) (next + 1).
Proof.
  intros H Hs Hf Hd Hdir.
  assert (Hnone : t !! next = None).
  { destruct (t !! next) eqn:E; [|reflexivity]. apply (n_range _ _ H) in E. lia. }
  pose proof (names_new t next x Hnone Hd) as Hn.
  assert (Hno : forall k, names t !! k <> Some next).
  { intros [d f] Hk. destruct (n_ent _ _ H _ _ _ Hk) as [[? ?] _]. congruence. }
  assert (Hkid : nkids t next = 0).
  { apply nkids_zero. intros f. rewrite names_lookup, Hnone. destruct (dotb f); reflexivity. }
  destruct (n_root _ _ H) as (r & Hr & Hrk). pose proof (n_range _ _ H _ _ Hr).
  constructor; unfold nnames, nkids; rewrite ?Hn.
  - exists r. rewrite lookup_insert_ne by lia. auto.
  - intros j z. rewrite lookup_insert_Some. intros [[<- <-]|[? Hz]]; [unfold ROOTINO in *; lia|].
    apply (n_range _ _ H) in Hz. lia.
  - intros j z. rewrite lookup_insert_Some. intros [[<- <-]|[? Hz]]; [assumption|]. eapply n_sock; eauto.
  - intros j z. rewrite lookup_insert_Some. intros [[<- <-]|[? Hz]]; [apply Hf|]. eapply n_flat; eauto.
  - intros d f j Hj. destruct (n_ent _ _ H _ _ _ Hj) as [? ?]. split; [|assumption].
    apply lookup_insert_is_Some'. auto.
  - intros j z k k'. rewrite lookup_insert_Some. intros [[<- <-]|[? Hz]].
    + intros _ Hk. exfalso. exact (Hno _ Hk).
    + eapply n_one; eauto.
  - intros j z d f. rewrite lookup_insert_Some. intros [[<- <-]|[? Hz]].
    + intros _ Hk. exfalso. exact (Hno _ Hk).
    + eapply n_up; eauto.
  - intros j z. rewrite lookup_insert_Some. intros [[<- <-]|[? Hz]].
    + intros Hk. destruct (Hdir Hk) as (? & ? & _). auto.
    + eapply n_dots; eauto.
  - intros j z. rewrite lookup_insert_Some. intros [[<- <-]|[? Hz]].
    + intros Hk. apply Hf in Hk as [_ Hk].
      assert (E : nnames t next = 0) by (apply nnames_zero; exact Hno). unfold nnames in E. lia.
    + apply (n_link _ _ H). assumption.
  - intros j z. rewrite lookup_insert_Some. intros [[<- <-]|[? Hz]].
    + intros Hk. apply Hdir in Hk as (_ & _ & Hk). unfold nkids in Hkid. lia.
    + apply (n_dlink _ _ H). assumption.
Qed.

(** Counts after adding or removing one name *)
Lemma nnames_add t par p p' f i j : t !! par = Some p -> dotb f = false -> i_dict p !! f = None ->
  i_dict p' = <[f := i]> (i_dict p) ->
  nnames (<[par := p']> t) j = nnames t j + (if i =? j then 1 else 0).
Proof.
  intros Hp Hf Hno Hd. unfold nnames. rewrite (names_add t par p p' f i Hp Hf Hd).
  rewrite cnt_insert_new; [reflexivity|]. rewrite names_lookup, Hf, Hp. exact Hno.
Qed.
Lemma nkids_add t par p p' f i d : t !! par = Some p -> dotb f = false -> i_dict p !! f = None ->
  i_dict p' = <[f := i]> (i_dict p) ->
  nkids (<[par := p']> t) d = nkids t d + (if par =? d then 1 else 0).
Proof.
  intros Hp Hf Hno Hd. unfold nkids. rewrite (names_add t par p p' f i Hp Hf Hd).
  rewrite cnt_insert_new; [reflexivity|]. rewrite names_lookup, Hf, Hp. exact Hno.
Qed.
Lemma nnames_rem t par p p' f i j : t !! par = Some p -> dotb f = false -> i_dict p !! f = Some i ->
  i_dict p' = delete f (i_dict p) ->
  nnames (<[par := p']> t) j = nnames t j - (if i =? j then 1 else 0).
Proof.
  intros Hp Hf Hs Hd. unfold nnames. rewrite (names_rem t par p p' f Hp Hd).
  rewrite (cnt_delete _ _ _ i); [reflexivity|]. rewrite names_lookup, Hf, Hp. exact Hs.
Qed.
Lemma nkids_rem t par p p' f i d : t !! par = Some p -> dotb f = false -> i_dict p !! f = Some i ->
  i_dict p' = delete f (i_dict p) ->
  nkids (<[par := p']> t) d = nkids t d - (if par =? d then 1 else 0).
Proof.
  intros Hp Hf Hs Hd. unfold nkids. rewrite (names_rem t par p p' f Hp Hd).
  rewrite (cnt_delete _ _ _ i); [reflexivity|]. rewrite names_lookup, Hf, Hp. exact Hs.
Qed.

(** P4: removal of one name *)
Lemma inv_n_rem t next par p p' f i :
  inv_n t next -> t !! par = Some p -> i_kind p = KDir -> dotb f = false -> i_dict p !! f = Some i ->
  i_kind p' = KDir -> i_dict p' = delete f (i_dict p) -> i_link p - 1 <= i_link p' ->
  inv_n (<[par := p']> t) next.
Proof.
  intros H Hp Hk Hf Hs Hk' Hd Hl. pose proof (names_rem t par p p' f Hp Hd) as Hn.
  assert (Hsub : forall k j, names (<[par := p']> t) !! k = Some j -> names t !! k = Some j).
  { intros k j. rewrite Hn. intros Hj%lookup_delete_Some. tauto. }
  assert (Hget : forall j z, <[par := p']> t !! j = Some z ->
            exists z', t !! j = Some z' /\ i_kind z = i_kind z' /\
              (forall g, dotb g = true -> i_dict z !! g = i_dict z' !! g)).
  { intros j z. destruct (decide (par = j)) as [<-|].
    - rewrite lookup_insert. intros [= <-]. exists p. split; [assumption|]. split; [congruence|].
      intros g Hg. rewrite Hd, lookup_delete_ne; [reflexivity|]. intros ->. congruence.
    - rewrite lookup_insert_ne by assumption. eauto. }
  constructor.
  - destruct (n_root _ _ H) as (r & Hr & Hrk). destruct (decide (par = ROOTINO)) as [->|].
    + exists p'. rewrite lookup_insert. auto.
    + exists r. rewrite lookup_insert_ne by assumption. auto.
  - intros j z Hz. apply Hget in Hz as (z' & ? & _). eapply n_range; eauto.
  - intros j z Hz. apply Hget in Hz as (z' & ? & -> & _). eapply n_sock; eauto.
  - intros j z. destruct (decide (par = j)) as [<-|].
    + rewrite lookup_insert. intros [= <-]. congruence.
    + rewrite lookup_insert_ne by assumption. apply (n_flat _ _ H).
  - intros d g j Hj%Hsub. destruct (n_ent _ _ H _ _ _ Hj) as [? ?]. split; [|assumption].
    apply lookup_insert_is_Some'. auto.
  - intros j z k k' Hz Hzk Hj%Hsub Hj'%Hsub. apply Hget in Hz as (z' & ? & ? & _). eapply n_one; eauto. congruence.
  - intros j z d g Hz Hzk Hj%Hsub. apply Hget in Hz as (z' & ? & ? & Hdd).
    rewrite Hdd by reflexivity. eapply n_up; eauto. congruence.
  - intros j z Hz Hzk. apply Hget in Hz as (z' & ? & ? & Hdd). rewrite !Hdd by reflexivity. eapply n_dots; eauto. congruence.
  - intros j z. rewrite (nnames_rem t par p p' f i j) by assumption. destruct (decide (par = j)) as [<-|].
    + rewrite lookup_insert. intros [= <-]. congruence.
    + rewrite lookup_insert_ne by assumption. intros Hz Hzk. pose proof (n_link _ _ H _ _ Hz Hzk).
      destruct (i =? j); lia.
  - intros j z. rewrite (nkids_rem t par p p' f i j) by assumption. destruct (decide (par = j)) as [<-|].
    + rewrite lookup_insert. intros [= <-] _. pose proof (n_dlink _ _ H _ _ Hp Hk).
      rewrite Z.eqb_refl. lia.
    + rewrite lookup_insert_ne by assumption. intros Hz Hzk. pose proof (n_dlink _ _ H _ _ Hz Hzk).
      destruct (Z.eqb_spec par j); lia.
Qed.

(** P6: one more name for an existing object *)
Lemma inv_n_add t next par p p' f i x :
  inv_n t next -> t !! par = Some p -> i_kind p = KDir -> dotb f = false -> i_dict p !! f = None ->
  i_kind p' = KDir -> i_dict p' = <[f := i]> (i_dict p) -> i_link p + 1 <= i_link p' ->
  t !! i = Some x -> i <> ROOTINO ->
  (i_kind x <> KDir -> nnames t i + 1 <= i_link x) ->
  (i_kind x = KDir -> nnames t i = 0 /\ i_dict x !! ".." = Some par /\ par < i) ->
  inv_n (<[par := p']> t) next.
Proof.
  intros H Hp Hk Hf Hs Hk' Hd Hl Hi Hroot Hfile Hdir.
  pose proof (names_add t par p p' f i Hp Hf Hd) as Hn.
  assert (Hget : forall j z, <[par := p']> t !! j = Some z ->
            exists z', t !! j = Some z' /\ i_kind z = i_kind z' /\
              (forall g, dotb g = true -> i_dict z !! g = i_dict z' !! g)).
  { intros j z. destruct (decide (par = j)) as [<-|].
    - rewrite lookup_insert. intros [= <-]. exists p. split; [assumption|]. split; [congruence|].
      intros g Hg. rewrite Hd, lookup_insert_ne; [reflexivity|]. intros ->. congruence.
    - rewrite lookup_insert_ne by assumption. eauto. }
  assert (Hone : forall z, t !! i = Some z -> i_kind z = KDir -> forall k, names t !! k <> Some i).
  { intros z Hz Hzk. replace z with x in * by congruence. apply nnames_zero. apply Hdir. assumption. }
  constructor.
  - destruct (n_root _ _ H) as (r & Hr & Hrk). destruct (decide (par = ROOTINO)) as [->|].
    + exists p'. rewrite lookup_insert. auto.
    + exists r. rewrite lookup_insert_ne by assumption. auto.
  - intros j z Hz. apply Hget in Hz as (z' & ? & _). eapply n_range; eauto.
  - intros j z Hz. apply Hget in Hz as (z' & ? & -> & _). eapply n_sock; eauto.
  - intros j z. destruct (decide (par = j)) as [<-|].
    + rewrite lookup_insert. intros [= <-]. congruence.
    + rewrite lookup_insert_ne by assumption. apply (n_flat _ _ H).
  - intros d g j. rewrite Hn, lookup_insert_Some. intros [[_ <-]|[_ Hj]].
    + split; [|assumption]. apply lookup_insert_is_Some'. right. eauto.
    + destruct (n_ent _ _ H _ _ _ Hj) as [? ?]. split; [|assumption]. apply lookup_insert_is_Some'. auto.
  - intros j z k k' Hz Hzk. apply Hget in Hz as (z' & Hz' & Hzk' & _). rewrite Hzk in Hzk'.
    rewrite Hn, !lookup_insert_Some. intros [[<- <-]|[_ Hj]] [[<- E]|[_ Hj']].
    + reflexivity.
    + exfalso. exact (Hone _ Hz' (eq_sym Hzk') _ Hj').
    + subst j. exfalso. exact (Hone _ Hz' (eq_sym Hzk') _ Hj).
    + eapply n_one; eauto.
  - intros j z d g Hz Hzk. apply Hget in Hz as (z' & Hz' & Hzk' & Hdd). rewrite Hdd by reflexivity.
    rewrite Hzk in Hzk'. rewrite Hn, lookup_insert_Some. intros [[[= <- <-] <-]|[_ Hj]].
    + replace z' with x in * by congruence. destruct (Hdir (eq_sym Hzk')) as (_ & ? & ?). auto.
    + eapply n_up; eauto.
  - intros j z Hz Hzk. apply Hget in Hz as (z' & ? & ? & Hdd). rewrite !Hdd by reflexivity. eapply n_dots; eauto. congruence.
  - intros j z. rewrite (nnames_add t par p p' f i j) by assumption. destruct (decide (par = j)) as [<-|].
    + rewrite lookup_insert. intros [= <-]. congruence.
    + rewrite lookup_insert_ne by assumption. intros Hz Hzk. pose proof (n_link _ _ H _ _ Hz Hzk).
      destruct (Z.eqb_spec i j) as [<-|]; [|lia]. replace z with x in * by congruence. apply Hfile. assumption.
  - intros j z. rewrite (nkids_add t par p p' f i j) by assumption. destruct (decide (par = j)) as [<-|].
    + rewrite lookup_insert. intros [= <-] _. pose proof (n_dlink _ _ H _ _ Hp Hk).
      rewrite Z.eqb_refl. lia.
    + rewrite lookup_insert_ne by assumption. intros Hz Hzk. pose proof (n_dlink _ _ H _ _ Hz Hzk).
      destruct (Z.eqb_spec par j); lia.
Qed.
