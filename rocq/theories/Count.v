(** Counting the entries of a finite map that satisfy a test. *)
From Verif Require Import Base.
Local Open Scope list_scope.

Section count.
  Context {K : Type} `{Countable K} {A : Type}.
  Implicit Types (m : gmap K A) (p : K * A -> bool).

  Definition cnt p m : Z := Z.of_nat (size (filter (fun e => p e = true) m)).

  Lemma cnt_empty p : cnt p ∅ = 0.
  Proof. unfold cnt. rewrite map_filter_empty, map_size_empty. reflexivity. Qed.

  Lemma cnt_nonneg p m : 0 <= cnt p m.
  Proof. unfold cnt. lia. Qed.

  Lemma cnt_insert_new p m k a : m !! k = None ->
    cnt p (<[k := a]> m) = cnt p m + (if p (k, a) then 1 else 0).
  Proof.
    intros Hk. unfold cnt. rewrite map_filter_insert.
    destruct (p (k, a)) eqn:E.
    - rewrite decide_True by reflexivity. rewrite map_size_insert_None; [lia|].
      apply map_filter_lookup_None. left. exact Hk.
    - rewrite decide_False by discriminate. rewrite delete_notin by exact Hk. lia.
  Qed.

  Lemma cnt_delete p m k a : m !! k = Some a ->
    cnt p (delete k m) = cnt p m - (if p (k, a) then 1 else 0).
  Proof.
    intros Hk. rewrite <- (insert_delete m k a Hk) at 2.
    rewrite cnt_insert_new by apply lookup_delete. lia.
  Qed.

  Lemma cnt_insert_over p m k a b : m !! k = Some a ->
    cnt p (<[k := b]> m) = cnt p m - (if p (k, a) then 1 else 0) + (if p (k, b) then 1 else 0).
  Proof.
    intros Hk. rewrite <- (insert_delete_insert m k b).
    rewrite cnt_insert_new by apply lookup_delete.
    rewrite (cnt_delete p m k a Hk). lia.
  Qed.

  Lemma cnt_delete_none p m k : m !! k = None -> cnt p (delete k m) = cnt p m.
  Proof. intros Hk. rewrite delete_notin by exact Hk. reflexivity. Qed.

  Lemma cnt_zero p m : cnt p m = 0 <-> forall k a, m !! k = Some a -> p (k, a) = false.
  Proof.
    unfold cnt. split.
    - intros Hz k a Hk. destruct (p (k, a)) eqn:E; [|reflexivity]. exfalso.
      assert (Hs : size (filter (fun e => p e = true) m) = 0%nat) by lia.
      apply map_size_empty_inv in Hs.
      assert (Hf : filter (fun e => p e = true) m !! k = Some a) by (apply map_filter_lookup_Some; auto).
      rewrite Hs, lookup_empty in Hf. discriminate.
    - intros Hall. assert (He : filter (fun e => p e = true) m = ∅).
      { apply map_empty. intros k. apply map_filter_lookup_None. right. intros a Hk.
        rewrite (Hall k a Hk). discriminate. }
      rewrite He, map_size_empty. reflexivity.
  Qed.

  Lemma cnt_pos p m : 0 < cnt p m <-> exists k a, m !! k = Some a /\ p (k, a) = true.
  Proof.
    split.
    - intros Hp. destruct (map_choose (filter (fun e => p e = true) m)) as (k & a & Hk).
      + intros He. unfold cnt in Hp. rewrite He, map_size_empty in Hp. lia.
      + apply map_filter_lookup_Some in Hk as [? ?]. eauto.
    - intros (k & a & Hk & Hp). pose proof (cnt_nonneg p m).
      destruct (Z.eq_dec (cnt p m) 0) as [Hz|]; [|lia].
      rewrite cnt_zero in Hz. rewrite (Hz k a Hk) in Hp. discriminate.
  Qed.

  Lemma cnt_ext p q m : (forall k a, m !! k = Some a -> p (k, a) = q (k, a)) -> cnt p m = cnt q m.
  Proof.
    intros Hpq. unfold cnt. do 2 f_equal. apply map_filter_ext. intros k a Hk.
    rewrite (Hpq k a Hk). reflexivity.
  Qed.

  (** The count is the length of every repetition-free list of the matching keys. *)
  Lemma cnt_list p m (l : list K) :
    NoDup l -> (forall k, k ∈ l <-> exists a, m !! k = Some a /\ p (k, a) = true) ->
    cnt p m = Z.of_nat (length l).
  Proof.
    intros Hn Hl. unfold cnt.
    rewrite <- (size_list_to_set (C := gset K) l Hn).
    replace (list_to_set l : gset K) with (dom (filter (fun e => p e = true) m)).
    - rewrite size_dom. reflexivity.
    - apply leibniz_equiv. intros k. rewrite elem_of_list_to_set, Hl, elem_of_dom.
      split.
      + intros [a Ha]. apply map_filter_lookup_Some in Ha. eauto.
      + intros (a & Ha). exists a. apply map_filter_lookup_Some. exact Ha.
  Qed.

  Lemma cnt_filter_id p (P : K * A -> Prop) `{forall x, Decision (P x)} m :
    (forall k a, m !! k = Some a -> p (k, a) = true -> P (k, a)) ->
    cnt p (filter P m) = cnt p m.
  Proof.
    intros HP. unfold cnt. f_equal. f_equal. apply map_eq. intros k.
    apply option_eq. intros a. rewrite !map_filter_lookup_Some.
    split; [tauto|]. intros [? ?]. repeat split; auto.
  Qed.
End count.
