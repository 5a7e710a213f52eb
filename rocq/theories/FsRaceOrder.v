(** Putting overlapping calls into an order.

    Processes take steps [st]; steps of different processes commute, except
    two steps that both are [lin] (take a number from a counter).  Every call
    has at most one such step; after it the process is [post] and is sure to
    finish.  Then whatever the processes do at once they can also do one call
    after the other. *)
From Verif Require Import Base.
Local Open Scope list_scope.

Section order.
  Context {S : Type} (st : nat -> S -> S -> Prop) (pan idle lin post : nat -> S -> Prop) (I : S -> Prop).
  Context (HI : forall i s s', I s -> st i s s' -> I s').
  Context (Hdet : forall i s a b, st i s a -> st i s b -> a = b).
  Context (Hdia : forall i j s a b, I s -> i <> j -> ~ (lin i s /\ lin j s) -> st i s a -> st j s b ->
                  exists c, st j a c /\ st i b c).
  Context (Hloc : forall i j s s1 t, I s -> i <> j -> ~ (lin i s /\ lin j s) -> st j s s1 -> st i s1 t ->
                  exists u, st i s u).
  Context (Hpan : forall i j s s1, I s -> i <> j -> st j s s1 -> pan i s <-> pan i s1).
  Context (Hpst : forall i s a, pan i s -> st i s a -> False).
  Context (Hidle : forall i j s s1, i <> j -> st j s s1 -> idle i s <-> idle i s1).
  Context (Hlin : forall i j s s1, i <> j -> st j s s1 -> lin i s <-> lin i s1).
  Context (Hpost : forall i j s s1, i <> j -> st j s s1 -> post i s <-> post i s1).
  Context (Hlp : forall i s a, I s -> lin i s -> st i s a -> post i a).
  Context (Hfin : forall i s, I s -> post i s -> exists t, rtc (fun a b => post i a /\ st i a b) s t /\ idle i t).
  Context (Hpi : forall i s, post i s -> idle i s -> False).
  Context (Hpl : forall i s, post i s -> lin i s -> False).
  Context (Hkind : forall i s a, st i s a -> ~ lin i s -> ~ post i s -> ~ post i a).
  Context (Dlin : forall i s, lin i s \/ ~ lin i s) (Dpost : forall i s, post i s \/ ~ post i s)
          (Didle : forall i s, idle i s \/ ~ idle i s).

  Definition pre (i : nat) (a b : S) : Prop := st i a b /\ ~ lin i a /\ ~ post i a /\ ~ idle i b.
  Definition pst (i : nat) (a b : S) : Prop := post i a /\ st i a b.
  Definition any (P : nat -> S -> S -> Prop) (a b : S) : Prop := exists i, P i a b.
  Definition but (i : nat) (a b : S) : Prop := exists j, j <> i /\ pre j a b.
  Definition whole (i : nat) (a b : S) : Prop :=
    idle i a /\ exists a1, st i a a1 /\ rtc (fun x y => ~ idle i x /\ st i x y) a1 b /\ idle i b.

  Lemma swap i j a b c :
    I a -> i <> j -> ~ (lin i a /\ lin j a) -> st j a b -> st i b c -> exists n, st i a n /\ st j n c.
  Proof.
    intros Ha Hij Hl Hj Hi. destruct (Hloc i j a b c Ha Hij Hl Hj Hi) as [u Hu].
    destruct (Hdia i j a u b Ha Hij Hl Hu Hj) as (d & Hd1 & Hd2).
    rewrite (Hdet _ _ _ _ Hi Hd2). eauto.
  Qed.

  Lemma pre_swap i j a b c : I a -> i <> j -> pre j a b -> pre i b c -> exists n, pre i a n /\ pre j n c.
  Proof.
    intros Ha Hij (Hj & Hj1 & Hj2 & Hj3) (Hi & Hi1 & Hi2 & Hi3).
    assert (Hl : ~ (lin i a /\ lin j a)) by (intros [_ H]; exact (Hj1 H)).
    destruct (swap i j a b c Ha Hij Hl Hj Hi) as (n & Hn1 & Hn2). exists n.
    split; (split; [assumption|]).
    - rewrite (Hlin i j a b), (Hpost i j a b) by assumption.
      split; [assumption|]. split; [assumption|]. rewrite (Hidle i j n c) by assumption. assumption.
    - rewrite <- (Hlin j i a n), <- (Hpost j i a n) by (assumption || exact (not_eq_sym Hij)).
      split; [assumption|]. split; [assumption|]. rewrite <- (Hidle j i b c) by (assumption || exact (not_eq_sym Hij)). assumption.
  Qed.

  Lemma I_pre i a b : I a -> rtc (pre i) a b -> I b.
  Proof. intros Ha Hr. induction Hr as [|a b c [Hab _] _ IH]; [assumption|]. apply IH. exact (HI _ _ _ Ha Hab). Qed.
  Lemma I_any (P : nat -> S -> S -> Prop) a b : (forall i x y, P i x y -> st i x y) -> I a -> rtc (any P) a b -> I b.
  Proof.
    intros HP Ha Hr. induction Hr as [|a b c [i Hab] _ IH]; [assumption|]. apply IH. exact (HI _ _ _ Ha (HP _ _ _ Hab)).
  Qed.
  Lemma I_but i a b : I a -> rtc (but i) a b -> I b.
  Proof.
    intros Ha Hr. induction Hr as [|a b c (j & _ & Hab & _) _ IH]; [assumption|]. apply IH. exact (HI _ _ _ Ha Hab).
  Qed.

  Lemma push i j a b m : I a -> i <> j -> pre j a b -> rtc (pre i) b m -> exists a', rtc (pre i) a a' /\ pre j a' m.
  Proof.
    intros Ha Hij Hj Hr. revert a Ha Hj. induction Hr as [b|b c m Hbc _ IH]; intros a Ha Hj.
    - exists a. split; [constructor|assumption].
    - destruct (pre_swap i j a b c Ha Hij Hj Hbc) as (n & Hn1 & Hn2).
      destruct (IH n) as (a' & H1 & H2); [exact (HI _ _ _ Ha (proj1 Hn1))|assumption|].
      exists a'. split; [exact (rtc_l _ _ _ _ Hn1 H1)|assumption].
  Qed.

  Lemma pull i a h : I a -> rtc (any pre) a h -> exists m, rtc (pre i) a m /\ rtc (but i) m h.
  Proof.
    intros Ha Hr. induction Hr as [a|a b h [j Hab] _ IH].
    - exists a. split; constructor.
    - destruct IH as (m & Hm1 & Hm2); [exact (HI _ _ _ Ha (proj1 Hab))|].
      destruct (decide (j = i)) as [->|Hij].
      + exists m. split; [exact (rtc_l _ _ _ _ Hab Hm1)|assumption].
      + destruct (push i j a b m Ha (not_eq_sym Hij) Hab Hm1) as (a' & H1 & H2).
        exists a'. split; [assumption|]. apply (rtc_l _ _ m); [exists j; split; assumption|assumption].
  Qed.

  Lemma over i m h t : I m -> rtc (but i) m h -> st i h t -> exists m', st i m m' /\ rtc (but i) m' t.
  Proof.
    intros Hm Hr Ht. induction Hr as [m|m m2 h (j & Hji & Hj & Hj1 & Hj2 & Hj3) _ IH].
    - exists t. split; [assumption|constructor].
    - destruct (IH (HI _ _ _ Hm Hj) Ht) as (m' & Hm1 & Hm2).
      assert (Hl : ~ (lin i m /\ lin j m)) by (intros [_ H]; exact (Hj1 H)).
      destruct (swap i j m m2 m' Hm (not_eq_sym Hji) Hl Hj Hm1) as (n & Hn1 & Hn2).
      exists n. split; [assumption|]. apply (rtc_l _ _ m'); [|assumption]. exists j. split; [assumption|].
      split; [assumption|].
      rewrite <- (Hlin j i m n), <- (Hpost j i m n) by assumption. split; [assumption|]. split; [assumption|].
      rewrite <- (Hidle j i m2 m') by assumption. assumption.
  Qed.

  Lemma but_flags i m h : rtc (but i) m h -> (idle i m <-> idle i h) /\ (lin i m <-> lin i h) /\ (post i m <-> post i h).
  Proof.
    induction 1 as [m|m m2 h (j & Hji & Hj & _) _ (IH1 & IH2 & IH3)]; [tauto|].
    rewrite (Hidle i j m m2), (Hlin i j m m2), (Hpost i j m m2) by (assumption || exact (not_eq_sym Hji)). tauto.
  Qed.

  Lemma over_post i m h t :
    I m -> rtc (but i) m h -> rtc (pst i) h t -> exists m', rtc (pst i) m m' /\ rtc (but i) m' t.
  Proof.
    intros Hm Hr Ht. revert m Hm Hr. induction Ht as [h|h h2 t [Hp Hh] _ IH]; intros m Hm Hr.
    - exists m. split; [constructor|assumption].
    - destruct (over i m h h2 Hm Hr Hh) as (m' & H1 & H2).
      destruct (IH m' (HI _ _ _ Hm H1) H2) as (m'' & H3 & H4).
      exists m''. split; [|assumption]. apply (rtc_l _ _ m'); [|assumption]. split; [|assumption].
      apply (but_flags _ _ _ Hr). assumption.
  Qed.

  Lemma build i a m m' m'' :
    idle i a -> rtc (pre i) a m -> st i m m' -> rtc (fun x y => ~ idle i x /\ st i x y) m' m'' -> idle i m'' ->
    whole i a m''.
  Proof.
    intros Ha Hr Hm Hm' Hi. split; [assumption|]. destruct Hr as [a|a b m [Hab [_ [_ Hb]]] Hr]; [eauto|].
    exists b. split; [assumption|]. split; [|assumption]. clear Ha Hab.
    apply (rtc_transitive _ m).
    - induction Hr as [b|b c m Hbc _ IH]; [constructor|]. apply (rtc_l _ _ c); [split; [assumption|exact (proj1 Hbc)]|].
      apply IH; [|assumption]. exact (proj2 (proj2 (proj2 Hbc))).
    - apply (rtc_l _ _ m'); [|assumption]. split; [|assumption].
      apply rtc_inv_r in Hr as [<-|(c & _ & Hr)]; [assumption|]. exact (proj2 (proj2 (proj2 Hr))).
  Qed.

  Record R (a s : S) : Prop := {
    R_h : exists h, rtc (any pst) s h /\ rtc (any pre) a h /\ (forall i, ~ post i h);
    R_idle : forall i, idle i a;
    R_a : I a;
    R_s : I s
  }.

  Lemma post_flags i s h : ~ post i s -> rtc (any pst) s h -> (idle i s <-> idle i h) /\ (lin i s <-> lin i h) /\ ~ post i h.
  Proof.
    intros Hp Hr. revert Hp. induction Hr as [s|s s1 h [j [Hj Hs]] _ IH]; intros Hp; [tauto|].
    assert (Hij : i <> j) by (intros ->; exact (Hp Hj)).
    rewrite (Hidle i j s s1), (Hlin i j s s1) by assumption. apply IH. rewrite <- (Hpost i j s s1) by assumption. assumption.
  Qed.

  (** a step of a process that is not [post] after the others have finished *)
  Lemma postpone i s s1 h :
    I s -> ~ post i s -> st i s s1 -> rtc (any pst) s h -> exists h1, st i h h1 /\ rtc (any pst) s1 h1.
  Proof.
    intros Hs Hp Hi Hr. revert s1 Hp Hi Hs. induction Hr as [s|s s2 h [j [Hj Hs2]] _ IH]; intros s1 Hp Hi Hs.
    - exists s1. split; [assumption|constructor].
    - assert (Hij : i <> j) by (intros ->; exact (Hp Hj)).
      assert (Hl : ~ (lin i s /\ lin j s)) by (intros [_ H]; exact (Hpl _ _ Hj H)).
      destruct (Hdia i j s s1 s2 Hs Hij Hl Hi Hs2) as (c & Hc1 & Hc2).
      destruct (IH c) as (h1 & H1 & H2).
      { rewrite <- (Hpost i j s s2) by assumption. assumption. }
      { assumption. }
      { exact (HI _ _ _ Hs Hs2). }
      exists h1. split; [assumption|]. apply (rtc_l _ _ c); [|assumption]. exists j. split; [|assumption].
      rewrite <- (Hpost j i s s1) by (assumption || exact (not_eq_sym Hij)). assumption.
  Qed.

  Lemma absorb i s s1 h :
    I s -> post i s -> st i s s1 -> rtc (any pst) s h -> (forall j, ~ post j h) -> rtc (any pst) s1 h.
  Proof.
    intros Hs Hp Hi Hr Hh. revert s1 Hp Hi Hs. induction Hr as [s|s s2 h [j [Hj Hs2]] Hr IH]; intros s1 Hp Hi Hs.
    - destruct (Hh i Hp).
    - destruct (decide (i = j)) as [->|Hij]; [rewrite (Hdet _ _ _ _ Hi Hs2); assumption|].
      assert (Hl : ~ (lin i s /\ lin j s)) by (intros [_ H]; exact (Hpl _ _ Hj H)).
      destruct (Hdia i j s s1 s2 Hs Hij Hl Hi Hs2) as (c & Hc1 & Hc2).
      apply (rtc_l _ _ c).
      + exists j. split; [|assumption].
        rewrite <- (Hpost j i s s1) by (assumption || exact (not_eq_sym Hij)). assumption.
      + apply IH; [assumption| |assumption|exact (HI _ _ _ Hs Hs2)].
        rewrite <- (Hpost i j s s2) by assumption. assumption.
  Qed.

  Lemma idle_others i a b (P : S -> S -> Prop) :
    (forall x y, P x y -> st i x y) -> rtc P a b -> (forall j, j <> i -> idle j a) -> forall j, j <> i -> idle j b.
  Proof.
    intros HP Hr. induction Hr as [a|a c b Hac _ IH]; intros Ha j Hj; [apply Ha, Hj|].
    apply IH; [|assumption]. intros k Hk. apply (Hidle k i a c Hk); [apply HP, Hac|apply Ha, Hk].
  Qed.

  Lemma sim i a s s1 : R a s -> st i s s1 -> exists b, rtc (any whole) a b /\ R b s1.
  Proof.
    intros [(h & Hh1 & Hh2 & Hh3) Ra Ia Is] Hi.
    assert (Is1 : I s1) by exact (HI _ _ _ Is Hi).
    destruct (Dpost i s) as [Hp|Hp].
    { exists a. split; [constructor|]. split; [|assumption..]. exists h. split; [|split; assumption].
      exact (absorb i s s1 h Is Hp Hi Hh1 Hh3). }
    destruct (postpone i s s1 h Is Hp Hi Hh1) as (h1 & Hi1 & Hs1).
    destruct (post_flags i s h Hp Hh1) as (Fi & Fl & Fp).
    assert (Ih : I h) by (apply (I_any pre _ _ (fun _ _ _ H => proj1 H) Ia Hh2)).
    assert (Hoth : forall j, j <> i -> ~ post j h1).
    { intros j Hj. rewrite <- (Hpost j i h h1) by assumption. apply Hh3. }
    destruct (Dlin i s) as [Hl|Hl].
    - (* takes a number *)
      assert (Hlh : lin i h) by tauto.
      pose proof (Hlp _ _ _ Ih Hlh Hi1) as Hp1.
      assert (Ih1 : I h1) by exact (HI _ _ _ Ih Hi1).
      destruct (Hfin i h1 Ih1 Hp1) as (h2 & Hh12 & Hi2).
      destruct (pull i a h Ia Hh2) as (m & Hm1 & Hm2).
      assert (Im : I m) by exact (I_pre _ _ _ Ia Hm1).
      destruct (over i m h h1 Im Hm2 Hi1) as (m' & Hm3 & Hm4).
      assert (Im' : I m') by exact (HI _ _ _ Im Hm3).
      destruct (over_post i m' h1 h2 Im' Hm4 Hh12) as (m'' & Hm5 & Hm6).
      assert (Hm''i : idle i m'') by (apply (but_flags _ _ _ Hm6); assumption).
      exists m''. split.
      + apply rtc_once. exists i. apply (build i a m m' m''); [apply Ra|assumption|assumption| |assumption].
        clear -Hm5 Hpi. induction Hm5 as [|x y z [Hx Hxy] _ IH]; [constructor|].
        apply (rtc_l _ _ y); [|assumption]. split; [intros H; exact (Hpi _ _ Hx H)|assumption].
      + split.
        * exists h2. split.
          { apply (rtc_transitive _ h1); [assumption|]. clear -Hh12. induction Hh12 as [|x y z Hx _ IH]; [constructor|].
            apply (rtc_l _ _ y); [exists i; exact Hx|assumption]. }
          split.
          { clear -Hm6. induction Hm6 as [|x y z (j & _ & Hj) _ IH]; [constructor|].
            apply (rtc_l _ _ y); [exists j; exact Hj|assumption]. }
          { intros j. destruct (decide (j = i)) as [->|Hj]; [intros H; exact (Hpi _ _ H Hi2)|].
            specialize (Hoth j Hj). clear -Hoth Hh12 Hj Hpost.
            induction Hh12 as [|x y z [_ Hxy] _ IH]; [assumption|]. apply IH.
            rewrite <- (Hpost j i x y) by assumption. assumption. }
        * intros j. destruct (decide (j = i)) as [->|Hj]; [assumption|].
          apply (idle_others i m' m'' (pst i) (fun _ _ H => proj2 H) Hm5); [|assumption].
          intros k Hk. apply (Hidle k i m m' Hk Hm3).
          apply (idle_others i a m (pre i) (fun _ _ H => proj1 H) Hm1); [|assumption]. intros; apply Ra.
        * clear -HI Im' Hm5. induction Hm5 as [|x y z [_ Hxy] _ IH]; [assumption|]. apply IH, (HI _ _ _ Im' Hxy).
        * assumption.
    - assert (Hlh : ~ lin i h) by tauto.
      assert (Hnp : ~ post i h1) by exact (Hkind _ _ _ Hi1 Hlh Fp).
      assert (Hall : forall j, ~ post j h1) by (intros j; destruct (decide (j = i)) as [->|Hj]; [assumption|exact (Hoth j Hj)]).
      assert (Fi1 : idle i s1 <-> idle i h1).
      { assert (Hp1 : ~ post i s1) by exact (Hkind _ _ _ Hi Hl Hp). exact (proj1 (post_flags i s1 h1 Hp1 Hs1)). }
      destruct (Didle i s1) as [Hid|Hid].
      + (* the call returns *)
        destruct (pull i a h Ia Hh2) as (m & Hm1 & Hm2).
        assert (Im : I m) by exact (I_pre _ _ _ Ia Hm1).
        destruct (over i m h h1 Im Hm2 Hi1) as (m' & Hm3 & Hm4).
        assert (Hm'i : idle i m') by (apply (but_flags _ _ _ Hm4); tauto).
        exists m'. split.
        * apply rtc_once. exists i. apply (build i a m m' m'); [apply Ra|assumption|assumption|constructor|assumption].
        * split.
          { exists h1. split; [assumption|]. split; [|assumption].
            clear -Hm4. induction Hm4 as [|x y z (j & _ & Hj) _ IH]; [constructor|].
            apply (rtc_l _ _ y); [exists j; exact Hj|assumption]. }
          { intros j. destruct (decide (j = i)) as [->|Hj]; [assumption|].
            apply (Hidle j i m m' Hj Hm3).
            apply (idle_others i a m (pre i) (fun _ _ H => proj1 H) Hm1); [|assumption]. intros; apply Ra. }
          { exact (HI _ _ _ Im Hm3). }
          { assumption. }
      + exists a. split; [constructor|]. split; [|assumption..].
        exists h1. split; [assumption|]. split; [|assumption].
        eapply rtc_r; [exact Hh2|]. exists i. split; [assumption|]. split; [assumption|]. split; [assumption|tauto].
  Qed.

  Lemma R_refl s : I s -> (forall i, idle i s) -> R s s.
  Proof.
    intros Hs Hi. split; [|assumption..]. exists s. split; [constructor|]. split; [constructor|].
    intros i H. exact (Hpi _ _ H (Hi i)).
  Qed.

  Lemma order_R s0 s : I s0 -> (forall i, idle i s0) -> rtc (any st) s0 s -> exists a, rtc (any whole) s0 a /\ R a s.
  Proof.
    intros H0 Hi Hr. enough (forall a s, R a s -> forall t, rtc (any st) s t -> exists b, rtc (any whole) a b /\ R b t) as H.
    { exact (H s0 s0 (R_refl s0 H0 Hi) s Hr). }
    clear s0 H0 Hi s Hr. intros a s HR t Hr. revert a HR. induction Hr as [s|s s1 t [i Hs] _ IH]; intros a HR.
    - exists a. split; [constructor|assumption].
    - destruct (sim i a s s1 HR Hs) as (b & Hb & HRb). destruct (IH b HRb) as (c & Hc & HRc).
      exists c. split; [etransitivity; eassumption|assumption].
  Qed.

  (** Overlapping calls that have all returned could have been made in turn. *)
  Lemma order_rest s0 s :
    I s0 -> (forall i, idle i s0) -> rtc (any st) s0 s -> (forall i, idle i s) -> rtc (any whole) s0 s.
  Proof.
    intros H0 Hi Hr Hs. destruct (order_R s0 s H0 Hi Hr) as (a & Ha & [(h & Hh1 & Hh2 & _) _ _ _]).
    assert (s = h) as <-.
    { destruct Hh1 as [|s s1 h [j [Hj _]] _]; [reflexivity|]. destruct (Hpi _ _ Hj (Hs j)). }
    assert (a = s) as <-; [|assumption].
    apply rtc_inv_r in Hh2 as [<-|(b & _ & j & _ & _ & _ & Hj)]; [reflexivity|]. destruct (Hj (Hs j)).
  Qed.

  (** An abort could also happen with calls made in turn. *)
  Lemma order_pan s0 s i :
    I s0 -> (forall i, idle i s0) -> rtc (any st) s0 s -> pan i s ->
    exists a m, rtc (any whole) s0 a /\ (forall j, idle j a) /\ rtc (pre i) a m /\ pan i m.
  Proof.
    intros H0 Hi Hr Hs. destruct (order_R s0 s H0 Hi Hr) as (a & Ha & [(h & Hh1 & Hh2 & _) Ra Ia Is]).
    assert (Hp : ~ post i s).
    { intros Hp. destruct (Hfin i s Is Hp) as (t & Ht & Hti). destruct Ht as [|s x t [_ Hx] _]; [exact (Hpi _ _ Hp Hti)|].
      exact (Hpst _ _ _ Hs Hx). }
    assert (Hh : pan i h).
    { clear -Hh1 Hs Hp Is Hpan HI Hpost. induction Hh1 as [s|s s1 h [j [Hj Hs1]] _ IH]; [assumption|].
      assert (Hij : i <> j) by (intros ->; exact (Hp Hj)).
      apply IH.
      - apply (Hpan i j s s1); assumption.
      - exact (HI _ _ _ Is Hs1).
      - rewrite <- (Hpost i j s s1) by assumption. assumption. }
    destruct (pull i a h Ia Hh2) as (m & Hm1 & Hm2).
    assert (Im : I m) by exact (I_pre _ _ _ Ia Hm1).
    exists a, m. split; [assumption|]. split; [assumption|]. split; [assumption|].
    clear -Hm2 Hh Im Hpan HI. induction Hm2 as [m|m m2 h (j & Hji & Hj & _) _ IH]; [assumption|].
    apply (Hpan i j m m2); [assumption|exact (not_eq_sym Hji)|assumption|].
    apply IH; [assumption|exact (HI _ _ _ Im Hj)].
  Qed.
End order.
