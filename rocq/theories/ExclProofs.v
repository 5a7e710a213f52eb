From Verif Require Import Base ExclModel.
From stdpp Require Import relations.
Local Open Scope Z_scope.

Definition num_of (p : pc) : option Z := match p with PNum n | PMade n => Some n | _ => None end.

Record einv (s : est) : Prop := {
  ei_lt i p n : e_pcs s !! i = Some p -> num_of p = Some n -> n < e_next s;
  ei_inj i j p q n : e_pcs s !! i = Some p -> e_pcs s !! j = Some q -> num_of p = Some n -> num_of q = Some n -> i = j;
  ei_made i n : e_pcs s !! i = Some (PMade n) -> is_Some (e_entry s);
  ei_ex i : e_pcs s !! i = Some PExists -> is_Some (e_entry s);
  ei_entry n : e_entry s = Some n -> exists i, e_pcs s !! i = Some (PMade n)
}.

Lemma init_inv n k : einv (einit n k).
Proof.
  constructor; cbn.
  - intros i p m H. apply lookup_replicate in H as [-> _]. discriminate.
  - intros i j p q m H. apply lookup_replicate in H as [-> _]. discriminate.
  - intros i m H. apply lookup_replicate in H as [? _]. discriminate.
  - intros i H. apply lookup_replicate in H as [? _]. discriminate.
  - discriminate.
Qed.

Lemma ins_cases (ps : list pc) i j p q : <[i := p]> ps !! j = Some q -> (j = i /\ q = p) \/ (j <> i /\ ps !! j = Some q).
Proof.
  destruct (decide (i = j)) as [<-|Hne].
  - intros H. apply list_lookup_insert_Some in H as [(_ & <- & _)|[? _]]; [auto|congruence].
  - rewrite list_lookup_insert_ne by assumption. auto.
Qed.

Lemma step_inv s s' : einv s -> estep s s' -> einv s'.
Proof.
  intros [I1 I2 I3 I4 I5] H. destruct H as [i e n ps Hi ->|i e n ps k Hi ->|i e n ps Hi|i e n ps k Hi]; cbn in *; constructor; cbn.
  - intros j p m Hj Hm. apply ins_cases in Hj as [[-> ->]|[_ Hj]]; [discriminate|eauto].
  - intros j1 j2 p q m H1 H2 Hp Hq. apply ins_cases in H1 as [[-> ->]|[_ H1]]; [discriminate|].
    apply ins_cases in H2 as [[-> ->]|[_ H2]]; [discriminate|eauto].
  - intros j m Hj. apply ins_cases in Hj as [[-> ?]|[_ Hj]]; [discriminate|eauto].
  - intros j Hj. apply ins_cases in Hj as [[-> ?]|[_ Hj]]; [discriminate|eauto].
  - discriminate.
  - intros j p m Hj Hm. apply ins_cases in Hj as [[-> ->]|[_ Hj]]; [discriminate|eauto].
  - intros j1 j2 p q m H1 H2 Hp Hq. apply ins_cases in H1 as [[-> ->]|[_ H1]]; [discriminate|].
    apply ins_cases in H2 as [[-> ->]|[_ H2]]; [discriminate|eauto].
  - eauto.
  - eauto.
  - intros m [= <-]. destruct (I5 k eq_refl) as [j Hj]. exists j.
    rewrite list_lookup_insert_ne; [assumption|]. intros ->. congruence.
  - intros j p m Hj Hm. apply ins_cases in Hj as [[-> ->]|[_ Hj]]; [cbn in Hm; injection Hm as <-; lia|].
    pose proof (I1 _ _ _ Hj Hm). lia.
  - intros j1 j2 p q m H1 H2 Hp Hq. apply ins_cases in H1 as [[-> ->]|[N1 H1]]; apply ins_cases in H2 as [[-> ->]|[N2 H2]]; cbn in *.
    + reflexivity.
    + injection Hp as <-. pose proof (I1 _ _ _ H2 Hq). lia.
    + injection Hq as <-. pose proof (I1 _ _ _ H1 Hp). lia.
    + eauto.
  - intros j m Hj. apply ins_cases in Hj as [[-> ?]|[_ Hj]]; [discriminate|eauto].
  - intros j Hj. apply ins_cases in Hj as [[-> ?]|[_ Hj]]; [discriminate|eauto].
  - intros m Hm. destruct (I5 m Hm) as [j Hj]. exists j. rewrite list_lookup_insert_ne; [assumption|]. intros ->. congruence.
  - intros j p m Hj Hm. apply ins_cases in Hj as [[-> ->]|[_ Hj]]; [cbn in Hm; injection Hm as <-; exact (I1 _ _ _ Hi eq_refl)|eauto].
  - intros j1 j2 p q m H1 H2 Hp Hq. apply ins_cases in H1 as [[-> ->]|[N1 H1]]; apply ins_cases in H2 as [[-> ->]|[N2 H2]]; cbn in *.
    + reflexivity.
    + injection Hp as <-. exact (I2 _ _ _ _ _ Hi H2 eq_refl Hq).
    + injection Hq as <-. symmetry. exact (I2 _ _ _ _ _ Hi H1 eq_refl Hp).
    + eauto.
  - eauto.
  - eauto.
  - intros m [= <-]. exists i. apply list_lookup_insert. eapply lookup_lt_Some; eauto.
Qed.

Lemma rtc_einv s s' : rtc estep s s' -> einv s -> einv s'.
Proof. induction 1 as [|a b d Hab _ IH]; [auto|]. intros Ha. apply IH. exact (step_inv _ _ Ha Hab). Qed.

Lemma reach_einv n k s : ereach n k s -> einv s.
Proof. intros H. exact (rtc_einv _ _ H (init_inv n k)). Qed.
