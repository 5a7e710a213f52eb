From stdpp Require Import gmap.
From Verif Require Import Base CancelModel CancelSpec CancelProofs.
Local Open Scope Z_scope.

Definition go_to (k k' : pc) : Prop :=
  k' = k \/ k' = Out \/ k' = Trapped \/ k' = Dead \/ (exists p, k = Reading p /\ k' = Again p) \/
  (exists p, k = Again p /\ k' = Reading p) \/ (exists x, k = Woken x /\ k' = Back x).
Lemma go_pc s t k s' : happen s (Go t) = Done s' -> c_pc s !! t = Some k -> exists k', c_pc s' !! t = Some k' /\ go_to k k'.
Proof.
  intros H Hk. cbn [happen] in H. unfold go in H. rewrite Hk in H. unfold go_to.
  destruct k; try (injection H as <-; eauto; fail).
  - destruct (c_pipe s !! p) as [[n w]|]; [|injection H as <-; eauto]. destruct (0 <? n); [|destruct (w =? 0)]; injection H as <-; pcs; rewrite lookup_insert; eauto 12.
  - injection H as <-. pcs. rewrite lookup_insert. destruct (c_cancel s); eauto 12.
  - destruct (c_pipe s !! p) as [[n w]|]; [|injection H as <-; eauto]. destruct (_ <? PAGE); injection H as <-; pcs; rewrite ?lookup_insert; eauto 12.
  - destruct (c_owner s !! x); injection H as <-; pcs; rewrite ?lookup_insert; eauto 12.
  - destruct (c_owner s !! x); injection H as <-; pcs; rewrite ?lookup_insert; eauto 12.
  - injection H as <-. pcs. rewrite lookup_insert. destruct (c_cancel s); eauto 12.
  - unfold cancelpoint in H. destruct (c_table s !! t) as [[]|]; [| |discriminate]; injection H as <-; pcs; rewrite ?lookup_insert; eauto 12.
Qed.

Lemma pipe_event s e s' p n w : happen s e = Done s' -> c_pipe s !! p = Some (n, w) ->
  exists n' w', c_pipe s' !! p = Some (n', w') /\ (w' = w \/ exists t, e = CloseW t p) /\
  (n' = n \/ (0 < n /\ exists t, e = Go t /\ c_pc s !! t = Some (Reading p)) \/
   (PAGE <= CAPACITY - n /\ exists t, e = Go t /\ c_pc s !! t = Some (Writing p))).
Proof.
  intros H Hp. assert (Hsame : c_pipe s' = c_pipe s -> exists n' w', c_pipe s' !! p = Some (n', w') /\ (w' = w \/ exists t, e = CloseW t p) /\
  (n' = n \/ (0 < n /\ exists t, e = Go t /\ c_pc s !! t = Some (Reading p)) \/
   (PAGE <= CAPACITY - n /\ exists t, e = Go t /\ c_pc s !! t = Some (Writing p)))) by (intros ->; eauto 10).
  destruct e; cbn [happen] in H; try (injection H as <-); unfold begins in *;
    try (lazymatch goal with _ : go _ _ = _ |- _ => fail | _ => idtac end; destruct (c_pc s !! t) as [[]|]; try by apply Hsame).
  - destruct (bool_decide _); by apply Hsame.
  - destruct (_ && _); by apply Hsame.
  - destruct (sleeper v s) as [[]|]; by apply Hsame.
  - destruct (c_pipe s !! p0) as [[n0 w0]|] eqn:E0; [|by apply Hsame]. pcs.
    destruct (decide (p0 = p)) as [->|Hne]; [rewrite lookup_insert|rewrite lookup_insert_ne by done; eauto 10].
    rewrite Hp in E0. injection E0 as <- <-. eexists _, _. split; [done|]. eauto.
  - unfold go in H. destruct (c_pc s !! t) as [k|] eqn:Ek; [|injection H as <-; by apply Hsame].
    destruct k; try (injection H as <-; by apply Hsame).
    + destruct (c_pipe s !! p0) as [[n0 w0]|] eqn:E0; [|injection H as <-; by apply Hsame].
      destruct (Z.ltb_spec 0 n0); [|destruct (w0 =? 0); injection H as <-; by apply Hsame].
      injection H as <-. pcs. destruct (decide (p0 = p)) as [->|Hne]; [rewrite lookup_insert|rewrite lookup_insert_ne by done; eauto 10].
      rewrite Hp in E0. injection E0 as <- <-. eexists _, _. split; [done|]. split; [by left|]. right; left. eauto.
    + destruct (c_pipe s !! p0) as [[n0 w0]|] eqn:E0; [|injection H as <-; by apply Hsame].
      destruct (Z.ltb_spec (CAPACITY - n0) PAGE); injection H as <-; [by apply Hsame|].
      pcs. destruct (decide (p0 = p)) as [->|Hne]; [rewrite lookup_insert|rewrite lookup_insert_ne by done; eauto 10].
      rewrite Hp in E0. injection E0 as <- <-. eexists _, _. split; [done|]. split; [by left|]. right; right. eauto.
    + destruct (c_owner s !! x); injection H as <-; by apply Hsame.
    + destruct (c_owner s !! x); injection H as <-; by apply Hsame.
    + unfold cancelpoint in H. destruct (c_table s !! t) as [[]|]; [| |discriminate]; injection H as <-; by apply Hsame.
  - by apply Hsame.
  - destruct (bool_decide _); by apply Hsame.
Qed.

Lemma owner_event s e s' x : happen s e = Done s' ->
  c_owner s' !! x = c_owner s !! x \/
  (exists t, c_owner s !! x = Some t /\ c_pc s !! t = Some Out /\ c_owner s' !! x = None) \/
  (exists t, c_owner s !! x = None /\ c_owner s' !! x = Some t /\ e = Go t /\ (c_pc s !! t = Some (Locking x) \/ c_pc s !! t = Some (Woken x))).
Proof.
  intros H. destruct e; cbn [happen] in H; try (injection H as <-); unfold begins in *;
    try (lazymatch goal with _ : go _ _ = _ |- _ => fail | _ => idtac end; destruct (c_pc s !! t) as [[]|] eqn:Ek; try by left).
  - destruct (bool_decide_reflect (c_owner s !! x0 = Some t)) as [Eo|]; [|by left]. pcs.
    destruct (decide (x0 = x)) as [->|]; [rewrite lookup_delete|rewrite lookup_delete_ne by done; by left]. right; left. eauto.
  - destruct (bool_decide_reflect (c_owner s !! x0 = Some t)) as [Eo|]; [|by left]. cbn [andb]. destruct (bool_decide _); [|by left]. pcs.
    destruct (decide (x0 = x)) as [->|]; [rewrite lookup_delete|rewrite lookup_delete_ne by done; by left]. right; left. eauto.
  - destruct (sleeper v s) as [[]|]; by left.
  - destruct (c_pipe s !! p) as [[]|]; by left.
  - unfold go in H. destruct (c_pc s !! t) as [k|] eqn:Ek; [|injection H as <-; by left].
    destruct k; try (repeat (case_match; try discriminate); injection H as <-; by left).
    + destruct (c_owner s !! x0) eqn:Eo; injection H as <-; [by left|]. pcs.
      destruct (decide (x0 = x)) as [->|]; [rewrite lookup_insert|rewrite lookup_insert_ne by done; by left]. right; right. eauto 10.
    + destruct (c_owner s !! x0) eqn:Eo; injection H as <-; [by left|]. pcs.
      destruct (decide (x0 = x)) as [->|]; [rewrite lookup_insert|rewrite lookup_insert_ne by done; by left]. right; right. eauto 10.
    + unfold cancelpoint in H. destruct (c_table s !! t) as [[]|]; [| |discriminate]; injection H as <-; by left.
  - by left.
  - destruct (bool_decide _); by left.
Qed.

Lemma turns_cons t e l : turns t (e :: l) = if decide (e = Go t) then S (turns t l) else turns t l.
Proof.
  unfold turns. cbn [List.filter]. destruct e; try (destruct (decide _); [discriminate|done]).
  destruct (Z.eqb_spec t0 t); [subst; destruct (decide _); [done|congruence]|destruct (decide _); [congruence|done]].
Qed.
Lemma keeps_cons t e l : keeps_mark t (e :: l) -> keeps_mark t l /\ e <> SetKill t false /\ e <> Remove t.
Proof. unfold keeps_mark. intros (H1 & H2). rewrite elem_of_cons in H1, H2. split_and!; intros E; subst; tauto. Qed.

Lemma marked_keep s e s' t : happen s e = Done s' -> marked t s -> e <> SetKill t false -> e <> Remove t ->
  marked t s' \/ at_ t Dead s'.
Proof.
  unfold marked, at_. intros H Hm H1 H2. destruct (table_event s e s' t H) as [E|[(b & -> & E)|[(-> & E)|(_ & _ & _ & _ & E)]]]; [left; congruence| |done|by right].
  left. destruct b; congruence.
Qed.

(** ** The reader *)
Lemma reader_ends l : forall s s' t p k, history s l = Done s' -> cancelled s -> marked t s -> is_Some (c_pipe s !! p) ->
  at_ t k s -> keeps_mark t l ->
  (k = Reading p /\ (3 <= turns t l)%nat \/ k = Again p /\ (2 <= turns t l)%nat \/ k = Trapped /\ (1 <= turns t l)%nat) ->
  exists l1 l2 s1, l = l1 ++ l2 /\ history s l1 = Done s1 /\ (turns t l1 <= 3)%nat /\
    (at_ t Dead s1 /\ (turns t l1 <= match k with Reading _ => 3 | Again _ => 2 | _ => 1 end)%nat \/ at_ t Out s1 /\ k = Reading p /\ turns t l1 = 1%nat).
Proof.
  induction l as [|e l IH]; intros s s' t p k H Hc Hm Hp Hk Hkm Hn; [cbn in Hn; lia|].
  apply history_cons in H as (s1 & H1 & H2). apply keeps_cons in Hkm as (Hkm & Hk1 & Hk2).
  assert (Hp1 : is_Some (c_pipe s1 !! p)).
  { destruct Hp as ((n & w) & Hp). destruct (pipe_event _ _ _ _ _ _ H1 Hp) as (n' & w' & -> & _). eauto. }
  pose proof (cancel_mono _ _ _ H1 Hc) as Hc1.
  rewrite turns_cons in Hn. destruct (decide (e = Go t)) as [->|Hne].
  - assert (Hnow : forall a, at_ t a s1 -> a = Dead \/ a = Out /\ k = Reading p -> exists l1 l2 s1, Go t :: l = l1 ++ l2 /\ history s l1 = Done s1 /\ (turns t l1 <= 3)%nat /\
      (at_ t Dead s1 /\ (turns t l1 <= match k with Reading _ => 3 | Again _ => 2 | _ => 1 end)%nat \/ at_ t Out s1 /\ k = Reading p /\ turns t l1 = 1%nat)).
    { intros a Ha Hd. exists [Go t], l, s1. split; [done|]. cbn [history]. rewrite H1. split; [done|].
      rewrite turns_cons. destruct (decide _); [|congruence]. replace (turns t []) with 0%nat by done. split; [lia|].
      destruct Hd as [->|(-> & ->)]; [left; split; [done|destruct k; lia]|by right]. }
    destruct (marked_keep _ _ _ _ H1 Hm Hk1 Hk2) as [Hm1|Hd]; [|eapply Hnow; eauto].
    assert (Hlater : forall k1, at_ t k1 s1 -> (k1 = Again p /\ (2 <= turns t l)%nat /\ k = Reading p \/ k1 = Trapped /\ (1 <= turns t l)%nat /\ k = Again p) ->
      exists l1 l2 s1, Go t :: l = l1 ++ l2 /\ history s l1 = Done s1 /\ (turns t l1 <= 3)%nat /\
      (at_ t Dead s1 /\ (turns t l1 <= match k with Reading _ => 3 | Again _ => 2 | _ => 1 end)%nat \/ at_ t Out s1 /\ k = Reading p /\ turns t l1 = 1%nat)).
    { intros k1 Hk1' Hcase. destruct (IH s1 s' t p k1 H2 Hc1 Hm1 Hp1 Hk1' Hkm ltac:(tauto)) as (l1 & l2 & s2 & -> & Hs2 & Ht & Hr).
      exists (Go t :: l1), l2, s2. split; [done|]. cbn [history]. rewrite H1. split; [done|]. rewrite turns_cons. destruct (decide _); [|congruence].
      destruct Hr as [(Hd & Hb)|(_ & Hb & _)]; [|destruct Hcase as [(-> & _)|(-> & _)]; discriminate].
      destruct Hcase as [(-> & _ & ->)|(-> & _ & ->)]; (split; [lia|left; split; [done|lia]]). }
    unfold at_ in Hk. cbn [happen] in H1. unfold go in H1. rewrite Hk in H1.
    destruct Hn as [(-> & Hn)|[(-> & Hn)|(-> & Hn)]].
    + destruct Hp as ((n & w) & Hp). rewrite Hp in H1. unfold at_ in *.
      destruct (0 <? n); [|destruct (w =? 0)]; injection H1 as <-; pcs.
      * eapply Hnow; [by rewrite lookup_insert|]. eauto.
      * eapply Hnow; [by rewrite lookup_insert|]. eauto.
      * eapply Hlater; [by rewrite lookup_insert|]. left. split_and!; [done|lia|done].
    + rewrite Hc in H1. unfold at_ in *. injection H1 as <-; pcs. eapply Hlater; [by rewrite lookup_insert|]. right. split_and!; [done|lia|done].
    + unfold cancelpoint in H1. rewrite Hm in H1. injection H1 as <-. unfold at_ in *. pcs. eapply Hnow; [by rewrite lookup_insert|]. by left.
  - assert (Hm1 : marked t s1).
    { unfold marked in *. destruct (table_event s e s1 t H1) as [E|[(b & -> & E)|[(-> & E)|(-> & _)]]]; [congruence| |done|done]. destruct b; congruence. }
    assert (Hin : inside k) by (destruct Hn as [(-> & _)|[(-> & _)|(-> & _)]]; done).
    pose proof (pc_keep _ _ _ _ _ H1 Hne Hk Hin) as Hk'.
    destruct (IH s1 s' t p k H2 Hc1 Hm1 Hp1 Hk' Hkm Hn) as (l1 & l2 & s2 & -> & Hs2 & Ht & Hr).
    exists (e :: l1), l2, s2. split; [done|]. cbn [history]. rewrite H1. split; [done|]. rewrite turns_cons. destruct (decide _); [congruence|]. done.
Qed.

Lemma quiet_step p s e l s1 : happen s e = Done s1 -> quiet_pipe p s (e :: l) -> quiet_pipe p s1 l.
Proof.
  intros H (H1 & H2). split.
  - intros u Hu. unfold at_ in *. destruct (c_pc s !! u) as [k|] eqn:Ek; [|rewrite (pc_thread _ _ _ _ H Ek) in Hu; discriminate].
    assert (Hk : k <> Writing p) by (intros ->; exact (H1 u Ek)).
    destruct (decide (e = Go u)) as [->|Hne].
    + destruct (go_pc _ _ _ _ H Ek) as (k' & Hk' & Hg). rewrite Hk' in Hu. injection Hu as ->. unfold go_to in Hg.
      destruct Hg as [E|[E|[E|[E|[(?&_&E)|[(?&_&E)|(?&_&E)]]]]]]; congruence.
    + destruct (pc_event _ _ _ u H Hne) as [E|[(E & k' & E' & Hb)|(v & x & E & E' & _)]]; [congruence| |congruence].
      rewrite E' in Hu. injection Hu as ->. unfold beginning in Hb. destruct e; try done; destruct Hb as [Ht Hb]; try discriminate. injection Hb as ->. subst.
      apply (proj1 (H2 u)). left.
  - intros u. destruct (H2 u) as (A & B). rewrite elem_of_cons in A, B. tauto.
Qed.
Lemma quiet_data p l : forall s s1 w, history s l = Done s1 -> quiet_pipe p s l -> c_pipe s !! p = Some (0, w) -> c_pipe s1 !! p = Some (0, w).
Proof.
  induction l as [|e l IH]; intros s s1 w H Hq Hp; [by injection H as <-|].
  apply history_cons in H as (s0 & H1 & H2). apply (IH s0 s1 w H2); [by eapply quiet_step|].
  destruct (pipe_event _ _ _ _ _ _ H1 Hp) as (n' & w' & E & Hw & Hn). destruct Hq as (Q1 & Q2). rewrite E.
  destruct Hw as [->|(u & ->)]; [|destruct (Q2 u) as (_ & B); destruct B; left].
  destruct Hn as [->|[(Hlt & _)|(_ & u & -> & Hu)]]; [done|lia|]. destruct (Q1 u Hu).
Qed.

(** a reader of a pipe that stays empty dies *)
Lemma reader_dies l : forall s s' t p w, history s l = Done s' -> cancelled s -> marked t s -> c_pipe s !! p = Some (0, w) -> 0 < w ->
  at_ t (Reading p) s -> keeps_mark t l -> quiet_pipe p s l -> (3 <= turns t l)%nat -> at_ t Dead s'.
Proof.
  assert (G : forall l s s' t p w k, history s l = Done s' -> cancelled s -> marked t s -> c_pipe s !! p = Some (0, w) -> 0 < w ->
    at_ t k s -> keeps_mark t l -> quiet_pipe p s l ->
    (k = Reading p /\ (3 <= turns t l)%nat \/ k = Again p /\ (2 <= turns t l)%nat \/ k = Trapped /\ (1 <= turns t l)%nat) -> at_ t Dead s').
  { clear l. induction l as [|e l IH]; intros s s' t p w k H Hc Hm Hp Hw Hk Hkm Hq Hn; [cbn in Hn; lia|].
    pose proof H as HH. apply history_cons in H as (s1 & H1 & H2). apply keeps_cons in Hkm as (Hkm & Hk1 & Hk2).
    assert (Hp1 : c_pipe s1 !! p = Some (0, w)).
    { eapply (quiet_data p [e] s); [cbn [history]; by rewrite H1| |done]. destruct Hq as (Q1 & Q2). split; [done|]. intros u. rewrite !elem_of_list_singleton. destruct (Q2 u) as (A & B). rewrite elem_of_cons in A, B. tauto. }
    pose proof (cancel_mono _ _ _ H1 Hc) as Hc1. pose proof (quiet_step _ _ _ _ _ H1 Hq) as Hq1.
    rewrite turns_cons in Hn. destruct (decide (e = Go t)) as [->|Hne].
    - destruct (marked_keep _ _ _ _ H1 Hm Hk1 Hk2) as [Hm1|Hd]; [|eapply (gone_stays s1 l s' t); [done|by right|done]].
      unfold at_ in Hk. cbn [happen] in H1. unfold go in H1. rewrite Hk in H1.
      destruct Hn as [(-> & Hn)|[(-> & Hn)|(-> & Hn)]].
      + rewrite Hp in H1. cbn [Z.ltb Z.compare] in H1. destruct (Z.eqb_spec w 0); [lia|]. injection H1 as <-.
        eapply (IH _ _ t p w (Again p)); try done. 1: unfold at_; pcs; by rewrite lookup_insert. right; left. split; [done|lia].
      + rewrite Hc in H1. injection H1 as <-. eapply (IH _ _ t p w Trapped); try done. 1: unfold at_; pcs; by rewrite lookup_insert. right; right. split; [done|lia].
      + unfold cancelpoint in H1. rewrite Hm in H1. injection H1 as <-. unfold marked in Hm1. pcs. rewrite lookup_insert in Hm1. discriminate.
    - assert (Hm1 : marked t s1).
      { unfold marked in *. destruct (table_event s e s1 t H1) as [E|[(b & -> & E)|[(-> & E)|(-> & _)]]]; [congruence| |done|done]. destruct b; congruence. }
      assert (Hin : inside k) by (destruct Hn as [(-> & _)|[(-> & _)|(-> & _)]]; done).
      pose proof (pc_keep _ _ _ _ _ H1 Hne Hk Hin) as Hk'. eapply (IH s1); eauto. }
  intros. eapply G; eauto.
Qed.

(** ** The waiter *)
Lemma sole_step t x s e l s1 : happen s e = Done s1 -> sole t x s (e :: l) -> sole t x s1 l.
Proof.
  intros H (H1 & H2). split.
  - intros u k Hut Hu. unfold at_ in *. destruct (c_pc s !! u) as [k0|] eqn:Ek; [|rewrite (pc_thread _ _ _ _ H Ek) in Hu; discriminate].
    pose proof (H1 u k0 Hut Ek) as Hk.
    destruct (decide (e = Go u)) as [->|Hne].
    + destruct (go_pc _ _ _ _ H Ek) as (k' & Hk' & Hg). rewrite Hk' in Hu. injection Hu as ->. unfold go_to in Hg.
      destruct Hg as [E|[E|[E|[E|[(?&_&E)|[(?&_&E)|(?&_&E)]]]]]]; subst; cbn; auto.
    + destruct (pc_event _ _ _ u H Hne) as [E|[(E & k' & E' & Hb)|(v & y & E & E' & _)]].
      * rewrite Ek, Hu in E. injection E as ->. done.
      * rewrite E' in Hu. injection Hu as ->. destruct (H2 u 0) as (HL & _). unfold beginning in Hb. destruct e; try done; destruct Hb as [Ht Hb]; subst; cbn; auto.
        -- intros ->. destruct HL. left.
        -- intros ->. destruct (H2 u v) as (_ & HW). destruct HW. left.
      * rewrite E in Ek. injection Ek as <-. rewrite E' in Hu. injection Hu as <-. done.
  - intros u v. destruct (H2 u v) as (A & B). rewrite elem_of_cons in A, B. tauto.
Qed.

Lemma waiter_dies l : forall s s' t x, history s l = Done s' -> cancelled s -> marked t s -> c_owner s !! x = None ->
  at_ t (Woken x) s -> keeps_mark t l -> sole t x s l -> (3 <= turns t l)%nat -> at_ t Dead s'.
Proof.
  assert (G : forall l s s' t x k, history s l = Done s' -> cancelled s -> marked t s -> (k = Woken x -> c_owner s !! x = None) ->
    at_ t k s -> keeps_mark t l -> sole t x s l ->
    (k = Woken x /\ (3 <= turns t l)%nat \/ k = Back x /\ (2 <= turns t l)%nat \/ k = Trapped /\ (1 <= turns t l)%nat) -> at_ t Dead s').
  { clear l. induction l as [|e l IH]; intros s s' t x k H Hc Hm Ho Hk Hkm Hq Hn; [cbn in Hn; lia|].
    apply history_cons in H as (s1 & H1 & H2). apply keeps_cons in Hkm as (Hkm & Hk1 & Hk2).
    pose proof (cancel_mono _ _ _ H1 Hc) as Hc1. pose proof (sole_step _ _ _ _ _ _ H1 Hq) as Hq1.
    rewrite turns_cons in Hn. destruct (decide (e = Go t)) as [->|Hne].
    - destruct (marked_keep _ _ _ _ H1 Hm Hk1 Hk2) as [Hm1|Hd]; [|eapply (gone_stays s1 l s' t); [done|by right|done]].
      unfold at_ in Hk. cbn [happen] in H1. unfold go in H1. rewrite Hk in H1.
      destruct Hn as [(-> & Hn)|[(-> & Hn)|(-> & Hn)]].
      + rewrite (Ho eq_refl) in H1. injection H1 as <-.
        eapply (IH _ _ t x (Back x)); try done. 1: unfold at_; pcs; by rewrite lookup_insert. right; left. split; [done|lia].
      + rewrite Hc in H1. injection H1 as <-. eapply (IH _ _ t x Trapped); try done. 1: unfold at_; pcs; by rewrite lookup_insert. right; right. split; [done|lia].
      + unfold cancelpoint in H1. rewrite Hm in H1. injection H1 as <-. unfold marked in Hm1. pcs. rewrite lookup_insert in Hm1. discriminate.
    - assert (Hm1 : marked t s1).
      { unfold marked in *. destruct (table_event s e s1 t H1) as [E|[(b & -> & E)|[(-> & E)|(-> & _)]]]; [congruence| |done|done]. destruct b; congruence. }
      assert (Hin : inside k) by (destruct Hn as [(-> & _)|[(-> & _)|(-> & _)]]; done).
      pose proof (pc_keep _ _ _ _ _ H1 Hne Hk Hin) as Hk'. eapply (IH s1 s' t x k); eauto.
      intros ->. specialize (Ho eq_refl). destruct (owner_event _ _ _ x H1) as [E|[(u & E & _)|(u & _ & E' & -> & Hu)]]; [congruence..|].
      assert (u <> t) by congruence. destruct Hq as (Q & _). destruct Hu as [Hu|Hu]; destruct (Q u _ ltac:(done) Hu); done. }
  intros. eapply G; eauto.
Qed.

(** ** Threads that no cancellation reaches *)
Lemma asleep_stays l : forall s s' t v x, history s l = Done s' -> at_ t (Asleep v x) s -> unsignalled v l -> at_ t (Asleep v x) s'.
Proof.
  induction l as [|e l IH]; intros s s' t v x H Hk (U1 & U2); [by injection H as <-|].
  apply history_cons in H as (s1 & H1 & H2). apply (IH s1); [done| |].
  - unfold at_ in *. destruct (decide (e = Go t)) as [->|Hne].
    + cbn [happen] in H1. unfold go in H1. rewrite Hk in H1. by injection H1 as <-.
    + destruct (pc_event _ _ _ t H1 Hne) as [->|[(E & _)|(v' & y & E & _ & Hr)]]; [done|congruence|].
      rewrite Hk in E. injection E as <- <-. destruct Hr as [->|(u & [->| ->])].
      * destruct U2. left.
      * destruct (U1 u) as (A & _). destruct A. left.
      * destruct (U1 u) as (_ & A). destruct A. left.
  - split; [|rewrite elem_of_cons in U2; tauto]. intros u. destruct (U1 u) as (A & B). rewrite elem_of_cons in A, B. tauto.
Qed.

Lemma locker_stays l : forall s s' t u x k, history s l = Done s' -> gone u s -> c_owner s !! x = Some u ->
  k = Locking x \/ k = Woken x -> at_ t k s -> at_ t k s' /\ c_owner s' !! x = Some u.
Proof.
  induction l as [|e l IH]; intros s s' t u x k H Hg Ho Hx Hk; [by injection H as <-|].
  apply history_cons in H as (s1 & H1 & H2). eapply (IH s1); [done|by eapply gone_step| |exact Hx|].
  - destruct (owner_event _ _ _ x H1) as [->|[(u' & E & Hout & _)|(u' & E & _)]]; [done| |congruence].
    rewrite Ho in E. injection E as <-. destruct Hg as [Hg|Hg]; unfold at_ in Hg; congruence.
  - unfold at_ in *. destruct (decide (e = Go t)) as [->|Hne].
    + cbn [happen] in H1. unfold go in H1. rewrite Hk in H1. destruct Hx as [->| ->]; rewrite Ho in H1; by injection H1 as <-.
    + eapply pc_keep; eauto. destruct Hx as [->| ->]; done.
Qed.

Lemma undrained_step p s e l s1 : happen s e = Done s1 -> undrained p s (e :: l) -> undrained p s1 l.
Proof.
  intros H (H1 & H2). split.
  - intros u. assert (Hgen : forall k1, k1 = Reading p \/ k1 = Again p -> ~ at_ u k1 s1).
    { intros k1 Hk1 Hu. unfold at_ in *. destruct (c_pc s !! u) as [k|] eqn:Ek; [|rewrite (pc_thread _ _ _ _ H Ek) in Hu; discriminate].
      assert (Hk : k <> Reading p /\ k <> Again p) by (split; intros ->; destruct (H1 u); tauto). destruct Hk as (Ha & Hb).
      destruct (decide (e = Go u)) as [->|Hne].
      + destruct (go_pc _ _ _ _ H Ek) as (k' & Hk' & Hg). rewrite Hk' in Hu. injection Hu as ->. unfold go_to in Hg.
        destruct Hk1 as [->| ->]; destruct Hg as [E|[E|[E|[E|[(?&E0&E)|[(?&E0&E)|(?&E0&E)]]]]]]; congruence.
      + destruct (pc_event _ _ _ u H Hne) as [E|[(E & k' & E' & Hbb)|(v & x & E & E' & _)]]; [destruct Hk1 as [->| ->]; congruence| |destruct Hk1 as [->| ->]; congruence].
        rewrite E' in Hu. injection Hu as ->. unfold beginning in Hbb. destruct e; try done; destruct Hbb as [Ht Hbb]; subst; destruct Hk1 as [E1|E1]; try discriminate.
        injection E1 as ->. apply (H2 u). left. }
    split; apply Hgen; auto.
  - intros u Hu. apply (H2 u). by right.
Qed.
Lemma writer_stays l : forall s s' t p n w, history s l = Done s' -> at_ t (Writing p) s -> c_pipe s !! p = Some (n, w) -> CAPACITY - n < PAGE ->
  undrained p s l -> at_ t (Writing p) s'.
Proof.
  induction l as [|e l IH]; intros s s' t p n w H Hk Hp Hn Hu; [by injection H as <-|].
  apply history_cons in H as (s1 & H1 & H2).
  destruct (pipe_event _ _ _ _ _ _ H1 Hp) as (n' & w' & E & _ & Hn').
  assert (n' = n) as ->. { destruct Hn' as [->|[(_ & u & -> & Hr)|(Hge & _)]]; [done| |lia]. destruct Hu as (U & _). destruct (U u) as (A & _). destruct (A Hr). }
  apply (IH s1 s' t p n w'); [done| |done|done|by eapply undrained_step].
  unfold at_ in *. destruct (decide (e = Go t)) as [->|Hne].
  - cbn [happen] in H1. unfold go in H1. rewrite Hk, Hp in H1. destruct (Z.ltb_spec (CAPACITY - n) PAGE); [|lia]. by injection H1 as <-.
  - eapply pc_keep; eauto. done.
Qed.

(** two threads that are woken with the same mutex *)
Definition caught (t x : Z) (s : cage) : Prop :=
  at_ t (Woken x) s \/ (at_ t (Back x) s \/ at_ t Trapped s \/ at_ t Dead s) /\ c_owner s !! x = Some t.
Lemma caught_step t x s e s1 : happen s e = Done s1 -> cancelled s -> caught t x s -> caught t x s1.
Proof.
  intros H Hc Hcau. unfold caught, at_ in *.
  assert (Hown : c_owner s !! x = Some t -> c_pc s !! t <> Some Out -> c_owner s1 !! x = Some t).
  { intros Ho Hno. destruct (owner_event _ _ _ x H) as [->|[(u & E & Eo & _)|(u & E & _)]]; [done|congruence|congruence]. }
  destruct (decide (e = Go t)) as [->|Hne].
  - cbn [happen] in H. unfold go in H. destruct Hcau as [Hk|([Hk|[Hk|Hk]] & Ho)]; rewrite Hk in H.
    + destruct (c_owner s !! x); injection H as <-; [by left|]. pcs. rewrite !lookup_insert. right. auto.
    + rewrite Hc in H. injection H as <-. pcs. rewrite !lookup_insert. right. auto.
    + unfold cancelpoint in H. destruct (c_table s !! t) as [[]|]; [| |discriminate]; injection H as <-; pcs; rewrite ?lookup_insert; right; auto.
    + injection H as <-. right. auto.
  - destruct Hcau as [Hk|([Hk|[Hk|Hk]] & Ho)]; pose proof (pc_keep _ _ _ _ _ H Hne Hk I) as Hk'; [by left|right; (split; [auto|apply Hown; congruence])..].
Qed.
Lemma two_caught l : forall s s' t u x, history s l = Done s' -> cancelled s -> t <> u -> caught t x s -> caught u x s -> ~ (at_ t Dead s' /\ at_ u Dead s').
Proof.
  induction l as [|e l IH]; intros s s' t u x H Hc Hne Ht Hu.
  - injection H as <-. intros (Hd1 & Hd2). unfold caught, at_ in *. destruct Ht as [Ht|(_ & Ht)], Hu as [Hu|(_ & Hu)]; congruence.
  - apply history_cons in H as (s1 & H1 & H2). eapply (IH s1); eauto using caught_step, cancel_mono. by eapply cancel_mono.
Qed.
