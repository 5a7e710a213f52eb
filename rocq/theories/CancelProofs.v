From stdpp Require Import gmap.
From Verif Require Import Base CancelModel CancelSpec.
Local Open Scope Z_scope.

#[global] Instance event_dec : EqDecision event.
Proof. solve_decision. Defined.
#[global] Instance pc_dec : EqDecision pc.
Proof. solve_decision. Defined.

Lemma history_app s l1 l2 : history s (l1 ++ l2) = match history s l1 with Done s1 => history s1 l2 | Panic => Panic end.
Proof. revert s. induction l1 as [|e l IH]; intros s; [done|]. cbn [history app]. destruct (happen s e); [apply IH|done]. Qed.
Lemma history_cons s e l s' : history s (e :: l) = Done s' -> exists s1, happen s e = Done s1 /\ history s1 l = Done s'.
Proof. cbn [history]. destruct (happen s e) as [s1|]; [eauto|discriminate]. Qed.

Lemma sleeper_at v s u x : sleeper v s = Some (u, x) -> c_pc s !! u = Some (Asleep v x).
Proof.
  unfold sleeper. intros H.
  assert (Hin : (u, x) ∈ omap (fun tk : Z * pc => match snd tk with Asleep v' x => if v' =? v then Some (fst tk, x) else None | _ => None end) (map_to_list (c_pc s))).
  { destruct (omap _ _) as [|a r]; [discriminate|]. cbn in H. injection H as ->. left. }
  apply elem_of_list_omap in Hin. destruct Hin as ((t & k) & Hin & E). cbn in E.
  destruct k; try discriminate. destruct (Z.eqb_spec v0 v); [|discriminate]. injection E as -> ->. subst.
  by apply elem_of_map_to_list in Hin.
Qed.

Definition rousing (v : Z) (e : event) : Prop := e = Rouse v \/ exists t, e = Signal t v \/ e = Broadcast t v.
(** what one event does to one thread that it is not about *)
Definition beginning (t : Z) (e : event) (k' : pc) : Prop :=
  match e with
  | Read u p => u = t /\ k' = Reading p
  | Write u p => u = t /\ k' = Writing p
  | Lock u x => u = t /\ k' = Locking x
  | Wait u v x => u = t /\ k' = Asleep v x
  | _ => False
  end.
Ltac pcs := cbn [c_pc c_table c_cancel c_cvs c_owner c_pipe set_pc set_pipe set_owner free_owner set_table] in *.
Ltac look t u := destruct (decide (t = u)) as [?|?]; [subst; rewrite ?lookup_insert in *|rewrite ?lookup_insert_ne in * by congruence].

Lemma wake_fmap s v t : (wake v <$> c_pc s) !! t = c_pc s !! t \/ exists x, c_pc s !! t = Some (Asleep v x) /\ (wake v <$> c_pc s) !! t = Some (Woken x).
Proof.
  rewrite lookup_fmap. destruct (c_pc s !! t) as [k|]; [|by left]. cbn. destruct k; try by left.
  cbn. destruct (Z.eqb_spec v0 v); [subst; right; eauto|by left].
Qed.

Lemma pc_event s e s' t : happen s e = Done s' -> e <> Go t ->
  c_pc s' !! t = c_pc s !! t \/
  (c_pc s !! t = Some Out /\ exists k', c_pc s' !! t = Some k' /\ beginning t e k') \/
  (exists v x, c_pc s !! t = Some (Asleep v x) /\ c_pc s' !! t = Some (Woken x) /\ rousing v e).
Proof.
  intros H Hne. destruct e; cbn [happen] in H; try (injection H as <-); unfold begins, beginning.
  1-3: (destruct (c_pc s !! t0) as [[]|] eqn:E; try by left); pcs;
    (destruct (decide (t0 = t)) as [?|?]; [subst; rewrite !lookup_insert; right; left; eauto|rewrite !lookup_insert_ne by done; by left]).
  - left. destruct (c_pc s !! t0) as [[]|] eqn:E; try done. destruct (bool_decide _); done.
  - destruct (c_pc s !! t0) as [[]|] eqn:E; try by left. destruct (_ && _); [|by left]. pcs.
    destruct (decide (t0 = t)) as [?|?]; [subst; rewrite !lookup_insert; right; left; eauto|rewrite !lookup_insert_ne by done; by left].
  - destruct (c_pc s !! t0) as [[]|] eqn:E; try by left. destruct (sleeper v s) as [[u x]|] eqn:Es; [|by left]. pcs.
    destruct (decide (u = t)) as [?|?]; [subst; rewrite !lookup_insert|rewrite !lookup_insert_ne by done; by left].
    right; right. apply sleeper_at in Es. exists v, x. split_and!; [done..|]. right. eauto.
  - destruct (c_pc s !! t0) as [[]|] eqn:E; try by left. pcs. destruct (wake_fmap s v t) as [->|(x & Ha & Hb)]; [by left|].
    right; right. exists v, x. split_and!; [done..|]. right. eauto.
  - left. destruct (c_pc s !! t0) as [[]|] eqn:E; try done.
  - left. destruct (c_pc s !! t0) as [[]|] eqn:E; try done. destruct (c_pipe s !! p) as [[]|]; done.
  - left. assert (Hn : t0 <> t) by congruence. unfold go in H. destruct (c_pc s !! t0) as [k|] eqn:E; [|by injection H as <-].
    assert (L : forall k' (m : gmap Z pc), <[t0:=k']> m !! t = m !! t) by (intros; by rewrite lookup_insert_ne).
    destruct k; try (injection H as <-; pcs; try rewrite L; done).
    + destruct (c_pipe s !! p) as [[n w]|]; [|by injection H as <-]. destruct (0 <? n); [|destruct (w =? 0)]; injection H as <-; pcs; by rewrite L.
    + destruct (c_pipe s !! p) as [[n w]|]; [|by injection H as <-]. destruct (_ <? PAGE); injection H as <-; pcs; rewrite ?L; done.
    + destruct (c_owner s !! x); injection H as <-; pcs; rewrite ?L; done.
    + destruct (c_owner s !! x); injection H as <-; pcs; rewrite ?L; done.
    + unfold cancelpoint in H. destruct (c_table s !! t0) as [[]|]; [| |discriminate]; injection H as <-; pcs; rewrite ?L; done.
  - by left.
  - destruct (bool_decide _); [|by left]. pcs. destruct (wake_fmap s v t) as [->|(x & Ha & Hb)]; [by left|].
    right; right. exists v, x. split_and!; [done..|]. by left.
  - by left.
  - by left.
Qed.

(** a thread inside a call keeps its place under what others do *)
Definition inside (k : pc) : Prop := match k with Out | Asleep _ _ => False | _ => True end.
Lemma pc_keep s e s' t k : happen s e = Done s' -> e <> Go t -> c_pc s !! t = Some k -> inside k -> c_pc s' !! t = Some k.
Proof.
  intros H Hne Hk Hi. destruct (pc_event s e s' t H Hne) as [->|[(E & _)|(v & x & E & _)]]; [done|..]; rewrite Hk in E; injection E as ->; done.
Qed.
Lemma pc_thread s e s' t : happen s e = Done s' -> c_pc s !! t = None -> c_pc s' !! t = None.
Proof.
  intros H Hn. destruct (decide (e = Go t)) as [->|Hne].
  - cbn [happen] in H. unfold go in H. rewrite Hn in H. by injection H as <-.
  - destruct (pc_event s e s' t H Hne) as [->|[(E & _)|(v & x & E & _)]]; [done|congruence..].
Qed.

Lemma cancel_stays s e s' : happen s e = Done s' -> c_cancel s' = c_cancel s \/ (c_cancel s' = true /\ e = CancelFlag).
Proof.
  intros H. destruct e; cbn [happen] in H; try (injection H as <-); unfold begins; try (lazymatch goal with _ : go _ _ = _ |- _ => fail | _ => idtac end; destruct (c_pc s !! t) as [[]|]; try by left).
  - destruct (bool_decide _); by left.
  - destruct (_ && _); by left.
  - destruct (sleeper v s) as [[]|]; by left.
  - destruct (c_pipe s !! p) as [[]|]; by left.
  - left. unfold go, cancelpoint in H. repeat (case_match; try discriminate); injection H as <-; done.
  - by right.
  - destruct (bool_decide _); by left.
Qed.
Lemma cancel_mono s e s' : happen s e = Done s' -> c_cancel s = true -> c_cancel s' = true.
Proof. intros H Hc. destruct (cancel_stays s e s' H) as [->|[-> _]]; done. Qed.
Lemma cancel_mono_h s l s' : history s l = Done s' -> c_cancel s = true -> c_cancel s' = true.
Proof. revert s. induction l as [|e l IH]; intros s H Hc; [by injection H as <-|]. apply history_cons in H as (s1 & H1 & H2). eauto using cancel_mono. Qed.

Lemma table_event s e s' t : happen s e = Done s' ->
  c_table s' !! t = c_table s !! t \/ (exists b, e = SetKill t b /\ c_table s' !! t = Some b) \/
  (e = Remove t /\ c_table s' !! t = None) \/ (e = Go t /\ c_pc s !! t = Some Trapped /\ c_table s !! t = Some true /\ c_table s' !! t = Some false /\ c_pc s' !! t = Some Dead).
Proof.
  intros H. destruct e; cbn [happen] in H; try (injection H as <-); unfold begins; try (lazymatch goal with _ : go _ _ = _ |- _ => fail | |- context[set_table] => fail | _ => idtac end; destruct (c_pc s !! t0) as [[]|]; try by left).
  - destruct (bool_decide _); by left.
  - destruct (_ && _); by left.
  - destruct (sleeper v s) as [[]|]; by left.
  - destruct (c_pipe s !! p) as [[]|]; by left.
  - unfold go in H. destruct (c_pc s !! t0) as [k|] eqn:E; [|injection H as <-; by left].
    destruct k; try (repeat (case_match; try discriminate); injection H as <-; by left).
    unfold cancelpoint in H. destruct (c_table s !! t0) as [[]|] eqn:Et; [| |discriminate].
    + injection H as <-. pcs. destruct (decide (t0 = t)) as [?|?]; [subst; rewrite !lookup_insert|rewrite !lookup_insert_ne by done; by left].
      right; right; right. done.
    + injection H as <-. by left.
  - by left.
  - destruct (bool_decide _); by left.
  - pcs. destruct (decide (t0 = t)) as [?|?]; [subst; rewrite !lookup_insert|rewrite !lookup_insert_ne by done; by left]. right; left. eauto.
  - pcs. destruct (decide (t0 = t)) as [?|?]; [subst; rewrite !lookup_delete|rewrite !lookup_delete_ne by done; by left]. right; right; left. eauto.
Qed.

(** ** Who dies *)
Lemma go_trapped s t s' k : c_pc s !! t = Some k -> happen s (Go t) = Done s' ->
  (c_pc s' !! t = Some Trapped -> k = Trapped \/ ((exists p, k = Again p) \/ exists x, k = Back x) /\ c_cancel s = true) /\
  (c_pc s' !! t = Some Dead -> k = Dead \/ (k = Trapped /\ c_table s !! t = Some true)).
Proof.
  intros Hk H. cbn [happen] in H. unfold go in H. rewrite Hk in H.
  destruct k; try (injection H as <-; split; intros E; rewrite ?Hk in E; by left + discriminate).
  - destruct (c_pipe s !! p) as [[n w]|]; [|injection H as <-; split; intros E; rewrite Hk in E; discriminate].
    destruct (0 <? n); [|destruct (w =? 0)]; injection H as <-; pcs; rewrite lookup_insert; split; discriminate.
  - injection H as <-. pcs. rewrite lookup_insert. destruct (c_cancel s) eqn:Ec; split; intros E; try discriminate. right. split; [left; eauto|done].
  - destruct (c_pipe s !! p) as [[n w]|]; [|injection H as <-; split; intros E; rewrite Hk in E; discriminate].
    destruct (_ <? PAGE); injection H as <-; pcs; rewrite ?lookup_insert; split; intros E; rewrite ?Hk in E; discriminate.
  - destruct (c_owner s !! x); injection H as <-; pcs; rewrite ?lookup_insert; split; intros E; rewrite ?Hk in E; discriminate.
  - destruct (c_owner s !! x); injection H as <-; pcs; rewrite ?lookup_insert; split; intros E; rewrite ?Hk in E; discriminate.
  - injection H as <-. pcs. rewrite lookup_insert. destruct (c_cancel s) eqn:Ec; split; intros E; try discriminate. right. split; [right; eauto|done].
  - unfold cancelpoint in H. destruct (c_table s !! t) as [[]|] eqn:Et; [| |discriminate]; injection H as <-; pcs.
    + rewrite lookup_insert. split; intros E; [discriminate|]. by right.
    + split; intros E; [by left|rewrite Hk in E; discriminate].
Qed.

Lemma why_dead s l s' t : begun s -> history s l = Done s' -> gone t s' ->
  CancelFlag ∈ l /\ (at_ t Dead s' -> SetKill t true ∈ l \/ marked t s).
Proof.
  intros (B1 & B2 & B3) H Hd.
  assert (Hi : forall l s1, history s l = Done s1 ->
    (c_cancel s1 = true -> CancelFlag ∈ l) /\ (forall k, c_pc s1 !! t = Some k -> k = Trapped \/ k = Dead -> c_cancel s1 = true) /\
    (c_table s1 !! t = Some true -> SetKill t true ∈ l \/ marked t s) /\ (c_pc s1 !! t = Some Dead -> SetKill t true ∈ l \/ marked t s)).
  { clear H Hd s' l. intros l. induction l as [|e l IH] using rev_ind; intros s1 H.
    - injection H as <-. split_and!.
      + congruence.
      + intros k Hk [->| ->]; discriminate (B1 _ _ Hk).
      + intros; by right.
      + intros E. discriminate (B1 _ _ E).
    - rewrite history_app in H. destruct (history s l) as [s0|] eqn:E0; [|discriminate].
      destruct (IH s0 eq_refl) as (I1 & I2 & I3 & I4). apply history_cons in H as (s1' & H & E). injection E as ->.
      assert (Hl : forall P : Prop, (SetKill t true ∈ l \/ P) -> SetKill t true ∈ l ++ [e] \/ P) by (intros P [?|?]; [left; rewrite elem_of_app; by left|by right]).
      split_and!.
      + intros Hc. rewrite elem_of_app, elem_of_list_singleton. destruct (cancel_stays _ _ _ H) as [Ec|[_ ->]]; [left; apply I1; congruence|by right].
      + intros k Hk Hkd. destruct (decide (e = Go t)) as [->|Hne].
        * destruct (c_pc s0 !! t) as [k0|] eqn:Ek; [|rewrite (pc_thread _ _ _ _ H Ek) in Hk; discriminate].
          destruct (go_trapped _ _ _ _ Ek H) as (G1 & G2). destruct Hkd as [->| ->].
          -- destruct (G1 Hk) as [->|(_ & Hc)]; eapply cancel_mono; eauto.
          -- destruct (G2 Hk) as [->|(-> & _)]; eapply cancel_mono; eauto.
        * destruct (pc_event _ _ _ t H Hne) as [E|[(E & k' & E' & Hb)|(v & x & E & E' & _)]].
          -- rewrite E in Hk. eapply cancel_mono; eauto.
          -- rewrite E' in Hk. injection Hk as ->. unfold beginning in Hb. destruct e; destruct Hkd as [->| ->]; try done; destruct Hb as [_ Hb]; discriminate.
          -- rewrite E' in Hk. injection Hk as <-. destruct Hkd; discriminate.
      + intros Ht. destruct (table_event _ _ _ t H) as [E|[(b & -> & E)|[(-> & E)|(_ & _ & _ & E & _)]]].
        * apply Hl, I3. congruence.
        * rewrite E in Ht. injection Ht as ->. left. rewrite elem_of_app, elem_of_list_singleton. by right.
        * congruence.
        * congruence.
      + intros Hk. apply Hl. destruct (decide (e = Go t)) as [->|Hne].
        * destruct (c_pc s0 !! t) as [k0|] eqn:Ek; [|rewrite (pc_thread _ _ _ _ H Ek) in Hk; discriminate].
          destruct (go_trapped _ _ _ _ Ek H) as (G1 & G2). destruct (G2 Hk) as [->|(-> & Hm)]; [by apply I4|by apply I3].
        * destruct (pc_event _ _ _ t H Hne) as [E|[(E & k' & E' & Hb)|(v & x & E & E' & _)]].
          -- apply I4. congruence.
          -- rewrite E' in Hk. injection Hk as ->. unfold beginning in Hb. destruct e; try done; destruct Hb as [_ Hb]; discriminate.
          -- congruence. }
  destruct (Hi l s' H) as (I1 & I2 & I3 & I4). split; [|exact I4].
  apply I1. destruct Hd as [Hd|Hd]; apply (I2 _ Hd); auto.
Qed.

Lemma gone_step s e s' t : happen s e = Done s' -> gone t s -> gone t s' /\ (at_ t Dead s -> at_ t Dead s').
Proof.
  unfold gone, at_. intros H Hg. destruct (decide (e = Go t)) as [->|Hne].
  - cbn [happen] in H. unfold go in H. destruct Hg as [Hg|Hg]; rewrite Hg in H.
    + unfold cancelpoint in H. destruct (c_table s !! t) as [[]|]; [| |discriminate]; injection H as <-; pcs; rewrite ?lookup_insert; split; auto; congruence.
    + injection H as <-. auto.
  - destruct Hg as [Hg|Hg]; rewrite (pc_keep _ _ _ _ _ H Hne Hg I); split; auto; congruence.
Qed.
Lemma gone_stays s l s' t : history s l = Done s' -> gone t s -> gone t s' /\ (at_ t Dead s -> at_ t Dead s').
Proof.
  revert s. induction l as [|e l IH]; intros s H Hg; [injection H as <-; auto|].
  apply history_cons in H as (s1 & H1 & H2). destruct (gone_step _ _ _ _ H1 Hg) as (Hg1 & Hd).
  destruct (IH s1 H2 Hg1) as (Ha & Hb). auto.
Qed.
(** the moment of death *)
Lemma dies s e s' t : happen s e = Done s' -> ~ at_ t Dead s -> at_ t Dead s' ->
  e = Go t /\ at_ t Trapped s /\ marked t s /\ s' = Cage (<[t := Dead]> (c_pc s)) (<[t := false]> (c_table s)) (c_cancel s) (c_cvs s) (c_owner s) (c_pipe s).
Proof.
  unfold at_, marked. intros H Hn Hd. destruct (decide (e = Go t)) as [->|Hne].
  - destruct (c_pc s !! t) as [k|] eqn:Ek; [|rewrite (pc_thread _ _ _ _ H Ek) in Hd; discriminate].
    destruct (go_trapped _ _ _ _ Ek H) as (_ & G). destruct (G Hd) as [->|(-> & Hm)]; [done|]. split_and!; try done.
    cbn [happen] in H. unfold go, cancelpoint in H. rewrite Ek, Hm in H. by injection H as <-.
  - destruct (pc_event _ _ _ t H Hne) as [E|[(E & k' & E' & Hb)|(v & x & E & E' & _)]]; [congruence| |congruence].
    rewrite E' in Hd. injection Hd as ->. unfold beginning in Hb. destruct e; try done; destruct Hb as [_ Hb]; discriminate.
Qed.
Lemma unregistered s t : at_ t Trapped s -> c_table s !! t = None -> happen s (Go t) = Panic.
Proof. unfold at_. intros H Hn. cbn [happen]. unfold go, cancelpoint. by rewrite H, Hn. Qed.
Lemma only_abort s e : happen s e = Panic -> exists t, e = Go t /\ at_ t Trapped s /\ c_table s !! t = None.
Proof.
  destruct e; cbn [happen]; try discriminate. unfold go, cancelpoint, at_. intros H. exists t.
  repeat (case_match; try discriminate). auto.
Qed.
