From Verif Require Import Base ShmRaceModel.
Local Open Scope Z_scope.

#[global] Instance rcall_eq : EqDecision rcall.
Proof. solve_decision. Defined.
#[global] Instance rpc_eq : EqDecision rpc.
Proof. solve_decision. Defined.
#[global] Instance rev_ev_eq : EqDecision rev_ev.
Proof. solve_decision. Defined.
#[global] Instance rst_eq : EqDecision rst.
Proof. solve_decision. Defined.

Record rinv (ps : list Z) (s : rst) : Prop := {
  ri_proc : map fst (r_pcs s) = ps;
  ri_sh : forall t, r_shard s = Some t -> exists p a, r_pcs s !! t = Some (p, RShard a) \/ r_pcs s !! t = Some (p, RPushed a);
  ri_lk : forall p t, r_lock s !! p = Some t -> exists a, r_pcs s !! t = Some (p, RRev a);
}.

Lemma pcs_upd (l : list (Z * rpc)) t p pc pc0 : l !! t = Some (p, pc0) -> map fst (<[t := (p, pc)]> l) = map fst l.
Proof.
  intros H. change (fst <$> <[t := (p, pc)]> l = fst <$> l). rewrite list_fmap_insert. apply list_insert_id.
  rewrite list_lookup_fmap, H. done.
Qed.
Lemma pcs_at (l : list (Z * rpc)) t p pc pc0 : l !! t = Some (p, pc0) -> <[t := (p, pc)]> l !! t = Some (p, pc).
Proof. intros H. apply list_lookup_insert. exact (lookup_lt_Some _ _ _ H). Qed.

Lemma rinv_run ps tr s : rrun ps tr s -> rinv ps s.
Proof.
  induction 1 as [|tr s a s' e Hr IH Hs].
  - constructor; cbn; [|done|done]. induction ps as [|p ps IHp]; [done|]. cbn. f_equal. exact IHp.
  - destruct IH as [I1 I2 I3]. destruct a as [t o|t]; cbn in Hs.
    + unfold rstart in Hs. destruct (r_pcs s !! t) as [[p []]|] eqn:E; try discriminate Hs. injection Hs as <- <-.
      constructor; cbn; [rewrite (pcs_upd _ _ _ _ _ E); exact I1| |].
      * intros u Hu. destruct (I2 u Hu) as (q & b & Hq). exists q, b.
        destruct (decide (t = u)) as [<-|Hne]; [rewrite E in Hq; destruct Hq; congruence|].
        rewrite list_lookup_insert_ne by done. exact Hq.
      * intros q u Hu. destruct (I3 q u Hu) as (b & Hq). exists b.
        destruct (decide (t = u)) as [<-|Hne]; [congruence|]. rewrite list_lookup_insert_ne by done. exact Hq.
    + assert (KS : forall p pc pc0, r_pcs s !! t = Some (p, pc0) -> (forall a, pc0 <> RShard a) -> (forall a, pc0 <> RPushed a) ->
        forall u, r_shard s = Some u -> exists q b, <[t := (p, pc)]> (r_pcs s) !! u = Some (q, RShard b) \/ <[t := (p, pc)]> (r_pcs s) !! u = Some (q, RPushed b)).
      { intros p pc pc0 E N1 N2 u Hu. destruct (I2 u Hu) as (q & b & Hq). exists q, b.
        destruct (decide (t = u)) as [<-|Hne]; [rewrite E in Hq; destruct Hq as [Hq|Hq]; injection Hq as _ Hq; [destruct (N1 _ Hq)|destruct (N2 _ Hq)]|].
        rewrite list_lookup_insert_ne by done. exact Hq. }
      assert (KL : forall p pc pc0, r_pcs s !! t = Some (p, pc0) -> (forall a, pc0 <> RRev a) ->
        forall q u, r_lock s !! q = Some u -> exists b, <[t := (p, pc)]> (r_pcs s) !! u = Some (q, RRev b)).
      { intros p pc pc0 E N q u Hu. destruct (I3 q u Hu) as (b & Hq). exists b.
        destruct (decide (t = u)) as [<-|Hne]; [rewrite E in Hq; injection Hq as _ Hq; destruct (N _ Hq)|].
        rewrite list_lookup_insert_ne by done. exact Hq. }
      assert (KD : forall p pc a, r_pcs s !! t = Some (p, RRev a) ->
        forall q u, delete p (r_lock s) !! q = Some u -> exists b, <[t := (p, pc)]> (r_pcs s) !! u = Some (q, RRev b)).
      { intros p pc a0 E q u Hu. apply lookup_delete_Some in Hu as [Hne Hu]. destruct (I3 q u Hu) as (b & Hq). exists b.
        destruct (decide (t = u)) as [<-|Hne2]; [congruence|]. rewrite list_lookup_insert_ne by done. exact Hq. }
      unfold rgo in Hs. destruct (r_pcs s !! t) as [[p pc]|] eqn:E; [|discriminate Hs].
      pose proof (fun pc' => pcs_upd _ _ _ pc' _ E) as EU.
      destruct pc as [|[a|a|]|a|a|a| |]; try discriminate Hs.
      * destruct (free (r_shard s)) eqn:F; [|discriminate Hs]. destruct (r_seg s); injection Hs as <- <-; constructor; cbn; try (rewrite EU; exact I1).
        -- intros u Hu. injection Hu as <-. exists p, a. left. exact (pcs_at _ _ _ _ _ E).
        -- exact (KL _ _ _ eq_refl ltac:(discriminate)).
        -- exact (KS _ _ _ eq_refl ltac:(discriminate) ltac:(discriminate)).
        -- exact (KL _ _ _ eq_refl ltac:(discriminate)).
      * destruct (free (r_lock s !! p)) eqn:F; [|discriminate Hs].
        destruct (existsb (Z.eqb a) (rrevs s p)); injection Hs as <- <-; constructor; cbn; try (rewrite EU; exact I1).
        -- exact (KS _ _ _ eq_refl ltac:(discriminate) ltac:(discriminate)).
        -- intros q u Hu. destruct (decide (p = q)) as [<-|Hne].
           ++ rewrite lookup_insert in Hu. injection Hu as <-. exists a. exact (pcs_at _ _ _ _ _ E).
           ++ rewrite lookup_insert_ne in Hu by done. exact (KL _ _ _ eq_refl ltac:(discriminate) _ _ Hu).
        -- exact (KS _ _ _ eq_refl ltac:(discriminate) ltac:(discriminate)).
        -- exact (KL _ _ _ eq_refl ltac:(discriminate)).
      * destruct (free (r_shard s)) eqn:F; [|discriminate Hs].
        destruct (r_seg s) as [[m n]|]; [destruct (n =? 0)|]; injection Hs as <- <-; constructor; cbn; try (rewrite EU; exact I1).
        all: try exact (KS _ _ _ eq_refl ltac:(discriminate) ltac:(discriminate)).
        all: exact (KL _ _ _ eq_refl ltac:(discriminate)).
      * destruct (free (r_lock s !! p)) eqn:F; [|discriminate Hs]. injection Hs as <- <-. constructor; cbn; [rewrite EU; exact I1| |].
        -- intros u Hu. destruct (decide (t = u)) as [<-|Hne].
           ++ exists p, a. right. exact (pcs_at _ _ _ _ _ E).
           ++ destruct (I2 u Hu) as (q & b & Hq). exists q, b. rewrite list_lookup_insert_ne by done. exact Hq.
        -- exact (KL _ _ _ eq_refl ltac:(discriminate)).
      * destruct (r_seg s) as [[m n]|] eqn:G; injection Hs as <- <-; constructor; cbn; try (rewrite EU; exact I1).
        -- done.
        -- exact (KL _ _ _ eq_refl ltac:(discriminate)).
        -- done.
        -- exact (KL _ _ _ eq_refl ltac:(discriminate)).
      * destruct (free (r_shard s)) eqn:F; [|discriminate Hs].
        destruct (r_seg s) as [[m n]|]; injection Hs as <- <-; constructor; cbn; try (rewrite EU; exact I1).
        -- exact (KS _ _ _ eq_refl ltac:(discriminate) ltac:(discriminate)).
        -- exact (KD _ _ _ eq_refl).
        -- exact (KS _ _ _ eq_refl ltac:(discriminate) ltac:(discriminate)).
        -- exact (KD _ _ _ eq_refl).
      * destruct (free (r_shard s)) eqn:F; [|discriminate Hs]. injection Hs as <- <-. constructor; cbn; [rewrite EU; exact I1| |].
        -- exact (KS _ _ _ eq_refl ltac:(discriminate) ltac:(discriminate)).
        -- exact (KL _ _ _ eq_refl ltac:(discriminate)).
Qed.

(** With one thread per process some thread inside a call can always go on. *)
Lemma procs_inj ps (l : list (Z * rpc)) t u p q r : map fst l = ps -> NoDup ps -> l !! t = Some (p, q) -> l !! u = Some (p, r) -> t = u.
Proof.
  intros E HN H1 H2. apply (NoDup_lookup ps t u p HN).
  - rewrite <- E. change (map fst l) with (fst <$> l). rewrite list_lookup_fmap, H1. done.
  - rewrite <- E. change (map fst l) with (fst <$> l). rewrite list_lookup_fmap, H2. done.
Qed.
Lemma single_progress ps tr s t : NoDup ps -> rrun ps tr s -> rbusy s t = true -> exists u s' e, rstep s (RGo u) = Some (s', e).
Proof.
  intros HN Hr Hb. destruct (rinv_run _ _ _ Hr) as [I1 I2 I3].
  assert (Hsh : forall u, r_shard s = Some u -> exists s' e, rgo s u = Some (s', e)).
  { intros u Hu. destruct (I2 u Hu) as (p & a & [E|E]); unfold rgo; rewrite E.
    - destruct (r_lock s !! p) as [v|] eqn:L; cbn [free]; [|eauto]. destruct (I3 _ _ L) as (b & Hv).
      pose proof (procs_inj _ _ _ _ _ _ _ I1 HN E Hv) as ->. congruence.
    - destruct (r_seg s) as [[m n]|]; eauto. }
  destruct (r_shard s) as [u|] eqn:S; [destruct (Hsh u eq_refl) as (s' & e & H); exists u, s', e; exact H|].
  assert (Hlk : forall p u, r_lock s !! p = Some u -> exists s' e, rgo s u = Some (s', e)).
  { intros p u Hu. destruct (I3 p u Hu) as (a & E). unfold rgo. rewrite E, S. cbn [free].
    destruct (r_seg s) as [[m n]|]; eauto. }
  unfold rbusy in Hb. destruct (r_pcs s !! t) as [[p pc]|] eqn:E; [|discriminate Hb].
  destruct (r_lock s !! p) as [u|] eqn:L; [destruct (Hlk _ _ L) as (s' & e & H); exists u, s', e; exact H|].
  exists t. cbn [rstep]. unfold rgo. rewrite E.
  destruct pc as [|[a|a|]|a|a|a| |]; try discriminate Hb; rewrite ?S, ?L; cbn [free].
  all: try (destruct (r_seg s) as [[m n]|]; [|eauto]).
  all: try (destruct (existsb _ _)). all: try (destruct (_ =? 0)). all: eauto.
Qed.

(** Each call takes at most three steps: a bound on what is left to do. *)
Definition rleft (pc : rpc) : nat :=
  match pc with RIdle | RDead => 0 | RIn _ => 3 | RShard _ => 2 | RPushed _ | RRev _ | RMarked => 1 end.
Lemma rgo_left s t s' e : rgo s t = Some (s', e) ->
  exists p pc pc', r_pcs s !! t = Some (p, pc) /\ r_pcs s' = <[t := (p, pc')]> (r_pcs s) /\ (rleft pc' < rleft pc)%nat.
Proof.
  unfold rgo. destruct (r_pcs s !! t) as [[p pc]|]; [|discriminate]. intros H. exists p, pc.
  destruct pc as [|[a|a|]|a|a|a| |]; try discriminate H.
  - destruct (free _); [|discriminate H]. destruct (r_seg s); injection H as <- _; eexists; (split; [done|]); (split; [done|]); cbn; lia.
  - destruct (free _); [|discriminate H]. destruct (existsb _ _); injection H as <- _; eexists; (split; [done|]); (split; [done|]); cbn; lia.
  - destruct (free _); [|discriminate H]. destruct (r_seg s) as [[m n]|]; [destruct (n =? 0)|]; injection H as <- _; eexists; (split; [done|]); (split; [done|]); cbn; lia.
  - destruct (free _); [|discriminate H]. injection H as <- _; eexists; (split; [done|]); (split; [done|]); cbn; lia.
  - destruct (r_seg s) as [[m n]|]; injection H as <- _; eexists; (split; [done|]); (split; [done|]); cbn; lia.
  - destruct (free _); [|discriminate H]. destruct (r_seg s) as [[m n]|]; injection H as <- _; eexists; (split; [done|]); (split; [done|]); cbn; lia.
  - destruct (free _); [|discriminate H]. injection H as <- _; eexists; (split; [done|]); (split; [done|]); cbn; lia.
Qed.

(** Closed runs. *)
Fixpoint rplay (tr : list rev_ev) (s : rst) (l : list ract) : option (list rev_ev * rst) :=
  match l with
  | [] => Some (tr, s)
  | a :: l => match rstep s a with Some (s', e) => rplay (tr ++ [e]) s' l | None => None end
  end.
Lemma rplay_run ps l : forall tr s tr' s', rrun ps tr s -> rplay tr s l = Some (tr', s') -> rrun ps tr' s'.
Proof.
  induction l as [|a l IH]; intros tr s tr' s' Hr H; cbn [rplay] in H; [injection H as <- <-; exact Hr|].
  destruct (rstep s a) as [[s1 e]|] eqn:E; [|discriminate H]. refine (IH _ _ _ _ _ H). exact (rrun_step ps tr s a s1 e Hr E).
Qed.
Lemma race_ex ps l (P : list rev_ev -> rst -> bool) :
  match rplay [] (rboot ps) l with Some (tr, s) => P tr s | None => false end = true ->
  exists tr s, rrun ps tr s /\ P tr s = true.
Proof.
  destruct (rplay [] (rboot ps) l) as [[tr s]|] eqn:E; [|done]. intros H. exists tr, s.
  split; [|exact H]. exact (rplay_run _ _ _ _ _ _ (rrun_nil ps) E).
Qed.

Definition stuckb (s : rst) : bool :=
  forallb (fun u => match rgo s u with None => true | _ => false end) (seq 0 (length (r_pcs s))).
Lemma stuckb_ok s : stuckb s = true -> forall u, rstep s (RGo u) = None.
Proof.
  intros H u. cbn. unfold stuckb in H. rewrite forallb_forall in H.
  destruct (decide (u < length (r_pcs s))%nat) as [Hu|Hu].
  - specialize (H u). rewrite in_seq in H. destruct (rgo s u); [|done]. discriminate H. lia.
  - unfold rgo. rewrite lookup_ge_None_2 by lia. done.
Qed.
