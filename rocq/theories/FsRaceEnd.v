(** Calls that overlap come to an end. *)
From stdpp Require Import gmap.
From Verif Require Import Base PathModel FsModel FsRaceModel FsRaceSpec.
Local Open Scope list_scope.
Local Open Scope nat_scope.

Definition aft (o : rop) (k : kont) : nat :=
  match o, k with
  | RLink _ b, First | RRename _ b, First => 7 + length b
  | _, _ => 4
  end.
Definition rootcost (o : rop) (k : kont) : nat := 2 + length (wpath o k) + aft o k.
Definition cost (p : rpc) : nat :=
  match p with
  | Idle => 0
  | Root o k => rootcost o k
  | Walk o k _ _ _ rest => 1 + length rest + aft o k
  | LnInc o _ => 1 + rootcost o (Second 0%Z 0%Z)
  | RmPar _ _ _ => 4
  | Num _ _ _ | UnDec _ _ _ | RmSelf _ _ _ => 3
  | Enter _ _ _ _ | UnRem _ _ _ _ | RmRem _ _ _ _ | ClDec _ => 2
  | _ => 1
  end.
Definition opcost (o : rop) : nat := 1 + rootcost o First.
Definition pcost (t : proc) : nat := cost (t_pc t) + sum_list (opcost <$> t_todo t).
Definition total (s : rst) : nat := (if r_dead s then 0 else 1) + sum_list (pcost <$> r_proc s).

Lemma rootcost_2 o i par : rootcost o (Second i par) = rootcost o (Second 0%Z 0%Z).
Proof. destruct o; reflexivity. Qed.

Definition rcost (r : rres) : nat := match r with Go p => cost p | _ => 0 end.

Lemma after_cost o k r a : after o k r = Done a -> rcost (snd a) <= aft o k.
Proof.
  intros H. destruct r as [x q].
  destruct o; cbn [after fst] in H;
    repeat (match type of H with
            | quiet _ = Done _ => injection H as <-; cbn [snd rcost cost fail aft]; unfold rootcost; cbn [wpath aft]; lia
            | Panic = _ => discriminate H
            | context[match ?x with _ => _ end] => destruct x
            end).
Qed.

Lemma act_cost tab next p a : act tab next p = Done a -> rcost (snd a) < cost p.
Proof.
  intros H. destruct p as [|o k|o k cur has prev rest|x|x m|x fl|o par f|o par f n|o par n|o x|x par f|x er|x par f|x par f gone|x
                  |x par f|x par f|x par f rm|x|x par fo fn|x|x]; cbn [act] in H.
  2: { destruct (tab !! ROOTINO); [|discriminate H]. injection H as <-. cbn [snd rcost cost]. unfold rootcost. lia. }
  2: { destruct rest as [|f r]; [apply after_cost in H; cbn [cost]; lia|].
       destruct cur as [d|]; [|apply after_cost in H; cbn [cost length]; lia].
       destruct (negb has); [discriminate H|]. destruct (fetch tab d) as [y|]; [|discriminate H]. cbn [obind] in H.
       destruct (i_kind y); try (apply after_cost in H; cbn [cost length]; lia).
       destruct (i_dict y !! f); injection H as <-; cbn [snd rcost cost length]; lia. }
  8: { destruct (fetch tab x) as [y|]; [|discriminate H]. cbn [obind] in H.
       destruct (i_kind y); injection H as <-; cbn [snd rcost cost fail]; rewrite ?rootcost_2; lia. }
  all: repeat (match type of H with
            | quiet _ = Done _ => injection H as <-; cbn [snd rcost cost fail]; lia
            | change _ _ _ = Done _ => injection H as <-; cbn [snd rcost cost fail]; lia
            | Done _ = Done _ => injection H as <-; cbn [snd rcost cost fail]; lia
            | Panic = _ => discriminate H
            | obind ?o _ = _ => destruct o; cbn [obind] in H
            | context[match ?x with _ => _ end] => destruct x
            end).
Qed.

Lemma begin_cost o op r : begin o op = Done r -> rcost r < opcost o.
Proof.
  intros H. unfold opcost, rootcost.
  destruct o; cbn [begin] in H;
    repeat (match type of H with
            | Done _ = Done _ => injection H as <-; cbn [rcost cost fail]; unfold rootcost; lia
            | Panic = _ => discriminate H
            | context[match ?x with _ => _ end] => destruct x
            end).
Qed.

Lemma lead_cost r t : pcost (lead r t) = rcost r + sum_list (opcost <$> t_todo t).
Proof. destruct r; reflexivity. Qed.

Lemma move_cost tab next t e k t' : move tab next t = Some (Done (e, k, t')) -> pcost t' < pcost t.
Proof.
  intros H. unfold move in H.
  assert (Ha : (do a <- act tab next (t_pc t); let '(e, tick, r) := a in Done (e, tick, lead r t)) = Done (e, k, t') -> pcost t' < pcost t).
  { intros Ha. destruct (act tab next (t_pc t)) as [[[e0 k0] r0]|] eqn:Ea; [|discriminate Ha]. cbn [obind] in Ha. injection Ha as <- <- <-.
    apply act_cost in Ea. cbn [snd] in Ea. rewrite lead_cost. unfold pcost. lia. }
  destruct (t_pc t) eqn:Ep; try (apply (f_equal (fun x => match x with Some y => y | None => Panic end)) in H; exact (Ha H)).
  destruct (t_todo t) as [|o rest] eqn:Et; [discriminate H|]. injection H as H.
  destruct (begin o (t_open t)) as [r|] eqn:Eb; [|discriminate H]. cbn [obind] in H. injection H as _ _ <-.
  apply begin_cost in Eb. rewrite lead_cost. unfold pcost. rewrite Ep, Et. cbn [t_todo cost].
  change (sum_list (opcost <$> (o :: rest))) with (opcost o + sum_list (opcost <$> rest)). lia.
Qed.

Lemma sum_insert (l : list proc) i t t' : l !! i = Some t -> pcost t' < pcost t ->
  sum_list (pcost <$> <[i := t']> l) < sum_list (pcost <$> l).
Proof.
  revert i. induction l as [|u l IH]; intros [|i] H Hc; cbn in H; try discriminate H.
  - injection H as ->. change (pcost t' + sum_list (pcost <$> l) < pcost t + sum_list (pcost <$> l)). lia.
  - specialize (IH i H Hc). change (pcost u + sum_list (pcost <$> <[i := t']> l) < pcost u + sum_list (pcost <$> l)). lia.
Qed.

Lemma rgo_cost s i s' : rgo s i = Some s' -> total s' < total s.
Proof.
  unfold rgo, total. destruct (r_dead s) eqn:Ed; [discriminate|]. destruct (r_proc s !! i) as [t|] eqn:Et; [|discriminate].
  destruct (waits _ _ _); [discriminate|]. destruct (move (r_tab s) (r_next s) t) as [[[[e k] t']|]|] eqn:Em; [| |discriminate].
  - intros [= <-]. cbn [r_dead r_proc]. apply move_cost in Em. pose proof (sum_insert _ _ _ _ Et Em). lia.
  - intros [= <-]. cbn [r_dead r_proc]. lia.
Qed.

Lemma rplay_bound l : forall s s', rplay s l = Some s' -> length l <= total s.
Proof.
  induction l as [|i l IH]; intros s s' H; cbn [rplay length] in *; [lia|].
  destruct (rgo s i) as [s1|] eqn:E; [|discriminate H]. apply rgo_cost in E. apply IH in H. lia.
Qed.

(** *** Somebody can always go on *)
Lemma busy_move tab next t : t_pc t <> Idle \/ t_todo t <> [] -> move tab next t <> None.
Proof.
  intros H. unfold move. destruct (t_pc t); try discriminate. destruct (t_todo t); [|discriminate].
  destruct H as [H|H]; destruct (H eq_refl).
Qed.

Lemma free_go s i t : r_dead s = false -> r_proc s !! i = Some t -> waits (r_proc s) i (t_pc t) = false ->
  t_pc t <> Idle \/ t_todo t <> [] -> exists s', rgo s i = Some s'.
Proof.
  intros Hd Ht Hw Hb. unfold rgo. rewrite Hd, Ht, Hw. apply (busy_move (r_tab s) (r_next s)) in Hb.
  destruct (move (r_tab s) (r_next s) t) as [[[[e k] t']|]|]; [eauto|eauto|destruct (Hb eq_refl)].
Qed.

Definition doneb (t : proc) : bool := match t_pc t, t_todo t with Idle, [] => true | _, _ => false end.
Lemma doneb_all s : forallb doneb (r_proc s) = true -> finished s.
Proof.
  intros H i t Ht. rewrite forallb_forall in H. specialize (H t). rewrite <- elem_of_list_In in H.
  specialize (H (elem_of_list_lookup_2 _ _ _ Ht)). unfold doneb in H. destruct (t_pc t); try discriminate H.
  destruct (t_todo t); [auto|discriminate H].
Qed.

Lemma no_deadlock s : r_dead s = false -> ~ finished s -> exists i s', rgo s i = Some s'.
Proof.
  intros Hd Hf.
  assert (Hb : exists i t, r_proc s !! i = Some t /\ (t_pc t <> Idle \/ t_todo t <> [])).
  { destruct (forallb doneb (r_proc s)) eqn:E; [destruct (Hf (doneb_all _ E))|].
    destruct (existsb (fun t => negb (doneb t)) (r_proc s)) eqn:E2.
    - apply existsb_exists in E2 as (t & Hin & Hn). apply elem_of_list_In, elem_of_list_lookup in Hin as [i Hi].
      exists i, t. split; [exact Hi|]. unfold doneb in Hn. destruct (t_pc t); try (left; discriminate).
      right. destruct (t_todo t); [discriminate Hn|discriminate].
    - exfalso. apply not_true_iff_false in E. apply E. apply forallb_forall. intros t Hin.
      destruct (doneb t) eqn:Et; [reflexivity|]. apply not_true_iff_false in E2. destruct E2. apply existsb_exists. exists t.
      rewrite Et. auto. }
  destruct Hb as (i & t & Ht & Hb). destruct (waits (r_proc s) i (t_pc t)) eqn:Ew; [|exists i; eapply free_go; eauto].
  unfold waits in Ew. destruct (takes (t_pc t)) as [x|]; [|discriminate Ew].
  apply existsb_exists in Ew as ([j u] & Hin & Hh). cbn in Hh. apply andb_true_iff in Hh as [_ Hh]. apply bool_decide_eq_true in Hh.
  apply elem_of_list_In, elem_of_lookup_imap in Hin as (j' & u' & [= <- <-] & Hu).
  exists j. apply (free_go s j u Hd Hu).
  - unfold waits. destruct (t_pc u); try discriminate Hh. reflexivity.
  - left. intros E. rewrite E in Hh. discriminate Hh.
Qed.

Lemma can_end s : exists l s', rplay s l = Some s' /\ (r_dead s' = true \/ finished s').
Proof.
  remember (total s) as n eqn:En. revert s En. induction (lt_wf n) as [n _ IH]. intros s ->.
  destruct (r_dead s) eqn:Ed; [exists [], s; auto|].
  destruct (forallb doneb (r_proc s)) eqn:Ef.
  - exists [], s. split; [reflexivity|]. right. exact (doneb_all _ Ef).
  - destruct (no_deadlock s Ed) as (i & s1 & H1).
    { intros H. apply not_true_iff_false in Ef. apply Ef. apply forallb_forall. intros t Hin.
      apply elem_of_list_In, elem_of_list_lookup in Hin as [i Hi]. destruct (H i t Hi) as [E1 E2]. unfold doneb. rewrite E1, E2. reflexivity. }
    destruct (IH _ (rgo_cost _ _ _ H1) s1 eq_refl) as (l & s2 & H2 & H3). exists (i :: l), s2. cbn. rewrite H1. auto.
Qed.

Lemma opcost_steps o : opcost o <= call_steps o.
Proof. destruct o; unfold opcost, rootcost, call_steps; cbn; lia. Qed.
Lemma sum_le {A} (f g : A -> nat) l : (forall a, f a <= g a) -> sum_list (f <$> l) <= sum_list (g <$> l).
Proof. intros H. induction l as [|a l IH]; cbn; [lia|]. specialize (H a). lia. Qed.
Lemma start_bound tab next progs : total (rstart tab next progs) <= most_steps progs.
Proof.
  unfold total, most_steps. change (if r_dead (rstart tab next progs) then 0 else 1) with 1. apply le_n_S.
  change (r_proc (rstart tab next progs)) with (map (fun l => Proc Idle l [] []) progs).
  induction progs as [|l progs IH]; [apply le_n|]. pose proof (sum_le opcost call_steps l opcost_steps) as H.
  change (0 + sum_list (opcost <$> l) + sum_list (pcost <$> map (fun l => Proc Idle l [] []) progs) <=
          sum_list (call_steps <$> l) + sum_list ((fun l => sum_list (call_steps <$> l)) <$> progs)). lia.
Qed.
