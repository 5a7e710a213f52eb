(** The table of objects locks groups of objects (dashmap: one lock for each
    shard), not single ones.  Which object is in which group is not known:
    [sh] is a parameter.

    A process that takes an object alone ([get_mut], [remove], [insert]) waits as
    long as somebody else's walk holds an object of the same group. *)
From stdpp Require Import gmap.
From Verif Require Import Base PathModel FsModel FsRaceModel FsRaceSpec FsRaceEnd.
Local Open Scope list_scope.

Definition waits_sh (sh : Z -> Z) (ts : list proc) (i : nat) (p : rpc) : bool :=
  match takes p with
  | None => false
  | Some x =>
      existsb (fun jt => negb (Nat.eqb (fst jt) i) &&
                 match holds (t_pc (snd jt)) with Some y => (sh y =? sh x)%Z | None => false end)
              (imap (fun j t => (j, t)) ts)
  end.

Definition rgo_sh (sh : Z -> Z) (s : rst) (i : nat) : option rst :=
  match r_proc s !! i with
  | None => None
  | Some t => if waits_sh sh (r_proc s) i (t_pc t) then None else rgo s i
  end.

Fixpoint rplay_sh (sh : Z -> Z) (s : rst) (l : list nat) : option rst :=
  match l with
  | [] => Some s
  | i :: r => match rgo_sh sh s i with Some s' => rplay_sh sh s' r | None => None end
  end.

(** ** Proofs *)
Lemma rgo_sh_rgo sh s i s' : rgo_sh sh s i = Some s' -> rgo s i = Some s'.
Proof. unfold rgo_sh. destruct (r_proc s !! i); [|discriminate]. destruct (waits_sh _ _ _ _); [discriminate|auto]. Qed.

Lemma rplay_sh_rplay sh l : forall s s', rplay_sh sh s l = Some s' -> rplay s l = Some s'.
Proof.
  induction l as [|i l IH]; intros s s' H; cbn [rplay rplay_sh] in *; [exact H|].
  destruct (rgo_sh sh s i) as [s1|] eqn:E; [|discriminate H]. rewrite (rgo_sh_rgo _ _ _ _ E). exact (IH _ _ H).
Qed.

Lemma waits_weaken sh ts i p : waits_sh sh ts i p = false -> waits ts i p = false.
Proof.
  unfold waits_sh, waits. destruct (takes p) as [x|]; [|reflexivity]. intros H. apply not_true_iff_false. intros K.
  apply not_true_iff_false in H. apply H. apply existsb_exists in K as ([j u] & Hin & K). apply existsb_exists. exists (j, u). split; [exact Hin|].
  cbn [fst snd] in *. apply andb_true_iff in K as [K1 K2]. apply bool_decide_eq_true in K2. rewrite K1, K2. apply Z.eqb_refl.
Qed.

Lemma free_go_sh sh s i t : r_dead s = false -> r_proc s !! i = Some t -> waits_sh sh (r_proc s) i (t_pc t) = false ->
  t_pc t <> Idle \/ t_todo t <> [] -> exists s', rgo_sh sh s i = Some s'.
Proof.
  intros Hd Ht Hw Hb. unfold rgo_sh. rewrite Ht, Hw. exact (free_go s i t Hd Ht (waits_weaken _ _ _ _ Hw) Hb).
Qed.

Lemma no_deadlock_sh sh s : r_dead s = false -> ~ finished s -> exists i s', rgo_sh sh s i = Some s'.
Proof.
  intros Hd Hf.
  destruct (existsb (fun t => negb (doneb t)) (r_proc s)) eqn:E2.
  2: { exfalso. apply Hf, doneb_all, forallb_forall. intros t Hin. destruct (doneb t) eqn:Et; [reflexivity|].
       apply not_true_iff_false in E2. destruct E2. apply existsb_exists. exists t. rewrite Et. auto. }
  apply existsb_exists in E2 as (t & Hin & Hn). apply elem_of_list_In, elem_of_list_lookup in Hin as [i Ht].
  assert (Hb : t_pc t <> Idle \/ t_todo t <> []).
  { unfold doneb in Hn. destruct (t_pc t); try (left; discriminate). right. destruct (t_todo t); [discriminate Hn|discriminate]. }
  destruct (waits_sh sh (r_proc s) i (t_pc t)) eqn:Ew; [|exists i; eapply free_go_sh; eauto].
  unfold waits_sh in Ew. destruct (takes (t_pc t)) as [x|]; [|discriminate Ew].
  apply existsb_exists in Ew as ([j u] & Hin & Hh). cbn [fst snd] in Hh. apply andb_true_iff in Hh as [_ Hh].
  apply elem_of_list_In, elem_of_lookup_imap in Hin as (j' & u' & [= <- <-] & Hu).
  exists j. destruct (holds (t_pc u)) as [y|] eqn:Eh; [|discriminate Hh]. apply (free_go_sh sh s j u Hd Hu).
  - unfold waits_sh. destruct (t_pc u); try discriminate Eh. reflexivity.
  - left. intros E. rewrite E in Eh. discriminate Eh.
Qed.

Lemma can_end_sh sh s : exists l s', rplay_sh sh s l = Some s' /\ (r_dead s' = true \/ finished s').
Proof.
  remember (total s) as n eqn:En. revert s En. induction (lt_wf n) as [n _ IH]. intros s ->.
  destruct (r_dead s) eqn:Ed; [exists [], s; auto|].
  destruct (forallb doneb (r_proc s)) eqn:Ef.
  - exists [], s. split; [reflexivity|]. right. exact (doneb_all _ Ef).
  - destruct (no_deadlock_sh sh s Ed) as (i & s1 & H1).
    { intros H. apply not_true_iff_false in Ef. apply Ef. apply forallb_forall. intros t Hin.
      apply elem_of_list_In, elem_of_list_lookup in Hin as [i Hi]. destruct (H i t Hi) as [E1 E2]. unfold doneb. rewrite E1, E2. reflexivity. }
    destruct (IH _ (rgo_cost _ _ _ (rgo_sh_rgo _ _ _ _ H1)) s1 eq_refl) as (l & s2 & H2 & H3). exists (i :: l), s2. cbn. rewrite H1. auto.
Qed.
