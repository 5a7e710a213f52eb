(** Proofs about the descriptor table under threads. *)
From Verif Require Import Base Sums FdRaceModel FdRaceSpec.
Local Open Scope list_scope.
Local Open Scope nat_scope.

(** ** Traces *)
Lemma now_app tr es i : now (tr ++ es) i = fold_left (now1 i) es (now tr i).
Proof. apply fold_left_app. Qed.
Lemma opened_app tr es k : opened (tr ++ es) k = fold_left (opened1 k) es (opened tr k).
Proof. apply fold_left_app. Qed.

Lemma set_cases {A} (l : list A) i x j y : <[i := x]> l !! j = Some y ->
  (i = j /\ x = y) \/ (i <> j /\ l !! j = Some y).
Proof.
  intros H. destruct (decide (i = j)) as [<-|Hne].
  - left. split; [done|]. assert (i < length l).
    { apply lookup_lt_Some in H. by rewrite insert_length in H. }
    rewrite list_lookup_insert in H by done. congruence.
  - right. by rewrite list_lookup_insert_ne in H.
Qed.

(** ** What one step does *)
Definition call_of (p : fpc) : option fcall :=
  match p with
  | Idle => None
  | Scan o ok _ | Hold o ok _ => Some (COpen o ok)
  | Cl1 k | Cl1h k | Cl2 k => Some (CClose k)
  | Du1 a b | Du2 a b | Du3 a b | Du4 a b => Some (CDup2 a b)
  | Us1 k | Us2 k => Some (CUse k)
  end.
Definition holds (p : fpc) : option nat :=
  match p with
  | Hold _ _ k | Cl1h k | Us2 k => Some k
  | Du2 a _ | Du3 a _ | Du4 a _ => Some a
  | _ => None
  end.

(** The result of a step: the thread moves to [p'], and the rest changes as
    listed. *)
Inductive change :=
  | XNone
  | XLock (k : nat)
  | XUnlock (k : nat)
  | XFill (o k : nat)              (* store and unlock *)
  | XDrop (o k : nat)              (* count down and unlock *)
  | XCount (o b : nat)             (* count down, the entry being unlocked *)
  | XEmpty (k : nat)
  | XCopy (o a b : nat).
Definition apply (x : change) (s : fst) : fst :=
  match x with
  | XNone => s
  | XLock k => lock k true s
  | XUnlock k => lock k false s
  | XFill o k => lock k false (store k (Some o) (addref o s))
  | XDrop o k => lock k false (delref o s)
  | XCount o _ => delref o s
  | XEmpty k => store k None s
  | XCopy o a b => lock a false (store b (Some o) (addref o s))
  end.

Inductive move (s : fst) (i : nat) : fpc -> fpc -> change -> list fev -> Prop :=
| mv_call c : legal s c = true -> move s i Idle (begin c) XNone [Call i c]
| mv_full o ok k : f_slot s !! k = None -> move s i (Scan o ok k) Idle XNone [Ret i (COpen o ok) Full]
| mv_take o ok k : f_slot s !! k = Some None -> f_lock s !! k = Some false -> move s i (Scan o ok k) (Hold o ok k) (XLock k) []
| mv_skip o ok k x : f_slot s !! k = Some x -> (f_lock s !! k <> Some false \/ x <> None) ->
    move s i (Scan o ok k) (Scan o ok (S k)) XNone []
| mv_fill o k : move s i (Hold o true k) Idle (XFill o k) [Ret i (COpen o true) (Num k)]
| mv_miss o k : move s i (Hold o false k) Idle (XUnlock k) [Ret i (COpen o false) Missing]
| mv_cl1 k : f_lock s !! k = Some false -> move s i (Cl1 k) (Cl1h k) (XLock k) []
| mv_bad k : entry k s = None -> move s i (Cl1h k) Idle (XUnlock k) [Ret i (CClose k) Bad]
| mv_drop k o : entry k s = Some o -> refs o s <> 0 -> move s i (Cl1h k) (Cl2 k) (XDrop o k) []
| mv_empty k : f_lock s !! k = Some false -> move s i (Cl2 k) Idle (XEmpty k) [Ret i (CClose k) Zero]
| mv_du1bad a b : f_lock s !! a = Some false -> entry a s = None -> move s i (Du1 a b) Idle XNone [Ret i (CDup2 a b) Bad]
| mv_du1 a b : f_lock s !! a = Some false -> entry a s <> None -> move s i (Du1 a b) (Du2 a b) (XLock a) []
| mv_du24 a b : f_lock s !! b = Some false -> entry b s = None -> move s i (Du2 a b) (Du4 a b) XNone []
| mv_du23 a b : f_lock s !! b = Some false -> entry b s <> None -> move s i (Du2 a b) (Du3 a b) XNone []
| mv_du34 a b : f_lock s !! b = Some false -> entry b s = None -> move s i (Du3 a b) (Du4 a b) XNone []
| mv_count a b o : f_lock s !! b = Some false -> entry b s = Some o -> refs o s <> 0 -> move s i (Du3 a b) (Du4 a b) (XCount o b) []
| mv_du4bad a b : f_lock s !! b = Some false -> entry a s = None -> move s i (Du4 a b) Idle (XUnlock a) [Ret i (CDup2 a b) Bad]
| mv_copy a b o : f_lock s !! b = Some false -> entry a s = Some o -> move s i (Du4 a b) Idle (XCopy o a b) [Ret i (CDup2 a b) (Num b)]
| mv_us1 k : f_lock s !! k = Some false -> move s i (Us1 k) (Us2 k) (XLock k) []
| mv_us2 k : move s i (Us2 k) Idle (XUnlock k) [Ret i (CUse k) (match entry k s with None => Bad | Some _ => Zero end)].

(** The runtime aborts: a count is to go below 0. *)
Definition dies (s : fst) (p : fpc) : Prop :=
  exists k o, entry k s = Some o /\ refs o s = 0 /\
    (p = Cl1h k \/ exists a, p = Du3 a k /\ f_lock s !! k = Some false).

Lemma free_true k s : free k s = true -> f_lock s !! k = Some false.
Proof. unfold free. intros H. by apply bool_decide_eq_true in H. Qed.

Definition actor (a : fact) : nat := match a with Start i _ | Go i => i end.
Lemma fdo_move s a s' es : fdo s a = Some (s', es) ->
  f_dead s = false /\ exists p, f_pc s !! actor a = Some p /\
  ((exists p' x, move s (actor a) p p' x es /\ s' = goto (actor a) p' (apply x s)) \/
   (s' = die s /\ es = [] /\ dies s p)).
Proof.
  destruct a as [i c|i]; cbn [fdo actor]; intros H.
  - destruct (f_pc s !! i) as [p|] eqn:Ep; [|discriminate H]. destruct p; try discriminate H.
    destruct (f_dead s); [discriminate H|]. destruct (legal s c) eqn:El; [|discriminate H]. injection H as <- <-.
    split; [done|]. exists Idle. split; [done|]. left. exists (begin c), XNone. split; [by constructor|done].
  - unfold fgo in H. destruct (f_dead s); [discriminate H|]. split; [done|].
    destruct (f_pc s !! i) as [p|] eqn:Ep; [|discriminate H]. exists p. split; [done|].
    destruct p as [|o ok k|o ok k|k|k|k|a b|a b|a b|a b|k|k]; unfold ret in H; try discriminate H.
    + destruct (f_slot s !! k) as [x|] eqn:Ek.
      * destruct (free k s && bool_decide (x = None)) eqn:E; injection H as <- <-; left.
        -- apply andb_true_iff in E as [E1 E2]. apply bool_decide_eq_true in E2 as ->. apply free_true in E1.
           exists (Hold o ok k), (XLock k). split; [by constructor|done].
        -- exists (Scan o ok (S k)), XNone. split; [|done]. apply (mv_skip s i o ok k x Ek).
           apply andb_false_iff in E as [E|E]; [left|right].
           ++ by apply bool_decide_eq_false in E.
           ++ by apply bool_decide_eq_false in E.
      * injection H as <- <-. left. exists Idle, XNone. split; [by constructor|done].
    + destruct ok; injection H as <- <-; left.
      * exists Idle, (XFill o k). split; [constructor|done].
      * exists Idle, (XUnlock k). split; [constructor|done].
    + destruct (free k s) eqn:E; [|discriminate H]. apply free_true in E. injection H as <- <-. left.
      exists (Cl1h k), (XLock k). split; [by constructor|done].
    + destruct (entry k s) as [o|] eqn:Ek.
      * destruct (Nat.eqb_spec (refs o s) 0) as [E0|E0]; injection H as <- <-.
        -- right. split; [done|]. split; [done|]. exists k, o. split; [done|]. split; [done|]. by left.
        -- left. exists (Cl2 k), (XDrop o k). split; [by constructor|done].
      * injection H as <- <-. left. exists Idle, (XUnlock k). split; [by constructor|done].
    + destruct (free k s) eqn:E; [|discriminate H]. apply free_true in E. injection H as <- <-. left.
      exists Idle, (XEmpty k). split; [by constructor|done].
    + destruct (free a s) eqn:E; [|discriminate H]. apply free_true in E.
      destruct (entry a s) as [o|] eqn:Ea; injection H as <- <-; left.
      * exists (Du2 a b), (XLock a). split; [constructor; [done|by rewrite Ea]|done].
      * exists Idle, XNone. split; [by constructor|done].
    + destruct (free b s) eqn:E; [|discriminate H]. apply free_true in E.
      destruct (entry b s) as [o|] eqn:Eb; injection H as <- <-; left.
      * exists (Du3 a b), XNone. split; [constructor; [done|by rewrite Eb]|done].
      * exists (Du4 a b), XNone. split; [by constructor|done].
    + destruct (free b s) eqn:E; [|discriminate H]. apply free_true in E.
      destruct (entry b s) as [o|] eqn:Eb.
      * destruct (Nat.eqb_spec (refs o s) 0) as [E0|E0]; injection H as <- <-.
        -- right. split; [done|]. split; [done|]. exists b, o. split; [done|]. split; [done|]. right. by exists a.
        -- left. exists (Du4 a b), (XCount o b). split; [by constructor|done].
      * injection H as <- <-. left. exists (Du4 a b), XNone. split; [by constructor|done].
    + destruct (free b s) eqn:E; [|discriminate H]. apply free_true in E.
      destruct (entry a s) as [o|] eqn:Ea; injection H as <- <-; left.
      * exists Idle, (XCopy o a b). split; [by constructor|done].
      * exists Idle, (XUnlock a). split; [by constructor|done].
    + destruct (free k s) eqn:E; [|discriminate H]. apply free_true in E. injection H as <- <-. left.
      exists (Us2 k), (XLock k). split; [by constructor|done].
    + injection H as <- <-. left. exists Idle, (XUnlock k). split; [constructor|done].
Qed.

Lemma apply_pc x s : f_pc (apply x s) = f_pc s.
Proof. by destruct x. Qed.
Lemma apply_len x s : length (f_slot (apply x s)) = length (f_slot s) /\ length (f_lock (apply x s)) = length (f_lock s) /\
  length (f_ref (apply x s)) = length (f_ref s).
Proof. destruct x; cbn; rewrite ?insert_length, ?alter_length; done. Qed.
Lemma goto_set i p x s p0 : f_pc s !! i = Some p0 -> f_pc (goto i p (apply x s)) = <[i := p]> (f_pc s).
Proof. intros _. cbn. by rewrite apply_pc. Qed.

Lemma move_now s i p p' x es j tr : move s i p p' x es -> now tr i = call_of p ->
  now (tr ++ es) j = if decide (i = j) then call_of p' else now tr j.
Proof.
  intros H Hn. rewrite now_app. destruct (decide (i = j)) as [<-|Hne].
  - destruct H; cbn [fold_left now1]; rewrite ?Nat.eqb_refl; try done. by destruct c.
  - apply Nat.eqb_neq in Hne. destruct H; cbn [fold_left now1]; rewrite ?Hne; done.
Qed.

(** ** The unconditional invariant *)
Record finv (m q t : nat) (tr : list fev) (s : fst) : Prop := {
  i_slot : length (f_slot s) = m;
  i_lock : length (f_lock s) = m;
  i_ref : length (f_ref s) = q;
  i_pc : length (f_pc s) = t;
  i_now : forall i, now tr i = match f_pc s !! i with Some p => call_of p | None => None end;
  i_open : forall k, opened tr k = bool_decide (is_Some (entry k s));
  i_held : forall i p k, f_pc s !! i = Some p -> holds p = Some k -> f_lock s !! k = Some true;
  i_one : forall i j p p' k, f_pc s !! i = Some p -> f_pc s !! j = Some p' -> holds p = Some k -> holds p' = Some k -> i = j;
  i_owner : forall k, f_lock s !! k = Some true -> exists i p, f_pc s !! i = Some p /\ holds p = Some k;
  i_range : forall i p, f_pc s !! i = Some p ->
    match p with
    | Idle | Scan _ _ _ => True
    | Hold _ _ k => f_slot s !! k = Some None
    | Cl1 k | Cl1h k | Cl2 k | Us1 k | Us2 k => k < m
    | Du1 a b => a < m /\ b < m /\ a <> b
    | Du2 a b | Du3 a b | Du4 a b => a < m /\ b < m /\ a <> b /\ entry a s <> None
    end;
  i_obj : forall i p, f_pc s !! i = Some p -> match p with Scan o _ _ | Hold o _ _ => o < q | _ => True end;
  i_objs : forall k o, entry k s = Some o -> o < q;
}.

Lemma begin_holds c : holds (begin c) = None.
Proof. by destruct c. Qed.
Lemma move_lock s i p p' x es : move s i p p' x es ->
  (holds p = holds p' /\ f_lock (apply x s) = f_lock s) \/
  (holds p = None /\ exists k, holds p' = Some k /\ f_lock s !! k = Some false /\ f_lock (apply x s) = <[k := true]> (f_lock s)) \/
  (exists k, holds p = Some k /\ holds p' = None /\ f_lock (apply x s) = <[k := false]> (f_lock s)).
Proof.
  intros H; destruct H;
    try (left; split; [by rewrite ?begin_holds|done]; fail);
    try (right; left; split; [done|]; eexists; split; [done|]; split; done);
    (right; right; eexists; split; [done|]; split; done).
Qed.

Lemma entry_store k x s j : k < length (f_slot s) -> entry j (store k x s) = if decide (k = j) then x else entry j s.
Proof.
  intros Hk. unfold entry, store. cbn. destruct (decide (k = j)) as [<-|Hne].
  - by rewrite list_lookup_insert.
  - by rewrite list_lookup_insert_ne.
Qed.
Lemma entry_lock k b s j : entry j (lock k b s) = entry j s.
Proof. done. Qed.
Lemma entry_goto i p s j : entry j (goto i p s) = entry j s.
Proof. done. Qed.

(** How a step changes the table *)
Lemma move_entry m q t tr s i p p' x es : finv m q t tr s -> f_pc s !! i = Some p -> move s i p p' x es ->
  forall j, entry j (apply x s) = entry j s \/
    ((f_lock s !! j = Some false \/ holds p = Some j) /\
     match x with
     | XFill o k => k = j /\ entry j (apply x s) = Some o
     | XEmpty k => k = j /\ entry j (apply x s) = None
     | XCopy o _ b => b = j /\ entry j (apply x s) = Some o
     | _ => False
     end).
Proof.
  intros Hi Hp H j. pose proof (i_range _ _ _ _ _ Hi _ _ Hp) as Hr.
  destruct H; cbn [apply]; try (left; done); rewrite ?entry_lock.
  - rewrite entry_store by (cbn; rewrite (i_slot _ _ _ _ _ Hi); apply lookup_lt_Some in Hr; rewrite (i_slot _ _ _ _ _ Hi) in Hr; done).
    destruct (decide (k = j)) as [<-|Hne]; [right|by left]. split; [by right|done].
  - rewrite entry_store by (rewrite (i_slot _ _ _ _ _ Hi); exact Hr).
    destruct (decide (k = j)) as [<-|Hne]; [right|by left]. split; [by left|done].
  - destruct Hr as (_ & Hb & _). rewrite entry_store by (cbn; rewrite (i_slot _ _ _ _ _ Hi); exact Hb).
    destruct (decide (b = j)) as [<-|Hne]; [right|by left]. split; [by left|done].
Qed.

Lemma bd_some {A} (o : option A) x : o = Some x -> bool_decide (is_Some o) = true.
Proof. intros ->. by apply bool_decide_eq_true. Qed.
Lemma bd_none {A} (o : option A) : o = None -> bool_decide (is_Some o) = false.
Proof. intros ->. apply bool_decide_eq_false. by intros [? [=]]. Qed.

Lemma finv_init m q t : finv m q t [] (finit m q t).
Proof.
  constructor; cbn; rewrite ?replicate_length; try done.
  - intros i. destruct (replicate t Idle !! i) as [p|] eqn:E; [|done]. by apply lookup_replicate in E as [-> _].
  - intros k. symmetry. apply bd_none. unfold entry. cbn. destruct (replicate m None !! k) as [x|] eqn:E; [|done]. by apply lookup_replicate in E as [-> _].
  - intros i p k E. by apply lookup_replicate in E as [-> _].
  - intros i j p p' k E. by apply lookup_replicate in E as [-> _].
  - intros k E. by apply lookup_replicate in E as [? _].
  - intros i p E. by apply lookup_replicate in E as [-> _].
  - intros i p E. by apply lookup_replicate in E as [-> _].
  - intros k o E. unfold entry in E. cbn in E. destruct (replicate m None !! k) as [x|] eqn:E'; [|done]. by apply lookup_replicate in E' as [-> _].
Qed.

Lemma finv_die m q t tr s : finv m q t tr s -> finv m q t (tr ++ []) (die s).
Proof. intros H. rewrite app_nil_r. destruct H. by constructor. Qed.

Lemma finv_move m q t tr s i p p' x es : finv m q t tr s -> f_pc s !! i = Some p -> move s i p p' x es ->
  finv m q t (tr ++ es) (goto i p' (apply x s)).
Proof.
  intros Hi Hp H. pose proof (apply_len x s) as (L1 & L2 & L3). pose proof (move_entry _ _ _ _ _ _ _ _ _ _ Hi Hp H) as He.
  pose proof (move_lock _ _ _ _ _ _ H) as Hl. pose proof (i_range _ _ _ _ _ Hi _ _ Hp) as Hr.
  pose proof (i_now _ _ _ _ _ Hi i) as Hn. rewrite Hp in Hn.
  assert (Hpc : f_pc (goto i p' (apply x s)) = <[i := p']> (f_pc s)) by (cbn; by rewrite apply_pc).
  assert (Hit : i < length (f_pc s)) by (by eapply lookup_lt_Some).
  constructor; rewrite ?Hpc.
  - cbn. by rewrite L1, (i_slot _ _ _ _ _ Hi).
  - cbn. by rewrite L2, (i_lock _ _ _ _ _ Hi).
  - cbn. by rewrite L3, (i_ref _ _ _ _ _ Hi).
  - by rewrite insert_length, (i_pc _ _ _ _ _ Hi).
  - intros j. rewrite (move_now _ _ _ _ _ _ _ _ H Hn). destruct (decide (i = j)) as [<-|Hne].
    + by rewrite list_lookup_insert.
    + rewrite list_lookup_insert_ne by done. apply (i_now _ _ _ _ _ Hi).
  - intros k. rewrite opened_app, entry_goto, (i_open _ _ _ _ _ Hi).
    destruct H as [c| | | |o k0| | | | |k0| | | | | | | |a b o| |]; cbn [fold_left opened1 apply]; rewrite ?entry_lock; try done.
    + rewrite entry_store by (cbn; by eapply lookup_lt_Some). destruct (Nat.eqb_spec k0 k); destruct (decide (k0 = k)); try done.
    + rewrite entry_store by (rewrite (i_slot _ _ _ _ _ Hi); exact Hr). destruct (Nat.eqb_spec k0 k); destruct (decide (k0 = k)); done.
    + destruct Hr as (_ & Hb & _). rewrite entry_store by (cbn; rewrite (i_slot _ _ _ _ _ Hi); exact Hb).
      destruct (Nat.eqb_spec b k); destruct (decide (b = k)); done.
  - (* held *) intros j pj k Hj Hk. cbn [goto f_lock]. apply set_cases in Hj as [[<- <-]|[Hne Hj]].
    + destruct Hl as [[E ->]|[(_ & k' & E & Ef & ->)|(k' & _ & E & _)]].
      * apply (i_held _ _ _ _ _ Hi i p k Hp). congruence.
      * assert (k' = k) as -> by congruence. apply list_lookup_insert. by eapply lookup_lt_Some.
      * congruence.
    + pose proof (i_held _ _ _ _ _ Hi _ _ _ Hj Hk) as Ht.
      destruct Hl as [[_ ->]|[(_ & k' & E & Ef & ->)|(k' & E & _ & ->)]].
      * done.
      * destruct (decide (k' = k)) as [->|]; [congruence|]. by rewrite list_lookup_insert_ne.
      * destruct (decide (k' = k)) as [->|]; [|by rewrite list_lookup_insert_ne].
        destruct Hne. exact (i_one _ _ _ _ _ Hi _ _ _ _ _ Hp Hj E Hk).
  - (* one *) intros j j' pj pj' k Hj Hj' Hk Hk'.
    assert (X : forall j2 pj2, i <> j2 -> f_pc s !! j2 = Some pj2 -> holds pj2 = Some k -> holds p' = Some k -> False).
    { intros j2 pj2 Hne Hj2 Hk2 Hp2. pose proof (i_held _ _ _ _ _ Hi _ _ _ Hj2 Hk2) as Ht.
      destruct Hl as [[E _]|[(_ & k' & E & Ef & _)|(k' & _ & E & _)]].
      - apply Hne. apply (i_one _ _ _ _ _ Hi _ _ _ _ k Hp Hj2); [congruence|done].
      - congruence.
      - congruence. }
    apply set_cases in Hj as [[<- <-]|[Hne Hj]]; apply set_cases in Hj' as [[<- <-]|[Hne' Hj']]; [done| | |].
    + destruct (X _ _ Hne' Hj' Hk' Hk).
    + destruct (X _ _ Hne Hj Hk Hk').
    + exact (i_one _ _ _ _ _ Hi _ _ _ _ _ Hj Hj' Hk Hk').
  - (* owner *) intros k Hk. cbn [goto f_lock] in Hk.
    assert (Y : holds p' = Some k -> exists i0 p0, <[i := p']> (f_pc s) !! i0 = Some p0 /\ holds p0 = Some k).
    { intros E. exists i, p'. split; [by apply list_lookup_insert|done]. }
    destruct Hl as [[E El]|[(E0 & k' & E & Ef & El)|(k' & E & E0 & El)]]; rewrite El in Hk.
    + destruct (i_owner _ _ _ _ _ Hi _ Hk) as (j & pj & Hj & Hkj). destruct (decide (i = j)) as [<-|Hne].
      * apply Y. congruence.
      * exists j, pj. by rewrite list_lookup_insert_ne.
    + destruct (decide (k' = k)) as [->|Hnk]; [by apply Y|]. rewrite list_lookup_insert_ne in Hk by done.
      destruct (i_owner _ _ _ _ _ Hi _ Hk) as (j & pj & Hj & Hkj). destruct (decide (i = j)) as [<-|Hne]; [congruence|].
      exists j, pj. by rewrite list_lookup_insert_ne.
    + apply set_cases in Hk as [[_ ?]|[Hnk Hk]]; [done|].
      destruct (i_owner _ _ _ _ _ Hi _ Hk) as (j & pj & Hj & Hkj). destruct (decide (i = j)) as [<-|Hne]; [congruence|].
      exists j, pj. by rewrite list_lookup_insert_ne.
  - (* range *) intros j pj Hj. apply set_cases in Hj as [[<- <-]|[Hne Hj]].
    + destruct H as [c Hc| | | | | | | | | | | | | | | | | | |]; cbn [apply] in *; try done; try (destruct Hr as (?&?&?&?); done); try (destruct Hr as (?&?&?); done).
      destruct c; cbn in Hc |- *; rewrite ?(i_slot _ _ _ _ _ Hi) in Hc.
      * done.
      * by apply bool_decide_eq_true in Hc.
      * apply andb_true_iff in Hc as [Hc H3]. apply andb_true_iff in Hc as [H1 H2]. apply bool_decide_eq_true in H1, H2.
        apply negb_true_iff, Nat.eqb_neq in H3. done.
      * by apply bool_decide_eq_true in Hc.
    + pose proof (i_range _ _ _ _ _ Hi _ _ Hj) as Hrj.
      assert (Z : forall k, holds pj = Some k -> entry k (apply x s) = entry k s).
      { intros k Hk. destruct (He k) as [->|[[Hf|Hf] _]]; [done| |].
        - pose proof (i_held _ _ _ _ _ Hi _ _ _ Hj Hk). congruence.
        - destruct Hne. exact (i_one _ _ _ _ _ Hi _ _ _ _ _ Hp Hj Hf Hk). }
      destruct pj; try done; try (destruct Hrj as (?&?&?&?); repeat split; try done; rewrite entry_goto, Z; done).
      specialize (Z k eq_refl). unfold entry in Z. cbn [goto f_slot]. rewrite Hrj in Z.
      assert (Hlt : k < length (f_slot (apply x s))). { rewrite L1. by eapply lookup_lt_Some. }
      apply lookup_lt_is_Some in Hlt as [y Hy]. rewrite Hy in Z |- *. congruence.
  - (* obj *) intros j pj Hj. apply set_cases in Hj as [[<- <-]|[Hne Hj]].
    + pose proof (i_obj _ _ _ _ _ Hi _ _ Hp) as Ho. destruct H as [c Hc| | | | | | | | | | | | | | | | | | |]; try done.
      destruct c; cbn in Hc |- *; try done. rewrite (i_ref _ _ _ _ _ Hi) in Hc. by apply bool_decide_eq_true in Hc.
    + exact (i_obj _ _ _ _ _ Hi _ _ Hj).
  - intros k o Hk. rewrite entry_goto in Hk. destruct (He k) as [E|[_ E]].
    + rewrite E in Hk. exact (i_objs _ _ _ _ _ Hi _ _ Hk).
    + destruct H; try done; destruct E as [<- E]; rewrite E in Hk; try discriminate Hk; injection Hk as <-.
      * exact (i_obj _ _ _ _ _ Hi _ _ Hp).
      * eapply (i_objs _ _ _ _ _ Hi). done.
Qed.

Lemma frun_inv m q t tr s : frun m q t tr s -> finv m q t tr s.
Proof.
  induction 1 as [|tr s a s' es _ IH Hd]; [apply finv_init|].
  apply fdo_move in Hd as (_ & p & Hp & [(p' & x & Hm & ->)|(-> & -> & _)]).
  - by eapply finv_move.
  - by apply finv_die.
Qed.

(** ** One event at a time *)
Lemma move_events s i p p' x es : move s i p p' x es -> es = [] \/ exists e, es = [e].
Proof. intros H. destruct H; eauto. Qed.
Lemma frun_split m q t tr0 s0 : frun m q t tr0 s0 -> forall tr e r, tr0 = tr ++ e :: r ->
  exists s i p p' x, frun m q t tr s /\ f_pc s !! i = Some p /\ move s i p p' x [e].
Proof.
  induction 1 as [|tr1 s a s' es Hrun IH Hd]; intros tr e r E; [by destruct tr|].
  apply fdo_move in Hd as (_ & p & Hp & [(p' & x & Hm & ->)|(-> & -> & _)]).
  2: { rewrite app_nil_r in E. by eapply IH. }
  destruct (move_events _ _ _ _ _ _ Hm) as [->|[e' ->]]; [rewrite app_nil_r in E; by eapply IH|].
  destruct r as [|e2 r _] using rev_ind.
  - apply app_inj_tail in E as [-> ->]. by exists s, (actor a), p, p', x.
  - rewrite app_comm_cons, app_assoc in E. apply app_inj_tail in E as [-> _]. by eapply IH.
Qed.

(** ** C85: what the returns say about the table *)
Lemma open_fresh m q t tr r s i o ok k : frun m q t (tr ++ Ret i (COpen o ok) (Num k) :: r) s ->
  k < m /\ opened tr k = false.
Proof.
  intros H. destruct (frun_split _ _ _ _ _ H _ _ _ eq_refl) as (s0 & j & p & p' & x & Hr & Hp & Hm).
  apply frun_inv in Hr as Hi. inversion Hm; subst. pose proof (i_range _ _ _ _ _ Hi _ _ Hp) as Hs. cbn in Hs. split.
  - rewrite <- (i_slot _ _ _ _ _ Hi). by eapply lookup_lt_Some.
  - rewrite (i_open _ _ _ _ _ Hi). apply bd_none. unfold entry. by rewrite Hs.
Qed.
Lemma use_tells m q t tr r s i k a : frun m q t (tr ++ Ret i (CUse k) a :: r) s ->
  a = if opened tr k then Zero else Bad.
Proof.
  intros H. destruct (frun_split _ _ _ _ _ H _ _ _ eq_refl) as (s0 & j & p & p' & x & Hr & Hp & Hm).
  apply frun_inv in Hr as Hi. inversion Hm; subst. rewrite (i_open _ _ _ _ _ Hi). by destruct (entry k s0).
Qed.
Lemma close_bad m q t tr r s i k : frun m q t (tr ++ Ret i (CClose k) Bad :: r) s -> opened tr k = false.
Proof.
  intros H. destruct (frun_split _ _ _ _ _ H _ _ _ eq_refl) as (s0 & j & p & p' & x & Hr & Hp & Hm).
  apply frun_inv in Hr as Hi. inversion Hm; subst. rewrite (i_open _ _ _ _ _ Hi). by apply bd_none.
Qed.
Lemma dup2_source m q t tr r s i a b k : frun m q t (tr ++ Ret i (CDup2 a b) (Num k) :: r) s -> k = b /\ opened tr a = true.
Proof.
  intros H. destruct (frun_split _ _ _ _ _ H _ _ _ eq_refl) as (s0 & j & p & p' & x & Hr & Hp & Hm).
  apply frun_inv in Hr as Hi. inversion Hm; subst. split; [done|]. rewrite (i_open _ _ _ _ _ Hi). by eapply bd_some.
Qed.
Lemma dup2_bad m q t tr r s i a b : frun m q t (tr ++ Ret i (CDup2 a b) Bad :: r) s -> opened tr a = false.
Proof.
  intros H. destruct (frun_split _ _ _ _ _ H _ _ _ eq_refl) as (s0 & j & p & p' & x & Hr & Hp & Hm).
  apply frun_inv in Hr as Hi. inversion Hm; subst; rewrite (i_open _ _ _ _ _ Hi); by apply bd_none.
Qed.

Lemma stays_open k : forall es, fold_left (opened1 k) es true = false -> exists j, Ret j (CClose k) Zero ∈ es.
Proof.
  induction es as [|e es IH]; cbn [fold_left]; [done|]. intros H.
  assert (D : opened1 k true e = true \/ exists j, e = Ret j (CClose k) Zero).
  { destruct e as [j c|j [o ok|k'|a b|k'] [k2| | | |]]; cbn [opened1]; try (by left).
    - left. by destruct (k2 =? k).
    - destruct (Nat.eqb_spec k' k) as [->|]; [right; by exists j|by left].
    - left. by destruct (b =? k). }
  destruct D as [D|[j ->]].
  - rewrite D in H. destruct (IH H) as [j Hj]. exists j. by right.
  - exists j. by left.
Qed.
Lemma open_distinct m q t tr r r' s i j o o' ok ok' k :
  frun m q t (tr ++ Ret i (COpen o ok) (Num k) :: r ++ Ret j (COpen o' ok') (Num k) :: r') s ->
  exists l, Ret l (CClose k) Zero ∈ r.
Proof.
  intros H. rewrite app_comm_cons, app_assoc in H. apply open_fresh in H as [_ H].
  rewrite opened_app in H. cbn [fold_left opened1] in H. rewrite Nat.eqb_refl in H. by apply stays_open in H.
Qed.

(** ** C88: numbers passed over *)
Lemma taken_more tr es i c k : was_taken tr i c k -> (forall e, e ∈ es -> by_thread i e = false) -> was_taken (tr ++ es) i c k.
Proof.
  intros (p & r & -> & H1 & H2 & H3) He. exists p, (r ++ es). rewrite <- app_assoc. split; [done|]. split; [done|]. split; [|done].
  intros e Hin. apply elem_of_app in Hin as [Hin|Hin]; auto.
Qed.
Lemma move_by s i p p' x es : move s i p p' x es -> forall e j, e ∈ es -> i <> j -> by_thread j e = false.
Proof.
  intros H e j He Hne. apply Nat.eqb_neq in Hne.
  destruct H; try (by apply elem_of_nil in He); apply elem_of_list_singleton in He as ->; exact Hne.
Qed.
Lemma holds_about p k c : call_of p = Some c -> holds p = Some k -> about c k = true.
Proof. destruct p; cbn; intros [= <-] [= ->]; cbn; rewrite ?Nat.eqb_refl; done. Qed.

Definition passed (s : fst) (tr : list fev) : Prop :=
  forall i o ok k, f_pc s !! i = Some (Scan o ok k) \/ f_pc s !! i = Some (Hold o ok k) ->
    forall k', k' < k -> was_taken tr i (COpen o ok) k'.
Lemma run_passed m q t tr s : frun m q t tr s -> passed s tr.
Proof.
  induction 1 as [|tr s a s' es Hrun IH Hd].
  { intros i o ok k [E|E]; cbn in E; by apply lookup_replicate in E as [? _]. }
  apply frun_inv in Hrun as Hi.
  apply fdo_move in Hd as (_ & p & Hp & [(p' & x & Hm & ->)|(-> & -> & _)]).
  2: { rewrite app_nil_r. exact IH. }
  intros i o ok k Hpc k' Hk'.
  assert (Epc : f_pc (goto (actor a) p' (apply x s)) = <[actor a := p']> (f_pc s)) by (cbn; by rewrite apply_pc).
  rewrite Epc in Hpc. destruct (decide (actor a = i)) as [<-|Hne].
  2: { rewrite list_lookup_insert_ne in Hpc by done. apply taken_more; [by eapply IH|].
       intros e He. by eapply move_by. }
  rewrite list_lookup_insert in Hpc by (by eapply lookup_lt_Some).
  assert (Hq : p' = Scan o ok k \/ p' = Hold o ok k) by (destruct Hpc as [E|E]; injection E as ->; auto). clear Hpc.
  inversion Hm; subst; try (destruct Hq as [Hq|Hq]; discriminate Hq).
  - (* a call *) destruct c; destruct Hq as [Hq|Hq]; try discriminate Hq. injection Hq as _ _ <-. lia.
  - (* take *) destruct Hq as [Hq|Hq]; [discriminate Hq|]. injection Hq as <- <- <-. rewrite app_nil_r. eapply IH; [by left|done].
  - (* skip *) destruct Hq as [Hq|Hq]; [|discriminate Hq]. injection Hq as -> -> <-. rewrite app_nil_r.
    destruct (decide (k' = k0)) as [->|Hn]; [|eapply IH; [by left|lia]].
    pose proof (i_now _ _ _ _ _ Hi (actor a)) as Hnow. rewrite Hp in Hnow. cbn in Hnow.
    exists tr, []. rewrite app_nil_r. split; [done|]. split; [done|]. split; [intros e He; by apply elem_of_nil in He|].
    destruct x0 as [o'|].
    + left. rewrite (i_open _ _ _ _ _ Hi). eapply bd_some. unfold entry. by rewrite H.
    + right. destruct H0 as [H0|]; [|done]. destruct (f_lock s !! k0) as [[|]|] eqn:El; [|done|].
      * destruct (i_owner _ _ _ _ _ Hi _ El) as (j & pj & Hj & Hh).
        assert (Hji : j <> actor a). { intros ->. rewrite Hp in Hj. injection Hj as <-. discriminate Hh. }
        pose proof (i_now _ _ _ _ _ Hi j) as Hnj. rewrite Hj in Hnj. destruct (call_of pj) as [cj|] eqn:Ec.
        -- exists j, cj. split; [done|]. split; [done|]. by eapply holds_about.
        -- by destruct pj.
      * apply lookup_lt_Some in H. apply lookup_ge_None in El. rewrite (i_slot _ _ _ _ _ Hi) in H. rewrite (i_lock _ _ _ _ _ Hi) in El. lia.
Qed.
Lemma open_skips m q t tr r s i o ok k : frun m q t (tr ++ Ret i (COpen o ok) (Num k) :: r) s ->
  forall k', k' < k -> was_taken tr i (COpen o ok) k'.
Proof.
  intros H. destruct (frun_split _ _ _ _ _ H _ _ _ eq_refl) as (s0 & j & p & p' & x & Hr & Hp & Hm).
  pose proof (run_passed _ _ _ _ _ Hr) as Hpa. inversion Hm; subst. eapply Hpa. by right.
Qed.
Lemma open_full m q t tr r s i o ok : frun m q t (tr ++ Ret i (COpen o ok) Full :: r) s ->
  forall k', k' < m -> was_taken tr i (COpen o ok) k'.
Proof.
  intros H. destruct (frun_split _ _ _ _ _ H _ _ _ eq_refl) as (s0 & j & p & p' & x & Hr & Hp & Hm).
  pose proof (run_passed _ _ _ _ _ Hr) as Hpa. apply frun_inv in Hr as Hi. inversion Hm; subst. intros k' Hk'. eapply Hpa; [by left|].
  match goal with E : _ !! _ = None |- _ => apply lookup_ge_None in E; rewrite (i_slot _ _ _ _ _ Hi) in E end. lia.
Qed.
(** Alone *)
Lemma taken_alone tr i c k : quiet tr -> was_taken (tr ++ [Call i c]) i c k -> opened tr k = true.
Proof.
  intros Hq (p & r & E & Hn & Hr & Ho). destruct r as [|e r _] using rev_ind.
  - rewrite app_nil_r in E. subst p. destruct Ho as [Ho|(j & c' & Hj & Hj' & _)].
    + by rewrite opened_app in Ho.
    + rewrite now_app in Hj'. cbn [fold_left now1] in Hj'. apply not_eq_sym, Nat.eqb_neq in Hj. rewrite Hj, Hq in Hj'. discriminate Hj'.
  - rewrite app_assoc in E. apply app_inj_tail in E as [_ <-].
    specialize (Hr (Call i c)). cbn in Hr. rewrite Nat.eqb_refl in Hr. discriminate Hr. apply elem_of_app. right. by left.
Qed.

(** ** C86: calls come to an end *)
(** A bound on the number of steps a thread has left *)
Definition left_ (m : nat) (p : fpc) : nat :=
  match p with
  | Idle => 0
  | Scan _ _ k => m - k + 2
  | Hold _ _ _ => 1
  | Cl1 _ => 3 | Cl1h _ => 2 | Cl2 _ => 1
  | Du1 _ _ => 4 | Du2 _ _ => 3 | Du3 _ _ => 2 | Du4 _ _ => 1
  | Us1 _ => 2 | Us2 _ => 1
  end.
Definition work (m : nat) (s : fst) : nat := sum_list_with (left_ m) (f_pc s) + if f_dead s then 0 else 1.
Lemma sum_set (g : fpc -> nat) : forall l i p p', l !! i = Some p -> sum_list_with g (<[i := p']> l) + g p = sum_list_with g l + g p'.
Proof.
  induction l as [|y l IH]; intros i p p' H; [done|]. destruct i as [|i].
  - injection H as ->. cbn. lia.
  - specialize (IH i p p' H). change (<[S i := p']> (y :: l)) with (y :: <[i := p']> l). cbn [sum_list_with]. lia.
Qed.
Lemma go_move s i s' es : fdo s (Go i) = Some (s', es) ->
  f_dead s = false /\ exists p, f_pc s !! i = Some p /\ p <> Idle /\
  ((exists p' x, move s i p p' x es /\ s' = goto i p' (apply x s)) \/ (s' = die s /\ es = [])).
Proof.
  intros H. assert (Hni : f_pc s !! i <> Some Idle). { intros E. cbn in H. unfold fgo in H. rewrite E in H. by destruct (f_dead s). }
  apply fdo_move in H as (Hd & p & Hp & Hx). cbn [actor] in *. split; [done|]. exists p. split; [done|]. split; [congruence|].
  destruct Hx as [Hx|(? & ? & _)]; auto.
Qed.
Lemma move_left m s i p p' x es : length (f_slot s) = m -> p <> Idle -> move s i p p' x es -> left_ m p' < left_ m p.
Proof.
  intros Hm Hp H. destruct H; cbn; try lia; try done. apply lookup_lt_Some in H. lia.
Qed.
Lemma go_work m s i s' es : length (f_slot s) = m -> fdo s (Go i) = Some (s', es) -> work m s' < work m s.
Proof.
  intros Hm H. apply go_move in H as (Hd & p & Hp & Hni & [(p' & x & Hx & ->)|[-> _]]); unfold work.
  - pose proof (move_left _ _ _ _ _ _ _ Hm Hni Hx) as Hl. cbn [goto f_pc f_dead]. rewrite apply_pc.
    pose proof (sum_set (left_ m) _ _ _ p' Hp). assert (f_dead (apply x s) = f_dead s) as -> by (by destruct x). lia.
  - cbn. rewrite Hd. lia.
Qed.
Lemma go_length m s i s' es : length (f_slot s) = m -> fdo s (Go i) = Some (s', es) -> length (f_slot s') = m.
Proof.
  intros Hm H. apply go_move in H as (Hd & p & Hp & Hni & [(p' & x & Hx & ->)|[-> _]]); [|done].
  cbn. by destruct (apply_len x s) as [-> _].
Qed.
Lemma sched_bound m : forall l s tr s', length (f_slot s) = m -> fsched s (map Go l) = Some (tr, s') -> length l <= work m s.
Proof.
  induction l as [|i l IH]; intros s tr s' Hm H; cbn [map fsched length] in *; [lia|].
  destruct (fdo s (Go i)) as [[s1 es]|] eqn:E; [|discriminate H].
  destruct (fsched s1 (map Go l)) as [[tr1 s2]|] eqn:E2; [|discriminate H].
  pose proof (go_work _ _ _ _ _ Hm E). pose proof (IH _ _ _ (go_length _ _ _ _ _ Hm E) E2). lia.
Qed.
Lemma left_bound m p : left_ m p <= m + 4.
Proof. destruct p; cbn; lia. Qed.
Lemma sum_bound (g : fpc -> nat) b : (forall p, g p <= b) -> forall l, sum_list_with g l <= length l * b.
Proof. intros Hg. induction l as [|y l IH]; cbn; [lia|]. specialize (Hg y). lia. Qed.
Lemma moves_bounded m q t tr s l tr' s' : frun m q t tr s -> fsched s (map Go l) = Some (tr', s') -> length l <= t * (m + 4) + 1.
Proof.
  intros Hr H. apply frun_inv in Hr as Hi. pose proof (sched_bound _ _ _ _ _ (i_slot _ _ _ _ _ Hi) H) as Hb.
  unfold work in Hb. pose proof (sum_bound (left_ m) (m + 4) (left_bound m) (f_pc s)) as Hs. rewrite (i_pc _ _ _ _ _ Hi) in Hs.
  destruct (f_dead s); lia.
Qed.

(** Every dup2 in progress goes from a lower to a higher number, in some
    order of the numbers. *)
Definition ranked (f : nat -> nat) (tr : list fev) : Prop := forall i a b, now tr i = Some (CDup2 a b) -> f a < f b.
Definition can_go (s : fst) (i : nat) : Prop := exists s' es, fdo s (Go i) = Some (s', es).

Lemma free_of k s : f_lock s !! k = Some false -> free k s = true.
Proof. intros H. unfold free. by apply bool_decide_eq_true. Qed.
(** A thread that is not waiting for a lock can go on. *)
Definition wants (p : fpc) : option nat :=
  match p with Cl1 k | Cl2 k | Us1 k => Some k | Du1 a _ => Some a | Du2 _ b | Du3 _ b | Du4 _ b => Some b | _ => None end.
Lemma go_unless s i p : f_dead s = false -> f_pc s !! i = Some p -> p <> Idle ->
  (forall k, wants p = Some k -> f_lock s !! k = Some false) -> can_go s i.
Proof.
  intros Hd Hp Hni Hw. unfold can_go. cbn [fdo]. unfold fgo. rewrite Hd, Hp. unfold ret.
  destruct p as [|o ok k|o ok k|k|k|k|a b|a b|a b|a b|k|k]; try done; try (rewrite (free_of _ _ (Hw _ eq_refl))); eauto.
  - destruct (f_slot s !! k); [|eauto]. destruct (_ && _); eauto.
  - destruct ok; eauto.
  - destruct (entry k s); [|eauto]. destruct (_ =? 0); eauto.
  - destruct (entry a s); eauto.
  - destruct (entry b s); eauto.
  - destruct (entry b s); [|eauto]. destruct (_ =? 0); eauto.
  - destruct (entry a s); eauto.
Qed.

Lemma max_list (f : nat -> nat) m : exists b, forall k, k < m -> f k <= b.
Proof.
  induction m as [|m [b IH]]; [exists 0; lia|]. exists (max b (f m)). intros k Hk.
  destruct (decide (k = m)) as [->|]; [lia|]. specialize (IH k ltac:(lia)). lia.
Qed.
Lemma held_progress m q t tr s f : finv m q t tr s -> f_dead s = false -> ranked f tr ->
  forall n B k, (forall j, j < m -> f j <= B) -> k < m -> B - f k <= n -> f_lock s !! k = Some true -> exists i, can_go s i.
Proof.
  intros Hi Hd Hf. induction n as [n IH] using lt_wf_ind. intros B k HB Hkm Hn Hk.
  destruct (i_owner _ _ _ _ _ Hi _ Hk) as (i & p & Hp & Hh).
  destruct (wants p) as [b|] eqn:Ew.
  2: { exists i. refine (go_unless _ _ _ Hd Hp _ _). { by intros ->. } { congruence. } }
  pose proof (i_now _ _ _ _ _ Hi i) as Hnow. rewrite Hp in Hnow.
  pose proof (i_range _ _ _ _ _ Hi _ _ Hp) as Hr.
  assert (X : now tr i = Some (CDup2 k b) /\ b < m).
  { destruct p; cbn in *; try discriminate Hh; try discriminate Ew; injection Hh as ->; injection Ew as ->; split; try done; tauto. }
  destruct X as [Hc Hb]. pose proof (Hf _ _ _ Hc) as Hlt.
  destruct (f_lock s !! b) as [[|]|] eqn:El.
  - pose proof (HB b Hb) as Hbb. exact (IH (B - f b) ltac:(lia) B b HB Hb ltac:(lia) El).
  - exists i. refine (go_unless _ _ _ Hd Hp _ _); [by intros ->|]. intros k' Hk'. congruence.
  - apply lookup_ge_None in El. rewrite (i_lock _ _ _ _ _ Hi) in El. lia.
Qed.
Lemma progress m q t tr s f : finv m q t tr s -> f_dead s = false -> ranked f tr -> busy tr -> exists i, can_go s i.
Proof.
  intros Hi Hd Hf (i & c & Hc). pose proof (i_now _ _ _ _ _ Hi i) as Hnow. rewrite Hc in Hnow.
  destruct (f_pc s !! i) as [p|] eqn:Hp; [|discriminate Hnow].
  destruct (wants p) as [k|] eqn:Ew.
  2: { exists i. refine (go_unless _ _ _ Hd Hp _ _). { by intros ->. } { congruence. } }
  pose proof (i_range _ _ _ _ _ Hi _ _ Hp) as Hr.
  assert (k < m). { destruct p; try discriminate Ew; injection Ew as ->; tauto. }
  destruct (f_lock s !! k) as [[|]|] eqn:El.
  - destruct (max_list f m) as [B HB]. exact (held_progress _ _ _ _ _ _ Hi Hd Hf _ B k HB ltac:(lia) (Nat.le_refl _) El).
  - exists i. refine (go_unless _ _ _ Hd Hp _ _); [by intros ->|]. intros k' Hk'. congruence.
  - apply lookup_ge_None in El. rewrite (i_lock _ _ _ _ _ Hi) in El. lia.
Qed.

Lemma go_now m q t tr s i s' es j c : finv m q t tr s -> fdo s (Go i) = Some (s', es) -> now (tr ++ es) j = Some c -> now tr j = Some c.
Proof.
  intros Hi H Hn. apply go_move in H as (_ & p & Hp & Hni & [(p' & x & Hx & _)|[_ ->]]); [|by rewrite app_nil_r in Hn].
  pose proof (i_now _ _ _ _ _ Hi i) as Hnow. rewrite Hp in Hnow. rewrite (move_now _ _ _ _ _ _ _ _ Hx Hnow) in Hn.
  destruct (decide (i = j)) as [<-|]; [|done]. rewrite Hnow, <- Hn. destruct Hx; done.
Qed.
#[global] Instance fpc_eq : EqDecision fpc.
Proof. solve_decision. Defined.
Lemma completes m q t f : forall n tr s, work m s <= n -> frun m q t tr s -> ranked f tr ->
  exists l tr' s', fsched s (map Go l) = Some (tr', s') /\ (f_dead s' = true \/ quiet (tr ++ tr')).
Proof.
  induction n as [n IH] using lt_wf_ind. intros tr s Hn Hr Hf. apply frun_inv in Hr as Hi.
  destruct (f_dead s) eqn:Hd. { exists [], [], s. split; [done|by left]. }
  destruct (decide (Forall (fun p => p = Idle) (f_pc s))) as [Hall|Hnot].
  - exists [], [], s. split; [done|]. right. rewrite app_nil_r. intros i. rewrite (i_now _ _ _ _ _ Hi).
    destruct (f_pc s !! i) as [p|] eqn:Hp; [|done]. by rewrite (Forall_lookup_1 _ _ _ _ Hall Hp).
  - apply not_Forall_Exists in Hnot; [|solve_decision]. apply Exists_exists in Hnot as (p & Hin & Hp).
    apply elem_of_list_lookup in Hin as [i Hi']. cbn in Hp.
    assert (busy tr). { pose proof (i_now _ _ _ _ _ Hi i) as Hnow. rewrite Hi' in Hnow. destruct p; try done; by eexists i, _. }
    destruct (progress _ _ _ _ _ _ Hi Hd Hf H) as (j & s1 & es & Hj).
    pose proof (go_work _ _ _ _ _ (i_slot _ _ _ _ _ Hi) Hj) as Hw.
    destruct (IH (work m s1) ltac:(lia) (tr ++ es) s1 (Nat.le_refl _) (frun_step _ _ _ _ _ _ _ _ Hr Hj)) as (l & tr' & s' & Hs & Hq).
    { intros i0 a b Hc. eapply Hf. by eapply go_now. }
    exists (j :: l), (es ++ tr'), s'. cbn [map fsched]. rewrite Hj, Hs. split; [done|]. by rewrite app_assoc.
Qed.

(** ** C87: counts *)
Definition owes (p : fpc) (k : nat) : bool := match p with Cl2 k' | Du4 _ k' => k' =? k | _ => false end.
Definition owed (s : fst) (k : nat) : bool := existsb (fun p => owes p k) (f_pc s).
Definition share (s : fst) (o k : nat) : Z := if bool_decide (entry k s = Some o) && negb (owed s k) then 1%Z else 0%Z.
Record ginv (m : nat) (tr : list fev) (s : fst) : Prop := {
  g_live : f_dead s = false;
  g_apart : forall i j c c', i <> j -> now tr i = Some c -> now tr j = Some c' -> ~ clash c c';
  g_cl2 : forall i k, f_pc s !! i = Some (Cl2 k) -> entry k s <> None;
  g_ref : forall o, o < length (f_ref s) -> Z.of_nat (refs o s) = zsum m (share s o);
}.

Lemma clash_sym c c' : clash c c' -> clash c' c.
Proof. unfold clash. tauto. Qed.
Lemma owed_true s k : owed s k = true <-> exists i p, f_pc s !! i = Some p /\ owes p k = true.
Proof.
  unfold owed. rewrite existsb_exists. split.
  - intros (p & Hin & Ho). apply elem_of_list_In, elem_of_list_lookup in Hin as [i Hi]. by exists i, p.
  - intros (i & p & Hi & Ho). exists p. split; [|done]. apply elem_of_list_In. by eapply elem_of_list_lookup_2.
Qed.
Lemma owes_target p k : owes p k = true -> exists c, call_of p = Some c /\ target c = Some k.
Proof. destruct p; cbn; try discriminate; intros E; apply Nat.eqb_eq in E as ->; by eexists. Qed.

(** Nobody but thread [i] owes for entry [k]. *)
Definition sole (s : fst) (i k : nat) : Prop := forall j p, i <> j -> f_pc s !! j = Some p -> owes p k = false.
Lemma sole_owed s i p k : f_pc s !! i = Some p -> sole s i k -> owed s k = owes p k.
Proof.
  intros Hp Hs. destruct (owes p k) eqn:E.
  - apply owed_true. by exists i, p.
  - destruct (owed s k) eqn:E2; [|done]. apply owed_true in E2 as (j & pj & Hj & Ho).
    destruct (decide (i = j)) as [<-|Hne]; [congruence|]. by rewrite (Hs _ _ Hne Hj) in Ho.
Qed.
Lemma sole_set s i p' x k : sole s i k -> sole (goto i p' (apply x s)) i k.
Proof. intros Hs j p Hne Hj. cbn in Hj. rewrite apply_pc, list_lookup_insert_ne in Hj by done. by eapply Hs. Qed.

(** A step by a thread whose debt for [k] does not change leaves what is owed
    for [k]. *)
Lemma owed_same s i p p' x k : f_pc s !! i = Some p -> owes p k = owes p' k -> owed (goto i p' (apply x s)) k = owed s k.
Proof.
  intros Hp E. apply eq_true_iff_eq. rewrite !owed_true.
  assert (Hpc : f_pc (goto i p' (apply x s)) = <[i := p']> (f_pc s)) by (cbn; by rewrite apply_pc). rewrite Hpc. split.
  - intros (j & pj & Hj & Ho). apply set_cases in Hj as [[<- <-]|[Hne Hj]]; [exists i, p; by rewrite E|by exists j, pj].
  - intros (j & pj & Hj & Ho). destruct (decide (i = j)) as [<-|Hne].
    + exists i, p'. split; [apply list_lookup_insert; by eapply lookup_lt_Some|]. congruence.
    + exists j, pj. by rewrite list_lookup_insert_ne.
Qed.

Lemma ginv_init m q t : ginv m [] (finit m q t).
Proof.
  constructor; cbn; try done.
  - intros i k E. by apply lookup_replicate in E as [? _].
  - intros o Ho. rewrite replicate_length in Ho. unfold refs. cbn. rewrite lookup_replicate_2 by done. symmetry. apply zsum_0.
    intros k _. unfold share. rewrite bool_decide_eq_false_2; [done|]. unfold entry. cbn.
    destruct (replicate m None !! k) as [x|] eqn:E; [|done]. by apply lookup_replicate in E as [-> _].
Qed.

Lemma refs_addref o o' s : o < length (f_ref s) -> refs o' (addref o s) = if decide (o = o') then S (refs o' s) else refs o' s.
Proof.
  intros Ho. unfold refs, addref. cbn. destruct (decide (o = o')) as [<-|Hne].
  - rewrite list_lookup_alter. apply lookup_lt_is_Some in Ho as [n ->]. done.
  - by rewrite list_lookup_alter_ne.
Qed.
Lemma refs_delref o o' s : o < length (f_ref s) -> refs o' (delref o s) = if decide (o = o') then pred (refs o' s) else refs o' s.
Proof.
  intros Ho. unfold refs, delref. cbn. destruct (decide (o = o')) as [<-|Hne].
  - rewrite list_lookup_alter. apply lookup_lt_is_Some in Ho as [n ->]. done.
  - by rewrite list_lookup_alter_ne.
Qed.

(** Changing the share of one entry *)
Lemma shares_upd m s s' o k : k < m -> (forall j, j <> k -> share s' o j = share s o j) ->
  zsum m (share s' o) = (zsum m (share s o) + (share s' o k - share s o k))%Z.
Proof. intros Hk H. by apply zsum_upd. Qed.
Lemma share_01 s o k : (0 <= share s o k <= 1)%Z.
Proof. unfold share. destruct (_ && _); lia. Qed.

Lemma share_pos m s o k : k < m -> share s o k = 1%Z -> (1 <= zsum m (share s o))%Z.
Proof. intros Hk E. rewrite <- E. apply zsum_one; [done|]. intros j _. apply share_01. Qed.

Lemma apart_sole m q t tr s i p c k : finv m q t tr s -> ginv m tr s -> f_pc s !! i = Some p -> call_of p = Some c ->
  target c = Some k -> sole s i k.
Proof.
  intros Hi Hg Hp Hc Ht j pj Hne Hj. destruct (owes pj k) eqn:E; [|done]. apply owes_target in E as (c' & Hc' & Ht').
  pose proof (i_now _ _ _ _ _ Hi i) as Hn. pose proof (i_now _ _ _ _ _ Hi j) as Hn'. rewrite Hp, Hc in Hn. rewrite Hj, Hc' in Hn'.
  destruct (g_apart _ _ _ Hg _ _ _ _ Hne Hn Hn'). left. left. by exists k.
Qed.
Lemma hold_sole m q t tr s i o ok k : finv m q t tr s -> ginv m tr s -> f_pc s !! i = Some (Hold o ok k) -> sole s i k.
Proof.
  intros Hi Hg Hp j pj Hne Hj. pose proof (i_range _ _ _ _ _ Hi _ _ Hp) as Hr. cbn in Hr.
  pose proof (i_now _ _ _ _ _ Hi i) as Hn. pose proof (i_now _ _ _ _ _ Hi j) as Hn'. rewrite Hp in Hn. rewrite Hj in Hn'.
  destruct (owes pj k) eqn:E; [|done]. exfalso. destruct pj; try discriminate E; cbn in E; apply Nat.eqb_eq in E; subst.
  - apply (g_cl2 _ _ _ Hg _ _ Hj). unfold entry. by rewrite Hr.
  - cbn in Hn, Hn'. destruct (g_apart _ _ _ Hg _ _ _ _ Hne Hn Hn'). right. right. by eexists _, _, _, _.
Qed.

Lemma share_at s i p o k : f_pc s !! i = Some p -> sole s i k ->
  share s o k = if bool_decide (entry k s = Some o) && negb (owes p k) then 1%Z else 0%Z.
Proof. intros Hp Hs. unfold share. by rewrite (sole_owed _ _ _ _ Hp Hs). Qed.

Lemma no_death m q t tr s i p : finv m q t tr s -> ginv m tr s -> f_pc s !! i = Some p -> ~ dies s p.
Proof.
  intros Hi Hg Hp (k & o & Hk & Hz & Hc). pose proof (i_range _ _ _ _ _ Hi _ _ Hp) as Hr.
  assert (X : exists c, call_of p = Some c /\ target c = Some k /\ owes p k = false /\ k < m).
  { destruct Hc as [->|(a & -> & _)]; eexists; repeat split; tauto. }
  destruct X as (c & Hcp & Ht & Ho & Hkm). pose proof (apart_sole _ _ _ _ _ _ _ _ _ Hi Hg Hp Hcp Ht) as Hs.
  assert (E : share s o k = 1%Z). { rewrite (share_at _ _ _ _ _ Hp Hs), Ho, bool_decide_eq_true_2 by done. done. }
  pose proof (share_pos _ _ _ _ Hkm E) as H1. rewrite <- (g_ref _ _ _ Hg) in H1; [lia|].
  rewrite (i_ref _ _ _ _ _ Hi). exact (i_objs _ _ _ _ _ Hi _ _ Hk).
Qed.

Lemma share_same s i p p' x o k : f_pc s !! i = Some p -> owes p k = owes p' k -> entry k (apply x s) = entry k s ->
  share (goto i p' (apply x s)) o k = share s o k.
Proof. intros Hp Ho He. unfold share. rewrite (owed_same _ _ _ _ _ _ Hp Ho), entry_goto, He. done. Qed.
Lemma share_none s o k : entry k s = None -> share s o k = 0%Z.
Proof. intros E. unfold share. rewrite E. by rewrite bool_decide_eq_false_2. Qed.

Lemma begin_owes c k : owes (begin c) k = false.
Proof. by destruct c. Qed.
Lemma orderly_pre tr es : orderly (tr ++ es) -> orderly tr.
Proof. intros H p i c r E. apply (H p i c (r ++ es)). rewrite E. by rewrite <- app_assoc. Qed.

Lemma ginv_move m q t tr s i p p' x es : finv m q t tr s -> ginv m tr s -> orderly (tr ++ es) ->
  f_pc s !! i = Some p -> move s i p p' x es -> ginv m (tr ++ es) (goto i p' (apply x s)).
Proof.
  intros Hi Hg Hord Hp Hm. pose proof (i_now _ _ _ _ _ Hi i) as Hn. rewrite Hp in Hn.
  pose proof (i_range _ _ _ _ _ Hi _ _ Hp) as Hr. pose proof (move_entry _ _ _ _ _ _ _ _ _ _ Hi Hp Hm) as He.
  assert (Hpc : f_pc (goto i p' (apply x s)) = <[i := p']> (f_pc s)) by (cbn; by rewrite apply_pc).
  assert (Hlt : i < length (f_pc s)) by (by eapply lookup_lt_Some).
  constructor.
  - cbn. pose proof (g_live _ _ _ Hg). by destruct x.
  - (* apart *)
    assert (X : forall j c c', i <> j -> now (tr ++ es) i = Some c -> now tr j = Some c' -> ~ clash c c').
    { intros j c c' Hne Hc Hj. rewrite (move_now _ _ _ _ _ _ _ _ Hm Hn), decide_True in Hc by done.
      destruct (decide (p = Idle)) as [->|Hni].
      - inversion Hm; subst. assert (c0 = c) as -> by (destruct c0; cbn in Hc; congruence).
        refine (Hord tr i c [] eq_refl j c' _ Hj). congruence.
      - refine (g_apart _ _ _ Hg i j c c' Hne _ Hj). rewrite Hn. destruct Hm; try done. }
    intros j j' c c' Hne Hc Hc'. pose proof (move_now _ _ _ _ _ _ j _ Hm Hn) as Ej. pose proof (move_now _ _ _ _ _ _ j' _ Hm Hn) as Ej'.
    destruct (decide (i = j)) as [<-|Hij]; destruct (decide (i = j')) as [<-|Hij'].
    + done.
    + eapply X; [done|done|congruence].
    + intros Hcl. apply clash_sym in Hcl. revert Hcl. eapply X; [done|done|congruence].
    + eapply (g_apart _ _ _ Hg j j'); [done|congruence|congruence].
  - (* cl2 *)
    intros j k Hj. rewrite Hpc in Hj. rewrite entry_goto. apply set_cases in Hj as [[<- ->]|[Hne Hj]].
    + inversion Hm; subst; [by destruct c|]. cbn [apply]. rewrite entry_lock. change (entry k (delref o s)) with (entry k s). congruence.
    + pose proof (g_cl2 _ _ _ Hg _ _ Hj) as Hk. destruct (He k) as [E|[_ E]]; [by rewrite E|].
      destruct Hm; try done; try (destruct E as [_ E]; by rewrite E).
      destruct E as [-> _]. pose proof (i_now _ _ _ _ _ Hi j) as Hnj. rewrite Hj in Hnj. cbn in Hnj, Hn.
      destruct (g_apart _ _ _ Hg _ _ _ _ Hne Hn Hnj). left. left. by exists k.
  - (* refs *)
    intros o0 Ho0. assert (Hlen : length (f_ref (goto i p' (apply x s))) = length (f_ref s)).
    { cbn. by destruct (apply_len x s) as (_ & _ & ->). } rewrite Hlen in Ho0.
    pose proof (g_ref _ _ _ Hg o0 Ho0) as Href.
    (* moves that leave counts, entries and debts *)
    assert (N : (forall k, owes p k = owes p' k) -> (forall k, entry k (apply x s) = entry k s) ->
        refs o0 (goto i p' (apply x s)) = refs o0 s ->
        Z.of_nat (refs o0 (goto i p' (apply x s))) = zsum m (share (goto i p' (apply x s)) o0)).
    { intros N1 N2 N3. rewrite N3, Href. apply zsum_ext. intros k _. symmetry. by eapply share_same. }
    destruct Hm as [c Hc|o ok k Hk|o ok k Hk Hl|o ok k y Hk Hy|o k|o k|k Hl|k Hk|k o Hk Hz|k Hl|a b Hl Ha|a b Hl Ha|a b Hl Hb|a b Hl Hb|a b Hl Hb|a b o Hl Hb Hz|a b Hl Ha|a b o Hl Ha|k Hl|k];
      try (apply N; intros; try done; by rewrite begin_owes).
    + (* fill *)
      assert (Ho : o < length (f_ref s)). { rewrite (i_ref _ _ _ _ _ Hi). exact (i_obj _ _ _ _ _ Hi _ _ Hp). }
      assert (Hk : k < m). { apply lookup_lt_Some in Hr. by rewrite (i_slot _ _ _ _ _ Hi) in Hr. }
      pose proof (hold_sole _ _ _ _ _ _ _ _ _ Hi Hg Hp) as Hs.
      rewrite (shares_upd m s _ o0 k Hk).
      2: { intros j Hj. eapply share_same; [done|done|]. destruct (He j) as [->|[_ [-> _]]]; done. }
      rewrite (share_none s) by (unfold entry; by rewrite Hr).
      assert (E : entry k (apply (XFill o k) s) = Some o).
      { cbn [apply]. rewrite entry_lock, entry_store by (cbn; by rewrite (i_slot _ _ _ _ _ Hi)). by rewrite decide_True. }
      rewrite (share_at _ i Idle _ _); [|rewrite Hpc; by apply list_lookup_insert|by apply sole_set].
      rewrite entry_goto, E. cbn [owes negb].
      assert (R : refs o0 (goto i Idle (apply (XFill o k) s)) = refs o0 (addref o s)) by done. rewrite R, refs_addref by done.
      destruct (decide (o = o0)) as [->|Hne].
      * rewrite bool_decide_eq_true_2 by done. cbn [andb]. lia.
      * rewrite bool_decide_eq_false_2 by congruence. cbn [andb]. lia.
    + (* drop *)
      assert (Ho : o < length (f_ref s)). { rewrite (i_ref _ _ _ _ _ Hi). exact (i_objs _ _ _ _ _ Hi _ _ Hk). }
      pose proof (apart_sole _ _ _ _ _ _ _ _ k Hi Hg Hp eq_refl eq_refl) as Hs.
      rewrite (shares_upd m s _ o0 k Hr).
      2: { intros j Hj. eapply share_same; [done| |done]. cbn. symmetry. apply Nat.eqb_neq. congruence. }
      rewrite (share_at s i _ _ _ Hp Hs). rewrite (share_at _ i (Cl2 k) _ _); [|rewrite Hpc; by apply list_lookup_insert|by apply sole_set].
      cbn [owes]. rewrite Nat.eqb_refl, Hk. cbn [negb]. rewrite andb_false_r, andb_true_r.
      assert (R : refs o0 (goto i (Cl2 k) (apply (XDrop o k) s)) = refs o0 (delref o s)) by done. rewrite R, refs_delref by done.
      destruct (decide (o = o0)) as [->|Hne].
      * rewrite bool_decide_eq_true_2 by done. lia.
      * rewrite bool_decide_eq_false_2 by congruence. lia.
    + (* empty *)
      pose proof (apart_sole _ _ _ _ _ _ _ _ k Hi Hg Hp eq_refl eq_refl) as Hs.
      rewrite (shares_upd m s _ o0 k Hr).
      2: { intros j Hj. eapply share_same; [done| |]. { cbn. apply Nat.eqb_neq. congruence. } destruct (He j) as [->|[_ [-> _]]]; done. }
      rewrite (share_at s i _ _ _ Hp Hs). cbn [owes]. rewrite Nat.eqb_refl, andb_false_r.
      rewrite (share_none (goto _ _ _)).
      2: { rewrite entry_goto. cbn [apply]. rewrite entry_store by (by rewrite (i_slot _ _ _ _ _ Hi)). by rewrite decide_True. }
      assert (R : refs o0 (goto i Idle (apply (XEmpty k) s)) = refs o0 s) by done. rewrite R. lia.
    + (* du24 *)
      assert (R : refs o0 (goto i (Du4 a b) (apply XNone s)) = refs o0 s) by done. rewrite R, Href. apply zsum_ext. intros k _.
      destruct (decide (b = k)) as [<-|Hbk]; [by rewrite !share_none|]. symmetry. eapply share_same; [done| |done]. cbn. symmetry. by apply Nat.eqb_neq.
    + (* du34 *)
      assert (R : refs o0 (goto i (Du4 a b) (apply XNone s)) = refs o0 s) by done. rewrite R, Href. apply zsum_ext. intros k _.
      destruct (decide (b = k)) as [<-|Hbk]; [by rewrite !share_none|]. symmetry. eapply share_same; [done| |done]. cbn. symmetry. by apply Nat.eqb_neq.
    + (* count *)
      destruct Hr as (Ham & Hbm & Hab & _).
      assert (Ho : o < length (f_ref s)). { rewrite (i_ref _ _ _ _ _ Hi). exact (i_objs _ _ _ _ _ Hi _ _ Hb). }
      pose proof (apart_sole _ _ _ _ _ _ _ _ b Hi Hg Hp eq_refl eq_refl) as Hs.
      rewrite (shares_upd m s _ o0 b Hbm).
      2: { intros j Hj. eapply share_same; [done| |done]. cbn. symmetry. apply Nat.eqb_neq. congruence. }
      rewrite (share_at s i _ _ _ Hp Hs). rewrite (share_at _ i (Du4 a b) _ _); [|rewrite Hpc; by apply list_lookup_insert|by apply sole_set].
      cbn [owes]. rewrite Nat.eqb_refl, Hb. cbn [negb]. rewrite andb_false_r, andb_true_r.
      assert (R : refs o0 (goto i (Du4 a b) (apply (XCount o b) s)) = refs o0 (delref o s)) by done. rewrite R, refs_delref by done.
      destruct (decide (o = o0)) as [->|Hne].
      * rewrite bool_decide_eq_true_2 by done. lia.
      * rewrite bool_decide_eq_false_2 by congruence. lia.
    + (* du4 bad *) by destruct Hr as (_ & _ & _ & Hr).
    + (* copy *)
      destruct Hr as (Ham & Hbm & Hab & _).
      assert (Ho : o < length (f_ref s)). { rewrite (i_ref _ _ _ _ _ Hi). exact (i_objs _ _ _ _ _ Hi _ _ Ha). }
      pose proof (apart_sole _ _ _ _ _ _ _ _ b Hi Hg Hp eq_refl eq_refl) as Hs.
      rewrite (shares_upd m s _ o0 b Hbm).
      2: { intros j Hj. eapply share_same; [done| |]. { cbn. apply Nat.eqb_neq. congruence. } destruct (He j) as [->|[_ [-> _]]]; done. }
      rewrite (share_at s i _ _ _ Hp Hs). rewrite (share_at _ i Idle _ _); [|rewrite Hpc; by apply list_lookup_insert|by apply sole_set].
      assert (E : entry b (apply (XCopy o a b) s) = Some o).
      { cbn [apply]. rewrite entry_lock, entry_store by (cbn; by rewrite (i_slot _ _ _ _ _ Hi)). by rewrite decide_True. }
      rewrite entry_goto, E. cbn [owes]. rewrite Nat.eqb_refl. cbn [negb]. rewrite andb_false_r, andb_true_r.
      assert (R : refs o0 (goto i Idle (apply (XCopy o a b) s)) = refs o0 (addref o s)) by done. rewrite R, refs_addref by done.
      destruct (decide (o = o0)) as [->|Hne].
      * rewrite bool_decide_eq_true_2 by done. lia.
      * rewrite bool_decide_eq_false_2 by congruence. lia.
Qed.

Lemma run_ginv m q t tr s : frun m q t tr s -> orderly tr -> ginv m tr s.
Proof.
  induction 1 as [|tr s a s' es Hr IH Hd]; intros Ho; [apply ginv_init|].
  apply frun_inv in Hr as Hi. specialize (IH (orderly_pre _ _ Ho)).
  apply fdo_move in Hd as (_ & p & Hp & [(p' & x & Hm & ->)|(-> & -> & Hdie)]).
  - by eapply ginv_move.
  - destruct (no_death _ _ _ _ _ _ _ Hi IH Hp Hdie).
Qed.

Lemma entries_sum s o : Z.of_nat (entries s o) = zsum (length (f_slot s)) (fun k => if bool_decide (entry k s = Some o) then 1%Z else 0%Z).
Proof.
  unfold entries, entry. generalize (f_slot s). intros l. induction l as [|x l IH] using rev_ind; [done|].
  rewrite List.filter_app, app_length, Nat2Z.inj_add, IH, app_length. cbn [length List.filter]. rewrite Nat.add_1_r. cbn [zsum]. f_equal.
  - apply zsum_ext. intros k Hk. by rewrite lookup_app_l.
  - rewrite lookup_app_r, Nat.sub_diag by lia. cbn. by destruct (bool_decide (x = Some o)).
Qed.

Lemma quiet_counts m q t tr s o : frun m q t tr s -> orderly tr -> quiet tr -> o < q -> refs o s = entries s o.
Proof.
  intros Hr Ho Hq Hoq. apply frun_inv in Hr as Hi. pose proof (run_ginv _ _ _ _ _ Hr Ho) as Hg.
  apply Nat2Z.inj. rewrite (g_ref _ _ _ Hg), entries_sum, (i_slot _ _ _ _ _ Hi) by (by rewrite (i_ref _ _ _ _ _ Hi)).
  apply zsum_ext. intros k _. unfold share. destruct (owed s k) eqn:E; [|by rewrite andb_true_r].
  apply owed_true in E as (i & p & Hp & Hw). apply owes_target in Hw as (c & Hc & _).
  pose proof (i_now _ _ _ _ _ Hi i) as Hn. rewrite Hp, Hc, Hq in Hn. discriminate Hn.
Qed.
Lemma alive m q t tr s k o : frun m q t tr s -> orderly tr -> entry k s = Some o ->
  (forall i c, now tr i = Some c -> target c <> Some k) -> 0 < refs o s.
Proof.
  intros Hr Ho Hk Hnt. apply frun_inv in Hr as Hi. pose proof (run_ginv _ _ _ _ _ Hr Ho) as Hg.
  assert (k < m). { unfold entry in Hk. destruct (f_slot s !! k) eqn:E; [|discriminate Hk]. apply lookup_lt_Some in E. by rewrite (i_slot _ _ _ _ _ Hi) in E. }
  assert (E : share s o k = 1%Z).
  { unfold share. rewrite bool_decide_eq_true_2 by done. destruct (owed s k) eqn:E; [|done].
    apply owed_true in E as (i & p & Hp & Hw). apply owes_target in Hw as (c & Hc & Ht).
    pose proof (i_now _ _ _ _ _ Hi i) as Hn. rewrite Hp, Hc in Hn. by destruct (Hnt _ _ Hn). }
  pose proof (share_pos _ _ _ _ H E) as H1. rewrite <- (g_ref _ _ _ Hg) in H1; [lia|].
  rewrite (i_ref _ _ _ _ _ Hi). exact (i_objs _ _ _ _ _ Hi _ _ Hk).
Qed.
Lemma orderly_lives m q t tr s : frun m q t tr s -> orderly tr -> f_dead s = false.
Proof. intros Hr Ho. exact (g_live _ _ _ (run_ginv _ _ _ _ _ Hr Ho)). Qed.

(** Histories *)
Lemma sched_run m q t : forall l s tr0 tr s', frun m q t tr0 s -> fsched s l = Some (tr, s') -> frun m q t (tr0 ++ tr) s'.
Proof.
  induction l as [|a l IH]; intros s tr0 tr s' Hr H; cbn [fsched] in H.
  - injection H as <- <-. by rewrite app_nil_r.
  - destruct (fdo s a) as [[s1 es]|] eqn:E; [|discriminate H].
    destruct (fsched s1 l) as [[tr1 s2]|] eqn:E2; [|discriminate H]. injection H as <- <-.
    rewrite app_assoc. eapply IH; [|done]. by eapply frun_step.
Qed.

(** Deciding [orderly] for a given history *)
Definition clash1b (c c' : fcall) : bool :=
  match target c, target c' with Some k, Some k' => k =? k' | _, _ => false end ||
  match c, c' with CDup2 _ _, COpen _ _ => true | _, _ => false end.
Lemma clash_b c c' : clash1b c c' || clash1b c' c = false -> ~ clash c c'.
Proof.
  assert (X : forall c c', clash1b c c' = false -> ~ clash1 c c').
  { clear. intros c c' H [(k & H1 & H2)|(a & b & o & ok & -> & ->)]; unfold clash1b in H.
    - rewrite H1, H2, Nat.eqb_refl in H. discriminate H.
    - discriminate H. }
  intros H. apply orb_false_iff in H as [H1 H2]. intros [H|H]; [by apply X in H1|by apply X in H2].
Qed.
Fixpoint orderly_b (t : nat) (pre tr : list fev) : bool :=
  match tr with
  | [] => true
  | e :: r =>
      match e with
      | Call i c => (i <? t) && forallb (fun j => (j =? i) || match now pre j with Some c' => negb (clash1b c c' || clash1b c' c) | None => true end) (seq 0 t)
      | Ret i _ _ => true
      end && orderly_b t (pre ++ [e]) r
  end.
Lemma now_big t j : t <= j -> forall tr pre, now pre j = None -> orderly_b t pre tr = true -> forall p r, tr = p ++ r -> now (pre ++ p) j = None.
Proof.
  intros Hj. induction tr as [|e tr IH]; intros pre Hp Hb p r E.
  - symmetry in E. apply app_eq_nil in E as [-> ->]. by rewrite app_nil_r.
  - destruct p as [|e' p]; [by rewrite app_nil_r|]. cbn in E. injection E as <- ->. cbn [orderly_b] in Hb. apply andb_true_iff in Hb as [Hb1 Hb2].
    rewrite cons_middle, app_assoc. eapply IH; [|done|done]. rewrite now_app. cbn [fold_left].
    destruct e as [i c|i c a]; cbn [now1].
    + apply andb_true_iff in Hb1 as [Hb1 _]. apply Nat.ltb_lt in Hb1. destruct (Nat.eqb_spec i j); [lia|done].
    + by destruct (i =? j).
Qed.
Lemma orderly_dec t tr : orderly_b t [] tr = true -> orderly tr.
Proof.
  assert (X : forall tr pre, orderly_b t pre tr = true -> (forall j, t <= j -> now pre j = None) ->
    forall p i c r, tr = p ++ Call i c :: r -> forall j c', j <> i -> now (pre ++ p) j = Some c' -> ~ clash c c').
  { clear tr. induction tr as [|e tr IH]; intros pre Hb Hpre p i c r E j c' Hj Hn; [by destruct p|].
    cbn [orderly_b] in Hb. apply andb_true_iff in Hb as [Hb1 Hb2]. destruct p as [|e' p]; cbn in E; injection E as -> ->.
    - rewrite app_nil_r in Hn. apply andb_true_iff in Hb1 as [_ Hb1]. rewrite forallb_forall in Hb1.
      destruct (decide (t <= j)) as [Ht|Ht]; [rewrite Hpre in Hn by done; discriminate Hn|].
      specialize (Hb1 j). rewrite Hn in Hb1. specialize (Hb1 ltac:(apply in_seq; lia)).
      apply orb_true_iff in Hb1 as [Hb1|Hb1]; [by apply Nat.eqb_eq in Hb1|]. apply negb_true_iff in Hb1. by apply clash_b.
    - rewrite cons_middle, app_assoc in Hn. refine (IH (pre ++ [e']) Hb2 _ p i c r eq_refl j c' Hj Hn).
      intros j' Hj'. rewrite now_app. cbn [fold_left]. rewrite Hpre by done. destruct e' as [i' c0|i' c0 a]; cbn [now1].
      + apply andb_true_iff in Hb1 as [Hb1 _]. apply Nat.ltb_lt in Hb1. destruct (Nat.eqb_spec i' j'); [lia|done].
      + by destruct (i' =? j'). }
  intros Hb p i c r E j c' Hj Hn. exact (X tr [] Hb (fun _ _ => eq_refl) p i c r E j c' Hj Hn).
Qed.
#[global] Instance fcall_eq : EqDecision fcall.
Proof. solve_decision. Defined.
#[global] Instance fans_eq : EqDecision fans.
Proof. solve_decision. Defined.
#[global] Instance fev_eq : EqDecision fev.
Proof. solve_decision. Defined.
#[global] Instance fst_eq : EqDecision fst.
Proof. solve_decision. Defined.
Lemma fd_ex m q t l (P : list fev -> fst -> bool) :
  match fsched (finit m q t) l with Some (tr, s) => P tr s | None => false end = true ->
  exists tr s, frun m q t tr s /\ P tr s = true.
Proof.
  destruct (fsched (finit m q t) l) as [[tr s]|] eqn:E; [|discriminate]. intros H. exists tr, s. split; [|done].
  exact (sched_run m q t _ _ [] _ _ (frun_nil m q t) E).
Qed.
