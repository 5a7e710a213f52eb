(** Which threads come to an end. *)
From stdpp Require Import gmap.
From Verif Require Import Base PathModel PathSpec FsModel FsSpec FsNames FsReachSpec FsAny FsAnySteps CwdModel CwdSpec.
Local Open Scope list_scope.
Local Open Scope nat_scope.

(** ** Locks taken in an order *)
Definition rlt (a b : nat * nat) : Prop := fst a < fst b \/ fst a = fst b /\ snd a < snd b.

Section order.
  Variable R : lock -> lmode -> Prop.            (* the requests that occur *)
  Variable rk : lock -> lmode -> nat * nat.
  Hypothesis Rpol : forall l, polite l = true -> rlt (rk l Ex) (rk l Sh).

  Fixpoint orderly (h : list (lock * lmode)) (todo : list ev) : Prop :=
    match todo with
    | [] => h = []
    | Take l m :: r =>
        R l m /\ (forall l' m' m2, (l', m') ∈ h -> clash m' m2 = true -> R l' m2 -> rlt (rk l m) (rk l' m2)) /\ orderly ((l, m) :: h) r
    | Drop l m :: r => orderly (remove1 (l, m) h) r
    end.

  Lemma orderly_app a b : forall h, orderly h a -> orderly [] b -> orderly h (a ++ b).
  Proof.
    induction a as [|[l m|l m] a IH]; intros h Ha Hb; cbn [orderly app] in *.
    - subst h. exact Hb.
    - destruct Ha as (H1 & H2 & H3). auto.
    - auto.
  Qed.

  Definition good (ts : list thr) : Prop := forall i t, ts !! i = Some t -> orderly (h_held t) (h_todo t).

  Lemma good_step ts i ts' : good ts -> lgo ts i = Some ts' -> good ts'.
  Proof.
    unfold lgo. intros G H. destruct (ts !! i) as [[h [|[l m|l m] r]]|] eqn:E; try discriminate H.
    - destruct (blocked ts l m); [discriminate H|]. injection H as <-. pose proof (G _ _ E) as (_ & _ & Ho). cbn in Ho.
      intros j t Hj. apply list_lookup_insert_Some in Hj as [(_ & <- & _)|[_ Hj]]; [exact Ho|exact (G _ _ Hj)].
    - injection H as <-. pose proof (G _ _ E) as Ho. cbn in Ho.
      intros j t Hj. apply list_lookup_insert_Some in Hj as [(_ & <- & _)|[_ Hj]]; [exact Ho|exact (G _ _ Hj)].
  Qed.

  Lemma good_play l : forall ts ts', good ts -> lplay ts l = Some ts' -> good ts'.
  Proof.
    induction l as [|i l IH]; intros ts ts' G H; cbn [lplay] in H; [injection H as <-; exact G|].
    destruct (lgo ts i) as [ts1|] eqn:E; [|discriminate H]. exact (IH _ _ (good_step _ _ _ G E) H).
  Qed.

  (** The requests waited for *)
  Definition wants (t : thr) (q : lock * lmode) : Prop := exists r, h_todo t = Take (fst q) (snd q) :: r.

  Lemma least n1 : forall n2 (ts : list thr) q (i : nat) t, ts !! i = Some t -> wants t q -> rk (fst q) (snd q) = (n1, n2) ->
    exists (i : nat) t q, ts !! i = Some t /\ wants t q /\ forall (j : nat) u q', ts !! j = Some u -> wants u q' -> ~ rlt (rk (fst q') (snd q')) (rk (fst q) (snd q)).
  Proof.
    induction (lt_wf n1) as [n1 _ IH1]. intros n2. induction (lt_wf n2) as [n2 _ IH2]. intros ts q i t Hi Hq Hn.
    assert (DD : forall u, Decision (exists q', wants u q' /\ rlt (rk (fst q') (snd q')) (rk (fst q) (snd q)))).
    { intros [h [|[l m|l m] r]]; [right; intros (q' & [r' E] & _); discriminate E| |right; intros (q' & [r' E] & _); discriminate E].
      assert (D : {rlt (rk l m) (rk (fst q) (snd q))} + {~ rlt (rk l m) (rk (fst q) (snd q))}).
      { unfold rlt. destruct (lt_dec (fst (rk l m)) (fst (rk (fst q) (snd q)))); [left; auto|].
        destruct (Nat.eq_dec (fst (rk l m)) (fst (rk (fst q) (snd q)))); [|right; lia].
        destruct (lt_dec (snd (rk l m)) (snd (rk (fst q) (snd q)))); [left; auto|right; lia]. }
      destruct D as [D|D]; [left|right].
      + exists (l, m). split; [exists r; reflexivity|exact D].
      + intros (q' & [r' E] & K). cbn in E. injection E as -> -> _. exact (D K). }
    destruct (Exists_dec (fun u => exists q', wants u q' /\ rlt (rk (fst q') (snd q')) (rk (fst q) (snd q))) ts) as [He|He].
    - apply Exists_exists in He as (u & Hu & q' & Hw & Hlt). apply elem_of_list_lookup in Hu as [j Hj]. rewrite Hn in Hlt.
      destruct (rk (fst q') (snd q')) as [a b] eqn:Er. destruct Hlt as [Hlt|[E Hlt]]; cbn in *.
      + exact (IH1 a Hlt b ts q' j u Hj Hw Er).
      + subst a. exact (IH2 b Hlt ts q' j u Hj Hw Er).
    - exists i, t, q. split; [exact Hi|]. split; [exact Hq|]. intros j u q' Hj Hw Hlt. apply He, Exists_exists.
      exists u. split; [exact (elem_of_list_lookup_2 _ _ _ Hj)|]. eauto.
  Qed.

  Lemma not_stuck ts : good ts -> ~ all_done ts -> exists i ts', lgo ts i = Some ts'.
  Proof.
    intros G Hn.
    assert (DD : forall t, Decision (h_todo t <> [])).
    { intros t. destruct (h_todo t); [right; intros H; apply H; reflexivity|left; discriminate]. }
    destruct (Exists_dec (fun t => h_todo t <> []) ts) as [He|He].
    2: { exfalso. apply Hn. intros i t Ht. destruct (h_todo t) eqn:E; [reflexivity|]. exfalso. apply He, Exists_exists. exists t.
         split; [exact (elem_of_list_lookup_2 _ _ _ Ht)|]. rewrite E. discriminate. }
    clear Hn. apply Exists_exists in He as (t0 & Ht0 & Hne). apply elem_of_list_lookup in Ht0 as [i0 Hi0].
    destruct t0 as [h0 todo0]. cbn in Hne. destruct todo0 as [|[l m|l m] r]; [congruence| |].
    2: { exists i0. unfold lgo. rewrite Hi0. eauto. }
    destruct (rk l m) as [n1 n2] eqn:Er.
    destruct (least n1 n2 ts (l, m) i0 _ Hi0 ltac:(exists r; reflexivity) Er) as (i & t & q & Hi & [r1 Hw] & Hmin).
    destruct t as [h todo]. cbn in Hw. subst todo. destruct q as [lq mq]. cbn [fst snd] in *.
    pose proof (G _ _ Hi) as (HR & _ & _). destruct (blocked ts lq mq) eqn:Hb; [|exists i; unfold lgo; rewrite Hi, Hb; eauto].
    unfold blocked in Hb. apply orb_true_iff in Hb as [Hb|Hb].
    - apply existsb_exists in Hb as (u & Hu & Hx). apply existsb_exists in Hx as ([l' m'] & Hin & Hc). cbn in Hc.
      apply andb_prop in Hc as [El Hc]. apply bool_decide_eq_true in El. subst l'. apply elem_of_list_In, elem_of_list_lookup in Hu as [j Hj].
      pose proof (G _ _ Hj) as Ho. destruct u as [hu [|[l2 m2|l2 m2] ru]]; cbn [orderly h_held h_todo] in *.
      + subst hu. destruct Hin.
      + destruct Ho as (_ & Ho & _). exfalso. apply (Hmin j _ (l2, m2) Hj); [exists ru; reflexivity|]. cbn.
        apply (Ho lq m' mq); [apply elem_of_list_In; exact Hin|exact Hc|exact HR].
      + exists j. unfold lgo. rewrite Hj. eauto.
    - destruct mq; [|discriminate Hb]. apply andb_prop in Hb as [Hp Hb]. apply existsb_exists in Hb as (u & Hu & Hx).
      apply elem_of_list_In, elem_of_list_lookup in Hu as [j Hj]. destruct u as [hu [|[l2 [|]|l2 m2] ru]]; try discriminate Hx. cbn in Hx.
      apply bool_decide_eq_true in Hx. subst l2. exfalso. apply (Hmin j _ (lq, Ex) Hj); [exists ru; reflexivity|]. cbn. apply Rpol, Hp.
  Qed.
End order.

(** Each step takes one operation off: every run ends. *)
Definition left_over (ts : list thr) : nat := sum_list ((fun t => length (h_todo t)) <$> ts).
Lemma sum_insert_lt ts i t t' : ts !! i = Some t -> length (h_todo t') < length (h_todo t) -> left_over (<[i := t']> ts) < left_over ts.
Proof.
  unfold left_over. revert i. induction ts as [|u ts IH]; intros [|i] H Hl; cbn in H; try discriminate H.
  - injection H as ->. change (length (h_todo t') + sum_list ((fun t => length (h_todo t)) <$> ts) < length (h_todo t) + sum_list ((fun t => length (h_todo t)) <$> ts)). lia.
  - specialize (IH i H Hl). change (length (h_todo u) + sum_list ((fun t => length (h_todo t)) <$> <[i := t']> ts) < length (h_todo u) + sum_list ((fun t => length (h_todo t)) <$> ts)). lia.
Qed.
Lemma lgo_less ts i ts' : lgo ts i = Some ts' -> left_over ts' < left_over ts.
Proof.
  unfold lgo. destruct (ts !! i) as [[h [|[l m|l m] r]]|] eqn:E; try discriminate.
  - destruct (blocked ts l m); [discriminate|]. intros [= <-]. eapply sum_insert_lt; [exact E|cbn; lia].
  - intros [= <-]. eapply sum_insert_lt; [exact E|cbn; lia].
Qed.

(** ** The calls take their locks in an order *)
Section calls.
  Variable sh : Z -> Z.
  Variable tab : gmap Z inode.
  Variable dep : Z -> nat.
  Variable forks : Z -> Prop.            (* processes that fork *)

  (** cwd Ex, cwd Sh, object Sh, object Ex *)
  Definition rk (l : lock) (m : lmode) : nat * nat :=
    match l, m with
    | LCwd _, Ex => (0, 0) | LCwd _, Sh => (1, 0)
    | LIno g, Sh => (2, dep g) | LIno _, Ex => (3, 0)
    end.
  Definition Rq (l : lock) (m : lmode) : Prop :=
    match l, m with LCwd c, Ex => ~ forks c | _, _ => True end.
  Notation ord := (orderly Rq rk).
  Lemma rk_polite l : polite l = true -> rlt (rk l Ex) (rk l Sh).
  Proof. destruct l; [discriminate|]. intros _. left. exact (Nat.lt_0_succ 0). Qed.

  (** What a thread may hold below a walk: nothing, or its working directory for
      reading in a process that forks *)
  Definition below (h : list (lock * lmode)) : Prop := h = [] \/ exists c, forks c /\ h = [(LCwd c, Sh)].
  Lemma below_ok h l m : below h -> forall l' m' m2, (l', m') ∈ h -> clash m' m2 = true -> Rq l' m2 -> rlt (rk l m) (rk l' m2).
  Proof.
    intros [->|(c & Hc & ->)] l' m' m2 Hin Hcl Hr; [apply elem_of_nil in Hin as []|].
    apply elem_of_list_singleton in Hin as [= -> ->]. destruct m2; [discriminate Hcl|]. destruct (Hr Hc).
  Qed.

  Lemma take_ok h l m r : below h -> Rq l m -> ord ((l, m) :: h) r -> ord h (Take l m :: r).
  Proof. intros Hb Hr Ho. cbn [orderly]. split; [exact Hr|]. split; [apply below_ok, Hb|exact Ho]. Qed.

  Lemma remove1_head x h : remove1 x (x :: h) = h.
  Proof. cbn. destruct (decide (x = x)); congruence. Qed.
  Lemma drop_head h l m r : ord h r -> ord ((l, m) :: h) (Drop l m :: r).
  Proof. intros H. cbn [orderly]. rewrite remove1_head. exact H. Qed.

  Lemma handover_ok h tr : forall i k, below h -> ord h k -> ord ((LIno (sh i), Sh) :: h) (handover sh i tr ++ k).
  Proof.
    induction tr as [|j tr IH]; intros i k Hb Hk; cbn [handover app].
    - apply drop_head. exact Hk.
    - cbn [orderly]. split; [exact I|]. split.
      + intros l' m' m2 Hin Hc Hr. apply elem_of_cons in Hin as [[= -> ->]|Hin].
        * destruct m2; [discriminate Hc|]. left. cbn. lia.
        * exact (below_ok h _ _ Hb _ _ _ Hin Hc Hr).
      + cbn [remove1]. destruct (decide ((LIno (sh i), Sh) = (LIno (sh j), Sh))) as [E|E].
        * injection E as E. rewrite E. apply IH; assumption.
        * rewrite (decide_True (P := (LIno (sh i), Sh) = (LIno (sh i), Sh))) by reflexivity. apply IH; assumption.
  Qed.
  Lemma walk_ok h tr k : below h -> ord h k -> ord h (walk sh tr ++ k).
  Proof.
    intros Hb Hk. destruct tr as [|i tr]; [exact Hk|]. unfold walk. cbn [app]. apply take_ok; [exact Hb|exact I|]. apply handover_ok; assumption.
  Qed.
  Lemma touch_ok h e k : below h -> ord h k -> ord h (touch sh e ++ k).
  Proof. intros Hb Hk. cbn [touch app]. apply take_ok; [exact Hb|destruct (snd e); exact I|]. apply drop_head. exact Hk. Qed.
  Lemma touches_ok h l k : below h -> ord h k -> ord h (concat (map (touch sh) l) ++ k).
  Proof.
    intros Hb Hk. induction l as [|e l IH]; [exact Hk|]. cbn [map concat]. rewrite <- app_assoc. apply touch_ok; assumption.
  Qed.
  Lemma readcwd_ok rel c k : ord [] k -> ord [] (readcwd rel c ++ k).
  Proof. intros Hk. destruct rel; [|exact Hk]. cbn [readcwd app]. apply take_ok; [left; reflexivity|exact I|]. apply drop_head, Hk. Qed.

  (** The pairs that fchdir locks go up. *)
  Definition rises (l : list (Z * option Z)) : Prop := Forall (fun e => match snd e with Some par => dep (sh par) < dep (sh (fst e)) | None => True end) l.
  Lemma climb_ok l k : rises l -> ord [] k -> ord [] (concat (map (climb sh) l) ++ k).
  Proof.
    intros Hl Hk. induction Hl as [|[cur [par|]] l He _ IH]; [exact Hk| |]; cbn [map concat]; rewrite <- app_assoc.
    - cbn [climb fst snd app] in *. apply take_ok; [left; reflexivity|exact I|]. cbn [orderly]. split; [exact I|]. split.
      + intros l' m' m2 Hin _ _. apply elem_of_list_singleton in Hin as [= -> ->]. destruct m2; cbn; [right; cbn; lia|left; cbn; lia].
      + cbn [remove1]. rewrite (decide_True (P := (LIno (sh par), Sh) = (LIno (sh par), Sh))) by reflexivity.
        cbn [remove1]. rewrite (decide_True (P := (LIno (sh cur), Ex) = (LIno (sh cur), Ex))) by reflexivity. exact IH.
    - cbn [climb fst snd app]. apply take_ok; [left; reflexivity|exact I|]. apply drop_head, IH.
  Qed.

  Lemma locks_ok c o : (is_fork o -> forks c) -> (changes_cwd o -> ~ forks c) ->
    (forall i, o = CFchdir i -> rises (ups (S (size tab)) tab i true)) -> ord [] (locks sh tab c o).
  Proof.
    intros Hf Hc Hu. destruct o as [rel p l|rel p i|i|l p i|]; cbn [locks].
    - apply readcwd_ok, walk_ok; [left; reflexivity|]. rewrite <- (app_nil_r (concat _)). apply touches_ok; [left; reflexivity|reflexivity].
    - apply readcwd_ok, walk_ok; [left; reflexivity|]. apply take_ok; [left; reflexivity|exact I|]. cbn [orderly]. split; [exact (Hc I)|]. split.
      + intros l' m' m2 Hin _ _. apply elem_of_list_singleton in Hin as [= -> ->]. left. destruct m2; cbn; lia.
      + cbn [remove1]. rewrite (decide_True (P := (LCwd c, Ex) = (LCwd c, Ex))) by reflexivity.
        cbn [remove1]. rewrite (decide_True (P := (LIno (sh i), Ex) = (LIno (sh i), Ex))) by reflexivity. reflexivity.
    - apply climb_ok; [exact (Hu i eq_refl)|]. destruct (pathname_loop _ _ _ _ _) as [[[n|]|]|]; try reflexivity.
      apply take_ok; [left; reflexivity|exact (Hc I)|]. apply drop_head. reflexivity.
    - apply touches_ok; [left; reflexivity|]. cbn [app]. specialize (Hf I).
      assert (Hb : below [(LCwd c, Sh)]) by (right; eauto).
      apply take_ok; [left; reflexivity|exact I|]. apply walk_ok; [exact Hb|]. apply touch_ok; [exact Hb|].
      apply take_ok; [exact Hb|exact I|]. apply drop_head. apply drop_head. reflexivity.
    - apply take_ok; [left; reflexivity|exact I|]. apply drop_head. reflexivity.
  Qed.
End calls.

Lemma start_good sh tab dep progs : apart_cwd progs ->
  (forall c i, makes progs c (eq (CFchdir i)) -> rises sh dep (ups (S (size tab)) tab i true)) ->
  good (Rq (fun c => makes progs c is_fork)) (rk dep) (lstart sh tab progs).
Proof.
  intros Ha Hr i t Ht. unfold lstart in Ht. apply list_lookup_fmap_Some in Ht as ([c l] & Hl & ->). cbn [h_held h_todo fst snd].
  apply elem_of_list_lookup_2, elem_of_list_In in Hl.
  assert (H : forall o, In o l -> orderly (Rq (fun c => makes progs c is_fork)) (rk dep) [] (locks sh tab c o)).
  { intros o Ho. apply locks_ok.
    - intros K. exists l, o. auto.
    - intros K1 K2. apply (Ha c K2). exists l, o. auto.
    - intros j ->. apply (Hr c). exists l, (CFchdir j). auto. }
  clear Hl. induction l as [|o l IH]; [reflexivity|]. cbn [map concat]. apply orderly_app; [apply H; left; reflexivity|]. apply IH. intros o' Ho. apply H. right. exact Ho.
Qed.

Lemma progs_end sh tab dep progs ts : apart_cwd progs ->
  (forall c i, makes progs c (eq (CFchdir i)) -> rises sh dep (ups (S (size tab)) tab i true)) ->
  comes_to (lstart sh tab progs) ts -> ~ stuck ts /\ exists ts', comes_to ts ts' /\ all_done ts' /\ all_free ts'.
Proof.
  intros Ha Hr [l Hl]. pose proof (good_play _ _ _ _ _ (start_good sh tab dep progs Ha Hr) Hl) as G. clear Hl l.
  assert (Hn : forall ts, good (Rq (fun c => makes progs c is_fork)) (rk dep) ts -> ~ all_done ts -> exists i ts', lgo ts i = Some ts').
  { intros ts0 G0 H0. eapply not_stuck; [|exact G0|exact H0]. intros l. apply rk_polite. }
  split.
  - intros [H1 H2]. destruct (Hn _ G H1) as (i & ts' & E). rewrite H2 in E. discriminate E.
  - remember (left_over ts) as n eqn:En. revert ts En G. induction (lt_wf n) as [n _ IH]. intros ts -> G.
    assert (DD : forall t, Decision (h_todo t = [])).
    { intros t. destruct (h_todo t); [left; reflexivity|right; discriminate]. }
    destruct (Forall_dec (fun t => h_todo t = []) ts) as [Hd|Hd].
    + exists ts. split; [exists []; reflexivity|]. rewrite Forall_lookup in Hd. split; [exact Hd|].
      intros i t Ht. pose proof (G _ _ Ht) as Ho. rewrite (Hd _ _ Ht) in Ho. exact Ho.
    + destruct (Hn ts G) as (i & ts1 & E1).
      { intros Ha'. apply Hd, Forall_lookup. exact Ha'. }
      destruct (IH _ (lgo_less _ _ _ E1) ts1 eq_refl (good_step _ _ _ _ _ G E1)) as (ts' & [l Hl] & Hd').
      exists ts'. split; [|exact Hd']. exists (i :: l). cbn [lplay]. rewrite E1. exact Hl.
Qed.

(** ** The directories that fchdir meets *)
Local Open Scope Z_scope.
Lemma ups_rise w sh dep d i : reach_any w -> groups_follow (w_ino w) sh dep -> inside (w_ino w) d i ->
  rises sh dep (ups (S (size (w_ino w))) (w_ino w) i true).
Proof.
  intros Hr Hg Hin. pose proof (any_root_up w Hr) as Hroot. apply any_inv in Hr as [_ [L [Hv Hkey]]].
  assert (Hind : forall k i, i <> ROOTINO -> alive (names (w_ino w)) L i -> rises sh dep (ups k (w_ino w) i true)).
  { induction k as [|k IH]; intros j Hne Ha; [constructor|]. cbn [ups].
    destruct (w_ino w !! j) as [x|] eqn:Hx; [|constructor]. destruct (i_kind x) eqn:Ek; try (constructor; [exact I|constructor]).
    destruct (i_dict x !! "..") as [par|] eqn:Eu; [|constructor; [exact I|constructor]].
    rewrite andb_false_r. assert (Hd := dirs_dir _ _ _ Hx Ek). rewrite Eu in Hd.
    assert (Hp : par < j /\ alive (names (w_ino w)) L par).
    { destruct Ha as [->|[[[e g] Hk]|[e Hl]]]; [congruence| |].
      - destruct (v_up _ _ _ _ Hv _ _ _ _ _ Hd Hk) as [[= ->] Hlt]. split; [exact Hlt|exact (v_alive _ _ _ _ Hv _ _ _ Hk)].
      - destruct (v_lost _ _ _ _ Hv _ _ Hl) as ((l & E) & Hlt & _ & _ & Ha). rewrite Hd in E. injection E as -> _. auto. }
    destruct Hp as [Hlt Hap]. constructor.
    - cbn [snd fst]. apply Hg; [exists x; auto|exact Hlt].
    - destruct (w_ino w !! par) as [p|] eqn:Hp; [|constructor]. destruct (i_kind p) eqn:Ekp; try constructor.
      destruct (name_in p j); [|constructor]. destruct (Z.eqb_spec par ROOTINO) as [->|Hpr]; [|exact (IH par Hpr Hap)].
      destruct k as [|k]; [constructor|]. cbn [ups]. rewrite Hp, Ekp. destruct Hroot as (z & Hz & _ & Hzu). rewrite Hp in Hz. injection Hz as <-.
      rewrite Hzu, Z.eqb_refl. cbn [andb negb]. constructor; [exact I|constructor]. }
  destruct Hin as (f & x & He & Hx & Hk). apply names_entry in He. apply Hind.
  - destruct (v_ent _ _ _ _ Hv _ _ He) as [_ ?]. assumption.
  - right. left. eauto.
Qed.

Lemma calls_end w sh dep progs ts : reach_any w -> apart_cwd progs -> fchdir_named (w_ino w) progs ->
  ((exists c, makes progs c is_fchdir) -> groups_follow (w_ino w) sh dep) ->
  comes_to (lstart sh (w_ino w) progs) ts ->
  ~ stuck ts /\ exists ts', comes_to ts ts' /\ all_done ts' /\ all_free ts'.
Proof.
  intros Hr Ha Hn Hg. apply (progs_end sh (w_ino w) dep); [exact Ha|]. intros c i Hm. destruct (Hn c i Hm) as [d Hd].
  apply (ups_rise w sh dep d i Hr); [|exact Hd]. apply Hg. exists c. destruct Hm as (l & o & H1 & H2 & <-). exists l, (CFchdir i). split; [exact H1|]. split; [exact H2|exact I].
Qed.

(** fchdir waits for itself. *)
Lemma climb_stuck sh cur par r : sh par = sh cur ->
  exists ts, lplay [Thr [] (climb sh (cur, Some par) ++ r)] [0%nat] = Some ts /\ stuck ts.
Proof.
  intros E. cbn [climb fst snd app]. rewrite E. eexists. split; [reflexivity|]. split.
  - intros H. specialize (H 0%nat _ eq_refl). discriminate H.
  - intros [|i]; [|reflexivity]. unfold lgo. cbn [lookup list_lookup insert list_insert]. unfold blocked. cbn. rewrite bool_decide_true by reflexivity. reflexivity.
Qed.
Lemma fchdir_hangs w sh c i d : reach_any w -> up (w_ino w) i d -> sh d = sh i ->
  exists ts, comes_to (lstart sh (w_ino w) [(c, [CFchdir i])]) ts /\ stuck ts.
Proof.
  intros Hr (x & Hx & Hk & Hu) E. unfold lstart. cbn [map fst snd locks ups]. rewrite Hx, Hk, Hu, andb_false_r. cbn [map].
  cbn [concat]. rewrite app_nil_r, <- app_assoc.
  match goal with |- context [climb sh (i, Some d) ++ ?r] => destruct (climb_stuck sh i d r E) as (ts & H1 & H2) end.
  exists ts. split; [exists [0%nat]; exact H1|exact H2].
Qed.

Lemma objects_follow w : reach_any w -> groups_follow (w_ino w) (fun i => i) Z.to_nat.
Proof.
  intros Hr d i (x & Hx & Hk & Hu) Hlt. apply any_inv in Hr as [_ [L [Hv _]]].
  pose proof (v_range _ _ _ _ Hv _ _ (dirs_dir _ _ _ Hx Hk)). lia.
Qed.

(** For examples *)
Definition stuckb (ts : list thr) : bool :=
  existsb (fun t => match h_todo t with [] => false | _ => true end) ts &&
  forallb (fun i => match lgo ts i with None => true | _ => false end) (seq 0 (length ts)).
Lemma stuckb_ok ts : stuckb ts = true -> stuck ts.
Proof.
  unfold stuckb. intros H. apply andb_prop in H as [H1 H2]. split.
  - intros Hd. apply existsb_exists in H1 as (t & Ht & H1). apply elem_of_list_In, elem_of_list_lookup in Ht as [i Hi]. rewrite (Hd _ _ Hi) in H1. discriminate H1.
  - intros i. rewrite forallb_forall in H2. destruct (decide (i < length ts)%nat) as [Hi|Hi].
    + specialize (H2 i). destruct (lgo ts i); [|reflexivity]. discriminate H2. apply in_seq. lia.
    + unfold lgo. rewrite lookup_ge_None_2 by lia. reflexivity.
Qed.
