(** Trying all orders of a few calls *)
From stdpp Require Import gmap.
From Verif Require Import Base PathModel PathSpec FsModel FsBoot FsSpec FsWalk FsNames FsReachSpec FsWinv FsReach FsTree FsRaceModel FsRaceSpec FsRaceTie.
Local Open Scope list_scope.
Local Open Scope nat_scope.

Definition restb (i : nat) (s : rst) : bool :=
  match r_proc s !! i with Some t => match t_pc t with Idle => true | _ => false end | None => true end.
Lemma restb_ok i s : restb i s = true <-> at_rest i s.
Proof.
  unfold restb, at_rest. destruct (r_proc s !! i) as [t|]; [|split; [intros _ t [=]|reflexivity]].
  split; [intros H u [= <-]; destruct (t_pc t); try discriminate H; reflexivity|].
  intros H. rewrite (H t eq_refl). reflexivity.
Qed.

Fixpoint solo (n : nat) (i : nat) (s : rst) : option rst :=
  if restb i s || r_dead s then Some s
  else match n with
       | O => None
       | S n => match rgo s i with Some s1 => solo n i s1 | None => None end
       end.

Lemma solo_ok n i : forall s a b, solo n i s = Some a -> goes_on i s b -> a = b.
Proof.
  induction n as [|n IH]; intros s a b H Hb; cbn [solo] in H.
  - destruct (restb i s || r_dead s) eqn:E; [|discriminate H]. injection H as <-.
    destruct Hb as [s _|s s1 b Hn Hs _]; [reflexivity|]. exfalso. apply orb_true_iff in E as [E|E].
    + apply Hn, restb_ok, E.
    + unfold rgo in Hs. rewrite E in Hs. discriminate Hs.
  - destruct (restb i s || r_dead s) eqn:E.
    + injection H as <-. destruct Hb as [s _|s s1 b Hn Hs _]; [reflexivity|]. exfalso. apply orb_true_iff in E as [E|E].
      * apply Hn, restb_ok, E.
      * unfold rgo in Hs. rewrite E in Hs. discriminate Hs.
    + apply orb_false_iff in E as [E1 E2]. destruct Hb as [s [Hr|Hd]|s s1 b Hn Hs Hb].
      * apply restb_ok in Hr. rewrite Hr in E1. discriminate E1.
      * rewrite Hd in E2. discriminate E2.
      * rewrite Hs in H. exact (IH _ _ _ H Hb).
Qed.

(** [P] holds now and after every call that can come next, and so on for [n]
    calls, after which nothing is left to do. *)
Fixpoint orders (P : rst -> bool) (n : nat) (s : rst) : bool :=
  P s && forallb (fun i =>
    match rgo s i with
    | None => true
    | Some s1 =>
        match solo 60 i s1 with
        | None => false
        | Some s2 => match n with O => false | S n => orders P n s2 end
        end
    end) (seq 0 (length (r_proc s))).

Lemma rgo_lt s i s1 : rgo s i = Some s1 -> i < length (r_proc s).
Proof.
  unfold rgo. destruct (r_dead s); [discriminate|]. destruct (r_proc s !! i) eqn:E; [|discriminate].
  intros _. apply lookup_lt_Some in E. exact E.
Qed.

Lemma orders_ok P s s' : in_turn s s' -> forall n, orders P n s = true -> P s' = true.
Proof.
  induction 1 as [s|s s1 s' (i & _ & s0 & Hs & Hg) _ IH]; intros n H; destruct n as [|n]; cbn [orders] in H;
    apply andb_true_iff in H as [HP H]; try exact HP; rewrite forallb_forall in H;
    specialize (H i); rewrite in_seq in H; specialize (H (conj (Nat.le_0_l _) (rgo_lt _ _ _ Hs))); rewrite Hs in H;
    destruct (solo 60 i s0) as [s2|] eqn:E; try discriminate H.
  rewrite (solo_ok _ _ _ _ _ E Hg) in H. exact (IH _ H).
Qed.

(** A run that ends badly although no order of the calls does *)
Definition odd (progs : list (list rop)) (sched : list nat) (P : rst -> bool) (w : world) : bool :=
  let s0 := rstart (w_ino w) (w_next w) progs in
  match rplay s0 sched with Some s => P s | None => false end && orders (fun s => negb (P s)) 4 s0.

Lemma rplay_rsteps l : forall s s', rplay s l = Some s' -> rsteps s s'.
Proof.
  induction l as [|i l IH]; intros s s' H; cbn in H; [injection H as <-; apply rtc_refl|].
  destruct (rgo s i) as [s1|] eqn:E; [|discriminate H]. apply (rtc_l _ _ s1); [exists i; exact E|exact (IH _ _ H)].
Qed.

Lemma odd_ok hist progs sched (P : rst -> bool) (Q : rst -> Prop) :
  forallb (fun e => plain e.2) hist = true ->
  (exists wx, run fresh_world hist = Some wx /\ odd progs sched P wx.1 = true) ->
  (forall s, P s = true <-> Q s) ->
  exists w s, reach false w /\ rsteps (rstart (w_ino w) (w_next w) progs) s /\ Q s /\
    forall s', in_turn (rstart (w_ino w) (w_next w) progs) s' -> ~ Q s'.
Proof.
  intros Hp (wx & Hr & Ho) HPQ. unfold odd in Ho. apply andb_true_iff in Ho as [H1 H2].
  destruct (rplay _ sched) as [s|] eqn:E; [|discriminate H1]. exists wx.1, s.
  split; [exact (run_plain false hist wx Hp Hr)|]. split; [exact (rplay_rsteps _ _ _ E)|]. split; [apply HPQ, H1|].
  intros s' Hs' HQ. apply HPQ in HQ. pose proof (orders_ok _ _ _ Hs' _ H2) as H. cbn in H. rewrite HQ in H. discriminate H.
Qed.

(** Paths *)
Definition at_path (t : gmap Z inode) (p : list string) : option Z := match metawalk t p with Done o => o | Panic => None end.

Lemma resolves_root t p i : p <> [] -> resolves t p i -> is_Some (t !! ROOTINO).
Proof.
  intros Hp H. induction H as [|p d x f i H IH Hd Hk Hf]; [destruct (Hp eq_refl)|].
  destruct p as [|g p]; [|apply IH; discriminate]. rewrite (resolves_nil _ _ H) in Hd. eauto.
Qed.

Lemma at_path_ok t p i : p <> [] -> at_path t p = Some i <-> resolves t p i.
Proof.
  intros Hp. unfold at_path. split.
  - destruct (metawalk t p) as [o|] eqn:E; [|discriminate]. intros ->. exact (metawalk_resolves _ _ _ E).
  - intros H. rewrite (resolves_metawalk _ _ _ (resolves_root _ _ _ Hp H) H). reflexivity.
Qed.

Fixpoint retsb (os : list out) (l : list Z) : bool :=
  match os, l with
  | [], [] => true
  | Ret v :: os, z :: l => (v =? z)%Z && retsb os l
  | _, _ => false
  end.
Lemma retsb_ok os : forall l, retsb os l = true <-> os = map Ret l.
Proof.
  induction os as [|o os IH]; intros [|z l]; cbn; try (split; [discriminate|intros [=]]); [split; reflexivity| |].
  - split; [destruct o; discriminate|discriminate].
  - destruct o; try (split; [discriminate|intros [=]]). rewrite andb_true_iff, Z.eqb_eq, IH. split; [intros [-> ->]; reflexivity|].
    intros [= -> ->]. auto.
Qed.

Definition answersb (s : rst) (i : nat) (l : list Z) : bool :=
  match r_proc s !! i with Some t => retsb (t_outs t) l | None => false end.
Lemma answersb_ok s i l : answersb s i l = true <-> answers s i l.
Proof.
  unfold answersb, answers. destruct (r_proc s !! i) as [t|]; [rewrite retsb_ok|].
  - split; [eauto|]. intros (u & [= <-] & H). exact H.
  - split; [discriminate|]. intros (u & [=] & _).
Qed.

Definition openb (s : rst) (i : nat) (l : list Z) : bool :=
  match r_proc s !! i with Some t => bool_decide (t_open t = map Some l) | None => false end.
Lemma openb_ok s i l : openb s i l = true <-> has_open s i l.
Proof.
  unfold openb, has_open. destruct (r_proc s !! i) as [t|]; [rewrite bool_decide_eq_true|].
  - split; [eauto|]. intros (u & [= <-] & H). exact H.
  - split; [discriminate|]. intros (u & [=] & _).
Qed.

Definition nowhereb (t : gmap Z inode) (p : list string) : bool := match at_path t p with None => true | Some _ => false end.
Lemma nowhereb_ok t p : p <> [] -> nowhereb t p = true <-> forall i, ~ resolves t p i.
Proof.
  intros Hp. unfold nowhereb. destruct (at_path t p) as [j|] eqn:E.
  - split; [discriminate|]. intros H. destruct (H j). apply at_path_ok; assumption.
  - split; [|reflexivity]. intros _ i H. apply at_path_ok in H; [|exact Hp]. rewrite E in H. discriminate H.
Qed.

Definition brokenb (t : gmap Z inode) (p : list string) : bool :=
  match at_path t p with Some i => bool_decide (t !! i = None) | None => false end.
Lemma brokenb_ok t p : p <> [] -> brokenb t p = true <-> exists i, resolves t p i /\ t !! i = None.
Proof.
  intros Hp. unfold brokenb. destruct (at_path t p) as [j|] eqn:E.
  - rewrite bool_decide_eq_true. apply at_path_ok in E; [|exact Hp]. split; [eauto|].
    intros (i & Hi & Hn). rewrite (resolves_det _ _ _ _ E Hi). exact Hn.
  - split; [discriminate|]. intros (i & Hi & _). apply at_path_ok in Hi; [|exact Hp]. rewrite E in Hi. discriminate Hi.
Qed.

(** Files with one name each *)
Definition one_name (t : gmap Z inode) : Prop :=
  map_Forall (fun d x => map_Forall (fun d' x' => map_Forall (fun f i => map_Forall (fun f' i' =>
    f = "." \/ f = ".." \/ f' = "." \/ f' = ".." \/ (i = i' -> d = d' /\ f = f')) (i_dict x')) (i_dict x)) t) t.

Lemma one_name_files disp w (bs : list (list string)) : reach disp w -> one_name (w_ino w) ->
  (forall i j a b, bs !! i = Some a -> bs !! j = Some b -> i <> j -> ~ a `prefix_of` b) ->
  forall a b p q i x, a ∈ bs -> b ∈ bs -> canonical p -> canonical q -> a `prefix_of` p -> b `prefix_of` q ->
     resolves (w_ino w) p i -> resolves (w_ino w) q i -> w_ino w !! i = Some x -> i_kind x <> KDir -> a = b.
Proof.
  intros Hr H1 Hap a b p q i x Ia Ib Cp Cq Pa Pb Rp Rq Hx Hk.
  assert (E : p = q).
  { destruct p as [|f p _] using rev_ind.
    { rewrite (resolves_nil _ _ Rp) in Hx. destruct (n_root _ _ (FsTr.v_n _ (u_inv _ (reach_winv _ _ Hr)))) as (r & Hr1 & Hr2). cbn in Hr1. congruence. }
    destruct q as [|g q _] using rev_ind.
    { rewrite (resolves_nil _ _ Rq) in Hx. destruct (n_root _ _ (FsTr.v_n _ (u_inv _ (reach_winv _ _ Hr)))) as (r & Hr1 & Hr2). cbn in Hr1. congruence. }
    apply resolves_snoc in Rp as (d & y & Rd & Hd & Kd & Hf). apply resolves_snoc in Rq as (e & z & Re & He & Ke & Hg).
    apply Forall_app in Cp as [Cp Cf]. apply Forall_app in Cq as [Cq Cg]. apply Forall_inv in Cf, Cg.
    destruct Cf as (_ & F1 & F2 & _), Cg as (_ & G1 & G2 & _).
    destruct (H1 d y Hd e z He f i Hf g i Hg) as [?|[?|[?|[?|H]]]]; try contradiction.
    destruct (H eq_refl) as [-> ->]. rewrite (dir_unique_path _ w p q e z Hr He Ke Cp Cq Rd Re). reflexivity. }
  subst q. apply elem_of_list_lookup in Ia as [j Hj]. apply elem_of_list_lookup in Ib as [k Hk'].
  destruct (decide (j = k)) as [->|Hjk]; [congruence|]. exfalso.
  destruct (prefix_weak_total _ _ _ Pa Pb) as [H|H]; [exact (Hap _ _ _ _ Hj Hk' Hjk H)|exact (Hap _ _ _ _ Hk' Hj (not_eq_sym Hjk) H)].
Qed.

(** The directory of a name, by running *)
Definition at_path0 (t : gmap Z inode) (p : list string) : option Z :=
  if bool_decide (p = []) then Some ROOTINO else at_path t p.
Definition pardirb (t : gmap Z inode) (b : list string) : bool :=
  match at_path0 t (removelast b) with
  | Some d => match t !! d with Some x => bool_decide (i_kind x = KDir) | None => false end
  | None => false
  end.
Lemma pardirb_ok t b p f : pardirb t b = true -> b = p ++ [f] ->
  exists d x, resolves t p d /\ t !! d = Some x /\ i_kind x = KDir.
Proof.
  intros H ->. unfold pardirb in H. rewrite removelast_last in H.
  destruct (at_path0 t p) as [d|] eqn:Ed; [|discriminate H].
  destruct (t !! d) as [x|] eqn:Ex; [|discriminate H]. apply bool_decide_eq_true in H. exists d, x. split; [|auto].
  unfold at_path0 in Ed. case_bool_decide as Hp; [subst p; injection Ed as <-; constructor|]. apply at_path_ok in Ed; assumption.
Qed.
