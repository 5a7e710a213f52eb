(** Proofs about shared memory: the tables always agree with the specification
    computed from the calls and their results. *)
From Verif Require Import Base SemModel IpcModel IpcSpec.
Local Open Scope Z_scope.

(** ** Counting *)
Definition num {A} (P : A -> bool) (l : list A) : Z := Z.of_nat (length (List.filter P l)).

Lemma num_nil {A} (P : A -> bool) : num P [] = 0.
Proof. done. Qed.
Lemma num_cons {A} (P : A -> bool) a l : num P (a :: l) = (if P a then 1 else 0) + num P l.
Proof. unfold num. cbn [List.filter]. destruct (P a); cbn [length]; lia. Qed.
Lemma num_nn {A} (P : A -> bool) l : 0 <= num P l.
Proof. unfold num. lia. Qed.
Lemma num_app {A} (P : A -> bool) l k : num P (l ++ k) = num P l + num P k.
Proof. induction l as [|a l IH]; cbn [app]; rewrite ?num_cons, ?num_nil, ?IH; lia. Qed.
Lemma num_perm {A} (P : A -> bool) l k : l ≡ₚ k -> num P l = num P k.
Proof. induction 1; rewrite ?num_cons; try lia. Qed.
Lemma num_ext {A} (P Q : A -> bool) l : (forall a, In a l -> P a = Q a) -> num P l = num Q l.
Proof.
  induction l as [|a l IH]; intros H; [done|]. rewrite !num_cons, (H a) by (left; done).
  rewrite IH; [done|]. intros b Hb. apply H. right. exact Hb.
Qed.
Lemma num_map {A B} (P : B -> bool) (f : A -> B) l : num P (map f l) = num (fun a => P (f a)) l.
Proof. induction l as [|a l IH]; cbn [map]; rewrite ?num_cons, ?IH; done. Qed.
Lemma num_filter {A} (P Q : A -> bool) l : num P (List.filter Q l) = num (fun a => Q a && P a) l.
Proof.
  induction l as [|a l IH]; [done|]. cbn [List.filter]. rewrite num_cons.
  destruct (Q a); cbn [andb]; rewrite ?num_cons, ?IH; lia.
Qed.
Lemma num_split {A} (P Q : A -> bool) l : num P l = num (fun a => Q a && P a) l + num (fun a => negb (Q a) && P a) l.
Proof.
  induction l as [|a l IH]; [done|]. rewrite !num_cons, IH. destruct (Q a), (P a); cbn; lia.
Qed.
Lemma num_pos {A} (P : A -> bool) l : 0 < num P l <-> exists a, In a l /\ P a = true.
Proof.
  induction l as [|b l IH]; [split; [rewrite num_nil; lia|intros (a & [] & _)]|].
  rewrite num_cons. pose proof (num_nn P l). split.
  - intros H1. destruct (P b) eqn:E; [exists b; split; [left|]; done|].
    destruct (proj1 IH) as (a & Ha & HP); [lia|]. exists a. split; [right|]; done.
  - intros (a & [->|Ha] & HP); [rewrite HP; lia|].
    enough (0 < num P l) by (destruct (P b); lia). apply IH. eauto.
Qed.
Lemma num_0 {A} (P : A -> bool) l : num P l = 0 <-> forall a, In a l -> P a = false.
Proof.
  split.
  - intros H a Ha. destruct (P a) eqn:E; [|done]. assert (0 < num P l); [|lia]. apply num_pos. eauto.
  - intros H. pose proof (num_nn P l). destruct (decide (num P l = 0)); [done|].
    destruct (proj1 (num_pos P l)) as (a & Ha & HP); [lia|]. rewrite (H a Ha) in HP. done.
Qed.
Lemma num_drop {A} `{EqDecision A} (P : A -> bool) p l :
  In p l -> num P (drop_one p l) = num P l - (if P p then 1 else 0).
Proof.
  induction l as [|q l IH]; [intros []|]. cbn [drop_one]. case_bool_decide as E.
  - subst. intros _. rewrite num_cons. lia.
  - intros [->|H]; [done|]. rewrite !num_cons, IH by done. lia.
Qed.
Lemma drop_perm {A} `{EqDecision A} (p : A) l : In p l -> p :: drop_one p l ≡ₚ l.
Proof.
  induction l as [|q l IH]; [intros []|]. cbn [drop_one]. case_bool_decide as E; [by subst|].
  intros [->|H]; [done|]. rewrite <- (IH H) at 2. constructor.
Qed.

(** ** Rows and counts of the attachment list *)
Definition rows (c : Z) (L : list att) : list (Z * Z) :=
  map (fun p => (a_addr p, a_seg p)) (List.filter (fun p => a_cage p =? c) L).
Definition nseg (id : Z) (L : list att) : Z := num (fun p => a_seg p =? id) L.
Definition ncs (c id : Z) (L : list att) : Z := num (fun p => (a_cage p =? c) && (a_seg p =? id)) L.
Definition nrow (id : Z) (l : list (Z * Z)) : Z := num (fun p => p.2 =? id) l.
Definition optn (n : Z) : option Z := if n =? 0 then None else Some n.

Lemma nrow_rows id c L : nrow id (rows c L) = ncs c id L.
Proof. unfold nrow, rows, ncs. rewrite num_map, num_filter. done. Qed.
Lemma rows_app c L K : rows c (L ++ K) = rows c L ++ rows c K.
Proof. unfold rows. rewrite List.filter_app, map_app. done. Qed.
Lemma ncs_le c id L : 0 <= ncs c id L <= nseg id L.
Proof.
  unfold ncs, nseg. split; [apply num_nn|]. pose proof (num_split (fun p : att => a_seg p =? id) (fun p => a_cage p =? c) L) as H0. cbv beta in H0.
  pose proof (num_nn (fun a : att => negb (a_cage a =? c) && (a_seg a =? id)) L). lia.
Qed.

(** ** The invariant *)
Definition strip (s : seg) : seg := with_offs [] s.
Definition keybij (G : gmap Z seg) (K : gmap Z Z) : Prop :=
  forall k id, K !! k = Some id <-> exists s, G !! id = Some s /\ g_key s = k.

Record shinv (G : gmap Z seg) (K : gmap Z Z) (N : Z) (R : gmap Z (list (Z * Z))) (L : list att) (S : list sseg) : Prop := {
  h_rev : forall c l, R !! c = Some l -> l ≡ₚ rows c L;
  h_none : forall c, R !! c = None -> rows c L = [];
  h_cnt : forall id s, G !! id = Some s -> g_nattch s = nseg id L /\ forall c, g_att s !! c = optn (ncs c id L);
  h_ex : forall p, In p L -> is_Some (G !! a_seg p);
  h_key : keybij G K;
  h_id : forall id, is_Some (G !! id) -> 1 <= id < N;
  h_S : forall z, In z S <-> exists s, G !! z_id z = Some s /\ g_key s = z_key z /\ g_size s = z_size z /\ g_rmid s = z_marked z;
  h_sz : forall id s, G !! id = Some s -> g_segsz s = to_u32 (g_size s) /\ g_key s <> 0 /\ SHMMIN <= g_segsz s <= SHMMAX;
  h_mark : forall id s, G !! id = Some s -> g_rmid s = true -> 0 < nseg id L;
  h_N : 1 <= N
}.

Definition xinv (x : ipc) (L : list att) (S : list sseg) : Prop :=
  shinv (strip <$> x_seg x) (x_key x) (x_next x) (c_rev <$> x_cage x) L S.

Lemma sweep_in l S z : In z (sweep l S) <-> In z S /\ (z_marked z = true -> 0 < nseg (z_id z) l).
Proof.
  unfold sweep. rewrite filter_In. apply and_iff_compat_l.
  assert (E : forallb (fun p => negb (a_seg p =? z_id z)) l = (nseg (z_id z) l =? 0)).
  { unfold nseg. destruct (Z.eqb_spec (num (fun p => a_seg p =? z_id z) l) 0) as [H|H].
    - apply forallb_forall. intros p Hp. rewrite (proj1 (num_0 _ _) H p Hp). done.
    - apply not_true_is_false. intros H1. apply H, num_0. intros p Hp.
      pose proof (proj1 (forallb_forall _ _) H1 p Hp) as H2. cbv beta in H2. destruct (a_seg p =? z_id z); done. }
  rewrite E. pose proof (num_nn (fun p => a_seg p =? z_id z) l) as Hn. fold (nseg (z_id z) l) in Hn.
  destruct (z_marked z); cbn [andb negb].
  - destruct (Z.eqb_spec (nseg (z_id z) l) 0) as [H0|H0]; cbn [negb].
    + split; [done|]. intros H. specialize (H eq_refl). lia.
    + split; [|done]. intros _ _. lia.
  - split; [|done]. intros _ H. done.
Qed.

(** General step: new attachment list, segments follow it. *)
Lemma shinv_update G K N R L S G' K' R' L' :
  shinv G K N R L S ->
  (forall c l, R' !! c = Some l -> l ≡ₚ rows c L') ->
  (forall c, R' !! c = None -> rows c L' = []) ->
  (forall p, In p L' -> is_Some (G !! a_seg p)) ->
  (forall id, match G !! id with
              | None => G' !! id = None
              | Some s => if g_rmid s && (nseg id L' =? 0) then G' !! id = None
                          else exists m', G' !! id = Some (with_att (nseg id L') m' s) /\ forall c, m' !! c = optn (ncs c id L')
              end) ->
  keybij G' K' ->
  shinv G' K' N R' L' (sweep L' S).
Proof.
  intros HI Hr Hn Hin HG HK.
  assert (HG1 : forall id s', G' !! id = Some s' ->
    exists s, G !! id = Some s /\ g_key s' = g_key s /\ g_size s' = g_size s /\ g_segsz s' = g_segsz s /\ g_rmid s' = g_rmid s /\
      g_nattch s' = nseg id L' /\ (forall c, g_att s' !! c = optn (ncs c id L')) /\ (g_rmid s = true -> 0 < nseg id L')).
  { intros id s' Hs'. specialize (HG id). destruct (G !! id) as [s|] eqn:E; [|congruence].
    exists s. pose proof (num_nn (fun p => a_seg p =? id) L') as Hnn. fold (nseg id L') in Hnn.
    destruct (g_rmid s && (nseg id L' =? 0)) eqn:Eb; [congruence|].
    destruct HG as (m' & H1 & H2). rewrite H1 in Hs'. injection Hs' as <-. cbn.
    do 7 (split; [done|]). intros Hm. rewrite Hm in Eb. cbn in Eb. apply Z.eqb_neq in Eb. lia. }
  assert (HG2 : forall id s, G !! id = Some s -> (g_rmid s = true -> 0 < nseg id L') -> is_Some (G' !! id)).
  { intros id s Hs Hm. specialize (HG id). rewrite Hs in HG.
    destruct (g_rmid s && (nseg id L' =? 0)) eqn:Eb.
    - apply andb_prop in Eb as [E1 E2]. apply Z.eqb_eq in E2. specialize (Hm E1). lia.
    - destruct HG as (m' & H1 & _). rewrite H1. eauto. }
  constructor.
  - exact Hr.
  - exact Hn.
  - intros id s' Hs'. destruct (HG1 _ _ Hs') as (s & _ & _ & _ & _ & _ & H1 & H2 & _). done.
  - intros p Hp. destruct (Hin p Hp) as (s & Hs). apply (HG2 _ s Hs). intros _.
    apply num_pos. exists p. split; [done|]. apply Z.eqb_refl.
  - exact HK.
  - intros id [s' Hs']. destruct (HG1 _ _ Hs') as (s & Hs & _). apply (h_id _ _ _ _ _ _ HI). eauto.
  - intros z. rewrite sweep_in, (h_S _ _ _ _ _ _ HI). split.
    + intros ((s & H1 & H2 & H3 & H4) & H5). destruct (HG2 _ _ H1) as (s' & Hs'); [rewrite H4; exact H5|].
      exists s'. destruct (HG1 _ _ Hs') as (s2 & Hs2 & E1 & E2 & _ & E4 & _).
      rewrite H1 in Hs2. injection Hs2 as <-. rewrite E1, E2, E4. done.
    + intros (s' & Hs' & H2 & H3 & H4). destruct (HG1 _ _ Hs') as (s & Hs & E1 & E2 & _ & E4 & _ & _ & E5).
      split; [exists s; rewrite <- E1, <- E2, <- E4; done|]. rewrite <- H4, E4. exact E5.
  - intros id s' Hs'. destruct (HG1 _ _ Hs') as (s & Hs & E1 & E2 & E3 & _). rewrite E1, E2, E3.
    exact (h_sz _ _ _ _ _ _ HI id s Hs).
  - intros id s' Hs' Hm. destruct (HG1 _ _ Hs') as (s & Hs & _ & _ & _ & E4 & _ & _ & E5). apply E5. congruence.
  - exact (h_N _ _ _ _ _ _ HI).
Qed.

(** Nothing to sweep when nothing changed. *)
Lemma sweep_same G K N R L S : shinv G K N R L S -> forall z, In z (sweep L S) <-> In z S.
Proof.
  intros HI z. rewrite sweep_in. split; [tauto|]. intros Hz. split; [done|]. intros Hm.
  destruct (proj1 (h_S _ _ _ _ _ _ HI z) Hz) as (s & H1 & _ & _ & H4).
  apply (h_mark _ _ _ _ _ _ HI _ _ H1). congruence.
Qed.
Lemma shinv_iff G K N R L S S' : shinv G K N R L S -> (forall z, In z S' <-> In z S) -> shinv G K N R L S'.
Proof. intros [] HS. constructor; try done. intros z. rewrite HS. done. Qed.
Lemma shinv_sweep G K N R L S : shinv G K N R L S -> shinv G K N R L (sweep L S).
Proof. intros HI. apply (shinv_iff _ _ _ _ _ _ _ HI). exact (sweep_same _ _ _ _ _ _ HI). Qed.

(** ** Same shape *)
Definition shape (x : ipc) := (strip <$> x_seg x, x_key x, x_next x, c_rev <$> x_cage x).
Lemma shape_inv x x' L S : shape x' = shape x -> xinv x L S -> xinv x' L S.
Proof. unfold shape, xinv. intros H. injection H as -> -> -> ->. done. Qed.

Lemma shape_cage x c g g' : x_cage x !! c = Some g -> c_rev g' = c_rev g -> shape (set_cage <[c := g']> x) = shape x.
Proof.
  intros Hg Hr. unfold shape. cbn. rewrite fmap_insert, Hr.
  rewrite (insert_id (c_rev <$> x_cage x)); [done|]. rewrite lookup_fmap, Hg. done.
Qed.
Lemma shape_seg x id s s' : x_seg x !! id = Some s -> strip s' = strip s -> shape (set_seg <[id := s']> x) = shape x.
Proof.
  intros Hg Hr. unfold shape. cbn. rewrite fmap_insert, Hr.
  rewrite (insert_id (strip <$> x_seg x)); [done|]. rewrite lookup_fmap, Hg. done.
Qed.

Lemma ofold_inv {A B} (P : B -> Prop) (f : B -> A -> outcome B) l b b' :
  (forall b1 a b2, P b1 -> f b1 a = Done b2 -> P b2) -> P b -> ofold f l b = Done b' -> P b'.
Proof.
  intros Hf. revert b. induction l as [|a l IH]; intros b Hb H; cbn in H; [by injection H as <-|].
  destruct (f b a) as [b1|] eqn:E; [|discriminate H]. cbn in H. exact (IH _ (Hf _ _ _ Hb E) H).
Qed.

(** Changes that only touch the semaphore tables *)
Definition semonly (x x' : ipc) : Prop :=
  x_seg x' = x_seg x /\ x_key x' = x_key x /\ x_next x' = x_next x /\ c_rev <$> x_cage x' = c_rev <$> x_cage x.
Lemma semonly_shape x x' : semonly x x' -> shape x' = shape x.
Proof. intros (H1 & H2 & H3 & H4). unfold shape. rewrite H1, H2, H3, H4. done. Qed.
Lemma semonly_put x y c g' : semonly x y -> (exists g, x_cage y !! c = Some g /\ c_rev g' = c_rev g) -> semonly x (set_cage <[c := g']> y).
Proof.
  intros (H1 & H2 & H3 & H4) (g & Hg & Hr). repeat split; [exact H1|exact H2|exact H3|]. cbn. rewrite fmap_insert, Hr.
  rewrite insert_id; [done|]. rewrite lookup_fmap, Hg. done.
Qed.

Lemma spread_semonly chk f off addrs cs x x' : spread chk f off addrs cs x = Done x' -> semonly x x'.
Proof.
  unfold spread. intros H. refine (ofold_inv (semonly x) _ _ _ _ _ _ H); [|done].
  intros y c2 y2 Hy H2. refine (ofold_inv (semonly x) _ _ _ _ _ Hy H2).
  intros z a z2 Hz H3. destruct (add32 chk a off) as [b|]; [|discriminate H3]. cbn in H3.
  destruct (x_cage z !! c2) as [g2|] eqn:E; [|discriminate H3]. injection H3 as <-.
  apply semonly_put; [done|]. exists g2. done.
Qed.
