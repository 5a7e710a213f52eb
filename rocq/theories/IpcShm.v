(** Every call keeps the shared-memory tables in agreement with the
    specification. *)
From Verif Require Import Base SemModel IpcModel IpcSpec IpcProofs.
Local Open Scope Z_scope.

(** ** Lists *)
Lemma swap_remove_perm {A} (i : nat) (l : list A) p : l !! i = Some p -> p :: swap_remove i l ≡ₚ l.
Proof.
  intros Hi. destruct l as [|z k _] using rev_ind; [rewrite lookup_nil in Hi; discriminate Hi|].
  unfold swap_remove. rewrite last_snoc, removelast_last, app_length. cbn [length].
  case_bool_decide as E.
  - assert (Ei : i = length k) by lia. subst i. rewrite list_lookup_middle in Hi by done. injection Hi as ->.
    apply Permutation_cons_append.
  - assert (Hlt : (i < length k)%nat).
    { pose proof (lookup_lt_Some _ _ _ Hi) as H. rewrite app_length in H. cbn in H. lia. }
    rewrite lookup_app_l in Hi by done.
    rewrite insert_take_drop by done. rewrite <- (take_drop_middle k i p Hi) at 3.
    rewrite <- app_assoc. cbn [app]. rewrite <- !Permutation_middle. constructor.
    rewrite app_nil_r. done.
Qed.

Lemma index_of_some rev a i : index_of rev a = Some i -> exists id, rev !! i = Some (a, id).
Proof.
  revert i. induction rev as [|[a1 id1] r IH]; intros i H; cbn in H; [discriminate H|].
  destruct (Z.eqb_spec a1 a) as [->|Hne]; [injection H as <-; exists id1; done|].
  destruct (index_of r a) as [j|]; [|discriminate H]. injection H as <-. destruct (IH j eq_refl) as (id & Hid).
  exists id. exact Hid.
Qed.
Lemma index_of_none rev a : index_of rev a = None -> forall id, ~ In (a, id) rev.
Proof.
  induction rev as [|[a1 id1] r IH]; intros H id Hin; [destruct Hin|]. cbn in H.
  destruct (Z.eqb_spec a1 a) as [->|Hne]; [discriminate H|].
  destruct (index_of r a); [discriminate H|]. destruct Hin as [Hin|Hin]; [by injection Hin|].
  exact (IH eq_refl id Hin).
Qed.

Lemma rows_in c a id L : In (a, id) (rows c L) <-> In (c, a, id) L.
Proof.
  unfold rows. rewrite in_map_iff. split.
  - intros ([[c1 a1] id1] & H1 & H2). apply filter_In in H2 as [H2 H3]. cbn in *. apply Z.eqb_eq in H3.
    injection H1 as -> ->. subst. done.
  - intros H. exists (c, a, id). split; [done|]. apply filter_In. split; [done|]. apply Z.eqb_refl.
Qed.
Lemma rows_perm c L K : L ≡ₚ K -> rows c L ≡ₚ rows c K.
Proof.
  unfold rows. intros H. apply Permutation_map. induction H; cbn [List.filter].
  - done.
  - destruct (a_cage x =? c); [constructor|]; done.
  - destruct (a_cage x =? c), (a_cage y =? c); try done. constructor.
  - by etransitivity.
Qed.
Lemma rows_cons c c1 a id L : rows c ((c1, a, id) :: L) = if c1 =? c then (a, id) :: rows c L else rows c L.
Proof. unfold rows. cbn [List.filter]. change (a_cage (c1, a, id)) with c1. destruct (c1 =? c); done. Qed.
Lemma rows_nil c L : (forall p, In p L -> a_cage p <> c) -> rows c L = [].
Proof.
  induction L as [|[[c1 a1] id1] L IH]; intros H; [done|]. rewrite rows_cons.
  destruct (Z.eqb_spec c1 c) as [->|_]; [exfalso; exact (H (c, a1, id1) (or_introl eq_refl) eq_refl)|].
  apply IH. intros p Hp. apply H. right. done.
Qed.
Lemma rows_others c c' L : rows c' (List.filter (fun p => negb (a_cage p =? c)) L) = if c' =? c then [] else rows c' L.
Proof.
  induction L as [|[[c1 a1] id1] L IH]; [by destruct (c' =? c)|]. cbn [List.filter].
  change (a_cage (c1, a1, id1)) with c1. rewrite rows_cons.
  destruct (Z.eqb_spec c1 c) as [->|Hne]; cbn [negb].
  - rewrite IH. destruct (Z.eqb_spec c' c) as [->|Hn2]; [done|]. by rewrite (proj2 (Z.eqb_neq c c')) by congruence.
  - rewrite rows_cons, IH. destruct (Z.eqb_spec c' c) as [->|Hn2]; [|done]. by rewrite (proj2 (Z.eqb_neq c1 c)) by congruence.
Qed.
Lemma ncs_others c c' id L : ncs c' id (List.filter (fun p => negb (a_cage p =? c)) L) = if c' =? c then 0 else ncs c' id L.
Proof. rewrite <- !nrow_rows, rows_others. by destruct (c' =? c). Qed.
Lemma nseg_others c id L : nseg id (List.filter (fun p => negb (a_cage p =? c)) L) = nseg id L - ncs c id L.
Proof.
  unfold nseg, ncs. rewrite num_filter.
  pose proof (num_split (fun p : att => a_seg p =? id) (fun p => a_cage p =? c) L) as H. cbv beta in H. lia.
Qed.

Definition child (c ch : Z) (L : list att) : list att :=
  map (fun p => (ch, a_addr p, a_seg p)) (List.filter (fun p => a_cage p =? c) L).
Lemma rows_child c ch c' L : rows c' (child c ch L) = if ch =? c' then rows c L else [].
Proof.
  unfold child. induction L as [|[[c1 a1] id1] L IH]; [by destruct (ch =? c')|]. cbn [List.filter].
  change (a_cage (c1, a1, id1)) with c1. rewrite (rows_cons c). destruct (c1 =? c); [|exact IH].
  cbn [map]. change (a_addr (c1, a1, id1)) with a1. change (a_seg (c1, a1, id1)) with id1.
  rewrite rows_cons, IH. destruct (ch =? c'); done.
Qed.
Lemma nseg_child c ch id L : nseg id (child c ch L) = ncs c id L.
Proof. unfold nseg, child, ncs. rewrite num_map, num_filter. done. Qed.
Lemma ncs_child c ch c' id L : ncs c' id (child c ch L) = if ch =? c' then ncs c id L else 0.
Proof. rewrite <- !nrow_rows, rows_child. by destruct (ch =? c'). Qed.
Lemma ncs_app c id L K : ncs c id (L ++ K) = ncs c id L + ncs c id K.
Proof. apply num_app. Qed.
Lemma nseg_app id L K : nseg id (L ++ K) = nseg id L + nseg id K.
Proof. apply num_app. Qed.
Lemma ncs_rows_nil c id L : rows c L = [] -> ncs c id L = 0.
Proof. intros H. rewrite <- nrow_rows, H. done. Qed.

(** ** Key table *)
Lemma keybij_del G K id s : keybij G K -> G !! id = Some s -> keybij (delete id G) (delete (g_key s) K).
Proof.
  intros H Hs k i. unfold keybij in H. rewrite lookup_delete_Some, H. split.
  - intros (Hne & s1 & H1 & H2). exists s1. split; [|done]. rewrite lookup_delete_ne; [done|]. congruence.
  - intros (s1 & H1 & H2). apply lookup_delete_Some in H1 as [Hne H1]. split; [|eauto].
    intros <-. apply Hne. assert (H3 : K !! g_key s1 = Some i) by (apply H; eauto).
    rewrite H2 in H3. assert (H4 : K !! g_key s = Some id) by (apply H; eauto). congruence.
Qed.
Lemma keybij_upd G K id s s' : keybij G K -> G !! id = Some s -> g_key s' = g_key s -> keybij (<[id := s']> G) K.
Proof.
  intros H Hs He k i. unfold keybij in H. rewrite H. split; intros (s1 & H1 & H2).
  - destruct (decide (id = i)) as [<-|Hne].
    + exists s'. rewrite lookup_insert. split; [done|]. congruence.
    + exists s1. rewrite lookup_insert_ne by done. done.
  - destruct (decide (id = i)) as [<-|Hne].
    + rewrite lookup_insert in H1. injection H1 as <-. exists s. split; [done|]. congruence.
    + rewrite lookup_insert_ne in H1 by done. eauto.
Qed.
Lemma keybij_new G K id s : keybij G K -> G !! id = None -> K !! g_key s = None -> keybij (<[id := s]> G) (<[g_key s := id]> K).
Proof.
  intros H Hs Hk k i. unfold keybij in H. destruct (decide (g_key s = k)) as [<-|Hne].
  - rewrite lookup_insert. split.
    + intros E. injection E as <-. exists s. rewrite lookup_insert. done.
    + intros (s1 & H1 & H2). destruct (decide (id = i)) as [->|Hi]; [done|]. rewrite lookup_insert_ne in H1 by done.
      assert (H3 : K !! g_key s = Some i) by (apply H; eauto). congruence.
  - rewrite lookup_insert_ne by done. rewrite H. split; intros (s1 & H1 & H2).
    + exists s1. rewrite lookup_insert_ne by congruence. done.
    + destruct (decide (id = i)) as [->|Hi]; [rewrite lookup_insert in H1; congruence|].
      rewrite lookup_insert_ne in H1 by done. eauto.
Qed.
(** Offsets do not matter for keys. *)
Lemma keybij_strip G K : keybij (strip <$> G) K <-> keybij G K.
Proof.
  unfold keybij. split; intros H k i; rewrite H; split; intros (s & H1 & H2).
  - rewrite lookup_fmap in H1. destruct (G !! i) as [s1|] eqn:E; [|discriminate H1]. injection H1 as <-. eauto.
  - exists (strip s). rewrite lookup_fmap, H1. done.
  - exists (strip s). rewrite lookup_fmap, H1. done.
  - rewrite lookup_fmap in H1. destruct (G !! i) as [s1|] eqn:E; [|discriminate H1]. injection H1 as <-. eauto.
Qed.

(** ** Loops over the mappings of a process *)
Lemma nrow_cons id p l : nrow id (p :: l) = (if p.2 =? id then 1 else 0) + nrow id l.
Proof. exact (num_cons (fun p => p.2 =? id) p l). Qed.
Lemma nrow_nn id l : 0 <= nrow id l.
Proof. apply num_nn. Qed.
Lemma with_att_same s : with_att (g_nattch s) (g_att s) s = s.
Proof. destruct s; done. Qed.

Definition unmapped (c : Z) (l : list (Z * Z)) (id : Z) (o : option seg) : option seg :=
  match o with
  | None => None
  | Some s =>
      if nrow id l =? 0 then Some s
      else if g_rmid s && (g_nattch s - nrow id l =? 0) then None
      else Some (with_att (g_nattch s - nrow id l) (delete c (g_att s)) s)
  end.

Lemma unmap_fold c l : forall x x1,
  ofold (unmap_one c) l x = Done x1 -> keybij (x_seg x) (x_key x) ->
  (forall id s, x_seg x !! id = Some s -> nrow id l <= g_nattch s) ->
  keybij (x_seg x1) (x_key x1) /\ x_cage x1 = x_cage x /\ x_next x1 = x_next x /\
  x_sem x1 = x_sem x /\ x_lock x1 = x_lock x /\ x_obj x1 = x_obj x /\
  forall id, x_seg x1 !! id = unmapped c l id (x_seg x !! id).
Proof.
  induction l as [|[a id0] l IH]; intros x x1 H HK Hc; cbn [ofold] in H.
  - injection H as <-. do 6 (split; [done|]). intros id. destruct (x_seg x !! id); done.
  - unfold unmap_one in H at 1. cbn [snd] in H. destruct (x_seg x !! id0) as [s0|] eqn:E0; [|discriminate H].
    pose proof (Hc id0 s0 E0) as Hc0. rewrite nrow_cons in Hc0. cbn [snd] in Hc0. rewrite Z.eqb_refl in Hc0.
    pose proof (nrow_nn id0 l) as Hn0.
    destruct (g_rmid s0 && (g_nattch s0 - 1 =? 0)) eqn:Eb; cbn [obind] in H.
    + apply andb_prop in Eb as [Em En]. apply Z.eqb_eq in En. apply IH in H.
      * destruct H as (H1 & H2 & H3 & H4 & H5 & H6 & H7). do 6 (split; [done|]). intros id. rewrite H7. cbn.
        destruct (decide (id0 = id)) as [<-|Hne].
        { rewrite lookup_delete, E0. cbn [unmapped]. rewrite nrow_cons. cbn [snd]. rewrite Z.eqb_refl.
          assert (Hz : nrow id0 l = 0) by lia. rewrite Hz, Em. cbn [andb].
          change (1 + 0 =? 0) with false. rewrite (proj2 (Z.eqb_eq (g_nattch s0 - (1 + 0)) 0)) by lia. done. }
        rewrite lookup_delete_ne by done. destruct (x_seg x !! id) as [s|]; [|done]. cbn.
        rewrite nrow_cons. cbn [snd]. rewrite (proj2 (Z.eqb_neq id0 id)) by done. done.
      * cbn. apply keybij_del; done.
      * cbn. intros id s Hs. apply lookup_delete_Some in Hs as [Hne Hs]. specialize (Hc id s Hs).
        rewrite nrow_cons in Hc. cbn [snd] in Hc. rewrite (proj2 (Z.eqb_neq id0 id)) in Hc by done. lia.
    + apply IH in H.
      * destruct H as (H1 & H2 & H3 & H4 & H5 & H6 & H7). do 6 (split; [done|]). intros id. rewrite H7. cbn.
        destruct (decide (id0 = id)) as [<-|Hne].
        { rewrite lookup_insert, E0. cbn. rewrite nrow_cons. cbn [snd]. rewrite Z.eqb_refl.
          rewrite (proj2 (Z.eqb_neq (1 + nrow id0 l) 0)) by lia.
          destruct (Z.eqb_spec (nrow id0 l) 0) as [Hz|Hz].
          - rewrite Hz. replace (g_nattch s0 - (1 + 0)) with (g_nattch s0 - 1) by lia. rewrite Eb. done.
          - replace (g_nattch s0 - 1 - nrow id0 l) with (g_nattch s0 - (1 + nrow id0 l)) by lia.
            rewrite delete_idemp. done. }
        rewrite lookup_insert_ne by done. destruct (x_seg x !! id) as [s|]; [|done]. cbn.
        rewrite nrow_cons. cbn [snd]. rewrite (proj2 (Z.eqb_neq id0 id)) by done. done.
      * cbn. apply (keybij_upd _ _ _ s0); done.
      * cbn. intros id s Hs. destruct (decide (id0 = id)) as [<-|Hne].
        { rewrite lookup_insert in Hs. injection Hs as <-. cbn. lia. }
        rewrite lookup_insert_ne in Hs by done. specialize (Hc id s Hs).
        rewrite nrow_cons in Hc. cbn [snd] in Hc. rewrite (proj2 (Z.eqb_neq id0 id)) in Hc by done. lia.
Qed.

Definition forked (c ch : Z) (l : list (Z * Z)) (id : Z) (o : option seg) : option seg :=
  match o with
  | None => None
  | Some s =>
      if nrow id l =? 0 then Some s
      else Some (with_att (g_nattch s + nrow id l) (<[ch := default 0 (g_att s !! c)]> (g_att s)) s)
  end.
Lemma fork_fold c ch l : c <> ch -> forall x x1,
  ofold (fork_one c ch) l x = Done x1 -> keybij (x_seg x) (x_key x) ->
  keybij (x_seg x1) (x_key x1) /\ x_cage x1 = x_cage x /\ x_next x1 = x_next x /\
  x_sem x1 = x_sem x /\ x_lock x1 = x_lock x /\ x_obj x1 = x_obj x /\
  forall id, x_seg x1 !! id = forked c ch l id (x_seg x !! id).
Proof.
  intros Hcc. induction l as [|[a id0] l IH]; intros x x1 H HK; cbn [ofold] in H.
  - injection H as <-. do 6 (split; [done|]). intros id. destruct (x_seg x !! id); done.
  - unfold fork_one in H at 1. cbn [snd] in H. destruct (x_seg x !! id0) as [s0|] eqn:E0; [|discriminate H].
    destruct (g_att s0 !! c) as [n|] eqn:En; [|discriminate H]. cbn [obind] in H. apply IH in H.
    + destruct H as (H1 & H2 & H3 & H4 & H5 & H6 & H7). do 6 (split; [done|]). intros id. rewrite H7. cbn.
      pose proof (nrow_nn id0 l) as Hn0.
      destruct (decide (id0 = id)) as [<-|Hne].
      * rewrite lookup_insert, E0. cbn. rewrite nrow_cons. cbn [snd]. rewrite Z.eqb_refl.
        rewrite (proj2 (Z.eqb_neq (1 + nrow id0 l) 0)) by lia. rewrite En.
        destruct (Z.eqb_spec (nrow id0 l) 0) as [Hz|Hz].
        { rewrite Hz. done. }
        rewrite lookup_insert_ne by done. rewrite En. cbn. rewrite insert_insert.
        replace (g_nattch s0 + 1 + nrow id0 l) with (g_nattch s0 + (1 + nrow id0 l)) by lia. done.
      * rewrite lookup_insert_ne by done. destruct (x_seg x !! id) as [s|]; [|done]. cbn.
        rewrite nrow_cons. cbn [snd]. rewrite (proj2 (Z.eqb_neq id0 id)) by done. done.
    + cbn. apply (keybij_upd _ _ _ s0); done.
Qed.

(** ** The calls *)
Section Steps.
Context (x : ipc) (L : list att) (S : list sseg) (HI : xinv x L S).

Lemma x_strip id s : x_seg x !! id = Some s -> (strip <$> x_seg x) !! id = Some (strip s).
Proof. intros H. rewrite lookup_fmap, H. done. Qed.
Lemma x_unstrip id s : (strip <$> x_seg x) !! id = Some s -> exists s1, x_seg x !! id = Some s1 /\ s = strip s1.
Proof. rewrite lookup_fmap. destruct (x_seg x !! id) as [s1|]; [|done]. intros H. injection H as <-. eauto. Qed.
Lemma x_keybij : keybij (x_seg x) (x_key x).
Proof. apply keybij_strip. exact (h_key _ _ _ _ _ _ HI). Qed.
Lemma x_cnt id s : x_seg x !! id = Some s -> g_nattch s = nseg id L /\ forall c, g_att s !! c = optn (ncs c id L).
Proof. intros H. exact (h_cnt _ _ _ _ _ _ HI id _ (x_strip _ _ H)). Qed.
Lemma x_id id s : x_seg x !! id = Some s -> 1 <= id < x_next x.
Proof. intros H. apply (h_id _ _ _ _ _ _ HI). rewrite (x_strip _ _ H). eauto. Qed.
Lemma x_mark id s : x_seg x !! id = Some s -> g_rmid s = true -> 0 < nseg id L.
Proof. intros H Hm. exact (h_mark _ _ _ _ _ _ HI id _ (x_strip _ _ H) Hm). Qed.
Lemma x_rev c g : x_cage x !! c = Some g -> c_rev g ≡ₚ rows c L.
Proof. intros H. apply (h_rev _ _ _ _ _ _ HI). rewrite lookup_fmap, H. done. Qed.
Lemma x_none c : x_cage x !! c = None -> rows c L = [].
Proof. intros H. apply (h_none _ _ _ _ _ _ HI). rewrite lookup_fmap, H. done. Qed.
Lemma x_in p : In p L -> exists s, x_seg x !! a_seg p = Some s.
Proof. intros H. destruct (h_ex _ _ _ _ _ _ HI p H) as (s & Hs). destruct (x_unstrip _ _ Hs) as (s1 & H1 & _). eauto. Qed.
Lemma x_S z : In z S <-> exists s, x_seg x !! z_id z = Some s /\ g_key s = z_key z /\ g_size s = z_size z /\ g_rmid s = z_marked z.
Proof.
  rewrite (h_S _ _ _ _ _ _ HI z). split; intros (s & H1 & H2).
  - destruct (x_unstrip _ _ H1) as (s1 & H3 & ->). exists s1. done.
  - exists (strip s). split; [exact (x_strip _ _ H1)|done].
Qed.
Lemma x_exists r : existsb (fun z => z_id z =? r) S = true <-> is_Some (x_seg x !! r).
Proof.
  rewrite existsb_exists. split.
  - intros (z & Hz & E). apply Z.eqb_eq in E. apply x_S in Hz as (s & Hs & _). rewrite E in Hs. eauto.
  - intros (s & Hs). exists (Sseg r (g_key s) (g_size s) (g_rmid s)). split; [|apply Z.eqb_refl].
    apply x_S. exists s. done.
Qed.

Lemma same_inv : xinv x L (sweep L S).
Proof. exact (shinv_sweep _ _ _ _ _ _ HI). Qed.

Lemma shmget_inv c key size flg x' r : shmget x key size flg = Done (x', r) ->
  let e := Iev c (Shmget key size flg) r in
  xinv x' (att_step L e) (sweep (att_step L e) (seg_step S e)).
Proof.
  intros H e. unfold shmget in H.
  assert (HL : att_step L e = L) by (destruct r; done). rewrite HL.
  destruct (Z.eqb_spec key IPC_PRIVATE) as [Hk|Hk].
  { injection H as <- <-. exact same_inv. }
  destruct (x_key x !! key) as [id|] eqn:Ek.
  - destruct (_ =? _) in H; injection H as <- <-; [exact same_inv|].
    cbn [seg_step e e_op e_out]. destruct (proj1 (x_keybij key id) Ek) as (s & Hs & _).
    rewrite (proj2 (x_exists id)) by eauto. rewrite orb_true_r. exact same_inv.
  - destruct (Z.land flg IPC_CREAT =? 0) eqn:E1; [injection H as <- <-; exact same_inv|].
    destruct ((to_u32 size <? SHMMIN) || (SHMMAX <? to_u32 size)) eqn:E2; [injection H as <- <-; exact same_inv|].
    destruct (2 ^ 63 <=? size) eqn:E3; [discriminate H|]. injection H as <- <-.
    cbn [seg_step e e_op e_out]. set (id := x_next x).
    pose proof (h_N _ _ _ _ _ _ HI) as HN.
    assert (Hf : x_seg x !! id = None).
    { destruct (x_seg x !! id) as [s|] eqn:E; [|done]. pose proof (x_id _ _ E). lia. }
    rewrite (proj2 (Z.ltb_ge id 0)) by lia.
    destruct (existsb (fun z => z_id z =? id) S) eqn:Ex.
    { apply x_exists in Ex. rewrite Hf in Ex. destruct Ex. done. }
    cbn [orb]. apply shinv_sweep. cbn.
    assert (Hz : forall c', ncs c' id L = 0 /\ nseg id L = 0).
    { assert (Hs0 : nseg id L = 0).
      { apply num_0. intros p Hp. apply Z.eqb_neq. intros Hpe. destruct (x_in p Hp) as (s & Hs). congruence. }
      intros c'. pose proof (ncs_le c' id L). lia. }
    set (s0 := Seg key size (to_u32 size) (Z.land flg 511) false 0 ∅ []).
    assert (Hstrip : strip <$> <[id := s0]> (x_seg x) = <[id := s0]> (strip <$> x_seg x)) by (rewrite fmap_insert; done).
    rewrite Hstrip.
    assert (HG : forall i s, <[id := s0]> (strip <$> x_seg x) !! i = Some s -> (i = id /\ s = s0) \/ (i <> id /\ (strip <$> x_seg x) !! i = Some s)).
    { intros i s Hi. destruct (decide (id = i)) as [<-|Hne].
      - rewrite lookup_insert in Hi. injection Hi as <-. left. done.
      - rewrite lookup_insert_ne in Hi by done. right. done. }
    constructor.
    + exact (h_rev _ _ _ _ _ _ HI).
    + exact (h_none _ _ _ _ _ _ HI).
    + intros i s Hi. destruct (HG _ _ Hi) as [[-> ->]|[Hne Hi2]].
      * cbn. destruct (Hz 0) as [_ ->]. split; [done|]. intros c'. rewrite lookup_empty. destruct (Hz c') as [-> _]. done.
      * exact (h_cnt _ _ _ _ _ _ HI i s Hi2).
    + intros p Hp. destruct (decide (id = a_seg p)) as [<-|Hne]; [rewrite lookup_insert; eauto|].
      rewrite lookup_insert_ne by done. exact (h_ex _ _ _ _ _ _ HI p Hp).
    + apply (keybij_new _ _ id s0); [exact (h_key _ _ _ _ _ _ HI)| |exact Ek]. rewrite lookup_fmap, Hf. done.
    + intros i [s Hi]. destruct (HG _ _ Hi) as [[-> ->]|[Hne Hi2]]; [unfold id; lia|].
      pose proof (h_id _ _ _ _ _ _ HI i (ex_intro _ _ Hi2)). lia.
    + intros z. rewrite in_app_iff, (h_S _ _ _ _ _ _ HI z). split.
      * intros [(s & H1 & H2)|[<-|[]]].
        { exists s. rewrite lookup_insert_ne; [done|]. intros E. rewrite <- E, lookup_fmap, Hf in H1. discriminate H1. }
        exists s0. cbn [z_id]. rewrite lookup_insert. done.
      * intros (s & H1 & H2). destruct (HG _ _ H1) as [[Ei ->]|[Hne Hi2]]; [right; left|left; eauto].
        destruct z as [zi zk zn zm]. cbn in *. destruct H2 as (<- & <- & <-). subst. done.
    + intros i s Hi. destruct (HG _ _ Hi) as [[-> ->]|[Hne Hi2]]; [|exact (h_sz _ _ _ _ _ _ HI i s Hi2)].
      apply orb_false_iff in E2 as [E2a E2b]. apply Z.ltb_ge in E2a, E2b. done.
    + intros i s Hi. destruct (HG _ _ Hi) as [[-> ->]|[Hne Hi2]]; [done|]. exact (h_mark _ _ _ _ _ _ HI i s Hi2).
    + lia.
Qed.

Lemma shmctl_inv c id cmd x' r : shmctl x id cmd = Done (x', r) ->
  let e := Iev c (Shmctl id cmd) r in
  xinv x' (att_step L e) (sweep (att_step L e) (seg_step S e)).
Proof.
  intros H e. unfold shmctl in H.
  assert (HL : att_step L e = L) by (destruct r; done). rewrite HL.
  destruct (x_seg x !! id) as [s|] eqn:Es.
  2:{ injection H as <- <-. unfold seg_step. cbn. rewrite andb_false_r. exact same_inv. }
  destruct (cmd =? IPC_STAT) eqn:E1; [injection H as <- <-; exact same_inv|].
  destruct (cmd =? IPC_RMID) eqn:E2.
  2:{ injection H as <- <-. unfold seg_step. cbn [e e_op e_out]. rewrite E2. exact same_inv. }
  assert (Er : r = IRet 0) by (destruct (g_nattch s =? 0); injection H as <- <-; done). subst r.
  cbn [seg_step e e_op e_out]. rewrite E2. cbn [andb Z.eqb].
  destruct (x_cnt _ _ Es) as [En _].
  assert (HS' : forall z, In z (map (fun z => if z_id z =? id then Sseg (z_id z) (z_key z) (z_size z) true else z) S) <->
    exists s1, x_seg x !! z_id z = Some s1 /\ g_key s1 = z_key z /\ g_size s1 = z_size z /\ (if z_id z =? id then true else g_rmid s1) = z_marked z).
  { intros z. rewrite in_map_iff. split.
    - intros (z1 & E & Hz1). apply x_S in Hz1 as (s1 & H1 & H2 & H3 & H4). exists s1.
      destruct (z_id z1 =? id) eqn:Ei; subst z; cbn; [rewrite Ei|rewrite Ei]; done.
    - intros (s1 & H1 & H2 & H3 & H4). exists (Sseg (z_id z) (z_key z) (z_size z) (g_rmid s1)). cbn.
      split; [|apply x_S; exists s1; done]. destruct z as [zi zk zn zm]; cbn in *.
      destruct (zi =? id); subst; done. }
  destruct (Z.eqb_spec (g_nattch s) 0) as [Hn|Hn]; injection H as <-; unfold xinv; cbn.
  - rewrite fmap_delete.
    assert (HG : forall i s1, delete id (strip <$> x_seg x) !! i = Some s1 -> i <> id /\ (strip <$> x_seg x) !! i = Some s1).
    { intros i s1 Hi. apply lookup_delete_Some in Hi as [? ?]. split; [congruence|done]. }
    constructor.
    + exact (h_rev _ _ _ _ _ _ HI).
    + exact (h_none _ _ _ _ _ _ HI).
    + intros i s1 Hi. exact (h_cnt _ _ _ _ _ _ HI i s1 (proj2 (HG _ _ Hi))).
    + intros p Hp. rewrite lookup_delete_ne; [exact (h_ex _ _ _ _ _ _ HI p Hp)|]. intros Ei.
      assert (0 < nseg id L); [|lia]. apply num_pos. exists p. split; [done|]. apply Z.eqb_eq. done.
    + apply (keybij_del _ _ id (strip s)); [exact (h_key _ _ _ _ _ _ HI)|exact (x_strip _ _ Es)].
    + intros i [s1 Hi]. exact (h_id _ _ _ _ _ _ HI i (ex_intro _ _ (proj2 (HG _ _ Hi)))).
    + intros z. rewrite sweep_in, HS'. split.
      * intros ((s1 & H1 & H2 & H3 & H4) & H5). destruct (Z.eqb_spec (z_id z) id) as [Ei|Ei].
        { specialize (H5 (eq_sym H4)). rewrite Ei in H5. lia. }
        exists (strip s1). rewrite lookup_delete_ne by congruence. split; [exact (x_strip _ _ H1)|done].
      * intros (s1 & H1 & H2). apply HG in H1 as [Hne H1]. destruct (x_unstrip _ _ H1) as (s2 & H3 & ->).
        cbn in H2. split.
        { exists s2. rewrite (proj2 (Z.eqb_neq (z_id z) id)) by done. done. }
        intros Hm. apply (x_mark _ _ H3). destruct H2 as (_ & _ & ->). done.
    + intros i s1 Hi. exact (h_sz _ _ _ _ _ _ HI i s1 (proj2 (HG _ _ Hi))).
    + intros i s1 Hi. exact (h_mark _ _ _ _ _ _ HI i s1 (proj2 (HG _ _ Hi))).
    + exact (h_N _ _ _ _ _ _ HI).
  - rewrite fmap_insert. set (s' := strip _). pose proof (num_nn (fun p => a_seg p =? id) L) as Hnn. fold (nseg id L) in Hnn.
    assert (HG : forall i s1, <[id := s']> (strip <$> x_seg x) !! i = Some s1 -> exists s2, x_seg x !! i = Some s2 /\
      g_key s1 = g_key s2 /\ g_size s1 = g_size s2 /\ g_segsz s1 = g_segsz s2 /\ g_nattch s1 = g_nattch s2 /\ g_att s1 = g_att s2 /\
      g_rmid s1 = (if i =? id then true else g_rmid s2)).
    { intros i s1 Hi. destruct (decide (id = i)) as [<-|Hne].
      - rewrite lookup_insert in Hi. injection Hi as <-. exists s. rewrite Z.eqb_refl. done.
      - rewrite lookup_insert_ne in Hi by done. destruct (x_unstrip _ _ Hi) as (s2 & H1 & ->). exists s2.
        rewrite (proj2 (Z.eqb_neq i id)) by congruence. done. }
    assert (HG2 : forall i s2, x_seg x !! i = Some s2 -> is_Some (<[id := s']> (strip <$> x_seg x) !! i)).
    { intros i s2 H2. destruct (decide (id = i)) as [<-|Hne]; [rewrite lookup_insert; eauto|].
      rewrite lookup_insert_ne by done. rewrite (x_strip _ _ H2). eauto. }
    constructor.
    + exact (h_rev _ _ _ _ _ _ HI).
    + exact (h_none _ _ _ _ _ _ HI).
    + intros i s1 Hi. destruct (HG _ _ Hi) as (s2 & H1 & _ & _ & _ & -> & -> & _). exact (x_cnt _ _ H1).
    + intros p Hp. destruct (x_in p Hp) as (s2 & Hs2). exact (HG2 _ _ Hs2).
    + apply (keybij_upd _ _ id (strip s)); [exact (h_key _ _ _ _ _ _ HI)|exact (x_strip _ _ Es)|done].
    + intros i [s1 Hi]. destruct (HG _ _ Hi) as (s2 & H1 & _). exact (x_id _ _ H1).
    + intros z. rewrite sweep_in, HS'. split.
      * intros ((s1 & H1 & H2 & H3 & H4) & H5). destruct (HG2 _ _ H1) as (s2 & Hs2). exists s2. split; [done|].
        destruct (HG _ _ Hs2) as (s3 & Hs3 & E3 & E4 & _ & _ & _ & E5). rewrite H1 in Hs3. injection Hs3 as <-.
        rewrite E3, E4, E5. done.
      * intros (s1 & H1 & H2 & H3 & H4). destruct (HG _ _ H1) as (s3 & Hs3 & E3 & E4 & _ & _ & _ & E5). split.
        { exists s3. rewrite <- E3, <- E4, <- E5. done. }
        intros Hm. rewrite <- H4, E5 in Hm. destruct (Z.eqb_spec (z_id z) id) as [Ei|Ei].
        { rewrite Ei. lia. } exact (x_mark _ _ Hs3 Hm).
    + intros i s1 Hi. destruct (HG _ _ Hi) as (s2 & H1 & -> & -> & -> & _). exact (h_sz _ _ _ _ _ _ HI i _ (x_strip _ _ H1)).
    + intros i s1 Hi Hm. destruct (HG _ _ Hi) as (s3 & Hs3 & _ & _ & _ & _ & _ & E5). rewrite E5 in Hm.
      destruct (Z.eqb_spec i id) as [->|Ei]; [lia|]. exact (x_mark _ _ Hs3 Hm).
    + exact (h_N _ _ _ _ _ _ HI).
Qed.

Lemma shmat_shape chk c g id a pick bad x' r s : x_cage x !! c = Some g -> x_seg x !! id = Some s ->
  shmat chk x c g id a pick bad = Done (x', r) ->
  r = IRet (if bad || negb (page_ok a) then -1 else to_i32 a) /\
  shape x' = (<[id := with_att (g_nattch s + 1) (att_inc c (g_att s)) (strip s)]> (strip <$> x_seg x), x_key x, x_next x,
              <[c := c_rev g ++ [(a, id)]]> (c_rev <$> x_cage x)).
Proof.
  intros Hg Hs H. unfold shmat in H. rewrite Hs in H. cbv zeta in H.
  set (x1 := set_cage _ x) in H.
  match type of H with obind ?e _ = _ => destruct e as [x2|] eqn:Ec; [|discriminate H] end.
  cbn [obind] in H. injection H as <- <-. split; [done|].
  assert (Hx2 : semonly x1 x2).
  { destruct (g_offs s) as [|o l] eqn:Eo; [injection Ec as <-; done|].
    destruct (first_cage (g_att s) pick) as [c2|]; [|injection Ec as <-; done].
    destruct (x_cage x1 !! c2) as [g2|]; [|discriminate Ec].
    destruct (addrs_of (c_rev g2) id) as [|a0 ar]; [discriminate Ec|].
    refine (ofold_inv (semonly x1) _ _ _ _ _ _ Ec); [|done].
    intros y off y2 Hy H2. destruct (add32 chk a0 off) as [b|]; [|discriminate H2]. cbn [obind] in H2.
    destruct (x_cage y !! c2) as [g2'|]; [|discriminate H2].
    destruct (c_sem g2' !! b) as [ob|]; [|discriminate H2].
    destruct (add32 chk a off) as [b2|]; [|discriminate H2]. cbn [obind] in H2.
    destruct (x_cage y !! c) as [g'|] eqn:Ey; [|discriminate H2]. injection H2 as <-.
    apply semonly_put; [done|]. exists g'. done. }
  destruct Hx2 as (E1 & E2 & E3 & E4). unfold shape. cbn. rewrite fmap_insert, E1, E2, E3, E4.
  unfold x1. cbn. rewrite fmap_insert. done.
Qed.

Lemma to_i32_addr a : 0 <= a < 2 ^ 32 -> page_ok a = true -> is_addr (to_i32 a) = true.
Proof.
  intros Ha Hp. unfold page_ok in Hp. apply Z.eqb_eq in Hp. unfold is_addr, to_i32.
  pose proof (Z.div_mod a 4096 ltac:(lia)) as Hd. rewrite Hp in Hd.
  unfold wrap_u. rewrite Z.mod_small by done. change (2 ^ 32) with 4294967296 in *. change (2 ^ 31) with 2147483648.
  apply negb_true_iff, andb_false_iff. rewrite !Z.leb_gt.
  destruct (Z.ltb_spec a 2147483648) as [H|H]; [right; lia|].
  destruct (Z.leb_spec (a - 4294967296) (-4096)); [left; lia|].
  assert (a / 4096 < 1048576) by (apply Z.div_lt_upper_bound; lia). lia.
Qed.

Lemma shmat_inv chk c g id a pick bad x' r : x_cage x !! c = Some g -> 0 <= a < 2 ^ 32 -> bad = false -> page_ok a = true ->
  shmat chk x c g id a pick bad = Done (x', r) ->
  let e := Iev c (Shmat id a pick bad) r in
  xinv x' (att_step L e) (sweep (att_step L e) (seg_step S e)).
Proof.
  intros Hg Ha Hb Hp H e. destruct (x_seg x !! id) as [s|] eqn:Es.
  2:{ unfold shmat in H. rewrite Es in H. injection H as <- <-. exact same_inv. }
  destruct (shmat_shape _ _ _ _ _ _ _ _ _ _ Hg Es H) as [Hr Hsh]. unfold xinv.
  unfold shape in Hsh. injection Hsh as -> -> -> ->.
  rewrite Hb, Hp in Hr. cbn [orb negb] in Hr. subst r. cbn [att_step seg_step e e_op e_out e_c].
  rewrite to_i32_addr by done. destruct (x_cnt _ _ Es) as [En Eat].
  pose proof (num_nn (fun p => a_seg p =? id) L) as Hnn. fold (nseg id L) in Hnn.
  assert (Hseg : forall i, nseg i (L ++ [(c, a, id)]) = nseg i L + (if id =? i then 1 else 0)).
  { intros i. rewrite nseg_app. unfold nseg at 2. rewrite num_cons, num_nil. change (a_seg (c, a, id)) with id. lia. }
  assert (Hncs : forall c' i, ncs c' i (L ++ [(c, a, id)]) = ncs c' i L + (if (c =? c') && (id =? i) then 1 else 0)).
  { intros c' i. rewrite ncs_app. unfold ncs at 2. rewrite num_cons, num_nil.
    change (a_seg (c, a, id)) with id. change (a_cage (c, a, id)) with c. lia. }
  apply (shinv_update (strip <$> x_seg x) (x_key x) (x_next x) (c_rev <$> x_cage x) L S); [exact HI| | | | |].
  - intros c' l Hl. rewrite rows_app, rows_cons. destruct (decide (c = c')) as [<-|Hne].
    + rewrite lookup_insert in Hl. injection Hl as <-. rewrite Z.eqb_refl.
      rewrite (x_rev _ _ Hg). done.
    + rewrite lookup_insert_ne in Hl by done. rewrite (proj2 (Z.eqb_neq c c')) by done.
      rewrite app_nil_r. exact (h_rev _ _ _ _ _ _ HI c' l Hl).
  - intros c' Hl. rewrite rows_app, rows_cons. destruct (decide (c = c')) as [<-|Hne].
    + rewrite lookup_insert in Hl. discriminate Hl.
    + rewrite lookup_insert_ne in Hl by done. rewrite (proj2 (Z.eqb_neq c c')) by done.
      rewrite app_nil_r. exact (h_none _ _ _ _ _ _ HI c' Hl).
  - intros p Hp2. apply in_app_or in Hp2 as [Hp2|[<-|[]]]; [exact (h_ex _ _ _ _ _ _ HI p Hp2)|].
    change (a_seg (c, a, id)) with id. rewrite (x_strip _ _ Es). eauto.
  - intros i. rewrite Hseg. destruct (decide (id = i)) as [<-|Hne].
    + rewrite (x_strip _ _ Es), lookup_insert, Z.eqb_refl. rewrite (proj2 (Z.eqb_neq (nseg id L + 1) 0)) by lia.
      rewrite andb_false_r. exists (att_inc c (g_att s)). rewrite En. split; [done|].
      intros c'. rewrite Hncs. unfold att_inc. rewrite Z.eqb_refl, andb_true_r.
      pose proof (ncs_le c id L). destruct (Z.eqb_spec c c') as [<-|Hcc].
      * rewrite lookup_insert, Eat. unfold optn. rewrite (proj2 (Z.eqb_neq (ncs c id L + 1) 0)) by lia.
        destruct (Z.eqb_spec (ncs c id L) 0) as [->|_]; done.
      * rewrite lookup_insert_ne by done. rewrite Eat, Z.add_0_r. done.
    + rewrite lookup_insert_ne by done. rewrite (proj2 (Z.eqb_neq id i)) by done. rewrite Z.add_0_r.
      destruct ((strip <$> x_seg x) !! i) as [s1|] eqn:E1; [|done].
      destruct (h_cnt _ _ _ _ _ _ HI i s1 E1) as [H1 H2].
      destruct (g_rmid s1 && (nseg i L =? 0)) eqn:Eb.
      { apply andb_prop in Eb as [Eb1 Eb2]. apply Z.eqb_eq in Eb2. pose proof (h_mark _ _ _ _ _ _ HI i s1 E1 Eb1). lia. }
      exists (g_att s1). rewrite <- H1, with_att_same. split; [done|]. intros c'. rewrite Hncs.
      rewrite (proj2 (Z.eqb_neq id i)) by done. rewrite andb_false_r, Z.add_0_r. exact (H2 c').
  - apply (keybij_upd _ _ id (strip s)); [exact (h_key _ _ _ _ _ _ HI)|exact (x_strip _ _ Es)|done].
Qed.

(** What a step that leaves the counts of a segment alone needs *)
Lemma untouched i s1 L' : (strip <$> x_seg x) !! i = Some s1 -> nseg i L' = nseg i L -> (forall c, ncs c i L' = ncs c i L) ->
  if g_rmid s1 && (nseg i L' =? 0) then Some s1 = (None : option seg)
  else exists m', Some s1 = Some (with_att (nseg i L') m' s1) /\ forall c, m' !! c = optn (ncs c i L').
Proof.
  intros E1 En Ec. destruct (h_cnt _ _ _ _ _ _ HI i s1 E1) as [H1 H2]. rewrite En.
  destruct (g_rmid s1 && (nseg i L =? 0)) eqn:Eb.
  { apply andb_prop in Eb as [Eb1 Eb2]. apply Z.eqb_eq in Eb2. pose proof (h_mark _ _ _ _ _ _ HI i s1 E1 Eb1). lia. }
  exists (g_att s1). rewrite <- H1, with_att_same. split; [done|]. intros c. rewrite Ec. exact (H2 c).
Qed.

Lemma shmdt_inv chk c g a x' r : x_cage x !! c = Some g ->
  shmdt chk x c g a = Done (x', r) ->
  let e := Iev c (Shmdt a) r in
  (r = IRet (err EINVAL) /\ (forall id, ~ In (c, a, id) L) \/ exists id, r = IRet id /\ 0 <= id /\ In (c, a, id) L) /\
  xinv x' (att_step L e) (sweep (att_step L e) (seg_step S e)).
Proof.
  intros Hg H e. unfold shmdt in H. destruct (index_of (c_rev g) a) as [i|] eqn:Ei.
  2:{ injection H as <- <-. split; [left; split; [done|]|exact same_inv]. intros id Hin.
      apply (index_of_none _ _ Ei id). apply (Permutation_in (l := rows c L)); [symmetry; exact (x_rev _ _ Hg)|].
      apply rows_in. exact Hin. }
  destruct (index_of_some _ _ _ Ei) as (id & Hi). rewrite Hi in H.
  destruct (x_seg x !! id) as [s|] eqn:Es; [|discriminate H].
  match type of H with obind ?e0 _ = _ => destruct e0 as [t|] eqn:Et; [|discriminate H] end. cbn [obind] in H.
  destruct (g_att s !! c) as [n|] eqn:Ea; [|discriminate H].
  assert (HL : In (c, a, id) L).
  { apply rows_in. apply (Permutation_in (l := c_rev g)); [exact (x_rev _ _ Hg)|]. apply elem_of_list_In.
    exact (elem_of_list_lookup_2 _ _ _ Hi). }
  pose proof (x_id _ _ Es) as Hid. destruct (x_cnt _ _ Es) as [En Eat].
  assert (Er : r = IRet id) by (injection H as _ <-; done). subst r. injection H as Hx'.
  split; [right; exists id; split; [done|]; split; [lia|done]|].
  cbn [att_step seg_step e e_op e_out e_c]. rewrite (proj2 (Z.ltb_ge id 0)) by lia.
  set (L' := drop_one (c, a, id) L).
  pose proof (drop_perm (c, a, id) L HL) as HP. fold L' in HP.
  assert (Hseg : forall k, nseg k L' = nseg k L - (if id =? k then 1 else 0)).
  { intros k. unfold nseg, L'. rewrite num_drop by done. done. }
  assert (Hncs : forall c' k, ncs c' k L' = ncs c' k L - (if (c =? c') && (id =? k) then 1 else 0)).
  { intros c' k. unfold ncs, L'. rewrite num_drop by done. done. }
  assert (Hpos : 0 < ncs c id L).
  { apply num_pos. exists (c, a, id). split; [done|]. change (a_seg (c, a, id)) with id. change (a_cage (c, a, id)) with c.
    rewrite !Z.eqb_refl. done. }
  pose proof (ncs_le c id L) as Hle.
  assert (En2 : n = ncs c id L).
  { rewrite Eat in Ea. unfold optn in Ea. destruct (ncs c id L =? 0); [discriminate Ea|]. injection Ea as <-. done. }
  set (m' := if n - 1 =? 0 then delete c (g_att s) else <[c := n - 1]> (g_att s)) in *.
  assert (Hm' : forall c', m' !! c' = optn (ncs c' id L')).
  { intros c'. rewrite Hncs, Z.eqb_refl, andb_true_r. unfold m'. destruct (Z.eqb_spec c c') as [<-|Hcc].
    - rewrite <- En2. unfold optn. destruct (n - 1 =? 0); [rewrite lookup_delete|rewrite lookup_insert]; done.
    - rewrite Z.sub_0_r. destruct (n - 1 =? 0); [rewrite lookup_delete_ne by done|rewrite lookup_insert_ne by done]; apply Eat. }
  assert (HR : (c_rev <$> x_cage x') = <[c := swap_remove i (c_rev g)]> (c_rev <$> x_cage x)).
  { rewrite <- Hx'. destruct (g_rmid s && (g_nattch s - 1 =? 0)); cbn; rewrite fmap_insert; done. }
  assert (HN : x_next x' = x_next x) by (rewrite <- Hx'; destruct (g_rmid s && (g_nattch s - 1 =? 0)); done).
  unfold xinv. rewrite HR, HN.
  apply (shinv_update (strip <$> x_seg x) (x_key x) (x_next x) (c_rev <$> x_cage x) L S); [exact HI| | | | |].
  - intros c' l Hl. pose proof (rows_perm c' _ _ HP) as HP2. rewrite rows_cons in HP2. destruct (decide (c = c')) as [<-|Hne].
    + rewrite lookup_insert in Hl. injection Hl as <-. rewrite Z.eqb_refl in HP2.
      apply (Permutation_cons_inv (a := (a, id))). rewrite HP2. rewrite (swap_remove_perm i (c_rev g) (a, id) Hi). exact (x_rev _ _ Hg).
    + rewrite lookup_insert_ne in Hl by done. rewrite (proj2 (Z.eqb_neq c c')) in HP2 by done.
      rewrite HP2. exact (h_rev _ _ _ _ _ _ HI c' l Hl).
  - intros c' Hl. pose proof (rows_perm c' _ _ HP) as HP2. rewrite rows_cons in HP2. destruct (decide (c = c')) as [<-|Hne].
    + rewrite lookup_insert in Hl. discriminate Hl.
    + rewrite lookup_insert_ne in Hl by done. rewrite (proj2 (Z.eqb_neq c c')) in HP2 by done.
      rewrite (h_none _ _ _ _ _ _ HI c' Hl) in HP2. apply Permutation_nil. symmetry. exact HP2.
  - intros p Hp. apply (h_ex _ _ _ _ _ _ HI). apply (Permutation_in (l := (c, a, id) :: L')); [exact HP|]. right. exact Hp.
  - intros k. destruct (decide (id = k)) as [<-|Hne].
    + rewrite (x_strip _ _ Es), Hseg, Z.eqb_refl. cbn [strip with_offs g_rmid]. rewrite <- Hx', En.
      destruct (g_rmid s && (nseg id L - 1 =? 0)); cbn.
      * rewrite fmap_delete, lookup_delete. done.
      * rewrite fmap_insert, lookup_insert. exists m'. split; [done|exact Hm'].
    + assert (Hk : (strip <$> x_seg x') !! k = (strip <$> x_seg x) !! k).
      { rewrite <- Hx'. destruct (g_rmid s && (g_nattch s - 1 =? 0)); cbn.
        - rewrite fmap_delete, lookup_delete_ne by done. done.
        - rewrite fmap_insert, lookup_insert_ne by done. done. }
      rewrite Hk. destruct ((strip <$> x_seg x) !! k) as [s1|] eqn:E1; [|done].
      apply (untouched k s1 L' E1).
      * rewrite Hseg, (proj2 (Z.eqb_neq id k)) by done. lia.
      * intros c'. rewrite Hncs, (proj2 (Z.eqb_neq id k)) by done. rewrite andb_false_r. lia.
  - rewrite <- Hx'. destruct (g_rmid s && (g_nattch s - 1 =? 0)); cbn.
    + rewrite fmap_delete. apply (keybij_del _ _ id (strip s)); [exact (h_key _ _ _ _ _ _ HI)|exact (x_strip _ _ Es)].
    + rewrite fmap_insert. apply (keybij_upd _ _ id (strip s)); [exact (h_key _ _ _ _ _ _ HI)|exact (x_strip _ _ Es)|done].
Qed.

Lemma fork_inv c g ch x' r : x_cage x !! c = Some g -> x_cage x !! ch = None ->
  ifork x c g ch = Done (x', r) ->
  let e := Iev c (IFork ch) r in
  xinv x' (att_step L e) (sweep (att_step L e) (seg_step S e)).
Proof.
  intros Hg Hch H e. unfold ifork in H. destruct (renew (x_obj x) (c_mut g)) as [muts n1].
  destruct (renew n1 (c_cv g)) as [cvs n2].
  destruct (ofold (fork_one c ch) (c_rev g) x) as [x1|] eqn:Ef; [|discriminate H]. cbn [obind] in H. injection H as <- <-.
  assert (Hcc : c <> ch) by congruence.
  destruct (fork_fold c ch (c_rev g) Hcc x x1 Ef x_keybij) as (F1 & F2 & F3 & _ & _ & _ & F7).
  unfold xinv. cbn. rewrite fmap_insert. cbn [c_rev]. rewrite F2, F3. fold (child c ch L).
  assert (Hrow : forall k, nrow k (c_rev g) = ncs c k L).
  { intros k. rewrite <- nrow_rows. apply num_perm. exact (x_rev _ _ Hg). }
  pose proof (x_none ch Hch) as Hchn.
  apply (shinv_update (strip <$> x_seg x) (x_key x) (x_next x) (c_rev <$> x_cage x) L S); [exact HI| | | | |].
  - intros c' l Hl. rewrite rows_app, rows_child. destruct (Z.eqb_spec ch c') as [<-|Hne].
    + rewrite lookup_insert in Hl. injection Hl as <-. rewrite Hchn. exact (x_rev _ _ Hg).
    + rewrite lookup_insert_ne in Hl by done. rewrite app_nil_r. exact (h_rev _ _ _ _ _ _ HI c' l Hl).
  - intros c' Hl. rewrite rows_app, rows_child. destruct (Z.eqb_spec ch c') as [<-|Hne].
    + rewrite lookup_insert in Hl. discriminate Hl.
    + rewrite lookup_insert_ne in Hl by done. rewrite app_nil_r. exact (h_none _ _ _ _ _ _ HI c' Hl).
  - intros p Hp. apply in_app_or in Hp as [Hp|Hp]; [exact (h_ex _ _ _ _ _ _ HI p Hp)|].
    unfold child in Hp. apply in_map_iff in Hp as (q & <- & Hq). apply filter_In in Hq as [Hq _].
    exact (h_ex _ _ _ _ _ _ HI q Hq).
  - intros k. rewrite (lookup_fmap strip (x_seg x1)), F7. destruct ((strip <$> x_seg x) !! k) as [s1|] eqn:E1.
    2:{ rewrite lookup_fmap in E1. destruct (x_seg x !! k); [discriminate E1|]. done. }
    destruct (x_unstrip _ _ E1) as (s & Es & ->). rewrite Es. cbn [forked]. rewrite Hrow.
    destruct (x_cnt _ _ Es) as [En Eat]. pose proof (ncs_le c k L) as Hle.
    destruct (Z.eqb_spec (ncs c k L) 0) as [Hz|Hz].
    + apply (untouched k (strip s) (L ++ child c ch L) E1).
      * rewrite nseg_app, nseg_child. lia.
      * intros c'. rewrite ncs_app, ncs_child. destruct (ch =? c'); lia.
    + rewrite nseg_app, nseg_child. rewrite (proj2 (Z.eqb_neq (nseg k L + ncs c k L) 0)) by lia. rewrite andb_false_r.
      exists (<[ch := default 0 (g_att s !! c)]> (g_att s)). split; [rewrite En; done|]. intros c'. rewrite ncs_app, ncs_child.
      destruct (Z.eqb_spec ch c') as [<-|Hne].
      * rewrite lookup_insert, Eat, (ncs_rows_nil ch k L Hchn). unfold optn. rewrite Z.add_0_l.
        rewrite (proj2 (Z.eqb_neq (ncs c k L) 0)) by done. done.
      * rewrite lookup_insert_ne by done. rewrite Eat, Z.add_0_r. done.
  - apply keybij_strip. exact F1.
Qed.

(** exec and exit: [R'] is the table of reverse mappings afterwards *)
Lemma gone_inv c g x1 R' : x_cage x !! c = Some g ->
  (forall y, x_seg y = x_seg x -> x_key y = x_key x -> ofold (unmap_one c) (c_rev g) y = Done x1 -> x_next y = x_next x ->
   (forall c' l, R' !! c' = Some l -> l ≡ₚ if c' =? c then [] else rows c' L) ->
   (forall c', R' !! c' = None -> c' <> c -> rows c' L = []) ->
   let L' := List.filter (fun p => negb (a_cage p =? c)) L in
   shinv (strip <$> x_seg x1) (x_key x1) (x_next x1) R' L' (sweep L' S)).
Proof.
  intros Hg y Hy1 Hy2 H Hy3 HR1 HR2 L'.
  assert (Hrow : forall k, nrow k (c_rev g) = ncs c k L).
  { intros k. rewrite <- nrow_rows. apply num_perm. exact (x_rev _ _ Hg). }
  destruct (unmap_fold c (c_rev g) y x1 H) as (F1 & F2 & F3 & _ & _ & _ & F7).
  { rewrite Hy1, Hy2. exact x_keybij. }
  { rewrite Hy1. intros k s Hs. rewrite Hrow. destruct (x_cnt _ _ Hs) as [-> _]. apply ncs_le. }
  rewrite Hy1 in F7. rewrite F3, Hy3.
  apply (shinv_update (strip <$> x_seg x) (x_key x) (x_next x) (c_rev <$> x_cage x) L S); [exact HI| | | | |].
  - intros c' l Hl. unfold L'. rewrite rows_others. exact (HR1 c' l Hl).
  - intros c' Hl. unfold L'. rewrite rows_others. destruct (Z.eqb_spec c' c); [done|]. exact (HR2 c' Hl n).
  - intros p Hp. apply filter_In in Hp as [Hp _]. exact (h_ex _ _ _ _ _ _ HI p Hp).
  - intros k. rewrite (lookup_fmap strip (x_seg x1)), F7. destruct ((strip <$> x_seg x) !! k) as [s1|] eqn:E1.
    2:{ rewrite lookup_fmap in E1. destruct (x_seg x !! k); [discriminate E1|]. done. }
    destruct (x_unstrip _ _ E1) as (s & Es & ->). rewrite Es. cbn [unmapped]. rewrite Hrow.
    destruct (x_cnt _ _ Es) as [En Eat]. pose proof (ncs_le c k L) as Hle.
    destruct (Z.eqb_spec (ncs c k L) 0) as [Hz|Hz].
    + apply (untouched k (strip s) L' E1); unfold L'.
      * rewrite nseg_others. lia.
      * intros c'. rewrite ncs_others. destruct (Z.eqb_spec c' c) as [->|]; lia.
    + unfold L'. rewrite nseg_others, En. cbn [strip with_offs g_rmid].
      destruct (g_rmid s && (nseg k L - ncs c k L =? 0)); [done|].
      exists (delete c (g_att s)). split; [done|]. intros c'. rewrite ncs_others. destruct (Z.eqb_spec c' c) as [->|Hne].
      * rewrite lookup_delete. done.
      * rewrite lookup_delete_ne by done. exact (Eat c').
  - apply keybij_strip. exact F1.
Qed.

Lemma exec_inv c g nc x' r : x_cage x !! c = Some g -> nc = c \/ x_cage x !! nc = None ->
  iexec x c g nc = Done (x', r) ->
  let e := Iev c (IExec nc) r in
  xinv x' (att_step L e) (sweep (att_step L e) (seg_step S e)).
Proof.
  intros Hg Hnc H e. unfold iexec in H.
  destruct (ofold (unmap_one c) (c_rev g) (set_cage (delete c) x)) as [x1|] eqn:Ef; [|discriminate H].
  cbn [obind] in H. injection H as <- <-. unfold xinv. cbn [set_cage x_cage x_seg x_key x_next].
  assert (HC : x_cage x1 = delete c (x_cage x)).
  { destruct (unmap_fold c (c_rev g) _ x1 Ef) as (_ & F2 & _); [exact x_keybij| |exact F2].
    cbn. intros k s Hs. assert (Hrow : nrow k (c_rev g) = ncs c k L).
    { rewrite <- nrow_rows. apply num_perm. exact (x_rev _ _ Hg). }
    rewrite Hrow. destruct (x_cnt _ _ Hs) as [-> _]. apply ncs_le. }
  rewrite HC, fmap_insert, fmap_delete. cbn [c_rev].
  apply (gone_inv c g x1 _ Hg (set_cage (delete c) x)); [done|done|exact Ef|done| |].
  - intros c' l Hl. destruct (decide (nc = c')) as [<-|Hne].
    + rewrite lookup_insert in Hl. injection Hl as <-. destruct (Z.eqb_spec nc c) as [_|Hn]; [done|].
      destruct Hnc as [Hnc|Hnc]; [done|]. rewrite (x_none _ Hnc). done.
    + rewrite lookup_insert_ne in Hl by done. apply lookup_delete_Some in Hl as [Hn Hl].
      rewrite (proj2 (Z.eqb_neq c' c)) by congruence. exact (h_rev _ _ _ _ _ _ HI c' l Hl).
  - intros c' Hl Hn. destruct (decide (nc = c')) as [<-|Hne]; [rewrite lookup_insert in Hl; discriminate Hl|].
    rewrite lookup_insert_ne in Hl by done. rewrite lookup_delete_ne in Hl by done.
    exact (h_none _ _ _ _ _ _ HI c' Hl).
Qed.

Lemma exit_inv c g st x' r : x_cage x !! c = Some g ->
  iexit x c g st = Done (x', r) ->
  let e := Iev c (IExit st) r in
  xinv x' (att_step L e) (sweep (att_step L e) (seg_step S e)).
Proof.
  intros Hg H e. unfold iexit in H.
  destruct (ofold (unmap_one c) (c_rev g) x) as [x1|] eqn:Ef; [|discriminate H].
  cbn [obind] in H. injection H as <- <-. unfold xinv. cbn [set_cage x_cage x_seg x_key x_next].
  assert (HC : x_cage x1 = x_cage x).
  { destruct (unmap_fold c (c_rev g) _ x1 Ef) as (_ & F2 & _); [exact x_keybij| |exact F2].
    intros k s Hs. assert (Hrow : nrow k (c_rev g) = ncs c k L).
    { rewrite <- nrow_rows. apply num_perm. exact (x_rev _ _ Hg). }
    rewrite Hrow. destruct (x_cnt _ _ Hs) as [-> _]. apply ncs_le. }
  rewrite HC, fmap_delete.
  apply (gone_inv c g x1 _ Hg x); [done|done|exact Ef|done| |].
  - intros c' l Hl. apply lookup_delete_Some in Hl as [Hn Hl].
    rewrite (proj2 (Z.eqb_neq c' c)) by congruence. exact (h_rev _ _ _ _ _ _ HI c' l Hl).
  - intros c' Hl Hn. rewrite lookup_delete_ne in Hl by done. exact (h_none _ _ _ _ _ _ HI c' Hl).
Qed.
End Steps.

(** ** Calls that do not touch shared memory *)
Lemma sem_init_shape chk x c g h ps v x' r : x_cage x !! c = Some g -> sem_init chk x c g h ps v = Done (x', r) -> shape x' = shape x.
Proof.
  intros Hg H. unfold sem_init in H. destruct (SEM_VALUE_MAX <? v); [injection H as <- _; done|].
  destruct (c_sem g !! h); [injection H as <- _; done|].
  set (x1 := set_cage _ _) in H. assert (H1 : shape x1 = shape x).
  { unfold x1. etransitivity; [apply (shape_cage _ c g); [exact Hg|reflexivity]|reflexivity]. }
  destruct (negb (ps =? 0)); [|injection H as <- _; done].
  destruct (region_of chk x1 (c_rev g) h) as [[[m id]|]|]; cbn [obind] in H; [|injection H as <- _; done|discriminate H].
  destruct (sub32 chk m h) as [off|]; [|discriminate H]. cbn [obind] in H.
  destruct (x_seg x1 !! id) as [s|] eqn:Es; [|injection H as <- _; done].
  destruct (spread _ _ _ _ _ x1) as [x2|] eqn:E2; [|discriminate H]. cbn [obind] in H. injection H as <- _.
  apply spread_semonly in E2. rewrite <- H1, <- (semonly_shape _ _ E2).
  apply (shape_seg _ _ s); [|done]. destruct E2 as (-> & _). exact Es.
Qed.
Lemma sem_destroy_shape chk x c g h x' r : x_cage x !! c = Some g -> sem_destroy chk x c g h = Done (x', r) -> shape x' = shape x.
Proof.
  intros Hg H. unfold sem_destroy in H. destruct (sem_at x g h) as [[o so]|]; [|injection H as <- _; done].
  set (x1 := set_cage _ _) in H. assert (H1 : shape x1 = shape x).
  { unfold x1. etransitivity; [apply (shape_cage _ c g); [exact Hg|reflexivity]|reflexivity]. }
  destruct (o_shared so); [|injection H as <- _; done].
  destruct (region_of chk x1 (c_rev g) h) as [[[m id]|]|]; cbn [obind] in H; [|injection H as <- _; done|discriminate H].
  destruct (sub32 chk m h) as [off|]; [|discriminate H]. cbn [obind] in H.
  destruct (x_seg x1 !! id) as [s|] eqn:Es; [|injection H as <- _; done].
  destruct (spread _ _ _ _ _ x1) as [x2|] eqn:E2; [|discriminate H]. cbn [obind] in H. injection H as <- _.
  apply spread_semonly in E2. rewrite <- H1. exact (semonly_shape _ _ E2).
Qed.

Lemma other_shape chk x c o x' r : shm_op o = false -> istep chk x c o = Done (x', r) -> shape x' = shape x.
Proof.
  intros Ho H. unfold istep in H. destruct (x_cage x !! c) as [g|] eqn:Hg; [|discriminate H].
  destruct o; try discriminate Ho; clear Ho.
  - exact (sem_init_shape _ _ _ _ _ _ _ _ _ Hg H).
  - unfold sem_wait in H. destruct (sem_at x g h) as [[o so]|]; [|injection H as <- _; done].
    destruct (o_val so =? 0); injection H as <- _; done.
  - unfold sem_try in H. destruct (sem_at x g h) as [[o so]|]; [|injection H as <- _; done].
    destruct (o_val so =? 0); injection H as <- _; done.
  - unfold sem_post in H. destruct (sem_at x g h) as [[o so]|]; [|injection H as <- _; done].
    destruct (o_val so <? SEM_VALUE_MAX); injection H as <- _; done.
  - unfold sem_get in H. destruct (sem_at x g h) as [[o so]|]; injection H as <- _; done.
  - exact (sem_destroy_shape _ _ _ _ _ _ _ Hg H).
  - injection H as <- _. etransitivity; [apply (shape_cage _ c g); [exact Hg|reflexivity]|reflexivity].
  - destruct (slot (c_mut g) h); injection H as <- _; [|done]. etransitivity; [apply (shape_cage _ c g); [exact Hg|reflexivity]|reflexivity].
  - unfold mutex_op in H. destruct (slot (c_mut g) h) as [k|]; [|injection H as <- _; done].
    destruct o; [destruct (default false (x_lock x !! k))|destruct (default false (x_lock x !! k))|]; injection H as <- _; done.
  - injection H as <- _. etransitivity; [apply (shape_cage _ c g); [exact Hg|reflexivity]|reflexivity].
  - destruct (slot (c_cv g) h); injection H as <- _; [|done]. etransitivity; [apply (shape_cage _ c g); [exact Hg|reflexivity]|reflexivity].
  - unfold cond_op in H. destruct (slot (c_cv g) h); injection H as <- _; done.
  - unfold cond_op in H. destruct (slot (c_cv g) h); [|injection H as <- _; done].
    destruct (slot (c_mut g) m); injection H as <- _; done.
Qed.
Lemma other_spec c o r L S : shm_op o = false -> att_step L (Iev c o r) = L /\ seg_step S (Iev c o r) = S.
Proof. destruct o; try discriminate; destruct r; done. Qed.

Definition map_ok (o : iop) : Prop :=
  match o with Shmat _ a _ bad => bad = false /\ page_ok a = true | _ => True end.

Theorem step_inv chk x c o x' r L S : xinv x L S -> iok x c o -> map_ok o -> istep chk x c o = Done (x', r) ->
  let e := Iev c o r in xinv x' (att_step L e) (sweep (att_step L e) (seg_step S e)).
Proof.
  intros HI Hok Hm H e. destruct (shm_op o) eqn:Eo.
  - unfold istep in H. destruct (x_cage x !! c) as [g|] eqn:Hg; [|discriminate H].
    destruct o; try discriminate Eo; unfold e.
    + exact (shmget_inv x L S HI c _ _ _ _ _ H).
    + destruct Hm as [Hb Hp]. exact (shmat_inv x L S HI chk c g _ _ _ _ _ _ Hg Hok Hb Hp H).
    + exact (proj2 (shmdt_inv x L S HI chk c g _ _ _ Hg H)).
    + exact (shmctl_inv x L S HI c _ _ _ _ H).
    + exact (fork_inv x L S HI c g _ _ _ Hg Hok H).
    + exact (exec_inv x L S HI c g _ _ _ Hg Hok H).
    + exact (exit_inv x L S HI c g _ _ _ Hg H).
  - destruct (other_spec c o r L S Eo) as [E1 E2]. unfold e. rewrite E1, E2.
    apply shinv_sweep. exact (shape_inv _ _ _ _ (other_shape _ _ _ _ _ _ Eo H) HI).
Qed.

Lemma boot_inv : xinv iboot [] [].
Proof.
  unfold xinv. cbn. rewrite fmap_empty. constructor.
  - intros c l Hl. rewrite lookup_fmap in Hl. destruct (decide (1 = c)) as [<-|Hne].
    + rewrite lookup_singleton in Hl. injection Hl as <-. done.
    + rewrite lookup_singleton_ne in Hl by done. discriminate Hl.
  - done.
  - intros id s H. rewrite lookup_empty in H. discriminate H.
  - intros p [].
  - intros k id. rewrite lookup_empty. split; [done|]. intros (s & H & _). rewrite lookup_empty in H. discriminate H.
  - intros id [s H]. rewrite lookup_empty in H. discriminate H.
  - intros z. split; [intros []|]. intros (s & H & _). rewrite lookup_empty in H. discriminate H.
  - intros id s H. rewrite lookup_empty in H. discriminate H.
  - intros id s H. rewrite lookup_empty in H. discriminate H.
  - lia.
Qed.

Lemma shm_fold tr e : attached (tr ++ [e]) = att_step (attached tr) e.
Proof. unfold attached. rewrite fold_left_app. done. Qed.
Lemma shm_fst tr st : (fold_left shm_step tr st).1 = fold_left att_step tr st.1.
Proof. revert st. induction tr as [|e tr IH]; intros st; [done|]. cbn [fold_left]. rewrite IH. done. Qed.
Lemma existing_snoc tr e : existing (tr ++ [e]) = sweep (attached (tr ++ [e])) (seg_step (existing tr) e).
Proof.
  unfold existing. rewrite fold_left_app. cbn [fold_left]. unfold shm_step at 1. cbn [snd].
  rewrite shm_fst, shm_fold. done.
Qed.

Theorem run_inv chk tr x : irun chk tr x -> maps_ok tr -> xinv x (attached tr) (existing tr).
Proof.
  induction 1 as [|tr x c o x' r Hr IH Hok Hs]; intros Hm; [exact boot_inv|].
  apply Forall_app in Hm as [Hm1 Hm2]. apply Forall_cons in Hm2 as [Hm2 _].
  rewrite existing_snoc, shm_fold. apply (step_inv chk x c o x' r _ _ (IH Hm1) Hok); [|exact Hs].
  destruct o; done.
Qed.
