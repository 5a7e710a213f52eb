From Verif Require Import Base CodecProofs SigModel SigSpec.

Lemma elem_members (m s : Z) :
  s ∈ members m <-> 1 <= s <= 64 /\ Z.testbit m (s - 1) = true.
Proof.
  unfold members. rewrite elem_of_list_to_set, elem_of_list_In, filter_In,
    <- elem_of_list_In, elem_of_seqZ. lia.
Qed.

#[local] Opaque members.

Lemma members_inj (m n : Z) : is_u64 m -> is_u64 n -> members m = members n -> m = n.
Proof.
  intros Hm Hn Heq. apply Z.bits_inj'. intros i Hi.
  destruct (Z.lt_ge_cases i 64) as [Hl|Hl].
  - assert (H : (i + 1) ∈ members m <-> (i + 1) ∈ members n) by (rewrite Heq; tauto).
    rewrite !elem_members in H. replace (i + 1 - 1) with i in H by lia.
    destruct (Z.testbit m i), (Z.testbit n i); try reflexivity;
      destruct H as [H1 H2]; [destruct H1 as [_ H1]|destruct H2 as [_ H2]]; try lia; auto; congruence.
  - rewrite (high_bit_zero 64 m i), (high_bit_zero 64 n i); unfold is_u64 in *; try lia; reflexivity.
Qed.

Lemma sig_bit_ok (s : Z) : 1 <= s <= 64 -> sig_bit s = Done (Z.shiftl 1 (s - 1)).
Proof.
  intros H. unfold sig_bit.
  replace ((0 <=? s - 1) && (s - 1 <? 64)) with true by lia. reflexivity.
Qed.

Lemma one_bit (k n : Z) : 0 <= k -> 0 <= n -> Z.testbit (Z.shiftl 1 k) n = (n =? k).
Proof.
  intros Hk Hn. rewrite shiftl_bit' by lia.
  destruct (Z.eqb_spec n k) as [->|Hne].
  - rewrite Z.sub_diag. replace (k <=? k) with true by lia. reflexivity.
  - destruct (Z.leb_spec k n); [|reflexivity]. cbn [andb].
    replace (n - k) with (Z.succ (n - k - 1)) by lia.
    change 1 with (2 * 0 + 1) at 1. rewrite Z.testbit_odd_succ by lia. apply Z.bits_0.
Qed.

Lemma not_u64_bit (x n : Z) : 0 <= n < 64 -> Z.testbit (not_u64 x) n = negb (Z.testbit x n).
Proof.
  intros Hn. unfold not_u64. rewrite Z.lxor_spec.
  change (2 ^ 64 - 1) with (Z.ones 64). rewrite Z.ones_spec_low by lia.
  destruct (Z.testbit x n); reflexivity.
Qed.

Lemma u64_of_bits (x : Z) :
  0 <= x -> (forall n, 64 <= n -> Z.testbit x n = false) -> is_u64 x.
Proof.
  intros Hx Hb. split; [exact Hx|].
  destruct (decide (x = 0)) as [->|Hz]; [lia|].
  apply Z.log2_lt_pow2; [lia|].
  destruct (Z.lt_ge_cases (Z.log2 x) 64) as [|Hge]; [assumption|].
  specialize (Hb _ Hge). rewrite Z.bit_log2 in Hb by lia. discriminate.
Qed.

Lemma u64_lor x y : is_u64 x -> is_u64 y -> is_u64 (Z.lor x y).
Proof.
  intros Hx Hy. apply u64_of_bits; [apply Z.lor_nonneg; unfold is_u64 in *; lia|].
  intros n Hn. rewrite Z.lor_spec, !(high_bit_zero 64) by (unfold is_u64 in *; lia). reflexivity.
Qed.
Lemma u64_land x y : is_u64 x -> 0 <= y -> is_u64 (Z.land x y).
Proof.
  intros Hx Hy. apply u64_of_bits; [apply Z.land_nonneg; lia|].
  intros n Hn. rewrite Z.land_spec, (high_bit_zero 64 x) by (unfold is_u64 in *; lia). reflexivity.
Qed.
Lemma u64_shift s : 1 <= s <= 64 -> is_u64 (Z.shiftl 1 (s - 1)).
Proof.
  intros Hs. apply u64_of_bits; [apply Z.shiftl_nonneg; lia|].
  intros n Hn. rewrite one_bit by lia. lia.
Qed.
Lemma not_u64_nonneg x : is_u64 x -> 0 <= not_u64 x.
Proof. intros Hx. unfold not_u64. apply Z.lxor_nonneg. unfold is_u64 in Hx. lia. Qed.

Lemma sigaddset_spec (m s : Z) : is_u64 m -> 1 <= s <= 64 ->
  exists m', lind_sigaddset m s = Done m' /\ is_u64 m' /\ members m' = members m ∪ {[s]}.
Proof.
  intros Hm Hs. unfold lind_sigaddset. rewrite sig_bit_ok by lia. cbn [obind].
  eexists; split; [reflexivity|]. split; [apply u64_lor; [exact Hm|apply u64_shift; lia]|].
  apply leibniz_equiv. intros x. rewrite elem_of_union, elem_of_singleton, !elem_members.
  rewrite Z.lor_spec. split.
  - intros [Hx Hb]. rewrite one_bit in Hb by lia.
    destruct (Z.testbit m (x - 1)); [left; auto|]. right. cbn in Hb. lia.
  - intros [[Hx Hb]|Hx]; (split; [lia|]).
    + rewrite Hb. reflexivity.
    + subst x. rewrite one_bit by lia. rewrite Z.eqb_refl. apply orb_true_r.
Qed.

Lemma sigdelset_spec (m s : Z) : is_u64 m -> 1 <= s <= 64 ->
  exists m', lind_sigdelset m s = Done m' /\ is_u64 m' /\ members m' = members m ∖ {[s]}.
Proof.
  intros Hm Hs. unfold lind_sigdelset. rewrite sig_bit_ok by lia. cbn [obind].
  eexists; split; [reflexivity|].
  split; [apply u64_land; [exact Hm|apply not_u64_nonneg, u64_shift; lia]|].
  apply leibniz_equiv. intros x. rewrite elem_of_difference, elem_of_singleton, !elem_members.
  rewrite Z.land_spec. split.
  - intros [Hx Hb]. rewrite not_u64_bit, one_bit in Hb by lia.
    destruct (Z.testbit m (x - 1)); [|discriminate]. cbn in Hb. split; [auto|lia].
  - intros [[Hx Hb] Hne]. split; [lia|]. rewrite not_u64_bit, one_bit, Hb by lia. lia.
Qed.

Lemma sigismember_spec (m s : Z) : 1 <= s <= 64 ->
  lind_sigismember m s = Done (bool_decide (s ∈ members m)).
Proof.
  intros Hs. unfold lind_sigismember. rewrite sig_bit_ok by lia. cbn [obind]. f_equal.
  assert (Hb : (Z.land m (Z.shiftl 1 (s - 1)) =? 0) = negb (Z.testbit m (s - 1))).
  { destruct (Z.testbit m (s - 1)) eqn:E.
    - destruct (Z.eqb_spec (Z.land m (Z.shiftl 1 (s - 1))) 0) as [H0|]; [|reflexivity].
      assert (Ht : Z.testbit (Z.land m (Z.shiftl 1 (s - 1))) (s - 1) = false)
        by (rewrite H0; apply Z.bits_0).
      rewrite Z.land_spec, one_bit, E, Z.eqb_refl in Ht by lia. discriminate.
    - apply Z.eqb_eq. apply Z.bits_inj'. intros n Hn.
      rewrite Z.land_spec, one_bit, Z.bits_0 by lia.
      destruct (Z.eqb_spec n (s - 1)) as [->|]; [rewrite E; reflexivity|apply andb_false_r]. }
  rewrite Hb, negb_involutive.
  destruct (Z.testbit m (s - 1)) eqn:E; symmetry.
  - apply bool_decide_true. rewrite elem_members. split; [lia|exact E].
  - apply bool_decide_false. rewrite elem_members. rewrite E. intros [_ ?]; discriminate.
Qed.

Lemma sigset_consts :
  members lind_sigemptyset = ∅ /\
  (forall s, s ∈ members lind_sigfillset <-> 1 <= s <= 64) /\
  is_u64 lind_sigemptyset /\ is_u64 lind_sigfillset.
Proof.
  split; [|split; [|split]].
  - apply leibniz_equiv. intros x. rewrite elem_members. unfold lind_sigemptyset.
    rewrite Z.bits_0. split; [intros [_ ?]; discriminate|intros H; exfalso; exact (not_elem_of_empty (C:=gset Z) x H)].
  - intros s. rewrite elem_members. unfold lind_sigfillset.
    change (2 ^ 64 - 1) with (Z.ones 64). split; [tauto|].
    intros Hs. split; [exact Hs|]. apply Z.ones_spec_low. lia.
  - unfold is_u64, lind_sigemptyset; lia.
  - unfold is_u64, lind_sigfillset; lia.
Qed.

(** ** Mask changes *)

Lemma members_lor a b : members (Z.lor a b) = members a ∪ members b.
Proof.
  apply leibniz_equiv. intros x. rewrite elem_of_union, !elem_members, Z.lor_spec, orb_true_iff.
  tauto.
Qed.
Lemma members_land a b : members (Z.land a b) = members a ∩ members b.
Proof.
  apply leibniz_equiv. intros x. rewrite elem_of_intersection, !elem_members, Z.land_spec, andb_true_iff.
  tauto.
Qed.
Lemma members_diff a b : members (Z.land a (not_u64 b)) = members a ∖ members b.
Proof.
  apply leibniz_equiv. intros x. rewrite elem_of_difference, !elem_members, Z.land_spec, andb_true_iff.
  split.
  - intros [Hx [Ha Hb]]. rewrite not_u64_bit in Hb by lia. split; [auto|].
    intros [_ Hc]. rewrite Hc in Hb. discriminate.
  - intros [[Hx Ha] Hb]. split; [lia|]. split; [exact Ha|]. rewrite not_u64_bit by lia.
    destruct (Z.testbit b (x - 1)); [|reflexivity]. exfalso; apply Hb; auto.
Qed.

Lemma getref_some (w : pworld) c g :
  getref w c = Done g <-> check_cageid c = true /\ pw_cages w !! c = Some g.
Proof.
  unfold getref. destruct (check_cageid c), (pw_cages w !! c); split; intros H;
    try discriminate; try (destruct H; discriminate); intuition congruence.
Qed.

Lemma sigprocmask_mask (w : pworld) (c tid how cur : Z) (set : option Z) :
  check_cageid c = true ->
  mask_of w c tid = Some cur ->
  exists w' r, p_sigprocmask w c tid how set = Done (w', OMask r cur) /\
    (exists cur', mask_of w' c tid = Some cur' /\
      members cur' =
        match set with
        | None => members cur
        | Some s => default (members cur) (requested how (members cur) (members s))
        end /\
      r = match set with
          | None => 0
          | Some s => if bool_decide (requested how (members cur) (members s) = None)
                      then - 22 else 0
          end) /\
    (forall c' tid', (c', tid') <> (c, tid) -> mask_of w' c' tid' = mask_of w c' tid').
Proof.
  intros Hc Hm. unfold mask_of in Hm.
  destruct (pw_cages w !! c) as [g|] eqn:Eg; [|discriminate].
  assert (Hg : getref w c = Done g) by (apply getref_some; auto).
  unfold p_sigprocmask. rewrite Hg. cbn [obind]. rewrite Hm.
  assert (Hframe : forall m' c' tid', (c', tid') <> (c, tid) ->
     mask_of (set_cage w c (set_mask g tid m')) c' tid' = mask_of w c' tid').
  { intros m' c' tid' Hne. unfold mask_of, set_cage; cbn [pw_cages].
    destruct (decide (c' = c)) as [->|Hcc].
    - rewrite lookup_insert, Eg. unfold set_mask; cbn [pc_sigset].
      apply lookup_insert_ne. congruence.
    - rewrite lookup_insert_ne by congruence. reflexivity. }
  assert (Hself : forall m', mask_of (set_cage w c (set_mask g tid m')) c tid = Some m').
  { intros m'. unfold mask_of, set_cage; cbn [pw_cages]. rewrite lookup_insert.
    unfold set_mask; cbn [pc_sigset]. apply lookup_insert. }
  destruct set as [s|].
  - unfold SIG_BLOCK, SIG_UNBLOCK, SIG_SETMASK, requested.
    assert (Hbd : forall x : gset Z, bool_decide (Some x = None) = false)
      by (intros x; apply bool_decide_false; discriminate).
    destruct (how =? 0); [|destruct (how =? 1); [|destruct (how =? 2)]]; cbn [from_option]; unfold id.
    + eexists _, _; split; [reflexivity|]. split; [|apply Hframe].
      eexists; split; [apply Hself|]. rewrite members_lor, Hbd. split; reflexivity.
    + eexists _, _; split; [reflexivity|]. split; [|exact (Hframe _)].
      eexists; split; [exact (Hself _)|]. rewrite members_diff, Hbd. split; reflexivity.
    + eexists _, _; split; [reflexivity|]. split; [|apply Hframe].
      eexists; split; [apply Hself|]. rewrite Hbd. split; reflexivity.
    + eexists _, _; split; [reflexivity|]. split; [|auto].
      exists cur. unfold mask_of. rewrite Eg. auto.
  - eexists _, _; split; [reflexivity|]. split; [|auto].
    exists cur. unfold mask_of. rewrite Eg. auto.
Qed.

(** ** Blocked signals *)

Lemma arrive_blocked (w : pworld) (c tid s cur : Z) :
  check_cageid c = true -> mask_of w c tid = Some cur -> 1 <= s <= 64 -> is_u64 cur ->
  s ∈ members cur ->
  exists w', p_gethandler w c tid s = Done (w', ORet 1) /\
    mask_of w' c tid = Some cur /\ pw_sent w' = pw_sent w.
Proof.
  intros Hc Hm Hs Hu Hin. unfold mask_of in Hm.
  destruct (pw_cages w !! c) as [g|] eqn:Eg; [|discriminate].
  assert (Hg : getref w c = Done g) by (apply getref_some; auto).
  unfold p_gethandler. rewrite Hg. cbn [obind]. rewrite Hm, sigismember_spec by lia.
  cbn [obind]. rewrite bool_decide_true by exact Hin. cbn [negb].
  destruct (sigaddset_spec cur s Hu Hs) as (m' & Ha & Hu' & Hm').
  rewrite Ha. cbn [obind]. eexists; split; [reflexivity|].
  split; [|reflexivity]. unfold mask_of, set_cage; cbn [pw_cages]. rewrite lookup_insert.
  unfold set_mask; cbn [pc_sigset]. rewrite lookup_insert. f_equal.
  apply members_inj; [exact Hu'|exact Hu|]. rewrite Hm'. apply leibniz_equiv. intros x.
  rewrite elem_of_union, elem_of_singleton. split; [intros [? | ->]; assumption|auto].
Qed.

Lemma arrive_unblocked (w : pworld) (c tid s cur : Z) g :
  check_cageid c = true -> mask_of w c tid = Some cur -> 1 <= s <= 64 ->
  pw_cages w !! c = Some g ->
  s ∉ members cur ->
  p_gethandler w c tid s =
    Done (w, ORet (match pc_handlers g !! s with Some a => sa_handler a | None => 0 end)).
Proof.
  intros Hc Hm Hs Eg Hin. unfold mask_of in Hm. rewrite Eg in Hm.
  assert (Hg : getref w c = Done g) by (apply getref_some; auto).
  unfold p_gethandler. rewrite Hg. cbn [obind]. rewrite Hm, sigismember_spec by lia.
  cbn [obind]. rewrite bool_decide_false by exact Hin. reflexivity.
Qed.

Lemma pending_list_spec (m s : Z) :
  s ∈ pending_list m <-> s ∈ members m /\ s <> 64.
Proof.
  unfold pending_list. rewrite elem_of_list_In, filter_In, <- elem_of_list_In, elem_of_seqZ.
  split.
  - intros [Hr Hb]. rewrite sigismember_spec in Hb by lia.
    apply bool_decide_eq_true in Hb. split; [exact Hb|lia].
  - intros [Hin Hne]. pose proof Hin as Hin'. rewrite elem_members in Hin'. split; [lia|].
    rewrite sigismember_spec by lia. apply bool_decide_eq_true. exact Hin.
Qed.

Lemma pending_list_nodup m : NoDup (pending_list m).
Proof. unfold pending_list. apply NoDup_ListNoDup, List.NoDup_filter, NoDup_ListNoDup, NoDup_seqZ. Qed.

Lemma unblock_sends (w : pworld) (c tid cur s : Z) :
  check_cageid c = true -> mask_of w c tid = Some cur ->
  exists w' evs, p_sigprocmask w c tid 1 (Some s) = Done (w', OMask 0 cur) /\
    pw_sent w' = pw_sent w ++ evs /\ NoDup evs /\
    (forall t x, (t, x) ∈ evs <-> t = tid /\ x ∈ members cur /\ x ∈ members s /\ x <> 64).
Proof.
  intros Hc Hm. unfold mask_of in Hm.
  destruct (pw_cages w !! c) as [g|] eqn:Eg; [|discriminate].
  assert (Hg : getref w c = Done g) by (apply getref_some; auto).
  unfold p_sigprocmask. rewrite Hg. cbn [obind]. rewrite Hm.
  unfold SIG_BLOCK, SIG_UNBLOCK. cbn [Z.eqb].
  eexists _, _. split; [reflexivity|]. split; [reflexivity|]. split.
  - apply NoDup_fmap_2; [intros ???; congruence|]. apply pending_list_nodup.
  - intros t x. rewrite elem_of_list_fmap. split.
    + intros (y & Heq & Hy). injection Heq as -> ->.
      rewrite pending_list_spec, members_land, elem_of_intersection in Hy. tauto.
    + intros (-> & H1 & H2 & H3). exists x. split; [reflexivity|].
      rewrite pending_list_spec, members_land, elem_of_intersection. tauto.
Qed.

(** ** Actions, parents and ids as functions of the history *)

Definition keeps (f : pcage -> pcage) : Prop := forall g, pc_parent (f g) = pc_parent g.

(** State relation: the world agrees with the history [h] (newest first). *)
Definition agrees (h : list pop) (w : pworld) : Prop :=
  forall c g, pw_cages w !! c = Some g ->
    (forall s, default sigaction_default (pc_handlers g !! s) = action_in h c s) /\
    pc_parent g = parent_in h c /\
    (forall k, id_get k g = if asked_in h c k then id_default k else -1) /\
    t_cageid (pc_timer g) = c /\ 0 <= pc_parent g < MAXCAGEID /\ 0 <= c < MAXCAGEID.

Lemma agrees_init : agrees [] pinit.
Proof.
  intros c g H. unfold pinit in H; cbn [pw_cages] in H.
  apply lookup_insert_Some in H as [[<- <-]|[Hne H]].
  - repeat split; try lia; intros; cbn; rewrite ?lookup_empty; try reflexivity; try (destruct k; reflexivity); unfold MAXCAGEID; lia.
  - apply lookup_insert_Some in H as [[<- <-]|[_ H]]; [|rewrite lookup_empty in H; discriminate].
    repeat split; intros; cbn; rewrite ?lookup_empty; try reflexivity; try (destruct k; reflexivity); unfold MAXCAGEID; lia.
Qed.

Ltac break_step H :=
  repeat match type of H with
  | obind ?o _ = Done _ => let E := fresh "E" in destruct o eqn:E; cbn [obind] in H; [|discriminate]
  | (if ?b then _ else _) = Done _ => let E := fresh "E" in destruct b eqn:E
  | (match ?x with Some _ => _ | None => _ end) = Done _ =>
      let E := fresh "E" in destruct x eqn:E
  | Panic = Done _ => discriminate
  | Done _ = Done _ => injection H as H; subst
  | done_ret _ _ = Done _ => unfold done_ret in H
  | (_, _) = (_, _) => injection H as H; subst
  end.

Lemma kill_from_id_cages w c s w' : kill_from_id w c s = Done w' -> pw_cages w' = pw_cages w.
Proof.
  unfold kill_from_id. intros H.
  destruct (check_cageid c); [|discriminate].
  destruct (pw_cages w !! c); [destruct (pc_main p =? 0); [discriminate|]|];
    injection H as <-; reflexivity.
Qed.

Lemma kill_from_id_now w c s w' : kill_from_id w c s = Done w' -> pw_now w' = pw_now w.
Proof.
  unfold kill_from_id. intros H.
  destruct (check_cageid c); [|discriminate].
  destruct (pw_cages w !! c); [destruct (pc_main p =? 0); [discriminate|]|];
    injection H as <-; reflexivity.
Qed.

Lemma agrees_same_cages h h' w w' :
  pw_cages w' = pw_cages w ->
  (forall c s, action_in h' c s = action_in h c s) ->
  (forall c, parent_in h' c = parent_in h c) ->
  (forall c k, asked_in h' c k = asked_in h c k) ->
  agrees h w -> agrees h' w'.
Proof.
  intros Hc Ha Hp Hk H c g Hg. rewrite Hc in Hg. destruct (H c g Hg) as (H1 & H2 & H3 & H4 & H5 & H6).
  repeat split; intros; rewrite ?Ha, ?Hp, ?Hk; auto; lia.
Qed.

(** An update of one cage that keeps the handler map, parent, ids and owner. *)
Lemma agrees_set_same h h' w c g g' :
  pw_cages w !! c = Some g ->
  pc_handlers g' = pc_handlers g -> pc_parent g' = pc_parent g ->
  (forall k, id_get k g' = id_get k g) -> t_cageid (pc_timer g') = t_cageid (pc_timer g) ->
  (forall c s, action_in h' c s = action_in h c s) ->
  (forall c, parent_in h' c = parent_in h c) ->
  (forall c k, asked_in h' c k = asked_in h c k) ->
  agrees h w -> agrees h' (set_cage w c g').
Proof.
  intros Hg Hh Hp Hi Ht Ha Hpp Hk H c' x Hx. unfold set_cage in Hx; cbn [pw_cages] in Hx.
  apply lookup_insert_Some in Hx as [[<- <-]|[Hne Hx]].
  - destruct (H c g Hg) as (H1 & H2 & H3 & H4 & H5 & H6).
    rewrite Hh, Hp, Ht. repeat split; intros; rewrite ?Ha, ?Hpp, ?Hk, ?Hi; auto; lia.
  - destruct (H c' x Hx) as (H1 & H2 & H3 & H4 & H5 & H6).
    repeat split; intros; rewrite ?Ha, ?Hpp, ?Hk; auto; lia.
Qed.

Lemma id_set_parent k g v : pc_parent (id_set k g v) = pc_parent g.
Proof. destruct g, k; reflexivity. Qed.
Lemma id_set_handlers k g v : pc_handlers (id_set k g v) = pc_handlers g.
Proof. destruct g, k; reflexivity. Qed.
Lemma id_set_timer k g v : pc_timer (id_set k g v) = pc_timer g.
Proof. destruct g, k; reflexivity. Qed.

Lemma timer_set_owner t now a b : t_cageid (timer_set t now a b) = t_cageid t.
Proof. unfold timer_set. destruct (a =? 0); reflexivity. Qed.

Lemma agrees_step h w o w' out :
  agrees h w -> pstep w o = Done (w', out) -> agrees (o :: h) w'.
Proof.
  intros H Hs.
  destruct o as [c ch|c ch|c st|c|c|c k|c sig act|c tg sig|c tid how set|c tid|c tid sn|c wh new|c|d];
    cbn [pstep] in Hs.
  - (* fork *)
    unfold p_fork in Hs. break_step Hs. apply getref_some in E as [Ec Eg].
    intros c' x Hx. unfold set_cage in Hx; cbn [pw_cages] in Hx.
    destruct (H c a Eg) as (H1 & H2 & H3 & H4 & H5 & H6).
    apply lookup_insert_Some in Hx as [[<- <-]|[Hne Hx]].
    + cbn [pc_handlers pc_parent pc_timer t_cageid timer_new action_in parent_in asked_in].
      rewrite Z.eqb_refl. unfold check_cageid in *.
      repeat split; try assumption; lia.
    + cbn [action_in parent_in asked_in]. replace (ch =? c') with false by lia.
      destruct (H c' x Hx) as (G1 & G2 & G3 & G4 & G5 & G6). auto 10.
  - (* exec *)
    unfold p_exec in Hs. break_step Hs. apply getref_some in E as [Ec Eg].
    intros c' x Hx. unfold set_cage in Hx; cbn [pw_cages] in Hx.
    destruct (H c a Eg) as (H1 & H2 & H3 & H4 & H5 & H6).
    apply lookup_insert_Some in Hx as [[<- <-]|[Hne Hx]].
    + cbn [pc_handlers pc_parent pc_timer t_cageid action_in parent_in asked_in].
      rewrite Z.eqb_refl. unfold check_cageid in *.
      repeat split; try assumption; try lia.
      intros k. destruct k; reflexivity.
    + apply lookup_delete_Some in Hx as [Hne2 Hx].
      cbn [action_in parent_in asked_in]. replace (ch =? c') with false by lia.
      destruct (H c' x Hx) as (G1 & G2 & G3 & G4 & G5 & G6). auto 10.
  - (* exit *)
    assert (Hd : agrees (PExit c st :: h) (PWorld (delete c (pw_cages w)) (pw_now w) (pw_sent w))).
    { intros c' x Hx; cbn [pw_cages] in Hx. apply lookup_delete_Some in Hx as [_ Hx].
      exact (H c' x Hx). }
    unfold p_exit in Hs. break_step Hs; [exact Hd|].
    eapply agrees_same_cages; [apply (kill_from_id_cages _ _ _ _ E1)|..]; try reflexivity. exact Hd.
  - unfold p_getpid in Hs. break_step Hs. exact H.
  - unfold p_getppid in Hs. break_step Hs. exact H.
  - (* ids *)
    unfold p_getid in Hs. break_step Hs.
    + apply getref_some in E as [Ec Eg]. destruct (H c a Eg) as (H1 & H2 & H3 & H4 & H5 & H6).
      intros c' x Hx. unfold set_cage in Hx; cbn [pw_cages] in Hx.
      apply lookup_insert_Some in Hx as [[<- <-]|[Hne Hx]].
      * rewrite id_set_handlers, id_set_parent, id_set_timer.
        cbn [action_in parent_in asked_in]. rewrite Z.eqb_refl.
        repeat split; auto; try lia.
        intros k'. specialize (H3 k'). destruct a, k, k'; cbn in *; try exact H3; reflexivity.
      * destruct (H c' x Hx) as (G1 & G2 & G3 & G4 & G5 & G6).
        cbn [action_in parent_in asked_in]. replace (c =? c') with false by lia. cbn. auto 10.
    + apply getref_some in E as [Ec Eg]. destruct (H c a Eg) as (H1 & H2 & H3 & H4 & H5 & H6).
      intros c' x Hx. destruct (H c' x Hx) as (G1 & G2 & G3 & G4 & G5 & G6).
      cbn [action_in parent_in asked_in]. repeat split; auto; try lia.
      intros k'. rewrite G3. destruct (Z.eqb_spec c c') as [->|]; [|reflexivity]. cbn.
      rewrite Hx in Eg. injection Eg as ->. specialize (H3 k).
      destruct (asked_in h c' k) eqn:Ek; [|rewrite H3 in E0; discriminate].
      destruct k, k'; cbn; try reflexivity; rewrite Ek; reflexivity.
  - (* sigaction *)
    unfold p_sigaction in Hs. break_step Hs; apply getref_some in E as [Ec Eg];
      destruct (H c a Eg) as (H1 & H2 & H3 & H4 & H5 & H6).
    + eapply agrees_same_cages; [reflexivity|..|exact H]; try reflexivity.
      intros c' s'. cbn [action_in]. destruct (c =? c'), (Z.eqb_spec sig s'); cbn; try reflexivity.
      subst. destruct (s' =? 9), (s' =? 19); cbn in *; try reflexivity; discriminate.
    + intros c' x Hx. unfold set_cage in Hx; cbn [pw_cages] in Hx.
      cbn [parent_in asked_in].
      apply lookup_insert_Some in Hx as [[<- <-]|[Hne Hx]].
      * cbn [pc_handlers pc_parent pc_timer].
        assert (Hh : forall s0, default sigaction_default (<[sig := s]> (pc_handlers a) !! s0)
                    = action_in (PSigaction c sig (Some s) :: h) c s0).
        { intros s0. cbn [action_in]. rewrite Z.eqb_refl. cbn.
          destruct (Z.eqb_spec sig s0) as [->|Hns].
          - rewrite lookup_insert. cbn.
            destruct (s0 =? 9), (s0 =? 19); cbn in *; try discriminate; reflexivity.
          - rewrite lookup_insert_ne by congruence. cbn. apply H1. }
        repeat split; auto; lia.
      * destruct (H c' x Hx) as (G1 & G2 & G3 & G4 & G5 & G6).
        cbn [action_in]. replace (c =? c') with false by lia. cbn. auto 10.
    + exact H.
  - (* kill *)
    unfold p_kill in Hs. break_step Hs; exact H.
  - (* sigprocmask *)
    unfold p_sigprocmask in Hs. break_step Hs; try exact H; apply getref_some in E as [Ec Eg];
      try (eapply agrees_set_same; [exact Eg|..|exact H]; try reflexivity; intros []; reflexivity).
  - (* thread init *)
    unfold p_thread_init in Hs. break_step Hs. apply getref_some in E as [Ec Eg].
    eapply agrees_set_same; [exact Eg|..|exact H]; try reflexivity; intros []; reflexivity.
  - (* arrive *)
    unfold p_gethandler in Hs. break_step Hs; try exact H. apply getref_some in E as [Ec Eg].
    eapply agrees_set_same; [exact Eg|..|exact H]; try reflexivity; intros []; reflexivity.
  - (* setitimer *)
    unfold p_setitimer in Hs. break_step Hs; try exact H. apply getref_some in E as [Ec Eg].
    eapply agrees_set_same; [exact Eg|..|exact H]; try reflexivity.
    cbn [set_timer pc_timer]. apply timer_set_owner.
  - (* tick *)
    unfold p_tick in Hs. break_step Hs; try exact H; apply getref_some in E as [Ec Eg].
    + pose proof (kill_from_id_cages _ _ _ _ E3) as Hk.
      assert (Eg' : pw_cages a0 !! c = Some a) by (rewrite Hk; exact Eg).
      assert (H' : agrees h a0) by (eapply agrees_same_cages; [exact Hk|..|exact H]; reflexivity).
      eapply agrees_set_same; [exact Eg'|..|exact H']; try reflexivity.
      cbn [set_timer pc_timer]. apply timer_set_owner.
    + eapply agrees_set_same; [exact Eg|..|exact H]; try reflexivity; intros []; reflexivity.
  - injection Hs as <- <-. exact H.
Qed.

Lemma agrees_run h w l w' : agrees h w -> prun w l = Some w' -> agrees (rev l ++ h) w'.
Proof.
  revert h w. induction l as [|o l IH]; intros h w H Hr; cbn [prun] in Hr.
  - injection Hr as <-. exact H.
  - destruct (pstep w o) as [[w1 out]|] eqn:E; [|discriminate].
    cbn [rev]. rewrite <- app_assoc. cbn [app]. apply (IH (o :: h) w1); [|exact Hr].
    eapply agrees_step; eauto.
Qed.

Lemma agrees_reach l w : prun pinit l = Some w -> agrees (rev l) w.
Proof. intros H. rewrite <- (app_nil_r (rev l)). eapply agrees_run; [apply agrees_init|exact H]. Qed.

Lemma sigaction_reports l w c sig act w' r old :
  prun pinit l = Some w -> pstep w (PSigaction c sig act) = Done (w', OAct r old) ->
  old = action_in (rev l) c sig /\
  (r = 0 <-> act = None \/ (sig <> 9 /\ sig <> 19)) /\ (r <> 0 -> r = -22 /\ w' = w).
Proof.
  intros Hr Hs. apply agrees_reach in Hr. cbn [pstep] in Hs. unfold p_sigaction in Hs.
  destruct (getref w c) as [g|] eqn:Eg; cbn [obind] in Hs; [|discriminate].
  apply getref_some in Eg as [Ec Eg]. destruct (Hr c g Eg) as (H1 & _). rewrite H1 in Hs.
  destruct act as [a|].
  - destruct ((sig =? 9) || (sig =? 19)) eqn:E; injection Hs as <- <- <-.
    + split; [reflexivity|]. split; [|intros _; split; reflexivity].
      split; [discriminate|]. intros [?|?]; [discriminate|lia].
    + split; [reflexivity|]. split; [|lia]. split; [intros _; right; lia|auto].
  - injection Hs as <- <- <-. split; [reflexivity|]. split; [|lia]. tauto.
Qed.

Lemma action_9_19 h c sig : sig = 9 \/ sig = 19 -> action_in h c sig = sigaction_default.
Proof.
  intros Hs. revert c. induction h as [|o h IH]; intros c; [reflexivity|].
  destruct o; cbn [action_in]; try apply IH.
  - destruct (child =? c); apply IH.
  - destruct (child =? c); [reflexivity|apply IH].
  - destruct act; [|apply IH].
    destruct (Z.eqb_spec sig0 sig) as [->|]; destruct (c0 =? c); cbn; try apply IH.
    destruct Hs as [-> | ->]; cbn; apply IH.
Qed.

Lemma handler_run_is_last l w c tid s w' r cur :
  prun pinit l = Some w -> mask_of w c tid = Some cur -> 1 <= s <= 64 -> s ∉ members cur ->
  pstep w (PArrive c tid s) = Done (w', ORet r) ->
  r = sa_handler (action_in (rev l) c s) /\ w' = w.
Proof.
  intros Hr Hm Hs Hnin Hst. apply agrees_reach in Hr. cbn [pstep] in Hst.
  assert (Hm0 := Hm). unfold mask_of in Hm.
  destruct (pw_cages w !! c) as [g|] eqn:Eg; [|discriminate].
  assert (Hc : check_cageid c = true).
  { destruct (Hr c g Eg) as (_ & _ & _ & _ & _ & ?). unfold check_cageid. lia. }
  rewrite (arrive_unblocked w c tid s cur g Hc Hm0 Hs Eg Hnin) in Hst.
  injection Hst as <- <-. split; [|reflexivity].
  destruct (Hr c g Eg) as (H1 & _). rewrite <- H1.
  destruct (pc_handlers g !! s); reflexivity.
Qed.

Lemma pid_reports l w c w' r :
  prun pinit l = Some w ->
  (pstep w (PGetpid c) = Done (w', ORet r) -> r = c /\ w' = w) /\
  (pstep w (PGetppid c) = Done (w', ORet r) -> r = parent_in (rev l) c /\ w' = w).
Proof.
  intros Hr. apply agrees_reach in Hr.
  assert (Hi : forall x, 0 <= x < MAXCAGEID -> to_i32 x = x).
  { intros x Hx. unfold MAXCAGEID in Hx. unfold to_i32, wrap_u.
    rewrite Z.mod_small by lia. destruct (Z.ltb_spec x (2 ^ 31)); lia. }
  split; cbn [pstep]; unfold p_getpid, p_getppid; intros Hs;
    destruct (getref w c) as [g|] eqn:Eg; cbn [obind] in Hs; try discriminate;
    injection Hs as <- <-; apply getref_some in Eg as [Ec Eg];
    destruct (Hr c g Eg) as (_ & H2 & _ & _ & H5 & H6).
  - rewrite Hi by lia. auto.
  - rewrite Hi by lia. auto.
Qed.

Lemma id_reports l w c k w' r :
  prun pinit l = Some w -> pstep w (PGetid c k) = Done (w', ORet r) ->
  r = if asked_in (rev l) c k then 1000 else -1.
Proof.
  intros Hr Hs. apply agrees_reach in Hr. cbn [pstep] in Hs. unfold p_getid in Hs.
  destruct (getref w c) as [g|] eqn:Eg; cbn [obind] in Hs; [|discriminate].
  apply getref_some in Eg as [Ec Eg]. destruct (Hr c g Eg) as (_ & _ & H3 & _).
  rewrite H3 in Hs. destruct (asked_in (rev l) c k).
  - destruct k; cbn in Hs; injection Hs as <- <-; reflexivity.
  - cbn in Hs. injection Hs as <- <-. reflexivity.
Qed.

(** ** Timers *)

(** [set_to h c]: (setting time, value, interval) of the last effective arming
    is tracked by the timer record itself; soundness of firing: *)
Lemma tick_fires_late w c w' r :
  pstep w (PTick c) = Done (w', ORet r) -> pw_sent w' <> pw_sent w ->
  exists g, pw_cages w !! c = Some g /\ t_ticking (pc_timer g) = true /\
    t_curr (pc_timer g) <= pw_now w - t_start (pc_timer g).
Proof.
  cbn [pstep]. unfold p_tick. intros Hs Hne.
  break_step Hs; cbn in Hne; try congruence.
  apply getref_some in E as [Ec Eg]. exists a. split; [exact Eg|]. split; [exact E1|]. lia.
Qed.

Lemma duration_report_secs d : tv_sec (duration_report d) = d / NS.
Proof. reflexivity. Qed.

Lemma setitimer_seconds w c v w1 o1 w2 r2 old2 :
  0 <= tv_sec (it_value v) < 2 ^ 63 -> 0 <= tv_usec (it_value v) < 1000000 ->
  0 <= tv_sec (it_interval v) < 2 ^ 63 -> 0 <= tv_usec (it_interval v) < 1000000 ->
  (tv_sec (it_value v) <> 0 \/ tv_usec (it_value v) <> 0) ->
  pstep w (PSetitimer c 0 (Some v)) = Done (w1, o1) ->
  pstep w1 (PSetitimer c 0 None) = Done (w2, OTimer r2 old2) ->
  r2 = 0 /\ w2 = w1 /\
  tv_sec (it_value old2) = tv_sec (it_value v) /\
  tv_sec (it_interval old2) = tv_sec (it_interval v).
Proof.
  intros H1 H2 H3 H4 Hnz Hs1 Hs2. cbn [pstep] in Hs1, Hs2. unfold p_setitimer in Hs1, Hs2.
  cbn [Z.eqb] in Hs1, Hs2.
  destruct (getref w c) as [g|] eqn:Eg; cbn [obind] in Hs1; [|discriminate].
  assert (Hd : forall s u, 0 <= s < 2 ^ 63 -> 0 <= u < 1000000 -> duration_new s u = Done (s * NS + u)).
  { intros s u Hs Hu. unfold duration_new, to_u64, to_u32, wrap_u, NS.
    rewrite !Z.mod_small by lia. replace (u / 1000000000) with 0 by (symmetry; apply Z.div_small; lia).
    replace (s + 0 <? 2 ^ 64) with true by lia. reflexivity. }
  rewrite !Hd in Hs1 by lia. cbn [obind] in Hs1. injection Hs1 as <- <-.
  apply getref_some in Eg as [Ec Eg].
  assert (Eg' : forall g', getref (set_cage w c g') c = Done g').
  { intros g'. apply getref_some. split; [exact Ec|]. cbn. apply lookup_insert. }
  rewrite Eg' in Hs2. cbn [obind] in Hs2. injection Hs2 as <- <- <-.
  split; [reflexivity|]. split; [reflexivity|].
  cbn [it_value it_interval set_timer pc_timer]. unfold timer_set.
  replace (tv_sec (it_value v) * NS + tv_usec (it_value v) =? 0) with false
    by (unfold NS; lia).
  cbn [t_curr t_next]. rewrite !duration_report_secs. unfold NS.
  split; rewrite Z.div_add_l by lia; rewrite Z.div_small by lia; lia.
Qed.

(** ** Firing of an armed timer *)

Definition armed (w : pworld) (c now0 d n : Z) : Prop :=
  exists g, pw_cages w !! c = Some g /\ t_ticking (pc_timer g) = true /\
    t_start (pc_timer g) = now0 /\ t_curr (pc_timer g) = d /\ t_next (pc_timer g) = n /\
    0 < t_threads (pc_timer g).

Lemma armed_set w c c' g g' now0 d n :
  pw_cages w !! c' = Some g -> pc_timer g' = pc_timer g ->
  armed w c now0 d n -> armed (set_cage w c' g') c now0 d n.
Proof.
  intros Hg Ht (x & Hx & H). unfold armed, set_cage; cbn [pw_cages].
  destruct (decide (c' = c)) as [->|Hne].
  - rewrite Hx in Hg. injection Hg as ->. exists g'. rewrite lookup_insert, Ht. auto.
  - exists x. rewrite lookup_insert_ne by congruence. auto.
Qed.

Lemma quiet_step w o w' out c now0 d n :
  armed w c now0 d n -> quiet_for c o -> pw_now w' - now0 < d ->
  pstep w o = Done (w', out) ->
  armed w' c now0 d n /\ pw_sent w' = pw_sent w /\ pw_now w <= pw_now w'.
Proof.
  intros Ha Hq Hlt Hs.
  destruct o as [c' ch|c' ch|c' st|c'|c'|c' k|c' sig act|c' tg sig|c' tid how set|c' tid|c' tid sn|c' wh new|c'|dd];
    cbn [quiet_for] in Hq; try contradiction; cbn [pstep] in Hs.
  - unfold p_getpid in Hs. break_step Hs. auto using Z.le_refl.
  - unfold p_getppid in Hs. break_step Hs. auto using Z.le_refl.
  - unfold p_getid in Hs. break_step Hs; [|auto using Z.le_refl].
    apply getref_some in E as [Ec Eg]. split; [|cbn; auto using Z.le_refl].
    eapply armed_set; [exact Eg|apply id_set_timer|exact Ha].
  - unfold p_sigaction in Hs. break_step Hs; try (auto using Z.le_refl; fail).
    apply getref_some in E as [Ec Eg]. split; [|cbn; auto using Z.le_refl].
    eapply armed_set; [exact Eg|reflexivity|exact Ha].
  - unfold p_gethandler in Hs. break_step Hs; try (auto using Z.le_refl; fail).
    apply getref_some in E as [Ec Eg]. split; [|cbn; auto using Z.le_refl].
    eapply armed_set; [exact Eg|reflexivity|exact Ha].
  - subst c'. unfold p_tick in Hs. break_step Hs; try (auto using Z.le_refl; fail);
      apply getref_some in E as [Ec Eg]; destruct Ha as (x & Hx & Ht & Hst & Hcu & _);
      rewrite Hx in Eg; injection Eg as ->.
    + exfalso. cbn in Hlt. 
      pose proof (kill_from_id_now _ _ _ _ E3).
      lia.
    + congruence.
  - injection Hs as <- <-. split; [exact Ha|]. cbn. split; [reflexivity|lia].
Qed.

Lemma quiet_run c now0 d n l : forall w w',
  armed w c now0 d n -> Forall (quiet_for c) l -> prun w l = Some w' ->
  pw_now w <= pw_now w' /\
  (pw_now w' - now0 < d -> armed w' c now0 d n /\ pw_sent w' = pw_sent w).
Proof.
  assert (Hmono : forall l w w', Forall (quiet_for c) l -> prun w l = Some w' -> pw_now w <= pw_now w').
  { clear. induction l as [|o l IH]; intros w w' Hq Hr; cbn [prun] in Hr.
    - injection Hr as <-. lia.
    - destruct (pstep w o) as [[w1 out]|] eqn:E; [|discriminate].
      inversion Hq as [|? ? Hq1 Hq2]; subst. specialize (IH _ _ Hq2 Hr).
      enough (pw_now w <= pw_now w1) by lia. clear IH Hr.
      destruct o as [c' ch|c' ch|c' st|c'|c'|c' k|c' sig act|c' tg sig|c' tid how set|c' tid|c' tid sn|c' wh new|c'|dd];
        cbn [quiet_for] in Hq1; try contradiction; cbn [pstep] in E.
      + unfold p_getpid in E. break_step E. lia.
      + unfold p_getppid in E. break_step E. lia.
      + unfold p_getid in E. break_step E; cbn; lia.
      + unfold p_sigaction in E. break_step E; cbn; lia.
      + unfold p_gethandler in E. break_step E; cbn; lia.
      + unfold p_tick in E. break_step E; cbn; try lia.
        match goal with H : kill_from_id _ _ _ = Done _ |- _ => pose proof (kill_from_id_now _ _ _ _ H) end.
        lia.
      + injection E as <- <-. cbn. lia. }
  induction l as [|o l IH]; intros w w' Ha Hq Hr.
  - cbn in Hr. injection Hr as <-. split; [lia|auto].
  - split; [eapply Hmono; eauto|]. intros Hlt. cbn [prun] in Hr.
    destruct (pstep w o) as [[w1 out]|] eqn:E; [|discriminate].
    inversion Hq as [|? ? Hq1 Hq2]; subst.
    pose proof (Hmono _ _ _ Hq2 Hr) as Hm.
    destruct (quiet_step w o w1 out c now0 d n Ha Hq1 ltac:(lia) E) as (Ha1 & Hs1 & _).
    destruct (IH w1 w' Ha1 Hq2 Hr) as [_ H2]. destruct (H2 Hlt) as [H3 H4].
    split; [exact H3|]. rewrite H4. exact Hs1.
Qed.

Lemma tick_due w c now0 d n g :
  armed w c now0 d n -> d <= pw_now w - now0 ->
  check_cageid c = true -> pw_cages w !! c = Some g ->
  t_cageid (pc_timer g) = c -> pc_main g <> 0 ->
  exists w', pstep w (PTick c) = Done (w', ORet 1) /\
    pw_sent w' = pw_sent w ++ [(pc_main g, 14)] /\
    (0 < n -> armed w' c (pw_now w) n n) /\
    (n = 0 -> exists g', pw_cages w' !! c = Some g' /\ t_ticking (pc_timer g') = false).
Proof.
  intros (x & Hx & Ht & Hst & Hcu & Hn & Hth) Hd Hc Hg Ho Hm.
  rewrite Hx in Hg. injection Hg as ->.
  cbn [pstep]. unfold p_tick. rewrite (proj2 (getref_some w c g) (conj Hc Hx)). cbn [obind].
  replace (t_threads (pc_timer g) <=? 0) with false by lia. rewrite Ht, Hcu, Hst.
  replace (d - (pw_now w - now0) <=? 0) with true by lia.
  unfold kill_from_id. rewrite Ho, Hc, Hx.
  replace (pc_main g =? 0) with false by lia. cbn [obind].
  eexists. split; [reflexivity|]. split; [reflexivity|].
  rewrite Hn. unfold armed, set_cage; cbn [pw_cages]. split.
  - intros Hpos. eexists; split; [apply lookup_insert|]. cbn [set_timer pc_timer]. unfold timer_set.
    replace (n =? 0) with false by lia. rewrite Ht. cbn. auto.
  - intros ->. eexists; split; [apply lookup_insert|]. reflexivity.
Qed.

Lemma setitimer_arms w c s i w1 o1 :
  1 <= s < 2 ^ 63 -> 0 <= i < 2 ^ 63 ->
  (forall g, pw_cages w !! c = Some g -> 0 <= t_threads (pc_timer g) /\
     (t_ticking (pc_timer g) = true -> 0 < t_threads (pc_timer g))) ->
  pstep w (PSetitimer c 0 (Some (ITV (TV i 0) (TV s 0)))) = Done (w1, o1) ->
  armed w1 c (pw_now w) (s * 1000000000) (i * 1000000000) /\ pw_now w1 = pw_now w /\
  pw_sent w1 = pw_sent w.
Proof.
  intros Hs Hi Hth Hst. cbn [pstep] in Hst. unfold p_setitimer in Hst. cbn [Z.eqb] in Hst.
  destruct (getref w c) as [g|] eqn:Eg; cbn [obind] in Hst; [|discriminate].
  apply getref_some in Eg as [Ec Eg]. cbn [it_value it_interval tv_sec tv_usec] in Hst.
  assert (Hd : forall s, 0 <= s < 2 ^ 63 -> duration_new s 0 = Done (s * NS)).
  { intros x Hx. unfold duration_new, to_u64, to_u32, wrap_u, NS.
    rewrite !Z.mod_small by lia. rewrite Z.div_0_l by lia.
    replace (x + 0 <? 2 ^ 64) with true by lia. rewrite Z.add_0_r. reflexivity. }
  rewrite !Hd in Hst by lia. cbn [obind] in Hst. injection Hst as <- <-.
  destruct (Hth g Eg) as [Ht1 Ht2]. split; [|split; reflexivity].
  eexists; split; [unfold set_cage; cbn [pw_cages]; apply lookup_insert|].
  cbn [set_timer pc_timer]. unfold timer_set, NS.
  replace (s * 1000000000 =? 0) with false by lia. cbn.
  repeat split; auto. destruct (t_ticking (pc_timer g)); [auto|lia].
Qed.

(** The thread counter is sound in every reachable state. *)
Definition threads_ok (w : pworld) : Prop :=
  forall c g, pw_cages w !! c = Some g -> 0 <= t_threads (pc_timer g) /\
    (t_ticking (pc_timer g) = true -> 0 < t_threads (pc_timer g)).

Lemma threads_ok_set w c g' :
  threads_ok w -> 0 <= t_threads (pc_timer g') ->
  (t_ticking (pc_timer g') = true -> 0 < t_threads (pc_timer g')) -> threads_ok (set_cage w c g').
Proof.
  intros H H1 H2 c' x Hx. unfold set_cage in Hx; cbn [pw_cages] in Hx.
  apply lookup_insert_Some in Hx as [[<- <-]|[_ Hx]]; [auto|eauto].
Qed.

Lemma threads_ok_del w c now sent : threads_ok w -> threads_ok (PWorld (delete c (pw_cages w)) now sent).
Proof. intros H c' x Hx. cbn in Hx. apply lookup_delete_Some in Hx as [_ Hx]. eauto. Qed.

Lemma threads_ok_timer_set t now a b :
  0 <= t_threads t -> (t_ticking t = true -> 0 < t_threads t) ->
  0 <= t_threads (timer_set t now a b) /\
  (t_ticking (timer_set t now a b) = true -> 0 < t_threads (timer_set t now a b)).
Proof.
  intros H1 H2. unfold timer_set. destruct (a =? 0); cbn; [split; [lia|discriminate]|].
  destruct (t_ticking t); [specialize (H2 eq_refl)|]; lia.
Qed.

Lemma threads_ok_step w o w' out : threads_ok w -> pstep w o = Done (w', out) -> threads_ok w'.
Proof.
  intros H Hs.
  destruct o as [c ch|c ch|c st|c|c|c k|c sig act|c tg sig|c tid how set|c tid|c tid sn|c wh new|c|d];
    cbn [pstep] in Hs.
  - unfold p_fork in Hs. break_step Hs. apply threads_ok_set; [exact H| |]; cbn; [lia|discriminate].
  - unfold p_exec in Hs. break_step Hs. apply getref_some in E as [Ec Eg].
    apply threads_ok_set; [apply threads_ok_del; exact H| |]; cbn; apply (H c a Eg).
  - unfold p_exit in Hs. break_step Hs; [apply threads_ok_del; exact H|].
    intros c' x Hx. rewrite (kill_from_id_cages _ _ _ _ E1) in Hx.
    exact (threads_ok_del w c (pw_now w) (pw_sent w) H c' x Hx).
  - unfold p_getpid in Hs. break_step Hs. exact H.
  - unfold p_getppid in Hs. break_step Hs. exact H.
  - unfold p_getid in Hs. break_step Hs; [|exact H]. apply getref_some in E as [Ec Eg].
    apply threads_ok_set; [exact H|..]; rewrite id_set_timer; apply (H c a Eg).
  - unfold p_sigaction in Hs. break_step Hs; try exact H. apply getref_some in E as [Ec Eg].
    apply threads_ok_set; [exact H|..]; cbn; apply (H c a Eg).
  - unfold p_kill in Hs. break_step Hs; exact H.
  - unfold p_sigprocmask in Hs. break_step Hs; try exact H; apply getref_some in E as [Ec Eg];
      try (apply threads_ok_set; [exact H|..]; cbn; apply (H c a Eg)).
  - unfold p_thread_init in Hs. break_step Hs. apply getref_some in E as [Ec Eg].
    apply threads_ok_set; [exact H|..]; cbn; apply (H c a Eg).
  - unfold p_gethandler in Hs. break_step Hs; try exact H. apply getref_some in E as [Ec Eg].
    apply threads_ok_set; [exact H|..]; cbn; apply (H c a Eg).
  - unfold p_setitimer in Hs. break_step Hs; try exact H. apply getref_some in E as [Ec Eg].
    destruct (H c a Eg) as [H1 H2].
    apply threads_ok_set; [exact H|..]; apply threads_ok_timer_set; assumption.
  - unfold p_tick in Hs. break_step Hs; try exact H; apply getref_some in E as [Ec Eg];
      destruct (H c a Eg) as [H1 H2].
    + apply threads_ok_set; [|apply threads_ok_timer_set; assumption..].
      intros c' x Hx. rewrite (kill_from_id_cages _ _ _ _ E3) in Hx. eauto.
    + apply threads_ok_set; [exact H| |]; cbn; [lia|discriminate].
  - injection Hs as <- <-. exact H.
Qed.

Lemma threads_ok_reach l w : prun pinit l = Some w -> threads_ok w.
Proof.
  assert (Hg : forall l w w', threads_ok w -> prun w l = Some w' -> threads_ok w').
  { clear. induction l as [|o l IH]; intros w w' H Hr; cbn [prun] in Hr.
    - injection Hr as <-. exact H.
    - destruct (pstep w o) as [[w1 out]|] eqn:E; [|discriminate]. eauto using threads_ok_step. }
  apply Hg. intros c g H. unfold pinit in H; cbn [pw_cages] in H.
  apply lookup_insert_Some in H as [[<- <-]|[Hne H]]; [cbn; split; [lia|discriminate]|].
  apply lookup_insert_Some in H as [[<- <-]|[_ H]]; [cbn; split; [lia|discriminate]|].
  rewrite lookup_empty in H. discriminate.
Qed.

Lemma timer_whole_seconds l0 w c s i w1 o1 l w2 :
  prun pinit l0 = Some w -> 1 <= s < 2 ^ 63 -> 0 <= i < 2 ^ 63 ->
  pstep w (PSetitimer c 0 (Some (ITV (TV i 0) (TV s 0)))) = Done (w1, o1) ->
  Forall (quiet_for c) l -> prun w1 l = Some w2 ->
  pw_now w2 - pw_now w < s * 1000000000 -> pw_sent w2 = pw_sent w.
Proof.
  intros Hr Hs Hi Hst Hq Hr2 Hlt.
  destruct (setitimer_arms w c s i w1 o1 Hs Hi) as (Ha & Hn & Hse).
  - intros g Hg. exact (threads_ok_reach _ _ Hr c g Hg).
  - exact Hst.
  - destruct (quiet_run c _ _ _ l w1 w2 Ha Hq Hr2) as [_ H]. destruct (H Hlt) as [_ H2].
    rewrite H2. exact Hse.
Qed.

Lemma timer_whole_seconds_fires l0 w c s i w1 o1 l w2 g :
  prun pinit l0 = Some w -> 1 <= s < 2 ^ 63 -> 0 <= i < 2 ^ 63 ->
  pstep w (PSetitimer c 0 (Some (ITV (TV i 0) (TV s 0)))) = Done (w1, o1) ->
  Forall (quiet_for c) l -> prun w1 l = Some w2 ->
  pw_now w2 - pw_now w < s * 1000000000 ->
  pw_cages w2 !! c = Some g -> pc_main g <> 0 ->
  exists w3, prun w2 [PAdvance (s * 1000000000); PTick c] = Some w3 /\
    pw_sent w3 = pw_sent w ++ [(pc_main g, 14)].
Proof.
  intros Hr Hs Hi Hst Hq Hr2 Hlt Hg Hm.
  destruct (setitimer_arms w c s i w1 o1 Hs Hi) as (Ha & Hn & Hse).
  { intros g' Hg'. exact (threads_ok_reach _ _ Hr c g' Hg'). }
  { exact Hst. }
  destruct (quiet_run c _ _ _ l w1 w2 Ha Hq Hr2) as [Hmon H]. destruct (H Hlt) as [Ha2 H2].
  assert (Hag : agrees (rev (l0 ++ PSetitimer c 0 (Some (ITV (TV i 0) (TV s 0))) :: l)) w2).
  { apply agrees_reach.
    assert (Happ : forall a b w, prun w (a ++ b) = match prun w a with Some w' => prun w' b | None => None end).
    { clear. induction a as [|o a IH]; intros b w; [reflexivity|].
      cbn [app prun]. destruct (pstep w o) as [[? ?]|]; [apply IH|reflexivity]. }
    rewrite Happ, Hr. cbn [prun]. rewrite Hst. exact Hr2. }
  destruct (Hag c g Hg) as (_ & _ & _ & Ho & _ & Hc).
  cbn [prun]. cbn [pstep].
  assert (Ha3 : armed (p_advance w2 (s * 1000000000)) c (pw_now w) (s * 1000000000) (i * 1000000000)) by exact Ha2.
  destruct (tick_due _ c _ _ _ g Ha3) as (w3 & Ht & Hsent & _).
  - cbn. lia.
  - unfold check_cageid. lia.
  - exact Hg.
  - exact Ho.
  - exact Hm.
  - cbn [pstep] in Ht. rewrite Ht. exists w3. split; [reflexivity|].
    rewrite Hsent. cbn. rewrite H2, Hse. reflexivity.
Qed.
