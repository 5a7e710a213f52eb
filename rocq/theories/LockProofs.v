(** Proofs about the advisory-lock model. *)
From Verif Require Import Base Sums LockModel LockSpec.
Local Open Scope Z_scope.

Lemma holds_app tr es i d : holds (tr ++ es) i d = fold_left (grab i d) es (holds tr i d).
Proof. apply fold_left_app. Qed.

(** ** What one step does *)
Inductive lview (s : lst) : lst -> list lev -> Prop :=
| lv_bad i n d : l_pcs s !! i = Some LIdle -> lkind_of n = None ->
    lview s s [LCall i n d; LRet i n d (err EINVAL)]
| lv_call i n d k : l_pcs s !! i = Some LIdle -> lkind_of n = Some k -> (d < length (l_guard s))%nat ->
    lview s (lgoto s i (LWant n d)) [LCall i n d]
| lv_take i n d : l_pcs s !! i = Some (LWant n d) -> l_mutex s !! d = Some false ->
    lview s (Lst (l_guard s) (<[d := true]> (l_mutex s)) (<[i := LIn n d]> (l_pcs s))) []
| lv_busy i n d : l_pcs s !! i = Some (LWant n d) -> l_mutex s !! d = Some true ->
    lkind_of n <> Some KUn -> nonblock n = true ->
    lview s (lgoto s i LIdle) [LRet i n d (err EAGAIN)]
| lv_ex i n d : l_pcs s !! i = Some (LIn n d) -> l_guard s !! d = Some 0 -> lkind_of n = Some KEx ->
    lview s (Lst (<[d := -1]> (l_guard s)) (<[d := false]> (l_mutex s)) (<[i := LIdle]> (l_pcs s))) [LRet i n d 0]
| lv_sh i n d g : l_pcs s !! i = Some (LIn n d) -> l_guard s !! d = Some g -> 0 <= g -> lkind_of n = Some KSh ->
    lview s (Lst (<[d := g + 1]> (l_guard s)) (<[d := false]> (l_mutex s)) (<[i := LIdle]> (l_pcs s))) [LRet i n d 0]
| lv_fail i n d g k : l_pcs s !! i = Some (LIn n d) -> l_guard s !! d = Some g -> lkind_of n = Some k -> k <> KUn ->
    nonblock n = true -> (k = KEx /\ g <> 0 \/ k = KSh /\ g < 0) ->
    lview s (Lst (<[d := g]> (l_guard s)) (<[d := false]> (l_mutex s)) (<[i := LIdle]> (l_pcs s))) [LRet i n d (err EAGAIN)]
| lv_sleep i n d g k : l_pcs s !! i = Some (LIn n d) -> l_guard s !! d = Some g -> lkind_of n = Some k ->
    nonblock n = false -> (k = KEx /\ g <> 0 \/ k = KSh /\ g < 0) ->
    lview s (Lst (l_guard s) (<[d := false]> (l_mutex s)) (<[i := LSleep n d]> (l_pcs s))) []
| lv_un i n d g : l_pcs s !! i = Some (LIn n d) -> l_guard s !! d = Some g -> lkind_of n = Some KUn ->
    1 < g \/ (g = 1 /\ existsb (asleep d) (l_pcs s) = false) ->
    lview s (Lst (<[d := g - 1]> (l_guard s)) (<[d := false]> (l_mutex s)) (<[i := LIdle]> (l_pcs s))) [LRet i n d 0]
| lv_one i n d w n' : l_pcs s !! i = Some (LIn n d) -> l_guard s !! d = Some 1 -> lkind_of n = Some KUn ->
    l_pcs s !! w = Some (LSleep n' d) ->
    lview s (Lst (<[d := 0]> (l_guard s)) (<[d := false]> (l_mutex s)) (<[i := LIdle]> (<[w := LWant n' d]> (l_pcs s)))) [LRet i n d 0]
| lv_all i n d : l_pcs s !! i = Some (LIn n d) -> l_guard s !! d = Some (-1) -> lkind_of n = Some KUn ->
    lview s (Lst (<[d := 0]> (l_guard s)) (<[d := false]> (l_mutex s)) (<[i := LIdle]> (map (wake d) (l_pcs s)))) [LRet i n d 0]
| lv_none i n d g : l_pcs s !! i = Some (LIn n d) -> l_guard s !! d = Some g -> lkind_of n = Some KUn ->
    g = 0 \/ g < -1 ->
    lview s (Lst (<[d := g]> (l_guard s)) (<[d := false]> (l_mutex s)) (<[i := LIdle]> (l_pcs s))) [LRet i n d 0].

Lemma ldo_view s a s' es : ldo s a = Some (s', es) -> lview s s' es.
Proof.
  destruct a as [i n d|i w]; cbn [ldo]; intros H.
  - destruct (l_pcs s !! i) as [[| | |]|] eqn:Ei; try discriminate H.
    case_bool_decide as Hd; [|discriminate H].
    destruct (lkind_of n) as [kd|] eqn:Ek; injection H as <- <-.
    + by eapply lv_call.
    + by apply lv_bad.
  - unfold lgo in H. destruct (l_pcs s !! i) as [[|n d|n d|]|] eqn:Ei; try discriminate H.
    + destruct (l_mutex s !! d) as [[|]|] eqn:Em; try discriminate H.
      * destruct (nonblock n) eqn:En; [|by destruct (lkind_of n) as [[| |]|]].
        destruct (lkind_of n) as [[| |]|] eqn:Ek; try discriminate H; injection H as <- <-;
          (apply lv_busy; [done|done|by rewrite Ek|done]).
      * injection H as <- <-. by apply lv_take.
    + destruct (l_guard s !! d) as [g|] eqn:Eg; [|discriminate H].
      destruct (lkind_of n) as [[| |]|] eqn:Ek; try discriminate H.
      * destruct (Z.leb_spec 0 g); [injection H as <- <-; by apply lv_sh|].
        destruct (nonblock n) eqn:En; injection H as <- <-.
        -- eapply lv_fail; [done|done|done|done|done|right; done].
        -- eapply lv_sleep; [done|done|done|done|right; done].
      * destruct (Z.eqb_spec g 0) as [->|Hg]; [injection H as <- <-; by apply lv_ex|].
        destruct (nonblock n) eqn:En; injection H as <- <-.
        -- eapply lv_fail; [done|done|done|done|done|left; done].
        -- eapply lv_sleep; [done|done|done|done|left; done].
      * destruct (Z.ltb_spec 0 g).
        -- destruct (Z.eqb_spec (g - 1) 0).
           ++ assert (g = 1) as -> by lia. unfold notify_one in H.
              destruct (existsb (asleep d) (l_pcs s)) eqn:Ex.
              ** destruct (l_pcs s !! w) as [p|] eqn:Ew; [|discriminate H].
                 destruct (asleep d p) eqn:Ea; [|discriminate H].
                 destruct p as [| | |n' d']; try discriminate Ea. cbn in Ea.
                 apply bool_decide_eq_true in Ea as <-. injection H as <- <-.
                 cbn [wake]. rewrite decide_True by done. cbn [lgoto l_guard l_mutex l_pcs]. by apply lv_one.
              ** injection H as <- <-. change 0 with (1 - 1). apply lv_un; [done|done|done|right; done].
           ++ injection H as <- <-. apply lv_un; [done|done|done|left; lia].
        -- destruct (Z.eqb_spec g (-1)) as [->|].
           ++ injection H as <- <-. by apply lv_all.
           ++ injection H as <- <-. apply lv_none; [done|done|done|lia].
Qed.

(** ** The unconditional invariant *)
Definition at_d (p : lpc) : option (Z * nat) :=
  match p with LIdle => None | LWant n d | LIn n d | LSleep n d => Some (n, d) end.

(** A thread that waits in a blocking call and is awake. *)
Definition keen (d : nat) (p : lpc) : Prop :=
  exists n, (p = LWant n d \/ p = LIn n d) /\ nonblock n = false /\ (lkind_of n = Some KEx \/ lkind_of n = Some KSh).

Record linv (m k : nat) (s : lst) : Prop := {
  li_g : length (l_guard s) = m;
  li_m : length (l_mutex s) = m;
  li_p : length (l_pcs s) = k;
  li_low : forall d g, l_guard s !! d = Some g -> -1 <= g;
  li_at : forall i p n d, l_pcs s !! i = Some p -> at_d p = Some (n, d) -> (d < m)%nat /\ is_Some (lkind_of n);
  li_in : forall i n d, l_pcs s !! i = Some (LIn n d) -> l_mutex s !! d = Some true;
  li_one : forall i j n n' d, l_pcs s !! i = Some (LIn n d) -> l_pcs s !! j = Some (LIn n' d) -> i = j;
  li_held : forall d, l_mutex s !! d = Some true -> exists i n, l_pcs s !! i = Some (LIn n d);
  li_block : forall i n d, l_pcs s !! i = Some (LSleep n d) ->
     nonblock n = false /\ (lkind_of n = Some KEx \/ lkind_of n = Some KSh /\ l_guard s !! d = Some (-1));
  li_wake : forall i n d, l_pcs s !! i = Some (LSleep n d) -> l_guard s !! d = Some 0 ->
     exists j p, l_pcs s !! j = Some p /\ keen d p;
}.

Lemma set_cases {A} (l : list A) i x j y : <[i := x]> l !! j = Some y ->
  (i = j /\ x = y) \/ (i <> j /\ l !! j = Some y).
Proof.
  intros H. destruct (decide (i = j)) as [<-|Hne].
  - left. split; [done|]. assert (i < length l)%nat.
    { apply lookup_lt_Some in H. by rewrite insert_length in H. }
    rewrite list_lookup_insert in H by done. congruence.
  - right. by rewrite list_lookup_insert_ne in H.
Qed.

Ltac setc H := apply set_cases in H as [[? H]|[? H]]; [subst|].

(** Steps that change at most thread [i], to [p'], and leave the others. *)
Lemma set_same {A} (l : list A) i x y : l !! i = Some y -> <[i := x]> l !! i = Some x.
Proof. intros H. apply list_lookup_insert. by eapply lookup_lt_Some. Qed.

Lemma linv_init m k : linv m k (linit m k).
Proof.
  assert (Hp : forall i p, l_pcs (linit m k) !! i = Some p -> p = LIdle).
  { intros i p H. by apply lookup_replicate in H as [-> _]. }
  split; try apply replicate_length.
  - intros d g H. cbn in H. apply lookup_replicate in H as [-> _]. lia.
  - intros i p n d H E. rewrite (Hp _ _ H) in E. discriminate E.
  - intros i n d H. discriminate (Hp _ _ H).
  - intros i j n n' d H. discriminate (Hp _ _ H).
  - intros d H. cbn in H. apply lookup_replicate in H as [H _]. discriminate H.
  - intros i n d H. discriminate (Hp _ _ H).
  - intros i n d H. discriminate (Hp _ _ H).
Qed.

(** A keen thread other than [i] survives a change of [i]. *)
Lemma keen_keep d (l : list lpc) (i : nat) x (j : nat) p : l !! j = Some p -> keen d p -> j <> i ->
  exists (j : nat) p, <[i := x]> l !! j = Some p /\ keen d p.
Proof. intros Hj Hk Hne. exists j, p. split; [|done]. by rewrite list_lookup_insert_ne. Qed.

(** The end of a call that leaves the guard at [g'] and wakes nobody. *)
Lemma linv_end m k s i n d g g' :
  linv m k s -> l_pcs s !! i = Some (LIn n d) -> l_guard s !! d = Some g ->
  -1 <= g' -> (g = -1 -> g' = -1) ->
  (g' = 0 -> (g = 0 /\ (lkind_of n = Some KUn \/ nonblock n = true)) \/ existsb (asleep d) (l_pcs s) = false) ->
  linv m k (Lst (<[d := g']> (l_guard s)) (<[d := false]> (l_mutex s)) (<[i := LIdle]> (l_pcs s))).
Proof.
  intros [Hg Hm Hp Hlow Hat Hin Hone Hheld Hblk Hwk] Hi Egd Hg' Hneg Hz.
  assert (Hd : (d < m)%nat) by (destruct (Hat i _ n d Hi eq_refl); done).
  split; cbn [l_guard l_mutex l_pcs].
  - by rewrite insert_length.
  - by rewrite insert_length.
  - by rewrite insert_length.
  - intros d' g0 H. setc H; [done|]. by eapply Hlow.
  - intros j p n0 d0 H E. setc H; [discriminate E|]. by eapply Hat.
  - intros j n0 d0 H. setc H; [discriminate H|].
    destruct (decide (d0 = d)) as [->|Hne].
    + assert (i = j) by (by eapply Hone). done.
    + rewrite list_lookup_insert_ne by done. exact (Hin _ _ _ H).
  - intros j j' n0 n1 d0 H1 H2. setc H1; [discriminate H1|]. setc H2; [discriminate H2|]. by eapply Hone.
  - intros d0 H. setc H; [done|]. destruct (Hheld d0 H) as (j & n0 & Hj). exists j, n0.
    rewrite list_lookup_insert_ne; [done|]. intros ->. congruence.
  - intros j n0 d0 H. setc H; [discriminate H|]. destruct (Hblk j n0 d0 H) as (Hnb & Hk). split; [done|].
    destruct Hk as [Hk|[Hk Hk2]]; [by left|right; split; [done|]].
    destruct (decide (d0 = d)) as [->|Hne].
    + rewrite Egd in Hk2. injection Hk2 as ->. rewrite list_lookup_insert by lia. by rewrite Hneg.
    + by rewrite list_lookup_insert_ne.
  - intros j n0 d0 H H0. setc H; [discriminate H|]. destruct (decide (d0 = d)) as [->|Hne].
    + rewrite list_lookup_insert in H0 by lia. injection H0 as ->.
      destruct (Hz eq_refl) as [(-> & Hku)|Hno].
      * destruct (Hwk j n0 d H Egd) as (j' & p & Hj' & Hk).
        apply (keen_keep d _ i LIdle j' p Hj' Hk). intros ->. rewrite Hi in Hj'. injection Hj' as <-.
        destruct Hk as (n1 & Hn1 & Hnb & Hkd).
        assert (n1 = n) as -> by (destruct Hn1 as [Hn1|Hn1]; [discriminate Hn1|injection Hn1 as ->; done]).
        destruct Hku as [Hku|Hku]; [|congruence]. rewrite Hku in Hkd. destruct Hkd as [Hkd|Hkd]; discriminate Hkd.
      * exfalso. assert (Ht : existsb (asleep d) (l_pcs s) = true); [|congruence].
        apply existsb_exists. exists (LSleep n0 d). split.
        -- apply elem_of_list_In. by eapply elem_of_list_lookup_2.
        -- cbn. by apply bool_decide_eq_true.
    + rewrite list_lookup_insert_ne in H0 by done. destruct (Hwk j n0 d0 H H0) as (j' & p & Hj' & Hk).
      apply (keen_keep d0 _ i LIdle j' p Hj' Hk). intros ->. rewrite Hi in Hj'. injection Hj' as <-.
      destruct Hk as (n1 & [Hn1|Hn1] & _); [discriminate Hn1|injection Hn1; congruence].
Qed.

Lemma lview_inv m k s s' es : linv m k s -> lview s s' es -> linv m k s'.
Proof.
  intros HI Hv. pose proof HI as [Hg Hm Hp Hlow Hat Hin Hone Hheld Hblk Hwk].
  destruct Hv as [i n d Hi Hk|i n d kd Hi Hk Hd|i n d Hi Hmx|i n d Hi Hmx Hk Hnb|i n d Hi Egd Hk|i n d g Hi Egd Hge Hk
    |i n d g kd Hi Egd Hk Hku Hnb Hcs|i n d g kd Hi Egd Hk Hnb Hcs|i n d g Hi Egd Hk Hcs|i n d w n' Hi Egd Hk Hw
    |i n d Hi Egd Hk|i n d g Hi Egd Hk Hcs].
  - done.
  - (* call *)
    split; cbn [lgoto l_guard l_mutex l_pcs]; [done|done|by rewrite insert_length|done| | | | | |].
    + intros j p n0 d0 H E. setc H.
      * injection E as <- <-. split; [lia|by eexists].
      * by eapply Hat.
    + intros j n0 d0 H. setc H; [discriminate H|]. exact (Hin _ _ _ H).
    + intros j j' n0 n1 d0 H1 H2. setc H1; [discriminate H1|]. setc H2; [discriminate H2|]. by eapply Hone.
    + intros d0 H. destruct (Hheld d0 H) as (j & n0 & Hj). exists j, n0.
      rewrite list_lookup_insert_ne; [done|]. intros ->. congruence.
    + intros j n0 d0 H. setc H; [discriminate H|]. exact (Hblk _ _ _ H).
    + intros j n0 d0 H H0. setc H; [discriminate H|]. destruct (Hwk j n0 d0 H H0) as (j' & p & Hj' & Hkn).
      apply (keen_keep d0 _ i _ j' p Hj' Hkn). intros ->. rewrite Hi in Hj'. injection Hj' as <-.
      destruct Hkn as (n1 & [Hn1|Hn1] & _); discriminate Hn1.
  - (* take the mutex *)
    destruct (Hat i _ n d Hi eq_refl) as [Hdm Hks].
    split; cbn [l_guard l_mutex l_pcs]; [done|by rewrite insert_length|by rewrite insert_length|done| | | | | |].
    + intros j p n0 d0 H E. setc H; [injection E as <- <-; done|]. by eapply Hat.
    + intros j n0 d0 H. setc H.
      * injection H as <- <-. apply list_lookup_insert. lia.
      * destruct (decide (d0 = d)) as [->|Hne]; [apply list_lookup_insert; lia|].
        rewrite list_lookup_insert_ne by done. exact (Hin _ _ _ H).
    + intros j j' n0 n1 d0 H1 H2. setc H1.
      * injection H1 as <- <-. setc H2; [done|]. pose proof (Hin _ _ _ H2). congruence.
      * setc H2; [injection H2 as <- <-; pose proof (Hin _ _ _ H1); congruence|]. by eapply Hone.
    + intros d0 H. setc H.
      * exists i, n. by eapply set_same.
      * destruct (Hheld d0 H) as (j & n0 & Hj). exists j, n0.
        rewrite list_lookup_insert_ne; [done|]. intros ->. congruence.
    + intros j n0 d0 H. setc H; [discriminate H|]. exact (Hblk _ _ _ H).
    + intros j n0 d0 H H0. setc H; [discriminate H|]. destruct (Hwk j n0 d0 H H0) as (j' & p & Hj' & Hkn).
      destruct (decide (j' = i)) as [->|Hne'].
      * rewrite Hi in Hj'. injection Hj' as <-. destruct Hkn as (n1 & [Hn1|Hn1] & Hr); [|discriminate Hn1].
        injection Hn1 as <- <-. exists i, (LIn n d). split; [by eapply set_same|]. exists n. split; [by right|done].
      * by apply (keen_keep d0 _ i _ j' p Hj' Hkn).
  - (* mutex busy *)
    split; cbn [lgoto l_guard l_mutex l_pcs]; [done|done|by rewrite insert_length|done| | | | | |].
    + intros j p n0 d0 H E. setc H; [discriminate E|]. by eapply Hat.
    + intros j n0 d0 H. setc H; [discriminate H|]. exact (Hin _ _ _ H).
    + intros j j' n0 n1 d0 H1 H2. setc H1; [discriminate H1|]. setc H2; [discriminate H2|]. by eapply Hone.
    + intros d0 H. destruct (Hheld d0 H) as (j & n0 & Hj). exists j, n0.
      rewrite list_lookup_insert_ne; [done|]. intros ->. congruence.
    + intros j n0 d0 H. setc H; [discriminate H|]. exact (Hblk _ _ _ H).
    + intros j n0 d0 H H0. setc H; [discriminate H|]. destruct (Hwk j n0 d0 H H0) as (j' & p & Hj' & Hkn).
      apply (keen_keep d0 _ i _ j' p Hj' Hkn). intros ->. rewrite Hi in Hj'. injection Hj' as <-.
      destruct Hkn as (n1 & [Hn1|Hn1] & Hr & _); [injection Hn1 as <- <-; congruence|discriminate Hn1].
  - apply (linv_end _ _ _ _ n _ 0 (-1) HI Hi Egd); [lia|lia|lia].
  - apply (linv_end _ _ _ _ n _ g (g + 1) HI Hi Egd); [lia|lia|lia].
  - apply (linv_end _ _ _ _ n _ g g HI Hi Egd).
    + by eapply Hlow.
    + done.
    + intros ->. left. split; [done|by right].
  - (* sleep *)
    destruct (Hat i _ n d Hi eq_refl) as [Hdm Hks].
    split; cbn [l_guard l_mutex l_pcs]; [done|by rewrite insert_length|by rewrite insert_length|done| | | | | |].
    + intros j p n0 d0 H E. setc H; [injection E as <- <-; done|]. by eapply Hat.
    + intros j n0 d0 H. setc H; [discriminate H|].
      destruct (decide (d0 = d)) as [->|Hne].
      * assert (i = j) by (by eapply Hone). done.
      * rewrite list_lookup_insert_ne by done. exact (Hin _ _ _ H).
    + intros j j' n0 n1 d0 H1 H2. setc H1; [discriminate H1|]. setc H2; [discriminate H2|]. by eapply Hone.
    + intros d0 H. setc H; [done|]. destruct (Hheld d0 H) as (j & n0 & Hj). exists j, n0.
      rewrite list_lookup_insert_ne; [done|]. intros ->. congruence.
    + intros j n0 d0 H. setc H; [|exact (Hblk _ _ _ H)].
      injection H as <- <-. split; [done|]. pose proof (Hlow _ _ Egd).
      destruct Hcs as [[-> _]|[-> Hlt]]; [by left|right; split; [done|]]. rewrite Egd. f_equal. lia.
    + intros j n0 d0 H H0. setc H.
      * injection H as <- <-. exfalso. rewrite Egd in H0. injection H0 as ->. destruct Hcs as [[_ ?]|[_ ?]]; lia.
      * destruct (Hwk j n0 d0 H H0) as (j' & p & Hj' & Hkn).
        apply (keen_keep d0 _ i _ j' p Hj' Hkn). intros ->. rewrite Hi in Hj'. injection Hj' as <-.
        destruct Hkn as (n1 & [Hn1|Hn1] & _); [discriminate Hn1|]. injection Hn1 as <- <-.
        rewrite Egd in H0. injection H0 as ->. destruct Hcs as [[_ ?]|[_ ?]]; lia.
  - apply (linv_end _ _ _ _ n _ g (g - 1) HI Hi Egd); [lia|lia|]. intros Hz. right.
    destruct Hcs as [?|[_ ?]]; [lia|done].
  - (* notify one *)
    destruct (Hat i _ n d Hi eq_refl) as [Hdm Hks].
    destruct (Hblk w n' d Hw) as [Hnb' Hk'].
    assert (Hwi : w <> i) by (intros ->; congruence).
    assert (Hke : lkind_of n' = Some KEx) by (destruct Hk' as [?|[_ Hx]]; [done|congruence]).
    assert (Hcs : forall j p, <[i := LIdle]> (<[w := LWant n' d]> (l_pcs s)) !! j = Some p ->
              (j = i /\ p = LIdle) \/ (j = w /\ p = LWant n' d) \/ (j <> i /\ j <> w /\ l_pcs s !! j = Some p)).
    { intros j p H. setc H; [by left|]. setc H; [right; left; done|]. right; right. done. }
    assert (Hww : <[i := LIdle]> (<[w := LWant n' d]> (l_pcs s)) !! w = Some (LWant n' d)).
    { rewrite list_lookup_insert_ne by done. by eapply set_same. }
    split; cbn [l_guard l_mutex l_pcs].
    + by rewrite insert_length.
    + by rewrite insert_length.
    + by rewrite !insert_length.
    + intros d0 g0 H. setc H; [lia|]. by eapply Hlow.
    + intros j p n0 d0 H E. destruct (Hcs j p H) as [[-> ->]|[[-> ->]|(_ & _ & Hj)]]; [discriminate E| |by eapply Hat].
      injection E as <- <-. split; [done|by eexists].
    + intros j n0 d0 H. destruct (Hcs j _ H) as [[-> E]|[[-> E]|(Hji & _ & Hj)]]; [discriminate E|discriminate E|].
      destruct (decide (d0 = d)) as [->|Hne].
      * assert (i = j) by (by eapply Hone). congruence.
      * rewrite list_lookup_insert_ne by done. exact (Hin _ _ _ Hj).
    + intros j j' n0 n1 d0 H1 H2.
      destruct (Hcs j _ H1) as [[-> E]|[[-> E]|(_ & _ & Hj)]]; [discriminate E|discriminate E|].
      destruct (Hcs j' _ H2) as [[-> E]|[[-> E]|(_ & _ & Hj')]]; [discriminate E|discriminate E|]. by eapply Hone.
    + intros d0 H. setc H; [done|]. destruct (Hheld d0 H) as (j & n0 & Hj). exists j, n0.
      rewrite list_lookup_insert_ne by (intros ->; congruence).
      rewrite list_lookup_insert_ne; [done|]. intros ->. congruence.
    + intros j n0 d0 H. destruct (Hcs j _ H) as [[-> E]|[[-> E]|(_ & _ & Hj)]]; [discriminate E|discriminate E|].
      destruct (Hblk j n0 d0 Hj) as [Hb [Hb2|[Hb2 Hb3]]]; [split; [done|by left]|split; [done|right; split; [done|]]].
      destruct (decide (d0 = d)) as [->|Hne]; [congruence|]. by rewrite list_lookup_insert_ne.
    + intros j n0 d0 H H0. destruct (decide (d0 = d)) as [->|Hne].
      * exists w, (LWant n' d). split; [done|]. exists n'. split; [by left|]. split; [done|by left].
      * rewrite list_lookup_insert_ne in H0 by done.
        destruct (Hcs j _ H) as [[-> E]|[[-> E]|(_ & _ & Hj)]]; [discriminate E|discriminate E|].
        destruct (Hwk j n0 d0 Hj H0) as (j' & p & Hj' & Hkn). exists j', p. split; [|done].
        rewrite list_lookup_insert_ne.
        -- rewrite list_lookup_insert_ne; [done|]. intros ->. rewrite Hw in Hj'. injection Hj' as <-.
           destruct Hkn as (n1 & [Hn1|Hn1] & _); discriminate Hn1.
        -- intros ->. rewrite Hi in Hj'. injection Hj' as <-.
           destruct Hkn as (n1 & [Hn1|Hn1] & _); [discriminate Hn1|injection Hn1; congruence].
  - (* notify all *)
    destruct (Hat i _ n d Hi eq_refl) as [Hdm Hks].
    assert (Hcs : forall j p, <[i := LIdle]> (map (wake d) (l_pcs s)) !! j = Some p ->
              (j = i /\ p = LIdle) \/ (j <> i /\ exists q, l_pcs s !! j = Some q /\ p = wake d q)).
    { intros j p H. setc H; [by left|]. right. split; [done|]. change (map (wake d) (l_pcs s)) with (wake d <$> l_pcs s) in H.
      rewrite list_lookup_fmap in H. destruct (l_pcs s !! j) as [q|]; [|discriminate H]. injection H as <-. by exists q. }
    assert (Hkeep : forall j q, l_pcs s !! j = Some q -> j <> i -> <[i := LIdle]> (map (wake d) (l_pcs s)) !! j = Some (wake d q)).
    { intros j q Hj Hne. rewrite list_lookup_insert_ne by done. change (map (wake d) (l_pcs s)) with (wake d <$> l_pcs s).
      rewrite list_lookup_fmap, Hj. done. }
    assert (Hwin : forall q n0 d0, wake d q = LIn n0 d0 -> q = LIn n0 d0).
    { intros q n0 d0 E; destruct q as [|n2 d2|n2 d2|n1 d1]; try done. cbn in E. destruct (decide (d = d1)); discriminate E. }
    assert (Hwsl : forall q n0 d0, wake d q = LSleep n0 d0 -> q = LSleep n0 d0 /\ d0 <> d).
    { intros q n0 d0 E; destruct q as [|n2 d2|n2 d2|n1 d1]; try discriminate E. cbn in E. destruct (decide (d = d1)); [discriminate E|].
      injection E as <- <-. done. }
    split; cbn [l_guard l_mutex l_pcs].
    + by rewrite insert_length.
    + by rewrite insert_length.
    + by rewrite insert_length, map_length.
    + intros d0 g0 H. setc H; [lia|]. by eapply Hlow.
    + intros j p n0 d0 H E. destruct (Hcs j p H) as [[-> ->]|(_ & q & Hj & ->)]; [discriminate E|].
      apply (Hat j q n0 d0 Hj). destruct q as [|n2 d2|n2 d2|n1 d1]; try done. cbn in E. destruct (decide (d = d1)); done.
    + intros j n0 d0 H. destruct (Hcs j _ H) as [[-> E]|(Hji & q & Hj & E)]; [discriminate E|].
      symmetry in E. apply Hwin in E as ->. destruct (decide (d0 = d)) as [->|Hne].
      * assert (i = j) by (by eapply Hone). congruence.
      * rewrite list_lookup_insert_ne by done. exact (Hin _ _ _ Hj).
    + intros j j' n0 n1 d0 H1 H2.
      destruct (Hcs j _ H1) as [[-> E]|(_ & q & Hj & E)]; [discriminate E|]. symmetry in E. apply Hwin in E as ->.
      destruct (Hcs j' _ H2) as [[-> E]|(_ & q & Hj' & E)]; [discriminate E|]. symmetry in E. apply Hwin in E as ->.
      by eapply Hone.
    + intros d0 H. setc H; [done|]. destruct (Hheld d0 H) as (j & n0 & Hj). exists j, n0.
      apply (Hkeep j _ Hj). intros ->. congruence.
    + intros j n0 d0 H. destruct (Hcs j _ H) as [[-> E]|(_ & q & Hj & E)]; [discriminate E|]. symmetry in E.
      destruct (Hwsl _ _ _ E) as [-> Hne]. destruct (Hblk j n0 d0 Hj) as [Hb Hb2]. split; [done|].
      by rewrite list_lookup_insert_ne.
    + intros j n0 d0 H H0. destruct (Hcs j _ H) as [[-> E]|(_ & q & Hj & E)]; [discriminate E|]. symmetry in E.
      destruct (Hwsl _ _ _ E) as [-> Hne]. rewrite list_lookup_insert_ne in H0 by done.
      destruct (Hwk j n0 d0 Hj H0) as (j' & p & Hj' & Hkn). exists j', p. split; [|done].
      assert (wake d p = p) as Ewp by (destruct Hkn as (n1 & [->| ->] & _); done).
      rewrite <- Ewp. apply (Hkeep j' p Hj').
      intros ->. rewrite Hi in Hj'. injection Hj' as <-. destruct Hkn as (n1 & [Hn1|Hn1] & _); [discriminate Hn1|injection Hn1; congruence].
  - apply (linv_end _ _ _ _ n _ g g HI Hi Egd).
    + by eapply Hlow.
    + done.
    + intros ->. left. split; [done|by left].
Qed.

Lemma lrun_inv m k tr s : lrun m k tr s -> linv m k s.
Proof.
  induction 1 as [|tr s a s' es _ IH Ha]; [apply linv_init|].
  exact (lview_inv _ _ _ _ _ IH (ldo_view _ _ _ _ Ha)).
Qed.

(** ** Holders *)
Definition ind (x : lkind) (o : option lkind) : Z := if bool_decide (o = Some x) then 1 else 0.
Definition nhold (k : nat) (tr : list lev) (d : nat) (x : lkind) : Z := zsum k (fun i => ind x (holds tr i d)).

Definition agree (k : nat) (tr : list lev) (d : nat) (g : Z) : Prop :=
  (g = -1 /\ nhold k tr d KEx = 1 /\ nhold k tr d KSh = 0)
  \/ (0 <= g /\ nhold k tr d KSh = g /\ nhold k tr d KEx = 0).

Record hinv (k : nat) (tr : list lev) (s : lst) : Prop := {
  hi_pend : forall i p n d, l_pcs s !! i = Some p -> at_d p = Some (n, d) ->
    match lkind_of n with Some KUn => holds tr i d <> None | _ => holds tr i d = None end;
  hi_guard : forall d g, l_guard s !! d = Some g -> agree k tr d g;
}.

Lemma holds_call tr i n d j d' : holds (tr ++ [LCall i n d]) j d' = holds tr j d'.
Proof. by rewrite holds_app. Qed.
Lemma holds_ret_other tr i n d r j d' : ~ (j = i /\ d' = d /\ r = 0) -> holds (tr ++ [LRet i n d r]) j d' = holds tr j d'.
Proof. intros H. rewrite holds_app. cbn. by rewrite bool_decide_false. Qed.
Lemma holds_ret_same tr i n d : holds (tr ++ [LRet i n d 0]) i d =
  match lkind_of n with Some KSh => Some KSh | Some KEx => Some KEx | _ => None end.
Proof. rewrite holds_app. cbn. by rewrite bool_decide_true. Qed.

Lemma nhold_other k tr i n d r d' x : ~ (d' = d /\ r = 0) -> nhold k (tr ++ [LRet i n d r]) d' x = nhold k tr d' x.
Proof.
  intros H. apply zsum_ext. intros j _. rewrite holds_ret_other; [done|]. tauto.
Qed.
Lemma nhold_same k tr i n d x : (i < k)%nat ->
  nhold k (tr ++ [LRet i n d 0]) d x = nhold k tr d x + (ind x (holds (tr ++ [LRet i n d 0]) i d) - ind x (holds tr i d)).
Proof.
  intros H. unfold nhold. rewrite (zsum_upd k (fun j => ind x (holds tr j d)) _ i H); [done|].
  intros j Hne. rewrite holds_ret_other; [done|]. naive_solver.
Qed.
Lemma agree_other k tr i n d r d' g : ~ (d' = d /\ r = 0) -> agree k tr d' g -> agree k (tr ++ [LRet i n d r]) d' g.
Proof. intros H. unfold agree. rewrite !nhold_other by done. done. Qed.
Lemma nhold_nn k tr d x : 0 <= nhold k tr d x.
Proof. apply zsum_nn. intros j _. unfold ind. case_bool_decide; lia. Qed.
Lemma nhold_one k tr d x i : (i < k)%nat -> holds tr i d = Some x -> 1 <= nhold k tr d x.
Proof.
  intros Hi Hh. transitivity (ind x (holds tr i d)).
  - unfold ind. rewrite bool_decide_true by done. done.
  - apply (zsum_one k (fun i => ind x (holds tr i d)) i Hi). intros j _. unfold ind. case_bool_decide; lia.
Qed.

Lemma holds_kind tr i d : holds tr i d <> Some KUn.
Proof.
  induction tr as [|e tr IH] using rev_ind; [done|]. rewrite holds_app. cbn.
  destruct e as [|j n d' r]; cbn; [done|]. case_bool_decide; [|done].
  destruct (lkind_of n) as [[| |]|]; done.
Qed.

(** A call returns success with the guard going from [g] to [g']. *)
Lemma hinv_ret k tr s i n d g g' ps :
  length (l_pcs s) = k -> hinv k tr s -> l_pcs s !! i = Some (LIn n d) -> l_guard s !! d = Some g ->
  (forall j p, ps !! j = Some p -> at_d p <> None -> j <> i /\ exists q, l_pcs s !! j = Some q /\ at_d p = at_d q) ->
  match lkind_of n with
  | Some KEx => g = 0 /\ g' = -1
  | Some KSh => 0 <= g /\ g' = g + 1
  | Some KUn => (0 < g /\ g' = g - 1) \/ (g = -1 /\ g' = 0) \/ (g = 0 /\ g' = 0) \/ g < -1
  | None => False
  end ->
  forall mx, hinv k (tr ++ [LRet i n d 0]) (Lst (<[d := g']> (l_guard s)) mx ps).
Proof.
  intros Hl [Hpe Hgu] Hi Egd Hps Hk mx.
  assert (Hik : (i < k)%nat) by (rewrite <- Hl; by eapply lookup_lt_Some).
  pose proof (Hpe i _ n d Hi eq_refl) as Hpi. pose proof (Hgu d g Egd) as Hag.
  pose proof (holds_ret_same tr i n d) as Hnew.
  split; cbn [l_guard l_pcs].
  - intros j p n0 d0 Hj E. destruct (Hps j p Hj) as (Hne & q & Hq & Eq); [congruence|].
    rewrite Eq in E. specialize (Hpe j q n0 d0 Hq E). rewrite holds_ret_other by tauto. done.
  - intros d0 g0 H. apply set_cases in H as [[<- <-]|[? H]].
    + pose proof (nhold_same k tr i n d KSh Hik) as Hs. pose proof (nhold_same k tr i n d KEx Hik) as Hx.
      rewrite Hnew in Hs, Hx. unfold agree in *. rewrite Hs, Hx.
      pose proof (nhold_nn k tr d KSh). pose proof (nhold_nn k tr d KEx).
      assert (I1 : ind KSh (Some KSh) = 1) by done. assert (I2 : ind KSh (Some KEx) = 0) by done.
      assert (I3 : ind KEx (Some KSh) = 0) by done. assert (I4 : ind KEx (Some KEx) = 1) by done.
      assert (I5 : ind KEx None = 0) by done. assert (I6 : ind KSh None = 0) by done.
      clear Hs Hx Hgu Hpe Hps Hnew.
      destruct (lkind_of n) as [[| |]|]; [| | |done].
      * rewrite Hpi, I1, I3, I5, I6. destruct Hk as [? ->]. lia.
      * rewrite Hpi, I2, I4, I5, I6. destruct Hk as [? ->]. lia.
      * destruct (holds tr i d) as [h|] eqn:Eh; [|done].
        pose proof (nhold_one k tr d h i Hik Eh). destruct h.
        -- rewrite I1, I3, I5, I6. lia.
        -- rewrite I2, I4, I5, I6. lia.
        -- destruct (holds_kind tr i d Eh).
    + apply agree_other; [naive_solver|]. by apply Hgu.
Qed.

(** Something else happens: no holder changes. *)
Lemma hinv_same k tr es s s' :
  hinv k tr s -> l_guard s' = l_guard s -> (forall j d, holds (tr ++ es) j d = holds tr j d) ->
  (forall i p n d, l_pcs s' !! i = Some p -> at_d p = Some (n, d) ->
     (exists q, l_pcs s !! i = Some q /\ at_d q = Some (n, d)) \/
     match lkind_of n with Some KUn => holds tr i d <> None | _ => holds tr i d = None end) ->
  hinv k (tr ++ es) s'.
Proof.
  intros [Hpe Hgu] Hg Hh Hp. split.
  - intros i p n d Hi E. rewrite Hh. destruct (Hp i p n d Hi E) as [(q & Hq & Eq)|Hx]; [exact (Hpe i q n d Hq Eq)|exact Hx].
  - intros d g H. rewrite Hg in H. specialize (Hgu d g H).
    assert (Hn : forall x, nhold k (tr ++ es) d x = nhold k tr d x).
    { intros x. apply zsum_ext. intros j _. by rewrite Hh. }
    unfold agree in *. rewrite !Hn. done.
Qed.

Lemma lpolite_app a b : lpolite (a ++ b) -> lpolite a.
Proof. intros H tr1 i n d tr2 E. apply (H tr1 i n d (tr2 ++ b)). rewrite E, <- app_assoc. done. Qed.

Lemma at_set (s : lst) i q p0 : l_pcs s !! i = Some q -> at_d p0 = at_d q \/ at_d p0 = None ->
  forall j p n d, <[i := p0]> (l_pcs s) !! j = Some p -> at_d p = Some (n, d) ->
  exists q', l_pcs s !! j = Some q' /\ at_d q' = Some (n, d).
Proof.
  intros Hi Hc j p n d H E. setc H.
  - exists q. split; [done|]. destruct Hc; congruence.
  - by exists p.
Qed.

Lemma at_idle (s : lst) i j p : <[i := LIdle]> (l_pcs s) !! j = Some p -> at_d p <> None ->
  j <> i /\ exists q, l_pcs s !! j = Some q /\ at_d p = at_d q.
Proof. intros H E. setc H; [done|]. split; [done|]. by exists p. Qed.

Lemma insert_guard (s : lst) d g : l_guard s !! d = Some g -> <[d := g]> (l_guard s) = l_guard s.
Proof. apply list_insert_id. Qed.

Lemma lrun_hinv m k tr s : lrun m k tr s -> lpolite tr -> hinv k tr s.
Proof.
  intros H. induction H as [|tr s a s' es H0 IH Ha]; intros Hpol.
  - split; cbn [linit l_guard l_pcs].
    + intros i p n d H E. apply lookup_replicate in H as [-> _]. discriminate E.
    + intros d g H. apply lookup_replicate in H as [-> _]. right. unfold nhold. rewrite !zsum_0; done.
  - specialize (IH (lpolite_app _ _ Hpol)). pose proof (lrun_inv _ _ _ _ H0) as HI.
    pose proof (li_p _ _ _ HI) as Hl. pose proof (ldo_view _ _ _ _ Ha) as Hv. clear Ha.
    destruct Hv as [i n d Hi Hk|i n d kd Hi Hk Hd|i n d Hi Hmx|i n d Hi Hmx Hk Hnb|i n d Hi Egd Hk|i n d g Hi Egd Hge Hk
      |i n d g kd Hi Egd Hk Hku Hnb Hcs|i n d g kd Hi Egd Hk Hnb Hcs|i n d g Hi Egd Hk Hcs|i n d w n' Hi Egd Hk Hw
      |i n d Hi Egd Hk|i n d g Hi Egd Hk Hcs].
    + apply (hinv_same k tr _ s); [done|done| |].
      * intros j d0. rewrite holds_app. cbn. rewrite bool_decide_false; [done|]. unfold err, EINVAL; lia.
      * intros j p n0 d0 Hj E. left. by exists p.
    + apply (hinv_same k tr _ s); [done|done|intros; apply holds_call|].
      intros j p n0 d0 H E. cbn [lgoto l_pcs] in H. setc H.
      * injection E as <- <-. right. pose proof (Hpol tr j n d [] eq_refl) as Hq.
        destruct (lkind_of n) as [[| |]|]; done.
      * left. by exists p.
    + apply (hinv_same k tr _ s); [done|done|intros; by rewrite app_nil_r|].
      intros j p n0 d0 H E. left. by apply (at_set s i _ (LIn n d) Hi (or_introl eq_refl) j p).
    + apply (hinv_same k tr _ s); [done|done| |].
      * intros j d0. apply holds_ret_other. unfold err, EAGAIN; lia.
      * intros j p n0 d0 H E. left. by apply (at_set s i _ LIdle Hi (or_intror eq_refl) j p).
    + apply (hinv_ret k tr s i n d 0); [done|done|done|done|apply at_idle|by rewrite Hk].
    + apply (hinv_ret k tr s i n d g); [done|done|done|done|apply at_idle|by rewrite Hk].
    + rewrite (insert_guard _ _ _ Egd). apply (hinv_same k tr _ s); [done|done| |].
      * intros j d0. apply holds_ret_other. unfold err, EAGAIN; lia.
      * intros j p n0 d0 H E. left. by apply (at_set s i _ LIdle Hi (or_intror eq_refl) j p).
    + apply (hinv_same k tr _ s); [done|done|intros; by rewrite app_nil_r|].
      intros j p n0 d0 H E. left. by apply (at_set s i _ (LSleep n d) Hi (or_introl eq_refl) j p).
    + apply (hinv_ret k tr s i n d g); [done|done|done|done|apply at_idle|rewrite Hk; left; lia].
    + apply (hinv_ret k tr s i n d 1); [done|done|done|done| |rewrite Hk; left; lia].
      intros j p H E. setc H; [done|]. split; [done|]. setc H; [exists (LSleep n' d); done|by exists p].
    + apply (hinv_ret k tr s i n d (-1)); [done|done|done|done| |rewrite Hk; lia].
      intros j p H E. setc H; [done|]. split; [done|].
      change (map (wake d) (l_pcs s)) with (wake d <$> l_pcs s) in H. rewrite list_lookup_fmap in H.
      destruct (l_pcs s !! j) as [q|] eqn:Ej; [|discriminate H]. injection H as <-. exists q. split; [done|].
      destruct q as [|n2 d2|n2 d2|n1 d1]; try done. cbn. by destruct (decide (d = d1)).
    + apply (hinv_ret k tr s i n d g); [done|done|done|done|apply at_idle|rewrite Hk; lia].
Qed.

Lemma exclusion m k tr s i j d : lrun m k tr s -> lpolite tr -> (d < m)%nat ->
  (i < k)%nat -> (j < k)%nat -> holds tr i d = Some KEx -> holds tr j d <> None -> i = j.
Proof.
  intros H Hp Hd Hi Hj Hh Hh2. pose proof (lrun_hinv _ _ _ _ H Hp) as [_ Hgu]. pose proof (lrun_inv _ _ _ _ H) as HI.
  rewrite <- (li_g _ _ _ HI) in Hd. destruct (lookup_lt_is_Some_2 _ _ Hd) as [g Eg].
  pose proof (nhold_one k tr d KEx i Hi Hh) as H1.
  destruct (Hgu d g Eg) as [(_ & Hx & Hs)|(_ & _ & Hx)]; [|lia].
  destruct (holds tr j d) as [[| |]|] eqn:Ej; [| | |done].
  - pose proof (nhold_one k tr d KSh j Hj Ej). lia.
  - destruct (decide (i = j)) as [|Hne]; [done|].
    pose proof (zsum_two k (fun i => ind KEx (holds tr i d)) i j Hne Hi Hj) as H2.
    cbv beta in H2. rewrite Hh, Ej in H2. unfold nhold in Hx. rewrite Hx in H2.
    assert (1 + 1 <= 1); [|lia]. apply H2. intros; unfold ind; case_bool_decide; lia.
  - destruct (holds_kind tr j d Ej).
Qed.

(** ** Calls in progress *)
Lemma calling_nil i n d : ~ calling [] i n d.
Proof. intros (tr1 & tr2 & H & _). by destruct tr1. Qed.

Lemma calling_app tr es i n d : calling (tr ++ es) i n d -> 
  (calling tr i n d /\ (forall e, e ∈ es -> match e with LRet j _ _ _ => i <> j | _ => True end))
  \/ (exists e1 e2, es = e1 ++ LCall i n d :: e2 /\ forall e, e ∈ e2 -> match e with LRet j _ _ _ => i <> j | _ => True end).
Proof.
  intros (tr1 & tr2 & E & Hno). symmetry in E. apply app_eq_inv in E as [(l & -> & ->)|(l & -> & E)].
  - right. by exists l, tr2.
  - destruct l as [|e l].
    + right. exists [], tr2. cbn in E. done.
    + cbn in E. injection E as <- ->. left. split.
      * exists tr1, l. split; [done|]. intros e He. apply Hno. apply elem_of_app. by left.
      * intros e He. apply Hno. apply elem_of_app. by right.
Qed.

Lemma calling_pc m k tr s i n d : lrun m k tr s -> calling tr i n d ->
  exists p, l_pcs s !! i = Some p /\ at_d p = Some (n, d).
Proof.
  intros H. induction H as [|tr s a s' es H0 IH Ha]; intros Hc.
  { by apply calling_nil in Hc. }
  pose proof (ldo_view _ _ _ _ Ha) as Hv. clear Ha.
  apply calling_app in Hc.
  assert (Hkeep : forall j p0 q, l_pcs s !! j = Some q -> (at_d p0 = at_d q \/ i <> j) -> calling tr i n d ->
    exists p, <[j := p0]> (l_pcs s) !! i = Some p /\ at_d p = Some (n, d)).
  { intros j p0 q Hj Hat Hcl. destruct (IH Hcl) as (p & Hp & Ep). destruct (decide (i = j)) as [<-|Hne].
    - exists p0. split; [by eapply set_same|]. destruct Hat; congruence.
    - exists p. split; [|done]. by rewrite list_lookup_insert_ne. }
  assert (Hret : forall j n0 d0 r, (forall e, e ∈ [LRet j n0 d0 r] -> match e with LRet j _ _ _ => i <> j | _ => True end) -> i <> j).
  { intros j n0 d0 r Hx. apply (Hx (LRet j n0 d0 r)). by apply elem_of_list_here. }
  assert (Hnc : forall j n0 d0 r e1 e2, [LRet j n0 d0 r] = e1 ++ LCall i n d :: e2 -> False).
  { intros j n0 d0 r e1 e2 E. destruct e1 as [|? [|? ?]]; discriminate E. }
  destruct Hv as [j n0 d0 Hj Hk|j n0 d0 kd Hj Hk Hd|j n0 d0 Hj Hmx|j n0 d0 Hj Hmx Hk Hnb|j n0 d0 Hj Egd Hk|j n0 d0 g Hj Egd Hge Hk
      |j n0 d0 g kd Hj Egd Hk Hku Hnb Hcs|j n0 d0 g kd Hj Egd Hk Hnb Hcs|j n0 d0 g Hj Egd Hk Hcs|j n0 d0 w n' Hj Egd Hk Hw
      |j n0 d0 Hj Egd Hk|j n0 d0 g Hj Egd Hk Hcs]; cbn [lgoto l_pcs].
  - destruct Hc as [[Hc _]|(e1 & e2 & E & Hx)]; [exact (IH Hc)|].
    destruct e1 as [|? [|? [|? ?]]]; try discriminate E. injection E as <- <- <- <-.
    exfalso. apply (Hx (LRet j n0 d0 (err EINVAL))); [by apply elem_of_list_here|done].
  - destruct Hc as [[Hc _]|(e1 & e2 & E & Hx)].
    + eapply Hkeep; [done| |done]. right. intros <-. destruct (IH Hc) as (p & Hp & Ep). rewrite Hj in Hp. injection Hp as <-. discriminate Ep.
    + destruct e1 as [|? [|? ?]]; try discriminate E. injection E as <- <- <- <-.
      exists (LWant n0 d0). split; [by eapply set_same|done].
  - destruct Hc as [[Hc _]|(e1 & e2 & E & Hx)]; [|by destruct e1]. eapply Hkeep; [done|by left|done].
  - destruct Hc as [[Hc Hr]|(e1 & e2 & E & Hx)]; [|by apply Hnc in E]. apply Hret in Hr. eapply Hkeep; [done|by right|done].
  - destruct Hc as [[Hc Hr]|(e1 & e2 & E & Hx)]; [|by apply Hnc in E]. apply Hret in Hr. eapply Hkeep; [done|by right|done].
  - destruct Hc as [[Hc Hr]|(e1 & e2 & E & Hx)]; [|by apply Hnc in E]. apply Hret in Hr. eapply Hkeep; [done|by right|done].
  - destruct Hc as [[Hc Hr]|(e1 & e2 & E & Hx)]; [|by apply Hnc in E]. apply Hret in Hr. eapply Hkeep; [done|by right|done].
  - destruct Hc as [[Hc _]|(e1 & e2 & E & Hx)]; [|by destruct e1]. eapply Hkeep; [done|by left|done].
  - destruct Hc as [[Hc Hr]|(e1 & e2 & E & Hx)]; [|by apply Hnc in E]. apply Hret in Hr. eapply Hkeep; [done|by right|done].
  - destruct Hc as [[Hc Hr]|(e1 & e2 & E & Hx)]; [|by apply Hnc in E]. apply Hret in Hr.
    destruct (IH Hc) as (p & Hp & Ep). rewrite list_lookup_insert_ne by done.
    destruct (decide (w = i)) as [->|Hne].
    + rewrite Hw in Hp. injection Hp as <-. exists (LWant n' d0). split; [by eapply set_same|done].
    + exists p. split; [|done]. by rewrite list_lookup_insert_ne.
  - destruct Hc as [[Hc Hr]|(e1 & e2 & E & Hx)]; [|by apply Hnc in E]. apply Hret in Hr.
    destruct (IH Hc) as (p & Hp & Ep). rewrite list_lookup_insert_ne by done. exists (wake d0 p).
    change (map (wake d0) (l_pcs s)) with (wake d0 <$> l_pcs s). rewrite list_lookup_fmap, Hp. split; [done|].
    destruct p as [|n2 d2|n2 d2|n1 d1]; try done. cbn. by destruct (decide (d0 = d1)).
  - destruct Hc as [[Hc Hr]|(e1 & e2 & E & Hx)]; [|by apply Hnc in E]. apply Hret in Hr. eapply Hkeep; [done|by right|done].
Qed.

(** ** Waiters proceed *)
(** Steps of threads already in their calls. *)
Inductive lcont (s : lst) : list lev -> lst -> Prop :=
| lcont_nil : lcont s [] s
| lcont_step tr s1 i w s2 es : lcont s tr s1 -> lgo s1 i w = Some (s2, es) -> lcont s (tr ++ es) s2.

Lemma lcont_run m k tr s es s' : lrun m k tr s -> lcont s es s' -> lrun m k (tr ++ es) s'.
Proof.
  intros H Hc. induction Hc as [|tr1 s1 i w s2 es _ IH Hg]; [by rewrite app_nil_r|].
  rewrite app_assoc. apply (lrun_step m k _ s1 (LGo i w)); [done|done].
Qed.

Definition wins (tr : list lev) (d : nat) : Prop :=
  exists j n, LRet j n d 0 ∈ tr /\ (lkind_of n = Some KEx \/ lkind_of n = Some KSh).

Lemma in_wins s j n d : l_pcs s !! j = Some (LIn n d) -> l_guard s !! d = Some 0 ->
  lkind_of n = Some KEx \/ lkind_of n = Some KSh -> exists s' es, lgo s j 0 = Some (s', es) /\ wins es d.
Proof.
  intros Hj Hg Hk. unfold lgo. rewrite Hj, Hg.
  destruct Hk as [Hk|Hk]; rewrite Hk; cbn; do 2 eexists; (split; [reflexivity|]);
    exists j, n; (split; [by apply elem_of_list_here|tauto]).
Qed.

Lemma want_wins s j n d : l_pcs s !! j = Some (LWant n d) -> l_guard s !! d = Some 0 -> l_mutex s !! d = Some false ->
  lkind_of n = Some KEx \/ lkind_of n = Some KSh -> exists s' es, lcont s es s' /\ wins es d.
Proof.
  intros Hj Hg Hm Hk.
  assert (H1 : lgo s j 0 = Some (Lst (l_guard s) (<[d := true]> (l_mutex s)) (<[j := LIn n d]> (l_pcs s)), [])).
  { unfold lgo. by rewrite Hj, Hm. }
  destruct (in_wins (Lst (l_guard s) (<[d := true]> (l_mutex s)) (<[j := LIn n d]> (l_pcs s))) j n d) as (s' & es & H2 & Hw);
    [by eapply set_same|done|done|].
  exists s', (([] ++ []) ++ es). split; [|done].
  eapply lcont_step; [|exact H2]. eapply lcont_step; [apply lcont_nil|exact H1].
Qed.

Lemma waiters_proceed m k tr s i n d : lrun m k tr s -> lpolite tr -> unlocked k tr d ->
  calling tr i n d -> (lkind_of n = Some KEx \/ lkind_of n = Some KSh) -> nonblock n = false ->
  exists s' es, lcont s es s' /\ wins es d.
Proof.
  intros H Hp Hu Hc Hkd Hnb. pose proof (lrun_inv _ _ _ _ H) as HI. pose proof (lrun_hinv _ _ _ _ H Hp) as HH.
  destruct (calling_pc _ _ _ _ _ _ _ H Hc) as (p & Hi & Ep).
  pose proof HI as [Hg Hm Hpl Hlow Hat Hin Hone Hheld Hblk Hwk]. destruct HH as [Hpe Hgu].
  destruct (Hat i p n d Hi Ep) as [Hd _].
  assert (Hg0 : l_guard s !! d = Some 0).
  { rewrite <- Hg in Hd. destruct (lookup_lt_is_Some_2 _ _ Hd) as [g Eg]. rewrite Eg. f_equal.
    assert (Hz : forall x, nhold k tr d x = 0).
    { intros x. apply zsum_0. intros j Hj. rewrite (Hu j Hj). done. }
    destruct (Hgu d g Eg) as [(_ & Hx & _)|(_ & Hx & _)]; rewrite Hz in Hx; lia. }
  (* some keen thread *)
  assert (Hkeen : exists j q, l_pcs s !! j = Some q /\ keen d q).
  { destruct p as [|n1 d1|n1 d1|n1 d1]; cbn in Ep; [done| | |]; injection Ep as -> ->.
    - exists i, (LWant n d). split; [done|]. exists n. split; [by left|]. split; [done|tauto].
    - exists i, (LIn n d). split; [done|]. exists n. split; [by right|]. split; [done|tauto].
    - exact (Hwk i n d Hi Hg0). }
  destruct Hkeen as (j & q & Hj & n1 & Hq & Hnb1 & Hk1).
  destruct Hq as [->| ->].
  2:{ destruct (in_wins s j n1 d Hj Hg0) as (s' & es & H1 & Hw); [tauto|].
      exists s', ([] ++ es). split; [|done]. eapply lcont_step; [apply lcont_nil|exact H1]. }
  assert (Hmd : is_Some (l_mutex s !! d)) by (apply lookup_lt_is_Some; lia).
  destruct Hmd as [[|] Hmd].
  2:{ apply (want_wins s j n1 d); [done|done|done|tauto]. }
  destruct (Hheld d Hmd) as (h & nh & Hh).
  destruct (Hat h _ nh d Hh eq_refl) as [_ [kh Hkh]].
  destruct kh.
  - destruct (in_wins s h nh d Hh Hg0) as (s' & es & H1 & Hw); [by right|].
    exists s', ([] ++ es). split; [|done]. eapply lcont_step; [apply lcont_nil|exact H1].
  - destruct (in_wins s h nh d Hh Hg0) as (s' & es & H1 & Hw); [by left|].
    exists s', ([] ++ es). split; [|done]. eapply lcont_step; [apply lcont_nil|exact H1].
  - assert (H1 : lgo s h 0 = Some (Lst (<[d := 0]> (l_guard s)) (<[d := false]> (l_mutex s)) (<[h := LIdle]> (l_pcs s)), [LRet h nh d 0])).
    { unfold lgo. rewrite Hh, Hg0, Hkh. done. }
    destruct (want_wins (Lst (<[d := 0]> (l_guard s)) (<[d := false]> (l_mutex s)) (<[h := LIdle]> (l_pcs s))) j n1 d) as (s' & es & H2 & Hw).
    + cbn [l_pcs]. rewrite list_lookup_insert_ne; [done|]. intros ->. congruence.
    + apply list_lookup_insert. lia.
    + apply list_lookup_insert. lia.
    + tauto.
    + exists s', ([LRet h nh d 0] ++ es). split.
      * clear - H1 H2. induction H2 as [|tr s1 i w s2 es _ IH Hg].
        -- change ([LRet h nh d 0] ++ []) with ([] ++ [LRet h nh d 0]). eapply lcont_step; [apply lcont_nil|exact H1].
        -- rewrite app_assoc. eapply lcont_step; [exact IH|exact Hg].
      * destruct Hw as (j' & n' & Hin' & Hk'). exists j', n'. split; [|done]. apply elem_of_app. by right.
Qed.

(** ** Non-blocking calls *)
Lemma nb_result m k tr s i n d r : lrun m k (tr ++ [LRet i n d r]) s ->
  r = 0 \/ (r = err EAGAIN /\ nonblock n = true) \/ (r = err EINVAL /\ lkind_of n = None).
Proof.
  intros H. remember (tr ++ [LRet i n d r]) as tr' eqn:E. revert E.
  induction H as [|tr0 s0 a s' es H0 IH Ha]; intros E; [by destruct tr|].
  apply ldo_view in Ha.
  destruct Ha; (try (rewrite app_nil_r in E; exact (IH E))).
  all: try (apply app_inj_tail in E as [_ E]; first [discriminate E | injection E as <- <- <- <-]; tauto).
  assert (E2 : (tr0 ++ [LCall i0 n0 d0]) ++ [LRet i0 n0 d0 (err EINVAL)] = tr ++ [LRet i n d r]) by (by rewrite <- app_assoc).
  apply app_inj_tail in E2 as [_ E2]. injection E2 as <- <- <- <-. tauto.
Qed.

(** ** Operation numbers *)
Lemma land11 n : Z.land n 11 = Z.b2z (Z.testbit n 0) + 2 * Z.b2z (Z.testbit n 1) + 8 * Z.b2z (Z.testbit n 3).
Proof.
  apply Z.bits_inj'. intros j Hj. rewrite Z.land_spec.
  assert (Hc : j = 0 \/ j = 1 \/ j = 2 \/ j = 3 \/ 4 <= j) by lia.
  destruct Hc as [->|[->|[->|[->|Hc]]]].
  1-4: destruct (Z.testbit n 0), (Z.testbit n 1), (Z.testbit n 3), (Z.testbit n 2); reflexivity.
  assert (H11 : Z.testbit 11 j = false) by (apply Z.bits_above_log2; [lia|]; cbn; lia).
  rewrite H11, andb_false_r. symmetry.
  set (v := Z.b2z (Z.testbit n 0) + 2 * Z.b2z (Z.testbit n 1) + 8 * Z.b2z (Z.testbit n 3)).
  assert (Hv : 0 <= v < 16) by (unfold v; destruct (Z.testbit n 0), (Z.testbit n 1), (Z.testbit n 3); cbn; lia).
  destruct (Z.eq_dec v 0) as [->|Hz]; [apply Z.bits_0|].
  apply Z.bits_above_log2; [lia|]. assert (Z.log2 v < 4) by (apply Z.log2_lt_pow2; lia). lia.
Qed.

Lemma lkind_asks n : lkind_of n = asks n.
Proof.
  unfold lkind_of, asks, LOCK_SH, LOCK_EX, LOCK_UN. change (Z.lor 1 (Z.lor 2 8)) with 11. rewrite land11.
  destruct (Z.testbit n 0), (Z.testbit n 1), (Z.testbit n 3); reflexivity.
Qed.

Lemma nonblock_bit n : nonblock n = Z.testbit n 2.
Proof.
  unfold nonblock, LOCK_NB.
  destruct (Z.testbit n 2) eqn:E.
  - apply Z.eqb_eq. apply Z.bits_inj'. intros j Hj. rewrite Z.land_spec.
    change 4 with (2 ^ 2). destruct (Z.eq_dec j 2) as [->|Hn]; [rewrite E; reflexivity|].
    rewrite Z.pow2_bits_false by lia. apply andb_false_r.
  - apply Z.eqb_neq. intros H. apply (f_equal (fun z => Z.testbit z 2)) in H. rewrite Z.land_spec, E in H. discriminate H.
Qed.

Lemma inval_iff m k tr s i n d r : lrun m k (tr ++ [LRet i n d r]) s -> (r = err EINVAL <-> asks n = None).
Proof.
  intros H. rewrite <- lkind_asks. remember (tr ++ [LRet i n d r]) as tr' eqn:E. revert E.
  induction H as [|tr0 s0 a s' es H0 IH Ha]; intros E; [by destruct tr|].
  pose proof (lrun_inv _ _ _ _ H0) as I. apply ldo_view in Ha.
  destruct Ha; (try (rewrite app_nil_r in E; exact (IH E))).
  1: { assert (E2 : (tr0 ++ [LCall i0 n0 d0]) ++ [LRet i0 n0 d0 (err EINVAL)] = tr ++ [LRet i n d r]) by (by rewrite <- app_assoc).
       apply app_inj_tail in E2 as [_ E2]. injection E2 as <- <- <- <-. tauto. }
  all: apply app_inj_tail in E as [_ E]; first [discriminate E | injection E as <- <- <- <-].
  1: { destruct (li_at _ _ _ I _ _ _ _ H eq_refl) as [_ [kd Ek]]. rewrite Ek. split; discriminate. }
  all: match goal with Hk : lkind_of ?x = Some _ |- _ => rewrite Hk end; split; discriminate.
Qed.

Lemma inval_frame s i n d s' es : ldo s (LStart i n d) = Some (s', es) -> asks n = None ->
  s' = s /\ es = [LCall i n d; LRet i n d (err EINVAL)].
Proof.
  intros H Hn. cbn [ldo] in H. rewrite lkind_asks, Hn in H.
  destruct (l_pcs s !! i) as [[| | |]|]; try discriminate H.
  case_bool_decide; [|discriminate H]. by injection H as <- <-.
Qed.

(** ** Examples *)
Lemma lsched_run m k as_ : forall tr0 s0 tr s, lrun m k tr0 s0 -> lsched s0 as_ = Some (tr, s) -> lrun m k (tr0 ++ tr) s.
Proof.
  induction as_ as [|a as_ IH]; intros tr0 s0 tr s H0 H; cbn in H.
  - injection H as <- <-. by rewrite app_nil_r.
  - destruct (ldo s0 a) as [[s1 es]|] eqn:E; [|discriminate H].
    destruct (lsched s1 as_) as [[tr1 s2]|] eqn:E2; [|discriminate H]. injection H as <- <-.
    rewrite app_assoc. apply (IH _ s1); [|done]. by eapply lrun_step.
Qed.

Lemma lock_ex m k as_ (chk : list lev -> lst -> bool) :
  match lsched (linit m k) as_ with Some (tr, s) => chk tr s | None => false end = true ->
  exists tr s, lrun m k tr s /\ chk tr s = true.
Proof.
  destruct (lsched (linit m k) as_) as [[tr s]|] eqn:E; [|done]. intros H. exists tr, s. split; [|done].
  exact (lsched_run m k as_ [] _ _ _ (lrun_nil m k) E).
Qed.

(** [lpolite], decided by going through the trace. *)
Fixpoint lpolite_b (pre tr : list lev) : bool :=
  match tr with
  | [] => true
  | e :: r =>
      match e with
      | LCall i n d =>
          match lkind_of n with
          | Some KUn => negb (bool_decide (holds pre i d = None))
          | Some _ => bool_decide (holds pre i d = None)
          | None => true
          end
      | _ => true
      end && lpolite_b (pre ++ [e]) r
  end.
Lemma lpolite_b_ok tr : forall pre, lpolite_b pre tr = true ->
  forall tr1 i n d tr2, tr = tr1 ++ LCall i n d :: tr2 ->
    match lkind_of n with
    | Some KUn => holds (pre ++ tr1) i d <> None
    | Some _ => holds (pre ++ tr1) i d = None
    | None => True
    end.
Proof.
  induction tr as [|e tr IH]; intros pre H tr1 i n d tr2 E; [by destruct tr1|].
  cbn [lpolite_b] in H. apply andb_true_iff in H as [H1 H2].
  destruct tr1 as [|e1 tr1].
  - injection E as -> ->. rewrite app_nil_r. destruct (lkind_of n) as [[| |]|]; [| | |done].
    + by apply bool_decide_eq_true in H1.
    + by apply bool_decide_eq_true in H1.
    + apply negb_true_iff in H1. by apply bool_decide_eq_false in H1.
  - injection E as -> ->. specialize (IH (pre ++ [e1]) H2 tr1 i n d tr2 eq_refl).
    rewrite <- app_assoc in IH. exact IH.
Qed.
Lemma lpolite_dec tr : lpolite_b [] tr = true -> lpolite tr.
Proof. intros H tr1 i n d tr2 E. exact (lpolite_b_ok tr [] H tr1 i n d tr2 E). Qed.

(** A thread that is not idle is in its call. *)
Lemma calling_more tr es i n d : calling tr i n d ->
  (forall e, e ∈ es -> match e with LRet j _ _ _ => i <> j | _ => True end) -> calling (tr ++ es) i n d.
Proof.
  intros (tr1 & tr2 & -> & H1) H2. exists tr1, (tr2 ++ es). split; [by rewrite <- app_assoc|].
  intros e He. apply elem_of_app in He as [He|He]; [by apply H1|by apply H2].
Qed.

Lemma pc_calling m k tr s i p n d : lrun m k tr s -> l_pcs s !! i = Some p -> at_d p = Some (n, d) -> calling tr i n d.
Proof.
  intros H. revert i p n d. induction H as [|tr s a s' es H0 IH Ha]; intros i p n d Hi E.
  { cbn in Hi. apply lookup_replicate in Hi as [-> _]. discriminate E. }
  pose proof (ldo_view _ _ _ _ Ha) as Hv. clear Ha.
  assert (Hr : forall j n0 d0 r q, l_pcs s !! i = Some q -> at_d q = Some (n, d) -> i <> j -> calling (tr ++ [LRet j n0 d0 r]) i n d).
  { intros j n0 d0 r q Hq Eq Hne. apply calling_more; [exact (IH i q n d Hq Eq)|].
    intros e He. apply elem_of_list_singleton in He as ->. done. }
  destruct Hv as [j n0 d0 Hj Hk|j n0 d0 kd Hj Hk Hd|j n0 d0 Hj Hmx|j n0 d0 Hj Hmx Hk Hnb|j n0 d0 Hj Egd Hk|j n0 d0 g Hj Egd Hge Hk
      |j n0 d0 g kd Hj Egd Hk Hku Hnb Hcs|j n0 d0 g kd Hj Egd Hk Hnb Hcs|j n0 d0 g Hj Egd Hk Hcs|j n0 d0 w n' Hj Egd Hk Hw
      |j n0 d0 Hj Egd Hk|j n0 d0 g Hj Egd Hk Hcs]; cbn [lgoto l_pcs] in Hi.
  - apply calling_more; [exact (IH i p n d Hi E)|]. intros e He.
    apply elem_of_cons in He as [->|He]; [done|]. apply elem_of_list_singleton in He as ->.
    intros ->. rewrite Hj in Hi. injection Hi as <-. discriminate E.
  - apply set_cases in Hi as [[-> <-]|[Hne Hi]].
    + injection E as <- <-. exists tr, []. split; [done|]. intros e He. by apply elem_of_nil in He.
    + apply calling_more; [exact (IH i p n d Hi E)|]. intros e He. apply elem_of_list_singleton in He as ->. done.
  - rewrite app_nil_r. apply set_cases in Hi as [[-> <-]|[Hne Hi]]; [exact (IH _ _ n d Hj E)|exact (IH i p n d Hi E)].
  - apply set_cases in Hi as [[-> <-]|[Hne Hi]]; [discriminate E|]. by apply (Hr _ _ _ _ p).
  - apply set_cases in Hi as [[-> <-]|[Hne Hi]]; [discriminate E|]. by apply (Hr _ _ _ _ p).
  - apply set_cases in Hi as [[-> <-]|[Hne Hi]]; [discriminate E|]. by apply (Hr _ _ _ _ p).
  - apply set_cases in Hi as [[-> <-]|[Hne Hi]]; [discriminate E|]. by apply (Hr _ _ _ _ p).
  - rewrite app_nil_r. apply set_cases in Hi as [[-> <-]|[Hne Hi]]; [exact (IH _ _ n d Hj E)|exact (IH i p n d Hi E)].
  - apply set_cases in Hi as [[-> <-]|[Hne Hi]]; [discriminate E|]. by apply (Hr _ _ _ _ p).
  - apply set_cases in Hi as [[-> <-]|[Hne Hi]]; [discriminate E|].
    apply set_cases in Hi as [[-> <-]|[Hne' Hi]].
    + by apply (Hr _ _ _ _ (LSleep n' d0)).
    + by apply (Hr _ _ _ _ p).
  - apply set_cases in Hi as [[-> <-]|[Hne Hi]]; [discriminate E|].
    change (map (wake d0) (l_pcs s)) with (wake d0 <$> l_pcs s) in Hi. rewrite list_lookup_fmap in Hi.
    destruct (l_pcs s !! i) as [q|] eqn:Eq; [|discriminate Hi]. injection Hi as <-.
    apply (Hr _ _ _ _ q); [done| |done]. destruct q as [|n2 d2|n2 d2|n1 d1]; try done. cbn in E.
    destruct (decide (d0 = d1)); done.
  - apply set_cases in Hi as [[-> <-]|[Hne Hi]]; [discriminate E|]. by apply (Hr _ _ _ _ p).
Qed.

(** Why a non-blocking request may fail. *)
Lemma nb_fails m k tr s i n d : lrun m k (tr ++ [LRet i n d (err EAGAIN)]) s -> lpolite tr ->
  (exists j x, (j < k)%nat /\ holds tr j d = Some x /\ (lkind_of n = Some KEx \/ x = KEx))
  \/ (exists j n', j <> i /\ calling tr j n' d).
Proof.
  intros H. remember (tr ++ [LRet i n d (err EAGAIN)]) as tr' eqn:E. revert E.
  induction H as [|tr0 s0 a s' es H0 IH Ha]; intros E Hp; [by destruct tr|].
  apply ldo_view in Ha.
  destruct Ha as [j n0 d0 Hj Hk|j n0 d0 kd Hj Hk Hd|j n0 d0 Hj Hmx|j n0 d0 Hj Hmx Hk Hnb|j n0 d0 Hj Egd Hk|j n0 d0 g Hj Egd Hge Hk
      |j n0 d0 g kd Hj Egd Hk Hku Hnb Hcs|j n0 d0 g kd Hj Egd Hk Hnb Hcs|j n0 d0 g Hj Egd Hk Hcs|j n0 d0 w n' Hj Egd Hk Hw
      |j n0 d0 Hj Egd Hk|j n0 d0 g Hj Egd Hk Hcs]; (try (rewrite app_nil_r in E; exact (IH E Hp))).
  3,6: apply app_inj_tail in E as [<- E]; injection E as <- <- <-.
  all: try (apply app_inj_tail in E as [_ E]; discriminate E).
  - exfalso. assert (E2 : (tr0 ++ [LCall j n0 d0]) ++ [LRet j n0 d0 (err EINVAL)] = tr ++ [LRet i n d (err EAGAIN)]) by (by rewrite <- app_assoc).
    apply app_inj_tail in E2 as [_ E2]. discriminate E2.
  - right. pose proof (lrun_inv _ _ _ _ H0) as HI. destruct (li_held _ _ _ HI d0 Hmx) as (h & nh & Hh).
    exists h, nh. split; [congruence|]. exact (pc_calling _ _ _ _ h _ nh d0 H0 Hh eq_refl).
  - left. pose proof (lrun_hinv _ _ _ _ H0 Hp) as HH. pose proof (hi_guard _ _ _ HH _ _ Egd) as [(-> & Hx & _)|(Hge & Hs & _)].
    + destruct (zsum_pos k (fun i => ind KEx (holds tr0 i d0))) as (h & Hh & Hpos); [unfold nhold in Hx; lia|].
      exists h, KEx. split; [done|]. cbv beta in Hpos. unfold ind in Hpos. case_bool_decide as Hb; [|lia]. tauto.
    + destruct Hcs as [[-> Hne]|[_ ?]]; [|lia].
      destruct (zsum_pos k (fun i => ind KSh (holds tr0 i d0))) as (h & Hh & Hpos); [unfold nhold in Hs; lia|].
      exists h, KSh. split; [done|]. cbv beta in Hpos. unfold ind in Hpos. case_bool_decide as Hb; [|lia]. tauto.
Qed.

(** ** Unlock first, then ask *)
Lemma alone_wins m k tr s i n d : lrun m k tr s -> lpolite tr -> unlocked k tr d ->
  calling tr i n d -> (forall j n', calling tr j n' d -> j = i) -> (lkind_of n = Some KEx \/ lkind_of n = Some KSh) ->
  exists s' es, lcont s es s' /\ LRet i n d 0 ∈ es.
Proof.
  intros H Hp Hu Hc Hal Hkd. pose proof (lrun_inv _ _ _ _ H) as HI. pose proof (lrun_hinv _ _ _ _ H Hp) as HH.
  destruct (calling_pc _ _ _ _ _ _ _ H Hc) as (p & Hi & Ep).
  pose proof HI as [Hg Hm Hpl Hlow Hat Hin Hone Hheld Hblk Hwk]. destruct HH as [Hpe Hgu].
  destruct (Hat i p n d Hi Ep) as [Hd _].
  assert (Hg0 : l_guard s !! d = Some 0).
  { rewrite <- Hg in Hd. destruct (lookup_lt_is_Some_2 _ _ Hd) as [g Eg]. rewrite Eg. f_equal.
    assert (Hz : forall x, nhold k tr d x = 0).
    { intros x. apply zsum_0. intros j Hj. rewrite (Hu j Hj). done. }
    destruct (Hgu d g Eg) as [(_ & Hx & _)|(_ & Hx & _)]; rewrite Hz in Hx; lia. }
  assert (Hmine : forall j q n', l_pcs s !! j = Some q -> at_d q = Some (n', d) -> j = i).
  { intros j q n' Hj Hq. exact (Hal j n' (pc_calling _ _ _ _ j q n' d H Hj Hq)). }
  assert (Hgo : forall s0, l_pcs s0 !! i = Some (LIn n d) -> l_guard s0 !! d = Some 0 ->
    exists s' es, lgo s0 i 0 = Some (s', es) /\ LRet i n d 0 ∈ es).
  { intros s0 Hj G. unfold lgo. rewrite Hj, G.
    destruct Hkd as [Hk|Hk]; rewrite Hk; cbn; do 2 eexists; (split; [reflexivity|]); by apply elem_of_list_here. }
  destruct p as [|n1 d1|n1 d1|n1 d1]; cbn in Ep; [done| | |]; injection Ep as -> ->.
  - assert (Hmd : is_Some (l_mutex s !! d)) by (apply lookup_lt_is_Some; lia).
    destruct Hmd as [[|] Hmd].
    + destruct (Hheld d Hmd) as (h & nh & Hh). pose proof (Hmine h _ nh Hh eq_refl) as ->. congruence.
    + assert (H1 : lgo s i 0 = Some (Lst (l_guard s) (<[d := true]> (l_mutex s)) (<[i := LIn n d]> (l_pcs s)), [])).
      { unfold lgo. by rewrite Hi, Hmd. }
      destruct (Hgo (Lst (l_guard s) (<[d := true]> (l_mutex s)) (<[i := LIn n d]> (l_pcs s)))) as (s' & es & H2 & Hw);
        [by eapply set_same|done|].
      exists s', (([] ++ []) ++ es). split; [|done].
      eapply lcont_step; [|exact H2]. eapply lcont_step; [apply lcont_nil|exact H1].
  - destruct (Hgo s Hi Hg0) as (s' & es & H1 & Hw).
    exists s', ([] ++ es). split; [|done]. eapply lcont_step; [apply lcont_nil|exact H1].
  - destruct (Hwk i n d Hi Hg0) as (j & q & Hj & n1 & Hq & _ & _).
    assert (j = i) as -> by (apply (Hmine j q n1 Hj); destruct Hq as [->| ->]; reflexivity).
    rewrite Hi in Hj. injection Hj as <-. destruct Hq; discriminate.
Qed.
