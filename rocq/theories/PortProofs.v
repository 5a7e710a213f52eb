(** Proofs about port reservations. *)
From Verif Require Import Base PortModel PortSpec.
Local Open Scope list_scope.
Local Open Scope Z_scope.

Definition keyed (k : Z * ptype) (L : list resv) : list resv := List.filter (fun r => bool_decide ((r_port r, r_pt r) = k)) L.
Definition at_addr (a : addr) (L : list resv) : list resv := List.filter (fun r => bool_decide (r_addr r = a)) L.

Definition counted (n : Z) (La : list resv) : Prop :=
  (n = 0 /\ exists r, La = [r] /\ r_reuse r = false) \/ (1 <= n /\ Z.of_nat (length La) = n /\ Forall (fun r => r_reuse r = true) La).

Definition single (l : list (addr * Z)) (Lk : list resv) : Prop :=
  NoDup l.*1 /\ (forall a n, (a, n) ∈ l -> unspecified a = false /\ counted n (at_addr a Lk)) /\ (forall r, r ∈ Lk -> exists n, (r_addr r, n) ∈ l).
Definition okkey (devs : list addr) (e : option (list (addr * Z))) (Lk : list resv) : Prop :=
  match e with
  | None => Lk = []
  | Some l => (exists r, Lk = [r] /\ unspecified (r_addr r) = true /\ l = map (fun x => (x, users (r_reuse r))) (iplist devs)) \/ (l <> [] /\ single l Lk)
  end.

Record pinv (devs : list addr) (s : ports) (L : list resv) : Prop := {
  i_key k : okkey devs (p_used s !! k) (keyed k L);
  i_dev r : r ∈ L -> r_addr r ∈ iplist devs;
  i_next pt : EPH_START <= p_next s pt <= EPH_END
}.

Lemma keyed_in k L r : r ∈ keyed k L <-> r ∈ L /\ (r_port r, r_pt r) = k.
Proof. unfold keyed. rewrite !elem_of_list_In, filter_In, bool_decide_eq_true. reflexivity. Qed.
Lemma at_in a L r : r ∈ at_addr a L <-> r ∈ L /\ r_addr r = a.
Proof. unfold at_addr. rewrite !elem_of_list_In, filter_In, bool_decide_eq_true. reflexivity. Qed.
Lemma keyed_cons_eq r L : keyed (r_port r, r_pt r) (r :: L) = r :: keyed (r_port r, r_pt r) L.
Proof. unfold keyed. cbn. rewrite bool_decide_eq_true_2 by reflexivity. reflexivity. Qed.
Lemma keyed_cons_ne k r L : (r_port r, r_pt r) <> k -> keyed k (r :: L) = keyed k L.
Proof. intros H. unfold keyed. cbn. rewrite bool_decide_eq_false_2 by assumption. reflexivity. Qed.
Lemma keyed_app k L1 L2 : keyed k (L1 ++ L2) = keyed k L1 ++ keyed k L2.
Proof. unfold keyed. apply List.filter_app. Qed.
Lemma at_app a L1 L2 : at_addr a (L1 ++ L2) = at_addr a L1 ++ at_addr a L2.
Proof. unfold at_addr. apply List.filter_app. Qed.
Lemma at_cons_eq r L : at_addr (r_addr r) (r :: L) = r :: at_addr (r_addr r) L.
Proof. unfold at_addr. cbn. rewrite bool_decide_eq_true_2 by reflexivity. reflexivity. Qed.
Lemma at_cons_ne a r L : r_addr r <> a -> at_addr a (r :: L) = at_addr a L.
Proof. intros H. unfold at_addr. cbn. rewrite bool_decide_eq_false_2 by assumption. reflexivity. Qed.

Lemma at_nonempty a L r : r ∈ at_addr a L -> at_addr a L <> [].
Proof. intros H E. rewrite E in H. apply elem_of_nil in H. exact H. Qed.

(** ** The loop over the users *)
Lemma add_user_map (devs : list addr) a n : a ∈ devs -> add_user a (map (fun x => (x, n)) devs) = None <-> n = 0.
Proof.
  induction devs as [|b l IH]; intros Ha; [apply elem_of_nil in Ha; contradiction|]. cbn [map add_user].
  destruct (bool_decide_reflect (b = a)) as [->|Hne].
  - destruct (Z.eqb_spec n 0); split; intros; congruence.
  - apply elem_of_cons in Ha as [->|Ha]; [congruence|]. specialize (IH Ha).
    destruct (add_user a (map (fun x => (x, n)) l)); [|tauto]. split; intros H; [discriminate H|]. apply IH in H. discriminate H.
Qed.
Lemma add_user_fst a l l' : add_user a l = Some l' -> l'.*1 = l.*1.
Proof.
  revert l'. induction l as [|[b n] l IH]; intros l' H; cbn in H; [injection H as <-; reflexivity|].
  destruct (bool_decide (b = a)).
  - destruct (n =? 0); [discriminate H|]. injection H as <-. reflexivity.
  - destruct (add_user a l) as [l1|]; [|discriminate H]. injection H as <-. cbn. f_equal. apply IH. reflexivity.
Qed.
Lemma add_user_in a n l : NoDup l.*1 -> (a, n) ∈ l -> n <> 0 -> exists l', add_user a l = Some l' /\
  (forall b m, (b, m) ∈ l' <-> b = a /\ m = n + 1 \/ b <> a /\ (b, m) ∈ l).
Proof.
  induction l as [|[c m] l IH]; intros Hd Hin Hn; [apply elem_of_nil in Hin; contradiction|]. cbn [add_user].
  cbn in Hd. apply NoDup_cons in Hd as [Hc Hd].
  assert (Hfst : forall b k, (b, k) ∈ l -> b ∈ l.*1) by (intros b k H; apply elem_of_list_fmap; exists (b, k); auto).
  destruct (bool_decide_reflect (c = a)) as [->|Hne].
  - apply elem_of_cons in Hin as [[= ->]|Hin]; [|apply Hfst in Hin; contradiction].
    destruct (Z.eqb_spec m 0); [contradiction|]. eexists. split; [reflexivity|]. intros b k. rewrite !elem_of_cons. split.
    + intros [[= -> ->]|H]; [auto|]. right. split; [intros ->; apply Hfst in H; contradiction|auto].
    + intros [[-> ->]|[H1 [[= ? ?]|H2]]]; [auto|congruence|auto].
  - apply elem_of_cons in Hin as [[= -> ->]|Hin]; [contradiction|]. destruct (IH Hd Hin Hn) as (l' & E & H). rewrite E.
    eexists. split; [reflexivity|]. intros b k. rewrite !elem_of_cons, H. split.
    + intros [[= -> ->]|[?|[? ?]]]; [right; auto|auto|right; auto].
    + intros [?|[H1 [[= -> ->]|H2]]]; [auto|auto|auto].
Qed.
Lemma add_user_zero a l : NoDup l.*1 -> (a, 0) ∈ l -> add_user a l = None.
Proof.
  induction l as [|[c m] l IH]; intros Hd Hin; [apply elem_of_nil in Hin; contradiction|]. cbn [add_user].
  cbn in Hd. apply NoDup_cons in Hd as [Hc Hd].
  destruct (bool_decide_reflect (c = a)) as [->|Hne].
  - apply elem_of_cons in Hin as [[= <-]|Hin]; [reflexivity|]. exfalso. apply Hc. apply elem_of_list_fmap. exists (a, 0). auto.
  - apply elem_of_cons in Hin as [[= E _]|Hin]; [congruence|]. rewrite (IH Hd Hin). reflexivity.
Qed.

(** ** Removal *)
Lemma swap_remove_perm {A} (l : list A) (i : nat) (x : A) : l !! i = Some x -> l ≡ₚ x :: swap_remove i l.
Proof.
  intros Hi. unfold swap_remove. destruct (last l) as [z|] eqn:Hz.
  2:{ apply last_None in Hz. subst l. discriminate Hi. }
  apply last_Some in Hz as [m ->]. rewrite app_length. cbn [length].
  replace (length m + 1 - 1)%nat with (length m) by lia.
  destruct (decide (i < length m)%nat) as [Hlt|Hge].
  - rewrite lookup_app_l in Hi by assumption. rewrite insert_app_l by assumption.
    rewrite take_app_le by (rewrite insert_length; lia). rewrite take_ge by (rewrite insert_length; lia).
    rewrite insert_take_drop by assumption.
    pose proof (take_drop_middle m i x Hi) as E. rewrite <- E at 1. rewrite <- app_assoc. cbn [app].
    rewrite <- Permutation_middle. constructor. apply Permutation_app_head. symmetry. rewrite <- Permutation_cons_append. reflexivity.
  - apply lookup_lt_Some in Hi as Hl. rewrite app_length in Hl. cbn in Hl. assert (i = length m) by lia. subst i.
    rewrite lookup_app_r, Nat.sub_diag in Hi by lia. injection Hi as <-.
    replace (<[length m := z]> (m ++ [z])) with (m ++ [z]).
    2:{ symmetry. apply list_insert_id. rewrite lookup_app_r, Nat.sub_diag by lia. reflexivity. }
    rewrite take_app_le by lia. rewrite take_ge by lia. rewrite <- Permutation_cons_append. reflexivity.
Qed.

Lemma release_any_all (n : Z) : forall l : list (addr * Z), n <= 1 -> Forall (fun x => x.2 = n) l ->
  forall arr, length arr = length l -> release_any l arr = Done [].
Proof.
  induction l as [|[b m] l IH]; intros Hn Hl arr Ha; cbn [release_any].
  - destruct arr; [reflexivity|discriminate Ha].
  - apply Forall_cons in Hl as [Hm Hl]. cbn in Hm. subst m. destruct arr as [|[c k] arr]; [discriminate Ha|].
    assert (E : n <=? 1 = true) by lia. rewrite E. apply IH; [assumption|assumption|].
    pose proof (Permutation_length (swap_remove_perm ((c, k) :: arr) 0 (c, k) eq_refl)) as P. cbn [length] in *. lia.
Qed.

Lemma release_one_spec a : forall (clone arr : list (addr * Z)) (i : nat), (forall j : nat, clone !! j = arr !! (i + j)%nat) -> NoDup clone.*1 ->
  forall n, (a, n) ∈ clone -> exists j, arr !! j = Some (a, n) /\
    release_one a i clone arr = Some (if n <=? 1 then swap_remove j arr else alter (fun x => (x.1, x.2 - 1)) j arr).
Proof.
  induction clone as [|[b m] l IH]; intros arr i Hc Hd n Hin; [apply elem_of_nil in Hin; contradiction|]. cbn [release_one].
  cbn in Hd. apply NoDup_cons in Hd as [Hb Hd]. destruct (bool_decide_reflect (b = a)) as [->|Hne].
  - apply elem_of_cons in Hin as [[= ->]|Hin].
    + exists i. split; [|reflexivity]. rewrite <- (Nat.add_0_r i), <- Hc. reflexivity.
    + exfalso. apply Hb. apply elem_of_list_fmap. exists (a, n). auto.
  - apply elem_of_cons in Hin as [[= -> ->]|Hin]; [contradiction|].
    apply IH; [|assumption|assumption]. intros j. specialize (Hc (S j)). change (l !! j = arr !! (i + S j)%nat) in Hc. rewrite Hc. f_equal. lia.
Qed.

(** ** Reservation keeps the invariant *)
Lemma single_none (devs : list addr) l Lk : okkey devs (Some l) Lk -> Lk <> [].
Proof.
  intros [(r & -> & _)|(Hl & _ & H & _)]; [discriminate|].
  destruct l as [|[a n] l]; [contradiction|]. destruct (H a n) as [_ [(_ & r & E & _)|(H1 & H2 & _)]]; [left| |].
  - intros ->. discriminate E.
  - intros ->. cbn in H2. lia.
Qed.

Lemma okkey_other (devs : list addr) (u : table) (k : Z * ptype) (l : list (addr * Z)) (L : list resv) q : (r_port q, r_pt q) = k ->
  (forall k' : Z * ptype, okkey devs (u !! k') (keyed k' L)) -> okkey devs (Some l) (keyed k (q :: L)) ->
  forall k' : Z * ptype, okkey devs ((<[k := l]> u) !! k') (keyed k' (q :: L)).
Proof.
  intros E H Hk k'. destruct (decide (k = k')) as [<-|Hne]; [rewrite lookup_insert; exact Hk|].
  rewrite lookup_insert_ne by assumption. rewrite keyed_cons_ne by congruence. apply H.
Qed.

Lemma init_ok (devs : list addr) (u : table) L a port pt reuse u' : (forall k' : Z * ptype, okkey devs (u !! k') (keyed k' L)) -> a ∈ iplist devs ->
  initialize_port devs u a port pt (users reuse) = Some u' ->
  (forall k' : Z * ptype, okkey devs (u' !! k') (keyed k' (Resv a port pt reuse :: L))) /\
  (forall r, r ∈ L -> r_port r = port -> r_pt r = pt -> r_addr r <> a /\ unspecified (r_addr r) = false /\ unspecified a = false).
Proof.
  intros H Ha Hi. set (q := Resv a port pt reuse). unfold initialize_port in Hi. destruct (unspecified a) eqn:Eu.
  - destruct (u !! (port, pt)) as [l|] eqn:El; [discriminate Hi|]. injection Hi as <-.
    pose proof (H (port, pt)) as K. rewrite El in K. cbn in K. split.
    + apply okkey_other; [reflexivity|exact H|]. left. exists q. split; [|split; [exact Eu|reflexivity]].
      change (port, pt) with (r_port q, r_pt q). rewrite keyed_cons_eq. change (r_port q, r_pt q) with (port, pt). rewrite K. reflexivity.
    + intros r Hr E1 E2. exfalso. assert (r ∈ keyed (port, pt) L) by (apply keyed_in; split; [exact Hr|congruence]). rewrite K in H0. apply elem_of_nil in H0. exact H0.
  - assert (Hone : at_addr a (keyed (port, pt) L) = [] -> counted (users reuse) (at_addr a (keyed (port, pt) (q :: L)))).
    { intros E. change (port, pt) with (r_port q, r_pt q). rewrite keyed_cons_eq. change a with (r_addr q). rewrite at_cons_eq.
      change (r_port q, r_pt q) with (port, pt). change (r_addr q) with a. rewrite E. unfold counted, users. destruct reuse.
      - right. split; [lia|]. split; [reflexivity|]. constructor; [reflexivity|constructor].
      - left. split; [reflexivity|]. exists q. auto. }
    destruct (u !! (port, pt)) as [l|] eqn:El.
    + destruct (existsb _ l) eqn:Ex; [discriminate Hi|]. injection Hi as <-.
      assert (Hn : forall b n, (b, n) ∈ l -> b <> a).
      { intros b n Hin ->. assert (existsb (fun x => bool_decide (x.1 = a)) l = true); [|congruence].
        apply existsb_exists. exists (a, n). split; [apply elem_of_list_In; exact Hin|apply bool_decide_eq_true; reflexivity]. }
      pose proof (H (port, pt)) as K. rewrite El in K. destruct K as [(r & E1 & E2 & E3)|(Hl & S1 & S2 & S3)].
      { exfalso. apply (Hn a (users (r_reuse r))); [|reflexivity]. rewrite E3. apply elem_of_list_fmap. exists a. auto. }
      assert (Hno : at_addr a (keyed (port, pt) L) = []).
      { destruct (at_addr a (keyed (port, pt) L)) as [|r t] eqn:Et; [reflexivity|]. exfalso.
        assert (Hr : r ∈ at_addr a (keyed (port, pt) L)) by (rewrite Et; left). apply at_in in Hr as [Hr Er].
        destruct (S3 r Hr) as [n Hin]. rewrite Er in Hin. exact (Hn _ _ Hin eq_refl). }
      split.
      * apply okkey_other; [reflexivity|exact H|]. right. split; [destruct l; discriminate|]. split; [|split].
        -- rewrite fmap_app. apply NoDup_app. split; [exact S1|]. split; [|apply NoDup_singleton].
           intros b Hb Hb'. apply elem_of_list_singleton in Hb'. cbn in Hb'. subst b. apply elem_of_list_fmap in Hb as ([b n] & Eb & Hb). cbn in Eb. subst b. exact (Hn _ _ Hb eq_refl).
        -- intros b n Hin. apply elem_of_app in Hin as [Hin|Hin].
           ++ destruct (S2 _ _ Hin) as [? ?]. split; [assumption|]. change (port, pt) with (r_port q, r_pt q). rewrite keyed_cons_eq, at_cons_ne; [assumption|].
              pose proof (Hn _ _ Hin). intros E. apply H2. symmetry. exact E.
           ++ apply elem_of_list_singleton in Hin. injection Hin as -> ->. split; [exact Eu|]. apply Hone. exact Hno.
        -- intros r. change (port, pt) with (r_port q, r_pt q). rewrite keyed_cons_eq. intros Hr. apply elem_of_cons in Hr as [->|Hr].
           ++ exists (users reuse). apply elem_of_app. right. left.
           ++ destruct (S3 _ Hr) as [n ?]. exists n. apply elem_of_app. auto.
      * intros r Hr E1 E2. assert (Hk : r ∈ keyed (port, pt) L) by (apply keyed_in; split; [exact Hr|congruence]).
        destruct (S3 _ Hk) as [n Hin]. split; [exact (Hn _ _ Hin)|]. split; [exact (proj1 (S2 _ _ Hin))|reflexivity].
    + injection Hi as <-. pose proof (H (port, pt)) as K. rewrite El in K. cbn in K. split.
      * apply okkey_other; [reflexivity|exact H|]. right. split; [discriminate|]. split; [apply NoDup_singleton|]. split.
        -- intros b n Hin. apply elem_of_list_singleton in Hin. injection Hin as -> ->. split; [exact Eu|]. apply Hone. rewrite K. reflexivity.
        -- intros r. change (port, pt) with (r_port q, r_pt q). rewrite keyed_cons_eq. change (r_port q, r_pt q) with (port, pt). rewrite K.
           intros Hr. apply elem_of_list_singleton in Hr. subst r. exists (users reuse). left.
      * intros r Hr E1 E2. exfalso. assert (r ∈ keyed (port, pt) L) by (apply keyed_in; split; [exact Hr|congruence]). rewrite K in H0. apply elem_of_nil in H0. exact H0.
Qed.

Lemma init_none (devs : list addr) (u : table) L a port pt reb : (forall k' : Z * ptype, okkey devs (u !! k') (keyed k' L)) -> 
  initialize_port devs u a port pt reb = None ->
  exists r, r ∈ L /\ r_port r = port /\ r_pt r = pt /\ (r_addr r = a \/ unspecified (r_addr r) = true \/ unspecified a = true).
Proof.
  intros H Hi. pose proof (H (port, pt)) as K. unfold initialize_port in Hi. destruct (unspecified a) eqn:Eu.
  - destruct (u !! (port, pt)) as [l|]; [|discriminate Hi]. apply single_none in K.
    destruct (keyed (port, pt) L) as [|r t] eqn:Et; [contradiction|]. assert (Hr : r ∈ keyed (port, pt) L) by (rewrite Et; left).
    apply keyed_in in Hr as [Hr [= E1 E2]]. exists r. auto 6.
  - destruct (u !! (port, pt)) as [l|]; [|discriminate Hi]. destruct (existsb _ l) eqn:Ex; [|discriminate Hi].
    apply existsb_exists in Ex as ([b n] & Hin & Eb). apply bool_decide_eq_true in Eb. cbn in Eb. subst b. apply elem_of_list_In in Hin.
    destruct K as [(r & E1 & E2 & E3)|(Hl & S1 & S2 & S3)].
    + assert (Hr : r ∈ keyed (port, pt) L) by (rewrite E1; left). apply keyed_in in Hr as [Hr [= F1 F2]]. exists r. auto 7.
    + destruct (S2 _ _ Hin) as [_ Hc]. assert (Hne : at_addr a (keyed (port, pt) L) <> []).
      { destruct Hc as [(_ & r & E & _)|(C1 & C2 & _)]; [rewrite E; discriminate|]. intros E. rewrite E in C2. cbn in C2. lia. }
      destruct (at_addr a (keyed (port, pt) L)) as [|r t] eqn:Et; [contradiction|].
      assert (Hr : r ∈ at_addr a (keyed (port, pt) L)) by (rewrite Et; left). apply at_in in Hr as [Hr Er]. apply keyed_in in Hr as [Hr [= F1 F2]].
      exists r. auto.
Qed.

Lemma scan_spec (devs : list addr) u a pt reb l : 
  match scan devs u a pt reb l with
  | Some (port, u') => exists q, q ∈ l /\ port = swap16 q /\ initialize_port devs u a port pt reb = Some u'
  | None => forall q, q ∈ l -> initialize_port devs u a (swap16 q) pt reb = None
  end.
Proof.
  induction l as [|q l IH]; cbn [scan]; [intros q Hq; apply elem_of_nil in Hq; contradiction|].
  destruct (initialize_port devs u a (swap16 q) pt reb) as [u'|] eqn:E.
  - exists q. split; [left|]. auto.
  - destruct (scan devs u a pt reb l) as [[port u']|].
    + destruct IH as (q' & Hq & H). exists q'. split; [right; exact Hq|exact H].
    + intros q' Hq. apply elem_of_cons in Hq as [->|Hq]; [exact E|exact (IH _ Hq)].
Qed.

Lemma down_in n : forall hi q, q ∈ down n hi <-> hi - Z.of_nat n < q <= hi.
Proof.
  induction n as [|n IH]; intros hi q; cbn [down].
  - rewrite elem_of_nil. lia.
  - rewrite elem_of_cons, IH. lia.
Qed.
Lemma candidates_in next q : EPH_START <= next <= EPH_END -> q ∈ candidates next <-> EPH_START <= q <= EPH_END.
Proof.
  intros Hn. unfold candidates. rewrite elem_of_app.
  rewrite !down_in. lia.
Qed.
Lemma next_down_ok n : EPH_START <= n <= EPH_END -> EPH_START <= next_down n <= EPH_END.
Proof. unfold next_down, EPH_START, EPH_END. destruct (Z.ltb_spec (n - 1) 32768); lia. Qed.
Lemma swap16_nonneg q : EPH_START <= q <= EPH_END -> 0 <= swap16 q.
Proof. unfold swap16, EPH_START. intros H. pose proof (Z.mod_pos_bound q 256). pose proof (Z.div_pos q 256). lia. Qed.

Definition free_of (L : list resv) (q : resv) : Prop := forall r, r ∈ L -> compatible r q.

Lemma compat_no r q : r_addr r <> r_addr q -> unspecified (r_addr r) = false -> unspecified (r_addr q) = false -> compatible r q.
Proof. intros H1 H2 H3 (_ & _ & [?|[?|?]]); congruence. Qed.

(** An automatically chosen port *)
Lemma get_available_spec (devs : list addr) s L a pt reuse s' x : pinv devs s L -> a ∈ iplist devs -> get_available devs s a pt reuse = (s', x) ->
  (0 <= x /\ ephemeral x /\ free_of L (Resv a x pt reuse) /\ pinv devs s' (Resv a x pt reuse :: L)) \/
  (x = err EADDRINUSE /\ s' = s /\ forall port, ephemeral port -> exists r, r ∈ L /\ overlap r (Resv a port pt reuse)).
Proof.
  intros Hp Ha H. unfold get_available in H. rewrite bool_decide_eq_true_2 in H by assumption. cbn [negb] in H.
  pose proof (i_next _ _ _ Hp pt) as Hn.
  pose proof (scan_spec devs (p_used s) a pt (users reuse) (candidates (p_next s pt))) as S.
  destruct (scan _ _ _ _ _ _) as [[port u]|].
  - injection H as <- <-. destruct S as (q & Hq & -> & Hi). apply candidates_in in Hq; [|assumption].
    destruct (init_ok _ _ _ _ _ _ _ _ (i_key _ _ _ Hp) Ha Hi) as [K1 K2]. left. split; [exact (swap16_nonneg _ Hq)|].
    split; [exists q; split; [exact Hq|reflexivity]|]. split.
    + intros r Hr Ho. pose proof Ho as (E1 & E2 & _). destruct (K2 r Hr E1 E2) as (F1 & F2 & F3). exact (compat_no r (Resv a (swap16 q) pt reuse) F1 F2 F3 Ho).
    + constructor.
      * exact K1.
      * intros r Hr. apply elem_of_cons in Hr as [->|Hr]; [exact Ha|exact (i_dev _ _ _ Hp _ Hr)].
      * intros pt'. cbn. unfold upd. destruct (bool_decide (pt' = pt)); [exact (next_down_ok _ Hn)|exact (i_next _ _ _ Hp pt')].
  - injection H as <- <-. right. split; [reflexivity|]. split; [reflexivity|]. intros port (q & Hq & ->).
    assert (Hc : q ∈ candidates (p_next s pt)) by (apply candidates_in; assumption).
    destruct (init_none _ _ _ _ _ _ _ (i_key _ _ _ Hp) (S _ Hc)) as (r & Hr & E1 & E2 & E3). exists r. split; [exact Hr|].
    split; [exact E1|]. split; [exact E2|]. exact E3.
Qed.

(** A chosen port *)
Lemma reserve_spec (devs : list addr) s L q s' x : pinv devs s L -> r_addr q ∈ iplist devs -> 0 < r_port q -> fair L (Reserve q) ->
  reserve devs s (r_addr q) (r_port q) (r_pt q) (r_reuse q) = (s', x) ->
  (x = r_port q /\ free_of L q /\ pinv devs s' (q :: L)) \/ (x = err EADDRINUSE /\ s' = s /\ ~ free_of L q).
Proof.
  intros Hp Ha Hport Hf H. unfold reserve in H. rewrite bool_decide_eq_true_2 in H by assumption. cbn [negb] in H.
  assert (r_port q =? 0 = false) as E0 by lia. rewrite E0 in H. clear E0.
  destruct q as [a port pt reuse]. cbn [r_addr r_port r_pt r_reuse] in *. set (q := Resv a port pt reuse) in *.
  assert (Hdev : forall r, r ∈ q :: L -> r_addr r ∈ iplist devs).
  { intros r Hr. apply elem_of_cons in Hr as [->|Hr]; [exact Ha|exact (i_dev _ _ _ Hp _ Hr)]. }
  assert (Hfresh : forall u', initialize_port devs (p_used s) a port pt (users reuse) = Some u' ->
     free_of L q /\ pinv devs (Ports u' (p_next s)) (q :: L)).
  { intros u' Hi. destruct (init_ok _ _ _ _ _ _ _ _ (i_key _ _ _ Hp) Ha Hi) as [K1 K2]. split.
    - intros r Hr Ho. pose proof Ho as (E1 & E2 & _). destruct (K2 r Hr E1 E2) as (F1 & F2 & F3). exact (compat_no r q F1 F2 F3 Ho).
    - constructor; [exact K1|exact Hdev|exact (i_next _ _ _ Hp)]. }
  pose proof (i_key _ _ _ Hp (port, pt)) as K.
  destruct (unspecified a) eqn:Eu.
  - destruct (p_used s !! (port, pt)) as [l|] eqn:El.
    + injection H as <- <-. right. split; [reflexivity|]. split; [reflexivity|]. intros Hfree. apply single_none in K.
      destruct (keyed (port, pt) L) as [|r t] eqn:Et; [contradiction|]. assert (Hr : r ∈ keyed (port, pt) L) by (rewrite Et; left).
      apply keyed_in in Hr as [Hr [= E1 E2]]. destruct (Hfree r Hr) as (F1 & F2 & _).
      * split; [exact E1|]. split; [exact E2|]. right. right. exact Eu.
      * rewrite F1 in F2. cbn in F2. congruence.
    + injection H as <- <-. left. split; [reflexivity|]. apply Hfresh. unfold initialize_port. rewrite Eu, El. reflexivity.
  - destruct (p_used s !! (port, pt)) as [l|] eqn:El.
    + destruct Hf as [Hf|[Hf|[Hf1 Hf2]]]; [cbn in Hf; lia|cbn in Hf; congruence|].
      destruct K as [(r & E1 & E2 & E3)|(Hl & S1 & S2 & S3)].
      * assert (Hr : r ∈ keyed (port, pt) L) by (rewrite E1; left). apply keyed_in in Hr as [Hr [= F1 F2]].
        assert (Ho : overlap r q) by (split; [exact F1|split; [exact F2|right; left; exact E2]]).
        destruct (r_reuse r) eqn:Er. { destruct (Hf2 r Hr Ho Er) as [? _]. congruence. }
        pose proof (proj2 (add_user_map (iplist devs) a (users false) Ha) eq_refl) as E. rewrite E3, E in H. injection H as <- <-.
        right. split; [reflexivity|]. split; [reflexivity|]. intros Hfree. destruct (Hfree r Hr Ho) as (_ & ? & _). congruence.
      * assert (Hex : exists r', r' ∈ keyed (port, pt) L /\ r_addr r' = a).
        { destruct (keyed (port, pt) L) as [|r t] eqn:Et.
          - exfalso. destruct l as [|[b n] l]; [contradiction|]. destruct (S2 b n) as [_ [(_ & r & E & _)|(C1 & C2 & _)]]; [left|discriminate E|cbn in C2; lia].
          - assert (Hr : r ∈ keyed (port, pt) L) by (rewrite Et; left). rewrite <- Et in *. apply keyed_in in Hr as [Hr [= F1 F2]].
            destruct (Hf1 r Hr F1 F2) as (r' & Hr' & Ho). pose proof Ho as (G1 & G2 & G3). cbn in G1, G2.
            assert (Hk : r' ∈ keyed (port, pt) L) by (apply keyed_in; split; [exact Hr'|congruence]).
            exists r'. split; [exact Hk|]. destruct (S3 _ Hk) as [n Hn]. destruct (S2 _ _ Hn) as [Hu _].
            destruct G3 as [G3|[G3|G3]]; [exact G3|congruence|cbn in G3; congruence]. }
        destruct Hex as (r' & Hr' & Er'). destruct (S3 _ Hr') as [n Hn]. rewrite Er' in Hn. destruct (S2 _ _ Hn) as [_ Hc].
        pose proof Hr' as Hk. apply keyed_in in Hr' as [Hr' [= G1 G2]].
        assert (Ho : overlap r' q) by (split; [exact G1|split; [exact G2|left; exact Er']]).
        destruct Hc as [(-> & r & Er & Hru)|(C1 & C2 & C3)].
        -- rewrite (add_user_zero _ _ S1 Hn) in H. injection H as <- <-. right. split; [reflexivity|]. split; [reflexivity|].
           intros Hfree. destruct (Hfree r' Hr' Ho) as (_ & _ & Hru' & _).
           assert (Hin : r' ∈ at_addr a (keyed (port, pt) L)) by (apply at_in; auto). rewrite Er in Hin. apply elem_of_list_singleton in Hin. congruence.
        -- assert (Hnz : n <> 0) by lia. destruct (add_user_in a n l S1 Hn Hnz) as (l' & E & Hin'). rewrite E in H. injection H as <- <-.
           assert (Hru : r_reuse r' = true).
           { rewrite Forall_forall in C3. apply C3. apply at_in. auto. }
           destruct (Hf2 r' Hr' Ho Hru) as [_ Hrq]. cbn in Hrq.
           left. split; [reflexivity|]. split.
           ++ intros r Hr (F1 & F2 & F3). cbn in F1, F2. assert (Hkr : r ∈ keyed (port, pt) L) by (apply keyed_in; split; [exact Hr|congruence]).
              destruct (S3 _ Hkr) as [m Hm]. destruct (S2 _ _ Hm) as [Hu Hc].
              destruct F3 as [F3|[F3|F3]]; [|congruence|cbn in F3; congruence]. cbn in F3.
              split; [exact F3|]. split; [exact Hu|]. split; [|exact Hrq]. rewrite Forall_forall in C3. apply C3. apply at_in. auto.
           ++ constructor; [|exact Hdev|exact (i_next _ _ _ Hp)]. cbn [p_used]. apply okkey_other; [reflexivity|exact (i_key _ _ _ Hp)|].
              right. split. { apply add_user_fst in E. destruct l; [contradiction|]. destruct l'; discriminate. }
              split; [rewrite (add_user_fst _ _ _ E); exact S1|]. change (port, pt) with (r_port q, r_pt q). rewrite keyed_cons_eq. change (r_port q, r_pt q) with (port, pt). split.
              ** intros b m Hb. apply Hin' in Hb as [[-> ->]|[Hne Hb]].
                 --- split; [exact Eu|]. right. split; [lia|]. change a with (r_addr q). rewrite at_cons_eq. change (r_addr q) with a.
                     split; [cbn [length]; lia|]. constructor; [exact Hrq|exact C3].
                 --- destruct (S2 _ _ Hb) as [? ?]. split; [assumption|]. rewrite at_cons_ne; [assumption|]. intros F. apply Hne. symmetry. exact F.
              ** intros r Hr. apply elem_of_cons in Hr as [->|Hr].
                 --- exists (n + 1). apply Hin'. left. auto.
                 --- destruct (S3 _ Hr) as [m Hm]. destruct (decide (r_addr r = a)) as [Ea|Ea].
                     +++ exists (n + 1). apply Hin'. left. auto.
                     +++ exists m. apply Hin'. right. auto.
    + injection H as <- <-. left. split; [reflexivity|]. apply Hfresh. unfold initialize_port. rewrite Eu, El. reflexivity.
Qed.

Lemma reserve_dev (devs : list addr) s a port pt reuse s' x : reserve devs s a port pt reuse = (s', x) -> a ∉ iplist devs -> s' = s /\ x = err EADDRNOTAVAIL.
Proof. intros H Ha. unfold reserve in H. rewrite bool_decide_eq_false_2 in H by assumption. injection H as <- <-. auto. Qed.

(** ** Release keeps the invariant *)
Lemma keyed_mid k L1 r L2 : (r_port r, r_pt r) = k -> keyed k (L1 ++ r :: L2) = keyed k L1 ++ r :: keyed k L2.
Proof. intros <-. rewrite keyed_app, keyed_cons_eq. reflexivity. Qed.
Lemma keyed_mid_ne k L1 r L2 : (r_port r, r_pt r) <> k -> keyed k (L1 ++ r :: L2) = keyed k (L1 ++ L2).
Proof. intros H. rewrite !keyed_app, keyed_cons_ne by assumption. reflexivity. Qed.

Lemma alter_in (l : list (addr * Z)) j a n : NoDup l.*1 -> l !! j = Some (a, n) ->
  (alter (fun x => (x.1, x.2 - 1)) j l).*1 = l.*1 /\
  forall b m, (b, m) ∈ alter (fun x => (x.1, x.2 - 1)) j l <-> b = a /\ m = n - 1 \/ b <> a /\ (b, m) ∈ l.
Proof.
  revert j. induction l as [|[c k] l IH]; intros j Hd Hj; [discriminate Hj|]. cbn in Hd. apply NoDup_cons in Hd as [Hc Hd].
  assert (Hfst : forall b k, (b, k) ∈ l -> b ∈ l.*1) by (intros b k' H; apply elem_of_list_fmap; exists (b, k'); auto).
  destruct j as [|j]; cbn in Hj.
  - injection Hj as -> ->. cbn. split; [reflexivity|]. intros b m. rewrite !elem_of_cons. split.
    + intros [[= -> ->]|H]; [auto|]. right. split; [intros ->; apply Hfst in H; contradiction|auto].
    + intros [[-> ->]|[H1 [[= ? ?]|H2]]]; [auto|congruence|auto].
  - destruct (IH j Hd Hj) as [I1 I2]. cbn. split; [f_equal; exact I1|]. intros b m. rewrite !elem_of_cons, I2.
    assert (Hca : c <> a). { intros ->. apply Hc. apply elem_of_list_fmap. exists (a, n). split; [reflexivity|]. exact (elem_of_list_lookup_2 _ _ _ Hj). }
    split.
    + intros [[= -> ->]|[?|[? ?]]]; [right; auto|auto|right; auto].
    + intros [?|[H1 [[= -> ->]|H2]]]; [auto|auto|auto].
Qed.

Lemma release_spec (devs : list addr) s L1 r L2 : pinv devs s (L1 ++ r :: L2) ->
  exists s', release devs s (r_addr r) (r_port r) (r_pt r) = Done (s', 0) /\ pinv devs s' (L1 ++ L2).
Proof.
  intros Hp. set (k := (r_port r, r_pt r)). assert (Hin : r ∈ L1 ++ r :: L2) by (apply elem_of_app; right; left).
  pose proof (i_dev _ _ _ Hp r Hin) as Ha. pose proof (i_key _ _ _ Hp k) as K. rewrite (keyed_mid k L1 r L2 eq_refl) in K.
  assert (Hdev : forall q, q ∈ L1 ++ L2 -> r_addr q ∈ iplist devs).
  { intros q Hq. apply (i_dev _ _ _ Hp). apply elem_of_app in Hq as [Hq|Hq]; apply elem_of_app; [left; exact Hq|right; right; exact Hq]. }
  unfold release. rewrite bool_decide_eq_true_2 by assumption. cbn [negb]. fold k.
  set (put := fun l : list (addr * Z) => Done (Ports (match l with [] => delete k (p_used s) | _ => <[k := l]> (p_used s) end) (p_next s), 0)).
  assert (Hput : forall l', match l' with [] => keyed k (L1 ++ L2) = [] | _ => okkey devs (Some l') (keyed k (L1 ++ L2)) end ->
     exists s', put l' = Done (s', 0) /\ pinv devs s' (L1 ++ L2)).
  { intros l' Hl'. eexists. split; [reflexivity|]. constructor; [|exact Hdev|exact (i_next _ _ _ Hp)].
    intros k'. cbn [p_used]. destruct (decide (k = k')) as [<-|Hne].
    - destruct l'; [rewrite lookup_delete|rewrite lookup_insert]; exact Hl'.
    - pose proof (i_key _ _ _ Hp k') as K'. rewrite (keyed_mid_ne k' L1 r L2 Hne) in K'.
      destruct l'; [rewrite lookup_delete_ne by assumption|rewrite lookup_insert_ne by assumption]; exact K'. }
  destruct (p_used s !! k) as [l|] eqn:El.
  2:{ cbn in K. destruct (keyed k L1); discriminate K. }
  cbn [okkey] in K. destruct K as [(r' & E1 & E2 & E3)|(Hl & S1 & S2 & S3)].
  - assert (E : keyed k L1 = [] /\ r' = r /\ keyed k L2 = []).
    { destruct (keyed k L1) as [|x t]; cbn in E1; [injection E1 as -> E1; auto|]. injection E1 as _ E1. destruct t; discriminate E1. }
    destruct E as (F1 & -> & F2). rewrite E2.
    rewrite (release_any_all (users (r_reuse r)) l); [| | |reflexivity].
    + cbn [obind]. apply (Hput []). rewrite keyed_app, F1, F2. reflexivity.
    + unfold users. destruct (r_reuse r); lia.
    + rewrite E3. apply Forall_forall. intros x Hx. apply elem_of_list_fmap in Hx as (y & -> & _). reflexivity.
  - assert (Hrin : r ∈ keyed k L1 ++ r :: keyed k L2) by (apply elem_of_app; right; left).
    destruct (S3 r Hrin) as [n Hn]. destruct (S2 _ _ Hn) as [Hu Hc]. rewrite Hu.
    destruct (release_one_spec (r_addr r) l l 0 (fun j => eq_refl) S1 n Hn) as (j & Hj & ->).
    rewrite at_app, at_cons_eq in Hc.
    assert (Hother : forall b, b <> r_addr r -> at_addr b (keyed k L1 ++ r :: keyed k L2) = at_addr b (keyed k (L1 ++ L2))).
    { intros b Hb. rewrite keyed_app, !at_app, at_cons_ne by congruence. reflexivity. }
    assert (Hsame : at_addr (r_addr r) (keyed k (L1 ++ L2)) = at_addr (r_addr r) (keyed k L1) ++ at_addr (r_addr r) (keyed k L2)).
    { rewrite keyed_app, at_app. reflexivity. }
    assert (Hsub : forall q, q ∈ keyed k (L1 ++ L2) -> q ∈ keyed k L1 ++ r :: keyed k L2).
    { intros q. rewrite keyed_app. intros Hq. apply elem_of_app in Hq as [Hq|Hq]; apply elem_of_app; [left; exact Hq|right; right; exact Hq]. }
    destruct (Z.leb_spec n 1) as [Hle|Hgt].
    + apply (Hput (swap_remove j l)). set (l' := swap_remove j l). pose proof (swap_remove_perm l j _ Hj) as P. fold l' in P.
      assert (Hnil : at_addr (r_addr r) (keyed k (L1 ++ L2)) = []).
      { rewrite Hsame. destruct Hc as [(_ & q & E & _)|(C1 & C2 & _)].
        - destruct (at_addr (r_addr r) (keyed k L1)) as [|x t]; cbn in E; [injection E as _ E; exact E|]. injection E as _ E. destruct t; discriminate E.
        - rewrite app_length in C2. cbn [length] in C2. destruct (at_addr (r_addr r) (keyed k L1)); [|cbn [length] in C2; lia].
          destruct (at_addr (r_addr r) (keyed k L2)); [reflexivity|cbn [length] in C2; lia]. }
      assert (Hd : NoDup ((r_addr r, n) :: l').*1) by (rewrite <- P; exact S1). cbn in Hd. apply NoDup_cons in Hd as [Hd1 Hd2].
      assert (Hl' : forall b m, (b, m) ∈ l' -> b <> r_addr r /\ (b, m) ∈ l).
      { intros b m Hb. split; [|rewrite P; right; exact Hb]. intros ->. apply Hd1. apply elem_of_list_fmap. exists (r_addr r, m). auto. }
      assert (Hcov : forall q, q ∈ keyed k (L1 ++ L2) -> exists m, (r_addr q, m) ∈ l').
      { intros q Hq. destruct (S3 q (Hsub q Hq)) as [m Hm]. exists m. rewrite P in Hm. apply elem_of_cons in Hm as [[= E1 E2]|Hm]; [|exact Hm].
        exfalso. assert (Hx : q ∈ at_addr (r_addr r) (keyed k (L1 ++ L2))) by (apply at_in; auto). rewrite Hnil in Hx. apply elem_of_nil in Hx. exact Hx. }
      clearbody l'. destruct l' as [|x l'].
      * destruct (keyed k (L1 ++ L2)) as [|q t]; [reflexivity|]. destruct (Hcov q) as [m Hm]; [left|]. apply elem_of_nil in Hm. contradiction.
      * right. split; [discriminate|]. split; [exact Hd2|]. split; [|exact Hcov].
        intros b m Hb. destruct (Hl' _ _ Hb) as [Hb1 Hb2]. destruct (S2 _ _ Hb2) as [? ?]. rewrite <- (Hother b Hb1). auto.
    + destruct (alter_in l j _ _ S1 Hj) as [A1 A2]. refine (Hput (alter (fun x : addr * Z => (x.1, x.2 - 1)) j l) _). set (l' := alter (fun x : addr * Z => (x.1, x.2 - 1)) j l) in *. clearbody l'.
      assert (Hl' : l' <> []). { intros ->. destruct l; [contradiction|discriminate A1]. }
      destruct l' as [|x l']; [contradiction|]. right. split; [exact Hl'|]. split; [rewrite A1; exact S1|]. split.
      * intros b m Hb. apply A2 in Hb as [[-> ->]|[Hb1 Hb2]].
        -- split; [exact Hu|]. rewrite Hsame. destruct Hc as [(-> & _)|(C1 & C2 & C3)]; [lia|]. right. split; [lia|].
           rewrite app_length in C2 |- *. cbn [length] in C2. split; [lia|]. apply Forall_app in C3 as [C3 C4]. apply Forall_cons in C4 as [_ C4]. apply Forall_app. auto.
        -- destruct (S2 _ _ Hb2) as [? ?]. rewrite <- (Hother b Hb1). auto.
      * intros q Hq. destruct (S3 q (Hsub q Hq)) as [m Hm]. destruct (decide (r_addr q = r_addr r)) as [E|E].
        -- exists (n - 1). apply A2. left. auto.
        -- exists m. apply A2. right. auto.
Qed.

(** ** All histories *)
Lemma holds_inv (devs : list addr) s L : holds true devs s L -> pinv devs s L.
Proof.
  induction 1 as [|s L q s' port H IH Hq Hf E Hpos|s L q s' port H IH Hq Hf E Hneg|s L1 r L2 s' x H IH Hf E].
  - constructor.
    + intros k. cbn. rewrite lookup_empty. reflexivity.
    + intros r Hr. apply elem_of_nil in Hr. contradiction.
    + intros pt. cbn. unfold EPH_START, EPH_END. lia.
  - destruct (decide (r_addr q ∈ iplist devs)) as [Ha|Ha]; [|destruct (reserve_dev _ _ _ _ _ _ _ _ E Ha) as [_ ->]; unfold err, EADDRNOTAVAIL in Hpos; lia].
    destruct (Z.eq_dec (r_port q) 0) as [E0|E0].
    + assert (Eg : get_available devs s (r_addr q) (r_pt q) (r_reuse q) = (s', port)).
      { unfold reserve in E. rewrite bool_decide_eq_true_2 in E by assumption. rewrite E0 in E. exact E. }
      destruct (get_available_spec _ _ _ _ _ _ _ _ IH Ha Eg) as [(_ & _ & _ & K)|(-> & _)]; [exact K|unfold err, EADDRINUSE in Hpos; lia].
    + assert (Hp0 : 0 < r_port q) by lia. destruct (reserve_spec _ _ _ _ _ _ IH Ha Hp0 (Hf eq_refl) E) as [(-> & _ & K)|(-> & _)].
      * destruct q. exact K.
      * unfold err, EADDRINUSE in Hpos; lia.
  - destruct (decide (r_addr q ∈ iplist devs)) as [Ha|Ha]; [|destruct (reserve_dev _ _ _ _ _ _ _ _ E Ha) as [-> _]; exact IH].
    destruct (Z.eq_dec (r_port q) 0) as [E0|E0].
    + assert (Eg : get_available devs s (r_addr q) (r_pt q) (r_reuse q) = (s', port)).
      { unfold reserve in E. rewrite bool_decide_eq_true_2 in E by assumption. rewrite E0 in E. exact E. }
      destruct (get_available_spec _ _ _ _ _ _ _ _ IH Ha Eg) as [(? & _)|(_ & -> & _)]; [lia|exact IH].
    + assert (Hp0 : 0 < r_port q) by lia. destruct (reserve_spec _ _ _ _ _ _ IH Ha Hp0 (Hf eq_refl) E) as [(? & _)|(_ & -> & _)]; [lia|exact IH].
  - destruct (release_spec _ _ _ _ _ IH) as (s2 & E2 & K). rewrite E in E2. injection E2 as <- ->. exact K.
Qed.

Lemma holds_compatible (devs : list addr) s L : holds true devs s L -> forall (i j : nat) r q, L !! i = Some r -> L !! j = Some q -> i <> j -> compatible r q.
Proof.
  intros H i j r q Hi Hj Hne (E1 & E2 & E3). pose proof (i_key _ _ _ (holds_inv _ _ _ H) (r_port r, r_pt r)) as K.
  assert (Hlen : forall (P : resv -> bool) (l : list resv) (i j : nat), l !! i = Some r -> l !! j = Some q -> i <> j -> P r = true -> P q = true ->
     exists i' j' : nat, List.filter P l !! i' = Some r /\ List.filter P l !! j' = Some q /\ i' <> j').
  { clear. intros P. induction l as [|x l IH]; intros i j Hi Hj Hne Pr Pq; [discriminate Hi|]. cbn.
    destruct i as [|i], j as [|j]; cbn in Hi, Hj; [congruence| | |].
    - injection Hi as ->. rewrite Pr. assert (Hq : In q (List.filter P l)) by (apply filter_In; split; [apply elem_of_list_In; exact (elem_of_list_lookup_2 _ _ _ Hj)|exact Pq]).
      apply elem_of_list_In, elem_of_list_lookup in Hq as [m Hm]. exists 0%nat, (S m). cbn. auto.
    - injection Hj as ->. rewrite Pq. assert (Hq : In r (List.filter P l)) by (apply filter_In; split; [apply elem_of_list_In; exact (elem_of_list_lookup_2 _ _ _ Hi)|exact Pr]).
      apply elem_of_list_In, elem_of_list_lookup in Hq as [m Hm]. exists (S m), 0%nat. cbn. auto.
    - destruct (IH i j Hi Hj) as (i' & j' & A & B & C); [congruence|assumption|assumption|]. destruct (P x); [exists (S i'), (S j')|exists i', j']; cbn; auto. }
  destruct (Hlen (fun r' => bool_decide ((r_port r', r_pt r') = (r_port r, r_pt r))) L i j Hi Hj Hne) as (i' & j' & Hi' & Hj' & Hne').
  { apply bool_decide_eq_true. reflexivity. } { apply bool_decide_eq_true. congruence. }
  change (keyed (r_port r, r_pt r) L !! i' = Some r) in Hi'. change (keyed (r_port r, r_pt r) L !! j' = Some q) in Hj'.
  destruct (p_used s !! (r_port r, r_pt r)) as [l|]; [|cbn in K; rewrite K in Hi'; discriminate Hi'].
  destruct K as [(x & F1 & F2 & F3)|(Hl & S1 & S2 & S3)].
  - rewrite F1 in Hi', Hj'. destruct i', j'; [congruence|discriminate Hj'|discriminate Hi'|discriminate Hi'].
  - destruct (S3 r (elem_of_list_lookup_2 _ _ _ Hi')) as [n Hn]. destruct (S3 q (elem_of_list_lookup_2 _ _ _ Hj')) as [m Hm].
    destruct (S2 _ _ Hn) as [Hu Hc]. destruct (S2 _ _ Hm) as [Hu' _].
    destruct E3 as [E3|[E3|E3]]; [|congruence|congruence].
    destruct (Hlen (fun r' => bool_decide (r_addr r' = r_addr r)) (keyed (r_port r, r_pt r) L) i' j' Hi' Hj' Hne') as (a & b & Ha & Hb & Hab).
    { apply bool_decide_eq_true. reflexivity. } { apply bool_decide_eq_true. congruence. }
    change (at_addr (r_addr r) (keyed (r_port r, r_pt r) L) !! a = Some r) in Ha. change (at_addr (r_addr r) (keyed (r_port r, r_pt r) L) !! b = Some q) in Hb.
    split; [exact E3|]. split; [exact Hu|].
    destruct Hc as [(_ & x & F & _)|(C1 & C2 & C3)].
    + rewrite F in Ha, Hb. destruct a, b; [congruence|discriminate Hb|discriminate Ha|discriminate Ha].
    + rewrite Forall_forall in C3. split; apply C3; [exact (elem_of_list_lookup_2 _ _ _ Ha)|exact (elem_of_list_lookup_2 _ _ _ Hb)].
Qed.

Lemma holds_next strict devs s L : holds strict devs s L -> forall pt, EPH_START <= p_next s pt <= EPH_END.
Proof.
  assert (Step : forall s a port pt reuse s' x, (forall pt, EPH_START <= p_next s pt <= EPH_END) ->
     reserve devs s a port pt reuse = (s', x) -> forall pt, EPH_START <= p_next s' pt <= EPH_END).
  { intros s0 a port pt reuse s' x H E. unfold reserve in E. destruct (negb _); [injection E as <- _; exact H|]. destruct (port =? 0).
    - unfold get_available in E. destruct (negb _); [injection E as <- _; exact H|]. destruct (scan _ _ _ _ _ _) as [[p u]|].
      + injection E as <- _. intros pt'. cbn. unfold upd. destruct (bool_decide (pt' = pt)); [apply next_down_ok; apply H|apply H].
      + injection E as <- _. exact H.
    - destruct (unspecified a); destruct (p_used s0 !! (port, pt)); try destruct (add_user _ _); injection E as <- _; exact H. }
  induction 1 as [|s L q s' port H IH Hq Hf E Hpos|s L q s' port H IH Hq Hf E Hneg|s L1 r L2 s' x H IH Hf E].
  - intros pt. cbn. unfold EPH_START, EPH_END. lia.
  - exact (Step _ _ _ _ _ _ _ IH E).
  - exact (Step _ _ _ _ _ _ _ IH E).
  - unfold release in E. destruct (negb _); [injection E as <- _; exact IH|]. destruct (p_used s !! _) as [l|]; [|injection E as <- _; exact IH].
    destruct (unspecified _).
    + destruct (release_any l l); cbn [obind] in E; [|discriminate E]. injection E as <- _. exact IH.
    + destruct (release_one _ _ _ _); [|discriminate E]. injection E as <- _. exact IH.
Qed.

Lemma ephemeral_range strict devs s L a pt reuse s' x : holds strict devs s L -> reserve devs s a 0 pt reuse = (s', x) -> 0 <= x -> ephemeral x.
Proof.
  intros H E Hx. pose proof (holds_next _ _ _ _ H pt) as Hn. unfold reserve in E. destruct (negb _); [injection E as _ <-; unfold err, EADDRNOTAVAIL in Hx; lia|].
  cbn [Z.eqb] in E. unfold get_available in E. destruct (negb _); [injection E as _ <-; unfold err, EADDRNOTAVAIL in Hx; lia|].
  pose proof (scan_spec devs (p_used s) a pt (users reuse) (candidates (p_next s pt))) as S. destruct (scan _ _ _ _ _ _) as [[p u]|].
  - injection E as _ <-. destruct S as (q & Hq & -> & _). apply candidates_in in Hq; [|assumption]. exists q. split; [exact Hq|reflexivity].
  - injection E as _ <-. unfold err, EADDRINUSE in Hx. lia.
Qed.

Lemma ephemeral_spec (devs : list addr) s L a pt reuse s' x : holds true devs s L -> a ∈ iplist devs -> reserve devs s a 0 pt reuse = (s', x) ->
  (0 <= x /\ forall r, r ∈ L -> compatible r (Resv a x pt reuse)) \/
  (x = err EADDRINUSE /\ forall port, ephemeral port -> exists r, r ∈ L /\ overlap r (Resv a port pt reuse)).
Proof.
  intros H Ha E. assert (Eg : get_available devs s a pt reuse = (s', x)).
  { unfold reserve in E. rewrite bool_decide_eq_true_2 in E by assumption. exact E. }
  destruct (get_available_spec _ _ _ _ _ _ _ _ (holds_inv _ _ _ H) Ha Eg) as [(H1 & _ & H2 & _)|(H1 & _ & H2)]; [left|right]; auto.
Qed.

Lemma reserve_iff (devs : list addr) s L q s' x : holds true devs s L -> r_addr q ∈ iplist devs -> 0 < r_port q -> fair L (Reserve q) ->
  reserve devs s (r_addr q) (r_port q) (r_pt q) (r_reuse q) = (s', x) ->
  (x = r_port q \/ x = err EADDRINUSE) /\ (x = r_port q <-> forall r, r ∈ L -> compatible r q).
Proof.
  intros H Ha Hp Hf E. destruct (reserve_spec _ _ _ _ _ _ (holds_inv _ _ _ H) Ha Hp Hf E) as [(-> & K & _)|(-> & _ & K)].
  - split; [auto|]. split; [intros _; exact K|auto].
  - split; [auto|]. split; [intros Hc; unfold err, EADDRINUSE in Hc; lia|intros Hc; contradiction].
Qed.

Lemma release_ok (devs : list addr) s L1 r L2 : holds true devs s (L1 ++ r :: L2) ->
  exists s', release devs s (r_addr r) (r_port r) (r_pt r) = Done (s', 0) /\ holds true devs s' (L1 ++ L2).
Proof.
  intros H. destruct (release_spec _ _ _ _ _ (holds_inv _ _ _ H)) as (s' & E & _). exists s'. split; [exact E|].
  exact (holds_release true devs s L1 r L2 s' 0 H (fun _ => I) E).
Qed.
