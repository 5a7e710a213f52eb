(** Ports of INET sockets: invariants over histories *)
From Verif Require Import Base PortModel PortSpec PortProofs ErrnoModel InetModel InetSpec InetInv InetStep InetConn InetName InetPort.
Local Open Scope list_scope.
Local Open Scope Z_scope.

(** ** The ephemeral counters *)
Definition next_ok (p : ports) : Prop := forall q, EPH_START <= p_next p q <= EPH_END.
Lemma reserve_next devs p a port q reuse p' x : next_ok p -> reserve devs p a port q reuse = (p', x) -> next_ok p'.
Proof.
  intros H E. unfold reserve in E. destruct (negb _); [injection E as <- _; exact H|]. destruct (port =? 0).
  - unfold get_available in E. destruct (negb _); [injection E as <- _; exact H|]. destruct (scan _ _ _ _ _ _) as [[p0 u]|].
    + injection E as <- _. intros q'. cbn. unfold upd. destruct (bool_decide _); [apply next_down_ok; apply H|apply H].
    + injection E as <- _. exact H.
  - destruct (unspecified a); destruct (p_used p !! (port, q)); try destruct (add_user _ _); injection E as <- _; exact H.
Qed.
Lemma release_next devs p a port q p' x : next_ok p -> release devs p a port q = Done (p', x) -> next_ok p'.
Proof.
  intros H E. unfold release in E. destruct (negb _); [injection E as <- _; exact H|]. destruct (p_used p !! _) as [l|]; [|injection E as <- _; exact H].
  destruct (unspecified _).
  - destruct (release_any l l); cbn [obind] in E; [|discriminate E]. injection E as <- _. exact H.
  - destruct (release_one _ _ _ _); [|discriminate E]. injection E as <- _. exact H.
Qed.
(** the answers of [reserve] *)
Lemma reserve_ans devs p a port q reuse p' x : next_ok p -> 0 <= port -> reserve devs p a port q reuse = (p', x) ->
  (x < 0 -> p' = p /\ (x = err EADDRINUSE \/ x = err EADDRNOTAVAIL)) /\ (0 <= x -> a ∈ iplist devs /\ (port = 0 -> ephemeral x) /\ (port <> 0 -> x = port)).
Proof.
  intros H Hp E. assert (F1 : err EADDRNOTAVAIL < 0) by (unfold err, EADDRNOTAVAIL; lia). assert (F2 : err EADDRINUSE < 0) by (unfold err, EADDRINUSE; lia).
  unfold reserve in E. case_bool_decide as Ha; cbn [negb] in E; [|injection E as <- <-; split; [auto|lia]]. destruct (Z.eqb_spec port 0) as [->|Hne].
  - unfold get_available in E. rewrite bool_decide_eq_true_2 in E by exact Ha. cbn [negb] in E. pose proof (scan_spec devs (p_used p) a q (users reuse) (candidates (p_next p q))) as S.
    destruct (scan _ _ _ _ _ _) as [[p0 u]|]; [|injection E as <- <-; split; [auto|lia]]. injection E as <- <-. destruct S as (n & Hn & -> & _). apply candidates_in in Hn; [|apply H].
    pose proof (swap16_nonneg n Hn). split; [lia|]. intros _. split; [exact Ha|]. split; [|lia]. intros _. exists n. split; [exact Hn|reflexivity].
  - destruct (unspecified a); destruct (p_used p !! (port, q)); try destruct (add_user _ _); injection E as <- <-; (split; [try lia; auto|]); try lia; auto; intros _; (split; [exact Ha|]); (split; [lia|auto]).
Qed.

(** a taken port is apart from all others *)
Lemma reserve_apart devs p L a port q reuse p' x : holds true devs p L -> 0 <= port -> port = 0 \/ unspecified a = true -> reserve devs p a port q reuse = (p', x) -> 0 <= x ->
  forall r, r ∈ L -> r_port r = x -> r_pt r = q -> r_addr r <> a /\ unspecified (r_addr r) = false /\ unspecified a = false.
Proof.
  intros Hh Hp Hw E Hx r Hr E1 E2. pose proof (holds_inv _ _ _ Hh) as I. destruct (decide (a ∈ iplist devs)) as [Ha|Ha]; [|destruct (reserve_dev _ _ _ _ _ _ _ _ E Ha) as [_ ->]; unfold err, EADDRNOTAVAIL in Hx; lia].
  destruct (Z.eq_dec port 0) as [->|Hne].
  - unfold reserve in E. rewrite bool_decide_eq_true_2 in E by assumption. cbn [negb Z.eqb] in E. unfold get_available in E. rewrite bool_decide_eq_true_2 in E by assumption. cbn [negb] in E.
    pose proof (scan_spec devs (p_used p) a q (users reuse) (candidates (p_next p q))) as S. destruct (scan _ _ _ _ _ _) as [[p0 u]|]; [|injection E as _ <-; unfold err, EADDRINUSE in Hx; lia].
    injection E as _ <-. destruct S as (n & _ & -> & Hi). destruct (init_ok _ _ _ _ _ _ _ _ (i_key _ _ _ I) Ha Hi) as [_ K]. exact (K r Hr E1 E2).
  - destruct Hw as [?|Hw]; [lia|]. exfalso. assert (Hp0 : 0 < port) by lia. 
    destruct (reserve_spec devs p L (Resv a port q reuse) p' x I Ha Hp0 (or_intror (or_introl Hw)) E) as [(Ex & Hf & _)|(-> & _)]; [|unfold err, EADDRINUSE in Hx; lia].
    destruct (Hf r Hr) as (F1 & F2 & _); [|cbn in F1; congruence]. split; [cbn in Ex; cbn; congruence|]. split; [exact E2|]. right. right. exact Hw.
Qed.

Opaque fd_list next_fd reserve release from_discriminant.

Lemma step_next devs s c o a s' t out : iinv s -> step devs s c o a = IGo s' t out -> next_ok (i_ports s) -> next_ok (i_ports s').
Proof.
  intros V H N. destruct (step_port _ _ _ _ _ _ _ _ V H) as [P1 P2|j p l q reuse P1 P2 P3 P4 P5|b q r0 P1 P2 P3|b p q reuse r0 P1 P2 P3 P4|j x fd0 q reuse r0 P1 P2 P3 P4|j l q r0 P1 P2 P3].
  - rewrite P1. exact N.
  - exact (reserve_next _ _ _ _ _ _ _ _ N P3).
  - exact (reserve_next _ _ _ _ _ _ _ _ N P1).
  - exact (reserve_next _ _ _ _ _ _ _ _ N P2).
  - exact (reserve_next _ _ _ _ _ _ _ _ N P4).
  - exact (release_next _ _ _ _ _ _ _ N P2).
Qed.
Lemma history_next devs evs s : history devs evs s -> next_ok (i_ports s).
Proof.
  induction 1 as [|evs s c o a s' tr out H IH Hv E]; [intros q; cbn; unfold EPH_START, EPH_END; lia|].
  destruct (history_inv _ _ _ H) as [V _]. exact (step_next _ _ _ _ _ _ _ _ V E IH).
Qed.

Lemma has_locs s i y q : has_name s i y q <-> locs s i = Some (y, q).
Proof.
  unfold has_name, locs, pt. split.
  - intros (h & -> & -> & <-). done.
  - destruct (i_h s !! i) as [h|]; [|discriminate]. destruct (h_loc h) as [l|] eqn:E; [|discriminate]. intros [= -> <-]. exists h. auto.
Qed.

(** ** The reservations held *)
(** two reservations of one protocol and one port are for two addresses *)
Definition apart (r q : resv) : Prop :=
  r_port r = r_port q -> r_pt r = r_pt q -> r_addr r <> r_addr q /\ unspecified (r_addr r) = false /\ unspecified (r_addr q) = false.
Definition rmatch (r : resv) (y : iaddr) (q : ptype) : Prop := r_addr r = ia_a y /\ r_port r = ia_port y /\ r_pt r = q.
Record portinv (devs : list addr) (s : ist) (L : list (option Z * resv)) : Prop := PI {
  pi_holds : holds true devs (i_ports s) (map snd L);
  pi_has : forall i y q, locs s i = Some (y, q) -> exists r, (Some i, r) ∈ L /\ rmatch r y q;
  pi_of : forall i r, (Some i, r) ∈ L -> exists y q, locs s i = Some (y, q) /\ rmatch r y q;
  pi_nodup : NoDup (omap fst L);
  pi_leak : forall r, (None, r) ∈ L -> ephemeral (r_port r);
  pi_apart : forall i j x y, L !! i = Some x -> L !! j = Some y -> i <> j -> apart (snd x) (snd y)
}.

Lemma omap_in {A} (L : list (option Z * A)) i : i ∈ omap fst L <-> exists r, (Some i, r) ∈ L.
Proof.
  rewrite elem_of_list_omap. split; [intros ([o r] & H & E); cbn in E; subst; eauto|intros (r & H); exists (Some i, r); auto].
Qed.
Lemma nodup_uniq {A} (L : list (option Z * A)) i r r' : NoDup (omap fst L) -> (Some i, r) ∈ L -> (Some i, r') ∈ L -> r = r'.
Proof.
  induction L as [|[o x] L IH]; intros N H H'; [inversion H|]. cbn in N. apply elem_of_cons in H as [H|H]; apply elem_of_cons in H' as [H'|H'].
  - congruence.
  - exfalso. injection H as <- <-. inversion N as [|? ? N1 N2]; subst. apply N1. apply omap_in. eauto.
  - exfalso. injection H' as <- <-. inversion N as [|? ? N1 N2]; subst. apply N1. apply omap_in. eauto.
  - apply IH; [|exact H|exact H']. destruct o; [inversion N; assumption|exact N].
Qed.
Lemma apart_cons (L : list (option Z * resv)) z : (forall i j x y, L !! i = Some x -> L !! j = Some y -> i <> j -> apart (snd x) (snd y)) ->
  (forall x, x ∈ L -> apart (snd x) (snd z)) -> forall i j x y, (z :: L) !! i = Some x -> (z :: L) !! j = Some y -> i <> j -> apart (snd x) (snd y).
Proof.
  intros H1 H2 i j x y Hi Hj Hne. destruct i as [|i], j as [|j]; cbn in Hi, Hj; [congruence| | |].
  - injection Hi as <-. intros E1 E2. destruct (H2 y (elem_of_list_lookup_2 _ _ _ Hj) (eq_sym E1) (eq_sym E2)) as (A & B & C). auto.
  - injection Hj as <-. exact (H2 x (elem_of_list_lookup_2 _ _ _ Hi)).
  - apply (H1 i j x y Hi Hj). congruence.
Qed.
Lemma apart_mid (L1 L2 : list (option Z * resv)) z : (forall i j x y, (L1 ++ z :: L2) !! i = Some x -> (L1 ++ z :: L2) !! j = Some y -> i <> j -> apart (snd x) (snd y)) ->
  forall i j x y, (L1 ++ L2) !! i = Some x -> (L1 ++ L2) !! j = Some y -> i <> j -> apart (snd x) (snd y).
Proof.
  intros H i j x y Hi Hj Hne.
  assert (K : forall n v, (L1 ++ L2) !! n = Some v -> (L1 ++ z :: L2) !! (if decide (n < length L1)%nat then n else S n) = Some v).
  { intros n v Hn. destruct (decide (n < length L1)%nat) as [Hl|Hl].
    - rewrite lookup_app_l in * by exact Hl. exact Hn.
    - rewrite lookup_app_r in * by lia. replace (S n - length L1)%nat with (S (n - length L1)) by lia. exact Hn. }
  apply (H _ _ _ _ (K i x Hi) (K j y Hj)). destruct (decide (i < length L1)%nat), (decide (j < length L1)%nat); lia.
Qed.

Lemma pinv_same devs s s' L : portinv devs s L -> i_ports s' = i_ports s -> same_locs s s' -> portinv devs s' L.
Proof.
  intros [A B C D E F] E1 E2. constructor; [rewrite E1; exact A|intros i y q; rewrite E2; apply B|intros i r Hr; destruct (C i r Hr) as (y & q & H); exists y, q; rewrite E2; exact H|exact D|exact E|exact F].
Qed.
Lemma step_portinv devs s c o a s' t out L : iinv s -> next_ok (i_ports s) -> valid s o -> step devs s c o a = IGo s' t out -> portinv devs s L ->
  (forall fd x, o = Bind fd x -> (ia_port x = 0 \/ unspecified (ia_a x) = true) /\ out <> IRet (err EADDRINUSE) /\ out <> IRet (err EADDRNOTAVAIL)) ->
  exists L', portinv devs s' L'.
Proof.
  intros V N Hv H I Ti.
  assert (G : forall p b, good o p b -> 0 <= p <= 65535 /\ (p = 0 \/ unspecified b = true)).
  { intros p b [->|(fd & x & -> & -> & ->)]; [split; [lia|auto]|]. split; [exact Hv|]. exact (proj1 (Ti fd x eq_refl)). }
  destruct (step_port _ _ _ _ _ _ _ _ V H) as [P1 P2|j p l q reuse P1 P2 P3 P4 P5|b q r0 P1 P2 P3|b p q reuse r0 P1 P2 P3 P4|j x fd0 q reuse r0 P0 P1 P2 P3 P4 P5|j l q r0 P1 P2 P3].
  - exists L. exact (pinv_same _ _ _ _ I P1 P2).
  - destruct (G _ _ P1) as [G1 G2]. destruct I as [A B C D E F]. destruct P5 as [Q1 Q2]. set (z := Resv (ia_a l) (ia_port l) q reuse). exists ((Some j, z) :: L). 
    assert (Nj : forall r, (Some j, r) ∉ L). { intros r Hr. destruct (C j r Hr) as (y & q' & Hy & _). congruence. }
    constructor.
    + exact (holds_take true devs _ _ (Resv (ia_a l) p q reuse) _ _ A G1 (fun _ => match G2 with or_introl e => or_introl e | or_intror e => or_intror (or_introl e) end) P3 P4).
    + intros i y q' Hi. destruct (decide (i = j)) as [->|Hne].
      * rewrite Q1 in Hi. injection Hi as <- <-. exists z. split; [left|]. repeat split.
      * rewrite Q2 in Hi by exact Hne. destruct (B _ _ _ Hi) as (r & Hr & Hm). exists r. split; [right; exact Hr|exact Hm].
    + intros i r Hr. apply elem_of_cons in Hr as [Hr|Hr].
      * injection Hr as -> ->. exists l, q. split; [exact Q1|]. repeat split.
      * destruct (C _ _ Hr) as (y & q' & Hy & Hm). exists y, q'. split; [|exact Hm]. rewrite Q2; [exact Hy|]. intros ->. congruence.
    + cbn. constructor; [|exact D]. intros (r & Hr)%omap_in. exact (Nj r Hr).
    + intros r Hr. apply elem_of_cons in Hr as [Hr|Hr]; [discriminate Hr|exact (E r Hr)].
    + apply apart_cons; [exact F|]. intros [o' r] Hr E1 E2. cbn in *. apply (reserve_apart devs _ _ _ _ _ _ _ _ A (proj1 G1) G2 P3 P4); [|exact E1|exact E2].
      apply elem_of_list_fmap. exists (o', r). auto.
  - destruct I as [A B C D E F]. set (z := Resv b r0 q false). exists ((None, z) :: L). constructor.
    + exact (holds_take true devs _ _ (Resv b 0 q false) _ _ A (conj (Z.le_refl 0) (ltac:(discriminate) : 0 <= 65535)) (fun _ => or_introl eq_refl) P1 P2).
    + intros i y q' Hi. rewrite P3 in Hi. destruct (B _ _ _ Hi) as (r & Hr & Hm). exists r. split; [right; exact Hr|exact Hm].
    + intros i r Hr. apply elem_of_cons in Hr as [Hr|Hr]; [discriminate Hr|]. destruct (C _ _ Hr) as (y & q' & Hy & Hm). exists y, q'. rewrite P3. auto.
    + exact D.
    + intros r Hr. apply elem_of_cons in Hr as [Hr|Hr]; [|exact (E r Hr)]. injection Hr as ->. cbn. apply (reserve_ans _ _ _ _ _ _ _ _ N (Z.le_refl 0) P1); [exact P2|done].
    + apply apart_cons; [exact F|]. intros [o' r] Hr E1 E2. cbn in *. apply (reserve_apart devs _ _ _ _ _ _ _ _ A (Z.le_refl 0) (or_introl eq_refl) P1 P2); [|exact E1|exact E2].
      apply elem_of_list_fmap. exists (o', r). auto.
  - exists L. destruct (G _ _ P1) as [G1 G2]. apply (pinv_same devs s); [exact I| |exact P4]. apply (reserve_ans _ _ _ _ _ _ _ _ N (proj1 G1) P2). exact P3.
  - exfalso. destruct (Ti _ _ P0) as (T1 & T2 & T3). subst o. destruct (reserve_ans _ _ _ _ _ _ _ _ N (proj1 Hv) P3) as [K _]. destruct (K P4) as [_ [->| ->]]; congruence.
  - destruct I as [A B C D E F]. destruct P3 as [Q1 Q2]. destruct (B _ _ _ P1) as (r & Hr & (M1 & M2 & M3)). apply elem_of_list_split in Hr as (L1 & L2 & ->). exists (L1 ++ L2).
    rewrite map_app in A. cbn [map snd] in A. rewrite <- M1, <- M2, <- M3 in P2.
    assert (Nj : forall r', (Some j, r') ∉ L1 ++ L2).
    { intros r' Hr. rewrite omap_app in D. cbn in D. apply NoDup_app in D as (_ & D1 & D2). apply elem_of_app in Hr as [Hr|Hr].
      - apply (D1 j); [apply omap_in; eauto|left].
      - inversion D2 as [|? ? D3 _]; subst. apply D3, omap_in. eauto. }
    constructor.
    + rewrite map_app. exact (holds_release true devs _ _ r _ _ _ A (fun _ => I) P2).
    + intros i y q' Hi. destruct (decide (i = j)) as [->|Hne]; [congruence|]. rewrite Q2 in Hi by exact Hne. destruct (B _ _ _ Hi) as (r' & Hr & Hm). exists r'. split; [|exact Hm].
      apply elem_of_app. apply elem_of_app in Hr as [Hr|Hr]; [auto|]. apply elem_of_cons in Hr as [Hr|Hr]; [injection Hr as -> _; congruence|auto].
    + intros i r' Hr. assert (Hin : (Some i, r') ∈ L1 ++ (Some j, r) :: L2) by (apply elem_of_app; apply elem_of_app in Hr as [?|?]; [auto|right; right; auto]).
      destruct (C _ _ Hin) as (y & q' & Hy & Hm). exists y, q'. split; [|exact Hm]. rewrite Q2; [exact Hy|]. intros ->. exact (Nj _ Hr).
    + rewrite omap_app in *. cbn in D. apply NoDup_app in D as (D1 & D2 & D3). inversion D3 as [|? ? D4 D5]; subst. apply NoDup_app. split; [exact D1|]. split; [|exact D5].
      intros x Hx Hy. apply (D2 x Hx). right. exact Hy.
    + intros r' Hr. apply E. apply elem_of_app. apply elem_of_app in Hr as [?|?]; [auto|right; right; auto].
    + exact (apart_mid _ _ _ F).
Qed.
Lemma history_portinv devs evs s : history devs evs s -> tidy evs -> exists L, portinv devs s L.
Proof.
  induction 1 as [|evs s c o a s' tr out H IH Hv E]; intros Ti.
  - exists []. constructor; try (intros * Hx; inversion Hx; fail).
    + constructor.
    + constructor.
  - destruct IH as [L I]; [intros e fd x He; apply Ti, elem_of_app; auto|]. destruct (history_inv _ _ _ H) as [V _].
    apply (step_portinv _ _ _ _ _ _ _ _ L V (history_next _ _ _ H) Hv E I). intros fd x ->. exact (Ti _ fd x (proj2 (elem_of_app _ _ _) (or_intror (elem_of_list_here _ _))) eq_refl).
Qed.

(** ** What follows *)
Lemma ports_apart devs evs s i j y z q : history devs evs s -> tidy evs -> has_name s i y q -> has_name s j z q -> i <> j -> ia_port y = ia_port z ->
  ia_a y <> ia_a z /\ unspecified (ia_a y) = false /\ unspecified (ia_a z) = false.
Proof.
  intros H Ti Hi Hj Hne Ep. destruct (history_portinv _ _ _ H Ti) as [L I]. apply has_locs in Hi. apply has_locs in Hj.
  destruct (pi_has _ _ _ I _ _ _ Hi) as (r & Hr & (A1 & A2 & A3)). destruct (pi_has _ _ _ I _ _ _ Hj) as (r' & Hr' & (B1 & B2 & B3)).
  apply elem_of_list_lookup in Hr as (n & Hn). apply elem_of_list_lookup in Hr' as (m & Hm).
  assert (n <> m) by congruence. destruct (pi_apart _ _ _ I n m _ _ Hn Hm) as (C1 & C2 & C3); [done|cbn; congruence|cbn; congruence|]. cbn in *. rewrite <- A1, <- B1. auto.
Qed.

Lemma on_sock_at s c fd i h f s' t out : sock_of s c fd = Some i -> i_h s !! i = Some h -> on_sock s c fd f = IGo s' t out -> exists fl raw, i_fds s !! (c, fd) = Some (ISock i fl raw) /\ f i fl raw h = IGo s' t out.
Proof.
  unfold sock_of, on_sock. intros Hs Hi H. destruct (negb _); [discriminate H|]. destruct (i_fds s !! (c, fd)) as [[j fl raw|]|]; [|discriminate Hs|discriminate Hs].
  injection Hs as ->. rewrite Hi in H. eauto.
Qed.
Lemma force_nobind s h a s1 h1 k t : force_inner s h a = Some (s1, h1, k, t) -> forall k y e, KBind k y e ∉ t.
Proof.
  unfold force_inner. destruct (h_in h); [intros [= _ _ _ <-] k0 y e He; inversion He|]. destruct (_ && _); [discriminate|]. intros [= _ _ _ <-] k0 y e.
  intros [He|He]%elem_of_cons; [discriminate He|]. apply elem_of_list_fmap in He as (b & He & _). discriminate He.
Qed.

(** a chosen port is refused exactly if an open socket has it *)
Lemma bind_free devs evs s c fd x a s' t out i h : history devs evs s -> tidy evs -> sock_of s c fd = Some i -> i_h s !! i = Some h -> h_loc h = None -> ia_v6 x = h_v6 h ->
  unspecified (ia_a x) = true -> ia_a x ∈ iplist devs -> 0 < ia_port x <= 65535 -> ~ ephemeral (ia_port x) -> step devs s c (Bind fd x) a = IGo s' t out ->
  ((exists k, KBind k x (a_bind a) ∈ t) \/ out = IRet (err EADDRINUSE) /\ forall k y e, KBind k y e ∉ t) /\
  ((exists k, KBind k x (a_bind a) ∈ t) <-> forall j y, has_name s j y (h_v6 h, h_tcp h) -> ia_port y <> ia_port x).
Proof.
  intros H Ti Hs Hi El Ev Hu Ha Hp He E. destruct (history_portinv _ _ _ H Ti) as [L I].
  cbn [step] in E. unfold bind_call in E. apply (on_sock_at _ _ _ _ _ _ _ _ _ Hs Hi) in E as (fl & raw & Hd & E).
  destruct (bind_inner _ _ _ _ _ _) as [[[[s1 h1] tr] r]|] eqn:Eb; [|discriminate E]. injection E as _ <- <-.
  unfold bind_inner in Eb. rewrite Ev, Bool.eqb_reflx, El in Eb. cbn [negb] in Eb.
  destruct (force_inner s h a) as [[[[s0 h0] k] t0]|] eqn:Ef; [|discriminate Eb]. destruct (force_spec _ _ _ _ _ _ _ Ef) as (_ & -> & Hpo). pose proof (force_nobind _ _ _ _ _ _ _ Ef) as NB.
  destruct (reserve _ _ _ _ _ _) as [p2 q] eqn:Er. rewrite Hpo in Er. set (z := Resv (ia_a x) (ia_port x) (pt h) (hasbit (h_opts h) (2 ^ SO_REUSEPORT))).
  destruct (reserve_iff devs (i_ports s) (map snd L) z p2 q (pi_holds _ _ _ I) Ha (proj1 Hp) (or_intror (or_introl Hu)) Er) as [K1 K2]. cbn [r_port z] in K1, K2.
  assert (F : (forall r, r ∈ map snd L -> compatible r z) <-> forall j y, has_name s j y (h_v6 h, h_tcp h) -> ia_port y <> ia_port x).
  { split.
    - intros C j y Hj%has_locs Eq. destruct (pi_has _ _ _ I _ _ _ Hj) as (r0 & Hr & (A1 & A2 & A3)). assert (Hin : r0 ∈ map snd L) by (apply elem_of_list_fmap; exists (Some j, r0); auto).
      destruct (C r0 Hin) as (B1 & B2 & _); [|cbn in B1; congruence]. split; [cbn; congruence|]. split; [exact A3|]. right. right. exact Hu.
    - intros C r0 Hin (O1 & O2 & _). exfalso. apply elem_of_list_fmap in Hin as ([[j|] r1] & -> & Hin); cbn in O1, O2 |- *.
      + destruct (pi_of _ _ _ I _ _ Hin) as (y & q' & Hy & (A1 & A2 & A3)). apply (C j y); [apply has_locs; rewrite Hy; unfold pt in O2; congruence|congruence].
      + apply He. rewrite <- O1. exact (pi_leak _ _ _ I _ Hin). }
  rewrite <- F, <- K2. clear F K2.
  assert (W : with_port (ia_port x) x = x) by (destruct x; done). destruct K1 as [->| ->].
  - destruct (Z.ltb_spec (ia_port x) 0); [lia|]. rewrite W in Eb.
    assert (Et : tr = t0 ++ [KBind k x (a_bind a)]) by (destruct (a_bind a =? 0); [|destruct (kerr (a_bind a)); [|discriminate Eb]]; injection Eb as _ _ <- _; done).
    assert (K : exists k0, KBind k0 x (a_bind a) ∈ tr) by (exists k; rewrite Et; apply elem_of_app; right; left). split; [auto|]. split; auto.
  - change (err EADDRINUSE <? 0) with true in Eb. injection Eb as _ _ <- <-. split; [right; split; [done|exact NB]|]. split.
    + intros (k0 & Hk). destruct (NB _ _ _ Hk).
    + unfold err, EADDRINUSE. lia.
Qed.

(** ** The name given by [bind] *)
Lemma bind_ok devs s c fd x a s' t i : step devs s c (Bind fd x) a = IGo s' t (IRet 0) -> sock_of s c fd = Some i -> iinv s -> next_ok (i_ports s) -> 0 <= ia_port x ->
  exists h' k y t0, i_h s' !! i = Some h' /\ h_in h' = Some k /\ h_loc h' = Some y /\ t = t0 ++ [KBind k y 0] /\
    ia_v6 y = ia_v6 x /\ ia_a y = ia_a x /\ (ia_port x <> 0 -> ia_port y = ia_port x) /\ (ia_port x = 0 -> ephemeral (ia_port y)).
Proof.
  intros E Hs V N Hp. assert (exists h, i_h s !! i = Some h) as [h Hi].
  { unfold sock_of in Hs. destruct (i_fds s !! (c, fd)) as [[j fl raw|]|] eqn:Ed; [|discriminate Hs|discriminate Hs]. injection Hs as ->. destruct (v_fd s V _ _ _ _ Ed) as (h & Hh & _). eauto. }
  cbn [step] in E. unfold bind_call in E. apply (on_sock_at _ _ _ _ _ _ _ _ _ Hs Hi) in E as (fl & raw & Hd & E).
  destruct (bind_inner _ _ _ _ _ _) as [[[[s1 h1] tr] r]|] eqn:Eb; [|discriminate E]. injection E as <- <- ->.
  exists h1. unfold bind_inner in Eb. destruct (negb _); [discriminate Eb|]. destruct (h_loc h) as [l|]; [discriminate Eb|].
  destruct (force_inner s h a) as [[[[s0 h0] k] t0]|] eqn:Ef; [|discriminate Eb]. destruct (force_spec _ _ _ _ _ _ _ Ef) as (_ & -> & Hpo).
  destruct (reserve _ _ _ _ _ _) as [p2 q] eqn:Er. rewrite Hpo in Er. destruct (reserve_ans _ _ _ _ _ _ _ _ N Hp Er) as [_ K].
  destruct (Z.ltb_spec q 0) as [Hq|Hq]; [injection Eb as _ _ _ ->; lia|]. destruct (K Hq) as (_ & K1 & K2).
  destruct (Z.eqb_spec (a_bind a) 0) as [E0|E0].
  - injection Eb as <- <- <-. rewrite E0. exists k, (with_port q x), t0. split; [cbn; rewrite lookup_insert; done|]. repeat split; auto.
  - destruct (kerr (a_bind a)) as [e|] eqn:Ee; [|discriminate Eb]. injection Eb as _ _ _ ->. apply kerr_neg in Ee. lia.
Qed.
Lemma kname_last tr t0 k y : kname (tr ++ t0 ++ [KBind k y 0]) k None = Some y.
Proof. rewrite !kname_app. cbn. rewrite Z.eqb_refl. done. Qed.

(** until the socket is shut down *)
Lemma bind_name devs ev1 e ev2 s fd x i : history devs (ev1 ++ e :: ev2) s -> e_op e = Bind fd x -> e_out e = IRet 0 -> sock_of (e_pre e) (e_cage e) fd = Some i ->
  (forall e', e' ∈ ev2 -> ~ shut_call e' i) ->
  exists k y, named (calls (ev1 ++ e :: ev2)) s i k y /\ KBind k y 0 ∈ e_tr e /\
    ia_v6 y = ia_v6 x /\ ia_a y = ia_a x /\ (ia_port x <> 0 -> ia_port y = ia_port x) /\ (ia_port x = 0 -> ephemeral (ia_port y)).
Proof.
  intros H Eo Er Hs Hn. destruct (history_at _ _ _ _ _ H) as (s1 & H1 & Hv & E & H2). destruct (history_inv _ _ _ H1) as [V _]. rewrite Eo, Er in E. rewrite Eo in Hv.
  destruct (bind_ok _ _ _ _ _ _ _ _ _ E Hs V (history_next _ _ _ H1) (proj1 Hv)) as (h' & k & y & t0 & A1 & A2 & A3 & A4 & A5). exists k, y. split; [|split; [rewrite A4; apply elem_of_app; right; left|exact A5]].
  replace (ev1 ++ e :: ev2) with ((ev1 ++ [e]) ++ ev2) in * by (rewrite <- app_assoc; done).
  refine (after devs (fun evs s => named (calls evs) s i k y) (fun e' => ~ shut_call e' i) (ev1 ++ [e]) s1 H2 _ _ ev2 s H Hn).
  - destruct (history_inv _ _ _ H2) as [V2 _]. split; [exact (v_nh s1 V2 _ _ A1)|]. intros h Hh. assert (h = h') as -> by congruence. split; [exact A2|]. split; [exact A3|].
    rewrite calls_snoc, A4. apply kname_last.
  - intros evs s0 c o a s' t out H0 Hv0 E0 Hok Nm. destruct (history_inv _ _ _ H0) as [V0 _]. rewrite calls_snoc. cbn [e_tr].
    apply (moves_named (shuts s0 c o out) _ s0); [exact V0| |exact (step_moves _ _ _ _ _ _ _ _ V0 Hv0 E0)|exact Nm].
    apply shuts_none. intros fd0 how -> Hx. apply Hok. exists fd0, how. auto.
Qed.
