(** INET sockets and the port table *)
From Verif Require Import Base PortModel PortSpec PortProofs ErrnoModel InetModel InetSpec InetInv InetStep InetConn InetName.
Local Open Scope list_scope.
Local Open Scope Z_scope.

Opaque fd_list next_fd reserve release from_discriminant.

Lemma kerr_neg e r : kerr e = Some r -> r < 0.
Proof. unfold kerr. destruct (from_discriminant e) as [n|]; [|discriminate]. intros [= <-]. assert (0 < discriminant n) by (destruct n; reflexivity). lia. Qed.

(** the local name and the protocol of a socket that has a name *)
Definition locs (s : ist) (i : Z) : option (iaddr * ptype) :=
  match i_h s !! i with Some h => match h_loc h with Some l => Some (l, pt h) | None => None end | None => None end.
Definition same_locs (s s' : ist) : Prop := forall j, locs s' j = locs s j.
Definition set_locs (s s' : ist) (i : Z) (v : option (iaddr * ptype)) : Prop := locs s' i = v /\ forall j, j <> i -> locs s' j = locs s j.

Definition good (o : iop) (p : Z) (a : addr) : Prop := p = 0 \/ exists fd x, o = Bind fd x /\ p = ia_port x /\ a = ia_a x.
(** [bind] answered that the port or the address is not available, without
    asking the kernel *)
Definition refused (o : iop) (t : list kcall) (out : iout) : Prop :=
  exists fd x r, o = Bind fd x /\ out = IRet r /\ r < 0 /\ forall k y e, KBind k y e ∉ t.

Inductive pmove (devs : list addr) (o : iop) (s : ist) (t : list kcall) (out : iout) (s' : ist) : Prop :=
| pm_same : i_ports s' = i_ports s -> same_locs s s' -> pmove devs o s t out s'
| pm_take i p l q reuse : good o p (ia_a l) -> locs s i = None -> reserve devs (i_ports s) (ia_a l) p q reuse = (i_ports s', ia_port l) -> 0 <= ia_port l ->
    set_locs s s' i (Some (l, q)) -> pmove devs o s t out s'
| pm_leak a q r : reserve devs (i_ports s) a 0 q false = (i_ports s', r) -> 0 <= r -> same_locs s s' -> pmove devs o s t out s'
| pm_fail a p q reuse r : good o p a -> reserve devs (i_ports s) a p q reuse = (i_ports s', r) -> r < 0 -> same_locs s s' -> pmove devs o s t out s'
| pm_bad i x fd q reuse r : o = Bind fd x -> out = IRet r -> (forall k y e, KBind k y e ∉ t) ->
    reserve devs (i_ports s) (ia_a x) (ia_port x) q reuse = (i_ports s', r) -> r < 0 -> set_locs s s' i (Some (x, q)) -> pmove devs o s t out s'
| pm_release i l q r : locs s i = Some (l, q) -> release devs (i_ports s) (ia_a l) (ia_port l) q = Done (i_ports s', r) -> set_locs s s' i None -> pmove devs o s t out s'.

Lemma locs_at s i h : i_h s !! i = Some h -> locs s i = match h_loc h with Some l => Some (l, pt h) | None => None end.
Proof. unfold locs. intros ->. done. Qed.
Lemma locs_h s s' : i_h s' = i_h s -> same_locs s s'.
Proof. intros E j. unfold locs. rewrite E. done. Qed.
Lemma locs_put s s' i h h' : i_h s !! i = Some h -> i_h s' = <[i := h']> (i_h s) -> pt h' = pt h -> h_loc h' = h_loc h -> same_locs s s'.
Proof.
  intros Hi E Ep El j. unfold locs. rewrite E. destruct (decide (j = i)) as [->|Hne]; [rewrite lookup_insert, Hi, El, Ep; done|rewrite lookup_insert_ne by auto; done].
Qed.
Lemma set_put s s' i h h' : i_h s !! i = Some h -> i_h s' = <[i := h']> (i_h s) -> pt h' = pt h ->
  set_locs s s' i (match h_loc h' with Some l => Some (l, pt h) | None => None end).
Proof.
  intros Hi E Ep. split; [unfold locs; rewrite E, lookup_insert, Ep; done|]. intros j Hne. unfold locs. rewrite E, lookup_insert_ne by auto. done.
Qed.

(** ** Giving a socket a name *)
Definition ptake (devs : list addr) (s : ist) (h : hdl) (s1 : ist) (h1 : hdl) : Prop :=
  (i_ports s1 = i_ports s /\ h_loc h1 = h_loc h) \/
  (h_loc h = None /\ exists l, reserve devs (i_ports s) (ia_a l) 0 (pt h) false = (i_ports s1, ia_port l) /\ 0 <= ia_port l /\ h_loc h1 = Some l) \/
  (exists a r, reserve devs (i_ports s) a 0 (pt h) false = (i_ports s1, r) /\ r < 0 /\ h_loc h1 = h_loc h).

Lemma ptake_pmove devs o s t out s' i h s1 h1 : i_h s !! i = Some h -> pt h1 = pt h -> ptake devs s h s1 h1 ->
  i_h s' = <[i := h1]> (i_h s) -> i_ports s' = i_ports s1 -> pmove devs o s t out s'.
Proof.
  intros Hi Ep K E Es. destruct K as [[K1 K2]|[(K0 & l & K1 & K2 & K3)|(a & r & K1 & K2 & K3)]].
  - apply pm_same; [congruence|]. exact (locs_put s s' i h h1 Hi E Ep K2).
  - apply (pm_take devs o s t out s' i 0 l (pt h) false); [left; done|rewrite (locs_at _ _ _ Hi), K0; done|rewrite Es; exact K1|exact K2|].
    pose proof (set_put s s' i h h1 Hi E Ep) as S. rewrite K3 in S. exact S.
  - apply (pm_fail devs o s t out s' a 0 (pt h) false r); [left; done|rewrite Es; exact K1|exact K2|]. exact (locs_put s s' i h h1 Hi E Ep K3).
Qed.

Lemma bind_pre_port devs s h x a s1 h1 t r : bind_inner devs s h x true a = Some (s1, h1, t, r) -> ia_v6 x = h_v6 h -> h_loc h = None -> 0 <= ia_port x ->
  i_ports s1 = i_ports s /\ h_loc h1 = Some x /\ pt h1 = pt h.
Proof.
  unfold bind_inner. intros H Ev El Hp. rewrite Ev, Bool.eqb_reflx, El in H. cbn [negb] in H.
  destruct (force_inner s h a) as [[[[s0 h0] k] t0]|] eqn:Ef; [|discriminate H]. destruct (force_spec _ _ _ _ _ _ _ Ef) as (_ & -> & Hpo).
  destruct (Z.ltb_spec (ia_port x) 0); [lia|]. assert (Ex : with_port (ia_port x) x = x) by (destruct x; done). rewrite Ex in H.
  destruct (a_bind a =? 0); [|destruct (kerr (a_bind a)); [|discriminate H]]; injection H as <- <- _ _; cbn; auto.
Qed.
Lemma implicit_port devs s h v6 a s1 h1 t r : implicit_bind devs s h v6 a = Some (s1, h1, t, r) -> ptake devs s h s1 h1 /\ pt h1 = pt h.
Proof.
  unfold implicit_bind. destruct (h_loc h) as [l|] eqn:El; [intros [= <- <- _ _]; split; [left; auto|done]|].
  destruct (negb _); [intros [= <- <- _ _]; split; [left; auto|done]|]. unfold assign. destruct (reserve _ _ _ _ _ _) as [p q] eqn:Er.
  destruct (Z.ltb_spec q 0).
  - intros [= <- <- _ _]. split; [|done]. right. right. eexists _, q. split; [exact Er|auto].
  - intros Hb. apply bind_pre_port in Hb as (A & B & C); [|done|exact El|done]. split; [|exact C]. right. left. split; [exact El|].
    exists (IAddr (h_v6 h) (any_addr (h_v6 h)) q). cbn [ia_a ia_port]. rewrite A. cbn. auto.
Qed.

(** ** Each call *)
Lemma bind_port devs s c fd x a s' t out : bind_call devs s c fd x a = IGo s' t out -> pmove devs (Bind fd x) s t out s'.
Proof.
  unfold bind_call. intros H. apply on_sock_go in H as [[-> ->]|(i & fl & raw & h & Hd & Hi & H)]; [apply pm_same; [done|apply locs_h; done]|].
  destruct (bind_inner _ _ _ _ _ _) as [[[[s1 h1] tr] r]|] eqn:E; [|discriminate H]. injection H as <- <- <-.
  assert (Eh : i_h s1 = i_h s) by (destruct (bind_inner_spec _ _ _ _ _ _ _ _ _ _ E) as ((_ & Eh & _) & _); exact Eh).
  assert (Ep : i_h (put_h i h1 s1) = <[i := h1]> (i_h s)) by (cbn; rewrite Eh; done).
  unfold bind_inner in E. destruct (negb _).
  { injection E as <- <- <- <-. apply pm_same; [done|]. exact (locs_put s (put_h i h s) i h h Hi Ep eq_refl eq_refl). }
  destruct (h_loc h) as [l|] eqn:El.
  { injection E as <- <- <- <-. apply pm_same; [done|]. exact (locs_put s (put_h i h s) i h h Hi Ep eq_refl eq_refl). }
  destruct (force_inner s h a) as [[[[s0 h0] k] t0]|] eqn:Ef; [|discriminate E]. destruct (force_spec _ _ _ _ _ _ _ Ef) as (_ & -> & Hpo).
  pose proof (force_all _ _ _ _ _ _ _ Ef) as Hall. 
  destruct (reserve devs (i_ports s0) (ia_a x) (ia_port x) (pt h) _) as [p2 q] eqn:Er. rewrite Hpo in Er. destruct (Z.ltb_spec q 0) as [Hq|Hq].
  - injection E as <- <- <- <-. apply (pm_bad devs (Bind fd x) s t0 (IRet q) (put_h i (with_loc (Some x) (with_in (Some k) h)) (set_ports p2 s0)) i x fd (pt h) (hasbit (h_opts h) (2 ^ SO_REUSEPORT)) q eq_refl eq_refl); [|exact Er|exact Hq|].
    + unfold force_inner in Ef. destruct (h_in h); [injection Ef as _ _ _ <-; intros k0 y e He; inversion He|]. destruct (_ && _); [discriminate Ef|]. injection Ef as _ _ _ <-.
      intros k0 y e [He|He]%elem_of_cons; [discriminate He|]. apply elem_of_list_fmap in He as (b & He & _). discriminate He.
    + exact (set_put s _ i h _ Hi Ep eq_refl).
  - assert (K : h1 = with_loc (Some (with_port q x)) (with_in (Some k) h) /\ i_ports s1 = p2).
    { destruct (a_bind a =? 0); [|destruct (kerr (a_bind a)); [|discriminate E]]; injection E as <- <- _ _; auto. }
    destruct K as [-> E2]. apply (pm_take devs (Bind fd x) s tr (IRet r) _ i (ia_port x) (with_port q x) (pt h) (hasbit (h_opts h) (2 ^ SO_REUSEPORT))).
    + right. exists fd, x. auto.
    + rewrite (locs_at _ _ _ Hi), El. done.
    + cbn [i_ports put_h set_h]. rewrite E2. exact Er.
    + exact Hq.
    + exact (set_put s _ i h _ Hi Ep eq_refl).
Qed.

Lemma connect_port devs s c fd x a s' t out : connect_call devs s c fd x a = IGo s' t out -> pmove devs (Connect fd x) s t out s'.
Proof.
  unfold connect_call. intros H. assert (Same : pmove devs (Connect fd x) s t out s) by (apply pm_same; [done|apply locs_h; done]).
  apply on_sock_go in H as [[-> ->]|(i & fl & raw & h & Hd & Hi & H)]; [exact Same|].
  destruct (negb _); [injection H as <- _ _; exact Same|]. destruct (h_tcp h).
  - assert (K : forall s1 h1 k tr, connect_kernel s1 c fd i fl h1 k tr x a = IGo s' t out -> i_h s1 = i_h s -> pt h1 = pt h -> h_loc h1 = h_loc h -> same_locs s s' /\ i_ports s' = i_ports s1).
    { intros s1 h1 k tr E Eh Ept El. unfold connect_kernel in E. destruct (_ =? 0); [|destruct (_ =? EINPROGRESS)]; [injection E as <- _ _|injection E as <- _ _|apply kfail_go in E as (-> & _)];
        (split; [|done]); eapply (locs_put s _ i h _ Hi); cbn; rewrite ?Eh; try reflexivity; assumption. }
    unfold connect_tcp in H. destruct (negb _); [injection H as <- _ _; exact Same|]. destruct (h_loc h) as [l|] eqn:El.
    + destruct (h_in h) as [k|]; [|discriminate H]. destruct (K _ _ _ _ H eq_refl eq_refl El) as [K1 K2]. apply pm_same; assumption.
    + destruct (force_inner s h a) as [[[[s0 h0] k] t0]|] eqn:Ef; [|discriminate H]. destruct (force_spec _ _ _ _ _ _ _ Ef) as ((_ & Eh & _) & -> & Hpo).
      unfold assign in H. destruct (reserve _ _ _ _ _ _) as [p q] eqn:Er. rewrite Hpo in Er. change (pt (with_in (Some k) h)) with (pt h) in Er. change (h_v6 (with_in (Some k) h)) with (h_v6 h) in *.
      destruct (Z.ltb_spec q 0).
      * injection H as <- _ _. eapply (pm_fail devs _ s t out _ _ 0 (pt h) false q (or_introl eq_refl)); [exact Er|done|]. eapply (locs_put s _ i h _ Hi); cbn; rewrite ?Eh; try reflexivity; assumption.
      * destruct (a_bind a =? 0).
        -- destruct (K _ _ _ _ H) as [K1 K2]; [exact Eh|reflexivity|exact El|]. eapply (pm_leak devs _ s t out s' _ (pt h) q); [rewrite K2; exact Er|done|exact K1].
        -- apply kfail_go in H as (-> & _). apply (pm_take devs _ s t out _ i 0 (IAddr (h_v6 h) (any_addr (h_v6 h)) q) (pt h) false); [left; done|rewrite (locs_at _ _ _ Hi), El; done|exact Er|done|].
           refine (set_put s _ i h (with_loc (Some (IAddr (h_v6 h) (any_addr (h_v6 h)) q)) (with_in (Some k) h)) Hi _ eq_refl). cbn. rewrite Eh. reflexivity.
  - unfold connect_udp in H. destruct (h_loc _) as [l|] eqn:El; change (h_loc (with_rem (Some x) h)) with (h_loc h) in El.
    + injection H as <- _ _. apply pm_same; [done|]. eapply (locs_put s _ i h _ Hi); cbn; reflexivity.
    + unfold assign in H. destruct (reserve _ _ _ _ _ _) as [p q] eqn:Er. change (pt (with_rem (Some x) h)) with (pt h) in Er. change (h_v6 (with_rem (Some x) h)) with (h_v6 h) in *.
      destruct (Z.ltb_spec q 0).
      * injection H as <- _ _. eapply (pm_fail devs _ s t out _ _ 0 (pt h) false q (or_introl eq_refl)); [exact Er|done|]. eapply (locs_put s _ i h _ Hi); cbn; reflexivity.
      * destruct (bind_inner _ _ _ _ _ _) as [[[[s2 h2] tr] r]|] eqn:E; [|discriminate H]. destruct (h_in h2) as [k|]; [|discriminate H]. injection H as <- _ _.
        destruct (bind_inner_spec _ _ _ _ _ _ _ _ _ _ E) as ((_ & Eh & _) & _). apply bind_pre_port in E as (A & B & C); [|done|exact El|done].
        apply (pm_take devs _ s t out _ i 0 (IAddr (h_v6 h) (any_addr (h_v6 h)) q) (pt h) false); [left; done|rewrite (locs_at _ _ _ Hi), El; done|cbn; rewrite A; exact Er|done|].
        assert (Ep : i_h (put_fd c fd (ISock i fl k) (put_h i h2 s2)) = <[i := h2]> (i_h s)) by (cbn; rewrite Eh; done).
        pose proof (set_put s _ i h h2 Hi Ep C) as S. rewrite B in S. exact S.
Qed.
Lemma listen_port devs s c fd n a s' t out : listen_call devs s c fd n a = IGo s' t out -> pmove devs (Listen fd n) s t out s'.
Proof.
  unfold listen_call. intros H. assert (Same : pmove devs (Listen fd n) s t out s) by (apply pm_same; [done|apply locs_h; done]).
  apply on_sock_go in H as [[-> ->]|(i & fl & raw & h & Hd & Hi & H)]; [exact Same|].
  destruct (h_st h); try (injection H as <- _ _; exact Same). destruct (negb _); [injection H as <- _ _; exact Same|].
  destruct (implicit_bind _ _ _ _ _) as [[[[s1 h1] t1] r]|] eqn:E; [|discriminate H]. destruct (implicit_spec _ _ _ _ _ _ _ _ _ E) as ((_ & Eh & _) & _).
  destruct (implicit_port _ _ _ _ _ _ _ _ _ E) as [K Ep].
  assert (F : forall s2 h2, pt h2 = pt h1 -> h_loc h2 = h_loc h1 -> i_h s2 = <[i := h2]> (i_h s) -> i_ports s2 = i_ports s1 -> pmove devs (Listen fd n) s t out s2).
  { intros s2 h2 F1 F2 F3 F4. apply (ptake_pmove devs _ s t out s2 i h s1 h2 Hi); [congruence| |exact F3|exact F4]. unfold ptake in *. rewrite F2. exact K. }
  destruct (r <? 0); [apply kfail_go in H as (-> & _); apply (F _ h1); [done|done|cbn; rewrite Eh; done|done]|].
  destruct (h_in h1) as [k|]; [|discriminate H]. destruct (h_loc h1) as [l|] eqn:El1; [|discriminate H]. destruct (_ =? 0).
  - injection H as <- _ _. apply (F _ (with_st Listening h1)); [done|exact El1|cbn; rewrite Eh; done|done].
  - apply kfail_go in H as (-> & _). apply (F _ h1); [done|exact El1|cbn; rewrite Eh; done|done].
Qed.
Lemma accept_port devs s c fd a s' t out : iinv s -> accept_call devs s c fd a = IGo s' t out -> pmove devs (Accept fd) s t out s'.
Proof.
  intros V H. unfold accept_call in H. assert (Same : pmove devs (Accept fd) s t out s) by (apply pm_same; [done|apply locs_h; done]).
  destruct (negb _); [discriminate H|]. destruct (i_fds s !! (c, fd)) as [d|]; [|injection H as <- _ _; exact Same]. destruct (next_fd s c) as [nfd|]; [|injection H as <- _ _; exact Same].
  destruct d as [i fl raw|]; [|injection H as <- _ _; exact Same]. destruct (i_h s !! i) as [h|] eqn:Hi; [|discriminate H]. destruct (h_tcp h) eqn:Et; cbn [negb] in H; [|injection H as <- _ _; exact Same].
  destruct (negb _); [injection H as <- _ _; exact Same|]. destruct (h_loc h) as [l|]; [|discriminate H]. destruct (h_in h) as [k|]; [|discriminate H]. destruct (negb _); [discriminate H|].
  destruct (a_acc a) as [p|e]; [|destruct (_ && _); [injection H as <- _ _; exact Same|]; apply kfail_go in H as (-> & _); exact Same].
  destruct (reserve _ _ _ _ _ _) as [p' r] eqn:Er. destruct (Z.ltb_spec r 0).
  - injection H as <- _ _. eapply (pm_fail devs _ s t out _ _ 0 (pt h) false r (or_introl eq_refl)); [exact Er|done|]. apply locs_h. done.
  - injection H as <- _ _. assert (N : i_h s !! i_nh s = None). { destruct (i_h s !! i_nh s) as [g|] eqn:E; [|done]. pose proof (v_nh s V _ _ E). lia. }
    apply (pm_take devs _ s t out _ (i_nh s) 0 (with_port r l) (pt h) false); [left; done|unfold locs; rewrite N; done|exact Er|done|].
    split; [unfold locs; cbn; rewrite lookup_insert; unfold pt; cbn|intros j Hne; unfold locs; cbn; rewrite lookup_insert_ne by auto; done].
    rewrite Et. done.
Qed.

Lemma same_put devs o s t out i h h' : i_h s !! i = Some h -> pt h' = pt h -> h_loc h' = h_loc h -> pmove devs o s t out (put_h i h' s).
Proof. intros Hi Ep El. apply pm_same; [done|]. exact (locs_put s (put_h i h' s) i h h' Hi eq_refl Ep El). Qed.
Lemma sendto_port devs o s i h bs x a s' t out : i_h s !! i = Some h -> sendto_inner devs s i h bs x a = IGo s' t out -> pmove devs o s t out s'.
Proof.
  intros Hi H. unfold sendto_inner in H. assert (Same : pmove devs o s t out s) by (apply pm_same; [done|apply locs_h; done]).
  destruct (negb _); [injection H as <- _ _; exact Same|]. destruct (negb _); [injection H as <- _ _; exact Same|]. destruct (h_tcp h); [injection H as <- _ _; exact Same|].
  destruct (implicit_bind _ _ _ _ _) as [[[[s1 h1] t1] r]|] eqn:E; [|discriminate H]. destruct (implicit_spec _ _ _ _ _ _ _ _ _ E) as ((_ & Eh & _) & _).
  destruct (implicit_port _ _ _ _ _ _ _ _ _ E) as [K Ep].
  assert (F : pmove devs o s t out (put_h i h1 s1)) by (apply (ptake_pmove devs _ s t out _ i h s1 h1 Hi Ep K); [cbn; rewrite Eh; done|done]).
  destruct (r <? 0); [injection H as <- _ _; exact F|]. destruct (h_in h1); [|discriminate H]. destruct (_ <? 0); [apply kfail_go in H as (-> & _)|injection H as <- _ _]; exact F.
Qed.
Lemma send_tcp_same s h bs a s' t out : send_tcp s h bs a = IGo s' t out -> s' = s.
Proof.
  unfold send_tcp. destruct (h_st h); try (intros [= <- _ _]; done); (destruct (h_in h); [|discriminate]; destruct (_ <? 0); [intros (-> & _)%kfail_go|intros [= <- _ _]]; done).
Qed.
Lemma send_port devs o s c fd bs a s' t out : send_call devs s c fd bs a = IGo s' t out -> pmove devs o s t out s'.
Proof.
  intros H. unfold send_call in H. assert (Same : pmove devs o s t out s) by (apply pm_same; [done|apply locs_h; done]).
  apply on_sock_go in H as [[-> ->]|(i & fl & raw & h & Hd & Hi & H)]; [exact Same|].
  destruct (h_tcp h); [apply send_tcp_same in H as ->; exact Same|]. destruct (h_rem h) as [x|]; [|injection H as <- _ _; exact Same].
  destruct (no_dest x); [discriminate H|]. exact (sendto_port _ _ _ _ _ _ _ _ _ _ _ Hi H).
Qed.
Lemma recv_port devs o s c fd len flags fam a s' t out : recv_call devs s c fd len flags fam a = IGo s' t out -> pmove devs o s t out s'.
Proof.
  intros H. unfold recv_call in H. assert (Same : pmove devs o s t out s) by (apply pm_same; [done|apply locs_h; done]).
  apply on_sock_go in H as [[-> ->]|(i & fl & raw & h & Hd & Hi & H)]; [exact Same|]. destruct (h_tcp h).
  - assert (G : exists h', s' = put_h i h' s /\ pt h' = pt h /\ h_loc h' = h_loc h).
    { unfold recv_tcp in H. destruct (match h_st h with InProg => _ | _ => _ end) as [[h0 t0]|] eqn:E0; [|discriminate H].
      assert (A : pt h0 = pt h /\ h_loc h0 = h_loc h).
      { destruct (h_st h); try (injection E0 as <- _; auto; fail). destruct (h_in h); [|discriminate E0]. injection E0 as <- _. destruct (a_soerr a); auto. }
      clear E0. set (h1 := if hasbit flags MSG_PEEK then h0 else with_peek _ h0) in H.
      assert (B : pt h1 = pt h /\ h_loc h1 = h_loc h) by (unfold h1; destruct (hasbit flags MSG_PEEK); exact A).
      destruct (h_st h0); try (injection H as <- _ _; exists h0; split; [done|exact A]).
      all: destruct (_ && _); [injection H as <- _ _; exists h1; split; [done|exact B]|]; destruct (h_in h1) as [k|]; [|discriminate H].
      all: destruct (a_recv a) as [b|e].
      all: try (injection H as <- _ _; eexists; split; [reflexivity|]; destruct (hasbit flags MSG_PEEK); exact B).
      all: destruct (negb (_ =? 0)); [injection H as <- _ _; exists h1; split; [done|exact B]|]; destruct (_ && _); [injection H as <- _ _; exists h1; split; [done|exact B]|].
      all: apply kfail_go in H as (-> & _); exists h1; split; [done|exact B]. }
    destruct G as (h' & -> & G1 & G2). exact (same_put devs o s t out i h h' Hi G1 G2).
  - unfold recv_udp in H. destruct (implicit_bind _ _ _ _ _) as [[[[s1 h1] t1] r]|] eqn:E; [|discriminate H]. destruct (implicit_spec _ _ _ _ _ _ _ _ _ E) as ((_ & Eh & _) & _).
    destruct (implicit_port _ _ _ _ _ _ _ _ _ E) as [K Ep].
    assert (F : pmove devs o s t out (put_h i h1 s1)) by (apply (ptake_pmove devs _ s t out _ i h s1 h1 Hi Ep K); [cbn; rewrite Eh; done|done]).
    destruct (r <? 0); [injection H as <- _ _; exact F|]. destruct (h_in h1); [|discriminate H]. destruct (a_recv a); [injection H as <- _ _; exact F|].
    destruct (_ && _); [injection H as <- _ _; exact F|]. apply kfail_go in H as (-> & _). exact F.
Qed.

(** ** Giving names back *)
Lemma locs_del s s' i : i_h s' = delete i (i_h s) -> set_locs s s' i None.
Proof. intros E. split; [unfold locs; rewrite E, lookup_delete; done|]. intros j Hne. unfold locs. rewrite E, lookup_delete_ne by auto. done. Qed.
Lemma set_same s s' i : set_locs s s' i None -> locs s i = None -> same_locs s s'.
Proof. intros [A B] N j. destruct (decide (j = i)) as [->|Hne]; [congruence|auto]. Qed.
Lemma drop_port devs o s s1 i s' t t' out : (forall h, i_h s !! i = Some h -> hok h) -> i_h s1 = i_h s -> i_ports s1 = i_ports s -> drop_hdl devs s1 i = Some (s', t') -> pmove devs o s t out s'.
Proof.
  intros Hok E1 E2 H. assert (Same : pmove devs o s t out s1) by (apply pm_same; [exact E2|apply locs_h; exact E1]).
  unfold drop_hdl in H. destruct (used s1 i); [injection H as <- _; exact Same|]. destruct (i_h s1 !! i) as [h|] eqn:Hi; [|injection H as <- _; exact Same].
  rewrite E1 in Hi. destruct (Hok h Hi) as (O1 & _). pose proof (locs_at s i h Hi) as L.
  destruct (h_in h) as [k|].
  - destruct (h_loc h) as [l|].
    + cbn [i_ports set_h] in H. rewrite E2 in H. destruct (release _ _ _ _ _) as [[p r]|] eqn:Er; [|discriminate H]. injection H as <- _.
      apply (pm_release devs o s t out _ i l (pt h) r L); [exact Er|]. apply locs_del. cbn. rewrite E1. done.
    + injection H as <- _. apply pm_same; [exact E2|]. apply (set_same _ _ i); [|exact L]. apply locs_del. cbn. rewrite E1. done.
  - destruct (h_loc h); [destruct O1; done|]. injection H as <- _. apply pm_same; [exact E2|]. apply (set_same _ _ i); [|exact L]. apply locs_del. cbn. rewrite E1. done.
Qed.
Lemma drop_fd_port devs o s c fd s' t t' out : iinv s -> drop_fd devs s c fd = Some (s', t') -> pmove devs o s t out s'.
Proof.
  intros V H. unfold drop_fd in H. destruct (i_fds s !! (c, fd)) as [[i fl raw|]|]; [|injection H as <- _; apply pm_same; [done|apply locs_h; done]..].
  apply (drop_port devs o s (set_fds (delete (c, fd)) s) i s' t t' out); [intros h Hh; exact (v_h s V i h Hh)|done|done|exact H].
Qed.
Lemma shutdown_port devs s c fd how a s' t out : iinv s -> shutdown_call devs s c fd how a = IGo s' t out -> pmove devs (Shutdown fd how) s t out s'.
Proof.
  intros V H. unfold shutdown_call in H. assert (Same : pmove devs (Shutdown fd how) s t out s) by (apply pm_same; [done|apply locs_h; done]).
  destruct (negb _); [injection H as <- _ _; exact Same|]. destruct (negb _); [injection H as <- _ _; exact Same|].
  apply on_sock_go in H as [[-> ->]|(i & fl & raw & h & Hd & Hi & H)]; [exact Same|].
  destruct (shut_inner _ _ _ _ _) as [[[[s1 h1] t1] r]|] eqn:E; [|discriminate H].
  destruct (v_h s V i h Hi) as (O1 & _).
  assert (K : pmove devs (Shutdown fd how) s t out (put_h i h1 s1) /\ i_h s1 = i_h s /\ (how = SHUT_RDWR -> 0 <= r -> h_loc h1 = None) /\ i_fds s1 = i_fds s).
  { unfold shut_inner in E. destruct (h_in h) as [k|].
    - destruct (negb _).
      + destruct (kerr _) eqn:Ee; [|discriminate E]. injection E as <- <- <- <-. split; [exact (same_put _ _ _ _ _ i h h Hi eq_refl eq_refl)|]. split; [done|]. split; [|done].
        intros _ Hr. apply kerr_neg in Ee. lia.
      + destruct (_ || _) eqn:Ef.
        * destruct (h_loc h) as [l|] eqn:El.
          -- destruct (release _ _ _ _ _) as [[p r0]|] eqn:Er; [|discriminate E].
             assert (S : h_loc h1 = None /\ pt h1 = pt h /\ s1 = set_ports p s) by (destruct (r0 <? 0); injection E as <- <- _ _; auto).
             destruct S as (S1 & S2 & ->). split; [|auto]. apply (pm_release devs _ s t out _ i l (pt h) r0); [rewrite (locs_at _ _ _ Hi), El; done|exact Er|].
             pose proof (set_put s (put_h i h1 (set_ports p s)) i h h1 Hi eq_refl S2) as S. rewrite S1 in S. exact S.
          -- injection E as <- <- _ _. split; [apply (same_put _ _ _ _ _ i h _ Hi); done|]. auto.
        * injection E as <- <- _ _. split; [apply (same_put _ _ _ _ _ i h _ Hi); done|]. split; [done|]. split; [|done]. intros -> _. discriminate Ef.
    - injection E as <- <- _ _. split; [apply (same_put _ _ _ _ _ i h _ Hi); done|]. split; [done|]. split; [|done]. intros _ _. cbn. destruct (h_loc h); [destruct O1; done|done]. }
  destruct K as (K1 & K2 & K3 & K4). destruct (Z.ltb_spec r 0) as [Hr|Hr]; [injection H as <- _ _; exact K1|]. destruct (Z.eqb_spec how SHUT_RDWR) as [->|_]; [|injection H as <- _ _; exact K1].
  destruct (drop_fd _ _ _ _) as [[s3 t3]|] eqn:Ed; [|discriminate H]. injection H as <- _ _. specialize (K3 eq_refl Hr).
  assert (D : i_ports s3 = i_ports s1 /\ same_locs (put_h i h1 s1) s3).
  { unfold drop_fd in Ed. cbn [i_fds put_h set_h] in Ed. rewrite K4, Hd in Ed. unfold drop_hdl in Ed. destruct (used _ i); [injection Ed as <- _; split; [done|apply locs_h; done]|].
    cbn [i_h put_h set_h set_fds] in Ed. rewrite lookup_insert in Ed. rewrite K3 in Ed. 
    assert (s3 = set_h (delete i) (set_fds (delete (c, fd)) (put_h i h1 s1))) as -> by (destruct (h_in h1); injection Ed as <- _; done). split; [done|].
    apply (set_same _ _ i); [apply locs_del; done|]. unfold locs. cbn. rewrite lookup_insert, K3. done. }
  destruct D as [D1 D2].
  assert (T : forall v, set_locs s (put_h i h1 s1) i v -> set_locs s s3 i v). { intros v [T1 T2]. split; [rewrite D2; exact T1|]. intros j Hj. rewrite D2. exact (T2 j Hj). }
  assert (T' : same_locs s (put_h i h1 s1) -> same_locs s s3). { intros T' j. rewrite D2. exact (T' j). }
  destruct K1 as [P1 P2|j p l q reuse P1 P2 P3 P4 P5|b q r0 P1 P2 P3|b p q reuse r0 P1 P2 P3 P4|j x fd0 q reuse r0 P1|j l q r0 P1 P2 P3].
  - apply pm_same; [cbn in P1; congruence|exact (T' P2)].
  - apply (pm_take devs _ s t _ s3 j p l q reuse P1 P2); [rewrite D1; exact P3|exact P4|]. destruct P5 as [A B]. split; [rewrite D2; exact A|]. intros m Hm. rewrite D2. exact (B m Hm).
  - apply (pm_leak devs _ s t _ s3 b q r0); [rewrite D1; exact P1|exact P2|exact (T' P3)].
  - apply (pm_fail devs _ s t _ s3 b p q reuse r0 P1); [rewrite D1; exact P2|exact P3|exact (T' P4)].
  - discriminate P1.
  - apply (pm_release devs _ s t _ s3 j l q r0 P1); [rewrite D1; exact P2|]. destruct P3 as [A B]. split; [rewrite D2; exact A|]. intros m Hm. rewrite D2. exact (B m Hm).
Qed.

Lemma step_port devs s c o a s' t out : iinv s -> step devs s c o a = IGo s' t out -> pmove devs o s t out s'.
Proof.
  intros V H. assert (Same : pmove devs o s t out s) by (apply pm_same; [done|apply locs_h; done]).
  assert (Sf : forall f, pmove devs o s t out (set_fds f s)) by (intros f; apply pm_same; [done|apply locs_h; done]). destruct o; cbn [step] in H.
  - unfold socket_call in H. destruct (next_fd s c) as [fd|]; injection H as <- _ _; [|exact Same]. apply pm_same; [done|]. intros j. unfold locs. cbn.
    destruct (decide (j = i_nh s)) as [->|Hne]; [|rewrite lookup_insert_ne by auto; done]. rewrite lookup_insert. cbn. destruct (i_h s !! i_nh s) as [g|] eqn:E; [|done]. pose proof (v_nh s V _ _ E). lia.
  - exact (bind_port _ _ _ _ _ _ _ _ _ H).
  - exact (connect_port _ _ _ _ _ _ _ _ _ H).
  - exact (listen_port _ _ _ _ _ _ _ _ _ H).
  - exact (accept_port _ _ _ _ _ _ _ _ V H).
  - exact (send_port _ _ _ _ _ _ _ _ _ _ H).
  - unfold sendto_call in H. destruct (no_dest x); [exact (send_port _ _ _ _ _ _ _ _ _ _ H)|].
    apply on_sock_go in H as [[-> ->]|(i & fl & raw & h & Hd & Hi & H)]; [exact Same|]. exact (sendto_port _ _ _ _ _ _ _ _ _ _ _ Hi H).
  - unfold writev_call in H. apply on_sock_go in H as [[-> ->]|(i & fl & raw & h & Hd & Hi & H)]; [exact Same|]. destruct (h_tcp h); [apply send_tcp_same in H as ->|injection H as <- _ _]; exact Same.
  - exact (recv_port _ _ _ _ _ _ _ _ _ _ _ _ H).
  - exact (shutdown_port _ _ _ _ _ _ _ _ _ V H).
  - unfold close_call in H. destruct (negb _); [discriminate H|]. destruct (i_fds s !! (c, fd)); [|injection H as <- _ _; exact Same].
    destruct (drop_fd _ _ _ _) as [[s1 tr]|] eqn:E; [|discriminate H]. injection H as <- _ _. exact (drop_fd_port _ _ _ _ _ _ _ _ _ V E).
  - unfold dup_call in H. destruct (_ =? 0); [injection H as <- _ _; exact Same|]. destruct (negb _); [injection H as <- _ _; exact Same|].
    destruct (i_fds s !! (c, fd)); [|injection H as <- _ _; exact Same]. destruct (next_fd s c); injection H as <- _ _; [exact (Sf _)|exact Same].
  - unfold dup2_call in H. destruct (negb _); [injection H as <- _ _; exact Same|]. destruct (_ =? _); [injection H as <- _ _; exact Same|].
    destruct (negb _); [injection H as <- _ _; exact Same|]. destruct (i_fds s !! (c, fd)) as [d|]; [|injection H as <- _ _; exact Same].
    destruct (i_fds s !! (c, fd2)) as [[j fl raw|]|]; [|injection H as <- _ _; exact (Sf _)|injection H as <- _ _; exact (Sf _)].
    destruct (drop_hdl _ _ _) as [[s2 tr]|] eqn:E; [|discriminate H]. injection H as <- _ _. 
    apply (drop_port devs _ s (put_fd c fd2 (dup_desc d) s) j s2 t tr out); [intros h Hh; exact (v_h s V j h Hh)|done|done|exact E].
  - injection H as <- _ _. exact (Sf _).
  - unfold getpeername_call in H. destruct (negb _); [injection H as <- _ _; exact Same|]. apply on_sock_go in H as [[-> ->]|(i & fl & raw & h & Hd & Hi & H)]; [exact Same|].
    destruct (h_rem h); injection H as <- _ _; exact Same.
  - unfold getsockname_call in H. destruct (negb _); [injection H as <- _ _; exact Same|]. apply on_sock_go in H as [[-> ->]|(i & fl & raw & h & Hd & Hi & H)]; [exact Same|].
    injection H as <- _ _; exact Same.
  - unfold setopt_call in H. destruct (negb _); [injection H as <- _ _; exact Same|]. apply on_sock_go in H as [[-> ->]|(i & fl & raw & h & Hd & Hi & H)]; [exact Same|].
    destruct (negb _); [injection H as <- _ _; exact Same|]. cbv zeta in H. match type of H with match ?x with _ => _ end = _ => destruct x as [k|] end; [|injection H as <- _ _; apply (same_put _ _ _ _ _ i h _ Hi); done].
    destruct (_ =? 0); [injection H as <- _ _; apply (same_put _ _ _ _ _ i h _ Hi); done|]. apply kfail_go in H as (-> & _). exact Same.
  - unfold getfl_call in H. apply on_sock_go in H as [[-> ->]|(i & fl & raw & h & Hd & Hi & H)]; [exact Same|]. injection H as <- _ _; exact Same.
  - unfold setfl_call in H. apply on_sock_go in H as [[-> ->]|(i & fl & raw & h & Hd & Hi & H)]; [exact Same|]. destruct (_ <? 0); [injection H as <- _ _; exact Same|].
    destruct (h_in h); [|injection H as <- _ _; exact (Sf _)]. destruct (_ =? 0); [injection H as <- _ _; exact (Sf _)|]. apply kfail_go in H as (-> & _). exact Same.
  - unfold fionbio_call in H. apply on_sock_go in H as [[-> ->]|(i & fl & raw & h & Hd & Hi & H)]; [exact Same|]. 
    destruct (h_in h); [|injection H as <- _ _; exact (Sf _)]. destruct (a_mode a =? 0); [injection H as <- _ _; exact (Sf _)|]. apply kfail_go in H as (-> & _). exact (Sf _).
  - unfold select_read_call in H. destruct (sel_read s c fds) as [[l|]|]; [|injection H as <- _ _; exact Same|discriminate H]. destruct (bool_decide _); injection H as <- _ _; exact Same.
  - apply sel_write_move in H as [-> _]; [|exact V]. exact Same.
Qed.
