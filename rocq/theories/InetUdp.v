(** Datagram sockets: where datagrams go and what a receive returns *)
From Verif Require Import Base PortModel PortSpec PortProofs ErrnoModel InetModel InetSpec InetSpec2 InetInv InetStep InetConn InetName InetPort InetPort2 InetKeep InetData.
Local Open Scope list_scope.
Local Open Scope Z_scope.

Opaque fd_list next_fd reserve release from_discriminant.

Lemma last_peer_snoc evs e i x : last_peer evs i x -> (forall fd y, e_op e = Connect fd y -> sock_of (e_pre e) (e_cage e) fd = Some i -> e_out e <> IRet 0) -> last_peer (evs ++ [e]) i x.
Proof.
  intros (ev1 & e1 & ev2 & fd & -> & A & B & C) D. exists ev1, e1, (ev2 ++ [e]), fd. split; [rewrite <- app_assoc; reflexivity|]. split; [exact A|]. split; [exact B|].
  intros e' fd' y [He|He%elem_of_list_singleton]%elem_of_app Ho Hs; [exact (C _ _ _ He Ho Hs)|subst e'; exact (D _ _ Ho Hs)].
Qed.
Lemma connect_form devs s c fd x a s' t out : connect_call devs s c fd x a = IGo s' t out ->
  (i_h s' = i_h s /\ out <> IRet 0) \/
  exists i h h', sock_of s c fd = Some i /\ i_h s !! i = Some h /\ i_h s' = <[i := h']> (i_h s) /\ (h_tcp h = false -> h_rem h' = Some x /\ forall e, e ∈ t -> binding e = true) \/ i_h s' = i_h s /\ h_tcp h = true /\ sock_of s c fd = Some i /\ i_h s !! i = Some h.
Proof.
  intros E. unfold connect_call, on_sock in E. destruct (negb (in_range fd)); [discriminate E|]. unfold sock_of. destruct (i_fds s !! (c, fd)) as [[i fl raw|]|]; [|left; injection E as <- _ <-; split; [done|discriminate]..].
  destruct (i_h s !! i) as [h|] eqn:Hi; [|discriminate E]. destruct (negb _) in E; [left; injection E as <- _ <-; split; [done|discriminate]|]. right. exists i, h. destruct (h_tcp h) eqn:Et.
  - unfold connect_tcp in E. destruct (negb _) in E; [injection E as <- _ _; exists h; auto|].
    assert (K : forall s1 h1 k tr, i_h s1 = i_h s -> connect_kernel s1 c fd i fl h1 k tr x a = IGo s' t out -> exists h', i_h s' = <[i := h']> (i_h s)).
    { intros s1 h1 k tr E1 E'. unfold connect_kernel in E'. destruct (_ =? 0) in E'; [injection E' as <- _ _; eexists; cbn; rewrite E1; reflexivity|].
      destruct (_ =? EINPROGRESS) in E'; [injection E' as <- _ _; eexists; cbn; rewrite E1; reflexivity|]. apply kfail_go in E' as (-> & _). eexists; cbn; rewrite E1; reflexivity. }
    assert (G : exists h', i_h s' = <[i := h']> (i_h s)).
    { destruct (h_loc h).
      + destruct (h_in h); [|discriminate E]. exact (K s h _ _ eq_refl E).
      + destruct (force_inner s h a) as [[[[s0 h0] k] t0]|] eqn:Ef; [|discriminate E]. destruct (force_spec _ _ _ _ _ _ _ Ef) as ((_ & P2 & _) & _ & _).
        destruct (assign devs s0 h0) as [s1 [y|e]] eqn:Ea; destruct (assign_same _ _ _ _ _ Ea) as [A1 A2].
        * destruct (_ =? 0) in E; [apply (K s1 h0 _ _ (eq_trans A1 P2) E)|]. apply kfail_go in E as (-> & _). eexists. cbn. rewrite A1, P2. reflexivity.
        * injection E as <- _ _. eexists. cbn. rewrite A1, P2. reflexivity. }
    destruct G as (h' & G). exists h'. left. split; [done|]. split; [done|]. split; [exact G|discriminate].
  - unfold connect_udp in E. cbn [h_loc with_rem] in E. destruct (h_loc h).
    + injection E as <- <- _. exists (with_rem (Some x) h). left. split; [done|]. split; [done|]. split; [reflexivity|]. intros _. split; [done|]. intros e He. inversion He.
    + destruct (assign devs s (with_rem (Some x) h)) as [s1 [y|e]] eqn:Ea; destruct (assign_same _ _ _ _ _ Ea) as [A1 A2].
      * destruct (bind_inner _ _ _ _ _ _) as [[[[s2 h2] tr] r]|] eqn:Eb; [|discriminate E]. destruct (h_in h2) eqn:Ei; [|discriminate E]. injection E as <- <- _.
        pose proof (bind_inner_all _ _ _ _ _ _ _ _ _ _ Eb) as Al. destruct (bind_inner_spec _ _ _ _ _ _ _ _ _ _ Eb) as (P & _). pose proof P as (_ & P2 & _). destruct (prog_keep true true _ _ _ _ _ P) as (_ & B2 & _).
        exists h2. left. split; [done|]. split; [done|]. split; [cbn; rewrite P2, A1; reflexivity|]. intros _. split; [exact (B2 eq_refl)|exact Al].
      * injection E as <- <- _. exists (with_rem (Some x) h). left. split; [done|]. split; [done|]. split; [cbn; rewrite A1; reflexivity|]. intros _. split; [done|]. intros e' He. inversion He.
Qed.
Lemma history_peer devs evs s i h x : history devs evs s -> i_h s !! i = Some h -> h_tcp h = false -> h_rem h = Some x -> last_peer evs i x.
Proof.
  intros H. revert i h x. induction H as [|evs s c o a s' t out H IH Hv E]; intros i h' x Hi Ht Hx; [discriminate Hi|]. destruct (history_inv _ _ _ H) as [V _].
  pose proof (step_keep _ _ _ _ _ _ _ _ V E) as K. destruct (is_conn o) eqn:Ec.
  - destruct o; try discriminate Ec. cbn [step] in E. apply connect_form in E as [[E0 No]|(j & g & g' & [(Hs & Hg & E0 & R)|(E0 & Tg & Hs & Hg)])].
    + rewrite E0 in Hi. apply last_peer_snoc; [exact (IH _ _ _ Hi Ht Hx)|]. intros _ _ _ _. exact No.
    + rewrite E0 in Hi. destruct (decide (i = j)) as [->|Hne].
      * rewrite lookup_insert in Hi. injection Hi as ->. destruct (K j h') as [(g0 & Hg0 & _ & _ & K3 & _)|(Hj & _)].
        { rewrite E0, lookup_insert. reflexivity. }
        -- assert (g0 = g) as -> by congruence. rewrite K3 in Ht. destruct (R Ht) as [R1 _]. assert (x0 = x) as -> by congruence.
           exists evs, (Ev s c (Connect fd x) a t out), [], fd. split; [done|]. split; [done|]. split; [exact Hs|]. intros e' fd' y He. inversion He.
        -- pose proof (v_nh s V _ _ Hg). lia.
      * rewrite lookup_insert_ne in Hi by auto. apply last_peer_snoc; [exact (IH _ _ _ Hi Ht Hx)|]. cbn. intros fd' y [= <- <-] Hs'. congruence.
    + rewrite E0 in Hi. apply last_peer_snoc; [exact (IH _ _ _ Hi Ht Hx)|]. cbn. intros fd' y [= <- <-] Hs'. congruence.
  - cbn [negb] in K. apply last_peer_snoc; [|cbn; intros fd y Ho; subst o; discriminate Ec]. destruct (K i h' Hi) as [(g & Hg & _ & K2 & K3 & _)|(_ & _ & _ & [K4|K4])]; [|congruence..].
    apply (IH i g x Hg); [congruence|]. rewrite <- (K2 eq_refl). exact Hx.
Qed.

(** ** Sending *)
Lemma sendto_form devs s i h bs x a s' t out k bs' y r : sendto_inner devs s i h bs x a = IGo s' t out -> KSend k bs' (Some y) r ∈ t ->
  h_tcp h = false /\ bs' = bs /\ y = x /\ (0 <= r -> out = IRet r) /\ (r < 0 -> exists e, out = IRet e /\ e < 0).
Proof.
  intros E Hin. unfold sendto_inner in E. destruct (negb _) in E; [injection E as _ <- _; inversion Hin|]. destruct (negb _) in E; [injection E as _ <- _; inversion Hin|]. destruct (h_tcp h) eqn:Et; [injection E as _ <- _; inversion Hin|].
  destruct (implicit_bind _ _ _ _ _) as [[[[s1 h1] t1] r0]|] eqn:Eb; [|discriminate E]. pose proof (implicit_all _ _ _ _ _ _ _ _ _ Eb) as Al.
  assert (N : KSend k bs' (Some y) r ∉ t1) by (intros X; specialize (Al _ X); discriminate Al). destruct (r0 <? 0); [injection E as _ <- _; destruct (N Hin)|]. destruct (h_in h1) as [k1|]; [|discriminate E].
  assert (G : KSend k bs' (Some y) r ∈ t1 ++ [KSend k1 bs (Some x) (a_send a)] -> bs' = bs /\ y = x /\ r = a_send a) by
    (intros [X|X%elem_of_list_singleton]%elem_of_app; [destruct (N X)|injection X as _ <- <- <-; auto]).
  destruct (Z.ltb_spec (a_send a) 0) as [L|L].
  - apply kfail_go in E as (_ & -> & e & -> & Ee). destruct (G Hin) as (-> & -> & ->). repeat split; try lia. intros _. exists e. split; [done|]. apply kerr_neg in Ee. lia.
  - injection E as _ <- <-. destruct (G Hin) as (-> & -> & ->). repeat split; try lia; auto.
Qed.
Lemma send_dest devs s c o a s' t out k bs y r : iinv s -> step devs s c o a = IGo s' t out -> KSend k bs (Some y) r ∈ t -> exists fd i h,
  sock_of s c fd = Some i /\ i_h s !! i = Some h /\ h_tcp h = false /\
  (o = Sendto fd bs y /\ no_dest y = false \/ (o = Send fd bs \/ exists z, o = Sendto fd bs z /\ no_dest z = true) /\ h_rem h = Some y) /\
  (0 <= r -> out = IRet r) /\ (r < 0 -> exists e, out = IRet e /\ e < 0).
Proof.
  intros V E Hin. pose proof (step_may _ _ _ _ _ _ _ _ V E _ Hin) as M.
  assert (S : forall fd bs0, send_call devs s c fd bs0 a = IGo s' t out -> exists i h, sock_of s c fd = Some i /\ i_h s !! i = Some h /\ h_tcp h = false /\ bs = bs0 /\ h_rem h = Some y /\
    (0 <= r -> out = IRet r) /\ (r < 0 -> exists e, out = IRet e /\ e < 0)).
  { intros fd bs0 E0. unfold send_call in E0. apply on_sock_go in E0 as [[_ ->]|(i & fl & raw & h & Hd & Hi & E0)]; [inversion Hin|]. exists i, h.
    assert (So : sock_of s c fd = Some i) by (unfold sock_of; rewrite Hd; reflexivity). destruct (h_tcp h) eqn:Et.
    - apply (send_tcp_all _ _ _ _ _ _ _ (fun e => match e with KSend _ _ None _ => true | _ => false end)) in E0; [|reflexivity]. specialize (E0 _ Hin). discriminate E0.
    - destruct (h_rem h) as [x|] eqn:Er; [|injection E0 as _ <- _; inversion Hin]. destruct (no_dest x); [discriminate E0|]. destruct (sendto_form _ _ _ _ _ _ _ _ _ _ _ _ _ _ E0 Hin) as (A & -> & -> & B & C). auto 8. }
  destruct o; try discriminate M; cbn [step] in E.
  - destruct (S _ _ E) as (i & h & A & B & C & <- & F & G & I). exists fd, i, h. split; [done|]. split; [done|]. split; [done|]. split; [right; auto|auto].
  - unfold sendto_call in E. destruct (no_dest x) eqn:En.
    + destruct (S _ _ E) as (i & h & A & B & C & <- & F & G & I). exists fd, i, h. split; [done|]. split; [done|]. split; [done|]. split; [right; eauto|auto].
    + apply on_sock_go in E as [[_ ->]|(i & fl & raw & h & Hd & Hi & E)]; [inversion Hin|]. destruct (sendto_form _ _ _ _ _ _ _ _ _ _ _ _ _ _ E Hin) as (A & -> & -> & B & C). exists fd, i, h.
      split; [unfold sock_of; rewrite Hd; reflexivity|]. split; [done|]. split; [done|]. split; [left; auto|auto].
Qed.
(** every datagram goes to the destination given, or to the peer *)
Lemma datagram_dest devs ev1 e ev2 s k bs x r : history devs (ev1 ++ e :: ev2) s -> KSend k bs (Some x) r ∈ e_tr e -> exists fd i,
  sock_of (e_pre e) (e_cage e) fd = Some i /\ is_udp (e_pre e) i /\
  (e_op e = Sendto fd bs x \/ (e_op e = Send fd bs \/ exists z, e_op e = Sendto fd bs z /\ no_dest z = true) /\ last_peer ev1 i x) /\
  (0 <= r -> e_out e = IRet r) /\ (r < 0 -> exists n, e_out e = IRet n /\ n < 0).
Proof.
  intros H Hin. destruct (history_at _ _ _ _ _ H) as (s1 & H1 & Hv & E & _). destruct (history_inv _ _ _ H1) as [V _].
  destruct (send_dest _ _ _ _ _ _ _ _ _ _ _ _ V E Hin) as (fd & i & h & A & B & C & D & F). exists fd, i. split; [exact A|]. split; [exists h; auto|]. split; [|exact F].
  destruct D as [[D _]|[D G]]; [auto|]. right. split; [exact D|]. exact (history_peer _ _ _ _ _ _ H1 B C G).
Qed.
(** datagram sockets are never connected in the kernel *)
Lemma connect_tcp_only devs ev1 e ev2 s k x r : history devs (ev1 ++ e :: ev2) s -> KConnect k x r ∈ e_tr e -> exists fd i, e_op e = Connect fd x /\ sock_of (e_pre e) (e_cage e) fd = Some i /\ is_tcp (e_pre e) i.
Proof.
  intros H Hin. destruct (history_at _ _ _ _ _ H) as (s1 & H1 & Hv & E & _). destruct (history_inv _ _ _ H1) as [V _]. pose proof (step_may _ _ _ _ _ _ _ _ V E _ Hin) as M.
  destruct e as [s0 c o a t out]. cbn in *. destruct o; try discriminate M. exists fd. pose proof E as E'. cbn [step] in E, E'. unfold connect_call in E'. apply on_sock_go in E' as [[_ ->]|(i & fl & raw & h & Hd & Hi & E')]; [inversion Hin|].
  assert (So : sock_of s0 c fd = Some i) by (unfold sock_of; rewrite Hd; reflexivity). exists i. destruct (negb _) in E'; [injection E' as _ <- _; inversion Hin|]. destruct (h_tcp h) eqn:Et.
  - split; [|split; [exact So|exists h; auto]]. unfold connect_tcp in E'. destruct (negb _) in E'; [injection E' as _ <- _; inversion Hin|].
    assert (K : forall s2 h2 k2 tr, all binding tr -> connect_kernel s2 c fd i fl h2 k2 tr x0 a = IGo s1 t out -> x0 = x).
    { intros s2 h2 k2 tr Al E0. assert (t = tr ++ [KConnect k2 x0 (a_conn a)]) as ->.
      { unfold connect_kernel in E0. destruct (_ =? 0) in E0; [injection E0 as _ <- _; done|]. destruct (_ =? EINPROGRESS) in E0; [injection E0 as _ <- _; done|]. apply kfail_go in E0 as (_ & -> & _). done. }
      apply elem_of_app in Hin as [X|X%elem_of_list_singleton]; [specialize (Al _ X); discriminate Al|]. congruence. }
    f_equal. destruct (h_loc h).
    + destruct (h_in h); [|discriminate E']. exact (K _ _ _ _ (all_nil _) E').
    + destruct (force_inner s0 h a) as [[[[s2 h2] k2] t2]|] eqn:Ef; [|discriminate E']. pose proof (force_all _ _ _ _ _ _ _ Ef) as Al. destruct (assign devs s2 h2) as [s3 [y|er]].
      * assert (Al2 : all binding (t2 ++ [KBind k2 y (a_bind a)])) by (apply all_app; [exact Al|apply all_one; reflexivity]).
        destruct (_ =? 0) in E'; [exact (K _ _ _ _ Al2 E')|]. apply kfail_go in E' as (_ & -> & _). specialize (Al2 _ Hin). discriminate Al2.
      * injection E' as _ <- _. specialize (Al _ Hin). discriminate Al.
  - exfalso. apply connect_form in E as [[E0 No]|(j & g & g' & [(Hs & Hg & E0 & R)|(E0 & Tg & Hs & Hg)])].
    + unfold connect_udp in E'. cbn [h_loc with_rem] in E'. destruct (h_loc h); [injection E' as _ <- _; inversion Hin|]. destruct (assign _ _ _) as [s2 [y|er]]; [|injection E' as _ <- _; inversion Hin].
      destruct (bind_inner _ _ _ _ _ _) as [[[[s3 h3] tr] r3]|] eqn:Eb; [|discriminate E']. pose proof (bind_inner_all _ _ _ _ _ _ _ _ _ _ Eb) as Al. destruct (h_in h3); [|discriminate E']. injection E' as _ <- _. specialize (Al _ Hin). discriminate Al.
    + assert (j = i) as -> by congruence. assert (g = h) as -> by congruence. destruct (R Et) as [_ R2]. specialize (R2 _ Hin). discriminate R2.
    + congruence.
Qed.
(** a receive on a datagram socket is one datagram of the kernel *)
Lemma datagram_recv devs ev1 e ev2 s fd len flags fam d i : history devs (ev1 ++ e :: ev2) s -> e_op e = Recv fd len flags fam -> e_out e = IData d ->
  sock_of (e_pre e) (e_cage e) fd = Some i -> is_udp (e_pre e) i -> exists t k, e_tr e = t ++ [KRecv k len (inl d)] /\ forall e', e' ∈ t -> binding e' = true.
Proof.
  intros H Ho Hd Hs (h & Hi & Ht). destruct (history_at _ _ _ _ _ H) as (s1 & H1 & Hv & E & _).
  destruct e as [s0 c o a t out]. cbn in *. subst o out. apply recv_call_form in E as [(_ & _ & _ & Ns)|(j & fl & raw & g & Hd & Hj & E)]; [congruence|].
  unfold sock_of in Hs. rewrite Hd in Hs. injection Hs as ->. assert (g = h) as -> by congruence. rewrite Ht in E.
  unfold recv_udp in E. destruct (implicit_bind _ _ _ _ _) as [[[[s2 h2] t1] r]|] eqn:Eb; [|discriminate E]. pose proof (implicit_all _ _ _ _ _ _ _ _ _ Eb) as Al.
  destruct (r <? 0); [discriminate E|]. destruct (h_in h2) as [k|]; [|discriminate E]. destruct (a_recv a).
  - injection E as _ <- <-. eauto.
  - destruct (_ && _); [discriminate E|]. apply kfail_go in E as (_ & _ & r0 & E & _). discriminate E.
Qed.
