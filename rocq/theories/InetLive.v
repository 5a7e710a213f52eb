(** When calls on INET sockets do not abort the runtime *)
From Verif Require Import Base PortModel PortSpec PortProofs ErrnoModel InetModel InetSpec InetSpec2 InetInv InetStep InetConn InetName InetPort InetPort2 InetKeep InetData InetUdp.
Local Open Scope list_scope.
Local Open Scope Z_scope.

Opaque fd_list next_fd reserve release from_discriminant.

(** ** What is assumed *)

(** ** Listening sockets *)
Definition linv (s : ist) : Prop := forall i h, i_h s !! i = Some h -> h_st h = Listening -> exists l, h_loc h = Some l /\ (ia_a l, ia_port l, h_v6 h) ∈ i_pend s.
Lemma hat_listening nk h t nk1 h1 : hat nk h t nk1 h1 -> h_st h1 = Listening -> (forall k n, KListen k n 0 ∉ t) -> h_st h = Listening /\ h_v6 h1 = h_v6 h /\ (h_loc h <> None -> h_loc h1 = h_loc h).
Proof.
  destruct 1; cbn; intros E N; try (split; [exact E|]; split; [reflexivity|]; congruence); try discriminate E.
  - destruct (N k n). left.
  - destruct ok; [discriminate E|]. auto.
Qed.
Lemma hats_listening nk h t nk1 h1 : hats nk h t nk1 h1 -> h_st h1 = Listening -> (forall k n, KListen k n 0 ∉ t) -> h_st h = Listening /\ h_v6 h1 = h_v6 h /\ (h_loc h <> None -> h_loc h1 = h_loc h).
Proof.
  induction 1 as [|nk h t nk1 h1 t' nk2 h2 Ha _ IH]; intros E N; [auto|].
  destruct (IH E) as (A & B & C); [intros k n Hin; apply (N k n), elem_of_app; auto|]. destruct (hat_listening _ _ _ _ _ Ha A) as (A' & B' & C'); [intros k n Hin; apply (N k n), elem_of_app; auto|].
  split; [exact A'|]. split; [congruence|]. intros Hl. rewrite <- (C' Hl). apply C. rewrite (C' Hl). exact Hl.
Qed.
Lemma move_pend sh s t s' : move sh s t s' -> i_pend s ⊆ i_pend s'.
Proof.
  intros M. destruct M as
    [t s' E1 E2 E3 E4 E5 Ht|i h h' t s' Hi E2 E3 F Hpe Ka|c fd v6 tcp nb fl s' Hf ->|c fd h fl i l k x p nb s' Hf Hl Hk Hls Htl Eh E1 E2 E3 E4 E5
    |i l k p nb s' Hl Hk E1 E2 E3 E4 E5|p d s' -> Hd Hu|p i h fl raw d t s' Hp Hi Hd E1 Hno E2 E3 E4 E5 ->|p d s' -> Hp Hu|c c' s' Hn ->]; rewrite ?E4; try exact Hpe; apply list_subseteq_refl || (cbn; set_solver).
Qed.
Lemma move_linv s t s' : iinv s -> move None s t s' -> (forall k n, KListen k n 0 ∉ t) -> linv s -> linv s'.
Proof.
  intros V M N L j g' Hj Est. pose proof (move_pend _ _ _ _ M) as Pe.
  destruct (move_sock _ _ _ _ _ _ V M Hj) as [g Hg [Ht|(_ & ok & [=] & _)]|Hg Hp|v6 tcp nb0 fl Hg _ ->|? ? ? ? ? ? ? Hg _ _ _ _ ->]; [| |discriminate Est|discriminate Est].
  - destruct (hats_listening _ _ _ _ _ Ht Est N) as (A & B & C). destruct (L _ _ Hg A) as (l & Hl & Hk). exists l. rewrite (C ltac:(congruence)). split; [exact Hl|]. rewrite B. exact (Pe _ Hk).
  - destruct (L _ _ Hg Est) as (l & Hl & Hk). exists l. split; [exact Hl|exact (Pe _ Hk)].
Qed.
Lemma step_linv devs s c o a s' t out : iinv s -> valid s o -> step devs s c o a = IGo s' t out -> (forall fd how, o <> Shutdown fd how) -> linv s -> linv s'.
Proof.
  intros V Hv E Ns L. destruct (match o with Listen _ _ => true | _ => false end) eqn:Eo.
  - destruct o; try discriminate Eo. cbn [step] in E. unfold listen_call in E. apply on_sock_go in E as [[-> ->]|(i & fl & raw & h & Hd & Hi & E)]; [exact L|].
    destruct (h_st h) eqn:Est; try (injection E as <- _ _; exact L). destruct (negb _) in E; [injection E as <- _ _; exact L|].
    destruct (implicit_bind _ _ _ _ _) as [[[[s1 h1] t1] r]|] eqn:Eb; [|discriminate E]. destruct (implicit_spec _ _ _ _ _ _ _ _ _ Eb) as ((_ & P2 & _ & P4 & _ & F1 & _ & _ & F4 & _) & _).
    assert (K : forall s2, i_h s2 = <[i := h1]> (i_h s1) -> i_pend s2 = i_pend s1 -> linv s2).
    { intros s2 E1 E2 j g Hj Hl. rewrite E1, P2 in Hj. rewrite E2, P4. apply lookup_insert_Some in Hj as [[<- <-]|[_ Hj]]; [congruence|]. exact (L _ _ Hj Hl). }
    destruct (r <? 0); [apply kfail_go in E as (-> & _); apply K; reflexivity|]. destruct (h_in h1) as [k1|]; [|discriminate E]. destruct (h_loc h1) as [l|] eqn:El; [|discriminate E].
    destruct (_ =? 0) in E; [|apply kfail_go in E as (-> & _); apply K; reflexivity]. injection E as <- _ _.
    intros j g Hj Hl. cbn [i_h put_fd put_h set_fds set_h set_pend i_pend] in *. rewrite P2 in Hj. apply lookup_insert_Some in Hj as [[<- <-]|[_ Hj]].
    + exists l. split; [exact El|]. cbn. rewrite F1. left.
    + destruct (L _ _ Hj Hl) as (l0 & Hl0 & Hk). exists l0. split; [exact Hl0|]. right. rewrite P4. exact Hk.
  - assert (N : forall k n, KListen k n 0 ∉ t) by (intros k n Hin; pose proof (step_may _ _ _ _ _ _ _ _ V E _ Hin) as M; destruct o; try discriminate M; discriminate Eo).
    pose proof (step_moves _ _ _ _ _ _ _ _ V Hv E) as M. replace (shuts s c o out) with (@None (Z * bool)) in M by (destruct o; try reflexivity; destruct (Ns fd how eq_refl)).
    destruct M as [M|(t1 & s1 & t2 & -> & M1 & M2 & _)]; [exact (move_linv _ _ _ V M N L)|].
    apply (move_linv s1 t2); [exact (move_inv _ _ _ _ V M1)|exact M2|intros k n Hin; apply (N k n), elem_of_app; auto|]. apply (move_linv s t1); [exact V|exact M1|intros k n Hin; apply (N k n), elem_of_app; auto|exact L].
Qed.
Lemma history_linv devs evs s : history devs evs s -> mild evs -> linv s.
Proof.
  induction 1 as [|evs s c o a s' tr out H IH Hv E]; intros M; [intros i h Hi; cbn [i_h init_inet] in Hi; rewrite lookup_empty in Hi; discriminate Hi|]. destruct (history_inv _ _ _ H) as [V _].
  refine (step_linv _ _ _ _ _ _ _ _ V Hv E _ (IH _)); [|intros e He; apply M, elem_of_app; auto]. intros fd how ->. destruct (M (Ev s c (Shutdown fd how) a tr out)) as [X _]; [apply elem_of_app; right; left|]. exact (X fd how eq_refl).
Qed.

(** ** Helpers do not panic *)
Lemma kerr_known e : from_discriminant e <> None -> exists r, kerr e = Some r.
Proof. unfold kerr. destruct (from_discriminant e); [eauto|done]. Qed.
Lemma kfail_runs s t e : from_discriminant e <> None -> exists r, kfail s t e = IGo s t (IRet r).
Proof. intros H. unfold kfail. destruct (kerr_known e H) as (r & ->). eauto. Qed.
Lemma known_not e : known e -> (e =? 0) = false -> from_discriminant e <> None.
Proof. intros [->|H]; [discriminate|auto]. Qed.
Lemma force_runs s h a : sane a -> exists s1 h1 k t, force_inner s h a = Some (s1, h1, k, t).
Proof. intros (S & _). unfold force_inner. destruct (h_in h); [eauto 6|]. rewrite S. cbn. rewrite andb_false_r. eauto 6. Qed.
Lemma bind_runs devs s h x pre a : sane a -> exists s1 h1 t r, bind_inner devs s h x pre a = Some (s1, h1, t, r).
Proof.
  intros S. unfold bind_inner. destruct (negb _); [eauto 6|]. destruct (h_loc h); [eauto 6|]. destruct (force_runs s h a S) as (s1 & h1 & k & t & ->). destruct (if pre then _ else _) as [p2 r]. destruct (r <? 0); [eauto 6|].
  destruct S as (_ & _ & S & _). destruct (a_bind a =? 0) eqn:E; [eauto 6|]. destruct (kerr_known _ (known_not _ S E)) as (r0 & ->). eauto 6.
Qed.
Lemma implicit_runs devs s h v6 a : sane a -> exists s1 h1 t r, implicit_bind devs s h v6 a = Some (s1, h1, t, r).
Proof.
  intros S. unfold implicit_bind. destruct (h_loc h); [eauto 6|]. destruct (negb _); [eauto 6|]. destruct (assign devs s h) as [s1 [x|e]]; [exact (bind_runs _ _ _ _ _ _ S)|eauto 6].
Qed.
Lemma implicit_in devs s h v6 a s1 h1 t r : hok h -> implicit_bind devs s h v6 a = Some (s1, h1, t, r) -> (r <? 0) = false -> exists k l, h_in h1 = Some k /\ h_loc h1 = Some l.
Proof.
  intros K E Hr. destruct (implicit_spec _ _ _ _ _ _ _ _ _ E) as ((_ & _ & _ & _ & P5 & _) & _ & _ & P). apply Z.ltb_ge in Hr. destruct (hats_hok _ _ _ _ _ P5 K) as (B1 & _).
  specialize (P Hr). destruct (h_loc h1) as [l|]; [|done]. specialize (B1 P). destruct (h_in h1) as [k|]; [|done]. eauto.
Qed.
Definition runs (r : ires) : Prop := exists s t o, r = IGo s t o.
Lemma runs_go s t o : runs (IGo s t o).
Proof. unfold runs. eauto. Qed.
Lemma runs_kfail s t e : from_discriminant e <> None -> runs (kfail s t e).
Proof. intros H. destruct (kfail_runs s t e H) as (r & ->). apply runs_go. Qed.
Lemma on_runs s c fd f : iinv s -> 0 <= fd < MAXFD -> (forall i fl raw h, i_fds s !! (c, fd) = Some (ISock i fl raw) -> i_h s !! i = Some h -> runs (f i fl raw h)) -> runs (on_sock s c fd f).
Proof.
  intros V Hf H. unfold on_sock. replace (in_range fd) with true by (unfold in_range; lia). cbn [negb]. destruct (i_fds s !! (c, fd)) as [[i fl raw|]|] eqn:Hd; [|apply runs_go..].
  destruct (v_fd s V _ _ _ _ Hd) as (h & Hh & _). rewrite Hh. exact (H _ _ _ _ eq_refl Hh).
Qed.
Lemma on_runs' s c fd f : iinv s -> (forall i fl raw h, i_fds s !! (c, fd) = Some (ISock i fl raw) -> i_h s !! i = Some h -> runs (f i fl raw h)) -> runs (if negb (in_range fd) then IGo s [] (IRet (err EBADF)) else on_sock s c fd f).
Proof.
  intros V H. destruct (in_range fd) eqn:E; cbn [negb]; [|apply runs_go]. apply on_runs; [exact V| |exact H]. unfold in_range in E. lia.
Qed.
Lemma release_runs devs s i h l L : portinv devs s L -> i_h s !! i = Some h -> h_loc h = Some l -> exists p, release devs (i_ports s) (ia_a l) (ia_port l) (pt h) = Done (p, 0).
Proof.
  intros I Hi Hl. destruct (pi_has _ _ _ I i l (pt h)) as (r & Hr & A & B & C); [unfold locs; rewrite Hi, Hl; reflexivity|]. apply elem_of_list_split in Hr as (L1 & L2 & EL).
  pose proof (pi_holds _ _ _ I) as Ho. rewrite EL, map_app in Ho. cbn [map snd] in Ho. destruct (release_ok _ _ _ _ _ Ho) as (p & E & _). rewrite A, B, C in E. eauto.
Qed.
Lemma drop_hdl_runs devs s s1 i L : portinv devs s L -> i_h s1 = i_h s -> i_ports s1 = i_ports s -> exists s' t, drop_hdl devs s1 i = Some (s', t).
Proof.
  intros I E1 E2. unfold drop_hdl. destruct (used s1 i); [eauto|]. rewrite E1. destruct (i_h s !! i) as [h|] eqn:Hi; [|eauto]. destruct (h_in h); [|eauto]. destruct (h_loc h) as [l|] eqn:Hl; [|eauto].
  cbn [i_ports set_h]. rewrite E2. destruct (release_runs _ _ _ _ _ _ I Hi Hl) as (p & ->). eauto.
Qed.
Lemma sendto_runs devs s i h bs x a : sane a -> hok h -> runs (sendto_inner devs s i h bs x a).
Proof.
  intros S K. unfold sendto_inner. destruct (negb _); [apply runs_go|]. destruct (negb _); [apply runs_go|]. destruct (h_tcp h); [apply runs_go|].
  destruct (implicit_runs devs s h (ia_v6 x) a S) as (s1 & h1 & t & r & E). rewrite E. destruct (r <? 0) eqn:Er; [apply runs_go|]. destruct (implicit_in _ _ _ _ _ _ _ _ _ K E Er) as (k & l & -> & _).
  destruct (a_send a <? 0) eqn:Es; [|apply runs_go]. apply runs_kfail. destruct S as (_ & _ & _ & _ & _ & _ & _ & S & _). apply S. lia.
Qed.
Lemma send_tcp_runs s h bs a : sane a -> h_st h <> WrOnly -> hok h -> runs (send_tcp s h bs a).
Proof.
  intros S Nw (_ & K & _). unfold send_tcp. destruct (h_st h); try apply runs_go; [|done]. destruct (h_in h); [|destruct K; auto].
  destruct (a_send a <? 0) eqn:Es; [|apply runs_go]. apply runs_kfail. destruct S as (_ & _ & _ & _ & _ & _ & _ & S & _). apply S. lia.
Qed.
Lemma connect_kernel_runs s c fd i fl h k tr x a : sane a -> runs (connect_kernel s c fd i fl h k tr x a).
Proof.
  intros S. unfold connect_kernel. destruct (a_conn a =? 0) eqn:E; [apply runs_go|]. destruct (_ =? EINPROGRESS); [apply runs_go|]. apply runs_kfail. destruct S as (_ & _ & _ & S & _). exact (known_not _ S E).
Qed.

(** ** No abort *)
Lemma connect_runs devs s c fd x a : iinv s -> sane a -> 0 <= fd < MAXFD -> runs (connect_call devs s c fd x a).
Proof.
  intros V S Hf. unfold connect_call. apply on_runs; [exact V|exact Hf|]. intros i fl raw h Hd Hi. pose proof (v_h s V _ _ Hi) as K. destruct (negb _); [apply runs_go|]. destruct (h_tcp h).
  - unfold connect_tcp. destruct (negb _); [apply runs_go|]. destruct (h_loc h) as [l|] eqn:El.
    + destruct K as (K & _). destruct (h_in h); [apply connect_kernel_runs; exact S|]. destruct K; congruence.
    + destruct (force_runs s h a S) as (s1 & h1 & k & t & ->). destruct (assign devs s1 h1) as [s2 [y|e]]; [|apply runs_go]. destruct (a_bind a =? 0) eqn:E; [apply connect_kernel_runs; exact S|].
      apply runs_kfail. destruct S as (_ & _ & S & _). exact (known_not _ S E).
  - unfold connect_udp. cbn [h_loc with_rem]. destruct (h_loc h) eqn:El; [apply runs_go|]. destruct (assign devs s (with_rem (Some x) h)) as [s1 [y|e]] eqn:Ea; [|apply runs_go].
    destruct (assign_spec _ _ _ _ _ Ea) as (_ & _ & _ & _ & _ & A6). destruct (bind_runs devs s1 (with_rem (Some x) h) y true a S) as (s2 & h2 & t & r & E). rewrite E.
    destruct (bind_inner_spec _ _ _ _ _ _ _ _ _ _ E) as ((_ & _ & _ & _ & P5 & _) & _ & _ & P). specialize (P (A6 y eq_refl)).
    assert (K' : hok (with_rem (Some x) h)) by exact K. destruct (hats_hok _ _ _ _ _ P5 K') as (B1 & _). destruct (h_in h2); [apply runs_go|]. destruct (B1 P eq_refl).
Qed.
Lemma listen_runs devs s c fd n a : iinv s -> sane a -> 0 <= fd < MAXFD -> runs (listen_call devs s c fd n a).
Proof.
  intros V S Hf. unfold listen_call. apply on_runs; [exact V|exact Hf|]. intros i fl raw h Hd Hi. pose proof (v_h s V _ _ Hi) as K. destruct (h_st h); try apply runs_go. destruct (negb _); [apply runs_go|].
  destruct (implicit_runs devs s h (h_v6 h) a S) as (s1 & h1 & t & r & E). rewrite E. destruct (r <? 0) eqn:Er.
  - destruct (bool_decide_reflect (t = [])) as [Et|Et].
    + apply runs_kfail. exact (proj2 (proj2 (proj2 (proj2 (proj2 (proj2 (proj2 (proj2 (proj2 S))))))))).
    + destruct (a_bind a =? 0) eqn:Ebi; [|apply runs_kfail; destruct S as (_ & _ & S & _); exact (known_not _ S Ebi)].
      exfalso. apply Z.ltb_lt in Er. unfold implicit_bind in E. destruct (h_loc h) eqn:El; [injection E as _ _ _ <-; lia|]. destruct (negb _) in E; [injection E as _ _ <- _; done|].
      destruct (assign devs s h) as [s0 [x|e]] eqn:Ea; [|injection E as _ _ <- _; done]. unfold bind_inner in E. rewrite El in E. destruct (negb _) in E; [injection E as _ _ <- _; done|].
      destruct (force_inner s0 h a) as [[[[s2 h2] k2] t2]|]; [|discriminate E]. rewrite Ebi in E.
      assert (Hp : 0 <= ia_port x). { unfold assign in Ea. destruct (reserve _ _ _ _ _ _) as [p q]. destruct (q <? 0) eqn:Eq; [discriminate Ea|]. injection Ea as _ <-. cbn. lia. }
      destruct (ia_port x <? 0) eqn:Ex; [lia|]. injection E as _ _ _ <-. lia.
  - destruct (implicit_in _ _ _ _ _ _ _ _ _ K E Er) as (k & l & -> & ->). destruct (a_listen a =? 0) eqn:El; [apply runs_go|]. apply runs_kfail. destruct S as (_ & _ & _ & _ & S & _). exact (known_not _ S El).
Qed.
Lemma accept_runs devs s c fd a : iinv s -> linv s -> sane a -> 0 <= fd < MAXFD -> runs (accept_call devs s c fd a).
Proof.
  intros V L S Hf. unfold accept_call. replace (in_range fd) with true by (unfold in_range; lia). cbn [negb]. destruct (i_fds s !! (c, fd)) as [d|] eqn:Hd; [|apply runs_go]. destruct (next_fd s c); [|apply runs_go].
  destruct d as [i fl raw|]; [|apply runs_go]. destruct (v_fd s V _ _ _ _ Hd) as (h & Hi & _). rewrite Hi. pose proof (v_h s V _ _ Hi) as (_ & K & _). destruct (negb _); [apply runs_go|].
  destruct (bool_decide_reflect (h_st h = Listening)) as [Est|Est]; cbn [negb]; [|apply runs_go]. destruct (L _ _ Hi Est) as (l & -> & Hk). destruct (h_in h) as [k|]; [|destruct K; auto].
  rewrite (bool_decide_eq_true_2 _ Hk). cbn [negb]. cbv zeta. destruct (a_acc a) as [p|e] eqn:Ea.
  - destruct (reserve _ _ _ _ _ _) as [q r]. destruct (r <? 0); apply runs_go.
  - destruct (_ && _); [apply runs_go|]. apply runs_kfail. destruct S as (_ & _ & _ & _ & _ & _ & S & _). exact (S _ Ea).
Qed.
Lemma recv_runs devs s c fd len flags fam a : iinv s -> (forall i h, i_h s !! i = Some h -> h_st h <> RdOnly) -> sane a -> 0 <= fd < MAXFD -> runs (recv_call devs s c fd len flags fam a).
Proof.
  intros V Nr S Hf. unfold recv_call. apply on_runs; [exact V|exact Hf|]. intros i fl raw h Hd Hi. pose proof (v_h s V _ _ Hi) as K. specialize (Nr _ _ Hi). assert (Sr : forall e, a_recv a = inr e -> from_discriminant e <> None) by (destruct S as (_ & _ & _ & _ & _ & _ & _ & _ & S & _); exact S).
  destruct (h_tcp h).
  - destruct K as (_ & K & _).
    assert (R : forall h0 t0, h_in h0 <> None -> runs (match h_st h0 with
      | Conn | RdOnly =>
          let n := Z.min (Z.of_nat (length (h_peek h0))) len in
          let got := take (Z.to_nat n) (h_peek h0) in
          let h1 := if hasbit flags MSG_PEEK then h0 else with_peek (drop (Z.to_nat n) (h_peek h0)) h0 in
          let left := len - n in
          if bool_decide (h_peek h0 <> []) && (left =? 0) then IGo (put_h i h1 s) t0 (IData got) else
          match h_in h1 with
          | None => IDies
          | Some k =>
              let tr := t0 ++ bracket (nonblock fl) k [KRecv k left (a_recv a)] in
              match a_recv a with
              | inr e =>
                  if negb (n =? 0) then IGo (put_h i h1 s) tr (IData got)
                  else if negb (nonblock fl) && (e =? EAGAIN) then IGo (put_h i h1 s) tr IWaits
                  else kfail (put_h i h1 s) tr e
              | inl bs =>
                  let h2 := if hasbit flags MSG_PEEK then with_peek (h_peek h1 ++ bs) h1 else h1 in
                  IGo (put_h i h2 s) tr (IData (got ++ bs))
              end
          end
      | _ => IGo (put_h i h0 s) t0 (IRet (err ENOTCONN))
      end)).
    { intros h0 t0 H0. assert (H1 : forall p, h_in (if hasbit flags MSG_PEEK then h0 else with_peek p h0) <> None) by (intros p; destruct (hasbit _ _); exact H0).
      destruct (h_st h0); try apply runs_go; cbv zeta; (destruct (_ && _); [apply runs_go|]); (match goal with |- context [h_in (if _ then h0 else with_peek ?p h0)] => specialize (H1 p); destruct (h_in (if hasbit flags MSG_PEEK then h0 else with_peek p h0)); [|done] end);
        (destruct (a_recv a) as [bs|e] eqn:Ea; [apply runs_go|]); (destruct (negb _); [apply runs_go|]); (destruct (_ && _); [apply runs_go|]); exact (runs_kfail _ _ _ (Sr _ eq_refl)). }
    unfold recv_tcp. destruct (h_st h) eqn:Est; try (cbv iota zeta; rewrite Est; apply runs_go).
    + destruct (h_in h) as [k|] eqn:Ek; [|destruct K; auto]. apply R. destruct (a_soerr a); cbn; congruence.
    + apply (R h []). apply K. auto.
    + done.
  - unfold recv_udp. destruct (implicit_runs devs s h (match fam with Some v => v | None => false end) a S) as (s1 & h1 & t & r & E). rewrite E. destruct (r <? 0) eqn:Er; [apply runs_go|].
    destruct (implicit_in _ _ _ _ _ _ _ _ _ K E Er) as (k & l & -> & _). destruct (a_recv a) as [bs|e] eqn:Ea; [apply runs_go|]. destruct (_ && _); [apply runs_go|]. exact (runs_kfail _ _ _ (Sr _ eq_refl)).
Qed.
Lemma shutdown_runs devs s c fd how a L : iinv s -> portinv devs s L -> sane a -> runs (shutdown_call devs s c fd how a).
Proof.
  intros V I S. unfold shutdown_call. destruct (in_range fd) eqn:Hf; cbn [negb]; [|apply runs_go]. destruct (negb _); [apply runs_go|]. apply on_runs; [exact V|unfold in_range in Hf; lia|]. intros i fl raw h Hd Hi.
  assert (X : exists s1 h1 t r, shut_inner devs s h how a = Some (s1, h1, t, r) /\ i_fds s1 = i_fds s /\ i_h s1 = i_h s /\ ((how =? SHUT_RDWR) = true -> (r <? 0) = false -> h_in h1 = None \/ h_loc h1 = None)).
  { unfold shut_inner. destruct (h_in h) as [k|] eqn:Ek; [|eexists _, _, _, _; split; [reflexivity|]; split; [done|]; split; [done|]; intros _ _; left; exact Ek].
    destruct (a_shut a =? 0) eqn:Es; cbn [negb].
    - destruct (h_loc h) as [l|] eqn:El.
      + destruct (release_runs _ _ _ _ _ _ I Hi El) as (p & Hp). destruct (_ || _) eqn:Ef.
        * rewrite Hp. cbn. eexists _, _, _, _. split; [reflexivity|]. split; [done|]. split; [done|]. intros _ _. right. reflexivity.
        * eexists _, _, _, _. split; [reflexivity|]. split; [done|]. split; [done|]. intros Hh _. rewrite Hh in Ef. discriminate Ef.
      + replace (if (how =? SHUT_RDWR) || (how =? SHUT_RD) && bool_decide (h_st h = RdOnly) || (how =? SHUT_WR) && bool_decide (h_st h = WrOnly) then @None iaddr else None) with (@None iaddr) by (destruct (_ || _); reflexivity).
        eexists _, _, _, _. split; [reflexivity|]. split; [done|]. split; [done|]. intros _ _. right. exact El.
    - destruct S as (_ & _ & _ & _ & _ & S & _). destruct (kerr_known _ (known_not _ S Es)) as (r & Hr). rewrite Hr. eexists _, _, _, _. split; [reflexivity|]. split; [done|]. split; [done|].
      intros _ Hn. apply kerr_neg in Hr. lia. }
  destruct X as (s1 & h1 & t & r & -> & E1 & E2 & Hl). destruct (r <? 0); [apply runs_go|]. destruct (how =? SHUT_RDWR); [|apply runs_go]. specialize (Hl eq_refl eq_refl).
  unfold drop_fd. cbn [i_fds put_h set_h]. rewrite E1, Hd. unfold drop_hdl. destruct (used _ _); [apply runs_go|]. cbn [i_h set_fds put_h set_h]. rewrite lookup_insert.
  destruct (h_in h1); [|apply runs_go]. destruct Hl as [Hl|Hl]; [discriminate Hl|]. rewrite Hl. apply runs_go.
Qed.
Lemma sel_write_runs s c a fds : iinv s -> Forall (fun fd => 0 <= fd < MAXFD) fds ->
  runs (sel_write s c a fds) \/ sel_write s c a fds = IHang /\ a_soerr a = true /\ exists fd i h, fd ∈ fds /\ sock_of s c fd = Some i /\ i_h s !! i = Some h /\ h_st h = InProg.
Proof.
  intros V. induction 1 as [|fd r Hfd _ IH]; [left; apply runs_go|]. cbn [sel_write]. replace (in_range fd) with true by (unfold in_range; lia). cbn [negb]. destruct (i_fds s !! (c, fd)) as [d|] eqn:Hd; [|left; apply runs_go].
  assert (G : forall t0, let q := match sel_write s c a r with IGo s' tr (IReady l) => IGo s' (t0 ++ tr) (IReady (fd :: l)) | IGo s' tr o => IGo s' (t0 ++ tr) o | x => x end in
    runs q \/ q = IHang /\ a_soerr a = true /\ exists fd0 i h, fd0 ∈ fd :: r /\ sock_of s c fd0 = Some i /\ i_h s !! i = Some h /\ h_st h = InProg).
  { intros t0. destruct IH as [(s1 & t & o & ->)|(-> & A & fd0 & i & h & B & C)]; [left; destruct o; apply runs_go|]. right. split; [done|]. split; [exact A|]. exists fd0, i, h. split; [right; exact B|exact C]. }
  destruct d as [i fl raw|]; [|apply G]. destruct (v_fd s V _ _ _ _ Hd) as (h & Hi & _). rewrite Hi. pose proof (v_h s V _ _ Hi) as (_ & K & _). destruct (h_st h) eqn:Est; try apply G.
  destruct (h_in h) as [k|]; [|destruct K; auto]. destruct (a_soerr a) eqn:Ea; [|apply G]. right. split; [done|]. split; [done|]. exists fd, i, h. split; [left|]. split; [unfold sock_of; rewrite Hd; reflexivity|auto].
Qed.
Lemma sel_read_runs s c fds : Forall (fun fd => 0 <= fd < MAXFD) fds -> exists x, sel_read s c fds = Some x.
Proof.
  induction 1 as [|fd r Hfd _ (x & IH)]; cbn [sel_read]; [eauto|]. replace (in_range fd) with true by (unfold in_range; lia). cbn [negb]. destruct (i_fds s !! (c, fd)); [|eauto]. rewrite IH. destruct x; eauto.
Qed.

Lemma no_abort devs evs s c o a : history devs evs s -> tidy evs -> mild evs -> valid s o -> sane a -> fds_ok o ->
  runs (step devs s c o a) \/
  step devs s c o a = IHang /\ exists fds fd i h, o = SelectW fds /\ fd ∈ fds /\ sock_of s c fd = Some i /\ i_h s !! i = Some h /\ h_st h = InProg /\ a_soerr a = true.
Proof.
  intros H Ti Mi Hv S Hf. destruct (history_inv _ _ _ H) as [V _]. pose proof (history_linv _ _ _ H Mi) as L. destruct (history_portinv _ _ _ H Ti) as (P & I).
  pose proof (history_jinv _ _ _ H) as J.
  assert (Half : forall i h, i_h s !! i = Some h -> h_st h <> RdOnly /\ h_st h <> WrOnly).
  { intros i h Hi. destruct (J i h Hi) as (_ & _ & C & _). split; intros E; destruct (C ltac:(auto)) as (e & He & (fd & how & Ho & _) & _); destruct (Mi e He) as [X _]; exact (X _ _ Ho). }
  assert (Sm : known (a_mode a)) by (destruct S as (_ & S & _); exact S).
  assert (SendR : forall fd bs, 0 <= fd < MAXFD -> runs (send_call devs s c fd bs a)).
  { intros fd bs Hfd. unfold send_call. apply on_runs; [exact V|exact Hfd|]. intros i fl raw h Hd Hi. pose proof (v_h s V _ _ Hi) as K. destruct (h_tcp h) eqn:Et.
    - apply send_tcp_runs; [exact S|exact (proj2 (Half _ _ Hi))|exact K].
    - destruct (h_rem h) as [x|] eqn:Ex; [|apply runs_go]. destruct (no_dest x) eqn:En; [|apply sendto_runs; [exact S|exact K]]. exfalso.
      destruct (history_peer _ _ _ _ _ _ H Hi Et Ex) as (ev1 & e & ev2 & fd1 & -> & Ho & _). destruct (Mi e) as [_ X]; [apply elem_of_app; right; left|]. rewrite (X _ _ Ho) in En. discriminate En. }
  destruct o; cbn [step fds_ok] in *.
  - left. unfold socket_call. destruct (next_fd s c); apply runs_go.
  - left. unfold bind_call. apply on_runs; [exact V|exact Hf|]. intros i fl raw h Hd Hi. destruct (bind_runs devs s h x false a S) as (s1 & h1 & t & r & ->). apply runs_go.
  - left. exact (connect_runs _ _ _ _ _ _ V S Hf).
  - left. exact (listen_runs _ _ _ _ _ _ V S Hf).
  - left. exact (accept_runs _ _ _ _ _ V L S Hf).
  - left. exact (SendR _ _ Hf).
  - left. unfold sendto_call. destruct (no_dest x); [exact (SendR _ _ Hf)|]. apply on_runs; [exact V|exact Hf|]. intros i fl raw h Hd Hi. apply sendto_runs; [exact S|exact (v_h s V _ _ Hi)].
  - left. unfold writev_call. apply on_runs; [exact V|exact Hf|]. intros i fl raw h Hd Hi. destruct (h_tcp h); [|apply runs_go]. apply send_tcp_runs; [exact S|exact (proj2 (Half _ _ Hi))|exact (v_h s V _ _ Hi)].
  - left. apply recv_runs; [exact V|intros i h Hi; exact (proj1 (Half _ _ Hi))|exact S|exact Hf].
  - left. exact (shutdown_runs _ _ _ _ _ _ _ V I S).
  - left. unfold close_call. replace (in_range fd) with true by (unfold in_range; lia). cbn [negb]. destruct (i_fds s !! (c, fd)) as [d|] eqn:Hd; [|apply runs_go]. unfold drop_fd. rewrite Hd.
    destruct d as [i fl raw|]; [|apply runs_go]. destruct (drop_hdl_runs devs s (set_fds (delete (c, fd)) s) i P I eq_refl eq_refl) as (s' & t & ->). apply runs_go.
  - left. unfold dup_call. destruct (_ =? 0); [apply runs_go|]. destruct (negb _); [apply runs_go|]. destruct (i_fds s !! (c, fd)); [|apply runs_go]. destruct (next_fd s c); apply runs_go.
  - left. unfold dup2_call. destruct (negb _); [apply runs_go|]. destruct (_ =? _); [apply runs_go|]. destruct (negb _); [apply runs_go|]. destruct (i_fds s !! (c, fd)) as [d|]; [|apply runs_go].
    destruct (i_fds s !! (c, fd2)) as [[i fl raw|]|]; [|apply runs_go..]. destruct (drop_hdl_runs devs s (put_fd c fd2 (dup_desc d) s) i P I eq_refl eq_refl) as (s' & t & ->). apply runs_go.
  - left. apply runs_go.
  - left. unfold getpeername_call. apply on_runs'; [exact V|]. intros i fl raw h Hd Hi. destruct (h_rem h); apply runs_go.
  - left. unfold getsockname_call. apply on_runs'; [exact V|]. intros i fl raw h Hd Hi. apply runs_go.
  - left. unfold setopt_call. apply on_runs'; [exact V|]. intros i fl raw h Hd Hi. destruct (negb _); [apply runs_go|]. cbv zeta. destruct (if _ =? h_opts h then _ else _); [|apply runs_go]. destruct S as (-> & _). apply runs_go.
  - left. unfold getfl_call. apply on_runs; [exact V|exact Hf|]. intros i fl raw h Hd Hi. apply runs_go.
  - left. unfold setfl_call. apply on_runs; [exact V|exact Hf|]. intros i fl raw h Hd Hi. destruct (_ <? 0); [apply runs_go|]. cbv zeta. destruct (h_in h); [|apply runs_go]. destruct (a_mode a =? 0) eqn:Em; [apply runs_go|]. exact (runs_kfail _ _ _ (known_not _ Sm Em)).
  - left. unfold fionbio_call. apply on_runs; [exact V|exact Hf|]. intros i fl raw h Hd Hi. cbv zeta. destruct (h_in h); [|apply runs_go]. destruct (a_mode a =? 0) eqn:Em; [apply runs_go|]. exact (runs_kfail _ _ _ (known_not _ Sm Em)).
  - left. unfold select_read_call. destruct (sel_read_runs s c fds Hf) as (x & ->). destruct x as [l|]; [|apply runs_go]. destruct (bool_decide _); apply runs_go.
  - destruct (sel_write_runs s c a fds V Hf) as [R|(R & A & fd & i & h & B & C & D & E)]; [left; exact R|]. right. split; [exact R|]. exists fds, fd, i, h. split_and!; first [reflexivity|assumption].
Qed.
