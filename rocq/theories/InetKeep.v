(** What calls leave alone: bytes peeked at, and peers *)
From Verif Require Import Base PortModel PortSpec PortProofs ErrnoModel InetModel InetSpec InetInv InetStep InetConn InetName InetPort InetPort2.
Local Open Scope list_scope.
Local Open Scope Z_scope.

Opaque fd_list next_fd reserve release from_discriminant.

Definition kin (nk : Z) (g g' : hdl) : Prop := h_in g' = h_in g \/ h_in g = None /\ h_in g' = Some nk.
Definition hkeep (pk rm : bool) (nk : Z) (g g' : hdl) : Prop :=
  (pk = true -> h_peek g' = h_peek g) /\ (rm = true -> h_rem g' = h_rem g) /\ h_tcp g' = h_tcp g /\ kin nk g g'.
Definition keep (pk rm : bool) (s s' : ist) : Prop := forall j g', i_h s' !! j = Some g' ->
  (exists g, i_h s !! j = Some g /\ hkeep pk rm (i_nk s) g g') \/
  (i_nh s <= j /\ h_peek g' = [] /\ (h_in g' = None \/ h_in g' = Some (i_nk s)) /\ (h_tcp g' = true \/ h_rem g' = None)).
Lemma hkeep_refl pk rm nk g : hkeep pk rm nk g g.
Proof. repeat split. left. reflexivity. Qed.
Lemma keep_h pk rm s s' : i_h s' = i_h s -> keep pk rm s s'.
Proof. intros E j g' Hj. left. exists g'. rewrite E in Hj. split; [exact Hj|apply hkeep_refl]. Qed.
Lemma keep_put pk rm s s' i h h' : i_h s !! i = Some h -> i_h s' = <[i := h']> (i_h s) -> hkeep pk rm (i_nk s) h h' -> keep pk rm s s'.
Proof.
  intros Hi E K j g' Hj. left. rewrite E in Hj. destruct (decide (j = i)) as [->|Hne].
  - rewrite lookup_insert in Hj. injection Hj as <-. exists h. auto.
  - rewrite lookup_insert_ne in Hj by auto. exists g'. split; [exact Hj|apply hkeep_refl].
Qed.
Lemma keep_del pk rm s s' i : i_h s' = delete i (i_h s) -> keep pk rm s s'.
Proof. intros E j g' Hj. left. rewrite E in Hj. apply lookup_delete_Some in Hj as [_ Hj]. exists g'. split; [exact Hj|apply hkeep_refl]. Qed.
Lemma keep_new pk rm s s' g : i_h s' = <[i_nh s := g]> (i_h s) -> h_peek g = [] -> h_in g = None \/ h_in g = Some (i_nk s) -> h_tcp g = true \/ h_rem g = None -> keep pk rm s s'.
Proof.
  intros E A B C j g' Hj. rewrite E in Hj. apply lookup_insert_Some in Hj as [[<- <-]|[_ Hj]]; [right; auto with lia|]. left. exists g'. split; [exact Hj|apply hkeep_refl].
Qed.

Lemma hats_kin nk h t nk1 h1 : hats nk h t nk1 h1 -> kin nk h h1.
Proof. intros H. apply hats_kext in H. inversion H; subst; [left; congruence|right; auto]. Qed.
Lemma prog_keep pk rm s h s1 h1 t : prog s h s1 h1 t -> hkeep pk rm (i_nk s) h h1.
Proof. intros (_ & _ & _ & _ & Hh & F1 & F2 & F3 & F4 & F5 & F6 & F7). split; [auto|]. split; [auto|]. split; [exact F2|exact (hats_kin _ _ _ _ _ Hh)]. Qed.
Lemma keep_prog pk rm s i h s1 h1 t h2 s' : prog s h s1 h1 t -> i_h s !! i = Some h -> i_h s' = <[i := h2]> (i_h s1) ->
  (pk = true -> h_peek h2 = h_peek h1) -> (rm = true -> h_rem h2 = h_rem h1) -> h_tcp h2 = h_tcp h1 -> h_in h2 = h_in h1 -> keep pk rm s s'.
Proof.
  intros P Hi E A B C D. pose proof P as (_ & P2 & _). destruct (prog_keep pk rm _ _ _ _ _ P) as (K1 & K2 & K3 & K4). apply (keep_put pk rm s s' i h h2 Hi); [rewrite E, P2; reflexivity|].
  split; [intros X; rewrite (A X); exact (K1 X)|]. split; [intros X; rewrite (B X); exact (K2 X)|]. split; [congruence|]. unfold kin in *. rewrite D. exact K4.
Qed.
Lemma keep_prog1 pk rm s i h s1 h1 t : prog s h s1 h1 t -> i_h s !! i = Some h -> keep pk rm s (put_h i h1 s1).
Proof. intros P Hi. exact (keep_prog pk rm s i h s1 h1 t h1 (put_h i h1 s1) P Hi eq_refl (fun _ => eq_refl) (fun _ => eq_refl) eq_refl eq_refl). Qed.
Lemma bind_keep pk rm devs s c fd x a s' t out : bind_call devs s c fd x a = IGo s' t out -> keep pk rm s s'.
Proof.
  intros E. unfold bind_call in E. apply on_sock_go in E as [[-> ->]|(i & fl & raw & h & Hd & Hi & E)]; [apply keep_h; done|].
  destruct (bind_inner _ _ _ _ _ _) as [[[[s1 h1] tr] r]|] eqn:Eb; [|discriminate E]. injection E as <- _ _. destruct (bind_inner_spec _ _ _ _ _ _ _ _ _ _ Eb) as (P & _).
  exact (keep_prog1 _ _ _ _ _ _ _ _ P Hi).
Qed.
Lemma assign_same devs s h s1 y : assign devs s h = (s1, y) -> i_h s1 = i_h s /\ i_nk s1 = i_nk s.
Proof. intros E. destruct (assign_spec _ _ _ _ _ E) as (_ & A & _ & _ & B & _). auto. Qed.
Lemma connect_kernel_keep s1 c fd i fl h1 k tr x a s' t out s h pk : i_h s !! i = Some h -> i_h s1 = i_h s -> hkeep pk false (i_nk s) h h1 ->
  connect_kernel s1 c fd i fl h1 k tr x a = IGo s' t out -> keep pk false s s'.
Proof.
  intros Hi E1 K E. unfold connect_kernel in E.
  assert (X : forall st, keep pk false s (put_fd c fd (ISock i fl k) (put_h i (with_rem (Some x) (with_st st h1)) s1))).
  { intros st. apply (keep_put _ _ s _ i h (with_rem (Some x) (with_st st h1)) Hi); [cbn; rewrite E1; reflexivity|]. destruct K as (A & _ & C & D). split; [exact A|]. split; [discriminate|]. split; [exact C|exact D]. }
  destruct (_ =? 0); [injection E as <- _ _; apply X|]. destruct (_ =? EINPROGRESS); [injection E as <- _ _; apply X|]. apply kfail_go in E as (-> & _).
  apply (keep_put _ _ s _ i h h1 Hi); [cbn; rewrite E1; reflexivity|exact K].
Qed.
Lemma connect_keep pk devs s c fd x a s' t out : connect_call devs s c fd x a = IGo s' t out -> keep pk false s s'.
Proof.
  intros E. unfold connect_call in E. apply on_sock_go in E as [[-> ->]|(i & fl & raw & h & Hd & Hi & E)]; [apply keep_h; done|].
  destruct (negb _); [injection E as <- _ _; apply keep_h; done|]. destruct (h_tcp h) eqn:Et.
  - unfold connect_tcp in E. destruct (negb _); [injection E as <- _ _; apply keep_h; done|]. destruct (h_loc h).
    + destruct (h_in h); [|discriminate E]. exact (connect_kernel_keep _ _ _ _ _ _ _ _ _ _ _ _ _ _ _ pk Hi eq_refl (hkeep_refl _ _ _ _) E).
    + destruct (force_inner s h a) as [[[[s0 h0] k] t0]|] eqn:Ef; [|discriminate E]. destruct (force_spec _ _ _ _ _ _ _ Ef) as (P & _ & _). pose proof P as (_ & P2 & _).
      destruct (assign devs s0 h0) as [s1 [y|e]] eqn:Ea; destruct (assign_same _ _ _ _ _ Ea) as [A1 A2].
      * destruct (_ =? 0).
        -- refine (connect_kernel_keep _ _ _ _ _ _ _ _ _ _ _ _ _ _ _ pk Hi _ (prog_keep _ _ _ _ _ _ _ P) E). congruence.
        -- apply kfail_go in E as (-> & _). eapply (keep_put _ _ s _ i h); [exact Hi|cbn; rewrite A1, P2; reflexivity|]. exact (prog_keep _ _ _ _ _ _ _ P).
      * injection E as <- _ _. refine (keep_put _ _ _ _ i h h0 Hi _ (prog_keep _ _ _ _ _ _ _ P)). cbn. congruence.
  - unfold connect_udp in E. cbn [h_loc with_rem] in E. assert (Z0 : forall s1, i_h s1 = i_h s -> keep pk false s (put_h i (with_rem (Some x) h) s1)).
    { intros s1 E1. apply (keep_put _ _ s _ i h (with_rem (Some x) h) Hi); [cbn; rewrite E1; reflexivity|]. repeat split. discriminate. left. reflexivity. }
    destruct (h_loc h); [injection E as <- _ _; apply Z0; reflexivity|]. destruct (assign devs s (with_rem (Some x) h)) as [s1 [y|e]] eqn:Ea; destruct (assign_same _ _ _ _ _ Ea) as [A1 A2].
    + destruct (bind_inner _ _ _ _ _ _) as [[[[s2 h2] tr] r]|] eqn:Eb; [|discriminate E]. destruct (h_in h2) eqn:Ei; [|discriminate E]. injection E as <- _ _.
      destruct (bind_inner_spec _ _ _ _ _ _ _ _ _ _ Eb) as (P & _). pose proof P as (_ & P2 & _). destruct (prog_keep pk false _ _ _ _ _ P) as (B1 & B2 & B3 & B4).
      apply (keep_put _ _ s _ i h h2 Hi); [cbn; congruence|]. split; [exact B1|]. split; [discriminate|]. split; [exact B3|]. rewrite A2 in B4. exact B4.
    + injection E as <- _ _. exact (Z0 _ A1).
Qed.
Lemma listen_keep pk rm devs s c fd n a s' t out : listen_call devs s c fd n a = IGo s' t out -> keep pk rm s s'.
Proof.
  intros E. unfold listen_call in E. apply on_sock_go in E as [[-> ->]|(i & fl & raw & h & Hd & Hi & E)]; [apply keep_h; done|].
  destruct (h_st h) eqn:Est; try (injection E as <- _ _; apply keep_h; done).
  destruct (negb _); [injection E as <- _ _; apply keep_h; done|]. destruct (implicit_bind _ _ _ _ _) as [[[[s1 h1] t1] r]|] eqn:Eb; [|discriminate E]. destruct (implicit_spec _ _ _ _ _ _ _ _ _ Eb) as (P & _).
  assert (X : keep pk rm s (put_h i h1 s1)) by exact (keep_prog1 _ _ _ _ _ _ _ _ P Hi).
  destruct (r <? 0); [apply kfail_go in E as (-> & _); exact X|]. destruct (h_in h1) as [k|] eqn:Ek; [|discriminate E]. destruct (h_loc h1) as [l|]; [|discriminate E].
  destruct (_ =? 0); [|apply kfail_go in E as (-> & _); exact X]. injection E as <- _ _.
  eapply (keep_prog _ _ s i h s1 h1 t1 (with_st Listening h1)); [exact P|exact Hi|reflexivity|done..].
Qed.
Lemma accept_keep pk rm devs s c fd a s' t out : accept_call devs s c fd a = IGo s' t out -> keep pk rm s s'.
Proof.
  intros E. assert (X : s' = s -> keep pk rm s s') by (intros ->; apply keep_h; done). unfold accept_call in E. destruct (negb _); [discriminate E|]. destruct (i_fds s !! (c, fd)) as [d|]; [|injection E as <- _ _; auto].
  destruct (next_fd s c); [|injection E as <- _ _; auto]. destruct d as [i fl raw|]; [|injection E as <- _ _; auto]. destruct (i_h s !! i) as [h|]; [|discriminate E].
  destruct (negb _); [injection E as <- _ _; auto|]. destruct (negb _); [injection E as <- _ _; auto|]. destruct (h_loc h) as [l|]; [|discriminate E]. destruct (h_in h); [|discriminate E].
  destruct (negb _); [discriminate E|]. destruct (a_acc a).
  - destruct (reserve _ _ _ _ _ _) as [p r]. destruct (_ <? 0); injection E as <- _ _; [apply keep_h; done|]. eapply (keep_new pk rm s); [reflexivity|reflexivity|right; reflexivity|left; reflexivity].
  - destruct (_ && _); [injection E as <- _ _; auto|]. apply kfail_go in E as (-> & _). auto.
Qed.
Lemma sendto_keep pk rm devs s i h bs x a s' t out : i_h s !! i = Some h -> sendto_inner devs s i h bs x a = IGo s' t out -> keep pk rm s s'.
Proof.
  intros Hi E. unfold sendto_inner in E. destruct (negb _); [injection E as <- _ _; apply keep_h; done|]. destruct (negb _); [injection E as <- _ _; apply keep_h; done|]. destruct (h_tcp h); [injection E as <- _ _; apply keep_h; done|].
  destruct (implicit_bind _ _ _ _ _) as [[[[s1 h1] t1] r]|] eqn:Eb; [|discriminate E]. destruct (implicit_spec _ _ _ _ _ _ _ _ _ Eb) as (P & _).
  assert (X : keep pk rm s (put_h i h1 s1)) by exact (keep_prog1 _ _ _ _ _ _ _ _ P Hi).
  destruct (r <? 0); [injection E as <- _ _; exact X|]. destruct (h_in h1); [|discriminate E]. destruct (_ <? 0); [apply kfail_go in E as (-> & _)|injection E as <- _ _]; exact X.
Qed.
Lemma send_keep pk rm devs s c fd bs a s' t out : send_call devs s c fd bs a = IGo s' t out -> keep pk rm s s'.
Proof.
  intros E. unfold send_call in E. apply on_sock_go in E as [[-> ->]|(i & fl & raw & h & Hd & Hi & E)]; [apply keep_h; done|]. destruct (h_tcp h).
  - apply send_tcp_same in E as ->. apply keep_h; done.
  - destruct (h_rem h) as [x|]; [|injection E as <- _ _; apply keep_h; done]. destruct (no_dest x); [discriminate E|]. exact (sendto_keep _ _ _ _ _ _ _ _ _ _ _ _ Hi E).
Qed.
Lemma drop_hdl_keep pk rm devs s0 s i s' t : i_h s0 = i_h s -> drop_hdl devs s0 i = Some (s', t) -> keep pk rm s s'.
Proof.
  intros E0 E. apply drop_hdl_spec in E as [(_ & -> & _)|[(_ & _ & -> & _)|(h & _ & _ & _ & E & _)]]; [apply keep_h; exact E0..|]. apply (keep_del _ _ _ _ i). rewrite E, E0. reflexivity.
Qed.
Lemma keep_trans_del pk rm s s1 s' i : keep pk rm s s1 -> i_h s' = delete i (i_h s1) -> keep pk rm s s'.
Proof. intros K E j g' Hj. rewrite E in Hj. apply lookup_delete_Some in Hj as [_ Hj]. exact (K j g' Hj). Qed.
Lemma keep_then pk rm s s1 s' : keep pk rm s s1 -> i_h s' = i_h s1 -> keep pk rm s s'.
Proof. intros K E j g' Hj. rewrite E in Hj. exact (K j g' Hj). Qed.
Lemma shut_keep pk rm devs s c fd how a s' t out : shutdown_call devs s c fd how a = IGo s' t out -> keep pk rm s s'.
Proof.
  intros E. unfold shutdown_call in E. destruct (negb _); [injection E as <- _ _; apply keep_h; done|]. destruct (negb _); [injection E as <- _ _; apply keep_h; done|].
  apply on_sock_go in E as [[-> ->]|(i & fl & raw & h & Hd & Hi & E)]; [apply keep_h; done|].
  destruct (shut_inner _ _ _ _ _) as [[[[s1 h1] t1] r]|] eqn:Es; [|discriminate E].
  assert (X : i_h s1 = i_h s /\ h_peek h1 = h_peek h /\ h_rem h1 = h_rem h /\ h_tcp h1 = h_tcp h /\ h_in h1 = h_in h).
  { unfold shut_inner in Es. destruct (h_in h) as [k|] eqn:Ek; [|injection Es as <- <- _ _; auto 6]. destruct (negb _).
    - destruct (kerr _); [|discriminate Es]. injection Es as <- <- _ _. auto 6.
    - match type of Es with match ?x with _ => _ end = _ => destruct x as [l|] end; [|injection Es as <- <- _ _; auto 6].
      destruct (release _ _ _ _ _) as [[p r0]|]; [|discriminate Es]. destruct (r0 <? 0); injection Es as <- <- _ _; auto 6. }
  destruct X as (X1 & X2 & X3 & X4 & X5).
  assert (K : keep pk rm s (put_h i h1 s1)). { apply (keep_put _ _ s _ i h h1 Hi); [cbn; rewrite X1; reflexivity|]. repeat split; auto. left. exact X5. }
  destruct (r <? 0); [injection E as <- _ _; exact K|]. destruct (how =? SHUT_RDWR); [|injection E as <- _ _; exact K].
  destruct (drop_fd _ _ _ _) as [[s3 t3]|] eqn:Ed; [|discriminate E]. injection E as <- _ _. unfold drop_fd in Ed.
  destruct (i_fds (put_h i h1 s1) !! (c, fd)) as [[j fl' raw'|]|]; [|injection Ed as <- _; exact (keep_then _ _ _ _ _ K eq_refl)|injection Ed as <- _; exact (keep_then _ _ _ _ _ K eq_refl)].
  apply drop_hdl_spec in Ed as [(_ & -> & _)|[(_ & _ & -> & _)|(g & _ & _ & _ & Ed & _)]]; [exact (keep_then _ _ _ _ _ K eq_refl)..|]. exact (keep_trans_del _ _ _ _ _ _ K Ed).
Qed.
Lemma drop_fd_keep pk rm devs s c fd s' t : drop_fd devs s c fd = Some (s', t) -> keep pk rm s s'.
Proof.
  intros E. unfold drop_fd in E. destruct (i_fds s !! (c, fd)) as [[i fl raw|]|]; [|injection E as <- _; apply keep_h; done|injection E as <- _; apply keep_h; done].
  refine (drop_hdl_keep _ _ _ _ _ _ _ _ _ E). reflexivity.
Qed.
Definition is_recv (o : iop) : bool := match o with Recv _ _ _ _ => true | _ => false end.
Definition is_conn (o : iop) : bool := match o with Connect _ _ => true | _ => false end.
(** A receive on a datagram socket *)
Lemma recv_udp_keep pk rm devs s i fl h len fam a s' t out : i_h s !! i = Some h -> recv_udp devs s i fl h len fam a = IGo s' t out -> keep pk rm s s'.
Proof.
  intros Hi E. unfold recv_udp in E. destruct (implicit_bind _ _ _ _ _) as [[[[s1 h1] t1] r]|] eqn:Eb; [|discriminate E]. destruct (implicit_spec _ _ _ _ _ _ _ _ _ Eb) as (P & _).
  assert (X : keep pk rm s (put_h i h1 s1)) by exact (keep_prog1 _ _ _ _ _ _ _ _ P Hi).
  destruct (r <? 0); [injection E as <- _ _; exact X|]. destruct (h_in h1); [|discriminate E]. destruct (a_recv a); [injection E as <- _ _; exact X|].
  destruct (_ && _); [injection E as <- _ _; exact X|]. apply kfail_go in E as (-> & _). exact X.
Qed.
Lemma recv_tcp_keep rm s i fl h len flags a s' t out : i_h s !! i = Some h -> recv_tcp s i fl h len flags a = IGo s' t out -> keep false rm s s'.
Proof.
  intros Hi E. assert (X : forall h', h_rem h' = h_rem h -> h_tcp h' = h_tcp h -> h_in h' = h_in h -> keep false rm s (put_h i h' s)).
  { intros h' A B C. apply (keep_put _ _ s (put_h i h' s) i h h' Hi eq_refl). split; [discriminate|]. repeat split; auto. left. exact C. }
  unfold recv_tcp in E. match type of E with match ?x with _ => _ end = _ => destruct x as [[h0 t0]|] eqn:E0 end; [|discriminate E].
  assert (Y : h_rem h0 = h_rem h /\ h_tcp h0 = h_tcp h /\ h_in h0 = h_in h).
  { destruct (h_st h); try (injection E0 as <- _; auto; fail). destruct (h_in h) eqn:Ek; [|discriminate E0]. injection E0 as <- _. destruct (a_soerr a); auto. }
  destruct Y as (Y1 & Y2 & Y3).
  destruct (h_st h0); try (injection E as <- _ _; exact (X h0 Y1 Y2 Y3)).
  all: cbv zeta in E; set (h1 := if hasbit flags MSG_PEEK then h0 else _) in E; assert (Z0 : h_rem h1 = h_rem h /\ h_tcp h1 = h_tcp h /\ h_in h1 = h_in h) by (unfold h1; destruct (hasbit _ _); auto); destruct Z0 as (Z1 & Z2 & Z3).
  all: destruct (_ && _) in E; [injection E as <- _ _; exact (X h1 Z1 Z2 Z3)|].
  all: destruct (h_in h1) eqn:Ek; [|discriminate E]; destruct (a_recv a) in E.
  all: try (injection E as <- _ _; apply X; destruct (hasbit flags MSG_PEEK); cbn; congruence).
  all: destruct (negb _) in E; [injection E as <- _ _; apply X; congruence|]; destruct (_ && _) in E; [injection E as <- _ _; apply X; congruence|]; apply kfail_go in E as (-> & _); apply X; congruence.
Qed.
Lemma step_keep devs s c o a s' t out : iinv s -> step devs s c o a = IGo s' t out -> keep (negb (is_recv o)) (negb (is_conn o)) s s'.
Proof.
  intros V H. assert (Same : forall pk rm, keep pk rm s s) by (intros; apply keep_h; done).
  assert (Sf : forall pk rm f, keep pk rm s (set_fds f s)) by (intros; apply keep_h; done). destruct o; cbn [is_recv is_conn negb]; cbn [step] in H.
  - unfold socket_call in H. destruct (next_fd s c) as [fd|]; injection H as <- _ _; [|apply Same]. eapply (keep_new _ _ s); [reflexivity|reflexivity|left; reflexivity|right; reflexivity].
  - exact (bind_keep _ _ _ _ _ _ _ _ _ _ _ H).
  - exact (connect_keep _ _ _ _ _ _ _ _ _ _ H).
  - exact (listen_keep _ _ _ _ _ _ _ _ _ _ _ H).
  - exact (accept_keep _ _ _ _ _ _ _ _ _ _ H).
  - exact (send_keep _ _ _ _ _ _ _ _ _ _ _ H).
  - unfold sendto_call in H. destruct (no_dest x); [exact (send_keep _ _ _ _ _ _ _ _ _ _ _ H)|].
    apply on_sock_go in H as [[-> ->]|(i & fl & raw & h & Hd & Hi & H)]; [apply Same|]. exact (sendto_keep _ _ _ _ _ _ _ _ _ _ _ _ Hi H).
  - unfold writev_call in H. apply on_sock_go in H as [[-> ->]|(i & fl & raw & h & Hd & Hi & H)]; [apply Same|]. destruct (h_tcp h); [apply send_tcp_same in H as ->|injection H as <- _ _]; apply Same.
  - unfold recv_call in H. apply on_sock_go in H as [[-> ->]|(i & fl & raw & h & Hd & Hi & H)]; [apply Same|]. destruct (h_tcp h); [exact (recv_tcp_keep _ _ _ _ _ _ _ _ _ _ _ Hi H)|exact (recv_udp_keep _ _ _ _ _ _ _ _ _ _ _ _ _ Hi H)].
  - exact (shut_keep _ _ _ _ _ _ _ _ _ _ _ H).
  - unfold close_call in H. destruct (negb _); [discriminate H|]. destruct (i_fds s !! (c, fd)); [|injection H as <- _ _; apply Same].
    destruct (drop_fd _ _ _ _) as [[s1 tr]|] eqn:E; [|discriminate H]. injection H as <- _ _. exact (drop_fd_keep _ _ _ _ _ _ _ _ E).
  - unfold dup_call in H. destruct (_ =? 0); [injection H as <- _ _; apply Same|]. destruct (negb _); [injection H as <- _ _; apply Same|].
    destruct (i_fds s !! (c, fd)); [|injection H as <- _ _; apply Same]. destruct (next_fd s c); injection H as <- _ _; [apply Sf|apply Same].
  - unfold dup2_call in H. destruct (negb _); [injection H as <- _ _; apply Same|]. destruct (_ =? _); [injection H as <- _ _; apply Same|].
    destruct (negb _); [injection H as <- _ _; apply Same|]. destruct (i_fds s !! (c, fd)) as [d|]; [|injection H as <- _ _; apply Same].
    destruct (i_fds s !! (c, fd2)) as [[j fl raw|]|]; [|injection H as <- _ _; apply Sf|injection H as <- _ _; apply Sf].
    destruct (drop_hdl _ _ _) as [[s2 tr]|] eqn:E; [|discriminate H]. injection H as <- _ _. refine (drop_hdl_keep _ _ _ _ _ _ _ _ _ E). reflexivity.
  - injection H as <- _ _. apply Sf.
  - unfold getpeername_call in H. destruct (negb _); [injection H as <- _ _; apply Same|]. apply on_sock_go in H as [[-> ->]|(i & fl & raw & h & Hd & Hi & H)]; [apply Same|].
    destruct (h_rem h); injection H as <- _ _; apply Same.
  - unfold getsockname_call in H. destruct (negb _); [injection H as <- _ _; apply Same|]. apply on_sock_go in H as [[-> ->]|(i & fl & raw & h & Hd & Hi & H)]; [apply Same|].
    injection H as <- _ _; apply Same.
  - unfold setopt_call in H. destruct (negb _); [injection H as <- _ _; apply Same|]. apply on_sock_go in H as [[-> ->]|(i & fl & raw & h & Hd & Hi & H)]; [apply Same|].
    assert (X : forall n pk rm, keep pk rm s (put_h i (with_opts n h) s)) by (intros n pk rm; apply (keep_put _ _ s (put_h i (with_opts n h) s) i h (with_opts n h) Hi eq_refl); repeat split; left; reflexivity).
    destruct (negb _); [injection H as <- _ _; apply Same|]. cbv zeta in H. match type of H with match ?x with _ => _ end = _ => destruct x as [k|] end; [|injection H as <- _ _; apply X].
    destruct (_ =? 0); [injection H as <- _ _; apply X|]. apply kfail_go in H as (-> & _). apply Same.
  - unfold getfl_call in H. apply on_sock_go in H as [[-> ->]|(i & fl & raw & h & Hd & Hi & H)]; [apply Same|]. injection H as <- _ _; apply Same.
  - unfold setfl_call in H. apply on_sock_go in H as [[-> ->]|(i & fl & raw & h & Hd & Hi & H)]; [apply Same|]. destruct (_ <? 0); [injection H as <- _ _; apply Same|].
    destruct (h_in h); [|injection H as <- _ _; apply Sf]. destruct (_ =? 0); [injection H as <- _ _; apply Sf|]. apply kfail_go in H as (-> & _). apply Same.
  - unfold fionbio_call in H. apply on_sock_go in H as [[-> ->]|(i & fl & raw & h & Hd & Hi & H)]; [apply Same|]. 
    destruct (h_in h); [|injection H as <- _ _; apply Sf]. destruct (a_mode a =? 0); [injection H as <- _ _; apply Sf|]. apply kfail_go in H as (-> & _). apply Sf.
  - unfold select_read_call in H. destruct (sel_read s c fds) as [[l|]|]; [|injection H as <- _ _; apply Same|discriminate H]. destruct (bool_decide _); injection H as <- _ _; apply Same.
  - apply sel_write_move in H as [-> _]; [|exact V]. apply Same.
Qed.
