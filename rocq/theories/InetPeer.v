(** Peers of INET sockets *)
From Verif Require Import Base PortModel PortSpec PortProofs ErrnoModel InetModel InetSpec InetInv InetStep InetConn InetName InetPort InetPort2.
Local Open Scope list_scope.
Local Open Scope Z_scope.

Opaque fd_list next_fd reserve release from_discriminant.

(** ** A second connect *)
Lemma connect_again devs evs s c fd x a s' t out i k : history devs evs s -> sock_of s c fd = Some i -> owns s i k -> established (calls evs) k -> ~ shut_by evs i ->
  step devs s c (Connect fd x) a = IGo s' t out -> s' = s /\ t = [] /\ (out = IRet (err EISCONN) \/ out = IRet (err EINVAL)).
Proof.
  intros H Hs (h & Hi & Hk) He Hn E. destruct (history_inv _ _ _ H) as [V _]. destruct (history_jinv _ _ _ H i h Hi) as (_ & _ & _ & D).
  destruct (D k Hk He) as [Hst|]; [|done]. cbn [step] in E. unfold connect_call in E. apply (on_sock_at _ _ _ _ _ _ _ _ _ Hs Hi) in E as (fl & raw & Hd & E).
  destruct (negb _); [injection E as <- <- <-; auto|]. destruct (h_tcp h) eqn:Et.
  - unfold connect_tcp in E. rewrite Hst in E. rewrite bool_decide_eq_false_2 in E by discriminate. injection E as <- <- <-. auto.
  - destruct (v_h s V i h Hi) as (_ & _ & O3). destruct (O3 Et) as [?|[?|?]]; congruence.
Qed.

(** ** The peer of a connected stream *)
Definition linked (s : ist) (i : Z) (x : iaddr) : Prop :=
  i < i_nh s /\ forall h, i_h s !! i = Some h -> h_tcp h = true /\ (h_st h = Conn \/ h_st h = InProg) /\ h_rem h = Some x.
Lemma hat_linked nk h t nk1 h1 x : hat nk h t nk1 h1 -> h_tcp h = true /\ (h_st h = Conn \/ h_st h = InProg) /\ h_rem h = Some x ->
  h_tcp h1 = true /\ (h_st h1 = Conn \/ h_st h1 = InProg) /\ h_rem h1 = Some x.
Proof.
  destruct 1; intros (A & B & C); try (split; [exact A|split; [exact B|exact C]]); try (exfalso; destruct B; congruence).
  destruct ok; (split; [exact A|split; [auto|exact C]]).
Qed.
Lemma hats_linked nk h t nk1 h1 x : hats nk h t nk1 h1 -> h_tcp h = true /\ (h_st h = Conn \/ h_st h = InProg) /\ h_rem h = Some x ->
  h_tcp h1 = true /\ (h_st h1 = Conn \/ h_st h1 = InProg) /\ h_rem h1 = Some x.
Proof. induction 1 as [|nk h t nk1 h1 t' nk2 h2 Ha _ IH]; [exact id|]. intros A. exact (IH (hat_linked _ _ _ _ _ _ Ha A)). Qed.
Lemma move_linked sh s t s' i x : iinv s -> (forall ok, sh <> Some (i, ok)) -> move sh s t s' -> linked s i x -> linked s' i x.
Proof.
  intros V Hsh M [Hi N]. split; [pose proof (move_nh _ _ _ _ M); lia|]. intros h' Hh'.
  destruct (move_sock _ _ _ _ _ _ V M Hh') as [g Hg Ka|Hg Hp|v6 tcp nb fl Hg _ _|i0 l k0 y p nb fl Hg Hl Hk Htl Et Eg].
  - destruct Ka as [Ka|(_ & ok & E & _)]; [|destruct (Hsh ok E)]. exact (hats_linked _ _ _ _ _ _ Ka (N g Hg)).
  - exact (N h' Hg).
  - pose proof (move_gone _ _ _ _ i V M Hi Hg). congruence.
  - pose proof (move_gone _ _ _ _ i V M Hi Hg). congruence.
Qed.
Lemma later_linked devs ev1 s1 i x : history devs ev1 s1 -> linked s1 i x -> forall ev2 s, history devs (ev1 ++ ev2) s -> (forall e, e ∈ ev2 -> ~ shut_call e i) -> linked s i x.
Proof.
  intros H1 L1. refine (after devs (fun _ s => linked s i x) (fun e => ~ shut_call e i) ev1 s1 H1 L1 _).
  intros evs s c o a s' t out H0 Hv0 E0 Hok L. destruct (history_inv _ _ _ H0) as [V0 _].
  assert (Sh : forall ok, shuts s c o out <> Some (i, ok)) by (apply shuts_none; intros fd0 how -> Hx; apply Hok; exists fd0, how; auto).
  destruct (step_moves _ _ _ _ _ _ _ _ V0 Hv0 E0) as [M|(t1 & s2 & t2 & -> & M1 & M2 & _)]; [exact (move_linked _ _ _ _ _ _ V0 Sh M L)|].
  apply (move_linked None s2 t2); [exact (move_inv _ _ _ _ V0 M1)|discriminate|exact M2|]. exact (move_linked _ _ _ _ _ _ V0 Sh M1 L).
Qed.
Lemma sock_h s c fd i : iinv s -> sock_of s c fd = Some i -> exists h, i_h s !! i = Some h /\ i < i_nh s.
Proof.
  intros V Hs. unfold sock_of in Hs. destruct (i_fds s !! (c, fd)) as [[j fl raw|]|] eqn:Ed; [|discriminate Hs|discriminate Hs]. injection Hs as ->.
  destruct (v_fd s V _ _ _ _ Ed) as (h & Hh & _). exists h. split; [exact Hh|exact (v_nh s V _ _ Hh)].
Qed.
Lemma connect_linked devs s c fd x a s' t out i h : iinv s -> next_ok (i_ports s) -> sock_of s c fd = Some i -> i_h s !! i = Some h -> h_tcp h = true ->
  step devs s c (Connect fd x) a = IGo s' t out -> out = IRet 0 \/ (exists k, KConnect k x EINPROGRESS ∈ t) -> linked s' i x.
Proof.
  intros V Nx Hs Hi Et E Hr. pose proof (v_nh s V _ _ Hi) as Hn. cbn [step] in E. unfold connect_call in E. apply (on_sock_at _ _ _ _ _ _ _ _ _ Hs Hi) in E as (fl & raw & Hd & E).
  assert (K : forall s1 h1 k tr, i_nh s1 = i_nh s -> h_tcp h1 = true -> all binding tr -> connect_kernel s1 c fd i fl h1 k tr x a = IGo s' t out -> linked s' i x).
  { intros s1 h1 k tr En Et1 Hb E1. unfold connect_kernel in E1. destruct (Z.eqb_spec (a_conn a) 0).
    - injection E1 as <- _ _. split; [cbn; lia|]. cbn. intros g Hg. rewrite lookup_insert in Hg. injection Hg as <-. auto.
    - destruct (Z.eqb_spec (a_conn a) EINPROGRESS).
      + injection E1 as <- _ _. split; [cbn; lia|]. cbn. intros g Hg. rewrite lookup_insert in Hg. injection Hg as <-. auto.
      + apply kfail_go in E1 as (_ & -> & r' & -> & Ee). exfalso. destruct Hr as [[= ->]|(k1 & Hk)]; [apply kerr_neg in Ee; lia|].
        apply elem_of_app in Hk as [Hk|Hk]; [discriminate (Hb _ Hk)|]. apply elem_of_list_singleton in Hk. congruence. }
  assert (NO : forall tr r, all binding tr -> r < 0 -> t = tr -> out = IRet r -> linked s' i x).
  { intros tr r Hb Hlt -> ->. destruct Hr as [[= ->]|(k1 & Hk)]; [lia|discriminate (Hb _ Hk)]. }
  destruct (negb _); [injection E as _ <- <-; exact (NO [] _ (all_nil _) (eq_refl : err EINVAL < 0) eq_refl eq_refl)|]. rewrite Et in E. unfold connect_tcp in E.
  destruct (negb _); [injection E as _ <- <-; exact (NO [] _ (all_nil _) (eq_refl : err EISCONN < 0) eq_refl eq_refl)|]. destruct (h_loc h).
  - destruct (h_in h); [|discriminate E]. exact (K _ _ _ _ eq_refl Et (all_nil _) E).
  - destruct (force_inner s h a) as [[[[s0 h0] k] t0]|] eqn:Ef; [|discriminate E]. pose proof (force_all _ _ _ _ _ _ _ Ef) as Hb.
    assert (X : i_nh s0 = i_nh s /\ h_tcp h0 = h_tcp h). { unfold force_inner in Ef. destruct (h_in h); [injection Ef as <- <- _ _; auto|]. destruct (_ && _); [discriminate Ef|]. injection Ef as <- <- _ _. auto. }
    destruct X as [X1 X2]. unfold assign in E. destruct (reserve _ _ _ _ _ _) as [p q]. destruct (Z.ltb_spec q 0).
    + injection E as _ <- <-. exact (NO _ _ Hb H eq_refl eq_refl).
    + assert (Hb2 : all binding (t0 ++ [KBind k (IAddr (h_v6 h0) (any_addr (h_v6 h0)) q) (a_bind a)])) by (apply all_app; [exact Hb|apply all_one; reflexivity]).
      destruct (a_bind a =? 0); [exact (K (set_ports p s0) _ _ _ X1 (eq_trans X2 Et) Hb2 E)|].
      apply kfail_go in E as (_ & -> & r' & -> & Ee). exact (NO _ _ Hb2 (kerr_neg _ _ Ee) eq_refl eq_refl).
Qed.
Lemma connect_peer devs ev1 e ev2 s fd x i h : history devs (ev1 ++ e :: ev2) s -> e_op e = Connect fd x -> sock_of (e_pre e) (e_cage e) fd = Some i ->
  i_h (e_pre e) !! i = Some h -> h_tcp h = true -> e_out e = IRet 0 \/ (exists k, KConnect k x EINPROGRESS ∈ e_tr e) -> (forall e', e' ∈ ev2 -> ~ shut_call e' i) -> linked s i x.
Proof.
  intros H Eo Hs Hi Et Hr Hn. destruct (history_at _ _ _ _ _ H) as (s1 & H0 & Hv & E & H1). rewrite Eo in E. destruct (history_inv _ _ _ H0) as [V _].
  pose proof (connect_linked _ _ _ _ _ _ _ _ _ _ _ V (history_next _ _ _ H0) Hs Hi Et E Hr) as L.
  rewrite cons_middle, app_assoc in H. exact (later_linked _ _ _ _ _ H1 L _ _ H Hn).
Qed.
(** ** accepted sockets *)
Lemma accept_linked devs s c fd a s' t nfd x : iinv s -> step devs s c (Accept fd) a = IGo s' t (IAccepted nfd x) -> exists i, sock_of s' c nfd = Some i /\ sock_of s c nfd = None /\ i = i_nh s /\ linked s' i x.
Proof.
  intros V E. cbn [step] in E. unfold accept_call in E. destruct (negb _); [discriminate E|]. destruct (i_fds s !! (c, fd)) as [d|] eqn:Ed; [|discriminate E].
  destruct (next_fd s c) as [k|] eqn:En; [|discriminate E]. destruct d as [i fl raw|]; [|discriminate E]. destruct (i_h s !! i) as [h|]; [|discriminate E].
  destruct (negb _); [discriminate E|]. destruct (negb _); [discriminate E|]. destruct (h_loc h) as [l|]; [|discriminate E]. destruct (h_in h) as [k0|]; [|discriminate E].
  destruct (negb _); [discriminate E|]. destruct (a_acc a) as [peer|e].
  - destruct (reserve _ _ _ _ _ _) as [p r]. destruct (r <? 0); [discriminate E|]. injection E as <- _ <- <-. exists (i_nh s). 
    split; [unfold sock_of; cbn; rewrite lookup_insert; reflexivity|]. split; [unfold sock_of; rewrite (next_free _ _ _ En); reflexivity|]. split; [reflexivity|].
    split; [cbn; lia|]. cbn. intros g Hg. rewrite lookup_insert in Hg. injection Hg as <-. auto.
  - destruct (_ && _); [discriminate E|]. apply kfail_go in E as (_ & _ & r' & Eo & _). discriminate Eo.
Qed.
Lemma accept_peer devs ev1 e ev2 s fd nfd x : history devs (ev1 ++ e :: ev2) s -> e_op e = Accept fd -> e_out e = IAccepted nfd x ->
  exists s1 i, history devs (ev1 ++ [e]) s1 /\ sock_of s1 (e_cage e) nfd = Some i /\ i_h (e_pre e) !! i = None /\ ((forall e', e' ∈ ev2 -> ~ shut_call e' i) -> linked s i x).
Proof.
  intros H Eo Eout. destruct (history_at _ _ _ _ _ H) as (s1 & H0 & Hv & E & H1). rewrite Eo, Eout in E. destruct (history_inv _ _ _ H0) as [V _].
  destruct (accept_linked _ _ _ _ _ _ _ _ _ V E) as (i & A & _ & B & L). exists s1, i. split; [exact H1|]. split; [exact A|]. split.
  - subst i. destruct (i_h (e_pre e) !! i_nh (e_pre e)) as [h|] eqn:Eh; [|reflexivity]. pose proof (v_nh _ V _ _ Eh). lia.
  - intros Hn. rewrite cons_middle, app_assoc in H. exact (later_linked _ _ _ _ _ H1 L _ _ H Hn).
Qed.

(** ** What the name calls answer *)
Lemma getsockname_ans devs s c fd a s' t out i h : sock_of s c fd = Some i -> i_h s !! i = Some h -> step devs s c (Getsockname fd) a = IGo s' t out -> in_range fd = true ->
  out = IName (match h_loc h with Some y => y | None => zero_addr (h_v6 h) end).
Proof.
  intros Hs Hi E Hf. cbn [step] in E. unfold getsockname_call in E. rewrite Hf in E. cbn [negb] in E. apply (on_sock_at _ _ _ _ _ _ _ _ _ Hs Hi) in E as (fl & raw & Hd & E).
  injection E as _ _ <-. destruct (h_loc h); reflexivity.
Qed.
Lemma getpeername_ans devs s c fd a s' t out i h : sock_of s c fd = Some i -> i_h s !! i = Some h -> step devs s c (Getpeername fd) a = IGo s' t out -> in_range fd = true ->
  out = match h_rem h with Some y => IName y | None => IRet (err ENOTCONN) end.
Proof.
  intros Hs Hi E Hf. cbn [step] in E. unfold getpeername_call in E. rewrite Hf in E. cbn [negb] in E. apply (on_sock_at _ _ _ _ _ _ _ _ _ Hs Hi) in E as (fl & raw & Hd & E).
  destruct (h_rem h); injection E as _ _ <-; reflexivity.
Qed.

(** ** The forms stated as properties *)
Lemma event_may devs ev1 e ev2 s x : history devs (ev1 ++ e :: ev2) s -> x ∈ e_tr e -> may (e_op e) x = true.
Proof.
  intros H Hx. destruct (history_at _ _ _ _ _ H) as (s1 & H0 & Hv & E & H1). destruct (history_inv _ _ _ H0) as [V _]. exact (step_may _ _ _ _ _ _ _ _ V E x Hx).
Qed.
Lemma range_ok fd : 0 <= fd < MAXFD -> in_range fd = true.
Proof. intros [A B]. unfold in_range. rewrite andb_true_iff, Z.leb_le, Z.ltb_lt. auto. Qed.
Lemma bound_name devs ev1 e ev2 s fd x i : history devs (ev1 ++ e :: ev2) s -> e_op e = Bind fd x -> e_out e = IRet 0 ->
  sock_of (e_pre e) (e_cage e) fd = Some i -> (forall e', e' ∈ ev2 -> ~ shut_call e' i) ->
  exists y, ia_v6 y = ia_v6 x /\ ia_a y = ia_a x /\ (ia_port x <> 0 -> ia_port y = ia_port x) /\ (ia_port x = 0 -> ephemeral (ia_port y)) /\
    forall c fd' k a s' t out, sock_of s c fd' = Some i -> owns s i k -> 0 <= fd' < MAXFD -> step devs s c (Getsockname fd') a = IGo s' t out ->
      out = IName y /\ kname (calls (ev1 ++ e :: ev2)) k None = Some y.
Proof.
  intros H Eo Er Hs Hn. destruct (bind_name _ _ _ _ _ _ _ _ H Eo Er Hs Hn) as (k & y & [_ N] & _ & A & B & C & D). exists y. do 4 (split; [assumption|]).
  intros c fd' k' a s' t out Hs' (h & Hh & Hk) Hf E. destruct (N h Hh) as (N1 & N2 & N3). split; [|congruence].
  rewrite (getsockname_ans _ _ _ _ _ _ _ _ _ _ Hs' Hh E (range_ok _ Hf)), N2. reflexivity.
Qed.
Lemma linked_name devs s c fd a s' t out i x : iinv s -> linked s i x -> sock_of s c fd = Some i -> 0 <= fd < MAXFD -> step devs s c (Getpeername fd) a = IGo s' t out -> out = IName x.
Proof.
  intros V [_ L] Hs Hf E. destruct (sock_h _ _ _ _ V Hs) as (h & Hh & _). destruct (L h Hh) as (_ & _ & R). rewrite (getpeername_ans _ _ _ _ _ _ _ _ _ _ Hs Hh E (range_ok _ Hf)), R. reflexivity.
Qed.
Lemma connected_name devs ev1 e ev2 s fd x i : history devs (ev1 ++ e :: ev2) s -> e_op e = Connect fd x -> sock_of (e_pre e) (e_cage e) fd = Some i ->
  (exists h, i_h (e_pre e) !! i = Some h /\ h_tcp h = true) -> e_out e = IRet 0 \/ (exists k, KConnect k x EINPROGRESS ∈ e_tr e) -> (forall e', e' ∈ ev2 -> ~ shut_call e' i) ->
  forall c fd' a s' t out, sock_of s c fd' = Some i -> 0 <= fd' < MAXFD -> step devs s c (Getpeername fd') a = IGo s' t out -> out = IName x.
Proof.
  intros H Eo Hs (h & Hh & Et) Hr Hn c fd' a s' t out Hs' Hf E. destruct (history_inv _ _ _ H) as [V _].
  exact (linked_name _ _ _ _ _ _ _ _ _ _ V (connect_peer _ _ _ _ _ _ _ _ _ H Eo Hs Hh Et Hr Hn) Hs' Hf E).
Qed.
Lemma accepted_name devs ev1 e ev2 s fd nfd x : history devs (ev1 ++ e :: ev2) s -> e_op e = Accept fd -> e_out e = IAccepted nfd x ->
  exists s1 i, history devs (ev1 ++ [e]) s1 /\ sock_of s1 (e_cage e) nfd = Some i /\ i_h (e_pre e) !! i = None /\
    ((forall e', e' ∈ ev2 -> ~ shut_call e' i) -> forall c fd' a s' t out, sock_of s c fd' = Some i -> 0 <= fd' < MAXFD ->
       step devs s c (Getpeername fd') a = IGo s' t out -> out = IName x).
Proof.
  intros H Eo Er. destruct (accept_peer _ _ _ _ _ _ _ _ H Eo Er) as (s1 & i & A & B & C & D). exists s1, i. do 3 (split; [assumption|]).
  intros Hn c fd' a s' t out Hs' Hf E. destruct (history_inv _ _ _ H) as [V _]. exact (linked_name _ _ _ _ _ _ _ _ _ _ V (D Hn) Hs' Hf E).
Qed.
