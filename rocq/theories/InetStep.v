(** Every call of the INET socket model is one or two moves *)
From Verif Require Import Base PortModel PortSpec ErrnoModel InetModel InetSpec InetInv.
Local Open Scope list_scope.
Local Open Scope Z_scope.

Opaque fd_list next_fd reserve release from_discriminant.

(** the socket a call shuts down, and whether that works *)
Definition shuts (s : ist) (c : Z) (o : iop) (out : iout) : option (Z * bool) :=
  match o with
  | Shutdown fd _ => match sock_of s c fd with Some i => Some (i, bool_decide (out = IRet 0)) | None => None end
  | _ => None
  end.
Definition moves (sh : option (Z * bool)) (s : ist) (t : list kcall) (s' : ist) : Prop :=
  move sh s t s' \/ exists t1 s1 t2, t = t1 ++ t2 /\ move sh s t1 s1 /\ move None s1 t2 s' /\
    (t1 = [] \/ exists k how, t1 = [KShut k how 0]) /\ (t2 = [] \/ exists k, t2 = [KClose k]).

Lemma moves_inv sh s t s' : iinv s -> moves sh s t s' -> iinv s'.
Proof. intros H [M|(t1 & s1 & t2 & -> & M1 & M2 & _)]; [exact (move_inv _ _ _ _ H M)|]. exact (move_inv _ _ _ _ (move_inv _ _ _ _ H M1) M2). Qed.
Lemma moves_trace sh tr s t s' : iinv s -> tinv tr s -> moves sh s t s' -> tinv (tr ++ t) s'.
Proof.
  intros H T [M|(t1 & s1 & t2 & -> & M1 & M2 & _)]; [exact (move_trace _ _ _ _ _ H T M)|]. rewrite app_assoc.
  exact (move_trace _ _ _ _ _ (move_inv _ _ _ _ H M1) (move_trace _ _ _ _ _ H T M1) M2).
Qed.

Lemma mv_none sh s : move sh s [] s.
Proof. apply mv_look; try reflexivity. intros e He. inversion He. Qed.

Lemma mv_prog sh s i h s1 h1 t h2 t2 s' : prog s h s1 h1 t -> i_h s !! i = Some h -> hats (i_nk s1) h1 t2 (i_nk s1) h2 ->
  i_h s' = <[i := h2]> (i_h s1) -> i_nh s' = i_nh s1 -> i_nk s' = i_nk s1 -> i_pend s1 ⊆ i_pend s' -> fds_touch i h2 (i_fds s1) (i_fds s') ->
  move sh s (t ++ t2) s'.
Proof.
  intros (A1 & A2 & A3 & A4 & A5 & A6) Hi Ht B1 B2 B3 B4 B5.
  apply (mv_touch sh s i h h2); [exact Hi|congruence|congruence|rewrite <- A1; exact B5|rewrite <- A4; exact B4|]. left.
  eapply hats_app; [exact A5|]. rewrite B3. exact Ht.
Qed.
(** the same without a further step *)
Lemma mv_prog0 sh s i h s1 h1 t : prog s h s1 h1 t -> i_h s !! i = Some h -> move sh s t (put_h i h1 s1).
Proof. intros P Hi. rewrite <- (app_nil_r t). eapply mv_prog; [exact P|exact Hi|constructor|done..|left; done]. Qed.
(** on an unchanged state *)
Lemma mv_hats sh s i h h2 t : i_h s !! i = Some h -> hats (i_nk s) h t (i_nk s) h2 -> move sh s t (put_h i h2 s).
Proof. intros Hi Ht. change t with ([] ++ t). apply (mv_prog sh s i h s h [] h2 t); [apply prog_refl|exact Hi|exact Ht|done..|left; done]. Qed.
Lemma put_same s i h : i_h s !! i = Some h -> put_h i h s = s.
Proof. intros H. unfold put_h, set_h. rewrite insert_id by exact H. destruct s; done. Qed.
Lemma mv_use sh s i h e : i_h s !! i = Some h -> hat (i_nk s) h [e] (i_nk s) h -> move sh s [e] s.
Proof. intros Hi Ht. rewrite <- (put_same s i h Hi) at 2. apply (mv_hats sh s i h h); [exact Hi|apply hats_one; exact Ht]. Qed.
Lemma touch_fd s0 s i h' p fl raw fl' raw' m : i_fds s0 !! p = Some (ISock i fl raw) -> i_fds s = i_fds s0 ->
  m = <[p := ISock i fl' raw']> (i_fds s) -> (raw' = raw \/ h_in h' = Some raw') -> fds_touch i h' (i_fds s) m.
Proof. intros H E -> R. right. exists p, fl, raw, fl', raw'. rewrite E. auto. Qed.
Lemma no_events {A} (P : A -> Prop) : forall e, e ∈ ([] : list A) -> P e.
Proof. intros e He. inversion He. Qed.
Lemma one_event {A} (x : A) (P : A -> Prop) : P x -> forall e, e ∈ [x] -> P e.
Proof. intros H e He. apply elem_of_list_singleton in He as ->. exact H. Qed.
Lemma bracket_hats nk nb h k e0 : h_in h = Some k -> hat nk h [e0] nk h -> hats nk h (bracket nb k [e0]) nk h.
Proof.
  intros Hk H. destruct nb; [|apply hats_one; exact H]. cbn [bracket app]. change [KMode k true; e0; KMode k false] with ([KMode k true] ++ [e0] ++ [KMode k false]).
  eapply hats_cons; [apply at_mode; exact Hk|]. eapply hats_cons; [exact H|]. apply hats_one, at_mode. exact Hk.
Qed.

Lemma on_sock_go s c fd f s' t out : on_sock s c fd f = IGo s' t out ->
  (s' = s /\ t = []) \/ exists i fl raw h, i_fds s !! (c, fd) = Some (ISock i fl raw) /\ i_h s !! i = Some h /\ f i fl raw h = IGo s' t out.
Proof.
  unfold on_sock. destruct (negb _); [discriminate|]. destruct (i_fds s !! (c, fd)) as [[i fl raw|]|] eqn:E.
  - destruct (i_h s !! i) as [h|] eqn:Eh; [|discriminate]. intros H. right. exists i, fl, raw, h. auto.
  - intros [= <- <- _]. auto.
  - intros [= <- <- _]. auto.
Qed.
Lemma kfail_go s t e s' t' out : kfail s t e = IGo s' t' out -> s' = s /\ t' = t /\ exists r, out = IRet r /\ kerr e = Some r.
Proof. unfold kfail. destruct (kerr e) as [r|]; [|discriminate]. intros [= <- <- <-]. eauto. Qed.

Ltac sock H := apply on_sock_go in H as [[-> ->]|(i & fl & raw & h & Hd & Hi & H)]; [left; apply mv_none|].
Ltac kf H := apply kfail_go in H as (-> & -> & _).

Lemma next_free s c k : next_fd s c = Some k -> i_fds s !! (c, k) = None.
Proof. Transparent next_fd. unfold next_fd. intros H. apply find_some in H as [_ H]. exact (bool_decide_eq_true_1 _ H). Qed.
Opaque next_fd.

Lemma bind_moves sh devs s c fd x a s' t out : bind_call devs s c fd x a = IGo s' t out -> moves sh s t s'.
Proof.
  intros H. unfold bind_call in H. sock H. destruct (bind_inner devs s h x false a) as [[[[s1 h1] tr] r]|] eqn:E; [|discriminate H].
  injection H as <- <- <-. destruct (bind_inner_spec _ _ _ _ _ _ _ _ _ _ E) as (P & _). left. exact (mv_prog0 _ _ _ _ _ _ _ P Hi).
Qed.

Lemma connect_kernel_move sh s0 h0 s c fd i fl raw h k tr x a s' t out : i_h s0 !! i = Some h0 -> i_fds s0 !! (c, fd) = Some (ISock i fl raw) ->
  prog s0 h0 s h tr -> h_in h = Some k -> h_tcp h0 = true -> h_st h0 = NotConn -> connect_kernel s c fd i fl h k tr x a = IGo s' t out -> move sh s0 t s'.
Proof.
  intros Hi Hd P Hk Ht Hst H. unfold connect_kernel in H. assert (T : h_tcp h = true /\ h_st h = NotConn). { destruct P as (_ & _ & _ & _ & _ & (_ & F & _ & F2 & _)). split; congruence. }
  destruct T as [T T2].
  assert (K : forall st, hat (i_nk s) h [KConnect k x (a_conn a)] (i_nk s) (with_rem (Some x) (with_st st h)) ->
     move sh s0 (tr ++ [KConnect k x (a_conn a)]) (put_fd c fd (ISock i fl k) (put_h i (with_rem (Some x) (with_st st h)) s))).
  { intros st Ha. eapply (mv_prog sh s0 i h0 s h tr (with_rem (Some x) (with_st st h)) [KConnect k x (a_conn a)]); [exact P|exact Hi|apply hats_one; exact Ha|done..|].
    apply (touch_fd s0 s i _ (c, fd) fl raw fl k _ Hd); [apply P|reflexivity|right; exact Hk]. }
  destruct (Z.eqb_spec (a_conn a) 0) as [E0|E0]; [injection H as <- <- <-; apply K; rewrite E0; apply at_conn; assumption|].
  destruct (Z.eqb_spec (a_conn a) EINPROGRESS) as [E1|E1]; [injection H as <- <- <-; apply K; rewrite E1; apply at_prog; assumption|].
  kf H. eapply (mv_prog sh s0 i h0 s h tr h [KConnect k x (a_conn a)]); [exact P|exact Hi| |done..|left; done]. apply hats_one, at_refused; assumption.
Qed.

Lemma assign_prog devs s h s1 h1 t s2 y : prog s h s1 h1 t -> assign devs s1 h1 = (s2, y) -> prog s h s2 h1 t.
Proof.
  intros P E. destruct (assign_spec _ _ _ _ _ E) as (A1 & A2 & A3 & A4 & A5 & _). unfold prog in *. rewrite A1, A2, A3, A4, A5. exact P.
Qed.

Lemma connect_moves sh devs s c fd x a s' t out : connect_call devs s c fd x a = IGo s' t out -> moves sh s t s'.
Proof.
  intros H. unfold connect_call in H. sock H. destruct (negb _); [injection H as <- <- <-; left; apply mv_none|]. destruct (h_tcp h) eqn:Et.
  - unfold connect_tcp in H. destruct (bool_decide (h_st h = NotConn)) eqn:Ec; cbn [negb] in H; [|injection H as <- <- <-; left; apply mv_none].
    apply bool_decide_eq_true_1 in Ec. destruct (h_loc h) as [l|] eqn:El.
    + destruct (h_in h) as [k|] eqn:Ek; [|discriminate H]. left.
      exact (connect_kernel_move sh s h s c fd i fl raw h k [] x a s' t out Hi Hd (prog_refl s h) Ek Et Ec H).
    + destruct (force_inner s h a) as [[[[s1 h1] k] t1]|] eqn:Ef; [|discriminate H]. destruct (force_spec _ _ _ _ _ _ _ Ef) as (P & E1 & _).
      destruct (assign devs s1 h1) as [s2 [y|e]] eqn:Ea; pose proof (assign_prog _ _ _ _ _ _ _ _ P Ea) as P2.
      * destruct (Z.eqb_spec (a_bind a) 0) as [Eb|Eb].
        -- rewrite Eb in H. assert (P3 : prog s h s2 h1 (t1 ++ [KBind k y 0])).
           { eapply prog_step; [exact P2|done..|apply hframe_refl|]. subst h1. apply hats_one, at_lost; done. }
           left. refine (connect_kernel_move sh s h s2 c fd i fl raw h1 k _ x a s' t out Hi Hd P3 _ Et Ec H). subst. done.
        -- kf H. left.
           eapply (mv_prog sh s i h s2 h1 _ (with_loc (Some y) h1) [KBind k y (a_bind a)]); [exact P2|exact Hi| |done..|left; done].
           subst h1. apply hats_one, at_bind; done.
      * injection H as <- <- <-. left. exact (mv_prog0 _ _ _ _ _ _ _ P2 Hi).
  - unfold connect_udp in H. change (h_loc (with_rem (Some x) h)) with (h_loc h) in H. destruct (h_loc h) as [l|] eqn:El.
    + injection H as <- <- <-. left. apply (mv_hats sh s i h); [exact Hi|]. apply hats_one, at_rem. exact Et.
    + assert (P0 : forall s2 h2 tr, prog s (with_rem (Some x) h) s2 h2 tr -> hats (i_nk s) h tr (i_nk s2) h2).
      { intros s2 h2 tr (_ & _ & _ & _ & A5 & _). change tr with ([] ++ tr). eapply hats_cons; [apply at_rem; exact Et|exact A5]. }
      destruct (assign devs s (with_rem (Some x) h)) as [s1 [y|e]] eqn:Ea; destruct (assign_spec _ _ _ _ _ Ea) as (A1 & A2 & A3 & A4 & A5 & _).
      * destruct (bind_inner devs s1 _ y true a) as [[[[s2 h2] tr] r]|] eqn:Eb; [|discriminate H]. destruct (bind_inner_spec _ _ _ _ _ _ _ _ _ _ Eb) as (P & _).
        apply (prog_pre s) in P; [|assumption..]. destruct (h_in h2) as [k|] eqn:Ek; [|discriminate H]. injection H as <- <- <-. left.
        pose proof (P0 _ _ _ P) as Hh. destruct P as (F1 & F2 & F3 & F4 & _).
        apply (mv_touch sh s i h h2); [exact Hi|cbn; congruence|exact F3| |cbn; rewrite F4; done|left; exact Hh].
        cbn. rewrite F1. apply (touch_fd s s i _ (c, fd) fl raw fl k _ Hd); [done|reflexivity|right; exact Ek].
      * injection H as <- <- <-. left. assert (P : prog s (with_rem (Some x) h) s1 (with_rem (Some x) h) []) by (apply (prog_pre s _ s1); [done..|apply prog_refl]).
        apply (mv_touch sh s i h (with_rem (Some x) h)); [exact Hi|cbn; congruence|exact A3|left; exact A1|cbn; rewrite A4; done|left; exact (P0 _ _ _ P)].
Qed.

Lemma listen_moves sh devs s c fd n a s' t out : listen_call devs s c fd n a = IGo s' t out -> moves sh s t s'.
Proof.
  intros H. unfold listen_call in H. sock H. destruct (h_st h) eqn:Est; try (injection H as <- <- <-; left; apply mv_none).
  destruct (h_tcp h) eqn:Et; cbn [negb] in H; [|injection H as <- <- <-; left; apply mv_none].
  destruct (implicit_bind devs s h (h_v6 h) a) as [[[[s1 h1] t1] r]|] eqn:Ei; [|discriminate H]. destruct (implicit_spec _ _ _ _ _ _ _ _ _ Ei) as (P & _ & _ & Hl).
  assert (F : h_tcp h1 = true /\ h_st h1 = NotConn). { destruct P as (_ & _ & _ & _ & _ & (_ & F & _ & F2 & _)). split; congruence. } destruct F as [F F2].
  destruct (r <? 0).
  - kf H. left. exact (mv_prog0 _ _ _ _ _ _ _ P Hi).
  - destruct (h_in h1) as [k|] eqn:Ek; [|discriminate H]. destruct (h_loc h1) as [l|] eqn:El; [|discriminate H]. left. destruct (Z.eqb_spec (a_listen a) 0) as [E0|E0].
    + injection H as <- <- <-. rewrite E0. eapply (mv_prog sh s i h s1 h1 t1 (with_st Listening h1)); [exact P|exact Hi| |done..| |].
      * apply hats_one, at_listen; congruence.
      * intros y Hy. right. exact Hy.
      * apply (touch_fd s s1 i _ (c, fd) fl raw fl k _ Hd); [apply P|reflexivity|right; exact Ek].
    + kf H. eapply (mv_prog sh s i h s1 h1 t1 h1); [exact P|exact Hi| |done..|left; done]. apply hats_one, at_nolisten; assumption.
Qed.

Lemma accept_moves sh devs s c fd a s' t out : accept_call devs s c fd a = IGo s' t out -> moves sh s t s'.
Proof.
  unfold accept_call. intros H. left. destruct (negb (in_range fd)); [discriminate H|]. destruct (i_fds s !! (c, fd)) as [d|]; [|injection H as <- <- <-; apply mv_none].
  destruct (next_fd s c) as [nfd|] eqn:En; [|injection H as <- <- <-; apply mv_none]. destruct d as [i fl raw|]; [|injection H as <- <- <-; apply mv_none].
  destruct (i_h s !! i) as [h|] eqn:Hi; [|discriminate H]. destruct (h_tcp h) eqn:Et; cbn [negb] in H; [|injection H as <- <- <-; apply mv_none].
  destruct (bool_decide (h_st h = Listening)) eqn:Es; cbn [negb] in H; [|injection H as <- <- <-; apply mv_none]. apply bool_decide_eq_true_1 in Es.
  destruct (h_loc h) as [l|] eqn:El; [|discriminate H]. destruct (h_in h) as [k|] eqn:Ek; [|discriminate H]. destruct (negb _); [discriminate H|].
  destruct (a_acc a) as [peer|e] eqn:Ea.
  - destruct (reserve _ _ _ _ _ _) as [p r] eqn:Er. destruct (r <? 0); injection H as <- <- <-.
    + apply (mv_lost sh s i h k peer); [exact Hi|exact Ek|done..].
    + apply (mv_accept sh s c nfd (Hdl (h_v6 h) true (h_nb h) Conn (Some (i_nk s)) (Some (with_port r l)) (Some peer) (fl_of (nonblock fl) (hasbit fl O_CLOEXEC)) [])
        (fl_of (nonblock fl) (hasbit fl O_CLOEXEC)) i h k (with_port r l) peer); try reflexivity; [exact (next_free _ _ _ En)|exact Hi|exact Ek|exact Es|exact Et].
  - assert (K : move sh s (bracket (nonblock fl) k [KAccept k (inr e) (i_nk s)]) s).
    { rewrite <- (put_same s i h Hi) at 3. apply (mv_hats sh s i h h); [exact Hi|]. apply bracket_hats; [exact Ek|]. apply at_noaccept; assumption. }
    destruct (negb _ && _); [injection H as <- <- <-; exact K|]. kf H. exact K.
Qed.

Lemma send_tcp_moves sh s i h bs a s' t out : i_h s !! i = Some h -> h_tcp h = true -> send_tcp s h bs a = IGo s' t out -> moves sh s t s'.
Proof.
  intros Hi Et H. left. unfold send_tcp in H.
  destruct (h_st h) eqn:Es; try (injection H as <- <- <-; apply mv_none);
    (destruct (h_in h) as [k|] eqn:Ek; [|discriminate H]; assert (A : hat (i_nk s) h [KSend k bs None (a_send a)] (i_nk s) h) by (apply at_send; auto);
     destruct (a_send a <? 0); [kf H|injection H as <- <- <-]; exact (mv_use sh s i h _ Hi A)).
Qed.
Lemma sendto_inner_moves sh devs s i h bs x a s' t out : i_h s !! i = Some h -> sendto_inner devs s i h bs x a = IGo s' t out -> moves sh s t s'.
Proof.
  intros Hi H. left. unfold sendto_inner in H. destruct (negb (Bool.eqb _ _)); [injection H as <- <- <-; apply mv_none|].
  destruct (bool_decide (h_st h = NotConn)) eqn:Es; cbn [negb] in H; [|injection H as <- <- <-; apply mv_none]. apply bool_decide_eq_true_1 in Es.
  destruct (h_tcp h) eqn:Et; [injection H as <- <- <-; apply mv_none|].
  destruct (implicit_bind devs s h _ a) as [[[[s1 h1] t1] r]|] eqn:Ei; [|discriminate H]. destruct (implicit_spec _ _ _ _ _ _ _ _ _ Ei) as (P & _ & _ & Hl).
  destruct (r <? 0).
  - injection H as <- <- <-. exact (mv_prog0 _ _ _ _ _ _ _ P Hi).
  - destruct (h_in h1) as [k|] eqn:Ek; [|discriminate H].
    assert (K : move sh s (t1 ++ [KSend k bs (Some x) (a_send a)]) (put_h i h1 s1)).
    { eapply (mv_prog sh s i h s1 h1 t1 h1); [exact P|exact Hi| |done..|left; done]. destruct P as (_ & _ & _ & _ & _ & (_ & F & _ & F2 & _)).
      apply hats_one, at_sendto; congruence. }
    destruct (a_send a <? 0); [kf H|injection H as <- <- <-]; exact K.
Qed.
Lemma send_moves sh devs s c fd bs a s' t out : send_call devs s c fd bs a = IGo s' t out -> moves sh s t s'.
Proof.
  intros H. unfold send_call in H. sock H. destruct (h_tcp h) eqn:Et; [exact (send_tcp_moves _ _ _ _ _ _ _ _ _ Hi Et H)|].
  destruct (h_rem h) as [x|]; [|injection H as <- <- <-; left; apply mv_none]. destruct (no_dest x); [discriminate H|]. exact (sendto_inner_moves _ _ _ _ _ _ _ _ _ _ _ Hi H).
Qed.
Lemma sendto_moves sh devs s c fd bs x a s' t out : sendto_call devs s c fd bs x a = IGo s' t out -> moves sh s t s'.
Proof. intros H. unfold sendto_call in H. destruct (no_dest x); [exact (send_moves _ _ _ _ _ _ _ _ _ _ H)|]. sock H. exact (sendto_inner_moves _ _ _ _ _ _ _ _ _ _ _ Hi H). Qed.
Lemma writev_moves sh s c fd bs a s' t out : writev_call s c fd bs a = IGo s' t out -> moves sh s t s'.
Proof.
  intros H. unfold writev_call in H. sock H. destruct (h_tcp h) eqn:Et; [exact (send_tcp_moves _ _ _ _ _ _ _ _ _ Hi Et H)|]. injection H as <- <- <-. left. apply mv_none.
Qed.

Lemma recv_moves sh devs s c fd len flags fam a s' t out : recv_call devs s c fd len flags fam a = IGo s' t out -> moves sh s t s'.
Proof.
  intros H. unfold recv_call in H. sock H. left. destruct (h_tcp h) eqn:Et.
  - unfold recv_tcp in H.
    destruct (match h_st h with InProg => _ | _ => _ end) as [[h0 t0]|] eqn:E0; [|discriminate H].
    assert (Q : h_in h0 = h_in h /\ h_tcp h0 = true /\ hats (i_nk s) h t0 (i_nk s) h0).
    { destruct (h_st h) eqn:Es; try (injection E0 as <- <-; split; [done|]; split; [done|constructor]). destruct (h_in h) as [k|] eqn:Ek; [|discriminate E0].
      injection E0 as <- <-. split; [destruct (a_soerr a); exact Ek|]. split; [destruct (a_soerr a); exact Et|]. apply hats_one, at_err; assumption. }
    destruct Q as (Q1 & Q2 & Q3). clear E0.
    destruct (match h_st h0 with Conn | RdOnly => true | _ => false end) eqn:Es.
    2:{ destruct (h_st h0); try discriminate Es; injection H as <- <- <-; exact (mv_hats sh s i h h0 t0 Hi Q3). }
    assert (Es' : h_st h0 = Conn \/ h_st h0 = RdOnly) by (destruct (h_st h0); try discriminate Es; auto).
    set (n := Z.min _ len) in H. set (h1 := if hasbit flags MSG_PEEK then h0 else with_peek _ h0) in H.
    assert (R : h_in h1 = h_in h /\ h_tcp h1 = true /\ h_st h1 = h_st h0 /\ hats (i_nk s) h t0 (i_nk s) h1).
    { unfold h1. destruct (hasbit flags MSG_PEEK); [auto|]. split; [exact Q1|]. split; [exact Q2|]. split; [done|]. rewrite <- (app_nil_r t0).
      eapply hats_app; [exact Q3|]. apply hats_one, at_peek. exact Q2. }
    destruct R as (R1 & R2 & R3 & R4). assert (H' : (if bool_decide (h_peek h0 <> []) && (len - n =? 0) then IGo (put_h i h1 s) t0 (IData (take (Z.to_nat n) (h_peek h0)))
      else match h_in h1 with
          | None => IDies
          | Some k =>
              match a_recv a with
              | inr e =>
                  if negb (n =? 0) then IGo (put_h i h1 s) (t0 ++ bracket (nonblock fl) k [KRecv k (len - n) (a_recv a)]) (IData (take (Z.to_nat n) (h_peek h0)))
                  else if negb (nonblock fl) && (e =? EAGAIN) then IGo (put_h i h1 s) (t0 ++ bracket (nonblock fl) k [KRecv k (len - n) (a_recv a)]) IWaits
                  else kfail (put_h i h1 s) (t0 ++ bracket (nonblock fl) k [KRecv k (len - n) (a_recv a)]) e
              | inl bs =>
                  IGo (put_h i (if hasbit flags MSG_PEEK then with_peek (h_peek h1 ++ bs) h1 else h1) s) (t0 ++ bracket (nonblock fl) k [KRecv k (len - n) (a_recv a)])
                    (IData (take (Z.to_nat n) (h_peek h0) ++ bs))
              end
          end) = IGo s' t out). { destruct (h_st h0); try discriminate Es; exact H. } clear H. rename H' into H.
    destruct (_ && _); [injection H as <- <- <-; exact (mv_hats sh s i h h1 t0 Hi R4)|]. destruct (h_in h1) as [k|] eqn:Ek; [|discriminate H].
    assert (T : hats (i_nk s) h (t0 ++ bracket (nonblock fl) k [KRecv k (len - n) (a_recv a)]) (i_nk s) h1).
    { eapply hats_app; [exact R4|]. apply bracket_hats; [exact Ek|]. apply at_recv; [exact Ek|]. intros _. rewrite R3. exact Es'. }
    destruct (a_recv a) as [bs|e].
    + injection H as <- <- <-. destruct (hasbit flags MSG_PEEK); [|exact (mv_hats sh s i h h1 _ Hi T)]. apply (mv_hats sh s i h); [exact Hi|].
      rewrite <- (app_nil_r (t0 ++ _)). eapply hats_app; [exact T|]. apply hats_one, at_peek. exact R2.
    + pose proof (mv_hats sh s i h h1 _ Hi T) as M.
      destruct (negb (n =? 0)); [injection H as <- <- <-; exact M|]. destruct (_ && _); [injection H as <- <- <-; exact M|]. kf H. exact M.
  - unfold recv_udp in H. destruct (implicit_bind devs s h _ a) as [[[[s1 h1] t1] r]|] eqn:Ei; [|discriminate H]. destruct (implicit_spec _ _ _ _ _ _ _ _ _ Ei) as (P & _ & _ & Hl).
    destruct (r <? 0).
    + injection H as <- <- <-. exact (mv_prog0 _ _ _ _ _ _ _ P Hi).
    + destruct (h_in h1) as [k|] eqn:Ek; [|discriminate H].
      assert (K : move sh s (t1 ++ [KRecv k len (a_recv a)]) (put_h i h1 s1)).
      { eapply (mv_prog sh s i h s1 h1 t1 h1); [exact P|exact Hi| |done..|left; done]. destruct P as (_ & _ & _ & _ & _ & (_ & F & _)).
        apply hats_one, at_recv; [exact Ek|]. congruence. }
      destruct (a_recv a) as [bs|e]; [injection H as <- <- <-; exact K|]. destruct (_ && _); [injection H as <- <- <-; exact K|]. kf H. exact K.
Qed.

(** dropping a descriptor *)
Lemma drop_hdl_spec devs s i s' t : drop_hdl devs s i = Some (s', t) ->
  (used s i = true /\ s' = s /\ t = []) \/ (used s i = false /\ i_h s !! i = None /\ s' = s /\ t = []) \/
  exists h, used s i = false /\ i_h s !! i = Some h /\ i_fds s' = i_fds s /\ i_h s' = delete i (i_h s) /\ i_nh s' = i_nh s /\ i_pend s' = i_pend s /\ i_nk s' = i_nk s /\
    t = match h_in h with Some k => [KClose k] | None => [] end.
Proof.
  unfold drop_hdl. destruct (used s i) eqn:U; [intros [= <- <-]; auto|]. destruct (i_h s !! i) as [h|] eqn:Eh; [|intros [= <- <-]; right; left; repeat split].
  intros H. right. right. exists h. destruct (h_in h) as [k|]; [|injection H as <- <-; repeat split; exact Eh]. destruct (h_loc h) as [l|]; [|injection H as <- <-; repeat split; exact Eh].
  destruct (release _ _ _ _ _) as [[p r]|]; [|discriminate H]. injection H as <- <-. repeat split; exact Eh.
Qed.
Lemma unused s i : used s i = false -> forall q fl raw, i_fds s !! q <> Some (ISock i fl raw).
Proof. intros U q fl raw E. assert (used s i = true) by (apply used_spec; eauto). congruence. Qed.

Lemma drop_fd_move sh devs s c fd s' t : iinv s -> i_fds s !! (c, fd) <> None -> drop_fd devs s c fd = Some (s', t) -> move sh s t s'.
Proof.
  intros V Hn H. unfold drop_fd in H. destruct (i_fds s !! (c, fd)) as [[i fl raw|]|] eqn:E; [| |done].
  - apply drop_hdl_spec in H as [(U & -> & ->)|[(U & N & -> & ->)|(h & U & Hi & E1 & E2 & E3 & E4 & E5 & ->)]].
    + apply (mv_del sh s (c, fd) (ISock i fl raw)); [done|exact E|]. intros i' fl' raw' [= <- <- <-]. exact U.
    + destruct (v_fd s V _ _ _ _ E) as (h & Hh & _). cbn in N. congruence.
    + apply (mv_drop sh s (c, fd) i h fl raw None); [exact E|exact Hi|auto|exact E1| |exact E2|exact E3|exact E4|exact E5|done].
      intros q fl0 raw0. rewrite E1. exact (unused _ _ U q fl0 raw0).
  - injection H as <- <-. apply (mv_del sh s (c, fd) IOther); [done|exact E|]. intros i fl raw [=].
Qed.

Lemma drop_fd_tr devs s c fd s' t : drop_fd devs s c fd = Some (s', t) -> t = [] \/ exists k, t = [KClose k].
Proof.
  unfold drop_fd. destruct (i_fds s !! (c, fd)) as [[i fl raw|]|]; [|intros [= _ <-]; auto|intros [= _ <-]; auto].
  intros H. apply drop_hdl_spec in H as [(_ & _ & ->)|[(_ & _ & _ & ->)|(h & _ & _ & _ & _ & _ & _ & _ & ->)]]; [auto|auto|]. destruct (h_in h); eauto.
Qed.
Lemma shutting_tr h t h' : shutting true h t h' -> t = [] \/ exists k how, t = [KShut k how 0].
Proof. remember true as b eqn:Eb. destruct 1; try discriminate Eb; eauto. Qed.
Lemma shut_moves devs s c fd how a s' t out : iinv s -> shutdown_call devs s c fd how a = IGo s' t out -> moves (shuts s c (Shutdown fd how) out) s t s'.
Proof.
  intros V H. unfold shutdown_call in H. destruct (negb (in_range fd)); [injection H as <- <- <-; left; apply mv_none|].
  destruct (negb _); [injection H as <- <- <-; left; apply mv_none|]. sock H.
  destruct (shut_inner devs s h how a) as [[[[s1 h1] t1] r]|] eqn:E; [|discriminate H].
  assert (K : (0 <= r -> shutting true h t1 h1 /\ out = IRet 0) /\ (r < 0 -> shutting false h t1 h1 /\ out <> IRet 0) /\ i_fds s1 = i_fds s /\ i_h s1 = i_h s /\ i_nh s1 = i_nh s /\ i_pend s1 = i_pend s /\ i_nk s1 = i_nk s).
  { set (st := with_st (if how =? SHUT_RD then (if bool_decide (h_st h = RdOnly) then NotConn else WrOnly)
             else if how =? SHUT_WR then (if bool_decide (h_st h = WrOnly) then NotConn else RdOnly) else NotConn)) in *.
    assert (O1 : 0 <= r -> out = IRet 0).
    { intros Hr. destruct (Z.ltb_spec r 0); [lia|]. destruct (how =? SHUT_RDWR); [destruct (drop_fd _ _ _ _) as [[s3 t3]|]; [|discriminate H]|]; injection H as _ _ <-; done. }
    assert (O2 : r < 0 -> out <> IRet 0). { intros Hr. destruct (Z.ltb_spec r 0); [|lia]. injection H as _ _ <-. intros [=]. lia. }
    assert (W : exists x, (x = NotConn \/ x = RdOnly \/ x = WrOnly) /\ forall g, st g = with_st x g).
    { unfold st. eexists. split; [|reflexivity]. destruct (how =? SHUT_RD); [destruct (bool_decide _); auto|]. destruct (how =? SHUT_WR); [destruct (bool_decide _); auto|]. auto. }
    destruct W as (x & Hx & W). unfold shut_inner in E. fold st in E. destruct (h_in h) as [k|] eqn:Ek.
    - destruct (Z.eqb_spec (a_shut a) 0) as [E0|E0]; cbn [negb] in E.
      + rewrite E0 in E. destruct (_ || _) eqn:Ef.
        * destruct (h_loc h) as [l|] eqn:El.
          -- destruct (release _ _ _ _ _) as [[p r0]|]; [|discriminate E]. destruct (Z.ltb_spec r0 0) as [Hr0|Hr0]; injection E as <- <- <- <-.
             ++ split; [lia|]. split; [|done]. intros Hr. split; [exact (sh_stuck h k how Ek)|auto].
             ++ assert (x = NotConn) as ->.
                { specialize (W h). unfold st, with_st in W. injection W as W. rewrite <- W. clear - Ef. destruct (how =? SHUT_RD) eqn:E1; cbn in Ef.
                  - apply Z.eqb_eq in E1 as ->. cbn in Ef. destruct (bool_decide _); [done|discriminate Ef].
                  - destruct (how =? SHUT_WR) eqn:E2; [|done]. apply Z.eqb_eq in E2 as ->. cbn in Ef. destruct (bool_decide (h_st h = WrOnly)); [done|discriminate Ef]. }
                split; [|split; [lia|done]]. intros _. split; [rewrite W; exact (sh_full h k how Ek)|]. apply O1. lia.
          -- injection E as <- <- <- <-. split; [|split; [lia|done]]. intros _. split; [rewrite W; exact (sh_half h k how x Ek Hx)|]. apply O1. lia.
        * injection E as <- <- <- <-. split; [|split; [lia|done]]. intros _. split; [rewrite W; exact (sh_half h k how x Ek Hx)|]. apply O1. lia.
      + unfold kerr in E. destruct (from_discriminant (a_shut a)) as [n|] eqn:En; [|discriminate E]. injection E as <- <- <- <-.
        assert (0 < discriminant n) by (destruct n; reflexivity). split; [lia|]. split; [|done]. intros Hr. split; [exact (sh_err h k how _ Ek E0)|auto].
    - injection E as <- <- <- <-. split; [|split; [lia|done]]. intros _. split; [rewrite W; exact (sh_none h x Ek Hx)|]. apply O1. lia. }
  destruct K as (K1 & K2 & F1 & F2 & F3 & F4 & F5).
  assert (S : shuts s c (Shutdown fd how) out = Some (i, bool_decide (out = IRet 0))). { unfold shuts, sock_of. rewrite Hd. done. }
  assert (M : move (shuts s c (Shutdown fd how) out) s t1 (put_h i h1 s1)).
  { rewrite S. apply (mv_touch _ s i h h1); [exact Hi|cbn; congruence|exact F3|left; exact F1|cbn; rewrite F4; done|]. right. split; [exact F5|]. eexists. split; [reflexivity|].
    destruct (Z.ltb_spec r 0) as [Hr|Hr].
    - destruct (K2 Hr) as [K Ho]. rewrite (bool_decide_eq_false_2 _ Ho). exact K.
    - destruct (K1 Hr) as [K Ho]. rewrite (bool_decide_eq_true_2 _ Ho). exact K. }
  destruct (Z.ltb_spec r 0) as [Hr|Hr]; [injection H as <- <- _; left; exact M|]. destruct (how =? SHUT_RDWR); [|injection H as <- <- _; left; exact M].
  destruct (drop_fd devs (put_h i h1 s1) c fd) as [[s3 t3]|] eqn:Ed; [|discriminate H]. injection H as <- <- _. right.
  exists t1, (put_h i h1 s1), t3. split; [done|]. split; [exact M|].
  split; [|split; [exact (shutting_tr _ _ _ (proj1 (K1 Hr)))|exact (drop_fd_tr _ _ _ _ _ _ Ed)]].
  apply (drop_fd_move None devs _ c fd); [exact (move_inv _ _ _ _ V M)| |exact Ed].
  cbn. rewrite F1. congruence.
Qed.

Lemma dup_desc_sock d i fl raw : dup_desc d = ISock i fl raw -> exists fl0, d = ISock i fl0 raw.
Proof. destruct d; [|discriminate]. intros [= <- _ <-]. eauto. Qed.

Lemma dup2_moves sh devs s c fd fd2 s' t out : iinv s -> dup2_call devs s c fd fd2 = IGo s' t out -> moves sh s t s'.
Proof.
  intros V H. left. unfold dup2_call in H. destruct (negb _); [injection H as <- <- <-; apply mv_none|]. destruct (Z.eqb_spec fd2 fd) as [->|Hne]; [injection H as <- <- <-; apply mv_none|].
  destruct (negb _); [injection H as <- <- <-; apply mv_none|]. destruct (i_fds s !! (c, fd)) as [d|] eqn:Ed; [|injection H as <- <- <-; apply mv_none].
  assert (P : forall i fl raw, dup_desc d = ISock i fl raw -> exists q fl0, i_fds s !! q = Some (ISock i fl0 raw)).
  { intros i fl raw E. destruct (dup_desc_sock _ _ _ _ E) as (fl0 & ->). eauto. }
  destruct (i_fds s !! (c, fd2)) as [[i fl raw|]|] eqn:E2.
  - destruct (drop_hdl _ _ _) as [[s2 tr]|] eqn:Eh; [|discriminate H]. injection H as <- <- <-.
    apply drop_hdl_spec in Eh as [(U & -> & ->)|[(U & N & -> & ->)|(h & U & Hi & E1 & E3 & E4 & E5 & E6 & ->)]].
    + apply (mv_put sh s (c, fd2) (dup_desc d)); [done|exact P|]. rewrite E2. intros i' fl' raw' [= <- <- <-]. exact U.
    + destruct (v_fd s V _ _ _ _ E2) as (h & Hh & _). cbn in N. congruence.
    + apply (mv_drop sh s (c, fd2) i h fl raw (Some (dup_desc d))); [exact E2|exact Hi| |exact E1| |exact E3|exact E4|exact E5|exact E6|done].
      * right. destruct d as [i' fl' raw'|]; [right|left; done]. exists (c, fd), i', fl', raw', (no_cloexec fl'). split; [congruence|]. split; [exact Ed|done].
      * intros q fl0 raw0. rewrite E1. exact (unused _ _ U q fl0 raw0).
  - injection H as <- <- <-. apply (mv_put sh s (c, fd2) (dup_desc d)); [done|exact P|]. rewrite E2. intros i fl raw [=].
  - injection H as <- <- <-. apply (mv_put sh s (c, fd2) (dup_desc d)); [done|exact P|]. rewrite E2. intros i fl raw [=].
Qed.
Lemma dup_moves sh s c fd s' t out : dup_call s c fd = IGo s' t out -> moves sh s t s'.
Proof.
  intros H. left. unfold dup_call in H. destruct (fd =? 0); [injection H as <- <- <-; apply mv_none|]. destruct (negb _); [injection H as <- <- <-; apply mv_none|].
  destruct (i_fds s !! (c, fd)) as [d|] eqn:Ed; [|injection H as <- <- <-; apply mv_none]. destruct (next_fd s c) as [k|] eqn:En; injection H as <- <- <-; [|apply mv_none].
  apply (mv_put sh s (c, k) (dup_desc d)); [done| |rewrite (next_free _ _ _ En); intros i fl raw [=]].
  intros i fl raw E. destruct (dup_desc_sock _ _ _ _ E) as (fl0 & ->). eauto.
Qed.

Lemma flag_move sh s c fd i fl raw fl' h t : i_fds s !! (c, fd) = Some (ISock i fl raw) -> i_h s !! i = Some h ->
  hats (i_nk s) h t (i_nk s) h -> move sh s t (put_fd c fd (ISock i fl' raw) s).
Proof.
  intros Hd Hi Ht. change t with ([] ++ t). apply (mv_prog sh s i h s h [] h t); [apply prog_refl|exact Hi|exact Ht| |done..|].
  - cbn. rewrite insert_id by exact Hi. done.
  - apply (touch_fd s s i _ (c, fd) fl raw fl' raw _ Hd); [done|done|left; done].
Qed.
Lemma sel_write_move s c a fds : forall s' t out, iinv s -> sel_write s c a fds = IGo s' t out ->
  s' = s /\ forall e, e ∈ t -> exists k, e = KErr k false /\ live s k.
Proof.
  induction fds as [|fd r IH]; intros s' t out V; cbn [sel_write]; [intros [= <- <- _]; split; [done|apply no_events]|].
  destruct (negb _); [discriminate|]. destruct (i_fds s !! (c, fd)) as [d|]; [|intros [= <- <- _]; split; [done|apply no_events]].
  assert (G : forall t0, (forall e, e ∈ t0 -> exists k, e = KErr k false /\ live s k) ->
    match sel_write s c a r with IGo s' tr (IReady l) => IGo s' (t0 ++ tr) (IReady (fd :: l)) | IGo s' tr o => IGo s' (t0 ++ tr) o | x => x end = IGo s' t out ->
    s' = s /\ forall e, e ∈ t -> exists k, e = KErr k false /\ live s k).
  { intros t0 H0 H. destruct (sel_write s c a r) as [s1 tr o| |] eqn:E; [|discriminate H|discriminate H]. destruct (IH s1 tr o V eq_refl) as [-> Ht].
    assert (s' = s /\ t = t0 ++ tr) as [-> ->] by (destruct o; injection H as <- <- _; done). split; [done|].
    intros e [He|He]%elem_of_app; auto. }
  destruct d as [i fl raw|]; [|apply G; apply no_events]. destruct (i_h s !! i) as [h|] eqn:Hi; [|discriminate].
  destruct (h_st h); try (apply G; apply no_events). destruct (h_in h) as [k|] eqn:Ek; [|discriminate].
  destruct (a_soerr a); [discriminate|]. apply G. apply one_event. exists k. split; [done|]. exists i, h. auto.
Qed.
Lemma sel_read_ks s c fds l : iinv s -> sel_read s c fds = Some (Some l) -> forall k, k ∈ map fst l -> live s k.
Proof.
  intros V. revert l. induction fds as [|fd r IH]; intros l; cbn [sel_read]; [intros [= <-] k Hk; inversion Hk|].
  destruct (negb _); [discriminate|]. destruct (i_fds s !! (c, fd)) as [d|] eqn:E; [|discriminate]. destruct (sel_read s c r) as [[l0|]|]; try discriminate.
  specialize (IH l0 eq_refl). intros [= <-]. destruct d as [i fl raw|]; [|exact IH]. destruct (Z.ltb_spec raw 0) as [Hr|Hr]; [exact IH|].
  cbn. intros k [->|Hk]%elem_of_cons; [|exact (IH k Hk)]. destruct (v_fd s V _ _ _ _ E) as (h & Hh & [?|Hk]); [lia|]. exists i, h. auto.
Qed.

Lemma step_moves devs s c o a s' t out : iinv s -> valid s o -> step devs s c o a = IGo s' t out -> moves (shuts s c o out) s t s'.
Proof.
  intros V Hv H. destruct o; cbn [step] in H; try (unfold shuts; set (sh := @None (Z * bool))).
  - left. unfold socket_call in H. destruct (next_fd s c) as [fd|] eqn:En; injection H as <- <- <-; [|apply mv_none].
    eapply (mv_new _ s c fd); [exact (next_free _ _ _ En)|reflexivity].
  - exact (bind_moves _ _ _ _ _ _ _ _ _ _ H).
  - exact (connect_moves _ _ _ _ _ _ _ _ _ _ H).
  - exact (listen_moves _ _ _ _ _ _ _ _ _ _ H).
  - exact (accept_moves _ _ _ _ _ _ _ _ _ H).
  - exact (send_moves _ _ _ _ _ _ _ _ _ _ H).
  - exact (sendto_moves _ _ _ _ _ _ _ _ _ _ _ H).
  - exact (writev_moves _ _ _ _ _ _ _ _ _ H).
  - exact (recv_moves _ _ _ _ _ _ _ _ _ _ _ _ H).
  - exact (shut_moves _ _ _ _ _ _ _ _ _ V H).
  - left. unfold close_call in H. destruct (negb _); [discriminate H|]. destruct (i_fds s !! (c, fd)) as [d|] eqn:E; [|injection H as <- <- <-; apply mv_none].
    destruct (drop_fd devs s c fd) as [[s1 tr]|] eqn:Ed; [|discriminate H]. injection H as <- <- <-. apply (drop_fd_move sh devs s c fd); [exact V|congruence|exact Ed].
  - exact (dup_moves _ _ _ _ _ _ _ H).
  - exact (dup2_moves _ _ _ _ _ _ _ _ _ V H).
  - injection H as <- <- <-. left. exact (mv_fork sh s c c' _ Hv eq_refl).
  - left. unfold getpeername_call in H. destruct (negb _); [injection H as <- <- <-; apply mv_none|].
    apply on_sock_go in H as [[-> ->]|(i & fl & raw & h & Hd & Hi & H)]; [apply mv_none|]. destruct (h_rem h); injection H as <- <- <-; apply mv_none.
  - left. unfold getsockname_call in H. destruct (negb _); [injection H as <- <- <-; apply mv_none|].
    apply on_sock_go in H as [[-> ->]|(i & fl & raw & h & Hd & Hi & H)]; [apply mv_none|]. injection H as <- <- <-; apply mv_none.
  - left. unfold setopt_call in H. destruct (negb _); [injection H as <- <- <-; apply mv_none|].
    apply on_sock_go in H as [[-> ->]|(i & fl & raw & h & Hd & Hi & H)]; [apply mv_none|]. destruct (negb _); [injection H as <- <- <-; apply mv_none|].
    match type of H with (match (if ?b then None else _) with _ => _ end) = _ => destruct b end.
    + injection H as <- <- <-. apply (mv_hats sh s i h _ [] Hi). apply hats_one, at_opts.
    + destruct (h_in h) as [k|] eqn:Ek.
      * destruct (a_opt a =? 0).
        -- injection H as <- <- <-. apply (mv_hats sh s i h _ _ Hi). rewrite <- (app_nil_r [KSetopt _ _ _ _]). eapply hats_cons; [apply at_setopt; exact Ek|]. apply hats_one, at_opts.
        -- kf H. apply (mv_use sh s i h _ Hi). apply at_setopt. exact Ek.
      * injection H as <- <- <-. apply (mv_hats sh s i h _ [] Hi). apply hats_one, at_opts.
  - left. unfold getfl_call in H. apply on_sock_go in H as [[-> ->]|(i & fl & raw & h & Hd & Hi & H)]; [apply mv_none|]. injection H as <- <- <-; apply mv_none.
  - left. unfold setfl_call in H. apply on_sock_go in H as [[-> ->]|(i & fl & raw & h & Hd & Hi & H)]; [apply mv_none|]. destruct (arg <? 0); [injection H as <- <- <-; apply mv_none|].
    destruct (h_in h) as [k|] eqn:Ek; [|injection H as <- <- <-; apply (flag_move sh s c fd i fl raw _ h); [exact Hd|exact Hi|constructor]].
    destruct (a_mode a =? 0); [|kf H; apply mv_none]. injection H as <- <- <-. apply (flag_move sh s c fd i fl raw _ h); [exact Hd|exact Hi|].
    apply hats_one, at_mode. exact Ek.
  - left. unfold fionbio_call in H. apply on_sock_go in H as [[-> ->]|(i & fl & raw & h & Hd & Hi & H)]; [apply mv_none|].
    destruct (h_in h) as [k|] eqn:Ek; [|injection H as <- <- <-; apply (flag_move sh s c fd i fl raw _ h); [exact Hd|exact Hi|constructor]].
    destruct (a_mode a =? 0); [|kf H; apply (flag_move sh s c fd i fl raw _ h); [exact Hd|exact Hi|constructor]]. injection H as <- <- <-. apply (flag_move sh s c fd i fl raw _ h); [exact Hd|exact Hi|].
    apply hats_one, at_mode. exact Ek.
  - left. unfold select_read_call in H. destruct (sel_read s c fds) as [[l|]|] eqn:E; [|injection H as <- <- <-; apply mv_none|discriminate H].
    destruct (bool_decide _); injection H as <- <- <-; [apply mv_none|]. apply mv_look; [done..|]. apply one_event. split; [left; eauto|].
    exact (sel_read_ks s c fds l V E).
  - left. apply sel_write_move in H as [-> Ht]; [|exact V]. apply mv_look; [done..|]. intros e He. destruct (Ht e He) as (k & -> & L).
    split; [right; eauto|]. intros k' Hk. apply elem_of_list_singleton in Hk as ->. exact L.
Qed.

Lemma iinv_init : iinv init_inet.
Proof.
  constructor; cbn [i_h init_inet]; try (intros * H; rewrite lookup_empty in H; discriminate H).
  - intros p i fl raw H. exfalso. cbn [i_fds init_inet] in H. rewrite !lookup_insert_Some, lookup_singleton_Some in H.
    destruct H as [[_ H]|[_ [[_ H]|[_ [_ H]]]]]; discriminate H.
Qed.
Lemma tinv_init : tinv [] init_inet.
Proof.
  split; [|split].
  - intros t1 e t2 E. destruct t1; discriminate E.
  - intros k. split; [intros [(e & He & _) _]; inversion He|]. intros (i & h & H & _). cbn in H. rewrite lookup_empty in H. discriminate H.
  - intros e k He. inversion He.
Qed.
Lemma calls_snoc evs e : calls (evs ++ [e]) = calls evs ++ e_tr e.
Proof. unfold calls. rewrite map_app, concat_app. cbn. rewrite app_nil_r. done. Qed.
Lemma history_inv devs evs s : history devs evs s -> iinv s /\ tinv (calls evs) s.
Proof.
  induction 1 as [|evs s c o a s' tr out H [I T] Hv E]; [split; [apply iinv_init|apply tinv_init]|].
  pose proof (step_moves _ _ _ _ _ _ _ _ I Hv E) as M. split; [exact (moves_inv _ _ _ _ I M)|]. rewrite calls_snoc. exact (moves_trace _ _ _ _ _ I T M).
Qed.
