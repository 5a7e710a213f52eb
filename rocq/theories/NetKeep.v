(** What system calls leave alone in a socket and in a descriptor table. *)
From Verif Require Import Base NetModel NetSpec NetInv NetStep NetData.
Local Open Scope list_scope.
Local Open Scope Z_scope.

(** ** The descriptor table *)
Lemma find_fd (P : Z -> bool) l k : List.find P l = Some k -> k ∈ l /\ P k = true.
Proof. intros H. apply List.find_some in H as [H1 H2]. split; [by apply elem_of_list_In|done]. Qed.
Lemma fd_list_in k : k ∈ fd_list <-> 0 <= k < MAXFD.
Proof. unfold fd_list. rewrite elem_of_seqZ. lia. Qed.
Lemma next_fd_free n c start k : next_fd n c start = Some k ->
  n_fds n !! (c, k) = None /\ 0 <= k < MAXFD.
Proof.
  intros H. apply find_fd in H as [H1 H2]. apply andb_true_iff in H2 as [_ H2].
  apply bool_decide_eq_true in H2. split; [done|by apply fd_list_in].
Qed.
Lemma next_fd_full n c k : next_fd n c 0 = None -> 0 <= k < MAXFD -> is_Some (n_fds n !! (c, k)).
Proof.
  intros H Hk. unfold next_fd in H.
  assert (F := List.find_none _ _ H k (proj1 (elem_of_list_In _ _) (proj2 (fd_list_in k) Hk))).
  cbn beta in F. apply andb_false_iff in F as [F|F]; [lia|].
  apply bool_decide_eq_false in F. destruct (n_fds n !! (c, k)); [eauto|done].
Qed.
Opaque fd_list next_fd fresh_cage.

(** ** Sockets keep their options and connection state *)
Definition keep (s s' : sock) : Prop :=
  s_opts s' = s_opts s /\ s_tcp s' = s_tcp s /\ s_st s' = s_st s.
Lemma keep_refl s : keep s s.
Proof. done. Qed.
Lemma keep_trans a b c : keep a b -> keep b c -> keep a c.
Proof. intros (A & B & C) (D & E & F). split_and!; congruence. Qed.
Definition kp (n n' : net) : Prop :=
  forall h s, n_sock n !! h = Some s -> exists s', n_sock n' !! h = Some s' /\ keep s s'.
Lemma kp_refl n : kp n n.
Proof. intros h s H. exists s. split; [done|apply keep_refl]. Qed.
Lemma kp_trans a b c : kp a b -> kp b c -> kp a c.
Proof.
  intros A B h s Hs. destruct (A h s Hs) as (s1 & H1 & K1). destruct (B h s1 H1) as (s2 & H2 & K2).
  exists s2. split; [done|exact (keep_trans _ _ _ K1 K2)].
Qed.
Lemma kp_other n n' : n_sock n' = n_sock n -> kp n n'.
Proof. intros E h s H. exists s. rewrite E. split; [done|apply keep_refl]. Qed.
Lemma kp_put_sock h s s' n : n_sock n !! h = Some s -> keep s s' -> kp n (put_sock h s' n).
Proof.
  intros Hs K k t Ht. cbn. destruct (decide (h = k)) as [<-|E].
  - rewrite lookup_insert. exists s'. split; [done|]. by assert (t = s) as -> by congruence.
  - rewrite lookup_insert_ne by done. exists t. split; [done|apply keep_refl].
Qed.
Lemma kp_alloc_sock s n : ninv n -> kp n (alloc_sock s n).
Proof.
  intros I h t Ht. exists t. split; [|apply keep_refl]. cbn. rewrite lookup_insert_ne; [done|].
  intros <-. assert (is_Some (n_sock n !! n_nsock n)) as K by eauto. apply (ni_sock _ I) in K. lia.
Qed.
Lemma ino_ref_kp d i n n' : ino_ref d i n = Some n' -> kp n n'.
Proof. intros H. apply kp_other. exact (ino_ref_sock _ _ _ _ H). Qed.
Lemma bind_inner_keep p s n s1 n1 r : bind_inner p s n = (s1, n1, r) ->
  keep s s1 /\ n_sock n1 = n_sock n.
Proof.
  unfold bind_inner, bind_unix. destruct (s_loc s); [by intros [= <- <- <-]|].
  destruct (n_names n !! p); by intros [= <- <- <-].
Qed.
Lemma auto_bind_keep s n s1 n1 : auto_bind s n = (s1, n1) -> keep s s1 /\ n_sock n1 = n_sock n.
Proof.
  unfold auto_bind. destruct (s_loc s); [by intros [= <- <-]|].
  destruct (bind_inner _ s _) as [[a b] d] eqn:E. intros [= <- <-].
  destruct (bind_inner_keep _ _ _ _ _ _ E) as [K1 K2]. split; [done|]. rewrite K2. done.
Qed.
Lemma release_kp d n n' : release d n = Some n' -> kp n n'.
Proof.
  destruct d as [h fl|reg|p wr fl| |]; cbn; try (intros [= <-]; apply kp_refl).
  - destruct (n_sock n !! h) as [s|] eqn:Hs; [|done].
    destruct (s_ui s) as [u|] eqn:Hu; [|intros [= <-]; apply kp_refl].
    set (n1 := opt_pipe (u_send u) decr_w n).
    set (n2 := opt_pipe (u_recv u) decr_r n1).
    set (s' := with_ui (Some _) s).
    destruct (too_many _ _ || too_many _ _); [done|].
    assert (H3 : kp n (put_sock h s' n2)).
    { apply (kp_trans n n2); [apply kp_other; unfold n2, n1; by rewrite !opt_pipe_sock|].
      apply (kp_put_sock h s); [|done]. unfold n2, n1. by rewrite !opt_pipe_sock. }
    destruct (u_ino u =? -1); [by intros [= <-]|].
    destruct (_ !! u_ino u) as [[r l]|]; [|done].
    destruct (r =? 0); [done|]. destruct ((r - 1 =? 0) && (l =? 0)).
    + destruct (s_loc s); [|done]. intros [= <-]. exact H3.
    + intros [= <-]. exact H3.
  - intros [= <-]. by apply kp_other.
Qed.
Lemma retain_kp b d n n' : retain b d n = Some n' -> kp n n'.
Proof.
  destruct d as [h fl|reg|p wr fl| |]; cbn; try (intros [= <-]; apply kp_refl).
  - destruct (n_sock n !! h) as [s|] eqn:Hs; [|done].
    destruct (s_ui s) as [u|] eqn:Hu; [|intros [= <-]; apply kp_refl].
    intros H. apply (kp_trans n (opt_pipe (u_recv u) incr_r (opt_pipe (u_send u) incr_w n))).
    + apply kp_other. by rewrite !opt_pipe_sock.
    + destruct (b && negb (u_ino u =? -1)).
      * exact (ino_ref_kp _ _ _ _ H).
      * injection H as <-. apply kp_refl.
  - intros [= <-]. by apply kp_other.
Qed.
Lemma fork_fds_kp c c' l n n' : fork_fds c c' l n = Some n' -> kp n n'.
Proof.
  revert n. induction l as [|k l IH]; intros n; cbn; [intros [= <-]; apply kp_refl|].
  destruct (n_fds n !! (c, k)) as [d|] eqn:Hd; [|apply IH].
  destruct (retain true d n) as [n1|] eqn:Hr; [|done]. intros H.
  eapply kp_trans; [exact (retain_kp _ _ _ _ Hr)|].
  eapply kp_trans; [|exact (IH _ H)]. by apply kp_other.
Qed.
Lemma send_sock_kp n h fl s bs n' x : send_sock n h fl s bs = Go n' x -> kp n n'.
Proof. unfold send_sock. intros H. splitgo H; injection H as <- <-; by apply kp_other. Qed.
Lemma recv_sock_kp n h fl s len flags n' x : n_sock n !! h = Some s ->
  recv_sock n h fl s len flags = Go n' x -> kp n n'.
Proof.
  intros Hs. unfold recv_sock. intros H. splitgo H; injection H as <- <-; try (by apply kp_other).
  all: try (by apply (kp_put_sock h s)).
  all: match goal with |- kp _ (put_pipe _ _ (put_sock _ ?s2 _)) =>
    apply (kp_trans n (put_sock h s2 n)); [by apply (kp_put_sock h s)|by apply kp_other] end.
Qed.
Lemma accept_kp n c fd n' x : ninv n -> accept_call n c fd = Go n' x -> kp n n'.
Proof.
  intros I H. unfold accept_call in H. destruct (in_range fd); [|discriminate H]. cbn [negb] in H.
  destruct (n_fds n !! (c, fd)) as [d|]; [|injection H as <- <-; apply kp_refl].
  destruct (next_fd n c 0) as [k|]; [|injection H as <- <-; apply kp_refl].
  destruct d as [h fl| | | |]; try (injection H as <- <-; apply kp_refl).
  destruct (n_sock n !! h) as [s|] eqn:Hs; [|discriminate H].
  destruct (negb _); [injection H as <- <-; apply kp_refl|].
  destruct (s_loc s) as [l|]; [|discriminate H].
  destruct (n_pend n !! l) as [q|] eqn:Hq.
  2:{ destruct (nonblock fl); [injection H as <- <-; apply kp_refl|discriminate H]. }
  destruct (bool_decide (q_cond q = Some false)); [discriminate H|].
  set (n1 := set_pend (delete l) n) in *.
  set (n2 := if bool_decide (q_cond q = Some true) then _ else n1) in *.
  assert (A : shr n n2).
  { eapply shr_trans; [apply (shr_del_pend l)|]. unfold n2.
    destruct (bool_decide _); [apply shr_set_woken|apply shr_refl]. }
  assert (Q : kp n n2).
  { apply kp_other; unfold n2; by destruct (bool_decide _). }
  assert (Fin : forall n3 st h' fl', shr n2 n3 -> kp n2 n3 ->
     kp n (put_fd c k (DSock h' fl') (alloc_sock st n3))).
  { intros n3 st h' fl' A3 Q3. eapply kp_trans; [exact Q|]. eapply kp_trans; [exact Q3|].
    eapply kp_trans; [apply (kp_alloc_sock st)|by apply kp_other].
    exact (shr_ninv _ _ (shr_trans _ _ _ A A3) I). }
  destruct (n_names n !! q_from q) as [[i|]|].
  - destruct (s_ui s); [|discriminate H].
    destruct (ino_ref 1 i n2) as [n3|] eqn:Ei; [|discriminate H]. injection H as <- <-.
    apply Fin; [exact (shr_ino_ref _ _ _ _ Ei)|exact (ino_ref_kp _ _ _ _ Ei)].
  - destruct (s_ui s); [|discriminate H]. injection H as <- <-.
    apply Fin; [apply shr_refl|apply kp_refl].
  - injection H as <- <-. apply Fin; [apply shr_refl|apply kp_refl].
Qed.
Lemma socketpair_kp n c d t pr n' x : ninv n -> socketpair_call n c d t pr = Go n' x -> kp n n'.
Proof.
  intros I H. unfold socketpair_call in H.
  destruct (negb (d =? AF_UNIX)); [injection H as <- <-; apply kp_refl|].
  destruct (negb _ || _); [injection H as <- <-; apply kp_refl|].
  destruct (negb _); [injection H as <- <-; apply kp_refl|].
  set (fl := fl_of _ _) in H.
  set (s := new_sock NotConn t fl) in H.
  set (na := alloc_sock s (alloc_sock s n)) in H.
  destruct (match next_fd na c 0 with Some k => _ | None => _ end) as [nb f1] eqn:E1.
  destruct (pair_fd_eq _ _ _ _ _ _ E1) as (_ & Pb & Kb).
  destruct (match next_fd nb c 0 with Some k => _ | None => _ end) as [nc f2] eqn:E2.
  destruct (pair_fd_eq _ _ _ _ _ _ E2) as (_ & Pc & Kc).
  destruct (bind_inner (Auto (n_auto n)) s (bump_auto (bump_auto nc))) as [[s1 nd] r1] eqn:B1.
  destruct (bind_inner (Auto (n_auto n + 1)) s nd) as [[s2 ne] r2] eqn:B2.
  destruct (bind_inner_keep _ _ _ _ _ _ B1) as (_ & K1).
  destruct (bind_inner_keep _ _ _ _ _ _ B2) as (_ & K2).
  destruct (s_ui s1) as [u1|]; [|discriminate H].
  destruct (s_ui s2) as [u2|]; [|discriminate H].
  destruct (ino_ref 1 (u_ino u1) _) as [ng|] eqn:G1; [|discriminate H].
  destruct (ino_ref 1 (u_ino u2) ng) as [nh|] eqn:G2; [|discriminate H].
  injection H as <- _.
  intros k z Hz. assert (k < n_nsock n).
  { assert (is_Some (n_sock n !! k)) as K by eauto. apply (ni_sock _ I) in K. lia. }
  exists z. split; [|apply keep_refl]. cbn. rewrite !lookup_insert_ne by lia.
  rewrite (ino_ref_sock _ _ _ _ G2), (ino_ref_sock _ _ _ _ G1). cbn.
  rewrite K2, K1. cbn. rewrite Kc, Kb. cbn. by rewrite !lookup_insert_ne by lia.
Qed.

(** The four calls that change something kept *)
Definition special (o : nop) : bool :=
  match o with Listen _ | Connect _ _ | Shutdown _ _ | Setopt _ _ _ _ => true | _ => false end.

Lemma step_kp n c o n' x : ninv n -> special o = false -> step n c o = Go n' x -> kp n n'.
Proof.
  intros I Hg. destruct o; cbn in Hg; try discriminate Hg; cbn [step]; intros H.
  - unfold socket_call in H. splitgo H; injection H as <- <-; try apply kp_refl.
    eapply kp_trans; [by apply kp_alloc_sock|by apply kp_other].
  - apply on_sock_go in H as [[-> _]|(h & fl & s & _ & Hd & Hs & H)]; [apply kp_refl|].
    destruct (bind_inner p s n) as [[s1 n1] r] eqn:E. injection H as <- <-.
    destruct (bind_inner_keep _ _ _ _ _ _ E) as (K & B).
    apply (kp_trans n n1); [by apply kp_other|]. apply (kp_put_sock h s); [by rewrite B|done].
  - unfold conn_wait in H. injection H as <- <-. by apply kp_other.
  - unfold conn_done in H. destruct (bool_decide _); [|discriminate H].
    injection H as <- <-. by apply kp_other.
  - by eapply accept_kp.
  - by eapply socketpair_kp.
  - apply on_sock_go in H as [[-> _]|(h & fl & s & _ & Hd & Hs & H)]; [apply kp_refl|].
    exact (send_sock_kp _ _ _ _ _ _ _ H).
  - apply on_sock_go in H as [[-> _]|(h & fl & s & _ & Hd & Hs & H)]; [apply kp_refl|].
    exact (recv_sock_kp _ _ _ _ _ _ _ _ Hs H).
  - unfold read_call in H. destruct (in_range fd); [|discriminate H]. cbn [negb] in H.
    destruct (n_fds n !! (c, fd)) as [[h fl|reg|z wr fl| |]|]; try (injection H as <- <-; apply kp_refl).
    + destruct (n_sock n !! h) as [s|] eqn:Hs; [|discriminate H].
      exact (recv_sock_kp _ _ _ _ _ _ _ _ Hs H).
    + splitgo H; injection H as <- <-; by apply kp_other.
  - unfold write_call in H. destruct (in_range fd); [|discriminate H]. cbn [negb] in H.
    destruct (n_fds n !! (c, fd)) as [[h fl|reg|z wr fl| |]|]; try (injection H as <- <-; apply kp_refl).
    + destruct (n_sock n !! h) as [s|] eqn:Hs; [|discriminate H].
      exact (send_sock_kp _ _ _ _ _ _ _ H).
    + splitgo H; injection H as <- <-; by apply kp_other.
  - unfold close_call in H. destruct (in_range fd); [|discriminate H]. cbn [negb] in H.
    destruct (n_fds n !! (c, fd)) as [d|]; [|injection H as <- <-; apply kp_refl].
    destruct (release d n) as [n1|] eqn:E; [|discriminate H]. injection H as <- <-.
    eapply kp_trans; [exact (release_kp _ _ _ E)|by apply kp_other].
  - unfold dup_call in H. destruct (fd =? 0); [injection H as <- <-; apply kp_refl|].
    destruct (in_range fd); [|injection H as <- <-; apply kp_refl]. cbn [negb] in H.
    destruct (n_fds n !! (c, fd)) as [d|] eqn:Hd; [|injection H as <- <-; apply kp_refl].
    destruct (next_fd n c 0) as [k|]; [|injection H as <- <-; apply kp_refl].
    destruct d; try (injection H as <- <-; apply kp_refl).
    all: destruct (retain false _ n) as [n1|] eqn:E; [|discriminate H]; injection H as <- <-.
    all: eapply kp_trans; [exact (retain_kp _ _ _ _ E)|by apply kp_other].
  - unfold dup2_call in H. destruct (in_range fd2); [|injection H as <- <-; apply kp_refl].
    cbn [negb] in H. destruct (fd2 =? fd); [injection H as <- <-; apply kp_refl|].
    destruct (in_range fd); [|injection H as <- <-; apply kp_refl]. cbn [negb] in H.
    destruct (n_fds n !! (c, fd)) as [d|] eqn:Hd; [|injection H as <- <-; apply kp_refl].
    destruct (match n_fds n !! (c, fd2) with Some d2 => release d2 n | None => Some n end)
      as [n1|] eqn:E1; [|discriminate H].
    assert (S1 : kp n n1).
    { destruct (n_fds n !! (c, fd2)) as [d2|].
      - exact (release_kp _ _ _ E1).
      - injection E1 as <-. apply kp_refl. }
    destruct d; try (injection H as <- <-; exact S1).
    all: destruct (retain false _ n1) as [n2|] eqn:E; [|discriminate H]; injection H as <- <-.
    all: eapply kp_trans; [exact S1|]; eapply kp_trans; [exact (retain_kp _ _ _ _ E)|by apply kp_other].
  - unfold fork_call in H. destruct (fresh_cage n child); [|discriminate H]. cbn [negb] in H.
    destruct (fork_fds c child fd_list n) as [n1|] eqn:E; [|discriminate H].
    injection H as <- <-. exact (fork_fds_kp _ _ _ _ _ E).
  - unfold pipe_call in H. splitgo H; injection H as <- <-; by apply kp_other.
  - unfold open_call in H. splitgo H; injection H as <- <-; by apply kp_other.
  - unfold setnb_call in H. splitgo H; injection H as <- <-; by apply kp_other.
  - unfold ioctl_call in H. splitgo H; injection H as <- <-; by apply kp_other.
  - unfold unlink_call in H. splitgo H; injection H as <- <-; by apply kp_other.
  - unfold create_call in H. splitgo H; injection H as <- <-; by apply kp_other.
  - unfold getopt_call in H. destruct (in_range fd); [|injection H as <- <-; apply kp_refl].
    cbn [negb] in H.
    apply on_sock_go in H as [[-> _]|(h & fl & s & _ & Hd & Hs & H)]; [apply kp_refl|].
    splitgo H; injection H as <- <-; apply kp_refl.
  - unfold select_call in H. splitgo H; injection H as <- <-; apply kp_refl.
  - unfold poll_call in H. splitgo H; injection H as <- <-; apply kp_refl.
  - unfold ecreate_call in H. splitgo H; injection H as <- <-; by apply kp_other.
  - unfold ectl_call in H. splitgo H; injection H as <- <-; by apply kp_other.
  - unfold ewait_call in H. splitgo H; injection H as <- <-; by apply kp_other.
Qed.

(** Every call, one socket *)
Definition same_st (s s' : sock) := s_st s' = s_st s.
Definition same_opt (s s' : sock) := s_opts s' = s_opts s /\ s_tcp s' = s_tcp s.
Lemma step_sock n c o n' x h s : ninv n -> n_sock n !! h = Some s -> step n c o = Go n' x ->
  exists s', n_sock n' !! h = Some s' /\
   (same_opt s s' \/ exists fd lv opt v, o = Setopt fd lv opt v /\ opens n c fd h = true /\
      (lv = SOL_TCP /\ opt = TCP_NODELAY /\ s_opts s' = s_opts s /\ s_tcp s' = setbit (s_tcp s) opt v \/
       lv = SOL_SOCKET /\ opt ∈ [SO_LINGER; SO_KEEPALIVE; SO_REUSEPORT; SO_REUSEADDR] /\
         s_tcp s' = s_tcp s /\ s_opts s' = setbit (s_opts s) opt v)) /\
   (same_st s s' \/
    (exists fd how, o = Shutdown fd how /\ opens n c fd h = true /\
       (how = SHUT_RD \/ how = SHUT_WR \/ how = SHUT_RDWR) /\ s_st s' = shut_state how (s_st s)) \/
    (s_st s = NotConn /\ exists fd, opens n c fd h = true /\
       (o = Listen fd /\ s_st s' = Listening \/ exists p, o = Connect fd p /\ s_st s' = Conn))).
Proof.
  intros I Hs H. destruct (special o) eqn:Hg.
  2:{ destruct (step_kp _ _ _ _ _ I Hg H h s Hs) as (s' & Hs' & A & B & C).
      exists s'. split; [done|]. split; [by left|by left]. }
  assert (NOP : forall b, n_sock b !! h = Some s -> exists s', n_sock b !! h = Some s' /\
    (same_opt s s' \/ exists fd lv opt v, o = Setopt fd lv opt v /\ opens n c fd h = true /\
      (lv = SOL_TCP /\ opt = TCP_NODELAY /\ s_opts s' = s_opts s /\ s_tcp s' = setbit (s_tcp s) opt v \/
       lv = SOL_SOCKET /\ opt ∈ [SO_LINGER; SO_KEEPALIVE; SO_REUSEPORT; SO_REUSEADDR] /\
         s_tcp s' = s_tcp s /\ s_opts s' = setbit (s_opts s) opt v)) /\
   (same_st s s' \/
    (exists fd how, o = Shutdown fd how /\ opens n c fd h = true /\
       (how = SHUT_RD \/ how = SHUT_WR \/ how = SHUT_RDWR) /\ s_st s' = shut_state how (s_st s)) \/
    (s_st s = NotConn /\ exists fd, opens n c fd h = true /\
       (o = Listen fd /\ s_st s' = Listening \/ exists p, o = Connect fd p /\ s_st s' = Conn)))).
  { intros b Hb. exists s. split; [done|]. split; by left. }
  assert (OP : forall fd h0 fl, n_fds n !! (c, fd) = Some (DSock h0 fl) ->
    opens n c fd h0 = true).
  { intros fd h0 fl E. unfold opens. rewrite E. lia. }
  destruct o; cbn in Hg; try discriminate Hg; cbn [step] in H.
  - (* Listen *)
    apply on_sock_go in H as [[-> _]|(h0 & fl & s0 & _ & Hd & Hs0 & H)]; [by apply NOP|].
    destruct (s_st s0) eqn:E; injection H as <- <-; try (by apply NOP).
    cbn. destruct (decide (h0 = h)) as [->|N].
    + rewrite lookup_insert. assert (s0 = s) as -> by congruence. eexists. split; [done|].
      split; [by left|]. right. right. split; [done|]. exists fd.
      split; [exact (OP _ _ _ Hd)|]. by left.
    + rewrite lookup_insert_ne by done. by apply NOP.
  - (* Connect *)
    unfold connect_call in H.
    apply on_sock_go in H as [[-> _]|(h0 & fl & s0 & _ & Hd & Hs0 & H)]; [by apply NOP|].
    destruct (bool_decide (s_st s0 = NotConn)) eqn:Est; cbn [negb] in H; [|injection H as <- <-; by apply NOP].
    apply bool_decide_eq_true in Est.
    destruct (auto_bind s0 n) as [s1 n1] eqn:E.
    destruct (auto_bind_keep _ _ _ _ E) as [(K1 & K2 & K3) K4].
    destruct (bool_decide (p ∈ n_bound n1)); cbn [negb] in H.
    2:{ injection H as <- <-. cbn. destruct (decide (h0 = h)) as [->|N].
        - rewrite lookup_insert. assert (s0 = s) as -> by congruence. exists s1.
          split; [done|]. split; left; done.
        - rewrite lookup_insert_ne by done. apply NOP. by rewrite K4. }
    destruct (s_ui s1) as [u|] eqn:Hu; [|discriminate H].
    destruct (s_loc s1) as [l|] eqn:Hl; [|discriminate H].
    injection H as <- _. cbn. destruct (decide (h0 = h)) as [->|N].
    + rewrite lookup_insert. assert (s0 = s) as -> by congruence. eexists.
      split; [done|]. split; [by left|]. right. right. split; [done|]. exists fd.
      split; [exact (OP _ _ _ Hd)|]. right. by exists p.
    + rewrite lookup_insert_ne by done. apply NOP. by rewrite K4.
  - (* Shutdown *)
    unfold shutdown_call in H. destruct (in_range fd); [|injection H as <- <-; by apply NOP].
    cbn [negb] in H. destruct (negb _) eqn:Hw; [injection H as <- <-; by apply NOP|].
    apply on_sock_go in H as [[-> _]|(h0 & fl & s0 & _ & Hd & Hs0 & H)]; [by apply NOP|].
    injection H as <- <-.
    assert (D : n_sock (put_sock h0 (with_st (shut_state how (s_st s0)) s0) n) !! h =
                n_sock (if how =? SHUT_RDWR then
                   drop_fd c fd (put_sock h0 (with_st (shut_state how (s_st s0)) s0) n)
                   else put_sock h0 (with_st (shut_state how (s_st s0)) s0) n) !! h).
    { by destruct (how =? SHUT_RDWR). }
    rewrite <- D. cbn. destruct (decide (h0 = h)) as [->|N].
    + rewrite lookup_insert. assert (s0 = s) as -> by congruence. eexists.
      split; [done|]. split; [by left|]. right. left. exists fd, how.
      split_and!; [done|exact (OP _ _ _ Hd)|lia|done].
    + rewrite lookup_insert_ne by done. by apply NOP.
  - (* Setopt *)
    unfold setopt_call in H. destruct (in_range fd); [|injection H as <- <-; by apply NOP].
    cbn [negb] in H.
    apply on_sock_go in H as [[-> _]|(h0 & fl & s0 & _ & Hd & Hs0 & H)]; [by apply NOP|].
    assert (PUT : forall s1, keep s0 s1 -> n' = put_sock h0 s1 n ->
       exists s', n_sock n' !! h = Some s' /\ same_opt s s' /\ same_st s s').
    { intros s1 (K1 & K2 & K3) ->. cbn. destruct (decide (h0 = h)) as [->|N].
      - rewrite lookup_insert. assert (s0 = s) as -> by congruence. by exists s1.
      - rewrite lookup_insert_ne by done. by exists s. }
    assert (PUT' : forall s1, keep s0 s1 -> n' = put_sock h0 s1 n ->
       exists s', n_sock n' !! h = Some s' /\
         (same_opt s s' \/ exists fd0 lv opt0 v0, Setopt fd level opt v = Setopt fd0 lv opt0 v0 /\ opens n c fd0 h = true /\
      (lv = SOL_TCP /\ opt0 = TCP_NODELAY /\ s_opts s' = s_opts s /\ s_tcp s' = setbit (s_tcp s) opt0 v0 \/
       lv = SOL_SOCKET /\ opt0 ∈ [SO_LINGER; SO_KEEPALIVE; SO_REUSEPORT; SO_REUSEADDR] /\
         s_tcp s' = s_tcp s /\ s_opts s' = setbit (s_opts s) opt0 v0)) /\ same_st s s').
    { intros s1 K E. destruct (PUT s1 K E) as (s' & A & B & C). exists s'. auto. }
    destruct (level =? SOL_UDP); [injection H as <- <-; by apply NOP|].
    destruct (level =? SOL_TCP) eqn:E1.
    { destruct (opt =? TCP_NODELAY) eqn:E2; injection H as <- <-; [|by apply NOP].
      cbn. destruct (decide (h0 = h)) as [->|N].
      - rewrite lookup_insert. assert (s0 = s) as -> by congruence. eexists.
        split; [done|]. split; [|by left]. right. exists fd, level, opt, v.
        split_and!; [done|exact (OP _ _ _ Hd)|]. left. split_and!; [lia|lia|done|done].
      - rewrite lookup_insert_ne by done. by apply NOP. }
    destruct (level =? SOL_SOCKET) eqn:E2; [|injection H as <- <-; by apply NOP].
    destruct (bad_shift opt); [discriminate H|].
    destruct (bool_decide (opt ∈ [SO_ACCEPTCONN; SO_TYPE; SO_SNDLOWAT; SO_RCVLOWAT]));
      [injection H as <- <-; by apply NOP|].
    destruct (bool_decide (opt ∈ [SO_LINGER; SO_KEEPALIVE; SO_REUSEPORT; SO_REUSEADDR])) eqn:E3.
    { injection H as <- <-. cbn. apply bool_decide_eq_true in E3. destruct (decide (h0 = h)) as [->|N].
      - rewrite lookup_insert. assert (s0 = s) as -> by congruence. eexists.
        split; [done|]. split; [|by left]. right. exists fd, level, opt, v.
        split_and!; [done|exact (OP _ _ _ Hd)|]. right. split_and!; [lia|done|done|done].
      - rewrite lookup_insert_ne by done. by apply NOP. }
    destruct (opt =? SO_SNDBUF).
    { injection H as <- <-. destruct (PUT' (with_snd v s0)) as (s' & A & B & C); [done|done|].
      exists s'. split; [done|]. split; [done|by left]. }
    destruct (opt =? SO_RCVBUF).
    { injection H as <- <-. destruct (PUT' (with_rcv v s0)) as (s' & A & B & C); [done|done|].
      exists s'. split; [done|]. split; [done|by left]. }
    destruct (opt =? SO_OOBINLINE); injection H as <- <-; by apply NOP.
Qed.
