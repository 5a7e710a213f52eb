(** C83, C84: which socket calls bring the runtime down; whom a local connect
    reaches *)
From Verif Require Import Base NetModel NetSpec NetSpec2 NetThm NetAbort PropsNet.
Local Open Scope list_scope.
Local Open Scope Z_scope.

(** ** C83: no socket call aborts the runtime *)

(** Calls that create, name, configure or watch descriptors never abort, in
    any state, when their arguments are within range. *)
Theorem C83_setup_partial : forall n c o,
  reachable n -> args_ok o -> setup_call o = true -> ~ aborts n c o.
Proof. exact setup_lives. Qed.
Print Assumptions C83_setup_partial.

(** Calls that move data or ask for readiness never abort if every socket of
    the cage is unconnected, listens at an address, or has both streams. *)
Theorem C83_data_partial : forall n c o,
  reachable n -> args_ok o -> data_call o = true -> settled n c -> ~ aborts n c o.
Proof. exact data_lives. Qed.
Print Assumptions C83_data_partial.

Definition settledb (n : net) (c : Z) : bool :=
  forallb (fun x : (Z * Z) * desc =>
    match x with
    | ((c', _), DSock h _) =>
        negb (c' =? c) ||
        match n_sock n !! h with
        | Some s =>
            bool_decide (s_st s = NotConn) ||
            (bool_decide (s_st s = Listening) && bool_decide (is_Some (s_loc s))) ||
            (bool_decide (is_Some (from n h)) && bool_decide (is_Some (into n h))
             && negb (bool_decide (s_st s = Listening)))
        | None => false
        end
    | _ => true
    end) (map_to_list (n_fds n)).
Lemma settledb_ok n c : settledb n c = true -> settled n c.
Proof.
  unfold settledb. rewrite forallb_forall. intros H fd h O. unfold opens in O.
  destruct (n_fds n !! (c, fd)) as [[h' fl| | | |]|] eqn:Hd; try discriminate O. apply Z.eqb_eq in O as ->.
  assert (K : In ((c, fd), DSock h fl) (map_to_list (n_fds n))).
  { apply elem_of_list_In, elem_of_map_to_list, Hd. }
  apply H in K. rewrite Z.eqb_refl in K. cbn [negb orb] in K.
  destruct (n_sock n !! h) as [s|] eqn:Hs; [|discriminate K].
  rewrite !orb_true_iff, !andb_true_iff, negb_true_iff, !bool_decide_eq_true, bool_decide_eq_false in K.
  destruct K as [[K|[K [p Hp]]]|[[K1 K2] K3]].
  - left. by exists s.
  - right. left. split; [by exists s|]. exists p. by exists s.
  - right. right. split_and!; try done. intros (s' & Hs' & E). congruence.
Qed.

(** A connected pair, a listening socket and an unconnected one: receiving on
    the pair answers *)
Example C83_nonvacuous : exists n,
  run init_net (by1 (server ++ [Socketpair AF_UNIX SOCK_STREAM 0; Socket AF_UNIX SOCK_STREAM 0; Write 4 [7; 8]]))
    = Some (n, [Ret 3; Ret 0; Ret 0; Pair 4 5; Ret 6; Ret 2]) /\
  settled n 1 /\ args_ok (Recv 5 9 0) /\ says n 1 (Recv 5 9 0) = Answers (Data [7; 8]).
Proof.
  apply (net_ex _ _ (fun n => settledb n 1 && bool_decide (says n 1 (Recv 5 9 0) = Answers (Data [7; 8])))).
  - intros n H. apply andb_true_iff in H as [H1 H2]. split; [by apply settledb_ok|].
    split; [cbn; unfold MAXFD; lia|]. by apply bool_decide_eq_true in H2.
  - vm_compute. reflexivity.
Qed.

(** bind() to an address in use fails; connecting that socket brings the
    runtime down. *)
Theorem C83_connect_refuted : exists n,
  run init_net (by1 [Socket AF_UNIX SOCK_STREAM 0; Bind 3 A1; Socket AF_UNIX SOCK_STREAM 0; Bind 4 A1])
    = Some (n, [Ret 3; Ret 0; Ret 4; Ret (err EADDRINUSE)]) /\
  aborts n 1 (Connect 4 A1).
Proof. net1. Qed.
Print Assumptions C83_connect_refuted.

(** So does connecting a fresh socket after a file with the name the runtime
    will make up was created. *)
Theorem C83_connect_name_refuted : exists n,
  run init_net (by1 [Create (Auto 0); Socket AF_UNIX SOCK_STREAM 0; Bind 3 A1; Socket AF_UNIX SOCK_STREAM 0])
    = Some (n, [Ret 0; Ret 3; Ret 0; Ret 4]) /\
  aborts n 1 (Connect 4 A1).
Proof. net1. Qed.
Print Assumptions C83_connect_name_refuted.

Theorem C83_socketpair_refuted : exists n,
  run init_net (by1 [Create (Auto 0)]) = Some (n, [Ret 0]) /\
  aborts n 1 (Socketpair AF_UNIX SOCK_STREAM 0).
Proof. net1. Qed.
Print Assumptions C83_socketpair_refuted.

(** accept and select on a socket that listens without having been bound *)
Theorem C83_accept_refuted : exists n,
  run init_net (by1 [Socket AF_UNIX SOCK_STREAM 0; Listen 3]) = Some (n, [Ret 3; Ret 0]) /\
  aborts n 1 (Accept 3).
Proof. net1. Qed.
Print Assumptions C83_accept_refuted.
Theorem C83_select_refuted : exists n,
  run init_net (by1 [Socket AF_UNIX SOCK_STREAM 0; Listen 3]) = Some (n, [Ret 3; Ret 0]) /\
  aborts n 1 (Select 4 (Some {[ 3 ]}) None None true).
Proof. net1. Qed.
Print Assumptions C83_select_refuted.

(** A client's made-up name is unlinked before its connection is accepted: the
    first transfer on the accepted connection brings the runtime down. *)
Definition orphan : list nop :=
  server ++ [Socket AF_UNIX (SOCK_STREAM + SOCK_NONBLOCK) 0; Connect 4 A1; Unlink (Auto 0); Accept 3].
Theorem C83_transfer_refuted : exists n,
  run init_net (by1 orphan) = Some (n, [Ret 3; Ret 0; Ret 0; Ret 4; Ret 0; Ret 0; Ret 5]) /\
  aborts n 1 (Send 5 [1]) /\ aborts n 1 (Recv 5 1 0) /\
  aborts n 1 (Read 5 1) /\ aborts n 1 (Write 5 [1]) /\ aborts n 1 (Poll [(5, POLLIN)] true).
Proof.
  apply (net_ex _ _ (fun n => forallb (fun o => bool_decide (says n 1 o = Panics))
    [Send 5 [1]; Recv 5 1 0; Read 5 1; Write 5 [1]; Poll [(5, POLLIN)] true])).
  - intros n H. cbn [forallb] in H. rewrite !andb_true_iff, !bool_decide_eq_true in H.
    destruct H as (H1 & H2 & H3 & H4 & H5 & _). done.
  - vm_compute. reflexivity.
Qed.
Print Assumptions C83_transfer_refuted.

(** A bound socket is duplicated and both descriptors are closed, one after
    the other or by dup2 onto the second. *)
Theorem C83_close_refuted : exists n,
  run init_net (by1 [Socket AF_UNIX SOCK_STREAM 0; Bind 3 A1; Dup 3; Close 3])
    = Some (n, [Ret 3; Ret 0; Ret 4; Ret 0]) /\
  aborts n 1 (Close 4) /\ aborts n 1 (Dup2 0 4).
Proof.
  apply (net_ex _ _ (fun n => forallb (fun o => bool_decide (says n 1 o = Panics)) [Close 4; Dup2 0 4])).
  - intros n H. cbn [forallb] in H. rewrite !andb_true_iff, !bool_decide_eq_true in H.
    destruct H as (H1 & H2 & _). done.
  - vm_compute. reflexivity.
Qed.
Print Assumptions C83_close_refuted.

(** The same with the name unlinked: the next fork brings the runtime down. *)
Theorem C83_fork_refuted : exists n,
  run init_net (by1 [Socket AF_UNIX SOCK_STREAM 0; Bind 3 A1; Dup 3; Unlink A1; Close 3])
    = Some (n, [Ret 3; Ret 0; Ret 4; Ret 0; Ret 0]) /\
  aborts n 1 (Fork 2).
Proof. net1. Qed.
Print Assumptions C83_fork_refuted.

(** ** C84: a local connect reaches a listening socket *)

(** An address no bind() named: connect fails, no request appears, and no
    socket changes state. *)
Theorem C84_unbound_partial : forall l n xs k c fd n' x,
  run init_net l = Some (n, xs) -> gather (binds (User k)) init_net l = [] ->
  step n c (Connect fd (User k)) = Go n' x ->
  (exists e, x = Ret e /\ e < 0) /\ n_pend n' = n_pend n /\
  forall h st, sock_state n h st -> sock_state n' h st.
Proof.
  intros l n xs k c fd n' x R G. apply connect_unbound. apply (run_bound k l _ _ _ R G). set_solver.
Qed.
Print Assumptions C84_unbound_partial.

(** The same after the name was unlinked, until a bind() uses it again *)
Theorem C84_unlinked_partial : forall n0 c0 k n1 l n xs c fd n' x,
  step n0 c0 (Unlink (User k)) = Go n1 (Ret 0) ->
  run n1 l = Some (n, xs) -> gather (binds (User k)) n1 l = [] ->
  step n c (Connect fd (User k)) = Go n' x ->
  (exists e, x = Ret e /\ e < 0) /\ n_pend n' = n_pend n /\
  forall h st, sock_state n h st -> sock_state n' h st.
Proof.
  intros n0 c0 k n1 l n xs c fd n' x U R G. apply connect_unbound. apply (run_bound k l _ _ _ R G).
  exact (unlink_unbound _ _ _ _ U).
Qed.
Print Assumptions C84_unlinked_partial.

(** An unbound, then a bound and unlinked address *)
Example C84_nonvacuous :
  (exists n, run init_net (by1 (server ++ [Socket AF_UNIX SOCK_STREAM 0]))
     = Some (n, [Ret 3; Ret 0; Ret 0; Ret 4]) /\
   gather (binds A2) init_net (by1 (server ++ [Socket AF_UNIX SOCK_STREAM 0])) = [] /\
   says n 1 (Connect 4 A2) = Answers (Ret (err ENOENT))) /\
  (exists n, run init_net (by1 (server ++ [Socket AF_UNIX SOCK_STREAM 0; Unlink A1]))
     = Some (n, [Ret 3; Ret 0; Ret 0; Ret 4; Ret 0]) /\
   says n 1 (Connect 4 A1) = Answers (Ret (err ENOENT))).
Proof.
  split.
  - destruct (says_ex (by1 (server ++ [Socket AF_UNIX SOCK_STREAM 0])) [Ret 3; Ret 0; Ret 0; Ret 4] 1
      (Connect 4 A2) (Answers (Ret (err ENOENT)))) as (n & A & B); [vm_compute; reflexivity|].
    exists n. split; [exact A|]. split; [vm_compute; reflexivity|exact B].
  - net1.
Qed.

Definition listensb (n : net) (p : upath) : bool :=
  existsb (fun x : (Z * Z) * desc =>
    match x with
    | (_, DSock h _) =>
        match n_sock n !! h with
        | Some s => bool_decide (s_st s = Listening) && bool_decide (s_loc s = Some p)
        | None => false
        end
    | _ => false
    end) (map_to_list (n_fds n)).
Lemma listensb_ok n p : listensb n p = false -> ~ listens n p.
Proof.
  intros H (c & fd & h & O & (s & Hs & E) & (s' & Hs' & E')). rewrite Hs in Hs'. injection Hs' as <-.
  unfold opens in O. destruct (n_fds n !! (c, fd)) as [[h' fl| | | |]|] eqn:Hd; try discriminate O.
  apply Z.eqb_eq in O as ->. enough (listensb n p = true) by congruence.
  unfold listensb. rewrite existsb_exists. exists ((c, fd), DSock h fl). split.
  - apply elem_of_list_In, elem_of_map_to_list, Hd.
  - rewrite Hs, andb_true_iff, !bool_decide_eq_true. done.
Qed.
Lemma nolisten_ex l xs c o a p :
  ok_run init_net l (fun n ys => bool_decide (ys = xs) &&
    (negb (listensb n p) && bool_decide (says n c o = a))) = true ->
  exists n, run init_net l = Some (n, xs) /\ ~ listens n p /\ says n c o = a.
Proof.
  apply (net_ex l xs (fun n => negb (listensb n p) && bool_decide (says n c o = a))).
  intros n H. apply andb_true_iff in H as [H1 H2]. split; [by apply listensb_ok, negb_true_iff|].
  by apply bool_decide_eq_true in H2.
Qed.

(** The full statement fails.  The address belongs to a socket that does not
    listen: connect reports success. *)
Theorem C84_bound_refuted : exists n,
  run init_net (by1 [Socket AF_UNIX SOCK_STREAM 0; Bind 3 A1;
                     Socket AF_UNIX (SOCK_STREAM + SOCK_NONBLOCK) 0]) = Some (n, [Ret 3; Ret 0; Ret 4]) /\
  ~ listens n A1 /\ says n 1 (Connect 4 A1) = Answers (Ret 0).
Proof. apply nolisten_ex. vm_compute. reflexivity. Qed.
Print Assumptions C84_bound_refuted.

(** The listening socket was closed: connect reports success, or in blocking
    mode waits for an accept that nobody can make. *)
Theorem C84_closed_refuted : exists n,
  run init_net (by1 (server ++ [Close 3; Socket AF_UNIX (SOCK_STREAM + SOCK_NONBLOCK) 0]))
    = Some (n, [Ret 3; Ret 0; Ret 0; Ret 0; Ret 3]) /\
  ~ listens n A1 /\ says n 1 (Connect 3 A1) = Answers (Ret 0).
Proof. apply nolisten_ex. vm_compute. reflexivity. Qed.
Print Assumptions C84_closed_refuted.
Theorem C84_blocking_refuted : exists n,
  run init_net (by1 (server ++ [Close 3; Socket AF_UNIX SOCK_STREAM 0]))
    = Some (n, [Ret 3; Ret 0; Ret 0; Ret 0; Ret 3]) /\
  ~ listens n A1 /\ says n 1 (Connect 3 A1) = Answers (Waits 0).
Proof. apply nolisten_ex. vm_compute. reflexivity. Qed.
Print Assumptions C84_blocking_refuted.
