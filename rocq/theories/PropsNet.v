(** C57-C63: local stream sockets, readiness, epoll, options *)
From Verif Require Import Base NetModel NetSpec NetInv NetStep NetData NetKeep NetCalls NetReady NetReq NetThm.
From Verif Require Import PeekModel PeekProofs.
Local Open Scope list_scope.
Local Open Scope Z_scope.

(** ** Histories computed *)
Global Instance nout_eq : EqDecision nout.
Proof. solve_decision. Defined.
Global Instance ans_eq : EqDecision ans.
Proof. solve_decision. Defined.
(** Calls of cage 1 *)
Definition by1 (l : list nop) : list (Z * nop) := map (pair 1) l.
Definition ok_run (n : net) (l : list (Z * nop)) (k : net -> list nout -> bool) : bool :=
  match run n l with Some (n', xs) => k n' xs | None => false end.
Definition ok_step (n : net) (c : Z) (o : nop) (k : net -> nout -> bool) : bool :=
  match step n c o with Go n' x => k n' x | _ => false end.
Fixpoint alongb (f : net -> Z -> nop -> bool) (n : net) (l : list (Z * nop)) : bool :=
  match l with
  | [] => true
  | (c, o) :: l' => f n c o && match step n c o with Go n1 _ => alongb f n1 l' | _ => true end
  end.
Lemma ok_run_ex n l k : ok_run n l k = true -> exists n' xs, run n l = Some (n', xs) /\ k n' xs = true.
Proof. unfold ok_run. destruct (run n l) as [[n' xs]|]; [|done]. eauto. Qed.
Lemma ok_step_ex n c o k : ok_step n c o k = true -> exists n' x, step n c o = Go n' x /\ k n' x = true.
Proof. unfold ok_step. destruct (step n c o) as [n' x| |]; [|done|done]. eauto. Qed.
Lemma alongb_ok (P : net -> Z -> nop -> Prop) f l : (forall n c o, f n c o = true -> P n c o) ->
  forall n, alongb f n l = true -> along P n l.
Proof.
  intros HP. induction l as [|[c o] l IH]; intros n H; cbn in *; [done|].
  apply andb_true_iff in H as [H1 H2]. split; [by apply HP|].
  destruct (step n c o); [by apply IH|done|done].
Qed.
(** A history with the given answers, and what holds after it *)
Lemma net_ex l xs (chk : net -> bool) (P : net -> Prop) : (forall n, chk n = true -> P n) ->
  ok_run init_net l (fun n ys => bool_decide (ys = xs) && chk n) = true ->
  exists n, run init_net l = Some (n, xs) /\ P n.
Proof.
  intros HP H. apply ok_run_ex in H as (n & ys & R & K). apply andb_true_iff in K as [K1 K2].
  apply bool_decide_eq_true in K1 as ->. eauto.
Qed.
(** One more call *)
Lemma says_ex l xs c o a :
  ok_run init_net l (fun n ys => bool_decide (ys = xs) && bool_decide (says n c o = a)) = true ->
  exists n, run init_net l = Some (n, xs) /\ says n c o = a.
Proof. apply (net_ex l xs (fun n => bool_decide (says n c o = a))). intros n H. by apply bool_decide_eq_true in H. Qed.
Ltac net1 := apply says_ex; vm_compute; reflexivity.

Definition A1 : upath := User 1.
Definition A2 : upath := User 2.
(** A listening socket, descriptor 3, at [A1] *)
Definition server : list nop := [Socket AF_UNIX SOCK_STREAM 0; Bind 3 A1; Listen 3].

(** ** C57: peeking *)

(** Whatever is sent to socket [h] over its connection comes out of [h] in the
    same order, once: bytes not yet consumed, followed by what is sent, are
    what is consumed, followed by what is then still unread.  Peeks consume
    nothing.  (One system call at a time; the socket is not connected anew.) *)
Theorem C57_conserved_partial : forall n h p l n' xs,
  reachable n -> from n h = Some p -> along (no_connect h) n l -> run n l = Some (n', xs) ->
  unread n h p ++ gather (put_in p) n l = gather (took h) n l ++ unread n' h p.
Proof. exact conserved. Qed.
Print Assumptions C57_conserved_partial.

(** A peek returns a prefix of the unread bytes, and so does the receive that
    follows it: they agree. *)
Theorem C57_peek_next : forall n c fd h p len flags n1 bs c' fd' len' flags' n2 bs',
  reachable n -> from n h = Some p -> opens n c fd h = true -> hasbit flags MSG_PEEK = true ->
  step n c (Recv fd len flags) = Go n1 (Data bs) ->
  opens n1 c' fd' h = true -> step n1 c' (Recv fd' len' flags') = Go n2 (Data bs') ->
  bs = take (Z.to_nat len) (unread n h p) /\ bs' = take (Z.to_nat len') (unread n h p).
Proof. exact peek_next. Qed.
Print Assumptions C57_peek_next.

(** With several threads receiving from the socket: nothing is lost,
    duplicated or reordered if no receive that waited takes bytes while peeked
    ones are held. *)
Theorem C57_threads_partial : forall l s xs, prun pinit l = Some (s, xs) -> no_overlap pinit l ->
  mjoin (map psent l) = mjoin (map pgot xs) ++ k_last s ++ k_buf s.
Proof. exact threads_conserve. Qed.
Print Assumptions C57_threads_partial.
(** In particular if nobody peeks. *)
Theorem C57_threads_plain : forall l s xs, prun pinit l = Some (s, xs) -> Forall plain l ->
  mjoin (map psent l) = mjoin (map pgot xs) ++ k_last s ++ k_buf s.
Proof. exact threads_plain. Qed.
Print Assumptions C57_threads_plain.

(** A receive waits; a second thread peeks; the first then takes the bytes
    after the peeked ones: 1, 2 are sent and 2, 1 are received. *)
Theorem C57_threads_refuted : exists s,
  prun pinit [PRecv 1 1 false; PSend [1; 2]; PRecv 2 1 true; PRetry 1; PRecv 2 1 false]
    = Some (s, [Still; Sent; Got true [1]; Got false [2]; Got false [1]]).
Proof. eexists. vm_compute. reflexivity. Qed.
Print Assumptions C57_threads_refuted.

(** Bytes peeked on one connection are delivered on the next: 1, 2, 3 are sent
    and two of them peeked; the socket is shut down and connected to another
    peer, which sends 9; the receive returns 1, 2, 9. *)
Theorem C57_reconnect_refuted : exists n, run init_net (by1
    [Socketpair AF_UNIX SOCK_STREAM 0; Send 3 [1; 2; 3]; Recv 4 2 MSG_PEEK;
     Shutdown 4 SHUT_RD; Shutdown 4 SHUT_WR;
     Socket AF_UNIX SOCK_STREAM 0; Bind 5 A1; Listen 5; SetNb 4 true; Connect 4 A1; Accept 5;
     Send 6 [9]])
    = Some (n, [Pair 3 4; Ret 3; Data [1; 2]; Ret 0; Ret 0; Ret 5; Ret 0; Ret 0; Ret 0; Ret 0; Ret 6; Ret 1]) /\
  says n 1 (Recv 4 10 0) = Answers (Data [1; 2; 9]).
Proof. net1. Qed.
Print Assumptions C57_reconnect_refuted.

Definition nc (h : Z) (n : net) (c : Z) (o : nop) : bool := negb (connects h n c o).
Example C57_nonvacuous :
  exists n l n' xs, reachable n /\ from n 1 = Some 0 /\ along (no_connect 1) n l /\ run n l = Some (n', xs) /\
    unread n 1 0 = [5] /\ gather (put_in 0) n l = [1; 2; 3; 4] /\ gather (took 1) n l = [5; 1; 2; 3] /\ unread n' 1 0 = [4].
Proof.
  destruct (net_ex (by1 [Socketpair AF_UNIX SOCK_STREAM 0; Send 3 [5]]) [Pair 3 4; Ret 1]
    (fun n => let l := by1 [Send 3 [1; 2; 3; 4]; Recv 4 2 MSG_PEEK; Recv 4 2 0; Recv 4 3 MSG_PEEK; Recv 4 2 0] in
      bool_decide (from n 1 = Some 0) && alongb (nc 1) n l && bool_decide (unread n 1 0 = [5]) &&
      bool_decide (gather (put_in 0) n l = [1; 2; 3; 4]) && bool_decide (gather (took 1) n l = [5; 1; 2; 3]) &&
      ok_run n l (fun n' xs => bool_decide (unread n' 1 0 = [4])))
    (fun n => exists l n' xs, from n 1 = Some 0 /\ along (no_connect 1) n l /\ run n l = Some (n', xs) /\
      unread n 1 0 = [5] /\ gather (put_in 0) n l = [1; 2; 3; 4] /\ gather (took 1) n l = [5; 1; 2; 3] /\ unread n' 1 0 = [4]))
    as (n & R & l & n' & xs & H).
  - intros n H. cbv zeta in H. rewrite !andb_true_iff, !bool_decide_eq_true in H.
    destruct H as (((((H1 & H2) & H3) & H4) & H5) & H6).
    apply ok_run_ex in H6 as (n' & xs & R & H6). apply bool_decide_eq_true in H6.
    eexists _, n', xs. split_and!; try exact R; try assumption.
    apply (alongb_ok _ (nc 1)); [|exact H2]. intros m c o E. unfold no_connect. by apply negb_true_iff.
  - vm_compute. reflexivity.
  - exists n, l, n', xs. split; [|exact H]. eexists _, _. exact R.
Qed.
(** Two peeks wait; the second is woken while the first one's bytes are held. *)
Example C57_threads_nonvacuous : exists s,
  prun pinit [PRecv 1 2 true; PRecv 3 1 true; PSend [1; 2; 3]; PRetry 1; PRetry 3; PRecv 2 1 false; PRecv 1 3 false]
    = Some (s, [Still; Still; Sent; Got true [1; 2]; Got true [3]; Got false [1]; Got false [2; 3]]) /\
  no_overlap pinit [PRecv 1 2 true; PRecv 3 1 true; PSend [1; 2; 3]; PRetry 1; PRetry 3; PRecv 2 1 false; PRecv 1 3 false].
Proof.
  eexists. split; [vm_compute; reflexivity|]. vm_compute. repeat split.
  - intros [[len H] _]. discriminate H.
Qed.

(** ** C58: shutdown *)

(** After the sending side of a connected socket is shut down, every send on
    it fails and the unread bytes can still be received - until the next
    shutdown of that socket. *)
Theorem C58_shut_wr : forall n c fd h n1 l n2 xs,
  reachable n -> opens n c fd h = true -> sock_state n h Conn ->
  step n c (Shutdown fd SHUT_WR) = Go n1 (Ret 0) -> run n1 l = Some (n2, xs) ->
  along (no_shutdown h) n1 l -> forall c' fd', 0 <= fd' < MAXFD -> opens n2 c' fd' h = true ->
  (forall bs, step n2 c' (Send fd' bs) = Go n2 (Ret (err ENOTCONN))) /\
  (forall bs, step n2 c' (Write fd' bs) = Go n2 (Ret (err ENOTCONN))) /\
  (forall p len flags, from n2 h = Some p -> 0 < len -> unread n2 h p <> [] ->
    exists n3, step n2 c' (Recv fd' len flags) = Go n3 (Data (take (Z.to_nat len) (unread n2 h p)))).
Proof. exact shut_wr. Qed.
Print Assumptions C58_shut_wr.
(** The same for the receiving side. *)
Theorem C58_shut_rd : forall n c fd h n1 l n2 xs,
  reachable n -> opens n c fd h = true -> sock_state n h Conn ->
  step n c (Shutdown fd SHUT_RD) = Go n1 (Ret 0) -> run n1 l = Some (n2, xs) ->
  along (no_shutdown h) n1 l -> forall c' fd', 0 <= fd' < MAXFD -> opens n2 c' fd' h = true ->
  (forall len flags, step n2 c' (Recv fd' len flags) = Go n2 (Ret (err ENOTCONN))) /\
  (forall len, step n2 c' (Read fd' len) = Go n2 (Ret (err ENOTCONN))) /\
  (forall p bs, into n2 h = Some p -> takes n2 p -> bs <> [] -> exists n3 k, 0 < k /\
    (step n2 c' (Send fd' bs) = Go n3 (Ret k) \/ step n2 c' (Send fd' bs) = Go n3 (More k))).
Proof. exact shut_rd. Qed.
Print Assumptions C58_shut_rd.
(** Both directions, in either order or at once: no send and no receive until
    the socket is connected or shut down again. *)
Theorem C58_shut_both : forall n c fd h n1 l n2 xs c' fd' how how' n3 l' n4 ys,
  reachable n -> opens n c fd h = true -> sock_state n h Conn ->
  step n c (Shutdown fd how) = Go n1 (Ret 0) -> run n1 l = Some (n2, xs) ->
  along (no_shutdown h) n1 l -> opens n2 c' fd' h = true ->
  step n2 c' (Shutdown fd' how') = Go n3 (Ret 0) -> run n3 l' = Some (n4, ys) ->
  along (fun m c o => no_shutdown h m c o /\ no_connect h m c o) n3 l' ->
  how = SHUT_RD /\ how' = SHUT_WR \/ how = SHUT_WR /\ how' = SHUT_RD \/ how' = SHUT_RDWR ->
  forall c2 fd2, 0 <= fd2 < MAXFD -> opens n4 c2 fd2 h = true ->
  (forall bs, step n4 c2 (Send fd2 bs) = Go n4 (Ret (err ENOTCONN))) /\
  (forall bs, step n4 c2 (Write fd2 bs) = Go n4 (Ret (err ENOTCONN))) /\
  (forall len flags, step n4 c2 (Recv fd2 len flags) = Go n4 (Ret (err ENOTCONN))) /\
  (forall len, step n4 c2 (Read fd2 len) = Go n4 (Ret (err ENOTCONN))).
Proof. exact shut_both. Qed.
Print Assumptions C58_shut_both.

(** The peer of a socket whose sending side was shut down waits for ever
    instead of reading end of file; so does the peer after SHUT_RDWR, which
    also takes the descriptor away. *)
Theorem C58_end_of_file_refuted :
  (exists n, run init_net (by1 [Socketpair AF_UNIX SOCK_STREAM 0; Shutdown 3 SHUT_WR])
      = Some (n, [Pair 3 4; Ret 0]) /\ says n 1 (Recv 4 1 0) = Waiting) /\
  (exists n, run init_net (by1 [Socketpair AF_UNIX SOCK_STREAM 0; Shutdown 3 SHUT_RDWR; Close 3])
      = Some (n, [Pair 3 4; Ret 0; Ret (err EBADF)]) /\ says n 1 (Recv 4 1 0) = Waiting) /\
  (exists n, run init_net (by1 [Socketpair AF_UNIX SOCK_STREAM 0; Close 3])
      = Some (n, [Pair 3 4; Ret 0]) /\ says n 1 (Recv 4 1 0) = Answers (Data [])).
Proof. split_and!; net1. Qed.
Print Assumptions C58_end_of_file_refuted.
(** A third shutdown opens a direction again. *)
Theorem C58_revived_refuted : exists n, run init_net (by1
    [Socketpair AF_UNIX SOCK_STREAM 0; Shutdown 3 SHUT_RD; Shutdown 3 SHUT_WR; Send 3 [7]; Shutdown 3 SHUT_RD; Send 3 [7]])
    = Some (n, [Pair 3 4; Ret 0; Ret 0; Ret (err ENOTCONN); Ret 0; Ret 1]) /\
  says n 1 (Recv 4 1 0) = Answers (Data [7]).
Proof. net1. Qed.
Print Assumptions C58_revived_refuted.
(** Shutting down a socket that was never connected succeeds and makes the
    next send panic. *)
Theorem C58_unconnected_refuted : exists n,
  run init_net (by1 [Socket AF_UNIX SOCK_STREAM 0; Send 3 [1]; Shutdown 3 SHUT_RD])
    = Some (n, [Ret 3; Ret (err ENOTCONN); Ret 0]) /\ says n 1 (Send 3 [1]) = Panics.
Proof. net1. Qed.
Print Assumptions C58_unconnected_refuted.

Definition stateb (n : net) (h : Z) (st : cstate) : bool :=
  match n_sock n !! h with Some s => bool_decide (s_st s = st) | None => false end.
Lemma stateb_ok n h st : stateb n h st = true -> sock_state n h st.
Proof. unfold stateb. destruct (n_sock n !! h) as [s|] eqn:E; [|done]. intros H. apply bool_decide_eq_true in H. by exists s. Qed.
Definition ns (h : Z) (n : net) (c : Z) (o : nop) : bool := negb (shuts h n c o).
(** Socket 0 is connected, its two directions are shut down one after the
    other with traffic in between. *)
Example C58_nonvacuous : exists n n1 l n2 xs n3,
  reachable n /\ opens n 1 3 0 = true /\ sock_state n 0 Conn /\
  step n 1 (Shutdown 3 SHUT_WR) = Go n1 (Ret 0) /\ run n1 l = Some (n2, xs) /\ along (no_shutdown 0) n1 l /\
  opens n2 1 3 0 = true /\ from n2 0 = Some 1 /\ unread n2 0 1 = [8; 9] /\
  step n2 1 (Shutdown 3 SHUT_RD) = Go n3 (Ret 0) /\ opens n3 1 3 0 = true.
Proof.
  destruct (net_ex (by1 [Socketpair AF_UNIX SOCK_STREAM 0; Send 4 [8]]) [Pair 3 4; Ret 1]
    (fun n => let l := by1 [Send 4 [9]; Recv 3 1 MSG_PEEK; Send 3 [1]] in
      opens n 1 3 0 && stateb n 0 Conn && ok_step n 1 (Shutdown 3 SHUT_WR) (fun n1 x =>
        bool_decide (x = Ret 0) && alongb (ns 0) n1 l && ok_run n1 l (fun n2 xs =>
          opens n2 1 3 0 && bool_decide (from n2 0 = Some 1) && bool_decide (unread n2 0 1 = [8; 9]) &&
          ok_step n2 1 (Shutdown 3 SHUT_RD) (fun n3 y => bool_decide (y = Ret 0) && opens n3 1 3 0))))
    (fun n => exists n1 l n2 xs n3, opens n 1 3 0 = true /\ sock_state n 0 Conn /\
      step n 1 (Shutdown 3 SHUT_WR) = Go n1 (Ret 0) /\ run n1 l = Some (n2, xs) /\ along (no_shutdown 0) n1 l /\
      opens n2 1 3 0 = true /\ from n2 0 = Some 1 /\ unread n2 0 1 = [8; 9] /\
      step n2 1 (Shutdown 3 SHUT_RD) = Go n3 (Ret 0) /\ opens n3 1 3 0 = true))
    as (n & R & n1 & l & n2 & xs & n3 & H).
  - intros n H. cbv zeta in H. rewrite !andb_true_iff in H. destruct H as ((H1 & H2) & H3).
    apply stateb_ok in H2. apply ok_step_ex in H3 as (n1 & x & S1 & H3). rewrite !andb_true_iff in H3.
    destruct H3 as ((H3 & H4) & H5). apply bool_decide_eq_true in H3 as ->.
    apply ok_run_ex in H5 as (n2 & xs & R2 & H5). rewrite !andb_true_iff, !bool_decide_eq_true in H5.
    destruct H5 as (((H5 & H6) & H7) & H8). apply ok_step_ex in H8 as (n3 & y & S3 & H8).
    apply andb_true_iff in H8 as [H8 H9]. apply bool_decide_eq_true in H8 as ->.
    eexists n1, _, n2, xs, n3. split_and!; try exact R2; try assumption.
    apply (alongb_ok _ (ns 0)); [|exact H4]. intros m c o E. unfold no_shutdown. by apply negb_true_iff.
  - vm_compute. reflexivity.
  - exists n, n1, l, n2, xs, n3. split; [|exact H]. eexists _, _. exact R.
Qed.

(** ** C59: connection requests *)

(** Over every history: no request is handed to two accepts; only requests
    that were issued are handed over; a blocking connect returns only after
    its request was handed over, and once. *)
Theorem C59_at_most_once : forall l n xs, run init_net l = Some (n, xs) ->
  NoDup (gather serves init_net l) /\
  (forall r, r ∈ gather serves init_net l -> r ∈ gather issues init_net l) /\
  (forall r, r ∈ gather returns init_net l -> r ∈ gather serves init_net l) /\
  NoDup (gather issues init_net l) /\ NoDup (gather returns init_net l).
Proof. exact at_most_once. Qed.
Print Assumptions C59_at_most_once.
(** If no connect goes to an address where another request is still waiting,
    every request is handed over or still waiting. *)
Theorem C59_not_lost_partial : forall l n xs, run init_net l = Some (n, xs) -> along no_rival init_net l ->
  forall r, r ∈ gather issues init_net l ->
  r ∈ gather serves init_net l \/ exists a q, n_pend n !! a = Some q /\ q_req q = r.
Proof. exact none_lost. Qed.
Print Assumptions C59_not_lost_partial.
(** A request waiting at the address of a bound, listening socket is handed
    over by the next accept on it, if its client waits or does not want to,
    and the table has room. *)
Theorem C59_accept_takes : forall n c fd h fl s l q, reachable n -> 0 <= fd < MAXFD ->
  n_fds n !! (c, fd) = Some (DSock h fl) -> n_sock n !! h = Some s -> s_st s = Listening ->
  s_ui s <> None -> s_loc s = Some l -> n_pend n !! l = Some q -> q_cond q <> Some false ->
  space n c 1 ->
  exists n' k, step n c (Accept fd) = Go n' (Ret k) /\ serves n c (Accept fd) (Ret k) = [q_req q].
Proof. exact accept_takes. Qed.
Print Assumptions C59_accept_takes.
(** The descriptor that accept returns is the other end of the connection of
    the client whose request it took: what one sends the other receives. *)
Theorem C59_matched : forall n c fd p n1 x r h l n2 xs c2 fd2 n3 k, reachable n ->
  step n c (Connect fd p) = Go n1 x -> issues n c (Connect fd p) x = [r] -> opens n c fd h = true ->
  run n1 l = Some (n2, xs) ->
  step n2 c2 (Accept fd2) = Go n3 (Ret k) -> serves n2 c2 (Accept fd2) (Ret k) = [r] ->
  (forall a, bound_to n1 h a -> is_Some (n_names n2 !! a)) ->
  exists h' a b, opens n3 c2 k h' = true /\ from n3 h' = Some a /\ into n1 h = Some a /\
    into n3 h' = Some b /\ from n1 h = Some b.
Proof. exact matched'. Qed.
Print Assumptions C59_matched.

Lemma lost_says n c r : lost n r -> says n c (ConnDone r) = Waiting.
Proof. intros L. unfold says. by rewrite (lost_blocks n c r L). Qed.
Definition lostb (n : net) (r : Z) : bool :=
  (r <? n_req n) && bool_decide (r ∉ n_woken n) &&
  forallb (fun x => negb (q_req x.2 =? r)) (map_to_list (n_pend n)).
Lemma lostb_ok n r : lostb n r = true -> lost n r.
Proof.
  unfold lostb. rewrite !andb_true_iff, bool_decide_eq_true, forallb_forall. intros [[H1 H2] H3].
  split_and!; [lia|done|]. intros l q Hq E. apply elem_of_map_to_list, elem_of_list_In in Hq.
  apply H3 in Hq. cbn in Hq. rewrite E, Z.eqb_refl in Hq. discriminate Hq.
Qed.
(** Two clients connect before the server accepts.  The second request takes
    the place of the first; the first connect never returns, whatever happens
    afterwards. *)
Theorem C59_two_clients_refuted : exists n, run init_net (by1 (server ++
    [Socket AF_UNIX SOCK_STREAM 0; Socket AF_UNIX SOCK_STREAM 0; Connect 4 A1; ConnWait 0; Connect 5 A1; ConnWait 1;
     Accept 3; ConnDone 1]))
    = Some (n, [Ret 3; Ret 0; Ret 0; Ret 4; Ret 5; Waits 0; Waits 0; Waits 1; Waits 1; Ret 6; Ret 0]) /\
  forall l n' xs c, run n l = Some (n', xs) ->
    0 ∉ gather serves n l /\ says n' c (ConnDone 0) = Waiting.
Proof.
  apply (net_ex _ _ (fun n => lostb n 0)); [|vm_compute; reflexivity].
  intros n H l n' xs c R. apply lostb_ok in H. destruct (run_lost _ _ _ _ _ H R) as (A & B & _).
  split; [exact B|]. exact (lost_says _ _ _ A).
Qed.
Print Assumptions C59_two_clients_refuted.
(** The same without waiting: both connects report success, one accept
    succeeds, the first client's data reaches nobody and no later accept takes
    its request. *)
Theorem C59_two_clients_nonblocking_refuted : exists n, run init_net (by1 (server ++
    [Socket AF_UNIX (SOCK_STREAM + SOCK_NONBLOCK) 0; Socket AF_UNIX (SOCK_STREAM + SOCK_NONBLOCK) 0;
     Connect 4 A1; Connect 5 A1; Send 4 [1]; Send 5 [2]; Accept 3]))
    = Some (n, [Ret 3; Ret 0; Ret 0; Ret 4; Ret 5; Ret 0; Ret 0; Ret 1; Ret 1; Ret 6]) /\
  says n 1 (Recv 6 10 0) = Answers (Data [2]) /\ says n 1 (Accept 3) = Waiting /\
  forall l n' xs, run n l = Some (n', xs) -> 0 ∉ gather serves n l.
Proof.
  apply (net_ex _ _ (fun n => bool_decide (says n 1 (Recv 6 10 0) = Answers (Data [2])) &&
    bool_decide (says n 1 (Accept 3) = Waiting) && lostb n 0)); [|vm_compute; reflexivity].
  intros n H. rewrite !andb_true_iff, !bool_decide_eq_true in H. destruct H as ((H1 & H2) & H3).
  split_and!; [exact H1|exact H2|]. intros l n' xs R.
  by destruct (run_lost _ _ _ _ _ (lostb_ok _ _ H3) R) as (_ & B & _).
Qed.
Print Assumptions C59_two_clients_nonblocking_refuted.
(** A client that removes its name before it is accepted: the accept succeeds
    and returns a descriptor whose first receive panics. *)
Theorem C59_unlinked_client_refuted : exists n, run init_net (by1 (server ++
    [Socket AF_UNIX (SOCK_STREAM + SOCK_NONBLOCK) 0; Bind 4 A2; Connect 4 A1; Unlink A2; Accept 3]))
    = Some (n, [Ret 3; Ret 0; Ret 0; Ret 4; Ret 0; Ret 0; Ret 0; Ret 5]) /\
  says n 1 (Recv 5 1 0) = Panics.
Proof. net1. Qed.
Print Assumptions C59_unlinked_client_refuted.

(** A client in another cage is served, and bytes go both ways. *)
Example C59_nonvacuous : exists n,
  run init_net (by1 (server ++ [Fork 2]) ++
    [(2, Socket AF_UNIX SOCK_STREAM 0); (2, Connect 4 A1); (2, ConnWait 0); (1, Accept 3); (2, ConnDone 0);
     (2, Send 4 [1; 2]); (1, Recv 4 5 0); (1, Send 4 [3])])
    = Some (n, [Ret 3; Ret 0; Ret 0; Ret 0; Ret 4; Waits 0; Waits 0; Ret 4; Ret 0; Ret 2; Data [1; 2]; Ret 1]) /\
  says n 2 (Recv 4 5 0) = Answers (Data [3]).
Proof. apply says_ex. vm_compute. reflexivity. Qed.
Definition nrb (n : net) (c : Z) (o : nop) : bool :=
  match o with Connect _ p => bool_decide (n_pend n !! p = None) | _ => true end.
Example C59_no_rival_nonvacuous : exists l n xs, run init_net l = Some (n, xs) /\ along no_rival init_net l /\
  gather issues init_net l = [0; 1] /\ gather serves init_net l = [0] /\ gather returns init_net l = [0].
Proof.
  set (l := by1 (server ++ [Socket AF_UNIX SOCK_STREAM 0; Connect 4 A1; ConnWait 0; Accept 3; ConnDone 0;
     Socket AF_UNIX SOCK_STREAM 0; Connect 6 A1])).
  assert (H : ok_run init_net l (fun n xs => true) = true) by (vm_compute; reflexivity).
  apply ok_run_ex in H as (n & xs & R & _). exists l, n, xs. split; [exact R|]. split_and!.
  - apply (alongb_ok _ nrb); [|vm_compute; reflexivity]. clear. intros m c o E. destruct o; try exact I.
    cbn in E. by apply bool_decide_eq_true in E.
  - vm_compute. reflexivity.
  - vm_compute. reflexivity.
  - vm_compute. reflexivity.
Qed.
Definition spaceb (n : net) (c : Z) (l : list Z) : bool :=
  bool_decide (NoDup l) &&
  forallb (fun fd => (0 <=? fd) && (fd <? MAXFD) && bool_decide (n_fds n !! (c, fd) = None)) l.
Lemma spaceb_ok n c l k : spaceb n c l = true -> length l = k -> space n c k.
Proof.
  unfold spaceb. rewrite andb_true_iff, bool_decide_eq_true, forallb_forall. intros [H1 H2] L.
  exists l. split_and!; [done|done|]. intros fd Hf. apply elem_of_list_In, H2 in Hf.
  rewrite !andb_true_iff, bool_decide_eq_true in Hf. destruct Hf as [Hf E]. split; [lia|].
  intros [d Hd]. congruence.
Qed.
(** The hypotheses of [C59_accept_takes] and [C59_matched]: a client has
    connected without waiting and sent something. *)
Example C59_accept_nonvacuous : exists n h fl s l q, reachable n /\
  n_fds n !! (1, 3) = Some (DSock h fl) /\ n_sock n !! h = Some s /\ s_st s = Listening /\
  s_ui s <> None /\ s_loc s = Some l /\ n_pend n !! l = Some q /\ q_cond q <> Some false /\ space n 1 1.
Proof.
  destruct (net_ex (by1 (server ++ [Socket AF_UNIX (SOCK_STREAM + SOCK_NONBLOCK) 0; Connect 4 A1]))
    [Ret 3; Ret 0; Ret 0; Ret 4; Ret 0]
    (fun n => match n_fds n !! (1, 3) with
       | Some (DSock h fl) => match n_sock n !! h with
           | Some s => match s_loc s with
               | Some l => match n_pend n !! l with
                   | Some q => bool_decide (s_st s = Listening) && (if s_ui s then true else false) &&
                       bool_decide (q_cond q <> Some false) && spaceb n 1 [100]
                   | None => false end
               | None => false end
           | None => false end
       | _ => false end)
    (fun n => exists h fl s l q, n_fds n !! (1, 3) = Some (DSock h fl) /\ n_sock n !! h = Some s /\ s_st s = Listening /\
       s_ui s <> None /\ s_loc s = Some l /\ n_pend n !! l = Some q /\ q_cond q <> Some false /\ space n 1 1))
    as (n & R & h & fl & s & l & q & H).
  - intros n H. destruct (n_fds n !! (1, 3)) as [[h fl| | | |]|] eqn:E1; try discriminate H.
    destruct (n_sock n !! h) as [s|] eqn:E2; [|discriminate H].
    destruct (s_loc s) as [l|] eqn:E3; [|discriminate H].
    destruct (n_pend n !! l) as [q|] eqn:E4; [|discriminate H].
    rewrite !andb_true_iff, !bool_decide_eq_true in H. destruct H as (((H1 & H2) & H3) & H4).
    exists h, fl, s, l, q. split_and!; try assumption; try reflexivity.
    + intros F. rewrite F in H2. discriminate H2.
    + exact (spaceb_ok _ _ _ 1 H4 eq_refl).
  - vm_compute. reflexivity.
  - exists n, h, fl, s, l, q. split; [|exact H]. eexists _, _. exact R.
Qed.
Example C59_matched_nonvacuous : exists n n1 l n2 xs n3, reachable n /\
  step n 1 (Connect 4 A1) = Go n1 (Ret 0) /\ issues n 1 (Connect 4 A1) (Ret 0) = [0] /\ opens n 1 4 1 = true /\
  run n1 l = Some (n2, xs) /\ l <> [] /\
  step n2 1 (Accept 3) = Go n3 (Ret 5) /\ serves n2 1 (Accept 3) (Ret 5) = [0] /\
  (forall a, bound_to n1 1 a -> is_Some (n_names n2 !! a)).
Proof.
  destruct (net_ex (by1 (server ++ [Socket AF_UNIX (SOCK_STREAM + SOCK_NONBLOCK) 0])) [Ret 3; Ret 0; Ret 0; Ret 4]
    (fun n => opens n 1 4 1 && bool_decide (issues n 1 (Connect 4 A1) (Ret 0) = [0]) &&
      ok_step n 1 (Connect 4 A1) (fun n1 x => bool_decide (x = Ret 0) &&
        ok_run n1 (by1 [Send 4 [1; 2]]) (fun n2 xs => bool_decide (serves n2 1 (Accept 3) (Ret 5) = [0]) &&
          match n_sock n1 !! 1 with
          | Some s => match s_loc s with Some a => bool_decide (is_Some (n_names n2 !! a)) | None => false end
          | None => false end &&
          ok_step n2 1 (Accept 3) (fun n3 y => bool_decide (y = Ret 5)))))
    (fun n => exists n1 l n2 xs n3, step n 1 (Connect 4 A1) = Go n1 (Ret 0) /\
      issues n 1 (Connect 4 A1) (Ret 0) = [0] /\ opens n 1 4 1 = true /\
      run n1 l = Some (n2, xs) /\ l <> [] /\
      step n2 1 (Accept 3) = Go n3 (Ret 5) /\ serves n2 1 (Accept 3) (Ret 5) = [0] /\
      (forall a, bound_to n1 1 a -> is_Some (n_names n2 !! a))))
    as (n & R & n1 & l & n2 & xs & n3 & H).
  - intros n H. rewrite !andb_true_iff, !bool_decide_eq_true in H. destruct H as ((H1 & H2) & H3).
    apply ok_step_ex in H3 as (n1 & x & S1 & H3). apply andb_true_iff in H3 as [H3 H4].
    apply bool_decide_eq_true in H3 as ->. apply ok_run_ex in H4 as (n2 & xs & R2 & H4).
    rewrite !andb_true_iff, !bool_decide_eq_true in H4. destruct H4 as ((H4 & H5) & H6).
    apply ok_step_ex in H6 as (n3 & y & S3 & H6). apply bool_decide_eq_true in H6 as ->.
    eexists n1, _, n2, xs, n3. split_and!; try exact R2; try assumption; [discriminate|].
    intros a (s & Hs & Ha). rewrite Hs, Ha in H5. by apply bool_decide_eq_true in H5.
  - vm_compute. reflexivity.
  - exists n, n1, l, n2, xs, n3. split; [|exact H]. eexists _, _. exact R.
Qed.

(** ** C60: readiness *)

(** [select]: the state is unchanged, the count is the number of reported
    descriptors, only requested ones are reported; of the requested read ends
    of pipes and connected sockets not peeked at, exactly those are reported
    on which a read returns at once, and the others are those on which it
    would wait; of the requested non-blocking listeners, exactly those on
    which accept does not fail with EAGAIN; a write on a reported pipe does
    not wait. *)
Theorem C60_select_partial : forall n c nfds r w e late n' k rs ws,
  step n c (Select nfds r w e late) = Go n' (Sets k rs ws) ->
  n' = n /\ k = osize rs + osize ws /\
  (forall fd, within fd rs -> within fd r /\ 0 <= fd < nfds) /\
  (forall fd, within fd ws -> within fd w /\ 0 <= fd < nfds) /\
  (forall fd, 0 <= fd < nfds -> within fd r -> plain_reader n c fd ->
     (within fd rs <-> read_now n c fd) /\ (~ within fd rs <-> read_waits n c fd)) /\
  (forall fd, 0 <= fd < nfds -> within fd r -> nb_listener n c fd -> space n c 1 ->
     (~ within fd rs <-> step n c (Accept fd) = Go n (Ret (err EAGAIN)))) /\
  (forall fd bs, within fd ws -> pipe_writer n c fd -> step n c (Write fd bs) <> Block /\
     step n c (Write fd bs) <> Go n (Ret (err EAGAIN))).
Proof. exact select_answer. Qed.
Print Assumptions C60_select_partial.
(** [select] waits only while it has to. *)
Theorem C60_select_waits : forall n c nfds r w e late, step n c (Select nfds r w e late) = Block ->
  late = false /\ forall fd, 0 <= fd < nfds -> within fd r ->
  (plain_reader n c fd -> read_waits n c fd) /\
  (nb_listener n c fd -> space n c 1 -> step n c (Accept fd) = Go n (Ret (err EAGAIN))).
Proof. exact select_waits. Qed.
Print Assumptions C60_select_waits.
(** [poll]: one result per entry, the count is the number of non-zero ones.
    POLLIN, POLLOUT, POLLPRI only if asked for; POLLIN exactly when a read
    returns at once; POLLNVAL only for descriptors that are not open. *)
Theorem C60_poll_partial : forall n c l late n' k rs, step n c (Poll l late) = Go n' (Polled k rs) ->
  n' = n /\ length rs = length l /\ k = Z.of_nat (length (List.filter (fun r => negb (r =? 0)) rs)) /\
  forall i fd ev r, l !! i = Some (fd, ev) -> rs !! i = Some r ->
  (hasbit r POLLIN = true -> reqd ev POLLIN /\ (plain_reader n c fd -> read_now n c fd)) /\
  (reqd ev POLLIN -> plain_reader n c fd -> 0 <= fd -> hasbit r POLLIN = false -> read_waits n c fd) /\
  (hasbit r POLLOUT = true -> reqd ev POLLOUT /\ (pipe_writer n c fd -> forall bs,
     step n c (Write fd bs) <> Block /\ step n c (Write fd bs) <> Go n (Ret (err EAGAIN)))) /\
  (hasbit r POLLPRI = true -> reqd ev POLLPRI) /\
  (hasbit r POLLNVAL = true -> ~ is_open n c fd) /\
  Z.land r (Z.lnot (POLLIN + POLLOUT + POLLPRI + POLLNVAL)) = 0.
Proof. exact poll_answer. Qed.
Print Assumptions C60_poll_partial.
Theorem C60_poll_waits : forall n c l late, step n c (Poll l late) = Block ->
  late = false /\ forall fd ev, (fd, ev) ∈ l -> 0 <= fd -> reqd ev POLLIN -> plain_reader n c fd ->
  read_waits n c fd.
Proof. exact poll_waits. Qed.
Print Assumptions C60_poll_waits.
(** [epoll_wait]: at most [max] events, each for a watched, open descriptor,
    with its user data and only events asked for. *)
Theorem C60_epoll_partial : forall n c ep max late n' k evs,
  step n c (Ewait ep max late) = Go n' (Events k evs) ->
  k = Z.of_nat (length evs) /\ 0 <= k <= max /\
  (forall fd, watched n' c ep fd = if decide (is_open n c fd) then watched n c ep fd else None) /\
  (forall e d, (e, d) ∈ evs -> exists fd ev,
     watched n c ep fd = Some (ev, d) /\ is_open n c fd /\ e <> 0 /\
     (hasbit e POLLIN = true -> reqd ev POLLIN /\ (0 <= fd < MAXFD -> plain_reader n c fd -> read_now n c fd)) /\
     (hasbit e POLLOUT = true -> reqd ev POLLOUT /\ (0 <= fd < MAXFD -> pipe_writer n c fd -> forall bs,
        step n c (Write fd bs) <> Block /\ step n c (Write fd bs) <> Go n (Ret (err EAGAIN)))) /\
     (hasbit e POLLPRI = true -> reqd ev POLLPRI)).
Proof. exact ewait_answer. Qed.
Print Assumptions C60_epoll_partial.

(** Data that was peeked at is not reported although a read returns it; nor is
    data on a socket whose sending side was shut down. *)
Theorem C60_unreported_data_refuted :
  (exists n, run init_net (by1 [Socketpair AF_UNIX SOCK_STREAM 0; Send 3 [1]; Recv 4 1 MSG_PEEK; Poll [(4, POLLIN)] true])
      = Some (n, [Pair 3 4; Ret 1; Data [1]; Polled 0 [0]]) /\ says n 1 (Read 4 1) = Answers (Data [1])) /\
  (exists n, run init_net (by1 [Socketpair AF_UNIX SOCK_STREAM 0; Send 3 [1]; Shutdown 4 SHUT_WR; Poll [(4, POLLIN)] true])
      = Some (n, [Pair 3 4; Ret 1; Ret 0; Polled 0 [0]]) /\ says n 1 (Read 4 1) = Answers (Data [1])).
Proof. split; net1. Qed.
Print Assumptions C60_unreported_data_refuted.
(** POLLPRI is reported whenever it is asked for and something else is ready. *)
Theorem C60_spurious_priority_refuted : exists n,
  run init_net (by1 [Socketpair AF_UNIX SOCK_STREAM 0; Send 3 [1]]) = Some (n, [Pair 3 4; Ret 1]) /\
  says n 1 (Poll [(4, POLLIN + POLLPRI)] true) = Answers (Polled 1 [POLLIN + POLLPRI]).
Proof. net1. Qed.
Print Assumptions C60_spurious_priority_refuted.
(** The highest descriptor number cannot be polled; a closed descriptor is
    reported only if some event is asked for. *)
Theorem C60_poll_range_refuted :
  (exists n, run init_net (by1 [Socketpair AF_UNIX SOCK_STREAM 0; Send 3 [1]; Dup2 4 1023])
      = Some (n, [Pair 3 4; Ret 1; Ret 1023]) /\
    says n 1 (Poll [(1023, POLLIN)] true) = Answers (Ret (err EINVAL))) /\
  (exists n, run init_net (by1 [Poll [(7, POLLIN)] true]) = Some (n, [Polled 1 [POLLNVAL]]) /\
    says n 1 (Poll [(7, 0)] true) = Answers (Polled 0 [0])).
Proof. split; net1. Qed.
Print Assumptions C60_poll_range_refuted.
(** A full socket is reported writable; a pipe with exactly PIPE_BUF free
    bytes is not, although a write of that size succeeds. *)
Theorem C60_writable_refuted :
  (exists n, run init_net (by1 [Socketpair AF_UNIX (SOCK_STREAM + SOCK_NONBLOCK) 0; Send 3 (repeat 0 (Z.to_nat 212992));
       Poll [(3, POLLOUT)] true])
      = Some (n, [Pair 3 4; Ret 212992; Polled 1 [POLLOUT]]) /\
    says n 1 (Send 3 [1]) = Answers (Ret (err EAGAIN))) /\
  (exists n, run init_net (by1 [Pipe true; Write 4 (repeat 0 (Z.to_nat 61440)); Poll [(4, POLLOUT)] true])
      = Some (n, [Pair 3 4; Ret 61440; Polled 0 [0]]) /\
    says n 1 (Write 4 (repeat 0 (Z.to_nat PIPE_BUF))) = Answers (Ret PIPE_BUF)).
Proof. split; net1. Qed.
Print Assumptions C60_writable_refuted.
(** A socket duplicated before it was connected: closing one duplicate after
    the peer is gone removes the receive pipe, and select on the other one
    panics. *)
Theorem C60_select_panics_refuted : exists n, run init_net (by1 (server ++
    [Socket AF_UNIX (SOCK_STREAM + SOCK_NONBLOCK) 0; Dup 4; Connect 4 A1; Accept 3; Close 6; Close 4]))
    = Some (n, [Ret 3; Ret 0; Ret 0; Ret 4; Ret 5; Ret 0; Ret 6; Ret 0; Ret 0]) /\
  says n 1 (Select 6 (Some {[ 5 ]}) None None true) = Panics.
Proof. net1. Qed.
Print Assumptions C60_select_panics_refuted.

Lemma plain_pipe n c fd : match n_fds n !! (c, fd) with Some (DPipe _ false _) => true | _ => false end = true ->
  plain_reader n c fd.
Proof. destruct (n_fds n !! (c, fd)) as [[| |p [] fl| |]|] eqn:E; try done. intros _. left. eauto. Qed.
Lemma plain_sock n c fd : match n_fds n !! (c, fd) with
    | Some (DSock h fl) => match n_sock n !! h with
        | Some s => bool_decide (s_st s = Conn) && bool_decide (s_peek s = []) | None => false end
    | _ => false end = true -> plain_reader n c fd.
Proof.
  destruct (n_fds n !! (c, fd)) as [[h fl| | | |]|] eqn:E; try done.
  destruct (n_sock n !! h) as [s|] eqn:Es; [|done]. rewrite andb_true_iff, !bool_decide_eq_true. intros [H1 H2].
  right. exists h, fl, s. done.
Qed.
(** A pipe with data, an empty pipe and a socket with data: select reports the
    first and the last. *)
Example C60_nonvacuous : exists n rs, reachable n /\
  step n 1 (Select 10 (Some {[ 3; 5; 8 ]}) (Some {[ 4 ]}) None false) = Go n (Sets 3 (Some rs) (Some {[ 4 ]})) /\
  3 ∈ rs /\ 5 ∉ rs /\ 8 ∈ rs /\ plain_reader n 1 3 /\ plain_reader n 1 5 /\ plain_reader n 1 8 /\ pipe_writer n 1 4.
Proof.
  destruct (net_ex (by1 [Pipe false; Pipe true; Socketpair AF_UNIX SOCK_STREAM 0; Write 4 [1]; Send 7 [2]])
    [Pair 3 4; Pair 5 6; Pair 7 8; Ret 1; Ret 1]
    (fun n => ok_step n 1 (Select 10 (Some {[ 3; 5; 8 ]}) (Some {[ 4 ]}) None false) (fun n' x =>
        bool_decide (x = Sets 3 (Some {[ 3; 8 ]}) (Some {[ 4 ]}))) &&
      match n_fds n !! (1, 3) with Some (DPipe _ false _) => true | _ => false end &&
      match n_fds n !! (1, 5) with Some (DPipe _ false _) => true | _ => false end &&
      match n_fds n !! (1, 8) with
      | Some (DSock h fl) => match n_sock n !! h with
          | Some s => bool_decide (s_st s = Conn) && bool_decide (s_peek s = []) | None => false end
      | _ => false end &&
      match n_fds n !! (1, 4) with Some (DPipe _ true _) => true | _ => false end)
    (fun n => step n 1 (Select 10 (Some {[ 3; 5; 8 ]}) (Some {[ 4 ]}) None false) = Go n (Sets 3 (Some {[ 3; 8 ]}) (Some {[ 4 ]})) /\
      plain_reader n 1 3 /\ plain_reader n 1 5 /\ plain_reader n 1 8 /\ pipe_writer n 1 4))
    as (n & R & H).
  - intros n H. rewrite !andb_true_iff in H. destruct H as ((((H1 & H2) & H3) & H4) & H5).
    apply ok_step_ex in H1 as (n' & x & S & E). apply bool_decide_eq_true in E as ->.
    split_and!; [|exact (plain_pipe _ _ _ H2)|exact (plain_pipe _ _ _ H3)|exact (plain_sock _ _ _ H4)|].
    + destruct (select_answer _ _ _ _ _ _ _ _ _ _ _ S) as [-> _]. exact S.
    + destruct (n_fds n !! (1, 4)) as [[| |p [] fl| |]|] eqn:E; try done. exists p, fl. exact E.
  - vm_compute. reflexivity.
  - exists n, {[ 3; 8 ]}. split; [eexists _, _; exact R|]. destruct H as (H & H').
    split; [exact H|]. split_and!; [set_solver|set_solver|set_solver|apply H'..].
Qed.
(** poll over the same objects, and an epoll instance watching them. *)
Example C60_poll_nonvacuous : exists n,
  run init_net (by1 [Pipe false; Pipe true; Socketpair AF_UNIX SOCK_STREAM 0; Write 4 [1]; Send 7 [2]; Ecreate 1;
      Ectl 9 CTL_ADD 3 POLLIN 33; Ectl 9 CTL_ADD 5 POLLIN 55;
      Poll [(3, POLLIN); (5, POLLIN + POLLOUT); (4, POLLOUT); (99, POLLIN); (8, 0)] false])
    = Some (n, [Pair 3 4; Pair 5 6; Pair 7 8; Ret 1; Ret 1; Ret 9; Ret 0; Ret 0;
                Polled 4 [POLLIN; POLLOUT; POLLOUT; POLLNVAL; 0]]) /\
  says n 1 (Ewait 9 10 false) = Answers (Events 1 [(POLLIN, 33)]).
Proof. net1. Qed.
(** Waiting selects and polls exist. *)
Example C60_waits_nonvacuous : exists n, run init_net (by1 [Pipe false]) = Some (n, [Pair 3 4]) /\
  says n 1 (Select 4 (Some {[ 3 ]}) None None false) = Waiting /\ says n 1 (Poll [(3, POLLIN)] false) = Waiting.
Proof.
  apply (net_ex _ _ (fun n => bool_decide (says n 1 (Select 4 (Some {[ 3 ]}) None None false) = Waiting) &&
    bool_decide (says n 1 (Poll [(3, POLLIN)] false) = Waiting))); [|vm_compute; reflexivity].
  intros n H. by rewrite andb_true_iff, !bool_decide_eq_true in H.
Qed.

(** ** C61: interest lists *)

(** The interest list is a map: adding needs absence, changing and deleting
    need presence, a failing call changes nothing, a successful one changes
    the one entry of the one instance. *)
Theorem C61_map : forall n c ep op fd ev data, 0 <= ep < MAXFD -> 0 <= fd < MAXFD -> fd <> ep ->
  is_epoll n c ep -> watchable n c fd ->
  match watched n c ep fd with
  | None =>
      (op = CTL_ADD -> exists n', step n c (Ectl ep op fd ev data) = Go n' (Ret 0) /\
         only_at n n' c ep fd (Some (ev, data))) /\
      (op = CTL_MOD \/ op = CTL_DEL -> step n c (Ectl ep op fd ev data) = Go n (Ret (err ENOENT)))
  | Some _ =>
      (op = CTL_ADD -> step n c (Ectl ep op fd ev data) = Go n (Ret (err EEXIST))) /\
      (op = CTL_MOD -> exists n', step n c (Ectl ep op fd ev data) = Go n' (Ret 0) /\
         only_at n n' c ep fd (Some (ev, data))) /\
      (op = CTL_DEL -> exists n', step n c (Ectl ep op fd ev data) = Go n' (Ret 0) /\
         only_at n n' c ep fd None)
  end.
Proof. exact epoll_ctl. Qed.
Print Assumptions C61_map.
(** Nothing else changes the list: calls of other cages, and calls that are
    not about the epoll descriptor itself, leave it alone. *)
Theorem C61_frame : forall n l n' xs c ep, 0 <= ep < MAXFD -> is_epoll n c ep ->
  along (leaves c ep) n l -> run n l = Some (n', xs) ->
  is_epoll n' c ep /\ forall fd, watched n' c ep fd = watched n c ep fd.
Proof. exact epoll_kept. Qed.
Print Assumptions C61_frame.
(** A closed descriptor stays watched, so that the next thing opened under its
    number is: adding it fails and waiting reports it with the old data. *)
Theorem C61_closed_refuted :
  (exists n, run init_net (by1 [Ecreate 1; Pipe false; Ectl 3 CTL_ADD 4 POLLIN 7; Close 4; Pipe false])
      = Some (n, [Ret 3; Pair 4 5; Ret 0; Ret 0; Pair 4 6]) /\
    says n 1 (Ectl 3 CTL_ADD 4 POLLIN 8) = Answers (Ret (err EEXIST))) /\
  (exists n, run init_net (by1 [Ecreate 1; Pipe false; Ectl 3 CTL_ADD 4 POLLIN 7; Close 4; Pipe false; Write 6 [1]])
      = Some (n, [Ret 3; Pair 4 5; Ret 0; Ret 0; Pair 4 6; Ret 1]) /\
    says n 1 (Ewait 3 1 true) = Answers (Events 1 [(POLLIN, 7)])).
Proof. split; net1. Qed.
Print Assumptions C61_closed_refuted.
(** What does hold: epoll_wait forgets descriptors that are closed when it is
    called. *)
Theorem C61_closed_partial : forall n c ep max late n' k evs,
  step n c (Ewait ep max late) = Go n' (Events k evs) ->
  forall fd, watched n' c ep fd = if decide (is_open n c fd) then watched n c ep fd else None.
Proof. intros n c ep max late n' k evs H. exact (proj1 (proj2 (proj2 (ewait_answer n c ep max late n' k evs H)))). Qed.
Print Assumptions C61_closed_partial.

Definition lv1 (c k : Z) (n : net) (c' : Z) (o : nop) : bool := negb ((c' =? c) && touches o k).
(** Instance 3 watches 4; add, change and delete; other work in between. *)
Example C61_nonvacuous : exists n l n' xs, reachable n /\ is_epoll n 1 3 /\ watchable n 1 4 /\ watchable n 1 5 /\
  watched n 1 3 4 = Some (POLLIN, 7) /\ watched n 1 3 5 = None /\
  along (leaves 1 3) n l /\ run n l = Some (n', xs) /\ l <> [].
Proof.
  set (l := by1 [Write 5 [1]; Dup 4; Close 4; Fork 2] ++ [(2, Close 3); (1, Pipe false)]).
  destruct (net_ex (by1 [Ecreate 1; Pipe false; Ectl 3 CTL_ADD 4 POLLOUT 1; Ectl 3 CTL_MOD 4 POLLIN 7;
      Ectl 3 CTL_ADD 5 POLLIN 7; Ectl 3 CTL_DEL 5 0 0]) [Ret 3; Pair 4 5; Ret 0; Ret 0; Ret 0; Ret 0]
    (fun n => match n_fds n !! (1, 3), n_fds n !! (1, 4), n_fds n !! (1, 5) with
       | Some (DEpoll _), Some (DPipe _ _ _), Some (DPipe _ _ _) => true | _, _, _ => false end &&
       bool_decide (watched n 1 3 4 = Some (POLLIN, 7)) && bool_decide (watched n 1 3 5 = None) &&
       alongb (lv1 1 3) n l && ok_run n l (fun _ _ => true))
    (fun n => exists n' xs, is_epoll n 1 3 /\ watchable n 1 4 /\ watchable n 1 5 /\
       watched n 1 3 4 = Some (POLLIN, 7) /\ watched n 1 3 5 = None /\
       along (leaves 1 3) n l /\ run n l = Some (n', xs) /\ l <> []))
    as (n & R & n' & xs & H).
  - intros n H. rewrite !andb_true_iff, !bool_decide_eq_true in H. destruct H as ((((H1 & H2) & H3) & H4) & H5).
    apply ok_run_ex in H5 as (n' & xs & R & _). exists n', xs.
    destruct (n_fds n !! (1, 3)) as [[|reg| | |]|] eqn:E3; try discriminate H1.
    destruct (n_fds n !! (1, 4)) as [[| |p4 w4 f4| |]|] eqn:E4; try discriminate H1.
    destruct (n_fds n !! (1, 5)) as [[| |p5 w5 f5| |]|] eqn:E5; try discriminate H1.
    split_and!; try assumption; [by exists reg|by eexists|by eexists| |done].
    apply (alongb_ok _ (lv1 1 3)); [|exact H4]. clear. intros m c o E Ec. subst c. unfold lv1 in E.
    rewrite Z.eqb_refl in E. by apply negb_true_iff in E.
  - vm_compute. reflexivity.
  - exists n, l, n', xs. split; [|exact H]. eexists _, _. exact R.
Qed.

(** ** C62: options *)

(** What was last set is read back, through any descriptor of the socket in
    any cage, whatever happens in between - including setting other options
    of the same socket. *)
Theorem C62_read_back : forall n c fd h lv opt v n1 x l n2 xs c2 fd2, reachable n -> bool_opt lv opt ->
  0 <= fd < MAXFD -> opens n c fd h = true -> step n c (Setopt fd lv opt v) = Go n1 x ->
  run n1 l = Some (n2, xs) -> along (no_set h lv opt) n1 l ->
  0 <= fd2 < MAXFD -> opens n2 c2 fd2 h = true ->
  x = Ret 0 /\ step n2 c2 (Getopt fd2 lv opt) = Go n2 (Val (if v =? 0 then 0 else 1)).
Proof. exact read_back. Qed.
Print Assumptions C62_read_back.
(** A socket that did not exist before a call and exists after it (created by
    socket, socketpair or accept) has the option off until it is set. *)
Theorem C62_new_off : forall n c o n1 x h l n2 xs c2 fd2 lv opt, reachable n -> bool_opt lv opt ->
  step n c o = Go n1 x -> n_sock n !! h = None -> run n1 l = Some (n2, xs) ->
  is_Some (n_sock n1 !! h) ->
  along (no_set h lv opt) n1 l -> 0 <= fd2 < MAXFD -> opens n2 c2 fd2 h = true ->
  step n2 c2 (Getopt fd2 lv opt) = Go n2 (Val 0).
Proof. exact new_off. Qed.
Print Assumptions C62_new_off.
(** SO_SNDLOWAT of a new close-on-exec socket reads 1, that of another new
    socket 0, and it cannot be set; the type contains the creation flags; an
    option number from 32 on panics. *)
Theorem C62_other_options_refuted :
  (exists n, run init_net (by1 [Socket AF_UNIX SOCK_STREAM 0; Getopt 3 SOL_SOCKET SO_SNDLOWAT; Socket AF_UNIX (SOCK_STREAM + SOCK_CLOEXEC) 0])
      = Some (n, [Ret 3; Val 0; Ret 4]) /\ says n 1 (Getopt 4 SOL_SOCKET SO_SNDLOWAT) = Answers (Val 1)) /\
  (exists n, run init_net (by1 [Socket AF_UNIX (SOCK_STREAM + SOCK_CLOEXEC) 0]) = Some (n, [Ret 3]) /\
    says n 1 (Getopt 3 SOL_SOCKET SO_TYPE) = Answers (Val (SOCK_STREAM + SOCK_CLOEXEC))) /\
  (exists n, run init_net (by1 [Socket AF_UNIX SOCK_STREAM 0]) = Some (n, [Ret 3]) /\
    says n 1 (Getopt 3 SOL_SOCKET 32) = Panics).
Proof. split_and!; net1. Qed.
Print Assumptions C62_other_options_refuted.

Definition nset (h lv opt : Z) (n : net) (c : Z) (o : nop) : bool := negb (sets h lv opt n c o).
Example C62_nonvacuous : exists n n1 l n2 xs, reachable n /\ bool_opt SOL_SOCKET SO_KEEPALIVE /\
  opens n 1 3 0 = true /\ step n 1 (Setopt 3 SOL_SOCKET SO_KEEPALIVE 5) = Go n1 (Ret 0) /\
  run n1 l = Some (n2, xs) /\ along (no_set 0 SOL_SOCKET SO_KEEPALIVE) n1 l /\ opens n2 2 4 0 = true /\
  says n2 2 (Getopt 4 SOL_SOCKET SO_KEEPALIVE) = Answers (Val 1) /\
  says n2 2 (Getopt 4 SOL_SOCKET SO_REUSEADDR) = Answers (Val 1).
Proof.
  set (l := by1 [Setopt 3 SOL_SOCKET SO_REUSEADDR 1; Setopt 3 SOL_SOCKET SO_LINGER 1; Setopt 3 SOL_SOCKET SO_LINGER 0; Dup 3; Fork 2]).
  destruct (net_ex (by1 [Socket AF_UNIX SOCK_STREAM 0]) [Ret 3]
    (fun n => opens n 1 3 0 && ok_step n 1 (Setopt 3 SOL_SOCKET SO_KEEPALIVE 5) (fun n1 x => bool_decide (x = Ret 0) &&
       alongb (nset 0 SOL_SOCKET SO_KEEPALIVE) n1 l && ok_run n1 l (fun n2 _ => opens n2 2 4 0 &&
         bool_decide (says n2 2 (Getopt 4 SOL_SOCKET SO_KEEPALIVE) = Answers (Val 1)) &&
         bool_decide (says n2 2 (Getopt 4 SOL_SOCKET SO_REUSEADDR) = Answers (Val 1)))))
    (fun n => exists n1 n2 xs, opens n 1 3 0 = true /\ step n 1 (Setopt 3 SOL_SOCKET SO_KEEPALIVE 5) = Go n1 (Ret 0) /\
       run n1 l = Some (n2, xs) /\ along (no_set 0 SOL_SOCKET SO_KEEPALIVE) n1 l /\ opens n2 2 4 0 = true /\
       says n2 2 (Getopt 4 SOL_SOCKET SO_KEEPALIVE) = Answers (Val 1) /\
       says n2 2 (Getopt 4 SOL_SOCKET SO_REUSEADDR) = Answers (Val 1)))
    as (n & R & n1 & n2 & xs & H).
  - intros n H. rewrite !andb_true_iff in H. destruct H as (H1 & H2).
    apply ok_step_ex in H2 as (n1 & x & S1 & H2). rewrite !andb_true_iff in H2. destruct H2 as ((H2 & H3) & H4).
    apply bool_decide_eq_true in H2 as ->. apply ok_run_ex in H4 as (n2 & xs & R & H4).
    rewrite !andb_true_iff, !bool_decide_eq_true in H4. destruct H4 as ((H4 & H5) & H6).
    exists n1, n2, xs. split_and!; try assumption.
    apply (alongb_ok _ (nset 0 SOL_SOCKET SO_KEEPALIVE)); [|exact H3]. clear. intros m c o E.
    unfold no_set. by apply negb_true_iff.
  - vm_compute. reflexivity.
  - exists n, n1, l, n2, xs. split; [eexists _, _; exact R|]. split; [|exact H].
    right. split; [done|]. set_solver.
Qed.

(** ** C63: new descriptors *)

(** With room in the table, a non-negative answer of accept is a descriptor
    that was not open and now is, on a new connected socket; socketpair
    creates two different ones. *)
Theorem C63_accept_partial : forall n c fd n' k, reachable n -> space n c 1 ->
  step n c (Accept fd) = Go n' (Ret k) -> 0 <= k -> new_conn n n' c k.
Proof. exact accept_fresh. Qed.
Print Assumptions C63_accept_partial.
Theorem C63_socketpair_partial : forall n c d t pr n' a b, reachable n -> space n c 2 ->
  step n c (Socketpair d t pr) = Go n' (Pair a b) ->
  a <> b /\ new_conn n n' c a /\ new_conn n n' c b.
Proof. exact socketpair_fresh. Qed.
Print Assumptions C63_socketpair_partial.
(** With a full table accept returns the listening descriptor itself (and
    leaves the request waiting), and socketpair returns success with the error
    number in place of the descriptors. *)
Theorem C63_full_table_refuted :
  let l := server ++ [Socket AF_UNIX (SOCK_STREAM + SOCK_NONBLOCK) 0; Connect 4 A1] in
  let fill := map (Dup2 1) (seqZ 5 1019) in
  (exists n, run init_net (by1 (l ++ fill)) = Some (n, [Ret 3; Ret 0; Ret 0; Ret 4; Ret 0] ++ map Ret (seqZ 5 1019)) /\
    says n 1 (Accept 3) = Answers (Ret 3)) /\
  (exists n, run init_net (by1 (l ++ fill)) = Some (n, [Ret 3; Ret 0; Ret 0; Ret 4; Ret 0] ++ map Ret (seqZ 5 1019)) /\
    says n 1 (Socketpair AF_UNIX SOCK_STREAM 0) = Answers (Pair (err ENFILE) (err ENFILE))).
Proof. split; net1. Qed.
Print Assumptions C63_full_table_refuted.
Example C63_nonvacuous : exists n n1 n2, reachable n /\ space n 1 2 /\
  step n 1 (Accept 3) = Go n1 (Ret 5) /\ step n 1 (Socketpair AF_UNIX SOCK_STREAM 0) = Go n2 (Pair 5 6).
Proof.
  destruct (net_ex (by1 (server ++ [Socket AF_UNIX (SOCK_STREAM + SOCK_NONBLOCK) 0; Connect 4 A1])) [Ret 3; Ret 0; Ret 0; Ret 4; Ret 0]
    (fun n => spaceb n 1 [100; 200] && ok_step n 1 (Accept 3) (fun _ x => bool_decide (x = Ret 5)) &&
      ok_step n 1 (Socketpair AF_UNIX SOCK_STREAM 0) (fun _ x => bool_decide (x = Pair 5 6)))
    (fun n => exists n1 n2, space n 1 2 /\ step n 1 (Accept 3) = Go n1 (Ret 5) /\
      step n 1 (Socketpair AF_UNIX SOCK_STREAM 0) = Go n2 (Pair 5 6))) as (n & R & n1 & n2 & H).
  - intros n H. rewrite !andb_true_iff in H. destruct H as ((H1 & H2) & H3).
    apply ok_step_ex in H2 as (n1 & x & S1 & E). apply bool_decide_eq_true in E as ->.
    apply ok_step_ex in H3 as (n2 & x & S2 & E). apply bool_decide_eq_true in E as ->.
    exists n1, n2. split_and!; [exact (spaceb_ok _ _ _ 2 H1 eq_refl)|exact S1|exact S2].
  - vm_compute. reflexivity.
  - exists n, n1, n2. split; [|exact H]. eexists _, _. exact R.
Qed.
