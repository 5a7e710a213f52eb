(** C93-C97: datagrams, blocking modes, streams, readiness and aborts of AF_INET
    and AF_INET6 sockets *)
From Verif Require Import Base PortModel PortSpec ErrnoModel InetModel InetSpec InetSpec2 InetInv InetKeep InetData InetUdp InetMode InetSel InetLive InetRun PropsInet.
Local Open Scope list_scope.
Local Open Scope Z_scope.

Definition owner (s : ist) (i k : Z) : bool := match i_h s !! i with Some h => bool_decide (h_in h = Some k) | None => false end.
Lemma owner_ok s i k : owner s i k = true -> owns s i k.
Proof. unfold owner. destruct (i_h s !! i) as [h|] eqn:E; [|discriminate 1]. intros H. exists h. split; [exact E|exact (bool_decide_eq_true_1 _ H)]. Qed.

Definition estb (tr : list kcall) (k : Z) : bool :=
  existsb (fun e => match e with KAccept _ (inl _) j | KConnect j _ 0 | KErr j true => j =? k | _ => false end) tr.
Lemma estb_ok tr k : estb tr k = false -> ~ established tr k.
Proof.
  unfold estb. intros H X. rewrite <- not_true_iff_false in H. apply H. rewrite existsb_exists.
  destruct X as [(l & p & X)|[(x & X)|(t1 & t2 & x & -> & X)]].
  - eexists. split; [exact (proj1 (elem_of_list_In _ _) X)|]. apply Z.eqb_refl.
  - eexists. split; [exact (proj1 (elem_of_list_In _ _) X)|]. apply Z.eqb_refl.
  - eexists. split; [apply elem_of_list_In, elem_of_app; right; apply elem_of_cons; right; exact X|]. apply Z.eqb_refl.
Qed.

(** ** C93: datagrams go where they are sent *)

(** A datagram passed to the kernel carries the caller's bytes and goes to the
    destination of sendto, or to the one of the last connect; the caller is told
    the kernel's answer. *)
Theorem C93_dest : forall devs ev1 e ev2 s k bs x r,
  history devs (ev1 ++ e :: ev2) s -> KSend k bs (Some x) r ∈ e_tr e ->
  exists fd i,
    sock_of (e_pre e) (e_cage e) fd = Some i /\ is_udp (e_pre e) i /\
    (e_op e = Sendto fd bs x \/ (e_op e = Send fd bs \/ exists z, e_op e = Sendto fd bs z /\ no_dest z = true) /\ last_peer ev1 i x) /\
    (0 <= r -> e_out e = IRet r) /\ (r < 0 -> exists n, e_out e = IRet n /\ n < 0).
Proof. exact datagram_dest. Qed.
Print Assumptions C93_dest.

(** A receive on a datagram socket hands over one datagram of the kernel. *)
Theorem C93_recv_partial : forall devs ev1 e ev2 s fd len flags fam d i,
  history devs (ev1 ++ e :: ev2) s -> e_op e = Recv fd len flags fam -> e_out e = IData d ->
  sock_of (e_pre e) (e_cage e) fd = Some i -> is_udp (e_pre e) i ->
  exists t k, e_tr e = t ++ [KRecv k len (inl d)] /\ forall e', e' ∈ t -> binding e' = true.
Proof. exact datagram_recv. Qed.
Print Assumptions C93_recv_partial.

Example C93_nonvacuous : exists evs s,
  plays D1 (c1 [Socket false false false false; Connect 3 (H1 9)] ++ [(1, Send 3 [5], with_send 1); (1, Sendto 3 [6; 7] (H1 8), with_send 2); (1, Recv 3 10 0 None, with_recv [1; 2])])
    [IRet 3; IRet 0; IRet 1; IRet 2; IData [1; 2]] evs s /\
  KSend 0 [5] (Some (H1 9)) 1 ∈ calls evs /\ KSend 0 [6; 7] (Some (H1 8)) 2 ∈ calls evs /\ is_udp s 0.
Proof.
  apply (inet_ex _ _ _ (fun evs s => bool_decide (KSend 0 [5] (Some (H1 9)) 1 ∈ calls evs) && bool_decide (KSend 0 [6; 7] (Some (H1 8)) 2 ∈ calls evs) && match i_h s !! 0 with Some h => negb (h_tcp h) | None => false end)).
  - intros evs s _ H. rewrite !andb_true_iff, !bool_decide_eq_true in H. destruct H as [[A B] C]. split; [exact A|]. split; [exact B|].
    destruct (i_h s !! 0) as [h|] eqn:E; [|discriminate C]. exists h. split; [exact E|exact (proj1 (negb_true_iff _) C)].
  - vm_compute. reflexivity.
Qed.

(** The kernel is never told the peer of a datagram socket, so it cannot keep
    other senders out: a connect answers 0 and the kernel has not been asked. *)
Theorem C93_tcp_only : forall devs ev1 e ev2 s k x r,
  history devs (ev1 ++ e :: ev2) s -> KConnect k x r ∈ e_tr e ->
  exists fd i, e_op e = Connect fd x /\ sock_of (e_pre e) (e_cage e) fd = Some i /\ is_tcp (e_pre e) i.
Proof. exact connect_tcp_only. Qed.
Print Assumptions C93_tcp_only.
Theorem C93_connect_refuted : exists evs s,
  plays D1 (c1 [Socket false false false false; Connect 3 (H1 9); Getpeername 3]) [IRet 3; IRet 0; IName (H1 9)] evs s /\
  owns s 0 0 /\ forall k x r, KConnect k x r ∉ calls evs.
Proof.
  apply (inet_ex _ _ _ (fun evs s => owner s 0 0 && nocall is_connect (calls evs))).
  - intros evs s _ H. rewrite andb_true_iff in H. destruct H as [A B]. split; [exact (owner_ok _ _ _ A)|]. intros k x r Hin. pose proof (nocall_ok _ _ _ B Hin) as X. discriminate X.
  - vm_compute. reflexivity.
Qed.
Print Assumptions C93_connect_refuted.

(** A connect that failed gives the socket a peer all the same. *)
Theorem C93_failed_refuted : exists evs s,
  plays D1 [(1, Socket false false false false, yes); (1, Connect 3 (H1 9), with_bind EADDRINUSE); (1, Send 3 [7], with_send 1)]
    [IRet 3; IRet (err EADDRINUSE); IRet 1] evs s /\ KSend 0 [7] (Some (H1 9)) 1 ∈ calls evs.
Proof.
  apply (inet_ex _ _ _ (fun evs s => bool_decide (KSend 0 [7] (Some (H1 9)) 1 ∈ calls evs))).
  - intros evs s _ H. exact (bool_decide_eq_true_1 _ H).
  - vm_compute. reflexivity.
Qed.
Print Assumptions C93_failed_refuted.

(** Peeking at a datagram takes it out of the kernel: the next receive gets the
    one after it, and nobody reads the first. *)
Theorem C93_peek_refuted : exists evs s,
  plays D1 (c1 [Socket false false false false; Bind 3 (W 80)] ++ [(1, Recv 3 10 MSG_PEEK None, with_recv [1; 2]); (1, Recv 3 10 0 None, with_recv [3])])
    [IRet 3; IRet 0; IData [1; 2]; IData [3]] evs s /\
  kdata (calls evs) 0 = [1; 2; 3] /\ readby evs 0 = [3].
Proof.
  apply (inet_ex _ _ _ (fun evs s => bool_decide (kdata (calls evs) 0 = [1; 2; 3]) && bool_decide (readby evs 0 = [3]))).
  - intros evs s _ H. rewrite andb_true_iff, !bool_decide_eq_true in H. exact H.
  - vm_compute. reflexivity.
Qed.
Print Assumptions C93_peek_refuted.

(** ** C94: O_NONBLOCK decides whether a call may wait *)

(** A receive on a stream through a descriptor with O_NONBLOCK does not wait, and
    the kernel socket is in non-blocking mode when it is asked; without
    O_NONBLOCK the call never answers EAGAIN. *)
Theorem C94_recv_partial : forall devs ev1 e ev2 s fd len flags fam i,
  history devs (ev1 ++ e :: ev2) s -> e_op e = Recv fd len flags fam ->
  sock_of (e_pre e) (e_cage e) fd = Some i -> is_tcp (e_pre e) i ->
  (nonblocking (e_pre e) (e_cage e) fd = true ->
     e_out e <> IWaits /\ forall t1 k n r t2 d, e_tr e = t1 ++ KRecv k n r :: t2 -> kmode (calls ev1 ++ t1) k d = true) /\
  (nonblocking (e_pre e) (e_cage e) fd = false -> e_out e <> IRet (err EAGAIN)).
Proof. exact recv_mode. Qed.
Print Assumptions C94_recv_partial.
(** The same for accept *)
Theorem C94_accept_partial : forall devs ev1 e ev2 s fd,
  history devs (ev1 ++ e :: ev2) s -> e_op e = Accept fd ->
  (nonblocking (e_pre e) (e_cage e) fd = true ->
     e_out e <> IWaits /\ forall t1 k r k' t2 d, e_tr e = t1 ++ KAccept k r k' :: t2 -> kmode (calls ev1 ++ t1) k d = true) /\
  (nonblocking (e_pre e) (e_cage e) fd = false -> e_out e <> IRet (err EAGAIN)).
Proof. exact accept_mode_at. Qed.
Print Assumptions C94_accept_partial.
(** F_GETFL reports the descriptor's O_NONBLOCK. *)
Theorem C94_getfl : forall devs ev1 e ev2 s fd r,
  history devs (ev1 ++ e :: ev2) s -> e_op e = Getfl fd -> e_out e = IRet r -> 0 <= r ->
  (exists i, sock_of (e_pre e) (e_cage e) fd = Some i) ->
  hasbit r O_NONBLOCK = nonblocking (e_pre e) (e_cage e) fd.
Proof. exact getfl_at. Qed.
Print Assumptions C94_getfl.
(** F_SETFL and FIONBIO set it, and the mode of the kernel socket if there is
    one. *)
Theorem C94_set : forall devs evs e s fd b,
  history devs (evs ++ [e]) s -> asks (e_op e) fd b -> e_out e = IRet 0 ->
  nonblocking s (e_cage e) fd = b /\
  forall i k d, sock_of (e_pre e) (e_cage e) fd = Some i -> owns (e_pre e) i k -> kmode (calls (evs ++ [e])) k d = b.
Proof. exact mode_sets_at. Qed.
Print Assumptions C94_set.
(** As long as no receive, accept, F_SETFL or FIONBIO was made on a socket its
    kernel socket has the mode that was given to socket(). *)
Theorem C94_created_partial : forall devs evs s i nb k d,
  history devs evs s -> created evs i nb -> ~ mode_set evs i -> owns s i k -> kmode (calls evs) k d = nb.
Proof. exact created_mode. Qed.
Print Assumptions C94_created_partial.

Example C94_nonvacuous :
  (exists evs s, plays D1 (c1 [Socket false true true false; Connect 3 (H1 9); Getfl 3; Recv 3 10 0 None; Fionbio 3 0; Getfl 3; Recv 3 10 0 None])
     [IRet 3; IRet 0; IRet O_NONBLOCK; IRet (err EAGAIN); IRet 0; IRet 0; IWaits] evs s /\ owns s 0 0 /\ is_tcp s 0) /\
  (exists evs s, plays D1 (c1 [Socket false true true false; Bind 3 (W 80); Listen 3 5; Accept 3; Setfl 3 0; Accept 3])
     [IRet 3; IRet 0; IRet 0; IRet (err EAGAIN); IRet 0; IWaits] evs s) /\
  (exists evs s, plays D1 (c1 [Socket false true true false; Connect 3 (H1 9)]) [IRet 3; IRet 0] evs s /\
     created evs 0 true /\ ~ mode_set evs 0 /\ owns s 0 0).
Proof.
  split; [|split].
  - apply (inet_ex _ _ _ (fun evs s => owner s 0 0 && match i_h s !! 0 with Some h => h_tcp h | None => false end)).
    + intros evs s _ H. rewrite andb_true_iff in H. destruct H as [A B]. split; [exact (owner_ok _ _ _ A)|]. destruct (i_h s !! 0) as [h|] eqn:E; [|discriminate B]. exists h. auto.
    + vm_compute. reflexivity.
  - destruct (inet_ex D1 (c1 [Socket false true true false; Bind 3 (W 80); Listen 3 5; Accept 3; Setfl 3 0; Accept 3]) [IRet 3; IRet 0; IRet 0; IRet (err EAGAIN); IRet 0; IWaits] (fun _ _ => true) (fun _ _ => True)) as (evs & s & H & _); [auto|vm_compute; reflexivity|]. eauto.
  - apply (inet_ex _ _ _ (fun evs s => owner s 0 0 && match evs with e1 :: _ => i_nh (e_pre e1) =? 0 | [] => false end)).
    + intros evs s (Hh & Hm & Ho) H. rewrite andb_true_iff in H. destruct H as [A B]. destruct evs as [|e1 [|e2 [|e3 r]]]; try discriminate Hm. cbn in Hm, Ho. apply Z.eqb_eq in B.
      injection Hm as _ O1 _ _ O2 _. injection Ho as R1 R2. split; [|split; [|exact (owner_ok _ _ _ A)]].
      * exists e1, false, true, false, 3. split; [left|]. split; [exact O1|]. split; [exact R1|]. split; [lia|]. symmetry. exact B.
      * intros (e & fd & He & Hs & _). apply elem_of_cons in He as [->|He%elem_of_list_singleton]; [rewrite O1 in Hs; exact Hs|]. subst e. rewrite O2 in Hs. exact Hs.
    + vm_compute. reflexivity.
Qed.

(** A non-blocking receive leaves the kernel socket blocking: the descriptor
    still has O_NONBLOCK, and the next send is made on a blocking kernel socket. *)
Theorem C94_left_blocking_refuted : exists evs s,
  plays D1 (c1 [Socket false true true false; Connect 3 (H1 9); Recv 3 10 0 None; Getfl 3]) [IRet 3; IRet 0; IRet (err EAGAIN); IRet O_NONBLOCK] evs s /\
  owns s 0 0 /\ forall d, kmode (calls evs) 0 d = false.
Proof.
  apply (inet_ex _ _ _ (fun evs s => owner s 0 0 && negb (kmode (calls evs) 0 true) && negb (kmode (calls evs) 0 false))).
  - intros evs s _ H. rewrite !andb_true_iff, !negb_true_iff in H. destruct H as [[A B] C]. split; [exact (owner_ok _ _ _ A)|]. intros [|]; assumption.
  - vm_compute. reflexivity.
Qed.
Print Assumptions C94_left_blocking_refuted.

(** O_NONBLOCK set before the kernel socket exists never reaches the kernel:
    connect is made on a blocking kernel socket. *)
Theorem C94_early_refuted : exists evs s,
  plays D1 (c1 [Socket false true false false; Setfl 3 O_NONBLOCK; Connect 3 (H1 9); Getfl 3]) [IRet 3; IRet 0; IRet 0; IRet O_NONBLOCK] evs s /\
  KConnect 0 (H1 9) 0 ∈ calls evs /\ forall d, kmode (calls evs) 0 d = false.
Proof.
  apply (inet_ex _ _ _ (fun evs s => bool_decide (KConnect 0 (H1 9) 0 ∈ calls evs) && negb (kmode (calls evs) 0 true) && negb (kmode (calls evs) 0 false))).
  - intros evs s _ H. rewrite !andb_true_iff, !negb_true_iff, bool_decide_eq_true in H. destruct H as [[A B] C]. split; [exact A|]. intros [|]; assumption.
  - vm_compute. reflexivity.
Qed.
Print Assumptions C94_early_refuted.

(** so that a receive of datagrams on it waits in the kernel. *)
Theorem C94_udp_refuted : exists evs s,
  plays D1 (c1 [Socket false false false false; Setfl 3 O_NONBLOCK; Recv 3 10 0 None]) [IRet 3; IRet 0; IRet (err EAGAIN)] evs s /\
  nonblocking s 1 3 = true /\ KRecv 0 10 (inr EAGAIN) ∈ calls evs /\ forall d, kmode (calls evs) 0 d = false.
Proof.
  apply (inet_ex _ _ _ (fun evs s => nonblocking s 1 3 && bool_decide (KRecv 0 10 (inr EAGAIN) ∈ calls evs) && negb (kmode (calls evs) 0 true) && negb (kmode (calls evs) 0 false))).
  - intros evs s _ H. rewrite !andb_true_iff, !negb_true_iff, bool_decide_eq_true in H. destruct H as [[[A B] C] D]. split; [exact A|]. split; [exact B|]. intros [|]; assumption.
  - vm_compute. reflexivity.
Qed.
Print Assumptions C94_udp_refuted.

(** A socket accepted from a non-blocking listener shows O_NONBLOCK; its kernel
    socket was never made non-blocking. *)
Theorem C94_accepted_refuted : exists evs s,
  plays D1 (c1 [Socket false true true false; Bind 3 (W 80); Listen 3 5] ++ [(1, Accept 3, with_acc (H1 7)); (1, Getfl 4, yes)])
    [IRet 3; IRet 0; IRet 0; IAccepted 4 (H1 7); IRet O_NONBLOCK] evs s /\
  owns s 1 1 /\ forall b, KMode 1 b ∉ calls evs.
Proof.
  apply (inet_ex _ _ _ (fun evs s => owner s 1 1 && nocall (fun e => match e with KMode k _ => k =? 1 | _ => false end) (calls evs))).
  - intros evs s _ H. rewrite andb_true_iff in H. destruct H as [A B]. split; [exact (owner_ok _ _ _ A)|]. intros b Hin. pose proof (nocall_ok _ _ _ B Hin) as X. discriminate X.
  - vm_compute. reflexivity.
Qed.
Print Assumptions C94_accepted_refuted.

(** ** C95: a stream is read in order, without loss or repetition *)

(** What the kernel has handed out on a stream is what callers have read, followed
    by bytes that some caller has only peeked at. *)
Theorem C95_prefix : forall devs evs s i k,
  history devs evs s -> is_tcp s i -> owns s i k ->
  exists rest, kdata (calls evs) k = readby evs i ++ rest /\ (~ peeked evs i -> rest = []).
Proof. exact stream_prefix. Qed.
Print Assumptions C95_prefix.
(** A receive, peeking or not, returns the bytes that come after those read
    before. *)
Theorem C95_next : forall devs ev1 e ev2 s fd len flags fam d i k,
  history devs (ev1 ++ e :: ev2) s -> e_op e = Recv fd len flags fam -> e_out e = IData d ->
  sock_of (e_pre e) (e_cage e) fd = Some i -> is_tcp (e_pre e) i -> owns (e_pre e) i k ->
  exists rest, kdata (calls ev1 ++ e_tr e) k = readby ev1 i ++ d ++ rest.
Proof. exact stream_delivered. Qed.
Print Assumptions C95_next.
(** It returns no more than asked for if the kernel does not. *)
Theorem C95_fits : forall devs ev1 e ev2 s fd len flags fam d,
  history devs (ev1 ++ e :: ev2) s -> e_op e = Recv fd len flags fam -> e_out e = IData d ->
  (forall k n bs, KRecv k n (inl bs) ∈ e_tr e -> Z.of_nat (length bs) <= n) -> Z.of_nat (length d) <= len.
Proof. exact recv_fits. Qed.
Print Assumptions C95_fits.

(** Peeking at three bytes, reading two, and reading four: one that was peeked at
    and three new ones, through another descriptor in another process *)
Example C95_nonvacuous : exists evs s,
  plays D1 (c1 [Socket false true false false; Connect 3 (H1 9); Fork 2] ++
      [(1, Recv 3 3 MSG_PEEK None, with_recv [1; 2; 3]); (1, Recv 3 2 0 None, yes); (2, Recv 3 4 0 None, with_recv [4; 5; 6])])
    [IRet 3; IRet 0; IRet 0; IData [1; 2; 3]; IData [1; 2]; IData [3; 4; 5; 6]] evs s /\
  is_tcp s 0 /\ owns s 0 0 /\ peeked evs 0 /\ readby evs 0 = [1; 2; 3; 4; 5; 6].
Proof.
  apply (inet_ex _ _ _ (fun evs s => owner s 0 0 && match i_h s !! 0 with Some h => h_tcp h | None => false end && bool_decide (readby evs 0 = [1; 2; 3; 4; 5; 6])
            && match evs with _ :: _ :: _ :: e :: _ => bool_decide (sock_of (e_pre e) (e_cage e) 3 = Some 0) | _ => false end)).
  - intros evs s (_ & Hm & _) H. rewrite !andb_true_iff, bool_decide_eq_true in H. destruct H as [[[A B] C] D]. split; [|split; [exact (owner_ok _ _ _ A)|split; [|exact C]]].
    + destruct (i_h s !! 0) as [h|] eqn:E; [|discriminate B]. exists h. auto.
    + destruct evs as [|e1 [|e2 [|e3 [|e4 r]]]]; try discriminate Hm. cbn in Hm. injection Hm as _ _ _ _ _ _ _ _ _ _ O4 _ _. apply bool_decide_eq_true in D.
      exists e4, 3, 3, MSG_PEEK, None. split; [do 3 right; left|]. split; [exact O4|]. split; [exact D|reflexivity].
  - vm_compute. reflexivity.
Qed.

(** ** C96: select reports the sockets the kernel reports *)

(** A descriptor reported readable was asked about and is a socket whose kernel
    socket the kernel reported. *)
Theorem C96_sound : forall devs ev1 e ev2 s fds l fd,
  history devs (ev1 ++ e :: ev2) s -> e_op e = SelectR fds -> e_out e = IReady l -> fd ∈ l ->
  fd ∈ fds /\ exists i k, sock_of (e_pre e) (e_cage e) fd = Some i /\ owns (e_pre e) i k /\ k ∈ a_ready (e_ans e).
Proof. exact select_sound. Qed.
Print Assumptions C96_sound.
(** If a kernel socket was connected or told to listen through a descriptor, or
    accepted as that descriptor, and the descriptor is still there and is asked
    about when the kernel says the socket is readable, a descriptor of this socket
    is reported. *)
Theorem C96_complete_partial : forall devs ev1 e1 ev2 e2 ev3 s c fd k fds l,
  history devs (ev1 ++ e1 :: ev2 ++ e2 :: ev3) s -> opened e1 c fd k -> Forall (fun e => ~ gone e c fd) ev2 ->
  e_cage e2 = c -> e_op e2 = SelectR fds -> e_out e2 = IReady l -> fd ∈ fds -> k ∈ a_ready (e_ans e2) ->
  exists fd', fd' ∈ l /\ fd' ∈ fds /\ sock_of (e_pre e2) c fd' = sock_of (e_pre e2) c fd.
Proof. exact select_complete. Qed.
Print Assumptions C96_complete_partial.

Example C96_nonvacuous : exists evs s,
  plays D1 (c1 [Socket false true false false; Connect 3 (H1 9); Socket false true false false; Bind 4 (W 80); Listen 4 5] ++ [(1, SelectR [3; 4], with_ready [0; 1]); (1, SelectR [3; 4], with_ready [1])])
    [IRet 3; IRet 0; IRet 4; IRet 0; IRet 0; IReady [3; 4]; IReady [4]] evs s /\
  exists ev1 e1 ev2 e2 e3 ev3, evs = ev1 ++ e1 :: ev2 ++ e2 :: e3 :: ev3 /\
    opened e1 1 3 0 /\ Forall (fun e => ~ gone e 1 3) ev2 /\ opened e2 1 4 1 /\ e_op e3 = SelectR [3; 4] /\ a_ready (e_ans e3) = [0; 1].
Proof.
  apply (inet_ex _ _ _ (fun evs s => match evs with [_; e1; _; _; e2; _; _] => bool_decide (KConnect 0 (H1 9) 0 ∈ e_tr e1) && bool_decide (KListen 1 5 0 ∈ e_tr e2) | _ => false end)).
  - intros evs s (_ & Hm & _) H. destruct evs as [|x1 [|x2 [|x3 [|x4 [|x5 [|x6 [|x7 [|x8 r]]]]]]]]; try discriminate H.
    rewrite andb_true_iff, !bool_decide_eq_true in H. destruct H as [A B]. cbn in Hm. injection Hm as _ _ _ C2 O2 _ C3 O3 _ C4 O4 _ C5 O5 _ C6 O6 A6 _ _ _.
    exists [x1], x2, [x3; x4], x5, x6, [x7]. split; [reflexivity|]. split; [|split; [|split; [|split; [exact O6|rewrite A6; reflexivity]]]].
    + split; [exact C2|]. left. exists (H1 9). auto.
    + repeat constructor; unfold gone; [rewrite O3|rewrite O4]; exact id.
    + split; [exact C5|]. right. left. exists 5. auto.
  - vm_compute. reflexivity.
Qed.

(** Whoever waits for datagrams with select is not told of them: a descriptor of
    a bound datagram socket is not looked up in the kernel's answer. *)
Theorem C96_udp_refuted : exists evs s,
  plays D1 (c1 [Socket false false false false; Bind 3 (W 80)] ++ [(1, SelectR [3], with_ready [0])]) [IRet 3; IRet 0; IReady []] evs s /\ owns s 0 0.
Proof.
  apply (inet_ex _ _ _ (fun evs s => owner s 0 0)).
  - intros evs s _ H. exact (owner_ok _ _ _ H).
  - vm_compute. reflexivity.
Qed.
Print Assumptions C96_udp_refuted.

(** A copy of the descriptor made before the connect is never reported. *)
Theorem C96_copy_refuted : exists evs s,
  plays D1 (c1 [Socket false true false false; Dup 3; Connect 3 (H1 9)] ++ [(1, SelectR [4], with_ready [0])]) [IRet 3; IRet 4; IRet 0; IReady []] evs s /\
  owns s 0 0 /\ sock_of s 1 4 = sock_of s 1 3.
Proof.
  apply (inet_ex _ _ _ (fun evs s => owner s 0 0 && bool_decide (sock_of s 1 4 = sock_of s 1 3))).
  - intros evs s _ H. rewrite andb_true_iff, bool_decide_eq_true in H. destruct H as [A B]. split; [exact (owner_ok _ _ _ A)|exact B].
  - vm_compute. reflexivity.
Qed.
Print Assumptions C96_copy_refuted.

(** Bytes that were peeked at are there to be read and select does not know. *)
Theorem C96_peeked_refuted : exists evs s,
  plays D1 (c1 [Socket false true false false; Connect 3 (H1 9)] ++ [(1, Recv 3 2 MSG_PEEK None, with_recv [1; 2]); (1, SelectR [3], with_ready []); (1, Recv 3 2 0 None, yes)])
    [IRet 3; IRet 0; IData [1; 2]; IReady []; IData [1; 2]] evs s.
Proof.
  destruct (inet_ex D1 (c1 [Socket false true false false; Connect 3 (H1 9)] ++ [(1, Recv 3 2 MSG_PEEK None, with_recv [1; 2]); (1, SelectR [3], with_ready []); (1, Recv 3 2 0 None, yes)])
    [IRet 3; IRet 0; IData [1; 2]; IReady []; IData [1; 2]] (fun _ _ => true) (fun _ _ => True)) as (evs & s & H & _); [auto|vm_compute; reflexivity|]. exists evs, s. exact H.
Qed.
Print Assumptions C96_peeked_refuted.

(** Every descriptor asked about is reported writable, *)
Theorem C96_write_partial : forall devs ev1 e ev2 s fds l,
  history devs (ev1 ++ e :: ev2) s -> e_op e = SelectW fds -> e_out e = IReady l -> l = fds.
Proof. exact selw_history. Qed.
Print Assumptions C96_write_partial.
(** a connection that was refused among them, and the send that follows fails; *)
Theorem C96_write_refuted : exists evs s,
  plays D1 [(1, Socket false true true false, yes); (1, Connect 3 (H1 9), with_conn EINPROGRESS); (1, SelectW [3], with_soerr false); (1, Send 3 [1], with_send (- ENOTCONN))]
    [IRet 3; IRet (err EINPROGRESS); IReady [3]; IRet (err ENOTCONN)] evs s /\ owns s 0 0 /\ ~ established (calls evs) 0.
Proof.
  apply (inet_ex _ _ _ (fun evs s => owner s 0 0 && negb (estb (calls evs) 0))).
  - intros evs s _ H. rewrite andb_true_iff, negb_true_iff in H. destruct H as [A B]. split; [exact (owner_ok _ _ _ A)|exact (estb_ok _ _ B)].
  - vm_compute. reflexivity.
Qed.
Print Assumptions C96_write_refuted.
(** and asking about a connection that has just been made never answers: the call
    locks the socket a second time. *)
Theorem C96_hang_refuted : exists evs s,
  plays D1 [(1, Socket false true true false, yes); (1, Connect 3 (H1 9), with_conn EINPROGRESS)] [IRet 3; IRet (err EINPROGRESS)] evs s /\
  step D1 s 1 (SelectW [3]) (with_soerr true) = IHang.
Proof.
  apply (inet_ex _ _ _ (fun evs s => match step D1 s 1 (SelectW [3]) (with_soerr true) with IHang => true | _ => false end)).
  - intros evs s _ H. destruct (step D1 s 1 (SelectW [3]) (with_soerr true)); [discriminate H|discriminate H|reflexivity].
  - vm_compute. reflexivity.
Qed.
Print Assumptions C96_hang_refuted.

(** ** C97: no call on INET sockets aborts the process *)

(** If no bind has failed for its port or named a local address, nobody has used
    shutdown or connected to port 0 of the unspecified address, descriptor
    numbers are below 1024 and the kernel gives error numbers the library knows,
    every call answers, but for the select that waits for itself. *)
Theorem C97_answers_partial : forall devs evs s c o a,
  history devs evs s -> tidy evs -> mild evs -> valid s o -> sane a -> fds_ok o ->
  (exists s' tr out, step devs s c o a = IGo s' tr out) \/
  step devs s c o a = IHang /\ exists fds fd i h, o = SelectW fds /\ fd ∈ fds /\ sock_of s c fd = Some i /\ i_h s !! i = Some h /\ h_st h = InProg /\ a_soerr a = true.
Proof. exact no_abort. Qed.
Print Assumptions C97_answers_partial.

(** All succeeding, errno being EAGAIN *)
Definition calm : kans := KAns 0 0 0 0 0 0 (inr EAGAIN) 0 (inr EAGAIN) true [] EAGAIN.
Lemma calm_sane : sane calm.
Proof. unfold sane. split_and!; first [reflexivity|left; reflexivity|intros e [= <-]; vm_compute; discriminate 1|intros H; exfalso; revert H; vm_compute; discriminate 1|vm_compute; discriminate 1]. Qed.
Example C97_nonvacuous : exists evs s,
  plays D1 (c1 [Socket false true false false; Bind 3 (W 80); Listen 3 5; Socket false true false false; Connect 4 (H1 80); Fork 2; Close 3]) [IRet 3; IRet 0; IRet 0; IRet 4; IRet 0; IRet 0; IRet 0] evs s /\
  tidy evs /\ mild evs /\ sane calm /\ valid s (Accept 3) /\ fds_ok (Accept 3).
Proof.
  apply (inet_ex _ _ _ (fun evs s => tidyb evs && forallb (fun e => match e_op e with Shutdown _ _ => false | Connect _ x => negb (no_dest x) | _ => true end) evs)).
  - intros evs s _ H. rewrite andb_true_iff in H. destruct H as [A B]. split; [exact (tidyb_ok _ A)|]. split; [|split; [exact calm_sane|split; [exact I|cbn; unfold MAXFD; lia]]].
    rewrite forallb_forall in B. intros e He%elem_of_list_In%B. split; [intros fd how E|intros fd x E]; rewrite E in He; [discriminate He|exact (proj1 (negb_true_iff _) He)].
  - vm_compute. reflexivity.
Qed.

Definition dies (r : ires) : bool := match r with IDies => true | _ => false end.
Lemma dies_ok r : dies r = true -> r = IDies.
Proof. destruct r; [discriminate 1|reflexivity|discriminate 1]. Qed.
Ltac die := match goal with |- exists evs s, _ /\ step ?d s ?c ?o ?a = IDies => apply (inet_ex _ _ _ (fun _ s => dies (step d s c o a))) end; [intros evs s _ H; exact (dies_ok _ H)|vm_compute; reflexivity].

(** listen on an IPv6 socket that has no name: no address of that family can be
    found, and the error is looked up in errno, which nobody has set. *)
Theorem C97_listen_refuted : exists evs s,
  plays D1 (c1 [Socket true true false false]) [IRet 3] evs s /\ step D1 s 1 (Listen 3 5) yes = IDies.
Proof. die. Qed.
Print Assumptions C97_listen_refuted.
(** send on a datagram socket connected to 0.0.0.0:0 calls sendto, which calls
    send *)
Theorem C97_send_refuted : exists evs s,
  plays D1 (c1 [Socket false false false false; Connect 3 (W 0)]) [IRet 3; IRet 0] evs s /\ step D1 s 1 (Send 3 [1]) calm = IDies.
Proof. die. Qed.
Print Assumptions C97_send_refuted.
(** send on a socket that was shut down for reading before it was connected *)
Theorem C97_shutdown_refuted : exists evs s,
  plays D1 (c1 [Socket false true false false; Shutdown 3 SHUT_RD]) [IRet 3; IRet 0] evs s /\ step D1 s 1 (Send 3 [1]) calm = IDies.
Proof. die. Qed.
Print Assumptions C97_shutdown_refuted.
(** accept on a listener whose shutdown failed because its port was given away by
    the close of another socket *)
Theorem C97_accept_refuted : exists evs s,
  plays D1 (c1 [Socket false true false false; Bind 3 (W 80); Listen 3 5; Socket false true false false; Bind 4 (W 80); Close 4; Shutdown 3 SHUT_RDWR])
    [IRet 3; IRet 0; IRet 0; IRet 4; IRet (err EADDRINUSE); IRet 0; IRet (err EINVAL)] evs s /\ step D1 s 1 (Accept 3) calm = IDies.
Proof. die. Qed.
Print Assumptions C97_accept_refuted.
(** close of a number that is out of range *)
Theorem C97_close_refuted : exists evs s, plays D1 [] [] evs s /\ step D1 s 1 (Close 1024) calm = IDies.
Proof. die. Qed.
Print Assumptions C97_close_refuted.
(** close of the second of two sockets that have the same port on two addresses *)
Theorem C97_port_refuted : exists evs s,
  plays [Host 1; Host 2] (c1 [Socket false true false false; Bind 3 (H1 80); Socket false true false false; Bind 4 (IAddr false (Host 2) 80)])
    [IRet 3; IRet 0; IRet 4; IRet 0] evs s /\ step [Host 1; Host 2] s 1 (Close 4) calm = IDies.
Proof. die. Qed.
Print Assumptions C97_port_refuted.
