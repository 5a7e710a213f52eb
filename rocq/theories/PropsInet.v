(** C89-C92: AF_INET and AF_INET6 sockets and the kernel's sockets behind them *)
From Verif Require Import Base PortModel PortSpec InetModel InetSpec InetInv InetStep InetConn InetName InetPort InetPort2 InetPeer InetRun.
Local Open Scope list_scope.
Local Open Scope Z_scope.

(** ** C89: kernel sockets are neither leaked nor used after close *)

(** In every history: a kernel call is made on open kernel sockets only, no
    kernel socket is made twice, and those open are the ones of the sockets that
    have a descriptor. *)
Theorem C89_kernel_sockets : forall devs evs s,
  history devs evs s ->
  proper (calls evs) /\ forall k, kopen (calls evs) k <-> held s k.
Proof. exact kernel_sockets. Qed.
Print Assumptions C89_kernel_sockets.

(** When no cage has a socket descriptor left every kernel socket is closed. *)
Theorem C89_all_closed : forall devs evs s,
  history devs evs s -> (forall c fd, sock_of s c fd = None) ->
  forall e k, e ∈ calls evs -> makes e = Some k -> KClose k ∈ calls evs.
Proof. exact all_closed. Qed.
Print Assumptions C89_all_closed.

(** Two sockets never share a kernel socket. *)
Theorem C89_unshared : forall devs evs s i j k,
  history devs evs s -> owns s i k -> owns s j k -> i = j.
Proof. exact kernel_unshared. Qed.
Print Assumptions C89_unshared.

(** A call makes kernel calls of its own kind only, with the bytes, options and
    directions its caller gave. *)
Theorem C89_own_calls : forall devs ev1 e ev2 s x,
  history devs (ev1 ++ e :: ev2) s -> x ∈ e_tr e -> may (e_op e) x = true.
Proof. exact event_may. Qed.
Print Assumptions C89_own_calls.

Definition D1 : list addr := [Host 1].
Definition W (p : Z) : iaddr := IAddr false Any4 p.
Definition H1 (p : Z) : iaddr := IAddr false (Host 1) p.
Definition TCP4 : ptype := (false, true).

(** A server accepts a connection, passes it to a child and closes it; the
    child still has it.  Then the child closes it, and the kernel is told. *)
Definition serve : list (Z * iop * kans) :=
  c1 [Socket false true false false; Bind 3 (W 80); Listen 3 5] ++
  [(1, Accept 3, with_acc (H1 7)); (1, Fork 2, yes); (1, Close 4, yes); (2, Send 4 [1; 2], with_send 2)].
Example C89_nonvacuous :
  (exists evs s, plays D1 serve [IRet 3; IRet 0; IRet 0; IAccepted 4 (H1 7); IRet 0; IRet 0; IRet 2] evs s /\
     held s 1 /\ KClose 1 ∉ calls evs) /\
  (exists evs s, plays D1 (serve ++ [(2, Close 4, yes)]) [IRet 3; IRet 0; IRet 0; IAccepted 4 (H1 7); IRet 0; IRet 0; IRet 2; IRet 0] evs s /\
     KClose 1 ∈ calls evs).
Proof.
  split.
  - apply (inet_ex _ _ _ (fun evs s => bool_decide (KClose 1 ∉ calls evs) && match hdl_of s 2 4 with Some h => bool_decide (h_in h = Some 1) | None => false end)).
    + intros evs s _ H. rewrite andb_true_iff, bool_decide_eq_true in H. destruct H as [A B]. split; [|exact A].
      exists 2, 4. destruct (hdl_of s 2 4) as [h|]; [|discriminate B]. exists h. split; [reflexivity|exact (bool_decide_eq_true_1 _ B)].
    + vm_compute. reflexivity.
  - apply (inet_ex _ _ _ (fun evs s => bool_decide (KClose 1 ∈ calls evs))).
    + intros evs s _ H. exact (bool_decide_eq_true_1 _ H).
    + vm_compute. reflexivity.
Qed.

(** ** C90: data is sent over connections only, and a socket is connected once *)

(** A stream send reaches the kernel only from send, sendto, write or writev,
    with the caller's bytes, on the socket's own kernel socket, which has a
    connection unless the socket was shut down before; the caller is told what
    the kernel answered. *)
Theorem C90_send_partial : forall devs ev1 e ev2 s k bs r,
  history devs (ev1 ++ e :: ev2) s -> KSend k bs None r ∈ e_tr e ->
  exists fd i, (e_op e = Send fd bs \/ (exists x, e_op e = Sendto fd bs x) \/ e_op e = Writev fd bs) /\
    sock_of (e_pre e) (e_cage e) fd = Some i /\ owns (e_pre e) i k /\ e_tr e = [KSend k bs None r] /\
    (established (calls ev1) k \/ shut_by ev1 i) /\ (0 <= r -> e_out e = IRet r).
Proof. exact send_est. Qed.
Print Assumptions C90_send_partial.

(** The kernel is asked to connect only by connect, to the address the caller
    gave, and not for a socket that has a connection and was not shut down. *)
Theorem C90_connect_partial : forall devs ev1 e ev2 s t1 t2 k x r,
  history devs (ev1 ++ e :: ev2) s -> e_tr e = t1 ++ KConnect k x r :: t2 ->
  (exists fd, e_op e = Connect fd x) /\
  (established (calls ev1 ++ t1) k -> exists i, owns (e_pre e) i k /\ shut_by ev1 i).
Proof. exact connect_est. Qed.
Print Assumptions C90_connect_partial.

(** Connecting such a socket again fails and changes nothing. *)
Theorem C90_again_partial : forall devs evs s c fd x a s' t out i k,
  history devs evs s -> sock_of s c fd = Some i -> owns s i k -> established (calls evs) k -> ~ shut_by evs i ->
  step devs s c (Connect fd x) a = IGo s' t out ->
  s' = s /\ t = [] /\ (out = IRet (err EISCONN) \/ out = IRet (err EINVAL)).
Proof. exact connect_again. Qed.
Print Assumptions C90_again_partial.

Example C90_nonvacuous : exists evs s,
  plays D1 (c1 [Socket false true false false; Connect 3 (H1 80)] ++ [(1, Send 3 [5; 6; 7], with_send 2); (1, Connect 3 (H1 81), yes)])
    [IRet 3; IRet 0; IRet 2; IRet (err EISCONN)] evs s /\
  owns s 0 0 /\ established (calls evs) 0 /\ ~ shut_by evs 0 /\ KSend 0 [5; 6; 7] None 2 ∈ calls evs.
Proof.
  apply (inet_ex _ _ _ (fun evs s => bool_decide (KSend 0 [5; 6; 7] None 2 ∈ calls evs) && bool_decide (KConnect 0 (H1 80) 0 ∈ calls evs) && noshut evs
           && match i_h s !! 0 with Some h => bool_decide (h_in h = Some 0) | None => false end)).
  - intros evs s _ H. rewrite !andb_true_iff, !bool_decide_eq_true in H. destruct H as [[[A B] C] D]. split_and!.
    + destruct (i_h s !! 0) as [h|] eqn:E; [|discriminate D]. exists h. split; [exact E|exact (bool_decide_eq_true_1 _ D)].
    + right. left. exists (H1 80). exact B.
    + intros (e & He & Hs & _). exact (noshut_ok _ _ C _ He Hs).
    + exact A.
  - vm_compute. reflexivity.
Qed.

(** After a shutdown for reading of a socket that was never connected the
    library takes the socket for connected: it hands data to the kernel, and
    refuses to connect. *)
Theorem C90_send_refuted : exists evs s,
  plays D1 (c1 [Socket false true false false; Shutdown 3 SHUT_RD; Bind 3 (W 80)] ++ [(1, Send 3 [7], with_send (err EPIPE)); (1, Connect 3 (H1 80), yes)])
    [IRet 3; IRet 0; IRet 0; IRet (err EPIPE); IRet (err EISCONN)] evs s /\
  KSend 0 [7] None (err EPIPE) ∈ calls evs /\ ~ established (calls evs) 0.
Proof.
  apply (inet_ex _ _ _ (fun evs s => bool_decide (KSend 0 [7] None (err EPIPE) ∈ calls evs) && noest (calls evs) 0)).
  - intros evs s _ H. rewrite andb_true_iff, bool_decide_eq_true in H. destruct H as [A B]. split; [exact A|exact (noest_ok _ _ B)].
  - vm_compute. reflexivity.
Qed.
Print Assumptions C90_send_refuted.

(** A connect that failed is not tried again: the second call asks the kernel
    to bind the socket, which already has a name, and reports the refusal. *)
(* errnos.rs 144 *)
Definition ECONNREFUSED : Z := 111.
Definition is_connect (e : kcall) : bool := match e with KConnect _ _ _ => true | _ => false end.
Theorem C90_retry_refuted : exists evs s,
  plays D1 [(1, Socket false true false false, yes); (1, Connect 3 (H1 80), with_conn ECONNREFUSED); (1, Connect 3 (H1 80), with_bind EINVAL)]
    [IRet 3; IRet (err ECONNREFUSED); IRet (err EINVAL)] evs s /\
  List.filter is_connect (calls evs) = [KConnect 0 (H1 80) ECONNREFUSED] /\
  is_Some (kname (calls evs) 0 None) /\ exists y, List.last (calls evs) (KClose 0) = KBind 0 y EINVAL.
Proof.
  apply (inet_ex _ _ _ (fun evs s => bool_decide (List.filter is_connect (calls evs) = [KConnect 0 (H1 80) ECONNREFUSED]) && bool_decide (is_Some (kname (calls evs) 0 None))
            && match List.last (calls evs) (KClose 0) with KBind k _ e => (k =? 0) && (e =? EINVAL) | _ => false end)).
  - intros evs s _ H. rewrite !andb_true_iff, !bool_decide_eq_true in H. destruct H as [[A B] C]. split; [exact A|]. split; [exact B|].
    destruct (List.last _ _) as [| | |k y e| | | | | | | | |]; try discriminate C. rewrite andb_true_iff, !Z.eqb_eq in C. destruct C as [-> ->]. exists y. reflexivity.
  - vm_compute. reflexivity.
Qed.
Print Assumptions C90_retry_refuted.

(** ** C91: the names of a socket are the kernel's *)

(** After a successful bind, and until a shutdown, getsockname reports through
    every descriptor the address the kernel bound: the caller's, with a port of
    the ephemeral range if the caller gave none. *)
Theorem C91_bound_partial : forall devs ev1 e ev2 s fd x i,
  history devs (ev1 ++ e :: ev2) s -> e_op e = Bind fd x -> e_out e = IRet 0 ->
  sock_of (e_pre e) (e_cage e) fd = Some i -> (forall e', e' ∈ ev2 -> ~ shut_call e' i) ->
  exists y, ia_v6 y = ia_v6 x /\ ia_a y = ia_a x /\
    (ia_port x <> 0 -> ia_port y = ia_port x) /\ (ia_port x = 0 -> ephemeral (ia_port y)) /\
    forall c fd' k a s' t out, sock_of s c fd' = Some i -> owns s i k -> 0 <= fd' < MAXFD ->
      step devs s c (Getsockname fd') a = IGo s' t out ->
      out = IName y /\ kname (calls (ev1 ++ e :: ev2)) k None = Some y.
Proof. exact bound_name. Qed.
Print Assumptions C91_bound_partial.

(** After a successful or pending connect, and until a shutdown, getpeername
    reports the address connected to. *)
Theorem C91_peer_partial : forall devs ev1 e ev2 s fd x i,
  history devs (ev1 ++ e :: ev2) s -> e_op e = Connect fd x -> sock_of (e_pre e) (e_cage e) fd = Some i ->
  (exists h, i_h (e_pre e) !! i = Some h /\ h_tcp h = true) ->
  e_out e = IRet 0 \/ (exists k, KConnect k x EINPROGRESS ∈ e_tr e) ->
  (forall e', e' ∈ ev2 -> ~ shut_call e' i) ->
  forall c fd' a s' t out, sock_of s c fd' = Some i -> 0 <= fd' < MAXFD ->
    step devs s c (Getpeername fd') a = IGo s' t out -> out = IName x.
Proof. exact connected_name. Qed.
Print Assumptions C91_peer_partial.

(** An accepted socket is a new one, and its peer is the one accept reported. *)
Theorem C91_accepted_partial : forall devs ev1 e ev2 s fd nfd x,
  history devs (ev1 ++ e :: ev2) s -> e_op e = Accept fd -> e_out e = IAccepted nfd x ->
  exists s1 i, history devs (ev1 ++ [e]) s1 /\ sock_of s1 (e_cage e) nfd = Some i /\ i_h (e_pre e) !! i = None /\
    ((forall e', e' ∈ ev2 -> ~ shut_call e' i) ->
     forall c fd' a s' t out, sock_of s c fd' = Some i -> 0 <= fd' < MAXFD ->
       step devs s c (Getpeername fd') a = IGo s' t out -> out = IName x).
Proof. exact accepted_name. Qed.
Print Assumptions C91_accepted_partial.

Example C91_nonvacuous : exists evs s,
  plays D1 (c1 [Socket false true false false; Bind 3 (W 80); Dup 3; Connect 4 (H1 9); Close 3; Getsockname 4; Getpeername 4])
    [IRet 3; IRet 0; IRet 4; IRet 0; IRet 0; IName (W 80); IName (H1 9)] evs s /\
  sock_of s 1 4 = Some 0 /\ owns s 0 0 /\ kname (calls evs) 0 None = Some (W 80) /\ forall e, e ∈ evs -> ~ shut_call e 0.
Proof.
  apply (inet_ex _ _ _ (fun evs s => bool_decide (sock_of s 1 4 = Some 0) && bool_decide (kname (calls evs) 0 None = Some (W 80)) && noshut evs
           && match i_h s !! 0 with Some h => bool_decide (h_in h = Some 0) | None => false end)).
  - intros evs s _ H. rewrite !andb_true_iff, !bool_decide_eq_true in H. destruct H as [[[A B] C] D]. split_and!; [exact A| |exact B|exact (noshut_ok _ _ C)].
    destruct (i_h s !! 0) as [h|] eqn:E; [|discriminate D]. exists h. split; [exact E|exact (bool_decide_eq_true_1 _ D)].
  - vm_compute. reflexivity.
Qed.

(** After connect without bind getsockname reports no name, although the
    library has bound the kernel socket. *)
Theorem C91_connect_refuted : exists evs s,
  plays D1 (c1 [Socket false true false false; Connect 3 (H1 9); Getsockname 3]) [IRet 3; IRet 0; IName (W 0)] evs s /\
  exists y, kname (calls evs) 0 None = Some y /\ ia_port y <> 0.
Proof.
  apply (inet_ex _ _ _ (fun evs s => match kname (calls evs) 0 None with Some y => negb (ia_port y =? 0) | None => false end)).
  - intros evs s _ H. destruct (kname _ _ _) as [y|]; [|discriminate H]. exists y. split; [reflexivity|]. apply negb_true_iff, Z.eqb_neq in H. exact H.
  - vm_compute. reflexivity.
Qed.
Print Assumptions C91_connect_refuted.

(** An accepted socket reports a port that is not the listener's, and that the
    kernel has never heard of. *)
Definition accepts : list (Z * iop * kans) :=
  c1 [Socket false true false false; Bind 3 (W 80); Listen 3 5] ++ [(1, Accept 3, with_acc (H1 7)); (1, Getsockname 4, yes)].
Theorem C91_accept_refuted : exists y evs s,
  plays D1 accepts [IRet 3; IRet 0; IRet 0; IAccepted 4 (H1 7); IName y] evs s /\
  ia_port y <> 80 /\ forall k e, KBind k y e ∉ calls evs.
Proof.
  pose (y := match play D1 init_inet accepts with Some (evs, s) => match List.last (map e_out evs) IWaits with IName y => y | _ => W 0 end | None => W 0 end).
  exists y. apply (inet_ex _ _ _ (fun evs s => negb (ia_port y =? 80) && nocall (fun e => match e with KBind _ x _ => bool_decide (x = y) | _ => false end) (calls evs))).
  - intros evs s _ H. rewrite !andb_true_iff in H. destruct H as [C D]. split; [apply negb_true_iff, Z.eqb_neq in C; exact C|].
    intros k e He. pose proof (nocall_ok _ _ _ D He) as X. cbn beta iota in X. rewrite bool_decide_eq_true_2 in X by reflexivity. discriminate X.
  - vm_compute. reflexivity.
Qed.
Print Assumptions C91_accept_refuted.

(** A socket whose bind was refused reports the refused name. *)
Theorem C91_failed_bind_refuted : exists evs s,
  plays D1 (c1 [Socket false true false false; Bind 3 (W 80); Socket false true false false; Bind 4 (W 80); Getsockname 4])
    [IRet 3; IRet 0; IRet 4; IRet (err EADDRINUSE); IName (W 80)] evs s /\
  kname (calls evs) 1 None = None.
Proof.
  apply (inet_ex _ _ _ (fun evs s => bool_decide (kname (calls evs) 1 None = None))).
  - intros evs s _ H. exact (bool_decide_eq_true_1 _ H).
  - vm_compute. reflexivity.
Qed.
Print Assumptions C91_failed_bind_refuted.

(** ** C92: a port belongs to one socket at a time *)

(** As long as chosen ports are asked for on all addresses and no bind is
    refused for the port's sake: two sockets of one protocol with the same port
    have different, specific addresses. *)
Theorem C92_apart_partial : forall devs evs s i j y z q,
  history devs evs s -> tidy evs -> has_name s i y q -> has_name s j z q -> i <> j -> ia_port y = ia_port z ->
  ia_a y <> ia_a z /\ unspecified (ia_a y) = false /\ unspecified (ia_a z) = false.
Proof. exact ports_apart. Qed.
Print Assumptions C92_apart_partial.

(** and a bind of a socket without name to a chosen port is passed to the
    kernel exactly if no open socket of the protocol has that port; otherwise it
    fails with EADDRINUSE. *)
Theorem C92_free_partial : forall devs evs s c fd x a s' t out i h,
  history devs evs s -> tidy evs -> sock_of s c fd = Some i -> i_h s !! i = Some h -> h_loc h = None -> ia_v6 x = h_v6 h ->
  unspecified (ia_a x) = true -> ia_a x ∈ iplist devs -> 0 < ia_port x <= 65535 -> ~ ephemeral (ia_port x) ->
  step devs s c (Bind fd x) a = IGo s' t out ->
  ((exists k, KBind k x (a_bind a) ∈ t) \/ out = IRet (err EADDRINUSE) /\ forall k y e, KBind k y e ∉ t) /\
  ((exists k, KBind k x (a_bind a) ∈ t) <-> forall j y, has_name s j y (h_v6 h, h_tcp h) -> ia_port y <> ia_port x).
Proof. exact bind_free. Qed.
Print Assumptions C92_free_partial.

(** Two servers on two ports, one closed, its port taken again *)
Example C92_nonvacuous : exists evs s,
  plays D1 (c1 [Socket false true false false; Bind 3 (W 80); Socket false true false false; Bind 4 (W 81); Close 3;
                Socket false true false false; Bind 3 (W 80); Socket false false false false; Bind 5 (W 81)])
    [IRet 3; IRet 0; IRet 4; IRet 0; IRet 0; IRet 3; IRet 0; IRet 5; IRet 0] evs s /\
  tidy evs /\ has_name s 1 (W 81) TCP4 /\ has_name s 2 (W 80) TCP4 /\ ~ ephemeral 80.
Proof.
  apply (inet_ex _ _ _ (fun evs s => tidyb evs && named_as s 1 (W 81) TCP4 && named_as s 2 (W 80) TCP4)).
  - intros evs s _ H. rewrite !andb_true_iff in H. destruct H as [[A B] C]. split; [exact (tidyb_ok _ A)|]. split; [exact (named_as_ok _ _ _ _ B)|]. split; [exact (named_as_ok _ _ _ _ C)|].
    exact not_eph80.
  - vm_compute. reflexivity.
Qed.

(** In general it does not: closing a socket whose bind was refused gives away
    the port of the socket that has it. *)
Theorem C92_given_away_refuted : exists evs s,
  plays D1 (c1 [Socket false true false false; Bind 3 (W 80); Socket false true false false; Bind 4 (W 80); Close 4;
                Socket false true false false; Bind 4 (W 80)])
    [IRet 3; IRet 0; IRet 4; IRet (err EADDRINUSE); IRet 0; IRet 4; IRet 0] evs s /\
  has_name s 0 (W 80) TCP4 /\ has_name s 2 (W 80) TCP4.
Proof.
  apply (inet_ex _ _ _ (fun evs s => named_as s 0 (W 80) TCP4 && named_as s 2 (W 80) TCP4)).
  - intros evs s _ H. rewrite !andb_true_iff in H. destruct H as [A B]. split; [exact (named_as_ok _ _ _ _ A)|exact (named_as_ok _ _ _ _ B)].
  - vm_compute. reflexivity.
Qed.
Print Assumptions C92_given_away_refuted.

(** and a port taken by connect never comes back: after the socket is closed, and
    with no socket open, a bind to it is refused. *)
Theorem C92_lost_refuted : exists p evs s,
  0 < p <= 65535 /\
  plays D1 (c1 [Socket false true false false; Connect 3 (H1 9); Close 3; Socket false true false false; Bind 3 (W p)])
    [IRet 3; IRet 0; IRet 0; IRet 3; IRet (err EADDRINUSE)] evs s /\
  KBind 0 (W p) 0 ∈ calls evs /\ KClose 0 ∈ calls evs /\ forall j y, has_name s j y TCP4 -> j = 1.
Proof.
  pose (p := match play D1 init_inet (c1 [Socket false true false false; Connect 3 (H1 9)]) with
             | Some (evs, _) => match kname (calls evs) 0 None with Some y => ia_port y | None => 0 end | None => 0 end).
  exists p. 
  destruct (inet_ex D1 (c1 [Socket false true false false; Connect 3 (H1 9); Close 3; Socket false true false false; Bind 3 (W p)])
    [IRet 3; IRet 0; IRet 0; IRet 3; IRet (err EADDRINUSE)]
    (fun evs s => (0 <? p) && (p <=? 65535) && bool_decide (KBind 0 (W p) 0 ∈ calls evs) && bool_decide (KClose 0 ∈ calls evs) && forallb (fun x => x.1 =? 1) (map_to_list (i_h s)))
    (fun evs s => 0 < p <= 65535 /\ KBind 0 (W p) 0 ∈ calls evs /\ KClose 0 ∈ calls evs /\ forall j y, has_name s j y TCP4 -> j = 1)) as (evs & s & A & B & C).
  - intros evs s _ H. rewrite !andb_true_iff, !bool_decide_eq_true, Z.ltb_lt, Z.leb_le, forallb_forall in H. destruct H as [[[[A1 A2] B] C] D]. split; [auto|]. split; [exact B|]. split; [exact C|].
    intros j y (h & Hh & _). apply elem_of_map_to_list, elem_of_list_In, D in Hh. exact (proj1 (Z.eqb_eq _ _) Hh).
  - vm_compute. reflexivity.
  - exists evs, s. split; [exact B|]. split; [exact A|exact C].
Qed.
Print Assumptions C92_lost_refuted.

(** A bind to all IPv6 addresses is always refused. *)
Theorem C92_ipv6_refuted : exists evs s,
  plays D1 (c1 [Socket true true false false; Bind 3 (IAddr true Any6 80)]) [IRet 3; IRet (err EADDRNOTAVAIL)] evs s /\
  forall j y, has_name s j y (true, true) -> j = 0.
Proof.
  apply (inet_ex _ _ _ (fun evs s => forallb (fun x => x.1 =? 0) (map_to_list (i_h s)))).
  - intros evs s _ H j y (h & Hh & _). rewrite forallb_forall in H. apply elem_of_map_to_list, elem_of_list_In, H in Hh. exact (proj1 (Z.eqb_eq _ _) Hh).
  - vm_compute. reflexivity.
Qed.
Print Assumptions C92_ipv6_refuted.
