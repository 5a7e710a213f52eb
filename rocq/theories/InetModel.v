(** AF_INET and AF_INET6 sockets: what the library does around the calls it
    passes to the host kernel.

    Modelled code: /repo/src/safeposix/syscalls/net_calls.rs (line numbers at
    each definition), the socket parts of fs_calls.rs (close, dup, dup2, fcntl,
    ioctl, read, write, writev) and of sys_calls.rs (fork), net.rs 119-146 and
    interface/comm.rs 226-606; the port table is [PortModel].

    The host kernel is not modelled: every call takes the kernel's answers as
    an argument ([kans], at most one answer of each kind is used) and produces
    the list of kernel calls it made ([kcall]).  Theorems quantify over all
    answers.

    Simplifications.
    - One system call is one step.  A blocking call that the kernel answers
      with EAGAIN (the one-second timeout of comm.rs 236-251) goes on: it
      answers [IWaits], and going on is the same as calling again.
    - The creation of a kernel socket succeeds (comm.rs 252-254 aborts otherwise).
    - Of the options SO_REUSEPORT and SO_REUSEADDR only; the others do
      not matter to the port table or to the mode of the kernel's socket.
    - [IOther] stands for the standard streams, the only other descriptors here.
      Calls that fs_calls.rs would carry out on them (writev, fcntl, ioctl)
      answer ENOTSOCK.
    - The mode switches around a non-blocking receive or accept succeed (their
      answers are ignored, comm.rs 372-386, 446-480).
    - [exit] and [exec] are sequences of closes and are not separate calls.
    - The set [listening_port_set] is written and never read, and
      [pending_conn_table] only ever holds empty lists: the set of its keys is
      kept.
    - [select] is one pass over the descriptors.  Its answer when the kernel's
      [select] fails is not modelled. *)
From Verif Require Import Base PortModel ErrnoModel.
Local Open Scope list_scope.
Local Open Scope Z_scope.

(** errnos.rs; net_constants.rs *)
Definition EISCONN : Z := 106.
Definition EINPROGRESS : Z := 115.
Definition MSG_PEEK : Z := 2.
Definition SHUT_RD : Z := 0.
Definition SHUT_WR : Z := 1.
Definition SHUT_RDWR : Z := 2.
Definition SO_REUSEADDR : Z := 2.
Definition SO_REUSEPORT : Z := 15.

(** interface/comm.rs GenSockaddr: family (IPv6?), address, port in network
    byte order *)
Record iaddr := IAddr { ia_v6 : bool; ia_a : addr; ia_port : Z }.
#[global] Instance iaddr_dec : EqDecision iaddr.
Proof. solve_decision. Defined.
(** the default address of a family (comm.rs 198-224) *)
Definition any_addr (v6 : bool) : addr := if v6 then Any6 else Any4.
Definition zero_addr (v6 : bool) : iaddr := IAddr v6 (any_addr v6) 0.
Definition with_port (p : Z) (x : iaddr) : iaddr := IAddr (ia_v6 x) (ia_a x) p.
(** net_calls.rs 1356: no destination *)
Definition no_dest (x : iaddr) : bool := (ia_port x =? 0) && unspecified (ia_a x).

(** net.rs ConnState *)
Inductive cstate := NotConn | InProg | Conn | RdOnly | WrOnly | Listening.
#[global] Instance cstate_dec : EqDecision cstate.
Proof. solve_decision. Defined.

(** net.rs 121-136 SocketHandle.  [h_nb]: SOCK_NONBLOCK in [socktype];
    [h_in]: the kernel's socket. *)
Record hdl := Hdl {
  h_v6 : bool; h_tcp : bool; h_nb : bool;
  h_st : cstate;
  h_in : option Z;
  h_loc : option iaddr;
  h_rem : option iaddr;
  h_opts : Z;
  h_peek : list Z
}.
(** cage.rs SocketDesc: handle (shared by duplicates), flags of this
    descriptor, and [rawfd] *)
Inductive idesc := ISock (h fl raw : Z) | IOther.

Record ist := Ist {
  i_fds : gmap (Z * Z) idesc;
  i_h : gmap Z hdl;
  i_nh : Z;
  i_ports : ports;
  i_pend : list (addr * Z * bool);    (* keys of pending_conn_table *)
  i_nk : Z                            (* next kernel socket *)
}.

(** What the kernel is asked, with its answer: 0 or an error number. *)
Inductive kcall :=
  | KSocket (k : Z) (v6 tcp nb : bool)
  | KSetopt (k opt v e : Z)
  | KMode (k : Z) (nb : bool)
  | KBind (k : Z) (x : iaddr) (e : Z)
  | KConnect (k : Z) (x : iaddr) (e : Z)
  | KListen (k n e : Z)
  | KAccept (k : Z) (r : iaddr + Z) (k' : Z)  (* on success [k'] is the new socket *)
  | KSend (k : Z) (bs : list Z) (dest : option iaddr) (r : Z)
  | KRecv (k len : Z) (r : list Z + Z)
  | KShut (k how e : Z)
  | KErr (k : Z) (ok : bool)                  (* SO_ERROR is 0? *)
  | KSelect (ks : list Z) (ready : list Z)
  | KClose (k : Z).
#[global] Instance kcall_dec : EqDecision kcall.
Proof. solve_decision. Defined.

(** The kernel's answers: 0 or an error number; [a_send] the number of bytes,
    or an error number negated; [a_errno] is the value errno has for other
    reasons. *)
Record kans := KAns {
  a_opt : Z; a_mode : Z; a_bind : Z; a_conn : Z; a_listen : Z; a_shut : Z;
  a_acc : iaddr + Z; a_send : Z; a_recv : list Z + Z; a_soerr : bool;
  a_ready : list Z; a_errno : Z
}.

Inductive iout :=
  | IRet (r : Z)
  | IData (bs : list Z)                 (* returns their number *)
  | IName (x : iaddr)                   (* returns 0 *)
  | IAccepted (fd : Z) (peer : iaddr)   (* returns fd *)
  | IReady (fds : list Z)
  | IWaits.
#[global] Instance iout_dec : EqDecision iout.
Proof. solve_decision. Defined.
(** [IGo]: returns (or waits).  [IDies]: the runtime aborts.  [IHang]: the
    calling thread waits for a lock it holds. *)
Inductive ires := IGo (s : ist) (tr : list kcall) (o : iout) | IDies | IHang.

(** Updates *)
Definition set_fds f s := Ist (f (i_fds s)) (i_h s) (i_nh s) (i_ports s) (i_pend s) (i_nk s).
Definition set_h f s := Ist (i_fds s) (f (i_h s)) (i_nh s) (i_ports s) (i_pend s) (i_nk s).
Definition set_ports p s := Ist (i_fds s) (i_h s) (i_nh s) p (i_pend s) (i_nk s).
Definition set_pend f s := Ist (i_fds s) (i_h s) (i_nh s) (i_ports s) (f (i_pend s)) (i_nk s).
Definition bump_k s := Ist (i_fds s) (i_h s) (i_nh s) (i_ports s) (i_pend s) (i_nk s + 1).
Definition add_h h s := Ist (i_fds s) (<[i_nh s := h]> (i_h s)) (i_nh s + 1) (i_ports s) (i_pend s) (i_nk s).
Definition put_fd (c fd : Z) (d : idesc) : ist -> ist := set_fds (insert (c, fd) d).
Definition put_h (i : Z) (h : hdl) : ist -> ist := set_h (insert i h).

Definition with_st x h := Hdl (h_v6 h) (h_tcp h) (h_nb h) x (h_in h) (h_loc h) (h_rem h) (h_opts h) (h_peek h).
Definition with_in x h := Hdl (h_v6 h) (h_tcp h) (h_nb h) (h_st h) x (h_loc h) (h_rem h) (h_opts h) (h_peek h).
Definition with_loc x h := Hdl (h_v6 h) (h_tcp h) (h_nb h) (h_st h) (h_in h) x (h_rem h) (h_opts h) (h_peek h).
Definition with_rem x h := Hdl (h_v6 h) (h_tcp h) (h_nb h) (h_st h) (h_in h) (h_loc h) x (h_opts h) (h_peek h).
Definition with_opts x h := Hdl (h_v6 h) (h_tcp h) (h_nb h) (h_st h) (h_in h) (h_loc h) (h_rem h) x (h_peek h).
Definition with_peek x h := Hdl (h_v6 h) (h_tcp h) (h_nb h) (h_st h) (h_in h) (h_loc h) (h_rem h) (h_opts h) x.

(** One cage with its three standard streams *)
Definition init_inet : ist :=
  Ist (<[(1, 0) := IOther]> (<[(1, 1) := IOther]> {[ (1, 2) := IOther ]})) ∅ 0 new_ports [] 0.

Definition fd_list : list Z := seqZ 0 MAXFD.
(** cage.rs 127-160 *)
Definition next_fd (s : ist) (c : Z) : option Z :=
  List.find (fun k => bool_decide (i_fds s !! (c, k) = None)) fd_list.
Definition in_range (fd : Z) : bool := (0 <=? fd) && (fd <? MAXFD).
Definition nonblock (fl : Z) : bool := hasbit fl O_NONBLOCK.
Definition pt (h : hdl) : ptype := (h_v6 h, h_tcp h).

(** [Errno::from_discriminant(get_errno())]; [None] is the panic *)
Definition kerr (e : Z) : option Z :=
  match from_discriminant e with Some i => Some (- discriminant i) | None => None end.
Definition kfail (s : ist) (tr : list kcall) (e : Z) : ires :=
  match kerr e with Some r => IGo s tr (IRet r) | None => IDies end.

(** net_calls.rs 65-97, 182-311, 1222-1245, for the supported combinations *)
Definition fl_of (nb ce : bool) : Z := (if nb then O_NONBLOCK else 0) + (if ce then O_CLOEXEC else 0).
Definition new_hdl (v6 tcp nb : bool) (st : cstate) (fl : Z) : hdl := Hdl v6 tcp nb st None None None fl [].
Definition socket_call (s : ist) (c : Z) (v6 tcp nb ce : bool) : ires :=
  match next_fd s c with
  | None => IGo s [] (IRet (err ENFILE))
  | Some fd =>
      let fl := fl_of nb ce in
      IGo (put_fd c fd (ISock (i_nh s) fl (-1)) (add_h (new_hdl v6 tcp nb NotConn fl) s)) [] (IRet fd)
  end.

(** net_calls.rs 314-353 [force_innersocket]: the kernel's socket, made when
    first needed; [None] is the panic in 346 *)
Definition reuse_opts (o : Z) : list Z :=
  List.filter (fun b => hasbit o (2 ^ b)) [SO_REUSEPORT; SO_REUSEADDR].
Definition force_inner (s : ist) (h : hdl) (a : kans) : option (ist * hdl * Z * list kcall) :=
  match h_in h with
  | Some k => Some (s, h, k, [])
  | None =>
      let k := i_nk s in
      if bool_decide (reuse_opts (h_opts h) <> []) && negb (a_opt a =? 0) then None
      else Some (bump_k s, with_in (Some k) h, k,
                 KSocket k (h_v6 h) (h_tcp h) (h_nb h) :: map (fun b => KSetopt k b 1 0) (reuse_opts (h_opts h)))
  end.

(** net_calls.rs 568-623 [bind_inner_socket_inet] and 416-458
    [bind_inner_socket] of an INET socket: the local address is set whether or
    not the binding worked.  [None] is a panic. *)
Definition bind_inner (devs : list addr) (s : ist) (h : hdl) (x : iaddr) (pre : bool) (a : kans)
    : option (ist * hdl * list kcall * Z) :=
  if negb (Bool.eqb (ia_v6 x) (h_v6 h)) then Some (s, h, [], err EINVAL) else
  match h_loc h with
  | Some _ => Some (s, h, [], err EINVAL)
  | None =>
      match force_inner s h a with
      | None => None
      | Some (s1, h1, k, t1) =>
          let '(p2, r) := if pre then (i_ports s1, ia_port x)
                          else reserve devs (i_ports s1) (ia_a x) (ia_port x) (pt h) (hasbit (h_opts h) (2 ^ SO_REUSEPORT)) in
          let s2 := set_ports p2 s1 in
          if r <? 0 then Some (s2, with_loc (Some x) h1, t1, r) else
          let x2 := with_port r x in
          let t2 := t1 ++ [KBind k x2 (a_bind a)] in
          let h2 := with_loc (Some x2) h1 in
          if a_bind a =? 0 then Some (s2, h2, t2, 0)
          else match kerr (a_bind a) with Some e => Some (s2, h2, t2, e) | None => None end
      end
  end.

(** net_calls.rs 691-765 [assign_new_addr] of a socket without local address:
    a fresh port on all addresses.  Sharing is asked for by a bit of the
    protocol number (129, 966, 1143), which TCP (6) and UDP (17) do not have. *)
Definition assign (devs : list addr) (s : ist) (h : hdl) : ist * (iaddr + Z) :=
  let '(p, r) := reserve devs (i_ports s) (any_addr (h_v6 h)) 0 (pt h) false in
  (set_ports p s, if r <? 0 then inr r else inl (IAddr (h_v6 h) (any_addr (h_v6 h)) r)).

(** net_calls.rs 118-157 [_implicit_bind].  In 139-151 the error is taken from
    errno again, which is what the kernel's bind has just set. *)
Definition implicit_bind (devs : list addr) (s : ist) (h : hdl) (v6 : bool) (a : kans)
    : option (ist * hdl * list kcall * Z) :=
  match h_loc h with
  | Some _ => Some (s, h, [], 0)
  | None =>
      if negb (Bool.eqb v6 (h_v6 h)) then Some (s, h, [], err EINVAL) else
      match assign devs s h with
      | (s1, inr e) => Some (s1, h, [], e)
      | (s1, inl x) => bind_inner devs s1 h x true a
      end
  end.

(** Looking up a descriptor: 625-630 and the like *)
Definition on_sock (s : ist) (c fd : Z) (f : Z -> Z -> Z -> hdl -> ires) : ires :=
  if negb (in_range fd) then IDies else
  match i_fds s !! (c, fd) with
  | None => IGo s [] (IRet (err EBADF))
  | Some IOther => IGo s [] (IRet (err ENOTSOCK))
  | Some (ISock i fl raw) =>
      match i_h s !! i with Some h => f i fl raw h | None => IDies end
  end.

(** net_calls.rs 406-412, 625-660 *)
Definition bind_call (devs : list addr) (s : ist) (c fd : Z) (x : iaddr) (a : kans) : ires :=
  on_sock s c fd (fun i fl raw h =>
    match bind_inner devs s h x false a with
    | None => IDies
    | Some (s1, h1, tr, r) => IGo (put_h i h1 s1) tr (IRet r)
    end).

(** net_calls.rs 945-992 [connect_udp] *)
Definition connect_udp (devs : list addr) (s : ist) (c fd i fl : Z) (h : hdl) (x : iaddr) (a : kans) : ires :=
  let h0 := with_rem (Some x) h in
  match h_loc h0 with
  | Some _ => IGo (put_h i h0 s) [] (IRet 0)
  | None =>
      match assign devs s h0 with
      | (s1, inr e) => IGo (put_h i h0 s1) [] (IRet e)
      | (s1, inl y) =>
          match bind_inner devs s1 h0 y true a with
          | None => IDies
          | Some (s2, h2, tr, r) =>
              match h_in h2 with
              | None => IDies
              | Some k => IGo (put_fd c fd (ISock i fl k) (put_h i h2 s2)) tr (IRet r)
              end
          end
      end
  end.

(** net_calls.rs 1112-1219 [connect_tcp_inet]: a socket without local address
    gets one; it is remembered only if the kernel refuses it (1155) *)
Definition connect_kernel (s : ist) (c fd i fl : Z) (h : hdl) (k : Z) (tr : list kcall) (x : iaddr) (a : kans) : ires :=
  let tr' := tr ++ [KConnect k x (a_conn a)] in
  let done st := put_fd c fd (ISock i fl k) (put_h i (with_rem (Some x) (with_st st h)) s) in
  if a_conn a =? 0 then IGo (done Conn) tr' (IRet 0)
  else if a_conn a =? EINPROGRESS then IGo (done InProg) tr' (IRet (err EINPROGRESS))
  else kfail (put_h i h s) tr' (a_conn a).
Definition connect_tcp (devs : list addr) (s : ist) (c fd i fl : Z) (h : hdl) (x : iaddr) (a : kans) : ires :=
  if negb (bool_decide (h_st h = NotConn)) then IGo s [] (IRet (err EISCONN)) else
  match h_loc h with
  | Some _ =>
      match h_in h with
      | None => IDies
      | Some k => connect_kernel s c fd i fl h k [] x a
      end
  | None =>
      match force_inner s h a with
      | None => IDies
      | Some (s1, h1, k, t1) =>
          match assign devs s1 h1 with
          | (s2, inr e) => IGo (put_h i h1 s2) t1 (IRet e)
          | (s2, inl y) =>
              let t2 := t1 ++ [KBind k y (a_bind a)] in
              if a_bind a =? 0 then connect_kernel s2 c fd i fl h1 k t2 x a
              else kfail (put_h i (with_loc (Some y) h1) s2) t2 (a_bind a)
          end
      end
  end.
(** net_calls.rs 877-943 *)
Definition connect_call (devs : list addr) (s : ist) (c fd : Z) (x : iaddr) (a : kans) : ires :=
  on_sock s c fd (fun i fl raw h =>
    if negb (Bool.eqb (ia_v6 x) (h_v6 h)) then IGo s [] (IRet (err EINVAL))
    else if h_tcp h then connect_tcp devs s c fd i fl h x a
    else connect_udp devs s c fd i fl h x a).

(** net_calls.rs 2432-2600 *)
Definition listen_call (devs : list addr) (s : ist) (c fd backlog : Z) (a : kans) : ires :=
  on_sock s c fd (fun i fl raw h =>
    match h_st h with
    | Listening => IGo s [] (IRet 0)
    | NotConn =>
        if negb (h_tcp h) then IGo s [] (IRet (err EOPNOTSUPP)) else
        match implicit_bind devs s h (h_v6 h) a with
        | None => IDies
        | Some (s1, h1, t1, r) =>
            if r <? 0 then
              (* 2509-2513: the error is errno, set only if the kernel was asked *)
              kfail (put_h i h1 s1) t1 (if bool_decide (t1 = []) then a_errno a else a_bind a)
            else
            match h_in h1, h_loc h1 with
            | Some k, Some l =>
                let tr := t1 ++ [KListen k backlog (a_listen a)] in
                if a_listen a =? 0 then
                  IGo (put_fd c fd (ISock i fl k) (put_h i (with_st Listening h1)
                        (set_pend (cons (ia_a l, ia_port l, h_v6 h)) s1))) tr (IRet 0)
                else kfail (put_h i h1 s1) tr (a_listen a)
            | _, _ => IDies
            end
        end
    | _ => IGo s [] (IRet (err EOPNOTSUPP))
    end).

(** comm.rs 353-386 and 442-486: calls that switch the kernel's socket to non-blocking
    mode and back *)
Definition bracket (nb : bool) (k : Z) (t : list kcall) : list kcall :=
  if nb then KMode k true :: t ++ [KMode k false] else t.

(** net_calls.rs 2915-2994, 3145-3360.  Without a free descriptor the answer
    is [fd] (2927).  The new socket gets a fresh port as its local port. *)
Definition accept_call (devs : list addr) (s : ist) (c fd : Z) (a : kans) : ires :=
  if negb (in_range fd) then IDies else
  match i_fds s !! (c, fd) with
  | None => IGo s [] (IRet (err EBADF))
  | Some d =>
  match next_fd s c with
  | None => IGo s [] (IRet fd)
  | Some nfd =>
  match d with
  | IOther => IGo s [] (IRet (err ENOTSOCK))
  | ISock i fl raw =>
  match i_h s !! i with
  | None => IDies
  | Some h =>
      if negb (h_tcp h) then IGo s [] (IRet (err EOPNOTSUPP)) else
      if negb (bool_decide (h_st h = Listening)) then IGo s [] (IRet (err EINVAL)) else
      match h_loc h, h_in h with
      | Some l, Some k =>
          if negb (bool_decide ((ia_a l, ia_port l, h_v6 h) ∈ i_pend s)) then IDies else
          let k' := i_nk s in
          let tr := bracket (nonblock fl) k [KAccept k (a_acc a) k'] in
          match a_acc a with
          | inr e =>
              if negb (nonblock fl) && (e =? EAGAIN) then IGo s tr IWaits else kfail s tr e
          | inl peer =>
              let '(p, r) := reserve devs (i_ports s) (ia_a l) 0 (pt h) false in
              let s1 := bump_k (set_ports p s) in
              if r <? 0 then IGo s1 (tr ++ [KClose k']) (IRet r) else
              let fl' := fl_of (nonblock fl) (hasbit fl O_CLOEXEC) in
              let h' := Hdl (h_v6 h) true (h_nb h) Conn (Some k') (Some (with_port r l)) (Some peer) fl' [] in
              IGo (put_fd c nfd (ISock (i_nh s1) fl' k') (add_h h' s1)) tr (IAccepted nfd peer)
          end
      | _, _ => IDies
      end
  end end end end.

(** net_calls.rs 1704-1748 (TCP; also writev, fs_calls.rs 2529-2566) *)
Definition send_tcp (s : ist) (h : hdl) (bs : list Z) (a : kans) : ires :=
  match h_st h with
  | Conn | WrOnly =>
      match h_in h with
      | None => IDies
      | Some k =>
          let tr := [KSend k bs None (a_send a)] in
          if a_send a <? 0 then kfail s tr (- a_send a) else IGo s tr (IRet (a_send a))
      end
  | _ => IGo s [] (IRet (err ENOTCONN))
  end.
(** net_calls.rs 1362-1480, after the test for an empty destination *)
Definition sendto_inner (devs : list addr) (s : ist) (i : Z) (h : hdl) (bs : list Z) (x : iaddr) (a : kans) : ires :=
  if negb (Bool.eqb (ia_v6 x) (h_v6 h)) then IGo s [] (IRet (err EINVAL)) else
  if negb (bool_decide (h_st h = NotConn)) then IGo s [] (IRet (err EISCONN)) else
  if h_tcp h then IGo s [] (IRet (err EISCONN)) else
  match implicit_bind devs s h (ia_v6 x) a with
  | None => IDies
  | Some (s1, h1, t1, r) =>
      if r <? 0 then IGo (put_h i h1 s1) t1 (IRet r) else
      match h_in h1 with
      | None => IDies
      | Some k =>
          let tr := t1 ++ [KSend k bs (Some x) (a_send a)] in
          if a_send a <? 0 then kfail (put_h i h1 s1) tr (- a_send a)
          else IGo (put_h i h1 s1) tr (IRet (a_send a))
      end
  end.
(** net_calls.rs 1593-1818 for INET sockets; [write] is [send].  A UDP socket
    connected to the empty destination makes [send] and [sendto] call each
    other without end (1356, 1775): the stack overflows. *)
Definition send_call (devs : list addr) (s : ist) (c fd : Z) (bs : list Z) (a : kans) : ires :=
  on_sock s c fd (fun i fl raw h =>
    if h_tcp h then send_tcp s h bs a
    else match h_rem h with
         | None => IGo s [] (IRet (err ENOTCONN))
         | Some x => if no_dest x then IDies else sendto_inner devs s i h bs x a
         end).
(** net_calls.rs 1346-1480 *)
Definition sendto_call (devs : list addr) (s : ist) (c fd : Z) (bs : list Z) (x : iaddr) (a : kans) : ires :=
  if no_dest x then send_call devs s c fd bs a
  else on_sock s c fd (fun i fl raw h => sendto_inner devs s i h bs x a).
(** fs_calls.rs 2524-2573 *)
Definition writev_call (s : ist) (c fd : Z) (bs : list Z) (a : kans) : ires :=
  on_sock s c fd (fun i fl raw h =>
    if h_tcp h then send_tcp s h bs a else IGo s [] (IRet (err EOPNOTSUPP))).

(** net_calls.rs 1886-2115 *)
Definition recv_tcp (s : ist) (i fl : Z) (h : hdl) (len flags : Z) (a : kans) : ires :=
  match match h_st h with
        | InProg => match h_in h with
                    | None => None
                    | Some k => Some (if a_soerr a then with_st Conn h else h, [KErr k (a_soerr a)])
                    end
        | _ => Some (h, [])
        end with
  | None => IDies
  | Some (h0, t0) =>
      match h_st h0 with
      | Conn | RdOnly =>
          let n := Z.min (Z.of_nat (length (h_peek h0))) len in
          let got := take (Z.to_nat n) (h_peek h0) in
          let h1 := if hasbit flags MSG_PEEK then h0 else with_peek (drop (Z.to_nat n) (h_peek h0)) h0 in
          let left := len - n in
          if bool_decide (h_peek h0 <> []) && (left =? 0) then IGo (put_h i h1 s) t0 (IData got) else
          match h_in h1 with
          | None => IDies
          | Some k =>
              let tr := t0 ++ bracket (nonblock fl) k [KRecv k left (a_recv a)] in
              match a_recv a with
              | inr e =>
                  if negb (n =? 0) then IGo (put_h i h1 s) tr (IData got)
                  else if negb (nonblock fl) && (e =? EAGAIN) then IGo (put_h i h1 s) tr IWaits
                  else kfail (put_h i h1 s) tr e
              | inl bs =>
                  let h2 := if hasbit flags MSG_PEEK then with_peek (h_peek h1 ++ bs) h1 else h1 in
                  IGo (put_h i h2 s) tr (IData (got ++ bs))
              end
          end
      | _ => IGo (put_h i h0 s) t0 (IRet (err ENOTCONN))
      end
  end.
(** net_calls.rs 2117-2205; the flags are not looked at *)
Definition recv_udp (devs : list addr) (s : ist) (i fl : Z) (h : hdl) (len : Z) (fam : option bool) (a : kans) : ires :=
  match implicit_bind devs s h (match fam with Some v => v | None => false end) a with
  | None => IDies
  | Some (s1, h1, t1, r) =>
      if r <? 0 then IGo (put_h i h1 s1) t1 (IRet r) else
      match h_in h1 with
      | None => IDies
      | Some k =>
          let tr := t1 ++ [KRecv k len (a_recv a)] in
          match a_recv a with
          | inr e => if negb (nonblock fl) && (e =? EAGAIN) then IGo (put_h i h1 s1) tr IWaits
                     else kfail (put_h i h1 s1) tr e
          | inl bs => IGo (put_h i h1 s1) tr (IData bs)
          end
      end
  end.
(** net_calls.rs 1824-1884, 2207-2240; [read] and [recv] have no address
    ([fam] is [None]) *)
Definition recv_call (devs : list addr) (s : ist) (c fd len flags : Z) (fam : option bool) (a : kans) : ires :=
  on_sock s c fd (fun i fl raw h =>
    if h_tcp h then recv_tcp s i fl h len flags a else recv_udp devs s i fl h len fam a).

(** net.rs 142-146: the handle goes away with its last descriptor; the
    kernel's socket is closed and the port released (net_calls.rs 2718-2748).
    [None] is a panic in [_release_localport]. *)
Definition used (s : ist) (i : Z) : bool :=
  existsb (fun e => match e.2 with ISock j _ _ => j =? i | IOther => false end) (map_to_list (i_fds s)).
Definition drop_hdl (devs : list addr) (s : ist) (i : Z) : option (ist * list kcall) :=
  if used s i then Some (s, []) else
  match i_h s !! i with
  | None => Some (s, [])
  | Some h =>
      let s1 := set_h (delete i) s in
      match h_in h with
      | None => Some (s1, [])
      | Some k =>
          match h_loc h with
          | None => Some (s1, [KClose k])
          | Some l =>
              match release devs (i_ports s1) (ia_a l) (ia_port l) (pt h) with
              | Done (p, _) => Some (set_ports p s1, [KClose k])
              | Panic => None
              end
          end
      end
  end.
Definition drop_fd (devs : list addr) (s : ist) (c fd : Z) : option (ist * list kcall) :=
  let s1 := set_fds (delete (c, fd)) s in
  match i_fds s !! (c, fd) with
  | Some (ISock i _ _) => drop_hdl devs s1 i
  | _ => Some (s1, [])
  end.

(** net_calls.rs 2654-2795 with [shutdown = true]: handle, result *)
Definition shut_inner (devs : list addr) (s : ist) (h : hdl) (how : Z) (a : kans)
    : option (ist * hdl * list kcall * Z) :=
  let state h' :=
    with_st (if how =? SHUT_RD then (if bool_decide (h_st h = RdOnly) then NotConn else WrOnly)
             else if how =? SHUT_WR then (if bool_decide (h_st h = WrOnly) then NotConn else RdOnly)
             else NotConn) h' in
  match h_in h with
  | None => Some (s, state h, [], 0)
  | Some k =>
      let tr := [KShut k how (a_shut a)] in
      if negb (a_shut a =? 0) then
        match kerr (a_shut a) with Some e => Some (s, h, tr, e) | None => None end
      else
        let fin := (how =? SHUT_RDWR)
                   || ((how =? SHUT_RD) && bool_decide (h_st h = RdOnly))
                   || ((how =? SHUT_WR) && bool_decide (h_st h = WrOnly)) in
        match (if fin then h_loc h else None) with
        | None => Some (s, state h, tr, 0)
        | Some l =>
            match release devs (i_ports s) (ia_a l) (ia_port l) (pt h) with
            | Panic => None
            | Done (p, r) =>
                if r <? 0 then Some (set_ports p s, with_loc None h, tr, r)
                else Some (set_ports p s, state (with_loc None h), tr, 0)
            end
        end
  end.
(** net_calls.rs 2625-2652, 2797-2850: SHUT_RDWR removes the descriptor *)
Definition shutdown_call (devs : list addr) (s : ist) (c fd how : Z) (a : kans) : ires :=
  if negb (in_range fd) then IGo s [] (IRet (err EBADF)) else
  if negb ((how =? SHUT_RD) || (how =? SHUT_WR) || (how =? SHUT_RDWR)) then IGo s [] (IRet (err EINVAL)) else
  on_sock s c fd (fun i fl raw h =>
    match shut_inner devs s h how a with
    | None => IDies
    | Some (s1, h1, t1, r) =>
        let s2 := put_h i h1 s1 in
        if r <? 0 then IGo s2 t1 (IRet r)
        else if how =? SHUT_RDWR then
          match drop_fd devs s2 c fd with
          | None => IDies
          | Some (s3, t3) => IGo s3 (t1 ++ t3) (IRet 0)
          end
        else IGo s2 t1 (IRet 0)
    end).

(** fs_calls.rs 3560-3564, 3595-3667, 3820-3844 *)
Definition close_call (devs : list addr) (s : ist) (c fd : Z) : ires :=
  if negb (in_range fd) then IDies else
  match i_fds s !! (c, fd) with
  | None => IGo s [] (IRet (err EBADF))
  | Some _ =>
      match drop_fd devs s c fd with
      | None => IDies
      | Some (s1, tr) => IGo s1 tr (IRet 0)
      end
  end.
Definition no_cloexec (fl : Z) : Z := Z.land fl (Z.lnot O_CLOEXEC).
Definition dup_desc (d : idesc) : idesc :=
  match d with ISock i fl raw => ISock i (no_cloexec fl) raw | IOther => IOther end.
(** fs_calls.rs 3279-3306 and 3436-3530 *)
Definition dup_call (s : ist) (c fd : Z) : ires :=
  if fd =? 0 then IGo s [] (IRet 0) else
  if negb (in_range fd) then IGo s [] (IRet (err EBADF)) else
  match i_fds s !! (c, fd) with
  | None => IGo s [] (IRet (err EBADF))
  | Some d =>
      match next_fd s c with
      | None => IGo s [] (IRet (err ENFILE))
      | Some k => IGo (put_fd c k (dup_desc d) s) [] (IRet k)
      end
  end.
(** fs_calls.rs 3342-3370 and 3422-3530; the old contents of the target go
    when the new ones are stored (3527) *)
Definition dup2_call (devs : list addr) (s : ist) (c fd fd2 : Z) : ires :=
  if negb (in_range fd2) then IGo s [] (IRet (err EBADF)) else
  if fd2 =? fd then IGo s [] (IRet fd2) else
  if negb (in_range fd) then IGo s [] (IRet (err EBADF)) else
  match i_fds s !! (c, fd) with
  | None => IGo s [] (IRet (err EBADF))
  | Some d =>
      let s1 := put_fd c fd2 (dup_desc d) s in
      match i_fds s !! (c, fd2) with
      | Some (ISock i _ _) =>
          match drop_hdl devs s1 i with
          | None => IDies
          | Some (s2, tr) => IGo s2 tr (IRet fd2)
          end
      | _ => IGo s1 [] (IRet fd2)
      end
  end.
(** sys_calls.rs 205-284; the child is a fresh cage (otherwise not enabled:
    the runtime picks an unused number) *)
Definition fork_fds (c c' : Z) (m : gmap (Z * Z) idesc) : gmap (Z * Z) idesc :=
  foldr (fun k acc => match m !! (c, k) with Some d => <[(c', k) := d]> acc | None => acc end) m fd_list.
Definition fork_call (s : ist) (c c' : Z) : ires := IGo (set_fds (fork_fds c c') s) [] (IRet 0).

(** net_calls.rs 4237-4300 and 4308-4400 *)
Definition getpeername_call (s : ist) (c fd : Z) : ires :=
  if negb (in_range fd) then IGo s [] (IRet (err EBADF)) else
  on_sock s c fd (fun i fl raw h =>
    match h_rem h with None => IGo s [] (IRet (err ENOTCONN)) | Some x => IGo s [] (IName x) end).
Definition getsockname_call (s : ist) (c fd : Z) : ires :=
  if negb (in_range fd) then IGo s [] (IRet (err EBADF)) else
  on_sock s c fd (fun i fl raw h =>
    IGo s [] (IName (match h_loc h with None => zero_addr (h_v6 h) | Some x => x end))).

(** net_calls.rs 4000-4230 for SO_REUSEPORT and SO_REUSEADDR *)
Definition setopt_call (s : ist) (c fd opt v : Z) (a : kans) : ires :=
  if negb (in_range fd) then IGo s [] (IRet (err EBADF)) else
  on_sock s c fd (fun i fl raw h =>
    if negb ((opt =? SO_REUSEPORT) || (opt =? SO_REUSEADDR)) then IGo s [] (IRet (err EOPNOTSUPP)) else
    let n := if v =? 0 then Z.ldiff (h_opts h) (2 ^ opt) else Z.lor (h_opts h) (2 ^ opt) in
    match (if n =? h_opts h then None else h_in h) with
    | Some k =>
        let tr := [KSetopt k opt v (a_opt a)] in
        if a_opt a =? 0 then IGo (put_h i (with_opts n h) s) tr (IRet 0) else kfail s tr (a_opt a)
    | None => IGo (put_h i (with_opts n h) s) [] (IRet 0)
    end).

(** fs_calls.rs 3880-3980 for F_GETFL and F_SETFL *)
Definition keep_bits : Z := Z.lor O_RDWRFLAGS (Z.lor (Z.lor (Z.lor O_CREAT O_EXCL) O_NOCTTY) O_TRUNC).
Definition getfl_call (s : ist) (c fd : Z) : ires :=
  on_sock s c fd (fun i fl raw h =>
    IGo s [] (IRet (Z.ldiff fl (Z.lor (Z.lor (Z.lor O_CREAT O_EXCL) O_NOCTTY) O_TRUNC)))).
Definition setfl_call (s : ist) (c fd arg : Z) (a : kans) : ires :=
  on_sock s c fd (fun i fl raw h =>
    if arg <? 0 then IGo s [] (IRet (err EINVAL)) else
    let s' := put_fd c fd (ISock i (Z.lor (Z.ldiff arg keep_bits) (Z.land fl keep_bits)) raw) s in
    match h_in h with
    | None => IGo s' [] (IRet 0)
    | Some k => if a_mode a =? 0 then IGo s' [KMode k (hasbit arg O_NONBLOCK)] (IRet 0) else kfail s [] (a_mode a)
    end).
(** fs_calls.rs 4026-4100, FIONBIO: the flag is changed before the kernel
    answers *)
Definition fionbio_call (s : ist) (c fd arg : Z) (a : kans) : ires :=
  on_sock s c fd (fun i fl raw h =>
    let fl' := if arg =? 0 then Z.ldiff fl O_NONBLOCK else Z.lor fl O_NONBLOCK in
    let s' := put_fd c fd (ISock i fl' raw) s in
    match h_in h with
    | None => IGo s' [] (IRet 0)
    | Some k => if a_mode a =? 0 then IGo s' [KMode k (negb (arg =? 0))] (IRet 0) else kfail s' [] (a_mode a)
    end).

(** net_calls.rs 3453-3612 and comm.rs 588-606: the descriptors with a
    [rawfd] are shown to the kernel, and its answer is translated by the
    first descriptor with that number *)
Fixpoint sel_read (s : ist) (c : Z) (fds : list Z) : option (option (list (Z * Z))) :=
  match fds with
  | [] => Some (Some [])
  | fd :: r =>
      if negb (in_range fd) then None else
      match i_fds s !! (c, fd) with
      | None => Some None
      | Some d =>
          match sel_read s c r with
          | Some (Some l) => Some (Some (match d with ISock _ _ raw => if raw <? 0 then l else (raw, fd) :: l | IOther => l end))
          | x => x
          end
      end
  end.
Definition first_fd (l : list (Z * Z)) (raw : Z) : option Z :=
  match List.find (fun e => e.1 =? raw) l with Some e => Some e.2 | None => None end.
Definition select_read_call (s : ist) (c : Z) (fds : list Z) (a : kans) : ires :=
  match sel_read s c fds with
  | None => IDies
  | Some None => IGo s [] (IRet (err EBADF))
  | Some (Some l) =>
      if bool_decide (l = []) then IGo s [] (IReady []) else
      let ready := List.filter (fun k => existsb (fun e => e.1 =? k) l) (a_ready a) in
      IGo s [KSelect (map fst l) ready] (IReady (omap (first_fd l) ready))
  end.
(** net_calls.rs 3615-3720: every socket is writable.  One whose connection
    has just been established is recorded as connected under a write lock
    while the read lock on it is held (3638, 3686). *)
Fixpoint sel_write (s : ist) (c : Z) (a : kans) (fds : list Z) : ires :=
  match fds with
  | [] => IGo s [] (IReady [])
  | fd :: r =>
      if negb (in_range fd) then IDies else
      match i_fds s !! (c, fd) with
      | None => IGo s [] (IRet (err EBADF))
      | Some d =>
          let go t := match sel_write s c a r with
                      | IGo s' tr (IReady l) => IGo s' (t ++ tr) (IReady (fd :: l))
                      | IGo s' tr o => IGo s' (t ++ tr) o
                      | x => x
                      end in
          match d with
          | IOther => go []
          | ISock i _ _ =>
              match i_h s !! i with
              | None => IDies
              | Some h =>
                  match h_st h, h_in h with
                  | InProg, None => IDies
                  | InProg, Some k => if a_soerr a then IHang else go [KErr k false]
                  | _, _ => go []
                  end
              end
          end
      end
  end.

(** ** One step *)
Inductive iop :=
  | Socket (v6 tcp nb ce : bool)
  | Bind (fd : Z) (x : iaddr)
  | Connect (fd : Z) (x : iaddr)
  | Listen (fd backlog : Z)
  | Accept (fd : Z)
  | Send (fd : Z) (bs : list Z)
  | Sendto (fd : Z) (bs : list Z) (x : iaddr)
  | Writev (fd : Z) (bs : list Z)
  | Recv (fd len flags : Z) (fam : option bool)
  | Shutdown (fd how : Z)
  | Close (fd : Z)
  | Dup (fd : Z)
  | Dup2 (fd fd2 : Z)
  | Fork (c' : Z)
  | Getpeername (fd : Z)
  | Getsockname (fd : Z)
  | Setopt (fd opt v : Z)
  | Getfl (fd : Z)
  | Setfl (fd arg : Z)
  | Fionbio (fd arg : Z)
  | SelectR (fds : list Z)
  | SelectW (fds : list Z).

Definition step (devs : list addr) (s : ist) (c : Z) (o : iop) (a : kans) : ires :=
  match o with
  | Socket v6 tcp nb ce => socket_call s c v6 tcp nb ce
  | Bind fd x => bind_call devs s c fd x a
  | Connect fd x => connect_call devs s c fd x a
  | Listen fd n => listen_call devs s c fd n a
  | Accept fd => accept_call devs s c fd a
  | Send fd bs => send_call devs s c fd bs a
  | Sendto fd bs x => sendto_call devs s c fd bs x a
  | Writev fd bs => writev_call s c fd bs a
  | Recv fd len flags fam => recv_call devs s c fd len flags fam a
  | Shutdown fd how => shutdown_call devs s c fd how a
  | Close fd => close_call devs s c fd
  | Dup fd => dup_call s c fd
  | Dup2 fd fd2 => dup2_call devs s c fd fd2
  | Fork c' => fork_call s c c'
  | Getpeername fd => getpeername_call s c fd
  | Getsockname fd => getsockname_call s c fd
  | Setopt fd opt v => setopt_call s c fd opt v a
  | Getfl fd => getfl_call s c fd
  | Setfl fd arg => setfl_call s c fd arg a
  | Fionbio fd arg => fionbio_call s c fd arg a
  | SelectR fds => select_read_call s c fds a
  | SelectW fds => sel_write s c a fds
  end.
