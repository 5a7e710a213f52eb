(** Local (AF_UNIX) stream sockets, pipes and epoll instances as the network
    system calls see them.

    Modelled code: /repo/src/safeposix/syscalls/net_calls.rs (line numbers at
    each definition), the socket and pipe parts of
    /repo/src/safeposix/syscalls/fs_calls.rs (close, dup, dup2, read, write,
    unlink, fcntl) and of sys_calls.rs (fork), and
    /repo/src/interface/pipe.rs.

    Simplifications.
    - AF_INET and AF_INET6 sockets are handed to the host kernel and are not
      modelled; neither are datagram sockets.
    - One system call is one step, except: a blocking [connect] is the three
      steps [Connect], [ConnWait], [ConnDone]; a call that would have to wait
      is not enabled ([Block]), and a blocking send that fits only partly is
      one step per chunk.  The lock that a waiting call keeps on its
      descriptor is not modelled.
    - Paths are already normalised ([upath]); every parent directory exists
      and is a directory.  Of the file system only the names and the
      reference and link counts of socket inodes are kept.
    - [exit] and [exec] are sequences of [Close]. *)
From Verif Require Import Base.
Local Open Scope list_scope.
Local Open Scope Z_scope.

(** errnos.rs 34-165 and net_constants.rs *)
Definition EISCONN : Z := 106.
Definition AF_UNIX : Z := 1.
Definition SOCK_STREAM : Z := 1.
Definition SOCK_NONBLOCK : Z := 2048.
Definition SOCK_CLOEXEC : Z := 524288.
Definition IPPROTO_TCP : Z := 6.
Definition MSG_PEEK : Z := 2.
Definition SHUT_RD : Z := 0.
Definition SHUT_WR : Z := 1.
Definition SHUT_RDWR : Z := 2.
Definition SOL_SOCKET : Z := 1.
Definition SOL_TCP : Z := 6.
Definition SOL_UDP : Z := 17.
Definition TCP_NODELAY : Z := 1.
Definition SO_REUSEADDR : Z := 2.
Definition SO_TYPE : Z := 3.
Definition SO_ERROR : Z := 4.
Definition SO_SNDBUF : Z := 7.
Definition SO_RCVBUF : Z := 8.
Definition SO_KEEPALIVE : Z := 9.
Definition SO_OOBINLINE : Z := 10.
Definition SO_LINGER : Z := 13.
Definition SO_REUSEPORT : Z := 15.
Definition SO_RCVLOWAT : Z := 18.
Definition SO_SNDLOWAT : Z := 19.
Definition SO_ACCEPTCONN : Z := 30.
Definition POLLIN : Z := 1.
Definition POLLPRI : Z := 2.
Definition POLLOUT : Z := 4.
Definition POLLNVAL : Z := 32.
Definition CTL_ADD : Z := 1.
Definition CTL_DEL : Z := 2.
Definition CTL_MOD : Z := 3.
Definition FD_SET_MAX_FD : Z := 1024.
(** fs_constants.rs: UDSOCK_CAPACITY *)
Definition UDSOCK_CAPACITY : Z := 212992.

(** A normalised path; [Auto n] is the path "/sock<n>" that
    [gen_ud_path] (comm.rs 189-196) makes up. *)
Inductive upath := User (n : Z) | Auto (n : Z).
#[global] Instance upath_dec : EqDecision upath.
Proof. solve_decision. Defined.
#[global] Program Instance upath_countable : Countable upath :=
  inj_countable' (fun p => match p with User n => inl n | Auto n => inr n end)
    (fun x => match x with inl n => User n | inr n => Auto n end) _.
Next Obligation. by intros []. Qed.

(** net.rs ConnState; INPROGRESS is never entered by a local socket. *)
Inductive cstate := NotConn | Conn | RdOnly | WrOnly | Listening.
#[global] Instance cstate_dec : EqDecision cstate.
Proof. solve_decision. Defined.

(** net.rs UnixSocketInfo *)
Record uinfo := UInfo { u_send : option Z; u_recv : option Z; u_ino : Z }.
(** net.rs 120-135 SocketHandle *)
Record sock := Sock {
  s_st : cstate;
  s_ui : option uinfo;
  s_loc : option upath;
  s_rem : option upath;
  s_peek : list Z;
  s_opts : Z;
  s_tcp : Z;
  s_snd : Z;
  s_rcv : Z;
  s_type : Z
}.
(** pipe.rs EmulatedPipe; both counts are u32 *)
Record upipe := UPipe { p_buf : list Z; p_nr : Z; p_nw : Z; p_cap : Z }.
(** cage.rs FileDescriptor.  [DSock h fl]: handle [h] (shared by duplicates),
    flags of this descriptor.  [DEpoll reg]: registered descriptors with their
    events and user data.  [DPipe p wr fl]: one end of a pipe. *)
Inductive desc :=
  | DSock (h fl : Z)
  | DEpoll (reg : gmap Z (Z * Z))
  | DPipe (p : Z) (wr : bool) (fl : Z)
  | DFile
  | DStream.
(** net.rs DomsockTableEntry.  [q_req] numbers the request (ghost);
    [q_cond]: [None] for a client that does not wait, otherwise whether it
    already waits (ConnCondVar, net.rs 153-178). *)
Record pend := Pend {
  q_req : Z; q_from : upath; q_rp : Z; q_sp : Z; q_cond : option bool
}.
(** What a name denotes: a socket inode, or anything else. *)
Inductive node := NSock (i : Z) | NOther.

Record net := Net {
  n_fds : gmap (Z * Z) desc;         (* (cage, fd) *)
  n_sock : gmap Z sock;              (* handles *)
  n_nsock : Z;
  n_pipe : gmap Z upipe;
  n_npipe : Z;
  n_pend : gmap upath pend;          (* domsock_accept_table *)
  n_bound : gset upath;              (* domsock_paths *)
  n_names : gmap upath node;         (* the file system *)
  n_ino : gmap Z (Z * Z);            (* socket inodes: refcount, linkcount *)
  n_nino : Z;
  n_auto : Z;                        (* UD_ID_COUNTER *)
  n_req : Z;                         (* next request number (ghost) *)
  n_woken : gset Z                   (* requests whose waiter was notified *)
}.

(** One cage, with its three standard streams (cage.rs 199-233) *)
Definition init_net : net :=
  Net (<[(1, 0) := DStream]> (<[(1, 1) := DStream]> {[ (1, 2) := DStream ]}))
    ∅ 0 ∅ 0 ∅ ∅ ∅ ∅ 0 0 0 ∅.

(** Field updates *)
Definition set_fds f n := Net (f (n_fds n)) (n_sock n) (n_nsock n) (n_pipe n)
  (n_npipe n) (n_pend n) (n_bound n) (n_names n) (n_ino n) (n_nino n)
  (n_auto n) (n_req n) (n_woken n).
Definition set_sock f n := Net (n_fds n) (f (n_sock n)) (n_nsock n) (n_pipe n)
  (n_npipe n) (n_pend n) (n_bound n) (n_names n) (n_ino n) (n_nino n)
  (n_auto n) (n_req n) (n_woken n).
Definition set_pipe f n := Net (n_fds n) (n_sock n) (n_nsock n) (f (n_pipe n))
  (n_npipe n) (n_pend n) (n_bound n) (n_names n) (n_ino n) (n_nino n)
  (n_auto n) (n_req n) (n_woken n).
Definition set_pend f n := Net (n_fds n) (n_sock n) (n_nsock n) (n_pipe n)
  (n_npipe n) (f (n_pend n)) (n_bound n) (n_names n) (n_ino n) (n_nino n)
  (n_auto n) (n_req n) (n_woken n).
Definition set_bound f n := Net (n_fds n) (n_sock n) (n_nsock n) (n_pipe n)
  (n_npipe n) (n_pend n) (f (n_bound n)) (n_names n) (n_ino n) (n_nino n)
  (n_auto n) (n_req n) (n_woken n).
Definition set_names f n := Net (n_fds n) (n_sock n) (n_nsock n) (n_pipe n)
  (n_npipe n) (n_pend n) (n_bound n) (f (n_names n)) (n_ino n) (n_nino n)
  (n_auto n) (n_req n) (n_woken n).
Definition set_ino f n := Net (n_fds n) (n_sock n) (n_nsock n) (n_pipe n)
  (n_npipe n) (n_pend n) (n_bound n) (n_names n) (f (n_ino n)) (n_nino n)
  (n_auto n) (n_req n) (n_woken n).
Definition set_woken f n := Net (n_fds n) (n_sock n) (n_nsock n) (n_pipe n)
  (n_npipe n) (n_pend n) (n_bound n) (n_names n) (n_ino n) (n_nino n)
  (n_auto n) (n_req n) (f (n_woken n)).
Definition bump_nino n := Net (n_fds n) (n_sock n) (n_nsock n) (n_pipe n)
  (n_npipe n) (n_pend n) (n_bound n) (n_names n) (n_ino n) (n_nino n + 1)
  (n_auto n) (n_req n) (n_woken n).
Definition bump_auto n := Net (n_fds n) (n_sock n) (n_nsock n) (n_pipe n)
  (n_npipe n) (n_pend n) (n_bound n) (n_names n) (n_ino n) (n_nino n)
  (n_auto n + 1) (n_req n) (n_woken n).
Definition bump_req n := Net (n_fds n) (n_sock n) (n_nsock n) (n_pipe n)
  (n_npipe n) (n_pend n) (n_bound n) (n_names n) (n_ino n) (n_nino n)
  (n_auto n) (n_req n + 1) (n_woken n).

Definition put_fd (c fd : Z) (d : desc) : net -> net := set_fds (insert (c, fd) d).
Definition drop_fd (c fd : Z) : net -> net := set_fds (delete (c, fd)).
Definition put_sock (h : Z) (s : sock) : net -> net := set_sock (insert h s).
Definition put_pipe (p : Z) (x : upipe) : net -> net := set_pipe (insert p x).

Definition with_st (st : cstate) (s : sock) := Sock st (s_ui s) (s_loc s)
  (s_rem s) (s_peek s) (s_opts s) (s_tcp s) (s_snd s) (s_rcv s) (s_type s).
Definition with_ui (u : option uinfo) (s : sock) := Sock (s_st s) u (s_loc s)
  (s_rem s) (s_peek s) (s_opts s) (s_tcp s) (s_snd s) (s_rcv s) (s_type s).
Definition with_loc (l : option upath) (s : sock) := Sock (s_st s) (s_ui s) l
  (s_rem s) (s_peek s) (s_opts s) (s_tcp s) (s_snd s) (s_rcv s) (s_type s).
Definition with_rem (r : option upath) (s : sock) := Sock (s_st s) (s_ui s)
  (s_loc s) r (s_peek s) (s_opts s) (s_tcp s) (s_snd s) (s_rcv s) (s_type s).
Definition with_peek (b : list Z) (s : sock) := Sock (s_st s) (s_ui s)
  (s_loc s) (s_rem s) b (s_opts s) (s_tcp s) (s_snd s) (s_rcv s) (s_type s).
Definition with_opts (o : Z) (s : sock) := Sock (s_st s) (s_ui s) (s_loc s)
  (s_rem s) (s_peek s) o (s_tcp s) (s_snd s) (s_rcv s) (s_type s).
Definition with_tcp (o : Z) (s : sock) := Sock (s_st s) (s_ui s) (s_loc s)
  (s_rem s) (s_peek s) (s_opts s) o (s_snd s) (s_rcv s) (s_type s).
Definition with_snd (o : Z) (s : sock) := Sock (s_st s) (s_ui s) (s_loc s)
  (s_rem s) (s_peek s) (s_opts s) (s_tcp s) o (s_rcv s) (s_type s).
Definition with_rcv (o : Z) (s : sock) := Sock (s_st s) (s_ui s) (s_loc s)
  (s_rem s) (s_peek s) (s_opts s) (s_tcp s) (s_snd s) o (s_type s).

(** What a call answers.  [Ret r]: return value.  [Data bs]: a receive, with
    the bytes (the return value is their number).  [Val v]: return 0 and the
    option value.  [Pair a b]: return 0 and the pair written to [sv].
    [Sets k r w]: select returns [k] and the two sets.  [Polled k evs]: poll
    returns [k] and the [revents] fields.  [Events k evs]: epoll_wait returns
    [k] and the list of (events, data).  [More k]: a blocking send has moved
    [k] bytes so far and goes on.  [Waits r]: a blocking connect, request
    [r], has not returned yet. *)
Inductive nout :=
  | Ret (r : Z)
  | Data (bs : list Z)
  | Val (v : Z)
  | Pair (a b : Z)
  | Sets (k : Z) (r w : option (gset Z))
  | Polled (k : Z) (evs : list Z)
  | Events (k : Z) (evs : list (Z * Z))
  | More (k : Z)
  | Waits (r : Z).
(** [Go]: the call does this.  [Block]: it has to wait.  [Dies]: the runtime
    panics. *)
Inductive res := Go (n : net) (o : nout) | Block | Dies.

(** cage.rs 127-160: the lowest free number *)
Definition fd_list : list Z := seqZ 0 MAXFD.
Definition next_fd (n : net) (c start : Z) : option Z :=
  List.find (fun k => (start <=? k) && bool_decide (n_fds n !! (c, k) = None)) fd_list.

(** cage.rs 187-196: [get_filedescriptor(fd).unwrap()] *)
Definition in_range (fd : Z) : bool := (0 <=? fd) && (fd <? MAXFD).

(** ** Pipes *)
Definition u32_add (x : Z) : Z := (x + 1) mod 2 ^ 32.
Definition u32_sub (x : Z) : Z := (x - 1) mod 2 ^ 32.
(** pipe.rs 113-147 [incr_ref], [decr_ref]; the count of one end *)
Definition incr_r (p : upipe) := UPipe (p_buf p) (u32_add (p_nr p)) (p_nw p) (p_cap p).
Definition incr_w (p : upipe) := UPipe (p_buf p) (p_nr p) (u32_add (p_nw p)) (p_cap p).
Definition decr_r (p : upipe) := UPipe (p_buf p) (u32_sub (p_nr p)) (p_nw p) (p_cap p).
Definition decr_w (p : upipe) := UPipe (p_buf p) (p_nr p) (u32_sub (p_nw p)) (p_cap p).
(** pipe.rs 86-94 *)
Definition pipe_closed (p : upipe) : bool := p_nr p + p_nw p =? 0.
(** pipe.rs 73-84 *)
Definition new_pipe (cap : Z) : upipe := UPipe [] 1 1 cap.
Definition with_buf (b : list Z) (p : upipe) := UPipe b (p_nr p) (p_nw p) (p_cap p).

Definition room (p : upipe) : Z := p_cap p - Z.of_nat (length (p_buf p)).

(** pipe.rs 155-160 and 171-178 *)
Definition select_read (p : upipe) : bool :=
  bool_decide (p_buf p <> []) || (p_nw p =? 0).
Definition select_write (p : upipe) : bool :=
  (PIPE_BUF <? room p) || (p_nr p =? 0).

(** pipe.rs 211-289 up to the first point where it returns or waits.
    [inl (p', o)] or [inr tt] for "waits without having done anything". *)
Definition pipe_write (p : upipe) (bs : list Z) (nb : bool) : (upipe * nout) + unit :=
  let n := Z.of_nat (length bs) in
  if n =? 0 then inl (p, Ret 0)
  else if p_nr p =? 0 then inl (p, Ret (err EPIPE))
  else if room p <? PIPE_BUF then
    if nb then inl (p, Ret (err EAGAIN)) else inr tt
  else
    let k := Z.min n (room p) in
    let p' := with_buf (p_buf p ++ take (Z.to_nat k) bs) p in
    inl (p', if (k =? n) || nb then Ret k else More k).

(** pipe.rs 403-463.  [inl (Some (p', bytes))]: that many bytes (none: end of
    file or length 0); [inl None]: EAGAIN; [inr tt]: waits. *)
Definition pipe_read (p : upipe) (len : Z) (nb : bool) : option (upipe * list Z) + unit :=
  if len =? 0 then inl (Some (p, [])) else
  match p_buf p with
  | [] => if p_nw p =? 0 then inl (Some (p, []))
          else if nb then inl None else inr tt
  | b => inl (Some (with_buf (drop (Z.to_nat len) b) p, take (Z.to_nat len) b))
  end.

(** ** Creating sockets *)

(** net_calls.rs 53-86 [_socket_initializer] and 1222-1245 [mksockhandle] *)
Definition fl_of (nb ce : bool) : Z :=
  (if nb then O_NONBLOCK else 0) + (if ce then O_CLOEXEC else 0).
Definition new_sock (st : cstate) (ty fl : Z) : sock :=
  Sock st None None None [] fl 0 131070 262140 ty.
Definition nonblock (fl : Z) : bool := hasbit fl O_NONBLOCK.

(** A fresh handle *)
Definition alloc_sock (s : sock) (n : net) : net :=
  Net (n_fds n) (<[n_nsock n := s]> (n_sock n)) (n_nsock n + 1) (n_pipe n)
    (n_npipe n) (n_pend n) (n_bound n) (n_names n) (n_ino n) (n_nino n)
    (n_auto n) (n_req n) (n_woken n).
(** A fresh pipe *)
Definition alloc_pipe (cap : Z) (n : net) : net :=
  Net (n_fds n) (n_sock n) (n_nsock n) (<[n_npipe n := new_pipe cap]> (n_pipe n))
    (n_npipe n + 1) (n_pend n) (n_bound n) (n_names n) (n_ino n) (n_nino n)
    (n_auto n) (n_req n) (n_woken n).

(** net_calls.rs 182-311 for domain AF_UNIX; other domains and datagram
    sockets are not modelled (the ones modelled as failing do fail). *)
Definition socket_call (n : net) (c domain ty proto : Z) : res :=
  if negb (Z.land ty (Z.lnot (Z.lor (Z.lor SOCK_NONBLOCK SOCK_CLOEXEC) 7)) =? 0)
  then Go n (Ret (err EOPNOTSUPP))
  else if negb (Z.land ty 7 =? SOCK_STREAM) then Go n (Ret (err EOPNOTSUPP))
  else if negb ((proto =? 0) || (proto =? IPPROTO_TCP)) then Go n (Ret (err EOPNOTSUPP))
  else if negb (domain =? AF_UNIX) then Go n (Ret (err EOPNOTSUPP))
  else
    let fl := fl_of (hasbit ty SOCK_NONBLOCK) (hasbit ty SOCK_CLOEXEC) in
    match next_fd n c 0 with
    | None => Go n (Ret (err ENFILE))
    | Some k =>
        let h := n_nsock n in
        Go (put_fd c k (DSock h fl) (alloc_sock (new_sock NotConn ty fl) n)) (Ret k)
    end.

(** net_calls.rs 462-564 [bind_inner_socket_unix]: the socket gets a socket
    inode unless the name exists. *)
Definition bind_unix (p : upath) (s : sock) (n : net) : sock * net * Z :=
  match n_names n !! p with
  | Some _ => (s, n, err EADDRINUSE)
  | None =>
      let i := n_nino n in
      (with_ui (Some (UInfo None None i)) s,
       bump_nino (set_ino (insert i (1, 1))
         (set_bound (union {[ p ]}) (set_names (insert p (NSock i)) n))), 0)
  end.

(** net_calls.rs 416-458 [bind_inner_socket]: [localaddr] is set whether or
    not the binding worked *)
Definition bind_inner (p : upath) (s : sock) (n : net) : sock * net * Z :=
  match s_loc s with
  | Some _ => (s, n, err EINVAL)
  | None =>
      let '(s1, n1, r) := bind_unix p s n in
      (with_loc (Some p) s1, n1, r)
  end.

(** net_calls.rs 665-686 [assign_new_addr_unix] followed by
    [bind_inner_socket]: bind to a made-up name *)
Definition auto_bind (s : sock) (n : net) : sock * net :=
  match s_loc s with
  | Some _ => (s, n)
  | None =>
      let '(s1, n1, _) := bind_inner (Auto (n_auto n)) s (bump_auto n) in (s1, n1)
  end.

(** The descriptor of a call that wants a socket: net_calls.rs, everywhere *)
Definition on_sock (n : net) (c fd : Z) (f : Z -> Z -> sock -> res) : res :=
  if negb (in_range fd) then Dies else
  match n_fds n !! (c, fd) with
  | None => Go n (Ret (err EBADF))
  | Some (DSock h fl) =>
      match n_sock n !! h with Some s => f h fl s | None => Dies end
  | Some _ => Go n (Ret (err ENOTSOCK))
  end.

(** net_calls.rs 406-408, 640-659 *)
Definition bind_call (n : net) (c fd : Z) (p : upath) : res :=
  on_sock n c fd (fun h fl s =>
    let '(s1, n1, r) := bind_inner p s n in
    Go (put_sock h s1 n1) (Ret r)).

(** net_calls.rs 2432-2595 *)
Definition listen_call (n : net) (c fd : Z) : res :=
  on_sock n c fd (fun h fl s =>
    match s_st s with
    | Listening => Go n (Ret 0)
    | NotConn => Go (put_sock h (with_st Listening s) n) (Ret 0)
    | _ => Go n (Ret (err EOPNOTSUPP))
    end).

(** net_calls.rs 877-931, 996-1025, 1033-1104 *)
Definition connect_call (n : net) (c fd : Z) (p : upath) : res :=
  on_sock n c fd (fun h fl s =>
    if negb (bool_decide (s_st s = NotConn)) then Go n (Ret (err EISCONN)) else
    let '(s1, n1) := auto_bind s n in
    if negb (bool_decide (p ∈ n_bound n1)) then
      Go (put_sock h s1 n1) (Ret (err ENOENT))
    else
      let p1 := n_npipe n1 in
      let p2 := n_npipe n1 + 1 in
      let n2 := alloc_pipe UDSOCK_CAPACITY (alloc_pipe UDSOCK_CAPACITY n1) in
      match s_ui s1, s_loc s1 with
      | Some u, Some l =>
          let nb := nonblock fl in
          let s2 := with_st Conn (with_ui (Some (UInfo (Some p1) (Some p2) (u_ino u)))
                      (with_rem (Some p) s1)) in
          let r := n_req n2 in
          let q := Pend r l p1 p2 (if nb then None else Some false) in
          Go (bump_req (set_pend (insert p q) (put_sock h s2 n2)))
             (if nb then Ret 0 else Waits r)
      | _, _ => Dies
      end).

(** net.rs 161-166 [ConnCondVar::wait]: the client with request [r] waits *)
Definition set_wait (r : Z) (q : pend) : pend :=
  if (q_req q =? r) && bool_decide (q_cond q = Some false)
  then Pend (q_req q) (q_from q) (q_rp q) (q_sp q) (Some true) else q.
Definition conn_wait (n : net) (r : Z) : res :=
  Go (set_pend (fmap (set_wait r)) n) (Waits r).
(** [wait] returns: the connect call returns 0 *)
Definition conn_done (n : net) (r : Z) : res :=
  if bool_decide (r ∈ n_woken n) then
    Go (set_woken (fun w => w ∖ {[ r ]}) n) (Ret 0)
  else Block.

(** Add [d] to the reference count of a socket inode; FS_METADATA's
    [get_mut().unwrap()] (missing inode) and an underflow panic *)
Definition ino_ref (d i : Z) (n : net) : option net :=
  match n_ino n !! i with
  | Some (r, l) => if r + d <? 0 then None else Some (set_ino (insert i (r + d, l)) n)
  | None => None
  end.

(** net_calls.rs 2915-2982 and 2996-3131 *)
Definition accept_call (n : net) (c fd : Z) : res :=
  if negb (in_range fd) then Dies else
  match n_fds n !! (c, fd) with
  | None => Go n (Ret (err EBADF))
  | Some d =>
      match next_fd n c 0 with
      | None => Go n (Ret fd)
      | Some k =>
          match d with
          | DSock h fl =>
              match n_sock n !! h with
              | None => Dies
              | Some s =>
                  if negb (bool_decide (s_st s = Listening)) then Go n (Ret (err EINVAL)) else
                  match s_loc s with
                  | None => Dies
                  | Some l =>
                      match n_pend n !! l with
                      | None => if nonblock fl then Go n (Ret (err EAGAIN)) else Block
                      | Some q =>
                          if bool_decide (q_cond q = Some false) then Block else
                          let fl' := fl_of (nonblock fl) (hasbit fl O_CLOEXEC) in
                          let n1 := set_pend (delete l) n in
                          let n2 := if bool_decide (q_cond q = Some true)
                                    then set_woken (union {[ q_req q ]}) n1 else n1 in
                          let h' := n_nsock n2 in
                          let s0 := with_rem (Some (q_from q)) (with_loc (Some l)
                                      (new_sock Conn (s_type s) fl')) in
                          match n_names n !! q_from q with
                          | Some (NSock i) =>
                              match s_ui s, ino_ref 1 i n2 with
                              | Some _, Some n3 =>
                                  let s1 := with_ui (Some (UInfo (Some (q_sp q)) (Some (q_rp q)) i)) s0 in
                                  Go (put_fd c k (DSock h' fl') (alloc_sock s1 n3)) (Ret k)
                              | _, _ => Dies
                              end
                          | Some NOther =>
                              match s_ui s with
                              | Some _ =>
                                  (* the number of an inode of another kind; its
                                     reference count is not touched *)
                                  let s1 := with_ui (Some (UInfo (Some (q_sp q)) (Some (q_rp q)) (-1))) s0 in
                                  Go (put_fd c k (DSock h' fl') (alloc_sock s1 n2)) (Ret k)
                              | None => Dies
                              end
                          | None => Go (put_fd c k (DSock h' fl') (alloc_sock s0 n2)) (Ret k)
                          end
                      end
                  end
              end
          | _ => Go n (Ret (err ENOTSOCK))
          end
      end
  end.

(** net_calls.rs 5110-5216.  A full table is not noticed. *)
Definition socketpair_call (n : net) (c domain ty proto : Z) : res :=
  if negb (domain =? AF_UNIX) then Go n (Ret (err EOPNOTSUPP))
  else if negb (Z.land ty 7 =? SOCK_STREAM) || negb ((proto =? 0) || (proto =? IPPROTO_TCP))
  then Go n (Ret (err EOPNOTSUPP))
  else if negb (Z.land ty (Z.lnot (Z.lor (Z.lor SOCK_NONBLOCK SOCK_CLOEXEC) 7)) =? 0)
  then Go n (Ret (err EINVAL))
  else
    let fl := fl_of (hasbit ty SOCK_NONBLOCK) (hasbit ty SOCK_CLOEXEC) in
    let h1 := n_nsock n in
    let h2 := n_nsock n + 1 in
    let s := new_sock NotConn ty fl in
    let na := alloc_sock s (alloc_sock s n) in
    let '(nb, f1) := match next_fd na c 0 with
                     | Some k => (put_fd c k (DSock h1 fl) na, k)
                     | None => (na, err ENFILE)
                     end in
    let '(nc, f2) := match next_fd nb c 0 with
                     | Some k => (put_fd c k (DSock h2 fl) nb, k)
                     | None => (nb, err ENFILE)
                     end in
    let l1 := Auto (n_auto n) in
    let l2 := Auto (n_auto n + 1) in
    let '(s1, nd, _) := bind_inner l1 s (bump_auto (bump_auto nc)) in
    let '(s2, ne, _) := bind_inner l2 s nd in
    let p1 := n_npipe ne in
    let p2 := n_npipe ne + 1 in
    let nf := alloc_pipe UDSOCK_CAPACITY (alloc_pipe UDSOCK_CAPACITY ne) in
    match s_ui s1, s_ui s2 with
    | Some u1, Some u2 =>
        let t1 := with_st Conn (with_ui (Some (UInfo (Some p1) (Some p2) (u_ino u1)))
                    (with_rem (Some l2) s1)) in
        let t2 := with_st Conn (with_ui (Some (UInfo (Some p2) (Some p1) (u_ino u2)))
                    (with_rem (Some l1) s2)) in
        match ino_ref 1 (u_ino u1) nf with
        | Some ng =>
            match ino_ref 1 (u_ino u2) ng with
            | Some nh => Go (put_sock h2 t2 (put_sock h1 t1 nh)) (Pair f1 f2)
            | None => Dies
            end
        | None => Dies
        end
    | _, _ => Dies
    end.

(** ** Moving data *)

(** net_calls.rs 1597-1697 *)
Definition send_sock (n : net) (h fl : Z) (s : sock) (bs : list Z) : res :=
  if negb (bool_decide (s_st s = Conn) || bool_decide (s_st s = WrOnly))
  then Go n (Ret (err ENOTCONN)) else
  match s_ui s with
  | None => Dies
  | Some u =>
      match u_send u with
      | None => Go n (Ret (err ENOTCONN))
      | Some p =>
          match n_pipe n !! p with
          | None => Dies
          | Some x =>
              match pipe_write x bs (nonblock fl) with
              | inl (x', o) => Go (put_pipe p x' n) o
              | inr _ => Block
              end
          end
      end
  end.
Definition send_call (n : net) (c fd : Z) (bs : list Z) : res :=
  on_sock n c fd (fun h fl s => send_sock n h fl s bs).

(** net_calls.rs 1886-2113 *)
Definition recv_sock (n : net) (h fl : Z) (s : sock) (len flags : Z) : res :=
  if negb (bool_decide (s_st s = Conn) || bool_decide (s_st s = RdOnly))
  then Go n (Ret (err ENOTCONN)) else
  let peek := hasbit flags MSG_PEEK in
  let k := Z.min (Z.of_nat (length (s_peek s))) len in
  let early := take (Z.to_nat k) (s_peek s) in
  let rest := if peek then s_peek s else drop (Z.to_nat k) (s_peek s) in
  let n1 := put_sock h (with_peek rest s) n in
  if bool_decide (s_peek s <> []) && (len - k =? 0) then Go n1 (Data early) else
  match s_ui s with
  | None => Dies
  | Some u =>
      match u_recv u with
      | None => Dies
      | Some p =>
          match n_pipe n !! p with
          | None => Dies
          | Some x =>
              match pipe_read x (len - k) (nonblock fl) with
              | inl (Some (x', bs)) =>
                  Go (put_pipe p x' (put_sock h
                        (with_peek (if peek then rest ++ bs else rest) s) n))
                     (Data (early ++ bs))
              | inl None => if 0 <? k then Go n1 (Data early) else Go n (Ret (err EAGAIN))
              | inr _ => if 0 <? k then Go n1 (Data early) else Block
              end
          end
      end
  end.
Definition recv_call (n : net) (c fd len flags : Z) : res :=
  on_sock n c fd (fun h fl s => recv_sock n h fl s len flags).

(** fs_calls.rs 1580-1742 and 1895-2160 for sockets and pipes; files and
    streams answer something immediately *)
Definition read_call (n : net) (c fd len : Z) : res :=
  if negb (in_range fd) then Dies else
  match n_fds n !! (c, fd) with
  | None => Go n (Ret (err EBADF))
  | Some (DSock h fl) =>
      match n_sock n !! h with Some s => recv_sock n h fl s len 0 | None => Dies end
  | Some (DPipe p wr fl) =>
      if wr then Go n (Ret (err EBADF)) else
      match n_pipe n !! p with
      | None => Dies
      | Some x =>
          match pipe_read x len (nonblock fl) with
          | inl (Some (x', bs)) => Go (put_pipe p x' n) (Data bs)
          | inl None => Go n (Ret (err EAGAIN))
          | inr _ => Block
          end
      end
  | Some (DEpoll _) => Go n (Ret (err EINVAL))
  | Some _ => Go n (Data [])
  end.
Definition write_call (n : net) (c fd : Z) (bs : list Z) : res :=
  if negb (in_range fd) then Dies else
  match n_fds n !! (c, fd) with
  | None => Go n (Ret (err EBADF))
  | Some (DSock h fl) =>
      match n_sock n !! h with Some s => send_sock n h fl s bs | None => Dies end
  | Some (DPipe p wr fl) =>
      if negb wr then Go n (Ret (err EBADF)) else
      match n_pipe n !! p with
      | None => Dies
      | Some x =>
          match pipe_write x bs (nonblock fl) with
          | inl (x', o) => Go (put_pipe p x' n) o
          | inr _ => Block
          end
      end
  | Some (DEpoll _) => Go n (Ret (err EINVAL))
  | Some _ => Go n (Ret (Z.of_nat (length bs)))
  end.

(** net_calls.rs 2625-2651, 2751-2793, 2797-2844 *)
Definition shut_state (how : Z) (st : cstate) : cstate :=
  if how =? SHUT_RD then (if bool_decide (st = RdOnly) then NotConn else WrOnly)
  else if how =? SHUT_WR then (if bool_decide (st = WrOnly) then NotConn else RdOnly)
  else NotConn.
Definition shutdown_call (n : net) (c fd how : Z) : res :=
  if negb (in_range fd) then Go n (Ret (err EBADF))
  else if negb ((how =? SHUT_RD) || (how =? SHUT_WR) || (how =? SHUT_RDWR))
  then Go n (Ret (err EINVAL))
  else on_sock n c fd (fun h fl s =>
    let n1 := put_sock h (with_st (shut_state how (s_st s)) s) n in
    Go (if how =? SHUT_RDWR then drop_fd c fd n1 else n1) (Ret 0)).

(** ** Descriptors *)

(** Apply [f] to a pipe that must exist *)
Definition upd_pipe (p : Z) (f : upipe -> upipe) (n : net) : net :=
  set_pipe (alter f p) n.
Definition opt_pipe (o : option Z) (f : upipe -> upipe) (n : net) : net :=
  match o with Some p => upd_pipe p f n | None => n end.
Definition gone (o : option Z) (n : net) : option Z :=
  match o with
  | Some p => match n_pipe n !! p with
              | Some x => if pipe_closed x then None else Some p
              | None => Some p
              end
  | None => None
  end.
(** The sum in [is_pipe_closed] is that of two u32; its overflow panics. *)
Definition too_many (o : option Z) (n : net) : bool :=
  match o with
  | Some p => match n_pipe n !! p with
              | Some x => 2 ^ 32 <=? p_nr x + p_nw x
              | None => false
              end
  | None => false
  end.

(** fs_calls.rs 3595-3672 [_close_helper_inner]: release what the descriptor
    [d] refers to *)
Definition release (d : desc) (n : net) : option net :=
  match d with
  | DSock h fl =>
      match n_sock n !! h with
      | None => None
      | Some s =>
          match s_ui s with
          | None => Some n
          | Some u =>
              let n1 := opt_pipe (u_send u) decr_w n in
              let sp := gone (u_send u) n1 in
              let n2 := opt_pipe (u_recv u) decr_r n1 in
              let rp := gone (u_recv u) n2 in
              let n3 := put_sock h (with_ui (Some (UInfo sp rp (u_ino u))) s) n2 in
              if too_many (u_send u) n1 || too_many (u_recv u) n2 then None
              else if u_ino u =? -1 then Some n3 else
              match n_ino n3 !! u_ino u with
              | None => None
              | Some (r, l) =>
                  if r =? 0 then None
                  else if (r - 1 =? 0) && (l =? 0) then
                    match s_loc s with
                    | None => None
                    | Some p => Some (set_bound (fun b => b ∖ {[ p ]})
                                  (set_ino (delete (u_ino u)) n3))
                    end
                  else Some (set_ino (insert (u_ino u) (r - 1, l)) n3)
              end
          end
      end
  | DPipe p wr fl => Some (upd_pipe p (if wr then decr_w else decr_r) n)
  | _ => Some n
  end.
(** fs_calls.rs 3560-3564, 3820-3844 (for 0 <= fd < MAXFD, otherwise the
    unwrap in 3600 panics) *)
Definition close_call (n : net) (c fd : Z) : res :=
  if negb (in_range fd) then Dies else
  match n_fds n !! (c, fd) with
  | None => Go n (Ret (err EBADF))
  | Some d => match release d n with
              | Some n1 => Go (drop_fd c fd n1) (Ret 0)
              | None => Dies
              end
  end.

(** fs_calls.rs 3422-3530: what a duplicate adds *)
Definition retain (fork : bool) (d : desc) (n : net) : option net :=
  match d with
  | DSock h fl =>
      match n_sock n !! h with
      | None => None
      | Some s =>
          match s_ui s with
          | None => Some n
          | Some u =>
              let n2 := opt_pipe (u_recv u) incr_r (opt_pipe (u_send u) incr_w n) in
              if fork && negb (u_ino u =? -1) then ino_ref 1 (u_ino u) n2 else Some n2
          end
      end
  | DPipe p wr fl => Some (upd_pipe p (if wr then incr_w else incr_r) n)
  | _ => Some n
  end.
Definition no_cloexec (fl : Z) : Z := Z.land fl (Z.lnot O_CLOEXEC).
Definition dup_desc (d : desc) : desc :=
  match d with
  | DSock h fl => DSock h (no_cloexec fl)
  | DPipe p wr fl => DPipe p wr (no_cloexec fl)
  | d => d
  end.
(** fs_calls.rs 3279-3306 and 3436-3530 *)
Definition dup_call (n : net) (c fd : Z) : res :=
  if fd =? 0 then Go n (Ret 0) else
  if negb (in_range fd) then Go n (Ret (err EBADF)) else
  match n_fds n !! (c, fd) with
  | None => Go n (Ret (err EBADF))
  | Some d =>
      match next_fd n c 0 with
      | None => Go n (Ret (err ENFILE))
      | Some k =>
          match d with
          | DEpoll _ => Go n (Ret (err EACCES))
          | _ => match retain false d n with
                 | Some n1 => Go (put_fd c k (dup_desc d) n1) (Ret k)
                 | None => Dies
                 end
          end
      end
  end.

(** fs_calls.rs 3342-3370 and 3422-3530: the target is released (but not
    removed) before the source is looked at *)
Definition dup2_call (n : net) (c fd fd2 : Z) : res :=
  if negb (in_range fd2) then Go n (Ret (err EBADF)) else
  if fd2 =? fd then Go n (Ret fd2) else
  if negb (in_range fd) then Go n (Ret (err EBADF)) else
  match n_fds n !! (c, fd) with
  | None => Go n (Ret (err EBADF))
  | Some d =>
      match match n_fds n !! (c, fd2) with
            | None => Some n
            | Some d2 => release d2 n
            end with
      | None => Dies
      | Some n1 =>
          match d with
          | DEpoll _ => Go n1 (Ret (err EACCES))
          | _ => match retain false d n1 with
                 | Some n2 => Go (put_fd c fd2 (dup_desc d) n2) (Ret fd2)
                 | None => Dies
                 end
          end
      end
  end.

(** sys_calls.rs 205-284: the table of cage [c] copied to the new cage [c'] *)
Fixpoint fork_fds (c c' : Z) (l : list Z) (n : net) : option net :=
  match l with
  | [] => Some n
  | k :: l' =>
      match n_fds n !! (c, k) with
      | None => fork_fds c c' l' n
      | Some d =>
          match retain true d n with
          | Some n1 => fork_fds c c' l' (put_fd c' k d n1)
          | None => None
          end
      end
  end.
Definition fresh_cage (n : net) (c : Z) : bool :=
  forallb (fun k => bool_decide (n_fds n !! (c, k) = None)) fd_list.
(** the runtime picks an unused number for the child *)
Definition fork_call (n : net) (c c' : Z) : res :=
  if negb (fresh_cage n c') then Block else
  match fork_fds c c' fd_list n with
  | Some n' => Go n' (Ret 0)
  | None => Dies
  end.

(** fs_calls.rs 5339-5379; when there is room for one descriptor only, that
    one stays *)
Definition pipe_call (n : net) (c : Z) (nb : bool) : res :=
  let p := n_npipe n in
  let fl := fl_of nb false in
  let n1 := alloc_pipe PIPE_CAPACITY n in
  match next_fd n1 c 0 with
  | None => Go n (Ret (err ENFILE))
  | Some a =>
      let n2 := put_fd c a (DPipe p false fl) n1 in
      match next_fd n2 c 0 with
      | None => Go n2 (Ret (err ENFILE))
      | Some b => Go (put_fd c b (DPipe p true fl) n2) (Pair a b)
      end
  end.

(** Opening something else: a regular file or a stream descriptor *)
Definition open_call (n : net) (c : Z) (stream : bool) : res :=
  match next_fd n c 0 with
  | None => Go n (Ret (err ENFILE))
  | Some k => Go (put_fd c k (if stream then DStream else DFile) n) (Ret k)
  end.

(** fs_calls.rs 3880-3974, F_SETFL with only O_NONBLOCK given or not *)
Definition setnb_call (n : net) (c fd : Z) (nb : bool) : res :=
  if negb (in_range fd) then Dies else
  let upd fl := Z.lor (if nb then O_NONBLOCK else 0) (Z.land fl O_RDWRFLAGS) in
  match n_fds n !! (c, fd) with
  | None => Go n (Ret (err EBADF))
  | Some (DSock h fl) => Go (put_fd c fd (DSock h (upd fl)) n) (Ret 0)
  | Some (DPipe p wr fl) => Go (put_fd c fd (DPipe p wr (upd fl)) n) (Ret 0)
  | Some _ => Go n (Ret 0)
  end.

(** fs_calls.rs 4026-4107: ioctl with FIONBIO; [nb]: the number is not zero *)
Definition ENOTTY : Z := 25.
Definition ioctl_call (n : net) (c fd : Z) (nb : bool) : res :=
  if negb (in_range fd) then Dies else
  match n_fds n !! (c, fd) with
  | None => Go n (Ret (err EBADF))
  | Some (DSock h fl) =>
      Go (put_fd c fd (DSock h (if nb then Z.lor fl O_NONBLOCK else Z.land fl (Z.lnot O_NONBLOCK))) n) (Ret 0)
  | Some _ => Go n (Ret (err ENOTTY))
  end.

(** fs_calls.rs 970-1075 for a name that denotes a socket or an ordinary file *)
Definition unlink_call (n : net) (p : upath) : res :=
  match n_names n !! p with
  | None => Go n (Ret (err ENOENT))
  | Some NOther => Go (set_bound (fun b => b ∖ {[ p ]}) (set_names (delete p) n)) (Ret 0)
  | Some (NSock i) =>
      match n_ino n !! i with
      | None => Dies
      | Some (r, l) =>
          let n1 := set_bound (fun b => b ∖ {[ p ]}) (set_names (delete p) n) in
          Go (set_ino (if (l - 1 =? 0) && (r =? 0) then delete i
                       else insert i (r, l - 1)) n1) (Ret 0)
      end
  end.
(** Creating an ordinary file *)
Definition create_call (n : net) (p : upath) : res :=
  match n_names n !! p with
  | Some _ => Go n (Ret (err EEXIST))
  | None => Go (set_names (insert p NOther) n) (Ret 0)
  end.

(** ** Socket options *)

(** net_calls.rs 3755-3963.  [1 << optname] is computed before the option is
    looked at: it panics for an option number outside 0..31 (checked
    arithmetic; an unchecked build masks the number and goes on). *)
Definition bad_shift (opt : Z) : bool := negb ((0 <=? opt) && (opt <? 32)).
Definition optbit (opt : Z) : Z := 2 ^ opt.
Definition getbit (opts opt : Z) : Z := if hasbit opts (optbit opt) then 1 else 0.
Definition getopt_call (n : net) (c fd level opt : Z) : res :=
  if negb (in_range fd) then Go n (Ret (err EBADF)) else
  on_sock n c fd (fun h fl s =>
    if bad_shift opt then Dies
    else if level =? SOL_UDP then Go n (Ret (err ENOPROTOOPT))
    else if level =? SOL_TCP then
      if opt =? TCP_NODELAY then Go n (Val (getbit (s_tcp s) opt))
      else Go n (Ret (err ENOPROTOOPT))
    else if level =? SOL_SOCKET then
      if opt =? SO_ACCEPTCONN then Go n (Val (if bool_decide (s_st s = Listening) then 1 else 0))
      else if bool_decide (opt ∈ [SO_LINGER; SO_KEEPALIVE; SO_SNDLOWAT; SO_RCVLOWAT;
                                  SO_REUSEPORT; SO_REUSEADDR])
      then Go n (Val (getbit (s_opts s) opt))
      else if opt =? SO_SNDBUF then Go n (Val (s_snd s))
      else if opt =? SO_RCVBUF then Go n (Val (s_rcv s))
      else if opt =? SO_TYPE then Go n (Val (s_type s))
      else if opt =? SO_OOBINLINE then Go n (Val 1)
      else if opt =? SO_ERROR then Go n (Val 0)   (* [errno] is never set by a local socket *)
      else Go n (Ret (err ENOPROTOOPT))
    else Go n (Ret (err EOPNOTSUPP))).

(** net_calls.rs 4000-4212 *)
Definition setbit (opts opt v : Z) : Z :=
  if v =? 0 then Z.land opts (Z.lnot (optbit opt)) else Z.lor opts (optbit opt).
Definition setopt_call (n : net) (c fd level opt v : Z) : res :=
  if negb (in_range fd) then Go n (Ret (err EBADF)) else
  on_sock n c fd (fun h fl s =>
    if level =? SOL_UDP then Go n (Ret (err EOPNOTSUPP))
    else if level =? SOL_TCP then
      if opt =? TCP_NODELAY then Go (put_sock h (with_tcp (setbit (s_tcp s) opt v) s) n) (Ret 0)
      else Go n (Ret (err EOPNOTSUPP))
    else if level =? SOL_SOCKET then
      if bad_shift opt then Dies
      else if bool_decide (opt ∈ [SO_ACCEPTCONN; SO_TYPE; SO_SNDLOWAT; SO_RCVLOWAT])
      then Go n (Ret (err ENOPROTOOPT))
      else if bool_decide (opt ∈ [SO_LINGER; SO_KEEPALIVE; SO_REUSEPORT; SO_REUSEADDR])
      then Go (put_sock h (with_opts (setbit (s_opts s) opt v) s) n) (Ret 0)
      else if opt =? SO_SNDBUF then Go (put_sock h (with_snd v s) n) (Ret 0)
      else if opt =? SO_RCVBUF then Go (put_sock h (with_rcv v s) n) (Ret 0)
      else if opt =? SO_OOBINLINE then Go n (Ret (if v =? 1 then 0 else err EOPNOTSUPP))
      else Go n (Ret (err EOPNOTSUPP))
    else Go n (Ret (err EOPNOTSUPP))).

(** ** Readiness *)

(** One descriptor in [select_readfds] (net_calls.rs 3472-3592).  [None]:
    panic; [Some None]: not open. *)
Definition rd_ready (n : net) (c fd : Z) : option (option bool) :=
  match n_fds n !! (c, fd) with
  | None => Some None
  | Some (DSock h fl) =>
      match n_sock n !! h with
      | None => None
      | Some s =>
          match s_st s with
          | Listening => match s_loc s with
                         | None => None
                         | Some l => Some (Some (bool_decide (is_Some (n_pend n !! l))))
                         end
          | Conn => match s_ui s with
                    | None => None
                    | Some u => match u_recv u with
                                | None => None
                                | Some p => match n_pipe n !! p with
                                            | None => None
                                            | Some x => Some (Some (select_read x))
                                            end
                                end
                    end
          | _ => Some (Some false)
          end
      end
  | Some DStream => Some (Some false)
  | Some (DPipe p _ _) => match n_pipe n !! p with
                          | None => None
                          | Some x => Some (Some (select_read x))
                          end
  | Some _ => Some (Some true)
  end.
(** One descriptor in [select_writefds] (3631-3718) *)
Definition wr_ready (n : net) (c fd : Z) : option (option bool) :=
  match n_fds n !! (c, fd) with
  | None => Some None
  | Some (DPipe p _ _) => match n_pipe n !! p with
                          | None => None
                          | Some x => Some (Some (select_write x))
                          end
  | Some _ => Some (Some true)
  end.

(** The loop [for fd in 0..nfds] (3463-3593, 3622-3719): the ready ones among
    [l] and their number. [None]: panic; [Some None]: EBADF. *)
Fixpoint scan (f : Z -> option (option bool)) (want : gset Z) (l : list Z) :
    option (option (gset Z * Z)) :=
  match l with
  | [] => Some (Some (∅, 0))
  | fd :: l' =>
      if negb (bool_decide (fd ∈ want)) then scan f want l' else
      match f fd with
      | None => None
      | Some None => Some None
      | Some (Some b) =>
          match scan f want l' with
          | Some (Some (st, k)) => Some (Some (if b then ({[ fd ]} ∪ st, 1 + k) else (st, k)))
          | x => x
          end
      end
  end.
Definition scan_opt (f : Z -> option (option bool)) (want : option (gset Z)) (l : list Z) :
    option (option (gset Z * Z)) :=
  match want with
  | None => Some (Some (∅, 0))
  | Some w => scan f w l
  end.

(** net_calls.rs 3364-3445, one round of the loop; [None]: panic,
    [Some (inl r)]: error [r] *)
Definition select_round (n : net) (c nfds : Z) (r w e : option (gset Z)) :
    option (Z + Z * option (gset Z) * option (gset Z)) :=
  if (nfds <? 0) || (FD_SET_MAX_FD <=? nfds) then Some (inl (err EINVAL)) else
  let l := seqZ 0 nfds in
  match scan_opt (rd_ready n c) r l with
  | None => None
  | Some None => Some (inl (err EBADF))
  | Some (Some (rs, kr)) =>
      match scan_opt (wr_ready n c) w l with
      | None => None
      | Some None => Some (inl (err EBADF))
      | Some (Some (ws, kw)) =>
          match scan_opt (fun fd => Some (match n_fds n !! (c, fd) with
                                          | None => None | Some _ => Some false end)) e l with
          | None => None
          | Some None => Some (inl (err EBADF))
          | Some (Some _) =>
              Some (inr (kr + kw, (if r then Some rs else None), (if w then Some ws else None)))
          end
      end
  end.
(** [late]: the timeout has passed *)
Definition select_call (n : net) (c nfds : Z) (r w e : option (gset Z)) (late : bool) : res :=
  match select_round n c nfds r w e with
  | None => Dies
  | Some (inl x) => Go n (Ret x)
  | Some (inr (k, rs, ws)) =>
      if negb (k =? 0) || late then Go n (Sets k rs ws) else Block
  end.

(** net_calls.rs 4531-4602: one entry of a poll list.  [None]: panic;
    [Some (inl r)]: poll returns the error [r]; [Some (inr revents)]. A
    descriptor number beyond the size of an fd_set is written outside the set
    (comm.rs 572-574); the standard library's range check makes it a panic. *)
Definition want (events bit fd : Z) : gset Z :=
  if 0 <? Z.land events bit then {[ fd ]} else ∅.
Definition poll_one (n : net) (c fd events : Z) : option (Z + Z) :=
  if fd <? 0 then Some (inr 0)
  else if (FD_SET_MAX_FD <=? fd) && negb (Z.land events (POLLIN + POLLPRI + POLLOUT) =? 0) then None
  else
    let es := want events POLLPRI fd in
    match select_round n c (fd + 1) (Some (want events POLLIN fd))
            (Some (want events POLLOUT fd)) (Some es) with
    | None => None
    | Some (inl x) => if x =? err EBADF then Some (inr POLLNVAL) else Some (inl x)
    | Some (inr (k, rs, ws)) =>
        if 0 <? k then
          Some (inr ((if bool_decide (rs = Some ∅) then 0 else POLLIN)
                     + (if bool_decide (ws = Some ∅) then 0 else POLLOUT)
                     + (if bool_decide (es = ∅) then 0 else POLLPRI)))
        else Some (inr 0)
    end.
Fixpoint poll_pass (n : net) (c : Z) (l : list (Z * Z)) : option (Z + list Z) :=
  match l with
  | [] => Some (inr [])
  | (fd, ev) :: l' =>
      match poll_one n c fd ev with
      | None => None
      | Some (inl x) => Some (inl x)
      | Some (inr r) =>
          match poll_pass n c l' with
          | Some (inr rs) => Some (inr (r :: rs))
          | x => x
          end
      end
  end.
Definition count_pos (l : list Z) : Z :=
  Z.of_nat (length (List.filter (fun r => negb (r =? 0)) l)).
(** net_calls.rs 4485-4618 *)
Definition poll_call (n : net) (c : Z) (l : list (Z * Z)) (late : bool) : res :=
  match poll_pass n c l with
  | None => Dies
  | Some (inl x) => Go n (Ret x)
  | Some (inr rs) =>
      if negb (count_pos rs =? 0) || late then Go n (Polled (count_pos rs) rs) else Block
  end.

(** ** Epoll *)

(** net_calls.rs 4620-4672 *)
Definition ecreate_call (n : net) (c size : Z) : res :=
  if size <=? 0 then Go n (Ret (err EINVAL)) else
  match next_fd n c 0 with
  | None => Go n (Ret (err ENFILE))
  | Some k => Go (put_fd c k (DEpoll ∅) n) (Ret k)
  end.

(** net_calls.rs 4717-4861 *)
Definition ectl_call (n : net) (c epfd op fd events data : Z) : res :=
  if negb (in_range epfd) || negb (in_range fd) then Go n (Ret (err EBADF)) else
  match n_fds n !! (c, epfd) with
  | None => Go n (Ret (err EBADF))
  | Some (DEpoll reg) =>
      if fd =? epfd then Go n (Ret (err EINVAL)) else
      match n_fds n !! (c, fd) with
      | None => Go n (Ret (err EBADF))
      | Some (DEpoll _) => Go n (Ret (err EBADF))
      | Some DFile => Go n (Ret (err EPERM))
      | Some _ =>
          let present := bool_decide (is_Some (reg !! fd)) in
          if op =? CTL_DEL then
            if present then Go (put_fd c epfd (DEpoll (delete fd reg)) n) (Ret 0)
            else Go n (Ret (err ENOENT))
          else if op =? CTL_MOD then
            if present then Go (put_fd c epfd (DEpoll (<[fd := (events, data)]> reg)) n) (Ret 0)
            else Go n (Ret (err ENOENT))
          else if op =? CTL_ADD then
            if present then Go n (Ret (err EEXIST))
            else Go (put_fd c epfd (DEpoll (<[fd := (events, data)]> reg)) n) (Ret 0)
          else Go n (Ret (err EINVAL))
      end
  | Some _ => Go n (Ret (err EINVAL))
  end.

(** net_calls.rs 4902-5051.  The order of the registered descriptors is that
    of the hash map: [map_to_list] here. *)
Definition live (n : net) (c : Z) (reg : gmap Z (Z * Z)) : gmap Z (Z * Z) :=
  filter (fun x => is_Some (n_fds n !! (c, x.1))) reg.
Fixpoint report (reg : list (Z * (Z * Z))) (rs : list Z) (max : nat) : list (Z * Z) :=
  match max, reg, rs with
  | S m, (_, (_, data)) :: reg', r :: rs' =>
      let ev := Z.land r (POLLIN + POLLPRI + POLLOUT) in
      if ev =? 0 then report reg' rs' max else (ev, data) :: report reg' rs' m
  | _, _, _ => []
  end.
Definition ewait_call (n : net) (c epfd max : Z) (late : bool) : res :=
  if negb (in_range epfd) then Go n (Ret (err EBADF)) else
  match n_fds n !! (c, epfd) with
  | None => Go n (Ret (err EBADF))
  | Some (DEpoll reg) =>
      if max <=? 0 then Go n (Ret (err EINVAL)) else
      let lv := live n c reg in
      let n1 := put_fd c epfd (DEpoll lv) n in
      let items := map_to_list lv in
      match poll_pass n1 c (map (fun x => (x.1, Z.land x.2.1 (POLLIN + POLLPRI + POLLOUT))) items) with
      | None => Dies
      | Some (inl x) => Go n1 (Ret x)
      | Some (inr rs) =>
          if negb (count_pos rs =? 0) || late then
            let evs := report items rs (Z.to_nat max) in
            Go n1 (Events (Z.of_nat (length evs)) evs)
          else Block
      end
  | Some _ => Go n (Ret (err EINVAL))
  end.

(** ** The calls *)
Inductive nop :=
  | Socket (domain ty proto : Z)
  | Bind (fd : Z) (p : upath)
  | Listen (fd : Z)
  | Connect (fd : Z) (p : upath)
  | ConnWait (r : Z)
  | ConnDone (r : Z)
  | Accept (fd : Z)
  | Socketpair (domain ty proto : Z)
  | Send (fd : Z) (bs : list Z)
  | Recv (fd len flags : Z)
  | Read (fd len : Z)
  | Write (fd : Z) (bs : list Z)
  | Shutdown (fd how : Z)
  | Close (fd : Z)
  | Dup (fd : Z)
  | Dup2 (fd fd2 : Z)
  | Fork (child : Z)
  | Pipe (nb : bool)
  | Open (stream : bool)
  | SetNb (fd : Z) (nb : bool)
  | Ioctl (fd : Z) (nb : bool)
  | Unlink (p : upath)
  | Create (p : upath)
  | Getopt (fd level opt : Z)
  | Setopt (fd level opt v : Z)
  | Select (nfds : Z) (r w e : option (gset Z)) (late : bool)
  | Poll (l : list (Z * Z)) (late : bool)
  | Ecreate (size : Z)
  | Ectl (epfd op fd events data : Z)
  | Ewait (epfd max : Z) (late : bool).

Definition step (n : net) (c : Z) (o : nop) : res :=
  match o with
  | Socket d t p => socket_call n c d t p
  | Bind fd p => bind_call n c fd p
  | Listen fd => listen_call n c fd
  | Connect fd p => connect_call n c fd p
  | ConnWait r => conn_wait n r
  | ConnDone r => conn_done n r
  | Accept fd => accept_call n c fd
  | Socketpair d t p => socketpair_call n c d t p
  | Send fd bs => send_call n c fd bs
  | Recv fd len flags => recv_call n c fd len flags
  | Read fd len => read_call n c fd len
  | Write fd bs => write_call n c fd bs
  | Shutdown fd how => shutdown_call n c fd how
  | Close fd => close_call n c fd
  | Dup fd => dup_call n c fd
  | Dup2 fd fd2 => dup2_call n c fd fd2
  | Fork c' => fork_call n c c'
  | Pipe nb => pipe_call n c nb
  | Open st => open_call n c st
  | SetNb fd nb => setnb_call n c fd nb
  | Ioctl fd nb => ioctl_call n c fd nb
  | Unlink p => unlink_call n p
  | Create p => create_call n p
  | Getopt fd lv o => getopt_call n c fd lv o
  | Setopt fd lv o v => setopt_call n c fd lv o v
  | Select k r w e late => select_call n c k r w e late
  | Poll l late => poll_call n c l late
  | Ecreate k => ecreate_call n c k
  | Ectl ep op fd ev d => ectl_call n c ep op fd ev d
  | Ewait ep m late => ewait_call n c ep m late
  end.

(** Executing a history of calls by any cages: every call goes through. *)
Fixpoint run (n : net) (l : list (Z * nop)) : option (net * list nout) :=
  match l with
  | [] => Some (n, [])
  | (c, o) :: l' =>
      match step n c o with
      | Go n1 x => match run n1 l' with
                   | Some (n2, xs) => Some (n2, x :: xs)
                   | None => None
                   end
      | _ => None
      end
  end.

Definition reachable (n : net) : Prop := exists l xs, run init_net l = Some (n, xs).
