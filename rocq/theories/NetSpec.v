(** Vocabulary for the statements about local sockets.  Everything here talks
    about calls, their answers and the descriptors; the only internals used
    are which connection a descriptor belongs to. *)
From Verif Require Import Base NetModel.
Local Open Scope list_scope.
Local Open Scope Z_scope.

(** ** Histories *)

(** Collect [f] over the calls of a history that starts in [n]. *)
Fixpoint gather {A} (f : net -> Z -> nop -> nout -> list A) (n : net) (l : list (Z * nop)) : list A :=
  match l with
  | [] => []
  | (c, o) :: l' =>
      match step n c o with
      | Go n1 x => f n c o x ++ gather f n1 l'
      | _ => []
      end
  end.
(** [P] holds of every call of the history, in the state in which it is made. *)
Fixpoint along (P : net -> Z -> nop -> Prop) (n : net) (l : list (Z * nop)) : Prop :=
  match l with
  | [] => True
  | (c, o) :: l' =>
      P n c o /\
      match step n c o with
      | Go n1 x => along P n1 l'
      | _ => True
      end
  end.

(** ** Connections *)

(** Descriptor [fd] of cage [c] is open on socket [h]. *)
Definition opens (n : net) (c fd h : Z) : bool :=
  match n_fds n !! (c, fd) with
  | Some (DSock h' _) => h' =? h
  | _ => false
  end.
(** The directed byte stream socket [h] receives from / sends to *)
Definition from (n : net) (h : Z) : option Z :=
  match n_sock n !! h with
  | Some s => match s_ui s with Some u => u_recv u | None => None end
  | None => None
  end.
Definition into (n : net) (h : Z) : option Z :=
  match n_sock n !! h with
  | Some s => match s_ui s with Some u => u_send u | None => None end
  | None => None
  end.
Definition sends (n : net) (c fd p : Z) : bool :=
  match n_fds n !! (c, fd) with
  | Some (DSock h _) => bool_decide (into n h = Some p)
  | _ => false
  end.

(** Bytes a send call reports as accepted *)
Definition accepted (bs : list Z) (x : nout) : list Z :=
  match x with
  | Ret k | More k => take (Z.to_nat k) bs
  | _ => []
  end.
(** Bytes this call put into stream [p] *)
Definition put_in (p : Z) (n : net) (c : Z) (o : nop) (x : nout) : list Z :=
  match o with
  | Send fd bs | Write fd bs => if sends n c fd p then accepted bs x else []
  | _ => []
  end.
(** Bytes this call consumed on socket [h]: what a receive returned, unless it
    only peeked *)
Definition took (h : Z) (n : net) (c : Z) (o : nop) (x : nout) : list Z :=
  match o, x with
  | Recv fd _ flags, Data bs =>
      if opens n c fd h && negb (hasbit flags MSG_PEEK) then bs else []
  | Read fd _, Data bs => if opens n c fd h then bs else []
  | _, _ => []
  end.
(** The call connects socket [h]. *)
Definition connects (h : Z) (n : net) (c : Z) (o : nop) : bool :=
  match o with
  | Connect fd _ => opens n c fd h
  | _ => false
  end.
Definition no_connect (h : Z) (n : net) (c : Z) (o : nop) : Prop := connects h n c o = false.

(** Bytes sent to socket [h] over stream [p] and not consumed yet *)
Definition unread (n : net) (h p : Z) : list Z :=
  match n_sock n !! h, n_pipe n !! p with
  | Some s, Some x => s_peek s ++ p_buf x
  | _, _ => []
  end.
(** Socket [h] may receive: connected, and receiving was not shut down. *)
Definition can_recv (n : net) (h : Z) : Prop :=
  exists s, n_sock n !! h = Some s /\ (s_st s = Conn \/ s_st s = RdOnly).
Definition can_send (n : net) (h : Z) : Prop :=
  exists s, n_sock n !! h = Some s /\ (s_st s = Conn \/ s_st s = WrOnly).
(** All descriptors open on the sending side of stream [p] are closed. *)
Definition no_sender (n : net) (p : Z) : Prop :=
  forall c fd, sends n c fd p = false.

(** ** Connection requests *)

(** The request that this call hands over *)
Definition serves (n : net) (c : Z) (o : nop) (x : nout) : list Z :=
  match o with
  | Accept fd =>
      match n_fds n !! (c, fd) with
      | Some (DSock h _) =>
          match n_sock n !! h with
          | Some s =>
              match s_loc s with
              | Some l => match n_pend n !! l, x with
                          | Some q, Ret k => if negb (k =? fd) && (0 <=? k) then [q_req q] else []
                          | _, _ => []
                          end
              | None => []
              end
          | None => []
          end
      | _ => []
      end
  | _ => []
  end.
(** The request that this call issues *)
Definition issues (n : net) (c : Z) (o : nop) (x : nout) : list Z :=
  match o, x with
  | Connect _ _, Ret 0 => [n_req n]
  | Connect _ _, Waits r => [r]
  | _, _ => []
  end.
(** Blocking connects that returned *)
Definition returns (n : net) (c : Z) (o : nop) (x : nout) : list Z :=
  match o, x with
  | ConnDone r, Ret _ => [r]
  | _, _ => []
  end.
(** No connect goes to an address at which a request is still pending. *)
Definition no_rival (n : net) (c : Z) (o : nop) : Prop :=
  match o with
  | Connect _ p => n_pend n !! p = None
  | _ => True
  end.

(** ** Readiness *)

(** A read of one byte or more on the descriptor would have to wait. *)
Definition read_waits (n : net) (c fd : Z) : Prop :=
  forall len, 0 < len ->
    step n c (Read fd len) = Block \/ step n c (Read fd len) = Go n (Ret (err EAGAIN)).

(** A read of one byte or more returns at once, with data or end of file. *)
Definition read_now (n : net) (c fd : Z) : Prop :=
  forall len, 0 < len -> exists n' bs, step n c (Read fd len) = Go n' (Data bs).

(** ** Epoll *)

(** What the epoll instance behind descriptor [ep] watches for [fd]: events
    and user data *)
Definition watched (n : net) (c ep fd : Z) : option (Z * Z) :=
  match n_fds n !! (c, ep) with
  | Some (DEpoll reg) => reg !! fd
  | _ => None
  end.
Definition is_epoll (n : net) (c ep : Z) : Prop :=
  exists reg, n_fds n !! (c, ep) = Some (DEpoll reg).
(** Descriptors that epoll_ctl accepts: open, and neither an epoll instance
    nor a regular file *)
Definition watchable (n : net) (c fd : Z) : Prop :=
  exists d, n_fds n !! (c, fd) = Some d /\ d <> DFile /\ forall reg, d <> DEpoll reg.
Definition is_open (n : net) (c fd : Z) : Prop := is_Some (n_fds n !! (c, fd)).
(** Calls about descriptor [k] itself *)
Definition touches (o : nop) (k : Z) : bool :=
  match o with
  | Close fd | SetNb fd _ | Ioctl fd _ | Shutdown fd _ => fd =? k
  | Dup2 _ fd2 => fd2 =? k
  | Ectl ep _ _ _ _ | Ewait ep _ _ => ep =? k
  | _ => false
  end.
(** Cage [c] makes no call about descriptor [k] itself. *)
Definition leaves (c k : Z) (n : net) (c' : Z) (o : nop) : Prop :=
  c' = c -> touches o k = false.

(** ** Shutdown and options *)
Definition shuts (h : Z) (n : net) (c : Z) (o : nop) : bool :=
  match o with Shutdown fd _ => opens n c fd h | _ => false end.
Definition no_shutdown (h : Z) (n : net) (c : Z) (o : nop) : Prop := shuts h n c o = false.
(** The boolean options that can be set: level and number *)
Definition bool_opt (lv opt : Z) : Prop :=
  lv = SOL_TCP /\ opt = TCP_NODELAY \/
  lv = SOL_SOCKET /\ opt ∈ [SO_LINGER; SO_KEEPALIVE; SO_REUSEPORT; SO_REUSEADDR].
(** The call sets this option on socket [h]. *)
Definition sets (h lv opt : Z) (n : net) (c : Z) (o : nop) : bool :=
  match o with
  | Setopt fd lv' opt' _ => opens n c fd h && (lv' =? lv) && (opt' =? opt)
  | _ => false
  end.
Definition no_set (h lv opt : Z) (n : net) (c : Z) (o : nop) : Prop := sets h lv opt n c o = false.

(** ** More readiness *)

(** Read end of a pipe, or a connected socket that has not been peeked at *)
Definition plain_reader (n : net) (c fd : Z) : Prop :=
  (exists p fl, n_fds n !! (c, fd) = Some (DPipe p false fl)) \/
  exists h fl s, n_fds n !! (c, fd) = Some (DSock h fl) /\ n_sock n !! h = Some s /\
    s_st s = Conn /\ s_peek s = [].
(** Listening socket in non-blocking mode *)
Definition nb_listener (n : net) (c fd : Z) : Prop :=
  exists h fl s, n_fds n !! (c, fd) = Some (DSock h fl) /\ nonblock fl = true /\
    n_sock n !! h = Some s /\ s_st s = Listening.
Definition pipe_writer (n : net) (c fd : Z) : Prop :=
  exists p fl, n_fds n !! (c, fd) = Some (DPipe p true fl).
(** There are [k] unused descriptor numbers in the table of cage [c]. *)
Definition space (n : net) (c : Z) (k : nat) : Prop :=
  exists l, length l = k /\ NoDup l /\ forall fd, fd ∈ l -> 0 <= fd < MAXFD /\ ~ is_open n c fd.

(** ** Socket states *)
Definition sock_state (n : net) (h : Z) (st : cstate) : Prop :=
  exists s, n_sock n !! h = Some s /\ s_st s = st.
(** Neither connected nor half-connected *)
Definition dead (n : net) (h : Z) : Prop := sock_state n h NotConn \/ sock_state n h Listening.
(** Stream [p] has a receiver and at least PIPE_BUF bytes of free space. *)
Definition takes (n : net) (p : Z) : Prop :=
  exists x, n_pipe n !! p = Some x /\ p_nr x <> 0 /\ PIPE_BUF <= room x.
(** The name the socket is bound to *)
Definition bound_to (n : net) (h : Z) (p : upath) : Prop :=
  exists s, n_sock n !! h = Some s /\ s_loc s = Some p.

(** ** Answers *)
(** What one call does: answer, wait, or bring the runtime down *)
Inductive ans := Answers (x : nout) | Waiting | Panics.
Definition says (n : net) (c : Z) (o : nop) : ans :=
  match step n c o with
  | Go _ x => Answers x
  | Block => Waiting
  | Dies => Panics
  end.

(** ** Reports *)

(** Descriptor [fd] is in the set given to, or returned by, select. *)
Definition within (fd : Z) (o : option (gset Z)) : Prop :=
  match o with Some s => fd ∈ s | None => False end.
Definition osize (o : option (gset Z)) : Z :=
  match o with Some s => Z.of_nat (size s) | None => 0 end.
(** Event [bit] was asked for. *)
Definition reqd (ev bit : Z) : Prop := 0 < Z.land ev bit.

(** Only the entry of [fd] in the interest list of [ep] changes, to [v]. *)
Definition only_at (n n' : net) (c ep fd : Z) (v : option (Z * Z)) : Prop :=
  forall c' ep' fd', watched n' c' ep' fd' =
    if decide ((c', ep', fd') = (c, ep, fd)) then v else watched n c' ep' fd'.

(** [k] was not open before and is now open on a new connected socket. *)
Definition new_conn (n n' : net) (c k : Z) : Prop :=
  ~ is_open n c k /\ exists h, opens n' c k h = true /\ n_sock n !! h = None /\ sock_state n' h Conn.
