(** Vocabulary of the claims about datagrams, streams, modes, [select] and
    aborts *)
From Verif Require Import Base PortModel ErrnoModel InetModel InetSpec.
Local Open Scope list_scope.
Local Open Scope Z_scope.

(** Socket [i] is a stream socket. *)
Definition is_tcp (s : ist) (i : Z) : Prop := exists h, i_h s !! i = Some h /\ h_tcp h = true.
(** Some receive on socket [i] asked for MSG_PEEK. *)
Definition peeked (evs : list event) (i : Z) : Prop := exists e fd len flags fam, e ∈ evs /\ e_op e = Recv fd len flags fam /\
  sock_of (e_pre e) (e_cage e) fd = Some i /\ hasbit flags MSG_PEEK = true.

(** Socket [i] is a datagram socket. *)
Definition is_udp (s : ist) (i : Z) : Prop := exists h, i_h s !! i = Some h /\ h_tcp h = false.
(** [x] was given by a [connect] on socket [i], and no later [connect] on it
    answered 0. *)
Definition last_peer (evs : list event) (i : Z) (x : iaddr) : Prop :=
  exists ev1 e ev2 fd, evs = ev1 ++ e :: ev2 /\ e_op e = Connect fd x /\ sock_of (e_pre e) (e_cage e) fd = Some i /\
    forall e' fd' y, e' ∈ ev2 -> e_op e' = Connect fd' y -> sock_of (e_pre e') (e_cage e') fd' = Some i -> e_out e' <> IRet 0.

(** The descriptor has O_NONBLOCK. *)
Definition nonblocking (s : ist) (c fd : Z) : bool :=
  match i_fds s !! (c, fd) with Some (ISock _ fl _) => hasbit fl O_NONBLOCK | _ => false end.
(** The calls that switch the mode of the kernel's socket *)
Definition sets_mode (o : iop) (fd : Z) : Prop :=
  match o with Setfl f _ | Fionbio f _ | Recv f _ _ _ | Accept f => f = fd | _ => False end.
(** some call so far on socket [i] could change its kernel mode *)
Definition mode_set (evs : list event) (i : Z) : Prop := exists e fd, e ∈ evs /\ sets_mode (e_op e) fd /\ sock_of (e_pre e) (e_cage e) fd = Some i.
(** socket [i] was made by [socket], with SOCK_NONBLOCK iff [nb] *)
Definition created (evs : list event) (i : Z) (nb : bool) : Prop := exists e v6 tcp ce fd,
  e ∈ evs /\ e_op e = Socket v6 tcp nb ce /\ e_out e = IRet fd /\ 0 <= fd /\ i = i_nh (e_pre e).
(** the call asks for descriptor [fd] to be non-blocking iff [b] *)
Definition asks (o : iop) (fd : Z) (b : bool) : Prop :=
  match o with Setfl f arg => f = fd /\ b = hasbit arg O_NONBLOCK | Fionbio f arg => f = fd /\ b = negb (arg =? 0) | _ => False end.

(** The call closes, replaces or shuts down this descriptor. *)
Definition removes (o : iop) (c : Z) (p : Z * Z) : Prop :=
  match o with Close fd | Shutdown fd _ => (c, fd) = p | Dup2 _ fd2 => (c, fd2) = p | _ => False end.
(** Descriptor [fd] is where the kernel's socket [k] was connected, was told
    to listen, or was accepted. *)
Definition opened (e : event) (c fd k : Z) : Prop :=
  e_cage e = c /\
  ((exists x, e_op e = Connect fd x /\ KConnect k x 0 ∈ e_tr e) \/
   (exists n, e_op e = Listen fd n /\ KListen k n 0 ∈ e_tr e) \/
   (exists l x, e_out e = IAccepted fd x /\ KAccept l (inl x) k ∈ e_tr e)).
(** In this event the descriptor goes away. *)
Definition gone (e : event) (c fd : Z) : Prop := removes (e_op e) (e_cage e) (c, fd).

(** [e] is 0 or the number of an error *)
Definition known (e : Z) : Prop := e = 0 \/ from_discriminant e <> None.
(** The kernel's error numbers are known ones, it sets socket options, and
    errno is not 0. *)
Definition sane (a : kans) : Prop :=
  a_opt a = 0 /\ known (a_mode a) /\ known (a_bind a) /\ known (a_conn a) /\ known (a_listen a) /\ known (a_shut a) /\
  (forall e, a_acc a = inr e -> from_discriminant e <> None) /\ (a_send a < 0 -> from_discriminant (- a_send a) <> None) /\
  (forall e, a_recv a = inr e -> from_discriminant e <> None) /\ from_discriminant (a_errno a) <> None.
(** Descriptor numbers are from 0 to 1023. *)
Definition fds_ok (o : iop) : Prop :=
  match o with
  | Bind fd _ | Connect fd _ | Listen fd _ | Accept fd | Send fd _ | Sendto fd _ _ | Writev fd _ | Recv fd _ _ _ | Close fd
  | Getfl fd | Setfl fd _ | Fionbio fd _ => 0 <= fd < MAXFD
  | SelectR fds | SelectW fds => Forall (fun fd => 0 <= fd < MAXFD) fds
  | _ => True
  end.
(** No [shutdown], and no [connect] to port 0 of the unspecified address *)
Definition mild (evs : list event) : Prop :=
  forall e, e ∈ evs -> (forall fd how, e_op e <> Shutdown fd how) /\ forall fd x, e_op e = Connect fd x -> no_dest x = false.
