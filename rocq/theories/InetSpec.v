(** Specification vocabulary for AF_INET and AF_INET6 sockets: histories of
    calls, and the calls made to the host kernel. *)
From Verif Require Import Base PortModel PortSpec InetModel.
Local Open Scope list_scope.
Local Open Scope Z_scope.

(** A finished call: state before, cage, call, the kernel's answers, the kernel
    calls made, the answer to the caller. *)
Record event := Ev { e_pre : ist; e_cage : Z; e_op : iop; e_ans : kans; e_tr : list kcall; e_out : iout }.

(** Ports are 16 bit numbers, lengths are not negative, a forked cage is new. *)
Definition valid (s : ist) (o : iop) : Prop :=
  match o with
  | Bind _ x => 0 <= ia_port x <= 65535
  | Recv _ len _ _ => 0 <= len
  | Fork c' => forall fd, i_fds s !! (c', fd) = None
  | _ => True
  end.

Inductive history (devs : list addr) : list event -> ist -> Prop :=
| h_nil : history devs [] init_inet
| h_step evs s c o a s' tr out :
    history devs evs s -> valid s o -> step devs s c o a = IGo s' tr out ->
    history devs (evs ++ [Ev s c o a tr out]) s'.
Definition calls (evs : list event) : list kcall := concat (map e_tr evs).

(** The socket a descriptor refers to *)
Definition sock_of (s : ist) (c fd : Z) : option Z :=
  match i_fds s !! (c, fd) with Some (ISock i _ _) => Some i | _ => None end.
Definition hdl_of (s : ist) (c fd : Z) : option hdl := sock_of s c fd ≫= fun i => i_h s !! i.
(** Some descriptor of some cage refers to a socket with kernel socket [k]. *)
Definition held (s : ist) (k : Z) : Prop :=
  exists c fd h, hdl_of s c fd = Some h /\ h_in h = Some k.

(** ** Kernel calls *)
(** the kernel sockets a call is made on *)
Definition about (e : kcall) : list Z :=
  match e with
  | KSocket _ _ _ _ => []
  | KSetopt k _ _ _ | KMode k _ | KBind k _ _ | KConnect k _ _ | KListen k _ _ | KAccept k _ _
  | KSend k _ _ _ | KRecv k _ _ | KShut k _ _ | KErr k _ | KClose k => [k]
  | KSelect ks _ => ks
  end.
(** the kernel socket a call makes *)
Definition makes (e : kcall) : option Z :=
  match e with
  | KSocket k _ _ _ => Some k
  | KAccept _ (inl _) k => Some k
  | _ => None
  end.
(** After these calls [k] is open: made and not closed. *)
Definition kopen (tr : list kcall) (k : Z) : Prop :=
  (exists e, e ∈ tr /\ makes e = Some k) /\ KClose k ∉ tr.
(** Every call is made on open sockets only, and no socket number is made
    twice. *)
Definition proper (tr : list kcall) : Prop :=
  forall t1 e t2, tr = t1 ++ e :: t2 ->
    (forall k, k ∈ about e -> kopen t1 k) /\
    (forall k, makes e = Some k -> forall e', e' ∈ t1 -> makes e' <> Some k).

(** [k] has a connection: made by [accept], or a connect succeeded, or one was
    started and later seen to have succeeded. *)
Definition established (tr : list kcall) (k : Z) : Prop :=
  (exists l p, KAccept l (inl p) k ∈ tr) \/
  (exists x, KConnect k x 0 ∈ tr) \/
  (exists t1 t2 x, tr = t1 ++ KConnect k x EINPROGRESS :: t2 /\ KErr k true ∈ t2).
(** The kernel agreed to shut down [k] in some direction. *)
Definition was_shut (tr : list kcall) (k : Z) : Prop := exists how, KShut k how 0 ∈ tr.

(** The mode of a kernel socket: the last one set, else that of its creation.
    Sockets made by [accept] are blocking. *)
Fixpoint kmode (tr : list kcall) (k : Z) (d : bool) : bool :=
  match tr with
  | [] => d
  | KSocket j _ _ nb :: r => kmode r k (if j =? k then nb else d)
  | KMode j nb :: r => kmode r k (if j =? k then nb else d)
  | _ :: r => kmode r k d
  end.
(** The name of a kernel socket: the address of the last successful bind *)
Fixpoint kname (tr : list kcall) (k : Z) (d : option iaddr) : option iaddr :=
  match tr with
  | [] => d
  | KBind j x e :: r => kname r k (if (j =? k) && (e =? 0) then Some x else d)
  | _ :: r => kname r k d
  end.

(** The bytes the kernel has handed out on [k] *)
Definition kdata (tr : list kcall) (k : Z) : list Z :=
  concat (map (fun e => match e with KRecv j _ (inl bs) => if j =? k then bs else [] | _ => [] end) tr).
(** The bytes read (not peeked at) by callers of socket [i] *)
Definition readby (evs : list event) (i : Z) : list Z :=
  concat (map (fun e =>
    match e_op e, e_out e with
    | Recv fd _ flags _, IData bs =>
        if bool_decide (sock_of (e_pre e) (e_cage e) fd = Some i) && negb (hasbit flags MSG_PEEK) then bs else []
    | _, _ => []
    end) evs).

(** ** Calls *)
(** [e] is a call of [shutdown] on socket [i]. *)
Definition shut_call (e : event) (i : Z) : Prop :=
  exists fd how, e_op e = Shutdown fd how /\ sock_of (e_pre e) (e_cage e) fd = Some i.
(** Some [shutdown] of socket [i] answered 0. *)
Definition shut_by (evs : list event) (i : Z) : Prop :=
  exists e, e ∈ evs /\ shut_call e i /\ e_out e = IRet 0.
(** Socket [i] has kernel socket [k]. *)
Definition owns (s : ist) (i k : Z) : Prop := exists h, i_h s !! i = Some h /\ h_in h = Some k.

(** Which kernel calls a call may make *)
Definition binding (e : kcall) : bool :=
  match e with KSocket _ _ _ _ | KSetopt _ _ _ _ | KBind _ _ _ => true | _ => false end.
Definition may (o : iop) (e : kcall) : bool :=
  match o, e with
  | Bind _ _, e => binding e
  | Connect _ _, KConnect _ _ _ => true
  | Connect _ _, e => binding e
  | Listen _ _, KListen _ _ _ => true
  | Listen _ _, e => binding e
  | Accept _, (KMode _ _ | KAccept _ _ _ | KClose _) => true
  | Send _ bs, KSend _ bs' _ _ | Sendto _ bs _, KSend _ bs' _ _ => bool_decide (bs' = bs)
  | (Send _ _ | Sendto _ _ _), e => binding e
  | Writev _ bs, KSend _ bs' None _ => bool_decide (bs' = bs)
  | Recv _ _ _ _, (KMode _ _ | KErr _ _ | KRecv _ _ _) => true
  | Recv _ _ _ _, e => binding e
  | Shutdown _ how, KShut _ how' _ => how' =? how
  | (Shutdown _ _ | Close _ | Dup2 _ _), KClose _ => true
  | Setopt _ opt v, KSetopt _ opt' v' _ => (opt' =? opt) && (v' =? v)
  | Setfl _ arg, KMode _ b => Bool.eqb b (hasbit arg O_NONBLOCK)
  | Fionbio _ arg, KMode _ b => Bool.eqb b (negb (arg =? 0))
  | SelectR _, KSelect _ _ => true
  | SelectW _, KErr _ ok => negb ok
  | _, _ => false
  end.

(** ** Names and ports *)
(** Socket [i], of protocol [q], has the local name [y]. *)
Definition has_name (s : ist) (i : Z) (y : iaddr) (q : ptype) : Prop :=
  exists h, i_h s !! i = Some h /\ h_loc h = Some y /\ (h_v6 h, h_tcp h) = q.
(** In these calls a chosen port was asked for on all addresses only, and no
    [bind] was refused because of the port table. *)
Definition tidy (evs : list event) : Prop :=
  forall e fd x, e ∈ evs -> e_op e = Bind fd x ->
    (ia_port x = 0 \/ unspecified (ia_a x) = true) /\
    e_out e <> IRet (err EADDRINUSE) /\ e_out e <> IRet (err EADDRNOTAVAIL).
