(** Specification vocabulary for the entry point of INET sockets (C137). *)
From stdpp Require Import gmap.
From Verif Require Import Base AbiModel AbiSpec EntryModel EntrySpec WireSpec PortModel InetModel InetSpec InetWireModel.
Local Open Scope list_scope.
Local Open Scope Z_scope.

(** At [p] lies an IPv4 address: family 2, port and address in network order,
    eight zeros. *)
Definition v4_at (m : Z -> Z) (p : Z) (x : iaddr) : Prop :=
  short_at m p = 2 /\ ia_v6 x = false /\ short_at m (p + 2) = ia_port x /\
  (ia_a x = Any4 /\ number_at m (p + 4) = 0 \/ exists ip, ia_a x = Host ip /\ ip <> 0 /\ number_at m (p + 4) = ip) /\
  number_at m (p + 8) = 0 /\ number_at m (p + 12) = 0.
(** ... given with its length *)
Definition given (m : Z -> Z) (p len : Z) (x : iaddr) : Prop := p <> 0 /\ 16 <= len < 2 ^ 32 /\ v4_at m p x.
(** a buffer: descriptor, address that is not null, length *)
Definition buf (a : args) (fd : Z) : Prop := int_word (a1 a) fd /\ a2 a <> 0.
(** the type of socket: stream or datagram, with the two flags or without *)
Definition kinds (tcp nb ce : bool) : Z := (if tcp then 1 else 2) + (if nb then 2048 else 0) + (if ce then 524288 else 0).

(** What the words ask for *)
Inductive asks (m : Z -> Z) (a : args) : Z -> iop -> Prop :=
| as_close fd : int_word (a1 a) fd -> asks m a 11 (Close fd)
| as_read fd : buf a fd -> asks m a 12 (Recv fd (a3 a) 0 None)
| as_write fd : buf a fd -> asks m a 13 (Send fd (bytes_at m (a2 a) (a3 a)))
| as_bind fd x : int_word (a1 a) fd -> given m (a2 a) (a3 a) x -> asks m a 33 (Bind fd x)
| as_send fd f : buf a fd -> int_word (a4 a) f -> asks m a 34 (Send fd (bytes_at m (a2 a) (a3 a)))
| as_sendto fd f x : buf a fd -> int_word (a4 a) f -> given m (a5 a) (a6 a) x -> asks m a 35 (Sendto fd (bytes_at m (a2 a) (a3 a)) x)
| as_recv fd f : buf a fd -> int_word (a4 a) f -> asks m a 36 (Recv fd (a3 a) f None)
| as_recvfrom fd f : buf a fd -> int_word (a4 a) f -> a5 a = 0 -> a6 a = 0 -> asks m a 37 (Recv fd (a3 a) f None)
| as_connect fd x : int_word (a1 a) fd -> given m (a2 a) (a3 a) x -> asks m a 38 (Connect fd x)
| as_listen fd b : int_word (a1 a) fd -> int_word (a2 a) b -> asks m a 39 (Listen fd b)
| as_accept fd : int_word (a1 a) fd -> (a2 a = 0 <-> a3 a = 0) -> asks m a 40 (Accept fd)
| as_shutdown fd how : int_word (a1 a) fd -> int_word (a2 a) how -> asks m a 45 (Shutdown fd how)
| as_socket (v6 tcp nb ce : bool) p : int_word (a1 a) (if v6 then 10 else 2) -> int_word (a2 a) (kinds tcp nb ce) ->
    int_word (a3 a) p -> p = 0 \/ p = (if tcp then 6 else 17) -> asks m a 136 (Socket v6 tcp nb ce)
| as_sockname fd : int_word (a1 a) fd -> a2 a <> 0 -> a3 a <> 0 -> asks m a 144 (Getsockname fd)
| as_peername fd : int_word (a1 a) fd -> a2 a <> 0 -> a3 a <> 0 -> asks m a 145 (Getpeername fd).

(** the answer to the caller; [None]: it waits *)
Definition told (x : iout) : option Z :=
  match x with
  | IRet r | IAccepted r _ => Some r
  | IData l => Some (Z.of_nat (length l))
  | IReady l => Some (Z.of_nat (length l))
  | IName _ => Some 0
  | IWaits => None
  end.
(** the sixteen bytes of an IPv4 address *)
Definition le2 (v : Z) : list Z := [v mod 256; v / 256 mod 256].
Definition le4 (v : Z) : list Z := [v mod 256; v / 256 mod 256; v / 65536 mod 256; v / 16777216 mod 256].
Definition v4_bytes (port ip : Z) : list Z := [2; 0] ++ le2 port ++ le4 ip ++ [0; 0; 0; 0; 0; 0; 0; 0].
Definition host (x : addr) : Z := match x with Host n => n | _ => 0 end.

(** where a call with this answer may change memory *)
Definition may_change (n : Z) (a : args) (r : option Z) (q : Z) : Prop :=
  exists v, r = Some v /\ 0 <= v /\
    ((n ∈ [12; 36; 37] /\ a2 a <= q < a2 a + v) \/
     (n ∈ [40; 144; 145] /\ a2 a <> 0 /\ a3 a <> 0 /\ (a2 a <= q < a2 a + 16 \/ a3 a <= q < a3 a + 4))).

(** The kernel hands out bytes, and no more than were asked for. *)
Definition honest (t : list kcall) : Prop :=
  forall k len bs, KRecv k len (inl bs) ∈ t -> Forall is_byte bs /\ Z.of_nat (length bs) <= len.
(** Programs: bytes are bytes and words are words; what InetModel has besides
    the decoded calls is called as there. *)
Definition sane (s : state) (x : act) : Prop :=
  match x with
  | Poke _ b => is_byte b
  | Call _ _ a _ => Forall is_word (words a)
  | Inner _ o _ => valid (s_i s) o
  end.
Inductive runs (devs : list addr) (s : state) : list act -> list kcall -> state -> Prop :=
| runs_nil : runs devs s [] [] s
| runs_step l t s1 x s2 t2 r : runs devs s l t s1 -> sane s1 x -> act_step devs s1 x = Rep s2 t2 r -> honest t2 ->
    runs devs s (l ++ [x]) (t ++ t2) s2.

(** What lies in memory after an answer: the bytes received at the second
    word; a name there too, cut to the room that the third word points to, and
    its size in that place. *)
Definition found (a : args) (m m' : Z -> Z) (x : iout) : Prop :=
  match x with
  | IData l => bytes_at m' (a2 a) (Z.of_nat (length l)) = l
  | IName y | IAccepted _ y =>
      a2 a <> 0 -> a3 a + 4 <= a2 a \/ a2 a + 16 <= a3 a ->
      lies m' (a2 a) (take (Z.to_nat (Z.min (number_at m (a3 a)) 16)) (v4_bytes (ia_port y) (host (ia_a y)))) /\ number_at m' (a3 a) = 16
  | _ => True
  end.
(** A socket whose name nobody has set, of the IPv6 family *)
Definition nameless6 (s : ist) (c fd : Z) : Prop := exists h, hdl_of s c fd = Some h /\ h_v6 h = true /\ h_loc h = None.
(** The caller asks for the name of an IPv6 socket, or for the bytes of a
    descriptor that is not a socket, or gets an IPv6 address. *)
Definition beyond (s : ist) (c n : Z) (o : iop) : Prop := n ∈ [12; 13] /\ forall fd, fd_of o = fd -> sock_of s c fd = None.
Definition answers6 (x : iout) : Prop := match x with IName y | IAccepted _ y => ia_v6 y = true | _ => False end.

(** What the kernel is asked is what the words and the memory say. *)
Definition seen (m : Z -> Z) (n : Z) (a : args) (e : kcall) : Prop :=
  match e with
  | KBind _ y _ => n = 33 -> forall x, given m (a2 a) (a3 a) x -> ia_a y = ia_a x /\ (ia_port x <> 0 -> y = x)
  | KConnect _ x _ => n = 38 /\ given m (a2 a) (a3 a) x
  | KListen _ b _ => n = 39 /\ int_word (a2 a) b
  | KAccept _ _ _ => n = 40
  | KSend _ bs dest _ => n ∈ [13; 34; 35] /\ bs = bytes_at m (a2 a) (a3 a) /\
      (n = 35 -> forall x, given m (a5 a) (a6 a) x -> no_dest x = false -> dest = Some x)
  | KRecv _ _ _ => n ∈ [12; 36; 37]
  | KShut _ how _ => n = 45 /\ int_word (a2 a) how
  | KClose _ => n ∈ [11; 40; 45]
  | _ => True
  end.

(** There is room for an address, apart from the place of its length. *)
Definition fits (m : Z -> Z) (a : args) : Prop := 16 <= number_at m (a3 a) /\ (a3 a + 4 <= a2 a \/ a2 a + 16 <= a3 a).
