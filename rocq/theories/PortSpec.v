(** Specification of port reservations, in terms of the reservations that are
    held. *)
From Verif Require Import Base PortModel.
Local Open Scope list_scope.
Local Open Scope Z_scope.

(** A reservation: address, port, protocol, and whether sharing was asked for *)
Record resv := Resv { r_addr : addr; r_port : Z; r_pt : ptype; r_reuse : bool }.
Global Instance resv_eq_dec : EqDecision resv.
Proof. solve_decision. Defined.

(** Two reservations overlap: same port and protocol, and the same address or
    one of them is for all addresses. *)
Definition overlap (r q : resv) : Prop :=
  r_port r = r_port q /\ r_pt r = r_pt q /\
  (r_addr r = r_addr q \/ unspecified (r_addr r) = true \/ unspecified (r_addr q) = true).

(** They may be held together: they do not overlap, or they are for one and the
    same address and both asked for sharing. *)
Definition compatible (r q : resv) : Prop :=
  overlap r q -> r_addr r = r_addr q /\ unspecified (r_addr r) = false /\ r_reuse r = true /\ r_reuse q = true.

Inductive call := Reserve (r : resv) | Release (r : resv).

(** [fair L o]: with the reservations [L] held, the call is not one of
    - reserving a chosen port on one address while it is held on other addresses
      only;
    - reserving a chosen port without sharing on an address that shares it;
    - reserving a chosen port on one address while it is held on all addresses
      with sharing. *)
Definition fair (L : list resv) (o : call) : Prop :=
  match o with
  | Reserve q =>
      r_port q = 0 \/ unspecified (r_addr q) = true \/
      ((forall r, r ∈ L -> r_port r = r_port q -> r_pt r = r_pt q ->
          exists r', r' ∈ L /\ overlap r' q) /\
       (forall r, r ∈ L -> overlap r q -> r_reuse r = true -> unspecified (r_addr r) = false /\ r_reuse q = true))
  | Release _ => True
  end.

(** Any history of reservations and of releases of what is held; the list of
    reservations that are held. If [strict], all calls are fair. Ports are 16
    bit numbers. *)
Inductive holds (strict : bool) (devs : list addr) : ports -> list resv -> Prop :=
| holds_new : holds strict devs new_ports []
| holds_take s L q s' port :
    holds strict devs s L -> 0 <= r_port q <= 65535 -> (strict = true -> fair L (Reserve q)) ->
    reserve devs s (r_addr q) (r_port q) (r_pt q) (r_reuse q) = (s', port) -> 0 <= port ->
    holds strict devs s' (Resv (r_addr q) port (r_pt q) (r_reuse q) :: L)
| holds_fail s L q s' port :
    holds strict devs s L -> 0 <= r_port q <= 65535 -> (strict = true -> fair L (Reserve q)) ->
    reserve devs s (r_addr q) (r_port q) (r_pt q) (r_reuse q) = (s', port) -> port < 0 ->
    holds strict devs s' L
| holds_release s L1 r L2 s' x :
    holds strict devs s (L1 ++ r :: L2) -> (strict = true -> fair (L1 ++ r :: L2) (Release r)) ->
    release devs s (r_addr r) (r_port r) (r_pt r) = Done (s', x) ->
    holds strict devs s' (L1 ++ L2).

(** A port number in host byte order in the ephemeral range, as returned in
    network byte order *)
Definition ephemeral (port : Z) : Prop := exists q, 32768 <= q <= 60999 /\ port = (q mod 256) * 256 + q / 256.
