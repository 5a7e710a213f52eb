(** The entry point for the calls of AF_INET and AF_INET6 sockets: a call is a
    number and six words, and the memory of the caller.

    Modelled source: /repo/src/safeposix/dispatcher.rs 15-125 (the numbers),
    137-158 (the macros), 295-297, 338-350 and 380-580 (the cases); the
    converters of /repo/src/interface/types.rs 222-299, 378-415, 501-628;
    /repo/src/safeposix/syscalls/net_calls.rs 158-311 (the numbers of socket),
    4237-4390 (getpeername and getsockname); comm.rs 18-96.

    Simplifications: memory is as in AbiModel, one for all processes; the
    kernel's answers are an argument, as in InetModel. [Outside] this model
    are: addresses of other families than IPv4 and IPv4 addresses whose padding
    is not zero, as arguments and as results; recvfrom that asks for the
    address; read and write of descriptors that are not sockets; combinations
    that socket refuses, and local sockets (WireModel). *)
From stdpp Require Import gmap.
From Verif Require Import Base AbiModel EntryModel PortModel InetModel.
Local Open Scope list_scope.
Local Open Scope Z_scope.

(** ** Addresses *)
(** comm.rs SockaddrV4: the port and the address as they lie in memory *)
Definition v4_of (g : gsock) : option iaddr :=
  match g with
  | GV4 _ port ip pad => if pad =? 0 then Some (IAddr false (if ip =? 0 then Any4 else Host ip) port) else None
  | _ => None
  end.
Definition ip_of (a : addr) : Z := match a with Host n => n | _ => 0 end.
(** the record that is copied out *)
Definition record_of (x : iaddr) : option gsock :=
  if ia_v6 x then None else Some (GV4 2 (ia_port x) (ip_of (ia_a x)) 0).
(** dispatcher.rs 482: the address before accept fills it *)
Definition blank : gsock := GV4 0 0 0 0.

(** ** Arguments *)
Inductive dst := Nowhere | Buf (p : Z) | Addr (p lp : Z).
Inductive todo := Bad (r : Z) | Do (o : iop) (d : dst) | Away.
Definition arg {A} (e : AbiModel.res A) (k : A -> todo) : todo :=
  match e with Fail r => Bad r | Ok v => k v end.
Notation "'let!' x ':=' e 'in' k" := (arg e (fun x => k)) (at level 200, x name, k at level 200).
Definition null (w : Z) : bool := w =? 0.
(** dispatcher.rs 388-396, 407-418, 465-473: length, address, the rest *)
Definition with_addr (m : mem) (wp wl : Z) (f : iaddr -> todo) : todo :=
  let! len := get_uint wl in let! g := get_sockaddr m wp len in
  match v4_of g with Some x => f x | None => Away end.
Definition buffer (a : args) (f : Z -> Z -> Z -> todo) : todo :=
  let! fd := get_int (a1 a) in let! b := get_ptr (a2 a) in let! k := get_ulong (a3 a) in f fd b k.

(** net_calls.rs 158-311: SOCK_NONBLOCK is 2048, SOCK_CLOEXEC 0o2000000 *)
Definition SOCK_NB : Z := 2048.
Definition SOCK_CE : Z := 524288.
Definition socket_of (d t p : Z) : todo :=
  let v6 := d =? 10 in
  let kind := Z.land t 7 in
  let tcp := kind =? 1 in
  if negb ((d =? 2) || v6) then Away
  else if negb (Z.land t (Z.lnot (Z.lor (Z.lor SOCK_NB SOCK_CE) 7)) =? 0) then Away
  else if negb ((tcp && ((p =? 0) || (p =? 6))) || ((kind =? 2) && ((p =? 0) || (p =? 17)))) then Away
  else Do (Socket v6 tcp (negb (Z.land t SOCK_NB =? 0)) (negb (Z.land t SOCK_CE =? 0))) Nowhere.

(** dispatcher.rs 236-935 *)
Definition decode (m : mem) (n : Z) (a : args) : todo :=
  if n =? 11 then let! fd := get_int (a1 a) in Do (Close fd) Nowhere
  else if n =? 12 then buffer a (fun fd b k => Do (Recv fd k 0 None) (Buf b))
  else if n =? 13 then buffer a (fun fd b k => Do (Send fd (load m b (Z.to_nat k))) Nowhere)
  else if n =? 33 then with_addr m (a2 a) (a3 a) (fun x => let! fd := get_int (a1 a) in Do (Bind fd x) Nowhere)
  else if n =? 34 then buffer a (fun fd b k => let! f := get_int (a4 a) in Do (Send fd (load m b (Z.to_nat k))) Nowhere)
  else if n =? 35 then with_addr m (a5 a) (a6 a) (fun x => buffer a (fun fd b k => let! f := get_int (a4 a) in Do (Sendto fd (load m b (Z.to_nat k)) x) Nowhere))
  else if n =? 36 then buffer a (fun fd b k => let! f := get_int (a4 a) in Do (Recv fd k f None) (Buf b))
  else if n =? 37 then
    if null (a5 a) && null (a6 a) then buffer a (fun fd b k => let! f := get_int (a4 a) in Do (Recv fd k f None) (Buf b))
    else if negb (null (a5 a) || null (a6 a)) then Away
    else Bad (err EINVAL)
  else if n =? 38 then with_addr m (a2 a) (a3 a) (fun x => let! fd := get_int (a1 a) in Do (Connect fd x) Nowhere)
  else if n =? 39 then let! fd := get_int (a1 a) in let! b := get_int (a2 a) in Do (Listen fd b) Nowhere
  else if n =? 40 then
    if null (a2 a) && null (a3 a) then let! fd := get_int (a1 a) in Do (Accept fd) Nowhere
    else if negb (null (a2 a) || null (a3 a)) then let! fd := get_int (a1 a) in Do (Accept fd) (Addr (a2 a) (a3 a))
    else Bad (err EINVAL)
  else if n =? 45 then let! fd := get_int (a1 a) in let! how := get_int (a2 a) in Do (Shutdown fd how) Nowhere
  else if n =? 136 then let! d := get_int (a1 a) in let! t := get_int (a2 a) in let! p := get_int (a3 a) in socket_of d t p
  else if n =? 144 then
    if null (a2 a) || null (a3 a) then Bad (err EINVAL) else let! fd := get_int (a1 a) in Do (Getsockname fd) (Addr (a2 a) (a3 a))
  else if n =? 145 then
    if null (a2 a) || null (a3 a) then Bad (err EINVAL) else let! fd := get_int (a1 a) in Do (Getpeername fd) (Addr (a2 a) (a3 a))
  else Away.

(** ** Results *)
(** [None]: outside *)
Definition deliver (x : iout) (d : dst) (m : mem) : option mem :=
  match x, d with
  | IData bs, Buf p => Some (store m p bs)
  | IName y, Addr p lp | IAccepted _ y, Addr p lp =>
      match record_of y with Some g => Some (copy_out_sockaddr m p lp g) | None => None end
  (* dispatcher.rs 497: a full table is answered with [fd] *)
  | IRet r, Addr p lp => Some (if 0 <=? r then copy_out_sockaddr m p lp blank else m)
  | _, _ => Some m
  end.
Definition returned (x : iout) : option Z :=
  match x with
  | IRet r => Some r
  | IData bs => Some (Z.of_nat (length bs))
  | IName _ => Some 0
  | IAccepted fd _ => Some fd
  | IReady fds => Some (Z.of_nat (length fds))
  | IWaits => None
  end.
(** dispatcher.rs 518-540 and comm.rs 47-65: the dispatcher passes an IPv4
    record, and the address :: does not go into it *)
Definition stuck (s : ist) (c : Z) (o : iop) : bool :=
  match o with
  | Getsockname fd =>
      match i_fds s !! (c, fd) with
      | Some (ISock i _ _) => match i_h s !! i with Some h => h_v6 h && bool_decide (h_loc h = None) | None => false end
      | _ => false
      end
  | _ => false
  end.
(** read and write go through fs_calls.rs: only sockets here *)
Definition foreign (s : ist) (c n fd : Z) : bool :=
  ((n =? 12) || (n =? 13)) && match i_fds s !! (c, fd) with Some (ISock _ _ _) => false | _ => true end.
Definition fd_of (o : iop) : Z := match o with Recv fd _ _ _ | Send fd _ => fd | _ => 0 end.

(** ** The call *)
Record state := St { s_i : ist; s_m : mem }.
(** the new state, the calls made to the kernel, the answer ([None]: it waits) *)
Inductive reply := Rep (s' : state) (tr : list kcall) (r : option Z) | Crash | Outside.
Definition perform (devs : list addr) (s : state) (c n : Z) (t : todo) (k : kans) : reply :=
  match t with
  | Bad r => Rep s [] (Some r)
  | Away => Outside
  | Do o d =>
      if foreign (s_i s) c n (fd_of o) then Outside
      else if stuck (s_i s) c o then Crash
      else match step devs (s_i s) c o k with
           | IGo i' tr x =>
               match deliver x d (s_m s) with
               | Some m' => Rep (St i' m') tr (returned x)
               | None => Outside
               end
           | IDies | IHang => Crash
           end
  end.
(** dispatcher.rs 210-235 *)
Definition enter (devs : list addr) (s : state) (c n : Z) (a : args) (k : kans) : reply :=
  perform devs s c n (decode (s_m s) n a) k.

(** A process changes a byte of memory or makes a call; or one of the calls of
    InetModel that are not decoded here is made. *)
Inductive act := Poke (p b : Z) | Call (c n : Z) (a : args) (k : kans) | Inner (c : Z) (o : iop) (k : kans).
Definition act_step (devs : list addr) (s : state) (x : act) : reply :=
  match x with
  | Poke p b => Rep (St (s_i s) (store (s_m s) p [b])) [] None
  | Call c n a k => enter devs s c n a k
  | Inner c o k => match step devs (s_i s) c o k with IGo i' tr x => Rep (St i' (s_m s)) tr (returned x) | _ => Crash end
  end.
Fixpoint acts (devs : list addr) (s : state) (l : list act) : option (state * list kcall * list (option Z)) :=
  match l with
  | [] => Some (s, [], [])
  | x :: r =>
      match act_step devs s x with
      | Rep s1 t y => match acts devs s1 r with Some (s2, t2, ys) => Some (s2, t ++ t2, y :: ys) | None => None end
      | _ => None
      end
  end.
