(** Reservation of local ports.

    Modelled source: /repo/src/safeposix/net.rs 18-21, 80-108 and 221-523.

    Simplifications: every call is atomic (in the code each look at the table
    holds the lock of its entry, and the search for an ephemeral port holds the
    lock of its counter); the protocol is TCP or UDP and the domain IPv4 or
    IPv6, anything else makes the code abort in [mux_port] (106) or is refused;
    numbers of users do not overflow. *)
From Verif Require Import Base.
Local Open Scope list_scope.
Local Open Scope Z_scope.

(** Addresses; [Any4] is 0.0.0.0 and [Any6] is :: *)
Inductive addr := Any4 | Any6 | Host (n : Z).
Global Instance addr_eq_dec : EqDecision addr.
Proof. solve_decision. Defined.
Definition unspecified (a : addr) : bool := match a with Host _ => false | _ => true end.

(** net.rs 58-72: the addresses of the devices, and 0.0.0.0 *)
Definition iplist (devs : list addr) : list addr := devs ++ [Any4].

(** net.rs 74-80: IPv6?, TCP? *)
Definition ptype : Type := bool * bool.

(** net.rs 18-19 *)
Definition EPH_START : Z := 32768.
Definition EPH_END : Z := 60999.

(** [u16::to_be] on the little-endian machines the code runs on *)
Definition swap16 (p : Z) : Z := (p mod 256) * 256 + p / 256.

Notation table := (gmap (Z * ptype) (list (addr * Z))).
(** net.rs 205-218: the used ports and the four ephemeral counters *)
Record ports := Ports { p_used : table; p_next : ptype -> Z }.
(** net.rs 23-45 *)
Definition new_ports : ports := Ports ∅ (fun _ => EPH_END).

Definition EADDRNOTAVAIL : Z := 99.

Definition users (reuse : bool) : Z := if reuse then 1 else 0.

(** net.rs 222-261 *)
Definition initialize_port (devs : list addr) (u : table) (a : addr) (port : Z) (pt : ptype) (reb : Z) : option table :=
  if unspecified a then
    match u !! (port, pt) with
    | Some _ => None
    | None => Some (<[(port, pt) := map (fun x => (x, reb)) (iplist devs)]> u)
    end
  else
    match u !! (port, pt) with
    | Some l => if existsb (fun x => bool_decide (x.1 = a)) l then None else Some (<[(port, pt) := l ++ [(a, reb)]]> u)
    | None => Some (<[(port, pt) := [(a, reb)]]> u)
    end.

(** net.rs 291-306 and 341-357: the first port of a list that can be taken *)
Fixpoint scan (devs : list addr) (u : table) (a : addr) (pt : ptype) (reb : Z) (l : list Z) : option (Z * table) :=
  match l with
  | [] => None
  | q :: r =>
      match initialize_port devs u a (swap16 q) pt reb with
      | Some u' => Some (swap16 q, u')
      | None => scan devs u a pt reb r
      end
  end.
(** net.rs 287-291: two ranges, each downwards *)
Fixpoint down (n : nat) (hi : Z) : list Z := match n with O => [] | S n => hi :: down n (hi - 1) end.
Definition candidates (next : Z) : list Z :=
  down (Z.to_nat (next - EPH_START + 1)) next ++ down (Z.to_nat (EPH_END - next)) EPH_END.
(** net.rs 299-303 *)
Definition next_down (n : Z) : Z := if n - 1 <? EPH_START then EPH_END else n - 1.
Definition upd {A} (f : ptype -> A) (k : ptype) (v : A) : ptype -> A := fun q => if bool_decide (q = k) then v else f q.

(** net.rs 263-311 and 313-363 *)
Definition get_available (devs : list addr) (s : ports) (a : addr) (pt : ptype) (reuse : bool) : ports * Z :=
  if negb (bool_decide (a ∈ iplist devs)) then (s, err EADDRNOTAVAIL) else
  match scan devs (p_used s) a pt (users reuse) (candidates (p_next s pt)) with
  | Some (port, u) => (Ports u (upd (p_next s) pt (next_down (p_next s pt))), port)
  | None => (s, err EADDRINUSE)
  end.

(** net.rs 418-434: the loop over the users of a port; [None] is EADDRINUSE *)
Fixpoint add_user (a : addr) (l : list (addr * Z)) : option (list (addr * Z)) :=
  match l with
  | [] => Some []
  | (b, n) :: r =>
      if bool_decide (b = a) then (if n =? 0 then None else Some ((b, n + 1) :: r))
      else match add_user a r with Some r' => Some ((b, n) :: r') | None => None end
  end.

(** net.rs 365-444 *)
Definition reserve (devs : list addr) (s : ports) (a : addr) (port : Z) (pt : ptype) (reuse : bool) : ports * Z :=
  if negb (bool_decide (a ∈ iplist devs)) then (s, err EADDRNOTAVAIL) else
  if port =? 0 then get_available devs s a pt reuse else
  let put l := (Ports (<[(port, pt) := l]> (p_used s)) (p_next s), port) in
  if unspecified a then
    match p_used s !! (port, pt) with
    | Some _ => (s, err EADDRINUSE)
    | None => put (map (fun x => (x, users reuse)) (iplist devs))
    end
  else
    match p_used s !! (port, pt) with
    | Some l => match add_user a l with Some l' => put l' | None => (s, err EADDRINUSE) end
    | None => put [(a, users reuse)]
    end.

(** [Vec::swap_remove] *)
Definition swap_remove {A} (i : nat) (l : list A) : list A :=
  match last l with Some z => take (length l - 1) (<[i := z]> l) | None => l end.

(** net.rs 485-492: the index is never advanced *)
Fixpoint release_any (clone arr : list (addr * Z)) : outcome (list (addr * Z)) :=
  match clone with
  | [] => Done arr
  | (_, n) :: r =>
      match arr with
      | [] => Panic
      | (b, m) :: rest => release_any r (if n <=? 1 then swap_remove 0 arr else (b, m - 1) :: rest)
      end
  end.
(** net.rs 498-514: [None] is the [unreachable!] *)
Fixpoint release_one (a : addr) (i : nat) (clone arr : list (addr * Z)) : option (list (addr * Z)) :=
  match clone with
  | [] => None
  | (b, n) :: r =>
      if bool_decide (b = a) then
        Some (if n <=? 1 then swap_remove i arr else alter (fun x => (x.1, x.2 - 1)) i arr)
      else release_one a (S i) r arr
  end.

(** net.rs 446-523 *)
Definition release (devs : list addr) (s : ports) (a : addr) (port : Z) (pt : ptype) : outcome (ports * Z) :=
  if negb (bool_decide (a ∈ iplist devs)) then Done (s, err EADDRNOTAVAIL) else
  let put (l : list (addr * Z)) :=
    Done (Ports (match l with [] => delete (port, pt) (p_used s) | _ => <[(port, pt) := l]> (p_used s) end) (p_next s), 0) in
  match p_used s !! (port, pt) with
  | None => Done (s, err EINVAL)
  | Some l =>
      if unspecified a then obind (release_any l l) put
      else match release_one a 0 l l with Some l' => put l' | None => Panic end
  end.
