(** The entry point for the calls of local sockets, pipes and readiness: a call
    is a number and six words, and the memory of the caller.

    Modelled source: /repo/src/safeposix/dispatcher.rs 15-125 (the numbers),
    128-158 (the macros), 295-297, 338-350 and the cases of the socket calls in
    380-745; the converters of /repo/src/interface/types.rs 222-299, 304-311,
    378-415, 501-707, 759-775; /repo/src/safeposix/syscalls/net_calls.rs
    3364-3445 (the sets of select), 4485-4618 (the records of poll), 4902-5051
    (those of epoll_wait), 4237-4390 (getpeername, getsockname), 5199-5200 (the
    pair); comm.rs 82-95 and 189-196.

    Simplifications: memory is a total function from addresses to bytes, one
    for all processes, as in AbiModel; the calling process exists. Local
    addresses are decoded if they are a name in the root directory that does
    not begin with "sock" (as the made-up names do), padded with zeros; all
    others, addresses of the other families, recvfrom with an address, and read and write of descriptors
    that are neither sockets nor pipes nor epoll instances are [Outside] this
    model. [late] says whether the time of the call, if it has one, is over. *)
From stdpp Require Import gmap.
From Verif Require Import Base AbiModel EntryModel NetModel.
Local Open Scope list_scope.
Local Open Scope Z_scope.

(** ** Structures in memory *)

(** types.rs 304-311: libc's fd_set, 1024 bits *)
Definition bit (m : mem) (p fd : Z) : bool := Z.testbit (m (p + fd / 8)) (fd mod 8).
Definition set_at (m : mem) (p : Z) : gset Z := list_to_set (List.filter (bit m p) (seqZ 0 1024)).
Definition opt_set (m : mem) (p : Z) : option (gset Z) := if p =? 0 then None else Some (set_at m p).
Fixpoint octet (s : gset Z) (k : Z) (b : nat) : Z :=
  match b with
  | O => 0
  | S b => octet s k b + (if bool_decide (8 * k + Z.of_nat b ∈ s) then 2 ^ Z.of_nat b else 0)
  end.
Definition set_bytes (s : gset Z) : list Z := map (fun k => octet s k 8) (seqZ 0 128).
Definition put_set (m : mem) (p : Z) (o : option (gset Z)) : mem :=
  match o with Some s => store m p (set_bytes s) | None => m end.

(** types.rs 84-88: PollStruct *)
Definition to_i16 (x : Z) : Z := let u := wrap_u 16 x in if u <? 2 ^ 15 then u else u - 2 ^ 16.
Definition pollfd (m : mem) (p : Z) : Z * Z := (to_i32 (of_le (load m p 4)), to_i16 (of_le (load m (p + 4) 2))).
Definition pollfds (m : mem) (p n : Z) : list (Z * Z) := map (fun k => pollfd m (p + 8 * Z.of_nat k)) (seq 0 (Z.to_nat n)).
Fixpoint put_revents (m : mem) (p : Z) (rs : list Z) : mem :=
  match rs with [] => m | r :: rs => put_revents (store m (p + 6) (le 2 r)) (p + 8) rs end.
(** net_calls.rs 4531-4602: what the first pass has stored when an entry fails;
    the results of the entries after it are still zero *)
Fixpoint poll_stored (n : net) (c : Z) (l : list (Z * Z)) : list Z :=
  match l with
  | [] => []
  | (fd, ev) :: l' =>
      match poll_one n c fd ev with
      | Some (inr r) => r :: poll_stored n c l'
      | _ => map (fun _ => 0) l
      end
  end.
(** types.rs 76-80: EpollEvent *)
Definition event_bytes (e : Z * Z) : list Z := le 4 (fst e) ++ le 4 (snd e).

(** ** Names of sockets *)

(** "/sock" *)
Definition SOCK : list Z := [47; 115; 111; 99; 107].
Fixpoint decimal (fuel : nat) (v : Z) : list Z :=
  match fuel with
  | O => []
  | S f => if v <? 10 then [48 + v] else decimal f (v / 10) ++ [48 + v mod 10]
  end.
(** comm.rs 173-196 *)
Definition pad (bs : list Z) : list Z := bs ++ replicate (108 - length bs) 0.
Definition path_of (u : upath) : list Z :=
  match u with User k => le 108 k | Auto k => pad (SOCK ++ decimal 20 k) end.
(** the paths that are decoded *)
Definition plain_path (p : list Z) : bool :=
  let name := until_nul p in
  bool_decide (p = pad name) && utf8 name
    && (match name with s :: r => (s =? 47) && negb (bool_decide (r = [])) && forallb (fun b => negb (b =? 47)) r
                                   && negb (bool_decide (r = [46])) && negb (bool_decide (r = [46; 46]))
        | [] => false end)
    && negb (bool_decide (take 5 name = SOCK)).

(** ** Arguments *)

(** where the answer goes *)
Inductive dst :=
| Nowhere
| Buf (p : Z)                  (* the bytes of a receive *)
| Value (p : Z)                (* an option *)
| Two (p : Z)                  (* two descriptors *)
| FdSets (r w : Z)
| Polls (p : Z) (l : list (Z * Z))
| Evs (p : Z)
| Addr (p lp : Z).
Inductive todo :=
| Bad (r : Z)
| Fault
| Do (o : nop) (d : dst)
| Name (peer : bool) (fd p lp : Z)
| Away.
Definition arg {A} (e : AbiModel.res A) (k : A -> todo) : todo :=
  match e with Fail r => Bad r | Ok v => k v end.
Notation "'let!' x ':=' e 'in' k" := (arg e (fun x => k)) (at level 200, x name, k at level 200).
(** types.rs 704-718 *)
Definition timeval (m : mem) (p : Z) : outcome (option Z) :=
  duration_fromtimeval (if p =? 0 then None else Some (to_i64 (of_le (load m p 8)), to_i64 (of_le (load m (p + 8) 8)))).
(** a call without a timeout is never late *)
Definition is_late (t : option Z) (late : bool) : bool := match t with None => false | Some _ => late end.
Definition null (w : Z) : bool := w =? 0.
(** dispatcher.rs 388-396, 465-473: the length, then the address, then the descriptor *)
Definition with_addr (m : mem) (a : args) (f : Z -> upath -> nop) : todo :=
  let! len := get_uint (a3 a) in let! g := get_sockaddr m (a2 a) len in let! fd := get_int (a1 a) in
  match g with
  | GUnix _ p => if plain_path p then Do (f fd (User (of_le p))) Nowhere else Away
  | _ => Away
  end.

(** dispatcher.rs 236-935 *)
Definition decode (m : mem) (n : Z) (a : args) (late : bool) : todo :=
  if n =? 11 then let! fd := get_int (a1 a) in Do (Close fd) Nowhere
  else if n =? 12 then let! fd := get_int (a1 a) in let! b := get_ptr (a2 a) in let! k := get_ulong (a3 a) in Do (Read fd k) (Buf b)
  else if n =? 13 then let! fd := get_int (a1 a) in let! b := get_ptr (a2 a) in let! k := get_ulong (a3 a) in Do (Write fd (load m b (Z.to_nat k))) Nowhere
  else if n =? 24 then let! fd := get_int (a1 a) in Do (Dup fd) Nowhere
  else if n =? 25 then let! x := get_int (a1 a) in let! y := get_int (a2 a) in Do (Dup2 x y) Nowhere
  else if n =? 33 then with_addr m a Bind
  else if n =? 34 then let! fd := get_int (a1 a) in let! b := get_ptr (a2 a) in let! k := get_ulong (a3 a) in let! f := get_int (a4 a) in Do (Send fd (load m b (Z.to_nat k))) Nowhere
  else if n =? 36 then let! fd := get_int (a1 a) in let! b := get_ptr (a2 a) in let! k := get_ulong (a3 a) in let! f := get_int (a4 a) in Do (Recv fd k f) (Buf b)
  else if n =? 37 then
    if null (a5 a) && null (a6 a) then
      let! fd := get_int (a1 a) in let! b := get_ptr (a2 a) in let! k := get_ulong (a3 a) in let! f := get_int (a4 a) in Do (Recv fd k f) (Buf b)
    else if negb (null (a5 a) || null (a6 a)) then Away
    else Bad (err EINVAL)
  else if n =? 38 then with_addr m a Connect
  else if n =? 39 then let! fd := get_int (a1 a) in let! b := get_int (a2 a) in Do (Listen fd) Nowhere
  else if n =? 40 then
    if null (a2 a) && null (a3 a) then let! fd := get_int (a1 a) in Do (Accept fd) Nowhere
    else if negb (null (a2 a) || null (a3 a)) then let! fd := get_int (a1 a) in Do (Accept fd) (Addr (a2 a) (a3 a))
    else Bad (err EINVAL)
  else if n =? 43 then
    if null (a4 a) || null (a5 a) then Bad (err EFAULT)
    else if negb (of_le (load m (a5 a) 4) =? 4) then Bad (err EINVAL)
    else let! fd := get_int (a1 a) in let! lv := get_int (a2 a) in let! o := get_int (a3 a) in Do (Getopt fd lv o) (Value (a4 a))
  else if n =? 44 then
    let set (v : Z) := let! fd := get_int (a1 a) in let! lv := get_int (a2 a) in let! o := get_int (a3 a) in Do (Setopt fd lv o v) Nowhere in
    if null (a4 a) then set 0
    else let! len := get_uint (a5 a) in
      if negb (len =? 4) then Bad (err EINVAL) else set (to_i32 (of_le (load m (a4 a) 4)))
  else if n =? 45 then let! fd := get_int (a1 a) in let! how := get_int (a2 a) in Do (Shutdown fd how) Nowhere
  else if n =? 46 then
    let! k := get_int (a1 a) in
    if k <? 0 then Bad (err EINVAL)
    else match timeval m (a5 a) with
         | Panic => Fault
         | Done t => Do (Select k (opt_set m (a2 a)) (opt_set m (a3 a)) (opt_set m (a4 a)) (is_late t late)) (FdSets (a2 a) (a3 a))
         end
  else if n =? 48 then
    let! k := get_ulong (a2 a) in let! p := get_ptr (a1 a) in let! t := get_duration_from_millis (a3 a) in
    let l := pollfds m p k in Do (Poll l (is_late t late)) (Polls p l)
  else if n =? 49 then
    let! d := get_int (a1 a) in let! t := get_int (a2 a) in let! pr := get_int (a3 a) in let! p := get_ptr (a4 a) in Do (Socketpair d t pr) (Two p)
  else if n =? 56 then let! k := get_int (a1 a) in Do (Ecreate k) Nowhere
  else if n =? 57 then
    let! ep := get_int (a1 a) in let! op := get_int (a2 a) in let! fd := get_int (a3 a) in let! p := get_ptr (a4 a) in
    Do (Ectl ep op fd (of_le (load m p 4)) (to_i32 (of_le (load m (p + 4) 4)))) Nowhere
  else if n =? 58 then
    let! k := get_int (a3 a) in
    if k <? 0 then Bad (err EINVAL)
    else let! ep := get_int (a1 a) in let! p := get_ptr (a2 a) in let! t := get_duration_from_millis (a4 a) in Do (Ewait ep k (is_late t late)) (Evs p)
  else if n =? 66 then let! p := get_ptr (a1 a) in Do (Pipe false) (Two p)
  else if n =? 136 then let! d := get_int (a1 a) in let! t := get_int (a2 a) in let! pr := get_int (a3 a) in Do (Socket d t pr) Nowhere
  else if n =? 144 then
    if null (a2 a) || null (a3 a) then Bad (err EINVAL) else let! fd := get_int (a1 a) in Name false fd (a2 a) (a3 a)
  else if n =? 145 then
    if null (a2 a) || null (a3 a) then Bad (err EINVAL) else let! fd := get_int (a1 a) in Name true fd (a2 a) (a3 a)
  else Away.

(** ** Results in memory *)

(** dispatcher.rs 482: the address before the call fills it *)
Definition no_addr : gsock := GV4 0 0 0 0.
Definition addr_of (u : upath) : gsock := GUnix 1 (path_of u).
(** net_calls.rs 2931: a full table is answered with [fd], and no address;
    3124: the address of the client *)
Definition accepted_addr (n : net) (c : Z) (n' : net) (k : Z) : gsock :=
  match next_fd n c 0 with
  | None => no_addr
  | Some _ =>
      match n_fds n' !! (c, k) with
      | Some (DSock h _) => match n_sock n' !! h with Some s => match s_rem s with Some u => addr_of u | None => no_addr end | None => no_addr end
      | _ => no_addr
      end
  end.
Definition deliver (n : net) (c : Z) (n' : net) (x : nout) (d : dst) (m : mem) : mem :=
  match x, d with
  | Ret r, Addr p lp => if 0 <=? r then copy_out_sockaddr m p lp (accepted_addr n c n' r) else m
  | Ret _, Polls p l => put_revents m p (poll_stored n c l)
  | Ret _, Two p =>
      (* fs_calls.rs 5339-5379: a pipe call that finds one free descriptor *)
      match next_fd n c 0 with
      | Some k => match n_fds n' !! (c, k) with Some _ => store m p (le 4 k) | None => m end
      | None => m
      end
  | Data bs, Buf p => store m p bs
  | Val v, Value p => store m p (le 4 v)
  | Pair a b, Two p => store m p (le 4 a ++ le 4 b)
  | Sets _ rs ws, FdSets r w => put_set (put_set m r rs) w ws
  | Polled _ rs, Polls p _ => put_revents m p rs
  | Events _ evs, Evs p => store m p (concat (map event_bytes evs))
  | _, _ => m
  end.
(** the value that the call returns; [None] if it has not returned *)
Definition returned (x : nout) : option Z :=
  match x with
  | Ret r => Some r
  | Data bs => Some (Z.of_nat (length bs))
  | Val _ | Pair _ _ => Some 0
  | Sets k _ _ | Polled k _ | Events k _ => Some k
  | More _ | Waits _ => None
  end.
(** net_calls.rs 4520-4523: poll clears the results before it waits *)
Definition waiting (d : dst) (m : mem) : mem :=
  match d with Polls p l => put_revents m p (map (fun _ => 0) l) | _ => m end.
(** net_calls.rs 4237-4281 and 4308-4390 *)
Definition name_call (n : net) (c : Z) (peer : bool) (fd : Z) : AbiModel.res gsock :=
  if negb (in_range fd) then Fail (err EBADF) else
  match n_fds n !! (c, fd) with
  | None => Fail (err EBADF)
  | Some (DSock h _) =>
      match n_sock n !! h with
      | None => Fail (err EBADF)
      | Some s =>
          if peer then match s_rem s with None => Fail (err ENOTCONN) | Some u => Ok (addr_of u) end
          else match s_loc s with None => Ok (GUnix 1 (pad [])) | Some u => Ok (addr_of u) end
      end
  | Some _ => Fail (err ENOTSOCK)
  end.

(** ** The call *)

Record state := St { s_n : net; s_m : mem }.
(** [Rep s' None]: the call waits, or goes on waiting *)
Inductive reply := Rep (s' : state) (r : option Z) | Crash | Outside.
(** files and streams are not in NetModel *)
Definition foreign (n : net) (c : Z) (o : nop) : bool :=
  match o with
  | Read fd _ | Write fd _ => match n_fds n !! (c, fd) with Some DFile | Some DStream => true | _ => false end
  | _ => false
  end.
Definition perform (s : state) (c : Z) (t : todo) : reply :=
  match t with
  | Bad r => Rep s (Some r)
  | Fault => Crash
  | Away => Outside
  | Name peer fd p lp =>
      match name_call (s_n s) c peer fd with
      | Fail r => Rep s (Some r)
      | Ok g => Rep (St (s_n s) (copy_out_sockaddr (s_m s) p lp g)) (Some 0)
      end
  | Do o d =>
      if foreign (s_n s) c o then Outside else
      match step (s_n s) c o with
      | Go n' x => Rep (St n' (deliver (s_n s) c n' x d (s_m s))) (returned x)
      | Block => Rep (St (s_n s) (waiting d (s_m s))) None
      | Dies => Crash
      end
  end.
(** dispatcher.rs 210-235 *)
Definition enter (s : state) (c n : Z) (a : args) (late : bool) : reply :=
  perform s c (decode (s_m s) n a late).

(** What happens: a process changes a byte of memory, or makes a call; or
    something else goes on in the library (a call that waited goes on, a
    process is forked, a file is opened). *)
Inductive act :=
| Poke (p b : Z)
| Call (c n : Z) (a : args) (late : bool)
| Inner (c : Z) (o : nop).
Definition act_step (s : state) (x : act) : reply :=
  match x with
  | Poke p b => Rep (St (s_n s) (store (s_m s) p [b])) None
  | Call c n a late => enter s c n a late
  | Inner c o => match step (s_n s) c o with Go n' _ => Rep (St n' (s_m s)) None | Block => Rep s None | Dies => Crash end
  end.
Fixpoint acts (s : state) (l : list act) : option (state * list (option Z)) :=
  match l with
  | [] => Some (s, [])
  | x :: r =>
      match act_step s x with
      | Rep s1 y => match acts s1 r with None => None | Some (s2, ys) => Some (s2, y :: ys) end
      | _ => None
      end
  end.
