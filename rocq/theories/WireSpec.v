(** Specification vocabulary for the entry point of the socket calls
    (C120-C124): what the words of a call mean, which memory it may change,
    what lies there afterwards. *)
From stdpp Require Import gmap.
From Verif Require Import Base AbiModel AbiSpec EntryModel EntrySpec NetModel NetSpec WireModel.
Local Open Scope list_scope.
Local Open Scope Z_scope.

(** ** Structures *)
(** bit [fd] of the descriptor set at [p] is on *)
Definition on (m : Z -> Z) (p fd : Z) : Prop := 0 <= fd < 1024 /\ Z.testbit (m (p + fd / 8)) (fd mod 8) = true.
(** the word is null, or points to a descriptor set with these members *)
Definition shows (m : Z -> Z) (p : Z) (o : option (gset Z)) : Prop :=
  match o with None => p = 0 | Some s => p <> 0 /\ forall fd, fd ∈ s <-> on m p fd end.
(** numbers of two and four bytes, with sign *)
Definition signed (bits v : Z) : Z := if v <? 2 ^ (bits - 1) then v else v - 2 ^ bits.
Definition short_at (m : Z -> Z) (p : Z) : Z := m p + 256 * m (p + 1).
Definition int_at (m : Z -> Z) (p : Z) : Z := signed 32 (number_at m p).
(** the [i]-th record of the list that poll gets: descriptor, events *)
Definition polled (m : Z -> Z) (p : Z) (i : nat) : Z * Z :=
  (int_at m (p + 8 * Z.of_nat i), signed 16 (short_at m (p + 8 * Z.of_nat i + 4))).

(** ** Addresses of local sockets *)
(** a name in the root directory, followed by zeros; not one of those that the
    library makes up *)
Definition local_path (path : list Z) : Prop :=
  exists name, path = 47 :: name ++ replicate (107 - length name) 0 /\ (0 < length name <= 107)%nat /\ 0 ∉ name /\ 47 ∉ name /\
    unicode (47 :: name) /\ name <> [46] /\ name <> [46; 46] /\ take 4 name <> [115; 111; 99; 107].
(** at [p] lies a local address with this path; the caller says that it has [len] bytes *)
Definition address_at (m : Z -> Z) (p len : Z) (path : list Z) : Prop :=
  p <> 0 /\ 16 <= len <= 110 /\ lies m p ([1; 0] ++ path) /\ length path = 108%nat.
(** the name of the socket in the model *)
Definition called (path : list Z) : upath := User (of_le path).

(** ** What the words ask for *)
(** the calls whose words are understood one by one, from left to right *)
Definition wtable : list (Z * list aty) :=
  [ (11, [AInt]);                         (* close *)
    (12, [AInt; APtr; ASize]);            (* read *)
    (13, [AInt; APtr; ASize]);            (* write *)
    (24, [AInt]);                         (* dup *)
    (25, [AInt; AInt]);                   (* dup2 *)
    (34, [AInt; APtr; ASize; AInt]);      (* send *)
    (36, [AInt; APtr; ASize; AInt]);      (* recv *)
    (39, [AInt; AInt]);                   (* listen *)
    (45, [AInt; AInt]);                   (* shutdown *)
    (49, [AInt; AInt; AInt; APtr]);       (* socketpair *)
    (56, [AInt]);                         (* epoll_create *)
    (57, [AInt; AInt; AInt; APtr]);       (* epoll_ctl *)
    (66, [APtr]);                         (* pipe *)
    (136, [AInt; AInt; AInt]) ].          (* socket *)
Definition wmeaning (m : Z -> Z) (n : Z) (vs : list val) : option nop :=
  match n, vs with
  | 11, [Num fd] => Some (Close fd)
  | 12, [Num fd; Num _; Num k] => Some (Read fd k)
  | 13, [Num fd; Num b; Num k] => Some (Write fd (bytes_at m b k))
  | 24, [Num fd] => Some (Dup fd)
  | 25, [Num x; Num y] => Some (Dup2 x y)
  | 34, [Num fd; Num b; Num k; Num _] => Some (Send fd (bytes_at m b k))
  | 36, [Num fd; Num _; Num k; Num f] => Some (Recv fd k f)
  | 39, [Num fd; Num _] => Some (Listen fd)
  | 45, [Num fd; Num how] => Some (Shutdown fd how)
  | 49, [Num d; Num t; Num p; Num _] => Some (Socketpair d t p)
  | 56, [Num k] => Some (Ecreate k)
  | 57, [Num ep; Num op; Num fd; Num p] => Some (Ectl ep op fd (number_at m p) (int_at m (p + 4)))
  | 66, [Num _] => Some (Pipe false)
  | 136, [Num d; Num t; Num p] => Some (Socket d t p)
  | _, _ => None
  end.
(** the word [w] is the int [v] *)
Definition int_word (w v : Z) : Prop := is_int v /\ w = v mod 2 ^ 32.
(** the time limit: none, or one that may be over *)
Definition limit (unlimited : Prop) (late late' : bool) : Prop := (unlimited /\ late' = false) \/ (~ unlimited /\ late' = late).
(** the timeout of select fits: the code computes 1000 times the low 32 bits of
    the microseconds in 32 bits, and the seconds are not negative *)
Definition clock_ok (m : Z -> Z) (p : Z) : Prop :=
  p = 0 \/ (number_at m (p + 8) * 1000 < 2 ^ 32 /\ word_at m p + number_at m (p + 8) * 1000 / 1000000000 < 2 ^ 64).
Inductive asks (m : Z -> Z) (a : args) (late : bool) : Z -> nop -> Prop :=
| as_plain n ts vs o : (n, ts) ∈ wtable -> well_typed m ts (words a) vs -> wmeaning m n vs = Some o -> asks m a late n o
| as_bind fd path : int_word (a1 a) fd -> address_at m (a2 a) (a3 a) path -> local_path path -> asks m a late 33 (Bind fd (called path))
| as_connect fd path : int_word (a1 a) fd -> address_at m (a2 a) (a3 a) path -> local_path path -> asks m a late 38 (Connect fd (called path))
| as_recvfrom fd f : int_word (a1 a) fd -> a2 a <> 0 -> int_word (a4 a) f -> a5 a = 0 -> a6 a = 0 -> asks m a late 37 (Recv fd (a3 a) f)
| as_accept fd : int_word (a1 a) fd -> (a2 a = 0 <-> a3 a = 0) -> asks m a late 40 (Accept fd)
| as_getopt fd lv o : int_word (a1 a) fd -> int_word (a2 a) lv -> int_word (a3 a) o -> a4 a <> 0 -> a5 a <> 0 -> number_at m (a5 a) = 4 ->
    asks m a late 43 (Getopt fd lv o)
| as_setopt fd lv o v : int_word (a1 a) fd -> int_word (a2 a) lv -> int_word (a3 a) o ->
    (a4 a = 0 /\ v = 0 \/ a4 a <> 0 /\ a5 a = 4 /\ v = int_at m (a4 a)) -> asks m a late 44 (Setopt fd lv o v)
| as_select k r w e late' : int_word (a1 a) k -> 0 <= k -> shows m (a2 a) r -> shows m (a3 a) w -> shows m (a4 a) e -> clock_ok m (a5 a) ->
    limit (a5 a = 0) late late' -> asks m a late 46 (Select k r w e late')
| as_poll l ms late' : a1 a <> 0 -> Z.of_nat (length l) = a2 a -> (forall i x, l !! i = Some x -> x = polled m (a1 a) i) ->
    int_word (a3 a) ms -> limit (ms < 0) late late' -> asks m a late 48 (Poll l late')
| as_ewait ep k ms late' : int_word (a1 a) ep -> a2 a <> 0 -> int_word (a3 a) k -> 0 <= k -> int_word (a4 a) ms -> limit (ms < 0) late late' ->
    asks m a late 58 (Ewait ep k late').
(** getsockname and getpeername: of which descriptor *)
Definition asks_name (a : args) (n fd : Z) : Prop := (n = 144 \/ n = 145) /\ int_word (a1 a) fd /\ a2 a <> 0 /\ a3 a <> 0.
(** the words are refused with this answer *)
Inductive declines (m : Z -> Z) (a : args) : Z -> Z -> Prop :=
| de_plain n ts r : (n, ts) ∈ wtable -> first_bad m ts (words a) r -> declines m a n r
| de_len n : n = 33 \/ n = 38 -> 2 ^ 32 <= a3 a -> declines m a n (-22)
| de_null n : n = 33 \/ n = 38 -> a3 a < 2 ^ 32 -> a2 a = 0 -> declines m a n (-14)
| de_short n f size : n = 33 \/ n = 38 -> a3 a < 2 ^ 32 -> a2 a <> 0 -> (f, size) ∈ [(1, 16); (2, 16); (30, 28)] -> short_at m (a2 a) = f ->
    a3 a < size \/ (f = 1 /\ 110 < a3 a) -> declines m a n (-22)
| de_family n : n = 33 \/ n = 38 -> a3 a < 2 ^ 32 -> a2 a <> 0 -> short_at m (a2 a) ∉ [1; 2; 30] -> declines m a n (-95)
| de_addr_fd n f size : n = 33 \/ n = 38 -> a3 a < 2 ^ 32 -> a2 a <> 0 -> (f, size) ∈ [(1, 16); (2, 16); (30, 28)] -> short_at m (a2 a) = f ->
    size <= a3 a -> (f = 1 -> a3 a <= 110) -> 2 ^ 32 <= a1 a -> declines m a n (-22)
| de_from_one : (a5 a = 0 <-> a6 a <> 0) -> declines m a 37 (-22)
| de_from_bad r : a5 a = 0 -> a6 a = 0 -> first_bad m [AInt; APtr; ASize; AInt] (words a) r -> declines m a 37 r
| de_accept_one : (a2 a = 0 <-> a3 a <> 0) -> declines m a 40 (-22)
| de_accept_fd : (a2 a = 0 <-> a3 a = 0) -> 2 ^ 32 <= a1 a -> declines m a 40 (-22)
| de_getopt_null : a4 a = 0 \/ a5 a = 0 -> declines m a 43 (-14)
| de_getopt_len : a4 a <> 0 -> a5 a <> 0 -> number_at m (a5 a) <> 4 -> declines m a 43 (-22)
| de_getopt_int : a4 a <> 0 -> a5 a <> 0 -> number_at m (a5 a) = 4 -> 2 ^ 32 <= a1 a \/ 2 ^ 32 <= a2 a \/ 2 ^ 32 <= a3 a -> declines m a 43 (-22)
| de_setopt_len : a4 a <> 0 -> a5 a <> 4 -> declines m a 44 (-22)
| de_setopt_int : a4 a = 0 \/ a5 a = 4 -> 2 ^ 32 <= a1 a \/ 2 ^ 32 <= a2 a \/ 2 ^ 32 <= a3 a -> declines m a 44 (-22)
| de_select_int : 2 ^ 32 <= a1 a -> declines m a 46 (-22)
| de_select_neg k : int_word (a1 a) k -> k < 0 -> declines m a 46 (-22)
| de_poll_null : a1 a = 0 -> declines m a 48 (-14)
| de_poll_time : a1 a <> 0 -> 2 ^ 32 <= a3 a -> declines m a 48 (-22)
| de_wait_max : 2 ^ 32 <= a3 a -> declines m a 58 (-22)
| de_wait_neg k : int_word (a3 a) k -> k < 0 -> declines m a 58 (-22)
| de_wait_bad k r : int_word (a3 a) k -> 0 <= k -> first_bad m [AInt; APtr; AInt] [a1 a; a2 a; a4 a] r -> declines m a 58 r
| de_name_null n : n = 144 \/ n = 145 -> a2 a = 0 \/ a3 a = 0 -> declines m a n (-22)
| de_name_fd n : n = 144 \/ n = 145 -> a2 a <> 0 -> a3 a <> 0 -> 2 ^ 32 <= a1 a -> declines m a n (-22).
(** the calls of this model *)
Definition calls : list Z := [11; 12; 13; 24; 25; 33; 34; 36; 37; 38; 39; 40; 43; 44; 45; 46; 48; 49; 56; 57; 58; 66; 136; 144; 145].
(** addresses that the model leaves out: other families, other paths, and
    recvfrom with an address *)
Definition left_out (m : Z -> Z) (a : args) (n : Z) : Prop :=
  (n = 33 \/ n = 38) /\ (forall path, address_at m (a2 a) (a3 a) path -> ~ local_path path) \/
  n = 37 /\ a5 a <> 0 /\ a6 a <> 0.
(** read and write of files and terminals are not modelled here *)
Definition on_file (n : net) (c : Z) (o : nop) : Prop :=
  exists fd, ((exists k, o = Read fd k) \/ (exists bs, o = Write fd bs)) /\ (n_fds n !! (c, fd) = Some DFile \/ n_fds n !! (c, fd) = Some DStream).
(** the number that the caller gets; [None] while it waits *)
Definition answer_of (x : nout) : option Z :=
  match x with
  | Ret r => Some r
  | Data bs => Some (Z.of_nat (length bs))
  | Val _ | Pair _ _ => Some 0
  | Sets k _ _ | Polled k _ | Events k _ => Some k
  | More _ | Waits _ => None
  end.

(** ** Memory *)
(** the addresses at which the call may change the caller's memory *)
Definition may_change (m : Z -> Z) (n : Z) (a : args) (q : Z) : Prop :=
  match n with
  | 12 | 36 | 37 => a2 a <= q < a2 a + a3 a
  | 40 | 144 | 145 => a2 a <> 0 /\ (a2 a <= q < a2 a + Z.min (number_at m (a3 a)) 110 \/ a3 a <= q < a3 a + 4)
  | 43 => a4 a <= q < a4 a + 4
  | 46 => a2 a <> 0 /\ a2 a <= q < a2 a + 128 \/ a3 a <> 0 /\ a3 a <= q < a3 a + 128
  | 48 => exists i, 0 <= i < a2 a /\ a1 a + 8 * i + 6 <= q < a1 a + 8 * i + 8
  | 49 => a4 a <= q < a4 a + 8
  | 58 => exists k, int_word (a3 a) k /\ a2 a <= q < a2 a + 8 * k
  | 66 => a1 a <= q < a1 a + 8
  | _ => False
  end.
(** how many bits of the set are on; none if the word is null *)
Definition on_b (m : Z -> Z) (p fd : Z) : bool := Z.testbit (m (p + fd / 8)) (fd mod 8).
Definition on_count (m : Z -> Z) (p : Z) : Z := if p =? 0 then 0 else Z.of_nat (length (List.filter (on_b m p) (seqZ 0 1024))).
(** two areas do not overlap *)
Definition apart (p n q k : Z) : Prop := p + n <= q \/ q + k <= p.
(** how many of the records of poll have a result *)
Definition hits (m : Z -> Z) (p n : Z) : Z := Z.of_nat (length (List.filter (fun i => negb (short_at m (p + 8 * i + 6) =? 0)) (seqZ 0 n))).

(** ** Names *)
(** [m'] has at [p] the address with this path, as far as the length at [lp]
    allowed, and at [lp] its full length *)
Definition written (m m' : Z -> Z) (p lp : Z) (path : list Z) : Prop :=
  number_at m' lp = 110 /\ (apart lp 4 p 110 -> lies m' p (take (Z.to_nat (Z.min (number_at m lp) 110)) ([1; 0] ++ path))).
(** getsockname (144) or getpeername (145) of the descriptor answers 0 and
    stores the address with this path, and changes nothing else *)
Definition tells (s : state) (c n fd : Z) (path : list Z) : Prop :=
  forall a late, asks_name a n fd -> exists m', enter s c n a late = Rep (St (s_n s) m') (Some 0) /\ written (s_m s) m' (a2 a) (a3 a) path.
(** the call receives from the descriptor into memory, with these flags *)
Definition receives (a : args) (fd f : Z) (o : nop) : Prop := o = Recv fd (a3 a) f \/ (o = Read fd (a3 a) /\ f = 0).
(** the call sends these bytes to the descriptor *)
Definition delivers (fd : Z) (bs : list Z) (o : nop) : Prop := o = Send fd bs \/ o = Write fd bs.
