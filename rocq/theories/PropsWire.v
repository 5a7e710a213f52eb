(** C120-C124: the calls of local sockets, pipes and readiness as the
    dispatcher receives them, a number and six words. *)
From stdpp Require Import gmap.
From Coq Require Import Ascii.
From Verif Require Import Base AbiModel AbiSpec EntryModel EntrySpec NetModel NetSpec NetInv WireModel WireSpec.
From Verif Require Import WireProofs WireProofs2 WireProofs3 WireProofs4 WireProofs5 WireProofs6.
Local Open Scope list_scope.
Local Open Scope Z_scope.

(** Programs for the examples: memory all of the same byte, at the first start *)
Definition start (b : Z) : state := St init_net (fun _ => b).
Fixpoint pokes (p : Z) (bs : list Z) : list act := match bs with [] => [] | b :: r => Poke p b :: pokes (p + 1) r end.
Definition words_of (l : list Z) : args := Args (nth 0 l 0) (nth 1 l 0) (nth 2 l 0) (nth 3 l 0) (nth 4 l 0) (nth 5 l 0).
Definition call (n : Z) (l : list Z) : act := Call 1 n (words_of l) false.
(** the last answers, and a piece of memory *)
Definition gives (b : Z) (l : list act) (ys : list (option Z)) (p n : Z) (bs : list Z) : bool :=
  match acts (start b) l with
  | Some (s, zs) => bool_decide (drop (length zs - length ys) zs = ys) && bool_decide (bytes_at (s_m s) p n = bs)
  | None => false
  end.
(** the address of "/srv" *)
Definition srv : list Z := [1; 0; 47; 115; 114; 118].

(** ** C120 *)

(** Words that ask for an operation: it aborts, waits or happens as the call of
    NetModel with these arguments does, and the answer is that number. *)
Theorem C120_understood : forall s c n a late o,
  bytes_only (s_m s) -> Forall is_word (words a) -> asks (s_m s) a late n o -> ~ on_file (s_n s) c o ->
  match step (s_n s) c o with
  | Go n' x => exists m', enter s c n a late = Rep (St n' m') (answer_of x)
  | Block => exists m', enter s c n a late = Rep (St (s_n s) m') None
  | Dies => enter s c n a late = Crash
  end.
Proof. exact understood. Qed.
Print Assumptions C120_understood.

(** Words that are refused: the answer is the error, and nothing happens. *)
Theorem C120_refused : forall s c n a late r,
  bytes_only (s_m s) -> Forall is_word (words a) -> declines (s_m s) a n r -> enter s c n a late = Rep s (Some r).
Proof. exact declined. Qed.
Print Assumptions C120_refused.

(** One meaning: no two operations, no two errors, no operation and an error *)
Theorem C120_unique : forall m a late n, bytes_only m -> Forall is_word (words a) ->
  (forall o o', asks m a late n o -> asks m a late n o' -> o = o') /\
  (forall o r, asks m a late n o -> ~ declines m a n r) /\
  (forall r r', declines m a n r -> declines m a n r' -> r = r').
Proof.
  intros m a late n B W. split; [|split].
  - intros o o'. exact (asks_unique m a late n o o' B W).
  - intros o r. exact (asks_not_declined m a late n o r B W).
  - intros r r'. exact (declines_unique m a n r r' B W).
Qed.
Print Assumptions C120_unique.

(** There is no other case, except the timeouts that abort and the addresses
    that the model leaves out. *)
Theorem C120_cases : forall m a late n, bytes_only m -> Forall is_word (words a) -> n ∈ calls ->
  (exists o, asks m a late n o) \/ (exists fd, asks_name a n fd) \/ (exists r, declines m a n r) \/
  (n = 46 /\ ~ clock_ok m (a5 a)) \/ (left_out m a n /\ forall r, ~ declines m a n r).
Proof. exact all_cases. Qed.
Print Assumptions C120_cases.

(** select with a timeout that does not fit brings the library down. *)
Theorem C120_timeout_aborts : forall s c a late k,
  bytes_only (s_m s) -> Forall is_word (words a) -> int_word (a1 a) k -> 0 <= k -> ~ clock_ok (s_m s) (a5 a) -> enter s c 46 a late = Crash.
Proof. exact clock_crash. Qed.
Print Assumptions C120_timeout_aborts.

(** Two paths are two names. *)
Theorem C120_paths : forall path path', length path = 108%nat -> length path' = 108%nat -> Forall is_byte path -> Forall is_byte path' ->
  called path = called path' -> path = path'.
Proof. exact called_inj. Qed.
Print Assumptions C120_paths.

(** epoll_ctl that removes a descriptor needs no event, but a null event is
    refused; with any other pointer it works. *)
Theorem C120_del_refuted :
  gives 0 [call 56 [1]; call 49 [1; 1; 0; 100]; call 57 [3; 1; 4; 200]; call 57 [3; 2; 4; 0]; call 57 [3; 2; 4; 200]]
    [Some 3; Some 0; Some 0; Some (-14); Some 0] 0 0 [] = true.
Proof. vm_compute. reflexivity. Qed.
Print Assumptions C120_del_refuted.

Example C120_nonvacuous :
  asks (fun _ => 0) (words_of [1; 1; 0]) false 136 (Socket 1 1 0) /\
  asks (fun _ => 0) (words_of [2 ^ 32 - 1]) false 11 (Close (-1)) /\
  declines (fun _ => 0) (words_of [3; 0; 5]) 12 (-14) /\
  declines (fun _ => 0) (words_of [3; 0; 110]) 33 (-14) /\
  gives 0 (pokes 1000 srv ++ [call 136 [1; 1; 0]; call 33 [3; 1000; 110]; call 39 [3; 5]; call 33 [3; 0; 110]; call 12 [3; 0; 5]; call 33 [3; 1000; 111]])
    [Some 3; Some 0; Some 0; Some (-14); Some (-14); Some (-22)] 1000 7 [1; 0; 47; 115; 114; 118; 0] = true /\
  enter (start 255) 1 46 (words_of [5; 0; 0; 0; 300]) false = Crash.
Proof.
  split; [|split; [|split; [|split; [|split]]]].
  - apply (as_plain _ _ _ 136 [AInt; AInt; AInt] [Num 1; Num 1; Num 0]); [unfold wtable; set_solver| |reflexivity].
    constructor; [exact (st_int _ 1 ltac:(unfold is_int; lia))|]. constructor; [exact (st_int _ 1 ltac:(unfold is_int; lia))|]. constructor; [exact (st_int _ 0 ltac:(unfold is_int; lia))|constructor].
  - apply (as_plain _ _ _ 11 [AInt] [Num (-1)]); [unfold wtable; set_solver| |reflexivity].
    constructor; [exact (st_int _ (-1) ltac:(unfold is_int; lia))|constructor].
  - apply (de_plain _ _ 12 [AInt; APtr; ASize]); [unfold wtable; set_solver|]. exists 1%nat, [Num 3], APtr, 0. split; [constructor; [exact (st_int _ 3 ltac:(unfold is_int; lia))|constructor]|].
    split; [reflexivity|]. split; [reflexivity|]. constructor.
  - apply de_null; [auto|cbn; lia|reflexivity].
  - vm_compute. reflexivity.
  - vm_compute. reflexivity.
Qed.

(** ** C121 *)

(** A call changes memory only in the buffer of its result. *)
Theorem C121_frame : forall s c n a late s' r, Forall is_word (words a) -> enter s c n a late = Rep s' r ->
  forall q, ~ may_change (s_m s) n a q -> s_m s' q = s_m s q.
Proof. exact frame. Qed.
Print Assumptions C121_frame.

(** A call that fails changes no memory: all calls but poll and pipe. *)
Theorem C121_failed_partial : forall s c n a late s' r, Forall is_word (words a) -> enter s c n a late = Rep s' (Some r) -> r < 0 ->
  n <> 48 -> n <> 66 -> s_m s' = s_m s.
Proof. exact failed. Qed.
Print Assumptions C121_failed_partial.

(** A call that waits has changed no memory: all calls but poll. *)
Theorem C121_waits_partial : forall s c n a late s', enter s c n a late = Rep s' None -> n <> 48 -> s_m s' = s_m s.
Proof. exact waits. Qed.
Print Assumptions C121_waits_partial.

(** Poll with one good record and one of a descriptor that it refuses answers
    EINVAL, and has stored the result of the first. While it waits it has
    cleared the results. *)
Theorem C121_poll_refuted :
  gives 0 (call 66 [100] :: pokes 200 [4; 0; 0; 0; 4; 0] ++ pokes 208 [255; 3; 0; 0; 1; 0] ++ [call 48 [200; 2; 0]]) [Some (-22)]
    200 16 [4; 0; 0; 0; 4; 0; 4; 0; 255; 3; 0; 0; 1; 0; 0; 0] = true /\
  gives 7 (call 66 [100] :: pokes 200 [3; 0; 0; 0; 1; 0] ++ [call 48 [200; 1; 1000]]) [None] 200 8 [3; 0; 0; 0; 1; 0; 0; 0] = true.
Proof. split; vm_compute; reflexivity. Qed.
Print Assumptions C121_poll_refuted.

(** Pipe with one free descriptor answers ENFILE, but has stored the number of
    the descriptor, and keeps it: the next socket does not get it until it is
    closed. *)
Definition many (n : nat) : list act := replicate n (call 136 [1; 1; 0]).
Theorem C121_pipe_refuted :
  gives 7 (many 1020 ++ [call 66 [100]; call 136 [1; 1; 0]; call 11 [1023]; call 136 [1; 1; 0]]) [Some 1022; Some (-23); Some (-23); Some 0; Some 1023]
    100 8 [255; 3; 0; 0; 7; 7; 7; 7] = true.
Proof. vm_compute. reflexivity. Qed.
Print Assumptions C121_pipe_refuted.

(** Socketpair with no free descriptor answers 0, and stores the number of an
    error twice. *)
Theorem C121_pair_refuted :
  gives 7 (many 1021 ++ [call 49 [1; 1; 0; 100]; call 136 [1; 1; 0]]) [Some 1023; Some 0; Some (-23)] 100 8 [233; 255; 255; 255; 233; 255; 255; 255] = true.
Proof. vm_compute. reflexivity. Qed.
Print Assumptions C121_pair_refuted.

Example C121_nonvacuous :
  gives 7 [call 66 [100]; call 12 [9; 200; 5]; call 43 [0; 1; 3; 300; 400]; Call 1 12 (words_of [3; 200; 5]) false] [Some 0; Some (-9); Some (-22); None] 98 12
    [7; 7; 3; 0; 0; 0; 4; 0; 0; 0; 7; 7] = true.
Proof. vm_compute. reflexivity. Qed.

(** ** C122 *)

(** select: what lies in the sets afterwards *)
Theorem C122_select_partial : forall s c a late s' k, Forall is_word (words a) -> enter s c 46 a late = Rep s' (Some k) -> 0 <= k ->
  (a2 a = 0 \/ a3 a = 0 \/ apart (a2 a) 128 (a3 a) 128) ->
  exists nfds, int_word (a1 a) nfds /\ s_n s' = s_n s /\ k = on_count (s_m s') (a2 a) + on_count (s_m s') (a3 a) /\
  (a2 a <> 0 -> forall fd, on (s_m s') (a2 a) fd -> on (s_m s) (a2 a) fd /\ fd < nfds) /\
  (a3 a <> 0 -> forall fd, on (s_m s') (a3 a) fd -> on (s_m s) (a3 a) fd /\ fd < nfds) /\
  (a2 a <> 0 -> forall fd, fd < nfds -> on (s_m s) (a2 a) fd -> plain_reader (s_n s) c fd ->
     (on (s_m s') (a2 a) fd <-> read_now (s_n s) c fd) /\ (~ on (s_m s') (a2 a) fd <-> read_waits (s_n s) c fd)) /\
  (a2 a <> 0 -> forall fd, fd < nfds -> on (s_m s) (a2 a) fd -> nb_listener (s_n s) c fd -> space (s_n s) c 1 ->
     (~ on (s_m s') (a2 a) fd <-> step (s_n s) c (Accept fd) = Go (s_n s) (Ret (-11)))) /\
  (a3 a <> 0 -> forall fd bs, on (s_m s') (a3 a) fd -> pipe_writer (s_n s) c fd ->
     step (s_n s) c (Write fd bs) <> Block /\ step (s_n s) c (Write fd bs) <> Go (s_n s) (Ret (-11))).
Proof. exact select_memory. Qed.
Print Assumptions C122_select_partial.

(** poll: what lies in the records afterwards *)
Theorem C122_poll_partial : forall s c a late s' k, bytes_only (s_m s) -> Forall is_word (words a) -> enter s c 48 a late = Rep s' (Some k) -> 0 <= k ->
  s_n s' = s_n s /\ k = hits (s_m s') (a1 a) (a2 a) /\
  forall i fd ev r, 0 <= Z.of_nat i < a2 a -> polled (s_m s) (a1 a) i = (fd, ev) -> r = short_at (s_m s') (a1 a + 8 * Z.of_nat i + 6) ->
  (hasbit r 1 = true -> reqd ev 1 /\ (plain_reader (s_n s) c fd -> read_now (s_n s) c fd)) /\
  (reqd ev 1 -> plain_reader (s_n s) c fd -> 0 <= fd -> hasbit r 1 = false -> read_waits (s_n s) c fd) /\
  (hasbit r 4 = true -> reqd ev 4 /\ (pipe_writer (s_n s) c fd -> forall bs,
     step (s_n s) c (Write fd bs) <> Block /\ step (s_n s) c (Write fd bs) <> Go (s_n s) (Ret (-11)))) /\
  (hasbit r 2 = true -> reqd ev 2) /\
  (hasbit r 32 = true -> ~ is_open (s_n s) c fd) /\
  Z.land r (Z.lnot 39) = 0.
Proof. exact poll_memory. Qed.
Print Assumptions C122_poll_partial.

(** epoll_wait: what lies in the list of events afterwards *)
Theorem C122_epoll_partial : forall s c a late s' k, Forall is_word (words a) -> enter s c 58 a late = Rep s' (Some k) -> 0 <= k ->
  exists ep max, int_word (a1 a) ep /\ int_word (a3 a) max /\ k <= max /\
  forall i, 0 <= i < k -> exists fd ev d, watched (s_n s) c ep fd = Some (ev, d) /\ is_open (s_n s) c fd /\
    number_at (s_m s') (a2 a + 8 * i + 4) = d mod 2 ^ 32 /\
    let e := number_at (s_m s') (a2 a + 8 * i) in e <> 0 /\
    (hasbit e 1 = true -> reqd ev 1 /\ (0 <= fd < 1024 -> plain_reader (s_n s) c fd -> read_now (s_n s) c fd)) /\
    (hasbit e 4 = true -> reqd ev 4 /\ (0 <= fd < 1024 -> pipe_writer (s_n s) c fd -> forall bs,
       step (s_n s) c (Write fd bs) <> Block /\ step (s_n s) c (Write fd bs) <> Go (s_n s) (Ret (-11)))) /\
    (hasbit e 2 = true -> reqd ev 2).
Proof. exact epoll_memory. Qed.
Print Assumptions C122_epoll_partial.

(** The set of exceptional conditions stays as the caller gave it: select
    answers 0 for a set with a pipe in it, and the bit of the pipe is on. *)
Theorem C122_except_refuted :
  gives 0 (call 66 [100] :: pokes 200 [8] ++ [Call 1 46 (words_of [5; 0; 0; 200; 300]) true]) [Some 0] 200 4 [8; 0; 0; 0] = true.
Proof. vm_compute. reflexivity. Qed.
Print Assumptions C122_except_refuted.

(** A pipe with three bytes in it (its ends are 3 and 4): both ends in the two
    sets, in two records, and watched. *)
Definition full_pipe : list act := call 66 [100] :: pokes 600 [1; 2; 3] ++ [call 13 [4; 600; 3]].
Example C122_nonvacuous :
  gives 0 (full_pipe ++ pokes 200 [8] ++ pokes 400 [16] ++ [call 46 [5; 200; 400; 0; 300]]) [Some 2] 200 4 [8; 0; 0; 0] = true /\
  gives 0 (full_pipe ++ [call 66 [110]] ++ pokes 200 [40] ++ [call 46 [6; 200; 0; 0; 300]]) [Some 1] 200 4 [8; 0; 0; 0] = true /\
  gives 0 (full_pipe ++ pokes 200 [3; 0; 0; 0; 1; 0; 9; 9; 4; 0; 0; 0; 4; 0] ++ [call 48 [200; 2; 0]]) [Some 2] 200 16 [3; 0; 0; 0; 1; 0; 1; 0; 4; 0; 0; 0; 4; 0; 4; 0] = true /\
  gives 0 (full_pipe ++ [call 56 [1]] ++ pokes 200 [1; 0; 0; 0; 42; 0; 0; 0] ++ [call 57 [5; 1; 3; 200]; call 58 [5; 300; 4; 0]]) [Some 0; Some 1] 300 12 [1; 0; 0; 0; 42; 0; 0; 0; 0; 0; 0; 0] = true.
Proof. split; [|split; [|split]]; vm_compute; reflexivity. Qed.

(** ** C123 *)

(** What a process can do, with calls and memory, leads from reachable states
    to reachable states. *)
Theorem C123_reached : forall s l s' ys, reachable (s_n s) -> acts s l = Some (s', ys) -> reachable (s_n s').
Proof. exact reached. Qed.
Print Assumptions C123_reached.

(** recv, recvfrom and read of a socket: the answer is the smaller one of the
    size of the buffer and the number of bytes that have arrived; the first of
    these lie in the buffer; they are taken out, unless the call only looks. *)
Theorem C123_received : forall s c n a late o fd f h p s' k,
  reachable (s_n s) -> bytes_only (s_m s) -> Forall is_word (words a) ->
  asks (s_m s) a late n o -> receives a fd f o -> opens (s_n s) c fd h = true -> from (s_n s) h = Some p ->
  enter s c n a late = Rep s' (Some k) -> 0 <= k ->
  k = Z.min (a3 a) (Z.of_nat (length (unread (s_n s) h p))) /\
  bytes_at (s_m s') (a2 a) k = take (Z.to_nat k) (unread (s_n s) h p) /\
  unread (s_n s') h p = (if hasbit f 2 then unread (s_n s) h p else drop (Z.to_nat k) (unread (s_n s) h p)).
Proof. exact received. Qed.
Print Assumptions C123_received.

(** send and write on a socket: as many bytes of the buffer as the answer says
    arrive at the other end, after those that were there. *)
Theorem C123_sent : forall s c n a late o fd bs h p s' k,
  reachable (s_n s) -> bytes_only (s_m s) -> Forall is_word (words a) ->
  asks (s_m s) a late n o -> delivers fd bs o -> sends (s_n s) c fd p = true -> from (s_n s) h = Some p ->
  enter s c n a late = Rep s' (Some k) -> 0 <= k ->
  k <= a3 a /\ unread (s_n s') h p = unread (s_n s) h p ++ bytes_at (s_m s) (a2 a) k.
Proof. exact sent. Qed.
Print Assumptions C123_sent.

(** From memory to memory: what one process sends, the next receive at the
    other end stores, byte for byte. *)
Theorem C123_transferred : forall s c n a late o fd bs h p s1 k m c' n' a' late' o' fd' f s2 j,
  reachable (s_n s) -> bytes_only (s_m s) -> Forall is_word (words a) ->
  asks (s_m s) a late n o -> delivers fd bs o -> sends (s_n s) c fd p = true -> from (s_n s) h = Some p -> unread (s_n s) h p = [] ->
  enter s c n a late = Rep s1 (Some k) -> 0 <= k ->
  bytes_only m -> Forall is_word (words a') -> asks m a' late' n' o' -> receives a' fd' f o' -> opens (s_n s1) c' fd' h = true -> from (s_n s1) h = Some p ->
  enter (St (s_n s1) m) c' n' a' late' = Rep s2 (Some j) -> 0 <= j ->
  j = Z.min (a3 a') k /\ bytes_at (s_m s2) (a2 a') j = bytes_at (s_m s) (a2 a) j.
Proof. exact transferred. Qed.
Print Assumptions C123_transferred.

(** A pair of sockets 3 and 4: three bytes from 3 to 4, looked at, then taken
    in two pieces *)
Definition both : list act := [call 49 [1; 1; 0; 100]].
Definition ends (s : state) (c fd fd' : Z) : bool :=
  match n_fds (s_n s) !! (c, fd), n_fds (s_n s) !! (c, fd') with
  | Some (DSock h _), Some (DSock h' _) =>
      match from (s_n s) h' with Some p => sends (s_n s) c fd p && opens (s_n s) c fd' h' && bool_decide (unread (s_n s) h' p = []) | None => false end
  | _, _ => false
  end.
Example C123_nonvacuous :
  match acts (start 0) both with Some (s, ys) => ends s 1 3 4 && ends s 1 4 3 | None => false end = true /\
  gives 0 (both ++ pokes 200 [104; 105; 33] ++ [call 13 [3; 200; 3]; call 36 [4; 300; 10; 2]; call 12 [4; 310; 2]; call 37 [4; 320; 9; 0; 0; 0]])
    [Some 3; Some 3; Some 2; Some 1] 300 21 [104; 105; 33; 0; 0; 0; 0; 0; 0; 0; 104; 105; 0; 0; 0; 0; 0; 0; 0; 0; 33] = true.
Proof. split; vm_compute; reflexivity. Qed.

(** ** C124 *)

(** bind that answered 0, and whatever happens then: getsockname of every
    descriptor of this socket, in any process, tells the address of the bind. *)
Theorem C124_bound : forall s c a late fd path h s1 l s2 ys c' fd',
  reachable (s_n s) -> bytes_only (s_m s) -> Forall is_word (words a) ->
  int_word (a1 a) fd -> address_at (s_m s) (a2 a) (a3 a) path -> local_path path -> opens (s_n s) c fd h = true ->
  enter s c 33 a late = Rep s1 (Some 0) -> acts s1 l = Some (s2, ys) -> opens (s_n s2) c' fd' h = true -> tells s2 c' 144 fd' path.
Proof. exact bind_tells. Qed.
Print Assumptions C124_bound.

(** A socket that is not bound: a path of zeros *)
Theorem C124_unbound : forall s c fd h, reachable (s_n s) -> opens (s_n s) c fd h = true -> (forall u, ~ bound_to (s_n s) h u) ->
  tells s c 144 fd (replicate 108 0).
Proof. exact unbound_name. Qed.
Print Assumptions C124_unbound.

(** connect that answered 0 or waits: the peer of the client is the address
    that it asked for. *)
Theorem C124_connected : forall s c a late fd path h s1 y,
  reachable (s_n s) -> bytes_only (s_m s) -> Forall is_word (words a) ->
  int_word (a1 a) fd -> address_at (s_m s) (a2 a) (a3 a) path -> local_path path -> opens (s_n s) c fd h = true ->
  enter s c 38 a late = Rep s1 y -> y = Some 0 \/ y = None -> tells s1 c 145 fd path.
Proof. exact connect_tells. Qed.
Print Assumptions C124_connected.

(** socketpair that stored two descriptors: two sockets, and the name of each
    is that of the peer of the other. *)
Theorem C124_pair : forall s c a late s1,
  reachable (s_n s) -> bytes_only (s_m s) -> Forall is_word (words a) ->
  enter s c 49 a late = Rep s1 (Some 0) -> 0 <= int_at (s_m s1) (a4 a + 4) ->
  let k1 := int_at (s_m s1) (a4 a) in let k2 := int_at (s_m s1) (a4 a + 4) in
  exists h1 h2 p1 p2, h1 <> h2 /\ opens (s_n s1) c k1 h1 = true /\ opens (s_n s1) c k2 h2 = true /\
    tells s1 c 144 k1 p1 /\ tells s1 c 145 k1 p2 /\ tells s1 c 144 k2 p2 /\ tells s1 c 145 k2 p1.
Proof. exact pair_tells. Qed.
Print Assumptions C124_pair.

(** accept that serves the request of a connect: it stores the address of the
    client, which is what getpeername of the new descriptor and getsockname of
    the client tell; the new descriptor has the name of the listener. *)
Theorem C124_accepted : forall s0 c a0 late0 fd path0 h s1 y l s ys c2 a late fd2 s' k,
  reachable (s_n s0) -> bytes_only (s_m s0) -> Forall is_word (words a0) ->
  int_word (a1 a0) fd -> address_at (s_m s0) (a2 a0) (a3 a0) path0 -> local_path path0 -> opens (s_n s0) c fd h = true ->
  enter s0 c 38 a0 late0 = Rep s1 y -> y = Some 0 \/ y = None -> acts s1 l = Some (s, ys) ->
  bytes_only (s_m s) -> Forall is_word (words a) -> int_word (a1 a) fd2 -> a2 a <> 0 -> a3 a <> 0 ->
  enter s c2 40 a late = Rep s' (Some k) -> serves (s_n s) c2 (Accept fd2) (Ret k) = [n_req (s_n s0)] ->
  exists path path', written (s_m s) (s_m s') (a2 a) (a3 a) path /\ tells s' c2 145 k path /\ tells s' c2 144 k path' /\
    (forall c3 fd3, opens (s_n s) c3 fd3 h = true -> tells s c3 144 fd3 path) /\ tells s c2 144 fd2 path'.
Proof. exact accept_tells. Qed.
Print Assumptions C124_accepted.

(** Errors, without any effect: no descriptor, no socket, no peer *)
Theorem C124_errors : forall s c n fd a late, asks_name a n fd ->
  match n_fds (s_n s) !! (c, fd) with
  | None => enter s c n a late = Rep s (Some (-9))
  | Some (DSock h _) => reachable (s_n s) -> n = 145 -> (forall t, n_sock (s_n s) !! h = Some t -> s_rem t = None) -> enter s c n a late = Rep s (Some (-107))
  | Some _ => reachable (s_n s) -> enter s c n a late = Rep s (Some (-88))
  end.
Proof. exact name_errors. Qed.
Print Assumptions C124_errors.

(** A bind that failed with EADDRINUSE, because the name exists: getsockname
    tells that name all the same. *)
Definition server : list act := pokes 1000 srv ++ [call 136 [1; 1; 0]; call 33 [3; 1000; 110]; call 39 [3; 5]].
Theorem C124_failed_bind_refuted :
  gives 0 (server ++ [call 136 [1; 1; 0]; call 33 [4; 1000; 110]; Poke 2504 110; call 144 [4; 2510; 2504]]) [Some (-98); None; Some 0]
    2510 8 [1; 0; 47; 115; 114; 118; 0; 0] = true.
Proof. vm_compute. reflexivity. Qed.
Print Assumptions C124_failed_bind_refuted.

(** accept with no free descriptor, of any socket: the answer is the
    descriptor of the listener itself, and an address of another family with
    nothing in it is stored. *)
Theorem C124_accept_full_refuted :
  gives 7 (many 1021 ++ [call 40 [3; 200; 300]]) [Some 1023; Some 3] 200 18 [0; 0; 0; 0; 0; 0; 0; 0; 0; 0; 0; 0; 0; 0; 0; 0; 7; 7] = true.
Proof. vm_compute. reflexivity. Qed.
Print Assumptions C124_accept_full_refuted.

(** A server and a client: the address that accept stores, that of the peer of
    the new socket, and that of the client *)
Definition meeting : list act :=
  server ++ [call 136 [1; 2049; 0]; call 38 [4; 1000; 110]; Poke 2000 110; call 40 [3; 2004; 2000]; Poke 2120 110; call 145 [5; 2124; 2120]; Poke 2240 110; call 144 [4; 2244; 2240]].
Definition sock0 : list Z := [110; 0; 0; 0; 1; 0; 47; 115; 111; 99; 107; 48; 0].
Example C124_nonvacuous :
  gives 0 meeting [Some 4; Some 0; None; Some 5; None; Some 0; None; Some 0] 2000 13 sock0 = true /\
  gives 0 meeting [Some 0] 2120 13 sock0 = true /\ gives 0 meeting [Some 0] 2240 13 sock0 = true /\
  gives 0 (meeting ++ [Poke 3000 110; call 144 [5; 3004; 3000]]) [Some 0] 3000 11 [110; 0; 0; 0; 1; 0; 47; 115; 114; 118; 0] = true /\
  gives 0 (meeting ++ [Poke 3000 110; call 145 [4; 3004; 3000]]) [Some 0] 3000 11 [110; 0; 0; 0; 1; 0; 47; 115; 114; 118; 0] = true /\
  gives 0 (both ++ [Poke 3000 110; call 145 [3; 3004; 3000]; Poke 3200 110; call 144 [4; 3204; 3200]]) [Some 0; None; Some 0] 3204 9 [1; 0; 47; 115; 111; 99; 107; 49; 0] = true /\
  gives 0 [call 136 [1; 1; 0]; call 145 [3; 3004; 3000]; call 145 [9; 3004; 3000]; call 66 [100]; call 145 [4; 3004; 3000]] [Some (-107); Some (-9); Some 0; Some (-88)] 0 0 [] = true.
Proof. split; [|split; [|split; [|split; [|split; [|split]]]]]; vm_compute; reflexivity. Qed.
