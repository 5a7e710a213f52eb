(** C60, C122, continued: the exact answers of select, poll and epoll_wait. *)
From stdpp Require Import gmap.
From Coq Require Import Ascii.
From Verif Require Import Base AbiModel AbiSpec EntryModel EntrySpec NetModel NetSpec NetReadySpec NetEpoll WireModel WireSpec WireReady.
From Verif Require Import PropsNet PropsWire.
Local Open Scope list_scope.
Local Open Scope Z_scope.

(** ** C60 *)

(** select: a requested write end of a pipe is reported exactly if a write of
    4097 bytes (one more than is written atomically) would return at once. *)
Theorem C60_select_writers : forall n c nfds r w e late n' k rs ws fd,
  step n c (Select nfds r w e late) = Go n' (Sets k rs ws) ->
  0 <= fd < nfds -> within fd w -> pipe_writer n c fd -> (within fd ws <-> wide n c fd).
Proof. exact select_writers. Qed.
Print Assumptions C60_select_writers.
(** ... and select waits only while no requested pipe takes so much *)
Theorem C60_select_waits_writers : forall n c nfds r w e late fd, step n c (Select nfds r w e late) = Block ->
  0 <= fd < nfds -> within fd w -> pipe_writer n c fd -> ~ wide n c fd.
Proof. exact select_waits_writers. Qed.
Print Assumptions C60_select_waits_writers.

(** poll: each result is the truth about its descriptor. *)
Theorem C60_poll_exact : forall n c l late n' k rs i fd ev r, step n c (Poll l late) = Go n' (Polled k rs) ->
  l !! i = Some (fd, ev) -> rs !! i = Some r -> 0 <= fd -> truth n c fd ev r.
Proof. exact poll_exact. Qed.
Print Assumptions C60_poll_exact.
Theorem C60_poll_waits_writers : forall n c l late fd ev, step n c (Poll l late) = Block -> (fd, ev) ∈ l -> 0 <= fd ->
  reqd ev POLLOUT -> pipe_writer n c fd -> ~ wide n c fd.
Proof. exact poll_waits_writers. Qed.
Print Assumptions C60_poll_waits_writers.

(** epoll_wait: the events belong to different descriptors, each of them
    watched and open, each with its own data and the truth about it. If fewer
    events are returned than there was room for, then nothing that was asked
    for holds of the descriptors that are left out. *)
Theorem C60_epoll_exact : forall n c ep max late n' k evs, step n c (Ewait ep max late) = Go n' (Events k evs) ->
  exists fds, NoDup fds /\
  Forall2 (fun fd x => exists ev, watched n c ep fd = Some (ev, x.2) /\ is_open n c fd /\ x.1 <> 0 /\
    (0 <= fd -> truth n c fd ev x.1)) fds evs /\
  (k < max -> forall fd ev d, watched n c ep fd = Some (ev, d) -> 0 <= fd -> fd ∉ fds -> truth n c fd ev 0).
Proof. exact ewait_exact. Qed.
Print Assumptions C60_epoll_exact.
(** epoll_wait waits only while nothing that was asked for holds. *)
Theorem C60_epoll_waits : forall n c ep max late, step n c (Ewait ep max late) = Block ->
  late = false /\ forall fd ev d, watched n c ep fd = Some (ev, d) -> 0 <= fd -> truth n c fd ev 0.
Proof. exact ewait_waits. Qed.
Print Assumptions C60_epoll_waits.

(** Room for one event only: two readable pipes are left out; the full pipe is
    not reported even if there is room. *)
Example C60_exact_nonvacuous : exists n,
  run init_net (by1 [Pipe true; Pipe true; Write 4 [1]; Write 6 (repeat 0 (Z.to_nat 65000)); Ecreate 1;
      Ectl 7 CTL_ADD 3 POLLIN 33; Ectl 7 CTL_ADD 5 POLLIN 55; Ectl 7 CTL_ADD 4 POLLOUT 44; Ectl 7 CTL_ADD 6 POLLOUT 66;
      Poll [(4, POLLOUT); (6, POLLOUT); (3, POLLIN)] false; Ewait 7 1 false])
    = Some (n, [Pair 3 4; Pair 5 6; Ret 1; Ret 65000; Ret 7; Ret 0; Ret 0; Ret 0; Ret 0; Polled 2 [POLLOUT; 0; POLLIN]; Events 1 [(POLLOUT, 44)]]) /\
  says n 1 (Ewait 7 9 false) = Answers (Events 3 [(POLLOUT, 44); (POLLIN, 33); (POLLIN, 55)]).
Proof. net1. Qed.
Example C60_epoll_waits_nonvacuous : exists n,
  run init_net (by1 [Pipe true; Write 4 (repeat 0 (Z.to_nat 65000)); Ecreate 1; Ectl 5 CTL_ADD 4 POLLOUT 44])
    = Some (n, [Pair 3 4; Ret 65000; Ret 5; Ret 0]) /\ says n 1 (Ewait 5 9 false) = Waiting.
Proof. net1. Qed.

(** ** C122 *)

(** select: the writers whose bits are on *)
Theorem C122_select_writers : forall s c a late s' k, Forall is_word (words a) -> enter s c 46 a late = Rep s' (Some k) -> 0 <= k ->
  (a2 a = 0 \/ a3 a = 0 \/ apart (a2 a) 128 (a3 a) 128) ->
  exists nfds, int_word (a1 a) nfds /\
  (a3 a <> 0 -> forall fd, fd < nfds -> on (s_m s) (a3 a) fd -> pipe_writer (s_n s) c fd ->
     (on (s_m s') (a3 a) fd <-> wide (s_n s) c fd)).
Proof. exact select_memory_writers. Qed.
Print Assumptions C122_select_writers.

(** poll: the truth lies in each record *)
Theorem C122_poll_exact : forall s c a late s' k i fd ev, bytes_only (s_m s) -> Forall is_word (words a) ->
  enter s c 48 a late = Rep s' (Some k) -> 0 <= k ->
  0 <= Z.of_nat i < a2 a -> polled (s_m s) (a1 a) i = (fd, ev) -> 0 <= fd ->
  truth (s_n s) c fd ev (short_at (s_m s') (a1 a + 8 * Z.of_nat i + 6)).
Proof. exact poll_memory_exact. Qed.
Print Assumptions C122_poll_exact.

(** epoll_wait: the truth lies in each event, the events belong to different
    descriptors, and if there was room for more nothing is left out *)
Theorem C122_epoll_exact : forall s c a late s' k, Forall is_word (words a) -> enter s c 58 a late = Rep s' (Some k) -> 0 <= k ->
  exists ep max fds, int_word (a1 a) ep /\ int_word (a3 a) max /\ NoDup fds /\ Z.of_nat (length fds) = k /\
  (forall i fd, fds !! i = Some fd -> exists ev d, watched (s_n s) c ep fd = Some (ev, d) /\ is_open (s_n s) c fd /\
    number_at (s_m s') (a2 a + 8 * Z.of_nat i + 4) = d mod 2 ^ 32 /\ number_at (s_m s') (a2 a + 8 * Z.of_nat i) <> 0 /\
    (0 <= fd -> truth (s_n s) c fd ev (number_at (s_m s') (a2 a + 8 * Z.of_nat i)))) /\
  (k < max -> forall fd ev d, watched (s_n s) c ep fd = Some (ev, d) -> 0 <= fd -> fd ∉ fds -> truth (s_n s) c fd ev 0).
Proof. exact epoll_memory_exact. Qed.
Print Assumptions C122_epoll_exact.

(** A pipe with three bytes and an empty one, both watched: one event. *)
Example C122_exact_nonvacuous :
  gives 0 (full_pipe ++ [call 66 [110]; call 56 [1]] ++ pokes 200 [1; 0; 0; 0; 42; 0; 0; 0] ++ [call 57 [7; 1; 3; 200]; call 57 [7; 1; 5; 200]; call 58 [7; 300; 4; 0]])
    [Some 0; Some 0; Some 1] 300 12 [1; 0; 0; 0; 42; 0; 0; 0; 0; 0; 0; 0] = true.
Proof. vm_compute. reflexivity. Qed.
