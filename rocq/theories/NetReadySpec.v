(** Vocabulary of the exact answers of select, poll and epoll_wait (C60, C122). *)
From Verif Require Import Base NetModel NetSpec.
Local Open Scope list_scope.
Local Open Scope Z_scope.

(** A write of one byte more than can be written to a pipe atomically (4096)
    returns at once: all the bytes are taken, or there is no reader left. *)
Definition wide (n : net) (c fd : Z) : Prop :=
  forall bs, Z.of_nat (length bs) = 4097 ->
    exists n', step n c (Write fd bs) = Go n' (Ret 4097) \/ step n c (Write fd bs) = Go n' (Ret (err EPIPE)).

(** Bit set [e] is the truth about descriptor [fd] for the request [ev]:
    nothing that was not asked for; readable exactly if a read returns at
    once, not readable exactly if it waits; writable exactly if [wide]. *)
Definition truth (n : net) (c fd ev e : Z) : Prop :=
  (hasbit e POLLIN = true -> reqd ev POLLIN) /\
  (hasbit e POLLOUT = true -> reqd ev POLLOUT) /\
  (hasbit e POLLPRI = true -> reqd ev POLLPRI) /\
  (reqd ev POLLIN -> plain_reader n c fd ->
     (hasbit e POLLIN = true <-> read_now n c fd) /\ (hasbit e POLLIN = false <-> read_waits n c fd)) /\
  (reqd ev POLLOUT -> pipe_writer n c fd -> (hasbit e POLLOUT = true <-> wide n c fd)).
