(** Receiving from one local socket by several threads, step by step.

    Modelled code: /repo/src/safeposix/syscalls/net_calls.rs 1886-2113
    [recv_common_inner_tcp] for AF_UNIX.  A receive holds the lock of the
    socket handle except that, when the pipe stays empty, it lends it to other
    threads ([bump], 2001) and afterwards goes back to reading the pipe, not to
    the peek buffer.  So a receive is one step [PRecv], or a step [PRecv] that
    starts waiting and any number of steps [PRetry].

    Simplifications: the descriptors are blocking, the sending side stays open
    and the pipe takes what is sent at once. *)
From Verif Require Import Base.
Local Open Scope list_scope.
Local Open Scope Z_scope.

(** The receive pipe, [last_peek], and the waiting receives: wanted length and
    whether MSG_PEEK was given *)
Record pst := PSt { k_buf : list Z; k_last : list Z; k_wait : gmap Z (nat * bool) }.
Definition pinit : pst := PSt [] [] ∅.
Inductive pop :=
  | PSend (bs : list Z)
  | PRecv (t : Z) (len : nat) (peek : bool)
  | PRetry (t : Z).
(** [Got peek bs]: a receive returned [bs] *)
Inductive pout := Sent | Got (peek : bool) (bs : list Z) | Still.

(** net_calls.rs 1921-1947: bytes peeked before come first *)
Definition precv (s : pst) (t : Z) (len : nat) (peek : bool) : pst * pout :=
  let k := Nat.min (length (k_last s)) len in
  let early := take k (k_last s) in
  let rest := if peek then k_last s else drop k (k_last s) in
  if bool_decide (len - k = 0)%nat then (PSt (k_buf s) rest (k_wait s), Got peek early)
  else match k_buf s with
  | [] => if bool_decide (k = 0)%nat
          then (PSt [] (k_last s) (<[t := (len, peek)]> (k_wait s)), Still)
          else (PSt [] rest (k_wait s), Got peek early)
  | b => let bs := take (len - k) b in
         (PSt (drop (len - k) b) (if peek then rest ++ bs else rest) (k_wait s), Got peek (early ++ bs))
  end.
(** net_calls.rs 1968-2009 and 2094-2106: the loop goes on *)
Definition pretry (s : pst) (t : Z) : option (pst * pout) :=
  match (k_wait s !! t : option (nat * bool)) with
  | None => None
  | Some (len, peek) =>
      match k_buf s with
      | [] => Some (s, Still)
      | b => let bs := take len b in
             Some (PSt (drop len b) (if peek then k_last s ++ bs else k_last s)
                       (delete t (k_wait s)), Got peek bs)
      end
  end.
Definition pstep (s : pst) (o : pop) : option (pst * pout) :=
  match o with
  | PSend bs => Some (PSt (k_buf s ++ bs) (k_last s) (k_wait s), Sent)
  | PRecv t len peek =>
      match k_wait s !! t with
      | Some _ => None
      | None => Some (precv s t len peek)
      end
  | PRetry t => pretry s t
  end.
Fixpoint prun (s : pst) (l : list pop) : option (pst * list pout) :=
  match l with
  | [] => Some (s, [])
  | o :: l' => match pstep s o with
               | None => None
               | Some (s1, x) => match prun s1 l' with
                                 | None => None
                                 | Some (s2, xs) => Some (s2, x :: xs)
                                 end
               end
  end.

(** ** Specification *)
Definition psent (o : pop) : list Z := match o with PSend bs => bs | _ => [] end.
Definition pgot (x : pout) : list Z := match x with Got false bs => bs | _ => [] end.
(** Whenever a waiting receive (not a peek) is woken with bytes to take, no
    peeked bytes are held back. *)
Definition pwakes (s : pst) (t : Z) : Prop := (exists len, k_wait s !! t = Some (len, false)) /\ k_buf s <> [].
Fixpoint no_overlap (s : pst) (l : list pop) : Prop :=
  match l with
  | [] => True
  | o :: l' =>
      match o with PRetry t => pwakes s t -> k_last s = [] | _ => True end /\
      match pstep s o with
      | None => True
      | Some (s1, _) => no_overlap s1 l'
      end
  end.
