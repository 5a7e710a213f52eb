(** Vocabulary for the statements about aborts and about whom a local
    connect reaches. *)
From Verif Require Import Base NetModel NetSpec.
Local Open Scope list_scope.
Local Open Scope Z_scope.

(** The call brings the runtime, and with it every cage, down. *)
Definition aborts (n : net) (c : Z) (o : nop) : Prop := says n c o = Panics.

(** Arguments inside their ranges: descriptor numbers within the table, option
    numbers below 32, polled descriptors within an fd_set *)
Definition args_ok (o : nop) : Prop :=
  match o with
  | Bind fd _ | Listen fd | Connect fd _ | Accept fd | Send fd _ | Recv fd _ _ | Read fd _
  | Write fd _ | Close fd | SetNb fd _ | Ioctl fd _ => 0 <= fd < MAXFD
  | Getopt _ _ opt | Setopt _ _ opt _ => 0 <= opt < 32
  | Poll l _ => Forall (fun x => x.1 < FD_SET_MAX_FD) l
  | _ => True
  end.
(** Calls that create, name, configure or watch *)
Definition setup_call (o : nop) : bool :=
  match o with
  | Socket _ _ _ | Bind _ _ | Listen _ | ConnWait _ | ConnDone _ | Shutdown _ _ | Dup _ | Pipe _
  | Open _ | SetNb _ _ | Ioctl _ _ | Unlink _ | Create _ | Getopt _ _ _ | Setopt _ _ _ _ | Ecreate _
  | Ectl _ _ _ _ _ => true
  | _ => false
  end.
(** Calls that move data or ask for readiness *)
Definition data_call (o : nop) : bool :=
  match o with
  | Send _ _ | Recv _ _ _ | Read _ _ | Write _ _ | Select _ _ _ _ _ | Poll _ _ | Ewait _ _ _ => true
  | _ => false
  end.
(** Every socket of cage [c] is unconnected, or listening at an address, or
    has both streams of a connection. *)
Definition settled (n : net) (c : Z) : Prop :=
  forall fd h, opens n c fd h = true ->
    sock_state n h NotConn \/
    (sock_state n h Listening /\ exists p, bound_to n h p) \/
    (is_Some (from n h) /\ is_Some (into n h) /\ ~ sock_state n h Listening).

(** Some open descriptor listens at address [p]. *)
Definition listens (n : net) (p : upath) : Prop :=
  exists c fd h, opens n c fd h = true /\ sock_state n h Listening /\ bound_to n h p.
(** Some call bound a socket to address [p]. *)
Definition binds (p : upath) (n : net) (c : Z) (o : nop) (x : nout) : list unit :=
  match o, x with
  | Bind _ q, Ret 0 => if bool_decide (q = p) then [tt] else []
  | _, _ => []
  end.
