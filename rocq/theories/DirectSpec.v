(** Specification vocabulary for quick_read and quick_write, sync_file_range and
    ioctl (C133-C135). *)
From stdpp Require Import gmap.
From Verif Require Import Base FsModel AbiModel AbiSpec EntryModel NetModel WireModel DirectModel.
Local Open Scope list_scope.
Local Open Scope Z_scope.

(** ** The same program without the quick calls: read is 12, write is 13 *)
Definition by_dispatcher (x : fact) : fact :=
  match x with
  | FRead c fd buf n rnd => FPlain (EntryModel.Call c 12 (Args (fd mod 2 ^ 32) buf n 0 0 0) rnd)
  | FWrite c fd buf n rnd => FPlain (EntryModel.Call c 13 (Args (fd mod 2 ^ 32) buf n 0 0 0) rnd)
  | _ => x
  end.
Definition by_dispatcher_n (x : nact) : nact :=
  match x with
  | NRead c fd buf n => NPlain (WireModel.Call c 12 (Args (fd mod 2 ^ 32) buf n 0 0 0) false)
  | NWrite c fd buf n => NPlain (WireModel.Call c 13 (Args (fd mod 2 ^ 32) buf n 0 0 0) false)
  | _ => x
  end.
(** the descriptor is an int, the buffer not null *)
Definition proper (x : fact) : Prop :=
  match x with FRead _ fd buf _ _ | FWrite _ fd buf _ _ => is_int fd /\ buf <> 0 | _ => True end.
Definition proper_n (x : nact) : Prop :=
  match x with NRead _ fd buf _ | NWrite _ fd buf _ => is_int fd /\ buf <> 0 | _ => True end.

(** ** sync_file_range *)
(** [fd] is open on the ordinary file [i] *)
Definition on_regular (w : world) (c fd i : Z) : Prop :=
  exists pos f x, w_fds w !! (c, fd) = Some (FFile i pos f) /\ w_ino w !! i = Some x /\ i_kind x = KFile.
(** [fd] is open on a directory or a device *)
Definition on_special (w : world) (c fd : Z) : Prop :=
  exists i pos f x, w_fds w !! (c, fd) = Some (FFile i pos f) /\ w_ino w !! i = Some x /\ i_kind x <> KFile.
(** the error numbers that the library knows (Linux has 132 and 133 too) *)
Definition errno (e : Z) : Prop := 1 <= e <= 131 /\ e <> 41 /\ e <> 58.
Inductive sync_answer (w : world) (c fd off n fl : Z) (kern : Z -> Z -> Z -> Z -> Z) : Z -> Prop :=
| sy_other : (forall i pos f, w_fds w !! (c, fd) <> Some (FFile i pos f)) -> sync_answer w c fd off n fl kern (-9)
| sy_special : on_special w c fd -> sync_answer w c fd off n fl kern (-29)
| sy_flags i : on_regular w c fd i -> 8 <= fl -> sync_answer w c fd off n fl kern (-22)
| sy_kernel i : on_regular w c fd i -> fl < 8 -> kern i off n fl = 0 \/ errno (kern i off n fl) ->
    sync_answer w c fd off n fl kern (- kern i off n fl).
(** the words of the call *)
Definition sync_words (a : args) (fd off n fl : Z) : Prop :=
  is_int fd /\ is_long off /\ is_long n /\ is_uint fl /\
  a1 a = fd mod 2 ^ 32 /\ a2 a = off mod 2 ^ 64 /\ a3 a = n mod 2 ^ 64 /\ a4 a = fl.

(** ** ioctl *)
Definition ioctl_words (a : args) (fd req p : Z) : Prop :=
  is_int fd /\ is_uint req /\ a1 a = fd mod 2 ^ 32 /\ a2 a = req /\ a3 a = p.
(** one of the four bytes at [p] is not zero *)
Definition nonzero (m : Z -> Z) (p : Z) : Prop := exists k, 0 <= k < 4 /\ m (p + k) <> 0.
(** bit 11 of the flags, O_NONBLOCK *)
Definition switched (fl : Z) (on : bool) (fl' : Z) : Prop :=
  Z.testbit fl' 11 = on /\ forall k, 0 <= k -> k <> 11 -> Z.testbit fl' k = Z.testbit fl k.
(** all that differs is the flags of this descriptor *)
Definition only_flags (n n' : net) (c fd h fl' : Z) : Prop :=
  n' = Net (<[(c, fd) := DSock h fl']> (n_fds n)) (n_sock n) (n_nsock n) (n_pipe n) (n_npipe n) (n_pend n) (n_bound n) (n_names n) (n_ino n) (n_nino n) (n_auto n) (n_req n) (n_woken n).
Definition a_socket (n : net) (c fd : Z) : Prop := exists h fl, n_fds n !! (c, fd) = Some (DSock h fl).
(** the answers of ioctl; FIONBIO is 21537, FIOASYNC is 21586 *)
Inductive ioctl_answer (m : Z -> Z) (open sock : Prop) (req p : Z) : Z -> Prop :=
| io_closed : ~ open -> ioctl_answer m open sock req p (-9)
| io_unknown : open -> req <> 21537 -> req <> 21586 -> ioctl_answer m open sock req p (-22)
| io_async : open -> req = 21586 -> ioctl_answer m open sock req p 0
| io_null : open -> req = 21537 -> p = 0 -> ioctl_answer m open sock req p (-14)
| io_other : open -> req = 21537 -> p <> 0 -> ~ sock -> ioctl_answer m open sock req p (-25)
| io_sock : open -> req = 21537 -> p <> 0 -> sock -> ioctl_answer m open sock req p 0.
(** calls that move data over the descriptor *)
Inductive transfers (fd : Z) : nop -> Prop :=
| tr_read k : transfers fd (NetModel.Read fd k)
| tr_write bs : transfers fd (NetModel.Write fd bs)
| tr_send bs : transfers fd (NetModel.Send fd bs)
| tr_recv k f : transfers fd (NetModel.Recv fd k f).
