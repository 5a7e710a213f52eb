(** Calls that the other models of the entry point leave out: quick_read and
    quick_write, which go past the dispatcher, sync_file_range (164) and ioctl
    (15).

    Modelled source: /repo/src/safeposix/dispatcher.rs 168-189, 251-259 and
    366-373; the converters of /repo/src/interface/types.rs 222-264 and 416-426;
    /repo/src/interface/file.rs 130-143; fs_calls.rs 4026-4107 (ioctl; the request FIONBIO
    with a number is in NetModel) and
    5161-5219 (sync_file_range).

    Simplifications: memory as in AbiModel. A null buffer of a quick call with a
    count above zero is undefined behaviour in the code; here it is the memory at
    address 0, and no theorem is about it. The answer of the host's
    sync_file_range is a function of the file and the arguments, zero or an
    errno. Sockets of ioctl are the local ones of NetModel, which have no kernel
    socket; those of the other families are in InetModel. *)
From stdpp Require Import gmap.
From Verif Require Import Base ErrnoModel FsModel AbiModel EntryModel NetModel WireModel.
Local Open Scope list_scope.
Local Open Scope Z_scope.

(** dispatcher.rs 168-189, for files, pipes, streams and devices *)
Definition quick_read (s : EntryModel.state) (c fd buf n : Z) (rnd : Z -> Z) : outcome (EntryModel.state * option Z) :=
  EntryModel.perform s c (EntryModel.Do (FsModel.Read fd n) buf) rnd.
Definition quick_write (s : EntryModel.state) (c fd buf n : Z) (rnd : Z -> Z) : outcome (EntryModel.state * option Z) :=
  EntryModel.perform s c (EntryModel.Do (FsModel.Write fd (load (EntryModel.s_m s) buf (Z.to_nat n))) 0) rnd.
(** and for sockets *)
Definition quick_recv (s : WireModel.state) (c fd buf n : Z) : reply :=
  WireModel.perform s c (WireModel.Do (NetModel.Read fd n) (Buf buf)).
Definition quick_send (s : WireModel.state) (c fd buf n : Z) : reply :=
  WireModel.perform s c (WireModel.Do (NetModel.Write fd (load (WireModel.s_m s) buf (Z.to_nat n))) Nowhere).

(** fs_calls.rs 5188-5206: [Errno::from_discriminant(get_errno())] *)
Definition kernel_error (e : Z) : outcome Z :=
  match from_discriminant e with Some i => Done (- discriminant i) | None => Panic end.
(** file.rs 132-134: the three flags of sync_file_range *)
Definition SYNC_FLAGS : Z := 7.
(** fs_calls.rs 5161-5219, file.rs 130-143 *)
Definition sync_range (w : world) (c fd off n fl : Z) (kern : Z -> Z -> Z -> Z -> Z) : outcome Z :=
  do s <- fd_slot w c fd;
  match s with
  | Some (FFile i _ _) =>
      do x <- get_ino w i;
      match i_kind x with
      | KFile =>
          match w_fobj w !! i with
          | None => Panic
          | Some _ =>
              if negb (Z.land fl (Z.lnot SYNC_FLAGS) =? 0) then Done (err EINVAL) else
              if kern i off n fl =? 0 then Done 0 else kernel_error (kern i off n fl)
          end
      | _ => Done (err ESPIPE)
      end
  | Some _ => Done (err EBADF)
  | None => Done (err EBADF)
  end.
(** dispatcher.rs 210-235, 251-259 *)
Definition enter_sync (s : EntryModel.state) (c : Z) (a : args) (kern : Z -> Z -> Z -> Z -> Z) : outcome (EntryModel.state * option Z) :=
  match w_cwd (s_w s) !! c with
  | None => Panic
  | Some _ =>
      match get_int (a1 a) with
      | Fail r => Done (s, Some r)
      | Ok fd =>
          match get_long (a2 a) with
          | Fail r => Done (s, Some r)
          | Ok off =>
              match get_long (a3 a) with
              | Fail r => Done (s, Some r)
              | Ok n =>
                  match get_uint (a4 a) with
                  | Fail r => Done (s, Some r)
                  | Ok fl => do r <- sync_range (s_w s) c fd off n fl kern; Done (s, Some r)
                  end
              end
          end
      end
  end.

(** fs_constants.rs 83-84: the two requests of ioctl *)
Definition FIONBIO : Z := 21537.
Definition FIOASYNC : Z := 21586.
(** types.rs 420-426 *)
Definition ioctl_int (m : mem) (p : Z) : AbiModel.res Z :=
  if p =? 0 then Fail (err EFAULT) else Ok (to_i32 (of_le (load m p 4))).
(** fs_calls.rs 4026-4107 for descriptors that are no sockets *)
Definition ioctl_other (m : mem) (req p : Z) : Z :=
  if req =? FIONBIO then match ioctl_int m p with Fail r => r | Ok _ => err ENOTTY end
  else if req =? FIOASYNC then 0
  else err EINVAL.
Definition ioctl_fs (w : world) (m : mem) (c fd req p : Z) : outcome Z :=
  do s <- fd_slot w c fd;
  match s with
  | Some _ => Done (ioctl_other m req p)
  | None => Done (err EBADF)
  end.
(** dispatcher.rs 210-235, 366-373 *)
Definition enter_ioctl_fs (s : EntryModel.state) (c : Z) (a : args) : outcome (EntryModel.state * option Z) :=
  match w_cwd (s_w s) !! c with
  | None => Panic
  | Some _ =>
      match get_int (a1 a) with
      | Fail r => Done (s, Some r)
      | Ok fd =>
          match get_uint (a2 a) with
          | Fail r => Done (s, Some r)
          | Ok req => do r <- ioctl_fs (s_w s) (EntryModel.s_m s) c fd req (a3 a); Done (s, Some r)
          end
      end
  end.
(** fs_calls.rs 4026-4107; FIONBIO is [ioctl_call] of NetModel *)
Definition ioctl_net (n : net) (m : mem) (c fd req p : Z) : NetModel.res :=
  if negb (in_range fd) then Dies else
  match n_fds n !! (c, fd) with
  | None => Go n (NetModel.Ret (err EBADF))
  | Some _ =>
      if req =? FIONBIO then
        match ioctl_int m p with
        | Fail r => Go n (NetModel.Ret r)
        | Ok v => NetModel.step n c (NetModel.Ioctl fd (negb (v =? 0)))
        end
      else Go n (NetModel.Ret (ioctl_other m req p))
  end.
Definition enter_ioctl (s : WireModel.state) (c : Z) (a : args) : reply :=
  match get_int (a1 a) with
  | Fail r => Rep s (Some r)
  | Ok fd =>
      match get_uint (a2 a) with
      | Fail r => Rep s (Some r)
      | Ok req =>
          match ioctl_net (s_n s) (WireModel.s_m s) c fd req (a3 a) with
          | Go n' x => Rep (WireModel.St n' (WireModel.s_m s)) (returned x)
          | Block => Rep s None
          | Dies => Crash
          end
      end
  end.

(** Programs: the calls of EntryModel and these *)
Inductive fact :=
| FPlain (x : EntryModel.act)
| FRead (c fd buf n : Z) (rnd : Z -> Z)
| FWrite (c fd buf n : Z) (rnd : Z -> Z)
| FSync (c : Z) (a : args) (kern : Z -> Z -> Z -> Z -> Z)
| FIoctl (c : Z) (a : args).
Definition fact_step (s : EntryModel.state) (x : fact) : outcome (EntryModel.state * option Z) :=
  match x with
  | FPlain x => EntryModel.act_step s x
  | FRead c fd buf n rnd => quick_read s c fd buf n rnd
  | FWrite c fd buf n rnd => quick_write s c fd buf n rnd
  | FSync c a kern => enter_sync s c a kern
  | FIoctl c a => enter_ioctl_fs s c a
  end.
Fixpoint facts (s : EntryModel.state) (l : list fact) : option (EntryModel.state * list (option Z)) :=
  match l with
  | [] => Some (s, [])
  | x :: r =>
      match fact_step s x with
      | Panic => None
      | Done (s1, y) => match facts s1 r with None => None | Some (s2, ys) => Some (s2, y :: ys) end
      end
  end.
(** the same for WireModel *)
Inductive nact :=
| NPlain (x : WireModel.act)
| NRead (c fd buf n : Z)
| NWrite (c fd buf n : Z)
| NIoctl (c : Z) (a : args).
Definition nact_step (s : WireModel.state) (x : nact) : reply :=
  match x with
  | NPlain x => WireModel.act_step s x
  | NRead c fd buf n => quick_recv s c fd buf n
  | NWrite c fd buf n => quick_send s c fd buf n
  | NIoctl c a => enter_ioctl s c a
  end.
Fixpoint nacts (s : WireModel.state) (l : list nact) : option (WireModel.state * list (option Z)) :=
  match l with
  | [] => Some (s, [])
  | x :: r =>
      match nact_step s x with
      | Rep s1 y => match nacts s1 r with None => None | Some (s2, ys) => Some (s2, y :: ys) end
      | _ => None
      end
  end.
