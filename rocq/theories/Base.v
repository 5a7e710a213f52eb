(** Common vocabulary of the model: imports, outcomes, constants.
    Constants are transcribed from
    /repo/src/safeposix/syscalls/fs_constants.rs lines 10-141 and
    /repo/src/interface/errnos.rs lines 34-165. *)
From stdpp Require Export prelude gmap strings.
From Coq Require Export ZArith Lia.
From Coq Require Export ZifyBool ZifyNat ZifyN.
#[global] Open Scope Z_scope.

(** Error numbers (errnos.rs 34-165), the ones the modelled calls return. *)
Definition EPERM : Z := 1.
Definition ENOENT : Z := 2.
Definition ESRCH : Z := 3.
Definition EINTR : Z := 4.
Definition ENXIO : Z := 6.
Definition EBADF : Z := 9.
Definition EAGAIN : Z := 11.
Definition EACCES : Z := 13.
Definition EBUSY : Z := 16.
Definition EEXIST : Z := 17.
Definition ENOTDIR : Z := 20.
Definition EISDIR : Z := 21.
Definition EINVAL : Z := 22.
Definition ENFILE : Z := 23.
Definition ENOTTY : Z := 25.
Definition ESPIPE : Z := 29.
Definition EROFS : Z := 30.
Definition EPIPE : Z := 32.
Definition ERANGE : Z := 34.
Definition ENOTEMPTY : Z := 39.
Definition EOVERFLOW : Z := 75.
Definition ENOTSOCK : Z := 88.
Definition ENOPROTOOPT : Z := 92.
Definition EOPNOTSUPP : Z := 95.
Definition EADDRINUSE : Z := 98.
Definition ENOTCONN : Z := 107.
Definition ETIMEDOUT : Z := 110.

(** [syscall_error e] (errnos.rs 168-174) returns [-(e as i32)]; logging is
    not modelled. *)
Definition err (e : Z) : Z := - e.

(** fs_constants.rs 12-23 *)
Definition MAXFD : Z := 1024.
Definition ROOTINO : Z := 1.
Definition STREAMINODE : Z := 2.
Definition PIPE_CAPACITY : Z := 65536.
(** pipe.rs: PAGE_SIZE, used as PIPE_BUF *)
Definition PIPE_BUF : Z := 4096.

(** fs_constants.rs 24-45 (octal in the source) *)
Definition X_OK : Z := 1.
Definition W_OK : Z := 2.
Definition R_OK : Z := 4.
Definition O_RDONLY : Z := 0.
Definition O_WRONLY : Z := 1.
Definition O_RDWR : Z := 2.
Definition O_RDWRFLAGS : Z := 3.
Definition O_CREAT : Z := 64.
Definition O_EXCL : Z := 128.
Definition O_NOCTTY : Z := 256.
Definition O_TRUNC : Z := 512.
Definition O_APPEND : Z := 1024.
Definition O_NONBLOCK : Z := 2048.
Definition O_CLOEXEC : Z := 524288.

(** fs_constants.rs 49-61 *)
Definition S_IRWXA : Z := 511.
Definition S_IRUSR : Z := 256.
Definition S_IWUSR : Z := 128.
Definition S_IXUSR : Z := 64.
Definition S_IWGRP : Z := 16.
Definition S_IWOTH : Z := 2.
(** fs_constants.rs 84-92 *)
Definition S_IFCHR : Z := 8192.
Definition S_IFDIR : Z := 16384.
Definition S_IFREG : Z := 32768.
Definition S_IFSOCK : Z := 49152.
Definition S_FILETYPEFLAGS : Z := 61440.

(** fs_constants.rs 64-74 *)
Definition F_DUPFD : Z := 0.
Definition F_GETFD : Z := 1.
Definition F_SETFD : Z := 2.
Definition F_GETFL : Z := 3.
Definition F_SETFL : Z := 4.
Definition F_SETOWN : Z := 8.
Definition F_GETOWN : Z := 9.

(** fs_constants.rs 112-114 *)
Definition SEEK_SET : Z := 0.
Definition SEEK_CUR : Z := 1.
Definition SEEK_END : Z := 2.

(** sys_constants.rs 12-13 *)
Definition DEFAULT_UID : Z := 1000.
Definition DEFAULT_GID : Z := 1000.

(** fs_constants.rs 156-175: file type and access mode tests *)
Definition is_reg (mode : Z) : bool := Z.land mode S_FILETYPEFLAGS =? S_IFREG.
Definition is_chr (mode : Z) : bool := Z.land mode S_FILETYPEFLAGS =? S_IFCHR.
Definition is_dir (mode : Z) : bool := Z.land mode S_FILETYPEFLAGS =? S_IFDIR.
Definition is_wronly (flags : Z) : bool := Z.land flags O_RDWRFLAGS =? O_WRONLY.
Definition is_rdonly (flags : Z) : bool := Z.land flags O_RDWRFLAGS =? O_RDONLY.

(** [flags & bit != 0] *)
Definition hasbit (flags bit : Z) : bool := negb (Z.land flags bit =? 0).

(** Machine-word truncations: [as i32], [as u32], [as u64]. *)
Definition wrap_u (bits x : Z) : Z := x mod 2 ^ bits.
Definition to_u32 (x : Z) : Z := wrap_u 32 x.
Definition to_u64 (x : Z) : Z := wrap_u 64 x.
Definition to_i32 (x : Z) : Z :=
  let u := wrap_u 32 x in if u <? 2 ^ 31 then u else u - 2 ^ 32.

(** Result of running a piece of the runtime: a normal result or an abort of
    the whole runtime ([panic!], [unwrap] of [None], index out of range,
    checked arithmetic overflow). *)
Inductive outcome (A : Type) : Type :=
| Done (a : A)
| Panic.
Arguments Done {A} a.
Arguments Panic {A}.

Definition obind {A B} (o : outcome A) (f : A -> outcome B) : outcome B :=
  match o with Done a => f a | Panic => Panic end.

(** Witnesses for [exists] statements about closed computations are kept as
    unevaluated expressions, so that only small values are ever normalised. *)
Lemma ex_some {A} (d : A) (x : option A) (P : A -> Prop) :
  (match x with Some _ => true | None => false end) = true ->
  P (match x with Some a => a | None => d end) -> exists a, x = Some a /\ P a.
Proof. destruct x; [eauto|discriminate]. Qed.

Lemma ex_done {A B} (da : A) (db : B) (x : outcome (A * B)) (P : A -> B -> Prop) :
  (match x with Done _ => true | Panic => false end) = true ->
  P (match x with Done (a, _) => a | Panic => da end)
    (match x with Done (_, b) => b | Panic => db end) ->
  exists a b, x = Done (a, b) /\ P a b.
Proof. destruct x as [[a b]|]; [eauto|discriminate]. Qed.

Lemma ex_done_b {A B} (da : A) (b : B) (x : outcome (A * B)) (P : A -> Prop) :
  match x with Done (_, b') => b' = b | Panic => False end ->
  P (match x with Done (a, _) => a | Panic => da end) -> exists a, x = Done (a, b) /\ P a.
Proof. destruct x as [[a b']|]; [intros -> ?; eauto|contradiction]. Qed.

(** [run_ex d e] proves a nest of [exists w, run = Some w /\ ...] and closed
    equations by computation; [d], [e] are arbitrary inhabitants. *)
Ltac run_ex d e :=
  lazymatch goal with
  | |- exists a, _ = Some a /\ _ =>
      apply (ex_some d); [vm_compute; reflexivity | cbv beta; run_ex d e]
  | |- exists a b, _ = Done (a, b) /\ _ =>
      apply (ex_done d e); [vm_compute; reflexivity | cbv beta; run_ex d e]
  | |- exists a, _ = Done (a, _) /\ _ =>
      apply (ex_done_b d); [vm_compute; reflexivity | cbv beta; run_ex d e]
  | |- _ /\ _ => split; [vm_compute; reflexivity | run_ex d e]
  | |- _ => vm_compute; reflexivity
  end.
