(** Specification vocabulary for file contents: a file is an array of bytes
    that reads as zero beyond its end. *)
From Verif Require Import Base PathModel PathSpec FsModel FsSpec FsReachSpec FsNameSpec FdSpec.
Local Open Scope list_scope.
Local Open Scope Z_scope.

(** The byte at position [k] *)
Definition byte_at (l : list Z) (k : Z) : Z := nth (Z.to_nat k) l 0.
Definition len (l : list Z) : Z := Z.of_nat (length l).

(** What can be done to an array *)
Inductive act :=
| AWrite (off : Z) (bs : list Z)   (* put [bs] at [off] *)
| AResize (n : Z).                 (* cut off or extend with zeros *)

Definition applied (a : act) (l l' : list Z) : Prop :=
  match a with
  | AWrite off bs =>
      0 <= off /\ len l' = Z.max (len l) (off + len bs) /\
      forall k, 0 <= k -> byte_at l' k = if (off <=? k) && (k <? off + len bs) then byte_at bs (k - off) else byte_at l k
  | AResize n =>
      0 <= n /\ len l' = n /\ forall k, 0 <= k -> byte_at l' k = if k <? n then byte_at l k else 0
  end.

(** [changes w c o i a]: the call [o] of process [c] is a request to do [a] to
    the file [i]. Write-like calls need a descriptor whose access mode (the
    two low bits of the flags) is not read-only. *)
Inductive changes (w : world) (c : Z) : op -> Z -> act -> Prop :=
| ch_write fd bs i pos fl :
    w_fds w !! (c, fd) = Some (FFile i pos fl) -> Z.land fl 3 <> 0 -> changes w c (Write fd bs) i (AWrite pos bs)
| ch_writev fd iov i pos fl :
    w_fds w !! (c, fd) = Some (FFile i pos fl) -> Z.land fl 3 <> 0 -> changes w c (Writev fd iov) i (AWrite pos (concat iov))
| ch_pwrite fd bs off i pos fl :
    w_fds w !! (c, fd) = Some (FFile i pos fl) -> Z.land fl 3 <> 0 -> changes w c (Pwrite fd bs off) i (AWrite off bs)
| ch_ftruncate fd n i pos fl :
    w_fds w !! (c, fd) = Some (FFile i pos fl) -> Z.land fl 3 <> 0 -> 0 <= n -> changes w c (Ftruncate fd n) i (AResize n)
| ch_truncate p n cwd q i :
    w_cwd w !! c = Some cwd -> denotes cwd p q -> resolves (w_ino w) q i -> 0 <= n -> changes w c (Truncate p n) i (AResize n)
| ch_open p fl m cwd q i :
    w_cwd w !! c = Some cwd -> p <> "" -> denotes cwd p q -> resolves (w_ino w) q i ->
    Z.land fl 512 = 512 -> ~ exclusive fl -> ~ none_free (w_fds w) c 0 -> changes w c (Open p fl m) i (AResize 0)
| ch_creat p m cwd q i :
    w_cwd w !! c = Some cwd -> p <> "" -> denotes cwd p q -> resolves (w_ino w) q i ->
    ~ none_free (w_fds w) c 0 -> changes w c (Creat p m) i (AResize 0).

(** A history of calls from [w] to [w'] during which the file [i] exists, and
    the array operations it requests for [i]. *)
Inductive requests (i : Z) : world -> list (Z * op) -> list act -> world -> Prop :=
| rq_nil w : requests i w [] [] w
| rq_change w c o a w1 r h l w' :
    step w c o = Done (w1, r) -> tame true w c o r -> changes w c o i a -> is_Some (w_ino w1 !! i) ->
    requests i w1 h l w' -> requests i w ((c, o) :: h) (a :: l) w'
| rq_other w c o w1 r h l w' :
    step w c o = Done (w1, r) -> tame true w c o r -> (forall a, ~ changes w c o i a) -> is_Some (w_ino w1 !! i) ->
    requests i w1 h l w' -> requests i w ((c, o) :: h) l w'.

(** The array operations one after the other *)
Inductive applied_all : list act -> list Z -> list Z -> Prop :=
| aa_nil l : applied_all [] l l
| aa_cons a r l l1 l2 : applied a l l1 -> applied_all r l1 l2 -> applied_all (a :: r) l l2.

(** [bs] is what an array [l] has between [off] and [off + n] *)
Definition slice (l : list Z) (off n : Z) (bs : list Z) : Prop :=
  len bs = Z.min n (Z.max 0 (len l - off)) /\ forall k, 0 <= k < len bs -> byte_at bs k = byte_at l (off + k).

(** Whoever reads or stats file [i] sees the array [l]: reading [n] bytes at
    [off] through any descriptor that is not write-only, the size reported by
    fstat, and the size reported by stat. *)
Record seen_as (w : world) (i : Z) (l : list Z) : Prop := {
  see_pread c fd pos fl n off :
    w_fds w !! (c, fd) = Some (FFile i pos fl) -> Z.land fl 3 <> 1 -> 0 <= n < 2147483648 -> 0 <= off <= len l ->
    exists bs, slice l off n bs /\ step w c (Pread fd n off) = Done (w, RetData (len bs) bs);
  see_fstat c fd pos fl :
    w_fds w !! (c, fd) = Some (FFile i pos fl) -> exists m k, step w c (Fstat fd) = Done (w, RetStat i m k (len l) 0);
  see_stat c cwd p q :
    w_cwd w !! c = Some cwd -> denotes cwd p q -> resolves (w_ino w) q i ->
    exists m k, step w c (Stat p) = Done (w, RetStat i m k (len l) 0)
}.

(** The offset lseek is asked for *)
Definition target (whence off pos size : Z) : option Z :=
  if whence =? 0 then Some off else if whence =? 1 then Some (pos + off) else if whence =? 2 then Some (size + off) else None.
Definition isize_ok (e : Z) : Prop := - 9223372036854775808 <= e <= 9223372036854775807.

(** [m'] is [m] with the nine permission bits replaced by those of [mode] *)
Definition perms (m mode m' : Z) : Prop :=
  forall k, 0 <= k -> Z.testbit m' k = if k <? 9 then Z.testbit mode k else Z.testbit m k.

(** The owner may do what the access word asks for: bits 4, 2, 1 of the word
    are for reading, writing and executing; 0o400, 0o200 and 0o100 are the
    owner's permission bits *)
Definition owner_may (m amode : Z) : Prop :=
  (Z.testbit amode 2 = true -> Z.testbit m 8 = true) /\
  (Z.testbit amode 1 = true -> Z.testbit m 7 = true) /\
  (Z.testbit amode 0 = true -> Z.testbit m 6 = true).

(** Two descriptors refer to the same thing with the same access mode *)
Definition same_access (d d' : fdesc) : Prop :=
  Z.land (fd_flags d') 3 = Z.land (fd_flags d) 3 /\
  match d, d' with
  | FFile i _ _, FFile j _ _ => i = j
  | FStream s _, FStream t _ => s = t
  | FPipe p _, FPipe q _ => p = q
  | FEpoll _, FEpoll _ => True
  | _, _ => False
  end.

(** Results of getdents: the entries, and 0 exactly when there are none *)
Definition lists (o : out) (l : list (string * Z)) : Prop := exists k, o = RetDents k l /\ 0 <= k /\ (k = 0 <-> l = []).

(** A buffer of size [n] is large enough for the entry of name [f] *)
Definition holds (n : Z) (f : string) : Prop := Z.of_nat (String.length f) + 27 <= n.
