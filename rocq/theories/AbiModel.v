(** How arguments and results cross the boundary between a program and the
    library: words, timeouts, socket addresses, textual addresses, directory
    records, descriptor sets.

    Modelled source: /repo/src/interface/types.rs 225-826,
    /repo/src/interface/comm.rs 20-226 and 540-603,
    /repo/src/interface/misc.rs 288-292, and the parts of
    /repo/src/safeposix/syscalls/fs_calls.rs and net_calls.rs cited below.

    Simplifications: memory is a total function from addresses to bytes, so
    reading outside an object is reading whatever is there; the machine is
    little-endian with 64-bit words; arithmetic that overflows aborts, as in a
    checked build. *)
From Coq Require Import Ascii.
From Verif Require Import Base PathModel FsModel.
Local Open Scope list_scope.
Local Open Scope Z_scope.

(** ** Words *)

(** types.rs 118-171: an argument is one 64-bit word *)
Definition is_word (w : Z) : Prop := 0 <= w < 2 ^ 64.
(** errnos.rs *)
Definition EFAULT : Z := 14.
(** [Ok v] or the error number that is returned *)
Inductive res (A : Type) := Ok (v : A) | Fail (r : Z).
Arguments Ok {_}. Arguments Fail {_}.

Definition LOW32 : Z := 4294967295.
(** reading the word as signed *)
Definition to_i64 (x : Z) : Z := let u := wrap_u 64 x in if u <? 2 ^ 63 then u else u - 2 ^ 64.
(** types.rs 222-237 *)
Definition get_int (w : Z) : res Z :=
  if Z.land w (to_u64 (Z.lnot LOW32)) =? 0 then Ok (to_i32 w) else Fail (err EINVAL).
(** types.rs 239-251 *)
Definition get_uint (w : Z) : res Z :=
  if Z.land w (to_u64 (Z.lnot LOW32)) =? 0 then Ok (to_u32 w) else Fail (err EINVAL).
(** types.rs 253-271: [get_long], [get_isize]; [get_ulong], [get_usize] *)
Definition get_long (w : Z) : res Z := Ok (to_i64 w).
Definition get_ulong (w : Z) : res Z := Ok w.

(** ** Timeouts, in nanoseconds *)

Definition NS : Z := 1000000000.
(** [Duration::new]: the seconds carried over from [nanos] must not overflow *)
Definition duration_new (secs nanos : Z) : outcome Z :=
  if 2 ^ 64 <=? secs + nanos / NS then Panic else Done (secs * NS + nanos).
(** a product of two [u32] *)
Definition mul32 (a b : Z) : outcome Z := if 2 ^ 32 <=? a * b then Panic else Done (a * b).

(** types.rs 704-715; [None] is the null pointer: no timeout *)
Definition duration_fromtimeval (p : option (Z * Z)) : outcome (option Z) :=
  match p with
  | None => Done None
  | Some (sec, usec) =>
      match mul32 (to_u32 usec) 1000 with
      | Panic => Panic
      | Done n => match duration_new (to_u64 sec) n with Panic => Panic | Done d => Done (Some d) end
      end
  end.
(** types.rs 735-757 *)
Definition duration_fromtimespec (p : option (Z * Z)) : outcome (res Z) :=
  match p with
  | None => Done (Fail (err EFAULT))
  | Some (sec, nsec) =>
      if (nsec <? 0) || (NS <=? nsec) then Done (Fail (err EINVAL)) else
      match mul32 (to_u32 nsec) 1000000000 with
      | Panic => Panic
      | Done n => match duration_new (to_u64 sec) n with Panic => Panic | Done d => Done (Ok d) end
      end
  end.
(** types.rs 759-775 *)
Definition get_duration_from_millis (w : Z) : res (option Z) :=
  match get_int w with
  | Ok ms => Ok (if 0 <=? ms then Some (ms * 1000000) else None)
  | Fail r => Fail r
  end.

(** ** Memory *)

Notation mem := (Z -> Z) (only parsing).
Definition load (m : mem) (p : Z) (n : nat) : list Z := map (fun k => m (p + Z.of_nat k)) (seq 0 n).
Definition store (m : mem) (p : Z) (bs : list Z) : mem :=
  fun a => if (p <=? a) && (a <? p + Z.of_nat (length bs)) then nth (Z.to_nat (a - p)) bs 0 else m a.
(** [n] bytes, least significant first *)
Fixpoint le (n : nat) (v : Z) : list Z :=
  match n with O => [] | S k => v mod 256 :: le k (v / 256) end.
Fixpoint of_le (bs : list Z) : Z :=
  match bs with [] => 0 | b :: r => b + 256 * of_le r end.

(** ** Socket addresses *)

(** comm.rs 19-23, 166-171, 198-226 *)
Inductive gsock :=
| GUnix (family : Z) (path : list Z)
| GV4 (family port addr padding : Z)
| GV6 (family port flow : Z) (addr : list Z) (scope : Z).

(** net_constants.rs 24-36 *)
Definition AF_UNIX : Z := 1.
Definition AF_INET : Z := 2.
Definition AF_INET6 : Z := 10.

(** the layout of the three structs, [repr(C)] *)
Definition sock_bytes (g : gsock) : list Z :=
  match g with
  | GUnix f p => le 2 f ++ p
  | GV4 f p a x => le 2 f ++ le 2 p ++ le 4 a ++ le 8 x
  | GV6 f p w a s => le 2 f ++ le 2 p ++ le 4 w ++ a ++ le 4 s
  end.
Definition UNIX_LEN : Z := 110.
Definition V4_LEN : Z := 16.
Definition V6_LEN : Z := 28.
(** types.rs 5 *)
Definition SIZEOF_SOCKADDR : Z := 16.
Definition sock_len (g : gsock) : Z :=
  match g with GUnix _ _ => UNIX_LEN | GV4 _ _ _ _ => V4_LEN | GV6 _ _ _ _ _ => V6_LEN end.

(** types.rs 510-571. The structure is read whole, whatever the length. *)
Definition get_sockaddr (m : mem) (p addrlen : Z) : res gsock :=
  if p =? 0 then Fail (err EFAULT) else
  let family := of_le (load m p 2) in
  if family =? 1 then
    if (addrlen <? SIZEOF_SOCKADDR) || (UNIX_LEN <? addrlen) then Fail (err EINVAL)
    else Ok (GUnix family (load m (p + 2) 108))
  else if family =? 2 then
    if addrlen <? V4_LEN then Fail (err EINVAL)
    else Ok (GV4 family (of_le (load m (p + 2) 2)) (of_le (load m (p + 4) 4)) (of_le (load m (p + 8) 8)))
  else if family =? 30 then
    if addrlen <? V6_LEN then Fail (err EINVAL)
    else Ok (GV6 family (of_le (load m (p + 2) 2)) (of_le (load m (p + 4) 4)) (load m (p + 8) 16)
               (of_le (load m (p + 24) 4)))
  else Fail (err EOPNOTSUPP).

(** types.rs 573-628; [p] and [lp] are not null *)
Definition copy_out_sockaddr (m : mem) (p lp : Z) (g : gsock) : mem :=
  let init := of_le (load m lp 4) in
  let n := Z.min init (sock_len g) in
  let m1 := store m p (take (Z.to_nat n) (sock_bytes g)) in
  store m1 lp (le 4 (Z.max (sock_len g) n)).

(** comm.rs 82-95: the bytes of the path (which must be UTF-8) *)
Fixpoint until_nul (bs : list Z) : list Z :=
  match bs with [] => [] | b :: r => if b =? 0 then [] else b :: until_nul r end.
Definition path_bytes (g : gsock) : list Z :=
  match g with GUnix _ p => until_nul p | _ => [] end.

(** comm.rs 173-187 *)
Definition new_sockaddr_unix (family : Z) (path : list Z) : outcome gsock :=
  if (108 <? length path)%nat then Panic
  else Done (GUnix family (path ++ replicate (108 - length path) 0)).

(** ** Textual addresses; characters are their codes *)

Definition DOT : Z := 46.
Definition COLON : Z := 58.
Definition PLUS : Z := 43.
(** [str::split] *)
Fixpoint split_at (c : Z) (s : list Z) : list (list Z) :=
  match s with
  | [] => [[]]
  | a :: r =>
      if a =? c then [] :: split_at c r
      else match split_at c r with x :: xs => (a :: x) :: xs | [] => [[a]] end
  end.
(** [str::parse] of an unsigned type with largest value [max]: an optional
    plus sign and at least one decimal digit *)
Fixpoint digits (max acc : Z) (s : list Z) : option Z :=
  match s with
  | [] => Some acc
  | d :: r =>
      if (48 <=? d) && (d <=? 57) then
        let v := acc * 10 + (d - 48) in if max <? v then None else digits max v r
      else None
  end.
Definition parse_u (max : Z) (s : list Z) : option Z :=
  match s with
  | [] => None
  | c :: r => if c =? PLUS then (match r with [] => None | _ => digits max 0 r end) else digits max 0 s
  end.

(** comm.rs 97-101; an address is its bytes *)
Inductive ipaddr := IP4 (bs : list Z) | IP6 (bs : list Z).

(** comm.rs 121-146: [arr] is [shortarr], [i] is [shortindex] *)
Fixpoint v6_loop (l : nat) (shorts : list (list Z)) (arr : list Z) (i : nat) (seen : bool) : outcome (option (list Z)) :=
  match shorts with
  | [] => Done (Some arr)
  | s :: r =>
      match s with
      | [] =>
          if seen then Done None
          else if (8 <? l)%nat then Panic            (* [8 - v6l] *)
          else v6_loop l r arr (i + (8 - l + 1)) true
      | _ =>
          match parse_u 65535 s with
          | None => Done None
          | Some b =>
              if (16 <=? 2 * i)%nat then Panic       (* index out of bounds *)
              else v6_loop l r (<[(2 * i)%nat := b / 256]> (<[(2 * i + 1)%nat := b mod 256]> arr)) (S i) seen
          end
      end
  end.
(** comm.rs 110-163 *)
Definition ip_from_string (s : list Z) : outcome (option ipaddr) :=
  let v4 := split_at DOT s in
  let v6 := split_at COLON s in
  if (length v4 =? 1)%nat && (1 <? length v6)%nat then
    match v6_loop (length v6) v6 (replicate 16 0) 0 false with
    | Panic => Panic
    | Done (Some a) => Done (Some (IP6 a))
    | Done None => Done None
    end
  else if (length v4 =? 4)%nat && (length v6 =? 1)%nat then
    match mapM (parse_u 255) v4 with
    | Some bs => Done (Some (IP4 bs))
    | None => Done None
    end
  else Done None.

(** net.rs 57-71: the addresses of the machine, from the lines of the
    net_devices file; the third field of a line is the address *)
Definition NEWLINE : Z := 10.
Definition SPACE : Z := 32.
Fixpoint device_ips (ls : list (list Z)) : outcome (list ipaddr) :=
  match ls with
  | [] => Done []
  | l :: r =>
      if (length l =? 0)%nat then device_ips r else
      match nth_error (split_at SPACE l) 2 with
      | None => Panic                                (* index out of bounds *)
      | Some f =>
          match ip_from_string f with
          | Done (Some a) => match device_ips r with Done r' => Done (a :: r') | Panic => Panic end
          | _ => Panic                               (* [expect] *)
          end
      end
  end.
Definition ips_from_ifaddrs (file : list Z) : outcome (list ipaddr) :=
  match device_ips (split_at NEWLINE file) with
  | Done l => Done (l ++ [IP4 [0; 0; 0; 0]])
  | Panic => Panic
  end.

(** ** Directory records *)

(** types.rs 208-216 and fs_calls.rs 5464-5500: header, name, NUL, type byte,
    padding. [off] is the number of bytes up to and including this record. *)
Definition chars (s : string) : list Z := map (fun a => Z.of_nat (nat_of_ascii a)) (String.list_ascii_of_string s).
Definition dirent_bytes (e : string * Z) (off : Z) : list Z :=
  let n := reclen (fst e) in
  le 8 (snd e) ++ le 8 off ++ le 2 n ++ chars (fst e)
    ++ replicate (Z.to_nat (n - CLIPPED_DIRENT_SIZE) - String.length (fst e)) 0.
(** types.rs 417-444 *)
Fixpoint pack_from (off : Z) (es : list (string * Z)) : list Z :=
  match es with
  | [] => []
  | e :: r => let o := off + reclen (fst e) in dirent_bytes e o ++ pack_from o r
  end.
Definition pack_dirents (es : list (string * Z)) : list Z := pack_from 0 es.

(** ** Strings handed back *)

(** misc.rs 288-292 *)
Definition fill (m : mem) (p : Z) (n : nat) (bs : list Z) : outcome mem :=
  if (length bs <? n)%nat then Panic else Done (store m p (take n bs)).
(** fs_calls.rs 5571-5598; [cwd] is the string of the working directory *)
Definition getcwd_mem (cwd : list Z) (m : mem) (p bufsize : Z) : outcome (mem * Z) :=
  if bufsize =? 0 then Done (m, err EINVAL) else
  let bytes := cwd ++ [0] in
  if bufsize <? Z.of_nat (length bytes) then Done (m, err ERANGE)
  else match fill m p (length bytes) bytes with Done m' => Done (m', 0) | Panic => Panic end.
(** net_constants.rs: "Lind"; net_calls.rs 4413-4440 *)
Definition HOSTNAME : list Z := [76; 105; 110; 100].
Definition gethostname_mem (m : mem) (p len : Z) : outcome (mem * Z) :=
  if len <? 0 then Done (m, err EINVAL) else
  let bytes := HOSTNAME ++ [0] in
  let n := if len <? Z.of_nat (length bytes) then Z.to_nat len else length bytes in
  match fill m p n bytes with Done m' => Done (m', 0) | Panic => Panic end.
(** net_calls.rs 5240-5254; [devs] is the contents of the net_devices file *)
Definition getifaddrs_mem (devs : list Z) (m : mem) (p count : Z) : outcome (mem * Z) :=
  if Z.of_nat (length devs) <? count then
    match fill m p (length devs) devs with Done m' => Done (m', 0) | Panic => Panic end
  else Done (m, err EOPNOTSUPP).

(** ** Descriptor sets *)

(** libc's fd_set: sixteen 64-bit words. comm.rs 541-585: [new], [set],
    [clear], [is_set], [is_empty]; the index outside the array aborts. *)
Notation fdset := (list Z) (only parsing).
Definition fdset_new : fdset := replicate 16 0.
Definition fd_ok (fd : Z) : bool := (0 <=? fd) && (fd <? 1024).
Definition fdset_set (s : fdset) (fd : Z) : outcome fdset :=
  if fd_ok fd then
    Done (alter (fun w => Z.lor w (2 ^ (fd mod 64))) (Z.to_nat (fd / 64)) s)
  else Panic.
Definition fdset_clear (s : fdset) (fd : Z) : outcome fdset :=
  if fd_ok fd then
    Done (alter (fun w => Z.land w (Z.lnot (2 ^ (fd mod 64)))) (Z.to_nat (fd / 64)) s)
  else Panic.
Definition fdset_is_set (s : fdset) (fd : Z) : outcome bool :=
  if fd_ok fd then Done (Z.testbit (nth (Z.to_nat (fd / 64)) s 0) (fd mod 64)) else Panic.
Definition fdset_is_empty (s : fdset) : bool := forallb (fun w => w =? 0) s.

(** comm.rs 587-603: every kernel descriptor that is set is translated by the
    first pair that mentions it *)
Fixpoint translate (kernel self : fdset) (tuples : list (Z * Z)) (fds : list Z) : outcome fdset :=
  match fds with
  | [] => Done self
  | fd :: r =>
      match fdset_is_set kernel fd with
      | Panic => Panic
      | Done false => translate kernel self tuples r
      | Done true =>
          match List.find (fun x => fst x =? fd) tuples with
          | None => translate kernel self tuples r
          | Some (_, lind) =>
              match fdset_set self lind with Panic => Panic | Done s => translate kernel s tuples r end
          end
      end
  end.
Definition set_from_kernelfds (kernel self : fdset) (nfds : Z) (tuples : list (Z * Z)) : outcome fdset :=
  translate kernel self tuples (seqZ 0 nfds).
