(** The entry point of the library: a call is a number and six words, and the
    memory of the caller. What the words mean depends on the number; strings
    and buffers are read from memory, results are written to it.

    Modelled source: /repo/src/safeposix/dispatcher.rs 15-125 (the numbers),
    137-158 (the macros), 210-235 and the cases of the file-system calls in
    236-935; the converters of /repo/src/interface/types.rs 222-444; the places
    of /repo/src/safeposix/syscalls/fs_calls.rs that fill the caller's
    structures (1169-1274, 1311-1377, 1418-1523, 5339-5379, 5571-5600).

    Simplifications: memory is a total function from addresses to bytes (as in
    AbiModel), one for all processes; a string without an end aborts; the calls
    of sockets, signals, locks, shared memory and select/poll are not decoded
    here (they have models of their own); a negative count of writev, which is
    undefined behaviour in the code, counts as zero. *)
From stdpp Require Import gmap.
From Coq Require Import Ascii.
From Verif Require Import Base PathModel FsModel AbiModel.
Local Open Scope list_scope.
Local Open Scope Z_scope.

(** ** Strings in memory *)

(** errnos.rs 117 *)
Definition EILSEQ : Z := 84.
(** [CStr::from_ptr]: the address of the first NUL in the [2 ^ k] bytes from [a] *)
Fixpoint find_nul (m : mem) (k : nat) (a : Z) : option Z :=
  match k with
  | O => if m a =? 0 then Some a else None
  | S k => match find_nul m k a with Some e => Some e | None => find_nul m k (a + 2 ^ Z.of_nat k) end
  end.
(** [str::from_utf8]: the standard library's validation loop, by the first byte *)
Definition cont (b : Z) : bool := (128 <=? b) && (b <=? 191).
Definition within (lo hi b : Z) : bool := (lo <=? b) && (b <=? hi).
Fixpoint utf8 (bs : list Z) : bool :=
  match bs with
  | [] => true
  | b :: r =>
      if within 0 127 b then utf8 r
      else match r with
      | [] => false
      | c1 :: r1 =>
          if within 194 223 b then cont c1 && utf8 r1
          else match r1 with
          | [] => false
          | c2 :: r2 =>
              if b =? 224 then within 160 191 c1 && cont c2 && utf8 r2
              else if within 225 236 b || within 238 239 b then cont c1 && cont c2 && utf8 r2
              else if b =? 237 then within 128 159 c1 && cont c2 && utf8 r2
              else match r2 with
              | [] => false
              | c3 :: r3 =>
                  if b =? 240 then within 144 191 c1 && cont c2 && cont c3 && utf8 r3
                  else if within 241 243 b then cont c1 && cont c2 && cont c3 && utf8 r3
                  else if b =? 244 then within 128 143 c1 && cont c2 && cont c3 && utf8 r3
                  else false
              end
          end
      end
  end.
Definition text (bs : list Z) : string := String.string_of_list_ascii (map (fun b => ascii_of_nat (Z.to_nat b)) bs).
(** types.rs 328-350, misc.rs 330-333 *)
Definition get_cstr (m : mem) (w : Z) : outcome (res string) :=
  if w =? 0 then Done (Fail (err EFAULT)) else
  match find_nul m 64 w with
  | None => Panic
  | Some e =>
      let bs := load m w (Z.to_nat (e - w)) in
      Done (if utf8 bs then Ok (text bs) else Fail (err EILSEQ))
  end.
(** types.rs 273-299, 378-415, 446-456: pointers that may not be null *)
Definition get_ptr (w : Z) : res Z := if w =? 0 then Fail (err EFAULT) else Ok w.
(** libc's iovec: address and length *)
Definition iovecs (m : mem) (p n : Z) : list (list Z) :=
  map (fun k => load m (of_le (load m (p + 16 * Z.of_nat k) 8)) (Z.to_nat (of_le (load m (p + 16 * Z.of_nat k + 8) 8)))) (seq 0 (Z.to_nat n)).

(** ** Numbers and arguments *)

Record args := Args { a1 : Z; a2 : Z; a3 : Z; a4 : Z; a5 : Z; a6 : Z }.
(** What is to be done: a conversion failed; memory was read without end; a
    call, with the address for its result; the two statfs calls and
    gethostname, which are not in FsModel; a number of another model. *)
Inductive todo :=
| Bad (r : Z)
| Fault
| Do (o : op) (p : Z)
| Statfs (path : string) (p : Z)
| Fstatfs (fd p : Z)
| Hostname (p len : Z)
| Elsewhere.
(** dispatcher.rs 151-158: the arguments are converted from left to right *)
Definition arg {A} (e : outcome (res A)) (k : A -> todo) : todo :=
  match e with Panic => Fault | Done (Fail r) => Bad r | Done (Ok v) => k v end.
Notation "'let?' x ':=' e 'in' k" := (arg e (fun x => k)) (at level 200, x name, k at level 200).
Definition int (w : Z) : outcome (res Z) := Done (get_int w).
Definition uint (w : Z) : outcome (res Z) := Done (get_uint w).
Definition long (w : Z) : outcome (res Z) := Done (get_long w).
Definition size (w : Z) : outcome (res Z) := Done (get_ulong w).
Definition ptr (w : Z) : outcome (res Z) := Done (get_ptr w).

(** dispatcher.rs 15-125, the numbers of the calls that are in other models *)
Definition elsewhere : list Z :=
  [15; 21; 22; 29; 31; 33; 34; 35; 36; 37; 38; 39; 40; 43; 44; 45; 46; 48; 49; 50; 51; 52; 53; 54; 57; 58;
   62; 63; 64; 65; 70; 71; 72; 73; 74; 75; 76; 77; 78; 79; 80; 91; 92; 93; 94; 95; 96; 97;
   136; 144; 145; 146; 147; 148; 149; 150; 164].

(** dispatcher.rs 236-935 *)
Definition decode (m : mem) (n : Z) (a : args) : todo :=
  if n =? 2 then let? p := get_cstr m (a1 a) in let? v := uint (a2 a) in Do (Access p v) 0
  else if n =? 4 then let? p := get_cstr m (a1 a) in Do (Unlink p) 0
  else if n =? 5 then let? p := get_cstr m (a1 a) in let? q := get_cstr m (a2 a) in Do (Link p q) 0
  else if n =? 6 then let? p := get_cstr m (a1 a) in let? q := get_cstr m (a2 a) in Do (Rename p q) 0
  else if n =? 9 then let? p := get_cstr m (a1 a) in let? b := ptr (a2 a) in Do (Stat p) b
  else if n =? 10 then let? p := get_cstr m (a1 a) in let? f := int (a2 a) in let? v := uint (a3 a) in Do (Open p f v) 0
  else if n =? 11 then let? fd := int (a1 a) in Do (Close fd) 0
  else if n =? 12 then let? fd := int (a1 a) in let? b := ptr (a2 a) in let? k := size (a3 a) in Do (Read fd k) b
  else if n =? 13 then let? fd := int (a1 a) in let? b := ptr (a2 a) in let? k := size (a3 a) in Do (Write fd (load m b (Z.to_nat k))) 0
  else if n =? 14 then let? fd := int (a1 a) in let? o := long (a2 a) in let? wh := int (a3 a) in Do (Lseek fd o wh) 0
  else if n =? 16 then let? p := get_cstr m (a1 a) in let? k := long (a2 a) in Do (Truncate p k) 0
  else if n =? 17 then let? fd := int (a1 a) in let? b := ptr (a2 a) in Do (Fstat fd) b
  else if n =? 18 then let? fd := int (a1 a) in let? k := long (a2 a) in Do (Ftruncate fd k) 0
  else if n =? 19 then let? fd := int (a1 a) in let? b := ptr (a2 a) in Fstatfs fd b
  else if n =? 23 then let? fd := int (a1 a) in let? b := ptr (a2 a) in let? k := uint (a3 a) in Do (Getdents fd k) b
  else if n =? 24 then let? fd := int (a1 a) in Do (Dup fd) 0
  else if n =? 25 then let? x := int (a1 a) in let? y := int (a2 a) in Do (Dup2 x y) 0
  else if n =? 26 then let? p := get_cstr m (a1 a) in let? b := ptr (a2 a) in Statfs p b
  else if n =? 28 then let? fd := int (a1 a) in let? c := int (a2 a) in let? v := int (a3 a) in Do (Fcntl fd c v) 0
  else if n =? 30 then let? st := int (a1 a) in Do (Exit st) 0
  else if n =? 47 then let? b := ptr (a1 a) in let? k := uint (a2 a) in Do (Getcwd k) b
  else if n =? 56 then let? k := int (a1 a) in Do (EpollCreate k) 0
  else if n =? 66 then let? b := ptr (a1 a) in Do (Pipe2 0) b
  else if n =? 67 then let? b := ptr (a1 a) in let? f := int (a2 a) in Do (Pipe2 f) b
  else if n =? 68 then let? c := size (a1 a) in Do (Fork c) 0
  else if n =? 69 then let? c := size (a1 a) in Do (Exec c) 0
  else if n =? 125 then let? b := ptr (a1 a) in let? k := long (a2 a) in Hostname b k
  else if n =? 126 then let? fd := int (a1 a) in let? b := ptr (a2 a) in let? k := size (a3 a) in let? o := long (a4 a) in Do (Pread fd k o) b
  else if n =? 127 then let? fd := int (a1 a) in let? b := ptr (a2 a) in let? k := size (a3 a) in let? o := long (a4 a) in Do (Pwrite fd (load m b (Z.to_nat k)) o) 0
  else if n =? 130 then let? p := get_cstr m (a1 a) in Do (Chdir p) 0
  else if n =? 131 then let? p := get_cstr m (a1 a) in let? v := uint (a2 a) in Do (Mkdir p v) 0
  else if n =? 132 then let? p := get_cstr m (a1 a) in Do (Rmdir p) 0
  else if n =? 133 then let? p := get_cstr m (a1 a) in let? v := uint (a2 a) in Do (Chmod p v) 0
  else if n =? 134 then let? fd := int (a1 a) in let? v := uint (a2 a) in Do (Fchmod fd v) 0
  else if n =? 161 then let? fd := int (a1 a) in Do (Fchdir fd) 0
  else if n =? 162 then let? fd := int (a1 a) in Do (Fsync fd) 0
  else if n =? 163 then let? fd := int (a1 a) in Do (Fsync fd) 0
  else if n =? 170 then let? fd := int (a1 a) in let? b := ptr (a2 a) in let? k := int (a3 a) in Do (Writev fd (iovecs m b k)) 0
  else if existsb (Z.eqb n) elsewhere then Elsewhere
  else Bad (-1).

(** ** Results in memory *)

(** filesystem.rs 146, sys_constants.rs 12-13 *)
Definition DEV_ID : Z := 20.
Definition DEFAULT_UID : Z := 1000.
Definition DEFAULT_GID : Z := 1000.
Definition is_chr (w : world) (i : Z) : bool :=
  match w_ino w !! i with Some x => match i_kind x with KChr _ _ => true | _ => false end | None => false end.
(** types.rs 32-50 (the layout), fs_calls.rs 1181-1182 and 1208-1274. For a
    character device [st_blksize] and [st_blocks] are not assigned; the times
    never are. *)
Definition put_stat (m : mem) (p : Z) (chr : bool) (i mode link sz rdev : Z) : mem :=
  let m1 := store m p (le 8 (if chr then 5 else DEV_ID) ++ le 8 i ++ le 4 mode ++ le 4 link ++ le 4 DEFAULT_UID ++ le 4 DEFAULT_GID ++ le 8 rdev ++ le 8 sz) in
  if chr then m1 else store m1 (p + 48) (le 4 0 ++ le 4 0).
(** is the object a stat call is about a character device? *)
Definition stat_chr (w : world) (c : Z) (o : op) (i : Z) : bool :=
  match o with
  | Stat _ => is_chr w i
  | Fstat fd => match w_fds w !! (c, fd) with Some (FFile j _ _) => is_chr w j | _ => false end
  | _ => false
  end.
(** fs_calls.rs 1949-1957: how many bytes a read takes from a random device *)
Definition random_bytes (w : world) (c : Z) (o : op) : option Z :=
  match o with
  | Read fd n | Pread fd n _ =>
      match w_fds w !! (c, fd) with
      | Some (FFile i _ _) =>
          match w_ino w !! i with
          | Some x => match i_kind x with KChr maj mn => if (maj =? 1) && ((mn =? 8) || (mn =? 9)) then Some n else None | _ => None end
          | None => None
          end
      | _ => None
      end
  | _ => None
  end.
(** The structures and buffers that the calls fill; [None]: the call waits *)
Definition deliver (w : world) (c : Z) (o : op) (p : Z) (rnd : Z -> Z) (x : out) (m : mem) : mem * option Z :=
  match x with
  | Ret r => (m, Some r)
  | RetData r bs =>
      (store m p (match random_bytes w c o with Some n => map rnd (seqZ 0 n) | None => bs end), Some r)
  | RetStat i mode link sz rdev => (put_stat m p (stat_chr w c o i) i mode link sz rdev, Some 0)
  | RetDents r es => (store m p (pack_dirents es), Some r)
  | RetPath s => (store m p (chars s ++ [0]), Some 0)
  | RetFds r a b =>
      let m1 := if a =? -1 then m else store m p (le 4 a) in
      (if b =? -1 then m1 else store m1 (p + 4) (le 4 b), Some r)
  | Blocked _ => (m, None)
  end.
(** types.rs 9-28, fs_calls.rs 1510-1523 *)
Definition fsdata : list Z :=
  le 8 3203383518 ++ le 8 4096 ++ le 8 0 ++ le 8 1073741824 ++ le 8 1073741824 ++ le 8 1073741824 ++ le 8 540016640
    ++ le 8 DEV_ID ++ le 8 254 ++ le 8 4096 ++ replicate 32 0.
(** fs_calls.rs 1415-1434, 1467-1500: [f_fsid] is the first field assigned *)
Definition statfs_mem (w : world) (cwd : list string) (path : string) (m : mem) (p : Z) : outcome (mem * Z) :=
  do io <- metawalk (w_ino w) (normpath cwd path);
  match io with
  | Some i => do _ <- get_ino w i; Done (store m p fsdata, 0)
  | None => Done (m, err ENOENT)
  end.
Definition fstatfs_mem (w : world) (c fd : Z) (m : mem) (p : Z) : outcome (mem * Z) :=
  do s <- fd_slot w c fd;
  match s with
  | Some (FFile i _ _) => do _ <- get_ino w i; Done (store m p fsdata, 0)
  | Some _ => Done (store m (p + 56) (le 8 DEV_ID), err EBADF)
  | None => Done (m, err EBADF)
  end.

(** ** The host's standard output *)

Definition EIO : Z := 5.
(** What the call prints: fs_calls.rs 2145-2158 and misc.rs 174-178 for write
    (streams 1 and 2, and only if the bytes are UTF-8); fs_calls.rs 2664-2673
    and misc.rs 137-149 for writev (any stream). *)
Definition printed (w : world) (c : Z) (o : op) : list Z :=
  match o with
  | Write fd bs =>
      match w_fds w !! (c, fd) with
      | Some (FStream st _) => if ((st =? 1) || (st =? 2)) && utf8 bs then bs else []
      | _ => []
      end
  | Writev fd iov =>
      match w_fds w !! (c, fd) with
      | Some (FStream _ _) => if utf8 (concat iov) then concat iov else []
      | _ => []
      end
  | _ => []
  end.
(** misc.rs 147: writev of other bytes to a stream fails; FsModel assumes that
    they are UTF-8 *)
Definition not_text (w : world) (c : Z) (o : op) : bool :=
  match o with
  | Writev fd iov => match w_fds w !! (c, fd) with Some (FStream _ _) => negb (utf8 (concat iov)) | _ => false end
  | _ => false
  end.

(** ** The call *)

(** the library, memory, and what was printed so far *)
Record state := St { s_w : world; s_m : mem; s_tty : list Z }.
Definition perform (s : state) (c : Z) (t : todo) (rnd : Z -> Z) : outcome (state * option Z) :=
  match w_cwd (s_w s) !! c with
  | None => Panic
  | Some cwd =>
      match t with
      | Bad r => Done (s, Some r)
      | Fault | Elsewhere => Panic
      | Do o p =>
          do y <- step (s_w s) c o;
          let mr := deliver (s_w s) c o p rnd (snd y) (s_m s) in
          Done (St (fst y) (fst mr) (s_tty s ++ printed (s_w s) c o), if not_text (s_w s) c o then Some (err EIO) else snd mr)
      | Statfs path p => do y <- statfs_mem (s_w s) cwd path (s_m s) p; Done (St (s_w s) (fst y) (s_tty s), Some (snd y))
      | Fstatfs fd p => do y <- fstatfs_mem (s_w s) c fd (s_m s) p; Done (St (s_w s) (fst y) (s_tty s), Some (snd y))
      | Hostname p k => do y <- gethostname_mem (s_m s) p k; Done (St (s_w s) (fst y) (s_tty s), Some (snd y))
      end
  end.
(** dispatcher.rs 210-235 *)
Definition enter (s : state) (c n : Z) (a : args) (rnd : Z -> Z) : outcome (state * option Z) :=
  perform s c (decode (s_m s) n a) rnd.

(** What a program does: it changes a byte of its memory, or makes a call.
    [rnd] are the bytes that the random device has for this call. *)
Inductive act :=
| Poke (p b : Z)
| Call (c n : Z) (a : args) (rnd : Z -> Z).
Definition act_step (s : state) (x : act) : outcome (state * option Z) :=
  match x with
  | Poke p b => Done (St (s_w s) (store (s_m s) p [b]) (s_tty s), None)
  | Call c n a rnd => enter s c n a rnd
  end.
Fixpoint acts (s : state) (l : list act) : option (state * list (option Z)) :=
  match l with
  | [] => Some (s, [])
  | x :: r =>
      match act_step s x with
      | Panic => None
      | Done (s1, y) => match acts s1 r with None => None | Some (s2, ys) => Some (s2, y :: ys) end
      end
  end.
