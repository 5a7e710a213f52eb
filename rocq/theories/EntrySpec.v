(** Specification vocabulary for the entry point (C107-C112): what the words of
    a call mean, which memory a call may read and write. *)
From stdpp Require Import gmap.
From Coq Require Import Ascii.
From Verif Require Import Base FsModel AbiModel AbiSpec EntryModel.
Local Open Scope list_scope.
Local Open Scope Z_scope.

(** ** Text: the UTF-8 form of a sequence of code points *)
Definition scalar (cp : Z) : Prop := 0 <= cp < 55296 \/ 57344 <= cp < 1114112.
Definition encoding (cp : Z) : list Z :=
  if cp <? 128 then [cp]
  else if cp <? 2048 then [192 + cp / 64; 128 + cp mod 64]
  else if cp <? 65536 then [224 + cp / 4096; 128 + cp / 64 mod 64; 128 + cp mod 64]
  else [240 + cp / 262144; 128 + cp / 4096 mod 64; 128 + cp / 64 mod 64; 128 + cp mod 64].
Inductive unicode : list Z -> Prop :=
| u_nil : unicode []
| u_cons cp bs : scalar cp -> unicode bs -> unicode (encoding cp ++ bs).

(** the bytes [bs], none of them NUL, and then a NUL *)
Definition c_string (m : Z -> Z) (p : Z) (bs : list Z) : Prop :=
  lies m p (bs ++ [0]) /\ no_char 0 bs /\ Z.of_nat (length bs) < 2 ^ 64.

(** ** Arguments *)
Inductive aty := AInt | AUint | ALong | ASize | APtr | APath.
Inductive val := Num (v : Z) | Txt (s : string).
(** in memory [m] the word [w] stands for this value *)
Inductive stands (m : Z -> Z) : aty -> Z -> val -> Prop :=
| st_int v : is_int v -> stands m AInt (v mod 2 ^ 32) (Num v)
| st_uint v : is_uint v -> stands m AUint v (Num v)
| st_long v : is_long v -> stands m ALong (v mod 2 ^ 64) (Num v)
| st_size v : is_word v -> stands m ASize v (Num v)
| st_ptr v : v <> 0 -> stands m APtr v (Num v)
| st_path p s : p <> 0 -> c_string m p (chars s) -> unicode (chars s) -> stands m APath p (Txt s).
(** the word stands for no value, and the call answers this *)
Inductive refused (m : Z -> Z) : aty -> Z -> Z -> Prop :=
| re_int w : 2 ^ 32 <= w -> refused m AInt w (-22)
| re_uint w : 2 ^ 32 <= w -> refused m AUint w (-22)
| re_ptr : refused m APtr 0 (-14)
| re_null : refused m APath 0 (-14)
| re_text p bs : p <> 0 -> c_string m p bs -> ~ unicode bs -> refused m APath p (-84).
(** a string that never ends *)
Definition endless (m : Z -> Z) (p : Z) : Prop := forall k, 0 <= k < 2 ^ 64 -> m (p + k) <> 0.

Definition words (a : args) : list Z := [a1 a; a2 a; a3 a; a4 a; a5 a; a6 a].
(** the calls: number, types of the arguments *)
Definition table : list (Z * list aty) :=
  [ (2, [APath; AUint]);            (* access *)
    (4, [APath]);                   (* unlink *)
    (5, [APath; APath]);            (* link *)
    (6, [APath; APath]);            (* rename *)
    (9, [APath; APtr]);             (* stat *)
    (10, [APath; AInt; AUint]);     (* open *)
    (11, [AInt]);                   (* close *)
    (12, [AInt; APtr; ASize]);      (* read *)
    (13, [AInt; APtr; ASize]);      (* write *)
    (14, [AInt; ALong; AInt]);      (* lseek *)
    (16, [APath; ALong]);           (* truncate *)
    (17, [AInt; APtr]);             (* fstat *)
    (18, [AInt; ALong]);            (* ftruncate *)
    (19, [AInt; APtr]);             (* fstatfs *)
    (23, [AInt; APtr; AUint]);      (* getdents *)
    (24, [AInt]);                   (* dup *)
    (25, [AInt; AInt]);             (* dup2 *)
    (26, [APath; APtr]);            (* statfs *)
    (28, [AInt; AInt; AInt]);       (* fcntl *)
    (30, [AInt]);                   (* exit *)
    (47, [APtr; AUint]);            (* getcwd *)
    (56, [AInt]);                   (* epoll_create *)
    (66, [APtr]);                   (* pipe *)
    (67, [APtr; AInt]);             (* pipe2 *)
    (68, [ASize]);                  (* fork *)
    (69, [ASize]);                  (* exec *)
    (125, [APtr; ALong]);           (* gethostname *)
    (126, [AInt; APtr; ASize; ALong]); (* pread *)
    (127, [AInt; APtr; ASize; ALong]); (* pwrite *)
    (130, [APath]);                 (* chdir *)
    (131, [APath; AUint]);          (* mkdir *)
    (132, [APath]);                 (* rmdir *)
    (133, [APath; AUint]);          (* chmod *)
    (134, [AInt; AUint]);           (* fchmod *)
    (161, [AInt]);                  (* fchdir *)
    (162, [AInt]);                  (* fsync *)
    (163, [AInt]);                  (* fdatasync *)
    (170, [AInt; APtr; AInt]) ].    (* writev *)
(** the numbers that other parts of the library handle *)
Definition others : list Z :=
  [15; 21; 22; 29; 31] ++ seqZ 33 8 ++ seqZ 43 4 ++ seqZ 48 7 ++ [57; 58] ++ seqZ 62 4 ++ seqZ 70 11 ++ seqZ 91 7
    ++ [136; 144; 145; 146; 147; 148; 149; 150; 164].

(** the [n] bytes at [p] *)
Definition bytes_at (m : Z -> Z) (p n : Z) : list Z := map m (seqZ p n).
(** an eight-byte number *)
Definition word_at (m : Z -> Z) (p : Z) : Z := number_at m p + 2 ^ 32 * number_at m (p + 4).
(** the buffers that an array of [n] pairs (address, length) lists *)
Definition gathered (m : Z -> Z) (p n : Z) : list (list Z) :=
  map (fun k => bytes_at m (word_at m (p + 16 * k)) (word_at m (p + 16 * k + 8))) (seqZ 0 n).
(** which call it is *)
Definition meaning (m : Z -> Z) (n : Z) (vs : list val) : option op :=
  match n, vs with
  | 2, [Txt p; Num v] => Some (Access p v)
  | 4, [Txt p] => Some (Unlink p)
  | 5, [Txt p; Txt q] => Some (Link p q)
  | 6, [Txt p; Txt q] => Some (Rename p q)
  | 9, [Txt p; Num _] => Some (Stat p)
  | 10, [Txt p; Num f; Num v] => Some (Open p f v)
  | 11, [Num fd] => Some (Close fd)
  | 12, [Num fd; Num _; Num k] => Some (Read fd k)
  | 13, [Num fd; Num b; Num k] => Some (Write fd (bytes_at m b k))
  | 14, [Num fd; Num o; Num wh] => Some (Lseek fd o wh)
  | 16, [Txt p; Num k] => Some (Truncate p k)
  | 17, [Num fd; Num _] => Some (Fstat fd)
  | 18, [Num fd; Num k] => Some (Ftruncate fd k)
  | 23, [Num fd; Num _; Num k] => Some (Getdents fd k)
  | 24, [Num fd] => Some (Dup fd)
  | 25, [Num x; Num y] => Some (Dup2 x y)
  | 28, [Num fd; Num c; Num v] => Some (Fcntl fd c v)
  | 30, [Num st] => Some (Exit st)
  | 47, [Num _; Num k] => Some (Getcwd k)
  | 56, [Num k] => Some (EpollCreate k)
  | 66, [Num _] => Some (Pipe2 0)
  | 67, [Num _; Num f] => Some (Pipe2 f)
  | 68, [Num c] => Some (Fork c)
  | 69, [Num c] => Some (Exec c)
  | 126, [Num fd; Num _; Num k; Num o] => Some (Pread fd k o)
  | 127, [Num fd; Num b; Num k; Num o] => Some (Pwrite fd (bytes_at m b k) o)
  | 130, [Txt p] => Some (Chdir p)
  | 131, [Txt p; Num v] => Some (Mkdir p v)
  | 132, [Txt p] => Some (Rmdir p)
  | 133, [Txt p; Num v] => Some (Chmod p v)
  | 134, [Num fd; Num v] => Some (Fchmod fd v)
  | 161, [Num fd] => Some (Fchdir fd)
  | 162, [Num fd] | 163, [Num fd] => Some (Fsync fd)
  | 170, [Num fd; Num b; Num k] => Some (Writev fd (gathered m b k))
  | _, _ => None
  end.
(** the first words stand for these values *)
Definition well_typed (m : Z -> Z) (ts : list aty) (ws : list Z) (vs : list val) : Prop :=
  Forall2 (fun tw v => stands m (fst tw) (snd tw) v) (zip ts ws) vs.
(** the words before the [k]-th stand for values and the [k]-th is refused *)
Definition first_bad (m : Z -> Z) (ts : list aty) (ws : list Z) (r : Z) : Prop :=
  exists k vs t w, well_typed m (take k ts) (take k ws) vs /\ nth_error ts k = Some t /\ nth_error ws k = Some w /\ refused m t w r.

(** the number that the caller gets; [None] if it waits *)
Definition answer (x : out) : option Z :=
  match x with
  | Ret r | RetData r _ | RetDents r _ | RetFds r _ _ => Some r
  | RetStat _ _ _ _ _ | RetPath _ => Some 0
  | Blocked _ => None
  end.

(** ** Output: what a call prints on the terminal. Text, sent to stdout or
    stderr with write, or to any of the three streams with writev. *)
Inductive sends (w : world) (c : Z) : op -> list Z -> Prop :=
| se_write fd st fl bs : w_fds w !! (c, fd) = Some (FStream st fl) -> st = 1 \/ st = 2 -> sends w c (Write fd bs) bs
| se_writev fd st fl iov : w_fds w !! (c, fd) = Some (FStream st fl) -> sends w c (Writev fd iov) (concat iov).
(** writev refuses what is not text *)
Definition garbled (w : world) (c : Z) (o : op) : Prop := exists fd iov bs, o = Writev fd iov /\ sends w c o bs /\ ~ unicode bs.

(** ** Memory that a call may change: address and length *)
Definition area (n : Z) (a : args) : Z * Z :=
  match n with
  | 9 | 17 => (a2 a, 104)
  | 19 | 26 => (a2 a, 112)
  | 12 | 126 | 23 => (a2 a, a3 a)
  | 47 => (a1 a, a2 a)
  | 66 | 67 => (a1 a, 8)
  | 125 => (a1 a, a2 a)
  | _ => (0, 0)
  end.
Definition in_area (n : Z) (a : args) (x : Z) : Prop := fst (area n a) <= x < fst (area n a) + snd (area n a).

(** ** Memory that a call may read *)
Inductive used (m : Z -> Z) (n : Z) (a : args) : Z -> Prop :=
| us_path ts k p x : (n, ts) ∈ table -> nth_error ts k = Some APath -> nth_error (words a) k = Some p ->
    p <= x -> (forall y, p <= y < x -> m y <> 0) -> used m n a x
| us_buffer x : n = 13 \/ n = 127 -> a2 a <= x < a2 a + a3 a -> used m n a x
| us_array x : n = 170 -> a2 a <= x < a2 a + 16 * a3 a -> used m n a x
| us_gather k x : n = 170 -> 0 <= k < a3 a ->
    word_at m (a2 a + 16 * k) <= x < word_at m (a2 a + 16 * k) + word_at m (a2 a + 16 * k + 8) -> used m n a x.

(** ** What lies in memory after a successful call *)
Definition field (m : Z -> Z) (p : Z) (n : nat) (v : Z) : Prop := of_le (load m p n) = v mod 2 ^ (8 * Z.of_nat n).
Definition delivered (x : out) (p : Z) (m : Z -> Z) : Prop :=
  match x with
  | RetData _ bs => lies m p bs
  | RetStat i mode link sz rdev =>
      field m (p + 8) 8 i /\ field m (p + 16) 4 mode /\ field m (p + 20) 4 link /\ field m (p + 24) 4 1000 /\ field m (p + 28) 4 1000 /\
      field m (p + 32) 8 rdev /\ field m (p + 40) 8 sz
  | RetDents r es => exists bs, lies m p bs /\ Z.of_nat (length bs) = r /\ (Forall storable es -> dirents 0 bs es)
  | RetPath s => lies m p (chars s ++ [0])
  | RetFds 0 a b => number_at m p = a /\ number_at m (p + 4) = b
  | _ => True
  end.
(** does the call read from a random device? *)
Definition from_random (w : world) (c : Z) (o : op) : Prop :=
  exists fd n i pos fl x mn, (o = Read fd n \/ exists off, o = Pread fd n off) /\ w_fds w !! (c, fd) = Some (FFile i pos fl) /\
    w_ino w !! i = Some x /\ i_kind x = KChr 1 mn /\ (mn = 8 \/ mn = 9).
(** offset and contents of the fields that statfs fills *)
Definition fs_fields : list (Z * Z) :=
  [(0, 3203383518); (8, 4096); (16, 0); (24, 1073741824); (32, 1073741824); (40, 1073741824); (48, 540016640); (56, 20); (64, 254); (72, 4096)].

(** ** Programs *)
(** fstatfs, statfs and gethostname do not concern the file system's objects *)
Definition query (n : Z) : Prop := n = 19 \/ n = 26 \/ n = 125.
(** arguments are 64-bit words *)
Definition act_ok (x : act) : Prop := match x with Poke _ _ => True | Call _ _ a _ => Forall is_word (words a) end.
(** the addresses that belong to an action *)
Definition touches (x : act) (y : Z) : Prop := match x with Poke p _ => y = p | Call _ n a _ => in_area n a y end.
(** the second memory has the same bytes where the call reads *)
Definition agree (m1 m2 : Z -> Z) (n : Z) (a : args) : Prop := forall x, used m1 n a x -> m2 x = m1 x.
(** the states agree but for memory *)
Definition same_but (s1 s2 : state) : Prop := s_w s1 = s_w s2 /\ s_tty s1 = s_tty s2.
