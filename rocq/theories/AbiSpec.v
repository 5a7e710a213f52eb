(** Specification vocabulary for the boundary (C76-C82). *)
From Coq Require Import Ascii.
From Verif Require Import Base PathModel FsModel AbiModel.
Local Open Scope list_scope.
Local Open Scope Z_scope.

(** ** Words. The word a caller passes for a value: padded with zeros or with
    copies of the sign. *)
Definition zero_extended (bits v : Z) : Z := v mod 2 ^ bits.
Definition sign_extended (v : Z) : Z := v mod 2 ^ 64.
Definition is_int (v : Z) : Prop := - 2 ^ 31 <= v < 2 ^ 31.
Definition is_uint (v : Z) : Prop := 0 <= v < 2 ^ 32.
Definition is_long (v : Z) : Prop := - 2 ^ 63 <= v < 2 ^ 63.

(** ** Memory *)
Definition is_byte (b : Z) : Prop := 0 <= b < 256.
Definition bytes_only (m : Z -> Z) : Prop := forall a, is_byte (m a).
(** [bs] lies at address [p] *)
Definition lies (m : Z -> Z) (p : Z) (bs : list Z) : Prop :=
  forall k b, nth_error bs k = Some b -> m (p + Z.of_nat k) = b.
(** the 32-bit number at address [p] *)
Definition number_at (m : Z -> Z) (p : Z) : Z := m p + 256 * m (p + 1) + 65536 * m (p + 2) + 16777216 * m (p + 3).
(** nothing outside [p .. p+n) differs *)
Definition only_within (m m' : Z -> Z) (p n : Z) : Prop := forall a, ~ (p <= a < p + n) -> m' a = m a.
(** the two memories hold the same [n] bytes at [p] *)
Definition same_at (m m' : Z -> Z) (p n : Z) : Prop := forall a, p <= a < p + n -> m' a = m a.

(** ** Socket addresses *)
(** an address with the family number [f] and components in range *)
Definition address (f : Z) (g : gsock) : Prop :=
  match g with
  | GUnix f' path => f' = f /\ length path = 108%nat /\ Forall is_byte path
  | GV4 f' port addr pad => f' = f /\ 0 <= port < 2 ^ 16 /\ 0 <= addr < 2 ^ 32 /\ 0 <= pad < 2 ^ 64
  | GV6 f' port flow addr scope =>
      f' = f /\ 0 <= port < 2 ^ 16 /\ 0 <= flow < 2 ^ 32 /\ length addr = 16%nat /\ Forall is_byte addr /\ 0 <= scope < 2 ^ 32
  end.
(** the family number the socket calls use for each kind *)
Definition family_of (g : gsock) : Z :=
  match g with GUnix _ _ => AF_UNIX | GV4 _ _ _ _ => AF_INET | GV6 _ _ _ _ _ => AF_INET6 end.
Definition size_of (g : gsock) : Z :=
  match g with GUnix _ _ => 110 | GV4 _ _ _ _ => 16 | GV6 _ _ _ _ _ => 28 end.
Definition is_v6 (g : gsock) : Prop := match g with GV6 _ _ _ _ _ => True | _ => False end.

(** ** Numerals and textual addresses *)
Inductive numeral : list Z -> Z -> Prop :=
| num_one d : 0 <= d <= 9 -> numeral [48 + d] d
| num_more s n d : numeral s n -> 0 <= d <= 9 -> numeral (s ++ [48 + d]) (10 * n + d).
(** [s] is accepted as the number [n]: a plus sign is tolerated *)
Definition reads_as (s : list Z) (n : Z) : Prop := numeral s n \/ exists t, s = 43 :: t /\ numeral t n.
(** [a.b.c.d] *)
Definition dotted (a b c d : list Z) : list Z := a ++ [46] ++ b ++ [46] ++ c ++ [46] ++ d.
(** the pieces separated by colons *)
Fixpoint colons (ps : list (list Z)) : list Z :=
  match ps with [] => [] | [p] => p | p :: r => p ++ [58] ++ colons r end.
(** sixteen bytes from eight groups, high byte first *)
Definition group_bytes (gs : list Z) : list Z := flat_map (fun g => [g / 256; g mod 256]) gs.
(** the hexadecimal digits of a group, without leading zeros *)
Definition hexdigit (d : Z) : Z := if d <? 10 then 48 + d else 87 + d.
Definition hexgroup (g : Z) : list Z :=
  if g <? 16 then [hexdigit g]
  else if g <? 256 then [hexdigit (g / 16); hexdigit (g mod 16)]
  else if g <? 4096 then [hexdigit (g / 256); hexdigit (g / 16 mod 16); hexdigit (g mod 16)]
  else [hexdigit (g / 4096); hexdigit (g / 256 mod 16); hexdigit (g / 16 mod 16); hexdigit (g mod 16)].
(** the full textual form of an IPv6 address *)
Definition v6_text (gs : list Z) : list Z := colons (map hexgroup gs).

(** a line of the device file: a name, a second field, an address, more *)
Definition no_char (c : Z) (s : list Z) : Prop := ~ c ∈ s.
Inductive device_line : list Z -> list Z -> Prop :=
| dl nm snd a b c d rest va vb vc vd :
    no_char 32 nm -> no_char 32 snd -> no_char 10 nm -> no_char 10 snd -> no_char 10 rest ->
    numeral a va -> numeral b vb -> numeral c vc -> numeral d vd -> va <= 255 -> vb <= 255 -> vc <= 255 -> vd <= 255 ->
    device_line (nm ++ [32] ++ snd ++ [32] ++ dotted a b c d ++ [32] ++ rest) [va; vb; vc; vd].
(** a file of such lines, each ended by a newline *)
Inductive device_file : list Z -> list (list Z) -> Prop :=
| df_nil : device_file [] []
| df_line l a f r : device_line l a -> device_file f r -> device_file (l ++ [10] ++ f) (a :: r).

(** ** Directory records: what a program that walks the buffer sees. A record
    holds the object number (8 bytes), the offset of the next record (8), its
    own length (2), the name and a NUL. *)
Definition word (n : nat) (v : Z) (bs : list Z) : Prop :=
  length bs = n /\ 0 <= v < 256 ^ Z.of_nat n /\ forall k b, nth_error bs k = Some b -> b = v / 256 ^ Z.of_nat k mod 256.
Inductive dirents : Z -> list Z -> list (string * Z) -> Prop :=
| de_nil o : dirents o [] []
| de_cons o ino n f i off len pad rest l :
    word 8 i ino -> word 8 (o + n) off -> word 2 n len -> no_char 0 (chars f) ->
    n = 18 + Z.of_nat (length (chars f)) + 1 + Z.of_nat (length pad) -> n mod 8 = 0 ->
    dirents (o + n) rest l ->
    dirents o (ino ++ off ++ len ++ chars f ++ [0] ++ pad ++ rest) ((f, i) :: l).
(** an entry whose record length can be written in two bytes *)
Definition storable (e : string * Z) : Prop :=
  no_char 0 (chars (fst e)) /\ Z.of_nat (String.length (fst e)) <= 65508 /\ 0 <= snd e < 2 ^ 64.

(** ** Descriptor sets *)
Definition fd_set (s : list Z) : Prop := length s = 16%nat /\ Forall (fun w => 0 <= w < 2 ^ 64) s.
Definition valid_fd (fd : Z) : Prop := 0 <= fd < 1024.
Definition member (s : list Z) (fd : Z) : Prop := fdset_is_set s fd = Done true.
