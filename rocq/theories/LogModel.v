(** The metadata log at the level of bytes: how an entry is encoded, how it is
    appended to the mapped log file, and how the file is read back.

    Modelled source: /repo/src/interface/file.rs 293-441 [EmulatedFileMap] and
    484-488, /repo/src/safeposix/filesystem.rs 320-333, 391-416;
    /repo/src/interface/misc.rs 33-36 names the encoder, serde_cbor's
    [to_vec_packed], and the decoder, [from_slice].

    Simplifications:
    - serde_cbor is not part of the repository. [enc] and [dec] are the subset
      of CBOR (RFC 7049) that its packed format uses: unsigned integers, text,
      arrays, maps and null; field names and variant names are numbers;
    - uid, gid and the three times are constants in the code; the constants are
      written but not looked at when reading;
    - the file is mapped MAP_SHARED and the process dies, not the machine, so
      every memory write that was done is in the file;
    - [set_len] fails (and [unwrap] aborts) beyond the largest file offset. *)
From Coq Require Import Ascii.
From Verif Require Import Base FsModel.
Local Open Scope list_scope.
Local Open Scope Z_scope.

(** ** CBOR *)

Inductive item :=
| IUint (n : Z)
| IText (bs : list Z)
| IArr (l : list item)
| IMap (l : list item)       (* keys and values in turn *)
| INull.

(** [k] bytes, most significant first: [usize::to_be_bytes] for [k = 8] *)
Fixpoint be (k : nat) (n : Z) : list Z :=
  match k with
  | O => []
  | S j => (n / 256 ^ Z.of_nat j) mod 256 :: be j n
  end.
(** [usize::from_be_bytes], file.rs 484-488 *)
Definition of_be (bs : list Z) : Z := fold_left (fun a b => a * 256 + b) bs 0.

(** RFC 7049 section 2.1: major type and shortest argument *)
Definition head (major n : Z) : list Z :=
  if n <? 24 then [major * 32 + n]
  else if n <? 256 then (major * 32 + 24) :: be 1 n
  else if n <? 65536 then (major * 32 + 25) :: be 2 n
  else if n <? 4294967296 then (major * 32 + 26) :: be 4 n
  else (major * 32 + 27) :: be 8 n.

Fixpoint enc (x : item) : list Z :=
  match x with
  | IUint n => head 0 n
  | IText bs => head 3 (Z.of_nat (length bs)) ++ bs
  | IArr l => head 4 (Z.of_nat (length l)) ++ flat_map enc l
  | IMap l => head 5 (Z.of_nat (length l) / 2) ++ flat_map enc l
  | INull => [246]
  end.

(** [k] more bytes of an argument *)
Definition arg (k : nat) (bs : list Z) : option (Z * list Z) :=
  if (length bs <? k)%nat then None else Some (of_be (take k bs), drop k bs).

Definition dec_head (bs : list Z) : option (Z * Z * list Z) :=
  match bs with
  | [] => None
  | b :: r =>
      let major := b / 32 in
      let info := b mod 32 in
      let wide k := match arg k r with Some (n, r') => Some (major, n, r') | None => None end in
      if info <? 24 then Some (major, info, r)
      else if info =? 24 then wide 1%nat
      else if info =? 25 then wide 2%nat
      else if info =? 26 then wide 4%nat
      else if info =? 27 then wide 8%nat
      else None
  end.

(** [fuel] bounds the number of nested calls; [of_bytes] gives more than any
    input of its length can use *)
Fixpoint dec (fuel : nat) (bs : list Z) : option (item * list Z) :=
  match fuel with
  | O => None
  | S k =>
      match bs with
      | 246 :: r => Some (INull, r)
      | _ =>
          match dec_head bs with
          | None => None
          | Some (major, n, r) =>
              if major =? 0 then Some (IUint n, r)
              else if major =? 3 then
                match (if (length r <? Z.to_nat n)%nat then None else Some tt) with
                | None => None
                | Some _ => Some (IText (take (Z.to_nat n) r), drop (Z.to_nat n) r)
                end
              else if major =? 4 then
                match dec_n k n r with Some (l, r') => Some (IArr l, r') | None => None end
              else if major =? 5 then
                match dec_n k (2 * n) r with Some (l, r') => Some (IMap l, r') | None => None end
              else None
          end
      end
  end
with dec_n (fuel : nat) (n : Z) (bs : list Z) : option (list item * list Z) :=
  match fuel with
  | O => None
  | S k =>
      if n <=? 0 then Some ([], bs) else
      match dec k bs with
      | None => None
      | Some (x, r) =>
          match dec_n k (n - 1) r with Some (l, r') => Some (x :: l, r') | None => None end
      end
  end.

(** The items of an indefinite array, up to the break byte 0xFF *)
Fixpoint dec_indef (fuel : nat) (bs : list Z) : option (list item * list Z) :=
  match fuel with
  | O => None
  | S k =>
      match bs with
      | 255 :: r => Some ([], r)
      | _ =>
          match dec k bs with
          | None => None
          | Some (x, r) =>
              match dec_indef k r with Some (l, r') => Some (x :: l, r') | None => None end
          end
      end
  end.

(** [from_slice] on 0x9F ... 0xFF: the whole input must be used *)
Definition of_bytes (bs : list Z) : option (list item) :=
  match bs with
  | 159 :: r =>
      match dec_indef (3 * length r + 3) r with
      | Some (l, []) => Some l
      | _ => None
      end
  | _ => None
  end.

(** ** Log entries, filesystem.rs 44-122 and 399-410 *)

Definition text (s : string) : item := IText (map (fun a => Z.of_nat (nat_of_ascii a)) (String.list_ascii_of_string s)).
Definition untext (x : item) : option string :=
  match x with
  | IText bs => Some (String.string_of_list_ascii (map (fun b => ascii_of_nat (Z.to_nat b)) bs))
  | _ => None
  end.

(** sys_constants.rs 12-13, fs_constants.rs 45: default uid, gid and time *)
Definition DEFAULT_UID : Z := 1000.
Definition DEFAULT_GID : Z := 1000.
Definition DEFAULTTIME : Z := 1323630836.

Definition fields (x : inode) (more : list item) : item :=
  IMap ([IUint 0; IUint (i_size x); IUint 1; IUint DEFAULT_UID; IUint 2; IUint DEFAULT_GID;
         IUint 3; IUint (i_mode x); IUint 4; IUint (i_link x);
         IUint 5; IUint DEFAULTTIME; IUint 6; IUint DEFAULTTIME; IUint 7; IUint DEFAULTTIME] ++ more).

Definition item_of_inode (x : inode) : item :=
  match i_kind x with
  | KFile => IMap [IUint 0; fields x []]
  | KChr a b => IMap [IUint 1; fields x [IUint 8; IMap [IUint 0; IUint a; IUint 1; IUint b]]]
  | KSock => IMap [IUint 2; fields x []]
  | KDir => IMap [IUint 3; fields x [IUint 8; IMap (flat_map (fun e => [text (fst e); IUint (snd e)]) (map_to_list (i_dict x)))]]
  end.

Definition item_of_entry (e : Z * option inode) : item :=
  IArr [IUint (fst e); match snd e with Some x => item_of_inode x | None => INull end].

Fixpoint undict (l : list item) : option (list (string * Z)) :=
  match l with
  | [] => Some []
  | k :: IUint n :: r =>
      match untext k, undict r with
      | Some s, Some d => Some ((s, n) :: d)
      | _, _ => None
      end
  | _ => None
  end.

Definition unfields (l : list item) : option (Z * Z * Z * list item) :=
  match l with
  | IUint 0 :: IUint size :: IUint 1 :: IUint _ :: IUint 2 :: IUint _ ::
    IUint 3 :: IUint mode :: IUint 4 :: IUint link ::
    IUint 5 :: IUint _ :: IUint 6 :: IUint _ :: IUint 7 :: IUint _ :: more => Some (size, mode, link, more)
  | _ => None
  end.

Definition inode_of_item (x : item) : option inode :=
  match x with
  | IMap [IUint v; IMap l] =>
      match unfields l with
      | None => None
      | Some (size, mode, link, more) =>
          if v =? 0 then match more with [] => Some (Inode KFile size mode link 0 ∅) | _ => None end
          else if v =? 1 then
            match more with
            | [IUint 8; IMap [IUint 0; IUint a; IUint 1; IUint b]] => Some (Inode (KChr a b) size mode link 0 ∅)
            | _ => None
            end
          else if v =? 2 then match more with [] => Some (Inode KSock size mode link 0 ∅) | _ => None end
          else if v =? 3 then
            match more with
            | [IUint 8; IMap d] =>
                match undict d with
                | Some es => Some (Inode KDir size mode link 0 (list_to_map es))
                | None => None
                end
            | _ => None
            end
          else None
      end
  | _ => None
  end.

Definition entry_of_item (x : item) : option (Z * option inode) :=
  match x with
  | IArr [IUint i; INull] => Some (i, None)
  | IArr [IUint i; y] => match inode_of_item y with Some n => Some (i, Some n) | None => None end
  | _ => None
  end.

Definition entry_bytes (e : Z * option inode) : list Z := enc (item_of_entry e).

(** ** The mapped file *)

Definition COUNTMAPSIZE : Z := 8.
Definition MAP_1MB : Z := 1048576.
Definition MAXOFF : Z := 9223372036854775807.

(** file.rs 297-305: the file as it is on disk, [count] and [mapsize] *)
Record lmap := LMap { m_file : list Z; m_count : Z; m_size : Z }.

(** file.rs 312-352 for a file that does not exist yet *)
Definition new_log : lmap := LMap (replicate (Z.to_nat MAP_1MB) 0) 0 (MAP_1MB - COUNTMAPSIZE).

(** What happens to the file, in single steps *)
Inductive mw :=
| WGrow (n : Z)           (* set_len to a larger size *)
| WByte (off b : Z)       (* one byte of the entry *)
| WCount (v : Z).         (* the eight bytes of the count *)

Definition apply_mw (f : list Z) (x : mw) : list Z :=
  match x with
  | WGrow n => f ++ replicate (Z.to_nat n - length f) 0
  | WByte off b => <[Z.to_nat off := b]> f
  | WCount v => be 8 v ++ drop 8 f
  end.

(** file.rs 354-375 with 377-417. First part: growing the file, when the entry
    does not fit. Second part: the bytes of the entry and then the count, or
    nothing if the call aborts (the entry does not even fit the larger map,
    367; or the file cannot grow, 387). *)
Definition plan (m : lmap) (bs : list Z) : list mw * option (list mw * mw) :=
  let e := m_count m + Z.of_nat (length bs) in
  let body := (imap (fun k b => WByte (COUNTMAPSIZE + m_count m + Z.of_nat k) b) bs, WCount e) in
  if m_size m <? e then
    let s := m_size m + MAP_1MB in
    if MAXOFF <? COUNTMAPSIZE + s then ([], None)
    else ([WGrow (COUNTMAPSIZE + s)], if s <? e then None else Some body)
  else ([], Some body).

(** file.rs 354-375 *)
Definition append (m : lmap) (bs : list Z) : outcome lmap :=
  match plan m bs with
  | (g, Some (ws, c)) =>
      Done (LMap (fold_left apply_mw (g ++ ws ++ [c]) (m_file m))
                 (m_count m + Z.of_nat (length bs))
                 (if m_size m <? m_count m + Z.of_nat (length bs) then m_size m + MAP_1MB else m_size m))
  | (_, None) => Panic
  end.

(** filesystem.rs 399-416: log entries one after the other *)
Fixpoint append_all (m : lmap) (es : list (Z * option inode)) : outcome lmap :=
  match es with
  | [] => Done m
  | e :: r => match append m (entry_bytes e) with Done m' => append_all m' r | Panic => Panic end
  end.

(** filesystem.rs 320-333; each [unwrap] and each slice bound aborts *)
Definition read_log (f : list Z) : outcome (list (Z * option inode)) :=
  if (length f <? 8)%nat then Panic else
  let n := of_be (take 8 f) in
  if Z.of_nat (length f) <? COUNTMAPSIZE + n then Panic else
  match of_bytes ([159] ++ take (Z.to_nat n) (drop 8 f) ++ [255]) with
  | None => Panic
  | Some l => match mapM entry_of_item l with Some es => Done es | None => Panic end
  end.
