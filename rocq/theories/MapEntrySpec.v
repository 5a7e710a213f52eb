(** Specification vocabulary for the entry point of mmap and munmap (C136). *)
From stdpp Require Import gmap.
From Verif Require Import Base FsModel AbiModel AbiSpec EntryModel MapModel MapEntryModel.
Local Open Scope list_scope.
Local Open Scope Z_scope.

(** the words of the two calls: an address that is not null, a size, three ints
    (padded with zeros to a word) and a long *)
Definition mmap_words (a : args) (addr len prot flags fd off : Z) : Prop :=
  addr <> 0 /\ is_word len /\ is_int prot /\ is_int flags /\ is_int fd /\ is_long off /\
  a1 a = addr /\ a2 a = len /\ a3 a = prot mod 2 ^ 32 /\ a4 a = flags mod 2 ^ 32 /\ a5 a = fd mod 2 ^ 32 /\ a6 a = off mod 2 ^ 64.
Definition munmap_words (a : args) (addr len : Z) : Prop := addr <> 0 /\ is_word len /\ a1 a = addr /\ a2 a = len.
(** what an action asks for *)
Inductive means : wact -> mop -> Prop :=
| mean_map c a ans addr len prot flags fd off : mmap_words a addr len prot flags fd off -> means (WMmap c a ans) (Mmap c addr len prot flags fd off ans)
| mean_unmap c a ans addr len : munmap_words a addr len -> means (WMunmap c a ans) (Munmap c addr len ans)
| mean_plain o : means (WPlain o) o.
(** the answer to words that ask for nothing: a null address, or else an int
    with bits above the low 32 *)
Inductive senseless : wact -> Z -> Prop :=
| no_addr c a ans : a1 a = 0 -> senseless (WMmap c a ans) (-14)
| no_addr_un c a ans : a1 a = 0 -> senseless (WMunmap c a ans) (-14)
| wide c a ans : a1 a <> 0 -> 2 ^ 32 <= a3 a \/ 2 ^ 32 <= a4 a \/ 2 ^ 32 <= a5 a -> senseless (WMmap c a ans) (-22).
(** the words are words *)
Definition wordy (x : wact) : Prop :=
  match x with WMmap _ a _ | WMunmap _ a _ => Forall is_word [a1 a; a2 a; a3 a; a4 a; a5 a; a6 a] | WPlain _ => True end.
(** the process that calls *)
Definition caller (x : wact) : option Z := match x with WMmap c _ _ | WMunmap c _ _ => Some c | WPlain _ => None end.
