(** Vocabulary of the properties of the log file. *)
From Verif Require Import Base FsModel LogModel.
Local Open Scope list_scope.
Local Open Scope Z_scope.

(** Values that fit the fields of the Rust structures *)
Definition u64 (n : Z) : Prop := 0 <= n < 18446744073709551616.
Definition fits (x : inode) : Prop :=
  u64 (i_size x) /\ u64 (i_mode x) /\ u64 (i_link x) /\ i_ref x = 0 /\
  (forall f n, i_dict x !! f = Some n -> u64 n /\ u64 (Z.of_nat (String.length f))) /\
  Z.of_nat (size (i_dict x)) < 9223372036854775808 /\
  match i_kind x with
  | KDir => True
  | KChr a b => u64 a /\ u64 b /\ i_dict x = ∅
  | _ => i_dict x = ∅
  end.
Definition entry_fits (e : Z * option inode) : Prop :=
  u64 (fst e) /\ match snd e with Some x => fits x | None => True end.

(** [dies m bs f]: the process may die while it appends [bs] to the log [m] and
    leave the file [f] behind: the file is grown first, if at all; then the
    bytes of the entry are copied in any order; the count comes last, in one
    store; and any number of these writes has been done. *)
Definition dies (m : lmap) (bs : list Z) (f : list Z) : Prop :=
  exists ws done rest,
    (match plan m bs with
     | (g, Some (b, c)) => exists b', Permutation b b' /\ ws = g ++ b' ++ [c]
     | (g, None) => ws = g
     end) /\ ws = done ++ rest /\ f = fold_left apply_mw done (m_file m).

(** The same when the processor stores the eight bytes of the count one by one,
    in some order (the code asks for a copy of eight bytes, file.rs 372) *)
Definition dies_bytewise (m : lmap) (bs : list Z) (f : list Z) : Prop :=
  exists ws done rest,
    (match plan m bs with
     | (g, Some (b, WCount v)) =>
         exists b' c', Permutation b b' /\ Permutation (imap (fun k x => WByte (Z.of_nat k) x) (be 8 v)) c' /\
                       ws = g ++ b' ++ c'
     | (g, _) => ws = g
     end) /\ ws = done ++ rest /\ f = fold_left apply_mw done (m_file m).

(** The files that exist while a log is created: file.rs 313-321, [open] with
    [create], then [set_len] *)
Definition creation_files : list (list Z) := [[]; m_file new_log].
