(** Specification vocabulary for the tools that copy host files. *)
From stdpp Require Import gmap.
From Verif Require Import Base PathModel PathSpec FsModel FsSpec FsReachSpec FsNameSpec FsIoSpec FsCopyModel.
Local Open Scope list_scope.
Local Open Scope Z_scope.

(** The path [q] leads to a regular file with these bytes. *)
Definition holds_file (w : world) (q : list string) (bs : list Z) : Prop :=
  exists i x, resolves (w_ino w) q i /\ w_ino w !! i = Some x /\ i_kind x = KFile /\ bytes w i = Some bs.

(** [w'] is [w] with files at the paths [L] added or replaced: every path leads
    where it led; a path that leads somewhere new is one of [L] or on the way to
    one, and leads to an object that had no name before; every object with a name
    keeps kind and mode, and unless one of [L] led to it also size and bytes. *)
Record added (L : list (list string)) (w w' : world) : Prop := {
  ad_old p j : canonical p -> resolves (w_ino w) p j -> resolves (w_ino w') p j;
  ad_new p j : canonical p -> resolves (w_ino w') p j ->
    resolves (w_ino w) p j \/
    ((exists q, In q L /\ p `prefix_of` q) /\ forall r, canonical r -> ~ resolves (w_ino w) r j);
  ad_obj p j x : canonical p -> resolves (w_ino w) p j -> w_ino w !! j = Some x ->
    exists y, w_ino w' !! j = Some y /\ i_kind y = i_kind x /\ i_mode y = i_mode x /\
      ((forall q, In q L -> ~ resolves (w_ino w) q j) -> i_size y = i_size x /\ bytes w' j = bytes w j)
}.

(** The files below a host file or directory, with the paths they are copied to *)
Fixpoint files (p : list string) (t : htree) : list (list string * list Z) :=
  match t with
  | HFile bs => [(p, bs)]
  | HDir l => concat (map (fun e => files (p ++ [fst e]) (snd e)) l)
  end.
Definition paths (p : list string) (t : htree) : list (list string) := map fst (files p t).

(** What a host provides: the names in a directory are names, and distinct. *)
Fixpoint host_ok (t : htree) : Prop :=
  match t with
  | HFile _ => True
  | HDir l => NoDup (map fst l) /\ Forall good_name (map fst l) /\ fold_right (fun e P => host_ok (snd e) /\ P) True l
  end.

(** Nothing is in the way of a file at [q]: what [q] leads to, if anything, is a
    regular file; what is on the way is a directory or missing. *)
Definition way_free (w : world) (q : list string) : Prop :=
  (forall i x, resolves (w_ino w) q i -> w_ino w !! i = Some x -> i_kind x = KFile) /\
  (forall p f r i x, q = p ++ f :: r -> resolves (w_ino w) p i -> w_ino w !! i = Some x ->
     i_kind x = KDir /\ dir_mode x).

(** No two of these paths lead to the same file. *)
Definition unlinked (w : world) (L : list (list string)) : Prop :=
  forall a b i, In a L -> In b L -> resolves (w_ino w) a i -> resolves (w_ino w) b i -> a = b.

(** [w'] is [w] with the files at the paths [P] replaced or added: every other path
    leads where it led, a path that leads somewhere new is in [P] or on the way to
    one, and every object that has a name outside [P] is as it was, also if a path
    in [P] was another name of it. *)
Record replaced (P : list string -> Prop) (w w' : world) : Prop := {
  re_old p j : canonical p -> ~ P p -> resolves (w_ino w) p j -> resolves (w_ino w') p j;
  re_new p j : canonical p -> resolves (w_ino w') p j ->
    resolves (w_ino w) p j \/ exists q, P q /\ p `prefix_of` q;
  re_obj p j x : canonical p -> ~ P p -> resolves (w_ino w) p j -> w_ino w !! j = Some x ->
    exists y, w_ino w' !! j = Some y /\ i_kind y = i_kind x /\ i_mode y = i_mode x /\ i_size y = i_size x /\ bytes w' j = bytes w j
}.

(** The tool can update [q] to [bs]: nothing is in the way; if there is a file it
    has the type of a regular file and its directory is writable; if there is none
    and nothing is to be written, its directory is there. *)
Record can_update (w : world) (q : list string) (bs : list Z) : Prop := {
  cu_way : way_free w q;
  cu_size i l : resolves (w_ino w) q i -> bytes w i = Some l -> len l < 2147483648;
  cu_type i x : resolves (w_ino w) q i -> w_ino w !! i = Some x -> Z.land (i_mode x) S_FILETYPEFLAGS = S_IFREG;
  cu_dir i d y : resolves (w_ino w) q i -> resolves (w_ino w) (removelast q) d -> w_ino w !! d = Some y -> writable y;
  cu_none : bs = [] -> (forall i, ~ resolves (w_ino w) q i) -> exists d, resolves (w_ino w) (removelast q) d
}.
