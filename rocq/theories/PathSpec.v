(** Specification vocabulary for paths. *)
From Verif Require Import Base PathModel.
From Coq Require Import Ascii.

(** Does the string contain a '/'? *)
Fixpoint has_slash (s : string) : bool :=
  match s with EmptyString => false | String a r => Ascii.eqb a "/" || has_slash r end.

(** A name that can stand in a directory: not empty, not "." or "..", no '/'. *)
Definition good_name (f : string) : Prop :=
  f <> "" /\ f <> "." /\ f <> ".." /\ has_slash f = false.

Definition absolute (p : string) : Prop := exists r, p = String "/" r.
Definition canonical (ns : list string) : Prop := Forall good_name ns.

(** Lexical meaning of a path given by words: walking from a stack of names,
    "" and "." stay, ".." goes up (and stays at the root), a name goes down. *)
Inductive walks : list string -> list string -> list string -> Prop :=
| walks_nil st : walks st [] st
| walks_stay st w ws st' : w = "" \/ w = "." -> walks st ws st' -> walks st (w :: ws) st'
| walks_up st n ws st' : walks st ws st' -> walks (st ++ [n]) (".." :: ws) st'
| walks_root ws st' : walks [] ws st' -> walks [] (".." :: ws) st'
| walks_down st w ws st' : w <> "" -> w <> "." -> w <> ".." ->
    walks (st ++ [w]) ws st' -> walks st (w :: ws) st'.

(** The words of a path string: maximal pieces between slashes. *)
Inductive words : string -> list string -> Prop :=
| words_one w : has_slash w = false -> words w [w]
| words_cons w r ws : has_slash w = false -> words r ws -> words (w +:+ String "/" r) (w :: ws).
