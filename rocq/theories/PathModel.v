(** Path strings and their lexical normalisation.
    Models [convpath] and [normpath], /repo/src/safeposix/filesystem.rs
    435-437 and 589-615, together with the parts of Rust's [std::path] they
    use ([Path::components], [is_relative], [PathBuf::push], [PathBuf::pop]).

    Simplification: characters are 8-bit (Coq [string]); a [PathBuf] that is
    known to be absolute and normalised (a working directory or a result of
    [normpath]) is represented by the list of its names; [render] gives the
    string it stands for. *)
From Verif Require Import Base.
From Coq Require Import Ascii.
Open Scope string_scope.
Open Scope Z_scope.

Inductive component := RootDir | CurDir | ParentDir | Normal (f : string).

(** Splits at every '/'. *)
Fixpoint split_slash (s : string) : list string :=
  match s with
  | EmptyString => [EmptyString]
  | String a r =>
      if Ascii.eqb a "/" then EmptyString :: split_slash r
      else match split_slash r with
           | [] => [String a EmptyString]
           | x :: xs => String a x :: xs
           end
  end.

(** [Path::has_root] / [is_absolute] on Unix *)
Definition has_root (s : string) : bool :=
  match s with String a _ => Ascii.eqb a "/" | EmptyString => false end.

(** One piece between separators, not at the start of a relative path. *)
Definition piece (x : string) : list component :=
  if String.eqb x "" then [] else if String.eqb x "." then []
  else if String.eqb x ".." then [ParentDir] else [Normal x].

(** [Path::components]: repeated separators and '.' are dropped, except a '.'
    at the very start of a relative path. *)
Definition components (s : string) : list component :=
  if has_root s then RootDir :: List.concat (map piece (split_slash s))
  else match split_slash s with
       | [] => []
       | x :: xs => (if String.eqb x "." then [CurDir] else piece x) ++ List.concat (map piece xs)
       end.

(** The string of an absolute normalised path: "/" or "/a/b". *)
Definition render (ns : list string) : string := "/" +:+ String.concat "/" ns.

(** filesystem.rs 598-613: one component *)
Definition norm_step (newp : list string) (c : component) : list string :=
  match c with
  | Normal f => newp ++ [f]          (* newp.push(comp) *)
  | ParentDir => removelast newp     (* newp.pop(), no effect on "/" *)
  | _ => newp
  end.

(** filesystem.rs 589-615 *)
Definition normpath (cwd : list string) (origp : string) : list string :=
  fold_left norm_step (components origp) (if has_root origp then [] else cwd).

(** filesystem.rs / std: [PathBuf::file_name] of a normalised absolute path. *)
Definition file_name (p : list string) : option string := last p.
