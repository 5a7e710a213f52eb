(** What programs do in terms of the views of FsViewSpec. *)
From Verif Require Import Base PathModel PathSpec FsModel FsViewSpec FsAbortSpec FsCopyModel ToolModel.
Local Open Scope list_scope.
Local Open Scope Z_scope.

(** The program on the specification's machine. [None]: it makes a call that
    the specification does not cover, or that brings the runtime down. *)
Fixpoint aprog (a : view) (c : Z) (p : prog) : option (view * list string * ended) :=
  match p with
  | Stop => Some (a, [], Finished)
  | Fail => Some (a, [], Failed)
  | Spin => Some (a, [], Running)
  | Call o k =>
      if allowed a c o && negb (aborts a c o) then let '(a', x) := aexec a c o in aprog a' c (k x) else None
  | Say s q => match aprog a c q with Some (a', ss, e) => Some (a', s :: ss, e) | None => None end
  end.

(** [p] is [q] or below it; [p] is below it *)
Definition within (q p : list string) : Prop := q `prefix_of` p.
Definition below (q p : list string) : Prop := q `prefix_of` p /\ q <> p.
Global Instance within_dec q p : Decision (within q p) := _.
Global Instance below_dec q p : Decision (below q p) := _.

(** The type bits in the modes say what is a directory *)
Definition says_truth (a : view) (i : Z) : Prop :=
  match vw_obj a !! i with Some o => says_dir (o_mode o) = is_adir a i | None => True end.
(** The length of all records of a listing *)
Definition total_len (m : gmap string Z) : Z := foldr Z.add 0 ((fun e : string * Z => record_len (fst e)) <$> map_to_list m).

(** What the tool needs of the tree at [q] to handle it: truthful modes, and as
    many free descriptors as directories are nested. *)
Record tool_ok (a : view) (pr : aproc) (q : list string) : Prop := {
  ok_mode p i : vw_at a !! p = Some i -> within q p -> says_truth a i;
  ok_deep p i : vw_at a !! p = Some i -> within q p -> is_adir a i = true ->
    Z.of_nat (length p - length q) + Z.of_nat (size (q_tab pr)) < 1024
}.
(** Every directory's records fit into the tool's buffer *)
Definition small_dirs (a : view) (q : list string) : Prop :=
  forall p i, vw_at a !! p = Some i -> within q p -> is_adir a i = true -> total_len (listing a p i) <= 65536.
(** Every single record does, and its length fits into the 16 bits that the
    record has for it (so that the tool finds the next one) *)
Definition small_names (a : view) (q : list string) : Prop :=
  forall p i f, vw_at a !! (p ++ [f]) = Some i -> within q p -> record_len f < 65536.
(** The number of levels below [q] is less than [n] *)
Definition shallow (a : view) (q : list string) (n : nat) : Prop :=
  forall p i, vw_at a !! p = Some i -> within q p -> (length p - length q < n)%nat.

(** [a'] is [a] without the names in [Q]. Processes, pipes and all objects, also
    those that only a descriptor leads to, are as they were, except that link
    counts may differ and that directories at names in [D] may have got other
    permissions. *)
Record without (Q D : list string -> Prop) (a a' : view) : Prop := {
  wo_at p i : vw_at a' !! p = Some i <-> vw_at a !! p = Some i /\ ~ Q p;
  wo_kind i : kind_of a' i = kind_of a i;
  wo_mode i : (o_mode <$> vw_obj a' !! i) = (o_mode <$> vw_obj a !! i) \/
    (is_adir a i = true /\ exists p, D p /\ vw_at a !! p = Some i);
  wo_type i : (says_dir ∘ o_mode <$> vw_obj a' !! i) = (says_dir ∘ o_mode <$> vw_obj a !! i);
  wo_next : vw_next a' = vw_next a;
  wo_proc : vw_proc a' = vw_proc a;
  wo_pipe : vw_pipe a' = vw_pipe a
}.

(** [l] is the list of the names in the directory [q] *)
Definition names_in (a : view) (q : list string) (l : list string) : Prop :=
  NoDup l /\ forall f, f ∈ l <-> is_Some (vw_at a !! (q ++ [f])).
(** The word [ls] prints for one of them *)
Definition ls_word (a : view) (q : list string) (path f : string) : string :=
  match vw_at a !! (q ++ [f]) with
  | Some j => if is_adir a j then down path f +:+ "/ " else down path f +:+ " "
  | None => ""
  end.
Definition newline : string := String (Ascii.ascii_of_nat 10) "".

(** A line of the drawing: bars for the levels above, a branch, and the name *)
Definition drawn (level : nat) (name : string) : string :=
  foldr (fun s t => s +:+ t) newline (repeat "|   " level ++ ["|---"; name]).

(** The drawing of what is below [q]: one line for each name in it, and under
    the line the drawing of what is below that name, one level further in *)
Inductive drawing (a : view) : list string -> string -> nat -> list string -> Prop :=
| Drawn q path level l sub : names_in a q l ->
    (forall f, f ∈ l -> drawing a (q ++ [f]) (down path f) (S level) (sub f)) ->
    drawing a q path level (concat (map (fun f => drawn level (down path f) :: sub f) l)).
(** The line for the name that [r] leads to from [path] *)
Definition line_for (path : string) (level : nat) (r : list string) : string :=
  drawn (level + (length r - 1)) (fold_left down r path).
