(** Specification vocabulary for the file-system properties. Nothing here uses
    the functions of the model, only its state. *)
From Verif Require Import Base PathModel PathSpec FsModel.
Local Open Scope list_scope.

(** [resolves t p i]: starting at the root directory and following the names
    [p] one after the other leads to object [i]. *)
Inductive resolves (t : gmap Z inode) : list string -> Z -> Prop :=
| res_root : resolves t [] ROOTINO
| res_step p d x f i :
    resolves t p d -> t !! d = Some x -> i_kind x = KDir -> i_dict x !! f = Some i ->
    resolves t (p ++ [f]) i.

(** [entry t d f i]: the directory [d] has the name [f] for [i]; the two
    administrative names do not count. *)
Definition entry (t : gmap Z inode) (d : Z) (f : string) (i : Z) : Prop :=
  f <> "." /\ f <> ".." /\ exists x, t !! d = Some x /\ i_dict x !! f = Some i.

(** The path string [p] used in working directory [cwd] means the names [r]. *)
Inductive denotes (cwd : list string) (p : string) : list string -> Prop :=
| denotes_intro ws st r :
    words p ws -> (absolute p -> st = []) -> (~ absolute p -> st = cwd) -> walks st ws r ->
    denotes cwd p r.

(** The same call written with other path strings that mean the same names. *)
Definition same_path (cwd : list string) (p q : string) : Prop :=
  p <> "" /\ q <> "" /\ exists r, denotes cwd p r /\ denotes cwd q r.
Inductive same_call (cwd : list string) : op -> op -> Prop :=
| sc_open p q fl m : same_path cwd p q -> same_call cwd (Open p fl m) (Open q fl m)
| sc_creat p q m : same_path cwd p q -> same_call cwd (Creat p m) (Creat q m)
| sc_mkdir p q m : same_path cwd p q -> same_call cwd (Mkdir p m) (Mkdir q m)
| sc_mknod p q m d : same_path cwd p q -> same_call cwd (Mknod p m d) (Mknod q m d)
| sc_link a b a' b' : same_path cwd a a' -> same_path cwd b b' -> same_call cwd (Link a b) (Link a' b')
| sc_unlink p q : same_path cwd p q -> same_call cwd (Unlink p) (Unlink q)
| sc_rmdir p q : same_path cwd p q -> same_call cwd (Rmdir p) (Rmdir q)
| sc_rename a b a' b' : same_path cwd a a' -> same_path cwd b b' -> same_call cwd (Rename a b) (Rename a' b')
| sc_chmod p q m : same_path cwd p q -> same_call cwd (Chmod p m) (Chmod q m)
| sc_truncate p q n : same_path cwd p q -> same_call cwd (Truncate p n) (Truncate q n)
| sc_stat p q : same_path cwd p q -> same_call cwd (Stat p) (Stat q)
| sc_access p q m : same_path cwd p q -> same_call cwd (Access p m) (Access q m)
| sc_chdir p q : same_path cwd p q -> same_call cwd (Chdir p) (Chdir q).
