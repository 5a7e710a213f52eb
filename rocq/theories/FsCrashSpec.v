(** Specification vocabulary for crashes and recovery. *)
From Verif Require Import Base PathModel PathSpec FsModel FsBoot FsSpec.
Local Open Scope list_scope.

(** Two versions of one object have the same kind, mode, link count and, for
    directories, the same entries. *)
Definition same_attrs (x y : inode) : Prop :=
  i_kind x = i_kind y /\ i_mode x = i_mode y /\ i_link x = i_link y /\ i_dict x = i_dict y.

(** The host disk after some effects *)
Definition after (es : list peff) (d : disk) : disk := fold_left (fun d e => apply_eff e d) es d.

(** [crash_point w w' d]: between world [w] and the later world [w'] the host
    disk is [d] at some moment: some of the effects that were carried out, in
    their order, and none of the others. *)
Definition crash_point (w w' : world) (d : disk) : Prop :=
  exists es1 es2, w_trace w' = w_trace w ++ es1 ++ es2 /\ d = after es1 (w_disk w).

(** Every entry of every directory refers to an existing object. *)
Definition whole (t : gmap Z inode) : Prop := forall d f i, entry t d f i -> is_Some (t !! i).

(** The same, except for the objects in [e]. *)
Definition whole_but (e : Z -> Prop) (t : gmap Z inode) : Prop :=
  forall d f i, entry t d f i -> is_Some (t !! i) \/ e i.

(** Object [i] has a name in some directory *)
Definition has_name (t : gmap Z inode) (i : Z) : Prop := exists d f, entry t d f i.

(** The size is as it was, except that an empty file may come back with another
    recorded size. *)
Definition size_ok (y x : inode) : Prop := i_size y = i_size x \/ i_kind x = KFile /\ i_size x = 0.
Definition size_eq (y x : inode) : Prop := i_size y = i_size x.

(** [kept sz w w']: [w'] has the same paths as [w], naming the same objects;
    every object with a name has the same attributes, its sizes being related
    by [sz]; and [w'] has no objects that were not in [w]. *)
Definition kept (sz : inode -> inode -> Prop) (w w' : world) : Prop :=
  (forall q i, resolves (w_ino w) q i <-> resolves (w_ino w') q i) /\
  (forall i x, has_name (w_ino w) i -> w_ino w !! i = Some x ->
     exists y, w_ino w' !! i = Some y /\ same_attrs y x /\ sz y x) /\
  (forall i y, w_ino w' !! i = Some y -> exists x, w_ino w !! i = Some x /\ same_attrs y x /\ sz y x).

(** The calls that change the recorded attributes of more than one object; of
    the others, those that create nothing change at most one. *)
Definition several (o : op) : bool :=
  match o with Link _ _ | Unlink _ | Rmdir _ | Exec _ | Exit _ => true | _ => false end.

(** The same tree, with the same attributes and next object number *)
Definition same_tree (w1 w2 : world) : Prop := w_ino w1 = w_ino w2 /\ w_next w1 = w_next w2.

(** Several lives on one disk: each starts up, runs its history of calls and
    then shuts down cleanly ([true]) or crashes ([false]); what the calls
    returned. *)
Fixpoint lives (d : disk) (hs : list (bool * list (Z * op))) : option (list (list out)) :=
  match hs with
  | [] => Some []
  | (clean, h) :: r =>
      match boot d with
      | Panic => None
      | Done w =>
          match run w h with
          | None => None
          | Some (w1, xs) =>
              match (if clean : bool then finalize w1 else Done w1) with
              | Panic => None
              | Done w2 => match lives (w_disk w2) r with None => None | Some l => Some (xs :: l) end
              end
          end
      end
  end.

(** Everything outside /tmp is in [w'] as it was in [w]: each path leads to the
    same object, with the same kind (for a device also its numbers), mode and
    size and the same bytes. The link count is the same too, unless the object
    also had a name in /tmp, or it is the root and had no entry "tmp". *)
Definition outside_kept (w w' : world) : Prop :=
  forall q i, canonical q -> (forall r, q <> "tmp" :: r) ->
    (resolves (w_ino w) q i <-> resolves (w_ino w') q i) /\
    forall x, resolves (w_ino w) q i -> w_ino w !! i = Some x ->
      exists y, w_ino w' !! i = Some y /\ i_kind y = i_kind x /\ i_mode y = i_mode x /\ i_size y = i_size x /\
        d_host (w_disk w') !! i = d_host (w_disk w) !! i /\
        ((forall r, canonical ("tmp" :: r) -> ~ resolves (w_ino w) ("tmp" :: r) i) ->
         q <> [] \/ (exists j, resolves (w_ino w) ["tmp"] j) -> i_link y = i_link x).
