(** Several processes that change objects and log the changes at the same time.

    A call changes objects one at a time, each under its lock, and then calls
    log_metadata for what it changed.  log_metadata (filesystem.rs 399-416)
    first copies the object into a buffer, under the lock of the object, and
    then appends the buffer to the log, under the lock of the log; between the
    two it holds no lock.

    Simplifications.  What the calls do to the objects is given as functions:
    the walks and checks before are left out ([FsRaceModel] has them), and the
    theorems are for all such functions.  The log is a list of entries
    ([LogModel] has its bytes). *)
From stdpp Require Import gmap.
From Verif Require Import Base CodecModel PathModel FsModel FsRaceModel.
Local Open Scope list_scope.
Local Open Scope Z_scope.

(** A change of one object, or log_metadata for it *)
Inductive lact :=
  | Edit (i : Z) (f : option inode -> option inode)
  | Log (i : Z).

(** A process: what it has still to do, the entry it is about to append *)
Record thr := Thr { h_todo : list lact; h_buf : option (Z * option inode) }.

Record lst := Lst {
  l_tab : gmap Z inode;              (* FS_METADATA.inodetable *)
  l_log : list (Z * option inode);   (* the log *)
  l_thr : list thr
}.

(** One step of process [k] *)
Definition lgo (s : lst) (k : nat) : option lst :=
  match l_thr s !! k with
  | None => None
  | Some t =>
      match h_buf t with
      | Some e =>                                            (* filesystem.rs 413-415 *)
          Some (Lst (l_tab s) (l_log s ++ [e]) (<[k := Thr (h_todo t) None]> (l_thr s)))
      | None =>
          match h_todo t with
          | [] => None
          | Edit i f :: r =>
              Some (Lst (partial_alter f i (l_tab s)) (l_log s) (<[k := Thr r None]> (l_thr s)))
          | Log i :: r =>                                    (* 404-410 *)
              Some (Lst (l_tab s) (l_log s) (<[k := Thr r (Some (i, l_tab s !! i))]> (l_thr s)))
          end
      end
  end.

Fixpoint lplay (s : lst) (l : list nat) : option lst :=
  match l with
  | [] => Some s
  | k :: r => match lgo s k with Some s' => lplay s' r | None => None end
  end.

(** The calls that succeed, with the objects they are about *)
Inductive lcall :=
  | LNew (par : Z) (f : string) (n : Z) (x : inode)   (* open, mkdir, mknod of a new name *)
  | LLink (i par : Z) (f : string)
  | LUnlink (i par : Z) (f : string) (gone : bool)    (* [gone]: it was the last link and not open *)
  | LRmdir (i par : Z) (f : string) (gone : bool)
  | LRename (i par : Z) (fo fn : string)
  | LChmod (i mode : Z)
  | LGrow (i size : Z).                               (* write behind the end *)

Definition on (f : inode -> inode) : option inode -> option inode := fmap f.

Definition acts (c : lcall) : list lact :=
  match c with
  | LNew par f n x =>                                        (* fs_calls.rs 274-293, 540-557, 704-721 *)
      [Edit par (run_edit (AddName f n)); Edit n (fun _ => Some x); Log par; Log n]
  | LLink i par f =>                                         (* 827-850, 873-887 *)
      [Edit i (on (fun x => set_link (i_link x + 1) x)); Edit par (run_edit (AddName f i)); Log par; Log i]
  | LUnlink i par f gone =>                                  (* 995-1071 *)
      [Edit i (on (fun x => set_link (i_link x - 1) x)); Edit par (run_edit (DelName f))] ++
      (if gone then [Edit i (fun _ => None)] else []) ++ [Log par; Log i]
  | LRmdir i par f gone =>                                   (* 4820-4859 *)
      (if gone then [Edit i (on (set_link 2))] else []) ++ [Edit par (run_edit (DelName f))] ++
      (if gone then [Edit i (fun _ => None)] else []) ++ [Log par; Log i]
  | LRename i par fo fn =>                                   (* 4938-4966 *)
      [Edit par (run_edit (MvName fo fn i)); Log par]
  | LChmod i mode =>                                         (* 4151-4187 *)
      [Edit i (on (fun x => set_mode (Z.lor (Z.ldiff (i_mode x) S_IRWXA) mode) x)); Log i]
  | LGrow i size =>                                          (* 2104-2109 *)
      [Edit i (on (set_size size)); Log i]
  end.

(** The processes at their start; [base] is the table that was stored last, and
    the log is empty. *)
Definition lstart (base : gmap Z inode) (progs : list (list lact)) : lst :=
  Lst base [] (map (fun l => Thr l None) progs).
