(** What to expect of the log when several processes write to it. *)
From stdpp Require Import gmap.
From Verif Require Import Base PathModel FsModel FsBoot FsRaceModel LogRaceModel.
Local Open Scope list_scope.
Local Open Scope Z_scope.

(** The processes take any number of steps, in any order. *)
Definition lsteps : lst -> lst -> Prop := rtc (fun s s' => exists k, lgo s k = Some s').

(** All calls have returned. *)
Definition all_back (s : lst) : Prop := forall k t, l_thr s !! k = Some t -> h_todo t = [] /\ h_buf t = None.

(** The object [i] after a crash in state [s]: as the stored table has it, or
    as the last entry of the log about it has it. *)
Fixpoint last_entry (i : Z) (l : list (Z * option inode)) : option (option inode) :=
  match l with
  | [] => None
  | (j, v) :: r => match last_entry i r with Some u => Some u | None => if i =? j then Some v else None end
  end.
Definition after_crash (base : gmap Z inode) (s : lst) (i : Z) : option inode :=
  match last_entry i (l_log s) with Some v => v | None => base !! i end.

(** What a process does concerns the object [i]. *)
Definition about (i : Z) (a : lact) : Prop := match a with Edit j _ | Log j => j = i end.

(** Only process [k] changes or logs [i]. *)
Definition only (k : nat) (i : Z) (progs : list (list lact)) : Prop :=
  forall j l a, progs !! j = Some l -> a ∈ l -> about i a -> j = k.

(** Every change of [i] is logged later. *)
Definition logs (i : Z) (l : list lact) : Prop :=
  forall l1 f l2, l = l1 ++ Edit i f :: l2 -> Log i ∈ l2.

(** The program of a process that makes the calls [cs] *)
Definition program (cs : list lcall) : list lact := concat (map acts cs).
