(** Which threads have which masks and get which signals: functions of the
    history, newest call first.  Independent of the model's functions. *)
From Verif Require Import Base SigModel SigSpec.

(** Does process [c] exist?  0 and 1 do from the start. *)
Fixpoint alive_in (h : list pop) (c : Z) : bool :=
  match h with
  | [] => (c =? 0) || (c =? 1)
  | PFork _ ch :: h' => (ch =? c) || alive_in h' c
  | PExec p ch :: h' => (ch =? c) || (negb (p =? c) && alive_in h' c)
  | PExit p _ :: h' => negb (p =? c) && alive_in h' c
  | _ :: h' => alive_in h' c
  end.

(** The thread that stands for process [c]: the one that started last, 0 as long
    as none did. *)
Fixpoint main_in (h : list pop) (c : Z) : Z :=
  match h with
  | [] => 0
  | PFork _ ch :: h' | PExec _ ch :: h' => if ch =? c then 0 else main_in h' c
  | PThreadInit c' t :: h' => if c' =? c then t else main_in h' c
  | _ :: h' => main_in h' c
  end.

(** The signals that thread [t] of process [c] blocks: those of the thread that
    stands for the parent (the process before exec), for the first thread to
    start; none, for the others; and from then on what sigprocmask asks for.
    Number 0 keeps the place of the first thread until it starts. *)
Fixpoint mask_in (h : list pop) (c t : Z) : option (gset Z) :=
  match h with
  | [] => None
  | PFork p ch :: h' | PExec p ch :: h' =>
      if ch =? c then (if t =? 0 then mask_in h' p (main_in h' p) else None) else mask_in h' c t
  | PThreadInit c' t' :: h' =>
      if c' =? c then
        if t' =? t then Some (default ∅ (mask_in h' c 0)) else if t =? 0 then None else mask_in h' c t
      else mask_in h' c t
  | PSigprocmask c' t' how (Some s) :: h' =>
      if (c' =? c) && (t' =? t) then
        match mask_in h' c t with Some m => Some (default m (requested how m (members s))) | None => None end
      else mask_in h' c t
  | _ :: h' => mask_in h' c t
  end.

(** The signals given to the host by a call after history [h]. *)
Definition sends_in (h : list pop) (o : pop) (evs : list (Z * Z)) : Prop :=
  match o with
  | PKill _ p s => evs = if (0 <=? p) && (p <? 1024) && alive_in h p then [(main_in h p, s)] else []
  | PExit c _ =>
      let p := parent_in h c in
      evs = if negb (p =? c) && alive_in h p then [(main_in h p, 17)] else []
  | PTick c => evs = [] \/ evs = [(main_in h c, 14)]
  | PSigprocmask c t 1 (Some s) =>
      NoDup evs /\ exists m, mask_in h c t = Some m /\ forall t' x, (t', x) ∈ evs <-> t' = t /\ x ∈ m /\ x ∈ members s /\ x <> 64
  | _ => evs = []
  end.
