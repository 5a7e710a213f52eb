(** Vocabulary of the flock properties. *)
From Verif Require Import Base LockModel.
Local Open Scope Z_scope.

(** What an operation number asks for, read off its bits: 0 is LOCK_SH, 1 is
    LOCK_EX, 3 is LOCK_UN, and exactly one of them is set; bit 2 is LOCK_NB. All
    other bits are ignored. [C70_requests]: the code reads it so. *)
Definition asks (n : Z) : option lkind :=
  match Z.testbit n 0, Z.testbit n 1, Z.testbit n 3 with
  | true, false, false => Some KSh
  | false, true, false => Some KEx
  | false, false, true => Some KUn
  | _, _, _ => None
  end.

(** What thread [i] holds on open file [d]: the last successful call decides. *)
Definition grab (i d : nat) (acc : option lkind) (e : lev) : option lkind :=
  match e with
  | LRet j n d' r =>
      if bool_decide (i = j /\ d = d' /\ r = 0) then
        match lkind_of n with Some KSh => Some KSh | Some KEx => Some KEx | _ => None end
      else acc
  | _ => acc
  end.
Definition holds (tr : list lev) (i d : nat) : option lkind := fold_left (grab i d) tr None.

(** Threads ask for a lock only when they hold none on that open file, and
    give back only what they hold. *)
Definition lpolite (tr : list lev) : Prop :=
  forall tr1 i n d tr2, tr = tr1 ++ LCall i n d :: tr2 ->
    match lkind_of n with
    | Some KUn => holds tr1 i d <> None
    | Some _ => holds tr1 i d = None
    | None => True
    end.

(** No thread holds anything on [d]. *)
Definition unlocked (k : nat) (tr : list lev) (d : nat) : Prop :=
  forall i, (i < k)%nat -> holds tr i d = None.

(** Thread [i] is inside a call of [flock] with argument [n] on [d]. *)
Definition calling (tr : list lev) (i : nat) (n : Z) (d : nat) : Prop :=
  exists tr1 tr2, tr = tr1 ++ LCall i n d :: tr2 /\
    forall e, e ∈ tr2 -> match e with LRet j _ _ _ => i <> j | _ => True end.
