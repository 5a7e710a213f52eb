(** What a program with several threads can rely on about its descriptors,
    in terms of the calls and returns it sees. *)
From Verif Require Import Base FdRaceModel.
Local Open Scope list_scope.
Local Open Scope nat_scope.

(** The call thread [i] is in, if any *)
Definition now1 (i : nat) (x : option fcall) (e : fev) : option fcall :=
  match e with
  | Call j c => if j =? i then Some c else x
  | Ret j _ _ => if j =? i then None else x
  end.
Definition now (tr : list fev) (i : nat) : option fcall := fold_left (now1 i) tr None.

Definition opened1 (k : nat) (x : bool) (e : fev) : bool :=
  match e with
  | Ret _ (COpen _ _) (Num k') => if k' =? k then true else x
  | Ret _ (CDup2 _ b) (Num _) => if b =? k then true else x
  | Ret _ (CClose k') Zero => if k' =? k then false else x
  | _ => x
  end.
(** Number [k] is open. *)
Definition opened (tr : list fev) (k : nat) : bool := fold_left (opened1 k) tr false.

(** The call is about number [k], or may be about any number. *)
Definition about (c : fcall) (k : nat) : bool :=
  match c with
  | COpen _ _ => true
  | CClose k' | CUse k' => k' =? k
  | CDup2 a b => (a =? k) || (b =? k)
  end.
(** Event of thread [i] *)
Definition by_thread (i : nat) (e : fev) : bool :=
  match e with Call j _ | Ret j _ _ => j =? i end.

(** At some moment while thread [i] was in its present call [c], number [k]
    was open or some other thread was in a call about it. *)
Definition was_taken (tr : list fev) (i : nat) (c : fcall) (k : nat) : Prop :=
  exists p r, tr = p ++ r /\ now p i = Some c /\ (forall e, e ∈ r -> by_thread i e = false) /\
    (opened p k = true \/ exists j c', j <> i /\ now p j = Some c' /\ about c' k = true).

(** Two calls that must not overlap for the counts to stay right: two that
    close or replace the same number, or a dup2 and an allocation (which may
    be given the number the dup2 is about to replace) *)
Definition target (c : fcall) : option nat :=
  match c with CClose k => Some k | CDup2 _ b => Some b | _ => None end.
Definition clash1 (c c' : fcall) : Prop :=
  (exists k, target c = Some k /\ target c' = Some k) \/
  (exists a b o ok, c = CDup2 a b /\ c' = COpen o ok).
Definition clash (c c' : fcall) : Prop := clash1 c c' \/ clash1 c' c.
(** No two calls ever clash. *)
Definition orderly (tr : list fev) : Prop :=
  forall p i c r, tr = p ++ Call i c :: r -> forall j c', j <> i -> now p j = Some c' -> ~ clash c c'.

(** Entries of the table that refer to object [o] *)
Definition entries (s : fst) (o : nat) : nat :=
  length (List.filter (fun x => bool_decide (x = Some o)) (f_slot s)).
(** Nobody is in a call. *)
Definition quiet (tr : list fev) : Prop := forall i, now tr i = None.
(** Some thread is in a call. *)
Definition busy (tr : list fev) : Prop := exists i c, now tr i = Some c.
