(** Words for the claims about cancelling a process. *)
From stdpp Require Import gmap.
From Verif Require Import Base CancelModel.
Local Open Scope Z_scope.

(** A process that begins: all threads run their program, nothing is cancelled,
    no mutex is held. *)
Definition begun (s : cage) : Prop :=
  (forall t k, c_pc s !! t = Some k -> k = Out) /\ c_cancel s = false /\ c_owner s = ∅.
(** the states of a process *)
Definition comes (s : cage) : Prop := exists s0 l, begun s0 /\ history s0 l = Done s.

Definition cancelled (s : cage) : Prop := c_cancel s = true.
Definition marked (t : Z) (s : cage) : Prop := c_table s !! t = Some true.
Definition at_ (t : Z) (k : pc) (s : cage) : Prop := c_pc s !! t = Some k.
Definition gone (t : Z) (s : cage) : Prop := at_ t Trapped s \/ at_ t Dead s.

(** how often [t] goes on in [l] *)
Definition turns (t : Z) (l : list event) : nat :=
  length (List.filter (fun e => match e with Go u => u =? t | _ => false end) l).
(** nobody takes the mark of [t] back *)
Definition keeps_mark (t : Z) (l : list event) : Prop :=
  ~ SetKill t false ∈ l /\ ~ Remove t ∈ l.
(** nobody fills or closes the pipe [p] in [l], and nobody is doing so in [s] *)
Definition quiet_pipe (p : Z) (s : cage) (l : list event) : Prop :=
  (forall t, ~ at_ t (Writing p) s) /\ forall t, ~ Write t p ∈ l /\ ~ CloseW t p ∈ l.
(** nobody empties it *)
Definition undrained (p : Z) (s : cage) (l : list event) : Prop :=
  (forall t, ~ at_ t (Reading p) s /\ ~ at_ t (Again p) s) /\ forall t, ~ Read t p ∈ l.
(** nobody but [t] wants the mutex [x] *)
Definition wants (x : Z) (k : pc) : Prop :=
  match k with Locking y | Asleep _ y | Woken y => y = x | _ => False end.
Definition sole (t x : Z) (s : cage) (l : list event) : Prop :=
  (forall u k, u <> t -> at_ u k s -> ~ wants x k) /\
  forall u v, ~ Lock u x ∈ l /\ ~ Wait u v x ∈ l.
(** nobody wakes those who sleep on [v] *)
Definition unsignalled (v : Z) (l : list event) : Prop :=
  (forall t, ~ Signal t v ∈ l /\ ~ Broadcast t v ∈ l) /\ ~ Rouse v ∈ l.
(** Threads going on, and nothing else, can bring [t] to its end. *)
Definition can_end (t : Z) (s : cage) : Prop :=
  exists l s', (forall e, e ∈ l -> exists u, e = Go u) /\ history s l = Done s' /\ at_ t Dead s'.
