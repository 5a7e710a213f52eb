(** Several threads inside [open] with O_CREAT|O_EXCL for the same missing
    name of the same directory, at the granularity of the shared-memory
    accesses of fs_calls.rs 184-330: the walk (213), the allocation of a
    number (273-275), the insertion into the directory (279-287). No lock is
    held between the three. [metawalkandparent] drops its read guards when it
    returns (filesystem.rs 531-585). The insertion replaces an existing entry
    (HashMap::insert).

    Simplified: one directory, one name, no other calls; descriptors are not
    modelled (each thread has one reserved). *)
From Verif Require Import Base.
From stdpp Require Import relations.
Local Open Scope Z_scope.

(** Where a thread is: before the walk; the walk has found nothing; it has a
    number; it has returned with its new object; it has returned EEXIST. *)
Inductive pc := PStart | PMissing | PNum (n : Z) | PMade (n : Z) | PExists.

Record est := Est { e_entry : option Z; e_next : Z; e_pcs : list pc }.

(** One access of thread [i]. *)
Inductive estep : est -> est -> Prop :=
| es_walk_none i e n ps : ps !! i = Some PStart -> e = None ->
    estep (Est e n ps) (Est e n (<[i := PMissing]> ps))
| es_walk_some i e n ps k : ps !! i = Some PStart -> e = Some k ->
    estep (Est e n ps) (Est e n (<[i := PExists]> ps))
| es_alloc i e n ps : ps !! i = Some PMissing ->
    estep (Est e n ps) (Est e (n + 1) (<[i := PNum n]> ps))
| es_insert i e n ps k : ps !! i = Some (PNum k) ->
    estep (Est e n ps) (Est (Some k) n (<[i := PMade k]> ps)).

(** [k] threads, the name does not exist *)
Definition einit (next : Z) (k : nat) : est := Est None next (replicate k PStart).

Definition ereach (next : Z) (k : nat) (s : est) : Prop := rtc estep (einit next k) s.
