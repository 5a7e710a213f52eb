(** What the users of a shared memory segment see, computed from the calls,
    loads and stores of all processes and their results alone. Histories have
    the newest event first. *)
From Verif Require Import Base SemModel IpcModel IpcSpec SegModel.
Local Open Scope Z_scope.

(** The size a segment was made with: that of the first shmget that gave this
    identifier *)
Fixpoint size_of (h : list sev) (id : Z) : Z :=
  match h with
  | [] => 0
  | e :: h =>
      match v_op e, v_out e with
      | Sys (Shmget _ n _), Call (IRet r) => if (r =? id) && (size_of h id =? 0) then n else size_of h id
      | _, _ => size_of h id
      end
  end.
(** Whole pages *)
Definition pages (n : Z) : Z := (n + 4095) / 4096 * 4096.
Definition inside (p a n : Z) : bool := (a <=? p) && (p <? a + pages n).
(** The process to which an address belongs, and the address as it sees it *)
Definition owner (p : Z) : Z := p / 2 ^ 32.
Definition local (p : Z) : Z := p mod 2 ^ 32.

(** What lies at an address: the newest event about it decides. shmat without
    an error shows the segment from its first byte on, shmdt that names a
    segment takes its pages away (if the address is that of a page: at others
    nothing can have been attached), a new program has memory of its own, a child
    has what its parent has, or memory of its own. *)
Fixpoint sees (h : list sev) (p : Z) : cell :=
  match h with
  | [] => Own
  | e :: h =>
      match v_op e, v_out e with
      | At id a flg _ _, Call (IRet r) =>
          if is_addr r && inside p a (size_of h id) then Shows id (p - a) (Z.land flg 4096 =? 0) else sees h p
      | Dt a, Call (IRet id) => if (0 <=? id) && (a mod 4096 =? 0) && inside p a (size_of h id) then Hole else sees h p
      | Fork ch keep, _ => if owner p =? ch then (if keep then sees h (v_c e * 2 ^ 32 + local p) else Own) else sees h p
      | Exec nc, _ => if owner p =? nc then Own else sees h p
      | _, _ => sees h p
      end
  end.

(** The byte last stored at a place of a segment, by any process through any
    address; a new segment is full of zeros *)
Fixpoint stored (h : list sev) (id pos : Z) : Z :=
  match h with
  | [] => 0
  | e :: h =>
      match v_op e with
      | Store p v => if bool_decide (sees h p = Shows id pos true) then v else stored h id pos
      | _ => stored h id pos
      end
  end.

(** The calls among the events, the oldest first, as IpcSpec reads them *)
Definition call_of (e : sev) : option iev :=
  match v_out e with
  | Call r =>
      match v_op e with
      | Sys o => Some (Iev (v_c e) o r)
      | At id p _ pick bad => Some (Iev (v_c e) (Shmat id (local p) pick bad) r)
      | Dt p => Some (Iev (v_c e) (Shmdt (local p)) r)
      | Fork ch _ => Some (Iev (v_c e) (IFork ch) r)
      | Exec nc => Some (Iev (v_c e) (IExec nc) r)
      | _ => None
      end
  | _ => None
  end.
Definition calls (h : list sev) : list iev := omap call_of (rev h).

(** Process numbers in use, from the calls: the first process is 1 *)
Fixpoint running (h : list sev) (c : Z) : bool :=
  match h with
  | [] => c =? 1
  | e :: h =>
      match v_op e with
      | Fork ch _ => (c =? ch) || running h c
      | Exec nc => (c =? nc) || (negb (c =? v_c e) && running h c)
      | Sys (IExit _) => negb (c =? v_c e) && running h c
      | _ => running h c
      end
  end.

(** Every attach was done by the host, at an aligned place *)
Fixpoint all (P : list sev -> sev -> Prop) (h : list sev) : Prop :=
  match h with [] => True | e :: h => P h e /\ all P h end.
Definition no_failed_map : list sev -> Prop :=
  all (fun _ e => match v_op e with At _ p _ _ bad => bad = false /\ p mod 4096 = 0 | _ => True end).
(** Every attach fits into the memory of the process *)
Definition fitting : list sev -> Prop :=
  all (fun h e => match v_op e with At id p _ _ _ => p + pages (size_of h id) <= (v_c e + 1) * 2 ^ 32 | _ => True end).
(** No attach covers memory where a segment is attached *)
Definition no_overlap : list sev -> Prop :=
  all (fun h e => match v_op e with
                  | At id p _ _ _ => forall q, inside q p (size_of h id) = true -> match sees h q with Shows _ _ _ => False | _ => True end
                  | _ => True end).
(** The loader gives a child the memory of its parent *)
Definition copies : list sev -> Prop :=
  all (fun _ e => match v_op e with Fork _ keep => keep = true | _ => True end).
Definition careful (h : list sev) : Prop := no_failed_map h /\ fitting h /\ no_overlap h /\ copies h.
Definition is_store (e : sev) : bool := match v_op e with Store _ _ => true | _ => false end.
(** The process number for which fork and exec make memory *)
Definition new_process (o : sop) : option Z := match o with Fork ch _ => Some ch | Exec nc => Some nc | _ => None end.
