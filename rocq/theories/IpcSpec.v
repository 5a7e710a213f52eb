(** What a user of shared memory, semaphore, mutex and condition-variable calls
    counts on, computed from the calls and their results alone. *)
From Verif Require Import Base SemModel IpcModel.
Local Open Scope Z_scope.

(** ** Attachments: (process, address, segment) *)
Definition att := (Z * Z * Z)%type.
Definition a_cage (p : att) : Z := p.1.1.
Definition a_addr (p : att) : Z := p.1.2.
Definition a_seg (p : att) : Z := p.2.

(** A result of shmat that is an address and not an error number *)
Definition is_addr (r : Z) : bool := negb ((-4095 <=? r) && (r <=? -1)).

Fixpoint drop_one {A} `{EqDecision A} (p : A) (l : list A) : list A :=
  match l with [] => [] | q :: r => if bool_decide (p = q) then r else q :: drop_one p r end.

Definition att_step (l : list att) (e : iev) : list att :=
  match e_op e, e_out e with
  | Shmat id a _ _, IRet r => if is_addr r then l ++ [(e_c e, a, id)] else l
  | Shmdt a, IRet r => if r <? 0 then l else drop_one (e_c e, a, r) l
  | IFork ch, _ => l ++ map (fun p => (ch, a_addr p, a_seg p)) (List.filter (fun p => a_cage p =? e_c e) l)
  | IExec _, _ | IExit _, _ => List.filter (fun p => negb (a_cage p =? e_c e)) l
  | _, _ => l
  end.
Definition attached (tr : list iev) : list att := fold_left att_step tr [].

(** How many current attachments a segment has *)
Definition attach_count (tr : list iev) (id : Z) : Z :=
  Z.of_nat (length (List.filter (fun p => a_seg p =? id) (attached tr))).

(** Every attach found a free, aligned place in the address space. *)
Definition maps_ok (tr : list iev) : Prop :=
  Forall (fun e => match e_op e with Shmat _ a _ bad => bad = false /\ page_ok a = true | _ => True end) tr.

(** ** Segments in existence: identifier, key, size asked for, marked for removal *)
Record sseg := Sseg { z_id : Z; z_key : Z; z_size : Z; z_marked : bool }.

(** shmget gives a segment when its result is not negative; it is a new one when
    no existing one has that identifier. *)
Definition seg_step (s : list sseg) (e : iev) : list sseg :=
  match e_op e, e_out e with
  | Shmget k n _, IRet r =>
      if (r <? 0) || existsb (fun z => z_id z =? r) s then s else s ++ [Sseg r k n false]
  | Shmctl id cmd, IRet r =>
      if (cmd =? IPC_RMID) && (r =? 0)
      then map (fun z => if z_id z =? id then Sseg (z_id z) (z_key z) (z_size z) true else z) s
      else s
  | _, _ => s
  end.

(** A marked segment without attachments is gone. *)
Definition sweep (l : list att) (s : list sseg) : list sseg :=
  List.filter (fun z => negb (z_marked z && forallb (fun p => negb (a_seg p =? z_id z)) l)) s.

Definition shm_step (st : list att * list sseg) (e : iev) : list att * list sseg :=
  let l := att_step st.1 e in (l, sweep l (seg_step st.2 e)).
Definition existing (tr : list iev) : list sseg := (fold_left shm_step tr ([], [])).2.

(** Identifiers ever given out *)
Definition handed (tr : list iev) (r : Z) : Prop :=
  exists e k n f, In e tr /\ e_op e = Shmget k n f /\ e_out e = IRet r /\ 0 <= r.

(** ... and for which key *)
Definition given (tr : list iev) (k r : Z) : Prop :=
  exists e n f, In e tr /\ e_op e = Shmget k n f /\ e_out e = IRet r /\ 0 <= r.

(** The calls that use shared memory *)
Definition shm_op (o : iop) : bool :=
  match o with Shmget _ _ _ | Shmat _ _ _ _ | Shmdt _ | Shmctl _ _ | IFork _ | IExec _ | IExit _ => true | _ => false end.

(** No semaphore was made process-shared. *)
Definition noshared (tr : list iev) : Prop :=
  Forall (fun e => match e_op e with SemInit _ ps _ => ps = 0 | _ => True end) tr.

(** ** Semaphores by process and address *)
Definition sem_step (m : gmap (Z * Z) Z) (e : iev) : gmap (Z * Z) Z :=
  let c := e_c e in
  match e_op e, e_out e with
  | SemInit h _ v, IRet 0 => <[(c, h) := v]> m
  | SemWait h, IRet 0 | SemTry h, IRet 0 => alter (fun v => v - 1) (c, h) m
  | SemPost h, IRet 0 => alter (fun v => v + 1) (c, h) m
  | SemDestroy h, IRet 0 => delete (c, h) m
  | IExec _, _ | IExit _, _ => filter (fun p => p.1.1 <> c) m
  | _, _ => m
  end.
Definition sems (tr : list iev) : gmap (Z * Z) Z := fold_left sem_step tr ∅.

(** Only semaphores private to a process, and no fork by a process that has one *)
Definition private_at (m : gmap (Z * Z) Z) (e : iev) : Prop :=
  match e_op e with
  | SemInit _ ps _ => ps = 0
  | IFork _ => forall h, m !! (e_c e, h) = None
  | _ => True
  end.
Definition private (tr : list iev) : Prop :=
  forall t1 e t2, tr = t1 ++ e :: t2 -> private_at (sems t1) e.

(** ** Mutexes (with their state) and condition variables, by process and handle *)
Definition for_child {A} (c ch : Z) (v : A -> A) (m : gmap (Z * Z) A) : gmap (Z * Z) A :=
  m ∪ list_to_map (map (fun p => ((ch, p.1.2), v p.2)) (List.filter (fun p => p.1.1 =? c) (map_to_list m))).

Definition mut_step (m : gmap (Z * Z) bool) (e : iev) : gmap (Z * Z) bool :=
  let c := e_c e in
  match e_op e, e_out e with
  | MutCreate, IRet h => <[(c, h) := false]> m
  | MutDestroy h, IRet 0 => delete (c, h) m
  | MutOp h MLock, IRet 0 | MutOp h MTry, IRet 0 => alter (fun _ => true) (c, h) m
  | MutOp h MUnlock, IRet 0 => alter (fun _ => false) (c, h) m
  | IFork ch, _ => for_child c ch (fun _ => false) m
  | IExec _, _ | IExit _, _ => filter (fun p => p.1.1 <> c) m
  | _, _ => m
  end.
Definition mutexes (tr : list iev) : gmap (Z * Z) bool := fold_left mut_step tr ∅.

Definition cv_step (m : gmap (Z * Z) unit) (e : iev) : gmap (Z * Z) unit :=
  let c := e_c e in
  match e_op e, e_out e with
  | CvCreate, IRet h => <[(c, h) := tt]> m
  | CvDestroy h, IRet 0 => delete (c, h) m
  | IFork ch, _ => for_child c ch id m
  | IExec _, _ | IExit _, _ => filter (fun p => p.1.1 <> c) m
  | _, _ => m
  end.
Definition condvars (tr : list iev) : gmap (Z * Z) unit := fold_left cv_step tr ∅.

(** The lowest number not in use *)
Definition lowest_free {A} (m : gmap (Z * Z) A) (c h : Z) : Prop :=
  0 <= h /\ m !! (c, h) = None /\ forall j, 0 <= j < h -> is_Some (m !! (c, j)).
