(** C42, C43, C44, C46, C48, C71, C72: shared memory, semaphore handles, mutex
    and condition-variable handles.

    [irun chk tr x]: the calls [tr], with their results, of any number of
    processes lead to the state [x]; [chk] says whether the build checks integer
    overflow. The specification (IpcSpec.v) is computed from [tr] alone. *)
From Verif Require Import Base SemModel IpcModel IpcSpec IpcProofs IpcShm IpcFacts IpcHandles IpcPlay ShmRaceModel ShmRaceProofs.
Local Open Scope Z_scope.

(** ** C42: attach counts *)
(** Full claim: after every history, the count IPC_STAT reports is the number of
    current attachments. It fails when mmap fails (below); here every attach
    found a place. *)
Theorem C42_count_partial chk tr x c id x' key segsz nattch mode : irun chk tr x -> maps_ok tr ->
  istep chk x c (Shmctl id IPC_STAT) = Done (x', IStat key segsz nattch mode) -> nattch = attach_count tr id.
Proof.
  intros Hr Hm H. destruct (f_stat chk tr x Hr Hm c id x' _ H) as [_ [[_ E]|(z & m & _ & _ & E)]]; [discriminate E|].
  injection E as _ _ E _. exact E.
Qed.
Print Assumptions C42_count_partial.

(** shmdt succeeds exactly at an address where the caller has an attachment. *)
Theorem C42_detach_partial chk tr x c a x' r : irun chk tr x -> maps_ok tr -> istep chk x c (Shmdt a) = Done (x', r) ->
  r = IRet (err EINVAL) /\ (forall id, ~ In (c, a, id) (attached tr)) \/
  exists id, r = IRet id /\ 0 <= id /\ In (c, a, id) (attached tr).
Proof. intros Hr Hm. exact (f_detach chk tr x Hr Hm c a x' r). Qed.
Print Assumptions C42_detach_partial.

(** Finding: a shmat that fails in mmap returns -1 and counts all the same. *)
Theorem C42_failed_map_refuted chk : exists tr x, irun chk tr x /\
  (attach_count tr 1 =? 0) && bool_decide (results tr = [IRet 1; IRet (-1); IStat 7 100 1 438]) = true.
Proof.
  apply (ipc_ex chk [(1, Shmget 7 100 (IPC_CREAT + 438)); (1, Shmat 1 4096 0 true); (1, Shmctl 1 IPC_STAT)]).
  destruct chk; vm_compute; reflexivity.
Qed.
Print Assumptions C42_failed_map_refuted.

(** Two segments, attached twice by one process, inherited by a child, detached
    by the parent, one removed; then exec and exit. *)
Definition ipc_history : list (Z * iop) :=
  [(1, Shmget 7 100 (IPC_CREAT + 438)); (1, Shmget 8 5000 IPC_CREAT); (1, Shmat 1 4096 0 false); (1, Shmat 1 8192 0 false);
   (1, Shmat 2 40960 0 false); (1, IFork 2); (1, Shmdt 4096); (2, Shmctl 1 IPC_RMID); (2, Shmctl 1 IPC_STAT); (1, IExec 1);
   (2, Shmctl 1 IPC_STAT); (2, Shmat 1 65536 0 false); (2, Shmget 7 100 0); (2, IExit 3); (1, Shmctl 1 IPC_STAT);
   (1, Shmctl 2 IPC_STAT); (1, Shmget 7 200 IPC_CREAT); (1, Shmget 8 1 (IPC_CREAT + IPC_EXCL)); (1, Shmdt 40960)].
Definition ipc_results : list iout :=
  [IRet 1; IRet 2; IRet 4096; IRet 8192; IRet 40960; IRet 0; IRet 1; IRet 0; IStat 7 100 3 950; IRet 0; IStat 7 100 2 950;
   IRet 65536; IRet 1; IRet 3; IRet (err EINVAL); IStat 8 5000 0 0; IRet 3; IRet (err EEXIST); IRet (err EINVAL)].
Example C42_nonvacuous chk : exists tr x, irun chk tr x /\ maps_okb tr && nosharedb tr && bool_decide (results tr = ipc_results) = true.
Proof.
  apply (ipc_ex chk ipc_history (fun tr x => maps_okb tr && nosharedb tr && bool_decide (results tr = ipc_results))).
  destruct chk; vm_compute; reflexivity.
Qed.

(** ** C43: life time *)
(** Full claim: a segment is there (IPC_STAT and shmat find it, with its own
    key) exactly as long as it is not both marked and without attachments. The
    claim fails for a failed mmap, for segments that held a shared semaphore and
    for concurrent calls (below); here calls are atomic and every attach found
    a place. *)
Theorem C43_exists_partial chk tr x c id x' r : irun chk tr x -> maps_ok tr ->
  istep chk x c (Shmctl id IPC_STAT) = Done (x', r) ->
  (forall z, In z (existing tr) -> z_id z <> id) /\ r = IRet (err EINVAL) \/
  exists z mode, In z (existing tr) /\ z_id z = id /\ r = IStat (z_key z) (to_u32 (z_size z)) (attach_count tr id) mode.
Proof. intros Hr Hm H. exact (proj2 (f_stat chk tr x Hr Hm c id x' r H)). Qed.
Print Assumptions C43_exists_partial.

Theorem C43_attach_partial chk tr x c id a pick x' r : irun chk tr x -> maps_ok tr -> page_ok a = true ->
  istep chk x c (Shmat id a pick false) = Done (x', r) ->
  (forall z, In z (existing tr) -> z_id z <> id) /\ r = IRet (err EINVAL) \/
  (exists z, In z (existing tr) /\ z_id z = id) /\ r = IRet (to_i32 a).
Proof. intros Hr Hm. exact (f_attach chk tr x Hr Hm c id a pick x' r). Qed.
Print Assumptions C43_attach_partial.

(** No shared-memory call, fork, exec or exit fails to return, as long as no
    process-shared semaphores are used and sizes are below 2^63. *)
Theorem C43_usable_partial chk tr x c g o : irun chk tr x -> maps_ok tr -> noshared tr -> x_cage x !! c = Some g ->
  iok x c o -> shm_op o = true -> (forall k n f, o = Shmget k n f -> n < 2 ^ 63) ->
  exists x' r, istep chk x c o = Done (x', r).
Proof. exact (shm_total chk tr x c g o). Qed.
Print Assumptions C43_usable_partial.

(** A new segment gets an identifier never given out before. *)
Theorem C43_never_reused_partial chk tr c k n f r x : irun chk (tr ++ [Iev c (Shmget k n f) (IRet r)]) x -> maps_ok tr -> 0 <= r ->
  (forall z, In z (existing tr) -> z_id z <> r) -> ~ handed tr r.
Proof. exact (fresh_id chk tr c k n f r x). Qed.
Print Assumptions C43_never_reused_partial.

(** Findings. After a failed attach nobody is attached, yet a removed segment
    stays in existence. *)
Theorem C43_failed_map_refuted chk : exists tr x, irun chk tr x /\
  bool_decide (existing tr = []) && (attach_count tr 1 =? 0) &&
  bool_decide (results tr = [IRet 1; IRet (-1); IRet 0; IStat 7 100 1 512]) = true.
Proof.
  apply (ipc_ex chk [(1, Shmget 7 100 IPC_CREAT); (1, Shmat 1 4096 0 true); (1, Shmctl 1 IPC_RMID); (1, Shmctl 1 IPC_STAT)]
    (fun tr x => bool_decide (existing tr = []) && (attach_count tr 1 =? 0) &&
       bool_decide (results tr = [IRet 1; IRet (-1); IRet 0; IStat 7 100 1 512]))).
  destruct chk; vm_compute; reflexivity.
Qed.
Print Assumptions C43_failed_map_refuted.

(** Once a shared semaphore at the start of a segment has been destroyed, the
    next attach of that segment panics. *)
Theorem C43_attach_refuted chk : exists tr x, irun chk tr x /\
  maps_okb tr && bool_decide (existing tr = [Sseg 1 7 100 false]) && bool_decide (results tr = [IRet 1; IRet 4096; IRet 0; IRet 0]) = true /\
  iok x 1 (Shmat 1 8192 1 false) /\
  match istep chk x 1 (Shmat 1 8192 1 false) with Panic => true | Done _ => false end = true.
Proof.
  apply (ipc_ex_then chk [(1, Shmget 7 100 IPC_CREAT); (1, Shmat 1 4096 1 false); (1, SemInit 4096 1 1); (1, SemDestroy 4096)] 1 (Shmat 1 8192 1 false)
    (fun tr x => maps_okb tr && bool_decide (existing tr = [Sseg 1 7 100 false]) && bool_decide (results tr = [IRet 1; IRet 4096; IRet 0; IRet 0]))
    (fun r => match r with Panic => true | Done _ => false end)).
  destruct chk; vm_compute; reflexivity.
Qed.
Print Assumptions C43_attach_refuted.

(** IPC_RMID of one process deletes a segment that another process has attached
    in the meantime; the later shmdt of that process panics. *)
Theorem C43_race_refuted : exists tr s, rrun [1; 2] tr s /\
  bool_decide (tr = [RCall 0 RRemove; RTau; RCall 1 (RAttach 4096); RTau; RTau; RRet 1 (RAttach 4096) 4096;
                     RRet 0 RRemove 0; RCall 1 (RDetach 4096); RTau; RPanic 1]) = true.
Proof.
  apply (race_ex [1; 2] [RStart 0 RRemove; RGo 0; RStart 1 (RAttach 4096); RGo 1; RGo 1; RGo 1; RGo 0; RStart 1 (RDetach 4096); RGo 1; RGo 1]
    (fun tr s => bool_decide (tr = [RCall 0 RRemove; RTau; RCall 1 (RAttach 4096); RTau; RTau; RRet 1 (RAttach 4096) 4096;
                     RRet 0 RRemove 0; RCall 1 (RDetach 4096); RTau; RPanic 1]))).
  vm_compute. reflexivity.
Qed.
Print Assumptions C43_race_refuted.

Example C43_nonvacuous chk : exists tr x, irun chk tr x /\ maps_okb tr && nosharedb tr &&
  bool_decide (existing tr = [Sseg 2 8 5000 false; Sseg 3 7 200 false]) && bool_decide (results tr = ipc_results) = true.
Proof.
  apply (ipc_ex chk ipc_history (fun tr x => maps_okb tr && nosharedb tr &&
  bool_decide (existing tr = [Sseg 2 8 5000 false; Sseg 3 7 200 false]) && bool_decide (results tr = ipc_results))).
  destruct chk; vm_compute; reflexivity.
Qed.

(** ** C44: keys *)
(** What shmget returns, for every key, size and flags. *)
Theorem C44_shmget_partial chk tr x c k n f x' r : irun chk tr x -> maps_ok tr -> istep chk x c (Shmget k n f) = Done (x', r) ->
  (k = IPC_PRIVATE /\ r = IRet (err ENOENT)) \/
  (exists z, In z (existing tr) /\ z_key z = k /\
     r = IRet (if hasbit f IPC_CREAT && hasbit f IPC_EXCL then err EEXIST else z_id z)) \/
  (k <> IPC_PRIVATE /\ (forall z, In z (existing tr) -> z_key z <> k) /\
     (hasbit f IPC_CREAT = false /\ r = IRet (err ENOENT) \/
      hasbit f IPC_CREAT = true /\ (to_u32 n < SHMMIN \/ SHMMAX < to_u32 n) /\ r = IRet (err EINVAL) \/
      hasbit f IPC_CREAT = true /\ SHMMIN <= to_u32 n <= SHMMAX /\ n < 2 ^ 63 /\
        exists id, r = IRet id /\ 0 <= id /\ ~ handed tr id)).
Proof. exact (f_shmget chk tr x c k n f x' r). Qed.
Print Assumptions C44_shmget_partial.

(** One segment per key and per identifier. *)
Theorem C44_unique_partial chk tr x z1 z2 : irun chk tr x -> maps_ok tr -> In z1 (existing tr) -> In z2 (existing tr) ->
  (z_id z1 = z_id z2 \/ z_key z1 = z_key z2) -> z1 = z2.
Proof. intros Hr Hm. exact (f_unique chk tr x Hr Hm z1 z2). Qed.
Print Assumptions C44_unique_partial.

(** Different keys never get the same identifier. *)
Theorem C44_distinct_partial chk tr x k1 k2 r : irun chk tr x -> maps_ok tr -> given tr k1 r -> given tr k2 r -> k1 = k2.
Proof. exact (one_key chk tr x k1 k2 r). Qed.
Print Assumptions C44_distinct_partial.

(** A segment asked for with a size below 2^32 has that size, within the limits. *)
Theorem C44_size_partial chk tr x c z x' key segsz nattch mode : irun chk tr x -> maps_ok tr -> In z (existing tr) -> 0 <= z_size z < 2 ^ 32 ->
  istep chk x c (Shmctl (z_id z) IPC_STAT) = Done (x', IStat key segsz nattch mode) ->
  segsz = z_size z /\ SHMMIN <= z_size z <= SHMMAX /\ key = z_key z.
Proof.
  intros Hr Hm Hz Hn H. pose proof (f_size chk tr x z Hr Hm Hz) as Hsz.
  destruct (f_stat chk tr x Hr Hm c (z_id z) x' _ H) as [_ [[_ E]|(z' & m & Hz' & Hid & E)]]; [discriminate E|].
  pose proof (f_unique chk tr x Hr Hm z' z Hz' Hz (or_introl Hid)) as ->. injection E as -> -> _ _.
  assert (Eu : to_u32 (z_size z) = z_size z) by (unfold to_u32, wrap_u; apply Z.mod_small; lia).
  rewrite Eu in *. done.
Qed.
Print Assumptions C44_size_partial.

(** Findings. A size of 2^32 + 1 is accepted as size 1. *)
Theorem C44_size_refuted chk : exists tr x, irun chk tr x /\
  (SHMMAX <? 2 ^ 32 + 1) && bool_decide (existing tr = [Sseg 1 7 (2 ^ 32 + 1) false])
  && bool_decide (results tr = [IRet 1; IStat 7 1 0 0]) = true.
Proof.
  apply (ipc_ex chk [(1, Shmget 7 (2 ^ 32 + 1) IPC_CREAT); (1, Shmctl 1 IPC_STAT)]
   (fun tr x => (SHMMAX <? 2 ^ 32 + 1) && bool_decide (existing tr = [Sseg 1 7 (2 ^ 32 + 1) false])
  && bool_decide (results tr = [IRet 1; IStat 7 1 0 0]))).
  destruct chk; vm_compute; reflexivity.
Qed.
Print Assumptions C44_size_refuted.
(** Asking for more than an existing segment has is not refused. *)
Theorem C44_larger_refuted chk : exists tr x, irun chk tr x /\
  bool_decide (results tr = [IRet 1; IRet 1; IStat 7 100 0 0]) && bool_decide (map e_op tr = [Shmget 7 100 IPC_CREAT; Shmget 7 5000 0; Shmctl 1 IPC_STAT]) = true.
Proof.
  apply (ipc_ex chk [(1, Shmget 7 100 IPC_CREAT); (1, Shmget 7 5000 0); (1, Shmctl 1 IPC_STAT)]
   (fun tr x => bool_decide (results tr = [IRet 1; IRet 1; IStat 7 100 0 0]) && bool_decide (map e_op tr = [Shmget 7 100 IPC_CREAT; Shmget 7 5000 0; Shmctl 1 IPC_STAT]))).
  destruct chk; vm_compute; reflexivity.
Qed.
Print Assumptions C44_larger_refuted.
(** A size of 2^63 + 1 makes shmget panic. *)
Theorem C44_panic_refuted chk : iok iboot 1 (Shmget 7 (2 ^ 63 + 1) IPC_CREAT) /\ istep chk iboot 1 (Shmget 7 (2 ^ 63 + 1) IPC_CREAT) = Panic.
Proof. split; [cbn; lia|]. vm_compute. reflexivity. Qed.
Print Assumptions C44_panic_refuted.

(** [ipc_history] has a repeated key, a new segment for the key of a destroyed
    one, and a refused exclusive creation (C42_nonvacuous, C43_nonvacuous). *)
Example C44_nonvacuous chk : exists tr x, irun chk tr x /\ maps_okb tr && bool_decide (existing tr = [Sseg 1 7 100 true; Sseg 2 8 5000 false]) = true.
Proof.
  apply (ipc_ex chk (firstn 13 ipc_history) (fun tr x => maps_okb tr && bool_decide (existing tr = [Sseg 1 7 100 true; Sseg 2 8 5000 false]))).
  destruct chk; vm_compute; reflexivity.
Qed.

(** ** C46: semaphore handles *)
(** Full claim: for all semaphores, the results of all calls are those of a
    table from (process, address) to values, each call changing one entry. Here
    for semaphores private to a process, with no fork while the process has one;
    the claim fails otherwise (below). *)
Theorem C46_init_partial chk tr x c h v x' r : irun chk tr x -> private tr -> istep chk x c (SemInit h 0 v) = Done (x', r) ->
  r = IRet (if SEM_VALUE_MAX <? v then err EINVAL else match sems tr !! (c, h) with Some _ => err EBADF | None => 0 end).
Proof. intros Hr Hp. exact (sf_init chk tr x Hr Hp c h x' r v). Qed.
Print Assumptions C46_init_partial.
Theorem C46_getvalue_partial chk tr x c h x' r : irun chk tr x -> private tr -> istep chk x c (SemGet h) = Done (x', r) ->
  r = IRet (match sems tr !! (c, h) with Some v => v | None => err EINVAL end).
Proof. intros Hr Hp. exact (sf_get chk tr x Hr Hp c h x' r). Qed.
Print Assumptions C46_getvalue_partial.
Theorem C46_trywait_partial chk tr x c h x' r : irun chk tr x -> private tr -> istep chk x c (SemTry h) = Done (x', r) ->
  r = IRet (match sems tr !! (c, h) with Some v => if v =? 0 then err EAGAIN else 0 | None => err EINVAL end).
Proof. intros Hr Hp. exact (sf_try chk tr x Hr Hp c h x' r). Qed.
Print Assumptions C46_trywait_partial.
Theorem C46_wait_partial chk tr x c h x' r : irun chk tr x -> private tr -> istep chk x c (SemWait h) = Done (x', r) ->
  r = match sems tr !! (c, h) with Some v => if v =? 0 then IBlock else IRet 0 | None => IRet (err EINVAL) end.
Proof. intros Hr Hp. exact (sf_wait chk tr x Hr Hp c h x' r). Qed.
Print Assumptions C46_wait_partial.
Theorem C46_post_partial chk tr x c h x' r : irun chk tr x -> private tr -> istep chk x c (SemPost h) = Done (x', r) ->
  r = IRet (match sems tr !! (c, h) with Some v => if v <? SEM_VALUE_MAX then 0 else err EOVERFLOW | None => err EINVAL end).
Proof. intros Hr Hp. exact (sf_post chk tr x Hr Hp c h x' r). Qed.
Print Assumptions C46_post_partial.
Theorem C46_destroy_partial chk tr x c h x' r : irun chk tr x -> private tr -> istep chk x c (SemDestroy h) = Done (x', r) ->
  r = IRet (match sems tr !! (c, h) with Some _ => 0 | None => err EINVAL end).
Proof. intros Hr Hp. exact (sf_destroy chk tr x Hr Hp c h x' r). Qed.
Print Assumptions C46_destroy_partial.

Definition sem_history : list (Z * iop) :=
  [(1, IFork 2); (1, SemInit 64 0 1); (2, SemInit 64 0 5); (1, SemInit 68 0 0); (1, SemInit 64 0 2); (1, SemWait 64); (1, SemTry 64);
   (2, SemPost 64); (2, SemGet 64); (1, SemGet 64); (1, SemDestroy 64); (1, SemPost 64); (2, SemGet 64); (1, SemGet 68);
   (1, SemInit 72 0 (2 ^ 31)); (1, SemWait 68)].
Example C46_nonvacuous chk : exists tr x, irun chk tr x /\ privateb ∅ tr && bool_decide (results tr =
  [IRet 0; IRet 0; IRet 0; IRet 0; IRet (err EBADF); IRet 0; IRet (err EAGAIN); IRet 0; IRet 6; IRet 0; IRet 0; IRet (err EINVAL);
   IRet 6; IRet 0; IRet (err EINVAL); IBlock]) = true.
Proof.
  apply (ipc_ex chk sem_history (fun tr x => privateb ∅ tr && bool_decide (results tr =
  [IRet 0; IRet 0; IRet 0; IRet 0; IRet (err EBADF); IRet 0; IRet (err EAGAIN); IRet 0; IRet 6; IRet 0; IRet 0; IRet (err EINVAL);
   IRet 6; IRet 0; IRet (err EINVAL); IBlock]))).
  destruct chk; vm_compute; reflexivity.
Qed.

(** Findings. A semaphore private to a process is shared with a child: the
    child's post changes the parent's value from 1 to 2. *)
Theorem C46_fork_refuted chk : exists tr x, irun chk tr x /\
  bool_decide (map (fun e => (e_c e, e_op e)) tr = [(1, SemInit 64 0 1); (1, IFork 2); (2, SemPost 64); (1, SemGet 64)]) &&
  bool_decide (results tr = [IRet 0; IRet 0; IRet 0; IRet 2]) = true.
Proof.
  apply (ipc_ex chk [(1, SemInit 64 0 1); (1, IFork 2); (2, SemPost 64); (1, SemGet 64)] (fun tr x =>
  bool_decide (map (fun e => (e_c e, e_op e)) tr = [(1, SemInit 64 0 1); (1, IFork 2); (2, SemPost 64); (1, SemGet 64)]) &&
  bool_decide (results tr = [IRet 0; IRet 0; IRet 0; IRet 2]))).
  destruct chk; vm_compute; reflexivity.
Qed.
Print Assumptions C46_fork_refuted.

(** A process-shared semaphore inside a segment but not at its start: the offset
    is computed the wrong way round. With overflow checks sem_init panics. *)
Theorem C46_shared_panic_refuted : exists tr x, irun true tr x /\
  bool_decide (results tr = [IRet 1; IRet 4096]) = true /\ iok x 1 (SemInit 4104 1 5) /\
  match istep true x 1 (SemInit 4104 1 5) with Panic => true | Done _ => false end = true.
Proof.
  apply (ipc_ex_then true [(1, Shmget 7 100 IPC_CREAT); (1, Shmat 1 4096 1 false)] 1 (SemInit 4104 1 5)
    (fun tr x => bool_decide (results tr = [IRet 1; IRet 4096])) (fun r => match r with Panic => true | Done _ => false end)).
  vm_compute. reflexivity.
Qed.
Print Assumptions C46_shared_panic_refuted.
(** Without them the semaphore also appears at an address outside the segment,
    over the private semaphore that was there. *)
Theorem C46_shared_offset_refuted : exists tr x, irun false tr x /\
  bool_decide (map e_op tr = [Shmget 7 100 IPC_CREAT; Shmat 1 4096 1 false; SemInit 4088 0 3; SemInit 4104 1 5; SemGet 4088]) &&
  bool_decide (results tr = [IRet 1; IRet 4096; IRet 0; IRet 0; IRet 5]) = true.
Proof.
  apply (ipc_ex false [(1, Shmget 7 100 IPC_CREAT); (1, Shmat 1 4096 1 false); (1, SemInit 4088 0 3); (1, SemInit 4104 1 5); (1, SemGet 4088)]
   (fun tr x => bool_decide (map e_op tr = [Shmget 7 100 IPC_CREAT; Shmat 1 4096 1 false; SemInit 4088 0 3; SemInit 4104 1 5; SemGet 4088]) &&
  bool_decide (results tr = [IRet 1; IRet 4096; IRet 0; IRet 0; IRet 5]))).
  vm_compute. reflexivity.
Qed.
Print Assumptions C46_shared_offset_refuted.
(** A process that has the segment at another address finds no semaphore there,
    and its private semaphore at the address used by the first process is
    replaced. *)
Theorem C46_shared_address_refuted chk : exists tr x, irun chk tr x /\
  bool_decide (map (fun e => (e_c e, e_op e)) tr = [(1, Shmget 7 100 IPC_CREAT); (1, IFork 2); (1, Shmat 1 4096 1 false); (2, Shmat 1 8192 1 false);
    (2, SemInit 4096 0 3); (1, SemInit 4096 1 7); (2, SemGet 8192); (2, SemGet 4096)]) &&
  bool_decide (results tr = [IRet 1; IRet 0; IRet 4096; IRet 8192; IRet 0; IRet 0; IRet (err EINVAL); IRet 7]) = true.
Proof.
  apply (ipc_ex chk [(1, Shmget 7 100 IPC_CREAT); (1, IFork 2); (1, Shmat 1 4096 1 false); (2, Shmat 1 8192 1 false);
    (2, SemInit 4096 0 3); (1, SemInit 4096 1 7); (2, SemGet 8192); (2, SemGet 4096)] (fun tr x =>
    bool_decide (map (fun e => (e_c e, e_op e)) tr = [(1, Shmget 7 100 IPC_CREAT); (1, IFork 2); (1, Shmat 1 4096 1 false); (2, Shmat 1 8192 1 false);
    (2, SemInit 4096 0 3); (1, SemInit 4096 1 7); (2, SemGet 8192); (2, SemGet 4096)]) &&
  bool_decide (results tr = [IRet 1; IRet 0; IRet 4096; IRet 8192; IRet 0; IRet 0; IRet (err EINVAL); IRet 7]))).
  destruct chk; vm_compute; reflexivity.
Qed.
Print Assumptions C46_shared_address_refuted.

(** ** C48: mutex and condition-variable handles *)
Theorem C48_mutex_create chk tr x c x' r : irun chk tr x -> istep chk x c MutCreate = Done (x', r) ->
  exists h, r = IRet h /\ lowest_free (mutexes tr) c h.
Proof. intros Hr. exact (hf_mcreate chk tr x Hr c x' r). Qed.
Print Assumptions C48_mutex_create.
Theorem C48_cond_create chk tr x c x' r : irun chk tr x -> istep chk x c CvCreate = Done (x', r) ->
  exists h, r = IRet h /\ lowest_free (condvars tr) c h.
Proof. intros Hr. exact (hf_ccreate chk tr x Hr c x' r). Qed.
Print Assumptions C48_cond_create.
Theorem C48_mutex_destroy chk tr x c h x' r : irun chk tr x -> istep chk x c (MutDestroy h) = Done (x', r) ->
  r = IRet (match mutexes tr !! (c, h) with Some _ => 0 | None => err EBADF end).
Proof. intros Hr. exact (hf_mdestroy chk tr x Hr c x' r h). Qed.
Print Assumptions C48_mutex_destroy.
Theorem C48_cond_destroy chk tr x c h x' r : irun chk tr x -> istep chk x c (CvDestroy h) = Done (x', r) ->
  r = IRet (match condvars tr !! (c, h) with Some _ => 0 | None => err EBADF end).
Proof. intros Hr. exact (hf_cdestroy chk tr x Hr c x' r h). Qed.
Print Assumptions C48_cond_destroy.
(** [mutexes tr] also says whether each mutex is locked. *)
Theorem C48_mutex_use chk tr x c h o x' r : irun chk tr x -> istep chk x c (MutOp h o) = Done (x', r) ->
  r = match mutexes tr !! (c, h), o with
      | None, _ => IRet (err EBADF)
      | Some true, MLock => IBlock
      | Some true, MTry => IRet EBUSY
      | _, _ => IRet 0
      end.
Proof. intros Hr. exact (hf_mop chk tr x Hr c x' r h o). Qed.
Print Assumptions C48_mutex_use.
Theorem C48_cond_signal chk tr x c h x' r : irun chk tr x -> istep chk x c (CvSignal h) = Done (x', r) ->
  r = IRet (match condvars tr !! (c, h) with Some _ => 0 | None => err EBADF end).
Proof. intros Hr. exact (hf_signal chk tr x Hr c x' r h). Qed.
Print Assumptions C48_cond_signal.
(** [host] is what the host's pthread call returned. *)
Theorem C48_cond_wait chk tr x c h m host x' r : irun chk tr x -> istep chk x c (CvWait h m host) = Done (x', r) ->
  r = IRet (match condvars tr !! (c, h), mutexes tr !! (c, m) with Some _, Some _ => host | _, _ => err EBADF end).
Proof. intros Hr. exact (hf_wait chk tr x Hr c x' r h m host). Qed.
Print Assumptions C48_cond_wait.
(** A call of one process changes no handle of another, except that a fork
    makes those of the child. *)
Theorem C48_independent tr e c h : e_c e <> c -> e_op e <> IFork c ->
  mutexes (tr ++ [e]) !! (c, h) = mutexes tr !! (c, h) /\ condvars (tr ++ [e]) !! (c, h) = condvars tr !! (c, h).
Proof.
  intros H1 H2. unfold mutexes, condvars. rewrite !fold_left_app. split; [apply sep_mut; done|apply sep_cv; done].
Qed.
Print Assumptions C48_independent.
Example C48_nonvacuous chk : exists tr x, irun chk tr x /\ bool_decide (results tr =
  [IRet 0; IRet 1; IRet 2; IRet 0; IRet 0; IRet 0; IRet 0; IRet 0; IRet 1; IRet 3; IRet (err EBADF); IRet 1; IRet 0; IRet 0; IRet (err EBADF); IRet 0; IBlock]) = true.
Proof.
  apply (ipc_ex chk [(1, MutCreate); (1, MutCreate); (1, MutCreate); (1, CvCreate); (1, MutOp 2 MLock); (1, MutDestroy 1); (1, IFork 2); (2, MutOp 2 MTry);
    (2, MutCreate); (2, MutCreate); (1, MutOp 3 MLock); (1, MutCreate); (2, CvSignal 0); (2, CvDestroy 0); (2, CvSignal 0); (1, CvWait 0 2 0); (1, MutOp 2 MLock)]
   (fun tr x => bool_decide (results tr =
  [IRet 0; IRet 1; IRet 2; IRet 0; IRet 0; IRet 0; IRet 0; IRet 0; IRet 1; IRet 3; IRet (err EBADF); IRet 1; IRet 0; IRet 0; IRet (err EBADF); IRet 0; IBlock]))).
  destruct chk; vm_compute; reflexivity.
Qed.

(** ** C71: failures are negative *)
(** Full claim: a call that fails returns a negative number. It holds for bad
    handles. *)
Theorem C71_handles_partial chk tr x c o x' r : irun chk tr x -> istep chk x c o = Done (x', IRet r) ->
  match o with
  | MutOp h _ | MutDestroy h => mutexes tr !! (c, h) = None
  | CvSignal h | CvDestroy h | CvWait h _ _ => condvars tr !! (c, h) = None
  | _ => False
  end -> r = err EBADF /\ r < 0.
Proof.
  intros Hr H Ho. assert (E : IRet r = IRet (err EBADF)).
  { destruct o; try done.
    - rewrite (hf_mdestroy chk tr x Hr c x' _ h H), Ho. done.
    - rewrite (hf_mop chk tr x Hr c x' _ h o H), Ho. done.
    - rewrite (hf_cdestroy chk tr x Hr c x' _ h H), Ho. done.
    - rewrite (hf_signal chk tr x Hr c x' _ h H), Ho. done.
    - rewrite (hf_wait chk tr x Hr c x' _ h m host H), Ho. done. }
  injection E as ->. done.
Qed.
Print Assumptions C71_handles_partial.
(** Findings: a refused trylock returns +16, a timed-out wait +110. *)
Theorem C71_trylock_refuted chk : exists tr x, irun chk tr x /\
  bool_decide (map e_op tr = [MutCreate; MutOp 0 MLock; MutOp 0 MTry]) && bool_decide (results tr = [IRet 0; IRet 0; IRet 16]) = true.
Proof.
  apply (ipc_ex chk [(1, MutCreate); (1, MutOp 0 MLock); (1, MutOp 0 MTry)] (fun tr x =>
   bool_decide (map e_op tr = [MutCreate; MutOp 0 MLock; MutOp 0 MTry]) && bool_decide (results tr = [IRet 0; IRet 0; IRet 16]))).
  destruct chk; vm_compute; reflexivity.
Qed.
Print Assumptions C71_trylock_refuted.
Theorem C71_timedwait_refuted chk : exists tr x, irun chk tr x /\
  bool_decide (map e_op tr = [MutCreate; CvCreate; MutOp 0 MLock; CvWait 0 0 ETIMEDOUT]) && bool_decide (results tr = [IRet 0; IRet 0; IRet 0; IRet 110]) = true.
Proof.
  apply (ipc_ex chk [(1, MutCreate); (1, CvCreate); (1, MutOp 0 MLock); (1, CvWait 0 0 ETIMEDOUT)] (fun tr x =>
   bool_decide (map e_op tr = [MutCreate; CvCreate; MutOp 0 MLock; CvWait 0 0 ETIMEDOUT]) && bool_decide (results tr = [IRet 0; IRet 0; IRet 0; IRet 110]))).
  destruct chk; vm_compute; reflexivity.
Qed.
Print Assumptions C71_timedwait_refuted.

(** ** C72: shared-memory calls of several threads complete *)
(** Full claim: whatever the threads do, while some thread is inside a call some
    thread can go on. It holds when no two threads belong to the same process;
    each call then needs at most three steps. *)
Theorem C72_progress_partial ps tr s t : NoDup ps -> rrun ps tr s -> rbusy s t = true ->
  exists u s' e, rstep s (RGo u) = Some (s', e).
Proof. exact (single_progress ps tr s t). Qed.
Print Assumptions C72_progress_partial.
Theorem C72_steps s t s' e : rstep s (RGo t) = Some (s', e) ->
  exists p pc pc', r_pcs s !! t = Some (p, pc) /\ r_pcs s' = <[t := (p, pc')]> (r_pcs s) /\ (rleft pc' < rleft pc <= 3)%nat.
Proof.
  intros H. destruct (rgo_left s t s' e H) as (p & pc & pc' & H1 & H2 & H3). exists p, pc, pc'.
  split; [done|]. split; [done|]. split; [done|]. destruct pc; cbn; lia.
Qed.
Print Assumptions C72_steps.
Example C72_nonvacuous : exists tr s, rrun [1; 2] tr s /\ rbusy s 0 && rbusy s 1 && bool_decide (r_shard s = Some 1%nat) = true.
Proof.
  apply (race_ex [1; 2] [RStart 0 (RAttach 4096); RGo 0; RGo 0; RGo 0; RStart 1 (RAttach 8192); RGo 1; RStart 0 (RDetach 4096); RGo 0]
    (fun tr s => rbusy s 0 && rbusy s 1 && bool_decide (r_shard s = Some 1%nat))).
  vm_compute. reflexivity.
Qed.
(** Finding: two threads of one process, one attaching and one detaching, wait
    for each other forever. *)
Theorem C72_deadlock_refuted : exists tr s, rrun [1; 1] tr s /\ rbusy s 0 = true /\ rbusy s 1 = true /\ forall u, rstep s (RGo u) = None.
Proof.
  destruct (race_ex [1; 1] [RStart 0 (RAttach 4096); RGo 0; RGo 0; RGo 0; RStart 1 (RAttach 8192); RGo 1; RStart 0 (RDetach 4096); RGo 0]
    (fun tr s => rbusy s 0 && rbusy s 1 && stuckb s)) as (tr & s & Hr & H); [vm_compute; reflexivity|].
  apply andb_true_iff in H as [H H3]. apply andb_true_iff in H as [H1 H2].
  exists tr, s. split; [exact Hr|]. split; [exact H1|]. split; [exact H2|]. exact (stuckb_ok s H3).
Qed.
Print Assumptions C72_deadlock_refuted.
