(** C125-C128: the bytes of shared memory segments.

    [srun chk h s]: the calls, loads and stores [h] of any number of processes
    (the newest first), with their results, lead to the state [s]. The
    specification (SegSpec.v) is computed from [h] alone: [sees h p] is what lies
    at the address [p], [stored h id pos] the byte last stored at a place of a
    segment, [owner p] the process to which the address belongs. *)
From Verif Require Import Base SemModel IpcModel IpcSpec IpcPlay SegModel SegSpec SegProofs SegProofs2 SegProofs3 SegProofs4.
Local Open Scope list_scope.
Local Open Scope Z_scope.

(** ** C125: all processes see the same bytes *)
(** A load answers by what lies at the address: the byte last stored there by
    any process through any address. It changes nothing. *)
Theorem C125_load chk h s c p : srun chk h s -> running h c = true ->
  sstep chk s c (Fetch p) =
  Done (s, match sees h p with Own => Ordinary | Hole => Segv | Shows id pos _ => Byte (stored h id pos) end).
Proof. exact (load_result chk h s c p). Qed.
Print Assumptions C125_load.

(** A store is done exactly where a segment lies that was attached for writing. *)
Theorem C125_store chk h s c p v : srun chk h s -> running h c = true ->
  exists s', sstep chk s c (Store p v) =
  Done (s', match sees h p with Own => Ordinary | Shows _ _ true => Stored | _ => Segv end).
Proof. exact (store_result chk h s c p v). Qed.
Print Assumptions C125_store.

(** Two processes (or one) attach a segment at two places that do not overlap;
    what one stores the other loads. *)
Theorem C125_shared chk h s c1 c2 id a b f1 f2 k1 k2 b1 b2 r1 r2 d v r3 :
  srun chk (Sev c1 (Store (a + d) v) r3 :: Sev c2 (At id b f2 k2 b2) (Call (IRet r2)) :: Sev c1 (At id a f1 k1 b1) (Call (IRet r1)) :: h) s ->
  is_addr r1 = true -> is_addr r2 = true -> Z.land f1 4096 = 0 -> 0 <= d < size_of h id ->
  a + pages (size_of h id) <= b \/ b + pages (size_of h id) <= a ->
  r3 = Stored /\ sstep chk s c2 (Fetch (b + d)) = Done (s, Byte v) /\ sstep chk s c1 (Fetch (a + d)) = Done (s, Byte v).
Proof. exact (two_attached chk h s c1 c2 id a b f1 f2 k1 k2 b1 b2 r1 r2 d v r3). Qed.
Print Assumptions C125_shared.

(** Process 2, a child, attaches the segment read-only at another place; the
    parent stores 77, the child loads it, cannot store, and detaches. *)
Definition P1 : Z := 2 ^ 32.
Definition P2 : Z := 2 * 2 ^ 32.
Definition seg_story : list (Z * sop) :=
  [(1, Sys (Shmget 7 5000 (IPC_CREAT + 438))); (1, Fork 2 true); (1, At 1 (P1 + 65536) 0 0 false);
   (2, At 1 (P2 + 131072) 4096 0 false); (1, Store (P1 + 65536 + 4097) 77); (2, Fetch (P2 + 131072 + 4097));
   (2, Store (P2 + 131072) 9); (2, Fetch (P2 + 65536)); (2, Dt (P2 + 131072)); (2, Fetch (P2 + 131072 + 4097)); (1, Fetch (P1 + 65536 + 4097))].
Example C125_nonvacuous chk : exists h s, srun chk h s /\
  bool_decide (answers h = [Call (IRet 1); Call (IRet 0); Call (IRet 65536); Call (IRet 131072); Stored; Byte 77; Segv; Ordinary;
                            Call (IRet 1); Segv; Byte 77]) = true.
Proof. apply (seg_ex chk seg_story). destruct chk; vm_compute; reflexivity. Qed.
Example C125_shared_nonvacuous chk : exists s, srun chk
  [Sev 1 (Store (P1 + 65536 + 4097) 77) Stored; Sev 2 (At 1 (P2 + 131072) 4096 0 false) (Call (IRet 131072));
   Sev 1 (At 1 (P1 + 65536) 0 0 false) (Call (IRet 65536)); Sev 1 (Fork 2 true) (Call (IRet 0));
   Sev 1 (Sys (Shmget 7 5000 (IPC_CREAT + 438))) (Call (IRet 1))] s.
Proof. apply (seg_ex_is chk (take 5 seg_story)). destruct chk; vm_compute; reflexivity. Qed.

(** ** C126: what a segment contains, from its creation on *)
(** A new segment (its identifier was given to nobody before) is full of zeros
    and lies nowhere in any process. *)
Theorem C126_fresh chk h s c key n flg r : srun chk (Sev c (Sys (Shmget key n flg)) (Call (IRet r)) :: h) s ->
  0 <= r -> ~ handed (calls h) r ->
  (forall pos, stored h r pos = 0) /\ (forall p pos w, sees h p <> Shows r pos w).
Proof. exact (fresh_zero chk h s c key n flg r). Qed.
Print Assumptions C126_fresh.

(** Whatever the processes do except storing (attach, detach, fork, exec, exit,
    mark for removal, make other segments), the bytes stay. *)
Theorem C126_kept chk h1 h2 s c q id pos w : srun chk (h2 ++ h1) s -> forallb (fun e => negb (is_store e)) h2 = true ->
  running (h2 ++ h1) c = true -> sees (h2 ++ h1) q = Shows id pos w ->
  sstep chk s c (Fetch q) = Done (s, Byte (stored h1 id pos)).
Proof. intros Hr Hn Hc Hq. rewrite (C125_load _ _ _ _ _ Hr Hc), Hq, (stored_kept _ _ _ _ Hn). done. Qed.
Print Assumptions C126_kept.

(** A store changes one byte of one segment. *)
Theorem C126_store_one chk h s c p v id pos s' q id' pos' w' : srun chk h s -> running h c = true ->
  sees h p = Shows id pos true -> sees h q = Shows id' pos' w' ->
  srun chk (Sev c (Store p v) Stored :: h) s' ->
  sstep chk s' c (Fetch q) = Done (s', Byte (if (id' =? id) && (pos' =? pos) then v else stored h id' pos')).
Proof.
  intros Hr Hc Hp Hq Hr'. rewrite (C125_load _ _ _ _ _ Hr' Hc). cbn [sees v_op v_out stored]. rewrite Hq, Hp.
  case_bool_decide as E; [injection E as -> ->; rewrite !Z.eqb_refl; done|].
  destruct (Z.eqb_spec id' id), (Z.eqb_spec pos' pos); subst; done.
Qed.
Print Assumptions C126_store_one.

(** The parent stores, detaches and exits; the child makes a second segment
    (empty), and still finds the byte in the first. *)
Example C126_nonvacuous chk : exists h s, srun chk h s /\
  bool_decide (answers h = [Call (IRet 1); Call (IRet 4096); Call (IRet 0); Stored; Call (IRet 1); Call (IRet 0); Call (IRet 2);
                            Call (IRet 8192); Byte 0; Byte 5; Stored; Byte 5]) &&
  bool_decide (stored h 1 7 = 5) && bool_decide (stored h 2 7 = 6) = true.
Proof.
  apply (seg_ex chk [(1, Sys (Shmget 7 100 (IPC_CREAT + 438))); (1, At 1 (P1 + 4096) 0 0 false); (1, Fork 2 true); (1, Store (P1 + 4096 + 7) 5);
    (1, Dt (P1 + 4096)); (1, Sys (IExit 0)); (2, Sys (Shmget 8 100 (IPC_CREAT + 438))); (2, At 2 (P2 + 8192) 0 0 false);
    (2, Fetch (P2 + 8192 + 7)); (2, Fetch (P2 + 4096 + 7)); (2, Store (P2 + 8192 + 7) 6); (2, Fetch (P2 + 4096 + 7))]).
  destruct chk; vm_compute; reflexivity.
Qed.

(** ** C127: the table of attachments is what lies in memory *)
(** Full claim: after every history the attachments of a process, as shmdt and
    IPC_STAT know them, are the places in its memory where a segment begins. It
    fails when one attach covers another (below), when an attach fails
    (C42_failed_map_refuted), or when the loader gives a child no copy of the
    memory. Proved when none of this happened ([careful]). *)
Theorem C127_table_partial chk h s c a id : srun chk h s -> careful h -> running h c = true -> 0 <= a < 2 ^ 32 ->
  In (c, a, id) (attached (calls h)) <-> exists w, sees h (c * 2 ^ 32 + a) = Shows id 0 w.
Proof. exact (table_iff chk h s c a id). Qed.
Print Assumptions C127_table_partial.

(** Each attachment lies in memory with all its bytes. *)
Theorem C127_whole_partial chk h s c a id : srun chk h s -> careful h -> In (c, a, id) (attached (calls h)) ->
  exists w, forall d, 0 <= d < size_of h id -> sees h (c * 2 ^ 32 + a + d) = Shows id d w.
Proof. exact (table_all chk h s c a id). Qed.
Print Assumptions C127_whole_partial.

(** shmdt where a segment begins names that segment, takes its pages away and
    leaves all other memory as it was. *)
Theorem C127_detach_partial chk h s p id w r : srun chk (Sev (owner p) (Dt p) r :: h) s -> careful h -> sees h p = Shows id 0 w ->
  r = Call (IRet id) /\
  forall q, sees (Sev (owner p) (Dt p) r :: h) q = if inside q p (size_of h id) then Hole else sees h q.
Proof. exact (detach_seen chk h s p id w r). Qed.
Print Assumptions C127_detach_partial.

(** The count of IPC_STAT is the number of places in the memory of running
    processes where the segment begins. *)
Theorem C127_count_partial chk h s c id x' key segsz nattch mode : srun chk h s -> careful h ->
  istep chk (t_x s) c (Shmctl id IPC_STAT) = Done (x', IStat key segsz nattch mode) ->
  exists l, List.NoDup l /\ nattch = Z.of_nat (length l) /\
    forall p, In p l <-> running h (owner p) = true /\ exists w, sees h p = Shows id 0 w.
Proof. exact (count_seen chk h s c id x' key segsz nattch mode). Qed.
Print Assumptions C127_count_partial.

(** Finding: an attach may cover another (the host replaces the pages, the table
    keeps both rows). shmdt then names the segment that is no longer there and
    takes away the one that is; that one stays counted. *)
Theorem C127_over_refuted chk : exists h s, srun chk h s /\
  bool_decide (answers h = [Call (IRet 1); Call (IRet 2); Call (IRet 65536); Call (IRet 65536); Call (IRet 1); Segv; Call (IStat 8 100 1 438)]) &&
  bool_decide (attached (calls h) = [(1, 65536, 2)]) && bool_decide (sees (drop 3 h) (P1 + 65536) = Shows 2 0 true) = true.
Proof.
  apply (seg_ex chk [(1, Sys (Shmget 7 100 (IPC_CREAT + 438))); (1, Sys (Shmget 8 100 (IPC_CREAT + 438))); (1, At 1 (P1 + 65536) 0 0 false);
    (1, At 2 (P1 + 65536) 0 0 false); (1, Dt (P1 + 65536)); (1, Fetch (P1 + 65536)); (1, Sys (Shmctl 2 IPC_STAT))]).
  destruct chk; vm_compute; reflexivity.
Qed.
Print Assumptions C127_over_refuted.

Definition careful_history : list sev :=
  [Sev 1 (Dt (P1 + 65536)) (Call (IRet 1)); Sev 1 (Fork 2 true) (Call (IRet 0));
   Sev 1 (At 1 (P1 + 131072) 4096 0 false) (Call (IRet 131072)); Sev 1 (At 1 (P1 + 65536) 0 0 false) (Call (IRet 65536));
   Sev 1 (Sys (Shmget 7 5000 (IPC_CREAT + 438))) (Call (IRet 1))].
(** One process attaches a segment twice, forks, and detaches one of the places:
    three are left. *)
Example C127_nonvacuous chk : (exists s, srun chk careful_history s) /\ careful careful_history /\
  running careful_history 2 = true /\ sees (tail careful_history) (P1 + 65536) = Shows 1 0 true /\ careful (tail careful_history) /\
  attach_count (calls careful_history) 1 = 3.
Proof.
  assert (Hc : careful careful_history).
  { unfold careful, no_failed_map, fitting, no_overlap, copies, careful_history. cbn [all v_op v_c].
    split; [|split; [|split]].
    - repeat (split; [first [exact I|split; [reflexivity|vm_compute; reflexivity]]|]). exact I.
    - repeat (split; [first [exact I|apply Z.leb_le; vm_compute; reflexivity]|]). exact I.
    - split; [exact I|]. split; [exact I|]. split; [|split; [|split; exact I]].
      + intros q Hq. assert (Hq2 : P1 + 131072 <= q).
        { unfold inside in Hq. apply andb_true_iff in Hq as [Hq _]. apply Z.leb_le in Hq. exact Hq. }
        cbn [sees v_op v_out]. destruct (_ && _) eqn:E; [|exact I]. apply andb_true_iff in E as [_ E]. unfold inside in E.
        apply andb_true_iff in E as [_ E]. apply Z.ltb_lt in E.
        match type of E with _ < _ + ?n => assert (En : n = 8192) by (vm_compute; reflexivity); rewrite En in E end. lia.
      + intros q _. exact I.
    - repeat (split; [first [exact I|reflexivity]|]). exact I. }
  split; [|split; [exact Hc|split; [vm_compute; reflexivity|split; [vm_compute; reflexivity|split; [|vm_compute; reflexivity]]]]].
  - apply (seg_ex_is chk [(1, Sys (Shmget 7 5000 (IPC_CREAT + 438))); (1, At 1 (P1 + 65536) 0 0 false); (1, At 1 (P1 + 131072) 4096 0 false);
      (1, Fork 2 true); (1, Dt (P1 + 65536))]). destruct chk; vm_compute; reflexivity.
  - destruct Hc as ((_ & H1) & (_ & H2) & (_ & H3) & (_ & H4)). exact (conj H1 (conj H2 (conj H3 H4))).
Qed.

(** ** C128: no process changes the memory of another *)
(** Full claim: a call, load or store of one process leaves what lies in the
    memory of every other process as it was. It fails for attaches that reach
    beyond the end of the process's memory (below). Proved when every attach fits
    and succeeded. Fork and exec make the memory of the new process. *)
Theorem C128_other_partial chk e h s p : srun chk (e :: h) s -> no_failed_map (e :: h) -> fitting (e :: h) ->
  owner p <> v_c e -> new_process (v_op e) <> Some (owner p) -> sees (e :: h) p = sees h p.
Proof. exact (others_kept chk e h s p). Qed.
Print Assumptions C128_other_partial.

(** Finding: shmat does not look whether the segment fits. Process 1 attaches a
    segment of two pages at the last page of its memory; the second page now
    lies in the memory of process 2. *)
Theorem C128_spill_refuted chk : exists h s, srun chk h s /\
  bool_decide (answers h = [Call (IRet 1); Call (IRet 0); Ordinary; Call (IRet (-4096)); Byte 0; Stored; Call (IRet 1); Segv]) &&
  bool_decide (owner P2 = 2) && bool_decide (sees h P2 = Hole) = true.
Proof.
  apply (seg_ex chk [(1, Sys (Shmget 7 8192 (IPC_CREAT + 438))); (1, Fork 2 true); (2, Fetch P2); (1, At 1 (P2 - 4096) 0 0 false);
    (2, Fetch P2); (2, Store P2 9); (1, Dt (P2 - 4096)); (2, Fetch P2)]).
  destruct chk; vm_compute; reflexivity.
Qed.
Print Assumptions C128_spill_refuted.

(** Finding: shmget compares only the low 32 bits of the size with the limits.
    A segment of 2^32 + 100 bytes is made, IPC_STAT calls it 100 bytes long, and
    one attach at the start of its memory gives process 1 the first page of
    process 2's. *)
Theorem C128_size_refuted chk : exists h s, srun chk h s /\
  bool_decide (answers h = [Call (IRet 1); Call (IStat 7 100 0 438); Call (IRet 0); Ordinary; Call (IRet 65536); Byte 0]) &&
  bool_decide (owner (P2 + 65536) = 2) && bool_decide (sees h (P2 + 65536) = Shows 1 (2 ^ 32) true) = true.
Proof.
  apply (seg_ex chk [(1, Sys (Shmget 7 (2 ^ 32 + 100) (IPC_CREAT + 438))); (1, Sys (Shmctl 1 IPC_STAT)); (1, Fork 2 true); (2, Fetch (P2 + 65536));
    (1, At 1 (P1 + 65536) 0 0 false); (2, Fetch (P2 + 65536))]).
  destruct chk; vm_compute; reflexivity.
Qed.
Print Assumptions C128_size_refuted.

Example C128_nonvacuous chk : (exists s, srun chk careful_history s) /\ no_failed_map careful_history /\ fitting careful_history /\
  owner (P2 + 65536) <> 1 /\ sees (tail careful_history) (P2 + 65536) = Shows 1 0 true.
Proof.
  destruct (C127_nonvacuous chk) as (H1 & (H2 & H3 & _) & _). split; [exact H1|]. split; [exact H2|]. split; [exact H3|].
  split; [vm_compute; congruence|vm_compute; reflexivity].
Qed.
