(** C29-C34, C68: pipes, for every number of threads and every schedule. *)
From Verif Require Import Base PipeModel PipeSpec PipeProofs.
Local Open Scope Z_scope.

Definition go (i n : nat) : list act := replicate n (Go i).

Lemma cap_ok : capok PIPE_CAPACITY.
Proof. done. Qed.

(** ** C29: order, no loss, no duplication *)
Theorem C29_stream cap k tr s : capok cap -> prun cap k tr s ->
  accepted tr = delivered tr ++ t_buf s.
Proof. exact (stream_ok cap k tr s). Qed.
Print Assumptions C29_stream.

(** A write that reports [r] bytes had exactly its first [r] bytes accepted. *)
Theorem C29_write cap k tr s i d nb r out : capok cap -> len d < 2 ^ 31 ->
  returned cap k tr s i (PWrite d nb) r out -> 0 <= r ->
  inserted i tr = take (Z.to_nat r) d /\ r <= len d.
Proof. exact (write_reports cap k tr s i d nb r out). Qed.
Print Assumptions C29_write.

Theorem C29_write_blocking cap k tr s i d r out : capok cap -> len d < 2 ^ 31 ->
  returned cap k tr s i (PWrite d false) r out -> 0 <= r -> r = len d /\ inserted i tr = d.
Proof. exact (write_blocking cap k tr s i d r out). Qed.
Print Assumptions C29_write_blocking.

(** A read returns as many bytes as it reports, at most the number asked for. *)
Theorem C29_read cap k tr s i n nb r out : capok cap ->
  returned cap k tr s i (PRead n nb) r out ->
  (0 <= r /\ r = len out /\ r <= n) \/ (r = err EAGAIN /\ nb = true /\ out = []).
Proof. exact (read_reports cap k tr s i n nb r out). Qed.
Print Assumptions C29_read.

(** Two writers and two readers interleaved. *)
Example C29_nonvacuous : exists tr s, prun PIPE_CAPACITY 4 tr s /\
  bool_decide (accepted tr = [3; 1; 2; 4]) && bool_decide (delivered tr = [3; 1; 2])
  && bool_decide (t_buf s = [4]) = true.
Proof.
  apply (sched_run PIPE_CAPACITY 4
    (Start 0 PDupW :: Start 0 PDupR :: Start 0 (PWrite [1; 2] false) :: Start 1 (PWrite [3] false)
     :: go 1 3 ++ Start 2 (PRead 1 false) :: go 2 1 ++ go 1 2 ++ Start 3 (PRead 5 false) :: go 0 2 ++ go 2 2
     ++ go 3 1 ++ go 0 3 ++ go 3 2 ++ Start 1 (PWrite [4] true) :: go 1 5)
    (fun tr s => bool_decide (accepted tr = [3; 1; 2; 4]) && bool_decide (delivered tr = [3; 1; 2])
                 && bool_decide (t_buf s = [4]))).
  vm_compute. reflexivity.
Qed.

(** ** C30: capacity and reports *)
Theorem C30_capacity cap k tr s : capok cap -> prun cap k tr s -> len (t_buf s) <= cap.
Proof. exact (capacity_ok cap k tr s). Qed.
Print Assumptions C30_capacity.

(** Full statement: a write never reports more bytes than it was given or
    fewer than it inserted. Missing: the calls that report an error, see
    [C30_epipe_refuted]. *)
Theorem C30_report_partial cap k tr s i d nb r out : capok cap -> len d < 2 ^ 31 ->
  returned cap k tr s i (PWrite d nb) r out -> 0 <= r ->
  r <= len d /\ r = len (inserted i tr).
Proof.
  intros Hc Hl Hr H0. destruct (write_reports _ _ _ _ _ _ _ _ _ Hc Hl Hr H0) as [-> H].
  split; [exact H|]. symmetry. apply len_ztake. lia.
Qed.
Print Assumptions C30_report_partial.

Theorem C30_report_vectored_partial cap k tr s i ds nb r out : capok cap -> len (concat ds) < 2 ^ 31 ->
  returned cap k tr s i (PWritev ds nb) r out -> 0 <= r ->
  r = len (inserted i tr) /\ r <= len (concat ds).
Proof. exact (writev_reports cap k tr s i ds nb r out). Qed.
Print Assumptions C30_report_vectored_partial.

(** A failing write inserted nothing, or failed with EPIPE after the last
    reader left. *)
Theorem C30_failed cap k tr s i d nb r out : capok cap -> len d < 2 ^ 31 ->
  returned cap k tr s i (PWrite d nb) r out -> r < 0 ->
  (r = err EAGAIN /\ nb = true /\ inserted i tr = []) \/
  (r = err EPIPE /\ open_readers tr = 0 /\ exists n, inserted i tr = take n d).
Proof. exact (write_fails cap k tr s i d nb r out). Qed.
Print Assumptions C30_failed.

(** A write of 65537 bytes inserts 65536, waits, the reader closes its end:
    the write reports EPIPE although 65536 bytes were inserted. *)
Theorem C30_epipe_refuted : exists tr s,
  returned PIPE_CAPACITY 2 tr s 0 (PWrite (replicate (Z.to_nat 65537) 1) false) (err EPIPE) [] /\
  (len (inserted 0 tr) =? 65536) = true.
Proof.
  apply (sched_returned PIPE_CAPACITY 2
    (Start 0 (PWrite (replicate (Z.to_nat 65537) 1) false) :: go 0 4 ++ Start 1 PCloseR :: go 0 2)
    0 _ _ _ (fun tr s => len (inserted 0 tr) =? 65536)).
  vm_compute. reflexivity.
Qed.
Print Assumptions C30_epipe_refuted.

(** A non-blocking write larger than the pipe reports the part inserted. *)
Example C30_nonvacuous : exists tr s,
  returned PIPE_CAPACITY 1 tr s 0 (PWrite (replicate (Z.to_nat 70000) 1) true) 65536 [] /\
  (len (t_buf s) =? 65536) = true.
Proof.
  apply (sched_returned PIPE_CAPACITY 1 (Start 0 (PWrite (replicate (Z.to_nat 70000) 1) true) :: go 0 7)
    0 _ _ _ (fun tr s => len (t_buf s) =? 65536)).
  vm_compute. reflexivity.
Qed.

(** ** C31: small writes are atomic *)
Theorem C31_small_write cap k tr s i d nb r out : capok cap -> len d <= PIPE_BUF ->
  returned cap k tr s i (PWrite d nb) r out ->
  (r = len d /\ (d = [] \/ pieces i tr = [d]) /\ exists before after, accepted tr = before ++ d ++ after) \/
  (r < 0 /\ pieces i tr = []).
Proof. exact (small_atomic cap k tr s i d nb r out). Qed.
Print Assumptions C31_small_write.

(** Another writer's bytes cannot fall inside; here they surround. *)
Example C31_nonvacuous : exists tr s,
  returned PIPE_CAPACITY 2 tr s 0 (PWrite [1; 2] true) 2 [] /\ bool_decide (accepted tr = [8; 1; 2]) = true.
Proof.
  apply (sched_returned PIPE_CAPACITY 2
    (Start 0 PDupW :: Start 0 (PWrite [1; 2] true) :: Start 1 (PWrite [8] false) :: go 1 5 ++ go 0 5)
    0 _ _ _ (fun tr s => bool_decide (accepted tr = [8; 1; 2]))).
  vm_compute. reflexivity.
Qed.
Example C31_nonvacuous_refused : exists tr s,
  returned PIPE_CAPACITY 1 tr s 0 (PWrite (replicate (Z.to_nat 4096) 1) true) (err EAGAIN) [] /\
  bool_decide (pieces 0 tr = []) = true.
Proof.
  apply (sched_returned PIPE_CAPACITY 1
    (Start 0 (PWrite (replicate (Z.to_nat 61441) 1) false) :: go 0 5
     ++ Start 0 (PWrite (replicate (Z.to_nat 4096) 1) true) :: go 0 4)
    0 _ _ _ (fun tr s => bool_decide (pieces 0 tr = []))).
  vm_compute. reflexivity.
Qed.

(** ** C32: end of file *)

(** Full statement: a read of a non-zero count returns 0 only when no writer
    exists and no unread byte remains. Missing: "no unread byte remains", see
    [C32_race_refuted]. *)
Theorem C32_no_writer_partial cap k tr s i n nb out : capok cap -> 0 < n ->
  returned cap k tr s i (PRead n nb) 0 out -> open_writers tr = 0.
Proof. exact (eof_no_writer cap k tr s i n nb out). Qed.
Print Assumptions C32_no_writer_partial.

(** The reader finds the pipe empty; the writer writes a byte and closes; the
    reader finds no writer and reports end of file with the byte unread. *)
Theorem C32_race_refuted : exists tr s,
  returned PIPE_CAPACITY 2 tr s 0 (PRead 1 false) 0 [] /\ bool_decide (t_buf s = [7]) = true.
Proof.
  apply (sched_returned PIPE_CAPACITY 2
    (Start 0 (PRead 1 false) :: go 0 2 ++ Start 1 (PWrite [7] false) :: go 1 5 ++ Start 1 PCloseW :: go 0 1)
    0 _ _ _ (fun tr s => bool_decide (t_buf s = [7]))).
  vm_compute. reflexivity.
Qed.
Print Assumptions C32_race_refuted.

(** A read that begins after the last writer is gone reports end of file only
    when nothing is left. *)
Theorem C32_after_close cap k tr0 s0 tr s i n nb out : capok cap -> prun cap k tr0 s0 -> open_writers tr0 = 0 ->
  pcont cap s0 tr s -> 0 < n -> last_call i tr = Some (PRead n nb) -> last tr = Some (ERet i 0 out) ->
  t_buf s = [].
Proof. exact (eof_after cap k tr0 s0 tr s i n nb out). Qed.
Print Assumptions C32_after_close.

(** Whatever was in the pipe when the last writer left is delivered, in order. *)
Theorem C32_delivered cap k tr0 s0 tr s : capok cap -> prun cap k tr0 s0 -> open_writers tr0 = 0 ->
  pcont cap s0 tr s -> t_buf s0 = delivered tr ++ t_buf s.
Proof. exact (eof_conserves cap k tr0 s0 tr s). Qed.
Print Assumptions C32_delivered.

(** and a read then never waits: it returns the next bytes, or 0 if none. *)
Theorem C32_progress cap k tr s i n nb : capok cap -> prun cap k tr s -> open_writers tr = 0 ->
  t_pcs s !! i = Some Idle -> t_rl s = false -> 0 < t_fr s -> 0 < n ->
  exists s', pcont cap s [ECall i (PRead n nb); ERet i (Z.min n (len (t_buf s))) (take (Z.to_nat n) (t_buf s))] s' /\
    t_buf s' = drop (Z.to_nat n) (t_buf s).
Proof. exact (read_progress cap k tr s i n nb). Qed.
Print Assumptions C32_progress.

Example C32_nonvacuous : exists tr s, prun PIPE_CAPACITY 2 tr s /\
  (open_writers tr =? 0) && bool_decide (t_buf s = [7; 8]) && negb (t_rl s) && (0 <? t_fr s)
  && match t_pcs s !! 0%nat with Some Idle => true | _ => false end = true.
Proof.
  apply (sched_run PIPE_CAPACITY 2 (Start 1 (PWrite [7; 8] false) :: go 1 5 ++ [Start 1 PCloseW])
    (fun tr s => (open_writers tr =? 0) && bool_decide (t_buf s = [7; 8]) && negb (t_rl s) && (0 <? t_fr s)
       && match t_pcs s !! 0%nat with Some Idle => true | _ => false end)).
  vm_compute. reflexivity.
Qed.
Example C32_nonvacuous_eof : exists tr s,
  returned PIPE_CAPACITY 2 tr s 0 (PRead 5 false) 0 [] /\ bool_decide (delivered tr = [7; 8]) = true.
Proof.
  apply (sched_returned PIPE_CAPACITY 2
    (Start 1 (PWrite [7; 8] false) :: go 1 5 ++ Start 1 PCloseW :: Start 0 (PRead 5 false) :: go 0 3
     ++ Start 0 (PRead 5 false) :: go 0 3)
    0 _ _ _ (fun tr s => bool_decide (delivered tr = [7; 8]))).
  vm_compute. reflexivity.
Qed.

(** ** C33: broken pipe *)

(** A write or writev of at least one byte that begins with no read end open
    fails with EPIPE and inserts nothing. *)
Theorem C33_broken cap k tr0 s0 tr s i o r out : capok cap -> prun cap k tr0 s0 -> open_readers tr0 = 0 ->
  pcont cap s0 tr s -> last_call i tr = Some o -> offered o <> [] -> last tr = Some (ERet i r out) ->
  r = err EPIPE /\ inserted i tr = [].
Proof. exact (broken_after cap k tr0 s0 tr s i o r out). Qed.
Print Assumptions C33_broken.

(** EPIPE is reported only when no read end is open. *)
Theorem C33_only cap k tr s i o out : capok cap -> fits o -> offered o <> [] ->
  returned cap k tr s i o (err EPIPE) out -> open_readers tr = 0.
Proof. exact (epipe_means cap k tr s i o out). Qed.
Print Assumptions C33_only.

Example C33_nonvacuous : exists tr s,
  returned PIPE_CAPACITY 2 tr s 0 (PWritev [[]; [1]] true) (err EPIPE) [] /\ (open_readers tr =? 0) = true.
Proof.
  apply (sched_returned PIPE_CAPACITY 2
    (Start 1 PCloseR :: Start 0 (PWritev [[]; [1]] true) :: go 0 5)
    0 _ _ _ (fun tr s => open_readers tr =? 0)).
  vm_compute. reflexivity.
Qed.

(** ** C34: vectored writes *)

(** Full statement: the bytes reported are a prefix of the concatenated
    buffers and enter without holes, for every list of buffers. Missing: a
    non-blocking call with a buffer larger than PIPE_BUF, see
    [C34_hole_refuted]; and other writers' bytes may come between two buffers,
    see [C34_interleaved_refuted]. *)
Theorem C34_prefix_partial cap k tr s i ds nb r out : capok cap -> len (concat ds) < 2 ^ 31 ->
  returned cap k tr s i (PWritev ds nb) r out -> 0 <= r ->
  (nb = false \/ Forall (fun d => len d <= PIPE_BUF) ds) ->
  inserted i tr = take (Z.to_nat r) (concat ds) /\ (nb = false -> r = len (concat ds)).
Proof. exact (writev_prefix cap k tr s i ds nb r out). Qed.
Print Assumptions C34_prefix_partial.

(** The first buffer is written in part, a reader empties the pipe, the next
    buffer is written: 65537 bytes are reported, but the last one inserted is
    byte 70001 of the request, not byte 65537. *)
Theorem C34_hole_refuted : exists tr s,
  returned PIPE_CAPACITY 2 tr s 0 (PWritev [replicate (Z.to_nat 70000) 1; [2]] true) 65537 [] /\
  negb (bool_decide (inserted 0 tr = take (Z.to_nat 65537) (replicate (Z.to_nat 70000) 1 ++ [2]))) = true.
Proof.
  apply (sched_returned PIPE_CAPACITY 2
    (Start 0 (PWritev [replicate (Z.to_nat 70000) 1; [2]] true) :: go 0 8 ++
     Start 1 (PRead 65536 true) :: go 1 3 ++ go 0 7)
    0 _ _ _ (fun tr s => negb (bool_decide (inserted 0 tr = take (Z.to_nat 65537) (replicate (Z.to_nat 70000) 1 ++ [2]))))).
  vm_compute. reflexivity.
Qed.
Print Assumptions C34_hole_refuted.

(** Two buffers of one byte each, and another writer's byte between them. *)
Theorem C34_interleaved_refuted : exists tr s,
  returned PIPE_CAPACITY 2 tr s 0 (PWritev [[1]; [2]] false) 2 [] /\
  bool_decide (accepted tr = [1; 3; 2]) = true.
Proof.
  apply (sched_returned PIPE_CAPACITY 2
    (Start 0 PDupW :: Start 0 (PWritev [[1]; [2]] false) :: go 0 6 ++
     Start 1 (PWrite [3] false) :: go 1 5 ++ go 0 7)
    0 _ _ _ (fun tr s => bool_decide (accepted tr = [1; 3; 2]))).
  vm_compute. reflexivity.
Qed.
Print Assumptions C34_interleaved_refuted.

Example C34_nonvacuous : exists tr s,
  returned PIPE_CAPACITY 1 tr s 0 (PWritev [[1]; []; [2; 3]] true) 3 [] /\
  bool_decide (inserted 0 tr = [1; 2; 3]) = true.
Proof.
  apply (sched_returned PIPE_CAPACITY 1
    (Start 0 (PWritev [[1]; []; [2; 3]] true) :: go 0 14)
    0 _ _ _ (fun tr s => bool_decide (inserted 0 tr = [1; 2; 3]))).
  vm_compute. reflexivity.
Qed.

(** ** C68: a non-blocking write that fits is accepted *)

(** Full statement: with an open read end, a non-blocking write of at most
    PIPE_BUF bytes for which the pipe has room succeeds. False: 4095 bytes are
    free and a write of one byte is refused. *)
Theorem C68_fits_refuted : exists tr s,
  returned PIPE_CAPACITY 1 tr s 0 (PWrite [9] true) (err EAGAIN) [] /\
  (len (t_buf s) =? PIPE_CAPACITY - 4095) && (open_readers tr =? 1) = true.
Proof.
  apply (sched_returned PIPE_CAPACITY 1
    (Start 0 (PWrite (replicate (Z.to_nat 61441) 1) false) :: go 0 5
     ++ Start 0 (PWrite [9] true) :: go 0 4)
    0 _ _ _ (fun tr s => (len (t_buf s) =? PIPE_CAPACITY - 4095) && (open_readers tr =? 1))).
  vm_compute. reflexivity.
Qed.
Print Assumptions C68_fits_refuted.

(** What holds: with at least PIPE_BUF bytes free the write is accepted at
    once, whole, when no other write is in progress. *)
Theorem C68_fits_partial cap k tr s i d nb : capok cap -> prun cap k tr s -> 0 < open_readers tr ->
  t_pcs s !! i = Some Idle -> t_wl s = false -> 0 < t_fw s -> 0 < len d <= PIPE_BUF ->
  PIPE_BUF <= cap - len (t_buf s) ->
  exists s', pcont cap s [ECall i (PWrite d nb); EIns i d; ERet i (len d) []] s' /\ t_buf s' = t_buf s ++ d.
Proof. exact (write_progress cap k tr s i d nb). Qed.
Print Assumptions C68_fits_partial.

Example C68_nonvacuous : exists tr s, prun PIPE_CAPACITY 1 tr s /\
  (0 <? open_readers tr) && match t_pcs s !! 0%nat with Some Idle => true | _ => false end && negb (t_wl s)
  && (0 <? t_fw s) && (PIPE_BUF <=? PIPE_CAPACITY - len (t_buf s)) && (len (t_buf s) =? 61440) = true.
Proof.
  apply (sched_run PIPE_CAPACITY 1 (Start 0 (PWrite (replicate (Z.to_nat 61440) 1) false) :: go 0 5)
    (fun tr s => (0 <? open_readers tr) && match t_pcs s !! 0%nat with Some Idle => true | _ => false end && negb (t_wl s)
  && (0 <? t_fw s) && (PIPE_BUF <=? PIPE_CAPACITY - len (t_buf s)) && (len (t_buf s) =? 61440))).
  vm_compute. reflexivity.
Qed.
