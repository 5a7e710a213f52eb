(** Properties C85-C88: the descriptor table when several threads of a process
    use it at the same time. *)
From Verif Require Import Base FdRaceModel FdRaceSpec FdRaceProofs.
Local Open Scope list_scope.
Local Open Scope nat_scope.

(** ** C85: numbers handed out *)
(** For any number of threads and every interleaving, open returns a number
    of the table that is not open at that moment. *)
Theorem C85_open_unused : forall m q t tr r s i o ok k,
  frun m q t (tr ++ Ret i (COpen o ok) (Num k) :: r) s -> k < m /\ opened tr k = false.
Proof. exact open_fresh. Qed.
Print Assumptions C85_open_unused.
(** The same number is handed out again only after a close of it. *)
Theorem C85_distinct : forall m q t tr r r' s i j o o' ok ok' k,
  frun m q t (tr ++ Ret i (COpen o ok) (Num k) :: r ++ Ret j (COpen o' ok') (Num k) :: r') s ->
  exists l, Ret l (CClose k) Zero ∈ r.
Proof. exact open_distinct. Qed.
Print Assumptions C85_distinct.
(** Every other answer fits the table at the moment the call returns: use
    succeeds exactly if the number is open, a dup2 that succeeds had an open
    source, a dup2 or close that fails had none. *)
Theorem C85_use : forall m q t tr r s i k a,
  frun m q t (tr ++ Ret i (CUse k) a :: r) s -> a = if opened tr k then Zero else Bad.
Proof. exact use_tells. Qed.
Print Assumptions C85_use.
Theorem C85_dup2 : forall m q t tr r s i a b k,
  frun m q t (tr ++ Ret i (CDup2 a b) (Num k) :: r) s -> k = b /\ opened tr a = true.
Proof. exact dup2_source. Qed.
Print Assumptions C85_dup2.
Theorem C85_dup2_fails : forall m q t tr r s i a b,
  frun m q t (tr ++ Ret i (CDup2 a b) Bad :: r) s -> opened tr a = false.
Proof. exact dup2_bad. Qed.
Print Assumptions C85_dup2_fails.
Theorem C85_close_fails : forall m q t tr r s i k,
  frun m q t (tr ++ Ret i (CClose k) Bad :: r) s -> opened tr k = false.
Proof. exact close_bad. Qed.
Print Assumptions C85_close_fails.

(** Two threads open at the same time and get 0 and 1; 0 is closed, used in
    vain, and handed out again. *)
Definition h85 : list fact :=
  [Start 0 (COpen 0 true); Start 1 (COpen 1 true); Go 0; Go 1; Go 1; Go 1; Go 0;
   Start 0 (CDup2 1 2); Go 0; Go 0; Go 0; Start 0 (CClose 0); Go 0; Go 0; Go 0; Start 1 (CUse 0); Go 1; Go 1;
   Start 1 (CClose 0); Go 1; Go 1; Start 1 (CDup2 0 2); Go 1; Start 1 (COpen 1 true); Go 1; Go 1].
Example C85_nonvacuous : exists tr s, frun 4 2 2 tr s /\
  bool_decide (tr = [Call 0 (COpen 0 true); Call 1 (COpen 1 true); Ret 1 (COpen 1 true) (Num 1); Ret 0 (COpen 0 true) (Num 0);
    Call 0 (CDup2 1 2); Ret 0 (CDup2 1 2) (Num 2); Call 0 (CClose 0); Ret 0 (CClose 0) Zero;
    Call 1 (CUse 0); Ret 1 (CUse 0) Bad; Call 1 (CClose 0); Ret 1 (CClose 0) Bad; Call 1 (CDup2 0 2); Ret 1 (CDup2 0 2) Bad;
    Call 1 (COpen 1 true); Ret 1 (COpen 1 true) (Num 0)]) = true.
Proof.
  apply (fd_ex 4 2 2 h85 (fun tr _ => bool_decide (tr = [Call 0 (COpen 0 true); Call 1 (COpen 1 true); Ret 1 (COpen 1 true) (Num 1); Ret 0 (COpen 0 true) (Num 0);
    Call 0 (CDup2 1 2); Ret 0 (CDup2 1 2) (Num 2); Call 0 (CClose 0); Ret 0 (CClose 0) Zero;
    Call 1 (CUse 0); Ret 1 (CUse 0) Bad; Call 1 (CClose 0); Ret 1 (CClose 0) Bad; Call 1 (CDup2 0 2); Ret 1 (CDup2 0 2) Bad;
    Call 1 (COpen 1 true); Ret 1 (COpen 1 true) (Num 0)]))). vm_compute. reflexivity.
Qed.

(** ** C86: descriptor calls come to an end *)
(** Full statement: whatever descriptor calls the threads are in, they can
    all be run to their end. Proved if the dup2 calls in progress all go
    upwards in some order of the numbers (or the runtime has aborted, see
    C87). Missing: dup2 calls that form a circle. *)
Theorem C86_completes_partial : forall m q t tr s f,
  frun m q t tr s -> (forall i a b, now tr i = Some (CDup2 a b) -> f a < f b) ->
  exists l tr' s', fsched s (map Go l) = Some (tr', s') /\ (f_dead s' = true \/ quiet (tr ++ tr')).
Proof. intros m q t tr s f Hr Hf. exact (completes m q t f _ _ _ (Nat.le_refl _) Hr Hf). Qed.
Print Assumptions C86_completes_partial.
(** However the threads are scheduled, the calls in progress take at most so
    many steps: no thread can spin. *)
Theorem C86_bounded : forall m q t tr s l tr' s',
  frun m q t tr s -> fsched s (map Go l) = Some (tr', s') -> length l <= t * (m + 4) + 1.
Proof. exact moves_bounded. Qed.
Print Assumptions C86_bounded.
(** dup2(0, 1) and dup2(1, 0) in two threads stop both for ever. *)
Definition two_open : list fact :=
  [Start 0 (COpen 0 true); Go 0; Go 0; Start 0 (COpen 0 true); Go 0; Go 0; Go 0].
Theorem C86_deadlock_refuted : exists tr s, frun 2 1 2 tr s /\ f_dead s = false /\
  now tr 0 = Some (CDup2 0 1) /\ now tr 1 = Some (CDup2 1 0) /\ forall i, fdo s (Go i) = None.
Proof.
  destruct (fd_ex 2 1 2 (two_open ++ [Start 0 (CDup2 0 1); Start 1 (CDup2 1 0); Go 0; Go 1])
    (fun tr s => bool_decide (now tr 0 = Some (CDup2 0 1)) && bool_decide (now tr 1 = Some (CDup2 1 0)) && negb (f_dead s) &&
       bool_decide (f_pc s = [Du2 0 1; Du2 1 0]) && bool_decide (f_lock s = [true; true])))
    as (tr & s & Hr & Hc); [vm_compute; reflexivity|].
  repeat (apply andb_true_iff in Hc as [Hc ?]).
  repeat match goal with X : bool_decide _ = true |- _ => apply bool_decide_eq_true in X end.
  apply negb_true_iff in H1. exists tr, s. split; [done|]. split; [done|]. split; [done|]. split; [done|].
  intros i. cbn [fdo]. unfold fgo, free. rewrite H1, H0, H. by destruct i as [|[|i]].
Qed.
Print Assumptions C86_deadlock_refuted.
(** The hypotheses of the theorem: two dup2 calls in progress, one behind the
    other, and a close waiting for both *)
Example C86_nonvacuous : exists tr s, frun 3 1 3 tr s /\
  bool_decide (now tr 0 = Some (CDup2 0 1)) && bool_decide (now tr 1 = Some (CDup2 1 2)) && bool_decide (now tr 2 = Some (CClose 0)) &&
  bool_decide (fdo s (Go 0) = None) && bool_decide (fdo s (Go 2) = None) = true.
Proof.
  apply (fd_ex 3 1 3 (two_open ++ [Start 0 (CDup2 0 1); Start 1 (CDup2 1 2); Go 0; Go 1; Start 2 (CClose 0)])
    (fun tr s => bool_decide (now tr 0 = Some (CDup2 0 1)) && bool_decide (now tr 1 = Some (CDup2 1 2)) && bool_decide (now tr 2 = Some (CClose 0)) &&
  bool_decide (fdo s (Go 0) = None) && bool_decide (fdo s (Go 2) = None))). vm_compute. reflexivity.
Qed.

(** ** C87: reference counts *)
(** Full statement: the runtime never aborts, and when no call is in progress
    the count of every object is the number of descriptors that refer to it.
    Proved if no two overlapping calls close or replace the same number and
    no dup2 overlaps an allocation. Missing: those overlaps. *)
Theorem C87_counts_partial : forall m q t tr s o,
  frun m q t tr s -> orderly tr -> quiet tr -> o < q -> refs o s = entries s o.
Proof. exact quiet_counts. Qed.
Print Assumptions C87_counts_partial.
Theorem C87_no_abort_partial : forall m q t tr s, frun m q t tr s -> orderly tr -> f_dead s = false.
Proof. exact orderly_lives. Qed.
Print Assumptions C87_no_abort_partial.
(** At every moment, an object stays referenced while a descriptor refers to
    it that nobody is closing or replacing. *)
Theorem C87_kept_partial : forall m q t tr s k o,
  frun m q t tr s -> orderly tr -> entry k s = Some o ->
  (forall i c, now tr i = Some c -> target c <> Some k) -> 0 < refs o s.
Proof. exact alive. Qed.
Print Assumptions C87_kept_partial.
(** Two threads close the same descriptor: the runtime aborts. *)
Theorem C87_two_closes_refuted : exists tr s, frun 2 1 2 tr s /\
  tr = [Call 0 (COpen 0 true); Ret 0 (COpen 0 true) (Num 0); Call 0 (CClose 0); Call 1 (CClose 0)] /\ f_dead s = true.
Proof.
  destruct (fd_ex 2 1 2 [Start 0 (COpen 0 true); Go 0; Go 0; Start 0 (CClose 0); Start 1 (CClose 0); Go 0; Go 0; Go 1; Go 1]
    (fun tr s => bool_decide (tr = [Call 0 (COpen 0 true); Ret 0 (COpen 0 true) (Num 0); Call 0 (CClose 0); Call 1 (CClose 0)]) && f_dead s))
    as (tr & s & Hr & Hc); [vm_compute; reflexivity|].
  apply andb_true_iff in Hc as [Hc ?]. apply bool_decide_eq_true in Hc. by exists tr, s.
Qed.
Print Assumptions C87_two_closes_refuted.
(** If the object has another descriptor both closes succeed, and the object
    is left unreferenced although that descriptor still refers to it. *)
Theorem C87_lost_reference_refuted : exists tr s, frun 2 1 2 tr s /\ quiet tr /\
  Ret 0 (CClose 0) Zero ∈ tr /\ Ret 1 (CClose 0) Zero ∈ tr /\ opened tr 1 = true /\ entry 1 s = Some 0 /\ refs 0 s = 0.
Proof.
  destruct (fd_ex 2 1 2 (two_open ++ [Start 0 (CClose 0); Start 1 (CClose 0); Go 0; Go 0; Go 1; Go 1; Go 0; Go 1])
    (fun tr s => bool_decide (f_pc s = [Idle; Idle]) && bool_decide (Ret 0 (CClose 0) Zero ∈ tr) && bool_decide (Ret 1 (CClose 0) Zero ∈ tr) &&
       opened tr 1 && bool_decide (entry 1 s = Some 0) && bool_decide (refs 0 s = 0)))
    as (tr & s & Hr & Hc); [vm_compute; reflexivity|].
  repeat (apply andb_true_iff in Hc as [Hc ?]).
  repeat match goal with X : bool_decide _ = true |- _ => apply bool_decide_eq_true in X end.
  exists tr, s. split; [done|]. split; [|done]. intros i. rewrite (i_now _ _ _ _ _ (frun_inv _ _ _ _ _ Hr)), Hc. by destruct i as [|[|i]].
Qed.
Print Assumptions C87_lost_reference_refuted.
(** An open that is given the number a dup2 is about to fill: both succeed,
    and the opened object stays referenced for ever with no descriptor. *)
Theorem C87_leak_refuted : exists tr s, frun 2 2 2 tr s /\ quiet tr /\
  Ret 0 (CDup2 0 1) (Num 1) ∈ tr /\ Ret 1 (COpen 1 true) (Num 1) ∈ tr /\ entries s 1 = 0 /\ refs 1 s = 1.
Proof.
  destruct (fd_ex 2 2 2 [Start 0 (COpen 0 true); Go 0; Go 0; Start 0 (CDup2 0 1); Go 0; Go 0; Start 1 (COpen 1 true); Go 1; Go 1; Go 1; Go 0]
    (fun tr s => bool_decide (f_pc s = [Idle; Idle]) && bool_decide (Ret 0 (CDup2 0 1) (Num 1) ∈ tr) && bool_decide (Ret 1 (COpen 1 true) (Num 1) ∈ tr) &&
       bool_decide (entries s 1 = 0) && bool_decide (refs 1 s = 1)))
    as (tr & s & Hr & Hc); [vm_compute; reflexivity|].
  repeat (apply andb_true_iff in Hc as [Hc ?]).
  repeat match goal with X : bool_decide _ = true |- _ => apply bool_decide_eq_true in X end.
  exists tr, s. split; [done|]. split; [|done]. intros i. rewrite (i_now _ _ _ _ _ (frun_inv _ _ _ _ _ Hr)), Hc. by destruct i as [|[|i]].
Qed.
Print Assumptions C87_leak_refuted.
(** An orderly history: a close of 0 overlaps an open, then a dup2 replaces 1
    while another thread uses it; the counts are 0 and 2. *)
Example C87_nonvacuous : exists tr s, frun 3 2 2 tr s /\ orderly tr /\ quiet tr /\ refs 0 s = 0 /\ refs 1 s = 2 /\ entry 1 s = Some 1.
Proof.
  destruct (fd_ex 3 2 2 (two_open ++ [Start 0 (CClose 0); Go 0; Start 1 (COpen 1 true); Go 0; Go 1; Go 1; Go 0; Go 1; Go 1;
      Start 0 (CDup2 2 1); Start 1 (CUse 1); Go 0; Go 1; Go 1; Go 0; Go 0; Go 0])
    (fun tr s => orderly_b 2 [] tr && bool_decide (f_pc s = [Idle; Idle]) && bool_decide (refs 0 s = 0) && bool_decide (refs 1 s = 2) && bool_decide (entry 1 s = Some 1)))
    as (tr & s & Hr & Hc); [vm_compute; reflexivity|].
  repeat (apply andb_true_iff in Hc as [Hc ?]).
  repeat match goal with X : bool_decide _ = true |- _ => apply bool_decide_eq_true in X end.
  exists tr, s. split; [done|]. split; [by eapply orderly_dec|]. split; [|done].
  intros i. rewrite (i_now _ _ _ _ _ (frun_inv _ _ _ _ _ Hr)), H2. by destruct i as [|[|i]].
Qed.

(** ** C88: the lowest number *)
(** Full statement: open returns the lowest number that is not open, and
    fails with ENFILE only if all are. Proved: every lower number, and for
    ENFILE every number, was at some moment of the call open or in use by a
    call of another thread. Missing: numbers that are passed over because
    such a call is in progress. *)
Theorem C88_lowest_partial : forall m q t tr r s i o ok k,
  frun m q t (tr ++ Ret i (COpen o ok) (Num k) :: r) s -> forall k', k' < k -> was_taken tr i (COpen o ok) k'.
Proof. exact open_skips. Qed.
Print Assumptions C88_lowest_partial.
Theorem C88_full_partial : forall m q t tr r s i o ok,
  frun m q t (tr ++ Ret i (COpen o ok) Full :: r) s -> forall k', k' < m -> was_taken tr i (COpen o ok) k'.
Proof. exact open_full. Qed.
Print Assumptions C88_full_partial.
(** So an open that overlaps no other call does return the lowest. *)
Theorem C88_alone_partial : forall m q t tr r s i o ok k,
  frun m q t (tr ++ [Call i (COpen o ok)] ++ Ret i (COpen o ok) (Num k) :: r) s -> quiet tr ->
  opened tr k = false /\ forall k', k' < k -> opened tr k' = true.
Proof.
  intros m q t tr r s i o ok k H Hq. rewrite app_assoc in H. split.
  - apply open_fresh in H as [_ H]. by rewrite opened_app in H.
  - intros k' Hk'. eapply taken_alone; [done|]. by eapply open_skips.
Qed.
Print Assumptions C88_alone_partial.
Theorem C88_alone_full_partial : forall m q t tr r s i o ok,
  frun m q t (tr ++ [Call i (COpen o ok)] ++ Ret i (COpen o ok) Full :: r) s -> quiet tr ->
  forall k', k' < m -> opened tr k' = true.
Proof.
  intros m q t tr r s i o ok H Hq k' Hk'. rewrite app_assoc in H. eapply taken_alone; [done|]. by eapply open_full.
Qed.
Print Assumptions C88_alone_full_partial.
(** A number that was never open is passed over because another thread is
    finding out that it is not open. *)
Theorem C88_skips_refuted : exists tr s, frun 2 1 2 tr s /\
  tr = [Call 1 (CUse 0); Call 0 (COpen 0 true); Ret 0 (COpen 0 true) (Num 1); Ret 1 (CUse 0) Bad].
Proof.
  destruct (fd_ex 2 1 2 [Start 1 (CUse 0); Go 1; Start 0 (COpen 0 true); Go 0; Go 0; Go 0; Go 1]
    (fun tr s => bool_decide (tr = [Call 1 (CUse 0); Call 0 (COpen 0 true); Ret 0 (COpen 0 true) (Num 1); Ret 1 (CUse 0) Bad])))
    as (tr & s & Hr & Hc); [vm_compute; reflexivity|]. apply bool_decide_eq_true in Hc. by exists tr, s.
Qed.
Print Assumptions C88_skips_refuted.
(** An open of a file that does not exist makes another open fail with ENFILE
    when one number is left, which stays free. *)
Theorem C88_spurious_enfile_refuted : exists tr s, frun 1 1 2 tr s /\
  tr = [Call 1 (COpen 0 false); Call 0 (COpen 0 true); Ret 0 (COpen 0 true) Full; Ret 1 (COpen 0 false) Missing].
Proof.
  destruct (fd_ex 1 1 2 [Start 1 (COpen 0 false); Go 1; Start 0 (COpen 0 true); Go 0; Go 0; Go 1]
    (fun tr s => bool_decide (tr = [Call 1 (COpen 0 false); Call 0 (COpen 0 true); Ret 0 (COpen 0 true) Full; Ret 1 (COpen 0 false) Missing])))
    as (tr & s & Hr & Hc); [vm_compute; reflexivity|]. apply bool_decide_eq_true in Hc. by exists tr, s.
Qed.
Print Assumptions C88_spurious_enfile_refuted.
(** Alone: 0 and 1 open, an open returns 2; the table being full, the next
    fails. *)
Example C88_nonvacuous : exists tr s, frun 3 1 1 tr s /\
  tr = [Call 0 (COpen 0 true); Ret 0 (COpen 0 true) (Num 0); Call 0 (COpen 0 true); Ret 0 (COpen 0 true) (Num 1);
        Call 0 (COpen 0 true); Ret 0 (COpen 0 true) (Num 2); Call 0 (COpen 0 true); Ret 0 (COpen 0 true) Full].
Proof.
  destruct (fd_ex 3 1 1 (two_open ++ [Start 0 (COpen 0 true); Go 0; Go 0; Go 0; Go 0; Start 0 (COpen 0 true); Go 0; Go 0; Go 0; Go 0])
    (fun tr s => bool_decide (tr = [Call 0 (COpen 0 true); Ret 0 (COpen 0 true) (Num 0); Call 0 (COpen 0 true); Ret 0 (COpen 0 true) (Num 1);
        Call 0 (COpen 0 true); Ret 0 (COpen 0 true) (Num 2); Call 0 (COpen 0 true); Ret 0 (COpen 0 true) Full])))
    as (tr & s & Hr & Hc); [vm_compute; reflexivity|]. apply bool_decide_eq_true in Hc. by exists tr, s.
Qed.
