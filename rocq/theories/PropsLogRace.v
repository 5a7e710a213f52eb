(** The log when several processes write to it: C101 *)
From stdpp Require Import gmap.
From Verif Require Import Base CodecModel PathModel FsModel FsBoot FsSpec FsReachSpec FsReach FsTree FsRaceModel LogRaceModel LogRaceSpec LogRaceProofs.
Local Open Scope list_scope.
Local Open Scope Z_scope.

(** ** C101 After a crash the file system is as the calls that returned left it

    [replay] is what the next start does with the log. *)

(** [after_crash] is what the next start finds (before it removes objects
    without links). *)
Theorem C101_found : forall base s i, replay base (l_log s) !! i = after_crash base s i.
Proof. intros base s i. apply replay_last. Qed.
Print Assumptions C101_found.

(** Two processes each make a directory in the root, and both calls return.
    After a crash the object of one is there, but its name is not. *)
Theorem C101_shared_directory_refuted : exists w s,
  reach false w /\
  lsteps (lstart (w_ino w)
    [program [LNew ROOTINO "a" (w_next w) (newobj (RMkdir ["a"] 511) ROOTINO (w_next w))];
     program [LNew ROOTINO "b" (w_next w + 1) (newobj (RMkdir ["b"] 511) ROOTINO (w_next w + 1))]]) s /\
  all_back s /\
  entry (l_tab s) ROOTINO "b" (w_next w + 1) /\
  let t := fsck (replay (w_ino w) (l_log s)) in
  entry t ROOTINO "a" (w_next w) /\ is_Some (t !! (w_next w + 1)) /\ forall i, ~ entry t ROOTINO "b" i.
Proof.
  pose (mk := fun w => lstart (w_ino w)
    [program [LNew ROOTINO "a" (w_next w) (newobj (RMkdir ["a"] 511) ROOTINO (w_next w))];
     program [LNew ROOTINO "b" (w_next w + 1) (newobj (RMkdir ["b"] 511) ROOTINO (w_next w + 1))]]).
  pose (dict := fun (t : gmap Z inode) f => match t !! ROOTINO with Some x => i_dict x !! f | None => None end).
  assert (H : exists wx, run fresh_world [] = Some wx /\
    match lplay (mk wx.1) [0; 0; 0; 1; 1; 1; 1; 1; 1; 0; 0; 0]%nat with
    | Some s =>
        forallb (fun t => match h_todo t, h_buf t with [], None => true | _, _ => false end) (l_thr s) &&
        bool_decide (dict (l_tab s) "b" = Some (w_next wx.1 + 1)) &&
        (let t := fsck (replay (w_ino wx.1) (l_log s)) in
         bool_decide (dict t "a" = Some (w_next wx.1)) && bool_decide (is_Some (t !! (w_next wx.1 + 1))) &&
         bool_decide (dict t "b" = None))
    | None => false
    end = true) by (unfold mk, dict; run_ex (fresh_world, @List.nil out) (Ret 0)).
  destruct H as (wx & Hr & H). destruct (lplay (mk wx.1) _) as [s|] eqn:E; [|discriminate H].
  cbv zeta in H. repeat rewrite andb_true_iff in H. destruct H as ((Hb & Hd) & ((Ha & Hi) & Hn)).
  apply bool_decide_eq_true in Hd, Ha, Hi, Hn. rewrite forallb_forall in Hb.
  exists wx.1, s. split; [exact (run_plain false [] wx eq_refl Hr)|]. split; [exact (lplay_steps _ _ _ E)|]. split.
  { intros k t Ht. apply elem_of_list_lookup_2, elem_of_list_In in Ht. specialize (Hb _ Ht).
    destruct (h_todo t); [|discriminate Hb]. destruct (h_buf t); [discriminate Hb|auto]. }
  split.
  { unfold dict in Hd. destruct (l_tab s !! ROOTINO) as [x|] eqn:Ex; [|discriminate Hd]. split; [discriminate|split; [discriminate|eauto]]. }
  cbv zeta. set (t := fsck (replay (w_ino wx.1) (l_log s))) in *. split.
  { unfold dict in Ha. destruct (t !! ROOTINO) as [x|] eqn:Ex; [|discriminate Ha]. split; [discriminate|split; [discriminate|eauto]]. }
  split; [exact Hi|]. intros i (_ & _ & x & Ex & Hx). unfold dict in Hn. rewrite Ex in Hn. congruence.
Qed.
Print Assumptions C101_shared_directory_refuted.

(** An object that only one process changes is after a crash as the calls left
    it, whatever the others do. *)
Theorem C101_own_objects_partial : forall base calls s k i,
  only k i (map program calls) ->
  lsteps (lstart base (map program calls)) s -> all_back s ->
  after_crash base s i = l_tab s !! i.
Proof.
  intros base calls s k i Ho. apply (one_writer base k i); [exact Ho|]. intros l Hl.
  apply list_lookup_fmap_Some in Hl as (cs & _ & ->). apply program_log.
Qed.
Print Assumptions C101_own_objects_partial.

(** With one process, nothing is lost. *)
Theorem C101_alone : forall base calls s,
  lsteps (lstart base [program calls]) s -> all_back s -> replay base (l_log s) = l_tab s.
Proof.
  intros base calls s Hs Hb. apply map_eq. intros i. rewrite replay_last.
  apply (C101_own_objects_partial base [calls] s 0 i); [|exact Hs|exact Hb].
  intros [|j] l a Hj; [reflexivity|discriminate Hj].
Qed.
Print Assumptions C101_alone.

(** In all cases, also in the middle of calls, each object is found as it was
    at some time: not a mixture. *)
Theorem C101_some_time : forall base calls s i,
  lsteps (lstart base (map program calls)) s ->
  exists s1, lsteps (lstart base (map program calls)) s1 /\ lsteps s1 s /\ after_crash base s i = l_tab s1 !! i.
Proof. intros base calls s i. apply earlier. Qed.
Print Assumptions C101_some_time.

(** Two processes that share the root: what only one of them changes. *)
Example C101_nonvacuous : exists base s,
  let calls := [[LNew 1 "a" 9 (newobj (RMkdir ["a"] 511) 1 9); LChmod 9 448]; [LNew 1 "b" 10 (newobj (RMkdir ["b"] 511) 1 10)]] in
  lsteps (lstart base (map program calls)) s /\ all_back s /\ only 0 9 (map program calls) /\
  (exists x, after_crash base s 9 = Some x /\ i_mode x = Z.lor S_IFDIR 448) /\ l_log s <> [].
Proof.
  pose (base := <[1 := Inode KDir 0 16877 2 0 (new_dict 1 1)]> ∅ : gmap Z inode).
  pose (calls := [[LNew 1 "a" 9 (newobj (RMkdir ["a"] 511) 1 9); LChmod 9 448]; [LNew 1 "b" 10 (newobj (RMkdir ["b"] 511) 1 10)]]).
  assert (H : match lplay (lstart base (map program calls)) [0; 0; 1; 1; 0; 0; 1; 1; 1; 1; 0; 0; 0; 0; 0]%nat with
    | Some s =>
        forallb (fun t => match h_todo t, h_buf t with [], None => true | _, _ => false end) (l_thr s) &&
        match after_crash base s 9 with Some x => i_mode x =? Z.lor S_IFDIR 448 | None => false end && negb (Nat.eqb (length (l_log s)) 0)
    | None => false
    end = true) by (vm_compute; reflexivity).
  destruct (lplay _ _) as [s|] eqn:E; [|discriminate H]. exists base, s. cbv zeta. fold calls.
  repeat rewrite andb_true_iff in H. destruct H as ((Hb & Hd) & Hl). rewrite forallb_forall in Hb.
  split; [exact (lplay_steps _ _ _ E)|]. split.
  { intros k t Ht. apply elem_of_list_lookup_2, elem_of_list_In in Ht. specialize (Hb _ Ht).
    destruct (h_todo t); [|discriminate Hb]. destruct (h_buf t); [discriminate Hb|auto]. }
  split; [|split; [destruct (after_crash base s 9) as [x|]; [exists x; split; [reflexivity|apply Z.eqb_eq, Hd]|discriminate Hd]|intros C; rewrite C in Hl; discriminate Hl]].
  intros [|[|j]] l a Hj Ha Hab; [reflexivity| |discriminate Hj]. injection Hj as <-. exfalso.
  repeat (apply elem_of_cons in Ha as [->|Ha]; [discriminate Hab|]). apply elem_of_nil in Ha as [].
Qed.
