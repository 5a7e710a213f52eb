(** Proofs for the entry point: histories of programs. *)
From stdpp Require Import gmap.
From Coq Require Import Ascii.
From Verif Require Import Base PathModel FsModel FsBoot FsSpec FsReachSpec FsNameSpec FsIoSpec FsIo FsViewSpec FsAbortSpec FsView5 FsView6 FsView8 FsWinv FsReach FsPos.
From Verif Require Import AbiModel AbiSpec AbiProofs AbiBuf EntryModel EntrySpec EntryProofs EntryProofs2 EntryProofs3 EntryProofs4 EntryProofs5.
Local Open Scope list_scope.
Local Open Scope Z_scope.
Opaque all_fds next_fd.

(** ** Words that are not arguments *)
Lemma decode_extra m n a a' ts : (n, ts) ∈ table -> take (length ts) (words a) = take (length ts) (words a') -> decode m n a = decode m n a'.
Proof.
  intros T H. each_call T; cbn [length take words] in H; unfold decode; cbn [Z.eqb Pos.eqb].
  all: first [injection H as E1 E2 E3 E4; rewrite E1, E2, E3, E4|injection H as E1 E2 E3; rewrite E1, E2, E3|injection H as E1 E2; rewrite E1, E2|injection H as E1; rewrite E1]; reflexivity.
Qed.

(** ** Histories *)
Lemma enter_reach s c n a rnd s' r : Forall is_word (words a) -> enter s c n a rnd = Done (s', r) -> reach_any (s_w s) -> reach_any (s_w s').
Proof.
  intros W H R. apply (enter_did _ _ _ _ _ _ _ W) in H. destruct H as [q _|ts vs o w' x T K M S|m' q Q O F]; cbn [s_w]; [exact R| |exact R].
  eapply any_step; eassumption.
Qed.
Lemma acts_reach l : forall s s' ys, Forall act_ok l -> acts s l = Some (s', ys) -> reach_any (s_w s) -> reach_any (s_w s').
Proof.
  induction l as [|x l IH]; intros s s' ys W H R.
  - injection H as <- _. exact R.
  - apply Forall_cons in W as [W0 W]. cbn [acts] in H. destruct (act_step s x) as [[s1 r]|] eqn:E; [|discriminate H].
    destruct (acts s1 l) as [[s2 ys']|] eqn:F; [|discriminate H]. injection H as <- _. apply (IH _ _ _ W F).
    destruct x as [p b|c n a rnd]; cbn [act_step] in E; [injection E as <- _; exact R|]. eapply enter_reach; eassumption.
Qed.
Lemma acts_tty l : forall s s' ys, Forall act_ok l -> acts s l = Some (s', ys) -> exists t, s_tty s' = s_tty s ++ t.
Proof.
  induction l as [|x l IH]; intros s s' ys W H.
  - injection H as <- _. exists []. rewrite app_nil_r. reflexivity.
  - apply Forall_cons in W as [W0 W]. cbn [acts] in H. destruct (act_step s x) as [[s1 r]|] eqn:E; [|discriminate H].
    destruct (acts s1 l) as [[s2 ys']|] eqn:F; [|discriminate H]. injection H as <- _. destruct (IH _ _ _ W F) as [t ->].
    destruct x as [p b|c n a rnd]; cbn [act_step] in E; [injection E as <- _; exists t; reflexivity|].
    destruct (enter_tty _ _ _ _ _ _ _ W0 E) as [u ->]. exists (u ++ t). rewrite app_assoc. reflexivity.
Qed.

(** ** What the user sees, at the level of words and memory *)
Lemma enter_view s c n a rnd ts vs o v : (n, ts) ∈ table -> well_typed (s_m s) ts (words a) vs -> meaning (s_m s) n vs = Some o ->
  reach false (s_w s) -> shows (s_w s) v -> allowed v c o = true ->
  (aborts v c o = true -> enter s c n a rnd = Panic) /\
  (aborts v c o = false -> exists s' r v' x, enter s c n a rnd = Done (s', r) /\ aexec v c o = (v', x) /\ shows (s_w s') v' /\ reach false (s_w s') /\
     (garbled (s_w s) c o -> r = Some (-5)) /\ (~ garbled (s_w s) c o -> r = answer x) /\
     (~ from_random (s_w s) c o -> snd (area n a) < 2 ^ 31 -> delivered x (fst (area n a)) (s_m s'))).
Proof.
  intros T K M R V A. pose proof (call_aborts _ _ _ _ R V A) as P. split.
  - intros B. apply P in B. exact (call_panic _ _ _ _ rnd _ _ _ T K M B).
  - intros B. destruct (step (s_w s) c o) as [[w' x]|] eqn:S; [|destruct P as [P _]; specialize (P eq_refl); congruence].
    pose proof (call_done _ _ _ _ rnd _ _ _ _ _ T K M S) as E. destruct (step_view _ _ _ _ _ _ R V A S) as (v' & Ex & V').
    destruct (run_view [(c, o)] (s_w s) v w' [x] R V) as (v2 & _ & _ & R').
    { cbn [all_allowed]. rewrite A. reflexivity. } { cbn [run]. rewrite S. reflexivity. }
    eexists. exists (if not_text (s_w s) c o then Some (err EIO) else answer x), v', x. split; [exact E|]. split; [exact Ex|]. split; [exact V'|]. split; [exact R'|].
    split; [intros G; apply not_text_garbled in G; rewrite G; reflexivity|]. split.
    + intros G. destruct (not_text (s_w s) c o) eqn:Nt; [apply not_text_garbled in Nt; contradiction|reflexivity].
    + intros Fr L. eapply call_delivers; eassumption.
Qed.

(** ** Data that goes to a file and comes back *)
Lemma stands_small m t v : 0 <= v < 2 ^ 31 -> t <> APtr -> t <> APath -> stands m t v (Num v).
Proof.
  intros L N1 N2. destruct t; try contradiction.
  - rewrite <- (Z.mod_small v (2 ^ 32)) at 1 by lia. constructor. unfold is_int. lia.
  - constructor. unfold is_uint. lia.
  - rewrite <- (Z.mod_small v (2 ^ 64)) at 1 by lia. constructor. unfold is_long. lia.
  - constructor. unfold is_word. lia.
Qed.
Lemma len_bytes_at m p k : 0 <= k -> len (bytes_at m p k) = k.
Proof. intros H. unfold len, bytes_at. rewrite map_length, seqZ_length. lia. Qed.
Lemma lies_bytes_at m p bs : lies m p bs -> bytes_at m p (len bs) = bs.
Proof.
  intros H. rewrite <- bytes_at_load. unfold len. rewrite Nat2Z.id. rewrite (load_lies0 _ _ _ _ H) by lia. apply take_ge. lia.
Qed.
Lemma byte_ext l l' : len l = len l' -> (forall k, 0 <= k < len l -> byte_at l k = byte_at l' k) -> l = l'.
Proof.
  intros L H. apply (nth_ext _ _ 0 0); [unfold len in L; lia|]. intros k Hk. specialize (H (Z.of_nat k) ltac:(unfold len; lia)).
  unfold byte_at in H. rewrite Nat2Z.id in H. exact H.
Qed.
Lemma reach_fd_range w c fd d : reach true w -> w_fds w !! (c, fd) = Some d -> 0 <= fd < 1024.
Proof. intros R D. apply reach_winv in R. pose proof (range_slot _ _ _ _ R D) as E. unfold fd_slot in E. destruct (in_fd_range fd) eqn:F; [unfold in_fd_range, MAXFD in F; lia|discriminate E]. Qed.
Lemma round_trip s c fd i pos fl l b d k e4 e5 e6 g5 g6 r1 r2 :
  reach true (s_w s) -> w_fds (s_w s) !! (c, fd) = Some (FFile i pos fl) -> bytes (s_w s) i = Some l -> Z.land fl 3 = 2 ->
  b <> 0 -> d <> 0 -> 0 <= k < 2 ^ 31 -> pos < 2 ^ 31 ->
  exists s1 s2, enter s c 13 (Args fd b k e4 e5 e6) r1 = Done (s1, Some k) /\ enter s1 c 126 (Args fd d k pos g5 g6) r2 = Done (s2, Some k) /\
    bytes_at (s_m s2) d k = bytes_at (s_m s) b k /\ only_within (s_m s) (s_m s2) d k.
Proof.
  intros R D L Fl B0 D0 Hk Hp. pose proof (reach_fd_range _ _ _ _ R D) as Hfd. pose proof R as R0. apply reach_off in R0 as [_ Off]. pose proof (Off _ _ _ _ D) as P0.
  pose proof (len_bytes_at (s_m s) b k ltac:(lia)) as Lb.
  destruct (write_exact _ _ _ _ _ _ _ (bytes_at (s_m s) b k) R D L ltac:(lia) ltac:(lia)) as (w1 & l1 & S1 & F1 & L1 & Ap).
  rewrite Lb in S1. destruct Ap as (_ & Len & By).
  pose proof (step_winv true _ _ _ _ _ (reach_winv _ _ R) S1 I) as W1.
  assert (Fd1 : w_fds w1 !! (c, fd) = Some (FFile i (pos + k) fl)) by (rewrite F1, lookup_insert, Lb; reflexivity).
  destruct (see_pread _ _ _ (bytes_seen _ _ _ W1 L1) c fd (pos + k) fl k pos Fd1 ltac:(lia) ltac:(lia) ltac:(lia)) as (bs & Sl & S2).
  assert (Lbs : len bs = k) by (destruct Sl as [Sl _]; lia).
  assert (Eb : bs = bytes_at (s_m s) b k).
  { apply byte_ext; [lia|]. intros j Hj. destruct Sl as [_ Sl]. rewrite Sl by exact Hj. rewrite By by lia. rewrite Lb.
    replace ((pos <=? pos + j) && (pos + j <? pos + k)) with true by lia. f_equal. lia. }
  rewrite Lbs in S2.
  assert (T1 : (13, [AInt; APtr; ASize]) ∈ table) by (repeat (first [apply elem_of_list_here|apply elem_of_list_further])).
  assert (T2 : (126, [AInt; APtr; ASize; ALong]) ∈ table) by (repeat (first [apply elem_of_list_here|apply elem_of_list_further])).
  assert (K1 : well_typed (s_m s) [AInt; APtr; ASize] (words (Args fd b k e4 e5 e6)) [Num fd; Num b; Num k]).
  { unfold well_typed, words. cbn [a1 a2 a3 a4 a5 a6 zip zip_with]. repeat (apply List.Forall2_cons; [cbn [fst snd]; first [apply stands_small; [lia|discriminate|discriminate]|constructor; exact B0]|]). apply List.Forall2_nil. }
  pose proof (call_done s c 13 _ r1 _ _ _ _ _ T1 K1 eq_refl S1) as E1. cbn [not_text deliver fst answer] in E1.
  eexists. assert (K2 : well_typed (s_m s) [AInt; APtr; ASize; ALong] (words (Args fd d k pos g5 g6)) [Num fd; Num d; Num k; Num pos]).
  { unfold well_typed, words. cbn [a1 a2 a3 a4 a5 a6 zip zip_with]. repeat (apply List.Forall2_cons; [cbn [fst snd]; first [apply stands_small; [lia|discriminate|discriminate]|constructor; exact D0]|]). apply List.Forall2_nil. }
  pose proof (call_done (St w1 (s_m s) (s_tty s ++ printed (s_w s) c (Write fd (bytes_at (s_m s) b k)))) c 126 _ r2 _ _ _ _ _ T2 K2 eq_refl S2) as E2.
  cbn [not_text answer s_w s_m s_tty] in E2. eexists. split; [exact E1|]. split; [exact E2|]. cbn [s_m].
  assert (Rn : random_bytes w1 c (Pread fd k pos) = None).
  { cbn [random_bytes]. rewrite Fd1. destruct (file_of_bytes _ _ _ W1 L1) as (x & -> & -> & _). reflexivity. }
  cbn [deliver fst place a2]. rewrite Rn, Eb. split.
  - pose proof (lies_bytes_at _ d (bytes_at (s_m s) b k) (store_lies (s_m s) d (bytes_at (s_m s) b k))) as E. rewrite Lb in E. exact E.
  - apply within_store. unfold len in Lb. lia.
Qed.

(** ** statfs, fstatfs, gethostname *)
Lemma fsdata_fields m p : Forall (fun f => field (store m p fsdata) (p + fst f) 8 (snd f)) fs_fields.
Proof.
  assert (A : forall k v, (k + 8 <= 112)%nat -> of_le (take 8 (drop k fsdata)) = v mod 2 ^ 64 -> field (store m p fsdata) (p + Z.of_nat k) 8 v).
  { intros k v L E. unfold field. rewrite load_store by (rewrite len_fsdata; exact L). exact E. }
  unfold fs_fields. repeat constructor; cbn [fst snd].
  - apply (A 0%nat); [lia|vm_compute; reflexivity].
  - apply (A 8%nat); [lia|vm_compute; reflexivity].
  - apply (A 16%nat); [lia|vm_compute; reflexivity].
  - apply (A 24%nat); [lia|vm_compute; reflexivity].
  - apply (A 32%nat); [lia|vm_compute; reflexivity].
  - apply (A 40%nat); [lia|vm_compute; reflexivity].
  - apply (A 48%nat); [lia|vm_compute; reflexivity].
  - apply (A 56%nat); [lia|vm_compute; reflexivity].
  - apply (A 64%nat); [lia|vm_compute; reflexivity].
  - apply (A 72%nat); [lia|vm_compute; reflexivity].
Qed.
Lemma statfs_stat s c a rnd p b : well_typed (s_m s) [APath; APtr] (words a) [Txt p; Num b] ->
  match step (s_w s) c (Stat p) with
  | Done (_, RetStat _ _ _ _ _) => exists m', enter s c 26 a rnd = Done (St (s_w s) m' (s_tty s), Some 0) /\ Forall (fun f => field m' (b + fst f) 8 (snd f)) fs_fields
  | Done (_, Ret r) => enter s c 26 a rnd = Done (s, Some r)
  | Done _ => False
  | Panic => enter s c 26 a rnd = Panic
  end.
Proof.
  intros K. assert (T : (26, [APath; APtr]) ∈ table) by (repeat (first [apply elem_of_list_here|apply elem_of_list_further])).
  unfold enter. rewrite (decode_ok _ _ _ _ _ T K). cbn [goal_of]. unfold perform. unfold step. destruct (w_cwd (s_w s) !! c) as [cwd|]; [|reflexivity].
  unfold same, stat_syscall, statfs_mem. destruct (metawalk _ _) as [[i|]|]; cbn [obind]; [| |reflexivity].
  - destruct (get_ino (s_w s) i) as [x|]; cbn [obind]; [|reflexivity]. unfold stat_of. destruct (i_kind x); cbn [fst snd]; eexists; (split; [reflexivity|apply fsdata_fields]).
  - destruct s. reflexivity.
Qed.
Lemma fstatfs_fstat s c a rnd fd b : well_typed (s_m s) [AInt; APtr] (words a) [Num fd; Num b] ->
  (forall i pos fl, w_fds (s_w s) !! (c, fd) = Some (FFile i pos fl) -> step (s_w s) c (Fstat fd) <> Panic ->
     exists m', enter s c 19 a rnd = Done (St (s_w s) m' (s_tty s), Some 0) /\ Forall (fun f => field m' (b + fst f) 8 (snd f)) fs_fields) /\
  (w_fds (s_w s) !! (c, fd) = None -> step (s_w s) c (Fstat fd) <> Panic -> enter s c 19 a rnd = Done (s, Some (-9))).
Proof.
  intros K. assert (T : (19, [AInt; APtr]) ∈ table) by (repeat (first [apply elem_of_list_here|apply elem_of_list_further])).
  unfold enter. rewrite (decode_ok _ _ _ _ _ T K). cbn [goal_of]. unfold perform. unfold step. destruct (w_cwd (s_w s) !! c) as [cwd|]; [|split; intros; congruence].
  unfold same, fstat_syscall, fstatfs_mem, fd_slot. destruct (in_fd_range fd); [|split; intros; cbn [obind] in *; congruence]. cbn [obind]. split.
  - intros i pos fl -> P. cbn [obind] in *. destruct (get_ino (s_w s) i) as [x|]; cbn [obind fst snd] in *; [|congruence]. eexists. split; [reflexivity|apply fsdata_fields].
  - intros -> P. cbn [obind fst snd]. destruct s. reflexivity.
Qed.
