(** Proofs about the entry point of mmap and munmap. *)
From stdpp Require Import gmap.
From Verif Require Import Base FsModel FsBoot AbiModel AbiSpec AbiProofs EntryModel EntrySpec EntryProofs2 MapModel MapSpec MapProofs4 MapProofs5 MapProofs6 DirectProofs MapEntryModel MapEntrySpec.
Local Open Scope list_scope.
Local Open Scope Z_scope.

Lemma dead_map s c addr len prot flags fd off ans : w_cwd (MapModel.s_w s) !! c = None -> mstep s (Mmap c addr len prot flags fd off ans) = Panic.
Proof. intros E. cbn [mstep]. rewrite E. reflexivity. Qed.
Lemma dead_unmap s c addr len ans : w_cwd (MapModel.s_w s) !! c = None -> mstep s (Munmap c addr len ans) = Panic.
Proof. intros E. cbn [mstep]. rewrite E. reflexivity. Qed.

Lemma means_step s x o : means x o -> wstep s x = mstep s o.
Proof.
  intros [c a ans addr len prot flags fd off (N & W & I1 & I2 & I3 & L & E1 & E2 & E3 & E4 & E5 & E6)|c a ans addr len (N & W & E1 & E2)|o0]; [| |reflexivity].
  - cbn [wstep]. unfold enter_mmap. destruct (w_cwd (MapModel.s_w s) !! c) eqn:C; [|symmetry; apply dead_map; exact C].
    rewrite E1, E2, E3, E4, E5, E6, ptr_ok, !int_ok, long_ok by assumption. reflexivity.
  - cbn [wstep]. unfold enter_munmap. destruct (w_cwd (MapModel.s_w s) !! c) eqn:C; [|symmetry; apply dead_unmap; exact C].
    rewrite E1, E2, ptr_ok by assumption. reflexivity.
Qed.
Lemma means_run l l' : Forall2 means l l' -> forall s, wrun s l = mrun s l'.
Proof.
  induction 1 as [|x o l l' M _ IH]; intros s; [reflexivity|]. cbn [wrun mrun]. rewrite (means_step _ _ _ M).
  destruct (mstep s o) as [[s1 y]|]; [|reflexivity]. rewrite IH. reflexivity.
Qed.

Lemma senseless_step s x r c : wordy x -> senseless x r -> caller x = Some c -> is_Some (w_cwd (MapModel.s_w s) !! c) -> wstep s x = Done (s, MRet (Ret r)).
Proof.
  intros W S C [p P]. destruct S as [c0 a ans E|c0 a ans E|c0 a ans N B]; cbn [caller] in C; injection C as ->; cbn [wstep]; unfold enter_mmap, enter_munmap; rewrite P.
  - rewrite E. reflexivity.
  - rewrite E. reflexivity.
  - rewrite ptr_ok by exact N. unfold get_ulong. cbn [given]. cbn [wordy] in W.
    apply Forall_cons in W as [_ W]. apply Forall_cons in W as [_ W]. apply Forall_cons in W as [W3 W]. apply Forall_cons in W as [W4 W]. apply Forall_cons in W as [W5 _].
    pose proof (get_int_wide _ W3) as B3. pose proof (get_int_wide _ W4) as B4. pose proof (get_int_wide _ W5) as B5.
    pose proof (get_int_cases _ W3) as C3. pose proof (get_int_cases _ W4) as C4. pose proof (get_int_cases _ W5) as C5.
    destruct (get_int (a3 a)) as [v3|r3]; [|destruct C3 as [_ ->]; reflexivity]. cbn [given].
    destruct (get_int (a4 a)) as [v4|r4]; [|destruct C4 as [_ ->]; reflexivity]. cbn [given].
    destruct (get_int (a5 a)) as [v5|r5]; [|destruct C5 as [_ ->]; reflexivity]. exfalso.
    destruct B as [B|[B|B]]; [destruct (B3 B) as [Q _]|destruct (B4 B) as [Q _]|destruct (B5 B) as [Q _]]; discriminate Q.
Qed.
Lemma dead_step s x c : caller x = Some c -> w_cwd (MapModel.s_w s) !! c = None -> wstep s x = Panic.
Proof.
  intros C P. destruct x; cbn [caller] in C; [injection C as ->..|discriminate C]; cbn [wstep]; unfold enter_mmap, enter_munmap; rewrite P; reflexivity.
Qed.
Lemma int_words w : is_word w -> (exists v, is_int v /\ w = v mod 2 ^ 32) \/ 2 ^ 32 <= w.
Proof.
  intros W. pose proof (get_int_cases _ W) as H. destruct (get_int w) as [v|r]; [left; exists v; exact H|]. right. destruct H as [H _]. exact H.
Qed.
Lemma sense_or_not x : wordy x -> (exists o, means x o) \/ (exists r, senseless x r).
Proof.
  destruct x as [c a ans|c a ans|o]; cbn [wordy]; intros W; [| |left; exists o; constructor].
  - apply Forall_cons in W as [_ W]. apply Forall_cons in W as [W2 W]. apply Forall_cons in W as [W3 W]. apply Forall_cons in W as [W4 W]. apply Forall_cons in W as [W5 W]. apply Forall_cons in W as [W6 _].
    destruct (decide (a1 a = 0)) as [Z|N]; [right; exists (-14); constructor; exact Z|].
    destruct (int_words _ W3) as [(v3 & I3 & E3)|B]; [|right; exists (-22); constructor; auto].
    destruct (int_words _ W4) as [(v4 & I4 & E4)|B]; [|right; exists (-22); constructor; auto].
    destruct (int_words _ W5) as [(v5 & I5 & E5)|B]; [|right; exists (-22); constructor; auto].
    destruct (get_long_cases _ W6) as (v6 & _ & L6 & E6). left. exists (Mmap c (a1 a) (a2 a) v3 v4 v5 v6 ans). apply mean_map. unfold mmap_words.
    repeat (split; [solve [assumption | reflexivity]|]). assumption.
  - apply Forall_cons in W as [_ W]. apply Forall_cons in W as [W2 _].
    destruct (decide (a1 a = 0)) as [Z|N]; [right; exists (-14); constructor; exact Z|]. left. eexists. apply mean_unmap. unfold munmap_words. eauto.
Qed.
Lemma sense_excl x o r : means x o -> senseless x r -> False.
Proof.
  intros M S. destruct S as [c a ans E|c a ans E|c a ans N B]; inversion M; subst; unfold mmap_words, munmap_words in *; destruct_and!.
  - congruence.
  - congruence.
  - pose proof (Z.mod_pos_bound prot (2 ^ 32)). pose proof (Z.mod_pos_bound flags (2 ^ 32)). pose proof (Z.mod_pos_bound fd (2 ^ 32)). lia.
Qed.
Lemma sense_fun x o o' : means x o -> means x o' -> o = o'.
Proof.
  assert (K : forall v v', is_int v -> is_int v' -> v mod 2 ^ 32 = v' mod 2 ^ 32 -> v = v').
  { intros v v' I I' E. assert (Q : Ok v = Ok v') by (rewrite <- (int_ok v I), <- (int_ok v' I'), E; reflexivity). congruence. }
  assert (K' : forall v v', is_long v -> is_long v' -> v mod 2 ^ 64 = v' mod 2 ^ 64 -> v = v').
  { intros v v' I I' E. assert (Q : Ok v = Ok v') by (rewrite <- (long_ok v I), <- (long_ok v' I'), E; reflexivity). congruence. }
  intros M M'. destruct M; inversion M'; subst; unfold mmap_words, munmap_words in *; try destruct_and!.
  - f_equal; try congruence; first [apply K; [assumption|assumption|congruence] | apply K'; [assumption|assumption|congruence]].
  - congruence.
  - reflexivity.
Qed.

(** Files are not touched *)
Lemma calls_files past s x s' y c : mreach past s -> wordy x -> caller x = Some c -> wstep s x = Done (s', y) -> MapModel.s_w s' = MapModel.s_w s.
Proof.
  intros R W C H. destruct (w_cwd (MapModel.s_w s) !! c) eqn:P; [|rewrite (dead_step _ _ _ C P) in H; discriminate H].
  destruct (sense_or_not x W) as [[o M]|[r S]].
  - rewrite (means_step _ _ _ M) in H. destruct M; cbn [caller] in C; [| |discriminate C].
    + unfold mstep in H. destruct (w_cwd (MapModel.s_w s) !! c0); [|discriminate H].
      destruct (mmap_syscall s c0 len prot flags fd off ans) as [r|] eqn:E; cbn [obind] in H; [|discriminate H]. injection H as <- _.
      unfold mmap_syscall in E.
      assert (Q : forall b, MapModel.s_w (fst (libc_mmap s len prot b ans)) = MapModel.s_w s) by (intros b; unfold libc_mmap, host_mmap; destruct ans; reflexivity).
      repeat match type of E with
      | (if ?b then _ else _) = _ => destruct b
      | obind ?e _ = _ => destruct e; cbn [obind] in E
      | match ?e with _ => _ end = _ => destruct e
      | Panic = _ => discriminate E
      | Done _ = _ => injection E as <-; first [reflexivity | apply Q]
      end.
    + unfold mstep in H. destruct (w_cwd (MapModel.s_w s) !! c0); [|discriminate H]. injection H as <- _. unfold munmap_syscall.
      destruct (len =? 0); [reflexivity|]. unfold libc_mmap, host_mmap; destruct ans; reflexivity.
  - rewrite (senseless_step s x r c W S C ltac:(eauto)) in H. injection H as <- _. reflexivity.
Qed.
