(** The entry point: what lies in memory after a call, and histories. *)
From stdpp Require Import gmap.
From Verif Require Import Base AbiModel AbiSpec AbiProofs AbiBuf EntryModel EntrySpec EntryProofs EntryProofs2 EntryProofs3 EntryProofs4 EntryProofs5 WireSpec WireProofs.
From Verif Require Import SemModel IpcModel IpcSpec IpcFacts SigModel SigSpec SigProofs GateModel GateSpec GateProofs GateProofs2.
Local Open Scope list_scope.
Local Open Scope Z_scope.

(** ** Stored records *)
Lemma mid_field m p k n v pre post bs : bs = pre ++ le n v ++ post -> k = Z.of_nat (length pre) -> field (store m p bs) (p + k) n v.
Proof. intros -> ->. apply field_le. pose proof (load_mid m p pre (le n v) post) as E. rewrite length_le in E. exact E. Qed.
Lemma first_field m p n v post bs : bs = le n v ++ post -> field (store m p bs) p n v.
Proof. intros E. pose proof (mid_field m p 0 n v [] post bs E eq_refl) as K. rewrite Z.add_0_r in K. exact K. Qed.
Lemma put_act_lies e m p s : action_lies (put_act e m p s) p s.
Proof.
  unfold action_lies, put_act. split.
  - apply (first_field _ _ _ _ (junk e (p + 4) 4 ++ le 8 (sa_mask s) ++ le 4 (sa_flags s) ++ junk e (p + 20) 4)); reflexivity.
  - split.
    + apply (mid_field _ _ _ _ _ (le 4 (sa_handler s) ++ junk e (p + 4) 4) (le 4 (sa_flags s) ++ junk e (p + 20) 4)); [rewrite <- !app_assoc; reflexivity|].
      rewrite !app_length, le_len, junk_len. reflexivity.
    + apply (mid_field _ _ _ _ _ (le 4 (sa_handler s) ++ junk e (p + 4) 4 ++ le 8 (sa_mask s)) (junk e (p + 20) 4)); [rewrite <- !app_assoc; reflexivity|].
      rewrite !app_length, !le_len, junk_len. reflexivity.
Qed.
Lemma put_timer_lies m p v : times_lie (put_timer m p v) p v.
Proof.
  unfold times_lie, put_timer. set (b1 := le 8 (tv_sec (it_interval v))). set (b2 := le 8 (tv_usec (it_interval v))). set (b3 := le 8 (tv_sec (it_value v))). set (b4 := le 8 (tv_usec (it_value v))).
  split; [apply (first_field _ _ _ _ (b2 ++ b3 ++ b4)); reflexivity|].
  split; [apply (mid_field _ _ _ _ _ b1 (b3 ++ b4)); [reflexivity|unfold b1; rewrite le_len; reflexivity]|].
  split; [apply (mid_field _ _ _ _ _ (b1 ++ b2) b4); [rewrite <- !app_assoc; reflexivity|unfold b1, b2; rewrite app_length, !le_len; reflexivity]|].
  apply (mid_field _ _ _ _ _ (b1 ++ b2 ++ b3) []); [rewrite <- !app_assoc, app_nil_r; reflexivity|unfold b1, b2, b3; rewrite !app_length, !le_len; reflexivity].
Qed.
Lemma put_shm_lies e m p key size count mode : segment_lies (put_shm e m p key size count mode) p key size count mode.
Proof.
  unfold segment_lies, put_shm.
  set (b1 := le 4 key). set (u := le 4 1000). set (b6 := le 2 mode). set (z := replicate 14 0). set (b7 := le 4 size). set (j := junk e (p + 40) 32). set (b8 := le 4 count). set (j2 := junk e (p + 76) 4).
  assert (L1 : length b1 = 4%nat) by apply le_len. assert (LU : length u = 4%nat) by apply le_len. assert (L6 : length b6 = 2%nat) by apply le_len.
  assert (LZ : length z = 14%nat) by reflexivity. assert (L7 : length b7 = 4%nat) by apply le_len. assert (LJ : length j = 32%nat) by apply junk_len.
  split; [apply (first_field _ _ _ _ (u ++ u ++ u ++ u ++ b6 ++ z ++ b7 ++ j ++ b8 ++ j2)); reflexivity|].
  split; [apply (mid_field _ _ _ _ _ b1 (u ++ u ++ u ++ b6 ++ z ++ b7 ++ j ++ b8 ++ j2)); [reflexivity|rewrite L1; reflexivity]|].
  split; [apply (mid_field _ _ _ _ _ (b1 ++ u) (u ++ u ++ b6 ++ z ++ b7 ++ j ++ b8 ++ j2)); [rewrite <- !app_assoc; reflexivity|rewrite !app_length, L1, LU; reflexivity]|].
  split; [apply (mid_field _ _ _ _ _ (b1 ++ u ++ u) (u ++ b6 ++ z ++ b7 ++ j ++ b8 ++ j2)); [rewrite <- !app_assoc; reflexivity|rewrite !app_length, L1, LU; reflexivity]|].
  split; [apply (mid_field _ _ _ _ _ (b1 ++ u ++ u ++ u) (b6 ++ z ++ b7 ++ j ++ b8 ++ j2)); [rewrite <- !app_assoc; reflexivity|rewrite !app_length, L1, LU; reflexivity]|].
  split; [apply (mid_field _ _ _ _ _ (b1 ++ u ++ u ++ u ++ u) (z ++ b7 ++ j ++ b8 ++ j2)); [rewrite <- !app_assoc; reflexivity|rewrite !app_length, L1, LU; reflexivity]|].
  split; [apply (mid_field _ _ _ _ _ (b1 ++ u ++ u ++ u ++ u ++ b6 ++ z) (j ++ b8 ++ j2)); [rewrite <- !app_assoc; reflexivity|rewrite !app_length, L1, LU, L6, LZ; reflexivity]|].
  apply (mid_field _ _ _ _ _ (b1 ++ u ++ u ++ u ++ u ++ b6 ++ z ++ b7 ++ j) j2); [rewrite <- !app_assoc; reflexivity|rewrite !app_length, L1, LU, L6, LZ, L7, LJ; reflexivity].
Qed.

(** ** What a call stores *)
Lemma action_stored chk s c e a sig s' r : int_word (a1 a) sig -> a3 a <> 0 -> enter chk s e c 147 a = Rep s' r ->
  exists old, pstep (g_p s) (PSigaction c sig None) = Done (g_p s, OAct 0 old) /\ action_lies (g_m s') (a3 a) old.
Proof.
  intros V N H. unfold enter in H. change (decode chk (g_m s) e c 147 a) with (arg (get_int (a1 a)) (fun v => Action v (a2 a) (a3 a))) in H.
  rewrite (int_word_ok _ _ V) in H. cbn [arg perform] in H. pose proof (action_query (g_p s) c sig None) as Q.
  destruct (pstep (g_p s) (PSigaction c sig None)) as [[w y]|]; [|discriminate H]. destruct Q as (-> & old & ->). exists old. split; [reflexivity|].
  destruct (Z.eqb_spec (a3 a) 0); [contradiction|]. destruct (pstep (g_p s) _) as [[w' y']|]; [|discriminate H]. injection H as <- _. cbn [g_m]. apply put_act_lies.
Qed.
Lemma mask_stored chk s c e a s' r : a1 a < 2 ^ 32 -> Forall is_word (words a) -> a3 a <> 0 -> enter chk s e c 149 a = Rep s' r ->
  exists cur, mask_of (g_p s) c (e_tid e) = Some cur /\ field (g_m s') (a3 a) 8 cur.
Proof.
  intros V W N H. assert (W1 : is_word (a1 a)) by (inversion W; assumption). destruct (int_word_cases _ W1) as [(how & K)|K]; [|lia].
  unfold enter in H. change (decode chk (g_m s) e c 149 a) with (arg (get_int (a1 a)) (fun v => Mask v (a2 a) (a3 a))) in H.
  rewrite (int_word_ok _ _ K) in H. cbn [arg perform] in H.
  destruct (pstep (g_p s) (PSigprocmask c (e_tid e) how None)) as [[w y]|] eqn:E; [|discriminate H]. cbn [pstep] in E. unfold p_sigprocmask, getref in E.
  unfold mask_of. destruct (check_cageid c); [|discriminate E]. destruct (pw_cages (g_p s) !! c) as [g|]; [|discriminate E]. cbn [obind] in E.
  destruct (pc_sigset g !! e_tid e) as [cur|]; [|discriminate E]. injection E as _ <-. exists cur. split; [reflexivity|].
  destruct (Z.eqb_spec (a3 a) 0); [contradiction|]. destruct (pstep (g_p s) _) as [[w' y']|]; [|discriminate H]. injection H as <- _. cbn [g_m].
  apply (first_field _ _ _ _ []). rewrite app_nil_r. reflexivity.
Qed.
Lemma timer_stored chk s c e a s' r : a1 a = 0 -> a3 a <> 0 -> enter chk s e c 150 a = Rep s' r ->
  exists v, pstep (g_p s) (PSetitimer c 0 None) = Done (g_p s, OTimer 0 v) /\ times_lie (g_m s') (a3 a) v.
Proof.
  intros V N H. unfold enter in H. change (decode chk (g_m s) e c 150 a) with (arg (get_int (a1 a)) (fun v => Itimer v (a2 a) (a3 a))) in H.
  rewrite V in H. change (get_int 0) with (@Ok Z 0) in H. cbn [arg perform] in H. pose proof (timer_query (g_p s) c 0 None) as Q.
  destruct (pstep (g_p s) (PSetitimer c 0 None)) as [[w y]|]; [|discriminate H]. destruct Q as (-> & [(_ & old & ->)|(C & _)]); [|contradiction]. exists old. split; [reflexivity|].
  destruct (Z.eqb_spec (a3 a) 0); [contradiction|]. destruct (pstep (g_p s) _) as [[w' y']|]; [|discriminate H]. injection H as <- _. cbn [g_m]. apply put_timer_lies.
Qed.
Lemma stat_stored chk s c e a id s' : int_word (a1 a) id -> a2 a = 2 -> a3 a <> 0 -> enter chk s e c 65 a = Rep s' (Some 0) ->
  exists k z n md, istep chk (g_x s) c (Shmctl id IPC_STAT) = Done (g_x s, IStat k z n md) /\ g_x s' = g_x s /\ segment_lies (g_m s') (a3 a) k z n md.
Proof.
  intros V E2 N H. unfold enter in H.
  change (decode chk (g_m s) e c 65 a) with (arg (get_int (a2 a)) (fun cmd => if cmd =? IPC_STAT then let! p := get_ptr (a3 a) in let! id := get_int (a1 a) in StatTo id p
    else let! id := get_int (a1 a) in OnI (Shmctl id cmd))) in H.
  rewrite E2 in H. change (get_int 2) with (@Ok Z 2) in H. cbn [arg] in H. change (2 =? IPC_STAT) with true in H. cbv iota in H. rewrite (ptr_ok _ N) in H. cbn [arg] in H.
  rewrite (int_word_ok _ _ V) in H. cbn [arg perform] in H. unfold istep in H |- *. destruct (x_cage (g_x s) !! c); [|discriminate H]. cbv iota in H |- *.
  unfold shmctl in H |- *. destruct (x_seg (g_x s) !! id) as [g|]; [|discriminate H]. change (IPC_STAT =? IPC_STAT) with true in H |- *. cbv iota in H |- *. injection H as <-.
  do 4 eexists. split; [reflexivity|]. split; [reflexivity|]. cbn [g_m]. apply put_shm_lies.
Qed.

(** ** Histories *)
Lemma prun_snoc l : forall w w' o, prun w l = Some w' -> prun w (l ++ [o]) = match pstep w' o with Done (x, _) => Some x | Panic => None end.
Proof.
  induction l as [|o' l IH]; intros w w' o H; cbn [prun app] in *; [injection H as ->; destruct (pstep w' o) as [[x y]|]; reflexivity|].
  destruct (pstep w o') as [[x y]|]; [|discriminate H]. apply IH. exact H.
Qed.
Lemma asks_iok chk s c e a n q o : Forall is_word (words a) -> 0 <= e_host e -> asks chk (g_m s) c e a n q -> new_number s c q -> o ∈ i_calls q -> iok (g_x s) c o.
Proof.
  intros W Hh A Nn O. destruct A as [n ts vs q T K M|id cmd H1 H2 H3|h k H1 H2 V F|H1 V F|sig H1 K|how H1 K|which H1 K]; cbn [i_calls] in O;
    try (apply elem_of_list_singleton in O; subst o); try (apply elem_of_nil in O; contradiction); try exact I; [|exact Hh].
  unfold well_typed in K. in_gtable T; cbn [zip zip_with words] in K; repeat match goal with K : Forall2 _ (_ :: _) _ |- _ => inversion K; clear K; subst | K : Forall2 _ [] _ |- _ => inversion K; clear K; subst end; cbn [fst snd] in *;
    repeat match goal with K : stands _ _ _ _ |- _ => inversion K; clear K; subst end; cbn [gmeaning] in M; apply (inj Some) in M; subst q; cbn [i_calls] in O;
    try (apply elem_of_nil in O; contradiction); apply elem_of_list_singleton in O; subst o; cbn [iok new_number] in *; try exact I; try assumption;
    unfold is_word in *; try lia; try (apply Z.mod_pos_bound; lia).
Qed.

Lemma i_step tr chk x c o x' y qs : irun chk tr x -> map (fun v => (e_c v, e_op v)) tr = qs -> iok x c o -> istep chk x c o = Done (x', y) ->
  exists tr', irun chk tr' x' /\ map (fun v => (e_c v, e_op v)) tr' = qs ++ [(c, o)].
Proof. intros R M K S. exists (tr ++ [Iev c o y]). split; [exact (irun_step _ _ _ _ _ _ _ R K S)|]. rewrite map_app, M. reflexivity. Qed.
Lemma history chk ps qs s : grun chk ps qs s ->
  prun pinit ps = Some (g_p s) /\ exists tr, irun chk tr (g_x s) /\ map (fun v => (e_c v, e_op v)) tr = qs.
Proof.
  induction 1 as [|ps qs s m R [IP (tr & IR & IM)] B|ps qs s c e n a q s' r R [IP (tr & IR & IM)] B W Hh A Nn E|ps qs s c e n a v s' r R IH B W D E
    |ps qs s o w y R [IP IX] Ho E|ps qs s c o x y R [IP (tr & IR & IM)] Ho E].
  - split; [reflexivity|]. exists []. split; [apply irun_nil|reflexivity].
  - split; [exact IP|]. exists tr. auto.
  - pose proof (understood chk s c e a n q B W A) as U. pose proof (fun o => asks_iok chk s c e a n q o W Hh A Nn) as K. rewrite E in U. clear E.
    destruct q as [o|o|o|o o']; cbn [does p_calls i_calls map] in *.
    + destruct (pstep (g_p s) o) as [[w z]|] eqn:S; [|discriminate U]. destruct U as (m' & U). injection U as -> _. cbn [g_p g_x].
      rewrite app_nil_r. split; [rewrite (prun_snoc _ _ _ _ IP), S; reflexivity|]. exists tr. auto.
    + destruct (istep chk (g_x s) c o) as [[x z]|] eqn:S; [|discriminate U]. destruct U as (m' & U). injection U as -> _. cbn [g_p g_x].
      rewrite app_nil_r. split; [exact IP|]. exact (i_step _ _ _ _ _ _ _ _ IR IM (K o ltac:(left)) S).
    + destruct (istep chk (g_x s) c o) as [[x z]|] eqn:S; [|discriminate U]. destruct U as (m' & U). injection U as -> _. cbn [g_p g_x].
      rewrite app_nil_r. split; [exact IP|]. exact (i_step _ _ _ _ _ _ _ _ IR IM (K o ltac:(left)) S).
    + destruct (pstep (g_p s) o) as [[w z]|] eqn:S; [|discriminate U]. destruct (istep chk (g_x s) c o') as [[x z']|] eqn:S'; [|discriminate U]. injection U as -> _. cbn [g_p g_x].
      split; [rewrite (prun_snoc _ _ _ _ IP), S; reflexivity|]. exact (i_step _ _ _ _ _ _ _ _ IR IM (K o' ltac:(left)) S').
  - rewrite (declined chk s c e a n v B W D) in E. injection E as <- _. exact IH.
  - cbn [g_p g_x]. split; [rewrite (prun_snoc _ _ _ _ IP), E; reflexivity|exact IX].
  - cbn [g_p g_x]. split; [exact IP|]. apply (i_step _ _ _ _ _ _ _ _ IR IM) with (2 := E). destruct o; try discriminate Ho; exact I.
Qed.

(** ** The action set is the one reported *)
Lemma action_kept l c sig h : Forall (fun o => keeps_action c sig o = true) l -> action_in (rev l ++ h) c sig = action_in h c sig.
Proof.
  revert h. induction l as [|o l IH]; intros h F; [reflexivity|]. inversion F as [|? ? K F']; subst. cbn [rev]. rewrite <- app_assoc. rewrite (IH _ F'). clear IH F F'. cbn [app action_in].
  destruct o as [c' ch|c' ch| | | | |c' s' act| | | | | | |]; try reflexivity; cbn [keeps_action] in K.
  - destruct (ch =? c); [discriminate K|reflexivity].
  - destruct (ch =? c); [discriminate K|reflexivity].
  - destruct act; [|reflexivity]. destruct ((c' =? c) && (s' =? sig)); [discriminate K|]. reflexivity.
Qed.
Lemma action_reported chk ps qs s c e a sig s' r : grun chk ps qs s -> int_word (a1 a) sig -> a3 a <> 0 -> enter chk s e c 147 a = Rep s' r ->
  action_lies (g_m s') (a3 a) (action_in (rev ps) c sig).
Proof.
  intros R V N E. destruct (action_stored chk s c e a sig s' r V N E) as (old & S & L). destruct (history _ _ _ _ R) as [P _].
  destruct (sigaction_reports ps (g_p s) c sig None _ _ _ P S) as [-> _]. exact L.
Qed.
Lemma action_returned chk c sig ps qs s e a s1 mid qs2 s2 e2 b s3 r :
  grun chk ps qs s -> bytes_only (g_m s) -> Forall is_word (words a) -> int_word (a1 a) sig -> a2 a <> 0 -> clear_of (a2 a) (a3 a) 24 ->
  enter chk s e c 147 a = Rep s1 (Some 0) ->
  grun chk (ps ++ PSigaction c sig (Some (action_of (g_m s) (a2 a))) :: mid) qs2 s2 -> Forall (fun o => keeps_action c sig o = true) mid ->
  int_word (a1 b) sig -> a3 b <> 0 -> enter chk s2 e2 c 147 b = Rep s3 r ->
  action_lies (g_m s3) (a3 b) (action_of (g_m s) (a2 a)).
Proof.
  intros R B W V N K E R2 F V2 N2 E2. pose proof (action_reported _ _ _ _ _ _ _ _ _ _ R2 V2 N2 E2) as L.
  pose proof (understood chk s c e a 147 _ B W (as_action chk (g_m s) c e a sig V K)) as U. rewrite E in U. cbn [does] in U. unfold given in U.
  destruct (Z.eqb_spec (a2 a) 0); [contradiction|]. destruct (history _ _ _ _ R) as [P _].
  destruct (pstep (g_p s) (PSigaction c sig (Some _))) as [[w y]|] eqn:S; [|discriminate U]. destruct U as (m' & U). injection U as _ U.
  assert (Y : exists v old, y = OAct v old).
  { cbn [pstep] in S. unfold p_sigaction in S. destruct (getref (g_p s) c); [|discriminate S]. cbn [obind] in S. destruct (_ || _); injection S as _ <-; eauto. }
  destruct Y as (v & old & ->). cbn [p_answer] in U. subst v. destruct (sigaction_reports _ _ _ _ _ _ _ _ P S) as (_ & [Z _] & _).
  destruct (Z eq_refl) as [C|[C9 C19]]; [discriminate C|].
  replace (action_in (rev (ps ++ PSigaction c sig (Some (action_of (g_m s) (a2 a))) :: mid)) c sig) with (action_of (g_m s) (a2 a)) in L; [exact L|].
  change (PSigaction c sig (Some (action_of (g_m s) (a2 a))) :: mid) with ([PSigaction c sig (Some (action_of (g_m s) (a2 a)))] ++ mid).
  rewrite app_assoc, rev_app_distr, (action_kept mid c sig _ F), rev_app_distr. cbn [rev app action_in]. rewrite !Z.eqb_refl.
  destruct (Z.eqb_spec sig 9); [contradiction|]. destruct (Z.eqb_spec sig 19); [contradiction|]. reflexivity.
Qed.

Lemma segment_reported chk tr s c e a id s' : irun chk tr (g_x s) -> maps_ok tr -> int_word (a1 a) id -> a2 a = 2 -> a3 a <> 0 -> enter chk s e c 65 a = Rep s' (Some 0) ->
  exists z mode, In z (existing tr) /\ z_id z = id /\ segment_lies (g_m s') (a3 a) (z_key z) (z_size z) (attach_count tr id) mode.
Proof.
  intros R M V E2 N H. destruct (stat_stored chk s c e a id s' V E2 N H) as (k & zz & n & md & S & _ & L).
  destruct (proj2 (f_stat chk tr _ R M c id _ _ S)) as [[_ F]|(z & mode & I & Z & F)]; [discriminate F|]. injection F as -> -> -> ->.
  exists z, mode. split; [exact I|]. split; [exact Z|]. destruct L as (L1 & L2 & L3 & L4 & L5 & L6 & L7 & L8).
  repeat (split; [assumption|]). split; [|exact L8]. unfold field in L7 |- *. rewrite L7. unfold to_u32, wrap_u. rewrite Z.mod_mod by discriminate. reflexivity.
Qed.
