(** The entry point of the calls of processes, signals, shared memory and
    synchronisation: words, answers, memory. *)
From stdpp Require Import gmap.
From Verif Require Import Base AbiModel AbiSpec EntryModel EntrySpec WireSpec WireProofs SemModel IpcModel SigModel GateModel GateSpec.
Local Open Scope list_scope.
Local Open Scope Z_scope.

(** ** Words *)
Fixpoint chain (ts : list aty) (ws : list Z) (k : list Z -> todo) : todo :=
  match ts, ws with
  | t :: ts, w :: ws => arg (convert t w) (fun v => chain ts ws (fun vs => k (v :: vs)))
  | _, _ => k []
  end.
Lemma chain_typed m ts : forall ws vs k, ~ APath ∈ ts -> (length ts <= length ws)%nat -> well_typed m ts ws vs -> exists xs, vs = map Num xs /\ length xs = length ts /\ chain ts ws k = k xs.
Proof.
  induction ts as [|t ts IH]; intros ws vs k N L K.
  - cbn [zip] in K. unfold well_typed in K. cbn in K. inversion K. subst. exists []. destruct ws; auto.
  - destruct ws as [|w ws]; [cbn in L; lia|]. unfold well_typed in K. cbn in K. inversion K as [|? ? ? ? S K']. subst.
    apply convert_ok in S as (x & -> & E); [|intros Q; cbn in Q; subst t; apply N; left]. change (convert t w = Ok x) in E.
    destruct (IH ws l' (fun vs => k (x :: vs))) as (xs & -> & L' & E'); [intros Q; apply N; right; exact Q|cbn in L; lia|exact K'|].
    exists (x :: xs). split; [reflexivity|]. split; [cbn; lia|]. cbn [chain]. rewrite E. exact E'.
Qed.
Lemma chain_bad m ts : forall ws r k, ~ APath ∈ ts -> Forall is_word ws -> first_bad m ts ws r -> chain ts ws k = Bad r.
Proof.
  induction ts as [|t ts IH]; intros ws r k N W (j & vs & t' & w' & K & N1 & N2 & R).
  - destruct j; discriminate N1.
  - destruct ws as [|w ws]; [destruct j; discriminate N2|]. apply Forall_cons in W as [W1 W2].
    destruct j as [|j].
    + cbn in N1, N2. injection N1 as <-. injection N2 as <-. cbn [chain]. erewrite convert_bad; [reflexivity| |exact W1|exact R]. intros ->; apply N; left.
    + cbn in N1, N2. unfold well_typed in K. cbn in K. inversion K as [|? ? ? ? S K']. subst.
      apply convert_ok in S as (x & -> & E); [|intros Q; cbn in Q; subst t; apply N; left]. change (convert t w = Ok x) in E. cbn [chain]. rewrite E. cbn [arg].
      apply IH; [intros Q; apply N; right; exact Q|exact W2|]. exists j, l', t', w'. repeat (split; [assumption|]). assumption.
Qed.
Lemma gtable_plain n ts : (n, ts) ∈ gtable -> ~ APath ∈ ts /\ (length ts <= 6)%nat.
Proof.
  intros T. unfold gtable in T. repeat (apply elem_of_cons in T as [T|T]; [injection T as -> ->; split; [intros H; repeat (apply elem_of_cons in H as [H|H]; [discriminate H|]); apply elem_of_nil in H; exact H|cbn; lia]|]).
  apply elem_of_nil in T. contradiction.
Qed.
Definition plain_todo (q : option req) : todo :=
  match q with Some (ForP o) => OnP o | Some (ForI o) => OnI o | Some (ForTimed o) => OnTimed o | Some (ForBoth o q) => OnBoth o q | None => Away end.
Ltac in_gtable T := unfold gtable in T; repeat (apply elem_of_cons in T as [T|T]; [injection T as -> ->|]); [..|apply elem_of_nil in T; contradiction].
Lemma decode_plain chk m e c n a ts : (n, ts) ∈ gtable ->
  decode chk m e c n a = chain ts (words a) (fun xs => plain_todo (gmeaning c e n (map Num xs))).
Proof. intros T. in_gtable T; reflexivity. Qed.
Lemma meaning_plain c e n vs q : gmeaning c e n vs = Some q -> forall o, q <> ForTimed o.
Proof.
  intros H o ->. unfold gmeaning in H.
  repeat match type of H with context [match ?x with _ => _ end] => destruct x; try discriminate H end.
Qed.

(** ** The records *)
Lemma signed64 v : 0 <= v < 2 ^ 64 -> to_i64 v = signed 64 v.
Proof. intros H. unfold to_i64, signed, wrap_u. rewrite Z.mod_small by lia. reflexivity. Qed.
Lemma word_range m p : bytes_only m -> 0 <= word_at m p < 2 ^ 64.
Proof. intros B. pose proof (number_range m p B). pose proof (number_range m (p + 4) B). unfold word_at. lia. Qed.
Lemma load4 m p : of_le (load m p 4) = number_at m p.
Proof.
  unfold load, number_at. cbn [seq map of_le]. change (Z.of_nat 0) with 0. change (Z.of_nat 1) with 1. change (Z.of_nat 2) with 2. change (Z.of_nat 3) with 3.
  rewrite Z.add_0_r. ring.
Qed.
Lemma act_of m p : bytes_only m -> act_at m p = action_of m p.
Proof. intros B. unfold act_at, action_of. rewrite load4, load8, (int_at_load m (p + 16) B). reflexivity. Qed.
Lemma long_of m p : bytes_only m -> long_at m p = signed 64 (word_at m p).
Proof. intros B. unfold long_at. rewrite load8. apply signed64. exact (word_range m p B). Qed.
Lemma timer_of m p : bytes_only m -> timer_at m p = times_of m p.
Proof. intros B. unfold timer_at, times_of. rewrite !(long_of _ _ B). reflexivity. Qed.

Lemma store_frame m p bs q : ~ p <= q < p + Z.of_nat (length bs) -> store m p bs q = m q.
Proof.
  intros H. unfold store. destruct ((p <=? q) && (q <? p + Z.of_nat (length bs))) eqn:E; [lia|reflexivity].
Qed.
Lemma load_same m m' p n : (forall q, p <= q < p + Z.of_nat n -> m' q = m q) -> load m' p n = load m p n.
Proof. intros H. unfold load. apply map_ext_in. intros k Hk. apply in_seq in Hk. apply H. lia. Qed.
Lemma le_len n : forall v, length (le n v) = n.
Proof. induction n as [|n IH]; intros v; cbn; [reflexivity|rewrite IH; reflexivity]. Qed.
Lemma junk_len e p n : length (junk e p n) = n.
Proof. unfold junk. rewrite map_length, seqZ_length. lia. Qed.
Lemma put_act_frame e m p s q : ~ p <= q < p + 24 -> put_act e m p s q = m q.
Proof. intros H. apply store_frame. rewrite !app_length, !le_len, !junk_len. exact H. Qed.
Lemma put_timer_frame m p v q : ~ p <= q < p + 32 -> put_timer m p v q = m q.
Proof. intros H. apply store_frame. rewrite !app_length, !le_len. exact H. Qed.
Lemma put_shm_frame e m p k z n md q : ~ p <= q < p + 80 -> put_shm e m p k z n md q = m q.
Proof. intros H. apply store_frame. rewrite !app_length, !le_len, !junk_len, replicate_length. exact H. Qed.
Lemma mask_frame m p v q : ~ p <= q < p + 8 -> store m p (le 8 v) q = m q.
Proof. intros H. apply store_frame. rewrite le_len. exact H. Qed.

(** ** The time limit *)
Lemma limit_cases chk m p : bytes_only m ->
  match limit_at chk m p with
  | Done (Ok _) => limit_valid m p /\ limit_fits chk m p
  | Done (Fail r) => r = -14 /\ p = 0 \/ r = -22 /\ p <> 0 /\ ~ limit_valid m p
  | Panic => limit_valid m p /\ ~ limit_fits chk m p
  end.
Proof.
  intros B. unfold limit_at, limit_valid, limit_fits, nanos. destruct (Z.eqb_spec p 0) as [->|Hp]; [left; auto|].
  rewrite load8, (long_of _ _ B). set (n := signed 64 (word_at m (p + 8))). change AbiModel.NS with 1000000000.
  destruct ((n <? 0) || (1000000000 <=? n)) eqn:E; [right; split; [reflexivity|split; [exact Hp|lia]]|].
  assert (Hn : 0 <= n < 1000000000) by lia. unfold AbiModel.duration_new, mul32. change AbiModel.NS with 1000000000.
  pose proof (word_range m p B).
  destruct chk.
  - destruct (Z.leb_spec (2 ^ 32) (n * 1000000000)) as [F|F]; [split; [auto|]; intros [G _]; specialize (G eq_refl); lia|].
    rewrite (Z.mod_small (n * 1000000000)) by lia.
    destruct (Z.leb_spec (2 ^ 64) (word_at m p + n * 1000000000 / 1000000000)) as [G|G].
    + split; [auto|]. intros [_ K]. lia.
    + split; [auto|]. split; [auto|exact G].
  - unfold to_u32, wrap_u. destruct (Z.leb_spec (2 ^ 64) (word_at m p + (n * 1000000000) mod 2 ^ 32 / 1000000000)) as [G|G].
    + split; [auto|]. intros [_ K]. lia.
    + split; [auto|]. split; [discriminate|exact G].
Qed.
Lemma limit_ok chk m p k : bytes_only m -> limit_valid m p -> limit_fits chk m p -> with_limit chk m p k = k.
Proof.
  intros B V F. pose proof (limit_cases chk m p B) as C. unfold with_limit. destruct (limit_at chk m p) as [[[]|r]|]; [reflexivity| |].
  - destruct C as [(_ & C)|(_ & _ & C)]; [destruct V as [V _]; contradiction|contradiction].
  - destruct C as [_ C]. contradiction.
Qed.
Lemma limit_null chk m k : with_limit chk m 0 k = Bad (-14).
Proof. reflexivity. Qed.
Lemma limit_bad chk m p k : bytes_only m -> p <> 0 -> ~ limit_valid m p -> with_limit chk m p k = Bad (-22).
Proof.
  intros B P V. pose proof (limit_cases chk m p B) as C. unfold with_limit. destruct (limit_at chk m p) as [[[]|r]|]; [| |].
  - destruct C as [C _]. contradiction.
  - destruct C as [(_ & C)|(-> & _)]; [contradiction|reflexivity].
  - destruct C as [C _]. contradiction.
Qed.
Lemma limit_fault chk m p k : bytes_only m -> limit_valid m p -> ~ limit_fits chk m p -> with_limit chk m p k = Fault.
Proof.
  intros B V F. pose proof (limit_cases chk m p B) as C. unfold with_limit. destruct (limit_at chk m p) as [[[]|r]|]; [| |reflexivity].
  - destruct C as [_ C]. contradiction.
  - destruct C as [(_ & C)|(_ & _ & C)]; [destruct V as [V _]; contradiction|contradiction].
Qed.

(** ** What a call does *)
Lemma plain_does chk s e c q : does chk s e c q (perform chk s e c (plain_todo (Some q))).
Proof.
  destruct q as [o|o|o|o o']; cbn [plain_todo does perform].
  - destruct (pstep (g_p s) o) as [[w' z]|]; eauto.
  - destruct (istep chk (g_x s) c o) as [[x' z]|]; eauto.
  - destruct (istep chk (g_x s) c o) as [[x' []]|]; eauto.
  - destruct (pstep (g_p s) o) as [[w' z]|]; [|reflexivity]. destruct (istep chk (g_x s) c o') as [[x' z']|]; reflexivity.
Qed.

(** the old values are asked for first, and the processes are as they were *)
Lemma action_query w c sig act : match pstep w (PSigaction c sig None) with
  | Done (w', y) => w' = w /\ exists old, y = OAct 0 old | Panic => pstep w (PSigaction c sig act) = Panic end.
Proof. cbn [pstep]. unfold p_sigaction. destruct (getref w c); cbn [obind]; [|reflexivity]. split; [reflexivity|]. eauto. Qed.
Lemma mask_query w c t how set : match pstep w (PSigprocmask c t how None) with
  | Done (w', y) => w' = w /\ exists old, y = OMask 0 old | Panic => pstep w (PSigprocmask c t how set) = Panic end.
Proof.
  cbn [pstep]. unfold p_sigprocmask. destruct (getref w c) as [g|]; cbn [obind]; [|reflexivity]. destruct (pc_sigset g !! t); [|reflexivity].
  split; [reflexivity|]. eauto.
Qed.
Lemma timer_query w c which v : match pstep w (PSetitimer c which None) with
  | Done (w', y) => w' = w /\ (which = 0 /\ (exists old, y = OTimer 0 old) \/ which <> 0 /\ y = ORet 0) | Panic => pstep w (PSetitimer c which v) = Panic end.
Proof.
  cbn [pstep]. unfold p_setitimer. destruct (getref w c) as [g|]; cbn [obind]; [|reflexivity]. destruct (Z.eqb_spec which 0).
  - split; [reflexivity|]. left. eauto.
  - split; [reflexivity|]. right. auto.
Qed.

Lemma given_same {A} (m m1 : mem) (p : Z) (f : mem -> Z -> A) g : f m1 p = g m p -> (if p =? 0 then None else Some (f m1 p)) = given m p g.
Proof. intros E. unfold given. destruct (p =? 0); [reflexivity|rewrite E; reflexivity]. Qed.

Lemma action_does chk s e c sig p q : bytes_only (g_m s) -> clear_of p q 24 ->
  does chk s e c (ForP (PSigaction c sig (given (g_m s) p action_of))) (perform chk s e c (Action sig p q)).
Proof.
  intros B K. cbn [does perform]. pose proof (action_query (g_p s) c sig (given (g_m s) p action_of)) as Q.
  destruct (pstep (g_p s) (PSigaction c sig None)) as [[w' y]|]; [|rewrite Q; reflexivity].
  destruct Q as (-> & old & ->). set (m1 := if q =? 0 then g_m s else put_act e (g_m s) q old).
  assert (E : (if p =? 0 then None else Some (act_at m1 p)) = given (g_m s) p action_of).
  { unfold given. destruct (Z.eqb_spec p 0) as [|P]; [reflexivity|]. rewrite <- (act_of _ _ B). f_equal. unfold m1. destruct (Z.eqb_spec q 0) as [|Q]; [reflexivity|].
    destruct K as [K|[K|K]]; [contradiction|contradiction|]. unfold act_at.
    rewrite !(load_same (g_m s) (put_act e (g_m s) q old)) by (intros x Hx; apply put_act_frame; lia). reflexivity. }
  rewrite E. destruct (pstep (g_p s) (PSigaction c sig _)) as [[w' z]|]; [|reflexivity]. eexists. reflexivity.
Qed.
Lemma mask_does chk s e c how p q : bytes_only (g_m s) -> clear_of p q 8 ->
  does chk s e c (ForP (PSigprocmask c (e_tid e) how (given (g_m s) p word_at))) (perform chk s e c (Mask how p q)).
Proof.
  intros B K. cbn [does perform]. pose proof (mask_query (g_p s) c (e_tid e) how (given (g_m s) p word_at)) as Q.
  destruct (pstep (g_p s) (PSigprocmask c (e_tid e) how None)) as [[w' y]|]; [|rewrite Q; reflexivity].
  destruct Q as (-> & old & ->). set (m1 := if q =? 0 then g_m s else store (g_m s) q (le 8 old)).
  assert (E : (if p =? 0 then None else Some (of_le (load m1 p 8))) = given (g_m s) p word_at).
  { unfold given. destruct (Z.eqb_spec p 0) as [|P]; [reflexivity|]. rewrite <- load8. do 2 f_equal. unfold m1. destruct (Z.eqb_spec q 0) as [|Q]; [reflexivity|].
    destruct K as [K|[K|K]]; [contradiction|contradiction|]. apply load_same. intros x Hx. apply mask_frame. lia. }
  rewrite E. destruct (pstep (g_p s) (PSigprocmask c _ _ _)) as [[w' z]|]; [|reflexivity]. eexists. reflexivity.
Qed.
Lemma timer_does chk s e c which p q : bytes_only (g_m s) -> clear_of p q 32 ->
  does chk s e c (ForP (PSetitimer c which (given (g_m s) p times_of))) (perform chk s e c (Itimer which p q)).
Proof.
  intros B K. cbn [does perform]. pose proof (timer_query (g_p s) c which (given (g_m s) p times_of)) as Q.
  destruct (pstep (g_p s) (PSetitimer c which None)) as [[w' y]|]; [|rewrite Q; reflexivity].
  destruct Q as (-> & Q). set (m1 := match y with OTimer _ v => if q =? 0 then g_m s else put_timer (g_m s) q v | _ => g_m s end).
  assert (E : (if p =? 0 then None else Some (timer_at m1 p)) = given (g_m s) p times_of).
  { unfold given. destruct (Z.eqb_spec p 0) as [|P]; [reflexivity|]. rewrite <- (timer_of _ _ B). f_equal. unfold m1. destruct Q as [(_ & old & ->)|(_ & ->)]; [|reflexivity].
    destruct (Z.eqb_spec q 0) as [|Q]; [reflexivity|].
    destruct K as [K|[K|K]]; [contradiction|contradiction|]. unfold timer_at, long_at.
    rewrite !(load_same (g_m s) (put_timer (g_m s) q old)) by (intros x Hx; apply put_timer_frame; lia). reflexivity. }
  rewrite E. destruct (pstep (g_p s) (PSetitimer c _ _)) as [[w' z]|]; [|reflexivity]. eexists. reflexivity.
Qed.

Lemma understood chk s c e a n q : bytes_only (g_m s) -> Forall is_word (words a) -> asks chk (g_m s) c e a n q ->
  does chk s e c q (enter chk s e c n a).
Proof.
  intros B W A. unfold enter. destruct A as [n ts vs q T K M|id cmd H1 H2 H3|h k H1 H2 V F|H1 V F|sig H1 K|how H1 K|which H1 K].
  - destruct (gtable_plain n ts T) as [N L]. destruct (chain_typed _ ts (words a) vs (fun xs => plain_todo (gmeaning c e n (map Num xs))) N L K) as (xs & -> & _ & E).
    rewrite (decode_plain _ _ _ _ _ _ _ T), E, M. apply plain_does.
  - change (decode chk (g_m s) e c 65 a) with (let! cmd := get_int (a2 a) in
      if cmd =? IPC_STAT then let! p := get_ptr (a3 a) in let! id := get_int (a1 a) in StatTo id p else let! id := get_int (a1 a) in OnI (Shmctl id cmd)).
    rewrite (int_word_ok _ _ H2). cbn [arg]. change IPC_STAT with 2. destruct (Z.eqb_spec cmd 2) as [->|C].
    + rewrite (ptr_ok _ (H3 eq_refl)). cbn [arg]. rewrite (int_word_ok _ _ H1). cbn [arg does perform].
      change IPC_STAT with 2. destruct (istep chk (g_x s) c (Shmctl id 2)) as [[x' []]|]; eauto.
    + rewrite (int_word_ok _ _ H1). cbn [arg]. apply (plain_does chk s e c (ForI (Shmctl id cmd))).
  - change (decode chk (g_m s) e c 80 a) with (let! h := get_int (a1 a) in let! k := get_int (a2 a) in with_limit chk (g_m s) (a3 a) (OnI (CvWait h k (e_host e)))).
    rewrite (int_word_ok _ _ H1). cbn [arg]. rewrite (int_word_ok _ _ H2). cbn [arg]. rewrite (limit_ok _ _ _ _ B V F).
    apply (plain_does chk s e c (ForI _)).
  - change (decode chk (g_m s) e c 94 a) with (let! h := get_uint (a1 a) in with_limit chk (g_m s) (a2 a) (OnTimed (SemWait h))).
    assert (W1 : is_word (a1 a)) by (inversion W; assumption). rewrite (small_uint _ W1 H1). cbn [arg]. rewrite (limit_ok _ _ _ _ B V F).
    apply (plain_does chk s e c (ForTimed _)).
  - change (decode chk (g_m s) e c 147 a) with (let! sig := get_int (a1 a) in Action sig (a2 a) (a3 a)). rewrite (int_word_ok _ _ H1). cbn [arg].
    exact (action_does chk s e c sig _ _ B K).
  - change (decode chk (g_m s) e c 149 a) with (let! how := get_int (a1 a) in Mask how (a2 a) (a3 a)). rewrite (int_word_ok _ _ H1). cbn [arg].
    exact (mask_does chk s e c how _ _ B K).
  - change (decode chk (g_m s) e c 150 a) with (let! which := get_int (a1 a) in Itimer which (a2 a) (a3 a)). rewrite (int_word_ok _ _ H1). cbn [arg].
    exact (timer_does chk s e c which _ _ B K).
Qed.

Lemma declined chk s c e a n r : bytes_only (g_m s) -> Forall is_word (words a) -> declines (g_m s) a n r -> enter chk s e c n a = Rep s (Some r).
Proof.
  intros B W D. unfold enter. assert (E : decode chk (g_m s) e c n a = Bad r); [|rewrite E; reflexivity].
  assert (W1 : is_word (a1 a)) by (inversion W; assumption). assert (W2 : is_word (a2 a)) by (inversion W as [|? ? ? X]; inversion X; assumption).
  assert (I : forall w, is_word w -> w < 2 ^ 32 -> exists v, get_int w = Ok v).
  { intros w Hw Hl. destruct (int_word_cases w Hw) as [(v & V)|V]; [|lia]. exists v. exact (int_word_ok _ _ V). }
  destruct D as [n ts r T F|H|H1 H2|H1 H2 H3|H|H1 H2 H3|H1 H2 H3 H4|H|H1 H2|H1 H2 H3|n N H].
  - destruct (gtable_plain n ts T) as [N L]. rewrite (decode_plain _ _ _ _ _ _ _ T). exact (chain_bad _ ts _ r _ N W F).
  - change (arg (get_int (a2 a)) (fun cmd => if cmd =? IPC_STAT then let! p := get_ptr (a3 a) in let! id := get_int (a1 a) in StatTo id p else let! id := get_int (a1 a) in OnI (Shmctl id cmd)) = Bad (-22)).
    rewrite (wide_int _ W2 H). reflexivity.
  - change (arg (get_int (a2 a)) (fun cmd => if cmd =? IPC_STAT then let! p := get_ptr (a3 a) in let! id := get_int (a1 a) in StatTo id p else let! id := get_int (a1 a) in OnI (Shmctl id cmd)) = Bad (-14)).
    rewrite H1, H2. reflexivity.
  - change (arg (get_int (a2 a)) (fun cmd => if cmd =? IPC_STAT then let! p := get_ptr (a3 a) in let! id := get_int (a1 a) in StatTo id p else let! id := get_int (a1 a) in OnI (Shmctl id cmd)) = Bad (-22)).
    destruct (int_word_cases _ W2) as [(v & V)|V]; [|lia]. rewrite (int_word_ok _ _ V). cbn [arg]. change IPC_STAT with 2. destruct (Z.eqb_spec v 2) as [->|].
    + destruct V as [_ V]. change (2 mod 2 ^ 32) with 2 in V. rewrite (ptr_ok _ (H2 V)). cbn [arg]. rewrite (wide_int _ W1 H3). reflexivity.
    + rewrite (wide_int _ W1 H3). reflexivity.
  - change (arg (get_int (a1 a)) (fun h => let! k := get_int (a2 a) in with_limit chk (g_m s) (a3 a) (OnI (CvWait h k (e_host e)))) = Bad (-22)).
    destruct (int_word_cases _ W1) as [(v & V)|V]; [|rewrite (wide_int _ W1 V); reflexivity]. rewrite (int_word_ok _ _ V). cbn [arg].
    destruct H as [H|H]; [pose proof (int_word_small _ _ V); lia|]. rewrite (wide_int _ W2 H). reflexivity.
  - change (arg (get_int (a1 a)) (fun h => let! k := get_int (a2 a) in with_limit chk (g_m s) (a3 a) (OnI (CvWait h k (e_host e)))) = Bad (-14)).
    destruct (I _ W1 H1) as [v ->], (I _ W2 H2) as [u ->]. rewrite H3. reflexivity.
  - change (arg (get_int (a1 a)) (fun h => let! k := get_int (a2 a) in with_limit chk (g_m s) (a3 a) (OnI (CvWait h k (e_host e)))) = Bad (-22)).
    destruct (I _ W1 H1) as [v ->], (I _ W2 H2) as [u ->]. exact (limit_bad _ _ _ _ B H3 H4).
  - change (arg (get_uint (a1 a)) (fun h => with_limit chk (g_m s) (a2 a) (OnTimed (SemWait h))) = Bad (-22)). rewrite (wide_uint _ W1 H). reflexivity.
  - change (arg (get_uint (a1 a)) (fun h => with_limit chk (g_m s) (a2 a) (OnTimed (SemWait h))) = Bad (-14)). rewrite (small_uint _ W1 H1), H2. reflexivity.
  - change (arg (get_uint (a1 a)) (fun h => with_limit chk (g_m s) (a2 a) (OnTimed (SemWait h))) = Bad (-22)). rewrite (small_uint _ W1 H1). exact (limit_bad _ _ _ _ B H2 H3).
  - destruct N as [->|[-> | ->]].
    + change (arg (get_int (a1 a)) (fun sig => Action sig (a2 a) (a3 a)) = Bad (-22)). rewrite (wide_int _ W1 H). reflexivity.
    + change (arg (get_int (a1 a)) (fun sig => Mask sig (a2 a) (a3 a)) = Bad (-22)). rewrite (wide_int _ W1 H). reflexivity.
    + change (arg (get_int (a1 a)) (fun sig => Itimer sig (a2 a) (a3 a)) = Bad (-22)). rewrite (wide_int _ W1 H). reflexivity.
Qed.
Lemma limit_aborts chk s c e a n : bytes_only (g_m s) -> Forall is_word (words a) -> aborts chk (g_m s) a n -> enter chk s e c n a = Crash.
Proof.
  intros B W D. unfold enter. assert (E : decode chk (g_m s) e c n a = Fault); [|rewrite E; reflexivity].
  assert (W1 : is_word (a1 a)) by (inversion W; assumption). assert (W2 : is_word (a2 a)) by (inversion W as [|? ? ? X]; inversion X; assumption).
  assert (I : forall w, is_word w -> w < 2 ^ 32 -> exists v, get_int w = Ok v).
  { intros w Hw Hl. destruct (int_word_cases w Hw) as [(v & V)|V]; [|lia]. exists v. exact (int_word_ok _ _ V). }
  destruct D as [H1 H2 V F|H1 V F].
  - change (arg (get_int (a1 a)) (fun h => let! k := get_int (a2 a) in with_limit chk (g_m s) (a3 a) (OnI (CvWait h k (e_host e)))) = Fault).
    destruct (I _ W1 H1) as [v ->], (I _ W2 H2) as [u ->]. exact (limit_fault _ _ _ _ B V F).
  - change (arg (get_uint (a1 a)) (fun h => with_limit chk (g_m s) (a2 a) (OnTimed (SemWait h))) = Fault). rewrite (small_uint _ W1 H1).
    exact (limit_fault _ _ _ _ B V F).
Qed.
