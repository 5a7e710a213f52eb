(** Shared memory: the theorems as users read them, and concrete histories. *)
From Verif Require Import Base SemModel IpcModel IpcSpec IpcProofs IpcShm IpcFacts IpcHandles IpcPlay SegModel SegSpec SegProofs SegProofs2 SegProofs3.
Local Open Scope list_scope.
Local Open Scope Z_scope.

(** ** Loads and stores *)
Lemma load_result chk h s c p : srun chk h s -> running h c = true ->
  sstep chk s c (Fetch p) = Done (s, match sees h p with Own => Ordinary | Hole => Segv | Shows id pos _ => Byte (stored h id pos) end).
Proof.
  intros Hr Hc. apply (run_running _ _ _ Hr) in Hc as [g Hg]. unfold sstep. rewrite Hg, (ag_view _ _ (run_agree _ _ _ Hr)).
  do 2 f_equal. destruct (sees h p) as [| |id pos w]; try done. rewrite (ag_byte _ _ (run_agree _ _ _ Hr)). done.
Qed.
Lemma store_result chk h s c p v : srun chk h s -> running h c = true ->
  exists s', sstep chk s c (Store p v) = Done (s', match sees h p with Own => Ordinary | Shows _ _ true => Stored | _ => Segv end).
Proof.
  intros Hr Hc. apply (run_running _ _ _ Hr) in Hc as [g Hg]. unfold sstep. rewrite Hg, (ag_view _ _ (run_agree _ _ _ Hr)).
  destruct (sees h p) as [| |id pos []]; eauto.
Qed.
Lemma run_inv_step chk e h s' : srun chk (e :: h) s' ->
  exists s, srun chk h s /\ sok s (v_c e) (v_op e) /\ sstep chk s (v_c e) (v_op e) = Done (s', v_out e).
Proof. intros H. inversion H; subst. eauto. Qed.
Lemma stepper chk e h s : srun chk (e :: h) s -> running h (v_c e) = true.
Proof.
  intros H. destruct (run_inv_step _ _ _ _ H) as (s0 & H0 & _ & Hs). apply (run_running _ _ _ H0). unfold sstep in Hs.
  destruct (x_cage (t_x s0) !! v_c e); [eauto|discriminate Hs].
Qed.

Lemma two_attached chk h s c1 c2 id a b f1 f2 k1 k2 b1 b2 r1 r2 d v r3 :
  srun chk (Sev c1 (Store (a + d) v) r3 :: Sev c2 (At id b f2 k2 b2) (Call (IRet r2)) :: Sev c1 (At id a f1 k1 b1) (Call (IRet r1)) :: h) s ->
  is_addr r1 = true -> is_addr r2 = true -> Z.land f1 4096 = 0 -> 0 <= d < size_of h id ->
  a + pages (size_of h id) <= b \/ b + pages (size_of h id) <= a ->
  r3 = Stored /\ sstep chk s c2 (Fetch (b + d)) = Done (s, Byte v) /\ sstep chk s c1 (Fetch (a + d)) = Done (s, Byte v).
Proof.
  intros Hr H1 H2 Hf Hd Hdis. pose proof (pages_ge (size_of h id)) as Hpg.
  set (h2 := Sev c2 _ _ :: Sev c1 _ _ :: h) in Hr.
  assert (Ea : sees h2 (a + d) = Shows id d true).
  { unfold h2. cbn [sees v_op v_out size_of]. rewrite H1, H2. unfold inside. cbn [andb].
    destruct (Z.leb_spec b (a + d)), (Z.ltb_spec (a + d) (b + pages (size_of h id))); cbn [andb]; try lia;
      (rewrite (proj2 (Z.leb_le a (a + d))), (proj2 (Z.ltb_lt (a + d) (a + pages (size_of h id)))) by lia; cbn [andb];
       f_equal; [lia|rewrite Hf; done]). }
  assert (Eb : exists w, sees h2 (b + d) = Shows id d w).
  { unfold h2. cbn [sees v_op v_out size_of]. rewrite H2. unfold inside. cbn [andb].
    rewrite (proj2 (Z.leb_le b (b + d))), (proj2 (Z.ltb_lt (b + d) (b + pages (size_of h id)))) by lia. cbn [andb]. eexists. f_equal. lia. }
  destruct Eb as [w Eb].
  pose proof (stepper _ _ _ _ Hr) as Hc1. cbn [v_c] in Hc1.
  destruct (run_inv_step _ _ _ _ Hr) as (s2 & Hr2 & _ & Hst). cbn [v_c v_op v_out] in Hst.
  pose proof (stepper _ _ _ _ Hr2) as Hc2. cbn [v_c] in Hc2.
  assert (E3 : r3 = Stored).
  { destruct (store_result chk h2 s2 c1 (a + d) v Hr2 Hc1) as [s3 E]. rewrite E, Ea in Hst. injection Hst as _ <-. done. }
  split; [done|]. split.
  - rewrite (load_result _ _ _ c2 _ Hr Hc2). cbn [sees v_op v_out stored]. rewrite Eb. rewrite bool_decide_eq_true_2 by done. done.
  - rewrite (load_result _ _ _ c1 _ Hr Hc1). cbn [sees v_op v_out stored]. rewrite Ea. rewrite bool_decide_eq_true_2 by done. done.
Qed.

(** ** Contents of segments over time *)
Lemma stored_kept h2 h1 id pos : forallb (fun e => negb (is_store e)) h2 = true -> stored (h2 ++ h1) id pos = stored h1 id pos.
Proof.
  induction h2 as [|e h2 IH]; [done|]. cbn [forallb app stored]. intros H. apply andb_true_iff in H as [He H].
  unfold is_store in He. destruct (v_op e); try discriminate He; auto.
Qed.
Lemma stored_old chk h s : srun chk h s -> forall id pos, x_next (t_x s) <= id -> stored h id pos = 0.
Proof.
  induction 1 as [|h s c o s' r Hr IH Hok Hs]; intros id pos Hid; [done|].
  assert (Hle : x_next (t_x s) <= id).
  { pose proof (step_calls _ _ _ _ _ _ Hok Hs) as K. destruct (call_of _) as [k|]; [|rewrite K in Hid; done]. destruct K as (_ & _ & K).
    destruct (is_get (e_op k)) eqn:Eg; [|destruct (istep_smaller _ _ _ _ _ _ Eg K) as (E & _); lia].
    destruct (e_op k); try discriminate Eg. unfold istep in K. destruct (x_cage (t_x s) !! c); [|discriminate K]. unfold shmget in K.
    destruct (key =? _); [injection K as K _; rewrite <- K in Hid; done|].
    destruct (x_key _ !! key); [destruct (_ =? _); injection K as K _; rewrite <- K in Hid; done|].
    destruct (_ =? 0); [injection K as K _; rewrite <- K in Hid; done|].
    destruct (_ || _); [injection K as K _; rewrite <- K in Hid; done|].
    destruct (_ <=? _); [discriminate K|]. injection K as K _. rewrite <- K in Hid. cbn in Hid. lia. }
  cbn [stored v_op]. destruct o; auto. case_bool_decide as E; [|auto].
  pose proof (ag_shows _ _ (run_agree _ _ _ Hr) _ _ _ _ E). lia.
Qed.
Lemma size_handed h id : 0 <= id -> size_of h id <> 0 -> handed (calls h) id.
Proof.
  intros Hid. induction h as [|e h IH]; [done|]. cbn [size_of]. intros H. rewrite calls_cons.
  assert (Hold : handed (calls h) id -> handed (calls h ++ match call_of e with Some k => [k] | None => [] end) id).
  { intros (k & key & n & f & Hin & H1 & H2 & H3). exists k, key, n, f. rewrite in_app_iff. auto. }
  destruct e as [c o r]. cbn [v_op v_out] in H. destruct o; auto. destruct o; auto. destruct r as [r| | | |]; auto. destruct r; auto.
  destruct ((r =? id) && (size_of h id =? 0)) eqn:E; [|auto]. apply andb_true_iff in E as [E _]. apply Z.eqb_eq in E. subst r.
  eexists _, key, size, flg. cbn. rewrite in_app_iff. split; [right; left; done|]. auto.
Qed.
Lemma fresh_zero chk h s c k n f r : srun chk (Sev c (Sys (Shmget k n f)) (Call (IRet r)) :: h) s -> 0 <= r -> ~ handed (calls h) r ->
  (forall pos, stored h r pos = 0) /\ (forall p pos w, sees h p <> Shows r pos w).
Proof.
  intros Hr Hp Hn. destruct (run_inv_step _ _ _ _ Hr) as (s0 & H0 & _ & Hs). cbn [v_c v_op v_out] in Hs.
  pose proof (run_agree _ _ _ H0) as HA.
  assert (E : r = x_next (t_x s0)).
  { unfold sstep in Hs. destruct (x_cage (t_x s0) !! c) as [g|] eqn:Hg; [|discriminate Hs].
    destruct (istep chk (t_x s0) c _) as [[x' r']|] eqn:K; [|discriminate Hs]. cbn [obind] in Hs. injection Hs as _ E. rewrite E in K.
    unfold istep in K. rewrite Hg in K. unfold shmget in K.
    destruct (k =? _); [injection K as _ K; rewrite <- K in Hp; unfold err, ENOENT in Hp; lia|].
    destruct (x_key _ !! k) as [id0|] eqn:Ek.
    - destruct (_ =? _); injection K as _ K; [rewrite <- K in Hp; unfold err, EEXIST in Hp; lia|].
      subst id0. exfalso. apply Hn. apply size_handed; [done|]. exact (ag_key _ _ HA _ _ Ek).
    - destruct (_ =? 0); [injection K as _ K; rewrite <- K in Hp; unfold err, ENOENT in Hp; lia|].
      destruct (_ || _); [injection K as _ K; rewrite <- K in Hp; unfold err, EINVAL in Hp; lia|].
      destruct (_ <=? _); [discriminate K|]. injection K as _ K. congruence. }
  split.
  - intros pos. apply (stored_old _ _ _ H0). lia.
  - intros p pos w Hsee. pose proof (ag_shows _ _ HA _ _ _ _ Hsee). lia.
Qed.

(** ** The table of attachments *)
Lemma table_iff chk h s c a id : srun chk h s -> careful h -> running h c = true -> 0 <= a < 2 ^ 32 ->
  In (c, a, id) (attached (calls h)) <-> exists w, sees h (c * 2 ^ 32 + a) = Shows id 0 w.
Proof.
  intros Hr Hc Hrun Ha. pose proof (run_table _ _ _ Hr Hc) as HT. split.
  - intros H. destruct (tb_mem _ _ HT _ _ _ H) as [w Hw]. exists w. rewrite <- (Z.add_0_r (c * 2 ^ 32 + a)). apply Hw.
    split; [done|]. apply pages_pos. exact (tb_size _ _ HT _ _ _ H).
  - intros [w Hw]. destruct (tb_back _ _ HT (c * 2 ^ 32 + a) id 0 w) as [_ H]; [rewrite owner_at; done|done|].
    rewrite owner_at, local_at, Z.sub_0_r in H by done. done.
Qed.
Lemma table_all chk h s c a id : srun chk h s -> careful h -> In (c, a, id) (attached (calls h)) ->
  exists w, forall d, 0 <= d < size_of h id -> sees h (c * 2 ^ 32 + a + d) = Shows id d w.
Proof.
  intros Hr Hc H. destruct (tb_mem _ _ (run_table _ _ _ Hr Hc) _ _ _ H) as [w Hw]. exists w. intros d Hd. apply Hw.
  pose proof (pages_ge (size_of h id)). lia.
Qed.
Lemma detach_seen chk h s p id w r : srun chk (Sev (owner p) (Dt p) r :: h) s -> careful h -> sees h p = Shows id 0 w ->
  r = Call (IRet id) /\
  forall q, sees (Sev (owner p) (Dt p) r :: h) q = if inside q p (size_of h id) then Hole else sees h q.
Proof.
  intros Hr Hc Hsee. destruct (run_inv_step _ _ _ _ Hr) as (s0 & H0 & Hok & Hs). cbn [v_c v_op v_out] in Hs, Hok.
  pose proof (stepper _ _ _ _ Hr) as Hrun. cbn [v_c] in Hrun. pose proof (local_range p) as Hl.
  assert (Hin : In (owner p, local p, id) (attached (calls h))).
  { apply (table_iff _ _ _ _ _ _ H0 Hc Hrun Hl). exists w. rewrite <- addr_split. done. }
  pose proof (step_calls _ _ _ _ _ _ Hok Hs) as K. unfold call_of in K. cbn [v_op v_out v_c] in K.
  assert (Hcall : exists r', r = Call r').
  { unfold sstep in Hs. destruct (x_cage (t_x s0) !! owner p); [|discriminate Hs].
    destruct (istep chk (t_x s0) _ _) as [[x' r']|]; [|discriminate Hs]. injection Hs as _ <-. eauto. }
  destruct Hcall as [r' ->]. destruct K as (_ & _ & K). cbn [e_op e_out] in K.
  destruct Hc as (C1 & C2 & C3 & C4).
  assert (HI := run_inv _ _ _ (run_calls _ _ _ H0) (failed_maps _ _ _ H0 C1)).
  unfold istep in K. destruct (x_cage (t_x s0) !! owner p) as [g|] eqn:Hg; [|discriminate K].
  assert (E : r' = IRet id /\ 0 <= id).
  { destruct (shmdt_inv _ _ _ HI chk (owner p) g (local p) _ _ Hg K) as [[[_ Hno]|(i & -> & Hi & Hi2)] _]; [destruct (Hno _ Hin)|].
    apply (table_iff _ _ _ _ _ _ H0 (conj C1 (conj C2 (conj C3 C4))) Hrun Hl) in Hi2 as [w2 Hw2]. rewrite <- addr_split, Hsee in Hw2.
    injection Hw2 as <- _. done. }
  destruct E as [-> Hid]. split; [done|]. intros q. cbn [sees v_op v_out]. rewrite (proj2 (Z.leb_le 0 id)) by lia. cbn [andb].
  assert (Hal : p mod 4096 = 0).
  { assert (Hall : forall q, In q (attached (calls h)) -> a_addr q mod 4096 = 0).
    { assert (Hm := failed_maps _ _ _ H0 C1). revert Hm. clear. induction (calls h) as [|e tr IH] using rev_ind; intros Hm q Hq; [destruct Hq|].
      apply Forall_app in Hm as [Hm He]. apply Forall_cons in He as [He _]. rewrite shm_fold in Hq. unfold att_step in Hq.
      destruct (e_op e) eqn:Eo; try (apply IH; done).
      - destruct (e_out e); try (apply IH; done). destruct (is_addr r); [|apply IH; done]. apply in_app_iff in Hq as [Hq|[<-|[]]]; [apply IH; done|].
        cbn. destruct He as [_ He]. apply Z.eqb_eq in He. done.
      - destruct (e_out e); try (apply IH; done). destruct (r <? 0); [apply IH; done|]. apply IH; [done|].
        clear -Hq. induction (attached tr) as [|z l IHl]; [destruct Hq|]. cbn in Hq. case_bool_decide; [right; done|]. destruct Hq; [left; done|right; auto].
      - apply in_app_iff in Hq as [Hq|Hq]; [apply IH; done|]. apply in_map_iff in Hq as (z & <- & Hz). apply filter_In in Hz as [Hz _]. cbn. apply IH; done.
      - apply filter_In in Hq as [Hq _]. apply IH; done.
      - apply filter_In in Hq as [Hq _]. apply IH; done. }
    specialize (Hall _ Hin). change (a_addr (owner p, local p, id)) with (to_u32 p) in Hall.
    pose proof (low_aligned p) as E. unfold page_ok, aligned in E. rewrite Hall in E. symmetry in E. apply Z.eqb_eq in E. done. }
  rewrite Hal. done.
Qed.
Lemma count_seen chk h s c id x' key segsz nattch mode : srun chk h s -> careful h ->
  istep chk (t_x s) c (Shmctl id IPC_STAT) = Done (x', IStat key segsz nattch mode) ->
  exists l, List.NoDup l /\ nattch = Z.of_nat (length l) /\
    forall p, In p l <-> running h (owner p) = true /\ exists w, sees h p = Shows id 0 w.
Proof.
  intros Hr Hc H. pose proof (run_table _ _ _ Hr Hc) as HT. pose proof (run_calls _ _ _ Hr) as Hir. pose proof (failed_maps _ _ _ Hr (proj1 Hc)) as Hm.
  destruct (f_stat _ _ _ Hir Hm _ _ _ _ H) as [_ [[_ E]|(z & md & _ & _ & E)]]; [discriminate E|]. injection E as _ _ E _.
  set (M := List.filter (fun p => a_seg p =? id) (attached (calls h))).
  exists (map (fun p => a_cage p * 2 ^ 32 + a_addr p) M).
  assert (HM : forall c1 a i, In (c1, a, i) M <-> i = id /\ In (c1, a, id) (attached (calls h))).
  { intros c1 a i. unfold M. rewrite filter_In. change (a_seg (c1, a, i)) with i. split; [intros [H1 H2]; apply Z.eqb_eq in H2; subst; auto|].
    intros [-> H1]. rewrite Z.eqb_refl. auto. }
  assert (Hrng : forall c1 a i, In (c1, a, i) M -> 0 <= a < 2 ^ 32).
  { intros c1 a i Hi. apply HM in Hi as [-> Hi]. destruct (tb_fit _ _ HT _ _ _ Hi). pose proof (pages_pos _ (tb_size _ _ HT _ _ _ Hi)). lia. }
  split; [|split].
  - assert (Hnd : List.NoDup M) by (apply List.NoDup_filter; exact (tb_nodup _ _ HT)).
    assert (Hid : forall q, In q M -> a_seg q = id /\ 0 <= a_addr q < 2 ^ 32).
    { intros [[c1 a1] i1] Hq. split; [apply HM in Hq as [-> _]; done|]. exact (Hrng _ _ _ Hq). }
    clearbody M. clear -Hnd Hid. induction Hnd as [|[[c1 a1] i1] l Hx Hl IH]; cbn [map]; [constructor|]. constructor.
    + intros Hq. apply in_map_iff in Hq as ([[c2 a2] i2] & Eq & Hq). destruct (Hid _ (or_introl eq_refl)) as [S1 R1].
      destruct (Hid _ (or_intror Hq)) as [S2 R2]. cbn in *. apply Hx.
      assert (c1 = c2) by (rewrite <- (owner_at c1 a1 R1), <- (owner_at c2 a2 R2); congruence).
      assert (a1 = a2) by lia. subst. done.
    + apply IH. intros q Hq. apply Hid. right. done.
  - rewrite map_length, E. done.
  - intros p. rewrite in_map_iff. split.
    + intros ([[c1 a1] i1] & <- & Hq). pose proof (Hrng _ _ _ Hq) as Ha. apply HM in Hq as [-> Hq].
      change (a_cage (c1, a1, id)) with c1. change (a_addr (c1, a1, id)) with a1. rewrite owner_at by done.
      pose proof (tb_run _ _ HT _ _ _ Hq) as Hrun. split; [done|]. apply (table_iff _ _ _ _ _ _ Hr Hc Hrun Ha). done.
    + intros [Hrun [w Hw]]. exists (owner p, local p, id). split; [symmetry; apply addr_split|]. apply HM. split; [done|].
      apply (table_iff _ _ _ _ _ _ Hr Hc Hrun (local_range p)). exists w. rewrite <- addr_split. done.
Qed.

(** ** Other processes *)
Lemma fits_rows chk h s : srun chk h s -> no_failed_map h -> fitting h ->
  forall c a id, In (c, a, id) (attached (calls h)) -> size_of h id <> 0 /\ a + pages (size_of h id) <= 2 ^ 32.
Proof.
  induction 1 as [|h s c o s' r Hr IH Hok Hs]; intros C1 C2 c1 a id Hin; [destruct Hin|].
  destruct C1 as [C1 C1'], C2 as [C2 C2'].
  specialize (IH C1' C2'). cbn [v_op v_c] in *.
  assert (Hz : forall i, size_of h i <> 0 -> size_of (Sev c o r :: h) i = size_of h i).
  { intros i Hi. cbn [size_of v_op v_out]. destruct o as [o|? ? ? ? ?|?|? ?|?|?|? ?]; try done. destruct o; try done. destruct r as [r| | | |]; try done. destruct r; try done.
    rewrite (proj2 (Z.eqb_neq _ _) Hi), andb_false_r. done. }
  assert (Hold : In (c1, a, id) (attached (calls h)) -> size_of (Sev c o r :: h) id <> 0 /\ a + pages (size_of (Sev c o r :: h) id) <= 2 ^ 32).
  { intros K. destruct (IH _ _ _ K) as [B1 B2]. rewrite (Hz _ B1). auto. }
  rewrite calls_cons in Hin. pose proof (step_calls _ _ _ _ _ _ Hok Hs) as K. destruct (call_of (Sev c o r)) as [k|] eqn:Ek; [|rewrite app_nil_r in Hin; auto].
  rewrite shm_fold in Hin. destruct K as (Kc & _ & K). unfold att_step in Hin. unfold call_of in Ek. cbn [v_op v_out v_c] in Ek.
  destruct r as [r| | | |]; try discriminate Ek. destruct o as [o|id0 p flg pick bad|p|ch keep|nc|p|p v]; try discriminate Ek; injection Ek as <-; cbn [e_op e_out e_c] in *.
  - destruct Hok as [Hp _]. destruct o; try discriminate Hp; auto. apply filter_In in Hin as [Hin _]. auto.
  - destruct r as [r| |]; auto. destruct (is_addr r) eqn:Ea; auto. apply in_app_iff in Hin as [Hin|[E|[]]]; [auto|]. injection E as <- <- <-.
    change (size_of (Sev c (At id0 p flg pick bad) (Call (IRet r)) :: h) id0) with (size_of h id0).
    assert (Hsz : size_of h id0 <> 0).
    { unfold istep in K. destruct (x_cage (t_x s) !! c) as [g|] eqn:Hg; [|discriminate K]. destruct (x_seg (t_x s) !! id0) as [sg|] eqn:Es.
      - destruct (ag_seg _ _ (run_agree _ _ _ Hr) _ _ Es) as (-> & B & _). lia.
      - unfold shmat in K. rewrite Es in K. injection K as _ <-. discriminate Ea. }
    split; [done|]. cbn in Hok. pose proof (addr_split p) as Hp. unfold owner in Hp. change REGION with (2 ^ 32) in Hok. rewrite Hok in Hp. lia.
  - destruct r as [r| |]; auto. destruct (r <? 0); auto. apply Hold. revert Hin. clear. induction (attached (calls h)) as [|z l IHl]; [done|]. cbn.
    case_bool_decide; [auto|]. intros [?|?]; auto.
  - apply in_app_iff in Hin as [Hin|Hin]; [auto|]. apply in_map_iff in Hin as ([[c2 a2] i2] & E & Hin). injection E as <- <- <-.
    apply filter_In in Hin as [Hin _]. destruct (IH _ _ _ Hin) as [B1 B2]. cbn. auto.
  - apply filter_In in Hin as [Hin _]. auto.
Qed.
Lemma others_kept chk e h s p : srun chk (e :: h) s -> no_failed_map (e :: h) -> fitting (e :: h) ->
  owner p <> v_c e -> new_process (v_op e) <> Some (owner p) -> sees (e :: h) p = sees h p.
Proof.
  intros Hr [C1 C1'] [C2 C2'] Hp Hn. destruct (run_inv_step _ _ _ _ Hr) as (s0 & H0 & Hok & Hs). destruct e as [c o r]. cbn [v_c v_op v_out] in *.
  cbn [sees v_op v_out]. destruct o as [o|id a flg pick bad|a|ch keep|nc|a|a v]; try done.
  - destruct r as [r| | | |]; try done. destruct r; try done. destruct (is_addr r); [|done]. cbn [andb]. cbn in Hok.
    destruct (inside p a (size_of h id)) eqn:Ei; [|done]. exfalso. apply Hp. apply owner_of. unfold inside in Ei.
    pose proof (owner_range a) as Ha. unfold owner in Ha. change (2 ^ 32) with REGION in *. rewrite Hok in Ha. lia.
  - destruct r as [r| | | |]; try done. destruct r as [id| |]; try done.
    destruct ((0 <=? id) && (a mod 4096 =? 0)) eqn:E0; [|done]. apply andb_true_iff in E0 as [E0 E1]. cbn [andb]. cbn in Hok.
    destruct (inside p a (size_of h id)) eqn:Ei; [|done]. exfalso. apply Hp.
    pose proof (step_calls _ _ _ (Dt a) _ _ Hok Hs) as (_ & _ & K). cbn [e_op e_out v_op v_c] in K.
    assert (HI := run_inv _ _ _ (run_calls _ _ _ H0) (failed_maps _ _ _ H0 C1')).
    unfold istep in K. destruct (x_cage (t_x s0) !! c) as [g|] eqn:Hg; [|discriminate K].
    destruct (shmdt_inv _ _ _ HI chk c g (local a) _ _ Hg K) as [[[E _]|(i & E & _ & Hin)] _].
    + injection E as ->. unfold err, EINVAL in E0. lia.
    + injection E as <-. destruct (fits_rows _ _ _ H0 C1' C2' _ _ _ Hin) as [_ B]. apply owner_of. unfold inside in Ei.
      pose proof (addr_split a) as Ha. unfold owner in Ha. change REGION with (2 ^ 32) in Hok. rewrite Hok in Ha. pose proof (local_range a). lia.
  - cbn in Hn. destruct (Z.eqb_spec (owner p) ch); [congruence|done].
  - cbn in Hn. destruct (Z.eqb_spec (owner p) nc); [congruence|done].
Qed.

(** ** Running a list of operations *)
Definition sokb (s : sst) (c : Z) (o : sop) : bool :=
  match o with
  | Sys o => plain o && iokb (t_x s) c o
  | At _ p _ _ _ | Dt p | Fetch p => p / REGION =? c
  | Store p v => (p / REGION =? c) && (0 <=? v) && (v <? 256)
  | Fork ch _ => iokb (t_x s) c (IFork ch)
  | Exec nc => iokb (t_x s) c (IExec nc)
  end.
Lemma sokb_ok s c o : sokb s c o = true -> sok s c o.
Proof.
  destruct o; intros H; unfold sokb in H; unfold sok.
  - apply andb_true_iff in H as [H1 H2]. split; [done|exact (iokb_ok _ _ _ H2)].
  - lia.
  - lia.
  - exact (iokb_ok _ _ _ H).
  - exact (iokb_ok _ _ _ H).
  - lia.
  - lia.
Qed.
Fixpoint splay (chk : bool) (h : list sev) (s : sst) (l : list (Z * sop)) : option (list sev * sst) :=
  match l with
  | [] => Some (h, s)
  | (c, o) :: l =>
      if sokb s c o then
        match sstep chk s c o with Done (s', r) => splay chk (Sev c o r :: h) s' l | Panic => None end
      else None
  end.
Lemma splay_run chk l : forall h s h' s', srun chk h s -> splay chk h s l = Some (h', s') -> srun chk h' s'.
Proof.
  induction l as [|[c o] l IH]; intros h s h' s' Hr H; cbn [splay] in H; [injection H as <- <-; exact Hr|].
  destruct (sokb s c o) eqn:E; [|discriminate H]. destruct (sstep chk s c o) as [[s1 r]|] eqn:Es; [|discriminate H].
  refine (IH _ _ _ _ _ H). exact (srun_step chk h s c o s1 r Hr (sokb_ok _ _ _ E) Es).
Qed.
Lemma seg_ex chk l (P : list sev -> bool) :
  match splay chk [] sboot l with Some (h, s) => P h | None => false end = true -> exists h s, srun chk h s /\ P h = true.
Proof.
  destruct (splay chk [] sboot l) as [[h s]|] eqn:E; [|done]. intros H. exists h, s.
  split; [|exact H]. exact (splay_run _ _ _ _ _ _ (srun_nil chk) E).
Qed.
Lemma seg_ex_is chk l h : (fst <$> splay chk [] sboot l = Some h) -> exists s, srun chk h s.
Proof.
  destruct (splay chk [] sboot l) as [[h' s]|] eqn:E; [|done]. intros H. injection H as <-. exists s.
  exact (splay_run _ _ _ _ _ _ (srun_nil chk) E).
Qed.
Definition answers (h : list sev) : list sout := rev (map v_out h).
