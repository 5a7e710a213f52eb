(** Shared memory: the map of the address space and the bytes of the segments
    are those that follow from the history. *)
From Verif Require Import Base SemModel IpcModel IpcSpec IpcProofs IpcShm SegModel SegSpec.
Local Open Scope Z_scope.

(** ** What calls do to sizes, keys and the next identifier *)
Definition smaller (x x' : ipc) : Prop :=
  x_next x' = x_next x /\
  (forall k id, x_key x' !! k = Some id -> x_key x !! k = Some id) /\
  (forall id s', x_seg x' !! id = Some s' -> exists s, x_seg x !! id = Some s /\ g_size s' = g_size s).
Lemma smaller_refl x : smaller x x.
Proof. repeat split; eauto. Qed.
Lemma smaller_trans x y z : smaller x y -> smaller y z -> smaller x z.
Proof.
  intros (A1 & A2 & A3) (B1 & B2 & B3). split; [congruence|]. split; [auto|].
  intros id s' H. destruct (B3 _ _ H) as (s1 & H1 & E1). destruct (A3 _ _ H1) as (s & H2 & E2). exists s. split; [done|congruence].
Qed.
Lemma strip_size s s' : strip s' = strip s -> g_size s' = g_size s.
Proof. intros H. change (g_size (strip s') = g_size s). rewrite H. done. Qed.
Lemma smaller_shape x x' : shape x' = shape x -> smaller x x'.
Proof.
  intros H. injection H as H1 H2 H3 _. split; [done|]. split; [rewrite H2; auto|]. intros id s' Hs.
  assert (E : (strip <$> x_seg x') !! id = (strip <$> x_seg x) !! id) by (rewrite H1; done).
  rewrite !lookup_fmap, Hs in E. destruct (x_seg x !! id) as [s|]; [|discriminate E]. apply (inj Some) in E.
  exists s. split; [done|]. apply strip_size. exact E.
Qed.
Lemma smaller_put x id s s' : x_seg x !! id = Some s -> g_size s' = g_size s -> smaller x (set_seg <[id := s']> x).
Proof.
  intros Hs E. split; [done|]. split; [auto|]. intros i s1 H. cbn in H. apply lookup_insert_Some in H as [[<- <-]|[_ H]]; eauto.
Qed.
Lemma smaller_del x id k : smaller x (set_key (delete k) (set_seg (delete id) x)).
Proof.
  split; [done|]. split; cbn.
  - intros k1 i H. apply lookup_delete_Some in H as [_ H]. done.
  - intros i s H. apply lookup_delete_Some in H as [_ H]. eauto.
Qed.
Lemma smaller_cage x f : smaller x (set_cage f x).
Proof. repeat split; cbn; eauto. Qed.
Lemma unmap_smaller c l x x' : ofold (unmap_one c) l x = Done x' -> smaller x x'.
Proof.
  apply ofold_inv; [|apply smaller_refl]. intros y p z Hy H. refine (smaller_trans _ _ _ Hy _). unfold unmap_one in H.
  destruct (x_seg y !! p.2) as [s|] eqn:E; [|discriminate H].
  destruct (g_rmid s && _); injection H as <-; [apply smaller_del|]. by apply (smaller_put _ _ s).
Qed.
Lemma fork_smaller c ch l x x' : ofold (fork_one c ch) l x = Done x' -> smaller x x'.
Proof.
  apply ofold_inv; [|apply smaller_refl]. intros y p z Hy H. refine (smaller_trans _ _ _ Hy _). unfold fork_one in H.
  destruct (x_seg y !! p.2) as [s|] eqn:E; [|discriminate H]. destruct (g_att s !! c); [|discriminate H].
  injection H as <-. by apply (smaller_put _ _ s).
Qed.
Lemma shmat_smaller chk x c g id a pick bad x' r : x_cage x !! c = Some g -> shmat chk x c g id a pick bad = Done (x', r) -> smaller x x'.
Proof.
  intros Hg H. destruct (x_seg x !! id) as [s|] eqn:E; [|unfold shmat in H; rewrite E in H; injection H as <- _; apply smaller_refl].
  destruct (shmat_shape x chk c g id a pick bad x' r s Hg E H) as [_ Hsh]. injection Hsh as H1 H2 H3 _.
  split; [done|]. split; [rewrite H2; auto|]. intros i s' Hs.
  assert (Ei : (strip <$> x_seg x') !! i = (<[id:=with_att (g_nattch s + 1) (att_inc c (g_att s)) (strip s)]> (strip <$> x_seg x)) !! i) by (rewrite H1; done).
  rewrite lookup_fmap, Hs in Ei. cbn in Ei. symmetry in Ei. apply lookup_insert_Some in Ei as [[-> Ei]|[_ Ei]].
  - exists s. split; [done|]. apply (f_equal g_size) in Ei. cbn in Ei. congruence.
  - rewrite lookup_fmap in Ei. destruct (x_seg x !! i) as [s1|]; [|discriminate Ei]. apply (inj Some) in Ei.
    exists s1. split; [done|]. apply strip_size. symmetry. exact Ei.
Qed.
Lemma shmdt_smaller chk x c g a x' r : shmdt chk x c g a = Done (x', r) -> smaller x x'.
Proof.
  intros H. unfold shmdt in H. destruct (index_of (c_rev g) a) as [i|]; [|injection H as <- _; apply smaller_refl].
  destruct (c_rev g !! i) as [[a1 id]|]; [|discriminate H]. destruct (x_seg x !! id) as [s|] eqn:E; [|discriminate H].
  destruct (ofold _ _ _) as [t|]; [|discriminate H]. cbn [obind] in H. destruct (g_att s !! c) as [n|]; [|discriminate H].
  injection H as <- _. set (y := set_cage _ x).
  refine (smaller_trans _ y _ (smaller_cage _ _) _). destruct (g_rmid s && _); [apply smaller_del|]. by apply (smaller_put _ _ s).
Qed.
Lemma shmctl_smaller x id cmd x' r : shmctl x id cmd = Done (x', r) -> smaller x x'.
Proof.
  intros H. unfold shmctl in H. destruct (x_seg x !! id) as [s|] eqn:E; [|injection H as <- _; apply smaller_refl].
  destruct (cmd =? IPC_STAT); [injection H as <- _; apply smaller_refl|].
  destruct (cmd =? IPC_RMID); [|injection H as <- _; apply smaller_refl].
  destruct (g_nattch s =? 0); injection H as <- _; [apply smaller_del|]. by apply (smaller_put _ _ s).
Qed.
Definition is_get (o : iop) : bool := match o with Shmget _ _ _ => true | _ => false end.
Lemma istep_smaller chk x c o x' r : is_get o = false -> istep chk x c o = Done (x', r) -> smaller x x'.
Proof.
  intros Hn H. destruct (shm_op o) eqn:Eo; [|exact (smaller_shape _ _ (other_shape _ _ _ _ _ _ Eo H))].
  unfold istep in H. destruct (x_cage x !! c) as [g|] eqn:Hg; [|discriminate H].
  destruct o; try discriminate Eo; try discriminate Hn; clear Eo Hn.
  - exact (shmat_smaller _ _ _ _ _ _ _ _ _ _ Hg H).
  - exact (shmdt_smaller _ _ _ _ _ _ _ H).
  - exact (shmctl_smaller _ _ _ _ _ H).
  - unfold ifork in H. destruct (renew (x_obj x) (c_mut g)) as [m n1]. destruct (renew n1 (c_cv g)) as [v n2].
    destruct (ofold _ _ _) as [y|] eqn:E; [|discriminate H]. injection H as <- _. apply fork_smaller in E.
    refine (smaller_trans _ _ _ E _). repeat split; cbn; eauto.
  - unfold iexec in H. destruct (ofold _ _ _) as [y|] eqn:E; [|discriminate H]. injection H as <- _. apply unmap_smaller in E.
    refine (smaller_trans _ _ _ (smaller_trans _ _ _ (smaller_cage _ _) E) _). apply smaller_cage.
  - unfold iexit in H. destruct (ofold _ _ _) as [y|] eqn:E; [|discriminate H]. injection H as <- _. apply unmap_smaller in E.
    exact (smaller_trans _ _ _ E (smaller_cage _ _)).
Qed.

(** ** The invariant *)
Record agree (h : list sev) (s : sst) : Prop := {
  ag_view : forall p, t_view s p = sees h p;
  ag_byte : forall id pos, default 0 (t_byte s !! (id, pos)) = stored h id pos;
  ag_seg : forall id sg, x_seg (t_x s) !! id = Some sg -> size_of h id = g_size sg /\ 0 < g_size sg /\ 1 <= id < x_next (t_x s);
  ag_key : forall k id, x_key (t_x s) !! k = Some id -> size_of h id <> 0;
  ag_new : forall id, x_next (t_x s) <= id -> size_of h id = 0;
  ag_next : 1 <= x_next (t_x s);
  ag_shows : forall p id pos w, sees h p = Shows id pos w -> id < x_next (t_x s)
}.

Lemma agree_boot : agree [] sboot.
Proof. constructor; cbn; intros; try done. Qed.

(** an event that is not a shmget, with the same bytes *)
Lemma agree_quiet h s c o r x' v : agree h s -> smaller (t_x s) x' ->
  match o with Sys (Shmget _ _ _) | Store _ _ => False | _ => True end ->
  (forall p, v p = sees (Sev c o r :: h) p) ->
  (forall p id pos w, sees (Sev c o r :: h) p = Shows id pos w -> id < x_next (t_x s)) ->
  agree (Sev c o r :: h) (Sst x' v (t_byte s)).
Proof.
  intros [A1 A2 A3 A4 A5 A6 A7] (S1 & S2 & S3) Ho Hv Hs.
  assert (E1 : forall id, size_of (Sev c o r :: h) id = size_of h id) by (intros; cbn; destruct o as [o|? ? ? ? ?|?|? ?|?|?|? ?]; try done; destruct o; done).
  assert (E2 : forall id pos, stored (Sev c o r :: h) id pos = stored h id pos) by (intros; cbn; destruct o; done).
  constructor; cbn [t_x t_view t_byte]; rewrite ?S1.
  - exact Hv.
  - intros id pos. rewrite E2. apply A2.
  - intros id sg Hg. rewrite E1. destruct (S3 _ _ Hg) as (s0 & H0 & E0). rewrite E0. apply A3. done.
  - intros k id Hk. rewrite E1. exact (A4 _ _ (S2 _ _ Hk)).
  - intros id Hid. rewrite E1. auto.
  - done.
  - exact Hs.
Qed.

Lemma low_aligned p : page_ok (to_u32 p) = aligned p.
Proof. unfold page_ok, aligned, to_u32, wrap_u. f_equal. symmetry. apply Znumtheory.Zmod_div_mod; [done|done|]. exists (2 ^ 20). done. Qed.
Lemma low_range p : 0 <= to_u32 p < 2 ^ 32.
Proof. unfold to_u32, wrap_u. apply Z.mod_pos_bound. done. Qed.

Lemma agree_sys chk h s c g o s' r : agree h s -> x_cage (t_x s) !! c = Some g -> plain o = true -> iok (t_x s) c o ->
  sstep chk s c (Sys o) = Done (s', r) -> agree (Sev c (Sys o) r :: h) s'.
Proof.
  intros HA Hg Hp Hok H. unfold sstep in H. rewrite Hg in H. destruct (istep chk (t_x s) c o) as [[x' r']|] eqn:E; [|discriminate H].
  cbn [obind] in H. injection H as <- <-.
  assert (Hsees : forall p, sees (Sev c (Sys o) (Call r') :: h) p = sees h p) by done.
  destruct (is_get o) eqn:Eg.
  - destruct o; try discriminate Eg. unfold istep in E. rewrite Hg in E. unfold shmget in E. destruct HA as [A1 A2 A3 A4 A5 A6 A7].
    assert (Hsame : forall e, x' = t_x s -> r' = IRet e -> e < 0 -> agree (Sev c (Sys (Shmget key size flg)) (Call r') :: h) (Sst x' (t_view s) (t_byte s))).
    { intros e -> -> He. constructor; cbn [t_x t_view t_byte size_of sees stored v_op v_out]; auto.
      - intros id sg Hs. destruct (A3 _ _ Hs) as (B1 & B2 & B3). destruct (Z.eqb_spec e id); [lia|]. cbn. auto.
      - intros k id Hk. destruct ((e =? id) && (size_of h id =? 0)) eqn:Eb; [|eauto].
        specialize (A4 _ _ Hk). apply andb_true_iff in Eb as [_ Eb]. lia.
      - intros id Hid. destruct (Z.eqb_spec e id); [lia|]. cbn. auto. }
    destruct (key =? IPC_PRIVATE); [injection E as <- <-; eapply Hsame; [done|done|unfold err, ENOENT; lia]|].
    destruct (x_key (t_x s) !! key) as [id0|] eqn:Ek.
    + destruct (_ =? _); [injection E as <- <-; eapply Hsame; [done|done|unfold err, EEXIST; lia]|].
      injection E as <- <-. pose proof (A4 _ _ Ek) as Hnz.
      constructor; cbn [t_x t_view t_byte size_of sees stored v_op v_out]; auto.
      * intros id sg Hs. destruct (A3 _ _ Hs) as (B1 & B2 & B3). destruct (Z.eqb_spec id0 id) as [->|]; cbn; [|auto].
        rewrite (proj2 (Z.eqb_neq _ _) Hnz). auto.
      * intros k id Hk. destruct (Z.eqb_spec id0 id) as [->|]; cbn; [|eauto]. rewrite (proj2 (Z.eqb_neq _ _) Hnz). done.
      * intros id Hid. destruct (Z.eqb_spec id0 id) as [->|]; cbn; [|auto]. rewrite (proj2 (Z.eqb_neq _ _) Hnz). auto.
    + destruct (Z.land flg IPC_CREAT =? 0); [injection E as <- <-; eapply Hsame; [done|done|unfold err, ENOENT; lia]|].
      destruct ((to_u32 size <? SHMMIN) || (SHMMAX <? to_u32 size)) eqn:Esz; [injection E as <- <-; eapply Hsame; [done|done|unfold err, EINVAL; lia]|].
      destruct (2 ^ 63 <=? size); [discriminate E|]. injection E as <- <-.
      assert (Hnz : 0 < size).
      { cbn in Hok. destruct (Z.eq_dec size 0) as [->|]; [|lia]. unfold SHMMIN in Esz. change (to_u32 0) with 0 in Esz. cbn in Esz. discriminate Esz. }
      constructor; cbn [t_x t_view t_byte size_of sees stored v_op v_out]; auto; cbn [x_seg x_key x_next set_seg set_key bump_id].
      * intros id sg Hs. apply lookup_insert_Some in Hs as [[<- <-]|[Hne Hs]].
        -- rewrite Z.eqb_refl, (A5 _ (Z.le_refl _)). cbn. split; [done|]. split; [done|lia].
        -- destruct (A3 _ _ Hs) as (B1 & B2 & B3). destruct (Z.eqb_spec (x_next (t_x s)) id); [done|]. cbn. split; [done|]. split; [done|lia].
      * intros k id Hk. apply lookup_insert_Some in Hk as [[<- <-]|[Hne Hk]].
        -- rewrite Z.eqb_refl, (A5 _ (Z.le_refl _)). cbn. lia.
        -- pose proof (A4 _ _ Hk) as B. destruct ((_ =? id) && (size_of h id =? 0)); [lia|auto].
      * intros id Hid. destruct (Z.eqb_spec (x_next (t_x s)) id); [lia|]. cbn. apply A5. lia.
      * lia.
      * intros p id pos w Hs. specialize (A7 _ _ _ _ Hs). lia.
  - apply agree_quiet; [done|exact (istep_smaller _ _ _ _ _ _ Eg E)|destruct o; done| |].
    + intros p. rewrite Hsees. apply (ag_view _ _ HA).
    + intros p id pos w. rewrite Hsees. apply (ag_shows _ _ HA).
Qed.

Lemma agree_at chk h s c g id p flg pick bad s' r : agree h s -> x_cage (t_x s) !! c = Some g ->
  sstep chk s c (At id p flg pick bad) = Done (s', r) -> agree (Sev c (At id p flg pick bad) r :: h) s'.
Proof.
  intros HA Hg H. unfold sstep in H. rewrite Hg in H. destruct (istep chk (t_x s) c _) as [[x' r']|] eqn:E; [|discriminate H].
  cbn [obind] in H. injection H as <- <-.
  assert (Hq : (forall q, match x_seg (t_x s) !! id with
                  | Some s1 => if bad || negb (aligned p) then t_view s
                               else map_over p (g_size s1) (fun d => Shows id d (Z.land flg SHM_RDONLY =? 0)) (t_view s)
                  | None => t_view s end q = sees (Sev c (At id p flg pick bad) (Call r') :: h) q) /\
               (r' = IRet (err EINVAL) \/ r' = IRet (-1) \/ exists sg, x_seg (t_x s) !! id = Some sg)).
  { unfold istep in E. rewrite Hg in E. cbn [sees v_op v_out].
    destruct (x_seg (t_x s) !! id) as [sg|] eqn:Es.
    - destruct (shmat_shape _ _ _ _ _ _ _ _ _ _ _ Hg Es E) as [-> _]. split; [|eauto]. intros q. rewrite low_aligned.
      destruct bad; cbn [orb]; [apply (ag_view _ _ HA)|]. destruct (aligned p) eqn:Ea; cbn [negb]; [|apply (ag_view _ _ HA)].
      rewrite to_i32_addr by (apply low_range || (rewrite low_aligned; done)). cbn [andb]. unfold map_over, inside.
      destruct (ag_seg _ _ HA _ _ Es) as (-> & _). change (page_up (g_size sg)) with (pages (g_size sg)).
      destruct (_ && _); [done|apply (ag_view _ _ HA)].
    - unfold shmat in E. rewrite Es in E. injection E as _ <-. split; [|auto]. intros q. cbn. apply (ag_view _ _ HA). }
  destruct Hq as [Hq Hr].
  apply agree_quiet; [done|exact (istep_smaller _ _ _ (Shmat _ _ _ _) _ _ eq_refl E)|done|exact Hq|].
  intros q i pos w. cbn [sees v_op v_out]. pose proof (ag_shows _ _ HA q i pos w) as Hold.
  destruct Hr as [->|[->|(sg & Hs)]]; [exact Hold|exact Hold|]. destruct r'; try exact Hold.
  destruct (_ && _); [|exact Hold]. intros K. injection K as <- _ _. destruct (ag_seg _ _ HA _ _ Hs) as (_ & _ & B). lia.
Qed.

Lemma agree_dt chk h s c g p s' r : agree h s -> x_cage (t_x s) !! c = Some g ->
  sstep chk s c (Dt p) = Done (s', r) -> agree (Sev c (Dt p) r :: h) s'.
Proof.
  intros HA Hg H. unfold sstep in H. rewrite Hg in H. destruct (istep chk (t_x s) c _) as [[x' r']|] eqn:E; [|discriminate H].
  cbn [obind] in H. injection H as <- <-.
  apply agree_quiet; [done|exact (istep_smaller _ _ _ (Shmdt _) _ _ eq_refl E)|done| |].
  - intros q. unfold istep in E. rewrite Hg in E. unfold shmdt in E. cbn [sees v_op v_out].
    destruct (index_of (c_rev g) (to_u32 p)) as [i|]; [|injection E as _ <-; cbn; apply (ag_view _ _ HA)].
    destruct (c_rev g !! i) as [[a1 id]|]; [|discriminate E]. cbn [snd]. destruct (x_seg (t_x s) !! id) as [sg|] eqn:Es; [|discriminate E].
    destruct (ofold _ _ _) as [t|]; [|discriminate E]. cbn [obind] in E. destruct (g_att sg !! c) as [n|]; [|discriminate E].
    injection E as _ <-. destruct (ag_seg _ _ HA _ _ Es) as (Hsz & _ & B). rewrite (proj2 (Z.leb_le 0 id)) by lia. cbn [andb].
    unfold size_at. rewrite Es. fold (aligned p). destruct (aligned p); [|apply (ag_view _ _ HA)]. cbn [andb].
    unfold map_over, inside. rewrite Hsz. change (page_up (g_size sg)) with (pages (g_size sg)). destruct (_ && _); [done|apply (ag_view _ _ HA)].
  - intros q i pos w. cbn [sees v_op v_out]. pose proof (ag_shows _ _ HA q i pos w) as Hold.
    destruct r' as [r'| |]; try exact Hold. destruct (_ && _); [discriminate|exact Hold].
Qed.

Lemma shift_owner c ch q : q / REGION = ch -> q + (c - ch) * REGION = c * 2 ^ 32 + local q.
Proof. intros <-. unfold local, REGION. pose proof (Z.div_mod q (2 ^ 32) ltac:(done)). lia. Qed.

Theorem agree_step chk h s c o s' r : agree h s -> sok s c o -> sstep chk s c o = Done (s', r) -> agree (Sev c o r :: h) s'.
Proof.
  intros HA Hok H. assert (Hg : exists g, x_cage (t_x s) !! c = Some g).
  { unfold sstep in H. destruct (x_cage (t_x s) !! c); [eauto|discriminate H]. }
  destruct Hg as [g Hg]. destruct o.
  - destruct Hok. eapply agree_sys; eauto.
  - eapply agree_at; eauto.
  - eapply agree_dt; eauto.
  - unfold sstep in H. rewrite Hg in H. destruct (istep chk (t_x s) c _) as [[x' r']|] eqn:E; [|discriminate H].
    cbn [obind] in H. injection H as <- <-.
    apply agree_quiet; [done|exact (istep_smaller _ _ _ (IFork _) _ _ eq_refl E)|done| |].
    + intros q. cbn [sees v_op v_out v_c]. unfold owner. fold REGION. destruct (Z.eqb_spec (q / REGION) ch) as [Eq|]; [|apply (ag_view _ _ HA)].
      destruct keep; [|done]. rewrite (shift_owner _ _ _ Eq). apply (ag_view _ _ HA).
    + intros q i pos w. cbn [sees v_op v_out v_c]. destruct (_ =? _); [|apply (ag_shows _ _ HA)]. destruct keep; [apply (ag_shows _ _ HA)|discriminate].
  - unfold sstep in H. rewrite Hg in H. destruct (istep chk (t_x s) c _) as [[x' r']|] eqn:E; [|discriminate H].
    cbn [obind] in H. injection H as <- <-.
    apply agree_quiet; [done|exact (istep_smaller _ _ _ (IExec _) _ _ eq_refl E)|done| |].
    + intros q. cbn [sees v_op v_out v_c]. unfold owner. fold REGION. destruct (_ =? _); [done|apply (ag_view _ _ HA)].
    + intros q i pos w. cbn [sees v_op v_out v_c]. destruct (_ =? _); [discriminate|apply (ag_shows _ _ HA)].
  - unfold sstep in H. rewrite Hg in H. injection H as <- _. destruct HA. constructor; cbn; auto.
  - unfold sstep in H. rewrite Hg in H. injection H as H. destruct HA as [A1 A2 A3 A4 A5 A6 A7].
    destruct (t_view s p) as [| |id pos w] eqn:Ev.
    + injection H as <- <-. constructor; cbn; auto. intros i q. rewrite bool_decide_eq_false_2 by (rewrite <- A1, Ev; done). auto.
    + injection H as <- <-. constructor; cbn; auto. intros i q. rewrite bool_decide_eq_false_2 by (rewrite <- A1, Ev; done). auto.
    + destruct w; injection H as <- <-; constructor; cbn; auto; intros i q.
      * destruct (decide ((id, pos) = (i, q))) as [Ei|Hne].
        -- injection Ei as <- <-. rewrite lookup_insert, bool_decide_eq_true_2 by (rewrite <- A1, Ev; done). done.
        -- rewrite lookup_insert_ne by done. rewrite bool_decide_eq_false_2; [auto|]. rewrite <- A1, Ev. congruence.
      * rewrite bool_decide_eq_false_2; [auto|]. rewrite <- A1, Ev. congruence.
Qed.

Theorem run_agree chk h s : srun chk h s -> agree h s.
Proof. induction 1; [apply agree_boot|]. eapply agree_step; eauto. Qed.
