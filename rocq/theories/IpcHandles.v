(** Proofs about semaphore, mutex and condition-variable handles. *)
From Verif Require Import Base SemModel IpcModel IpcSpec IpcProofs IpcShm IpcFacts.
Local Open Scope Z_scope.

(** ** Loops keep the tables of the processes *)
Lemma unmap_keeps c l x x1 : ofold (unmap_one c) l x = Done x1 ->
  x_cage x1 = x_cage x /\ x_sem x1 = x_sem x /\ x_lock x1 = x_lock x /\ x_obj x1 = x_obj x.
Proof.
  intros H. refine (ofold_inv (fun y => x_cage y = x_cage x /\ x_sem y = x_sem x /\ x_lock y = x_lock x /\ x_obj y = x_obj x) _ _ _ _ _ _ H); [|done].
  intros y p y2 Hy H2. unfold unmap_one in H2. destruct (x_seg y !! p.2) as [s|]; [|discriminate H2].
  destruct (g_rmid s && (g_nattch s - 1 =? 0)); injection H2 as <-; exact Hy.
Qed.
Lemma fork_keeps c ch l x x1 : ofold (fork_one c ch) l x = Done x1 ->
  x_cage x1 = x_cage x /\ x_sem x1 = x_sem x /\ x_lock x1 = x_lock x /\ x_obj x1 = x_obj x.
Proof.
  intros H. refine (ofold_inv (fun y => x_cage y = x_cage x /\ x_sem y = x_sem x /\ x_lock y = x_lock x /\ x_obj y = x_obj x) _ _ _ _ _ _ H); [|done].
  intros y p y2 Hy H2. unfold fork_one in H2. destruct (x_seg y !! p.2) as [s|]; [|discriminate H2].
  destruct (g_att s !! c); [|discriminate H2]. injection H2 as <-; exact Hy.
Qed.

Lemma renew_le n l : n <= (renew n l).2.
Proof.
  revert n. induction l as [|[o|] l IH]; intros n; cbn; [lia| |].
  - specialize (IH (n + 1)). destruct (renew (n + 1) l) as [r' n']. cbn in *. lia.
  - specialize (IH n). destruct (renew n l) as [r' n']. cbn in *. lia.
Qed.

(** ** Semaphores *)
Record sinv (T : gmap Z (gmap Z Z)) (O : gmap Z semo) (N : Z) (m : gmap (Z * Z) Z) : Prop := {
  s_tab : forall c t h, T !! c = Some t ->
    match t !! h with
    | None => m !! (c, h) = None
    | Some o => o < N /\ exists v, O !! o = Some (Semo v false) /\ m !! (c, h) = Some v /\ 0 <= v <= SEM_VALUE_MAX
    end;
  s_none : forall c h, T !! c = None -> m !! (c, h) = None;
  s_inj : forall c1 c2 t1 t2 h1 h2 o, T !! c1 = Some t1 -> T !! c2 = Some t2 -> t1 !! h1 = Some o -> t2 !! h2 = Some o -> c1 = c2 /\ h1 = h2
}.
Definition semv (x : ipc) (m : gmap (Z * Z) Z) : Prop := sinv (c_sem <$> x_cage x) (x_sem x) (x_obj x) m.

Lemma sinv_grow T O N N' m : N <= N' -> sinv T O N m -> sinv T O N' m.
Proof.
  intros HN [H1 H2 H3]. constructor; [|done|done]. intros c t h Ht. specialize (H1 c t h Ht).
  destruct (t !! h); [|done]. destruct H1 as [H1 H4]. split; [lia|done].
Qed.
Lemma semv_same x x' m : c_sem <$> x_cage x' = c_sem <$> x_cage x -> x_sem x' = x_sem x -> x_obj x <= x_obj x' -> semv x m -> semv x' m.
Proof. intros E1 E2 E3 H. unfold semv. rewrite E1, E2. exact (sinv_grow _ _ _ _ _ E3 H). Qed.

(** Setting the value of the semaphore at one handle *)
Lemma sinv_val T O N m c t h o v v' : sinv T O N m -> T !! c = Some t -> t !! h = Some o -> O !! o = Some (Semo v false) ->
  0 <= v' <= SEM_VALUE_MAX -> sinv T (<[o := Semo v' false]> O) N (<[(c, h) := v']> m).
Proof.
  intros [H1 H2 H3] Ht Ho HO Hv. constructor; [|intros c' h' Hc; rewrite lookup_insert_ne; [exact (H2 c' h' Hc)|congruence]|exact H3].
  intros c' t' h' Ht'. destruct (decide ((c, h) = (c', h'))) as [E|Hne].
  - injection E as <- <-. rewrite Ht in Ht'. injection Ht' as <-. rewrite Ho. specialize (H1 c t h Ht). rewrite Ho in H1.
    split; [exact (proj1 H1)|]. exists v'. rewrite !lookup_insert. done.
  - specialize (H1 c' t' h' Ht'). destruct (t' !! h') as [o'|] eqn:Eo'; [|rewrite lookup_insert_ne by done; exact H1].
    assert (Hoo : o <> o') by (intros <-; destruct (H3 _ _ _ _ _ _ _ Ht Ht' Ho Eo') as [-> ->]; done).
    rewrite !lookup_insert_ne by done. exact H1.
Qed.
Lemma sinv_new T O N m c t h v : sinv T O N m -> T !! c = Some t -> t !! h = None -> 0 <= v <= SEM_VALUE_MAX ->
  sinv (<[c := <[h := N]> t]> T) (<[N := Semo v false]> O) (N + 1) (<[(c, h) := v]> m).
Proof.
  intros [H1 H2 H3] Ht Hh Hv.
  assert (HT : forall c' t' h' o, <[c := <[h := N]> t]> T !! c' = Some t' -> t' !! h' = Some o ->
    ((c', h') = (c, h) /\ o = N) \/ ((c', h') <> (c, h) /\ exists t0, T !! c' = Some t0 /\ t0 !! h' = Some o)).
  { intros c' t' h' o Ht' Ho. destruct (decide (c = c')) as [<-|Hne].
    - rewrite lookup_insert in Ht'. injection Ht' as <-. destruct (decide (h = h')) as [<-|Hne].
      + rewrite lookup_insert in Ho. injection Ho as <-. left. done.
      + rewrite lookup_insert_ne in Ho by done. right. split; [congruence|]. eauto.
    - rewrite lookup_insert_ne in Ht' by done. right. split; [congruence|]. eauto. }
  assert (Hold : forall c' t0 h' o, T !! c' = Some t0 -> t0 !! h' = Some o -> o < N).
  { intros c' t0 h' o E1 E2. specialize (H1 c' t0 h' E1). rewrite E2 in H1. exact (proj1 H1). }
  constructor.
  - intros c' t' h' Ht'. destruct (t' !! h') as [o|] eqn:Eo.
    + destruct (HT _ _ _ _ Ht' Eo) as [[E ->]|[Hne (t0 & E1 & E2)]].
      * injection E as -> ->. split; [lia|]. exists v. rewrite !lookup_insert. done.
      * specialize (H1 _ _ h' E1). rewrite E2 in H1. destruct H1 as [H4 H5]. split; [lia|].
        rewrite !lookup_insert_ne; [exact H5|congruence|lia].
    + rewrite lookup_insert_ne.
      * destruct (decide (c = c')) as [<-|Hne].
        { rewrite lookup_insert in Ht'. injection Ht' as <-. destruct (decide (h = h')) as [<-|Hhh]; [rewrite lookup_insert in Eo; discriminate Eo|].
          rewrite lookup_insert_ne in Eo by done. specialize (H1 c t h' Ht). rewrite Eo in H1. exact H1. }
        rewrite lookup_insert_ne in Ht' by done. specialize (H1 c' t' h' Ht'). rewrite Eo in H1. exact H1.
      * intros E. injection E as <- <-. rewrite lookup_insert in Ht'. injection Ht' as <-. rewrite lookup_insert in Eo. discriminate Eo.
  - intros c' h' Hc. destruct (decide (c = c')) as [<-|Hne]; [rewrite lookup_insert in Hc; discriminate Hc|].
    rewrite lookup_insert_ne in Hc by done. rewrite lookup_insert_ne by congruence. exact (H2 c' h' Hc).
  - intros c1 c2 t1 t2 h1 h2 o E1 E2 E3 E4.
    destruct (HT _ _ _ _ E1 E3) as [[A1 ->]|[A1 (t3 & A2 & A3)]], (HT _ _ _ _ E2 E4) as [[B1 B2]|[B1 (t4 & B2 & B3)]].
    + injection A1 as -> ->. injection B1 as -> ->. done.
    + pose proof (Hold _ _ _ _ B2 B3). lia.
    + pose proof (Hold _ _ _ _ A2 A3). lia.
    + exact (H3 _ _ _ _ _ _ _ A2 B2 A3 B3).
Qed.
Lemma sinv_del T O N m c t h : sinv T O N m -> T !! c = Some t -> sinv (<[c := delete h t]> T) O N (delete (c, h) m).
Proof.
  intros [H1 H2 H3] Ht. constructor.
  - intros c' t' h' Ht'. destruct (decide ((c, h) = (c', h'))) as [E|Hne].
    + injection E as <- <-. rewrite lookup_insert in Ht'. injection Ht' as <-. rewrite lookup_delete. apply lookup_delete.
    + rewrite lookup_delete_ne by done. destruct (decide (c = c')) as [<-|Hcc].
      * rewrite lookup_insert in Ht'. injection Ht' as <-. rewrite lookup_delete_ne by congruence. exact (H1 c t h' Ht).
      * rewrite lookup_insert_ne in Ht' by done. exact (H1 c' t' h' Ht').
  - intros c' h' Hc. apply lookup_delete_None. right. destruct (decide (c = c')) as [<-|Hne]; [rewrite lookup_insert in Hc; discriminate Hc|].
    rewrite lookup_insert_ne in Hc by done. exact (H2 c' h' Hc).
  - assert (HT : forall c' t' h' o, <[c := delete h t]> T !! c' = Some t' -> t' !! h' = Some o -> exists t0, T !! c' = Some t0 /\ t0 !! h' = Some o).
    { intros c' t' h' o Ht' Ho. destruct (decide (c = c')) as [<-|Hcc].
      - rewrite lookup_insert in Ht'. injection Ht' as <-. apply lookup_delete_Some in Ho as [_ Ho]. eauto.
      - rewrite lookup_insert_ne in Ht' by done. eauto. }
    intros c1 c2 t1 t2 h1 h2 o E1 E2 E3 E4. destruct (HT _ _ _ _ E1 E3) as (t3 & A2 & A3), (HT _ _ _ _ E2 E4) as (t4 & B2 & B3).
    exact (H3 _ _ _ _ _ _ _ A2 B2 A3 B3).
Qed.

Lemma filter_look {A} (m : gmap (Z * Z) A) c c' h : filter (fun p => p.1.1 <> c) m !! (c', h) = if c' =? c then None else m !! (c', h).
Proof.
  destruct (Z.eqb_spec c' c) as [->|Hne].
  - apply map_filter_lookup_None. right. intros v _ Hn. apply Hn. done.
  - destruct (m !! (c', h)) as [v|] eqn:E.
    + apply map_filter_lookup_Some. split; done.
    + apply map_filter_lookup_None. left. done.
Qed.

(** Tables of an ended process and of an empty new one *)
Lemma sinv_end T O N m c : sinv T O N m -> sinv (delete c T) O N (filter (fun p => p.1.1 <> c) m).
Proof.
  intros [H1 H2 H3]. constructor.
  - intros c' t' h' Ht'. apply lookup_delete_Some in Ht' as [Hne Ht']. rewrite filter_look, (proj2 (Z.eqb_neq c' c)) by congruence.
    exact (H1 c' t' h' Ht').
  - intros c' h' Hc. rewrite filter_look. destruct (Z.eqb_spec c' c) as [->|Hne]; [done|].
    rewrite lookup_delete_ne in Hc by done. exact (H2 c' h' Hc).
  - intros c1 c2 t1 t2 h1 h2 o E1 E2. apply lookup_delete_Some in E1 as [_ E1]. apply lookup_delete_Some in E2 as [_ E2].
    exact (H3 _ _ _ _ _ _ _ E1 E2).
Qed.
Lemma sinv_empty T O N m c : sinv T O N m -> T !! c = None -> sinv (<[c := ∅]> T) O N m.
Proof.
  intros [H1 H2 H3] Hc. constructor.
  - intros c' t' h' Ht'. destruct (decide (c = c')) as [<-|Hne].
    + rewrite lookup_insert in Ht'. injection Ht' as <-. rewrite lookup_empty. exact (H2 c h' Hc).
    + rewrite lookup_insert_ne in Ht' by done. exact (H1 c' t' h' Ht').
  - intros c' h' Hc'. destruct (decide (c = c')) as [<-|Hne]; [rewrite lookup_insert in Hc'; discriminate Hc'|].
    rewrite lookup_insert_ne in Hc' by done. exact (H2 c' h' Hc').
  - assert (HT : forall c' t' h' o, <[c := ∅]> T !! c' = Some t' -> t' !! h' = Some o -> T !! c' = Some t').
    { intros c' t' h' o Ht' Ho. destruct (decide (c = c')) as [<-|Hcc].
      - rewrite lookup_insert in Ht'. injection Ht' as <-. rewrite lookup_empty in Ho. discriminate Ho.
      - rewrite lookup_insert_ne in Ht' by done. done. }
    intros c1 c2 t1 t2 h1 h2 o E1 E2 E3 E4. exact (H3 _ _ _ _ _ _ _ (HT _ _ _ _ E1 E3) (HT _ _ _ _ E2 E4) E3 E4).
Qed.

Lemma semv_at x m c g h : semv x m -> x_cage x !! c = Some g ->
  (sem_at x g h = None /\ c_sem g !! h = None /\ m !! (c, h) = None) \/
  exists o v, sem_at x g h = Some (o, Semo v false) /\ c_sem g !! h = Some o /\ m !! (c, h) = Some v /\ 0 <= v <= SEM_VALUE_MAX.
Proof.
  intros Hs Hg. assert (Ht : (c_sem <$> x_cage x) !! c = Some (c_sem g)) by (rewrite lookup_fmap, Hg; done).
  pose proof (s_tab _ _ _ _ Hs c _ h Ht) as H. unfold sem_at. destruct (c_sem g !! h) as [o|]; [|left; done].
  destruct H as (_ & v & H1 & H2 & H3). right. exists o, v. rewrite H1. done.
Qed.

Lemma sem_step_inv chk tr x c o x' r m : irun chk tr x -> noshared tr -> semv x m -> iok x c o ->
  private_at m (Iev c o r) -> istep chk x c o = Done (x', r) -> semv x' (sem_step m (Iev c o r)).
Proof.
  intros Hrun Hns Hs Hok Hp H. destruct (step_caged _ _ _ _ _ _ H) as (g & Hg). unfold istep in H. rewrite Hg in H.
  assert (Ht : (c_sem <$> x_cage x) !! c = Some (c_sem g)) by (rewrite lookup_fmap, Hg; done).
  assert (Hput : forall g', c_sem g' = c_sem g -> c_sem <$> <[c := g']> (x_cage x) = c_sem <$> x_cage x).
  { intros g' E. rewrite fmap_insert, E. apply insert_id. exact Ht. }
  destruct o; cbn [sem_step e_op e_out e_c] in *.
  - (* shmget *) assert (E : c_sem <$> x_cage x' = c_sem <$> x_cage x /\ x_sem x' = x_sem x /\ x_obj x' = x_obj x).
    { unfold shmget in H. destruct (key =? IPC_PRIVATE); [injection H as <- _; done|].
      destruct (x_key x !! key); [destruct (_ =? _) in H; injection H as <- _; done|].
      destruct (Z.land flg IPC_CREAT =? 0); [injection H as <- _; done|].
      destruct ((to_u32 size <? SHMMIN) || (SHMMAX <? to_u32 size)); [injection H as <- _; done|].
      destruct (2 ^ 63 <=? size); [discriminate H|]. injection H as <- _. done. }
    destruct E as (E1 & E2 & E3). apply (semv_same x); [done|done|lia|done].
  - (* shmat *) unfold shmat in H. destruct (x_seg x !! id) as [s|] eqn:Es; [|injection H as <- _; exact Hs].
    rewrite (no_offs _ _ _ Hrun Hns _ _ Es) in H. cbn [obind] in H. injection H as <- _.
    apply (semv_same x); [|done|cbn; lia|done]. cbn. apply Hput. done.
  - (* shmdt *) assert (E : c_sem <$> x_cage x' = c_sem <$> x_cage x /\ x_sem x' = x_sem x /\ x_obj x' = x_obj x).
    { unfold shmdt in H. destruct (index_of (c_rev g) addr) as [i|]; [|injection H as <- _; done].
      destruct (c_rev g !! i) as [[a id]|]; [|discriminate H].
      destruct (x_seg x !! id) as [s|] eqn:Es; [|discriminate H].
      rewrite (no_offs _ _ _ Hrun Hns _ _ Es) in H. cbn [ofold obind] in H.
      destruct (g_att s !! c) as [n|]; [|discriminate H].
      destruct (g_rmid s && (g_nattch s - 1 =? 0)); injection H as <- _; cbn; (split; [apply Hput; done|done]). }
    destruct E as (E1 & E2 & E3). apply (semv_same x); [done|done|lia|done].
  - (* shmctl *) assert (E : x_cage x' = x_cage x /\ x_sem x' = x_sem x /\ x_obj x' = x_obj x).
    { unfold shmctl in H. destruct (x_seg x !! id) as [s|]; [|injection H as <- _; done].
      destruct (cmd =? IPC_STAT); [injection H as <- _; done|]. destruct (cmd =? IPC_RMID); [|injection H as <- _; done].
      destruct (g_nattch s =? 0); injection H as <- _; done. }
    destruct E as (E1 & E2 & E3). apply (semv_same x); [by rewrite E1|done|lia|done].
  - (* fork *) unfold ifork in H. pose proof (renew_le (x_obj x) (c_mut g)) as R1.
    destruct (renew (x_obj x) (c_mut g)) as [muts n1]. pose proof (renew_le n1 (c_cv g)) as R2.
    destruct (renew n1 (c_cv g)) as [cvs n2]. cbn in R1, R2.
    destruct (ofold (fork_one c ch) (c_rev g) x) as [x1|] eqn:Ef; [|discriminate H]. cbn [obind] in H. injection H as <- _.
    apply fork_keeps in Ef as (E1 & E2 & E3 & E4).
    assert (Hempty : c_sem g = ∅).
    { apply map_empty. intros h. pose proof (s_tab _ _ _ _ Hs c _ h Ht) as Hh. cbn in Hp. rewrite (Hp h) in Hh.
      destruct (c_sem g !! h); [|done]. destruct Hh as (_ & v & _ & Hh & _). discriminate Hh. }
    unfold semv. cbn. rewrite fmap_insert, E1, E2. cbn [c_sem]. rewrite Hempty.
    apply (sinv_grow _ _ (x_obj x)); [lia|]. apply sinv_empty; [exact Hs|]. rewrite lookup_fmap. cbn in Hok. rewrite Hok. done.
  - (* exec *) unfold iexec in H. destruct (ofold (unmap_one c) (c_rev g) (set_cage (delete c) x)) as [x1|] eqn:Ef; [|discriminate H].
    cbn [obind] in H. injection H as <- <-. apply unmap_keeps in Ef as (E1 & E2 & E3 & E4).
    unfold semv. cbn. rewrite fmap_insert, E1, E2, E4. cbn. rewrite fmap_delete. apply sinv_empty; [apply sinv_end; exact Hs|].
    destruct Hok as [->|Hok]; [apply lookup_delete|]. apply lookup_delete_None. right. rewrite lookup_fmap, Hok. done.
  - (* exit *) unfold iexit in H. destruct (ofold (unmap_one c) (c_rev g) x) as [x1|] eqn:Ef; [|discriminate H].
    cbn [obind] in H. injection H as <- <-. apply unmap_keeps in Ef as (E1 & E2 & E3 & E4).
    unfold semv. cbn. rewrite E1, E2, E4, fmap_delete. apply sinv_end. exact Hs.
  - (* sem_init *) cbn in Hp. subst pshared. unfold sem_init in H. destruct (SEM_VALUE_MAX <? v) eqn:Ev; [injection H as <- <-; exact Hs|].
    apply Z.ltb_ge in Ev. destruct (c_sem g !! h) as [o1|] eqn:Eh; [injection H as <- <-; exact Hs|].
    cbn [Z.eqb negb] in H. injection H as <- <-. unfold semv. cbn. rewrite fmap_insert. cbn [with_semt c_sem].
    apply sinv_new; [exact Hs|exact Ht|exact Eh|]. cbn in Hok. lia.
  - (* sem_wait *) unfold sem_wait in H. destruct (semv_at x m c g h Hs Hg) as [(E & _)|(o & v & E & Eo & Em & Hv)]; rewrite E in H.
    { injection H as <- <-. exact Hs. }
    cbn [o_val] in H. destruct (Z.eqb_spec v 0) as [Hv0|Hv0]; injection H as <- <-; [exact Hs|].
    unfold semv. cbn.
    replace (alter (fun v0 => v0 - 1) (c, h) m) with (<[(c, h) := v - 1]> m).
    2:{ apply map_eq. intros i. destruct (decide ((c, h) = i)) as [<-|Hne]; [rewrite lookup_insert, lookup_alter, Em; done|].
        rewrite lookup_insert_ne, lookup_alter_ne by done. done. }
    refine (sinv_val _ _ _ _ c _ h o v _ Hs Ht Eo _ _); [|lia]. unfold sem_at in E. rewrite Eo in E.
    destruct (x_sem x !! o); [|discriminate E]. congruence.
  - (* sem_try *) unfold sem_try in H. destruct (semv_at x m c g h Hs Hg) as [(E & _)|(o & v & E & Eo & Em & Hv)]; rewrite E in H.
    { injection H as <- <-. exact Hs. }
    cbn [o_val] in H. destruct (Z.eqb_spec v 0) as [Hv0|Hv0]; injection H as <- <-; [exact Hs|].
    unfold semv. cbn.
    replace (alter (fun v0 => v0 - 1) (c, h) m) with (<[(c, h) := v - 1]> m).
    2:{ apply map_eq. intros i. destruct (decide ((c, h) = i)) as [<-|Hne]; [rewrite lookup_insert, lookup_alter, Em; done|].
        rewrite lookup_insert_ne, lookup_alter_ne by done. done. }
    refine (sinv_val _ _ _ _ c _ h o v _ Hs Ht Eo _ _); [|lia]. unfold sem_at in E. rewrite Eo in E.
    destruct (x_sem x !! o); [|discriminate E]. congruence.
  - (* sem_post *) unfold sem_post in H. destruct (semv_at x m c g h Hs Hg) as [(E & _)|(o & v & E & Eo & Em & Hv)]; rewrite E in H.
    { injection H as <- <-. exact Hs. }
    cbn [o_val] in H. destruct (Z.ltb_spec v SEM_VALUE_MAX) as [Hv0|Hv0]; injection H as <- <-; [|exact Hs].
    unfold semv. cbn.
    replace (alter (fun v0 => v0 + 1) (c, h) m) with (<[(c, h) := v + 1]> m).
    2:{ apply map_eq. intros i. destruct (decide ((c, h) = i)) as [<-|Hne]; [rewrite lookup_insert, lookup_alter, Em; done|].
        rewrite lookup_insert_ne, lookup_alter_ne by done. done. }
    refine (sinv_val _ _ _ _ c _ h o v _ Hs Ht Eo _ _); [|lia]. unfold sem_at in E. rewrite Eo in E.
    destruct (x_sem x !! o); [|discriminate E]. congruence.
  - (* sem_get *) unfold sem_get in H. destruct (sem_at x g h) as [[o so]|]; injection H as <- _; exact Hs.
  - (* sem_destroy *) unfold sem_destroy in H. destruct (semv_at x m c g h Hs Hg) as [(E & _)|(o & v & E & Eo & Em & Hv)]; rewrite E in H.
    { injection H as <- <-. exact Hs. }
    cbn [o_shared] in H. injection H as <- <-. unfold semv. cbn. rewrite fmap_insert. cbn [with_semt c_sem].
    apply sinv_del; [exact Hs|exact Ht].
  - injection H as <- _. apply (semv_same x); [cbn; apply Hput; done|done|cbn; lia|done].
  - destruct (slot (c_mut g) h); injection H as <- _; [|exact Hs]. apply (semv_same x); [cbn; apply Hput; done|done|cbn; lia|done].
  - assert (E : x_cage x' = x_cage x /\ x_sem x' = x_sem x /\ x_obj x' = x_obj x).
    { unfold mutex_op in H. destruct (slot (c_mut g) h) as [k|]; [|injection H as <- _; done].
      destruct o; [destruct (default false (x_lock x !! k))|destruct (default false (x_lock x !! k))|]; injection H as <- _; done. }
    destruct E as (E1 & E2 & E3). apply (semv_same x); [by rewrite E1|done|lia|done].
  - injection H as <- _. apply (semv_same x); [cbn; apply Hput; done|done|cbn; lia|done].
  - destruct (slot (c_cv g) h); injection H as <- _; [|exact Hs]. apply (semv_same x); [cbn; apply Hput; done|done|cbn; lia|done].
  - unfold cond_op in H. destruct (slot (c_cv g) h); injection H as <- _; exact Hs.
  - unfold cond_op in H. destruct (slot (c_cv g) h); [|injection H as <- _; exact Hs].
    destruct (slot (c_mut g) m0); injection H as <- _; exact Hs.
Qed.

Lemma sems_snoc tr e : sems (tr ++ [e]) = sem_step (sems tr) e.
Proof. unfold sems. rewrite fold_left_app. done. Qed.
Lemma private_snoc tr e : private (tr ++ [e]) -> private tr /\ private_at (sems tr) e.
Proof.
  intros H. split; [|exact (H tr e [] eq_refl)]. intros t1 e1 t2 ->. apply (H t1 e1 (t2 ++ [e])). by rewrite <- app_assoc.
Qed.
Lemma private_noshared tr : private tr -> noshared tr.
Proof.
  intros H. unfold noshared. apply Forall_forall. intros e He. apply elem_of_list_In, in_split in He as (t1 & t2 & ->).
  pose proof (H t1 e t2 eq_refl) as Hp. unfold private_at in Hp. destruct (e_op e); done.
Qed.

Lemma sem_run chk tr x : irun chk tr x -> private tr -> semv x (sems tr).
Proof.
  induction 1 as [|tr x c o x' r Hr IH Hok Hs]; intros Hp.
  - unfold semv. cbn. constructor.
    + intros c t h Ht. rewrite lookup_fmap in Ht. destruct (decide (1 = c)) as [<-|Hne].
      * rewrite lookup_singleton in Ht. injection Ht as <-. cbn. rewrite lookup_empty. done.
      * rewrite lookup_singleton_ne in Ht by done. discriminate Ht.
    + done.
    + intros c1 c2 t1 t2 h1 h2 o Ht _ Ho _. rewrite lookup_fmap in Ht. destruct (decide (1 = c1)) as [<-|Hne].
      * rewrite lookup_singleton in Ht. injection Ht as <-. cbn in Ho. rewrite lookup_empty in Ho. discriminate Ho.
      * rewrite lookup_singleton_ne in Ht by done. discriminate Ht.
  - apply private_snoc in Hp as [Hp1 Hp2]. rewrite sems_snoc.
    exact (sem_step_inv chk tr x c o x' r _ Hr (private_noshared _ Hp1) (IH Hp1) Hok Hp2 Hs).
Qed.

(** Results of the semaphore calls *)
Section SemFacts.
Context (chk : bool) (tr : list iev) (x : ipc) (Hr : irun chk tr x) (Hp : private tr) (c h : Z) (x' : ipc) (r : iout).

Lemma sf_init v : istep chk x c (SemInit h 0 v) = Done (x', r) ->
  r = IRet (if SEM_VALUE_MAX <? v then err EINVAL else match sems tr !! (c, h) with Some _ => err EBADF | None => 0 end).
Proof.
  intros H. destruct (step_caged _ _ _ _ _ _ H) as (g & Hg). unfold istep in H. rewrite Hg in H. unfold sem_init in H.
  destruct (SEM_VALUE_MAX <? v); [injection H as _ <-; done|].
  destruct (semv_at x _ c g h (sem_run _ _ _ Hr Hp) Hg) as [(_ & E & ->)|(o & w & _ & E & -> & _)]; rewrite E in H; injection H as _ <-; done.
Qed.
Lemma sf_get : istep chk x c (SemGet h) = Done (x', r) -> r = IRet (match sems tr !! (c, h) with Some v => v | None => err EINVAL end).
Proof.
  intros H. destruct (step_caged _ _ _ _ _ _ H) as (g & Hg). unfold istep in H. rewrite Hg in H. unfold sem_get in H.
  destruct (semv_at x _ c g h (sem_run _ _ _ Hr Hp) Hg) as [(E & _ & ->)|(o & w & E & _ & -> & _)]; rewrite E in H; injection H as _ <-; done.
Qed.
Lemma sf_try : istep chk x c (SemTry h) = Done (x', r) ->
  r = IRet (match sems tr !! (c, h) with Some v => if v =? 0 then err EAGAIN else 0 | None => err EINVAL end).
Proof.
  intros H. destruct (step_caged _ _ _ _ _ _ H) as (g & Hg). unfold istep in H. rewrite Hg in H. unfold sem_try in H.
  destruct (semv_at x _ c g h (sem_run _ _ _ Hr Hp) Hg) as [(E & _ & ->)|(o & w & E & _ & -> & _)]; rewrite E in H; [injection H as _ <-; done|].
  cbn [o_val] in H. destruct (w =? 0); injection H as _ <-; done.
Qed.
Lemma sf_wait : istep chk x c (SemWait h) = Done (x', r) ->
  r = match sems tr !! (c, h) with Some v => if v =? 0 then IBlock else IRet 0 | None => IRet (err EINVAL) end.
Proof.
  intros H. destruct (step_caged _ _ _ _ _ _ H) as (g & Hg). unfold istep in H. rewrite Hg in H. unfold sem_wait in H.
  destruct (semv_at x _ c g h (sem_run _ _ _ Hr Hp) Hg) as [(E & _ & ->)|(o & w & E & _ & -> & _)]; rewrite E in H; [injection H as _ <-; done|].
  cbn [o_val] in H. destruct (w =? 0); injection H as _ <-; done.
Qed.
Lemma sf_post : istep chk x c (SemPost h) = Done (x', r) ->
  r = IRet (match sems tr !! (c, h) with Some v => if v <? SEM_VALUE_MAX then 0 else err EOVERFLOW | None => err EINVAL end).
Proof.
  intros H. destruct (step_caged _ _ _ _ _ _ H) as (g & Hg). unfold istep in H. rewrite Hg in H. unfold sem_post in H.
  destruct (semv_at x _ c g h (sem_run _ _ _ Hr Hp) Hg) as [(E & _ & ->)|(o & w & E & _ & -> & _)]; rewrite E in H; [injection H as _ <-; done|].
  cbn [o_val] in H. destruct (w <? SEM_VALUE_MAX); injection H as _ <-; done.
Qed.
Lemma sf_destroy : istep chk x c (SemDestroy h) = Done (x', r) ->
  r = IRet (match sems tr !! (c, h) with Some _ => 0 | None => err EINVAL end).
Proof.
  intros H. destruct (step_caged _ _ _ _ _ _ H) as (g & Hg). unfold istep in H. rewrite Hg in H. unfold sem_destroy in H.
  destruct (semv_at x _ c g h (sem_run _ _ _ Hr Hp) Hg) as [(E & _ & ->)|(o & w & E & _ & -> & _)]; rewrite E in H; injection H as _ <-; done.
Qed.
End SemFacts.

(** ** Handles of mutexes and condition variables *)
Lemma slot_put l o h : slot (put_slot (free_slot l) o l) h = if h =? Z.of_nat (free_slot l) then Some o else slot l h.
Proof.
  unfold slot. destruct (Z.ltb_spec h 0) as [Hn|Hn].
  { destruct (Z.eqb_spec h (Z.of_nat (free_slot l))); [lia|done]. }
  remember (Z.to_nat h) as k eqn:Ek. assert (Eh : h = Z.of_nat k) by lia.
  assert (Ee : (h =? Z.of_nat (free_slot l)) = bool_decide (k = free_slot l)).
  { case_bool_decide; [apply Z.eqb_eq|apply Z.eqb_neq]; lia. }
  rewrite Ee. clear Ek Eh Ee Hn h. unfold put_slot.
  assert (Hle : (free_slot l <= length l)%nat) by (induction l as [|[a|] l IH]; cbn; lia).
  case_bool_decide as E1.
  - case_bool_decide as E2.
    + subst k. rewrite list_lookup_insert by done. done.
    + rewrite list_lookup_insert_ne by done. done.
  - assert (El : free_slot l = length l) by lia. rewrite El. case_bool_decide as E2.
    + subst k. rewrite list_lookup_middle by done. done.
    + destruct (decide (k < length l)%nat).
      * rewrite lookup_app_l by done. done.
      * rewrite (lookup_ge_None_2 l) by lia. rewrite (lookup_ge_None_2 (l ++ [Some o])) by (rewrite app_length; cbn; lia). done.
Qed.
Lemma slot_free l : slot l (Z.of_nat (free_slot l)) = None /\ forall j, 0 <= j < Z.of_nat (free_slot l) -> is_Some (slot l j).
Proof.
  unfold slot. split.
  - rewrite (proj2 (Z.ltb_ge _ 0)) by lia. rewrite Nat2Z.id. induction l as [|[a|] l IH]; done.
  - intros j Hj. rewrite (proj2 (Z.ltb_ge j 0)) by lia. remember (Z.to_nat j) as k eqn:Ek.
    assert (Hk : (k < free_slot l)%nat) by lia. clear Ek Hj j. revert k Hk.
    induction l as [|[a|] l IH]; intros k Hk; cbn in Hk; [lia| |lia]. destruct k as [|k]; [cbn; eauto|]. apply IH. lia.
Qed.
Lemma slot_clear l h h' o : slot l h = Some o -> slot (<[Z.to_nat h := None]> l) h' = if h' =? h then None else slot l h'.
Proof.
  unfold slot. destruct (Z.ltb_spec h 0) as [Hn|Hn]; [done|]. intros Ho.
  destruct (Z.eqb_spec h' h) as [->|Hne].
  - rewrite (proj2 (Z.ltb_ge h 0)) by done. destruct (l !! Z.to_nat h) eqn:E; [|done].
    rewrite list_lookup_insert; [done|]. exact (lookup_lt_Some _ _ _ E).
  - destruct (Z.ltb_spec h' 0) as [Hn'|Hn']; [done|]. rewrite list_lookup_insert_ne; [done|]. lia.
Qed.
Lemma slot_renew n l h : 
  match slot l h with
  | None => slot (renew n l).1 h = None
  | Some _ => exists o, slot (renew n l).1 h = Some o /\ n <= o < (renew n l).2
  end.
Proof.
  unfold slot. destruct (h <? 0); [done|]. generalize (Z.to_nat h) as k. intros k. revert n k.
  induction l as [|[a|] l IH]; intros n k; cbn; [done| |].
  - pose proof (renew_le (n + 1) l) as Hle. specialize (IH (n + 1)). destruct (renew (n + 1) l) as [r' n'] eqn:E. cbn in *.
    destruct k as [|k]; cbn; [exists n; split; [done|lia]|]. specialize (IH k).
    destruct (l !! k) as [[o|]|]; try exact IH. destruct IH as (o' & H1 & H2). exists o'. split; [done|lia].
  - specialize (IH n). destruct (renew n l) as [r' n'] eqn:E. cbn in *. destruct k as [|k]; [done|]. exact (IH k).
Qed.
Lemma slot_renew_inj n l h1 h2 o : slot (renew n l).1 h1 = Some o -> slot (renew n l).1 h2 = Some o -> h1 = h2.
Proof.
  unfold slot. destruct (Z.ltb_spec h1 0) as [|H1]; [done|]. destruct (Z.ltb_spec h2 0) as [|H2]; [done|].
  intros E1 E2. enough (Z.to_nat h1 = Z.to_nat h2) by lia. revert E1 E2. generalize (Z.to_nat h1) (Z.to_nat h2). clear.
  revert n. assert (Hge : forall (l : list (option Z)) n k o, (renew n l).1 !! k = Some (Some o) -> n <= o).
  { clear l. intros l. induction l as [|[a|] l IH]; intros n k o' H; cbn in H; [rewrite lookup_nil in H; discriminate H| |].
    - specialize (IH (n + 1)). destruct (renew (n + 1) l) as [r' n']. cbn in *. destruct k as [|k]; cbn in H.
      + injection H as <-. lia.
      + specialize (IH k o' H). lia.
    - specialize (IH n). destruct (renew n l) as [r' n']. cbn in *. destruct k as [|k]; cbn in H; [discriminate H|]. exact (IH k o' H). }
  assert (Hs : forall (q : list (option Z)) k, match q !! k with Some (Some o) => Some o | _ => None end = Some o -> q !! k = Some (Some o)).
  { intros q k. destruct (q !! k) as [[o'|]|]; [|done|done]. intros E. injection E as ->. done. }
  intros n k1 k2 E1 E2. apply Hs in E1, E2. revert n k1 k2 E1 E2.
  induction l as [|[a|] l IH]; intros n k1 k2 E1 E2; cbn in E1, E2; [rewrite lookup_nil in E1; discriminate E1| |].
  - specialize (IH (n + 1)). pose proof (Hge l (n + 1)) as Hg. destruct (renew (n + 1) l) as [r' n']. cbn in *.
    destruct k1 as [|k1], k2 as [|k2]; cbn in E1, E2; [done| | |].
    + injection E1 as ->. specialize (Hg k2 o E2). lia.
    + injection E2 as ->. specialize (Hg k1 o E1). lia.
    + f_equal. exact (IH k1 k2 E1 E2).
  - specialize (IH n). destruct (renew n l) as [r' n']. cbn in *.
    destruct k1 as [|k1], k2 as [|k2]; cbn in E1, E2; [done|discriminate E1|discriminate E2|]. f_equal. exact (IH k1 k2 E1 E2).
Qed.
Lemma add_locks_look l m o : add_locks l m !! o = if existsb (fun s => match s with Some k => k =? o | None => false end) l then Some false else m !! o.
Proof.
  induction l as [|[k|] l IH]; cbn; [done| |exact IH]. destruct (Z.eqb_spec k o) as [->|Hne]; cbn [orb].
  - apply lookup_insert.
  - rewrite lookup_insert_ne by done. exact IH.
Qed.
Lemma add_locks_in l m h o : slot l h = Some o -> add_locks l m !! o = Some false.
Proof.
  intros H. rewrite add_locks_look. replace (existsb _ l) with true; [done|]. symmetry. apply existsb_exists.
  unfold slot in H. destruct (h <? 0); [discriminate H|]. destruct (l !! Z.to_nat h) as [[k|]|] eqn:E; [|discriminate H|discriminate H].
  injection H as ->. exists (Some o). split; [apply elem_of_list_In; exact (elem_of_list_lookup_2 _ _ _ E)|apply Z.eqb_refl].
Qed.
Lemma renew_ge n l k : In (Some k) (renew n l).1 -> n <= k.
Proof.
  revert n. induction l as [|[a|] l IH]; intros n; cbn; [done| |].
  - specialize (IH (n + 1)). destruct (renew (n + 1) l) as [r' n']. cbn in *. intros [E|H]; [injection E as <-; lia|]. specialize (IH H). lia.
  - specialize (IH n). destruct (renew n l) as [r' n']. cbn in *. intros [E|H]; [discriminate E|]. exact (IH H).
Qed.
Lemma add_locks_old n l m o : o < n -> add_locks (renew n l).1 m !! o = m !! o.
Proof.
  intros H. rewrite add_locks_look. destruct (existsb _ _) eqn:E; [|done]. apply existsb_exists in E as ([k|] & H1 & H2); [|discriminate H2].
  apply Z.eqb_eq in H2. subst k. apply renew_ge in H1. lia.
Qed.

Lemma for_child_look {A} c ch (v : A -> A) m c' h : c <> ch ->
  for_child c ch v m !! (c', h) = match m !! (c', h) with Some b => Some b | None => if c' =? ch then v <$> m !! (c, h) else None end.
Proof.
  intros Hcc. unfold for_child. set (l := map _ _).
  assert (Hl : forall k b, In (k, b) l <-> exists h1 a, k = (ch, h1) /\ b = v a /\ m !! (c, h1) = Some a).
  { intros k b. unfold l. rewrite in_map_iff. split.
    - intros ([[c1 h1] a] & E & Hin). apply filter_In in Hin as [H1 H2]. cbn in *. apply Z.eqb_eq in H2. subst c1.
      injection E as <- <-. exists h1, a. split; [done|]. split; [done|]. apply elem_of_map_to_list, elem_of_list_In. exact H1.
    - intros (h1 & a & -> & -> & Hm). exists ((c, h1), a). split; [done|]. apply filter_In. split; [|apply Z.eqb_refl].
      apply elem_of_list_In, elem_of_map_to_list. exact Hm. }
  rewrite lookup_union. destruct (m !! (c', h)) as [b|] eqn:Em; [destruct (list_to_map l !! (c', h)); done|].
  assert (HN : forall q : option A, union_with (fun a _ : A => Some a) None q = q) by (intros [q|]; done). rewrite HN.
  destruct (Z.eqb_spec c' ch) as [->|Hne].
  - destruct (m !! (c, h)) as [a|] eqn:Ea; cbn.
    + apply elem_of_list_to_map_1'.
      * intros y Hy. apply elem_of_list_In, Hl in Hy as (h1 & a1 & E1 & -> & E2). injection E1 as <-. congruence.
      * apply elem_of_list_In, Hl. exists h, a. done.
    + apply not_elem_of_list_to_map_1. intros Hin. apply elem_of_list_fmap in Hin as ([k b] & E & Hin). cbn in E. subst k.
      apply elem_of_list_In, Hl in Hin as (h1 & a1 & E1 & _ & E2). injection E1 as <-. congruence.
  - apply not_elem_of_list_to_map_1. intros Hin. apply elem_of_list_fmap in Hin as ([k b] & E & Hin). cbn in E. subst k.
    apply elem_of_list_In, Hl in Hin as (h1 & a1 & E1 & _ & E2). injection E1 as E1 _. done.
Qed.

(** [T]: handle tables; [f]: what is known of an object; [m]: the specification *)
Record tinv {A} (T : gmap Z (list (option Z))) (f : Z -> A) (N : Z) (m : gmap (Z * Z) A) : Prop := {
  t_tab : forall c l h, T !! c = Some l -> m !! (c, h) = f <$> slot l h;
  t_obj : forall c l h o, T !! c = Some l -> slot l h = Some o -> o < N;
  t_none : forall c h, T !! c = None -> m !! (c, h) = None;
  t_inj : forall c1 c2 l1 l2 h1 h2 o, T !! c1 = Some l1 -> T !! c2 = Some l2 -> slot l1 h1 = Some o -> slot l2 h2 = Some o -> c1 = c2 /\ h1 = h2
}.
Arguments tinv {A}.
Lemma tinv_ext {A} T (f f' : Z -> A) N N' m : tinv T f N m -> N <= N' -> (forall o, o < N -> f' o = f o) -> tinv T f' N' m.
Proof.
  intros [H1 H2 H3 H4] HN Hf. constructor; [|intros c l h o E1 E2; pose proof (H2 _ _ _ _ E1 E2); lia|done|done].
  intros c l h Hl. rewrite (H1 _ _ h Hl). destruct (slot l h) as [o|] eqn:E; [|done]. cbn. rewrite Hf; [done|]. exact (H2 _ _ _ _ Hl E).
Qed.
Lemma tinv_new {A} T (f f' : Z -> A) N m c l a : tinv T f N m -> T !! c = Some l -> f' N = a -> (forall o, o < N -> f' o = f o) ->
  tinv (<[c := put_slot (free_slot l) N l]> T) f' (N + 1) (<[(c, Z.of_nat (free_slot l)) := a]> m).
Proof.
  intros H0 Hl Ha Hf. pose proof (tinv_ext _ _ f' _ N _ H0 ltac:(lia) Hf) as [H1 H2 H3 H4]. clear H0.
  set (h0 := Z.of_nat (free_slot l)).
  assert (HT : forall c' l' h o, <[c := put_slot (free_slot l) N l]> T !! c' = Some l' -> slot l' h = Some o ->
    (c' = c /\ h = h0 /\ o = N) \/ exists l0, T !! c' = Some l0 /\ slot l0 h = Some o).
  { intros c' l' h o E1 E2. destruct (decide (c = c')) as [<-|Hne].
    - rewrite lookup_insert in E1. injection E1 as <-. rewrite slot_put in E2. fold h0 in E2.
      destruct (Z.eqb_spec h h0) as [->|_]; [left; injection E2 as <-; done|right; eauto].
    - rewrite lookup_insert_ne in E1 by done. right. eauto. }
  constructor.
  - intros c' l' h Hl'. destruct (decide (c = c')) as [<-|Hne].
    + rewrite lookup_insert in Hl'. injection Hl' as <-. rewrite slot_put. fold h0. destruct (Z.eqb_spec h h0) as [->|Hh].
      * rewrite lookup_insert. cbn. congruence.
      * rewrite lookup_insert_ne by congruence. exact (H1 _ _ h Hl).
    + rewrite lookup_insert_ne in Hl' by done. rewrite lookup_insert_ne by congruence. exact (H1 _ _ h Hl').
  - intros c' l' h o E1 E2. destruct (HT _ _ _ _ E1 E2) as [(_ & _ & ->)|(l0 & E3 & E4)]; [lia|]. pose proof (H2 _ _ _ _ E3 E4). lia.
  - intros c' h Hc. destruct (decide (c = c')) as [<-|Hne]; [rewrite lookup_insert in Hc; discriminate Hc|].
    rewrite lookup_insert_ne in Hc by done. rewrite lookup_insert_ne by congruence. exact (H3 _ h Hc).
  - intros c1 c2 l1 l2 h1 h2 o E1 E2 E3 E4.
    destruct (HT _ _ _ _ E1 E3) as [(-> & -> & ->)|(l3 & A1 & A2)], (HT _ _ _ _ E2 E4) as [(B1 & B2 & B3)|(l4 & B1 & B2)].
    + done.
    + pose proof (H2 _ _ _ _ B1 B2). lia.
    + pose proof (H2 _ _ _ _ A1 A2). lia.
    + exact (H4 _ _ _ _ _ _ _ A1 B1 A2 B2).
Qed.
Lemma tinv_del {A} T (f : Z -> A) N m c l h o : tinv T f N m -> T !! c = Some l -> slot l h = Some o ->
  tinv (<[c := <[Z.to_nat h := None]> l]> T) f N (delete (c, h) m).
Proof.
  intros [H1 H2 H3 H4] Hl Ho.
  assert (HT : forall c' l' h' o', <[c := <[Z.to_nat h := None]> l]> T !! c' = Some l' -> slot l' h' = Some o' -> exists l0, T !! c' = Some l0 /\ slot l0 h' = Some o').
  { intros c' l' h' o' E1 E2. destruct (decide (c = c')) as [<-|Hne].
    - rewrite lookup_insert in E1. injection E1 as <-. rewrite (slot_clear _ _ _ _ Ho) in E2. destruct (h' =? h); [discriminate E2|]. eauto.
    - rewrite lookup_insert_ne in E1 by done. eauto. }
  constructor.
  - intros c' l' h' Hl'. destruct (decide (c = c')) as [<-|Hne].
    + rewrite lookup_insert in Hl'. injection Hl' as <-. rewrite (slot_clear _ _ _ _ Ho). destruct (Z.eqb_spec h' h) as [->|Hh].
      * apply lookup_delete.
      * rewrite lookup_delete_ne by congruence. exact (H1 _ _ h' Hl).
    + rewrite lookup_insert_ne in Hl' by done. rewrite lookup_delete_ne by congruence. exact (H1 _ _ h' Hl').
  - intros c' l' h' o' E1 E2. destruct (HT _ _ _ _ E1 E2) as (l0 & E3 & E4). exact (H2 _ _ _ _ E3 E4).
  - intros c' h' Hc. destruct (decide (c = c')) as [<-|Hne]; [rewrite lookup_insert in Hc; discriminate Hc|].
    rewrite lookup_insert_ne in Hc by done. apply lookup_delete_None. right. exact (H3 _ h' Hc).
  - intros c1 c2 l1 l2 h1 h2 o' E1 E2 E3 E4. destruct (HT _ _ _ _ E1 E3) as (l3 & A1 & A2), (HT _ _ _ _ E2 E4) as (l4 & B1 & B2).
    exact (H4 _ _ _ _ _ _ _ A1 B1 A2 B2).
Qed.
Lemma tinv_end {A} T (f : Z -> A) N m c : tinv T f N m -> tinv (delete c T) f N (filter (fun p => p.1.1 <> c) m).
Proof.
  intros [H1 H2 H3 H4]. constructor.
  - intros c' l' h' Hl. apply lookup_delete_Some in Hl as [Hne Hl]. rewrite filter_look, (proj2 (Z.eqb_neq c' c)) by congruence. exact (H1 _ _ h' Hl).
  - intros c' l' h' o Hl. apply lookup_delete_Some in Hl as [Hne Hl]. exact (H2 _ _ h' o Hl).
  - intros c' h' Hc. rewrite filter_look. destruct (Z.eqb_spec c' c) as [->|Hne]; [done|]. rewrite lookup_delete_ne in Hc by done. exact (H3 _ h' Hc).
  - intros c1 c2 l1 l2 h1 h2 o E1 E2. apply lookup_delete_Some in E1 as [_ E1]. apply lookup_delete_Some in E2 as [_ E2]. exact (H4 _ _ _ _ _ _ _ E1 E2).
Qed.
Lemma slot_nil h : slot [] h = None.
Proof. unfold slot. destruct (h <? 0); [done|]. rewrite lookup_nil. done. Qed.
Lemma tinv_empty {A} T (f : Z -> A) N m c : tinv T f N m -> T !! c = None -> tinv (<[c := []]> T) f N m.
Proof.
  intros [H1 H2 H3 H4] Hc.
  assert (HT : forall c' l' h' o', <[c := []]> T !! c' = Some l' -> slot l' h' = Some o' -> T !! c' = Some l').
  { intros c' l' h' o' E1 E2. destruct (decide (c = c')) as [<-|Hne].
    - rewrite lookup_insert in E1. injection E1 as <-. rewrite slot_nil in E2. discriminate E2.
    - rewrite lookup_insert_ne in E1 by done. done. }
  constructor.
  - intros c' l' h' Hl. destruct (decide (c = c')) as [<-|Hne].
    + rewrite lookup_insert in Hl. injection Hl as <-. rewrite slot_nil. exact (H3 c h' Hc).
    + rewrite lookup_insert_ne in Hl by done. exact (H1 _ _ h' Hl).
  - intros c' l' h' o' E1 E2. exact (H2 _ _ _ _ (HT _ _ _ _ E1 E2) E2).
  - intros c' h' Hl. destruct (decide (c = c')) as [<-|Hne]; [rewrite lookup_insert in Hl; discriminate Hl|].
    rewrite lookup_insert_ne in Hl by done. exact (H3 _ h' Hl).
  - intros c1 c2 l1 l2 h1 h2 o E1 E2 E3 E4. exact (H4 _ _ _ _ _ _ _ (HT _ _ _ _ E1 E3) (HT _ _ _ _ E2 E4) E3 E4).
Qed.
Lemma tinv_fork {A} T (f f' : Z -> A) N n N' m c ch l v : tinv T f N m -> T !! c = Some l -> T !! ch = None -> c <> ch -> N <= n ->
  (renew n l).2 <= N' -> (forall o, o < N -> f' o = f o) ->
  (forall h o o', slot l h = Some o -> slot (renew n l).1 h = Some o' -> f' o' = v (f o)) ->
  tinv (<[ch := (renew n l).1]> T) f' N' (for_child c ch v m).
Proof.
  intros H0 Hl Hch Hcc Hn HN' Hf Hv. pose proof (renew_le n l) as Hle. destruct H0 as [H1 H2 H3 H4].
  assert (HT : forall c' l' h o, <[ch := (renew n l).1]> T !! c' = Some l' -> slot l' h = Some o ->
    (c' = ch /\ slot (renew n l).1 h = Some o /\ n <= o < (renew n l).2) \/ (T !! c' = Some l' /\ o < N)).
  { intros c' l' h o E1 E2. destruct (decide (ch = c')) as [<-|Hne].
    - rewrite lookup_insert in E1. injection E1 as <-. left. split; [done|]. split; [done|].
      pose proof (slot_renew n l h) as Hr. destruct (slot l h); [|congruence]. destruct Hr as (o' & E3 & E4). rewrite E2 in E3. injection E3 as <-. done.
    - rewrite lookup_insert_ne in E1 by done. right. split; [done|]. exact (H2 _ _ _ _ E1 E2). }
  constructor.
  - intros c' l' h Hl'. rewrite for_child_look by done. destruct (decide (ch = c')) as [<-|Hne].
    + rewrite lookup_insert in Hl'. injection Hl' as <-. rewrite (H3 ch h Hch), Z.eqb_refl, (H1 _ _ h Hl).
      pose proof (slot_renew n l h) as Hr. destruct (slot l h) as [o|] eqn:Eo.
      * destruct Hr as (o' & E3 & _). rewrite E3. cbn. f_equal. symmetry. exact (Hv _ _ _ Eo E3).
      * rewrite Hr. done.
    + rewrite lookup_insert_ne in Hl' by done. rewrite (H1 _ _ h Hl'). destruct (slot l' h) as [o|] eqn:E; cbn.
      * rewrite Hf; [done|]. exact (H2 _ _ _ _ Hl' E).
      * rewrite (proj2 (Z.eqb_neq c' ch)) by congruence. done.
  - intros c' l' h o E1 E2. destruct (HT _ _ _ _ E1 E2) as [(_ & _ & H)|[_ H]]; lia.
  - intros c' h Hc. destruct (decide (ch = c')) as [<-|Hne]; [rewrite lookup_insert in Hc; discriminate Hc|].
    rewrite lookup_insert_ne in Hc by done. rewrite for_child_look by done. rewrite (H3 _ h Hc), (proj2 (Z.eqb_neq c' ch)) by congruence. done.
  - intros c1 c2 l1 l2 h1 h2 o E1 E2 E3 E4.
    destruct (HT _ _ _ _ E1 E3) as [(-> & A2 & A3)|[A1 A2]], (HT _ _ _ _ E2 E4) as [(-> & B2 & B3)|[B1 B2]].
    + split; [done|]. exact (slot_renew_inj _ _ _ _ _ A2 B2).
    + lia.
    + lia.
    + exact (H4 _ _ _ _ _ _ _ A1 B1 E3 E4).
Qed.
Lemma tinv_set {A} T (f f' : Z -> A) N m c l h o a : tinv T f N m -> T !! c = Some l -> slot l h = Some o ->
  f' o = a -> (forall o', o' <> o -> f' o' = f o') -> tinv T f' N (alter (fun _ => a) (c, h) m).
Proof.
  intros [H1 H2 H3 H4] Hl Ho Ha Hf. constructor; [|done| |done].
  - intros c' l' h' Hl'. destruct (decide ((c, h) = (c', h'))) as [E|Hne].
    + injection E as <- <-. rewrite Hl in Hl'. injection Hl' as <-. rewrite lookup_alter, (H1 _ _ h Hl), Ho. cbn. congruence.
    + rewrite lookup_alter_ne by done. rewrite (H1 _ _ h' Hl'). destruct (slot l' h') as [o'|] eqn:E; [|done]. cbn. rewrite Hf; [done|].
      intros ->. destruct (H4 _ _ _ _ _ _ _ Hl Hl' Ho E) as [-> ->]. done.
  - intros c' h' Hc. rewrite lookup_alter_ne; [exact (H3 _ h' Hc)|]. intros E. injection E as <- <-. congruence.
Qed.

Definition mutv (x : ipc) (m : gmap (Z * Z) bool) : Prop :=
  tinv (c_mut <$> x_cage x) (fun o => default false (x_lock x !! o)) (x_obj x) m.
Definition cvv (x : ipc) (m : gmap (Z * Z) unit) : Prop := tinv (c_cv <$> x_cage x) (fun _ => tt) (x_obj x) m.

(** Calls that leave both tables alone *)
Definition keep (x y : ipc) : Prop :=
  c_mut <$> x_cage y = c_mut <$> x_cage x /\ c_cv <$> x_cage y = c_cv <$> x_cage x /\ x_lock y = x_lock x /\ x_obj x <= x_obj y.
Lemma keep_refl x y : x_cage y = x_cage x -> x_lock y = x_lock x -> x_obj x <= x_obj y -> keep x y.
Proof. intros E1 E2 E3. unfold keep. rewrite E1. done. Qed.
Lemma keep_put x y c g g' : keep x y -> x_cage y !! c = Some g -> c_mut g' = c_mut g -> c_cv g' = c_cv g -> keep x (set_cage <[c := g']> y).
Proof.
  intros (H1 & H2 & H3 & H4) Hg E1 E2. unfold keep. cbn. rewrite !fmap_insert, E1, E2.
  rewrite (insert_id (c_mut <$> x_cage y)) by (rewrite lookup_fmap, Hg; done).
  rewrite (insert_id (c_cv <$> x_cage y)) by (rewrite lookup_fmap, Hg; done). done.
Qed.
Lemma keep_spread chk f off addrs cs x y x' : keep x y -> spread chk f off addrs cs y = Done x' -> keep x x'.
Proof.
  unfold spread. intros Hk H. refine (ofold_inv (keep x) _ _ _ _ _ Hk H).
  intros z c2 z2 Hy H2. refine (ofold_inv (keep x) _ _ _ _ _ Hy H2).
  intros w a w2 Hz H3. destruct (add32 chk a off) as [b|]; [|discriminate H3]. cbn in H3.
  destruct (x_cage w !! c2) as [g2|] eqn:E; [|discriminate H3]. injection H3 as <-. apply (keep_put _ _ _ g2); done.
Qed.
Definition handle_op (o : iop) : bool :=
  match o with
  | IFork _ | IExec _ | IExit _ | MutCreate | MutDestroy _ | MutOp _ _ | CvCreate | CvDestroy _ => true
  | _ => false
  end.
Lemma keep_step chk x c o x' r : handle_op o = false -> istep chk x c o = Done (x', r) -> keep x x'.
Proof.
  intros Ho H. destruct (step_caged _ _ _ _ _ _ H) as (g & Hg). unfold istep in H. rewrite Hg in H.
  pose proof (keep_refl x x eq_refl eq_refl ltac:(lia)) as K0.
  destruct o; try discriminate Ho; clear Ho.
  - unfold shmget in H. destruct (key =? IPC_PRIVATE); [injection H as <- _; done|].
    destruct (x_key x !! key); [destruct (_ =? _) in H; injection H as <- _; done|].
    destruct (Z.land flg IPC_CREAT =? 0); [injection H as <- _; done|].
    destruct ((to_u32 size <? SHMMIN) || (SHMMAX <? to_u32 size)); [injection H as <- _; done|].
    destruct (2 ^ 63 <=? size); [discriminate H|]. injection H as <- _. exact K0.
  - unfold shmat in H. destruct (x_seg x !! id) as [s|] eqn:Es; [|injection H as <- _; done]. cbv zeta in H.
    set (x1 := set_cage _ x) in H. assert (K1 : keep x x1) by (apply (keep_put _ _ _ g); done).
    match type of H with obind ?e _ = _ => destruct e as [x2|] eqn:Ec; [|discriminate H] end.
    cbn [obind] in H. injection H as <- _. cut (keep x x2); [done|].
    destruct (g_offs s) as [|o l] eqn:Eo; [injection Ec as <-; done|].
    destruct (first_cage (g_att s) pick) as [c2|]; [|injection Ec as <-; done].
    destruct (x_cage x1 !! c2) as [g2|]; [|discriminate Ec].
    destruct (addrs_of (c_rev g2) id) as [|a0 ar]; [discriminate Ec|].
    refine (ofold_inv (keep x) _ _ _ _ _ K1 Ec).
    intros y off y2 Hy H2. destruct (add32 chk a0 off) as [b|]; [|discriminate H2]. cbn [obind] in H2.
    destruct (x_cage y !! c2) as [g2'|]; [|discriminate H2].
    destruct (c_sem g2' !! b) as [ob|]; [|discriminate H2].
    destruct (add32 chk addr off) as [b2|]; [|discriminate H2]. cbn [obind] in H2.
    destruct (x_cage y !! c) as [g'|] eqn:Ey; [|discriminate H2]. injection H2 as <-. apply (keep_put _ _ _ g'); done.
  - unfold shmdt in H. destruct (index_of (c_rev g) addr) as [i|]; [|injection H as <- _; done].
    destruct (c_rev g !! i) as [[a id]|]; [|discriminate H].
    destruct (x_seg x !! id) as [s|] eqn:Es; [|discriminate H].
    match type of H with obind ?e0 _ = _ => destruct e0 as [t|]; [|discriminate H] end. cbn [obind] in H.
    destruct (g_att s !! c) as [n|]; [|discriminate H].
    set (x1 := set_cage _ x) in H. assert (K1 : keep x x1) by (apply (keep_put _ _ _ g); done).
    destruct (g_rmid s && (g_nattch s - 1 =? 0)); injection H as <- _; exact K1.
  - unfold shmctl in H. destruct (x_seg x !! id) as [s|]; [|injection H as <- _; done].
    destruct (cmd =? IPC_STAT); [injection H as <- _; done|]. destruct (cmd =? IPC_RMID); [|injection H as <- _; done].
    destruct (g_nattch s =? 0); injection H as <- _; done.
  - unfold sem_init in H. destruct (SEM_VALUE_MAX <? v); [injection H as <- _; done|].
    destruct (c_sem g !! h); [injection H as <- _; done|].
    set (x1 := set_cage _ _) in H. assert (K1 : keep x x1).
    { apply (keep_put _ _ _ g); [|done|done|done]. apply keep_refl; cbn; [done|done|lia]. }
    destruct (negb (pshared =? 0)) eqn:Eps; [|injection H as <- _; done].
    destruct (region_of chk x1 (c_rev g) h) as [[[m id]|]|]; cbn [obind] in H; [|injection H as <- _; done|discriminate H].
    destruct (sub32 chk m h) as [off|]; [|discriminate H]. cbn [obind] in H.
    destruct (x_seg x1 !! id) as [s|] eqn:Es; [|injection H as <- _; done].
    destruct (spread _ _ _ _ _ x1) as [x2|] eqn:E2; [|discriminate H]. cbn [obind] in H. injection H as <- _.
    cut (keep x x2); [done|]. exact (keep_spread _ _ _ _ _ _ _ _ K1 E2).
  - unfold sem_wait in H. destruct (sem_at x g h) as [[o so]|]; [|injection H as <- _; done].
    destruct (o_val so =? 0); injection H as <- _; done.
  - unfold sem_try in H. destruct (sem_at x g h) as [[o so]|]; [|injection H as <- _; done].
    destruct (o_val so =? 0); injection H as <- _; done.
  - unfold sem_post in H. destruct (sem_at x g h) as [[o so]|]; [|injection H as <- _; done].
    destruct (o_val so <? SEM_VALUE_MAX); injection H as <- _; done.
  - unfold sem_get in H. destruct (sem_at x g h) as [[o so]|]; injection H as <- _; done.
  - unfold sem_destroy in H. destruct (sem_at x g h) as [[o so]|]; [|injection H as <- _; done].
    set (x1 := set_cage _ _) in H. assert (K1 : keep x x1) by (apply (keep_put _ _ _ g); done).
    destruct (o_shared so); [|injection H as <- _; done].
    destruct (region_of chk x1 (c_rev g) h) as [[[m id]|]|]; cbn [obind] in H; [|injection H as <- _; done|discriminate H].
    destruct (sub32 chk m h) as [off|]; [|discriminate H]. cbn [obind] in H.
    destruct (x_seg x1 !! id) as [s|] eqn:Es; [|injection H as <- _; done].
    destruct (spread _ _ _ _ _ x1) as [x2|] eqn:E2; [|discriminate H]. cbn [obind] in H. injection H as <- _.
    exact (keep_spread _ _ _ _ _ _ _ _ K1 E2).
  - unfold cond_op in H. destruct (slot (c_cv g) h); injection H as <- _; done.
  - unfold cond_op in H. destruct (slot (c_cv g) h); [|injection H as <- _; done].
    destruct (slot (c_mut g) m); injection H as <- _; done.
Qed.
Lemma keep_specs c o r m m2 : handle_op o = false -> mut_step m (Iev c o r) = m /\ cv_step m2 (Iev c o r) = m2.
Proof. destruct o; try discriminate; done. Qed.

Lemma handle_step chk x c o x' r m m2 : mutv x m -> cvv x m2 -> iok x c o -> istep chk x c o = Done (x', r) ->
  mutv x' (mut_step m (Iev c o r)) /\ cvv x' (cv_step m2 (Iev c o r)).
Proof.
  intros HM HC Hok H. destruct (handle_op o) eqn:Eo.
  2:{ destruct (keep_specs c o r m m2 Eo) as [-> ->]. destruct (keep_step _ _ _ _ _ _ Eo H) as (E1 & E2 & E3 & E4).
      unfold mutv, cvv. rewrite E1, E2, E3. split; [exact (tinv_ext _ _ _ _ _ _ HM E4 (fun _ _ => eq_refl))|exact (tinv_ext _ _ _ _ _ _ HC E4 (fun _ _ => eq_refl))]. }
  destruct (step_caged _ _ _ _ _ _ H) as (g & Hg). unfold istep in H. rewrite Hg in H.
  assert (Tm : (c_mut <$> x_cage x) !! c = Some (c_mut g)) by (rewrite lookup_fmap, Hg; done).
  assert (Tc : (c_cv <$> x_cage x) !! c = Some (c_cv g)) by (rewrite lookup_fmap, Hg; done).
  assert (Hcv : forall g', c_cv g' = c_cv g -> c_cv <$> <[c := g']> (x_cage x) = c_cv <$> x_cage x).
  { intros g' E. rewrite fmap_insert, E. apply insert_id. exact Tc. }
  assert (Hmu : forall g', c_mut g' = c_mut g -> c_mut <$> <[c := g']> (x_cage x) = c_mut <$> x_cage x).
  { intros g' E. rewrite fmap_insert, E. apply insert_id. exact Tm. }
  destruct o; try discriminate Eo; clear Eo; cbn [mut_step cv_step e_op e_out e_c].
  - (* fork *) unfold ifork in H. pose proof (renew_le (x_obj x) (c_mut g)) as R1.
    destruct (renew (x_obj x) (c_mut g)) as [muts n1] eqn:EM. pose proof (renew_le n1 (c_cv g)) as R2.
    destruct (renew n1 (c_cv g)) as [cvs n2] eqn:EC. cbn in R1, R2.
    destruct (ofold (fork_one c ch) (c_rev g) x) as [x1|] eqn:Ef; [|discriminate H]. cbn [obind] in H. injection H as <- _.
    apply fork_keeps in Ef as (E1 & E2 & E3 & E4). cbn in Hok.
    assert (Hcc : c <> ch) by congruence.
    unfold mutv, cvv. cbn. rewrite !fmap_insert, E1, E3. cbn [c_mut c_cv]. split.
    + replace muts with (renew (x_obj x) (c_mut g)).1 by (rewrite EM; done).
      refine (tinv_fork _ (fun o => default false (x_lock x !! o)) _ (x_obj x) (x_obj x) n2 m c ch (c_mut g) (fun _ => false) HM Tm _ Hcc _ _ _ _).
      * rewrite lookup_fmap, Hok. done.
      * lia.
      * rewrite EM. cbn. lia.
      * intros o Ho. rewrite add_locks_old by done. done.
      * intros h o o' _ Ho'. rewrite (add_locks_in _ _ _ _ Ho'). done.
    + replace cvs with (renew n1 (c_cv g)).1 by (rewrite EC; done).
      refine (tinv_fork _ (fun _ => tt) _ (x_obj x) n1 n2 m2 c ch (c_cv g) id HC Tc _ Hcc _ _ _ _).
      * rewrite lookup_fmap, Hok. done.
      * lia.
      * rewrite EC. cbn. lia.
      * done.
      * done.
  - (* exec *) unfold iexec in H. destruct (ofold (unmap_one c) (c_rev g) (set_cage (delete c) x)) as [x1|] eqn:Ef; [|discriminate H].
    cbn [obind] in H. injection H as <- <-. apply unmap_keeps in Ef as (E1 & E2 & E3 & E4).
    unfold mutv, cvv. cbn. rewrite !fmap_insert, E1, E3, E4. cbn. rewrite !fmap_delete. split.
    + apply tinv_empty; [apply tinv_end; exact HM|].
      destruct Hok as [->|Hok]; [apply lookup_delete|]. apply lookup_delete_None. right. rewrite lookup_fmap, Hok. done.
    + apply tinv_empty; [apply tinv_end; exact HC|].
      destruct Hok as [->|Hok]; [apply lookup_delete|]. apply lookup_delete_None. right. rewrite lookup_fmap, Hok. done.
  - (* exit *) unfold iexit in H. destruct (ofold (unmap_one c) (c_rev g) x) as [x1|] eqn:Ef; [|discriminate H].
    cbn [obind] in H. injection H as <- <-. apply unmap_keeps in Ef as (E1 & E2 & E3 & E4).
    unfold mutv, cvv. cbn. rewrite E1, E3, E4, !fmap_delete. split; apply tinv_end; done.
  - injection H as <- <-. unfold mutv, cvv. cbn. rewrite Hcv by done. rewrite fmap_insert. cbn [with_mut c_mut]. split.
    + refine (tinv_new _ _ _ (x_obj x) m c (c_mut g) false HM Tm _ _); [rewrite lookup_insert; done|].
      intros o Ho. rewrite lookup_insert_ne by lia. done.
    + refine (tinv_ext _ _ _ _ _ _ HC _ (fun _ _ => eq_refl)); lia.
  - destruct (slot (c_mut g) h) as [o|] eqn:Es; injection H as <- <-; [|done].
    unfold mutv, cvv. cbn. rewrite Hcv by done. rewrite fmap_insert. cbn [with_mut c_mut]. split; [|exact HC].
    exact (tinv_del _ _ _ _ _ _ _ _ HM Tm Es).
  - unfold mutex_op in H. destruct (slot (c_mut g) h) as [k|] eqn:Es; [|injection H as <- <-; destruct o; done].
    destruct o.
    + destruct (default false (x_lock x !! k)); injection H as <- <-; [done|]. split; [|exact HC]. unfold mutv. cbn.
      refine (tinv_set _ _ _ _ _ _ _ _ _ true HM Tm Es _ _); [rewrite lookup_insert; done|]. intros o' Ho. rewrite lookup_insert_ne by done. done.
    + destruct (default false (x_lock x !! k)); injection H as <- <-; [done|]. split; [|exact HC]. unfold mutv. cbn.
      refine (tinv_set _ _ _ _ _ _ _ _ _ true HM Tm Es _ _); [rewrite lookup_insert; done|]. intros o' Ho. rewrite lookup_insert_ne by done. done.
    + injection H as <- <-. split; [|exact HC]. unfold mutv. cbn.
      refine (tinv_set _ _ _ _ _ _ _ _ _ false HM Tm Es _ _); [rewrite lookup_insert; done|]. intros o' Ho. rewrite lookup_insert_ne by done. done.
  - injection H as <- <-. unfold mutv, cvv. cbn. rewrite Hmu by done. rewrite fmap_insert. cbn [with_cv c_cv]. split.
    + refine (tinv_ext _ _ _ _ _ _ HM _ (fun _ _ => eq_refl)); lia.
    + exact (tinv_new _ _ _ (x_obj x) m2 c (c_cv g) tt HC Tc eq_refl (fun _ _ => eq_refl)).
  - destruct (slot (c_cv g) h) as [o|] eqn:Es; injection H as <- <-; [|done].
    unfold mutv, cvv. cbn. rewrite Hmu by done. rewrite fmap_insert. cbn [with_cv c_cv]. split; [exact HM|].
    exact (tinv_del _ _ _ _ _ _ _ _ HC Tc Es).
Qed.

Lemma handle_run chk tr x : irun chk tr x -> mutv x (mutexes tr) /\ cvv x (condvars tr).
Proof.
  induction 1 as [|tr x c o x' r Hr IH Hok Hs].
  - assert (HB : forall A (f : icage -> list (option Z)) (v : Z -> A), f (Icage [] ∅ [] []) = [] -> tinv (f <$> x_cage iboot) v (x_obj iboot) ∅).
    { intros A f v Ef. assert (HT : forall c l, (f <$> x_cage iboot) !! c = Some l -> l = []).
      { intros c l H. rewrite lookup_fmap in H. cbn in H. destruct (decide (1 = c)) as [<-|Hne].
        - rewrite lookup_singleton in H. injection H as <-. done.
        - rewrite lookup_singleton_ne in H by done. discriminate H. }
      constructor.
      - intros c l h Hl. rewrite (HT _ _ Hl), slot_nil. done.
      - intros c l h o Hl. rewrite (HT _ _ Hl), slot_nil. done.
      - done.
      - intros c1 c2 l1 l2 h1 h2 o Hl _. rewrite (HT _ _ Hl), slot_nil. done. }
    split; apply HB; done.
  - destruct IH as [H1 H2]. unfold mutexes, condvars. rewrite !fold_left_app. cbn [fold_left].
    exact (handle_step chk x c o x' r _ _ H1 H2 Hok Hs).
Qed.

Section HandleFacts.
Context (chk : bool) (tr : list iev) (x : ipc) (Hr : irun chk tr x) (c : Z) (x' : ipc) (r : iout).

Lemma tinv_lowest {A} T (f : Z -> A) N m l : tinv T f N m -> T !! c = Some l -> lowest_free m c (Z.of_nat (free_slot l)).
Proof.
  intros H Hl. destruct (slot_free l) as [H1 H2]. split; [lia|]. split.
  - rewrite (t_tab _ _ _ _ H _ _ _ Hl), H1. done.
  - intros j Hj. rewrite (t_tab _ _ _ _ H _ _ _ Hl). destruct (H2 j Hj) as (o & ->). cbn. eauto.
Qed.
Lemma hf_mut g h : x_cage x !! c = Some g -> mutexes tr !! (c, h) = (fun o => default false (x_lock x !! o)) <$> slot (c_mut g) h.
Proof. intros Hg. apply (t_tab _ _ _ _ (proj1 (handle_run _ _ _ Hr))). rewrite lookup_fmap, Hg. done. Qed.
Lemma hf_cv g h : x_cage x !! c = Some g -> condvars tr !! (c, h) = (fun _ => tt) <$> slot (c_cv g) h.
Proof. intros Hg. apply (t_tab _ _ _ _ (proj2 (handle_run _ _ _ Hr))). rewrite lookup_fmap, Hg. done. Qed.

Lemma hf_mcreate : istep chk x c MutCreate = Done (x', r) -> exists h, r = IRet h /\ lowest_free (mutexes tr) c h.
Proof.
  intros H. destruct (step_caged _ _ _ _ _ _ H) as (g & Hg). unfold istep in H. rewrite Hg in H. injection H as _ <-.
  eexists. split; [done|]. apply (tinv_lowest _ _ _ _ _ (proj1 (handle_run _ _ _ Hr))). rewrite lookup_fmap, Hg. done.
Qed.
Lemma hf_ccreate : istep chk x c CvCreate = Done (x', r) -> exists h, r = IRet h /\ lowest_free (condvars tr) c h.
Proof.
  intros H. destruct (step_caged _ _ _ _ _ _ H) as (g & Hg). unfold istep in H. rewrite Hg in H. injection H as _ <-.
  eexists. split; [done|]. apply (tinv_lowest _ _ _ _ _ (proj2 (handle_run _ _ _ Hr))). rewrite lookup_fmap, Hg. done.
Qed.
Lemma hf_mdestroy h : istep chk x c (MutDestroy h) = Done (x', r) -> r = IRet (match mutexes tr !! (c, h) with Some _ => 0 | None => err EBADF end).
Proof.
  intros H. destruct (step_caged _ _ _ _ _ _ H) as (g & Hg). unfold istep in H. rewrite Hg in H. rewrite (hf_mut g h Hg).
  destruct (slot (c_mut g) h); injection H as _ <-; done.
Qed.
Lemma hf_cdestroy h : istep chk x c (CvDestroy h) = Done (x', r) -> r = IRet (match condvars tr !! (c, h) with Some _ => 0 | None => err EBADF end).
Proof.
  intros H. destruct (step_caged _ _ _ _ _ _ H) as (g & Hg). unfold istep in H. rewrite Hg in H. rewrite (hf_cv g h Hg).
  destruct (slot (c_cv g) h); injection H as _ <-; done.
Qed.
Lemma hf_mop h o : istep chk x c (MutOp h o) = Done (x', r) ->
  r = match mutexes tr !! (c, h), o with
      | None, _ => IRet (err EBADF)
      | Some true, MLock => IBlock
      | Some true, MTry => IRet EBUSY
      | _, _ => IRet 0
      end.
Proof.
  intros H. destruct (step_caged _ _ _ _ _ _ H) as (g & Hg). unfold istep in H. rewrite Hg in H. unfold mutex_op in H. rewrite (hf_mut g h Hg).
  destruct (slot (c_mut g) h) as [k|]; [|injection H as _ <-; done]. cbn.
  destruct o, (default false (x_lock x !! k)); injection H as _ <-; done.
Qed.
Lemma hf_signal h : istep chk x c (CvSignal h) = Done (x', r) -> r = IRet (match condvars tr !! (c, h) with Some _ => 0 | None => err EBADF end).
Proof.
  intros H. destruct (step_caged _ _ _ _ _ _ H) as (g & Hg). unfold istep in H. rewrite Hg in H. unfold cond_op in H. rewrite (hf_cv g h Hg).
  destruct (slot (c_cv g) h); injection H as _ <-; done.
Qed.
Lemma hf_wait h mh host : istep chk x c (CvWait h mh host) = Done (x', r) ->
  r = IRet (match condvars tr !! (c, h), mutexes tr !! (c, mh) with Some _, Some _ => host | _, _ => err EBADF end).
Proof.
  intros H. destruct (step_caged _ _ _ _ _ _ H) as (g & Hg). unfold istep in H. rewrite Hg in H. unfold cond_op in H.
  rewrite (hf_cv g h Hg), (hf_mut g mh Hg).
  destruct (slot (c_cv g) h); [|injection H as _ <-; done]. destruct (slot (c_mut g) mh); injection H as _ <-; done.
Qed.
End HandleFacts.
