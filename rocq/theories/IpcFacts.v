(** What the calls return, read off the invariant. *)
From Verif Require Import Base SemModel IpcModel IpcSpec IpcProofs IpcShm.
Local Open Scope Z_scope.

Lemma step_caged chk x c o x' r : istep chk x c o = Done (x', r) -> exists g, x_cage x !! c = Some g.
Proof. unfold istep. destruct (x_cage x !! c); [eauto|discriminate]. Qed.

Section Facts.
Context (chk : bool) (tr : list iev) (x : ipc) (Hr : irun chk tr x) (Hm : maps_ok tr).
Let HI : xinv x (attached tr) (existing tr) := run_inv chk tr x Hr Hm.

Lemma f_existing z : In z (existing tr) -> exists s, x_seg x !! z_id z = Some s /\ g_key s = z_key z /\ g_size s = z_size z /\
   g_segsz s = to_u32 (z_size z) /\ SHMMIN <= g_segsz s <= SHMMAX /\ g_nattch s = attach_count tr (z_id z) /\ z_key z <> 0.
Proof.
  intros Hz. apply (x_S x _ _ HI) in Hz as (s & H1 & H2 & H3 & H4). exists s.
  destruct (h_sz _ _ _ _ _ _ HI _ _ (x_strip x _ _ H1)) as (E1 & E2 & E3). cbn in E1, E2, E3.
  destruct (x_cnt x _ _ HI _ _ H1) as [E4 _]. rewrite <- H2, <- H3. done.
Qed.
Lemma f_gone id : (forall z, In z (existing tr) -> z_id z <> id) -> x_seg x !! id = None.
Proof.
  intros Hz. destruct (x_seg x !! id) as [s|] eqn:E; [|done]. exfalso.
  apply (Hz (Sseg id (g_key s) (g_size s) (g_rmid s))); [|done]. apply (x_S x _ _ HI). exists s. done.
Qed.
Lemma f_case id : (exists z, In z (existing tr) /\ z_id z = id) \/ (forall z, In z (existing tr) -> z_id z <> id).
Proof.
  destruct (existsb (fun z => z_id z =? id) (existing tr)) eqn:E.
  - apply existsb_exists in E as (z & Hz & E). apply Z.eqb_eq in E. left. eauto.
  - right. intros z Hz He. rewrite (proj2 (existsb_exists _ _)) in E; [discriminate E|]. exists z. split; [done|].
    apply Z.eqb_eq. done.
Qed.

Lemma f_stat c id x' r : istep chk x c (Shmctl id IPC_STAT) = Done (x', r) ->
  x' = x /\
  ((forall z, In z (existing tr) -> z_id z <> id) /\ r = IRet (err EINVAL) \/
   exists z mode, In z (existing tr) /\ z_id z = id /\ r = IStat (z_key z) (to_u32 (z_size z)) (attach_count tr id) mode).
Proof.
  intros H. destruct (step_caged _ _ _ _ _ _ H) as (g & Hg). unfold istep in H. rewrite Hg in H. unfold shmctl in H.
  destruct (f_case id) as [(z & Hz & Hid)|Hno].
  - destruct (f_existing z Hz) as (s & H1 & H2 & H3 & H4 & _ & H5 & _). rewrite <- Hid in H. rewrite H1 in H.
    injection H as <- <-. split; [done|]. right. exists z, (g_mode s). rewrite H2, H4, H5, Hid. done.
  - rewrite (f_gone id Hno) in H. injection H as <- <-. split; [done|]. left. done.
Qed.

Lemma f_detach c a x' r : istep chk x c (Shmdt a) = Done (x', r) ->
  r = IRet (err EINVAL) /\ (forall id, ~ In (c, a, id) (attached tr)) \/
  exists id, r = IRet id /\ 0 <= id /\ In (c, a, id) (attached tr).
Proof.
  intros H. destruct (step_caged _ _ _ _ _ _ H) as (g & Hg). unfold istep in H. rewrite Hg in H.
  exact (proj1 (shmdt_inv x _ _ HI chk c g a x' r Hg H)).
Qed.

Lemma f_attach c id a pick x' r : page_ok a = true -> istep chk x c (Shmat id a pick false) = Done (x', r) ->
  (forall z, In z (existing tr) -> z_id z <> id) /\ r = IRet (err EINVAL) \/
  (exists z, In z (existing tr) /\ z_id z = id) /\ r = IRet (to_i32 a).
Proof.
  intros Hp H. destruct (step_caged _ _ _ _ _ _ H) as (g & Hg). unfold istep in H. rewrite Hg in H.
  destruct (f_case id) as [(z & Hz & Hid)|Hno].
  - right. split; [eauto|]. destruct (f_existing z Hz) as (s & H1 & _). rewrite Hid in H1.
    destruct (shmat_shape x _ _ _ _ _ _ _ _ _ _ Hg H1 H) as [-> _]. rewrite Hp. done.
  - left. split; [done|]. unfold shmat in H. rewrite (f_gone id Hno) in H. injection H as _ <-. done.
Qed.

Lemma f_unique z1 z2 : In z1 (existing tr) -> In z2 (existing tr) -> (z_id z1 = z_id z2 \/ z_key z1 = z_key z2) -> z1 = z2.
Proof.
  intros H1 H2 E. apply (x_S x _ _ HI) in H1 as (s1 & A1 & A2 & A3 & A4).
  apply (x_S x _ _ HI) in H2 as (s2 & B1 & B2 & B3 & B4).
  assert (Hid : z_id z1 = z_id z2).
  { destruct E as [E|E]; [done|].
    assert (K1 : x_key x !! z_key z1 = Some (z_id z1)) by (apply (x_keybij x _ _ HI); eauto).
    assert (K2 : x_key x !! z_key z2 = Some (z_id z2)) by (apply (x_keybij x _ _ HI); eauto). congruence. }
  rewrite Hid, B1 in A1. injection A1 as <-. destruct z1, z2. cbn in *. subst. done.
Qed.
Lemma f_key k : (exists z, In z (existing tr) /\ z_key z = k /\ x_key x !! k = Some (z_id z)) \/
  ((forall z, In z (existing tr) -> z_key z <> k) /\ x_key x !! k = None).
Proof.
  destruct (x_key x !! k) as [id|] eqn:E.
  - left. destruct (proj1 (x_keybij x _ _ HI k id) E) as (s & H1 & H2).
    exists (Sseg id (g_key s) (g_size s) (g_rmid s)). split; [apply (x_S x _ _ HI); exists s; done|]. done.
  - right. split; [|done]. intros z Hz Hk. apply (x_S x _ _ HI) in Hz as (s & H1 & H2 & _).
    assert (K1 : x_key x !! k = Some (z_id z)) by (apply (x_keybij x _ _ HI); exists s; split; congruence). congruence.
Qed.
End Facts.

(** Identifiers given out are below the next one, and never belong to another key. *)
Lemma snoc_in {A} (a : A) l (P : A -> Prop) : (exists e, In e (l ++ [a]) /\ P e) -> (exists e, In e l /\ P e) \/ P a.
Proof. intros (e & H & HP). apply in_app_or in H as [H|[<-|[]]]; eauto. Qed.


(** [P]: what is asked of the segments: [key] keeps the key, [offs] keeps an empty list of offsets. *)
Definition grow (P : seg -> seg -> Prop) (x x' : ipc) : Prop :=
  x_next x <= x_next x' /\
  forall id s', x_seg x' !! id = Some s' -> (exists s, x_seg x !! id = Some s /\ P s s') \/ (x_next x <= id /\ P s' s' /\ g_offs s' = []).
Definition PK (s s' : seg) : Prop := g_key s' = g_key s.
Definition PO (s s' : seg) : Prop := g_key s' = g_key s /\ g_offs s' = g_offs s.

Section Grow.
Context (P : seg -> seg -> Prop) (P1 : forall s, P s s) (P2 : forall s1 s2 s3, P s1 s2 -> P s2 s3 -> P s1 s3)
  (P3 : forall s n m, P s (with_att n m s)) (P4 : forall s m b, P s (Seg (g_key s) (g_size s) (g_segsz s) m b (g_nattch s) (g_att s) (g_offs s))).

Lemma grow_refl x x' : x_seg x' = x_seg x -> x_next x' = x_next x -> grow P x x'.
Proof. intros E1 E2. split; [lia|]. intros id s' H. rewrite E1 in H. left. eauto. Qed.
Lemma grow_upd x y id s n m : grow P x y -> x_seg y !! id = Some s -> grow P x (set_seg <[id := with_att n m s]> y).
Proof.
  intros [H1 H2] Hs. split; [exact H1|]. intros i s' Hi. cbn in Hi. destruct (decide (id = i)) as [<-|Hne].
  - rewrite lookup_insert in Hi. injection Hi as <-. destruct (H2 _ _ Hs) as [(s1 & H3 & H4)|(H3 & H4 & H5)].
    + left. exists s1. split; [done|]. apply (P2 _ _ _ H4). apply P3.
    + right. split; [done|]. split; [apply P1|done].
  - rewrite lookup_insert_ne in Hi by done. exact (H2 _ _ Hi).
Qed.
Lemma grow_del x y id k : grow P x y -> grow P x (set_key (delete k) (set_seg (delete id) y)).
Proof.
  intros [H1 H2]. split; [exact H1|]. intros i s' Hi. cbn in Hi. apply lookup_delete_Some in Hi as [_ Hi]. exact (H2 _ _ Hi).
Qed.
Lemma grow_cage x y f : grow P x y -> grow P x (set_cage f y).
Proof. intros [H1 H2]. split; [exact H1|exact H2]. Qed.

Lemma grow_step chk x c o x' r : istep chk x c o = Done (x', r) -> 
  (forall h ps v, o = SemInit h ps v -> forall s l, P s (with_offs l s)) \/ (forall h ps v, o = SemInit h ps v -> ps = 0) ->
  grow P x x'.
Proof.
  intros H Hsi. destruct (step_caged _ _ _ _ _ _ H) as (g & Hg). unfold istep in H. rewrite Hg in H.
  pose proof (grow_refl x x eq_refl eq_refl) as Hrefl.
  destruct o.
  - unfold shmget in H. destruct (key =? IPC_PRIVATE); [injection H as <- _; exact Hrefl|].
    destruct (x_key x !! key) as [id|].
    + destruct (_ =? _) in H; injection H as <- _; exact Hrefl.
    + destruct (Z.land flg IPC_CREAT =? 0); [injection H as <- _; exact Hrefl|].
      destruct ((to_u32 size <? SHMMIN) || (SHMMAX <? to_u32 size)); [injection H as <- _; exact Hrefl|].
      destruct (2 ^ 63 <=? size); [discriminate H|]. injection H as <- _. split; [cbn; lia|].
      cbn. intros i s' Hi. destruct (decide (x_next x = i)) as [<-|Hne].
      * rewrite lookup_insert in Hi. injection Hi as <-. right. split; [lia|]. split; [apply P1|done].
      * rewrite lookup_insert_ne in Hi by done. left. eauto.
  - unfold shmat in H. destruct (x_seg x !! id) as [s|] eqn:Es; [|injection H as <- _; exact Hrefl]. cbv zeta in H.
    set (x1 := set_cage _ x) in H.
    match type of H with obind ?e _ = _ => destruct e as [x2|] eqn:Ec; [|discriminate H] end.
    cbn [obind] in H. injection H as <- _.
    assert (Hx2 : semonly x1 x2).
    { destruct (g_offs s) as [|o l] eqn:Eo; [injection Ec as <-; done|].
      destruct (first_cage (g_att s) pick) as [c2|]; [|injection Ec as <-; done].
      destruct (x_cage x1 !! c2) as [g2|]; [|discriminate Ec].
      destruct (addrs_of (c_rev g2) id) as [|a0 ar]; [discriminate Ec|].
      refine (ofold_inv (semonly x1) _ _ _ _ _ _ Ec); [|done].
      intros y off y2 Hy H2. destruct (add32 chk a0 off) as [b|]; [|discriminate H2]. cbn [obind] in H2.
      destruct (x_cage y !! c2) as [g2'|]; [|discriminate H2].
      destruct (c_sem g2' !! b) as [ob|]; [|discriminate H2].
      destruct (add32 chk addr off) as [b2|]; [|discriminate H2]. cbn [obind] in H2.
      destruct (x_cage y !! c) as [g'|] eqn:Ey; [|discriminate H2]. injection H2 as <-.
      apply semonly_put; [done|]. exists g'. done. }
    destruct Hx2 as (E1 & E2 & E3 & _). apply grow_upd; [apply grow_refl; done|]. rewrite E1. exact Es.
  - unfold shmdt in H. destruct (index_of (c_rev g) addr) as [i|]; [|injection H as <- _; exact Hrefl].
    destruct (c_rev g !! i) as [[a id]|]; [|discriminate H].
    destruct (x_seg x !! id) as [s|] eqn:Es; [|discriminate H].
    match type of H with obind ?e0 _ = _ => destruct e0 as [t|]; [|discriminate H] end. cbn [obind] in H.
    destruct (g_att s !! c) as [n|]; [|discriminate H].
    destruct (g_rmid s && (g_nattch s - 1 =? 0)); injection H as <- _.
    + apply grow_del, grow_cage. exact Hrefl.
    + apply grow_upd; [apply grow_cage; exact Hrefl|exact Es].
  - unfold shmctl in H. destruct (x_seg x !! id) as [s|] eqn:Es; [|injection H as <- _; exact Hrefl].
    destruct (cmd =? IPC_STAT); [injection H as <- _; exact Hrefl|].
    destruct (cmd =? IPC_RMID); [|injection H as <- _; exact Hrefl].
    destruct (g_nattch s =? 0); injection H as <- _; [apply grow_del; exact Hrefl|].
    split; [cbn; lia|]. cbn. intros i s' Hi. destruct (decide (id = i)) as [<-|Hne].
    + rewrite lookup_insert in Hi. injection Hi as <-. left. exists s. split; [done|]. apply P4.
    + rewrite lookup_insert_ne in Hi by done. left. eauto.
  - unfold ifork in H. destruct (renew (x_obj x) (c_mut g)) as [muts n1]. destruct (renew n1 (c_cv g)) as [cvs n2].
    destruct (ofold (fork_one c ch) (c_rev g) x) as [x1|] eqn:Ef; [|discriminate H]. cbn [obind] in H. injection H as <- _.
    assert (Hx1 : grow P x x1).
    { refine (ofold_inv (grow P x) _ _ _ _ _ Hrefl Ef). intros y p y2 Hy H2. unfold fork_one in H2.
      destruct (x_seg y !! p.2) as [s|] eqn:Es; [|discriminate H2]. destruct (g_att s !! c); [|discriminate H2].
      injection H2 as <-. apply grow_upd; done. }
    exact Hx1.
  - unfold iexec in H. destruct (ofold (unmap_one c) (c_rev g) (set_cage (delete c) x)) as [x1|] eqn:Ef; [|discriminate H].
    cbn [obind] in H. injection H as <- _. apply grow_cage.
    refine (ofold_inv (grow P x) _ _ _ _ _ (grow_cage _ _ _ Hrefl) Ef). intros y p y2 Hy H2. unfold unmap_one in H2.
    destruct (x_seg y !! p.2) as [s|] eqn:Es; [|discriminate H2].
    destruct (g_rmid s && (g_nattch s - 1 =? 0)); injection H2 as <-; [apply grow_del|apply grow_upd]; done.
  - unfold iexit in H. destruct (ofold (unmap_one c) (c_rev g) x) as [x1|] eqn:Ef; [|discriminate H].
    cbn [obind] in H. injection H as <- _. apply grow_cage.
    refine (ofold_inv (grow P x) _ _ _ _ _ Hrefl Ef). intros y p y2 Hy H2. unfold unmap_one in H2.
    destruct (x_seg y !! p.2) as [s|] eqn:Es; [|discriminate H2].
    destruct (g_rmid s && (g_nattch s - 1 =? 0)); injection H2 as <-; [apply grow_del|apply grow_upd]; done.
  - unfold sem_init in H. destruct (SEM_VALUE_MAX <? v); [injection H as <- _; exact Hrefl|].
    destruct (c_sem g !! h); [injection H as <- _; exact Hrefl|].
    set (x1 := set_cage _ _) in H. assert (H1 : grow P x x1) by (apply grow_refl; done).
    destruct (negb (pshared =? 0)) eqn:Eps; [|injection H as <- _; done].
    destruct (region_of chk x1 (c_rev g) h) as [[[m id]|]|]; cbn [obind] in H; [|injection H as <- _; done|discriminate H].
    destruct (sub32 chk m h) as [off|]; [|discriminate H]. cbn [obind] in H.
    destruct (x_seg x1 !! id) as [s|] eqn:Es; [|injection H as <- _; done].
    destruct (spread _ _ _ _ _ x1) as [x2|] eqn:E2; [|discriminate H]. cbn [obind] in H. injection H as <- _.
    destruct Hsi as [Hsi|Hsi]; [|rewrite (Hsi _ _ _ eq_refl) in Eps; discriminate Eps].
    apply spread_semonly in E2 as (E3 & _ & E5 & _). split; [cbn; rewrite E5; done|].
    cbn. rewrite E3. intros i s' Hi. destruct (decide (id = i)) as [<-|Hne].
    + rewrite lookup_insert in Hi. injection Hi as <-. left. exists s. split; [exact Es|].
      exact (Hsi _ _ _ eq_refl s _).
    + rewrite lookup_insert_ne in Hi by done. left. exists s'. split; [exact Hi|apply P1].
  - unfold sem_wait in H. destruct (sem_at x g h) as [[o so]|]; [|injection H as <- _; exact Hrefl].
    destruct (o_val so =? 0); injection H as <- _; exact Hrefl.
  - unfold sem_try in H. destruct (sem_at x g h) as [[o so]|]; [|injection H as <- _; exact Hrefl].
    destruct (o_val so =? 0); injection H as <- _; exact Hrefl.
  - unfold sem_post in H. destruct (sem_at x g h) as [[o so]|]; [|injection H as <- _; exact Hrefl].
    destruct (o_val so <? SEM_VALUE_MAX); injection H as <- _; exact Hrefl.
  - unfold sem_get in H. destruct (sem_at x g h) as [[o so]|]; injection H as <- _; exact Hrefl.
  - unfold sem_destroy in H. destruct (sem_at x g h) as [[o so]|]; [|injection H as <- _; exact Hrefl].
    set (x1 := set_cage _ _) in H. assert (H1 : grow P x x1) by (apply grow_refl; done).
    destruct (o_shared so); [|injection H as <- _; done].
    destruct (region_of chk x1 (c_rev g) h) as [[[m id]|]|]; cbn [obind] in H; [|injection H as <- _; done|discriminate H].
    destruct (sub32 chk m h) as [off|]; [|discriminate H]. cbn [obind] in H.
    destruct (x_seg x1 !! id) as [s|] eqn:Es; [|injection H as <- _; done].
    destruct (spread _ _ _ _ _ x1) as [x2|] eqn:E2; [|discriminate H]. cbn [obind] in H. injection H as <- _.
    apply spread_semonly in E2 as (E3 & _ & E5 & _). apply grow_refl; [rewrite E3|rewrite E5]; done.
  - injection H as <- _. exact Hrefl.
  - destruct (slot (c_mut g) h); injection H as <- _; exact Hrefl.
  - unfold mutex_op in H. destruct (slot (c_mut g) h) as [k|]; [|injection H as <- _; exact Hrefl].
    destruct o; [destruct (default false (x_lock x !! k))|destruct (default false (x_lock x !! k))|]; injection H as <- _; exact Hrefl.
  - injection H as <- _. exact Hrefl.
  - destruct (slot (c_cv g) h); injection H as <- _; exact Hrefl.
  - unfold cond_op in H. destruct (slot (c_cv g) h); injection H as <- _; exact Hrefl.
  - unfold cond_op in H. destruct (slot (c_cv g) h); [|injection H as <- _; exact Hrefl].
    destruct (slot (c_mut g) m); injection H as <- _; exact Hrefl.
Qed.
End Grow.

Lemma grow_key chk x c o x' r : istep chk x c o = Done (x', r) -> grow PK x x'.
Proof.
  intros H. refine (grow_step PK _ _ _ _ chk x c o x' r H _); try done.
  - intros s1 s2 s3 E1 E2. unfold PK in *. congruence.
  - left. done.
Qed.

Lemma no_offs chk tr x : irun chk tr x -> noshared tr -> forall id s, x_seg x !! id = Some s -> g_offs s = [].
Proof.
  induction 1 as [|tr x c o x' r Hr IH Hok Hs]; intros Hn id s Hi.
  { cbn in Hi. rewrite lookup_empty in Hi. discriminate Hi. }
  apply Forall_app in Hn as [Hn1 Hn2]. apply Forall_cons in Hn2 as [Hn2 _].
  assert (HG : grow PO x x').
  { refine (grow_step PO _ _ _ _ chk x c o x' r Hs _); try done.
    - intros s1 s2 s3 [E1 E2] [E3 E4]. unfold PO. split; congruence.
    - right. intros h ps v ->. exact Hn2. }
  destruct HG as [_ HG]. destruct (HG _ _ Hi) as [(s0 & H1 & _ & H2)|(_ & _ & H2)]; [|exact H2].
  rewrite H2. exact (IH Hn1 _ _ H1).
Qed.

(** ** Identifiers over time *)
Lemma shmget_ret chk tr x c k n f x' r : irun chk tr x -> maps_ok tr -> istep chk x c (Shmget k n f) = Done (x', IRet r) -> 0 <= r ->
  (exists z, In z (existing tr) /\ z_key z = k /\ z_id z = r /\ x' = x) \/
  (x_key x !! k = None /\ r = x_next x /\ x_next x' = x_next x + 1 /\ exists s, x_seg x' !! r = Some s /\ g_key s = k).
Proof.
  intros Hr Hm H H0. destruct (step_caged _ _ _ _ _ _ H) as (g & Hg). unfold istep in H. rewrite Hg in H. unfold shmget in H.
  destruct (k =? IPC_PRIVATE); [injection H as _ <-; unfold err, ENOENT in H0; lia|].
  destruct (f_key chk tr x Hr Hm k) as [(z & Hz & Hk & E)|[_ E]]; rewrite E in H.
  - destruct (_ =? _) in H; injection H as <- <-; [unfold err, EEXIST in H0; lia|]. left. exists z. done.
  - destruct (Z.land f IPC_CREAT =? 0); [injection H as _ <-; unfold err, ENOENT in H0; lia|].
    destruct ((to_u32 n <? SHMMIN) || (SHMMAX <? to_u32 n)); [injection H as _ <-; unfold err, EINVAL in H0; lia|].
    destruct (2 ^ 63 <=? n); [discriminate H|]. injection H as <- <-. right. split; [done|]. split; [done|]. split; [done|].
    cbn. rewrite lookup_insert. eexists. split; done.
Qed.

Lemma given_inv chk tr x : irun chk tr x -> maps_ok tr -> forall k r, given tr k r ->
  r < x_next x /\ forall s, x_seg x !! r = Some s -> g_key s = k.
Proof.
  induction 1 as [|tr x c o x' r0 Hr IH Hok Hs]; intros Hm k r HG.
  { destruct HG as (e & _ & _ & [] & _). }
  apply Forall_app in Hm as [Hm1 _].
  assert (Hgive : given tr k r -> r < x_next x' /\ forall s, x_seg x' !! r = Some s -> g_key s = k).
  { intros HG1. destruct (IH Hm1 k r HG1) as [H1 H2]. destruct (grow_key _ _ _ _ _ _ Hs) as [G1 G2]. split; [lia|].
    intros s Hi. destruct (G2 _ _ Hi) as [(s0 & H3 & H4)|(H3 & _)]; [|lia]. rewrite H4. exact (H2 _ H3). }
  destruct HG as (e & n & f & Hin & E1 & E2 & E3). apply in_app_or in Hin as [Hin|[<-|[]]].
  { apply Hgive. exists e, n, f. done. }
  cbn in E1, E2. subst o r0.
  destruct (shmget_ret _ _ _ _ _ _ _ _ _ Hr Hm1 Hs E3) as [(z & Hz & Hk & Hid & ->)|(_ & -> & E4 & s & Es & Ek)].
  - destruct (f_existing chk tr x Hr Hm1 z Hz) as (s & H1 & H2 & _). rewrite Hid in H1.
    pose proof (x_id x _ _ (run_inv _ _ _ Hr Hm1) _ _ H1). split; [lia|]. intros s' Hs'. congruence.
  - split; [lia|]. intros s' Hs'. congruence.
Qed.

Lemma given_handed tr r : handed tr r <-> exists k, given tr k r.
Proof.
  split.
  - intros (e & k & n & f & H). exists k, e, n, f. exact H.
  - intros (k & e & n & f & H). exists e, k, n, f. exact H.
Qed.

Lemma fresh_id chk tr c k n f r x : irun chk (tr ++ [Iev c (Shmget k n f) (IRet r)]) x -> maps_ok tr -> 0 <= r ->
  (forall z, In z (existing tr) -> z_id z <> r) -> ~ handed tr r.
Proof.
  intros Hr Hm H0 Hz. inversion Hr as [E|tr1 x1 c1 o1 x2 r1 Hr1 Hok Hs E]; [destruct tr; discriminate|].
  apply app_inj_tail in E as [-> E]. injection E as -> -> ->. subst.
  intros HH. apply given_handed in HH as (k' & HG).
  destruct (shmget_ret _ _ _ _ _ _ _ _ _ Hr1 Hm Hs H0) as [(z & Hz1 & Hk & Hid & _)|(_ & -> & _)].
  - exact (Hz z Hz1 Hid).
  - pose proof (given_inv _ _ _ Hr1 Hm _ _ HG). lia.
Qed.

Lemma one_key chk tr x k1 k2 r : irun chk tr x -> maps_ok tr -> given tr k1 r -> given tr k2 r -> k1 = k2.
Proof.
  intros Hr. revert k1 k2 r. induction Hr as [|tr x c o x' r0 Hr IH Hok Hs]; intros k1 k2 r Hm H1 H2.
  { destruct H1 as (e & _ & _ & [] & _). }
  apply Forall_app in Hm as [Hm1 _].
  assert (Hnew : forall k, given (tr ++ [Iev c o r0]) k r -> given tr k r \/ (exists n f, o = Shmget k n f /\ r0 = IRet r /\ 0 <= r)).
  { intros k (e & n & f & Hin & E1 & E2 & E3). apply in_app_or in Hin as [Hin|[<-|[]]].
    - left. exists e, n, f. done.
    - right. cbn in *. eauto. }
  assert (Hmix : forall k k', given tr k r -> (exists n f, o = Shmget k' n f /\ r0 = IRet r /\ 0 <= r) -> k = k').
  { intros k k' HG (n & f & -> & -> & H0). destruct (given_inv _ _ _ Hr Hm1 _ _ HG) as [G1 G2].
    destruct (shmget_ret _ _ _ _ _ _ _ _ _ Hr Hm1 Hs H0) as [(z & Hz & Hk & Hid & _)|(_ & E & _)]; [|lia].
    destruct (f_existing chk tr x Hr Hm1 z Hz) as (s & H3 & H4 & _). rewrite Hid in H3. rewrite <- (G2 _ H3). congruence. }
  destruct (Hnew _ H1) as [G1|G1], (Hnew _ H2) as [G2|G2].
  - exact (IH _ _ _ Hm1 G1 G2).
  - exact (Hmix _ _ G1 G2).
  - symmetry. exact (Hmix _ _ G2 G1).
  - destruct G1 as (n & f & -> & _), G2 as (n2 & f2 & E & _). congruence.
Qed.

(** ** Nothing panics as long as no semaphore is process-shared *)
Lemma unmap_total c l : forall x, (forall id, 0 < nrow id l -> exists s, x_seg x !! id = Some s /\ nrow id l <= g_nattch s) ->
  exists x1, ofold (unmap_one c) l x = Done x1.
Proof.
  induction l as [|[a id0] l IH]; intros x Hc; [exists x; done|]. cbn [ofold].
  assert (Hnrow : forall id, nrow id ((a, id0) :: l) = (if id0 =? id then 1 else 0) + nrow id l) by (intros id; apply nrow_cons).
  destruct (Hc id0) as (s0 & E0 & Hle); [rewrite Hnrow, Z.eqb_refl; pose proof (nrow_nn id0 l); lia|].
  rewrite Hnrow, Z.eqb_refl in Hle. unfold unmap_one at 1. cbn [snd]. rewrite E0.
  destruct (g_rmid s0 && (g_nattch s0 - 1 =? 0)) eqn:Eb; cbn [obind]; apply IH; cbn; intros id Hp.
  - apply andb_prop in Eb as [_ En]. apply Z.eqb_eq in En. destruct (decide (id0 = id)) as [<-|Hne]; [lia|].
    rewrite lookup_delete_ne by done. specialize (Hc id). rewrite Hnrow, (proj2 (Z.eqb_neq id0 id)) in Hc by done. exact (Hc Hp).
  - destruct (decide (id0 = id)) as [<-|Hne].
    + rewrite lookup_insert. eexists. split; [done|]. cbn. lia.
    + rewrite lookup_insert_ne by done. specialize (Hc id). rewrite Hnrow, (proj2 (Z.eqb_neq id0 id)) in Hc by done. exact (Hc Hp).
Qed.
Lemma fork_total c ch l : c <> ch -> forall x, (forall id, 0 < nrow id l -> exists s n, x_seg x !! id = Some s /\ g_att s !! c = Some n) ->
  exists x1, ofold (fork_one c ch) l x = Done x1.
Proof.
  intros Hcc. induction l as [|[a id0] l IH]; intros x Hc; [exists x; done|]. cbn [ofold].
  assert (Hnrow : forall id, nrow id ((a, id0) :: l) = (if id0 =? id then 1 else 0) + nrow id l) by (intros id; apply nrow_cons).
  destruct (Hc id0) as (s0 & n & E0 & En); [rewrite Hnrow, Z.eqb_refl; pose proof (nrow_nn id0 l); lia|].
  unfold fork_one at 1. cbn [snd]. rewrite E0, En. cbn [obind]. apply IH. cbn. intros id Hp.
  destruct (decide (id0 = id)) as [<-|Hne].
  - rewrite lookup_insert. eexists. exists n. split; [done|]. cbn. rewrite lookup_insert_ne by done. exact En.
  - rewrite lookup_insert_ne by done. apply Hc. rewrite Hnrow, (proj2 (Z.eqb_neq id0 id)) by done. exact Hp.
Qed.

Lemma shm_total chk tr x c g o : irun chk tr x -> maps_ok tr -> noshared tr -> x_cage x !! c = Some g -> iok x c o -> shm_op o = true ->
  (forall k n f, o = Shmget k n f -> n < 2 ^ 63) -> exists x' r, istep chk x c o = Done (x', r).
Proof.
  intros Hr Hm Hn Hg Hok Ho Hsz. pose proof (run_inv _ _ _ Hr Hm) as HI. pose proof (no_offs _ _ _ Hr Hn) as Hoff.
  assert (Hrow : forall k, nrow k (c_rev g) = ncs c k (attached tr)).
  { intros k. rewrite <- nrow_rows. apply num_perm. exact (x_rev x _ _ HI _ _ Hg). }
  assert (Hmem : forall k, 0 < ncs c k (attached tr) -> exists s, x_seg x !! k = Some s /\ ncs c k (attached tr) <= g_nattch s /\ g_att s !! c = Some (ncs c k (attached tr))).
  { intros k Hp. destruct (proj1 (num_pos _ _) Hp) as (p & Hp1 & Hp2). apply andb_prop in Hp2 as [_ Hp2]. apply Z.eqb_eq in Hp2.
    destruct (x_in x _ _ HI p Hp1) as (s & Hs). rewrite Hp2 in Hs. exists s. split; [done|].
    destruct (x_cnt x _ _ HI _ _ Hs) as [-> E]. split; [apply ncs_le|]. rewrite E. unfold optn.
    rewrite (proj2 (Z.eqb_neq (ncs c k (attached tr)) 0)) by lia. done. }
  unfold istep. rewrite Hg. destruct o; try discriminate Ho.
  - unfold shmget. destruct (key =? IPC_PRIVATE); [eauto|]. destruct (x_key x !! key).
    + destruct (_ =? _); eauto.
    + destruct (Z.land flg IPC_CREAT =? 0); [eauto|].
      destruct ((to_u32 size <? SHMMIN) || (SHMMAX <? to_u32 size)); [eauto|].
      rewrite (proj2 (Z.leb_gt (2 ^ 63) size)) by exact (Hsz _ _ _ eq_refl). eauto.
  - unfold shmat. destruct (x_seg x !! id) as [s|] eqn:Es; [|eauto]. rewrite (Hoff _ _ Es). cbn [obind]. eauto.
  - unfold shmdt. destruct (index_of (c_rev g) addr) as [i|] eqn:Ei; [|eauto].
    destruct (index_of_some _ _ _ Ei) as (id & Hi). rewrite Hi.
    assert (Hp : 0 < ncs c id (attached tr)).
    { rewrite <- Hrow. apply num_pos. exists (addr, id). split; [|apply Z.eqb_refl].
      apply elem_of_list_In. exact (elem_of_list_lookup_2 _ _ _ Hi). }
    destruct (Hmem id Hp) as (s & Hs & _ & Ha). rewrite Hs, (Hoff _ _ Hs), Ha. cbn [ofold obind]. eauto.
  - unfold shmctl. destruct (x_seg x !! id) as [s|]; [|eauto]. destruct (cmd =? IPC_STAT); [eauto|].
    destruct (cmd =? IPC_RMID); [|eauto]. destruct (g_nattch s =? 0); eauto.
  - unfold ifork. destruct (renew (x_obj x) (c_mut g)) as [muts n1]. destruct (renew n1 (c_cv g)) as [cvs n2].
    destruct (fork_total c ch (c_rev g) ltac:(cbn in Hok; congruence) x) as (x1 & ->); [|cbn [obind]; eauto].
    intros id Hp. rewrite Hrow in Hp. destruct (Hmem id Hp) as (s & Hs & _ & Ha). eauto.
  - unfold iexec. destruct (unmap_total c (c_rev g) (set_cage (delete c) x)) as (x1 & ->); [|cbn [obind]; eauto].
    intros id Hp. rewrite Hrow in *. destruct (Hmem id Hp) as (s & Hs & Hle & _). eauto.
  - unfold iexit. destruct (unmap_total c (c_rev g) x) as (x1 & ->); [|cbn [obind]; eauto].
    intros id Hp. rewrite Hrow in *. destruct (Hmem id Hp) as (s & Hs & Hle & _). eauto.
Qed.
