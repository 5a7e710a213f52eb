(** Rights, coherence and answers of mapped memory. *)
From Verif Require Import Base CodecModel PathModel PathSpec PathProofs FsModel FsBoot FsSpec FsWalk FsNames Count FsTr FsInv FsSteps FsWinv FsReachSpec MapModel MapSpec MapProofs1 MapProofs2.
Local Open Scope list_scope.
Local Open Scope Z_scope.
Opaque all_fds next_fd.

(** ** Descriptors on files *)
Lemma open_fd w c fd i p fl : winv w -> w_fds w !! (c, fd) = Some (FFile i p fl) ->
  exists x, w_ino w !! i = Some x /\ (i_kind x = KFile -> w_fobj w !! i = Some (i_size x)).
Proof.
  intros Hw Hfd. destruct (r_fd _ _ (v_r _ (u_inv _ Hw)) _ _ _ _ Hfd) as [x Hx]. exists x. split; [exact Hx|]. intros Hk.
  destruct (file_data _ _ _ Hw Hx Hk) as (b & _ & _ & ->). pose proof (r_ref _ _ (v_r _ (u_inv _ Hw)) _ _ Hx) as Hr.
  assert (Hn : 0 < nfds (w_fds w) i). { unfold nfds. apply cnt_pos. exists (c, fd), (FFile i p fl). split; [exact Hfd|]. unfold onfile. cbn. apply Z.eqb_refl. }
  destruct Hr as [Hr _]. destruct Hr as [Hr _]; [rewrite Hk; discriminate|]. cbn [core_of k_fds] in Hr. destruct (Z.ltb_spec 0 (i_ref x)); [reflexivity|lia].
Qed.

(** ** Rights *)
Lemma store_rights past s a v s' x i : mreach past s -> mstep s (Store a v) = Done (s', x) -> file_bytes (s_w s') i <> file_bytes (s_w s) i ->
  exists pos b, granted past a i pos /\ file_bytes (s_w s) i = Some b /\ 0 <= pos < Z.of_nat (length b) /\ file_bytes (s_w s') i = Some (<[Z.to_nat pos := v]> b).
Proof.
  intros Hr H Hne. apply mreach_minv in Hr as Hi. cbn [mstep] in H. destruct (store s a v) as [s1 y] eqn:E. injection H as <- _. cbn [fst] in *.
  destruct (store_cases _ _ _ _ _ (n_w _ _ Hi) E) as (_ & _ & _ & [->|[(m & j & off & b & Hm & Hb & Hpr & Hd & Hl & ->)|[(E1 & _)|(E1 & _)]]]);
    [congruence| |rewrite E1 in Hne; congruence|rewrite E1 in Hne; congruence].
  apply mapping_at_in in Hm as [Hm Hx]. destruct (n_lo _ _ Hi m Hm) as [Ho _]. rewrite Hb in Ho.
  unfold file_bytes in *. cbn in Hne |- *. destruct (decide (j = i)) as [->|Hj]; [|rewrite lookup_alter_ne in Hne by congruence; congruence].
  rewrite lookup_alter, Hd. cbn. exists (off + (a - m_lo m)), b. split; [exact (n_grant _ _ Hi m i _ off a Hm Hb Hpr Hx)|]. split; [reflexivity|]. split; [lia|]. f_equal. apply write_at_in. lia.
Qed.
Lemma store_frame past s a v s' x : mreach past s -> mstep s (Store a v) = Done (s', x) ->
  same_but_bytes (s_w s) (s_w s') /\
  (forall i b, file_bytes (s_w s) i = Some b -> exists b', file_bytes (s_w s') i = Some b' /\ length b' = length b) /\
  (forall i j, file_bytes (s_w s') i <> file_bytes (s_w s) i -> file_bytes (s_w s') j <> file_bytes (s_w s) j -> i = j).
Proof.
  intros Hr H. apply mreach_minv in Hr as Hi. cbn [mstep] in H. destruct (store s a v) as [s1 y] eqn:E. injection H as <- _. cbn [fst] in *.
  assert (G : forall w w', w' = w -> same_but_bytes w w' /\ (forall i b, file_bytes w i = Some b -> exists b', file_bytes w' i = Some b' /\ length b' = length b) /\
     (forall i j, file_bytes w' i <> file_bytes w i -> file_bytes w' j <> file_bytes w j -> i = j)).
  { intros w w' ->. split; [repeat (split; [reflexivity|]); reflexivity|]. split; [eauto|congruence]. }
  destruct (store_cases _ _ _ _ _ (n_w _ _ Hi) E) as (_ & _ & _ & [->|[(m & k & off & b & Hm & Hb & Hpr & Hd & Hl & ->)|[(E1 & _)|(E1 & _)]]]); [apply G; reflexivity| |apply G; exact E1|apply G; exact E1].
  apply mapping_at_in in Hm as [Hm Hx]. destruct (n_lo _ _ Hi m Hm) as [Ho _]. rewrite Hb in Ho.
  split; [repeat (split; [reflexivity|]); reflexivity|]. unfold file_bytes. cbn. split.
  - intros i b' Hb'. destruct (decide (k = i)) as [->|Hn]; [|rewrite lookup_alter_ne by congruence; eauto]. rewrite lookup_alter, Hb'. cbn. eexists. split; [reflexivity|].
    rewrite Hd in Hb'. injection Hb' as <-. transitivity (length (<[Z.to_nat (off + (a - m_lo m)) := v]> b)); [f_equal; apply write_at_in; lia|apply insert_length].
  - intros i j Hi1 Hj. destruct (decide (k = i)) as [<-|]; [|rewrite lookup_alter_ne in Hi1 by congruence; congruence].
    destruct (decide (k = j)) as [<-|]; [reflexivity|rewrite lookup_alter_ne in Hj by congruence; congruence].
Qed.

Lemma id_inj past s m m' : minv past s -> m ∈ s_maps s -> m' ∈ s_maps s -> m_id m = m_id m' -> m = m'.
Proof.
  intros Hi Hm Hm' E. pose proof (n_nodup _ _ Hi) as Hnd. apply elem_of_list_lookup in Hm as [k Hk], Hm' as [k' Hk'].
  assert (k = k'); [|congruence]. eapply NoDup_lookup; [exact Hnd|rewrite list_lookup_fmap, Hk; reflexivity|rewrite list_lookup_fmap, Hk'; cbn; congruence].
Qed.
Lemma content_same s s' i g : s_w s' = s_w s -> s_old s' = s_old s -> s_gen s' = s_gen s -> content s' i g = content s i g.
Proof. intros E1 E2 E3. unfold content, gen. rewrite E1, E2, E3. reflexivity. Qed.
Lemma store_private past s a v s' x m : mreach past s -> mstep s (Store a v) = Done (s', x) -> mapping_at s a = Some m -> (forall i g off, m_back m <> BShared i g off) ->
  s_w s' = s_w s /\ forall b m', mapping_at s b = Some m' -> m' <> m -> load s' b = load s b.
Proof.
  intros Hr H Hm Hns. apply mreach_minv in Hr as Hi. cbn [mstep] in H. destruct (store s a v) as [s1 y] eqn:E. injection H as <- _. cbn [fst] in *.
  destruct (store_cases _ _ _ _ _ (n_w _ _ Hi) E) as (E1 & E2 & _ & [->|[(m1 & k & off & b & Hm1 & Hb & _)|[(_ & _ & m1 & i & g & off & l & Hm1 & Hb & _)|(E3 & E4 & m1 & d & p & Hm1 & E5 & _)]]]);
    [auto|rewrite Hm in Hm1; injection Hm1 as <-; edestruct Hns; exact Hb|rewrite Hm in Hm1; injection Hm1 as <-; edestruct Hns; exact Hb|].
  rewrite Hm in Hm1. injection Hm1 as <-. split; [exact E3|]. intros b m' Hb Hne. unfold load, mapping_at. rewrite E1. fold (mapping_at s b). rewrite Hb.
  destruct (_ =? 0); [reflexivity|].
  assert (K : forall d', s_page s1 !! (m_id m', d') = s_page s !! (m_id m', d')).
  { intros d'. rewrite E5. apply lookup_insert_ne. intros [= Eid _]. apply Hne. symmetry. apply mapping_at_in in Hm as [Hm _], Hb as [Hb _]. exact (id_inj _ _ _ _ Hi Hm Hb Eid). }
  cbv zeta. rewrite !K. destruct (m_back m'); [reflexivity|rewrite (content_same _ _ _ _ E3 E4 E2); reflexivity|rewrite (content_same _ _ _ _ E3 E4 E2); reflexivity].
Qed.

(** ** The page copies have the size of a page *)
Definition pages (s : mstate) : Prop := forall k p, s_page s !! k = Some p -> length p = Z.to_nat PAGE.
Lemma page_of_length l pos : length (page_of l pos) = Z.to_nat PAGE.
Proof. unfold page_of. rewrite app_length, replicate_length, take_length. unfold PAGE. lia. Qed.
Lemma own_page_length s m d p : pages s -> own_page s m d = Some p -> length p = Z.to_nat PAGE.
Proof.
  intros Hp. unfold own_page. destruct (s_page s !! _) as [q|] eqn:E; [intros [= <-]; eauto|].
  assert (L : forall p', Some (replicate (Z.to_nat PAGE) 0) = Some p' -> length p' = Z.to_nat PAGE) by (intros p' E'; apply Some_inj in E'; rewrite <- E', replicate_length; reflexivity).
  destruct (m_back m) as [|i g off|i g off]; [apply L|apply L|].
  assert (N : forall p', (None : option (list Z)) = Some p' -> length p' = Z.to_nat PAGE) by (intros p' E'; discriminate E').
  destruct (byte_at _ _) as [|v| | |]; [apply N| |apply N|apply N|apply N]. destruct (content s i g); [|apply N]. intros E'. apply Some_inj in E'. rewrite <- E'. apply page_of_length.
Qed.
Lemma mreach_pages past s : mreach past s -> pages s.
Proof.
  induction 1 as [|past s o s' x Hr IH H Ht]; [intros k p Hk; change ((∅ : gmap (Z * Z) (list Z)) !! k = Some p) in Hk; rewrite lookup_empty in Hk; discriminate Hk|].
  destruct o as [c o|c addr len prot flags fd off ans|c addr len ans|a|a v].
  - destruct (sys_step _ _ _ _ _ H) as (r & _ & _ & _ & E & _). unfold pages. rewrite E. exact IH.
  - cbn [mstep] in H. destruct (w_cwd (s_w s) !! c); [|discriminate H]. destruct (mmap_syscall s c len prot flags fd off ans) as [[s1 r]|] eqn:E; cbn [obind fst snd] in H; [|discriminate H]. injection H as -> _.
    destruct (mmap_cases _ _ _ _ _ _ _ _ _ _ E) as [[-> _]|(a & b & -> & -> & -> & _)]; exact IH.
  - cbn [mstep] in H. destruct (w_cwd (s_w s) !! c); [|discriminate H]. unfold munmap_syscall in H. destruct (len =? 0); [injection H as <- _; exact IH|].
    destruct (libc_mmap s len PROT_NONE BAnon ans) as [s1 r] eqn:E. cbn [fst snd] in H. injection H as -> _.
    destruct (libc_mmap_eq _ _ _ _ _ _ _ E) as [(-> & -> & ->)|(a & -> & -> & ->)]; exact IH.
  - injection H as <- _. exact IH.
  - cbn [mstep] in H. destruct (store s a v) as [s1 y] eqn:E. injection H as <- _. cbn [fst]. unfold store in E. destruct (mapping_at s a) as [m|]; [|injection E as <- _; exact IH].
    destruct (_ =? 0); [injection E as <- _; exact IH|]. cbv zeta in E.
    assert (P : forall p k n, own_page s m (a - m_lo m) = Some p -> pages (MState (s_w s) (s_maps s) (s_gen s) (s_old s) (<[k := <[n := v]> p]> (s_page s)) (s_next s))).
    { intros p k n Ho k' p' Hk. cbn in Hk. apply lookup_insert_Some in Hk as [[_ <-]|[_ Hk]]; [rewrite insert_length; exact (own_page_length _ _ _ _ IH Ho)|exact (IH _ _ Hk)]. }
    destruct (m_back m) as [|i g off|i g off].
    + destruct (own_page s m (a - m_lo m)) as [p|] eqn:Eo; injection E as <- _; [apply P; reflexivity|exact IH].
    + destruct (content s i g) as [l|]; [|injection E as <- _; exact IH]. destruct (_ <? _); [|destruct (_ <? _); injection E as <- _; exact IH].
      injection E as <- _. destruct (_ =? _); exact IH.
    + destruct (own_page s m (a - m_lo m)) as [p|] eqn:Eo; injection E as <- _; [apply P; reflexivity|exact IH].
Qed.

(** ** A stored byte is found again *)
Lemma find_same s s' a : s_maps s' = s_maps s -> mapping_at s' a = mapping_at s a.
Proof. intros E. unfold mapping_at. rewrite E. reflexivity. Qed.
Lemma land_prot p : Z.land p 2 <> 0 -> Z.land p 7 <> 0.
Proof. intros H E. apply H. replace 2 with (Z.land 7 2) by reflexivity. rewrite Z.land_assoc, E. reflexivity. Qed.

Lemma store_load past s a v s' : mreach past s -> mstep s (Store a v) = Done (s', MStored) ->
  (forall i pos l m g off, mapping_at s a = Some m -> m_back m = BShared i g off -> pos = off + (a - m_lo m) -> content s i g = Some l -> pos < Z.of_nat (length l)) ->
  load s' a = MByte v.
Proof.
  intros Hr H Hin. apply mreach_minv in Hr as Hi. pose proof (mreach_pages _ _ Hr) as Hp. cbn [mstep] in H. destruct (store s a v) as [s1 y] eqn:E. injection H as <- ->. cbn [fst snd] in *.
  unfold store in E. destruct (mapping_at s a) as [m|] eqn:Em; [|injection E as _ E; discriminate E].
  destruct (Z.eqb_spec (Z.land (m_prot m) PROT_WRITE) 0) as [Epr|Epr]; [injection E as _ E; discriminate E|]. cbv zeta in E.
  assert (Hrd : (Z.land (m_prot m) 7 =? 0) = false) by (apply Z.eqb_neq, land_prot; exact Epr).
  destruct (mapping_at_in _ _ _ Em) as [Hm Hx]. destruct (n_lo _ _ Hi m Hm) as [Ho Hlo].
  assert (P : forall p, own_page s m (a - m_lo m) = Some p -> nth (Z.to_nat ((a - m_lo m) mod PAGE)) (<[Z.to_nat ((a - m_lo m) mod PAGE) := v]> p) 0 = v).
  { intros p Hpp. apply nth_lookup_Some. apply list_lookup_insert. rewrite (own_page_length _ _ _ _ Hp Hpp). unfold PAGE. pose proof (Z.mod_pos_bound (a - m_lo m) 4096). lia. }
  destruct (m_back m) as [|i g off|i g off] eqn:Eb.
  - destruct (own_page s m (a - m_lo m)) as [p|] eqn:Eo; injection E as E; [|discriminate]. subst s1. unfold load. rewrite (find_same s) by reflexivity. rewrite Em, Hrd. cbv zeta. cbn [s_page]. rewrite Eb, lookup_insert. rewrite (P p eq_refl). reflexivity.
  - destruct (content s i g) as [l|] eqn:Ec; [|injection E as _ E; discriminate E]. specialize (Hin i _ l m g off eq_refl Eb eq_refl Ec).
    destruct (Z.ltb_spec (off + (a - m_lo m)) (Z.of_nat (length l))); [|lia]. injection E as E. subst s1. unfold load. rewrite (find_same s) by (destruct (g =? gen s i); reflexivity). rewrite Em, Hrd. cbv zeta. rewrite Eb.
    assert (K : content (if g =? gen s i then with_w (emit (PWrite i (off + (a - m_lo m)) [v]) (s_w s)) s else MState (s_w s) (s_maps s) (s_gen s) (<[(i, g) := <[Z.to_nat (off + (a - m_lo m)) := v]> l]> (s_old s)) (s_page s) (s_next s)) i g
       = Some (<[Z.to_nat (off + (a - m_lo m)) := v]> l)).
    { unfold content in Ec |- *. destruct (Z.eqb_spec g (gen s i)) as [Eg|Eg].
      - change (gen (with_w _ s) i) with (gen s i). rewrite Eg, Z.eqb_refl. cbn. rewrite lookup_alter, Ec. cbn. f_equal. apply write_at_in. lia.
      - match goal with |- context [gen ?u i] => change (gen u i) with (gen s i) end. apply Z.eqb_neq in Eg. rewrite Eg. cbn [s_old]. apply lookup_insert. }
    rewrite K. unfold byte_at. rewrite list_lookup_insert by lia. reflexivity.
  - destruct (own_page s m (a - m_lo m)) as [p|] eqn:Eo; injection E as E; [|discriminate]. subst s1. unfold load. rewrite (find_same s) by reflexivity. rewrite Em, Hrd. cbv zeta. cbn [s_page]. rewrite Eb, lookup_insert. rewrite (P p eq_refl). reflexivity.
Qed.
