(** Invariants of mapped memory. *)
From Verif Require Import Base CodecModel PathModel PathSpec PathProofs FsModel FsBoot FsSpec FsWalk FsNames FsTr FsInv FsSteps FsWinv FsReachSpec MapModel MapSpec MapProofs1.
Local Open Scope list_scope.
Local Open Scope Z_scope.
Opaque all_fds next_fd.

Lemma round_up_eq n : round_up n = (n + 4095) / 4096 * 4096.
Proof. unfold round_up, PAGE. f_equal. f_equal. lia. Qed.

(** ** Files and their host files *)
Lemma file_data w i x : winv w -> w_ino w !! i = Some x -> i_kind x = KFile ->
  exists b, d_host (w_disk w) !! i = Some b /\ Z.of_nat (length b) = i_size x /\ w_fobj w !! i = (if 0 <? i_ref x then Some (i_size x) else None).
Proof.
  intros Hw Hx Hk. pose proof (v_d _ (u_inv _ Hw) i) as H. cbn [k_ino k_fobj k_host core_of] in H. rewrite Hx in H. unfold okdata, isfile in H. rewrite Hk in H.
  destruct H as (H1 & b & H2 & H3). eauto.
Qed.
Lemma host_file w i b : winv w -> d_host (w_disk w) !! i = Some b -> exists x, w_ino w !! i = Some x /\ i_kind x = KFile /\ Z.of_nat (length b) = i_size x.
Proof.
  intros Hw Hb. pose proof (v_d _ (u_inv _ Hw) i) as H. cbn [k_ino k_fobj k_host core_of] in H. rewrite Hb in H. unfold okdata, isfile in H.
  destruct (w_ino w !! i) as [x|]; [|destruct H; discriminate]. destruct (i_kind x) eqn:Ek; try (destruct H; discriminate).
  destruct H as (_ & b' & [= <-] & H). eauto.
Qed.
Lemma write_at_in l pos v : 0 <= pos < Z.of_nat (length l) -> write_at pos [v] l = <[Z.to_nat pos := v]> l.
Proof.
  intros H. unfold write_at. replace (Z.to_nat pos - length l)%nat with 0%nat by lia. cbn [replicate]. rewrite app_nil_r.
  rewrite insert_take_drop by lia. cbn [length app]. replace (Z.to_nat pos + 1)%nat with (S (Z.to_nat pos)) by lia. reflexivity.
Qed.
(** A byte written into a file as memory *)
Lemma poke_winv w i b pos v : winv w -> d_host (w_disk w) !! i = Some b -> 0 <= pos < Z.of_nat (length b) -> winv (emit (PWrite i pos [v]) w).
Proof.
  intros Hw Hb Hpos. destruct (host_file _ _ _ Hw Hb) as (x & Hx & Hk & Hl). destruct Hw as [Hi H1 H2 H3]. constructor; [|exact H1|exact H2|exact H3].
  apply (tr_inv true (core_of w)); [|exact Hi]. unfold core_of. cbn [w_ino w_next w_fobj w_disk w_fds w_pipes w_npipe emit apply_eff d_host].
  assert (E : w_ino w = <[i := set_size (i_size x) x]> (w_ino w)) by (rewrite insert_id; [reflexivity|]; destruct x; exact Hx). rewrite E at 2.
  eapply (t_data true _ _ _ _ _ _ _ i x (i_size x) _ _ (<[Z.to_nat pos := v]> b)); [exact Hx|exact Hk|lia| | | |].
  - intros j Hj. split; [reflexivity|]. rewrite lookup_alter_ne by congruence. reflexivity.
  - pose proof (v_d _ Hi i) as Hd. cbn [k_ino k_fobj k_host core_of] in Hd. rewrite Hx in Hd. unfold okdata, isfile in Hd. rewrite Hk in Hd. destruct Hd as [-> _]. destruct (0 <? i_ref x); reflexivity.
  - rewrite lookup_alter, Hb. cbn. f_equal. apply write_at_in. exact Hpos.
  - rewrite insert_length. exact Hl.
Qed.

(** ** The state after a call *)
Lemma detach_all w l : forall s, let s' := foldr (detach w) s l in
  s_w s' = s_w s /\ s_maps s' = s_maps s /\ s_page s' = s_page s /\ s_next s' = s_next s /\
  (forall i, i ∉ l -> gen s' i = gen s i) /\ (forall i, gen s i <= gen s' i) /\ (forall i, i ∈ l -> gen s i < gen s' i) /\
  (forall i g, g < gen s i -> s_old s' !! (i, g) = s_old s !! (i, g)) /\
  (forall i b, i ∈ l -> d_host (w_disk w) !! i = Some b -> s_old s' !! (i, gen s i) = Some b).
Proof.
  induction l as [|j l IH]; intros s; cbn [foldr].
  - repeat split; intros; try reflexivity; try lia; exfalso; eapply elem_of_nil; eauto.
  - specialize (IH s). cbv zeta in *. set (s1 := foldr (detach w) s l) in *. destruct IH as (A1 & A2 & A3 & A4 & A5 & A6 & A7 & A8 & A9).
    assert (G : forall i, gen (detach w j s1) i = if decide (i = j) then gen s1 i + 1 else gen s1 i).
    { intros i. unfold gen at 1, detach. cbn [s_gen]. destruct (decide (i = j)) as [->|]; [rewrite lookup_insert; reflexivity|]. rewrite lookup_insert_ne by congruence. reflexivity. }
    assert (O : forall i g, (i, g) <> (j, gen s1 j) -> s_old (detach w j s1) !! (i, g) = s_old s1 !! (i, g)).
    { intros i g Hne. unfold detach. cbn [s_old]. destruct (d_host (w_disk w) !! j); [|reflexivity]. rewrite lookup_insert_ne by congruence. reflexivity. }
    split; [exact A1|]. split; [exact A2|]. split; [exact A3|]. split; [exact A4|]. split; [|split; [|split; [|split]]].
    + intros i Hi. rewrite G. apply not_elem_of_cons in Hi as [Hi1 Hi2]. destruct (decide (i = j)); [congruence|auto].
    + intros i. rewrite G. pose proof (A6 i). destruct (decide (i = j)); lia.
    + intros i Hi. rewrite G. destruct (decide (i = j)) as [->|Hne]; [pose proof (A6 j); lia|]. apply elem_of_cons in Hi as [Hi|Hi]; [congruence|auto].
    + intros i g Hg. rewrite O; [apply A8; exact Hg|]. intros [= -> ->]. pose proof (A6 j). lia.
    + intros i b Hi Hb. destruct (decide (i ∈ l)) as [Hl|Hl].
      * rewrite O; [eapply A9; eauto|]. intros [= -> E]. pose proof (A7 j Hl). lia.
      * apply elem_of_cons in Hi as [Hi|Hi]; [|contradiction]. subst j. unfold detach. cbn [s_old]. rewrite Hb, <- (A5 i Hl), lookup_insert. reflexivity.
Qed.
Lemma removed_ext R w w' : ext R w w' -> forall i, i ∈ removed w w' -> R i.
Proof.
  intros (es & E & H) i Hi. unfold removed in Hi. rewrite E, drop_app in Hi. apply elem_of_list_omap in Hi as (e & He & Hi). destruct e; try discriminate Hi. injection Hi as ->. auto.
Qed.

Lemma sys_step s c o s' x : mstep s (Sys c o) = Done (s', x) -> exists r, step (s_w s) c o = Done (s_w s', r) /\ x = MRet r /\
  s_maps s' = s_maps s /\ s_page s' = s_page s /\ s_next s' = s_next s /\ (forall i, gen s i <= gen s' i) /\
  (forall i, gen s' i <> gen s i -> (truncates (s_w s) c o i \/ w_ino (s_w s') !! i = None)) /\
  (forall i g, g < gen s i -> s_old s' !! (i, g) = s_old s !! (i, g)) /\
  (forall i b, gen s' i <> gen s i -> d_host (w_disk (s_w s)) !! i = Some b -> s_old s' !! (i, gen s i) = Some b).
Proof.
  cbn [mstep]. destruct (step (s_w s) c o) as [[w' r]|] eqn:E; cbn [obind fst snd]; [|discriminate]. intros [= <- <-]. exists r.
  destruct (detach_all (s_w s) (removed (s_w s) w') s) as (A1 & A2 & A3 & A4 & A5 & A6 & A7 & A8 & A9). set (s1 := foldr _ _ _) in *.
  assert (G : forall i, gen (with_w w' s1) i = gen s1 i) by reflexivity.
  assert (M : forall i, gen s1 i <> gen s i -> i ∈ removed (s_w s) w') by (intros i Hi; destruct (decide (i ∈ removed (s_w s) w')) as [?|Hn]; [assumption|]; rewrite (A5 i Hn) in Hi; congruence).
  split; [reflexivity|]. split; [reflexivity|]. split; [exact A2|]. split; [exact A3|]. split; [exact A4|]. split; [exact A6|].
  split; [|split; [exact A8|]].
  - intros i Hi. rewrite G in Hi. exact (removed_ext _ _ _ (step_ext _ _ _ _ _ E) i (M i Hi)).
  - intros i b Hi Hb. rewrite G in Hi. exact (A9 i b (M i Hi) Hb).
Qed.

(** ** mmap *)
Lemma libc_mmap_eq s len prot b ans s' r : libc_mmap s len prot b ans = (s', r) ->
  (ans = None /\ s' = s /\ r = -1) \/
  exists a, ans = Some a /\ r = to_i32 a /\ s' = MState (s_w s) (Mapping a (round_up len) prot (s_next s) b :: s_maps s) (s_gen s) (s_old s) (s_page s) (s_next s + 1).
Proof. unfold libc_mmap, host_mmap. destruct ans as [a|]; intros [= <- <-]; [right; eauto|left; auto]. Qed.

Definition back_of (flags i g off : Z) : backing := if Z.land flags MAP_SHARED =? 0 then BPriv i g off else BShared i g off.
Lemma mmap_cases s c len prot flags fd off ans s' r : mmap_syscall s c len prot flags fd off ans = Done (s', r) ->
  (s' = s /\ r < 0) \/
  exists a b, ans = Some a /\ r = to_i32 a /\ s' = MState (s_w s) (Mapping a (round_up len) prot (s_next s) b :: s_maps s) (s_gen s) (s_old s) (s_page s) (s_next s + 1) /\
    (Z.land flags MAP_PRIVATE = 0 \/ Z.land flags MAP_SHARED = 0) /\
    ((b = BAnon /\ Z.land flags MAP_ANONYMOUS <> 0) \/
     (Z.land flags MAP_ANONYMOUS = 0 /\ exists i p fl x, w_fds (s_w s) !! (c, fd) = Some (FFile i p fl) /\ w_ino (s_w s) !! i = Some x /\ i_kind x = KFile /\ Z.land fl O_WRONLY = 0 /\
        (Z.land flags MAP_SHARED <> 0 -> Z.land prot PROT_WRITE <> 0 -> Z.land fl O_RDWR = O_RDWR) /\ 0 <= off <= i_size x /\ b = back_of flags i (gen s i) off)).
Proof.
  unfold mmap_syscall. intros H.
  destruct (len =? 0); [injection H as <- <-; left; split; [reflexivity|cbn; lia]|].
  destruct (_ =? 0) eqn:E1 in H; [injection H as <- <-; left; split; [reflexivity|cbn; lia]|].
  destruct (negb (Z.land flags MAP_PRIVATE =? 0) && negb (Z.land flags MAP_SHARED =? 0)) eqn:E2; [injection H as <- <-; left; split; [reflexivity|cbn; lia]|].
  assert (PS : Z.land flags MAP_PRIVATE = 0 \/ Z.land flags MAP_SHARED = 0).
  { apply andb_false_iff in E2 as [E2|E2]; apply negb_false_iff, Z.eqb_eq in E2; auto. }
  destruct (Z.eqb_spec (Z.land flags MAP_ANONYMOUS) 0) as [Ea|Ea]; cbn [negb] in H.
  2:{ injection H as H. destruct (libc_mmap_eq _ _ _ _ _ _ _ H) as [(-> & -> & ->)|(a & -> & -> & ->)]; [left; split; [reflexivity|lia]|right]. exists a, BAnon. repeat (split; [solve [auto]|]). left. auto. }
  destruct (fd_slot (s_w s) c fd) as [d|] eqn:Ed; cbn [obind] in H; [|discriminate H]. apply fd_slot_done in Ed as [-> _].
  destruct (w_fds (s_w s) !! (c, fd)) as [[i p fl|? ?|? ?|?]|] eqn:Efd; try (injection H as <- <-; left; split; [reflexivity|cbn; lia]).
  destruct (get_ino (s_w s) i) as [x|] eqn:Ex; cbn [obind] in H; [|discriminate H]. apply get_ino_done in Ex.
  destruct (i_kind x) eqn:Ek; try (injection H as <- <-; left; split; [reflexivity|cbn; lia]).
  destruct (Z.eqb_spec (Z.land fl O_WRONLY) 0) as [Ew|Ew]; cbn [negb] in H; [|injection H as <- <-; left; split; [reflexivity|cbn; lia]].
  destruct (negb (Z.land flags MAP_SHARED =? 0) && negb (Z.land prot PROT_WRITE =? 0) && negb (Z.land fl O_RDWR =? O_RDWR)) eqn:Es; [injection H as <- <-; left; split; [reflexivity|cbn; lia]|].
  destruct ((off <? 0) || (i_size x <? off)) eqn:Eo; [injection H as <- <-; left; split; [reflexivity|cbn; lia]|]. apply orb_false_iff in Eo as [Eo1 Eo2].
  destruct (w_fobj (s_w s) !! i); [|discriminate H]. cbv zeta in H. injection H as H.
  destruct (libc_mmap_eq _ _ _ _ _ _ _ H) as [(-> & -> & ->)|(a & -> & -> & ->)]; [left; split; [reflexivity|lia]|right].
  exists a, (back_of flags i (gen s i) off). repeat (split; [solve [auto]|]). right. split; [exact Ea|]. exists i, p, fl, x. repeat (split; [solve [auto]|]).
  split; [|split; [lia|reflexivity]]. intros S1 S2. apply Z.eqb_neq in S1, S2. rewrite S1, S2 in Es. cbn [negb andb] in Es. apply negb_false_iff, Z.eqb_eq in Es. exact Es.
Qed.

(** ** Stores *)
Lemma store_cases s a v s' x : winv (s_w s) -> store s a v = (s', x) ->
  s_maps s' = s_maps s /\ s_gen s' = s_gen s /\ s_next s' = s_next s /\
  (s' = s \/
   (exists m i off b, mapping_at s a = Some m /\ m_back m = BShared i (gen s i) off /\ Z.land (m_prot m) 2 <> 0 /\ d_host (w_disk (s_w s)) !! i = Some b /\ off + (a - m_lo m) < Z.of_nat (length b) /\
      s' = with_w (emit (PWrite i (off + (a - m_lo m)) [v]) (s_w s)) s) \/
   (s_w s' = s_w s /\ s_page s' = s_page s /\ exists m i g off l, mapping_at s a = Some m /\ m_back m = BShared i g off /\ g <> gen s i /\ s_old s' = <[(i, g) := l]> (s_old s)) \/
   (s_w s' = s_w s /\ s_old s' = s_old s /\ exists m d p, mapping_at s a = Some m /\ s_page s' = <[(m_id m, d) := p]> (s_page s) /\ (forall i g off, m_back m <> BShared i g off))).
Proof.
  intros Hw. unfold store. destruct (mapping_at s a) as [m|] eqn:Em; [|intros [= <- _]; auto].
  destruct (Z.eqb_spec (Z.land (m_prot m) PROT_WRITE) 0) as [Ep|Ep]; [intros [= <- _]; auto|]. cbv zeta.
  destruct (m_back m) as [|i g off|i g off] eqn:Eb.
  - destruct (own_page s m (a - m_lo m)) as [p|]; intros [= <- _]; auto. repeat (split; [reflexivity|]). right; right; right. split; [reflexivity|]. split; [reflexivity|].
    eexists m, _, _. split; [reflexivity|]. split; [reflexivity|]. intros; congruence.
  - destruct (content s i g) as [l|] eqn:Ec; [|intros [= <- _]; auto]. destruct (Z.ltb_spec (off + (a - m_lo m)) (Z.of_nat (length l))) as [Hl|Hl].
    + intros [= <- _]. unfold content in Ec. destruct (Z.eqb_spec g (gen s i)) as [->|Hg].
      * repeat (split; [reflexivity|]). right; left. exists m, i, off, l. auto 10.
      * repeat (split; [reflexivity|]). right; right; left. split; [reflexivity|]. split; [reflexivity|]. eexists m, i, g, off, _. repeat (split; [solve [auto]|]). reflexivity.
    + destruct (_ <? round_up _); intros [= <- _]; auto.
  - destruct (own_page s m (a - m_lo m)) as [p|]; intros [= <- _]; auto. repeat (split; [reflexivity|]). right; right; right. split; [reflexivity|]. split; [reflexivity|].
    eexists m, _, _. split; [reflexivity|]. split; [reflexivity|]. intros; congruence.
Qed.

Lemma mapping_at_in s a m : mapping_at s a = Some m -> m ∈ s_maps s /\ m_lo m <= a < m_lo m + m_len m.
Proof. intros H. apply find_some_iff in H as [H1 H2]. unfold covers in H1. split; [exact H2|lia]. Qed.

(** ** The invariant *)
Record minv (past : list (mstate * mop)) (s : mstate) : Prop := {
  n_w : winv (s_w s);
  n_lo m : m ∈ s_maps s -> match m_back m with BShared _ _ off | BPriv _ _ off => 0 <= off /\ (4096 | off) | BAnon => True end /\ (4096 | m_lo m);
  n_grant m i g off a : m ∈ s_maps s -> m_back m = BShared i g off -> Z.land (m_prot m) 2 <> 0 -> m_lo m <= a < m_lo m + m_len m -> granted past a i (off + (a - m_lo m));
  n_id m : m ∈ s_maps s -> m_id m < s_next s;
  n_nodup : NoDup (m_id <$> s_maps s);
  n_page k d p : s_page s !! (k, d) = Some p -> k < s_next s;
  n_gen m i g off : m ∈ s_maps s -> m_back m = BShared i g off \/ m_back m = BPriv i g off -> g <= gen s i
}.

Lemma granted_more past past' a i pos : (forall e, e ∈ past -> e ∈ past') -> granted past a i pos -> granted past' a i pos.
Proof. intros H (s0 & c & addr & len & prot & flags & fd & off & lo & p & fl & Hin & R). exists s0, c, addr, len, prot, flags, fd, off, lo, p, fl. auto. Qed.

Lemma rdwr fl : Z.land fl O_WRONLY = 0 -> Z.land fl O_RDWR = O_RDWR -> Z.land fl 3 = O_RDWR.
Proof.
  unfold O_WRONLY, O_RDWR. intros H1 H2. replace 3 with (Z.lor 1 2) by reflexivity. rewrite Z.land_lor_distr_r, H1, H2. reflexivity.
Qed.

Lemma add_minv past s e a len prot b : minv past s -> (4096 | a) ->
  match b with BShared i g off | BPriv i g off => (0 <= off /\ (4096 | off)) /\ g <= gen s i | BAnon => True end ->
  (forall i g off x, b = BShared i g off -> Z.land prot 2 <> 0 -> a <= x < a + round_up len -> granted (e :: past) x i (off + (x - a))) ->
  minv (e :: past) (MState (s_w s) (Mapping a (round_up len) prot (s_next s) b :: s_maps s) (s_gen s) (s_old s) (s_page s) (s_next s + 1)).
Proof.
  intros [Hw Hlo Hg Hid Hnd Hp Hgen] Ha Hb Hgr. constructor; cbn [s_w s_maps s_gen s_old s_page s_next].
  - exact Hw.
  - intros m Hm. apply elem_of_cons in Hm as [->|Hm]; [|auto]. cbn. split; [|exact Ha]. destruct b; tauto.
  - intros m i g off x Hm Em Epr Hx. apply elem_of_cons in Hm as [->|Hm]; [cbn in *; eauto|]. apply (granted_more past); [intros e' He; right; exact He|eauto].
  - intros m Hm. apply elem_of_cons in Hm as [->|Hm]; [cbn; lia|]. specialize (Hid m Hm). lia.
  - rewrite fmap_cons. constructor; [|exact Hnd]. cbn. intros Hm. apply elem_of_list_fmap in Hm as (m & E & Hm). specialize (Hid m Hm). lia.
  - intros k d p Hk. specialize (Hp k d p Hk). lia.
  - intros m i g off Hm Em. change (g <= gen s i). apply elem_of_cons in Hm as [->|Hm]; [|eauto]. cbn in Em. destruct Em as [->| ->]; tauto.
Qed.

Lemma land_1_2 fl : (Z.land fl 2 = 0 \/ Z.land fl 1 = 0) -> Z.land fl 1 <> 0 -> Z.land fl 2 = 0.
Proof. intros [H|H] H'; [exact H|congruence]. Qed.

Lemma more_minv past e s : minv past s -> minv (e :: past) s.
Proof. intros [Hw Hlo Hg Hid Hnd Hp Hgen]. constructor; auto. intros. apply (granted_more past); [intros e' He; right; exact He|eauto]. Qed.

Lemma mstep_minv past s o s' x : minv past s -> mstep s o = Done (s', x) -> mtame s o x -> minv ((s, o) :: past) s'.
Proof.
  intros Hi H Ht. destruct o as [c o|c addr len prot flags fd off ans|c addr len ans|a|a v].
  - destruct (sys_step _ _ _ _ _ H) as (r & Est & -> & E1 & E2 & E3 & E4 & E5 & E6 & E7). cbn in Ht. pose proof (step_winv true _ _ _ _ _ (n_w _ _ Hi) Est Ht) as Hw'.
    destruct Hi as [Hw Hlo Hg Hid Hnd Hp Hgen]. constructor; rewrite ?E1, ?E2, ?E3; auto.
    + intros m i g off a Hm Em Epr Ha. apply (granted_more past); [intros e' He; right; exact He|eauto].
    + intros m i g off Hm Em. specialize (Hgen m i g off Hm Em). specialize (E4 i). lia.
  - cbn [mstep] in H. destruct (w_cwd (s_w s) !! c); [|discriminate H]. destruct (mmap_syscall s c len prot flags fd off ans) as [[s1 r]|] eqn:E; cbn [obind fst snd] in H; [|discriminate H]. injection H as -> _.
    destruct (mmap_cases _ _ _ _ _ _ _ _ _ _ E) as [[-> _]|(a & b & -> & -> & -> & PS & D)]; [apply more_minv; exact Hi|].
    cbn [mtame host_may] in Ht. destruct Ht as (Hlen & Ha & _ & _ & Hoff & _).
    apply add_minv; [exact Hi|exact Ha| |].
    + destruct D as [[-> _]|(Ean & i & p & fl & y & _ & _ & _ & _ & _ & Ho & ->)]; [exact I|]. change (Z.land flags 32 = 0) in Ean. rewrite Ean in Hoff. cbn in Hoff. unfold back_of. destruct (_ =? 0); (split; [split; [lia|exact Hoff]|lia]).
    + intros i g o x0 Eb Epr Hx. destruct D as [[-> _]|(Ean & i' & p & fl & y & Hfd & _ & _ & Hro & Hrw & Ho & ->)]; [discriminate Eb|].
      unfold back_of in Eb. destruct (Z.eqb_spec (Z.land flags MAP_SHARED) 0) as [|Hsh]; [discriminate Eb|]. injection Eb as -> <- <-.
      exists s, c, addr, len, prot, flags, fd, off, a, p, fl. split; [left|]. split; [exact Hsh|]. split; [exact (land_1_2 flags PS Hsh)|].
      split; [exact Ean|]. split; [exact Epr|]. split; [exact Hfd|]. split; [exact (rdwr fl Hro (Hrw Hsh Epr))|]. rewrite <- round_up_eq. auto.
  - cbn [mstep] in H. destruct (w_cwd (s_w s) !! c); [|discriminate H]. unfold munmap_syscall in H. destruct (len =? 0); [injection H as <- _; apply more_minv; exact Hi|].
    destruct (libc_mmap s len PROT_NONE BAnon ans) as [s1 r] eqn:E. cbn [fst snd] in H. injection H as -> _.
    destruct (libc_mmap_eq _ _ _ _ _ _ _ E) as [(-> & -> & ->)|(a & -> & -> & ->)]; [apply more_minv; exact Hi|].
    cbn [mtame host_may] in Ht. apply add_minv; [exact Hi|tauto|exact I|discriminate].
  - injection H as <- _. apply more_minv. exact Hi.
  - cbn [mstep] in H. destruct (store s a v) as [s1 y] eqn:E. injection H as <- _. cbn [fst].
    destruct (store_cases _ _ _ _ _ (n_w _ _ Hi) E) as (E1 & E2 & E3 & D). pose proof Hi as Hi0. destruct Hi as [Hw Hlo Hg Hid Hnd Hp Hgen].
    assert (G : forall i, gen s1 i = gen s i) by (intros i; unfold gen; rewrite E2; reflexivity).
    constructor; rewrite ?E1, ?E3; auto.
    + destruct D as [->|[(m & i & off & b & Hm & Hb & Hpr & Hd & Hl & ->)|[(-> & _)|(-> & _)]]]; auto.
      apply mapping_at_in in Hm as [Hm Hx]. cbn. eapply poke_winv; [exact Hw|exact Hd|]. destruct (Hlo m Hm) as [Ho _]. rewrite Hb in Ho. lia.
    + intros m i g off b Hm Em Epr Hb. apply (granted_more past); [intros e' He; right; exact He|eauto].
    + intros k d p Hk. destruct D as [->|[(m & i & off & b & Hm & Hb & Hpr & Hd & Hl & ->)|[(_ & E4 & _)|(_ & _ & m & d' & p' & Hm & E4 & _)]]]; [eauto|exact (Hp k d p Hk)|rewrite E4 in Hk; eauto|].
      rewrite E4 in Hk. apply lookup_insert_Some in Hk as [[[= <- _] _]|[_ Hk]]; [|eauto]. apply mapping_at_in in Hm as [Hm _]. auto.
    + intros m i g off Hm Em. rewrite G. eauto.
Qed.
Lemma mreach_minv past s : mreach past s -> minv past s.
Proof.
  induction 1 as [|past s o s' x _ IH Hs Ht]; [|eapply mstep_minv; eauto].
  constructor; cbn; [apply fresh_winv|..]; try (intros; exfalso; eapply elem_of_nil; eauto; fail); [constructor|]. intros k d p H. rewrite lookup_empty in H. discriminate H.
Qed.
