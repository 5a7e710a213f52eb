(** What mappings show, how long, and what the calls answer. *)
From Verif Require Import Base CodecModel PathModel PathSpec PathProofs FsModel FsBoot FsSpec FsWalk FsNames Count FsTr FsInv FsSteps FsWinv FsReachSpec FsIoSpec FsIo MapModel MapSpec MapProofs1 MapProofs2 MapProofs3 MapProofs4.
Local Open Scope list_scope.
Local Open Scope Z_scope.
Opaque all_fds next_fd.

Lemma byte_file_at l pos : 0 <= pos -> file_at l pos (MapModel.byte_at (Some l) pos).
Proof.
  intros Hp. unfold file_at, MapModel.byte_at. rewrite round_up_eq. assert (R : Z.of_nat (length l) <= (Z.of_nat (length l) + 4095) / 4096 * 4096) by lia. split; [|split].
  - intros v ->. reflexivity.
  - intros H1 H2. rewrite lookup_ge_None_2 by lia. destruct (Z.ltb_spec pos ((Z.of_nat (length l) + 4095) / 4096 * 4096)); [reflexivity|lia].
  - intros H1. rewrite lookup_ge_None_2 by lia. destruct (Z.ltb_spec pos ((Z.of_nat (length l) + 4095) / 4096 * 4096)); [lia|reflexivity].
Qed.
Lemma load_prot s a : load s a <> MSegv -> exists m, mapping_at s a = Some m /\ Z.land (m_prot m) 7 <> 0.
Proof. unfold load. destruct (mapping_at s a) as [m|]; [|congruence]. destruct (Z.eqb_spec (Z.land (m_prot m) 7) 0); [congruence|eauto]. Qed.

Lemma load_shared past s a i pos l : mreach past s -> shared_at s a i pos -> attached s a -> load s a <> MSegv -> file_bytes (s_w s) i = Some l ->
  seen_as (s_w s) i l /\ file_at l pos (load s a).
Proof.
  intros Hr (m & g & off & Hm & Hb & ->) (m' & Hm' & Hg) Hl Hf. apply mreach_minv in Hr as Hi. rewrite Hm in Hm'. injection Hm' as <-. rewrite Hb in Hg.
  split; [apply bytes_seen; [exact (n_w _ _ Hi)|exact Hf]|]. apply load_prot in Hl as (m' & Hm' & Hp). rewrite Hm in Hm'. injection Hm' as <-. apply Z.eqb_neq in Hp.
  unfold load. rewrite Hm, Hp, Hb. cbv zeta. unfold content. rewrite Hg, Z.eqb_refl. unfold file_bytes in Hf. rewrite Hf. apply byte_file_at.
  apply mapping_at_in in Hm as [Hm Hx]. destruct (n_lo _ _ Hi m Hm) as [Ho _]. rewrite Hb in Ho. lia.
Qed.

Lemma store_shared past s a v i pos l s' x : mreach past s -> shared_at s a i pos -> attached s a -> file_bytes (s_w s) i = Some l -> pos < Z.of_nat (length l) ->
  mstep s (Store a v) = Done (s', x) -> x <> MSegv ->
  x = MStored /\ seen_as (s_w s') i (<[Z.to_nat pos := v]> l) /\ load s' a = MByte v.
Proof.
  intros Hr (m & g & off & Hm & Hb & ->) (m' & Hm' & Hg) Hf Hpos H Hx. rewrite Hm in Hm'. injection Hm' as <-. rewrite Hb in Hg.
  assert (Hr' : mreach ((s, Store a v) :: past) s') by (eapply mreach_step; [exact Hr|exact H|exact I]). apply mreach_minv in Hr' as Hi'. apply mreach_minv in Hr as Hi.
  destruct (mapping_at_in _ _ _ Hm) as [Hin Ha]. destruct (n_lo _ _ Hi m Hin) as [Ho _]. rewrite Hb in Ho.
  assert (K : s' = with_w (emit (PWrite i (off + (a - m_lo m)) [v]) (s_w s)) s /\ x = MStored).
  { cbn [mstep] in H. unfold store in H. rewrite Hm in H. destruct (Z.land (m_prot m) PROT_WRITE =? 0); [cbn [fst snd] in H; injection H as _ <-; congruence|].
    rewrite Hb in H. cbv zeta in H. unfold content in H. rewrite Hg, Z.eqb_refl in H. unfold file_bytes in Hf. rewrite Hf in H.
    destruct (Z.ltb_spec (off + (a - m_lo m)) (Z.of_nat (length l))); [|lia]. cbn [fst snd] in H. injection H as <- <-. auto. }
  destruct K as [-> ->]. split; [reflexivity|]. split.
  - apply bytes_seen; [exact (n_w _ _ Hi')|]. change (file_bytes (s_w (with_w (emit (PWrite i (off + (a - m_lo m)) [v]) (s_w s)) s)) i = Some (<[Z.to_nat (off + (a - m_lo m)) := v]> l)).
    unfold file_bytes in *. cbn. rewrite lookup_alter, Hf. cbn. f_equal. apply write_at_in. lia.
  - eapply store_load; [exact Hr|exact H|]. intros i' pos' l' m' g' off' Hm' Hb' -> Hc. rewrite Hm in Hm'. injection Hm' as <-. rewrite Hb in Hb'. injection Hb' as <- <- <-.
    unfold content in Hc. rewrite Hg, Z.eqb_refl in Hc. unfold file_bytes in Hf. rewrite Hf in Hc. injection Hc as <-. exact Hpos.
Qed.

Lemma truncates_ing w c o i : truncates w c o i -> truncating w c o i.
Proof. intros (cwd & p & H1 & H2 & H3). exists cwd, p, (normpath cwd p). split; [exact H1|]. split; [apply denotes_normpath; reflexivity|]. auto. Qed.

Lemma stays past s o s' x a m : mreach past s -> mstep s o = Done (s', x) -> mtame s o x -> mapping_at s a = Some m -> attached s a ->
  (mapping_at s' a = Some m /\ attached s' a) \/
  (exists c addr len prot flags fd off, o = Mmap c addr len prot flags fd off (Some addr) /\ Z.land flags 16 <> 0 /\ in_range addr len a) \/
  (exists c addr len, o = Munmap c addr len (Some addr) /\ in_range addr len a) \/
  (exists c k i, o = Sys c k /\ (exists g off, m_back m = BShared i g off \/ m_back m = BPriv i g off) /\ (truncating (s_w s) c k i \/ w_ino (s_w s') !! i = None)).
Proof.
  intros Hr H Ht Hm (m' & Hm' & Hg). rewrite Hm in Hm'. injection Hm' as <-. apply mreach_minv in Hr as Hi.
  assert (S : s_maps s' = s_maps s -> (forall i, gen s' i = gen s i) -> mapping_at s' a = Some m /\ attached s' a).
  { intros E1 E2. assert (E : mapping_at s' a = Some m) by (rewrite (find_same s) by exact E1; exact Hm). split; [exact E|]. exists m. split; [exact E|]. destruct (m_back m); rewrite ?E2; exact Hg. }
  assert (N : forall lo len prot b, s' = MState (s_w s) (Mapping lo (round_up len) prot (s_next s) b :: s_maps s) (s_gen s) (s_old s) (s_page s) (s_next s + 1) -> in_range lo len a \/ mapping_at s' a = Some m /\ attached s' a).
  { intros lo len prot b ->. pose proof (new_at s lo len prot b a) as E. cbv zeta in E. destruct ((lo <=? a) && (a <? lo + (len + 4095) / 4096 * 4096)) eqn:Ec; [left; unfold in_range; lia|].
    right. rewrite Hm in E. split; [exact E|]. exists m. split; [exact E|exact Hg]. }
  destruct o as [c k|c addr len prot flags fd off ans|c addr len ans|b|b v].
  - destruct (sys_step _ _ _ _ _ H) as (r & Est & -> & E1 & E2 & E3 & E4 & E5 & E6 & E7).
    assert (D : forall i g off, m_back m = BShared i g off \/ m_back m = BPriv i g off -> g = gen s i ->
       (mapping_at s' a = Some m /\ (gen s' i = gen s i)) \/ (truncating (s_w s) c k i \/ w_ino (s_w s') !! i = None)).
    { intros i g off _ _. destruct (Z.eq_dec (gen s' i) (gen s i)) as [E|E]; [left; split; [rewrite (find_same s) by exact E1; exact Hm|exact E]|right]. destruct (E5 _ E); [left; apply truncates_ing; assumption|auto]. }
    destruct (m_back m) as [|i g off|i g off] eqn:Eb.
    + left. assert (E : mapping_at s' a = Some m) by (rewrite (find_same s) by exact E1; exact Hm). split; [exact E|]. exists m. split; [exact E|]. rewrite Eb. exact I.
    + destruct (D i g off (or_introl eq_refl) Hg) as [[D1 D2]|D1]; [left; split; [exact D1|]; exists m; split; [exact D1|]; rewrite Eb; congruence|].
      right. right. right. exists c, k, i. split; [reflexivity|]. split; [eauto|exact D1].
    + destruct (D i g off (or_intror eq_refl) Hg) as [[D1 D2]|D1]; [left; split; [exact D1|]; exists m; split; [exact D1|]; rewrite Eb; congruence|].
      right. right. right. exists c, k, i. split; [reflexivity|]. split; [eauto|exact D1].
  - destruct Ht as [_ Ht]. cbn [mstep] in H. destruct (w_cwd (s_w s) !! c); [|discriminate H]. destruct (mmap_syscall s c len prot flags fd off ans) as [[s1 r]|] eqn:E; cbn [obind fst snd] in H; [|discriminate H]. injection H as -> _.
    destruct (mmap_cases _ _ _ _ _ _ _ _ _ _ E) as [[E1 _]|(lo & b & -> & _ & E1 & _)]; [left; apply S; rewrite E1; reflexivity|].
    destruct (N _ _ _ _ E1) as [Hin|Hs]; [|left; exact Hs]. right. left. cbn in Ht. destruct Ht as (_ & _ & _ & _ & T1 & T2).
    destruct (Z.eq_dec (Z.land flags 16) 0) as [Ef|Ef]; [rewrite (T2 Ef a Hin) in Hm; discriminate Hm|]. rewrite (T1 Ef) in *. eauto 15.
  - destruct Ht as [_ Ht]. cbn [mstep] in H. destruct (w_cwd (s_w s) !! c); [|discriminate H]. unfold munmap_syscall in H. destruct (len =? 0); [left; injection H as <- _; apply S; reflexivity|].
    destruct (libc_mmap s len PROT_NONE BAnon ans) as [s1 r] eqn:E. cbn [fst snd] in H. injection H as -> _.
    destruct (libc_mmap_eq _ _ _ _ _ _ _ E) as [(-> & E1 & _)|(lo & -> & _ & E1)]; [left; apply S; rewrite E1; reflexivity|].
    destruct (N _ _ _ _ E1) as [Hin|Hs]; [|left; exact Hs]. right. right. left. cbn in Ht. destruct Ht as (_ & _ & _ & _ & T1 & _). rewrite T1 in * by discriminate. eauto.
  - left. injection H as <- _. apply S; reflexivity.
  - left. cbn [mstep] in H. destruct (store s b v) as [s1 y] eqn:E. injection H as <- _. cbn [fst]. destruct (store_cases _ _ _ _ _ (n_w _ _ Hi) E) as (E1 & E2 & _). apply S; [exact E1|]. intros i. unfold gen. rewrite E2. reflexivity.
Qed.

(** ** A mapping whose host file was removed *)
Lemma detached_calls past s c k s' x a : mreach past s -> mstep s (Sys c k) = Done (s', x) -> mapping_at s a <> None -> ~ attached s a -> load s' a = load s a /\ ~ attached s' a.
Proof.
  intros Hr H Hm Hn. apply mreach_minv in Hr as Hi. destruct (sys_step _ _ _ _ _ H) as (r & Est & -> & E1 & E2 & E3 & E4 & E5 & E6 & E7).
  destruct (mapping_at s a) as [m|] eqn:Em; [|contradiction]. apply mapping_at_in in Em as Hin. destruct Hin as [Hin _].
  assert (K : forall i g off, m_back m = BShared i g off \/ m_back m = BPriv i g off -> g < gen s i).
  { intros i g off Hb. pose proof (n_gen _ _ Hi m i g off Hin Hb). destruct (Z.eq_dec g (gen s i)); [|lia]. destruct Hn. exists m. split; [exact Em|]. destruct Hb as [->| ->]; assumption. }
  assert (C : forall i g off, m_back m = BShared i g off \/ m_back m = BPriv i g off -> content s' i g = content s i g).
  { intros i g off Hb. specialize (K _ _ _ Hb). specialize (E4 i). unfold content. destruct (Z.eqb_spec g (gen s i)), (Z.eqb_spec g (gen s' i)); try lia. apply E6. exact K. }
  assert (Em' : mapping_at s' a = Some m) by (rewrite (find_same s) by exact E1; exact Em). split.
  - unfold load. rewrite Em, Em', E2. destruct (_ =? 0); [reflexivity|]. cbv zeta. destruct (m_back m) as [|i g off|i g off]; [reflexivity| |]; erewrite C by eauto; reflexivity.
  - intros (m' & Hm' & Hg). rewrite Em' in Hm'. injection Hm' as <-. destruct (m_back m) as [|i g off|i g off] eqn:Eb.
    + apply Hn. exists m. split; [exact Em|]. rewrite Eb. exact I.
    + specialize (K _ _ _ (or_introl eq_refl)). specialize (E4 i). lia.
    + specialize (K _ _ _ (or_intror eq_refl)). specialize (E4 i). lia.
Qed.
Lemma detached_store past s a v s' x : mreach past s -> mstep s (Store a v) = Done (s', x) -> mapping_at s a <> None -> ~ attached s a -> s_w s' = s_w s.
Proof.
  intros Hr H Hm Hn. apply mreach_minv in Hr as Hi. cbn [mstep] in H. destruct (store s a v) as [s1 y] eqn:E. injection H as <- _. cbn [fst].
  destruct (store_cases _ _ _ _ _ (n_w _ _ Hi) E) as (_ & _ & _ & [->|[(m & j & off & b & Hm1 & Hb & _)|[(E1 & _)|(E1 & _)]]]); [reflexivity| |exact E1|exact E1].
  destruct Hn. exists m. split; [exact Hm1|]. rewrite Hb. reflexivity.
Qed.

(** ** Removal *)
Lemma unmapped past s c addr len s' x : mreach past s -> len <> 0 -> mstep s (Munmap c addr len (Some addr)) = Done (s', x) ->
  s_w s' = s_w s /\
  (forall a, in_range addr len a -> load s' a = MSegv /\ forall v, mstep s' (Store a v) = Done (s', MSegv)) /\
  (forall a, ~ in_range addr len a -> mapping_at s' a = mapping_at s a /\ load s' a = load s a).
Proof.
  intros Hr Hl H. cbn [mstep] in H. destruct (w_cwd (s_w s) !! c); [|discriminate H]. unfold munmap_syscall in H. destruct (Z.eqb_spec len 0); [contradiction|]. cbn in H. injection H as <- _.
  set (s1 := MState _ _ _ _ _ _). pose proof (new_at s addr len PROT_NONE BAnon) as E. cbv zeta in E. fold s1 in E. split; [reflexivity|]. split.
  - intros a Ha. unfold in_range in Ha. specialize (E a). replace ((addr <=? a) && (a <? addr + (len + 4095) / 4096 * 4096)) with true in E by lia.
    split; [unfold load; rewrite E; reflexivity|]. intros v. unfold mstep, store. rewrite E. reflexivity.
  - intros a Ha. unfold in_range in Ha. specialize (E a). replace ((addr <=? a) && (a <? addr + (len + 4095) / 4096 * 4096)) with false in E by lia.
    split; [exact E|]. unfold load. rewrite E. reflexivity.
Qed.

(** ** A new mapping *)
Lemma fresh_shows past s c addr len prot flags fd off a s' x : mreach past s -> mstep s (Mmap c addr len prot flags fd off (Some a)) = Done (s', x) ->
  mtame s (Mmap c addr len prot flags fd off (Some a)) x -> s' <> s -> Z.land prot 7 <> 0 -> forall y, in_range a len y ->
  attached s' y /\
  (Z.land flags 32 <> 0 -> load s' y = MByte 0) /\
  (Z.land flags 32 = 0 -> exists i size fl l, on_file (s_w s) c fd i size fl /\ file_bytes (s_w s) i = Some l /\ file_at l (off + (y - a)) (load s' y)).
Proof.
  intros Hr H [Hlen _] Hne Hp y Hy. apply mreach_minv in Hr as Hi. destruct (mmap_rules _ _ _ _ _ _ _ _ _ _ _ _ Hr H) as [(e & _ & E & _)|(b & [Hf Hb] & [(E & _)|(a' & E0 & _ & E1 & E2 & E3 & E4 & _ & E5)])]; [contradiction|discriminate E|].
  injection E0 as <-. specialize (E5 y). unfold in_range in Hy. replace ((a <=? y) && (y <? a + (len + 4095) / 4096 * 4096)) with true in E5 by lia.
  assert (G : forall i, gen s' i = gen s i) by (intros i; unfold gen; rewrite E2; reflexivity).
  assert (P : forall d, s_page s' !! (s_next s, d) = None).
  { intros d. rewrite E4. destruct (s_page s !! (s_next s, d)) eqn:Q; [|reflexivity]. apply (n_page _ _ Hi) in Q. lia. }
  assert (C : forall i l, file_bytes (s_w s) i = Some l -> content s' i (gen s i) = Some l) by (intros i l Q; unfold content; rewrite G, Z.eqb_refl, E1; exact Q).
  apply Z.eqb_neq in Hp. unfold load, attached. rewrite E5. cbn [m_prot m_back m_lo m_id]. rewrite Hp. cbv zeta.
  destruct Hb as [[Ha ->]|(Ha & i & size & fl & Hon & Hm & Ho & ->)].
  - split; [eexists; split; [reflexivity|exact I]|]. split; [intros _; rewrite P; reflexivity|contradiction].
  - assert (Hon' := Hon). destruct Hon' as (p & x0 & Q1 & Q2 & Q3 & Q4). destruct (file_data _ _ _ (n_w _ _ Hi) Q2 Q3) as (l & Hl & Hsz & _).
    split; [eexists; split; [reflexivity|]; cbn [m_back]; destruct (Z.land flags 1 =? 0); symmetry; apply G|]. split; [contradiction|]. intros _. exists i, size, fl, l. split; [exact Hon|]. split; [exact Hl|].
    assert (0 <= off + (y - a)) by lia. destruct (Z.land flags 1 =? 0); rewrite ?P, (C i l Hl); apply byte_file_at; assumption.
Qed.

(** ** Answers *)
Lemma to_i32_mod a : (to_i32 a) mod 2 ^ 32 = a mod 2 ^ 32 /\ -(2 ^ 31) <= to_i32 a < 2 ^ 31.
Proof. unfold to_i32, wrap_u. change (2 ^ 32) with 4294967296. change (2 ^ 31) with 2147483648. destruct (Z.ltb_spec (a mod 4294967296) 2147483648); split; lia. Qed.
Lemma aligned_i32 a : (4096 | a) -> ~ -4095 <= to_i32 a < 0.
Proof.
  intros [k ->] H. destruct (to_i32_mod (k * 4096)) as [E _]. change (2 ^ 32) with 4294967296 in E. remember (to_i32 (k * 4096)) as r. clear Heqr. lia.
Qed.
Lemma errno_range e w c len prot flags fd off : refused w c len prot flags fd off e -> 1 <= e <= 4095.
Proof. intros []; unfold EINVAL, EBADF, EACCES, EOPNOTSUPP, ENXIO; lia. Qed.

Lemma told past s c addr len prot flags fd off ans s' x : mreach past s -> mstep s (Mmap c addr len prot flags fd off ans) = Done (s', x) ->
  mtame s (Mmap c addr len prot flags fd off ans) x ->
  exists r, x = MRet (Ret r) /\ (-4095 <= r < 0 <-> s' = s) /\ (s' <> s -> exists a, ans = Some a /\ r mod 2 ^ 32 = a mod 2 ^ 32).
Proof.
  intros Hr H [_ Ht]. destruct (mmap_rules _ _ _ _ _ _ _ _ _ _ _ _ Hr H) as [(e & He & E & ->)|(b & _ & [(_ & E & ->)|(a & -> & -> & E)])].
  - exists (- e). split; [reflexivity|]. apply errno_range in He. split; [|contradiction]. split; [auto|lia].
  - exists (-1). split; [reflexivity|]. split; [|contradiction]. split; [auto|lia].
  - destruct Ht as (Ha & _). exists (to_i32 a). split; [reflexivity|]. split.
    + split; [intros Q; edestruct aligned_i32; eauto|]. intros ->. exfalso. destruct E as (_ & _ & _ & _ & E & _). lia.
    + intros _. exists a. split; [reflexivity|]. apply to_i32_mod.
Qed.
Lemma unmap_told past s c addr len ans s' x : mreach past s -> mstep s (Munmap c addr len ans) = Done (s', x) -> mtame s (Munmap c addr len ans) x ->
  exists r, x = MRet (Ret r) /\ (-4095 <= r < 0 <-> s' = s) /\ (len = 0 -> r = -22) /\ (len <> 0 -> ans = None -> r = -1) /\ (s' <> s -> r mod 2 ^ 32 = addr mod 2 ^ 32).
Proof.
  intros Hr H [_ Ht]. cbn [mstep] in H. destruct (w_cwd (s_w s) !! c); [|discriminate H]. unfold munmap_syscall in H. destruct (Z.eqb_spec len 0).
  { injection H as <- <-. eexists. split; [reflexivity|]. change (err EINVAL) with (-22). split; [split; [auto|lia]|]. split; [auto|]. split; [contradiction|contradiction]. }
  destruct (libc_mmap s len PROT_NONE BAnon ans) as [s1 r] eqn:E. cbn [fst snd] in H. injection H as -> <-. exists r. split; [reflexivity|].
  destruct (libc_mmap_eq _ _ _ _ _ _ _ E) as [(-> & -> & ->)|(a & -> & -> & Es)].
  - split; [split; [auto|lia]|]. split; [contradiction|]. split; [auto|contradiction].
  - destruct Ht as (Ha & _ & _ & _ & T & _). specialize (T ltac:(discriminate)). subst a. split.
    + split; [intros Q; edestruct aligned_i32; eauto|]. intros Q. rewrite Q in Es. apply (f_equal s_next) in Es. cbn in Es. lia.
    + split; [contradiction|]. split; [discriminate|]. intros _. apply to_i32_mod.
Qed.
