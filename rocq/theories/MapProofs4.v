(** The rules of mmap, what mappings show, and how long. *)
From Verif Require Import Base CodecModel PathModel PathSpec PathProofs FsModel FsBoot FsSpec FsWalk FsNames Count FsTr FsInv FsSteps FsWinv FsReachSpec FsIoSpec FsIo MapModel MapSpec MapProofs1 MapProofs2 MapProofs3.
Local Open Scope list_scope.
Local Open Scope Z_scope.
Opaque all_fds next_fd.

(** ** The rules *)
Lemma flagged_dec len flags : {well_flagged len flags} + {~ well_flagged len flags}.
Proof.
  unfold well_flagged. destruct (Z.eq_dec len 0), (Z.eq_dec (Z.land flags 1) 0), (Z.eq_dec (Z.land flags 2) 0); (left; tauto) || (right; tauto).
Qed.
Lemma flags_test s c len prot flags fd off ans :
  mmap_syscall s c len prot flags fd off ans =
  if flagged_dec len flags then
    if negb (Z.land flags MAP_ANONYMOUS =? 0) then Done (libc_mmap s len prot BAnon ans)
    else
    do d <- fd_slot (s_w s) c fd;
    match d with
    | None => Done (s, err EBADF)
    | Some (FFile i _ fl) =>
        do x <- get_ino (s_w s) i;
        match i_kind x with
        | KChr _ _ => Done (s, err EOPNOTSUPP)
        | KFile =>
            if negb (Z.land fl O_WRONLY =? 0) then Done (s, err EACCES)
            else if negb (Z.land flags MAP_SHARED =? 0) && negb (Z.land prot PROT_WRITE =? 0) && negb (Z.land fl O_RDWR =? O_RDWR) then Done (s, err EACCES)
            else if (off <? 0) || (i_size x <? off) then Done (s, err ENXIO)
            else match w_fobj (s_w s) !! i with
                 | None => Panic
                 | Some _ =>
                     let g := gen s i in
                     Done (libc_mmap s len prot (if Z.land flags MAP_SHARED =? 0 then BPriv i g off else BShared i g off) ans)
                 end
        | _ => Done (s, err EACCES)
        end
    | Some _ => Done (s, err EACCES)
    end
  else Done (s, err EINVAL).
Proof.
  assert (L : Z.land flags (Z.lor MAP_PRIVATE MAP_SHARED) = 0 <-> Z.land flags 1 = 0 /\ Z.land flags 2 = 0).
  { change MAP_PRIVATE with 2. change MAP_SHARED with 1. rewrite Z.land_lor_distr_r, Z.lor_eq_0_iff. tauto. }
  unfold mmap_syscall. destruct (flagged_dec len flags) as [[H1 H2]|H].
  - destruct (Z.eqb_spec len 0); [lia|]. destruct (Z.eqb_spec (Z.land flags (Z.lor MAP_PRIVATE MAP_SHARED)) 0) as [E|E]; [apply L in E; tauto|].
    change MAP_PRIVATE with 2. change MAP_SHARED with 1.
    replace (negb (Z.land flags 2 =? 0) && negb (Z.land flags 1 =? 0)) with false by lia. reflexivity.
  - unfold well_flagged in H. destruct (Z.eqb_spec len 0); [reflexivity|]. destruct (Z.eqb_spec (Z.land flags (Z.lor MAP_PRIVATE MAP_SHARED)) 0) as [E|E]; [reflexivity|].
    rewrite L in E. change MAP_PRIVATE with 2. change MAP_SHARED with 1.
    replace (negb (Z.land flags 2 =? 0) && negb (Z.land flags 1 =? 0)) with true by lia. reflexivity.
Qed.

(** The range of a mapping, found again *)
Lemma new_at s a len prot b : let s' := MState (s_w s) (Mapping a (round_up len) prot (s_next s) b :: s_maps s) (s_gen s) (s_old s) (s_page s) (s_next s + 1) in
  forall x, mapping_at s' x = if (a <=? x) && (x <? a + (len + 4095) / 4096 * 4096) then Some (Mapping a ((len + 4095) / 4096 * 4096) prot (s_next s) b) else mapping_at s x.
Proof. intros s' x. unfold mapping_at, s'. cbn [s_maps find]. unfold covers at 1. cbn [m_lo m_len]. rewrite round_up_eq. reflexivity. Qed.

Lemma mmap_rules past s c addr len prot flags fd off ans s' x : mreach past s -> mstep s (Mmap c addr len prot flags fd off ans) = Done (s', x) ->
  (exists e, refused (s_w s) c len prot flags fd off e /\ s' = s /\ x = MRet (Ret (- e))) \/
  (exists b, allowed s c len prot flags fd off b /\
     ((ans = None /\ s' = s /\ x = MRet (Ret (-1))) \/
      (exists a, ans = Some a /\ x = MRet (Ret (to_i32 a)) /\ s_w s' = s_w s /\ s_gen s' = s_gen s /\ s_old s' = s_old s /\ s_page s' = s_page s /\ s_next s' = s_next s + 1 /\
         (forall y, mapping_at s' y = if (a <=? y) && (y <? a + (len + 4095) / 4096 * 4096) then Some (Mapping a ((len + 4095) / 4096 * 4096) prot (s_next s) b) else mapping_at s y)))).
Proof.
  intros Hr H. apply mreach_minv in Hr as Hi. pose proof (n_w _ _ Hi) as Hw. cbn [mstep] in H. destruct (w_cwd (s_w s) !! c); [|discriminate H].
  rewrite flags_test in H. destruct (flagged_dec len flags) as [Hfl|Hfl].
  2:{ cbn [obind fst snd] in H. injection H as <- <-. left. exists EINVAL. split; [apply ref_flags; exact Hfl|]. split; reflexivity. }
  assert (M : forall b, allowed s c len prot flags fd off b -> forall s1 r, libc_mmap s len prot b ans = (s1, r) ->
     exists b, allowed s c len prot flags fd off b /\
     ((ans = None /\ s1 = s /\ MRet (Ret r) = MRet (Ret (-1))) \/
      (exists a, ans = Some a /\ MRet (Ret r) = MRet (Ret (to_i32 a)) /\ s_w s1 = s_w s /\ s_gen s1 = s_gen s /\ s_old s1 = s_old s /\ s_page s1 = s_page s /\ s_next s1 = s_next s + 1 /\
         (forall y, mapping_at s1 y = if (a <=? y) && (y <? a + (len + 4095) / 4096 * 4096) then Some (Mapping a ((len + 4095) / 4096 * 4096) prot (s_next s) b) else mapping_at s y)))).
  { intros b Hb s1 r E. exists b. split; [exact Hb|]. destruct (libc_mmap_eq _ _ _ _ _ _ _ E) as [(-> & -> & ->)|(a & -> & -> & ->)]; [left; auto|right].
    exists a. repeat (split; [reflexivity|]). apply new_at. }
  change MAP_ANONYMOUS with 32 in H. destruct (Z.eqb_spec (Z.land flags 32) 0) as [Han|Han]; cbn [negb] in H.
  2:{ destruct (libc_mmap s len prot BAnon ans) as [s1 r] eqn:E. cbn [obind fst snd] in H. injection H as <- <-. right. eapply M; [|exact E]. split; [exact Hfl|]. left. auto. }
  assert (F : forall e, refused (s_w s) c len prot flags fd off e -> s' = s -> x = MRet (Ret (- e)) -> exists e, refused (s_w s) c len prot flags fd off e /\ s' = s /\ x = MRet (Ret (- e))) by eauto.
  destruct (fd_slot (s_w s) c fd) as [d|] eqn:Ed; cbn [obind] in H; [|discriminate H].
  assert (Hd : d = w_fds (s_w s) !! (c, fd)) by (unfold fd_slot in Ed; destruct (in_fd_range fd); [injection Ed as <-; reflexivity|discriminate Ed]).
  destruct d as [d|]; symmetry in Hd.
  2:{ cbn [obind fst snd] in H. injection H as <- <-. left. apply (F EBADF); [apply ref_none; auto|reflexivity|reflexivity]. }
  assert (O : (forall i p fl, d <> FFile i p fl) -> Done (s, MRet (Ret (err EACCES))) = Done (s', x) ->
     exists e, refused (s_w s) c len prot flags fd off e /\ s' = s /\ x = MRet (Ret (- e))).
  { intros Hn E. injection E as <- <-. apply (F EACCES); [eapply ref_other; eauto|reflexivity|reflexivity]. }
  destruct d as [i p fl|d1 d2|d1 d2|d1]; cbn [obind fst snd] in H;
    [|left; apply O; [congruence|exact H]|left; apply O; [congruence|exact H]|left; apply O; [congruence|exact H]].
  destruct (open_fd _ _ _ _ _ _ Hw Hd) as (y & Hy & Hfo). unfold get_ino in H. rewrite Hy in H. cbn [obind] in H.
  destruct (i_kind y) as [| |ka kb|] eqn:Ek; cbn [obind fst snd] in H.
  - assert (Hon : on_file (s_w s) c fd i (i_size y) fl) by (exists p, y; auto). change O_WRONLY with 1 in H. change O_RDWR with 2 in H. change MAP_SHARED with 1 in H. change PROT_WRITE with 2 in H.
    assert (A : (negb (Z.land fl 1 =? 0) = true \/ negb (Z.land flags 1 =? 0) && negb (Z.land prot 2 =? 0) && negb (Z.land fl 2 =? 2) = true) <-> ~ mode_allows fl prot flags).
    { unfold mode_allows. destruct (Z.eqb_spec (Z.land fl 1) 0), (Z.eqb_spec (Z.land flags 1) 0), (Z.eqb_spec (Z.land prot 2) 0), (Z.eqb_spec (Z.land fl 2) 2); cbn; split; intros Q; try tauto; try (destruct Q; discriminate); exfalso; apply Q; split; try assumption; try tauto. }
    destruct (negb (Z.land fl 1 =? 0)) eqn:A1.
    { cbn [obind fst snd] in H. injection H as <- <-. left. apply (F EACCES); [eapply ref_mode; eauto; apply A; auto|reflexivity|reflexivity]. }
    destruct (negb (Z.land flags 1 =? 0) && negb (Z.land prot 2 =? 0) && negb (Z.land fl 2 =? 2)) eqn:A2.
    { cbn [obind fst snd] in H. injection H as <- <-. left. apply (F EACCES); [eapply ref_mode; eauto; apply A; auto|reflexivity|reflexivity]. }
    assert (Am : mode_allows fl prot flags).
    { unfold mode_allows. destruct (Z.eqb_spec (Z.land fl 1) 0); [|discriminate A1]. split; [assumption|]. intros B1 B2. apply Z.eqb_neq in B1, B2. rewrite B1, B2 in A2. cbn in A2. destruct (Z.eqb_spec (Z.land fl 2) 2); [assumption|discriminate A2]. }
    destruct ((off <? 0) || (i_size y <? off)) eqn:A3.
    { cbn [obind fst snd] in H. injection H as <- <-. left. apply (F ENXIO); [eapply ref_off; eauto; lia|reflexivity|reflexivity]. }
    rewrite (Hfo eq_refl) in H. cbv zeta in H. destruct (libc_mmap s len prot _ ans) as [s1 r] eqn:E. cbn [obind fst snd] in H. injection H as <- <-. right. eapply M; [|exact E].
    split; [exact Hfl|]. right. split; [exact Han|]. exists i, (i_size y), fl. split; [exact Hon|]. split; [exact Am|]. split; [lia|reflexivity].
  - injection H as <- <-. left. apply (F EACCES); [eapply ref_kind; eauto|reflexivity|reflexivity].
  - injection H as <- <-. left. apply (F EOPNOTSUPP); [eapply ref_chr; eauto|reflexivity|reflexivity].
  - injection H as <- <-. left. apply (F EACCES); [eapply ref_kind; eauto|reflexivity|reflexivity].
Qed.
Lemma rules_exclusive s c len prot flags fd off b e : allowed s c len prot flags fd off b -> refused (s_w s) c len prot flags fd off e -> False.
Proof.
  intros [Hf [[Ha _]|(Ha & i & size & fl & (p & x & H1 & H2 & H3 & H4) & Hm & Ho & _)]] Hr.
  - destruct Hr; congruence.
  - destruct Hr as [?|_ _ G|d _ _ G Gn|j q g y _ _ G Gx Gk|j q g y ka kb _ _ G Gx Gk|j sz g _ _ (q & y & G & G2 & G3 & G4) Gm|j sz g _ _ (q & y & G & G2 & G3 & G4) Gm Go]; [contradiction|congruence|..].
    + rewrite H1 in G. injection G as <-. edestruct Gn. reflexivity.
    + rewrite H1 in G. injection G as <- <- <-. rewrite H2 in Gx. injection Gx as <-. destruct Gk; congruence.
    + rewrite H1 in G. injection G as <- <- <-. rewrite H2 in Gx. injection Gx as <-. congruence.
    + rewrite H1 in G. injection G as <- <- <-. contradiction.
    + rewrite H1 in G. injection G as <- <- <-. rewrite H2 in G2. injection G2 as <-. subst. contradiction.
Qed.
Lemma mmap_aborts past s c addr len prot flags fd off ans : mreach past s ->
  mstep s (Mmap c addr len prot flags fd off ans) = Panic <->
  (w_cwd (s_w s) !! c = None \/ (well_flagged len flags /\ Z.land flags 32 = 0 /\ ~ 0 <= fd < 1024)).
Proof.
  intros Hr. apply mreach_minv in Hr as Hi. pose proof (n_w _ _ Hi) as Hw. cbn [mstep]. destruct (w_cwd (s_w s) !! c) as [cwd|]; [|split; auto].
  rewrite flags_test. destruct (flagged_dec len flags) as [Hfl|Hfl]; [|cbn [obind]; split; [discriminate|intros [|[]]; [discriminate|contradiction]]].
  change MAP_ANONYMOUS with 32. destruct (Z.eqb_spec (Z.land flags 32) 0) as [Han|Han]; cbn [negb].
  2:{ destruct (libc_mmap s len prot BAnon ans); cbn [obind]. split; [discriminate|intros [|(_ & ? & _)]; [discriminate|contradiction]]. }
  unfold fd_slot. destruct (in_fd_range fd) eqn:Er; unfold in_fd_range, MAXFD in Er; cbn [obind].
  2:{ split; [|reflexivity]. intros _. right. split; [exact Hfl|]. split; [exact Han|]. lia. }
  assert (G : forall (u : outcome (mstate * mout)), u <> Panic -> u = Panic <-> (Some cwd = None \/ (well_flagged len flags /\ Z.land flags 32 = 0 /\ ~ 0 <= fd < 1024))).
  { intros u Hu. split; [contradiction|]. intros [Q|(_ & _ & Q)]; [discriminate Q|lia]. }
  apply G. destruct (w_fds (s_w s) !! (c, fd)) as [[i p fl|d1 d2|d1 d2|d1]|] eqn:Ed; cbn [obind]; try discriminate.
  destruct (open_fd _ _ _ _ _ _ Hw Ed) as (y & Hy & Hfo). unfold get_ino. rewrite Hy. cbn [obind]. destruct (i_kind y) eqn:Ek; cbn [obind]; try discriminate.
  do 3 (match goal with |- context [if ?b then _ else match _ with _ => _ end] => destruct b; [discriminate|] | |- context [if ?b then _ else if _ then _ else _] => destruct b; [discriminate|] end). rewrite (Hfo eq_refl). cbv zeta. destruct (libc_mmap _ _ _ _ _); discriminate.
Qed.
