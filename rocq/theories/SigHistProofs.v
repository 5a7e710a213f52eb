(** Proofs about masks and signals as functions of the history *)
From Verif Require Import Base SigModel SigSpec SigProofs SigHistSpec.

#[local] Opaque members.
Definition knows (h : list pop) (w : pworld) : Prop :=
  forall c, match pw_cages w !! c with
  | Some g => alive_in h c = true /\ pc_main g = main_in h c /\ forall t, members <$> pc_sigset g !! t = mask_in h c t
  | None => alive_in h c = false
  end.

Lemma knows_init : knows [] pinit.
Proof.
  intros c. unfold pinit; cbn [pw_cages]. destruct (decide (c = 0)) as [->|N0]; [|destruct (decide (c = 1)) as [->|N1]].
  - rewrite lookup_insert. split; [reflexivity|]. split; [reflexivity|]. intros t. cbn. rewrite lookup_empty. reflexivity.
  - rewrite lookup_insert_ne by lia. rewrite lookup_insert. split; [reflexivity|]. split; [reflexivity|]. intros t. cbn. rewrite lookup_empty. reflexivity.
  - rewrite !lookup_insert_ne by lia. rewrite lookup_empty. cbn. lia.
Qed.

Lemma knows_same h h' w w' : pw_cages w' = pw_cages w -> (forall c, alive_in h' c = alive_in h c) -> (forall c, main_in h' c = main_in h c) ->
  (forall c t, is_Some (pw_cages w !! c) -> mask_in h' c t = mask_in h c t) -> knows h w -> knows h' w'.
Proof.
  intros Ec A M K H c. specialize (H c). rewrite Ec, A. destruct (pw_cages w !! c) as [g|] eqn:Eg; [|exact H]. destruct H as (H1 & H2 & H3).
  split; [exact H1|]. split; [rewrite M; exact H2|]. intros t. rewrite K by (rewrite Eg; eauto). apply H3.
Qed.
Lemma knows_set h h' w c g g' : pw_cages w !! c = Some g -> (forall c', alive_in h' c' = alive_in h c') ->
  (forall c', c' <> c -> main_in h' c' = main_in h c') -> (forall c' t, c' <> c -> mask_in h' c' t = mask_in h c' t) ->
  pc_main g' = main_in h' c -> (forall t, members <$> pc_sigset g' !! t = mask_in h' c t) ->
  knows h w -> knows h' (set_cage w c g').
Proof.
  intros Eg A M K M' K' H c'. unfold set_cage; cbn [pw_cages]. destruct (decide (c' = c)) as [->|N].
  - rewrite lookup_insert. specialize (H c). rewrite Eg in H. destruct H as (H1 & _ & _). rewrite A. auto.
  - rewrite lookup_insert_ne by congruence. specialize (H c'). rewrite A. destruct (pw_cages w !! c') as [x|]; [|exact H]. destruct H as (H1 & H2 & H3).
    split; [exact H1|]. split; [rewrite M by exact N; exact H2|]. intros t. rewrite K by exact N. apply H3.
Qed.
Lemma knows_plain h h' w c g g' : pw_cages w !! c = Some g -> (forall c', alive_in h' c' = alive_in h c') ->
  (forall c', main_in h' c' = main_in h c') -> (forall c' t, mask_in h' c' t = mask_in h c' t) ->
  pc_main g' = pc_main g -> pc_sigset g' = pc_sigset g -> knows h w -> knows h' (set_cage w c g').
Proof.
  intros Eg A M K M' K' H. pose proof (H c) as Hc. rewrite Eg in Hc. destruct Hc as (_ & H2 & H3).
  eapply (knows_set h); [exact Eg|exact A|intros; apply M|intros; apply K| | |exact H]; [rewrite M, M'; exact H2|intros t; rewrite K, K'; apply H3].
Qed.
Lemma knows_born h o w c g m ch g' : pw_cages w !! c = Some g -> pc_sigset g !! pc_main g = Some m -> knows h w ->
  (forall p q, o = PFork p q \/ o = PExec p q -> p = c /\ q = ch) -> (o = PFork c ch \/ o = PExec c ch) ->
  pc_main g' = 0 -> pc_sigset g' = <[0 := m]> ∅ ->
  pc_main g' = main_in (o :: h) ch /\ (forall t, members <$> pc_sigset g' !! t = mask_in (o :: h) ch t) /\ alive_in (o :: h) ch = true.
Proof.
  intros Eg Em H _ Ho M S. pose proof (H c) as Hc. rewrite Eg in Hc. destruct Hc as (_ & H2 & H3).
  assert (X : forall t, members <$> (<[0 := m]> (∅ : gmap Z Z)) !! t = if t =? 0 then mask_in h c (main_in h c) else None).
  { intros t. destruct (Z.eqb_spec t 0) as [->|N]; [rewrite lookup_insert|rewrite lookup_insert_ne, lookup_empty by congruence; reflexivity].
    rewrite <- H2, <- H3, Em. reflexivity. }
  rewrite M, S. destruct Ho as [-> | ->]; cbn [main_in mask_in alive_in]; rewrite Z.eqb_refl; auto.
Qed.

Lemma id_set_main k g v : pc_main (id_set k g v) = pc_main g. Proof. destruct g, k; reflexivity. Qed.
Lemma id_set_sigset k g v : pc_sigset (id_set k g v) = pc_sigset g. Proof. destruct g, k; reflexivity. Qed.

Lemma knows_mask h w c g t' cur s how m' : pw_cages w !! c = Some g -> pc_sigset g !! t' = Some cur -> knows h w ->
  members m' = default (members cur) (requested how (members cur) (members s)) ->
  knows (PSigprocmask c t' how (Some s) :: h) (set_cage w c (set_mask g t' m')).
Proof.
  intros Eg Em H R. pose proof (H c) as Hc. rewrite Eg in Hc. destruct Hc as (_ & H2 & H3).
  eapply (knows_set h); [exact Eg|reflexivity|reflexivity| |exact H2| |exact H].
  - intros c' t N. cbn [mask_in]. replace (c =? c') with false by lia. reflexivity.
  - intros t. cbn [mask_in set_mask pc_sigset]. rewrite Z.eqb_refl. cbn [andb]. destruct (Z.eqb_spec t' t) as [->|N].
    + rewrite lookup_insert, <- H3, Em. cbn. rewrite R. reflexivity.
    + rewrite lookup_insert_ne by congruence. apply H3.
Qed.

Lemma knows_step h w o w' out : knows h w -> pstep w o = Done (w', out) -> knows (o :: h) w'.
Proof.
  intros H Hs.
  destruct o as [c ch|c ch|c st|c|c|c k|c sig act|c tg sig|c tid how set|c tid|c tid sn|c wh new|c|d]; cbn [pstep] in Hs.
  - unfold p_fork in Hs. break_step Hs. apply getref_some in E as [Ec Eg].
    edestruct (knows_born h (PFork c ch) w c a z ch) as (A & B & C); [exact Eg|exact E0|exact H|intros p q [X|X]; [injection X; auto|discriminate X]|auto|..]; cycle 2.
    { intros c'. unfold set_cage; cbn [pw_cages]. destruct (decide (c' = ch)) as [->|N].
      - rewrite lookup_insert. split; [exact C|]. split; [exact A|exact B].
      - rewrite lookup_insert_ne by congruence. specialize (H c'). cbn [alive_in main_in mask_in]. replace (ch =? c') with false by lia. exact H. }
    all: reflexivity.
  - unfold p_exec in Hs. break_step Hs. apply getref_some in E as [Ec Eg].
    edestruct (knows_born h (PExec c ch) w c a z ch) as (A & B & C); [exact Eg|exact E0|exact H|intros p q [X|X]; [discriminate X|injection X; auto]|auto|..]; cycle 2.
    { intros c'. unfold set_cage; cbn [pw_cages]. destruct (decide (c' = ch)) as [->|N].
      - rewrite lookup_insert. split; [exact C|]. split; [exact A|exact B].
      - rewrite lookup_insert_ne by congruence. specialize (H c'). cbn [alive_in main_in mask_in]. replace (ch =? c') with false by lia. cbn [orb]. destruct (Z.eqb_spec c c') as [->|N2].
        + rewrite lookup_delete. reflexivity.
        + rewrite lookup_delete_ne by exact N2. exact H. }
    all: reflexivity.
  - assert (Hd : knows (PExit c st :: h) (PWorld (delete c (pw_cages w)) (pw_now w) (pw_sent w))).
    { intros c'. cbn [pw_cages alive_in main_in mask_in]. specialize (H c'). destruct (Z.eqb_spec c c') as [->|N2]; [rewrite lookup_delete; reflexivity|rewrite lookup_delete_ne by exact N2; exact H]. }
    unfold p_exit in Hs. break_step Hs; [exact Hd|]. eapply knows_same; [apply (kill_from_id_cages _ _ _ _ E1)|..|exact Hd]; reflexivity.
  - unfold p_getpid in Hs. break_step Hs. exact H.
  - unfold p_getppid in Hs. break_step Hs. exact H.
  - unfold p_getid in Hs. break_step Hs; [|exact H]. apply getref_some in E as [Ec Eg].
    eapply (knows_plain h); [exact Eg|reflexivity|reflexivity|reflexivity|apply id_set_main|apply id_set_sigset|exact H].
  - unfold p_sigaction in Hs. break_step Hs; try exact H. apply getref_some in E as [Ec Eg]. eapply (knows_plain h); [exact Eg|reflexivity..|exact H].
  - unfold p_kill in Hs. break_step Hs; exact H.
  - unfold p_sigprocmask in Hs. destruct (getref w c) as [g|] eqn:E; cbn [obind] in Hs; [|discriminate Hs]. apply getref_some in E as [Ec Eg].
    destruct (pc_sigset g !! tid) as [cur|] eqn:Em; [|discriminate Hs]. destruct set as [s|]; [|injection Hs as <- _; exact H].
    unfold SIG_BLOCK, SIG_UNBLOCK, SIG_SETMASK in Hs.
    destruct (how =? 0) eqn:E0; [|destruct (how =? 1) eqn:E1; [|destruct (how =? 2) eqn:E2]]; injection Hs as <- _.
    + eapply knows_mask; [exact Eg|exact Em|exact H|]. unfold requested. rewrite E0. apply members_lor.
    + assert (X : knows (PSigprocmask c tid how (Some s) :: h) (set_cage w c (set_mask g tid (Z.land cur (not_u64 s))))).
      { eapply knows_mask; [exact Eg|exact Em|exact H|]. unfold requested. rewrite E0, E1. apply members_diff. }
      exact X.
    + eapply knows_mask; [exact Eg|exact Em|exact H|]. unfold requested. rewrite E0, E1, E2. reflexivity.
    + eapply (knows_same h); [reflexivity..| |exact H]. intros c' t _. cbn [mask_in]. unfold requested. rewrite E0, E1, E2. destruct ((c =? c') && (tid =? t)); [|reflexivity]. destruct (mask_in h c' t); reflexivity.
  - unfold p_thread_init in Hs. break_step Hs. apply getref_some in E as [Ec Eg]. pose proof (H c) as Hc. rewrite Eg in Hc. destruct Hc as (_ & H2 & H3).
    eapply (knows_set h); [exact Eg|reflexivity| | | | |exact H].
    + intros c' N. cbn [main_in]. replace (c =? c') with false by lia. reflexivity.
    + intros c' t N. cbn [mask_in]. replace (c =? c') with false by lia. reflexivity.
    + cbn [main_in pc_main]. rewrite Z.eqb_refl. reflexivity.
    + intros t. cbn [mask_in pc_sigset]. rewrite Z.eqb_refl. destruct (Z.eqb_spec tid t) as [->|N].
      * rewrite lookup_insert, <- H3. destruct (pc_sigset a !! 0); reflexivity.
      * rewrite lookup_insert_ne by exact N. destruct (Z.eqb_spec t 0) as [->|N0]; [rewrite lookup_delete; reflexivity|]. rewrite lookup_delete_ne by congruence. apply H3.
  - unfold p_gethandler in Hs. destruct (getref w c) as [g|] eqn:E; cbn [obind] in Hs; [|discriminate Hs]. apply getref_some in E as [Ec Eg].
    destruct (pc_sigset g !! tid) as [cur|] eqn:Em; [|discriminate Hs]. destruct (lind_sigismember cur sn) as [b|] eqn:Eb; cbn [obind] in Hs; [|discriminate Hs].
    destruct b; cbn [negb] in Hs; [|unfold done_ret in Hs; injection Hs as <- _; exact H]. unfold lind_sigismember, lind_sigaddset in *.
    destruct (sig_bit sn) as [b|] eqn:Eb2; cbn [obind] in *; [|discriminate Hs]. unfold done_ret in Hs. injection Hs as <- _. pose proof (H c) as Hc. rewrite Eg in Hc. destruct Hc as (_ & H2 & H3).
    eapply (knows_set h); [exact Eg|reflexivity|reflexivity|reflexivity|exact H2| |exact H]. intros t. cbn [mask_in set_mask pc_sigset]. destruct (decide (tid = t)) as [->|N]; [|rewrite lookup_insert_ne by exact N; apply H3].
    rewrite lookup_insert, <- H3, Em. cbn. f_equal. rewrite members_lor. unfold sig_bit in Eb2. destruct ((0 <=? sn - 1) && (sn - 1 <? 64)) eqn:Er; [|discriminate Eb2]. injection Eb2 as <-. injection Eb as Eb.
    assert (Hin : sn ∈ members cur).
    { pose proof (sigismember_spec cur sn ltac:(lia)) as S. unfold lind_sigismember in S. rewrite (sig_bit_ok sn) in S by lia. cbn [obind] in S. rewrite Eb in S. injection S as S. symmetry in S. apply bool_decide_eq_true in S. exact S. }
    apply leibniz_equiv. intros x. rewrite elem_of_union. split; [|auto]. intros [X|X]; [exact X|]. rewrite elem_members in X. rewrite one_bit in X by lia. replace x with sn by lia. exact Hin.
  - unfold p_setitimer in Hs. break_step Hs; try exact H. apply getref_some in E as [Ec Eg]. eapply (knows_plain h); [exact Eg|reflexivity..|exact H].
  - unfold p_tick in Hs. break_step Hs; try exact H; apply getref_some in E as [Ec Eg].
    + pose proof (kill_from_id_cages _ _ _ _ E3) as Hk. eapply (knows_plain h); [rewrite Hk; exact Eg|reflexivity..|]. eapply (knows_same h); [exact Hk|reflexivity..|exact H].
    + eapply (knows_plain h); [exact Eg|reflexivity..|exact H].
  - injection Hs as <- _. exact H.
Qed.
Lemma knows_run h w l w' : knows h w -> prun w l = Some w' -> knows (rev l ++ h) w'.
Proof.
  revert h w. induction l as [|o l IH]; intros h w H Hr; cbn [prun] in Hr.
  - injection Hr as <-. exact H.
  - destruct (pstep w o) as [[w1 out]|] eqn:E; [|discriminate].
    cbn [rev]. rewrite <- app_assoc. cbn [app]. apply (IH (o :: h) w1); [|exact Hr]. eapply knows_step; eauto.
Qed.
Lemma knows_reach l w : prun pinit l = Some w -> knows (rev l) w.
Proof. intros H. rewrite <- (app_nil_r (rev l)). eapply knows_run; [apply knows_init|exact H]. Qed.

Lemma mask_told l w c t how set w' r old : prun pinit l = Some w -> pstep w (PSigprocmask c t how set) = Done (w', OMask r old) ->
  mask_in (rev l) c t = Some (members old).
Proof.
  intros R Hs. pose proof (knows_reach _ _ R c) as K. cbn [pstep] in Hs. unfold p_sigprocmask in Hs. destruct (getref w c) as [g|] eqn:E; cbn [obind] in Hs; [|discriminate Hs]. apply getref_some in E as [Ec Eg].
  rewrite Eg in K. destruct K as (_ & _ & K). rewrite <- K. destruct (pc_sigset g !! t) as [cur|]; [|discriminate Hs]. break_step Hs; reflexivity.
Qed.

Lemma kill_answers l w c p s : prun pinit l = Some w -> 0 <= c < 1024 -> alive_in (rev l) c = true ->
  exists w', pstep w (PKill c p s) = Done (w', ORet (if (p <? 0) || (1024 <=? p) then -22 else if alive_in (rev l) p then 0 else -3)) /\ pw_cages w' = pw_cages w.
Proof.
  intros R Rc A. pose proof (knows_reach _ _ R) as K. cbn [pstep]. unfold p_kill, getref, check_cageid, MAXCAGEID. replace ((0 <=? c) && (c <? 1024)) with true by lia.
  pose proof (K c) as Kc. destruct (pw_cages w !! c) as [g|]; [|congruence]. cbn [obind]. destruct ((p <? 0) || (1024 <=? p)); [exists w; split; reflexivity|].
  pose proof (K p) as Kp. destruct (pw_cages w !! p) as [g'|]; [destruct Kp as (-> & _)|rewrite Kp]; eexists; split; reflexivity.
Qed.

Lemma sent_exactly l w o w' out : prun pinit l = Some w -> pstep w o = Done (w', out) ->
  exists evs, pw_sent w' = pw_sent w ++ evs /\ sends_in (rev l) o evs.
Proof.
  intros R Hs. pose proof (knows_reach _ _ R) as K. pose proof (agrees_reach _ _ R) as A.
  assert (N : forall s : list (Z * Z), exists evs, s = s ++ evs /\ evs = []) by (intros s; exists []; rewrite app_nil_r; auto).
  destruct o as [c ch|c ch|c st|c|c|c k|c sig act|c tg sig|c tid how set|c tid|c tid sn|c wh new|c|d]; cbn [pstep] in Hs; cbn [sends_in].
  - unfold p_fork in Hs. break_step Hs. apply N.
  - unfold p_exec in Hs. break_step Hs. apply N.
  - unfold p_exit in Hs. break_step Hs; apply getref_some in E as [Ec Eg]; destruct (A c a Eg) as (_ & P & _ & _ & Rp & _); rewrite <- P.
    + exists []. rewrite app_nil_r. split; [reflexivity|]. replace (pc_parent a =? c) with true by lia. reflexivity.
    + replace (pc_parent a =? c) with false by lia. cbn [negb andb]. unfold kill_from_id in E1. destruct (check_cageid (pc_parent a)); [|discriminate E1]. cbn [pw_cages] in E1. rewrite lookup_delete_ne in E1 by lia.
      pose proof (K (pc_parent a)) as Kp. destruct (pw_cages w !! pc_parent a) as [g'|].
      * destruct Kp as (-> & <- & _). destruct (pc_main g' =? 0); [discriminate E1|]. injection E1 as <-. eexists. split; reflexivity.
      * rewrite Kp. injection E1 as <-. apply N.
  - unfold p_getpid in Hs. break_step Hs. apply N.
  - unfold p_getppid in Hs. break_step Hs. apply N.
  - unfold p_getid in Hs. break_step Hs; apply N.
  - unfold p_sigaction in Hs. break_step Hs; apply N.
  - unfold p_kill, MAXCAGEID in Hs. break_step Hs.
    + exists []. rewrite app_nil_r. split; [reflexivity|]. replace ((0 <=? tg) && (tg <? 1024)) with false by lia. reflexivity.
    + pose proof (K tg) as Kp. rewrite E1 in Kp. destruct Kp as (-> & <- & _). replace ((0 <=? tg) && (tg <? 1024)) with true by lia. eexists. split; reflexivity.
    + pose proof (K tg) as Kp. rewrite E1 in Kp. rewrite Kp, andb_false_r. apply N.
  - destruct (decide (how = 1)) as [->|Nh].
    + destruct set as [s|].
      * assert (M : exists cur, mask_of w c tid = Some cur /\ check_cageid c = true /\ mask_in (rev l) c tid = Some (members cur)).
        { unfold p_sigprocmask in Hs. destruct (getref w c) as [g|] eqn:E; cbn [obind] in Hs; [|discriminate Hs]. apply getref_some in E as [Ec Eg].
          pose proof (K c) as Kc. rewrite Eg in Kc. destruct Kc as (_ & _ & Kc). unfold mask_of. rewrite Eg. destruct (pc_sigset g !! tid) as [cur|] eqn:Em; [|discriminate Hs]. exists cur. rewrite <- Kc, Em. auto. }
        destruct M as (cur & M & Ec & Mi). destruct (unblock_sends w c tid cur s Ec M) as (w2 & evs & E & S & Nd & X). rewrite E in Hs. injection Hs as <- _.
        exists evs. split; [exact S|]. split; [exact Nd|]. exists (members cur). split; [exact Mi|exact X].
      * unfold p_sigprocmask in Hs. break_step Hs. apply N.
    + assert (X : pw_sent w' = pw_sent w).
      { unfold p_sigprocmask, SIG_UNBLOCK in Hs. replace (how =? 1) with false in Hs by lia. break_step Hs; reflexivity. }
      exists []. rewrite app_nil_r. split; [exact X|]. destruct how as [|[?|?|]|]; try reflexivity. contradiction.
  - unfold p_thread_init in Hs. break_step Hs. apply N.
  - unfold p_gethandler in Hs. break_step Hs; apply N.
  - unfold p_setitimer in Hs. break_step Hs; apply N.
  - unfold p_tick in Hs. destruct (getref w c) as [g|] eqn:E; cbn [obind] in Hs; [|discriminate Hs]. apply getref_some in E as [Ec Eg].
    assert (N' : pw_sent w' = pw_sent w -> exists evs, pw_sent w' = pw_sent w ++ evs /\ (evs = [] \/ evs = [(main_in (rev l) c, 14)])) by (intros X; exists []; rewrite app_nil_r; auto).
    break_step Hs; try (apply N'; reflexivity). destruct (A c g Eg) as (_ & _ & _ & T & _). rewrite T in *. unfold kill_from_id in *.
    match goal with Q : (if check_cageid c then _ else _) = Done _ |- _ => rewrite Ec, Eg in Q; destruct (pc_main g =? 0); [discriminate Q|]; injection Q as <- end.
    pose proof (K c) as Kc. rewrite Eg in Kc. destruct Kc as (_ & <- & _). eexists. split; [reflexivity|]. auto.
  - injection Hs as <- _. apply N.
Qed.

Lemma exit_answers l w c st : prun pinit l = Some w -> 0 <= c < 1024 -> alive_in (rev l) c = true ->
  if negb (parent_in (rev l) c =? c) && alive_in (rev l) (parent_in (rev l) c) && (main_in (rev l) (parent_in (rev l) c) =? 0)
  then pstep w (PExit c st) = Panic
  else exists w', pstep w (PExit c st) = Done (w', ORet st) /\ pw_cages w' = delete c (pw_cages w).
Proof.
  intros R Rc Al. pose proof (knows_reach _ _ R) as K. pose proof (agrees_reach _ _ R) as A. cbn [pstep]. unfold p_exit, getref, check_cageid, MAXCAGEID. replace ((0 <=? c) && (c <? 1024)) with true by lia.
  pose proof (K c) as Kc. destruct (pw_cages w !! c) as [g|] eqn:Eg; [|congruence]. cbn [obind]. destruct (A c g Eg) as (_ & P & _ & _ & Rp & _). rewrite <- P. unfold MAXCAGEID in Rp.
  rewrite (Z.eqb_sym (pc_parent g) c). destruct (Z.eqb_spec c (pc_parent g)) as [E|N]; cbn [negb andb]; [eexists; split; reflexivity|].
  unfold kill_from_id, check_cageid, MAXCAGEID. replace ((0 <=? pc_parent g) && (pc_parent g <? 1024)) with true by lia. cbn [pw_cages]. rewrite lookup_delete_ne by exact N.
  pose proof (K (pc_parent g)) as Kp. destruct (pw_cages w !! pc_parent g) as [g'|].
  - destruct Kp as (-> & <- & _). cbn [andb]. destruct (pc_main g' =? 0); cbn [obind]; [reflexivity|]. eexists. split; reflexivity.
  - rewrite Kp. cbn [andb obind]. eexists. split; reflexivity.
Qed.
