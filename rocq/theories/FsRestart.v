(** A clean shutdown followed by a start: the shape of the world that it
    leaves, for the proofs about histories that include restarts. *)
From Verif Require Import Base PathModel PathSpec PathProofs FsModel FsBoot FsSpec FsWalk Count FsNames FsTr FsInv FsInv2
  FsSteps FsSteps2 FsFrame FsReachSpec FsWinv FsNameSpec FsPath FsOps FsTmp.
Local Open Scope list_scope.
Local Open Scope Z_scope.
Opaque all_fds next_fd.

(** *** The root directory is referenced twice at start-up *)
Definition rooted (t : gmap Z inode) : gmap Z inode :=
  match t !! ROOTINO with Some r => <[ROOTINO := set_ref (i_ref r + 2) r]> t | None => t end.

Lemma incref_done t r : t !! ROOTINO = Some r -> i_kind r = KDir -> incref_root t = Done (<[ROOTINO := set_ref (i_ref r + 1) r]> t).
Proof. intros Hr Hk. unfold incref_root. rewrite Hr, Hk. reflexivity. Qed.

Lemma incref_twice t r : t !! ROOTINO = Some r -> i_kind r = KDir -> (do t1 <- incref_root t; incref_root t1) = Done (rooted t).
Proof.
  intros Hr Hk. rewrite (incref_done t r Hr Hk). cbn [obind]. rewrite (incref_done _ (set_ref (i_ref r + 1) r)); [|apply lookup_insert|exact Hk].
  rewrite insert_insert. unfold rooted. rewrite Hr. f_equal. f_equal. unfold set_ref. cbn. f_equal. lia.
Qed.

Lemma obind_assoc2 {A B C} (o : outcome A) (f : A -> outcome B) (g : B -> outcome C) :
  (do x <- o; do y <- f x; g y) = (do y <- (do x <- o; f x); g y).
Proof. destruct o; reflexivity. Qed.

(** The world of a start-up with the table and the host files of [w] *)
Record starts (w w' : world) : Prop := {
  ss_ino : w_ino w' = rooted (strip <$> w_ino w);
  ss_next : w_next w' = w_next w;
  ss_host : d_host (w_disk w') = d_host (w_disk w);
  ss_meta : d_meta (w_disk w') = Some (Image (w_next w) (strip <$> w_ino w));
  ss_log : d_log (w_disk w') = Some [];
  ss_cwd : w_cwd w' = <[0 := []]> (<[1 := []]> ∅);
  ss_fds : w_fds w' = init_fdtable 0 (init_fdtable 1 ∅);
  ss_fobj : w_fobj w' = ∅;
  ss_pipes : w_pipes w' = ∅;
  ss_npipe : w_npipe w' = 0
}.

Lemma save_starts w r : w_ino w !! ROOTINO = Some r -> i_kind r = KDir ->
  exists w', boot_core (w_disk (save w)) = Done w' /\ starts w w'.
Proof.
  intros Hr Hk.
  assert (Hr' : (strip <$> w_ino w) !! ROOTINO = Some (strip r)) by (rewrite lookup_fmap, Hr; reflexivity).
  unfold boot_core, load_fs.
  assert (E : d_meta (w_disk (save w)) = Some (Image (w_next w) (strip <$> w_ino w)) /\ d_log (w_disk (save w)) = None /\ d_host (w_disk (save w)) = d_host (w_disk w)).
  { unfold save. cbn. destruct (d_log (w_disk w)) eqn:El; cbn; auto. }
  destruct E as (E1 & E2 & E3). rewrite E1, E2. cbn [im_tab im_next].
  rewrite obind_assoc2, (incref_twice _ (strip r) Hr' Hk). cbn [obind]. eexists. split; [reflexivity|]. constructor; try reflexivity; cbn; assumption.
Qed.

(** *** Emptying /tmp *)
Definition has_dir (w : world) : Prop := exists i x, resolves (w_ino w) ["tmp"] i /\ w_ino w !! i = Some x /\ i_kind x = KDir.

Lemma cleartmp_goes disp init w w' : okw w -> wr ["tmp"] w -> cleartmp init w = Done w' ->
  goes disp ["tmp"] w w' /\ (init = true -> has_dir w) \/
  init = true /\ (forall i, ~ resolves (w_ino w) ["tmp"] i) /\ exists r, step w 0 (Mkdir "/tmp" S_IRWXA) = Done (w', Ret r).
Proof.
  intros Hok Hwr H. unfold cleartmp in H. destruct (w_cwd w !! 0) as [cwd|] eqn:Hcwd.
  2:{ rewrite bool_decide_true in H by reflexivity. discriminate H. }
  rewrite bool_decide_false in H by discriminate.
  assert (E : normpath [] "/tmp" = ["tmp"]) by reflexivity. assert (Ha : absolute "/tmp") by (unfold absolute; eauto).
  destruct (stat_syscall w [] "/tmp") as [s|] eqn:Es; cbn [obind] in H; [|discriminate H].
  assert (Hv : forall n, visit (deltree n) n "/tmp" w = Done w' -> goes disp ["tmp"] w w' /\ (init = true -> has_dir w)).
  { intros n Hv. destruct (visit_goes disp _ "/tmp" _ n w w' (deltree_goes disp n) Ha E Hok ltac:(rewrite Hcwd; eauto) Hwr Hv) as [A B]. split; [exact A|]. intros _. exact B. }
  assert (Hm : forall o, s = o -> (if init then do r <- mkdir_syscall w [] "/tmp" S_IRWXA; Done (fst r) else Done w) = Done w' ->
     (forall i, ~ resolves (w_ino w) ["tmp"] i) -> goes disp ["tmp"] w w' /\ (init = true -> has_dir w) \/
  init = true /\ (forall i, ~ resolves (w_ino w) ["tmp"] i) /\ exists r, step w 0 (Mkdir "/tmp" S_IRWXA) = Done (w', Ret r)).
  { intros o _ Hi Hno. destruct init; [|injection Hi as <-; left; split; [apply goes_refl|discriminate]]. right. split; [reflexivity|]. split; [exact Hno|].
    destruct (mkdir_syscall w [] "/tmp" S_IRWXA) as [[w1 r]|] eqn:Em; cbn [obind fst] in Hi; [|discriminate Hi]. injection Hi as <-.
    exists r. unfold step. rewrite Hcwd. unfold ret.
    replace (mkdir_syscall w cwd "/tmp" S_IRWXA) with (mkdir_syscall w [] "/tmp" S_IRWXA); [rewrite Em; reflexivity|].
    unfold mkdir_syscall. rewrite (normpath_absolute [] cwd "/tmp" Ha). reflexivity. }
  unfold stat_syscall in Es. rewrite E in Es. destruct (metawalk (w_ino w) ["tmp"]) as [[i|]|] eqn:Ew; cbn [obind] in Es; [| |discriminate Es].
  - destruct (get_ino w i) as [x|] eqn:Hx; cbn [obind] in Es; [|discriminate Es]. injection Es as <-. left.
    unfold stat_of in H. destruct (i_kind x) in H; exact (Hv _ H).
  - injection Es as <-. apply (Hm _ eq_refl H). intros i Hr.
    assert (Hroot : is_Some (w_ino w !! ROOTINO)) by (destruct (n_root _ _ (v_n _ (u_inv _ (proj1 Hok)))) as (r & Hr' & _); eauto).
    rewrite (resolves_metawalk _ _ _ Hroot Hr) in Ew. discriminate Ew.
Qed.

(** *** All processes exit *)
Lemma exit_fold disp l : forall w w', NoDup l -> okw w -> (forall c, c ∈ l -> is_Some (w_cwd w !! c)) ->
  fold_left (fun o c => do w <- o; do r <- exit_syscall w c 0; Done (fst r)) l (Done w) = Done w' ->
  later disp w w' /\ still w w' /\ (forall c, w_cwd w' !! c = if bool_decide (c ∈ l) then None else w_cwd w !! c).
Proof.
  induction l as [|c l IH]; intros w w' Hnd Hok Hl H.
  { cbn in H. injection H as <-. split; [constructor|]. split; [apply still_refl|]. intros c. rewrite bool_decide_false by (apply not_elem_of_nil). reflexivity. }
  apply NoDup_cons in Hnd as [Hc Hnd]. cbn [fold_left obind] in H.
  destruct (exit_syscall w c 0) as [[w1 r]|] eqn:Ee; cbn [obind fst] in H.
  2:{ exfalso. clear -H. induction l as [|a l IH]; [discriminate H|exact (IH H)]. }
  destruct (Hl c ltac:(left)) as [cwd Hcwd].
  assert (Hs : step w c (Exit 0) = Done (w1, Ret r)) by (unfold step; rewrite Hcwd; unfold ret; rewrite Ee; reflexivity).
  assert (Hrng : forall a fd d, w_fds w !! (a, fd) = Some d -> 0 <= fd < MAXFD) by (intros a fd d Hd; apply (u_key _ (proj1 Hok)) in Hd as [? _]; assumption).
  destruct (exit_trs disp _ _ _ _ _ (u_inv _ (proj1 Hok)) Hrng Ee) as (_ & _ & E & _).
  pose proof (step_ok disp _ _ _ _ _ Hok Hs I) as Hok1.
  destruct (IH w1 w' Hnd Hok1) as (A1 & A2 & A3).
  - intros a Ha. rewrite E, lookup_delete_ne by congruence. apply Hl. right. exact Ha.
  - exact H.
  - split; [exact (later_trans _ _ _ _ (later_one _ _ _ _ _ _ Hs I) A1)|].
    split; [exact (still_trans _ _ _ (exit_still _ _ _ _ _ (u_inv _ (proj1 Hok)) Ee) A2)|].
    intros a. rewrite A3, E. destruct (decide (a = c)) as [->|Hne].
    + rewrite lookup_delete, (bool_decide_true (c ∈ c :: l)) by left. destruct (bool_decide _); reflexivity.
    + rewrite lookup_delete_ne by congruence. assert (Hiff : a ∈ c :: l <-> a ∈ l) by (rewrite elem_of_cons; tauto).
      rewrite (bool_decide_ext _ _ Hiff). reflexivity.
Qed.

Lemma filter_NoDup {A} (p : A -> bool) (l : list A) : NoDup l -> NoDup (List.filter p l).
Proof.
  induction 1 as [|a l Ha _ IH]; [constructor|]. cbn. destruct (p a); [|exact IH]. constructor; [|exact IH].
  intros Hc. apply Ha. apply elem_of_list_In in Hc. apply List.filter_In in Hc as [Hc _]. apply elem_of_list_In. exact Hc.
Qed.

Lemma live_elem (m : gmap Z (list string)) n : (forall c p, m !! c = Some p -> 0 <= c < n) ->
  forall c, c ∈ List.filter (fun c => bool_decide (is_Some (m !! c))) (seqZ 0 n) <-> is_Some (m !! c).
Proof.
  intros H c. rewrite elem_of_list_In, List.filter_In, bool_decide_eq_true, <- elem_of_list_In, elem_of_seqZ.
  split; [tauto|]. intros [p Hp]. pose proof (H _ _ Hp). split; [lia|]. eauto.
Qed.

Lemma exit_list disp w w' l : okw w -> NoDup l -> (forall c, c ∈ l <-> is_Some (w_cwd w !! c)) ->
  fold_left (fun o c => do w <- o; do r <- exit_syscall w c 0; Done (fst r)) l (Done w) = Done w' ->
  later disp w w' /\ still w w' /\ w_cwd w' = ∅ /\ w_fds w' = ∅.
Proof.
  intros Hok Hnd Hel H.
  destruct (exit_fold disp l w w' Hnd Hok (fun c => proj1 (Hel c)) H) as (A1 & A2 & A3).
  split; [exact A1|]. split; [exact A2|].
  assert (Hcw : w_cwd w' = ∅).
  { apply map_eq. intros c. rewrite A3, lookup_empty. case_bool_decide as Hb; [reflexivity|]. rewrite Hel in Hb.
    destruct (w_cwd w !! c); [exfalso; apply Hb; eauto|reflexivity]. }
  split; [exact Hcw|]. apply map_eq. intros [c fd]. rewrite lookup_empty. destruct (w_fds w' !! (c, fd)) as [d|] eqn:Ed; [|reflexivity].
  exfalso. pose proof (later_ok _ _ _ A1 Hok) as [Hw' _]. apply (u_key _ Hw') in Ed as [_ [p Hp]]. rewrite Hcw, lookup_empty in Hp. discriminate Hp.
Qed.

Opaque seqZ.
Strategy expand [exit_all].
Lemma exit_all_post disp w w' : okw w -> exit_all w = Done w' ->
  later disp w w' /\ still w w' /\ w_cwd w' = ∅ /\ w_fds w' = ∅.
Proof.
  intros Hok H. unfold exit_all in H. refine (exit_list disp w w' _ Hok _ (live_elem _ _ (u_cage _ (proj1 Hok))) H).
  apply filter_NoDup, NoDup_seqZ.
Qed.

(** *** The invariants hold at the start *)
Lemma rooted_get t i y : rooted t !! i = Some y -> exists z r, t !! i = Some z /\ y = set_ref r z /\ (i <> ROOTINO -> y = z) /\ i_ref z <= r.
Proof.
  unfold rooted. destruct (t !! ROOTINO) as [r|] eqn:Hr.
  - destruct (decide (ROOTINO = i)) as [<-|Hne].
    + rewrite lookup_insert. intros [= <-]. exists r, (i_ref r + 2). split; [exact Hr|]. split; [reflexivity|]. split; [congruence|lia].
    + rewrite lookup_insert_ne by assumption. intros Hy. exists y, (i_ref y). split; [exact Hy|]. split; [destruct y; reflexivity|]. split; [auto|lia].
  - intros Hy. exists y, (i_ref y). split; [exact Hy|]. split; [destruct y; reflexivity|]. split; [auto|lia].
Qed.

Lemma starts_get w w' i y : starts w w' -> w_ino w' !! i = Some y ->
  exists x r, w_ino w !! i = Some x /\ y = set_ref r x /\ 0 <= r /\ (i <> ROOTINO -> r = 0).
Proof.
  intros H Hy. rewrite (ss_ino _ _ H) in Hy. apply rooted_get in Hy as (z & r & Hz & -> & Hne & Hr).
  rewrite lookup_fmap in Hz. destruct (w_ino w !! i) as [x|]; [|discriminate Hz]. injection Hz as <-. cbn in Hr.
  destruct (decide (i = ROOTINO)) as [->|Hi].
  - exists x, r. split; [reflexivity|]. split; [reflexivity|]. split; [exact Hr|congruence].
  - exists x, 0. split; [reflexivity|]. rewrite (Hne Hi). split; [reflexivity|]. split; [lia|auto].
Qed.

Lemma starts_put w w' i x : starts w w' -> w_ino w !! i = Some x -> exists r, w_ino w' !! i = Some (set_ref r x).
Proof.
  intros H Hx. rewrite (ss_ino _ _ H). unfold rooted. rewrite !lookup_fmap.
  assert (E : (strip <$> w_ino w) !! i = Some (set_ref 0 x)) by (rewrite lookup_fmap, Hx; reflexivity).
  destruct (w_ino w !! ROOTINO) as [r|] eqn:Hr; cbn [fmap option_fmap option_map].
  - destruct (decide (ROOTINO = i)) as [<-|Hne].
    + rewrite lookup_insert. exists 2. rewrite Hr in Hx. injection Hx as ->. reflexivity.
    + rewrite lookup_insert_ne by assumption. eauto.
  - eauto.
Qed.

Lemma starts_still w w' : starts w w' -> still w w'.
Proof.
  intros H. constructor.
  - apply map_eq. intros [d f]. rewrite !names_lookup. destruct (dotb f); [reflexivity|].
    destruct (w_ino w !! d) as [x|] eqn:Hx.
    + destruct (starts_put _ _ _ _ H Hx) as [r Hr]. rewrite Hr. reflexivity.
    + destruct (w_ino w' !! d) as [y|] eqn:Hy; [|reflexivity]. apply (starts_get _ _ _ _ H) in Hy as (x & r & Hx' & _). congruence.
  - intros i x _ Hx. destruct (starts_put _ _ _ _ H Hx) as [r Hr]. exists (set_ref r x). unfold bytes. rewrite (ss_host _ _ H).
    split; [exact Hr|]. auto 10.
Qed.

Lemma start_fd w w' k d : starts w w' -> w_fds w' !! k = Some d -> (exists s fl, d = FStream s fl) /\ 0 <= k.2 < MAXFD /\ (k.1 = 0 \/ k.1 = 1).
Proof.
  intros H. rewrite (ss_fds _ _ H). unfold init_fdtable, MAXFD. intros Hk.
  repeat (apply lookup_insert_Some in Hk as [[<- <-]|[_ Hk]]; [cbn; split; [eauto|split; [lia|auto]]|]).
  rewrite lookup_empty in Hk. discriminate Hk.
Qed.

Lemma starts_winv w w' : winv w -> w_fds w = ∅ -> starts w w' -> winv w'.
Proof.
  intros Hw Hfd H. pose proof (u_inv _ Hw) as Hi. pose proof (v_n _ Hi) as Hn. pose proof (st_names _ _ (starts_still _ _ H)) as En. cbn in Hn.
  assert (Hn0 : forall i, nfds (w_fds w') i = 0).
  { intros i. apply cnt_all_false. intros k d Hk. destruct (start_fd _ _ _ _ H Hk) as [(s & fl & ->) _]. reflexivity. }
  constructor.
  - constructor; cbn.
    + constructor.
      * destruct (n_root _ _ Hn) as (r & Hr & Hk). destruct (starts_put _ _ _ _ H Hr) as [q Hq]. eauto.
      * intros i y Hy. destruct (starts_get _ _ _ _ H Hy) as (x & r & Hx & -> & _). rewrite (ss_next _ _ H). exact (n_range _ _ Hn _ _ Hx).
      * intros i y Hy. destruct (starts_get _ _ _ _ H Hy) as (x & r & Hx & -> & _). exact (n_sock _ _ Hn _ _ Hx).
      * intros i y Hy. destruct (starts_get _ _ _ _ H Hy) as (x & r & Hx & -> & _). exact (n_flat _ _ Hn _ _ Hx).
      * intros d f i Hk. rewrite En in Hk. destruct (n_ent _ _ Hn _ _ _ Hk) as [[x Hx] Hne]. split; [|exact Hne].
        destruct (starts_put _ _ _ _ H Hx) as [q Hq]. eauto.
      * intros i y k k' Hy. destruct (starts_get _ _ _ _ H Hy) as (x & r & Hx & -> & _). rewrite En. exact (n_one _ _ Hn _ _ _ _ Hx).
      * intros i y d f Hy. destruct (starts_get _ _ _ _ H Hy) as (x & r & Hx & -> & _). rewrite En. exact (n_up _ _ Hn _ _ _ _ Hx).
      * intros i y Hy. destruct (starts_get _ _ _ _ H Hy) as (x & r & Hx & -> & _). exact (n_dots _ _ Hn _ _ Hx).
      * intros i y Hy. destruct (starts_get _ _ _ _ H Hy) as (x & r & Hx & -> & _). unfold nnames. rewrite En. exact (n_link _ _ Hn _ _ Hx).
      * intros i y Hy. destruct (starts_get _ _ _ _ H Hy) as (x & r & Hx & -> & _). unfold nkids. rewrite En. exact (n_dlink _ _ Hn _ _ Hx).
    + constructor.
      * intros k i pos fl Hk. destruct (start_fd _ _ _ _ H Hk) as [(s & fl' & E) _]. discriminate E.
      * intros i y Hy. rewrite Hn0. destruct (starts_get _ _ _ _ H Hy) as (x & r & Hx & -> & Hr0 & Hr).
        destruct (r_ref _ _ (v_r _ Hi) _ _ Hx) as [O1 O2]. cbn in O1, O2. rewrite Hfd in O1. unfold nfds in O1. rewrite cnt_empty in O1.
        split; cbn; intros Hk; [|exact Hr0]. destruct (O1 Hk) as [E1 E2]. assert (i <> ROOTINO).
        { intros ->. destruct (n_root _ _ Hn) as (z & Hz & Hzk). congruence. }
        split; [auto|]. left. destruct E2 as [E2|E2]; [exact E2|lia].
    + intros i. pose proof (v_d _ Hi i) as Hd. cbn in Hd. rewrite (ss_fobj _ _ H), (ss_host _ _ H), lookup_empty.
      destruct (w_ino w' !! i) as [y|] eqn:Hy.
      * destruct (starts_get _ _ _ _ H Hy) as (x & r & Hx & -> & Hr0 & Hr). rewrite Hx in Hd. cbn in *. unfold isfile in *. cbn.
        destruct (i_kind x) eqn:Ek; try (split; [reflexivity|apply Hd]). assert (i <> ROOTINO).
        { intros ->. destruct (n_root _ _ Hn) as (z & Hz & Hzk). congruence. }
        rewrite (Hr H0). split; [reflexivity|]. apply Hd.
      * destruct (w_ino w !! i) as [x|] eqn:Hx; [destruct (starts_put _ _ _ _ H Hx); congruence|]. cbn in *. split; [reflexivity|apply Hd].
    + rewrite (ss_pipes _ _ H). constructor.
      * intros k pid fl Hk. destruct (start_fd _ _ _ _ H Hk) as [(s & fl' & E) _]. discriminate E.
      * intros pid p Hp. rewrite lookup_empty in Hp. discriminate Hp.
  - intros c p Hc. rewrite (ss_cwd _ _ H) in Hc. apply lookup_insert_Some in Hc as [[_ <-]|[_ Hc]]; [constructor|].
    apply lookup_insert_Some in Hc as [[_ <-]|[_ Hc]]; [constructor|]. rewrite lookup_empty in Hc. discriminate Hc.
  - intros c fd d Hk. destruct (start_fd _ _ _ _ H Hk) as (_ & Hr & Hc). split; [exact Hr|]. rewrite (ss_cwd _ _ H). cbn in Hc.
    destruct Hc as [->| ->]; [rewrite lookup_insert|rewrite lookup_insert_ne, lookup_insert by discriminate]; eauto.
  - intros c p Hc. rewrite (ss_cwd _ _ H) in Hc. unfold MAXCAGE. apply lookup_insert_Some in Hc as [[<- _]|[_ Hc]]; [lia|].
    apply lookup_insert_Some in Hc as [[<- _]|[_ Hc]]; [lia|]. rewrite lookup_empty in Hc. discriminate Hc.
Qed.

Lemma starts_good w w' : goodt (w_ino w) -> starts w w' -> goodt (w_ino w').
Proof. intros Hg H i y Hy. destruct (starts_get _ _ _ _ H Hy) as (x & r & Hx & -> & _). exact (Hg _ _ Hx). Qed.

Lemma starts_inv2 w w' : inv2 (w_ino w) (w_next w) -> starts w w' -> inv2 (w_ino w') (w_next w').
Proof.
  intros I2 H. pose proof (st_names _ _ (starts_still _ _ H)) as En. rewrite (ss_next _ _ H). constructor.
  - intros i y Hy. destruct (starts_get _ _ _ _ H Hy) as (x & r & Hx & -> & _). unfold nnames. rewrite En. exact (s_link _ _ I2 _ _ Hx).
  - intros i y Hy. destruct (starts_get _ _ _ _ H Hy) as (x & r & Hx & -> & _). unfold nkids. rewrite En. exact (s_dlink _ _ I2 _ _ Hx).
  - intros d f i. unfold named. rewrite En. exact (s_kids _ _ I2 d f i).
  - intros k. rewrite En. exact (s_seven _ _ I2 k).
  - exact (s_next _ _ I2).
Qed.

(** *** The whole of it *)
Record restarted (disp : bool) (w w3 w4 w' : world) : Prop := {
  rs_later : later disp w w3;
  rs_keeps : keeps ["tmp"] w w3;
  rs_cwd : w_cwd w3 = ∅;
  rs_fds : w_fds w3 = ∅;
  rs_starts : starts w3 w4;
  rs_later2 : later disp w4 w';
  rs_end : keeps ["tmp"] w4 w' /\ has_dir w4 \/
    (forall i, ~ resolves (w_ino w4) ["tmp"] i) /\ exists r, step w4 0 (Mkdir "/tmp" S_IRWXA) = Done (w', Ret r)
}.

Lemma canonical_tmp : canonical ["tmp"].
Proof. constructor; [|constructor]. repeat split; (discriminate || reflexivity). Qed.

Lemma wr_ok w : can_stop w -> wr ["tmp"] w.
Proof.
  intros [_ H] i x Hr Hx Hk. specialize (H _ _ Hr Hx Hk). unfold writable in H. unfold no_write_bits.
  change (Z.lor (Z.lor S_IWOTH S_IWGRP) S_IWUSR) with 146. lia.
Qed.

Lemma restart_shape disp w w' : okw w -> can_stop w -> restarts w w' -> exists w3 w4, restarted disp w w3 w4 w'.
Proof.
  intros Hok Hst (w1 & Hf & Hb). pose proof (wr_ok _ Hst) as Hwr. destruct Hst as [Hds _]. unfold finalize in Hf.
  rewrite Hds, elements_empty in Hf. cbn [fold_left obind] in Hf.
  destruct (cleartmp false w) as [w2|] eqn:Ec; cbn [obind] in Hf; [|discriminate Hf].
  destruct (exit_all w2) as [w3|] eqn:Ee; cbn [obind] in Hf; [|discriminate Hf]. injection Hf as <-.
  destruct (cleartmp_goes disp false w w2 Hok Hwr Ec) as [[(G1 & G2 & G3) _]|[E _]]; [|discriminate E].
  pose proof (later_ok _ _ _ G1 Hok) as Hok2. destruct (exit_all_post disp _ _ Hok2 Ee) as (X1 & X2 & X3 & X4).
  pose proof (later_ok _ _ _ X1 Hok2) as Hok3.
  assert (K3 : keeps ["tmp"] w w3).
  { apply (keeps_trans _ _ w2); [exact G2| |exact canonical_tmp].
    exact (still_keeps _ _ _ _ _ (v_n _ (u_inv _ (proj1 Hok2))) (v_n _ (u_inv _ (proj1 Hok3))) canonical_tmp X2). }
  destruct (n_root _ _ (v_n _ (u_inv _ (proj1 Hok3)))) as (r & Hr & Hk). cbn in Hr.
  destruct (save_starts w3 r Hr Hk) as (w4 & E4 & S4). unfold boot in Hb. rewrite E4 in Hb. cbn [obind] in Hb.
  assert (Hok4 : okw w4) by (split; [exact (starts_winv _ _ (proj1 Hok3) X4 S4)|exact (starts_good _ _ (proj2 Hok3) S4)]).
  assert (K4 : keeps ["tmp"] w3 w4) by exact (still_keeps _ _ _ _ _ (v_n _ (u_inv _ (proj1 Hok3))) (v_n _ (u_inv _ (proj1 Hok4))) canonical_tmp (starts_still _ _ S4)).
  pose proof (wr_keeps _ _ _ Hok3 canonical_tmp K4 (wr_keeps _ _ _ Hok canonical_tmp K3 Hwr)) as Hwr4.
  exists w3, w4. constructor; try assumption; [exact (later_trans _ _ _ _ G1 X1)| |].
  - destruct (cleartmp_goes disp true w4 w' Hok4 Hwr4 Hb) as [[(B1 & _) _]|(_ & _ & q & Hq)]; [exact B1|exact (later_one _ _ _ _ _ _ Hq I)].
  - destruct (cleartmp_goes disp true w4 w' Hok4 Hwr4 Hb) as [[(_ & B & _) B']|(_ & Hno & q & Hq)]; [left; split; [exact B|exact (B' eq_refl)]|right; eauto].
Qed.

Lemma restart_ok w w' : okw w -> can_stop w -> restarts w w' -> okw w'.
Proof.
  intros Hok Hs Hr. destruct (restart_shape true w w' Hok Hs Hr) as (w3 & w4 & R).
  pose proof (later_ok _ _ _ (rs_later _ _ _ _ _ R) Hok) as Hok3. apply (later_ok _ _ _ (rs_later2 _ _ _ _ _ R)).
  split; [exact (starts_winv _ _ (proj1 Hok3) (rs_fds _ _ _ _ _ R) (rs_starts _ _ _ _ _ R))|exact (starts_good _ _ (proj2 Hok3) (rs_starts _ _ _ _ _ R))].
Qed.

Lemma later_inv2 w w' : later false w w' -> winv w -> inv2 (w_ino w) (w_next w) -> inv2 (w_ino w') (w_next w').
Proof.
  induction 1 as [|w c o w1 r w2 Hs Ht _ IH]; [auto|]. intros Hw I2. apply (IH (step_winv _ _ _ _ _ _ Hw Hs Ht)).
  apply (trs_inv2 (core_of w) (core_of w1)); [exact (step_trs _ _ _ _ _ _ Hw Hs Ht)|apply Hw|exact I2].
Qed.
