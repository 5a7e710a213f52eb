(** The invariants of a world: every call preserves them, and the first world
    has them. *)
From Verif Require Import Base PathModel PathSpec PathProofs FsModel FsBoot FsSpec FsWalk Count FsNames FsTr FsInv FsInv2
  FsSteps FsSteps2 FsFrame FsReachSpec.
Local Open Scope list_scope.
Local Open Scope Z_scope.

Opaque all_fds.

Record winv (w : world) : Prop := {
  u_inv : inv (core_of w);
  u_cwd c p : w_cwd w !! c = Some p -> canonical p;
  u_key c fd d : w_fds w !! (c, fd) = Some d -> 0 <= fd < MAXFD /\ is_Some (w_cwd w !! c);
  u_cage c p : w_cwd w !! c = Some p -> 0 <= c < MAXCAGE
}.

Lemma no_fds w ch : winv w -> w_cwd w !! ch = None -> forall fd, w_fds w !! (ch, fd) = None.
Proof.
  intros H Hc fd. destruct (w_fds w !! (ch, fd)) eqn:E; [|reflexivity].
  apply (u_key _ H) in E as [_ [? ?]]. congruence.
Qed.

Ltac peelw H := match type of H with
  | obind ?o _ = Done _ => let E := fresh "E" in destruct o as [[? ?]|] eqn:E; cbn [obind fst snd] in H; [|discriminate H];
      injection H as <- <-; rename E into H end.

Lemma step_trs disp w c o w' r : winv w -> step w c o = Done (w', r) -> tame disp w c o r ->
  trs disp (core_of w) (core_of w').
Proof.
  intros Hw H Ht. pose proof (u_inv _ Hw) as Hi. unfold step in H.
  destruct (w_cwd w !! c) as [cwd|] eqn:Hc; [|discriminate].
  pose proof (u_cwd _ Hw _ _ Hc) as Hcan.
  destruct o; unfold ret, same in H; cbn [tame] in Ht.
  - peelw H. eapply open_trs; eauto.
  - peelw H. eapply open_trs; eauto.
  - peelw H. eapply mkdir_trs; eauto.
  - peelw H. eapply mknod_trs; eauto.
  - peelw H. eapply link_trs; eauto.
  - peelw H. eapply unlink_trs; eauto. congruence.
  - peelw H. eapply rmdir_trs; eauto.
  - peelw H. eapply rename_trs; eauto. destruct Ht as [Ht|[Ht|Ht]]; [auto| |].
    + right; left. congruence.
    + destruct (metawalk (w_ino w) (normpath cwd newp)) as [[i|]|] eqn:Em; [|auto|].
      * exfalso. eapply Ht; eauto; [apply denotes_normpath; reflexivity|]. apply metawalk_resolves. exact Em.
      * right; left. intros ->. unfold rename_syscall in H. unfold metawalk in Em.
        destruct (metawalkandparent (w_ino w) (normpath cwd newp)) eqn:En; [discriminate|].
        brk H; discriminate.
  - peelw H. unfold chmod_syscall in H. brk H; [|apply rtc_refl]. eapply chmod_helper_trs; eauto.
  - peelw H. unfold fchmod_syscall in H. destruct (fd_slot w c fd) as [s|]; cbn [obind] in H; [|discriminate].
    destruct s as [[]|]; try (brk H; apply rtc_refl). eapply chmod_helper_trs; eauto.
  - peelw H. unfold truncate_syscall in H. brk H; [|apply rtc_refl]. eapply truncate_trs; eauto.
  - peelw H. unfold ftruncate_syscall in H. destruct (fd_slot w c fd) as [s|]; cbn [obind] in H; [|discriminate].
    destruct s as [[]|]; try (brk H; apply rtc_refl). destruct (is_rdonly _); [brk H; apply rtc_refl|]. eapply truncate_trs; eauto.
  - brk H; apply rtc_refl.
  - brk H; apply rtc_refl.
  - peelw H. brk H; apply rtc_refl.
  - eapply read_trs; eauto.
  - brk H; apply rtc_refl.
  - eapply write_trs; eauto.
  - eapply pwrite_trs; eauto.
  - eapply writev_trs; eauto.
  - peelw H. eapply lseek_trs; eauto.
  - peelw H. brk H; apply rtc_refl.
  - peelw H. eapply close_trs; eauto.
  - peelw H. unfold dup_syscall in H. destruct (fd =? 0); [brk H; apply rtc_refl|]. destruct (negb _); [brk H; apply rtc_refl|].
    destruct (w_fds w !! (c, fd)) eqn:Ed; [|brk H; apply rtc_refl].
    eapply dup2_helper_trs; eauto; discriminate.
  - peelw H. unfold dup2_syscall in H. destruct (_ || _) eqn:Er in H; [brk H; apply rtc_refl|].
    destruct (Z.eqb_spec newfd oldfd); [brk H; apply rtc_refl|]. destruct (negb _); [brk H; apply rtc_refl|].
    destruct (w_fds w !! (c, oldfd)) as [d|] eqn:Ed; [|brk H; apply rtc_refl].
    eapply dup2_helper_trs; eauto. intros _ [d2 Hd2]. destruct d; auto.
    destruct (Ht _ eq_refl) as [?|?]; congruence.
  - peelw H. eapply fcntl_trs; eauto.
  - peelw H. unfold chdir_syscall in H. brk H; try apply rtc_refl. destruct (i_kind _) in H; brk H; apply rtc_refl.
  - unfold fchdir_syscall in H. destruct (fd_slot w c fd) as [s|]; cbn [obind] in H; [|discriminate].
    destruct s as [[]|]; try (brk H; apply rtc_refl).
    destruct (pathname_loop _ _ _ _ _) as [[[]|]|]; try discriminate; injection H as <- <-; apply rtc_refl.
  - injection H as <- <-. apply rtc_refl.
  - eapply getdents_trs; eauto.
  - eapply pipe2_trs; eauto.
  - peelw H. eapply epoll_trs; eauto.
  - peelw H. assert (Hne : c <> child) by congruence. exact (proj1 (fork_trs disp _ _ _ _ _ _ Hi Hne (no_fds _ _ Hw Ht) H)).
  - peelw H. assert (Hrng : forall a fd d, w_fds w !! (a, fd) = Some d -> 0 <= fd < MAXFD).
    { intros a fd d Hd. apply (u_key _ Hw) in Hd as [? _]. assumption. }
    assert (Hfree : child = c \/ forall fd, w_fds w !! (child, fd) = None) by (destruct Ht; [auto|right; apply no_fds; assumption]).
    exact (proj1 (exec_trs disp _ _ _ _ _ _ Hi Hrng Hfree H)).
  - peelw H. eapply exit_trs; eauto. intros a fd d Hd. apply (u_key _ Hw) in Hd as [? _]. assumption.
Qed.

Lemma step_winv disp w c o w' r : winv w -> step w c o = Done (w', r) -> tame disp w c o r -> winv w'.
Proof.
  intros Hw H Ht. pose proof (step_trs _ _ _ _ _ _ Hw H Ht) as Htr.
  pose proof (trs_inv _ _ _ Htr (u_inv _ Hw)) as Hinv.
  assert (Hlive : is_Some (w_cwd w !! c)).
  { unfold step in H. destruct (w_cwd w !! c); [eauto|discriminate]. }
  destruct (calls_proc o) eqn:Ep.
  - pose proof (u_inv _ Hw) as Hi. unfold step in H. destruct (w_cwd w !! c) as [cwd|] eqn:Hc; [|discriminate].
    assert (Hrng : forall a fd d, w_fds w !! (a, fd) = Some d -> 0 <= fd < MAXFD).
    { intros a fd d Hd. apply (u_key _ Hw) in Hd as [? _]. assumption. }
    pose proof (u_cwd _ Hw _ _ Hc) as Hcan.
    assert (Hch : forall p, canonical p -> w_fds w' = w_fds w -> w_cwd w' = <[c := p]> (w_cwd w) -> winv w').
    { intros p Hp E1 E2. constructor; [assumption| | |]; rewrite ?E1, ?E2.
      - intros a q. destruct (decide (c = a)) as [<-|]; [rewrite lookup_insert; congruence|].
        rewrite lookup_insert_ne by assumption. apply (u_cwd _ Hw).
      - intros a fd d Hd. apply (u_key _ Hw) in Hd as [? ?]. split; [assumption|]. rewrite lookup_insert_is_Some'. auto.
      - intros a q. destruct (decide (c = a)) as [<-|].
        + intros _. eapply (u_cage _ Hw); eauto.
        + rewrite lookup_insert_ne by assumption. apply (u_cage _ Hw). }
    destruct o; try discriminate Ep; unfold ret in H; cbn [tame] in Ht.
    + peelw H. unfold chdir_syscall in H. brk H; try assumption.
      destruct (i_kind _) in H; brk H; try assumption. eapply Hch; try reflexivity. apply normpath_canonical. assumption.
    + unfold fchdir_syscall in H. destruct (fd_slot w c fd) as [s|]; cbn [obind] in H; [|discriminate].
      destruct s as [[]|]; try (brk H; assumption).
      destruct (pathname_loop _ _ _ _ _) as [[[]|]|]; try discriminate; injection H as <- <-; try assumption.
      eapply Hch; try reflexivity. apply normpath_canonical. assumption.
    + peelw H. assert (Hne : c <> child) by congruence. destruct (fork_trs disp _ _ _ _ _ _ Hi Hne (no_fds _ _ Hw Ht) H) as (_ & _ & E & Hr & F1 & F2).
      constructor; [assumption| | |]; rewrite ?E.
      * intros a q. destruct (decide (child = a)) as [<-|]; [rewrite lookup_insert; congruence|].
        rewrite lookup_insert_ne by assumption. apply (u_cwd _ Hw).
      * intros a fd d Hd. destruct (decide (a = child)) as [->|Hne'].
        -- rewrite lookup_insert_is_Some'. split; [|auto]. rewrite F2 in Hd.
           case_bool_decide as Hb; [assumption|].
           rewrite init_fdtable_lookup, Z.eqb_refl in Hd.
           destruct (Z.eqb_spec fd 0) as [->|]; [unfold MAXFD; lia|]. destruct (Z.eqb_spec fd 1) as [->|]; [unfold MAXFD; lia|].
           destruct (Z.eqb_spec fd 2) as [->|]; [unfold MAXFD; lia|]. rewrite lookup_empty in Hd. discriminate.
        -- rewrite F1 in Hd by assumption. apply (u_key _ Hw) in Hd as [? ?]. rewrite lookup_insert_is_Some'. auto.
      * intros a q. destruct (decide (child = a)) as [<-|]; [intros _; assumption|].
        rewrite lookup_insert_ne by assumption. apply (u_cage _ Hw).
    + peelw H. assert (Hfree : child = c \/ forall fd, w_fds w !! (child, fd) = None) by (destruct Ht; [auto|right; apply no_fds; assumption]).
      destruct (exec_trs disp _ _ _ _ _ _ Hi Hrng Hfree H) as (_ & _ & E & Hr & F).
      constructor; [assumption| | |]; rewrite ?E.
      * intros a q. destruct (decide (child = a)) as [<-|]; [rewrite lookup_insert; congruence|].
        rewrite lookup_insert_ne by assumption. intros Hq. apply lookup_delete_Some in Hq as [_ Hq]. eapply (u_cwd _ Hw); eauto.
      * intros a fd d. rewrite F. destruct (Z.eqb_spec a child) as [->|].
        -- intros Hd. rewrite lookup_insert_is_Some'. split; [|auto].
           destruct (w_fds w !! (c, fd)) eqn:E2; [|discriminate]. eapply Hrng; eauto.
        -- destruct (Z.eqb_spec a c) as [->|]; [discriminate|]. intros Hd. apply (u_key _ Hw) in Hd as [? ?].
           split; [assumption|]. rewrite lookup_insert_ne, lookup_delete_ne by congruence. assumption.
      * intros a q. destruct (decide (child = a)) as [<-|]; [intros _; assumption|].
        rewrite lookup_insert_ne by assumption. intros Hq. apply lookup_delete_Some in Hq as [_ Hq]. eapply (u_cage _ Hw); eauto.
    + peelw H. destruct (exit_trs disp _ _ _ _ _ Hi Hrng H) as (_ & _ & E & F).
      constructor; [assumption| | |]; rewrite ?E.
      * intros a q Hq. apply lookup_delete_Some in Hq as [_ Hq]. eapply (u_cwd _ Hw); eauto.
      * intros a fd d. rewrite F. destruct (Z.eqb_spec a c) as [->|]; [discriminate|]. intros Hd.
        apply (u_key _ Hw) in Hd as [? ?]. split; [assumption|]. rewrite lookup_delete_ne by congruence. assumption.
      * intros a q Hq. apply lookup_delete_Some in Hq as [_ Hq]. eapply (u_cage _ Hw); eauto.
  - destruct (step_frame _ _ _ _ _ H Ep) as [F E].
    constructor; [assumption| | |]; rewrite ?E.
    + apply (u_cwd _ Hw).
    + intros a fd d Hd. destruct (decide (w_fds w' !! (a, fd) = w_fds w !! (a, fd))) as [Eq|Ne].
      * rewrite Eq in Hd. eapply (u_key _ Hw); eauto.
      * destruct (F _ _ Ne) as [-> ?]. auto.
    + apply (u_cage _ Hw).
Qed.

(** *** The first world *)
Lemma map_Forall_get {K A} `{Countable K} (P : K -> A -> Prop) (m : gmap K A) `{!forall k a, Decision (P k a)} :
  bool_decide (map_Forall P m) = true -> forall k a, m !! k = Some a -> P k a.
Proof. intros Hb. apply bool_decide_eq_true in Hb. exact Hb. Qed.

Definition isdirk (x : inode) : bool := match i_kind x with KDir => true | _ => false end.
Lemma isdirk_true x : isdirk x = true <-> i_kind x = KDir.
Proof. unfold isdirk. destruct (i_kind x); split; congruence. Qed.

Definition chk_ino (t : gmap Z inode) (next : Z) (i : Z) (x : inode) : bool :=
  (1 <=? i) && (i <? next) &&
  match i_kind x with
  | KDir =>
      match i_dict x !! ".", i_dict x !! ".." with
      | Some _, Some _ => (0 <=? i_ref x) && (3 + nkids t i <=? i_link x) && ((i =? 7) || (i_link x =? 3 + nkids t i))
      | _, _ => false
      end
  | KChr _ _ => (size (i_dict x) =? 0)%nat && (i_link x =? nnames t i) && (0 <? i_link x) && (i_ref x =? 0)
  | _ => false
  end.
Definition chk_name (t : gmap Z inode) (k : Z * string) (i : Z) : bool :=
  match t !! i with
  | None => false
  | Some x =>
      negb (i =? ROOTINO) && negb (i =? 7) &&
      ((k.1 =? ROOTINO) || bool_decide (map_Exists (fun _ j => j = k.1) (names t))) &&
      (negb (isdirk x) ||
        (bool_decide (map_Forall (fun k' j => j = i -> k' = k) (names t)) &&
         bool_decide (i_dict x !! ".." = Some k.1) && (k.1 <? i)))
  end.
Definition chk_fd (k : Z * Z) (d : fdesc) : bool :=
  match d with FStream _ _ => (0 <=? k.2) && (k.2 <? MAXFD) && bool_decide (is_Some (w_cwd fresh_world !! k.1)) | _ => false end.

Lemma fresh_chk :
  bool_decide (map_Forall (fun i x => chk_ino (w_ino fresh_world) (w_next fresh_world) i x = true) (w_ino fresh_world)) = true
  /\ bool_decide (map_Forall (fun k i => chk_name (w_ino fresh_world) k i = true) (names (w_ino fresh_world))) = true
  /\ bool_decide (map_Forall (fun k d => chk_fd k d = true) (w_fds fresh_world)) = true
  /\ match w_ino fresh_world !! ROOTINO with Some x => isdirk x | None => false end = true
  /\ w_next fresh_world = 9 /\ map_to_list (w_cwd fresh_world) = [(0, []); (1, [])] /\ map_to_list (w_pipes fresh_world) = []
  /\ w_npipe fresh_world = 0 /\ map_to_list (w_fobj fresh_world) = [] /\ map_to_list (d_host (w_disk fresh_world)) = [].
Proof. vm_compute. repeat (split; [reflexivity|]). reflexivity. Qed.

Lemma empty_of_list {K A} `{Countable K} (m : gmap K A) : map_to_list m = [] -> m = ∅.
Proof. apply map_to_list_empty_iff. Qed.

Lemma fresh_cwd c p : w_cwd fresh_world !! c = Some p -> (c = 0 \/ c = 1) /\ p = [].
Proof.
  destruct fresh_chk as (_ & _ & _ & _ & _ & H & _). intros Hc.
  apply elem_of_map_to_list in Hc. rewrite H in Hc. rewrite !elem_of_cons, elem_of_nil in Hc.
  destruct Hc as [[= -> ->]|[[= -> ->]|[]]]; auto.
Qed.

Lemma fresh_fd k d : w_fds fresh_world !! k = Some d ->
  (exists s fl, d = FStream s fl) /\ 0 <= k.2 < MAXFD /\ is_Some (w_cwd fresh_world !! k.1).
Proof.
  destruct fresh_chk as (_ & _ & H & _). intros Hk. pose proof (map_Forall_get _ _ H _ _ Hk) as Hc. cbn beta in Hc. unfold chk_fd in Hc.
  destruct d; try discriminate. apply andb_true_iff in Hc as [Hc Hb]. apply bool_decide_eq_true in Hb.
  split; [eauto|]. split; [lia|assumption].
Qed.

Lemma fresh_inos i x : w_ino fresh_world !! i = Some x ->
  1 <= i < w_next fresh_world /\
  ((i_kind x = KDir /\ 0 <= i_ref x /\ is_Some (i_dict x !! ".") /\ is_Some (i_dict x !! "..") /\
    3 + nkids (w_ino fresh_world) i <= i_link x /\ (i <> 7 -> i_link x = 3 + nkids (w_ino fresh_world) i)) \/
   ((exists a b, i_kind x = KChr a b) /\ i_dict x = ∅ /\ i_link x = nnames (w_ino fresh_world) i /\ 0 < i_link x /\ i_ref x = 0)).
Proof.
  destruct fresh_chk as (H & _). intros Hi. pose proof (map_Forall_get _ _ H _ _ Hi) as Hc. cbn beta in Hc. unfold chk_ino in Hc. clear H.
  apply andb_true_iff in Hc as [Hr Hc]. split; [lia|].
  destruct (i_kind x) eqn:Ek; try discriminate.
  - left. destruct (i_dict x !! "."), (i_dict x !! ".."); try discriminate. split; [reflexivity|]. split; [lia|].
    split; [eauto|]. split; [eauto|]. split; [lia|]. intros. destruct (Z.eqb_spec i 7); [contradiction|]. cbn in Hc. lia.
  - right. split; [eauto|]. apply andb_true_iff in Hc as [Hc H4]. apply andb_true_iff in Hc as [Hc H3]. apply andb_true_iff in Hc as [H1 H2].
    apply Nat.eqb_eq, map_size_empty_iff in H1. split; [assumption|]. split; [lia|]. split; lia.
Qed.

Lemma fresh_names d f i : names (w_ino fresh_world) !! (d, f) = Some i ->
  exists x, w_ino fresh_world !! i = Some x /\ i <> ROOTINO /\ i <> 7 /\ named (w_ino fresh_world) d /\
  (i_kind x = KDir -> (forall k', names (w_ino fresh_world) !! k' = Some i -> k' = (d, f)) /\ i_dict x !! ".." = Some d /\ d < i).
Proof.
  destruct fresh_chk as (_ & H & _). intros Hk. pose proof (map_Forall_get _ _ H _ _ Hk) as Hc. cbn beta in Hc. unfold chk_name in Hc. clear H.
  destruct (w_ino fresh_world !! i) as [x|] eqn:Ei; [|discriminate]. cbn [fst] in Hc.
  apply andb_true_iff in Hc as [Hc Hd]. apply andb_true_iff in Hc as [Hc Hn]. apply andb_true_iff in Hc as [H1 H2].
  exists x. split; [reflexivity|]. split; [lia|]. split; [lia|]. split.
  - destruct (Z.eqb_spec d ROOTINO) as [->|]; [left; reflexivity|]. cbn in Hn. apply bool_decide_eq_true in Hn.
    destruct Hn as (k & j & Hkj & ->). right. eauto.
  - intros Hk'. apply isdirk_true in Hk'. rewrite Hk' in Hd. cbn [negb orb] in Hd.
    apply andb_true_iff in Hd as [Hd H5]. apply andb_true_iff in Hd as [H3 H4].
    apply bool_decide_eq_true in H3, H4. split; [|split; [assumption|lia]].
    intros k'' Hk''. exact (H3 _ _ Hk'' eq_refl).
Qed.

Lemma cnt_all_false {K A} `{Countable K} (p : K * A -> bool) (m : gmap K A) :
  (forall k a, m !! k = Some a -> p (k, a) = false) -> cnt p m = 0.
Proof. apply cnt_zero. Qed.

Lemma fresh_winv : winv fresh_world.
Proof.
  destruct fresh_chk as (_ & _ & _ & Hroot & Hnext & _ & Hps & Hnp & Hfo & Hh).
  apply empty_of_list in Hps, Hfo, Hh.
  assert (Hn0 : forall i, nfds (w_fds fresh_world) i = 0).
  { intros i. apply cnt_all_false. intros k d Hk. apply fresh_fd in Hk as [(s & fl & ->) _]. reflexivity. }
  constructor.
  - constructor; cbn.
    + constructor.
      * destruct (w_ino fresh_world !! ROOTINO) as [r|]; [|discriminate]. exists r. split; [reflexivity|]. apply isdirk_true. assumption.
      * intros i x Hi. apply fresh_inos in Hi as [? _]. assumption.
      * intros i x Hi. apply fresh_inos in Hi as [_ [(-> & _)|((a & b & ->) & _)]]; discriminate.
      * intros i x Hi Hk. apply fresh_inos in Hi as [_ [(? & _)|(_ & ? & _)]]; [contradiction|assumption].
      * intros d f i Hk. apply fresh_names in Hk as (x & Hx & ? & _). eauto.
      * intros i x [d f] k' Hi Hk H1 H2. apply fresh_names in H1 as (x' & Hx' & _ & _ & _ & H1).
        assert (x' = x) by congruence. subst. destruct (H1 Hk) as [H3 _]. symmetry. auto.
      * intros i x d f Hi Hk H1. apply fresh_names in H1 as (x' & Hx' & _ & _ & _ & H1).
        assert (x' = x) by congruence. subst. destruct (H1 Hk) as [_ H3]. assumption.
      * intros i x Hi Hk. apply fresh_inos in Hi as [_ [(_ & _ & ? & ? & _)|((a & b & ?) & _)]]; [auto|congruence].
      * intros i x Hi Hk. apply fresh_inos in Hi as [_ [(? & _)|(_ & _ & -> & _)]]; [contradiction|lia].
      * intros i x Hi Hk. apply fresh_inos in Hi as [_ [(_ & _ & _ & _ & ? & _)|((a & b & ?) & _)]]; [assumption|congruence].
    + constructor.
      * intros k i pos fl Hk. apply fresh_fd in Hk as [(s & fl' & ?) _]. discriminate.
      * intros i x Hi. rewrite Hn0. apply fresh_inos in Hi as [Hr Hi]. unfold okref.
        destruct Hi as [(Hk & Hrf & _)|((a & b & Hk) & _ & _ & Hl & Href)]; rewrite Hk; split; intros; try congruence; try lia.
    + intros i. rewrite Hfo, Hh, !lookup_empty. destruct (w_ino fresh_world !! i) as [x|] eqn:Ei; cbn; [|auto].
      apply fresh_inos in Ei as [_ [(Hk & _)|((a & b & Hk) & _)]]; unfold isfile; rewrite Hk; auto.
    + rewrite Hps. constructor.
      * intros k pid fl Hk. apply fresh_fd in Hk as [(s & fl' & ?) _]. discriminate.
      * intros pid p Hp. rewrite lookup_empty in Hp. discriminate.
  - intros c p Hc. apply fresh_cwd in Hc as [_ ->]. constructor.
  - intros c fd d Hk. apply fresh_fd in Hk as (_ & ? & ?). auto.
  - intros c p Hc. apply fresh_cwd in Hc as [[->| ->] _]; unfold MAXCAGE; lia.
Qed.

Lemma fresh_inv2 : inv2 (w_ino fresh_world) (w_next fresh_world).
Proof.
  constructor.
  - intros i x Hi Hk. apply fresh_inos in Hi as [_ [(? & _)|(_ & _ & -> & _)]]; [contradiction|lia].
  - intros i x Hi Hk. apply fresh_inos in Hi as [_ [(_ & _ & _ & _ & _ & ?)|((a & b & ?) & _)]]; [assumption|congruence].
  - intros d f i Hk. apply fresh_names in Hk as (x & _ & _ & _ & ? & _). assumption.
  - intros [d f] Hk. apply fresh_names in Hk as (x & _ & _ & ? & _). congruence.
  - destruct fresh_chk as (_ & _ & _ & _ & -> & _). lia.
Qed.

(** *** Names in directories have no '/' and are not empty *)
Definition good_dict (m : gmap string Z) : Prop := forall f i, m !! f = Some i -> dotb f = false -> good_name f.
Definition goodt (t : gmap Z inode) : Prop := forall d x, t !! d = Some x -> good_dict (i_dict x).

Lemma goodt_insert t d x : goodt t -> good_dict (i_dict x) -> goodt (<[d := x]> t).
Proof.
  intros H Hx e y. destruct (decide (d = e)) as [<-|]; [rewrite lookup_insert; intros [= <-]; exact Hx|].
  rewrite lookup_insert_ne by assumption. apply H.
Qed.
Lemma goodt_delete t d : goodt t -> goodt (delete d t).
Proof. intros H e y Hy. apply lookup_delete_Some in Hy as [_ Hy]. exact (H _ _ Hy). Qed.
Lemma good_dict_insert m f i : good_dict m -> good_name f -> good_dict (<[f := i]> m).
Proof. intros H Hf g j. rewrite lookup_insert_Some. intros [[<- _]|[_ Hg]]; [auto|]. exact (H _ _ Hg). Qed.
Lemma good_dict_delete m f : good_dict m -> good_dict (delete f m).
Proof. intros H g j Hg. apply lookup_delete_Some in Hg as [_ Hg]. exact (H _ _ Hg). Qed.
Lemma good_dict_empty : good_dict ∅.
Proof. intros f i Hf. rewrite lookup_empty in Hf. discriminate Hf. Qed.
Lemma good_dict_new a b : good_dict (new_dict a b).
Proof. intros f i Hf Hd. apply new_dict_dots in Hf. congruence. Qed.

Lemma tr_good disp k k' : tr disp k k' -> goodt (k_ino k) -> goodt (k_ino k').
Proof.
  intros Ht Hg. destruct Ht; cbn [k_ino] in *; try exact Hg.
  - apply goodt_insert; [apply goodt_insert; [exact Hg|]|].
    + cbn. apply good_dict_insert; [exact (Hg _ _ H)|assumption].
    + destruct H4 as (_ & _ & [(_ & _ & ->)|(_ & _ & ->)]); [apply good_dict_new|apply good_dict_empty].
  - apply goodt_insert; [apply goodt_insert; [exact Hg|]|].
    + cbn. apply good_dict_insert; [exact (Hg _ _ H)|assumption].
    + match goal with E : i_dict x = ∅ |- _ => rewrite E end. apply good_dict_empty.
  - apply goodt_insert; [exact Hg|]. exact (Hg _ _ H).
  - apply goodt_insert; [exact Hg|]. exact (Hg _ _ H).
  - apply goodt_insert; [apply goodt_insert; [exact Hg|exact (Hg _ _ H)]|].
    cbn. apply good_dict_insert; [exact (Hg _ _ H1)|assumption].
  - unfold un_ino. assert (K : goodt (<[par := par_rem f p]> (<[i := set_link (i_link x - 1) x]> t))).
    { apply goodt_insert; [apply goodt_insert; [exact Hg|exact (Hg _ _ H)]|]. cbn. apply good_dict_delete. exact (Hg _ _ H1). }
    destruct (un_gone x); [apply goodt_delete|]; exact K.
  - assert (K : goodt (<[par := par_rem f p]> t)).
    { apply goodt_insert; [exact Hg|]. cbn. apply good_dict_delete. exact (Hg _ _ H1). }
    destruct (i_ref x =? 0); [apply goodt_delete|]; exact K.
  - apply goodt_insert; [exact Hg|]. cbn. apply good_dict_delete, good_dict_insert; [exact (Hg _ _ H)|assumption].
  - apply goodt_insert; [exact Hg|]. exact (Hg _ _ H).
  - apply goodt_insert; [exact Hg|]. exact (Hg _ _ H).
  - unfold rel_ino. destruct (gone x); [apply goodt_delete; exact Hg|]. apply goodt_insert; [exact Hg|]. exact (Hg _ _ H).
  - apply goodt_insert; [exact Hg|]. exact (Hg _ _ H).
  - apply goodt_insert; [exact Hg|]. exact (Hg _ _ H).
Qed.

Lemma step_good disp w c o w' r : winv w -> step w c o = Done (w', r) -> tame disp w c o r ->
  goodt (w_ino w) -> goodt (w_ino w').
Proof.
  intros Hw H Ht. pose proof (step_trs _ _ _ _ _ _ Hw H Ht) as Htr.
  change (goodt (k_ino (core_of w)) -> goodt (k_ino (core_of w'))).
  induction Htr as [|a b d Hab _ IH]; [auto|]. intros Hg. apply IH. exact (tr_good _ _ _ Hab Hg).
Qed.

Lemma fresh_good : goodt (w_ino fresh_world).
Proof.
  assert (H : bool_decide (map_Forall (fun (_ : Z) x => map_Forall (fun f (_ : Z) =>
     dotb f || negb (String.eqb f "" || String.eqb f "." || String.eqb f ".." || has_slash f) = true) (i_dict x)) (w_ino fresh_world)) = true)
    by (vm_compute; reflexivity).
  intros d x Hx f i Hf Hd. pose proof (map_Forall_get _ _ H _ _ Hx _ _ Hf) as Hc. cbn beta in Hc.
  rewrite Hd in Hc. cbn [orb] in Hc. rewrite !negb_orb, !andb_true_iff, !negb_true_iff, !String.eqb_neq in Hc.
  destruct Hc as (((? & ?) & ?) & ?). repeat split; assumption.
Qed.
