(** Proofs about creating, removing and moving names. *)
From Verif Require Import Base PathModel PathSpec PathProofs FsModel FsBoot FsSpec FsWalk Count FsNames FsTr FsInv FsInv2
  FsSteps FsSteps2 FsFrame FsReachSpec FsReach FsTree FsNameSpec FsPath FdSpec FsDesc FsOps.
Local Open Scope list_scope.
Local Open Scope Z_scope.
Opaque all_fds.

Lemma next_unused w : winv w -> unused w (w_next w).
Proof.
  intros Hw. pose proof (u_inv _ Hw) as Hi. destruct (inv_fresh w Hi) as (F1 & F2 & F3).
  split; [assumption|]. split; [|split; [|exact F3]].
  - intros d f Hf. apply names_entry in Hf. apply (n_ent _ _ (v_n _ Hi)) in Hf as [[? ?] _]. wcbn. congruence.
  - intros k pos fl Hk. apply (r_fd _ _ (v_r _ Hi)) in Hk as [? ?]. wcbn. congruence.
Qed.

Lemma names_added t i x par q f : t !! i = None -> t !! par = Some q -> dotb f = false ->
  (forall g j, i_dict x !! g = Some j -> dotb g = true) ->
  names (<[i := x]> (<[par := par_add f i q]> t)) = <[(par, f) := i]> (names t).
Proof.
  intros Hi Hp Hf Hx. assert (Hne : i <> par) by congruence. rewrite insert_commute by congruence.
  rewrite (names_add (<[i := x]> t) par q (par_add f i q) f i); [|rewrite lookup_insert_ne by congruence; exact Hp|exact Hf|reflexivity].
  rewrite names_new by assumption. reflexivity.
Qed.

Lemma no_kids_none t i : t !! i = None -> forall g, names t !! (i, g) = None.
Proof. intros H g. rewrite names_lookup, H. destruct (dotb g); reflexivity. Qed.

Lemma removelast_snoc {A} (l : list A) x : removelast (l ++ [x]) = l.
Proof. apply removelast_last. Qed.

Lemma added_kept t i x par q f : t !! i = None -> t !! par = Some q ->
  objects_kept t (<[i := x]> (<[par := par_add f i q]> t)) [i; par].
Proof.
  intros Hi Hp j. assert (Hne : i <> par) by congruence. split.
  - intros Hj. rewrite !lookup_insert_ne; [reflexivity| |]; intros ->; apply Hj; cbn; auto.
  - intros [<-|[<-|[]]] y z Hy Hz; [congruence|]. rewrite lookup_insert_ne, lookup_insert in Hz by congruence.
    injection Hz as <-. assert (y = q) by congruence. subst y. split; [|split]; reflexivity.
Qed.

Lemma creates_intro w w' q dir f par p i x : winv w -> winv w' -> canonical q -> place (w_ino w) q dir f par p ->
  i_dict p !! f = None -> i = w_next w -> w_ino w' = <[i := x]> (<[par := par_add f i p]> (w_ino w)) ->
  (forall g j, i_dict x !! g = Some j -> dotb g = true) ->
  (forall j, j <> i -> bytes w' j = bytes w j) -> w_cwd w' = w_cwd w -> w_pipes w' = w_pipes w -> creates w w' q i.
Proof.
  intros Hw Hw' Hc Hpl Hf -> Ht Hx Hb H1 H2. pose proof (next_unused w Hw) as Hu. destruct Hu as (U1 & U2).
  split; [split; assumption|]. pose proof (pl_ino _ _ _ _ _ _ Hpl) as Hp.
  pose proof (v_n _ (u_inv _ Hw)) as Hn. pose proof (v_n _ (u_inv _ Hw')) as Hn'. wcbn.
  split; [|split; [|split; [assumption|split; assumption]]].
  - rewrite (pl_path _ _ _ _ _ _ Hpl). eapply (plus_paths _ _ _ _ par p); eauto.
    + exact (pl_dir _ _ _ _ _ _ Hpl).
    + eapply place_canonical; eauto.
    + exact (pl_res _ _ _ _ _ _ Hpl).
    + eapply place_name; eauto.
    + rewrite Ht. apply names_added; auto. exact (pl_dot _ _ _ _ _ _ Hpl).
    + apply no_kids_none. assumption.
    + intros E. rewrite E in U1. congruence.
  - exists par. rewrite (pl_path _ _ _ _ _ _ Hpl), removelast_snoc. split; [exact (pl_res _ _ _ _ _ _ Hpl)|].
    rewrite Ht. apply added_kept; assumption.
Qed.

Lemma perm_bits ty m : Z.land ty 511 = 0 -> Z.land ty S_FILETYPEFLAGS = ty ->
  Z.land (Z.lor ty m) 511 = Z.land m 511 /\ (Z.land m 511 = m -> Z.land (Z.lor ty m) S_FILETYPEFLAGS = ty).
Proof.
  intros H1 H2. split.
  - rewrite Z.land_lor_distr_l, H1. reflexivity.
  - intros Hm. rewrite Z.land_lor_distr_l, H2, <- Hm, <- Z.land_assoc. change (Z.land 511 S_FILETYPEFLAGS) with 0.
    rewrite Z.land_0_r, Z.lor_0_r. reflexivity.
Qed.

(** *** C06 *)
Lemma create_file w c cwd p fl m w' fd q : reach true w -> w_cwd w !! c = Some cwd -> denotes cwd p q ->
  step w c (Open p fl m) = Done (w', Ret fd) -> 0 <= fd -> (forall i, ~ resolves (w_ino w) q i) ->
  exists i fl', creates w w' q i /\ new_object w' i KFile S_IFREG m /\ bytes w' i = Some [] /\
    w_fds w' = <[(c, fd) := FFile i 0 fl']> (w_fds w) /\ Z.land fl' 3 = Z.land fl 3 /\ w_fds w !! (c, fd) = None.
Proof.
  intros Hr Hc Hd H Hfd Hno. pose proof (reach_winv _ _ Hr) as Hw.
  pose proof (step_winv true _ _ _ _ _ Hw H I) as Hw'. pose proof (u_cwd _ Hw _ _ Hc) as Hcan.
  apply denotes_normpath in Hd. subst q. unfold step in H. rewrite Hc in H. unfold ret in H. peelc H.
  pose proof (normpath_canonical cwd p Hcan) as Hcp.
  assert (Hm : metawalk (w_ino w) (normpath cwd p) = Done None).
  { destruct (metawalk_done w _ Hw Hcp) as ([i|] & Hi & _); [|exact Hi].
    exfalso. apply metawalk_resolves in Hi. exact (Hno _ Hi). }
  destruct (open_new_post _ _ _ _ _ _ _ _ (u_inv _ Hw) Hcan H Hfd Hm)
    as (dir & f & par & x & Hpl & Hf & Hcr & Hsm & Hfree & H1 & H2 & H3 & H4 & H5 & H6).
  exists (w_next w), (Z.land fl (Z.lor O_RDWRFLAGS O_CLOEXEC)). split; [|split; [|split; [|split; [|split]]]].
  - eapply creates_intro; eauto.
    + intros g j. cbn. rewrite lookup_empty. discriminate.
    + intros j Hj. unfold bytes. rewrite H3, lookup_insert_ne by congruence. reflexivity.
  - exists (new_file m). rewrite H1, lookup_insert. do 3 (split; [reflexivity|]). apply perm_bits; reflexivity.
  - unfold bytes. rewrite H3. apply lookup_insert.
  - assumption.
  - rewrite <- Z.land_assoc. f_equal.
  - assumption.
Qed.

Lemma mkdir_creates w c cwd p m w' r q : reach true w -> w_cwd w !! c = Some cwd -> denotes cwd p q ->
  step w c (Mkdir p m) = Done (w', Ret r) -> 0 <= r ->
  exists i, creates w w' q i /\ new_object w' i KDir S_IFDIR m /\ (forall x, w_ino w' !! i = Some x -> empty_dir x) /\
    w_fds w' = w_fds w /\ bytes w' i = None.
Proof.
  intros Hr Hc Hd H H0. pose proof (reach_winv _ _ Hr) as Hw.
  pose proof (step_winv true _ _ _ _ _ Hw H I) as Hw'. pose proof (u_cwd _ Hw _ _ Hc) as Hcan.
  apply denotes_normpath in Hd. subst q. unfold step in H. rewrite Hc in H. unfold ret in H. peelc H.
  pose proof (normpath_canonical cwd p Hcan) as Hcp.
  destruct (mkdir_post _ _ _ _ _ _ Hcan H H0) as (dir & f & par & x & Hpl & Hf & -> & Hsm & [H1 H2 H3 (H4 & H5 & H6)]).
  exists (w_next w). split; [|split; [|split; [|split]]].
  - eapply creates_intro; eauto.
    + intros g j. cbn. unfold new_dict. rewrite lookup_insert_Some. intros [[<- _]|[_ Hg]]; [reflexivity|].
      rewrite lookup_insert_Some, lookup_empty in Hg. destruct Hg as [[<- _]|[_ ?]]; [reflexivity|discriminate].
    + intros j Hj. unfold bytes. rewrite H3. reflexivity.
  - exists (new_dir (w_next w) par m). rewrite H1, lookup_insert. do 3 (split; [reflexivity|]). apply perm_bits; reflexivity.
  - intros y. rewrite H1, lookup_insert. intros [= <-] g j. cbn. unfold new_dict. rewrite lookup_insert_Some. intros [[<- _]|[_ Hg]]; [auto|].
    rewrite lookup_insert_Some, lookup_empty in Hg. destruct Hg as [[<- _]|[_ ?]]; [auto|discriminate].
  - assumption.
  - unfold bytes. rewrite H3. apply (next_unused _ Hw).
Qed.

Lemma mknod_creates w c cwd p m d w' r q : reach true w -> w_cwd w !! c = Some cwd -> denotes cwd p q ->
  step w c (Mknod p m d) = Done (w', Ret r) -> 0 <= r ->
  exists i x, creates w w' q i /\ w_ino w' !! i = Some x /\ i_kind x = KChr (fst (CodecModel.devtuple d)) (snd (CodecModel.devtuple d)) /\
    i_mode x = m /\ i_size x = 0 /\ w_fds w' = w_fds w /\ bytes w' i = None.
Proof.
  intros Hr Hc Hd H H0. pose proof (reach_winv _ _ Hr) as Hw.
  pose proof (step_winv true _ _ _ _ _ Hw H I) as Hw'. pose proof (u_cwd _ Hw _ _ Hc) as Hcan.
  apply denotes_normpath in Hd. subst q. unfold step in H. rewrite Hc in H. unfold ret in H. peelc H.
  pose proof (normpath_canonical cwd p Hcan) as Hcp.
  destruct (mknod_post _ _ _ _ _ _ _ Hcan H H0) as (dir & f & par & x & Hpl & Hf & -> & Hsm & _ & [H1 H2 H3 (H4 & H5 & H6)]).
  exists (w_next w), (new_dev m d). split; [|split; [|split; [|split; [|split; [|split]]]]].
  - eapply creates_intro; eauto.
    + intros g j. cbn. rewrite lookup_empty. discriminate.
    + intros j Hj. unfold bytes. rewrite H3. reflexivity.
  - rewrite H1, lookup_insert. reflexivity.
  - reflexivity.
  - reflexivity.
  - reflexivity.
  - assumption.
  - unfold bytes. rewrite H3. apply (next_unused _ Hw).
Qed.

(** *** C07 *)
Lemma open_fails w c p fl m w' r : step w c (Open p fl m) = Done (w', Ret r) -> r < 0 -> w' = w.
Proof.
  intros H Hr. unfold step in H. destruct (w_cwd w !! c) as [cwd|]; [|discriminate H]. unfold ret in H. peelc H.
  unfold open_syscall in H. destruct (String.eqb p ""); [congruence|].
  destruct (next_fd w c 0) as [fd|] eqn:Hfd; [|congruence]. apply next_fd_some in Hfd as [_ Hfd].
  destruct (metawalkandparent (w_ino w) (normpath cwd p)) as [[[i|] [par|]]|]; cbn [obind] in H; [| | | |discriminate H].
  3: { repeat match type of H with (if ?b then _ else _) = _ => destruct b; [congruence|] end.
       destruct (file_name _); [|discriminate H]. unfold add_child in H. destruct (get_ino w par); cbn [obind] in H; [|discriminate H].
       injection H as _ <-. lia. }
  3: congruence.
  all: match type of H with (if ?b then _ else _) = _ => destruct b; [congruence|] end;
    destruct (get_ino w i) as [x|]; cbn [obind] in H; [|discriminate H];
    destruct (i_kind x); try (injection H as _ <-; lia); try congruence;
    match type of H with obind ?q _ = _ => destruct q; cbn [obind] in H; [|discriminate H] end; injection H as _ <-; lia.
Qed.

Lemma excl_bits fl : exclusive fl -> Z.land fl (Z.lor O_CREAT O_EXCL) =? Z.lor O_CREAT O_EXCL = true.
Proof. intros H. apply Z.eqb_eq. exact H. Qed.

Lemma excl_exists w c cwd p fl m q i : reach true w -> w_cwd w !! c = Some cwd -> p <> "" -> denotes cwd p q -> exclusive fl ->
  resolves (w_ino w) q i -> ~ none_free (w_fds w) c 0 -> step w c (Open p fl m) = Done (w, Ret (err EEXIST)).
Proof.
  intros Hr Hc Hp Hd He Hi Hfree. pose proof (reach_winv _ _ Hr) as Hw. apply denotes_normpath in Hd. subst q.
  unfold step, ret. rewrite Hc. unfold open_syscall. destruct (String.eqb_spec p ""); [contradiction|].
  destruct (next_fd w c 0) as [fd|] eqn:Hfd; [|exfalso; apply Hfree; exact (proj1 (next_fd_none_eq _ _ _) Hfd)].
  apply (resolves_metawalk _ _ _ (root_some _ Hw)) in Hi. unfold metawalk in Hi.
  destruct (metawalkandparent (w_ino w) (normpath cwd p)) as [[a b]|]; cbn [obind fst] in *; [|discriminate Hi].
  injection Hi as ->. rewrite excl_bits by assumption. reflexivity.
Qed.

Lemma excl_success w c cwd p fl m q w' r : reach true w -> w_cwd w !! c = Some cwd -> denotes cwd p q -> exclusive fl ->
  step w c (Open p fl m) = Done (w', Ret r) -> 0 <= r -> forall i, ~ resolves (w_ino w) q i.
Proof.
  intros Hr Hc Hd He H Hr0 i Hi. pose proof (reach_winv _ _ Hr) as Hw. apply denotes_normpath in Hd. subst q.
  unfold step, ret in H. rewrite Hc in H. peelc H. unfold open_syscall in H. destruct (String.eqb p ""); [negr H|].
  destruct (next_fd w c 0) as [fd|]; [|negr H].
  apply (resolves_metawalk _ _ _ (root_some _ Hw)) in Hi. unfold metawalk in Hi.
  destruct (metawalkandparent (w_ino w) (normpath cwd p)) as [[a b]|]; cbn [obind fst] in *; [|discriminate Hi].
  injection Hi as ->. rewrite excl_bits in H by assumption. negr H.
Qed.

Lemma open_out w c p fl m w' o : step w c (Open p fl m) = Done (w', o) -> exists r, o = Ret r.
Proof. intros H. unfold step in H. destruct (w_cwd w !! c); [|discriminate H]. unfold ret in H.
  match type of H with obind ?q _ = _ => destruct q as [[a b]|]; cbn [obind] in H; [|discriminate H] end. injection H as _ <-. eauto.
Qed.

Lemma competes_cwd w w' q e : w_cwd w' = w_cwd w -> competes w q e -> competes w' q e.
Proof. intros E (p & fl & m & cwd & H). exists p, fl, m, cwd. rewrite E. exact H. Qed.

Lemma competes_canonical w q e : reach true w -> competes w q e -> canonical q.
Proof.
  intros Hr (p & fl & m & cwd & _ & _ & Hc & Hd). apply denotes_normpath in Hd as ->. apply normpath_canonical.
  exact (u_cwd _ (reach_winv _ _ Hr) _ _ Hc).
Qed.

Lemma race_done q l : forall w i w' outs, reach true w -> resolves (w_ino w) q i -> Forall (competes w q) l ->
  run w l = Some (w', outs) -> Forall (fun o => ~ success o) outs.
Proof.
  induction l as [|[c o] l IH]; intros w i w' outs Hr Hi Hl H; cbn in H; [injection H as _ <-; constructor|].
  apply Forall_cons in Hl as [He Hl].
  destruct (step w c o) as [[w1 x]|] eqn:Es; [|discriminate H].
  destruct (run w1 l) as [[w2 ys]|] eqn:Er; [|discriminate H]. injection H as _ <-.
  destruct He as (p & fl & m & cwd & Ho & Hx & Hc & Hd). cbn in Ho, Hc. subst o.
  assert (Hns : ~ success x).
  { intros (r & -> & H0). exact (excl_success _ _ _ _ _ _ _ _ _ Hr Hc Hd Hx Es H0 i Hi). }
  destruct (open_out _ _ _ _ _ _ _ Es) as (r & ->).
  assert (w1 = w) as ->. { apply (open_fails _ _ _ _ _ _ _ Es). destruct (Z.ltb_spec r 0); [assumption|]. exfalso. apply Hns. exists r. auto. }
  constructor; [assumption|]. eapply IH; eauto.
Qed.

Lemma race q l : forall w w' outs, reach true w -> Forall (competes w q) l -> run w l = Some (w', outs) ->
  (Forall (fun o => ~ success o) outs /\ w' = w /\ forall e w1 o, e ∈ l -> step w e.1 e.2 = Done (w1, o) -> ~ success o) \/
  exists o1 o o2, outs = o1 ++ o :: o2 /\ success o /\ Forall (fun o => ~ success o) o1 /\ Forall (fun o => ~ success o) o2.
Proof.
  induction l as [|[c o] l IH]; intros w w' outs Hr Hl H; cbn in H.
  { injection H as <- <-. left. split; [constructor|]. split; [reflexivity|]. intros e w1 o He. apply elem_of_nil in He. contradiction. }
  apply Forall_cons in Hl as [He Hl].
  destruct (step w c o) as [[w1 x]|] eqn:Es; [|discriminate H].
  destruct (run w1 l) as [[w2 ys]|] eqn:Er; [|discriminate H]. injection H as <- <-.
  pose proof (competes_canonical _ _ _ Hr He) as Hcan.
  destruct He as (p & fl & m & cwd & Ho & Hx & Hc & Hd). cbn in Ho, Hc. subst o.
  destruct (open_out _ _ _ _ _ _ _ Es) as (r & ->).
  destruct (Z.ltb_spec r 0) as [Hneg|Hpos].
  - pose proof (open_fails _ _ _ _ _ _ _ Es Hneg) as ->.
    assert (Hns : ~ success (Ret r)) by (intros (r' & [= <-] & ?); lia).
    destruct (IH _ _ _ Hr Hl Er) as [(H1 & -> & H2)|(o1 & o & o2 & -> & Hs & H1 & H2)].
    + left. split; [constructor; assumption|]. split; [reflexivity|]. intros e w3 o He Hst.
      apply elem_of_cons in He as [->|He]; [|eapply H2; eauto]. cbn [fst snd] in Hst. rewrite Es in Hst. injection Hst as _ <-. exact Hns.
    + right. exists (Ret r :: o1), o, o2. split; [reflexivity|]. split; [assumption|]. split; [constructor; assumption|assumption].
  - right. exists [], (Ret r), ys. split; [reflexivity|]. split; [exists r; auto|]. split; [constructor|].
    destruct (create_file _ _ _ _ _ _ _ _ _ Hr Hc Hd Es Hpos (excl_success _ _ _ _ _ _ _ _ _ Hr Hc Hd Hx Es Hpos))
      as (i & fl' & (_ & Hpl & _ & _ & Hcw & _) & _).
    apply (race_done q l w1 i w2 ys); [exact (reach_step _ _ _ _ _ _ Hr Es I)| | |exact Er].
    + apply Hpl; auto.
    + eapply Forall_impl; [exact Hl|]. intros e. apply competes_cwd. exact Hcw.
Qed.

(** *** C08 *)
Lemma unlink_thm w c cwd p q w' r : reach true w -> w_cwd w !! c = Some cwd -> denotes cwd p q ->
  step w c (Unlink p) = Done (w', Ret r) -> 0 <= r ->
  exists i x, resolves (w_ino w) q i /\ w_ino w !! i = Some x /\ i_kind x <> KDir /\
    names_minus (w_ino w) (w_ino w') q /\
    (exists par, resolves (w_ino w) (removelast q) par /\ objects_kept (w_ino w) (w_ino w') [i; par]) /\
    (forall j, j <> i -> bytes w' j = bytes w j) /\ procs_kept w w' /\
    ((exists k, opens (w_fds w) i k) \/ (exists p', canonical p' /\ p' <> q /\ resolves (w_ino w) p' i) ->
       is_Some (w_ino w' !! i) /\ bytes w' i = bytes w i).
Proof.
  intros Hr Hc Hd H H0. pose proof (reach_winv _ _ Hr) as Hw.
  assert (Ht : tame true w c (Unlink p) (Ret r)) by (cbn; intros E; injection E as ->; cbn in H0; lia).
  pose proof (step_winv true _ _ _ _ _ Hw H Ht) as Hw'. pose proof (u_cwd _ Hw _ _ Hc) as Hcan.
  apply denotes_normpath in Hd. subst q. unfold step in H. rewrite Hc in H. unfold ret in H. peelc H.
  pose proof (normpath_canonical cwd p Hcan) as Hcp.
  destruct (unlink_post _ _ _ _ _ (u_inv _ Hw) Hcan H H0) as (dir & f & par & q & i & x & -> & Hpl & Hf & Hx & Hk & Hne & H1 & H2 & _ & H4).
  pose proof (v_n _ (u_inv _ Hw)) as Hn. pose proof (v_n _ (u_inv _ Hw')) as Hn'. pose proof (v_r _ (u_inv _ Hw)) as Hrr. wcbn.
  pose proof (pl_ino _ _ _ _ _ _ Hpl) as Hq. pose proof (pl_dir _ _ _ _ _ _ Hpl) as Hqk.
  pose proof (place_name _ _ _ _ _ _ _ _ Hn Hpl Hf) as Hnm.
  assert (Hri : resolves (w_ino w) (normpath cwd p) i).
  { rewrite (pl_path _ _ _ _ _ _ Hpl). eapply res_step; eauto. exact (pl_res _ _ _ _ _ _ Hpl). }
  exists i, x. split; [exact Hri|]. split; [exact Hx|]. split; [exact Hk|]. split; [|split; [|split; [|split; [exact H4|]]]].
  - rewrite (pl_path _ _ _ _ _ _ Hpl). eapply (minus_paths _ _ _ _ par q); eauto.
    + eapply place_canonical; eauto.
    + exact (pl_res _ _ _ _ _ _ Hpl).
    + rewrite H1. eapply names_un; eauto.
    + intros g. rewrite names_lookup, Hx, (n_flat _ _ Hn _ _ Hx Hk). destruct (dotb g); [reflexivity|apply lookup_empty].
  - exists par. rewrite (pl_path _ _ _ _ _ _ Hpl), removelast_snoc. split; [exact (pl_res _ _ _ _ _ _ Hpl)|].
    rewrite H1. apply un_kept; assumption.
  - intros j Hj. unfold bytes. rewrite H2. unfold un_host. destruct (_ && _); [apply lookup_delete_ne; congruence|reflexivity].
  - intros Hal. assert (Hg : un_gone x = false).
    { unfold un_gone. destruct Hal as [[k (pos & fl & Hk')]|(p' & Hc' & Hp' & Hr')].
      - destruct (r_ref _ _ Hrr _ _ Hx) as [Hok _]. destruct (Hok Hk) as [Href _].
        assert (0 < nfds (w_fds w) i). { apply cnt_pos. exists k, (FFile i pos fl). split; [exact Hk'|]. cbn. apply Z.eqb_refl. }
        destruct (Z.eqb_spec (i_ref x) 0); [lia|]. apply andb_false_r.
      - destruct (n_ent _ _ Hn _ _ _ Hnm) as [_ Hroot].
        pose proof (two_paths _ _ _ _ _ _ _ _ _ Hn Hroot Hpl Hf Hc' Hp' Hr'). pose proof (n_link _ _ Hn _ _ Hx Hk).
        destruct (Z.eqb_spec (i_link x) 1); [lia|]. reflexivity. }
    unfold bytes. rewrite H1, H2. unfold un_ino, un_host. rewrite Hg, andb_false_r.
    rewrite lookup_insert_ne, lookup_insert by congruence. split; [eauto|reflexivity].
Qed.

(** Storage and object of non-directories in histories without displacing rename *)
Lemma lifetime w i : reach false w ->
  (forall x, w_ino w !! i = Some x -> i_kind x <> KDir -> (exists d f, entry (w_ino w) d f i) \/ exists k, opens (w_fds w) i k) /\
  ((exists d f, entry (w_ino w) d f i) \/ (exists k, opens (w_fds w) i k) -> is_Some (w_ino w !! i)) /\
  (is_Some (bytes w i) <-> exists x, w_ino w !! i = Some x /\ i_kind x = KFile).
Proof.
  intros Hr. pose proof (reach_winv _ _ Hr) as Hw. pose proof (reach_inv2 _ Hr) as H2.
  pose proof (v_n _ (u_inv _ Hw)) as Hn. pose proof (v_r _ (u_inv _ Hw)) as Hrr. pose proof (v_d _ (u_inv _ Hw)) as Hd. wcbn.
  split; [|split].
  - intros x Hx Hk. destruct (r_ref _ _ Hrr _ _ Hx) as [Hok _]. destruct (Hok Hk) as [Href [Hl|Hp]].
    + left. rewrite (s_link _ _ H2 _ _ Hx Hk) in Hl. unfold nnames in Hl.
      assert (Hp : 0 < cnt (fun e : Z * string * Z => e.2 =? i) (names (w_ino w))).
      { pose proof (cnt_nonneg (fun e : Z * string * Z => e.2 =? i) (names (w_ino w))). lia. }
      apply cnt_pos in Hp as ([d f] & a & Ha & Hai). cbn in Hai. assert (a = i) by lia. subst a. exists d, f. apply names_entry. exact Ha.
    + right. rewrite Href in Hp. apply cnt_pos in Hp as (k & a & Ha & Hai). unfold onfile in Hai. cbn in Hai.
      destruct a as [j pos fl| | |]; try discriminate Hai. assert (j = i) by (cbn in Hai; lia). subst j. exists k, pos, fl. exact Ha.
  - intros [(d & f & He)|(k & pos & fl & Hk)].
    + apply names_entry in He. apply (n_ent _ _ Hn) in He. tauto.
    + apply (r_fd _ _ Hrr) in Hk. exact Hk.
  - specialize (Hd i). unfold bytes. unfold okdata, isfile in Hd. destruct (w_ino w !! i) as [x|].
    + destruct (i_kind x) eqn:Ek; destruct Hd as [_ Hd]; split; intros Hs;
        try (rewrite Hd in Hs; destruct Hs; discriminate); try (destruct Hs as (y & [= <-] & Hy); congruence); eauto.
      destruct Hd as (b & -> & _). eauto.
    + destruct Hd as [_ ->]. split; [intros [? ?]; discriminate|intros (x & ? & _); discriminate].
Qed.

(** What a descriptor sees depends on its object and the object's bytes only *)
Lemma pread_same w w' c fd n off i x x' pos fl : winv w -> winv w' -> w_fds w !! (c, fd) = Some (FFile i pos fl) ->
  w_fds w' !! (c, fd) = Some (FFile i pos fl) -> w_ino w !! i = Some x -> w_ino w' !! i = Some x' ->
  same_attrs x x' -> i_ref x' = i_ref x -> bytes w' i = bytes w i -> pread_syscall w' c fd n off = pread_syscall w c fd n off.
Proof.
  intros Hw Hw' H1 H2 Hx Hx' (E1 & E2 & E3) E4 Hb. unfold pread_syscall, fd_slot. destruct (in_fd_range fd); [|reflexivity].
  cbn [obind]. rewrite H1, H2. destruct (is_wronly fl); [reflexivity|]. unfold get_ino. rewrite Hx, Hx'. cbn [obind].
  destruct (i_kind x) eqn:Hk; rewrite <- E1; try reflexivity. unfold bytes in Hb.
  pose proof (v_d _ (u_inv _ Hw) i) as D. pose proof (v_d _ (u_inv _ Hw') i) as D'. wcbn.
  rewrite Hx in D. rewrite Hx' in D'. unfold okdata, isfile in D, D'. rewrite Hk in D. rewrite <- E1 in D'.
  destruct D as [D _]. destruct D' as [D' _]. unfold readat. rewrite D, D', E4, Hb, E2. reflexivity.
Qed.

Lemma unlink_reads w c p w' r c' fd i pos fl n off : reach true w -> step w c (Unlink p) = Done (w', Ret r) -> 0 <= r ->
  w_fds w !! (c', fd) = Some (FFile i pos fl) -> is_Some (w_cwd w !! c') ->
  exists o, step w c' (Pread fd n off) = Done (w, o) /\ step w' c' (Pread fd n off) = Done (w', o) \/
            step w c' (Pread fd n off) = Panic /\ step w' c' (Pread fd n off) = Panic.
Proof.
  intros Hr H H0 Hfd [cwd' Hc']. pose proof (reach_winv _ _ Hr) as Hw.
  assert (Ht : tame true w c (Unlink p) (Ret r)) by (cbn; intros E; injection E as ->; cbn in H0; lia).
  pose proof (step_winv true _ _ _ _ _ Hw H Ht) as Hw'.
  assert (Hc : exists cwd, w_cwd w !! c = Some cwd).
  { unfold step in H. destruct (w_cwd w !! c); [eauto|discriminate H]. }
  destruct Hc as [cwd Hc]. pose proof (u_cwd _ Hw _ _ Hc) as Hcan.
  unfold step in H. rewrite Hc in H. unfold ret in H. peelc H.
  destruct (unlink_post _ _ _ _ _ (u_inv _ Hw) Hcan H H0) as (dir & f & par & q & j & x & -> & Hpl & Hf & Hx & Hk & Hne & H1 & H2 & _ & (K1 & K2 & K3)).
  pose proof (pl_ino _ _ _ _ _ _ Hpl) as Hq.
  assert (Hfd' : w_fds w' !! (c', fd) = Some (FFile i pos fl)) by (rewrite K1; exact Hfd).
  pose proof (v_r _ (u_inv _ Hw)) as Hrr. wcbn.
  destruct (r_fd _ _ Hrr _ _ _ _ Hfd) as [y Hy].
  assert (Hy' : exists y', w_ino w' !! i = Some y' /\ same_attrs y y' /\ i_ref y' = i_ref y).
  { rewrite H1. unfold un_ino. destruct (decide (j = i)) as [->|Hji].
    - assert (Hg : un_gone x = false).
      { unfold un_gone. destruct (r_ref _ _ Hrr _ _ Hx) as [Hok _]. destruct (Hok Hk) as [Href _].
        assert (0 < nfds (w_fds w) i). { apply cnt_pos. exists (c', fd), (FFile i pos fl). split; [exact Hfd|]. cbn. apply Z.eqb_refl. }
        destruct (Z.eqb_spec (i_ref x) 0); [lia|]. apply andb_false_r. }
      rewrite Hg, lookup_insert_ne, lookup_insert by congruence. eexists. split; [reflexivity|]. assert (y = x) by congruence. subst.
      split; [split; [|split]; reflexivity|reflexivity].
    - destruct (decide (par = i)) as [->|].
      + eexists. split; [destruct (un_gone x); rewrite ?lookup_delete_ne by congruence; rewrite lookup_insert; reflexivity|].
        assert (y = q) by congruence. subst. split; [split; [|split]; reflexivity|reflexivity].
      + exists y. split; [destruct (un_gone x); rewrite ?lookup_delete_ne by congruence; rewrite !lookup_insert_ne by congruence; exact Hy|].
        split; [split; [|split]; reflexivity|reflexivity]. }
  destruct Hy' as (y' & Hy' & Hs & Href).
  assert (Hb : bytes w' i = bytes w i).
  { unfold bytes. rewrite H2. unfold un_host. destruct (decide (j = i)) as [->|Hji].
    - assert (Hg : un_gone x = false); [|rewrite Hg, andb_false_r; reflexivity].
      unfold un_gone. destruct (r_ref _ _ Hrr _ _ Hx) as [Hok _]. destruct (Hok Hk) as [Hrf _].
      assert (0 < nfds (w_fds w) i). { apply cnt_pos. exists (c', fd), (FFile i pos fl). split; [exact Hfd|]. cbn. apply Z.eqb_refl. }
      destruct (Z.eqb_spec (i_ref x) 0); [lia|]. apply andb_false_r.
    - destruct (_ && _); [rewrite lookup_delete_ne by congruence; reflexivity|reflexivity]. }
  unfold step. rewrite Hc', K2, Hc'. unfold same.
  rewrite (pread_same w w' c' fd n off i y y' pos fl Hw Hw' Hfd Hfd' Hy Hy' Hs Href Hb).
  destruct (pread_syscall w c' fd n off) as [o|]; cbn [obind]; [exists o; left; split; reflexivity|exists (Ret 0); right; split; reflexivity].
Qed.

(** *** C09 *)
Lemma link_thm w c cwd a b qa qb w' r : reach true w -> w_cwd w !! c = Some cwd -> denotes cwd a qa -> denotes cwd b qb ->
  step w c (Link a b) = Done (w', Ret r) -> 0 <= r ->
  exists i x, resolves (w_ino w) qa i /\ w_ino w !! i = Some x /\ i_kind x <> KDir /\
    names_plus (w_ino w) (w_ino w') qb i /\ resolves (w_ino w') qa i /\ resolves (w_ino w') qb i /\
    (exists par, resolves (w_ino w) (removelast qb) par /\ objects_kept (w_ino w) (w_ino w') [i; par]) /\
    (forall j, bytes w' j = bytes w j) /\ procs_kept w w'.
Proof.
  intros Hr Hc Hda Hdb H H0. pose proof (reach_winv _ _ Hr) as Hw.
  pose proof (step_winv true _ _ _ _ _ Hw H I) as Hw'. pose proof (u_cwd _ Hw _ _ Hc) as Hcan.
  apply denotes_normpath in Hda, Hdb. subst qa qb. unfold step in H. rewrite Hc in H. unfold ret in H. peelc H.
  pose proof (normpath_canonical cwd a Hcan) as Hca. pose proof (normpath_canonical cwd b Hcan) as Hcb.
  destruct (link_post _ _ _ _ _ _ Hcan H H0) as (dir & f & par & q & i & x & -> & Hia & Hx & Hk & Hpl & Hf & Hne & H1 & _ & H3 & H4).
  pose proof (v_n _ (u_inv _ Hw)) as Hn. pose proof (v_n _ (u_inv _ Hw')) as Hn'. wcbn.
  pose proof (pl_ino _ _ _ _ _ _ Hpl) as Hq.
  assert (Hp : names_plus (w_ino w) (w_ino w') (normpath cwd b) i).
  { rewrite (pl_path _ _ _ _ _ _ Hpl). eapply (plus_paths _ _ _ _ par q); eauto.
    - exact (pl_dir _ _ _ _ _ _ Hpl).
    - eapply place_canonical; eauto.
    - exact (pl_res _ _ _ _ _ _ Hpl).
    - eapply place_name; eauto.
    - rewrite H1. rewrite (names_add (<[i := set_link (i_link x + 1) x]> (w_ino w)) par q (par_add f i q) f i);
        [|rewrite lookup_insert_ne by congruence; exact Hq|exact (pl_dot _ _ _ _ _ _ Hpl)|reflexivity].
      rewrite (names_same (w_ino w) i _ x) by (assumption || reflexivity). reflexivity.
    - intros g. rewrite names_lookup, Hx, (n_flat _ _ Hn _ _ Hx Hk). destruct (dotb g); [reflexivity|apply lookup_empty]. }
  exists i, x. split; [exact Hia|]. split; [exact Hx|]. split; [exact Hk|]. split; [exact Hp|]. destruct Hp as [Hp1 Hp2].
  split; [apply Hp2; auto|]. split; [apply Hp2; auto|]. split; [|split; [intros j; unfold bytes; rewrite H3; reflexivity|exact H4]].
  exists par. rewrite (pl_path _ _ _ _ _ _ Hpl), removelast_snoc. split; [exact (pl_res _ _ _ _ _ _ Hpl)|].
  rewrite H1. intros j. split.
  - intros Hj. assert (j <> i) by (intros ->; apply Hj; cbn; auto). assert (j <> par) by (intros ->; apply Hj; cbn; auto).
    rewrite !lookup_insert_ne by congruence. reflexivity.
  - intros [<-|[<-|[]]] y0 z0 Hy Hz.
    + rewrite lookup_insert_ne, lookup_insert in Hz by congruence. injection Hz as <-. assert (y0 = x) by congruence. subst. split; [|split]; reflexivity.
    + rewrite lookup_insert in Hz. injection Hz as <-. assert (y0 = q) by congruence. subst. split; [|split]; reflexivity.
Qed.

Lemma unlink_alias w c cwd p q w' r i p' : reach true w -> w_cwd w !! c = Some cwd -> denotes cwd p q ->
  step w c (Unlink p) = Done (w', Ret r) -> 0 <= r -> resolves (w_ino w) q i -> canonical p' -> p' <> q -> resolves (w_ino w) p' i ->
  resolves (w_ino w') p' i /\ (forall j, ~ resolves (w_ino w') q j) /\ bytes w' i = bytes w i /\
  exists x x', w_ino w !! i = Some x /\ w_ino w' !! i = Some x' /\ same_attrs x x'.
Proof.
  intros Hr Hc Hd H H0 Hi Hc' Hne Hi'.
  destruct (unlink_thm _ _ _ _ _ _ _ Hr Hc Hd H H0) as (j & x & Hj & Hx & Hk & Hm & (par & Hpar & Hkept) & _ & _ & Hal).
  assert (j = i) as -> by (eapply resolves_det; eauto).
  assert (Hcq : canonical q).
  { apply denotes_normpath in Hd as ->. apply normpath_canonical. exact (u_cwd _ (reach_winv _ _ Hr) _ _ Hc). }
  destruct Hal as [[x' Hx'] Hb]; [right; eauto|]. split; [apply Hm; auto|]. split; [intros j Hjq; apply Hm in Hjq as [_ ?]; auto|].
  split; [exact Hb|]. exists x, x'. split; [exact Hx|]. split; [exact Hx'|]. apply (Hkept i); auto. cbn. auto.
Qed.

(** *** C10 *)
Lemma rename_thm w c cwd a b qa qb w' r : reach true w -> w_cwd w !! c = Some cwd -> denotes cwd a qa -> denotes cwd b qb ->
  step w c (Rename a b) = Done (w', Ret r) -> 0 <= r ->
  exists i, resolves (w_ino w) qa i /\ (qa <> qb -> resolves (w_ino w') qb i /\ names_moved (w_ino w) (w_ino w') qa qb) /\
    (exists par, resolves (w_ino w) (removelast qa) par /\ removelast qb = removelast qa /\ objects_kept (w_ino w) (w_ino w') [par]) /\
    (forall j, bytes w' j = bytes w j) /\ procs_kept w w'.
Proof.
  intros Hr Hc Hda Hdb H H0. pose proof (reach_winv _ _ Hr) as Hw.
  assert (Ht : tame true w c (Rename a b) (Ret r)) by (left; reflexivity).
  pose proof (step_winv true _ _ _ _ _ Hw H Ht) as Hw'. pose proof (u_cwd _ Hw _ _ Hc) as Hcan.
  apply denotes_normpath in Hda, Hdb. subst qa qb. unfold step in H. rewrite Hc in H. unfold ret in H. peelc H.
  pose proof (normpath_canonical cwd a Hcan) as Hca. pose proof (normpath_canonical cwd b Hcan) as Hcb.
  pose proof (v_n _ (u_inv _ Hw)) as Hn. pose proof (v_n _ (u_inv _ Hw')) as Hn'. wcbn.
  destruct (rename_post _ _ _ _ _ _ _ Hn Hcan H H0) as (dir & fo & fn & par & q & i & -> & Hpl & Hf & Hpl2 & H1 & _ & H3 & H4).
  pose proof (pl_ino _ _ _ _ _ _ Hpl) as Hq.
  assert (Hia : resolves (w_ino w) (normpath cwd a) i).
  { rewrite (pl_path _ _ _ _ _ _ Hpl). eapply res_step; eauto; [exact (pl_res _ _ _ _ _ _ Hpl)|exact (pl_dir _ _ _ _ _ _ Hpl)]. }
  exists i. split; [exact Hia|]. split; [|split; [|split; [intros j; unfold bytes; rewrite H3; reflexivity|exact H4]]].
  - intros Hne. assert (Hff : fo <> fn).
    { intros ->. apply Hne. rewrite (pl_path _ _ _ _ _ _ Hpl). symmetry. exact (pl_path _ _ _ _ _ _ Hpl2). }
    assert (Hm : names_moved (w_ino w) (w_ino w') (normpath cwd a) (normpath cwd b)).
    { pose proof (pl_path _ _ _ _ _ _ Hpl) as Ea. pose proof (pl_path _ _ _ _ _ _ Hpl2) as Eb. rewrite Ea, Eb.
      apply (moved_paths _ _ _ _ par q dir fo fn i Hn Hn' Hq (pl_dir _ _ _ _ _ _ Hpl)); try congruence.
      - exact (pl_res _ _ _ _ _ _ Hpl).
      - eapply place_name; eauto.
      - rewrite H1. set (q1 := set_dict (<[fn := i]> (i_dict q)) q).
        replace (<[par := set_dict (delete fo (<[fn := i]> (i_dict q))) q]> (w_ino w))
          with (<[par := set_dict (delete fo (i_dict q1)) q1]> (<[par := q1]> (w_ino w))) by (rewrite insert_insert; reflexivity).
        rewrite (names_rem (<[par := q1]> (w_ino w)) par q1 _ fo); [|apply lookup_insert|reflexivity].
        rewrite (names_add (w_ino w) par q q1 fn i Hq (pl_dot _ _ _ _ _ _ Hpl2) eq_refl). reflexivity. }
    split; [|exact Hm]. destruct Hm as [Hm1 _]. specialize (Hm1 [] i). rewrite !app_nil_r in Hm1. apply Hm1; assumption.
  - exists par. rewrite (pl_path _ _ _ _ _ _ Hpl), (pl_path _ _ _ _ _ _ Hpl2), !removelast_snoc. split; [exact (pl_res _ _ _ _ _ _ Hpl)|].
    split; [reflexivity|]. rewrite H1. intros j. split.
    + intros Hj. rewrite lookup_insert_ne; [reflexivity|]. intros ->. apply Hj. cbn. auto.
    + intros [<-|[]] y0 z0 Hy Hz. rewrite lookup_insert in Hz. injection Hz as <-. assert (y0 = q) by congruence. subst. split; [|split]; reflexivity.
Qed.
