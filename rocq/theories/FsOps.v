(** Exact post-states of the calls that create, remove and move names. *)
From Verif Require Import Base PathModel PathSpec PathProofs FsModel FsBoot FsSpec FsWalk Count FsNames FsTr FsInv FsInv2
  FsSteps FsSteps2 FsFrame FsReachSpec FsWinv FsNameSpec FsPath.
Local Open Scope list_scope.
Local Open Scope Z_scope.

Lemma walk_par2 t p r par : canonical p -> metawalkandparent t p = Done (r, Some par) ->
  exists dir f x, p = dir ++ [f] /\ file_name p = Some f /\ t !! par = Some x /\ i_kind x = KDir /\ i_dict x !! f = r
    /\ dotb f = false /\ resolves t dir par /\ canonical dir.
Proof.
  intros Hc H. apply walk_parent in H as (dir & f & x & -> & Hx & Hk & Hf & Hm & Hl).
  apply canonical_snoc in Hc as [Hc Hd]. exists dir, f, x. repeat split; auto. apply metawalk_resolves. exact Hm.
Qed.

(** [f] is the last name of the path [q], in directory [par] *)
Record place (t : gmap Z inode) (q dir : list string) (f : string) (par : Z) (x : inode) : Prop := {
  pl_path : q = dir ++ [f];
  pl_can : canonical dir;
  pl_dot : dotb f = false;
  pl_res : resolves t dir par;
  pl_ino : t !! par = Some x;
  pl_dir : i_kind x = KDir
}.

Lemma place_of t p r par : canonical p -> metawalkandparent t p = Done (r, Some par) ->
  exists dir f x, place t p dir f par x /\ file_name p = Some f /\ i_dict x !! f = r.
Proof.
  intros Hc H. destruct (walk_par2 _ _ _ _ Hc H) as (dir & f & x & H1 & H2 & H3 & H4 & H5 & H6 & H7 & H8).
  exists dir, f, x. split; [constructor; assumption|auto].
Qed.

Lemma place_name t n q dir f par x r : inv_n t n -> place t q dir f par x -> i_dict x !! f = r -> names t !! (par, f) = r.
Proof. intros Hn H Hr. rewrite names_lookup, (pl_dot _ _ _ _ _ _ H), (pl_ino _ _ _ _ _ _ H). exact Hr. Qed.

Definition new_file (m : Z) : inode := Inode KFile 0 (Z.lor S_IFREG m) 1 1 ∅.

Lemma open_new_post w c cwd p fl m w' r :
  inv (core_of w) -> canonical cwd -> open_syscall w c cwd p fl m = Done (w', r) -> 0 <= r ->
  metawalk (w_ino w) (normpath cwd p) = Done None ->
  exists dir f par x, place (w_ino w) (normpath cwd p) dir f par x /\ i_dict x !! f = None /\
    hasbit fl O_CREAT = true /\ sane_mode m = true /\ w_fds w !! (c, r) = None /\
    w_ino w' = <[w_next w := new_file m]> (<[par := par_add f (w_next w) x]> (w_ino w)) /\
    w_next w' = w_next w + 1 /\ d_host (w_disk w') = <[w_next w := []]> (d_host (w_disk w)) /\
    w_fds w' = <[(c, r) := FFile (w_next w) 0 (Z.land fl (Z.lor O_RDWRFLAGS O_CLOEXEC))]> (w_fds w) /\
    w_cwd w' = w_cwd w /\ w_pipes w' = w_pipes w.
Proof.
  intros Hi Hc H Hr Hm. unfold open_syscall in H.
  destruct (String.eqb p ""); [negr H|].
  destruct (next_fd w c 0) as [fd|] eqn:Hfd; [|negr H].
  apply next_fd_some in Hfd as [Hfd _].
  pose proof (normpath_canonical cwd p Hc) as Hcp. unfold metawalk in Hm.
  destruct (metawalkandparent (w_ino w) (normpath cwd p)) as [[[i|] [par|]]|] eqn:Hw; cbn [obind fst] in H, Hm; try discriminate.
  2: { negr H. }
  destruct (place_of _ _ _ _ Hcp Hw) as (dir & f & x & Hpl & Hf & Hx). rewrite Hf in H.
  destruct (hasbit fl O_CREAT) eqn:E1; cbn [negb] in H; [|negr H].
  destruct (Z.land S_IFCHR fl =? S_IFCHR); [negr H|].
  destruct (sane_mode m) eqn:E2; cbn [negb] in H; [|negr H].
  unfold add_child, get_ino in H. rewrite (pl_ino _ _ _ _ _ _ Hpl) in H. cbn [obind] in H. injection H as <- <-.
  destruct (inv_fresh w Hi) as (F1 & F2 & F3).
  exists dir, f, par, x. split; [assumption|]. split; [assumption|]. split; [reflexivity|]. split; [reflexivity|]. split; [assumption|].
  unfold open_fobj. wcbn. rewrite F2. wcbn. rewrite F3. cbn [from_option].
  split; [reflexivity|]. split; [reflexivity|]. split; [reflexivity|]. split; [|split; reflexivity].
  unfold file_initializer. destruct (hasbit fl O_APPEND); reflexivity.
Qed.

(** [i] with object [x] has been added under the name [f] of [par] *)
Record added (w w' : world) (i : Z) (x : inode) (f : string) (par : Z) (q : inode) : Prop := {
  a_ino : w_ino w' = <[i := x]> (<[par := par_add f i q]> (w_ino w));
  a_next : w_next w' = i + 1;
  a_host : d_host (w_disk w') = d_host (w_disk w);
  a_kept : procs_kept w w'
}.

Definition new_dir (i par m : Z) : inode := Inode KDir 0 (Z.lor S_IFDIR m) 3 0 (new_dict i par).
Definition new_dev (m d : Z) : inode := Inode (KChr (fst (CodecModel.devtuple d)) (snd (CodecModel.devtuple d))) 0 m 1 0 ∅.

Lemma mkdir_post w cwd p m w' r :
  canonical cwd -> mkdir_syscall w cwd p m = Done (w', r) -> 0 <= r ->
  exists dir f par q, place (w_ino w) (normpath cwd p) dir f par q /\ i_dict q !! f = None /\ r = 0 /\
    sane_mode m = true /\ added w w' (w_next w) (new_dir (w_next w) par m) f par q.
Proof.
  intros Hc H Hr. unfold mkdir_syscall in H.
  destruct (String.eqb p ""); [negr H|].
  pose proof (normpath_canonical cwd p Hc) as Hcp.
  destruct (metawalkandparent (w_ino w) (normpath cwd p)) as [[[i|] [par|]]|] eqn:Hw; cbn [obind fst] in H; try discriminate;
    try (negr H).
  destruct (place_of _ _ _ _ Hcp Hw) as (dir & f & x & Hpl & Hf & Hx). rewrite Hf in H.
  destruct (sane_mode m) eqn:E2; cbn [negb] in H; [|negr H].
  unfold add_child, get_ino in H. rewrite (pl_ino _ _ _ _ _ _ Hpl) in H. cbn [obind] in H. injection H as <- <-.
  exists dir, f, par, x. do 4 (split; [assumption || reflexivity|]). constructor; try reflexivity. split; [|split]; reflexivity.
Qed.

Lemma mknod_post w cwd p m d w' r :
  canonical cwd -> mknod_syscall w cwd p m d = Done (w', r) -> 0 <= r ->
  exists dir f par q, place (w_ino w) (normpath cwd p) dir f par q /\ i_dict q !! f = None /\ r = 0 /\
    sane_mode m = true /\ Z.land m S_IFCHR <> 0 /\ added w w' (w_next w) (new_dev m d) f par q.
Proof.
  intros Hc H Hr. unfold mknod_syscall in H.
  destruct (String.eqb p ""); [negr H|].
  pose proof (normpath_canonical cwd p Hc) as Hcp.
  destruct (metawalkandparent (w_ino w) (normpath cwd p)) as [[[i|] [par|]]|] eqn:Hw; cbn [obind fst] in H; try discriminate;
    try (negr H).
  destruct (place_of _ _ _ _ Hcp Hw) as (dir & f & x & Hpl & Hf & Hx). rewrite Hf in H.
  destruct (sane_mode m) eqn:E2; cbn [negb] in H; [|negr H].
  destruct (Z.eqb_spec (Z.land m S_IFCHR) 0); [negr H|].
  unfold add_child, get_ino in H. rewrite (pl_ino _ _ _ _ _ _ Hpl) in H. cbn [obind] in H. injection H as <- <-.
  exists dir, f, par, x. do 5 (split; [assumption || reflexivity|]). constructor; try reflexivity. split; [|split]; reflexivity.
Qed.

(** A second name for [i] *)
Lemma link_post w cwd a b w' r : canonical cwd ->
  link_syscall w cwd a b = Done (w', r) -> 0 <= r ->
  exists dir f par q i x, r = 0 /\ resolves (w_ino w) (normpath cwd a) i /\ w_ino w !! i = Some x /\ i_kind x <> KDir /\
    place (w_ino w) (normpath cwd b) dir f par q /\ i_dict q !! f = None /\ i <> par /\
    w_ino w' = <[par := par_add f i q]> (<[i := set_link (i_link x + 1) x]> (w_ino w)) /\
    w_next w' = w_next w /\ d_host (w_disk w') = d_host (w_disk w) /\ procs_kept w w'.
Proof.
  intros Hc H Hr. unfold link_syscall in H.
  destruct (String.eqb a ""); [negr H|].
  destruct (String.eqb b ""); [negr H|].
  pose proof (normpath_canonical cwd a Hc) as Hca. pose proof (normpath_canonical cwd b Hc) as Hcb.
  destruct (file_name (normpath cwd b)) as [f|] eqn:Hfb; [|discriminate].
  destruct (metawalk (w_ino w) (normpath cwd a)) as [[i|]|] eqn:Hma; cbn [obind] in H; try discriminate;
    [|negr H].
  destruct (get_ino w i) as [x|] eqn:Hx; cbn [obind] in H; [|discriminate]. apply get_ino_done in Hx.
  destruct (decide (i_kind x = KDir)) as [Hk|Hk].
  { rewrite Hk in H. negr H. }
  destruct (metawalkandparent (w_ino (put_ino i (set_link (i_link x + 1) x) w)) (normpath cwd b)) as [[[j|] [par|]]|] eqn:Hw;
    cbn [obind] in H; try (destruct (i_kind x); try congruence; discriminate);
    try (destruct (i_kind x); try congruence; negr H).
  wcbn1 Hw. destruct (place_of _ _ _ _ Hcb Hw) as (dir & f' & q & Hpl & Hf & Hqf). assert (f' = f) by congruence. subst f'.
  assert (Hne : i <> par).
  { intros ->. pose proof (pl_ino _ _ _ _ _ _ Hpl) as Hq. rewrite lookup_insert in Hq. injection Hq as <-.
    pose proof (pl_dir _ _ _ _ _ _ Hpl) as Hqk. cbn in Hqk. congruence. }
  destruct Hpl as [P1 P2 P3 P4 P5 P6].
  assert (P5' : w_ino w !! par = Some q) by (rewrite lookup_insert_ne in P5 by congruence; exact P5).
  assert (P4' : resolves (w_ino w) dir par).
  { clear -P4 Hx Hk. induction P4 as [|p d y g j Hp IH Hy Hky Hg]; [constructor|]. destruct (decide (i = d)) as [<-|Hne].
    - rewrite lookup_insert in Hy. injection Hy as <-. cbn in Hky. congruence.
    - rewrite lookup_insert_ne in Hy by assumption. eapply res_step; eauto. }
  assert (H' : Done (log_meta i (log_meta par (put_ino par (set_link (i_link q + 1) (set_dict (<[f := i]> (i_dict q)) q))
     (put_ino i (set_link (i_link x + 1) x) w))), 0) = Done (w', r)).
  { unfold get_ino in H. wcbn1 H. rewrite P5 in H. destruct (i_kind x); try congruence; exact H. }
  injection H' as <- <-. exists dir, f, par, q, i, x. split; [reflexivity|]. split; [apply metawalk_resolves; exact Hma|].
  split; [assumption|]. split; [assumption|]. split; [constructor; assumption|]. split; [assumption|]. split; [assumption|].
  split; [reflexivity|]. split; [reflexivity|]. split; [reflexivity|]. split; [|split]; reflexivity.
Qed.

Lemma unlink_post w cwd p w' r : inv (core_of w) -> canonical cwd ->
  unlink_syscall w cwd p = Done (w', r) -> 0 <= r ->
  exists dir f par q i x, r = 0 /\ place (w_ino w) (normpath cwd p) dir f par q /\ i_dict q !! f = Some i /\
    w_ino w !! i = Some x /\ i_kind x <> KDir /\ i <> par /\
    w_ino w' = un_ino i x par q f (w_ino w) /\ d_host (w_disk w') = un_host i x (d_host (w_disk w)) /\
    w_next w' = w_next w /\ procs_kept w w'.
Proof.
  intros Hi Hc H Hr. unfold unlink_syscall in H.
  destruct (String.eqb p ""); [negr H|].
  pose proof (normpath_canonical cwd p Hc) as Hcp.
  destruct (metawalkandparent (w_ino w) (normpath cwd p)) as [[[i|] [par|]]|] eqn:Hw; cbn [obind] in H; try discriminate;
    try (negr H).
  destruct (place_of _ _ _ _ Hcp Hw) as (dir & f & q & Hpl & Hf & Hqf).
  pose proof (pl_ino _ _ _ _ _ _ Hpl) as Hq. pose proof (pl_dir _ _ _ _ _ _ Hpl) as Hqk.
  destruct (get_ino w i) as [x|] eqn:Hx; cbn [obind] in H; [|discriminate]. apply get_ino_done in Hx.
  assert (Hsock : i_kind x <> KSock) by (eapply (n_sock _ _ (v_n _ Hi)); eauto).
  destruct (decide (i_kind x = KDir)) as [Hk|Hk].
  { rewrite Hk in H. negr H. }
  assert (Hne : i <> par) by congruence.
  destruct (dec (i_link x)) as [l|] eqn:Hl; [|destruct (i_kind x); cbn [obind] in H; congruence].
  apply dec_done in Hl as [-> Hpos].
  exists dir, f, par, q, i, x. unfold un_ino, un_host, un_gone, isfile, par_rem.
  unfold remove_from_parent, get_ino in H. cbn [obind] in H. wcbn1 H.
  rewrite lookup_insert_ne in H by congruence. rewrite Hq in H. cbn [obind] in H. rewrite Hqk, Hf, Hqf in H.
  replace (i_link x - 1 =? 0) with (i_link x =? 1) in H by lia.
  assert (Hb : no_write_bits (i_mode q) = false).
  { destruct (no_write_bits (i_mode q)) eqn:E; [|reflexivity]. exfalso.
    destruct (i_kind x); try contradiction; cbn [obind] in H;
      change (negb (err EPERM =? 0)) with true in H; cbv iota in H; negr H. }
  rewrite Hb in H.
  destruct (dec (i_link q)) as [lq|] eqn:Hlq; [|destruct (i_kind x); cbn in H; congruence].
  apply dec_done in Hlq as [-> _].
  destruct (i_kind x) as [| |ma mi|] eqn:Ek; try congruence; cbn [obind] in H; cbn [Z.eqb negb] in H; cbn [andb];
    destruct ((i_link x =? 1) && (i_ref x =? 0)) eqn:Eg.
  1: unfold remove_host in H; wcbn1 H; destruct (d_host (w_disk w) !! i); [|discriminate]; cbn [obind] in H.
  all: injection H as <- <-; repeat match goal with |- _ /\ _ => split end; try assumption; try reflexivity; try congruence; split; [|split]; reflexivity.
Qed.

Lemma rename_post n w cwd a b w' r : inv_n (w_ino w) n -> canonical cwd ->
  rename_syscall w cwd a b = Done (w', r) -> 0 <= r ->
  exists dir fo fn par q i, r = 0 /\ place (w_ino w) (normpath cwd a) dir fo par q /\ i_dict q !! fo = Some i /\
    place (w_ino w) (normpath cwd b) dir fn par q /\
    w_ino w' = <[par := set_dict (delete fo (<[fn := i]> (i_dict q))) q]> (w_ino w) /\
    w_next w' = w_next w /\ d_host (w_disk w') = d_host (w_disk w) /\ procs_kept w w'.
Proof.
  intros Hn Hc H Hr. unfold rename_syscall in H.
  destruct (String.eqb a ""); [negr H|].
  destruct (String.eqb b ""); [negr H|].
  pose proof (normpath_canonical cwd a Hc) as Hca. pose proof (normpath_canonical cwd b Hc) as Hcb.
  destruct (metawalkandparent (w_ino w) (normpath cwd a)) as [[[i|] [par|]]|] eqn:Hw; cbn [obind] in H; try discriminate;
    try (negr H).
  destruct (place_of _ _ _ _ Hca Hw) as (dir & f & q & Hpl & Hf & Hqf).
  destruct (metawalkandparent (w_ino w) (normpath cwd b)) as [[j par2]|] eqn:Hw2; cbn [obind snd] in H; [|discriminate].
  destruct (bool_decide (par2 = Some par)) eqn:Eb; cbn [negb] in H;
    [|negr H].
  apply bool_decide_eq_true in Eb. subst par2.
  destruct (place_of _ _ _ _ Hcb Hw2) as (dir2 & f2 & q2 & Hpl2 & Hf2 & Hqf2).
  assert (q2 = q) as -> by (pose proof (pl_ino _ _ _ _ _ _ Hpl); pose proof (pl_ino _ _ _ _ _ _ Hpl2); congruence).
  unfold get_ino in H. rewrite (pl_ino _ _ _ _ _ _ Hpl) in H. cbn [obind] in H. rewrite Hf, Hf2 in H. injection H as <- <-.
  exists dir, f, f2, par, q, i. split; [reflexivity|]. split; [assumption|]. split; [assumption|].
  split; [|split; [reflexivity|]; split; [reflexivity|]; split; [reflexivity|]; split; [|split]; reflexivity].
  replace dir with dir2; [assumption|].
  pose proof (pl_res _ _ _ _ _ _ Hpl) as R1. pose proof (pl_res _ _ _ _ _ _ Hpl2) as R2.
  apply (resolves_nwalk _ _ _ _ Hn (pl_can _ _ _ _ _ _ Hpl)) in R1. apply (resolves_nwalk _ _ _ _ Hn (pl_can _ _ _ _ _ _ Hpl2)) in R2.
  eapply (nwalk_unique _ _ _ _ _ _ Hn (pl_ino _ _ _ _ _ _ Hpl) (pl_dir _ _ _ _ _ _ Hpl)); eauto.
Qed.

Lemma names_un t n i x par q f : inv_n t n -> t !! i = Some x -> i_kind x <> KDir -> i <> par -> t !! par = Some q ->
  names (un_ino i x par q f t) = delete (par, f) (names t).
Proof.
  intros Hn Hi Hk Hne Hq. unfold un_ino.
  assert (E : names (<[par := par_rem f q]> (<[i := set_link (i_link x - 1) x]> t)) = delete (par, f) (names t)).
  { rewrite (names_rem (<[i := set_link (i_link x - 1) x]> t) par q (par_rem f q) f); [|rewrite lookup_insert_ne by congruence; exact Hq|reflexivity].
    rewrite (names_same t i _ x) by (assumption || reflexivity). reflexivity. }
  destruct (un_gone x); [|exact E]. rewrite names_del; [exact E|]. intros g. rewrite E.
  apply lookup_delete_None. right. rewrite names_lookup, Hi, (n_flat _ _ Hn _ _ Hi Hk). destruct (dotb g); [reflexivity|apply lookup_empty].
Qed.

Lemma un_kept t i x par q f : t !! i = Some x -> t !! par = Some q -> i <> par -> objects_kept t (un_ino i x par q f t) [i; par].
Proof.
  intros Hi Hq Hne j. unfold un_ino. split.
  - intros Hj. assert (j <> i) by (intros ->; apply Hj; cbn; auto). assert (j <> par) by (intros ->; apply Hj; cbn; auto).
    destruct (un_gone x); rewrite ?lookup_delete_ne by congruence; rewrite !lookup_insert_ne by congruence; reflexivity.
  - intros [<-|[<-|[]]] y z Hy Hz.
    + destruct (un_gone x); [rewrite lookup_delete in Hz; discriminate|].
      rewrite lookup_insert_ne, lookup_insert in Hz by congruence. injection Hz as <-. assert (y = x) by congruence. subst. split; [|split]; reflexivity.
    + destruct (un_gone x); rewrite ?lookup_delete_ne in Hz by congruence; rewrite lookup_insert in Hz; injection Hz as <-;
        assert (y = q) by congruence; subst; (split; [|split]; reflexivity).
Qed.

Lemma two_names t i k1 k2 : names t !! k1 = Some i -> names t !! k2 = Some i -> k1 <> k2 -> 2 <= nnames t i.
Proof.
  intros H1 H2 Hne. unfold nnames. rewrite <- (insert_delete (names t) k1 i H1).
  rewrite cnt_insert_new by apply lookup_delete. cbn [snd]. rewrite Z.eqb_refl.
  enough (0 < cnt (fun e : Z * string * Z => e.2 =? i) (delete k1 (names t))) by lia.
  apply cnt_pos. exists k2, i. split; [rewrite lookup_delete_ne by assumption; exact H2|]. cbn. apply Z.eqb_refl.
Qed.

Lemma two_paths t n i p q dir f par x : inv_n t n -> i <> ROOTINO -> place t q dir f par x -> i_dict x !! f = Some i ->
  canonical p -> p <> q -> resolves t p i -> 2 <= nnames t i.
Proof.
  intros Hn Hroot Hpl Hf Hc Hne Hp. pose proof (place_name _ _ _ _ _ _ _ _ Hn Hpl Hf) as H1.
  inversion Hp as [|p' d y g i' Hp' Hy Hk Hg E1 E2]; subst; [congruence|].
  apply canonical_snoc in Hc as [Hc Hdg].
  apply (two_names t i (par, f) (d, g)); [exact H1|rewrite names_lookup, Hdg, Hy; exact Hg|].
  intros [= <- <-]. apply Hne. rewrite (pl_path _ _ _ _ _ _ Hpl). f_equal.
  eapply nwalk_unique; [exact Hn|exact Hy|exact Hk| |].
  - apply (resolves_nwalk _ _ _ _ Hn Hc). exact Hp'.
  - apply (resolves_nwalk _ _ _ _ Hn (pl_can _ _ _ _ _ _ Hpl)). exact (pl_res _ _ _ _ _ _ Hpl).
Qed.

Lemma place_canonical t q dir f par x : canonical q -> place t q dir f par x -> canonical (dir ++ [f]).
Proof. intros Hc H. rewrite <- (pl_path _ _ _ _ _ _ H). exact Hc. Qed.
