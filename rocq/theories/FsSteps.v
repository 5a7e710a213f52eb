(** Every system call is a sequence of transitions (FsTr.v). *)
From Verif Require Import Base PathModel PathSpec PathProofs FsModel FsSpec FsWalk Count FsNames FsTr FsInv.
Local Open Scope list_scope.
Local Open Scope Z_scope.

Ltac wcbn := unfold core_of in *;
  cbn [with_ino with_next with_fobj emit with_cwd with_fds with_pipes with_npipe with_dsock
  put_ino del_ino put_fd del_fd log_meta w_ino w_next w_fobj w_disk w_trace w_cwd w_fds w_pipes w_npipe w_dsock
  apply_eff d_host d_meta d_log fst snd obind ret same k_ino k_next k_fobj k_host k_fds k_pipes k_npipe] in *.
Ltac wcbn1 H := unfold core_of in H;
  cbn [with_ino with_next with_fobj emit with_cwd with_fds with_pipes with_npipe with_dsock
  put_ino del_ino put_fd del_fd log_meta w_ino w_next w_fobj w_disk w_trace w_cwd w_fds w_pipes w_npipe w_dsock
  apply_eff d_host d_meta d_log fst snd obind ret same k_ino k_next k_fobj k_host k_fds k_pipes k_npipe] in H.

(** A negative result where a success is assumed *)
Ltac negr H := injection H as _ <-; cbn in *; lia.

Ltac brk H :=
  repeat (cbn [obind ret same fst snd] in H; match type of H with
  | obind ?o _ = Done _ => let E := fresh "E" in destruct o eqn:E; cbn [obind] in H; [|discriminate H]
  | (if ?b then _ else _) = Done _ => let E := fresh "E" in destruct b eqn:E
  | (match ?x with Some _ => _ | None => _ end) = Done _ =>
      let E := fresh "E" in destruct x eqn:E
  | (match ?x with (_, _) => _ end) = Done _ => let a := fresh "a" in let b := fresh "b" in destruct x as [a b]
  | (let '(_, _) := ?x in _) = Done _ => let a := fresh "a" in let b := fresh "b" in destruct x as [a b]
  | Panic = Done _ => discriminate H
  | Done (_, _) = Done (_, _) => injection H as ? ?; try subst
  | Done _ = Done _ => injection H as H; try subst
  end).

Lemma get_ino_done w i x : get_ino w i = Done x -> w_ino w !! i = Some x.
Proof. unfold get_ino. destruct (w_ino w !! i); congruence. Qed.

Lemma get_pipe_done w i x : get_pipe w i = Done x -> w_pipes w !! i = Some x.
Proof. unfold get_pipe. destruct (w_pipes w !! i); congruence. Qed.

Lemma dec_done v r : dec v = Done r -> r = v - 1 /\ 0 < v.
Proof. unfold dec. destruct (Z.leb_spec v 0); [discriminate|]. intros [= <-]. lia. Qed.

Lemma fd_slot_done w c fd s : fd_slot w c fd = Done s -> s = w_fds w !! (c, fd) /\ 0 <= fd < MAXFD.
Proof. unfold fd_slot, in_fd_range. destruct ((0 <=? fd) && (fd <? MAXFD)) eqn:E; [|discriminate]. intros [= <-]. split; [reflexivity|lia]. Qed.

Lemma find_some_iff {A} (f : A -> bool) l x : find f l = Some x -> f x = true /\ x ∈ l.
Proof. intros H. apply find_some in H as [H1 H2]. split; [assumption|]. apply elem_of_list_In. assumption. Qed.

Lemma next_fd_some w c s fd : next_fd w c s = Some fd -> w_fds w !! (c, fd) = None /\ s <= fd < MAXFD.
Proof.
  unfold next_fd. intros H. apply find_some_iff in H as [H1 H2]. apply elem_of_seqZ in H2.
  destruct (w_fds w !! (c, fd)); [discriminate|]. split; [reflexivity|lia].
Qed.

Lemma canonical_snoc dir f : canonical (dir ++ [f]) -> canonical dir /\ dotb f = false.
Proof.
  unfold canonical. rewrite Forall_app. intros [H1 H2]. split; [assumption|].
  apply Forall_singleton in H2 as (_ & ? & ? & _). apply dotb_false. auto.
Qed.

Lemma resolves_named t p i : canonical p -> resolves t p i -> named t i.
Proof.
  intros Hc H. destruct H as [|p d x f i Hp Hd Hk Hf]; [left; reflexivity|].
  right. exists (d, f). apply canonical_snoc in Hc as [_ Hc]. rewrite names_lookup, Hc, Hd. exact Hf.
Qed.

Lemma file_name_good p f : canonical p -> file_name p = Some f -> good_name f.
Proof. intros Hc H. unfold file_name in H. apply last_Some in H as [l ->]. apply Forall_app in Hc as [_ Hc]. inversion Hc; assumption. Qed.

(** What a walk that reaches a parent directory says *)
Lemma walk_par t p r par : canonical p -> metawalkandparent t p = Done (r, Some par) ->
  exists f x, file_name p = Some f /\ t !! par = Some x /\ i_kind x = KDir /\ i_dict x !! f = r
    /\ dotb f = false /\ named t par.
Proof.
  intros Hc H. apply walk_parent in H as (dir & f & x & -> & Hx & Hk & Hf & Hm & Hl).
  apply canonical_snoc in Hc as [Hc Hd]. exists f, x. repeat split; auto.
  eapply resolves_named; eauto. apply metawalk_resolves. exact Hm.
Qed.

Lemma metawalk_named t p i : canonical p -> metawalk t p = Done (Some i) -> named t i.
Proof. intros Hc H. eapply resolves_named; eauto. apply metawalk_resolves. exact H. Qed.

Lemma mwap_metawalk t p i par : metawalkandparent t p = Done (Some i, par) -> metawalk t p = Done (Some i).
Proof. intros H. unfold metawalk. rewrite H. reflexivity. Qed.

Lemma set_size_id x : set_size (i_size x) x = x.
Proof. destruct x; reflexivity. Qed.

Section Steps.
Context (disp : bool).
Notation TR := (trs disp).

Lemma one k k' : tr disp k k' -> TR k k'.
Proof. intros. apply rtc_once. assumption. Qed.
Lemma two k k' k'' : tr disp k k' -> TR k' k'' -> TR k k''.
Proof. intros. eapply rtc_l; eauto. Qed.
Lemma nil k : TR k k.
Proof. apply rtc_refl. Qed.
Hint Resolve nil : core.

Lemma add_child_trs w par f i x w' p :
  i = w_next w -> add_child par f i x w = Done w' ->
  w_ino w !! par = Some p -> i_kind p = KDir -> i_dict p !! f = None -> dotb f = false ->
  named (w_ino w) par -> newobj par i x -> good_name f -> TR (core_of w) (core_of w').
Proof.
  intros -> H Hp Hk Hf Hd Hn Hx Hg. unfold add_child, get_ino in H. rewrite Hp in H. brk H. wcbn.
  apply one, t_new; auto.
Qed.

Lemma inv_fresh w : inv (core_of w) ->
  w_ino w !! w_next w = None /\ w_fobj w !! w_next w = None /\ d_host (w_disk w) !! w_next w = None.
Proof.
  intros [Hn _ Hd _]. wcbn. pose proof (inv_next_none _ _ Hn) as E. cbn in *.
  specialize (Hd (w_next w)). rewrite E in Hd. destruct Hd. auto.
Qed.

Lemma open_trs w c cwd p fl m w' r :
  inv (core_of w) -> canonical cwd -> open_syscall w c cwd p fl m = Done (w', r) ->
  TR (core_of w) (core_of w').
Proof.
  intros Hi Hc H. unfold open_syscall in H.
  destruct (String.eqb p ""); [brk H; auto|].
  destruct (next_fd w c 0) as [fd|] eqn:Hfd; [|brk H; auto].
  apply next_fd_some in Hfd as [Hfd _].
  pose proof (normpath_canonical cwd p Hc) as Hcp.
  destruct (metawalkandparent (w_ino w) (normpath cwd p)) as [[[i|] [par|]]|] eqn:Hw; cbn [obind] in H; try discriminate.
  1,2: destruct (_ =? _) eqn:E0 in H; [brk H; auto|]; destruct (get_ino w i) as [x|] eqn:Hx; cbn [obind] in H; [|discriminate];
    apply get_ino_done in Hx; destruct (i_kind x) eqn:Hk;
    [ (* file *)
      destruct (Z.land fl O_TRUNC =? O_TRUNC) eqn:Et;
      [ unfold remove_host in H; wcbn1 H; destruct (d_host (w_disk w) !! i) as [b|] eqn:Eh; [|discriminate H];
        wcbn1 H; injection H as <- <-; unfold open_fobj; wcbn; rewrite lookup_delete; wcbn;
        rewrite lookup_delete; cbn [from_option]; rewrite !insert_delete_insert, insert_insert;
        apply one, t_trunc; auto
      | cbn [obind] in H; injection H as <- <-; rewrite set_size_id; unfold open_fobj;
        pose proof (t_open disp (w_ino w) (w_next w) (w_fobj w) (d_host (w_disk w)) (w_fds w) (w_pipes w) (w_npipe w)
          i x (c, fd) (if hasbit fl O_APPEND then i_size x else 0) (Z.land fl (Z.lor O_RDWRFLAGS O_CLOEXEC)) Hx Hfd) as Ht;
        unfold fobj_open, host_open in Ht; rewrite Hk in Ht;
        destruct (w_fobj w !! i) eqn:Ef; apply one; exact Ht ]
    | injection H as <- <-;
      pose proof (t_open disp (w_ino w) (w_next w) (w_fobj w) (d_host (w_disk w)) (w_fds w) (w_pipes w) (w_npipe w)
          i x (c, fd) (if hasbit fl O_APPEND then i_size x else 0) (Z.land fl (Z.lor O_RDWRFLAGS O_CLOEXEC)) Hx Hfd) as Ht;
        unfold fobj_open, host_open in Ht; rewrite Hk in Ht; apply one; exact Ht
    | injection H as <- <-;
      pose proof (t_open disp (w_ino w) (w_next w) (w_fobj w) (d_host (w_disk w)) (w_fds w) (w_pipes w) (w_npipe w)
          i x (c, fd) (if hasbit fl O_APPEND then i_size x else 0) (Z.land fl (Z.lor O_RDWRFLAGS O_CLOEXEC)) Hx Hfd) as Ht;
        unfold fobj_open, host_open in Ht; rewrite Hk in Ht; apply one; exact Ht
    | injection H as <- <-; auto ].
  - destruct (walk_par _ _ _ _ Hcp Hw) as (f & q & Hf & Hq & Hqk & Hqf & Hdot & Hnm). rewrite Hf in H.
    destruct (negb (hasbit fl O_CREAT)); [brk H; auto|].
    destruct (Z.land S_IFCHR fl =? S_IFCHR); [brk H; auto|].
    destruct (negb (sane_mode m)); [brk H; auto|].
    unfold add_child, get_ino in H. rewrite Hq in H. cbn [obind] in H. injection H as <- <-.
    destruct (inv_fresh w Hi) as (F1 & F2 & F3).
    unfold open_fobj. wcbn. rewrite F2. wcbn. rewrite F3. cbn [from_option].
    apply one, t_newfile; auto. exact (file_name_good _ _ Hcp Hf).
  - injection H as <- <-. auto.
Qed.

Lemma mkdir_trs w cwd p m w' r :
  canonical cwd -> mkdir_syscall w cwd p m = Done (w', r) -> TR (core_of w) (core_of w').
Proof.
  intros Hc H. unfold mkdir_syscall in H. destruct (String.eqb p ""); [brk H; auto|].
  pose proof (normpath_canonical cwd p Hc) as Hcp.
  destruct (metawalkandparent (w_ino w) (normpath cwd p)) as [[[i|] [par|]]|] eqn:Hw; cbn [obind] in H; try discriminate;
    try (brk H; auto; fail).
  destruct (walk_par _ _ _ _ Hcp Hw) as (f & q & Hf & Hq & Hqk & Hqf & Hdot & Hnm). rewrite Hf in H.
  destruct (negb (sane_mode m)); [brk H; auto|].
  destruct (add_child _ _ _ _ w) as [w1|] eqn:Ha; [|discriminate]. brk H.
  eapply add_child_trs; eauto using file_name_good. do 2 (split; [reflexivity|]). left. auto.
Qed.

Lemma mknod_trs w cwd p m d w' r :
  canonical cwd -> mknod_syscall w cwd p m d = Done (w', r) -> TR (core_of w) (core_of w').
Proof.
  intros Hc H. unfold mknod_syscall in H. destruct (String.eqb p ""); [brk H; auto|].
  pose proof (normpath_canonical cwd p Hc) as Hcp.
  destruct (metawalkandparent (w_ino w) (normpath cwd p)) as [[[i|] [par|]]|] eqn:Hw; cbn [obind] in H; try discriminate;
    try (brk H; auto; fail).
  destruct (walk_par _ _ _ _ Hcp Hw) as (f & q & Hf & Hq & Hqk & Hqf & Hdot & Hnm). rewrite Hf in H.
  destruct (negb (sane_mode m)); [brk H; auto|].
  destruct (Z.land m S_IFCHR =? 0); [brk H; auto|].
  destruct (add_child _ _ _ _ w) as [w1|] eqn:Ha; [|discriminate]. brk H.
  eapply add_child_trs; eauto using file_name_good. do 2 (split; [reflexivity|]). right. eauto.
Qed.

Lemma link_trs w cwd a b w' r : inv (core_of w) ->
  canonical cwd -> link_syscall w cwd a b = Done (w', r) -> TR (core_of w) (core_of w').
Proof.
  intros Hi Hc H. unfold link_syscall in H.
  destruct (String.eqb a ""); [brk H; auto|]. destruct (String.eqb b ""); [brk H; auto|].
  pose proof (normpath_canonical cwd a Hc) as Hca. pose proof (normpath_canonical cwd b Hc) as Hcb.
  destruct (file_name (normpath cwd b)) as [f|] eqn:Hfb; [|discriminate].
  destruct (metawalk (w_ino w) (normpath cwd a)) as [[i|]|] eqn:Hma; cbn [obind] in H; try discriminate; [|brk H; auto].
  destruct (get_ino w i) as [x|] eqn:Hx; cbn [obind] in H; [|discriminate]. apply get_ino_done in Hx.
  destruct (decide (i_kind x = KDir)) as [Hk|Hk].
  { rewrite Hk in H. brk H. auto. }
  assert (H' : (do r0 <- metawalkandparent (<[i := set_link (i_link x + 1) x]> (w_ino w)) (normpath cwd b);
      match r0 with
      | (None, None) => Done (put_ino i x (put_ino i (set_link (i_link x + 1) x) w), err ENOENT)
      | (Some _, _) => Done (put_ino i x (put_ino i (set_link (i_link x + 1) x) w), err EEXIST)
      | (None, Some par) =>
          do p <- get_ino (put_ino i (set_link (i_link x + 1) x) w) par;
          Done (log_meta i (log_meta par (put_ino par (set_link (i_link p + 1) (set_dict (<[f := i]> (i_dict p)) p)) (put_ino i (set_link (i_link x + 1) x) w))), 0)
      end) = Done (w', r)).
  { destruct (i_kind x); try congruence; exact H. }
  clear H. rename H' into H.
  assert (Hrev : core_of (put_ino i x (put_ino i (set_link (i_link x + 1) x) w)) = core_of w).
  { wcbn. rewrite insert_insert, insert_id by assumption. reflexivity. }
  destruct (metawalkandparent _ (normpath cwd b)) as [[[j|] [par|]]|] eqn:Hw; cbn [obind] in H; try discriminate;
    try (injection H as <- <-; rewrite Hrev; auto; fail).
  destruct (walk_par _ _ _ _ Hcb Hw) as (f' & q & Hf & Hq & Hqk & Hqf & Hdot & Hnm).
  assert (f' = f) by congruence. subst f'.
  assert (Hne : par <> i).
  { intros ->. rewrite lookup_insert in Hq. injection Hq as <-. cbn in Hqk. congruence. }
  unfold get_ino in H. wcbn. rewrite Hq in H. cbn [obind] in H. injection H as <- <-. wcbn.
  rewrite lookup_insert_ne in Hq by congruence.
  apply one, t_link; auto; [| |exact (file_name_good _ _ Hcb Hf)].
  - destruct Hnm as [->|[k Hk']]; [left; reflexivity|]. right. exists k.
    rewrite (names_same _ i _ x) in Hk' by (assumption || reflexivity). exact Hk'.
  - apply metawalk_named in Hma; [|assumption]. destruct Hma as [->|Hk']; [|exact Hk'].
    destruct (n_root _ _ (v_n _ Hi)) as (rt & Hr1 & Hr2). cbn in Hr1. congruence.
Qed.

Lemma unlink_trs w cwd p w' r : inv (core_of w) ->
  canonical cwd -> unlink_syscall w cwd p = Done (w', r) -> r <> err EPERM -> TR (core_of w) (core_of w').
Proof.
  intros Hi Hc H Hr. unfold unlink_syscall in H. destruct (String.eqb p ""); [brk H; auto|].
  pose proof (normpath_canonical cwd p Hc) as Hcp.
  destruct (metawalkandparent (w_ino w) (normpath cwd p)) as [[[i|] [par|]]|] eqn:Hw; cbn [obind] in H; try discriminate;
    try (brk H; auto; fail).
  destruct (walk_par _ _ _ _ Hcp Hw) as (f & q & Hf & Hq & Hqk & Hqf & Hdot & Hnm).
  destruct (get_ino w i) as [x|] eqn:Hx; cbn [obind] in H; [|discriminate]. apply get_ino_done in Hx.
  assert (Hsock : i_kind x <> KSock) by (eapply (n_sock _ _ (v_n _ Hi)); eauto).
  destruct (decide (i_kind x = KDir)) as [Hk|Hk].
  { rewrite Hk in H. brk H. auto. }
  assert (Hne : par <> i) by congruence.
  destruct (dec (i_link x)) as [l|] eqn:Hl; [|destruct (i_kind x); cbn [obind] in H; congruence].
  apply dec_done in Hl as [-> Hpos].
  pose proof (t_unlink disp (w_ino w) (w_next w) (w_fobj w) (d_host (w_disk w)) (w_fds w) (w_pipes w) (w_npipe w)
    i x par q f Hx Hk Hq Hqk Hqf Hdot) as Ht.
  unfold un_ino, un_host, un_gone, isfile, par_rem in Ht.
  unfold remove_from_parent, get_ino in H. cbn [obind] in H. wcbn.
  rewrite lookup_insert_ne in H by congruence. rewrite Hq in H. cbn [obind] in H. rewrite Hqk, Hf, Hqf in H.
  replace (i_link x - 1 =? 0) with (i_link x =? 1) in H by lia.
  assert (Hb : no_write_bits (i_mode q) = false).
  { destruct (no_write_bits (i_mode q)) eqn:E; [|reflexivity]. exfalso.
    destruct (i_kind x); try contradiction; cbn [obind] in H;
      change (negb (err EPERM =? 0)) with true in H; cbv iota in H; injection H as _ Hr'; apply Hr; symmetry; exact Hr'. }
  rewrite Hb in H.
  destruct (dec (i_link q)) as [lq|] eqn:Hlq; [|destruct (i_kind x); cbn in H; congruence].
  apply dec_done in Hlq as [-> _].
  destruct (i_kind x) as [| |ma mi|] eqn:Ek; try congruence; cbn [obind] in H;
    cbn [Z.eqb negb] in H; cbn [andb] in Ht;
    destruct ((i_link x =? 1) && (i_ref x =? 0)) eqn:Eg.
  - unfold remove_host in H. wcbn. destruct (d_host (w_disk w) !! i); [|discriminate]. brk H. wcbn.
    apply one. exact Ht.
  - brk H. wcbn. apply one. exact Ht.
  - brk H. wcbn. apply one. exact Ht.
  - brk H. wcbn. apply one. exact Ht.
Qed.

Lemma rmdir_trs w cwd p w' r : inv (core_of w) ->
  canonical cwd -> rmdir_syscall w cwd p = Done (w', r) -> TR (core_of w) (core_of w').
Proof.
  intros Hi Hc H. unfold rmdir_syscall in H. destruct (String.eqb p ""); [brk H; auto|].
  pose proof (normpath_canonical cwd p Hc) as Hcp.
  destruct (metawalkandparent (w_ino w) (normpath cwd p)) as [[[i|] [par|]]|] eqn:Hw; cbn [obind] in H; try discriminate;
    try (brk H; auto; fail).
  destruct (walk_par _ _ _ _ Hcp Hw) as (f & q & Hf & Hq & Hqk & Hqf & Hdot & Hnm).
  destruct (get_ino w par) as [q'|] eqn:Hq'; cbn [obind] in H; [|discriminate]. apply get_ino_done in Hq'.
  assert (q' = q) by congruence. subst q'. clear Hq'.
  destruct (no_write_bits (i_mode q)) eqn:Eb; [brk H; auto|].
  destruct (get_ino w i) as [x|] eqn:Hx; cbn [obind] in H; [|discriminate]. apply get_ino_done in Hx.
  destruct (i_kind x) eqn:Ek; try (brk H; auto; fail).
  destruct (3 <? i_link x) eqn:El; [brk H; auto|].
  destruct (negb (is_dir (i_mode x))); [discriminate|].
  destruct (no_write_bits (i_mode x)); [brk H; auto|].
  assert (Hin : names (w_ino w) !! (par, f) = Some i) by (rewrite names_lookup, Hdot, Hq; exact Hqf).
  assert (Hne : par <> i). { destruct (n_up _ _ (v_n _ Hi) _ _ _ _ Hx Ek Hin) as [_ ?]. lia. }
  pose proof (t_rmdir disp (w_ino w) (w_next w) (w_fobj w) (d_host (w_disk w)) (w_fds w) (w_pipes w) (w_npipe w)
    i x par q f Hx Ek Hq Hqk Hqf Hdot ltac:(lia)) as Ht. unfold par_rem in Ht.
  unfold remove_from_parent, get_ino in H.
  destruct (i_ref x =? 0) eqn:Er; wcbn; rewrite ?lookup_insert_ne in H by congruence;
    rewrite Hq in H; cbn [obind] in H; rewrite Hqk, Eb, Hf, Hqf in H;
    destruct (dec (i_link q)) as [lq|] eqn:Hlq; cbn [obind] in H; try discriminate;
    apply dec_done in Hlq as [-> _]; cbn [Z.eqb negb] in H; injection H as <- <-; wcbn.
  - rewrite (insert_commute (w_ino w)) by congruence. rewrite delete_insert_delete. apply one. exact Ht.
  - apply one. exact Ht.
Qed.

Lemma rename_trs w cwd a b w' r : inv (core_of w) ->
  canonical cwd -> rename_syscall w cwd a b = Done (w', r) ->
  (disp = true \/ r <> 0 \/ metawalk (w_ino w) (normpath cwd b) = Done None) -> TR (core_of w) (core_of w').
Proof.
  intros Hi Hc H Hd. unfold rename_syscall in H.
  destruct (String.eqb a ""); [brk H; auto|]. destruct (String.eqb b ""); [brk H; auto|].
  pose proof (normpath_canonical cwd a Hc) as Hca. pose proof (normpath_canonical cwd b Hc) as Hcb.
  destruct (metawalkandparent (w_ino w) (normpath cwd a)) as [[[i|] [par|]]|] eqn:Hw; cbn [obind] in H; try discriminate;
    try (brk H; auto; fail).
  destruct (walk_par _ _ _ _ Hca Hw) as (f & q & Hf & Hq & Hqk & Hqf & Hdot & Hnm).
  destruct (metawalkandparent (w_ino w) (normpath cwd b)) as [[j par2]|] eqn:Hw2; cbn [obind snd] in H; [|discriminate].
  destruct (bool_decide (par2 = Some par)) eqn:Eb; cbn [negb] in H; [|brk H; auto].
  apply bool_decide_eq_true in Eb. subst par2.
  destruct (walk_par _ _ _ _ Hcb Hw2) as (f2 & q2 & Hf2 & Hq2 & _ & Hqf2 & Hdot2 & _).
  unfold get_ino in H. rewrite Hq in H. cbn [obind] in H. rewrite Hf, Hf2 in H. injection H as <- <-. wcbn.
  apply one, t_rename; auto; [|exact (file_name_good _ _ Hcb Hf2)].
  destruct Hd as [->|[?|Hd]]; [auto|congruence|]. left. assert (q2 = q) by congruence. subst q2.
  unfold metawalk in Hd. rewrite Hw2 in Hd. cbn in Hd. congruence.
Qed.

Lemma chmod_helper_trs w i m w' r : chmod_helper i m w = Done (w', r) -> TR (core_of w) (core_of w').
Proof.
  unfold chmod_helper. intros H. destruct (_ =? m); [|brk H; auto].
  destruct (get_ino w i) as [x|] eqn:Hx; cbn [obind] in H; [|discriminate]. apply get_ino_done in Hx.
  injection H as <- <-. destruct (i_kind x); wcbn; apply one, t_mode; assumption.
Qed.

(** *** File data *)
Lemma write_at_length off bs b : 0 <= off <= Z.of_nat (length b) ->
  Z.of_nat (length (write_at off bs b)) = Z.max (Z.of_nat (length b)) (off + Z.of_nat (length bs)).
Proof.
  intros H. unfold write_at. destruct bs as [|z bs]; [cbn; lia|].
  rewrite !app_length, take_length, drop_length, app_length, replicate_length. cbn [length]. lia.
Qed.

Lemma set_size_twice x a b : set_size a (set_size b x) = set_size a x.
Proof. reflexivity. Qed.

Lemma inv_file w i x : inv (core_of w) -> w_ino w !! i = Some x -> i_kind x = KFile ->
  w_fobj w !! i = (if 0 <? i_ref x then Some (i_size x) else None) /\
  exists b, d_host (w_disk w) !! i = Some b /\ Z.of_nat (length b) = i_size x.
Proof.
  intros [_ _ Hd _] Hx Hk. specialize (Hd i). cbn in Hd. rewrite Hx in Hd. unfold okdata, isfile in Hd.
  rewrite Hk in Hd. exact Hd.
Qed.

Lemma file_write_trs w i pos bs x w' :
  inv (core_of w) -> w_ino w !! i = Some x -> i_kind x = KFile ->
  file_write i pos bs x w = Done w' ->
  TR (core_of w) (core_of w') /\ w_fds w' = w_fds w /\ w_cwd w' = w_cwd w.
Proof.
  intros Hi Hx Hk H. destruct (inv_file w i x Hi Hx Hk) as (Hf & b & Hb & Hlen).
  assert (Hsz : 0 <= i_size x) by lia.
  unfold file_write, zerofill, writeat in H.
  destruct (0 <? i_ref x); [|rewrite Hf in H; destruct (0 <? _) in H; discriminate].
  rewrite Hf in H. destruct (0 <? pos - i_size x) eqn:E1.
  - rewrite Z.ltb_irrefl in H. wcbn. rewrite lookup_insert in H.
    destruct (_ || _) eqn:E2 in H; [discriminate|]. cbn [obind] in H.
    destruct (i_size x <? pos + Z.of_nat (length bs)) eqn:E3; [|lia].
    injection H as <-. wcbn. split; [|auto].
    rewrite insert_insert.
    apply one.
    eapply (t_data disp _ _ _ _ _ _ _ i x (pos + Z.of_nat (length bs)) _ _
      (write_at pos bs (write_at (i_size x) (replicate (Z.to_nat (pos - i_size x)) 0) b))); auto.
    + lia.
    + intros j Hj. rewrite lookup_insert_ne by congruence. rewrite !lookup_alter_ne by congruence. auto.
    + rewrite lookup_insert, Hf. cbn. f_equal. lia.
    + rewrite !lookup_alter, Hb. reflexivity.
    + assert (Hl1 : Z.of_nat (length (write_at (i_size x) (replicate (Z.to_nat (pos - i_size x)) 0) b)) = pos).
      { rewrite write_at_length by lia. rewrite replicate_length. lia. }
      rewrite write_at_length by lia. lia.
  - cbn [obind] in H. rewrite Hf in H.
    destruct ((pos <? 0) || (i_size x <? pos)) eqn:E2; [discriminate|]. cbn [obind] in H.
    assert (Hd : forall t',
      t' = <[i := set_size (Z.max (i_size x) (pos + Z.of_nat (length bs))) x]> (w_ino w) ->
      TR (core_of w) (Core t' (w_next w) (<[i := Z.max (i_size x) (pos + Z.of_nat (length bs))]> (w_fobj w))
            (alter (write_at pos bs) i (d_host (w_disk w))) (w_fds w) (w_pipes w) (w_npipe w))).
    { intros t' ->. apply one.
      eapply (t_data disp _ _ _ _ _ _ _ i x _ _ _ (write_at pos bs b)); auto.
      - lia.
      - intros j Hj. rewrite lookup_insert_ne, lookup_alter_ne by congruence. auto.
      - rewrite lookup_insert, Hf. reflexivity.
      - rewrite lookup_alter, Hb. reflexivity.
      - rewrite write_at_length by lia. lia. }
    destruct (i_size x <? pos + Z.of_nat (length bs)) eqn:E3; injection H as <-; wcbn; split; auto.
    + apply Hd. f_equal. f_equal. lia.
    + apply Hd. rewrite insert_id; [reflexivity|]. rewrite Hx. f_equal.
      destruct x; cbn in *. unfold set_size. cbn. f_equal. lia.
Qed.

End Steps.
