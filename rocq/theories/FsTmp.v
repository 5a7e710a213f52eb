(** Emptying a directory: what the removal of a tree, as done at start-up and
    at shutdown, leaves alone. *)
From Verif Require Import Base PathModel PathSpec PathProofs FsModel FsBoot FsSpec FsWalk Count FsNames FsTr FsInv FsInv2
  FsSteps FsSteps2 FsFrame FsReachSpec FsWinv FsNameSpec FsPath FsOps.
From Coq Require Import Ascii.
Local Open Scope list_scope.
Local Open Scope Z_scope.
Opaque all_fds next_fd.

(** *** Histories *)
Lemma later_trans disp a b d : later disp a b -> later disp b d -> later disp a d.
Proof. intros H. induction H as [|w c o w1 r w2 Hs Ht _ IH]; [auto|]. intros Hd. exact (later_step _ _ _ _ _ _ _ Hs Ht (IH Hd)). Qed.

Lemma later_one disp w c o w' r : step w c o = Done (w', r) -> tame disp w c o r -> later disp w w'.
Proof. intros Hs Ht. exact (later_step _ _ _ _ _ _ _ Hs Ht (later_refl _ _)). Qed.

Definition okw (w : world) : Prop := winv w /\ goodt (w_ino w).

Lemma step_ok disp w c o w' r : okw w -> step w c o = Done (w', r) -> tame disp w c o r -> okw w'.
Proof. intros [H1 H2] Hs Ht. split; [exact (step_winv _ _ _ _ _ _ H1 Hs Ht)|exact (step_good _ _ _ _ _ _ H1 Hs Ht H2)]. Qed.

Lemma later_ok disp w w' : later disp w w' -> okw w -> okw w'.
Proof. induction 1 as [|w c o w1 r w2 Hs Ht _ IH]; [auto|]. intros H. apply IH. exact (step_ok _ _ _ _ _ _ H Hs Ht). Qed.

(** *** What is left alone *)
Record keeps (P : list string) (w w' : world) : Prop := {
  ke_new q i : canonical q -> resolves (w_ino w') q i -> resolves (w_ino w) q i;
  ke_old q i : canonical q -> ~ P `prefix_of` q \/ q = P -> resolves (w_ino w) q i -> resolves (w_ino w') q i;
  ke_obj q i x : canonical q -> ~ P `prefix_of` q -> resolves (w_ino w) q i -> w_ino w !! i = Some x ->
    exists y, w_ino w' !! i = Some y /\ i_kind y = i_kind x /\ i_mode y = i_mode x /\ i_size y = i_size x /\
      i_dict y = i_dict x /\ bytes w' i = bytes w i /\
      ((forall q', canonical q' -> P `prefix_of` q' -> ~ resolves (w_ino w) q' i) -> i_link y = i_link x);
  ke_self i x : resolves (w_ino w) P i -> w_ino w !! i = Some x ->
    exists y, w_ino w' !! i = Some y /\ i_kind y = i_kind x /\ i_mode y = i_mode x
}.

Lemma keeps_refl P w : keeps P w w.
Proof. constructor; eauto 10. Qed.

Lemma keeps_trans P a b d : keeps P a b -> keeps P b d -> canonical P -> keeps P a d.
Proof.
  intros H1 H2 HP. constructor.
  - intros q i Hq H. apply (ke_new _ _ _ H1 _ _ Hq), (ke_new _ _ _ H2 _ _ Hq). exact H.
  - intros q i Hq Hp H. apply (ke_old _ _ _ H2 _ _ Hq Hp), (ke_old _ _ _ H1 _ _ Hq Hp). exact H.
  - intros q i x Hq Hp H Hx. destruct (ke_obj _ _ _ H1 _ _ _ Hq Hp H Hx) as (y & Hy & E1 & E2 & E3 & E4 & E5 & E6).
    destruct (ke_obj _ _ _ H2 _ _ _ Hq Hp (ke_old _ _ _ H1 _ _ Hq (or_introl Hp) H) Hy) as (z & Hz & F1 & F2 & F3 & F4 & F5 & F6).
    exists z. split; [exact Hz|]. split; [congruence|]. split; [congruence|]. split; [congruence|]. split; [congruence|]. split; [congruence|].
    intros Hno. rewrite F6, E6; [reflexivity|exact Hno|]. intros q' Hq' Hp' Hr. apply (Hno q' Hq' Hp'). exact (ke_new _ _ _ H1 _ _ Hq' Hr).
  - intros i x H Hx. destruct (ke_self _ _ _ H1 _ _ H Hx) as (y & Hy & E1 & E2).
    destruct (ke_self _ _ _ H2 _ _ (ke_old _ _ _ H1 _ _ HP (or_intror eq_refl) H) Hy) as (z & Hz & F1 & F2).
    exists z. split; [exact Hz|]. split; congruence.
Qed.

Lemma snoc_not_prefix (P : list string) f : ~ (P ++ [f]) `prefix_of` P.
Proof. intros [l E]. apply (f_equal length) in E. rewrite !app_length in E. cbn in E. lia. Qed.

Lemma prefix_snoc (P : list string) f q : (P ++ [f]) `prefix_of` q -> P `prefix_of` q.
Proof. intros [l ->]. exists ([f] ++ l). rewrite app_assoc. reflexivity. Qed.

Lemma keeps_up P f w w' : canonical P -> keeps (P ++ [f]) w w' -> keeps P w w'.
Proof.
  intros HP H. constructor.
  - exact (ke_new _ _ _ H).
  - intros q i Hq Hp. apply (ke_old _ _ _ H _ _ Hq). left. destruct Hp as [Hp| ->]; [|apply snoc_not_prefix].
    intros Hc. exact (Hp (prefix_snoc _ _ _ Hc)).
  - intros q i x Hq Hp Hr Hx. assert (Hp' : ~ (P ++ [f]) `prefix_of` q) by (intros Hc; exact (Hp (prefix_snoc _ _ _ Hc))).
    destruct (ke_obj _ _ _ H _ _ _ Hq Hp' Hr Hx) as (y & Hy & E1 & E2 & E3 & E4 & E5 & E6).
    exists y. split; [exact Hy|]. repeat (split; [assumption|]). intros Hno. apply E6. intros q' Hq' Hc. exact (Hno q' Hq' (prefix_snoc _ _ _ Hc)).
  - intros i x Hr Hx. destruct (ke_obj _ _ _ H _ _ _ HP (snoc_not_prefix P f) Hr Hx) as (y & Hy & E1 & E2 & _). eauto.
Qed.

(** *** Calls that change no name and no named object *)
Record still (w w' : world) : Prop := {
  st_names : names (w_ino w') = names (w_ino w);
  st_obj i x : named (w_ino w) i -> w_ino w !! i = Some x ->
    exists y, w_ino w' !! i = Some y /\ i_kind y = i_kind x /\ i_mode y = i_mode x /\ i_size y = i_size x /\
      i_dict y = i_dict x /\ i_link y = i_link x /\ bytes w' i = bytes w i
}.

Lemma still_same w w' : w_ino w' = w_ino w -> d_host (w_disk w') = d_host (w_disk w) -> still w w'.
Proof. intros E1 E2. constructor; unfold bytes; rewrite E1, ?E2; [reflexivity|]. intros i x _ Hx. exists x. auto 10. Qed.

Lemma still_refl w : still w w.
Proof. apply still_same; reflexivity. Qed.

Lemma still_trans a b d : still a b -> still b d -> still a d.
Proof.
  intros H1 H2. constructor; [rewrite (st_names _ _ H2); apply H1|].
  intros i x Hn Hx. destruct (st_obj _ _ H1 _ _ Hn Hx) as (y & Hy & E1 & E2 & E3 & E4 & E5 & E6).
  assert (Hn' : named (w_ino b) i) by (unfold named; rewrite (st_names _ _ H1); exact Hn).
  destruct (st_obj _ _ H2 _ _ Hn' Hy) as (z & Hz & F1 & F2 & F3 & F4 & F5 & F6).
  exists z. split; [exact Hz|]. repeat split; congruence.
Qed.

Lemma still_keeps P w w' n n' : inv_n (w_ino w) n -> inv_n (w_ino w') n' -> canonical P -> still w w' -> keeps P w w'.
Proof.
  intros Hn Hn' HP H. pose proof (same_paths _ _ _ _ Hn Hn' (st_names _ _ H)) as Hs.
  constructor.
  - intros q i Hq. apply (Hs _ _ Hq).
  - intros q i Hq _. apply (Hs _ _ Hq).
  - intros q i x Hq _ Hr Hx. destruct (st_obj _ _ H _ _ (resolves_named _ _ _ Hq Hr) Hx) as (y & Hy & E1 & E2 & E3 & E4 & E5 & E6).
    exists y. repeat (split; [assumption|]). auto.
  - intros i x Hr Hx. destruct (st_obj _ _ H _ _ (resolves_named _ _ _ HP Hr) Hx) as (y & Hy & E1 & E2 & _). eauto.
Qed.

Lemma still_upd w w' i x y : w_ino w !! i = Some x -> w_ino w' = <[i := y]> (w_ino w) -> d_host (w_disk w') = d_host (w_disk w) ->
  i_kind y = i_kind x -> i_mode y = i_mode x -> i_size y = i_size x -> i_dict y = i_dict x -> i_link y = i_link x -> still w w'.
Proof.
  intros Hx E1 E2 F1 F2 F3 F4 F5. constructor; unfold bytes; rewrite E1, ?E2; [apply (names_same _ _ _ x); assumption|].
  intros j z _ Hz. destruct (decide (i = j)) as [<-|].
  - rewrite lookup_insert. assert (z = x) by congruence. subst z. exists y. auto 10.
  - rewrite lookup_insert_ne by assumption. exists z. auto 10.
Qed.

(** an object without a name disappears *)
Lemma still_del w w' n i x : inv_n (w_ino w) n -> w_ino w !! i = Some x -> i_kind x <> KDir -> i_link x = 0 ->
  w_ino w' = delete i (w_ino w) -> (forall j, j <> i -> bytes w' j = bytes w j) -> still w w'.
Proof.
  intros Hn Hx Hk Hl E1 E2.
  assert (Hz : nnames (w_ino w) i = 0) by (pose proof (n_link _ _ Hn _ _ Hx Hk); pose proof (nnames_nonneg (w_ino w) i); lia).
  rewrite nnames_zero in Hz.
  constructor; rewrite E1.
  - apply names_del. intros g. rewrite names_lookup, Hx, (n_flat _ _ Hn _ _ Hx Hk). destruct (dotb g); [reflexivity|apply lookup_empty].
  - intros j z Hj Hzj. assert (j <> i).
    { intros ->. destruct Hj as [->|[k Hj]]; [|exact (Hz _ Hj)]. destruct (n_root _ _ Hn) as (r & Hr & Hrk). congruence. }
    rewrite lookup_delete_ne by congruence. exists z. split; [exact Hzj|]. repeat (split; [reflexivity|]). apply E2. assumption.
Qed.

Lemma close_still w c fd w' r : inv (core_of w) -> close_syscall w c fd = Done (w', r) -> still w w'.
Proof.
  intros Hi H. pose proof (v_n _ Hi) as Hn. cbn in Hn. unfold close_syscall, close_inner in H.
  destruct (fd_slot w c fd) as [s|] eqn:Es; cbn [obind] in H; [|discriminate H].
  destruct s as [d|]; [|cbn in H; injection H as <- <-; apply still_refl].
  destruct (close_desc d w) as [[w1 r1]|] eqn:Ec; cbn [obind] in H; [|discriminate H].
  assert (K : still w w1).
  2:{ destruct (r1 <? 0); injection H as <- <-; [exact K|]. apply (still_trans _ _ _ K). apply still_same; reflexivity. }
  clear H Es. unfold close_desc in Ec. destruct d as [i pos fl|st fl|pid fl|fl].
  - destruct (get_ino w i) as [x|] eqn:Hx; cbn [obind] in Ec; [|discriminate Ec]. apply get_ino_done in Hx.
    destruct (dec (i_ref x)) as [r0|] eqn:Er; cbn [obind] in Ec; [|discriminate Ec]. apply dec_done in Er as [-> Hpos].
    assert (Hu : still w (put_ino i (set_ref (i_ref x - 1) x) w)) by (apply (still_upd _ _ i x (set_ref (i_ref x - 1) x)); (assumption || reflexivity)).
    wcbn1 Ec. destruct (i_kind x) as [| |ma mi|] eqn:Ek; [| | |discriminate Ec].
    + destruct (i_ref x - 1 =? 0); [|injection Ec as <- <-; exact Hu].
      destruct (w_fobj w !! i) eqn:Ef; [|discriminate Ec].
      destruct (Z.eqb_spec (i_link x) 0) as [E2|E2]; [|injection Ec as <- <-; apply (still_trans _ _ _ Hu); apply still_same; reflexivity].
      unfold remove_host in Ec. wcbn1 Ec. destruct (d_host (w_disk w) !! i); [|discriminate Ec]. cbn [obind] in Ec. injection Ec as <- <-.
      apply (still_del _ _ _ i x Hn Hx); [congruence|exact E2|wcbn; apply delete_insert_delete|].
      intros j Hj. unfold bytes. wcbn. apply lookup_delete_ne. congruence.
    + destruct (w_fobj w !! i) eqn:Ef; [injection Ec as <- <-; exact Hu|].
      assert (Hd : (i_link x =? 2) = false) by (pose proof (n_dlink _ _ Hn _ _ Hx Ek); pose proof (nkids_nonneg (w_ino w) i); lia).
      rewrite Hd in Ec. cbn [andb] in Ec. injection Ec as <- <-. exact Hu.
    + destruct (w_fobj w !! i) eqn:Ef; [injection Ec as <- <-; exact Hu|].
      destruct ((i_link x =? 0) && (i_ref x - 1 =? 0)) eqn:Eg; injection Ec as <- <-.
      * apply andb_true_iff in Eg as [Eg _]. apply (still_del _ _ _ i x Hn Hx); [congruence|lia|wcbn; apply delete_insert_delete|].
        intros j Hj. reflexivity.
      * apply (still_trans _ _ _ Hu); apply still_same; reflexivity.
  - injection Ec as <- <-. apply still_refl.
  - destruct (get_pipe w pid) as [p|]; cbn [obind] in Ec; [|discriminate Ec]. injection Ec as <- <-. apply still_same; reflexivity.
  - injection Ec as <- <-. apply still_refl.
Qed.

Lemma close_fold_still c l : forall w w', inv (core_of w) -> fold_left (close_fd_in c) l (Done w) = Done w' -> still w w'.
Proof.
  induction l as [|fd l IH]; intros w w' Hi H; [cbn in H; injection H as <-; apply still_refl|].
  cbn [fold_left] in H. unfold close_fd_in at 2 in H. cbn [obind] in H.
  destruct (close_syscall w c fd) as [[w1 r]|] eqn:Ec; cbn [obind fst] in H; [|rewrite close_in_panic in H; discriminate H].
  destruct (close_trs true _ _ _ _ _ Hi Ec) as (Ht & _ & _). apply (still_trans _ w1); [exact (close_still _ _ _ _ _ Hi Ec)|].
  exact (IH w1 w' (trs_inv _ _ _ Ht Hi) H).
Qed.

Lemma exit_still w c st w' r : inv (core_of w) -> exit_syscall w c st = Done (w', r) -> still w w'.
Proof.
  intros Hi H. unfold exit_syscall in H. destruct (fold_left _ _ (Done w)) as [w1|] eqn:Ef; cbn [obind] in H; [|discriminate H].
  injection H as <- _. apply (still_trans _ w1); [exact (close_fold_still _ _ _ _ Hi Ef)|]. apply still_same; reflexivity.
Qed.

Lemma getdents_still w c fd n w' r : getdents_syscall w c fd n = Done (w', r) -> still w w'.
Proof.
  intros H. unfold getdents_syscall in H. destruct (_ <=? _) in H; [injection H as <- _; apply still_refl|].
  destruct (negb _); [injection H as <- _; apply still_refl|].
  destruct (w_fds w !! (c, fd)) as [[j pos fl| | |]|] eqn:Ed; try (injection H as <- _; apply still_refl).
  destruct (get_ino w j) as [x|]; cbn [obind] in H; [|discriminate H]. destruct (i_kind x); try (injection H as <- _; apply still_refl).
  destruct (dents_fit _ _ _) as [l k]. injection H as <- _. apply still_same; reflexivity.
Qed.

(** *** Calls that remove one name or change one mode *)
Lemma dir_path t n p q i x : inv_n t n -> canonical p -> canonical q -> t !! i = Some x -> i_kind x = KDir ->
  resolves t p i -> resolves t q i -> p = q.
Proof.
  intros Hn Hp Hq Hx Hk H1 H2. apply (resolves_nwalk _ _ _ _ Hn Hp) in H1. apply (resolves_nwalk _ _ _ _ Hn Hq) in H2.
  exact (nwalk_unique _ _ _ _ _ _ Hn Hx Hk H1 H2).
Qed.

Lemma snoc_eq {A} (a b : list A) x y : a ++ [x] = b ++ [y] -> a = b /\ x = y.
Proof. apply app_inj_tail. Qed.

Lemma unlink_keeps P f w w' n cwd p r : inv (core_of w) -> inv_n (w_ino w') n -> canonical cwd -> normpath cwd p = P ++ [f] ->
  unlink_syscall w cwd p = Done (w', r) -> 0 <= r -> keeps P w w'.
Proof.
  intros Hi Hn' Hc HP H Hr. pose proof (v_n _ Hi) as Hn. cbn in Hn. pose proof (normpath_canonical cwd p Hc) as Hcp. rewrite HP in Hcp.
  destruct (unlink_post _ _ _ _ _ Hi Hc H Hr) as (dir & f' & par & q & i & x & _ & Hpl & Hf & Hx & Hk & Hne & H1 & H2 & _ & _).
  rewrite HP in Hpl. pose proof (pl_path _ _ _ _ _ _ Hpl) as E. apply snoc_eq in E as [<- <-].
  pose proof (pl_ino _ _ _ _ _ _ Hpl) as Hq. pose proof (pl_dir _ _ _ _ _ _ Hpl) as Hqk. pose proof (pl_res _ _ _ _ _ _ Hpl) as Hres.
  pose proof (pl_can _ _ _ _ _ _ Hpl) as HcP. pose proof (place_name _ _ _ _ _ _ _ _ Hn Hpl Hf) as Hnm.
  assert (Hminus : names_minus (w_ino w) (w_ino w') (P ++ [f])).
  { eapply (minus_paths _ _ _ _ par q P f i Hn Hn' Hq Hqk Hcp Hres Hnm).
    - rewrite H1. exact (names_un _ _ _ _ _ _ _ Hn Hx Hk Hne Hq).
    - intros g. rewrite names_lookup, Hx, (n_flat _ _ Hn _ _ Hx Hk). destruct (dotb g); [reflexivity|apply lookup_empty]. }
  assert (Hpar : w_ino w' !! par = Some (par_rem f q)).
  { rewrite H1. unfold un_ino. destruct (un_gone x); [rewrite lookup_delete_ne by congruence|]; apply lookup_insert. }
  assert (Hri : resolves (w_ino w) (P ++ [f]) i) by exact (res_step _ _ _ _ _ _ Hres Hq Hqk Hf).
  constructor.
  - intros q' j Hq' Hj. apply (Hminus _ _ Hq') in Hj. apply Hj.
  - intros q' j Hq' Hp Hj. apply (Hminus _ _ Hq'). split; [exact Hj|]. intros ->. destruct Hp as [Hp|Hp].
    + apply Hp. exists [f]. reflexivity.
    + apply (snoc_not_prefix P f). rewrite Hp. reflexivity.
  - intros q' j z Hq' Hp Hj Hz. assert (Hjp : j <> par).
    { intros ->. apply Hp. rewrite (dir_path _ _ _ _ _ _ Hn HcP Hq' Hq Hqk Hres Hj). reflexivity. }
    unfold bytes. destruct (decide (j = i)) as [->|Hji].
    + assert (z = x) by congruence. subst z.
      assert (Hg : un_gone x = false).
      { destruct (n_ent _ _ Hn _ _ _ Hnm) as [_ Hroot]. assert (Hqp : q' <> P ++ [f]) by (intros ->; apply Hp; exists [f]; reflexivity).
        pose proof (two_paths _ _ _ _ _ _ _ _ _ Hn Hroot Hpl Hf Hq' Hqp Hj). pose proof (n_link _ _ Hn _ _ Hx Hk).
        unfold un_gone. destruct (Z.eqb_spec (i_link x) 1); [lia|reflexivity]. }
      rewrite H1, H2. unfold un_ino, un_host. rewrite Hg, andb_false_r, lookup_insert_ne, lookup_insert by congruence.
      eexists. split; [reflexivity|]. repeat (split; [reflexivity|]). intros Hno. exfalso.
      exact (Hno (P ++ [f]) Hcp (ex_intro _ [f] eq_refl) Hri).
    + exists z. rewrite H1, H2. unfold un_ino, un_host. split.
      * destruct (un_gone x); rewrite ?lookup_delete_ne by congruence; rewrite !lookup_insert_ne by congruence; exact Hz.
      * repeat (split; [reflexivity|]). split; [|reflexivity]. destruct (_ && _); [apply lookup_delete_ne; congruence|reflexivity].
  - intros j z Hj Hz. assert (j = par) by exact (resolves_det _ _ _ _ Hj Hres). subst j. assert (z = q) by congruence. subst z.
    exists (par_rem f q). split; [exact Hpar|]. split; reflexivity.
Qed.

Lemma unlink_fail w cwd p w' r : inv (core_of w) -> canonical cwd -> unlink_syscall w cwd p = Done (w', r) -> r < 0 ->
  (w' = w /\ r <> err EPERM) \/
  exists dir f par q, place (w_ino w) (normpath cwd p) dir f par q /\ no_write_bits (i_mode q) = true.
Proof.
  intros Hi Hc H Hr. unfold unlink_syscall in H. assert (Hs : w = w -> forall e, e <> EPERM -> Done (w, err e) = Done (w', r) -> w' = w /\ r <> err EPERM).
  { intros _ e He E. injection E as <- <-. split; [reflexivity|]. unfold err. lia. }
  destruct (String.eqb p ""); [left; exact (Hs eq_refl ENOENT ltac:(discriminate) H)|].
  pose proof (normpath_canonical cwd p Hc) as Hcp.
  destruct (metawalkandparent (w_ino w) (normpath cwd p)) as [[[i|] [par|]]|] eqn:Hw; cbn [obind] in H; try discriminate H.
  2: left; exact (Hs eq_refl EISDIR ltac:(discriminate) H).
  2,3: left; exact (Hs eq_refl ENOENT ltac:(discriminate) H).
  destruct (place_of _ _ _ _ Hcp Hw) as (dir & f & q & Hpl & Hf & Hqf).
  pose proof (pl_ino _ _ _ _ _ _ Hpl) as Hq. pose proof (pl_dir _ _ _ _ _ _ Hpl) as Hqk.
  destruct (get_ino w i) as [x|] eqn:Hx; cbn [obind] in H; [|discriminate H]. apply get_ino_done in Hx.
  destruct (decide (i_kind x = KDir)) as [Hk|Hk].
  { rewrite Hk in H. left; exact (Hs eq_refl EISDIR ltac:(discriminate) H). }
  destruct (no_write_bits (i_mode q)) eqn:Hb; [right; exists dir, f, par, q; auto|]. exfalso.
  assert (Hne : i <> par) by congruence.
  destruct (dec (i_link x)) as [l|] eqn:Hl; [|destruct (i_kind x); cbn [obind] in H; congruence].
  unfold remove_from_parent, get_ino in H. cbn [obind] in H. wcbn1 H.
  rewrite lookup_insert_ne in H by congruence. rewrite Hq in H. cbn [obind] in H. rewrite Hqk, Hb, Hf, Hqf in H.
  destruct (dec (i_link q)) as [lq|]; [|destruct (i_kind x); cbn in H; congruence].
  destruct (i_kind x); try congruence; cbn [obind Z.eqb negb] in H;
    destruct ((l =? 0) && (i_ref x =? 0)); try (injection H as _ <-; lia).
  - unfold remove_host in H. wcbn1 H. destruct (d_host (w_disk w) !! i); [|discriminate H]. injection H as _ <-. lia.
Qed.

(** rmdir *)
Lemma rmdir_post w cwd p w' r : inv (core_of w) -> canonical cwd -> rmdir_syscall w cwd p = Done (w', r) ->
  w' = w \/
  exists dir f par q i x, place (w_ino w) (normpath cwd p) dir f par q /\ i_dict q !! f = Some i /\ w_ino w !! i = Some x /\
    i_kind x = KDir /\ i_link x <= 3 /\ par <> i /\ d_host (w_disk w') = d_host (w_disk w) /\
    w_ino w' = (if i_ref x =? 0 then delete i (<[par := par_rem f q]> (w_ino w)) else <[par := par_rem f q]> (w_ino w)).
Proof.
  intros Hi Hc H. unfold rmdir_syscall in H. destruct (String.eqb p ""); [injection H as <- _; auto|].
  pose proof (normpath_canonical cwd p Hc) as Hcp.
  destruct (metawalkandparent (w_ino w) (normpath cwd p)) as [[[i|] [par|]]|] eqn:Hw; cbn [obind] in H; try discriminate H;
    try (injection H as <- _; auto; fail).
  destruct (place_of _ _ _ _ Hcp Hw) as (dir & f & q & Hpl & Hf & Hqf).
  pose proof (pl_ino _ _ _ _ _ _ Hpl) as Hq. pose proof (pl_dir _ _ _ _ _ _ Hpl) as Hqk.
  destruct (get_ino w par) as [q'|] eqn:Hq'; cbn [obind] in H; [|discriminate H]. apply get_ino_done in Hq'.
  assert (q' = q) by congruence. subst q'. clear Hq'.
  destruct (no_write_bits (i_mode q)) eqn:Eb; [injection H as <- _; auto|].
  destruct (get_ino w i) as [x|] eqn:Hx; cbn [obind] in H; [|discriminate H]. apply get_ino_done in Hx.
  destruct (i_kind x) eqn:Ek; try (injection H as <- _; auto; fail).
  destruct (Z.ltb_spec 3 (i_link x)) as [El|El]; [injection H as <- _; auto|].
  destruct (negb (is_dir (i_mode x))); [discriminate H|].
  destruct (no_write_bits (i_mode x)); [injection H as <- _; auto|]. right.
  pose proof (place_name _ _ _ _ _ _ _ _ (v_n _ Hi) Hpl Hqf) as Hin.
  assert (Hne : par <> i). { destruct (n_up _ _ (v_n _ Hi) _ _ _ _ Hx Ek Hin) as [_ ?]. lia. }
  exists dir, f, par, q, i, x. split; [exact Hpl|]. repeat (split; [assumption|]).
  unfold remove_from_parent, get_ino in H.
  destruct (i_ref x =? 0) eqn:Er; wcbn1 H; rewrite ?lookup_insert_ne in H by congruence;
    rewrite Hq in H; cbn [obind] in H; rewrite Hqk, Eb, Hf, Hqf in H;
    (destruct (dec (i_link q)) as [lq|] eqn:Hlq; cbn [obind] in H; [|discriminate H]);
    apply dec_done in Hlq as [-> _]; cbn [Z.eqb negb] in H; injection H as <- _; wcbn; (split; [reflexivity|]).
  - rewrite (insert_commute (w_ino w)) by congruence. rewrite delete_insert_delete. reflexivity.
  - reflexivity.
Qed.

Lemma rmdir_keeps P f w w' n cwd p r : inv (core_of w) -> inv_n (w_ino w') n -> canonical cwd -> normpath cwd p = P ++ [f] ->
  rmdir_syscall w cwd p = Done (w', r) -> keeps P w w'.
Proof.
  intros Hi Hn' Hc HP H. pose proof (v_n _ Hi) as Hn. cbn in Hn. pose proof (normpath_canonical cwd p Hc) as Hcp. rewrite HP in Hcp.
  destruct (rmdir_post _ _ _ _ _ Hi Hc H) as [->|(dir & f' & par & q & i & x & Hpl & Hf & Hx & Hk & Hl & Hne & H2 & H1)]; [apply keeps_refl|].
  rewrite HP in Hpl. pose proof (pl_path _ _ _ _ _ _ Hpl) as E. apply snoc_eq in E as [<- <-].
  pose proof (pl_ino _ _ _ _ _ _ Hpl) as Hq. pose proof (pl_dir _ _ _ _ _ _ Hpl) as Hqk. pose proof (pl_res _ _ _ _ _ _ Hpl) as Hres.
  pose proof (pl_can _ _ _ _ _ _ Hpl) as HcP. pose proof (place_name _ _ _ _ _ _ _ _ Hn Hpl Hf) as Hnm.
  assert (Hkids : forall g, names (w_ino w) !! (i, g) = None).
  { apply nkids_zero. pose proof (n_dlink _ _ Hn _ _ Hx Hk). pose proof (nkids_nonneg (w_ino w) i). lia. }
  assert (Hnames : names (w_ino w') = delete (par, f) (names (w_ino w))).
  { assert (E : names (<[par := par_rem f q]> (w_ino w)) = delete (par, f) (names (w_ino w))) by (apply (names_rem _ _ q); [exact Hq|reflexivity]).
    rewrite H1. destruct (i_ref x =? 0); [|exact E]. rewrite names_del; [exact E|]. intros g. rewrite E.
    apply lookup_delete_None. right. apply Hkids. }
  assert (Hminus : names_minus (w_ino w) (w_ino w') (P ++ [f]))
    by exact (minus_paths _ _ _ _ par q P f i Hn Hn' Hq Hqk Hcp Hres Hnm Hnames Hkids).
  assert (Hpar : w_ino w' !! par = Some (par_rem f q)).
  { rewrite H1. destruct (i_ref x =? 0); [rewrite lookup_delete_ne by congruence|]; apply lookup_insert. }
  assert (Hri : resolves (w_ino w) (P ++ [f]) i) by exact (res_step _ _ _ _ _ _ Hres Hq Hqk Hf).
  constructor.
  - intros q' j Hq' Hj. apply (Hminus _ _ Hq') in Hj. apply Hj.
  - intros q' j Hq' Hp Hj. apply (Hminus _ _ Hq'). split; [exact Hj|]. intros ->. destruct Hp as [Hp|Hp].
    + apply Hp. exists [f]. reflexivity.
    + apply (snoc_not_prefix P f). rewrite Hp. reflexivity.
  - intros q' j z Hq' Hp Hj Hz. assert (Hjp : j <> par).
    { intros ->. apply Hp. rewrite (dir_path _ _ _ _ _ _ Hn HcP Hq' Hq Hqk Hres Hj). reflexivity. }
    assert (Hji : j <> i).
    { intros ->. apply Hp. rewrite (dir_path _ _ _ _ _ _ Hn Hq' Hcp Hx Hk Hj Hri). exists [f]. reflexivity. }
    unfold bytes. exists z. rewrite H1, H2. split.
    + destruct (i_ref x =? 0); rewrite ?lookup_delete_ne by congruence; rewrite !lookup_insert_ne by congruence; exact Hz.
    + auto 10.
  - intros j z Hj Hz. assert (j = par) by exact (resolves_det _ _ _ _ Hj Hres). subst j. assert (z = q) by congruence. subst z.
    exists (par_rem f q). split; [exact Hpar|]. split; reflexivity.
Qed.

(** chmod *)
Lemma chmod_post w cwd p w' r : chmod_syscall w cwd p S_IRWXA = Done (w', r) ->
  (w' = w /\ metawalk (w_ino w) (normpath cwd p) = Done None) \/
  exists i x, resolves (w_ino w) (normpath cwd p) i /\ w_ino w !! i = Some x /\ d_host (w_disk w') = d_host (w_disk w) /\
    w_ino w' = <[i := set_mode (Z.lor (Z.ldiff (i_mode x) S_IRWXA) S_IRWXA) x]> (w_ino w).
Proof.
  intros H. unfold chmod_syscall in H. destruct (metawalk _ _) as [[i|]|] eqn:Em; cbn [obind] in H; [|injection H as <- _; auto|discriminate H].
  right. unfold chmod_helper in H. change (Z.land S_IRWXA S_IRWXA =? S_IRWXA) with true in H. cbv iota in H.
  destruct (get_ino w i) as [x|] eqn:Hx; cbn [obind] in H; [|discriminate H]. apply get_ino_done in Hx. injection H as <- _.
  exists i, x. split; [apply metawalk_resolves; exact Em|]. split; [exact Hx|]. split; destruct (i_kind x); reflexivity.
Qed.

Lemma all_bits m : no_write_bits (Z.lor (Z.ldiff m S_IRWXA) S_IRWXA) = false.
Proof.
  unfold no_write_bits. match goal with |- (Z.land ?a ?b =? 0) = false => assert (E : Z.land a b <> 0) end; [|lia].
  rewrite Z.land_lor_distr_l. intros E. apply Z.lor_eq_0_iff in E as [_ E]. discriminate E.
Qed.

Lemma chmod_keeps P f w w' n i x y : inv_n (w_ino w) n -> inv_n (w_ino w') n -> canonical (P ++ [f]) ->
  resolves (w_ino w) (P ++ [f]) i -> w_ino w !! i = Some x -> i_kind x = KDir -> d_host (w_disk w') = d_host (w_disk w) ->
  i_kind y = i_kind x -> i_dict y = i_dict x -> w_ino w' = <[i := y]> (w_ino w) -> keeps P w w'.
Proof.
  intros Hn Hn' Hc Hres Hx Hk H2 Ey1 Ey2 H1. assert (E : names (w_ino w') = names (w_ino w)) by (rewrite H1; apply (names_same _ _ _ x); assumption).
  pose proof (same_paths _ _ _ _ Hn Hn' E) as Hs. pose proof (proj1 (canonical_snoc _ _ Hc)) as HcP.
  constructor.
  - intros q j Hq. apply (Hs _ _ Hq).
  - intros q j Hq _. apply (Hs _ _ Hq).
  - intros q j z Hq Hp Hj Hz. unfold bytes. rewrite H1, H2. exists z. rewrite lookup_insert_ne; [auto 10|].
    intros <-. apply Hp. rewrite (dir_path _ _ _ _ _ _ Hn Hq Hc Hx Hk Hj Hres). exists [f]. reflexivity.
  - intros j z Hj Hz. exists z. rewrite H1, lookup_insert_ne; [auto|]. intros <-.
    pose proof (dir_path _ _ _ _ _ _ Hn HcP Hc Hx Hk Hj Hres) as E2. apply (snoc_not_prefix P f). rewrite <- E2. reflexivity.
Qed.

(** *** Removing a tree *)
Section Tree.
Context (disp : bool).

(** [w'] is reached by calls of process 0 that leave all outside [P] alone *)
Definition goes (P : list string) (w w' : world) : Prop := later disp w w' /\ keeps P w w' /\ w_cwd w' = w_cwd w.

Lemma goes_refl P w : goes P w w.
Proof. split; [constructor|]. split; [apply keeps_refl|reflexivity]. Qed.

Lemma goes_trans P a b d : canonical P -> goes P a b -> goes P b d -> goes P a d.
Proof.
  intros HP (A1 & A2 & A3) (B1 & B2 & B3). split; [exact (later_trans _ _ _ _ A1 B1)|].
  split; [exact (keeps_trans _ _ _ _ A2 B2 HP)|congruence].
Qed.

Lemma goes_up P f w w' : canonical P -> goes (P ++ [f]) w w' -> goes P w w'.
Proof. intros HP (A1 & A2 & A3). split; [exact A1|]. split; [exact (keeps_up _ _ _ _ HP A2)|exact A3]. Qed.

Lemma goes_step P w c o w' r : okw w -> step w c o = Done (w', r) -> tame disp w c o r -> calls_proc o = false ->
  (okw w' -> keeps P w w') -> goes P w w'.
Proof.
  intros Hok Hs Ht Hp K. split; [exact (later_one _ _ _ _ _ _ Hs Ht)|]. split; [exact (K (step_ok _ _ _ _ _ _ Hok Hs Ht))|].
  exact (proj2 (step_frame _ _ _ _ _ Hs Hp)).
Qed.

Lemma goes_still P w c o w' r : okw w -> canonical P -> step w c o = Done (w', r) -> tame disp w c o r -> calls_proc o = false ->
  still w w' -> goes P w w'.
Proof.
  intros Hok HP Hs Ht Hp K. apply (goes_step P w c o w' r Hok Hs Ht Hp). intros [Hw' _].
  exact (still_keeps P w w' _ _ (v_n _ (u_inv _ (proj1 Hok))) (v_n _ (u_inv _ Hw')) HP K).
Qed.

(** The directory at [P] is writable *)
Definition wr (P : list string) (w : world) : Prop :=
  forall i x, resolves (w_ino w) P i -> w_ino w !! i = Some x -> i_kind x = KDir -> no_write_bits (i_mode x) = false.

Lemma resolves_some t n q i : inv_n t n -> canonical q -> resolves t q i -> is_Some (t !! i).
Proof.
  intros Hn Hq H. destruct (resolves_named _ _ _ Hq H) as [->|[[d f] Hk]].
  - destruct (n_root _ _ Hn) as (r & Hr & _). eauto.
  - exact (proj1 (n_ent _ _ Hn _ _ _ Hk)).
Qed.

Lemma wr_keeps P w w' : okw w -> canonical P -> keeps P w w' -> wr P w -> wr P w'.
Proof.
  intros [Hw _] HP H Hwr i y Hr Hy Hk. apply (ke_new _ _ _ H _ _ HP) in Hr.
  destruct (resolves_some _ _ _ _ (v_n _ (u_inv _ Hw)) HP Hr) as [x Hx]. cbn in Hx.
  destruct (ke_self _ _ _ H _ _ Hr Hx) as (y' & Hy' & E1 & E2). assert (y' = y) by congruence. subst y'.
  rewrite E2. apply (Hwr _ _ Hr Hx). congruence.
Qed.

(** A removal of what [p] names, in the directory at [P] *)
Definition rm_ok (rm : string -> world -> outcome world) : Prop :=
  forall p w w' P f, okw w -> is_Some (w_cwd w !! 0) -> absolute p -> normpath [] p = P ++ [f] -> wr P w ->
  rm p w = Done w' -> goes P w w'.

Lemma canon_of p : canonical (normpath [] p).
Proof. apply normpath_canonical. constructor. Qed.

Lemma unlink_goes p w w' r P f : okw w -> is_Some (w_cwd w !! 0) -> absolute p -> normpath [] p = P ++ [f] -> wr P w ->
  unlink_syscall w [] p = Done (w', r) -> goes P w w'.
Proof.
  intros Hok [cwd Hcwd] Ha HP Hwr H. pose proof (u_cwd _ (proj1 Hok) _ _ Hcwd) as Hcan.
  assert (E : unlink_syscall w [] p = unlink_syscall w cwd p) by (unfold unlink_syscall; rewrite (normpath_absolute [] cwd p Ha); reflexivity).
  rewrite E in H. clear E. assert (HP' : normpath cwd p = P ++ [f]) by (rewrite (normpath_absolute cwd [] p Ha); exact HP).
  assert (Hs : step w 0 (Unlink p) = Done (w', Ret r)) by (unfold step; rewrite Hcwd; unfold ret; rewrite H; reflexivity).
  destruct (Z.ltb_spec r 0) as [Hr|Hr].
  - destruct (unlink_fail _ _ _ _ _ (u_inv _ (proj1 Hok)) Hcan H Hr) as [[-> _]|(dir & f' & par & q & Hpl & Hb)]; [apply goes_refl|].
    exfalso. rewrite HP' in Hpl. pose proof (pl_path _ _ _ _ _ _ Hpl) as E. apply snoc_eq in E as [<- <-].
    rewrite (Hwr _ _ (pl_res _ _ _ _ _ _ Hpl) (pl_ino _ _ _ _ _ _ Hpl) (pl_dir _ _ _ _ _ _ Hpl)) in Hb. discriminate Hb.
  - refine (goes_step P w 0 (Unlink p) w' (Ret r) Hok Hs _ eq_refl _).
    + cbn. intros E. injection E as ->. cbn in Hr. lia.
    + intros [Hw' _]. exact (unlink_keeps P f w w' _ cwd p r (u_inv _ (proj1 Hok)) (v_n _ (u_inv _ Hw')) Hcan HP' H Hr).
Qed.

Lemma rmdir_goes p w w' r P f : okw w -> is_Some (w_cwd w !! 0) -> absolute p -> normpath [] p = P ++ [f] ->
  rmdir_syscall w [] p = Done (w', r) -> goes P w w'.
Proof.
  intros Hok [cwd Hcwd] Ha HP H. pose proof (u_cwd _ (proj1 Hok) _ _ Hcwd) as Hcan.
  assert (E : rmdir_syscall w [] p = rmdir_syscall w cwd p) by (unfold rmdir_syscall; rewrite (normpath_absolute [] cwd p Ha); reflexivity).
  rewrite E in H. clear E. assert (HP' : normpath cwd p = P ++ [f]) by (rewrite (normpath_absolute cwd [] p Ha); exact HP).
  assert (Hs : step w 0 (Rmdir p) = Done (w', Ret r)) by (unfold step; rewrite Hcwd; unfold ret; rewrite H; reflexivity).
  refine (goes_step P w 0 (Rmdir p) w' (Ret r) Hok Hs I eq_refl _).
  intros [Hw' _]. exact (rmdir_keeps P f w w' _ cwd p r (u_inv _ (proj1 Hok)) (v_n _ (u_inv _ Hw')) Hcan HP' H).
Qed.

Lemma child_norm p f : absolute p -> good_name f -> absolute (child_path p f) /\ normpath [] (child_path p f) = normpath [] p ++ [f].
Proof.
  intros [s ->] Hf. split; [eexists; reflexivity|]. unfold child_path. change ("/" +:+ f) with (String "/" f).
  assert (Hr : has_root f = false). { destruct Hf as (H1 & _ & _ & H4). destruct f as [|a r]; [reflexivity|]. cbn in *. apply orb_false_iff in H4 as [H4 _]. exact H4. }
  rewrite normpath_join; [|discriminate|exact Hr]. unfold normpath at 1. rewrite Hr.
  unfold components. rewrite Hr. pose proof (piece_good f Hf) as Hp. destruct Hf as (H1 & H2 & H3 & H4).
  rewrite (split_noslash f H4). cbn [map List.concat]. destruct (String.eqb_spec f "."); [contradiction|]. rewrite Hp.
  cbn [app fold_left norm_step]. reflexivity.
Qed.

Lemma visit_each_goes rm path P : rm_ok rm -> absolute path -> normpath [] path = P -> forall es w w',
  Forall (fun e => dotb e.1 = false -> good_name e.1) es -> okw w -> is_Some (w_cwd w !! 0) -> wr P w ->
  visit_each rm path es w = Done w' -> goes P w w'.
Proof.
  intros Hrm Ha HP. assert (HcP : canonical P) by (rewrite <- HP; apply canon_of).
  induction es as [|[f k] es IH]; intros w w' Hes Hok Hl Hwr H; [cbn in H; injection H as <-; apply goes_refl|].
  apply Forall_cons in Hes as [Hf Hes]. cbn [visit_each] in H. cbn [fst] in Hf. fold (dotb f) in H.
  destruct (dotb f) eqn:Ed; [exact (IH _ _ Hes Hok Hl Hwr H)|]. specialize (Hf eq_refl).
  destruct (child_norm path f Ha Hf) as [Hca Hcn]. rewrite HP in Hcn.
  destruct (stat_syscall w [] (child_path path f)) as [s|]; cbn [obind] in H; [|discriminate H].
  match type of H with obind ?o _ = _ => destruct o as [w2|] eqn:E2; cbn [obind] in H; [|discriminate H] end.
  assert (K : goes P w w2).
  { assert (Ku : (do u <- unlink_syscall w [] (child_path path f); Done (fst u)) = Done w2 -> goes P w w2).
    { intros E. destruct (unlink_syscall w [] (child_path path f)) as [[w3 r]|] eqn:Eu; cbn [obind fst] in E; [|discriminate E].
      injection E as <-. exact (unlink_goes _ _ _ _ _ _ Hok Hl Hca Hcn Hwr Eu). }
    destruct s; try exact (Ku E2). destruct (is_dir mode); [|exact (Ku E2)]. exact (Hrm _ _ _ _ _ Hok Hl Hca Hcn Hwr E2). }
  apply (goes_trans _ _ _ _ HcP K). destruct K as (K1 & K2 & K3).
  refine (IH _ _ Hes (later_ok _ _ _ K1 Hok) _ (wr_keeps _ _ _ Hok HcP K2 Hwr) H). rewrite K3. exact Hl.
Qed.

Lemma dents_fit_sub es : forall b s e, In e (fst (dents_fit es b s)) -> In e es.
Proof.
  induction es as [|e0 es IH]; intros b s e; cbn [dents_fit]; [intros []|].
  destruct (_ <? _); [intros []|]. specialize (IH (b + reclen (fst e0)) s e). destruct (dents_fit es _ s) as [l n]. cbn [fst] in *.
  intros [->|H]; [left; reflexivity|right; auto].
Qed.

(** What a [getdents] that reports entries says *)
Lemma getdents_post w c fd n w' r es : goodt (w_ino w) -> getdents_syscall w c fd n = Done (w', RetDents r es) ->
  Forall (fun e => dotb e.1 = false -> good_name e.1) es /\
  exists i pos fl x, w_fds w !! (c, fd) = Some (FFile i pos fl) /\ w_ino w !! i = Some x /\ i_kind x = KDir.
Proof.
  intros Hg H. unfold getdents_syscall in H. destruct (_ <=? _) in H; [discriminate H|]. destruct (negb _); [discriminate H|].
  destruct (w_fds w !! (c, fd)) as [[i pos fl| | |]|] eqn:Ed; try discriminate H.
  destruct (get_ino w i) as [x|] eqn:Hx; cbn [obind] in H; [|discriminate H]. apply get_ino_done in Hx.
  destruct (i_kind x) eqn:Ek; try discriminate H.
  pose proof (dents_fit_sub (drop (Z.to_nat pos) (map_to_list (i_dict x))) 0 n) as Hsub.
  destruct (dents_fit _ _ _) as [l k]. cbn [fst] in Hsub. injection H as _ _ <-. split; [|exists i, pos, fl, x; auto].
  apply Forall_forall. intros [f j] He Hd. cbn [fst] in *. apply elem_of_list_In, Hsub in He. apply elem_of_list_In in He.
  assert (He2 : (f, j) ∈ map_to_list (i_dict x)).
  { rewrite <- (take_drop (Z.to_nat pos) (map_to_list (i_dict x))). apply elem_of_app. right. exact He. }
  apply elem_of_map_to_list in He2. exact (Hg _ _ Hx _ _ He2 Hd).
Qed.

Lemma visit_rounds_goes rm path P fd : rm_ok rm -> absolute path -> normpath [] path = P -> forall n w w',
  okw w -> is_Some (w_cwd w !! 0) -> wr P w -> visit_rounds rm path fd n w = Done w' -> goes P w w'.
Proof.
  intros Hrm Ha HP. assert (HcP : canonical P) by (rewrite <- HP; apply canon_of).
  induction n as [|n IH]; intros w w' Hok Hl Hwr H; [discriminate H|]. cbn [visit_rounds] in H.
  destruct (getdents_syscall w 0 fd 65536) as [[w1 g]|] eqn:Eg; cbn [obind] in H; [|discriminate H].
  destruct g as [| | |r es| | |]; try discriminate H. destruct (getdents_post _ _ _ _ _ _ _ (proj2 Hok) Eg) as [Hes _].
  destruct Hl as [cwd Hcwd].
  assert (Hs : step w 0 (Getdents fd 65536) = Done (w1, RetDents r es)) by (unfold step; rewrite Hcwd; exact Eg).
  assert (K : goes P w w1) by exact (goes_still P w 0 _ _ _ Hok HcP Hs I eq_refl (getdents_still _ _ _ _ _ _ Eg)).
  apply (goes_trans _ _ _ _ HcP K). destruct K as (K1 & K2 & K3).
  pose proof (later_ok _ _ _ K1 Hok) as Hok1. pose proof (wr_keeps _ _ _ Hok HcP K2 Hwr) as Hwr1.
  assert (Hl1 : is_Some (w_cwd w1 !! 0)) by (rewrite K3, Hcwd; eauto).
  destruct (r =? 0).
  - destruct (close_syscall w1 0 fd) as [[w2 q]|] eqn:Ec; cbn [obind fst] in H; [|discriminate H]. injection H as <-.
    assert (Hs2 : step w1 0 (Close fd) = Done (w2, Ret q)) by (unfold step; rewrite K3, Hcwd; unfold ret; rewrite Ec; reflexivity).
    exact (goes_still P w1 0 _ _ _ Hok1 HcP Hs2 I eq_refl (close_still _ _ _ _ _ (u_inv _ (proj1 Hok1)) Ec)).
  - destruct (visit_each rm path es w1) as [w2|] eqn:E2; cbn [obind] in H; [|discriminate H].
    pose proof (visit_each_goes rm path P Hrm Ha HP es w1 w2 Hes Hok1 Hl1 Hwr1 E2) as K'. apply (goes_trans _ _ _ _ HcP K').
    destruct K' as (L1 & L2 & L3).
    refine (IH w2 w' (later_ok _ _ _ L1 Hok1) _ (wr_keeps _ _ _ Hok1 HcP L2 Hwr1) H). rewrite L3. exact Hl1.
Qed.

Lemma open_rd_post w c cwd p w' fd : canonical cwd -> open_syscall w c cwd p O_RDONLY 0 = Done (w', fd) -> 0 <= fd ->
  exists i x y pos fl, resolves (w_ino w) (normpath cwd p) i /\ w_ino w !! i = Some x /\ w_fds w' !! (c, fd) = Some (FFile i pos fl) /\
    w_ino w' !! i = Some y /\ i_kind y = i_kind x /\ (i_kind x = KDir -> still w w').
Proof.
  intros Hc H Hfd. unfold open_syscall in H. destruct (String.eqb p ""); [negr H|].
  destruct (next_fd w c 0) as [fd'|]; [|negr H].
  destruct (metawalkandparent (w_ino w) (normpath cwd p)) as [[[i|] par]|] eqn:Hw; cbn [obind] in H; [| |discriminate H].
  2:{ destruct par; negr H. }
  change (Z.land O_RDONLY (Z.lor O_CREAT O_EXCL) =? Z.lor O_CREAT O_EXCL) with false in H. cbv iota in H.
  destruct (get_ino w i) as [x|] eqn:Hx; cbn [obind] in H; [|discriminate H]. apply get_ino_done in Hx.
  change (Z.land O_RDONLY O_TRUNC =? O_TRUNC) with false in H. cbv iota in H.
  exists i, x. apply mwap_metawalk, metawalk_resolves in Hw.
  destruct (i_kind x) eqn:Ek; cbn [obind] in H.
  - injection H as <- <-. unfold file_initializer. wcbn. eexists _, _, _. split; [exact Hw|]. split; [exact Hx|].
    split; [apply lookup_insert|]. split; [apply lookup_insert|]. split; [exact Ek|discriminate].
  - injection H as <- <-. unfold file_initializer. wcbn. eexists _, _, _. split; [exact Hw|]. split; [exact Hx|].
    split; [apply lookup_insert|]. split; [apply lookup_insert|]. split; [exact Ek|]. intros _.
    apply (still_upd _ _ i x (set_ref (i_ref x + 1) x)); (assumption || reflexivity).
  - injection H as <- <-. unfold file_initializer. wcbn. eexists _, _, _. split; [exact Hw|]. split; [exact Hx|].
    split; [apply lookup_insert|]. split; [apply lookup_insert|]. split; [exact Ek|discriminate].
  - negr H.
Qed.

Lemma visit_goes rm path P n w w' : rm_ok rm -> absolute path -> normpath [] path = P -> okw w -> is_Some (w_cwd w !! 0) -> wr P w ->
  visit rm n path w = Done w' -> goes P w w' /\ exists i x, resolves (w_ino w) P i /\ w_ino w !! i = Some x /\ i_kind x = KDir.
Proof.
  intros Hrm Ha HP Hok Hl Hwr H. assert (HcP : canonical P) by (rewrite <- HP; apply canon_of). unfold visit in H.
  destruct (open_syscall w 0 [] path O_RDONLY 0) as [[w1 fd]|] eqn:Eo; cbn [obind] in H; [|discriminate H].
  destruct (Z.ltb_spec fd 0) as [|Hfd]; [discriminate H|].
  destruct (open_rd_post w 0 [] path w1 fd ltac:(constructor) Eo Hfd) as (i & x & y & pos & fl & Hr & Hx & Hd & Hy & Ey & Hst).
  rewrite HP in Hr. destruct Hl as [cwd Hcwd].
  assert (Hs : step w 0 (Open path O_RDONLY 0) = Done (w1, Ret fd)).
  { unfold step. rewrite Hcwd. unfold ret. replace (open_syscall w 0 cwd path O_RDONLY 0) with (open_syscall w 0 [] path O_RDONLY 0); [rewrite Eo; reflexivity|].
    unfold open_syscall. rewrite (normpath_absolute [] cwd path Ha). reflexivity. }
  pose proof (step_ok disp _ _ _ _ _ Hok Hs I) as Hok1.
  assert (Hk : i_kind x = KDir).
  { destruct n as [|n]; [discriminate H|]. cbn [visit_rounds] in H.
    destruct (getdents_syscall w1 0 fd 65536) as [[w2 g]|] eqn:Eg; cbn [obind] in H; [|discriminate H].
    destruct g as [| | |r es| | |]; try discriminate H. destruct (getdents_post _ _ _ _ _ _ _ (proj2 Hok1) Eg) as (_ & i' & pos' & fl' & x' & Hd' & Hx' & Hk').
    congruence. }
  split; [|exists i, x; auto].
  assert (K : goes P w w1) by exact (goes_still P w 0 _ _ _ Hok HcP Hs I eq_refl (Hst Hk)).
  apply (goes_trans _ _ _ _ HcP K). destruct K as (K1 & K2 & K3).
  refine (visit_rounds_goes rm path P fd Hrm Ha HP n w1 w' Hok1 _ (wr_keeps _ _ _ Hok HcP K2 Hwr) H). rewrite K3, Hcwd. eauto.
Qed.

Lemma deltree_goes fuel : rm_ok (deltree fuel).
Proof.
  induction fuel as [|k IH]; intros p w w' P f Hok Hl Ha HP Hwr H; [discriminate H|]. cbn [deltree] in H.
  assert (HcPf : canonical (P ++ [f])) by (rewrite <- HP; apply canon_of). pose proof (proj1 (canonical_snoc _ _ HcPf)) as HcP.
  destruct (stat_syscall w [] p) as [s|] eqn:Es; cbn [obind] in H; [|discriminate H].
  destruct s; try (injection H as <-; apply goes_refl). destruct (negb (is_dir mode)).
  { destruct (unlink_syscall w [] p) as [[w3 r]|] eqn:Eu; cbn [obind fst] in H; [|discriminate H]. injection H as <-.
    exact (unlink_goes _ _ _ _ _ _ Hok Hl Ha HP Hwr Eu). }
  destruct (chmod_syscall w [] p S_IRWXA) as [[w1 r1]|] eqn:Ec; cbn [obind fst] in H; [|discriminate H].
  destruct (visit (deltree k) k p w1) as [w2|] eqn:Ev; cbn [obind] in H; [|discriminate H].
  destruct (rmdir_syscall w2 [] p) as [[w3 r3]|] eqn:Er; cbn [obind fst] in H; [|discriminate H]. injection H as <-.
  destruct Hl as [cwd Hcwd].
  assert (Hs : step w 0 (Chmod p S_IRWXA) = Done (w1, Ret r1)).
  { unfold step. rewrite Hcwd. unfold ret. replace (chmod_syscall w cwd p S_IRWXA) with (chmod_syscall w [] p S_IRWXA); [rewrite Ec; reflexivity|].
    unfold chmod_syscall. rewrite (normpath_absolute [] cwd p Ha). reflexivity. }
  pose proof (step_ok disp _ _ _ _ _ Hok Hs I) as Hok1.
  assert (Hl1 : is_Some (w_cwd w1 !! 0)) by (rewrite (proj2 (step_frame _ _ _ _ _ Hs eq_refl)), Hcwd; eauto).
  destruct (chmod_post _ _ _ _ _ Ec) as [[-> Hno]|(i & x & Hr & Hx & H2 & H1)].
  - exfalso. rewrite HP in Hno. assert (Hwr1 : wr (P ++ [f]) w).
    { intros i x Hr. assert (Hroot : is_Some (w_ino w !! ROOTINO)) by (destruct (n_root _ _ (v_n _ (u_inv _ (proj1 Hok)))) as (r & Hr' & _); eauto).
      rewrite (resolves_metawalk _ _ _ Hroot Hr) in Hno. discriminate Hno. }
    destruct (visit_goes _ p _ k w w2 IH Ha HP Hok Hl1 Hwr1 Ev) as (_ & i & x & Hr & _).
    assert (Hroot : is_Some (w_ino w !! ROOTINO)) by (destruct (n_root _ _ (v_n _ (u_inv _ (proj1 Hok)))) as (r & Hr' & _); eauto).
    rewrite (resolves_metawalk _ _ _ Hroot Hr) in Hno. discriminate Hno.
  - rewrite HP in Hr. set (y := set_mode (Z.lor (Z.ldiff (i_mode x) S_IRWXA) S_IRWXA) x) in H1.
    pose proof (v_n _ (u_inv _ (proj1 Hok))) as Hn. pose proof (v_n _ (u_inv _ (proj1 Hok1))) as Hn1. cbn in Hn, Hn1.
    assert (Hnext : w_next w1 = w_next w).
    { unfold chmod_syscall, chmod_helper in Ec. destruct (metawalk _ _) as [[j|]|]; cbn [obind] in Ec; [|injection Ec as <- _; reflexivity|discriminate Ec].
      change (Z.land S_IRWXA S_IRWXA =? S_IRWXA) with true in Ec. cbv iota in Ec.
      destruct (get_ino w j) as [z|]; cbn [obind] in Ec; [|discriminate Ec]. injection Ec as <- _. destruct (i_kind z); reflexivity. }
    rewrite Hnext in Hn1.
    assert (Hsame : forall q j, canonical q -> resolves (w_ino w1) q j <-> resolves (w_ino w) q j).
    { apply (same_paths _ _ _ _ Hn Hn1). rewrite H1. apply (names_same _ _ _ x); [exact Hx|reflexivity]. }
    assert (Hwr1 : wr (P ++ [f]) w1).
    { intros j z Hj Hz _. apply (Hsame _ _ HcPf) in Hj. assert (j = i) by exact (resolves_det _ _ _ _ Hj Hr). subst j.
      rewrite H1, lookup_insert in Hz. injection Hz as <-. apply all_bits. }
    destruct (visit_goes _ p _ k w1 w2 IH Ha HP Hok1 Hl1 Hwr1 Ev) as (Kv & j & z & Hj & Hz & Hzk).
    apply (Hsame _ _ HcPf) in Hj. assert (j = i) by exact (resolves_det _ _ _ _ Hj Hr). subst j.
    rewrite H1, lookup_insert in Hz. injection Hz as <-. cbn in Hzk.
    assert (Kc : goes P w w1).
    { refine (goes_step P w 0 _ w1 _ Hok Hs I eq_refl _). intros _.
      exact (chmod_keeps P f w w1 _ i x y Hn Hn1 HcPf Hr Hx Hzk H2 eq_refl eq_refl H1). }
    apply (goes_trans _ _ _ _ HcP Kc). apply (goes_up _ _ _ _ HcP) in Kv. apply (goes_trans _ _ _ _ HcP Kv).
    destruct Kv as (V1 & V2 & V3).
    refine (rmdir_goes p w2 w3 r3 P f (later_ok _ _ _ V1 Hok1) _ Ha HP Er). rewrite V3. exact Hl1.
Qed.
End Tree.
