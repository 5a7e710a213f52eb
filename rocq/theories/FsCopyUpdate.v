(** The tools that copy host files: update. *)
From stdpp Require Import gmap.
From Verif Require Import Base PathModel PathSpec PathProofs FsModel FsBoot FsSpec FsWalk Count FsNames FsTr FsInv FsInv2
  FsSteps FsSteps2 FsFrame FsReachSpec FsWinv FsReach FsTree FsNameSpec FsPath FdSpec FsDesc FsOps FsTmp FsNameProofs FsFail FsPos FsIoSpec FsIo
  FsCopyModel FsCopySpec FsCopyProofs FsCopyTree.
From Coq Require Import Ascii.
Local Open Scope list_scope.
Local Open Scope Z_scope.
Opaque all_fds next_fd.

Definition RFLAGS : Z := Z.lor O_RDONLY O_CREAT.

Lemma replaced_mono (P Q : list string -> Prop) w w' : (forall p, P p -> Q p) -> replaced P w w' -> replaced Q w w'.
Proof.
  intros HPQ H. constructor.
  - intros p j Hp Hn. apply (re_old _ _ _ H _ _ Hp). auto.
  - intros p j Hp Hr. destruct (re_new _ _ _ H _ _ Hp Hr) as [K|(q & K1 & K2)]; eauto.
  - intros p j x Hp Hn. apply (re_obj _ _ _ H _ _ _ Hp). auto.
Qed.
Lemma still_replaced w w' : winv w -> winv w' -> still w w' -> replaced (fun _ => False) w w'.
Proof.
  intros Hw Hw' H. pose proof (same_paths _ _ _ _ (v_n _ (u_inv _ Hw)) (v_n _ (u_inv _ Hw')) (st_names _ _ H)) as E. constructor.
  - intros p j Hp _. apply (E _ _ Hp).
  - intros p j Hp Hr. left. apply (E _ _ Hp), Hr.
  - intros p j x Hp _ Hr Hx. destruct (st_obj _ _ H _ _ (resolves_named _ _ _ Hp Hr) Hx) as (y & Hy & E1 & E2 & E3 & _ & _ & E6). eauto 10.
Qed.
Lemma replaced_refl P w : replaced P w w.
Proof. constructor; eauto 10. Qed.
Lemma replaced_added q w w' : added [q] w w' -> (forall i, ~ resolves (w_ino w) q i) -> replaced (eq q) w w'.
Proof.
  intros A Hno. constructor.
  - intros p j Hp _. apply (ad_old _ _ _ A _ _ Hp).
  - intros p j Hp Hr. destruct (ad_new _ _ _ A _ _ Hp Hr) as [K|[(q' & [<-|[]] & K) _]]; eauto.
  - intros p j x Hp _ Hr Hx. destruct (ad_obj _ _ _ A _ _ _ Hp Hr Hx) as (y & Hy & E1 & E2 & E3).
    destruct E3 as [E3 E4]; [intros q' [<-|[]]; apply Hno|]. eauto 10.
Qed.
Lemma replaced_trans P w w1 w' : replaced P w w1 -> replaced P w1 w' -> replaced P w w'.
Proof.
  intros H1 H2. constructor.
  - intros p j Hp Hne Hr. apply (re_old _ _ _ H2 _ _ Hp Hne), (re_old _ _ _ H1 _ _ Hp Hne), Hr.
  - intros p j Hp Hr. destruct (re_new _ _ _ H2 _ _ Hp Hr) as [K|K]; [|auto]. exact (re_new _ _ _ H1 _ _ Hp K).
  - intros p j x Hp Hne Hr Hx. destruct (re_obj _ _ _ H1 _ _ _ Hp Hne Hr Hx) as (y & Hy & E1 & E2 & E3 & E4).
    destruct (re_obj _ _ _ H2 _ _ _ Hp Hne (re_old _ _ _ H1 _ _ Hp Hne Hr) Hy) as (z & Hz & F1 & F2 & F3 & F4).
    exists z. split; [exact Hz|]. repeat split; congruence.
Qed.
Lemma replaced_holds P w w' q bs : winv w -> canonical q -> replaced P w w' -> ~ P q -> holds_file w q bs -> holds_file w' q bs.
Proof.
  intros Hw Hq H Hn (i & x & Hi & Hx & Hk & Hb). destruct (re_obj _ _ _ H _ _ _ Hq Hn Hi Hx) as (y & Hy & E1 & _ & _ & E4).
  exists i, y. split; [exact (re_old _ _ _ H _ _ Hq Hn Hi)|]. split; [exact Hy|]. split; congruence.
Qed.

(** ** Opening to compare *)
Lemma open_rd w c cwd p i x l : reach true w -> w_cwd w !! c = Some cwd -> p <> "" -> resolves (w_ino w) (normpath cwd p) i -> w_ino w !! i = Some x ->
  i_kind x = KFile -> bytes w i = Some l -> ~ none_free (w_fds w) c 0 ->
  exists w' fd fl, step w c (Open p RFLAGS S_IRWXA) = Done (w', Ret fd) /\ reach true w' /\ still w w' /\ w_fds w' = <[(c, fd) := FFile i 0 fl]> (w_fds w) /\
    w_fds w !! (c, fd) = None /\ w_cwd w' = w_cwd w /\ Z.land fl 3 = 0 /\ bytes w' i = Some l.
Proof.
  intros Hr Hc Hp Hres Hx Hk Hl Hfree. pose proof (reach_winv _ _ Hr) as Hw.
  destruct (next_fd w c 0) as [fd|] eqn:Ef; [|exfalso; apply Hfree, next_fd_none_eq, Ef]. pose proof (next_fd_some _ _ _ _ Ef) as [Hn Hfd].
  destruct (initializer_mode i RFLAGS (i_size x)) as (pos & fl & Ei & Em & Ep). replace (hasbit RFLAGS O_APPEND) with false in Ep by reflexivity. subst pos.
  set (w1 := put_fd c fd (FFile i 0 fl) (put_ino i (set_ref (i_ref x + 1) (set_size (i_size x) x)) (open_fobj i (i_size x) w))).
  assert (E : step w c (Open p RFLAGS S_IRWXA) = Done (w1, Ret fd)).
  { unfold step. rewrite Hc. unfold ret, open_syscall. destruct (String.eqb_spec p ""); [contradiction|]. rewrite Ef.
    pose proof (resolves_metawalk _ _ _ (root_some _ Hw) Hres) as Hm. unfold metawalk in Hm.
    destruct (metawalkandparent _ _) as [[o op]|]; cbn [obind fst] in *; [|discriminate Hm]. injection Hm as ->.
    replace (Z.land RFLAGS (Z.lor O_CREAT O_EXCL) =? Z.lor O_CREAT O_EXCL) with false by reflexivity.
    unfold get_ino. rewrite Hx. cbn [obind]. rewrite Hk. replace (Z.land RFLAGS O_TRUNC =? O_TRUNC) with false by reflexivity. cbn [obind].
    rewrite Ei. reflexivity. }
  assert (Hb : d_host (w_disk (open_fobj i (i_size x) w)) = d_host (w_disk w)).
  { unfold open_fobj. destruct (w_fobj w !! i); [reflexivity|]. wcbn. unfold bytes in Hl. rewrite Hl. cbn [default from_option]. apply insert_id. exact Hl. }
  assert (Ho : w_ino (open_fobj i (i_size x) w) = w_ino w /\ w_fds (open_fobj i (i_size x) w) = w_fds w /\ w_cwd (open_fobj i (i_size x) w) = w_cwd w)
    by (unfold open_fobj; destruct (w_fobj w !! i); repeat split).
  destruct Ho as (O1 & O2 & O3).
  exists w1, fd, fl. split; [exact E|]. split; [eapply reach_step; [exact Hr|exact E|exact I]|]. split; [|split; [|split; [exact Hn|split; [|split]]]].
  - apply (still_upd _ _ i x (set_ref (i_ref x + 1) (set_size (i_size x) x))); try reflexivity; [exact Hx|subst w1; wcbn; rewrite O1; reflexivity|exact Hb].
  - subst w1. wcbn. rewrite O2. reflexivity.
  - subst w1. wcbn. exact O3.
  - rewrite Em. reflexivity.
  - unfold bytes. subst w1. wcbn. rewrite Hb. exact Hl.
Qed.

Lemma slice_whole l bs : slice l 0 (len l) bs -> bs = l.
Proof.
  intros [H1 H2]. unfold len in *. apply (nth_ext _ _ 0 0); [lia|]. intros k Hk. specialize (H2 (Z.of_nat k) ltac:(lia)).
  unfold byte_at in H2. rewrite Z.add_0_l, !Nat2Z.id in H2. exact H2.
Qed.

(** Open, read all, close: nothing changes, and the bytes are returned. *)
Lemma read_back w c cwd p i x l : reach true w -> w_cwd w !! c = Some cwd -> p <> "" -> resolves (w_ino w) (normpath cwd p) i -> w_ino w !! i = Some x ->
  i_kind x = KFile -> bytes w i = Some l -> len l < 2147483648 -> ~ none_free (w_fds w) c 0 ->
  exists w1 w2 w3 fd, step w c (Open p RFLAGS S_IRWXA) = Done (w1, Ret fd) /\ step w1 c (Read fd (len l)) = Done (w2, RetData (len l) l) /\
    step w2 c (Close fd) = Done (w3, Ret 0) /\ reach true w3 /\ still w w3 /\ same_procs w w3.
Proof.
  intros Hr Hc Hp Hres Hx Hk Hl Hn Hfree.
  destruct (open_rd _ _ _ _ _ _ _ Hr Hc Hp Hres Hx Hk Hl Hfree) as (w1 & fd & fl & E1 & R1 & S1 & F1 & N1 & C1 & M1 & B1).
  assert (D1 : w_fds w1 !! (c, fd) = Some (FFile i 0 fl)) by (rewrite F1; apply lookup_insert).
  destruct (read_exact w1 c fd i 0 fl l (len l) R1 D1 B1 ltac:(lia) ltac:(unfold len in *; lia) ltac:(unfold len; lia)) as (bs & Hs & E2).
  apply slice_whole in Hs. subst bs. set (w2 := with_fds _ w1) in E2.
  assert (R2 : reach true w2) by (eapply reach_step; [exact R1|exact E2|exact I]).
  assert (D2 : w_fds w2 !! (c, fd) = Some (FFile i (0 + len l) fl)) by (subst w2; wcbn; apply lookup_insert).
  destruct (close_total _ _ _ _ (reach_winv _ _ R2) (ltac:(subst w2; wcbn; rewrite C1, Hc; eauto)) D2) as (w3 & E3 & _).
  destruct (close_step _ _ _ _ _ _ _ _ R2 D2 E3) as (R3 & S3 & F3 & C3 & _).
  exists w1, w2, w3, fd. split; [exact E1|]. split; [exact E2|]. split; [exact E3|]. split; [exact R3|]. split; [|split].
  - apply (still_trans _ w1); [exact S1|]. apply (still_trans _ w2); [|exact S3]. apply still_same; reflexivity.
  - rewrite F3. subst w2. wcbn. rewrite F1, delete_insert_delete, delete_insert_delete. apply delete_notin. exact N1.
  - rewrite C3. subst w2. wcbn. exact C1.
Qed.

(** Open creates an empty file; reading and closing changes nothing. *)
Lemma create_back w c cwd q g d y p : reach true w -> w_cwd w !! c = Some cwd -> p <> "" -> normpath cwd p = q ++ [g] -> canonical (q ++ [g]) ->
  resolves (w_ino w) q d -> w_ino w !! d = Some y -> i_kind y = KDir -> (forall i, ~ resolves (w_ino w) (q ++ [g]) i) -> ~ none_free (w_fds w) c 0 ->
  exists w1 w2 w3 fd, step w c (Open p RFLAGS S_IRWXA) = Done (w1, Ret fd) /\ step w1 c (Read fd 0) = Done (w2, RetData 0 []) /\
    step w2 c (Close fd) = Done (w3, Ret 0) /\ reach true w3 /\ same_procs w w3 /\ added [q ++ [g]] w w3 /\ holds_file w3 (q ++ [g]) [].
Proof.
  intros Hr Hc Hp En Hq Hd Hy Hk Hno Hfree. pose proof (reach_winv _ _ Hr) as Hw.
  assert (exists w1 fd, step w c (Open p RFLAGS S_IRWXA) = Done (w1, Ret fd) /\ 0 <= fd) as (w1 & fd & E1 & Hfd).
  { unfold step. rewrite Hc. unfold ret, open_syscall. rewrite En. destruct (String.eqb_spec p ""); [contradiction|].
    destruct (next_fd w c 0) as [fd|] eqn:Ef; [|exfalso; apply Hfree, next_fd_none_eq, Ef]. apply next_fd_some in Ef as [_ Hfd].
    rewrite (mwap_dir _ _ g _ _ Hw Hd Hy Hk), (dict_none _ _ _ _ _ Hd Hy Hk Hno). cbn [obind].
    replace (negb (hasbit RFLAGS O_CREAT)) with false by reflexivity. replace (Z.land S_IFCHR RFLAGS =? S_IFCHR) with false by reflexivity.
    replace (negb (sane_mode S_IRWXA)) with false by reflexivity. unfold file_name. rewrite last_snoc.
    unfold add_child, get_ino. rewrite Hy. cbn [obind]. eexists _, _. split; [reflexivity|cbn [snd]; lia]. }
  assert (R1 : reach true w1) by (eapply reach_step; [exact Hr|exact E1|exact I]).
  destruct (create_file _ _ _ _ _ _ _ _ (q ++ [g]) Hr Hc ltac:(apply denotes_normpath; symmetry; exact En) E1 Hfd Hno) as (i & fl & Cr & (x & Hx & Kx & _) & B1 & F1 & M1 & N1).
  assert (D1 : w_fds w1 !! (c, fd) = Some (FFile i 0 fl)) by (rewrite F1; apply lookup_insert).
  assert (C1 : w_cwd w1 = w_cwd w) by apply Cr.
  destruct (read_exact w1 c fd i 0 fl [] 0 R1 D1 B1 ltac:(rewrite M1; discriminate) ltac:(lia) ltac:(reflexivity)) as (bs & Hs & E2).
  apply (slice_whole [] bs) in Hs. subst bs. set (w2 := with_fds _ w1) in E2.
  assert (R2 : reach true w2) by (eapply reach_step; [exact R1|exact E2|exact I]).
  assert (D2 : w_fds w2 !! (c, fd) = Some (FFile i (0 + len []) fl)) by (subst w2; wcbn; apply lookup_insert).
  destruct (close_total _ _ _ _ (reach_winv _ _ R2) (ltac:(subst w2; wcbn; rewrite C1, Hc; eauto)) D2) as (w3 & E3 & _).
  destruct (close_step _ _ _ _ _ _ _ _ R2 D2 E3) as (R3 & S3 & F3 & C3 & _).
  assert (S13 : still w1 w3) by (apply (still_trans _ w2); [apply still_same; reflexivity|exact S3]).
  pose proof (still_replaced _ _ (reach_winv _ _ R1) (reach_winv _ _ R3) S13) as U.
  pose proof (creates_added [q ++ [g]] _ _ (q ++ [g]) (q ++ [g]) i Hw (reach_winv _ _ R1) Hq ltac:(left; reflexivity) ltac:(reflexivity) Cr) as A1.
  assert (Hri : resolves (w_ino w1) (q ++ [g]) i) by (destruct Cr as (_ & [_ N] & _); apply (N _ _ Hq); auto).
  exists w1, w2, w3, fd. split; [exact E1|]. split; [exact E2|]. split; [exact E3|]. split; [exact R3|]. split; [split|split].
  - rewrite F3. subst w2. wcbn. rewrite F1, delete_insert_delete, delete_insert_delete. apply delete_notin. exact N1.
  - rewrite C3. subst w2. wcbn. exact C1.
  - apply (added_trans _ _ w1); [constructor; [exact Hq|constructor]|exact A1|].
    apply (touched_added [q ++ [g]] (q ++ [g]) i); [eapply reach_winv; eassumption..|left; reflexivity|exact Hri|apply still_touched; exact S13].
  - apply (replaced_holds _ w1 w3 _ _ (reach_winv _ _ R1) Hq U); [tauto|]. exists i, x. split; [exact Hri|]. split; [exact Hx|]. split; [congruence|exact B1].
Qed.

(** ** unlink *)
Lemma unlink_ok w c cwd p q g d y i x : reach true w -> w_cwd w !! c = Some cwd -> p <> "" -> normpath cwd p = q ++ [g] -> canonical (q ++ [g]) ->
  resolves (w_ino w) q d -> w_ino w !! d = Some y -> writable y -> resolves (w_ino w) (q ++ [g]) i -> w_ino w !! i = Some x -> i_kind x = KFile ->
  exists w', step w c (Unlink p) = Done (w', Ret 0).
Proof.
  intros Hr Hc Hp En Hq Hd Hy Hwr Hi Hx Hk. pose proof (reach_winv _ _ Hr) as Hw. pose proof (v_n _ (u_inv _ Hw)) as Hn. cbn in Hn.
  apply resolves_snoc in Hi as Hi'. destruct Hi' as (d' & y' & Hd' & Hy' & Hky & Hf). assert (d' = d) by (eapply resolves_det; eauto). subst d'. assert (y' = y) by congruence. subst y'.
  assert (Hb : no_write_bits (i_mode y) = false) by (unfold no_write_bits; apply Z.eqb_neq; exact Hwr).
  assert (Hnm : names (w_ino w) !! (d, g) = Some i).
  { apply canonical_snoc in Hq as [_ Hdot]. rewrite names_lookup, Hdot, Hy. exact Hf. }
  assert (Hl : 0 < i_link x).
  { pose proof (n_link _ _ Hn _ _ Hx ltac:(congruence)) as K. assert (0 < nnames (w_ino w) i); [|lia].
    apply cnt_pos. exists (d, g), i. split; [exact Hnm|]. cbn. apply Z.eqb_refl. }
  assert (Hne : i <> d) by congruence.
  destruct (inv_file w i x (u_inv _ Hw) Hx Hk) as (_ & b & Hbb & _).
  unfold step. rewrite Hc. unfold ret, unlink_syscall. rewrite En. destruct (String.eqb_spec p ""); [contradiction|].
  rewrite (mwap_dir _ _ g _ _ Hw Hd Hy Hky), Hf. cbn [obind]. unfold get_ino at 1. rewrite Hx. cbn [obind]. rewrite Hk.
  unfold dec at 1. destruct (Z.leb_spec (i_link x) 0); [lia|]. cbn [obind].
  unfold remove_from_parent, get_ino. wcbn. rewrite lookup_insert_ne by exact Hne. rewrite Hy. cbn [obind]. rewrite Hky, Hb.
  unfold file_name. rewrite last_snoc, Hf. unfold dec. pose proof (n_dlink _ _ Hn _ _ Hy Hky). pose proof (nkids_nonneg (w_ino w) d).
  destruct (Z.leb_spec (i_link y) 0); [lia|]. cbn [obind]. cbn [negb Z.eqb].
  destruct (_ && _); [unfold remove_host; wcbn; rewrite Hbb|]; cbn [obind]; eauto.
Qed.

Lemma unlink_replaced w c cwd p q w' : reach true w -> w_cwd w !! c = Some cwd -> denotes cwd p q -> canonical q -> step w c (Unlink p) = Done (w', Ret 0) ->
  reach true w' /\ same_procs w w' /\ replaced (eq q) w w' /\ (forall i, ~ resolves (w_ino w') q i).
Proof.
  intros Hr Hc Hden Hq H. assert (Hr' : reach true w') by (eapply reach_step; [exact Hr|exact H|cbn; intros E; discriminate E]).
  destruct (unlink_thm _ _ _ _ _ _ _ Hr Hc Hden H ltac:(lia)) as (i & x & Hi & Hx & Hk & Hm & (par & Hpar & Ho) & Hb & (P1 & P2 & P3) & Hkeep).
  split; [exact Hr'|]. split; [split; assumption|]. split.
  - constructor.
    + intros p' j Hp Hne Hj. apply Hm; [exact Hp|]. auto.
    + intros p' j Hp Hj. apply (Hm _ _ Hp) in Hj as [Hj _]. auto.
    + intros p' j z Hp Hne Hj Hz. assert (Hj' : resolves (w_ino w') p' j) by (apply Hm; auto).
      destruct (resolves_exists _ _ _ (reach_winv _ _ Hr') Hp Hj') as [z' Hz']. exists z'. split; [exact Hz'|].
      destruct (decide (j = i)) as [->|Hji].
      * destruct (proj2 (Ho i) ltac:(left; reflexivity) z z' Hz Hz') as (K1 & K2 & K3). destruct Hkeep as [_ K4]; [right; eauto|]. repeat split; congruence.
      * destruct (decide (j = par)) as [->|Hjp].
        -- destruct (proj2 (Ho par) ltac:(right; left; reflexivity) z z' Hz Hz') as (K1 & K2 & K3). rewrite (Hb _ Hji). repeat split; congruence.
        -- rewrite (proj1 (Ho j)) in Hz' by (intros [E|[E|[]]]; congruence). assert (z' = z) by congruence. subst z'. rewrite (Hb _ Hji). auto.
  - intros j Hj. apply (Hm _ _ Hq) in Hj as [_ Hj]. congruence.
Qed.

(** ** One file *)
Lemma stat_old w c cwd p i x : reach true w -> w_cwd w !! c = Some cwd -> resolves (w_ino w) (normpath cwd p) i -> w_ino w !! i = Some x ->
  step w c (Stat p) = Done (w, stat_of i x).
Proof.
  intros Hr Hc Hres Hx. pose proof (reach_winv _ _ Hr) as Hw. unfold step, same, stat_syscall. rewrite Hc.
  rewrite (resolves_metawalk _ _ _ (root_some _ Hw) Hres). cbn [obind]. unfold get_ino. rewrite Hx. reflexivity.
Qed.
Lemma stat_none w c cwd p : reach true w -> w_cwd w !! c = Some cwd -> canonical (normpath cwd p) -> (forall i, ~ resolves (w_ino w) (normpath cwd p) i) ->
  step w c (Stat p) = Done (w, Ret (err ENOENT)).
Proof.
  intros Hr Hc Hq Hno. pose proof (reach_winv _ _ Hr) as Hw. unfold step, same, stat_syscall. rewrite Hc.
  destruct (metawalk_done w _ Hw Hq) as ([i|] & Hm & _); [exfalso; exact (Hno i (metawalk_resolves _ _ _ Hm))|]. rewrite Hm. reflexivity.
Qed.

Definition differs (w : world) (q : list string) (bs : list Z) (p : list string) : Prop := p = q /\ ~ holds_file w q bs.

Lemma holds_det w q bs i l : resolves (w_ino w) q i -> bytes w i = Some l -> l <> bs -> ~ holds_file w q bs.
Proof. intros Hi Hl Hne (j & x & Hj & _ & _ & Hb). assert (j = i) by (eapply resolves_det; eassumption). congruence. Qed.

Lemma cp_file_new w c cwd p bs q : reach true w -> w_cwd w !! c = Some cwd -> normpath cwd p = q -> canonical q -> q <> [] ->
  (forall i, ~ resolves (w_ino w) q i) -> way_dirs w q -> ~ none_free (w_fds w) c 0 ->
  exists w', cp_file c true bs p w = Done (w', true) /\ reach true w' /\ same_procs w w' /\ holds_file w' q bs /\ way_dirs w' q /\ replaced (eq q) w w'.
Proof.
  intros Hr Hc En Hq Hne Hno Hway Hfree.
  destruct (cp_names_ok c bs q w cwd Hq Hne Hr Hc) as (w' & E & H1 & H2); [split; [intros i x Hi; exfalso; exact (Hno i Hi)|exact Hway]|exact Hfree|].
  destruct (cp_names_added _ _ _ _ _ _ _ _ Hq Hr Hc E) as (R' & P' & A'). unfold cp_file. rewrite Hc, En.
  exists w'. split; [exact E|]. split; [exact R'|]. split; [exact P'|]. split; [exact H1|]. split; [exact H2|]. apply replaced_added; assumption.
Qed.

Lemma way_dirs_replaced P w w' q : winv w -> canonical q -> replaced P w w' -> way_dirs w q -> (forall p, P p -> ~ p `prefix_of` q) ->
  (forall p, P p -> way_dirs w' p) -> way_dirs w' q.
Proof.
  intros Hw Hq H Hway Hap HP p f r j z Ep Hp Hz. assert (Hpq : p `prefix_of` q) by (rewrite Ep; eexists; reflexivity).
  pose proof (canonical_prefix _ _ Hq Hpq) as Hcp.
  destruct (re_new _ _ _ H _ _ Hcp Hp) as [K|(q' & K1 & K2)].
  - destruct (resolves_exists _ _ _ Hw Hcp K) as [x Hx]. destruct (re_obj _ _ _ H _ _ _ Hcp (fun K1 => Hap _ K1 Hpq) K Hx) as (y & Hy & E1 & E2 & _).
    assert (y = z) by congruence. subst y. destruct (Hway _ _ _ _ _ Ep K Hx) as [F1 F2]. unfold dir_mode in *. rewrite E1, E2. auto.
  - destruct K2 as [[|h s] K2]; [rewrite app_nil_r in K2; subst q'; exfalso; exact (Hap _ K1 Hpq)|]. exact (HP _ K1 _ _ _ _ _ K2 Hp Hz).
Qed.

Lemma way_dirs_up w w' q0 g d : winv w -> canonical (q0 ++ [g]) -> replaced (eq (q0 ++ [g])) w w' -> resolves (w_ino w) q0 d -> way_dirs w (q0 ++ [g]) ->
  way_dirs w' (q0 ++ [g]).
Proof.
  intros Hw Hq U Hd Hway a f r j z Ea Ha Hz.
  assert (Hca : canonical a) by (apply (canonical_prefix _ _ Hq); rewrite Ea; eexists; reflexivity).
  assert (Hne' : q0 ++ [g] <> a) by (intros E; rewrite E in Ea; apply (f_equal length) in Ea; rewrite app_length in Ea; cbn in Ea; lia).
  assert (K : exists j0, resolves (w_ino w) a j0).
  { assert (exists s, q0 = a ++ s) as [s ->]. { destruct (snoc_split _ _ _ _ _ Ea) as [s Es]. exists s. exact Es. }
    exact (resolves_upto _ _ _ _ Hd). }
  destruct K as [j0 K]. assert (j0 = j) as -> by (eapply resolves_det; [exact (re_old _ _ _ U _ _ Hca Hne' K)|exact Ha]).
  destruct (resolves_exists _ _ _ Hw Hca K) as [z2 Hz2]. destruct (re_obj _ _ _ U _ _ _ Hca Hne' K Hz2) as (z3 & Hz3 & E1 & E2 & _).
  assert (z3 = z) by congruence. subst z3. destruct (Hway _ _ _ _ _ Ea K Hz2) as [F1 F2]. unfold dir_mode in *. rewrite E1, E2. auto.
Qed.

Lemma update_file_ok w c cwd p bs q : reach true w -> w_cwd w !! c = Some cwd -> p <> "" -> normpath cwd p = q -> q <> [] -> can_update w q bs ->
  ~ none_free (w_fds w) c 0 ->
  exists w', update_file c bs p w = Done w' /\ reach true w' /\ same_procs w w' /\ holds_file w' q bs /\ way_dirs w' q /\ replaced (differs w q bs) w w'.
Proof.
  intros Hr Hc Hp En Hne [[Hfile Hway] Hsize Htype Hdir Hnone] Hfree. pose proof (reach_winv _ _ Hr) as Hw.
  assert (Hq : canonical q) by (rewrite <- En; apply normpath_canonical, (u_cwd _ Hw _ _ Hc)).
  destruct q as [|g q0 _] using rev_ind; [congruence|]. rewrite removelast_last in Hdir, Hnone. set (q := q0 ++ [g]) in *. unfold update_file.
  destruct (metawalk_done w q Hw Hq) as ([i|] & Hm & _).
  - apply metawalk_resolves in Hm as Hi. destruct (resolves_exists _ _ _ Hw Hq Hi) as [x Hx]. pose proof (Hfile _ _ Hi Hx) as Hk.
    destruct (inv_file w i x (u_inv _ Hw) Hx Hk) as (_ & l & Hl & Hsz).
    rewrite (stat_old w c cwd p i x Hr Hc ltac:(rewrite En; exact Hi) Hx). cbn [obind fst snd stat_of].
    rewrite (Htype _ _ Hi Hx), Z.eqb_refl. cbn [negb].
    assert (Hblock : exists w2 same, (if Z.of_nat (length bs) =? i_size x
        then obind (step w c (Open p (Z.lor O_RDONLY O_CREAT) S_IRWXA)) (fun o => match o with
          | (w1, Ret fd) => obind (step w1 c (Read fd (i_size x))) (fun r => obind (step (fst r) c (Close fd)) (fun e =>
              let got := match snd r with RetData _ l => l ++ replicate (length bs - length l) 0 | _ => replicate (length bs) 0 end in
              Done (fst e, bool_decide (got = bs))))
          | _ => Panic end) else Done (w, false)) = Done (w2, same) /\ same = bool_decide (l = bs) /\ reach true w2 /\ still w w2 /\ same_procs w w2).
    { destruct (Z.eqb_spec (Z.of_nat (length bs)) (i_size x)) as [Es|Es].
      - destruct (read_back w c cwd p i x l Hr Hc Hp ltac:(rewrite En; exact Hi) Hx Hk Hl (Hsize _ _ Hi Hl) Hfree) as (w1 & w2 & w3 & fd & E1 & E2 & E3 & R3 & S3 & P3).
        fold RFLAGS. rewrite E1. cbn [obind]. assert (Esz : i_size x = len l) by (unfold len; lia). rewrite Esz, E2. cbn [obind fst snd]. rewrite E3. cbn [obind fst snd].
        eexists _, _. split; [reflexivity|]. split; [|auto]. replace (length bs - length l)%nat with 0%nat by (unfold len in *; lia). cbn [replicate]. rewrite app_nil_r. reflexivity.
      - eexists _, _. split; [reflexivity|]. split; [|split; [exact Hr|split; [apply still_same; reflexivity|split; reflexivity]]].
        symmetry. apply bool_decide_eq_false. intros E. apply Es. subst l. lia. }
    destruct Hblock as (w2 & same & Eb & Es & R2 & S2 & P2). unfold RFLAGS in Eb. rewrite Eb. cbn [obind].
    pose proof (reach_winv _ _ R2) as W2. pose proof (still_replaced _ _ Hw W2 S2) as U2.
    assert (Hway2 : way_dirs w2 q) by (apply (way_dirs_replaced _ _ _ _ Hw Hq U2 Hway); [tauto..]).
    destruct same; symmetry in Es.
    + apply bool_decide_eq_true in Es. subst l. exists w2. split; [reflexivity|]. split; [exact R2|]. split; [exact P2|]. split; [|split].
      * apply (replaced_holds _ _ _ _ _ Hw Hq U2); [tauto|]. exists i, x. auto.
      * exact Hway2.
      * apply (replaced_mono (fun _ => False)); [tauto|exact U2].
    + apply bool_decide_eq_false in Es. pose proof (holds_det _ _ _ _ _ Hi Hl Es) as Hdif.
      destruct P2 as [P21 P22]. assert (Hc2 : w_cwd w2 !! c = Some cwd) by (rewrite P22; exact Hc).
      pose proof (re_old _ _ _ U2 _ _ Hq ltac:(tauto) Hi) as Hi2. destruct (re_obj _ _ _ U2 _ _ _ Hq ltac:(tauto) Hi Hx) as (x2 & Hx2 & Kx2 & _).
      apply resolves_snoc in Hi as Hi'. destruct Hi' as (d & y & Hd & Hy & Hky & _). apply canonical_snoc in Hq as Hq'. destruct Hq' as [Hq0 _].
      pose proof (Hdir _ _ _ Hi Hd Hy) as Hwr. pose proof (re_old _ _ _ U2 _ _ Hq0 ltac:(tauto) Hd) as Hd2.
      destruct (re_obj _ _ _ U2 _ _ _ Hq0 ltac:(tauto) Hd Hy) as (y2 & Hy2 & Ky2 & My2 & _).
      destruct (unlink_ok w2 c cwd p q0 g d y2 i x2 R2 Hc2 Hp En Hq Hd2 Hy2 ltac:(unfold writable in *; rewrite My2; exact Hwr) Hi2 Hx2 ltac:(congruence)) as (w3 & E3).
      rewrite E3. cbn [obind fst]. destruct (unlink_replaced w2 c cwd p q w3 R2 Hc2 ltac:(apply denotes_normpath; symmetry; exact En) Hq E3) as (R3 & [P31 P32] & U3 & Hno).
      assert (Hway3 : way_dirs w3 q).
      { exact (way_dirs_up w2 w3 q0 g d W2 Hq U3 Hd2 Hway2). }
      destruct (cp_file_new w3 c cwd p bs q R3 ltac:(rewrite P32; exact Hc2) En Hq Hne Hno Hway3 ltac:(rewrite P31, P21; exact Hfree)) as (w4 & E4 & R4 & [P41 P42] & H4 & V4 & U4).
      rewrite E4. cbn [obind fst]. exists w4. split; [reflexivity|]. split; [exact R4|]. split; [split; congruence|]. split; [exact H4|]. split; [exact V4|].
      assert (Hm1 : forall a, q = a -> differs w q bs a) by (intros a <-; split; [reflexivity|exact Hdif]).
      apply (replaced_trans _ _ w2); [apply (replaced_mono (fun _ => False)); [tauto|exact U2]|].
      apply (replaced_trans _ _ w3); [exact (replaced_mono _ _ _ _ Hm1 U3)|exact (replaced_mono _ _ _ _ Hm1 U4)].
  - pose proof (metawalk_none _ _ Hm) as Hno. rewrite (stat_none w c cwd p Hr Hc ltac:(rewrite En; exact Hq) ltac:(rewrite En; exact Hno)). cbn [obind fst snd].
    assert (Hdif : ~ holds_file w q bs) by (intros (i & x & Hi & _); exact (Hno i Hi)).
    assert (Hm1 : forall a, q = a -> differs w q bs a) by (intros a <-; split; [reflexivity|exact Hdif]).
    destruct (Z.eqb_spec (Z.of_nat (length bs)) 0) as [E0|E0].
    + assert (bs = []) as -> by (destruct bs; [reflexivity|cbn in E0; lia]). destruct (Hnone eq_refl Hno) as (d & Hd).
      apply canonical_snoc in Hq as Hq'. destruct Hq' as [Hq0 _]. destruct (resolves_exists _ _ _ Hw Hq0 Hd) as [y Hy].
      destruct (Hway q0 g [] d y eq_refl Hd Hy) as [Hky _].
      destruct (create_back w c cwd q0 g d y p Hr Hc Hp En Hq Hd Hy Hky Hno Hfree) as (w1 & w2 & w3 & fd & E1 & E2 & E3 & R3 & P3 & A3 & H3).
      fold RFLAGS. rewrite E1. cbn [obind]. rewrite E2. cbn [obind fst]. rewrite E3. cbn [obind fst].
      pose proof (replaced_added _ _ _ A3 Hno) as U3.
      exists w3. split; [reflexivity|]. split; [exact R3|]. split; [exact P3|]. split; [exact H3|]. split; [|exact (replaced_mono _ _ _ _ Hm1 U3)].
      exact (way_dirs_up w w3 q0 g d Hw Hq U3 Hd Hway).
    + cbn [obind]. destruct (cp_file_new w c cwd p bs q Hr Hc En Hq Hne Hno Hway Hfree) as (w4 & E4 & R4 & P4 & H4 & V4 & U4).
      rewrite E4. cbn [obind fst]. exists w4. split; [reflexivity|]. split; [exact R4|]. split; [exact P4|]. split; [exact H4|]. split; [exact V4|exact (replaced_mono _ _ _ _ Hm1 U4)].
Qed.

(** ** Trees *)
Fixpoint upd_list (c : Z) (L : list (string * list Z)) (w : world) : outcome world :=
  match L with
  | [] => Done w
  | (p, bs) :: r => do w1 <- update_file c bs p w; upd_list c r w1
  end.
Lemma upd_list_app c L1 L2 w : upd_list c (L1 ++ L2) w = obind (upd_list c L1 w) (upd_list c L2).
Proof. revert w. induction L1 as [|[p bs] L1 IH]; intros w; [reflexivity|]. cbn. destruct (update_file c bs p w); [apply IH|reflexivity]. Qed.

(** The strings the tool passes down *)
Fixpoint strs (p : string) (t : htree) : list (string * list Z) :=
  match t with
  | HFile bs => [(p, bs)]
  | HDir l => concat (map (fun e => strs (down p (fst e)) (snd e)) l)
  end.

Lemma update_dir_list c t : forall p w, update_dir c t p w = upd_list c (strs p t) w.
Proof.
  induction t as [bs|l IH] using htree_ind2; intros p w.
  - cbn. destruct (update_file c bs p w); reflexivity.
  - cbn [update_dir strs]. revert w. induction l as [|[f u] l IHl]; intros w; [reflexivity|]. apply Forall_cons in IH as [He IH]. cbn [map concat fst snd].
    rewrite upd_list_app, <- He. cbn [snd]. destruct (update_dir c u (down p f) w) as [w1|]; [|reflexivity]. cbn [obind]. apply IHl, IH.
Qed.

Lemma strs_files cwd t : forall p, host_ok t -> p <> "" -> Forall (fun e => fst e <> "") (strs p t) /\
  map (fun e => (normpath cwd (fst e), snd e)) (strs p t) = files (normpath cwd p) t.
Proof.
  induction t as [bs|l IH] using htree_ind2; intros p Ht Hp.
  - split; [constructor; [exact Hp|constructor]|reflexivity].
  - cbn [host_ok] in Ht. destruct Ht as (_ & Hg & Hk). apply host_ok_all in Hk. cbn [strs files].
    induction l as [|[f u] l IHl]; [split; [constructor|reflexivity]|].
    apply Forall_cons in IH as [He IH]. cbn [map] in Hg. apply Forall_cons in Hg as [Hg1 Hg]. apply Forall_cons in Hk as [Hk1 Hk]. cbn [fst snd map concat] in *.
    destruct (down_norm cwd p f Hp Hg1) as [Hd1 Hd2]. destruct (He _ Hk1 Hd1) as [F1 F2]. destruct (IHl IH Hg Hk) as [G1 G2].
    split; [apply Forall_app; auto|]. rewrite map_app, F2, G2, Hd2. reflexivity.
Qed.

Lemma removelast_prefix {A} (q : list A) : removelast q `prefix_of` q.
Proof. destruct q as [|g q _] using rev_ind; [reflexivity|]. rewrite removelast_last. eexists; reflexivity. Qed.

Lemma can_update_after w w1 q bs a ba : winv w -> canonical q -> canonical a -> apart q a -> way_dirs w1 q -> replaced (differs w q bs) w w1 ->
  can_update w a ba -> can_update w1 a ba.
Proof.
  intros Hw Hq Ha [Hap1 Hap2] V1 U [[C1 C2] C3 C4 C5 C6].
  assert (Hna : ~ differs w q bs a) by (intros [-> _]; apply Hap1; reflexivity).
  assert (Hold : forall i, resolves (w_ino w1) a i -> resolves (w_ino w) a i).
  { intros i Hi. destruct (re_new _ _ _ U _ _ Ha Hi) as [K|(q' & [-> _] & K)]; [exact K|exfalso; exact (Hap2 K)]. }
  assert (Hobj : forall i y, resolves (w_ino w1) a i -> w_ino w1 !! i = Some y -> exists x, w_ino w !! i = Some x /\ i_kind y = i_kind x /\ i_mode y = i_mode x /\ bytes w1 i = bytes w i).
  { intros i y Hi Hy. apply Hold in Hi. destruct (resolves_exists _ _ _ Hw Ha Hi) as [x Hx]. destruct (re_obj _ _ _ U _ _ _ Ha Hna Hi Hx) as (y' & Hy' & E1 & E2 & _ & E4).
    assert (y' = y) by congruence. subst y'. eauto. }
  assert (Hup : canonical (removelast a)) by exact (canonical_prefix _ _ Ha (removelast_prefix a)).
  assert (Hnup : ~ differs w q bs (removelast a)) by (intros [E _]; apply Hap1; rewrite <- E; apply removelast_prefix).
  constructor.
  - split.
    + intros i y Hi Hy. destruct (Hobj _ _ Hi Hy) as (x & Hx & E1 & _). rewrite E1. exact (C1 _ _ (Hold _ Hi) Hx).
    + apply (way_dirs_replaced _ _ _ _ Hw Ha U C2); intros p [-> _]; assumption.
  - intros i l Hi Hl. apply Hold in Hi. destruct (resolves_exists _ _ _ Hw Ha Hi) as [x Hx]. destruct (re_obj _ _ _ U _ _ _ Ha Hna Hi Hx) as (_ & _ & _ & _ & _ & E4).
    apply (C3 i); [exact Hi|congruence].
  - intros i y Hi Hy. destruct (Hobj _ _ Hi Hy) as (x & Hx & _ & E2 & _). rewrite E2. exact (C4 _ _ (Hold _ Hi) Hx).
  - intros i d y Hi Hd Hy. apply Hold in Hi. destruct (resolves_upto (w_ino w) (removelast a) (match last a with Some g => [g] | None => [] end) i) as [d0 Hd0].
    { destruct a as [|g a0 _] using rev_ind; [exact Hi|]. rewrite removelast_last, last_snoc. exact Hi. }
    assert (d0 = d) as -> by (eapply resolves_det; [exact (re_old _ _ _ U _ _ Hup Hnup Hd0)|exact Hd]).
    destruct (resolves_exists _ _ _ Hw Hup Hd0) as [y0 Hy0]. destruct (re_obj _ _ _ U _ _ _ Hup Hnup Hd0 Hy0) as (y' & Hy' & _ & E2 & _).
    assert (y' = y) by congruence. subst y'. unfold writable. rewrite E2. exact (C5 _ _ _ Hi Hd0 Hy0).
  - intros E Hno. destruct (C6 E) as [d Hd]; [intros i Hi; exact (Hno i (re_old _ _ _ U _ _ Ha Hna Hi))|]. exists d. exact (re_old _ _ _ U _ _ Hup Hnup Hd).
Qed.

Lemma upd_list_ok c cwd L : forall w, Forall (fun e => fst e <> "") L -> reach true w -> w_cwd w !! c = Some cwd ->
  let F := map (fun e => (normpath cwd (fst e), snd e)) L in
  ~ In [] (map fst F) -> ForallOrdPairs apart (map fst F) -> (forall q bs, In (q, bs) F -> can_update w q bs) -> ~ none_free (w_fds w) c 0 ->
  exists w', upd_list c L w = Done w' /\ reach true w' /\ same_procs w w' /\ (forall q bs, In (q, bs) F -> holds_file w' q bs) /\
    replaced (fun p => exists bs, In (p, bs) F /\ ~ holds_file w p bs) w w'.
Proof.
  induction L as [|[p bs] L IH]; intros w HL Hr Hc F Hne Hap Hcan Hfree.
  - exists w. split; [reflexivity|]. split; [exact Hr|]. split; [split; reflexivity|]. split; [intros ? ? []|apply replaced_refl].
  - apply Forall_cons in HL as [Hp HL]. cbn [map fst snd] in F. subst F. cbn [map fst snd] in *. set (q := normpath cwd p) in *. set (F := map _ L) in *.
    pose proof (reach_winv _ _ Hr) as Hw. inversion Hap as [|? ? Hap1 Hap2]; subst. rewrite Forall_forall in Hap1.
    assert (Hnorm : forall s, canonical (normpath cwd s)) by (intros s; apply normpath_canonical, (u_cwd _ Hw _ _ Hc)).
    assert (HF : forall a ba, In (a, ba) F -> canonical a).
    { intros a ba Ha. apply in_map_iff in Ha as ([s ?] & E & _). injection E as <- _. apply Hnorm. }
    assert (HFa : forall a ba, In (a, ba) F -> apart q a) by (intros a ba Ha; apply Hap1, elem_of_list_In, in_map_iff; exists (a, ba); auto).
    destruct (update_file_ok w c cwd p bs q Hr Hc Hp eq_refl ltac:(intros E; apply Hne; left; exact E) (Hcan q bs ltac:(left; reflexivity)) Hfree) as (w1 & E1 & R1 & [P11 P12] & H1 & V1 & U1).
    pose proof (reach_winv _ _ R1) as Hw1.
    destruct (IH w1) as (w' & E' & R' & [P'1 P'2] & H' & U').
    + exact HL.
    + exact R1.
    + rewrite P12. exact Hc.
    + intros Hin. apply Hne. right. exact Hin.
    + exact Hap2.
    + intros a ba Ha. apply (can_update_after w w1 q bs a ba Hw (Hnorm p) (HF _ _ Ha) (HFa _ _ Ha) V1 U1). apply Hcan. right. exact Ha.
    + rewrite P11. exact Hfree.
    + fold F in H', U'. exists w'. cbn [upd_list]. rewrite E1. cbn [obind]. split; [exact E'|]. split; [exact R'|]. split; [split; congruence|]. split.
      * intros a ba [E|Ha]; [injection E as <- <-|exact (H' _ _ Ha)]. apply (replaced_holds _ w1 w' q bs Hw1 (Hnorm p) U'); [|exact H1].
        intros (b' & Hin & _). destruct (HFa _ _ Hin) as [K _]. apply K. reflexivity.
      * apply (replaced_trans _ _ w1).
        -- apply (replaced_mono (differs w q bs)); [|exact U1]. intros a [-> Hd]. exists bs. split; [left; reflexivity|exact Hd].
        -- apply (fun H => replaced_mono _ _ _ _ H U'). intros a (ba & Ha & Hd). exists ba. split; [right; exact Ha|]. intros Hh. apply Hd.
           apply (replaced_holds _ w w1 a ba Hw (HF _ _ Ha) U1); [|exact Hh]. intros [-> _]. destruct (HFa _ _ Ha) as [K _]. apply K. reflexivity.
Qed.

Lemma update_dir_ok c t p w cwd : host_ok t -> p <> "" -> reach true w -> w_cwd w !! c = Some cwd ->
  ~ In [] (paths (normpath cwd p) t) -> (forall q bs, In (q, bs) (files (normpath cwd p) t) -> can_update w q bs) -> ~ none_free (w_fds w) c 0 ->
  exists w', update_dir c t p w = Done w' /\ w_fds w' = w_fds w /\ w_cwd w' = w_cwd w /\
    (forall q bs, In (q, bs) (files (normpath cwd p) t) -> holds_file w' q bs) /\
    replaced (fun q => exists bs, In (q, bs) (files (normpath cwd p) t) /\ ~ holds_file w q bs) w w'.
Proof.
  intros Ht Hp Hr Hc Hne Hcan Hfree. rewrite update_dir_list. destruct (strs_files cwd t p Ht Hp) as [F1 F2].
  destruct (upd_list_ok c cwd (strs p t) w F1 Hr Hc) as (w' & E & _ & [P1 P2] & H & U); rewrite ?F2; try assumption; [apply paths_apart; exact Ht|].
  rewrite F2 in H, U. exists w'. auto.
Qed.
