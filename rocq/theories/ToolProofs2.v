(** deltree. *)
From Verif Require Import Base CodecModel PathModel PathSpec PathProofs FsModel FsSpec FsReachSpec FsViewSpec FsAbortSpec FsView1 FsCopyModel FsCopyTree ToolModel ToolSpec ToolProofs1.
Local Open Scope list_scope.
Local Open Scope Z_scope.

Section S.
Context (c : Z).

(** ** One call *)
Lemma do_call a o k a' x : allowed a c o = true -> aborts a c o = false -> aexec a c o = (a', x) -> aprog a c (Call o k) = aprog a' c (k x).
Proof. intros H1 H2 H3. cbn [aprog]. rewrite H1, H2, H3. reflexivity. Qed.

Lemma do_stat a pr p i o k : vw_proc a !! c = Some pr -> vw_at a !! where_is (q_cwd pr) p = Some i -> vw_obj a !! i = Some o ->
  exists n s d, aprog a c (Call (Stat p) k) = aprog a c (k (RetStat i (o_mode o) n s d)).
Proof.
  intros Hp Hi Ho. eexists _, _, _. apply do_call; [unfold allowed; rewrite Hp; reflexivity|unfold aborts; rewrite Hp; reflexivity|].
  unfold aexec. rewrite Hp. cbv zeta. unfold at_path. rewrite Hi. unfold astat. rewrite Ho. reflexivity.
Qed.

(** A name that is not a directory is removed *)
Lemma do_unlink a pr p q i d : good a -> vw_proc a !! c = Some pr -> p <> "" -> where_is (q_cwd pr) p = q -> vw_at a !! q = Some i -> is_adir a i = false ->
  up_dir a q = Some d -> may_write a d = true ->
  exists a', good a' /\ without (within q) (within q) a a' /\ forall k, aprog a c (Call (Unlink p) k) = aprog a' c (k (Ret 0)).
Proof.
  intros Hg Hp Hne <- Hi Hd Hu Hw. set (q := where_is (q_cwd pr) p) in *.
  assert (E1 : allowed a c (Unlink p) = true) by (unfold allowed; rewrite Hp; fold q; rewrite Hu; exact Hw).
  assert (E2 : aborts a c (Unlink p) = false) by (unfold aborts; rewrite Hp; reflexivity).
  assert (E3 : aexec a c (Unlink p) = (with_at (delete q) (with_obj (alter (more_links (-1)) d) (with_obj (alter (more_links (-1)) i) a)), Ret 0)).
  { unfold aexec. rewrite Hp. cbv zeta. apply String.eqb_neq in Hne. rewrite Hne. fold q. unfold aunlink. rewrite Hi, Hd, Hu. reflexivity. }
  eexists. split; [exact (good_step _ _ _ _ _ Hg E1 E2 E3)|]. split; [|exact (fun k => do_call _ _ k _ _ E1 E2 E3)].
  apply relinked_without; try reflexivity.
  - intros j. change (vw_obj (with_at (delete q) ?x)) with (vw_obj x). apply (relinked_alter a). apply (relinked_alter a). intros j'. reflexivity.
  - intros p' j. change (vw_at (with_at (delete q) (with_obj ?f (with_obj ?g a)))) with (delete q (vw_at a)). unfold within. rewrite lookup_delete_Some. split.
    + intros [Hn Hj]. split; [exact Hj|]. intros [r ->]. destruct (good_down _ _ _ _ Hg Hj) as (i' & Hi' & Hd'). assert (i' = i) by congruence. subst i'.
      rewrite Hd' in Hd; [discriminate Hd|]. intros ->. apply Hn. rewrite app_nil_r. reflexivity.
    + intros [Hj Hn]. split; [intros <-; apply Hn; reflexivity|exact Hj].
Qed.

Lemma do_chmod a pr p q i o : good a -> vw_proc a !! c = Some pr -> where_is (q_cwd pr) p = q -> vw_at a !! q = Some i -> vw_obj a !! i = Some o -> is_adir a i = true ->
  exists a', good a' /\ without (fun _ => False) (within q) a a' /\ may_write a' i = true /\ forall k, aprog a c (Call (Chmod p S_IRWXA) k) = aprog a' c (k (Ret 0)).
Proof.
  intros Hg Hp <- Hi Ho Hd. set (q := where_is (q_cwd pr) p) in *.
  assert (E1 : allowed a c (Chmod p S_IRWXA) = true) by (unfold allowed; rewrite Hp; reflexivity).
  assert (E2 : aborts a c (Chmod p S_IRWXA) = false) by (unfold aborts; rewrite Hp; reflexivity).
  assert (E3 : aexec a c (Chmod p S_IRWXA) = (with_obj (alter (new_mode 511) i) a, Ret 0)).
  { unfold aexec. rewrite Hp. cbv zeta. fold q. unfold at_path. rewrite Hi. reflexivity. }
  eexists. split; [exact (good_step _ _ _ _ _ Hg E1 E2 E3)|].
  assert (Hl : forall j, j <> i -> vw_obj (with_obj (alter (new_mode 511) i) a) !! j = vw_obj a !! j) by (intros j Hj; apply lookup_alter_ne; congruence).
  assert (Hl2 : vw_obj (with_obj (alter (new_mode 511) i) a) !! i = Some (new_mode 511 o)) by (cbn [with_obj vw_obj]; rewrite lookup_alter, Ho; reflexivity).
  split; [|split; [|exact (fun k => do_call _ _ k _ _ E1 E2 E3)]].
  - constructor; try reflexivity.
    + intros p' j. cbn. tauto.
    + intros j. unfold kind_of. destruct (decide (j = i)) as [->|Hne]; [rewrite Hl2, Ho|rewrite Hl by assumption]; reflexivity.
    + intros j. destruct (decide (j = i)) as [->|Hne]; [right; split; [exact Hd|exists q; split; [reflexivity|exact Hi]]|left; rewrite Hl by assumption; reflexivity].
    + intros j. destruct (decide (j = i)) as [->|Hne]; [rewrite Hl2, Ho|rewrite Hl by assumption; reflexivity]. cbn. f_equal. unfold says_dir. f_equal.
      apply Z.bits_inj_iff. intros b. rewrite !Z.land_spec, Z.lor_spec, Z.ldiff_spec. destruct (Z.testbit 61440 b) eqn:Eb; [|rewrite !andb_false_r; reflexivity].
      assert (E5 : Z.testbit 511 b = false).
      { destruct (Z.testbit 511 b) eqn:E5; [|reflexivity]. exfalso. assert (K : Z.testbit (Z.land 511 61440) b = true) by (rewrite Z.land_spec, Eb, E5; reflexivity).
        change (Z.land 511 61440) with 0 in K. rewrite Z.bits_0 in K. discriminate K. }
      rewrite E5. cbn. rewrite orb_false_r, andb_true_r. reflexivity.
  - unfold may_write. rewrite Hl2. cbn [new_mode o_mode]. destruct (Z.eqb_spec (Z.land (Z.lor (Z.ldiff (o_mode o) 511) 511) 146) 0) as [E|]; [|reflexivity].
    exfalso. assert (K : Z.testbit (Z.land (Z.lor (Z.ldiff (o_mode o) 511) 511) 146) 1 = false) by (rewrite E; reflexivity).
    rewrite Z.land_spec, Z.lor_spec in K. rewrite orb_true_r in K. discriminate K.
Qed.

Lemma do_rmdir a pr p q i o d : good a -> vw_proc a !! c = Some pr -> p <> "" -> where_is (q_cwd pr) p = q -> vw_at a !! q = Some i -> vw_obj a !! i = Some o ->
  is_adir a i = true -> up_dir a q = Some d -> may_write a d = true -> may_write a i = true -> says_dir (o_mode o) = true -> (forall p' j, vw_at a !! p' = Some j -> ~ below q p') ->
  exists a', good a' /\ without (within q) (within q) a a' /\ forall k, aprog a c (Call (Rmdir p) k) = aprog a' c (k (Ret 0)).
Proof.
  intros Hg Hp Hne <- Hi Ho Hd Hu Hw Hwi Hsd Hb. set (q := where_is (q_cwd pr) p) in *.
  assert (Hnb : none_below a q = true).
  { unfold none_below. apply bool_decide_eq_true. intros p' j Hj. destruct p' as [|f p' _] using rev_ind; [left; reflexivity|right]. rewrite removelast_last. intros ->.
    apply (Hb _ _ Hj). split; [exists [f]; reflexivity|]. intros E. rewrite <- (app_nil_r q) in E at 1. apply app_inv_head in E. discriminate E. }
  assert (E1 : allowed a c (Rmdir p) = true) by (unfold allowed; rewrite Hp; reflexivity).
  assert (E2 : aborts a c (Rmdir p) = false).
  { unfold aborts. rewrite Hp. cbv zeta. fold q. apply String.eqb_neq in Hne. rewrite Hne, Hi, Hu, Hw, Ho, Hd, Hsd. cbn [negb andb]. apply andb_false_r. }
  assert (E3 : aexec a c (Rmdir p) = (with_at (delete q) (with_obj (alter (more_links (-1)) d) a), Ret 0)).
  { unfold aexec. rewrite Hp. cbv zeta. apply String.eqb_neq in Hne. rewrite Hne. fold q. unfold armdir. rewrite Hi, Hu, Hw, Hd, Hnb, Hwi. reflexivity. }
  eexists. split; [exact (good_step _ _ _ _ _ Hg E1 E2 E3)|]. split; [|exact (fun k => do_call _ _ k _ _ E1 E2 E3)].
  apply relinked_without; try reflexivity.
  - intros j. change (vw_obj (with_at (delete q) ?x)) with (vw_obj x). apply (relinked_alter a). intros j'. reflexivity.
  - intros p' j. change (vw_at (with_at (delete q) (with_obj ?f a))) with (delete q (vw_at a)). unfold within. rewrite lookup_delete_Some. split.
    + intros [Hn Hj]. split; [exact Hj|]. intros Hpre. apply (Hb _ _ Hj). split; [exact Hpre|exact Hn].
    + intros [Hj Hn]. split; [intros <-; apply Hn; reflexivity|exact Hj].
Qed.

Lemma do_rmroot a pr p i k : good a -> vw_proc a !! c = Some pr -> p <> "" -> where_is (q_cwd pr) p = [] -> vw_at a !! [] = Some i ->
  aprog a c (Call (Rmdir p) k) = aprog a c (k (Ret (err EBUSY))).
Proof.
  intros Hg Hp Hne Hq Hi. apply String.eqb_neq in Hne. apply do_call; [unfold allowed; rewrite Hp; reflexivity| |].
  - unfold aborts. rewrite Hp. cbv zeta. rewrite Hq, Hi. cbn [up_dir]. apply andb_false_r.
  - unfold aexec. rewrite Hp. cbv zeta. rewrite Hne, Hq. unfold armdir. rewrite Hi. reflexivity.
Qed.

(** ** Descriptors *)
(** [a] with the descriptor [fd] of process [c], which was free, on [i] *)
Definition opened (a : view) (pr : aproc) (fd i pos : Z) : view :=
  with_proc (insert c (AProc (q_cwd pr) (<[fd := DFile i pos 0]> (q_tab pr)))) a.

Lemma opened_proc a pr fd i pos : vw_proc (opened a pr fd i pos) !! c = Some (AProc (q_cwd pr) (<[fd := DFile i pos 0]> (q_tab pr))).
Proof. apply lookup_insert. Qed.

Lemma do_open a pr p q i : good a -> vw_proc a !! c = Some pr -> p <> "" -> where_is (q_cwd pr) p = q -> vw_at a !! q = Some i ->
  Z.of_nat (size (q_tab pr)) < 1024 ->
  exists fd, q_tab pr !! fd = None /\ 0 <= fd < 1024 /\ good (opened a pr fd i 0) /\ forall k, aprog a c (Call (Open p O_RDONLY 0) k) = aprog (opened a pr fd i 0) c (k (Ret fd)).
Proof.
  intros Hg Hp Hne Hq Hi Hsz. destruct (lowest (q_tab pr) 0) as [fd|] eqn:El; [|apply lowest_none in El; lia].
  pose proof (lowest_some _ _ El) as [Hn Hfd]. exists fd. split; [exact Hn|]. split; [exact Hfd|].
  assert (E1 : allowed a c (Open p O_RDONLY 0) = true) by (unfold allowed; rewrite Hp; reflexivity).
  assert (E2 : aborts a c (Open p O_RDONLY 0) = false) by (unfold aborts; rewrite Hp; reflexivity).
  assert (E3 : aexec a c (Open p O_RDONLY 0) = (opened a pr fd i 0, Ret fd)).
  { unfold aexec. rewrite Hp. cbv zeta. unfold aopen. apply String.eqb_neq in Hne. rewrite Hne, El. cbv zeta. rewrite Hq, Hi.
    change (Z.land O_RDONLY 192 =? 192) with false. change (Z.land O_RDONLY 512 =? 512) with false. cbv iota.
    change (hasbit O_RDONLY O_APPEND) with false. cbv iota. unfold give. rewrite (retab_eq _ _ _ _ Hp). reflexivity. }
  split; [exact (good_step _ _ _ _ _ Hg E1 E2 E3)|exact (fun k => do_call _ _ k _ _ E1 E2 E3)].
Qed.

Lemma do_getdents a pr fd q i pos k : good (opened a pr fd i pos) -> vw_at a !! q = Some i -> is_adir a i = true ->
  let m := listing a q i in
  let r := records (drop (Z.to_nat pos) (map_to_list m)) 0 65536 in
  let pos' := Z.min (pos + zlen (fst r)) (Z.of_nat (size m)) in
  good (opened a pr fd i pos') /\
  aprog (opened a pr fd i pos) c (Call (Getdents fd 65536) k) = aprog (opened a pr fd i pos') c (k (RetDents (to_i32 (snd r)) (fst r))).
Proof.
  intros Hg Hi Hd m r pos'. set (b := opened a pr fd i pos) in *. pose proof (opened_proc a pr fd i pos) as Hp. fold b in Hp.
  assert (Hpo : path_of b i = Some q) by (apply (good_path b q i Hg); [exact Hi|exact Hd]).
  assert (E1 : allowed b c (Getdents fd 65536) = true).
  { unfold allowed. rewrite Hp. cbn [q_tab]. rewrite lookup_insert, Hpo. apply orb_true_r. }
  assert (E2 : aborts b c (Getdents fd 65536) = false) by (unfold aborts; rewrite Hp; reflexivity).
  assert (E3 : aexec b c (Getdents fd 65536) = (opened a pr fd i pos', RetDents (to_i32 (snd r)) (fst r))).
  { unfold aexec. rewrite Hp. cbv zeta. change (65536 <=? 18) with false. cbv iota. unfold on_fd. cbn [q_tab]. rewrite lookup_insert. unfold agetdents.
    change (is_adir b i) with (is_adir a i). rewrite Hd, Hpo. cbv zeta. change (listing b q i) with m. subst pos' r.
    destruct (records (drop (Z.to_nat pos) (map_to_list m)) 0 65536) as [l n]. cbn [fst snd]. f_equal. unfold give. rewrite (retab_eq _ _ _ _ Hp). cbn [q_tab q_cwd].
    unfold b, opened, with_proc. cbn [vw_proc vw_at vw_obj vw_next vw_pipe]. rewrite !insert_insert. reflexivity. }
  split; [exact (good_step _ _ _ _ _ Hg E1 E2 E3)|exact (do_call _ _ _ _ _ E1 E2 E3)].
Qed.

Lemma do_close a pr fd i pos k : good (opened a pr fd i pos) -> vw_proc a !! c = Some pr -> q_tab pr !! fd = None -> 0 <= fd < 1024 ->
  good a /\ aprog (opened a pr fd i pos) c (Call (Close fd) k) = aprog a c (k (Ret 0)).
Proof.
  intros Hg Hp Hn Hfd. set (b := opened a pr fd i pos) in *. pose proof (opened_proc a pr fd i pos) as Hpb. fold b in Hpb.
  assert (E1 : allowed b c (Close fd) = true) by (unfold allowed; rewrite Hpb; reflexivity).
  assert (E2 : aborts b c (Close fd) = false).
  { unfold aborts. rewrite Hpb. cbv zeta. unfold bad_fd. destruct (Z.ltb_spec fd 0); [lia|]. destruct (Z.leb_spec 1024 fd); [lia|]. reflexivity. }
  assert (E3 : aexec b c (Close fd) = (a, Ret 0)).
  { unfold aexec. rewrite Hpb. cbv zeta. unfold on_fd. cbn [q_tab]. rewrite lookup_insert. unfold yes. f_equal. rewrite (retab_eq _ _ _ _ Hpb). cbn [q_tab q_cwd].
    unfold b, opened, with_proc. cbn [vw_proc vw_at vw_obj vw_next vw_pipe]. rewrite insert_insert, delete_insert by exact Hn.
    replace (AProc (q_cwd pr) (q_tab pr)) with pr by (destruct pr; reflexivity). rewrite insert_id by exact Hp. destruct a; reflexivity. }
  split; [exact (good_step _ _ _ _ _ Hg E1 E2 E3)|exact (do_call _ _ _ _ _ E1 E2 E3)].
Qed.

(** ** Records *)
Lemma record_pos f : 0 < record_len f.
Proof. unfold record_len. assert (3 <= (18 + Z.of_nat (String.length f) + 2 + 7) / 8) by (apply Z.div_le_lower_bound; lia). lia. Qed.
Definition sum_len (l : list (string * Z)) : Z := foldr Z.add 0 ((fun e : string * Z => record_len (fst e)) <$> l).
Lemma sum_nonneg l : 0 <= sum_len l.
Proof. unfold sum_len. induction l as [|e l IH]; cbn; [lia|]. pose proof (record_pos (fst e)). lia. Qed.
Lemma records_all l : forall u n, u + sum_len l <= n -> records l u n = (l, u + sum_len l).
Proof.
  induction l as [|e l IH]; intros u n H; cbn [records].
  - unfold sum_len. cbn. f_equal. lia.
  - change (sum_len (e :: l)) with (record_len (fst e) + sum_len l) in *. pose proof (sum_nonneg l). destruct (Z.ltb_spec n (u + record_len (fst e))); [lia|].
    rewrite IH by lia. f_equal. lia.
Qed.
Lemma small_i32 n : 0 <= n <= 65536 -> to_i32 n = n.
Proof. intros H. unfold to_i32, wrap_u. rewrite Z.mod_small by lia. cbv zeta. destruct (Z.ltb_spec n (2 ^ 31)); lia. Qed.


(** ** Ready trees *)
Definition ready (a : view) (pr : aproc) (q : list string) (m : nat) : Prop := tool_ok a pr q /\ small_dirs a q /\ shallow a q m.

Lemma snoc_not_within (q : list string) f : ~ within (q ++ [f]) q.
Proof. intros [r H]. apply (f_equal length) in H. rewrite !app_length in H. cbn in H. lia. Qed.
Lemma snoc_other (q : list string) f g p : within (q ++ [f]) p -> within (q ++ [g]) p -> f = g.
Proof. intros [r ->] [s H]. rewrite <- !app_assoc in H. apply app_inv_head in H. cbn in H. congruence. Qed.
Lemma within_below (q : list string) f p : within (q ++ [f]) p -> below q p.
Proof.
  intros H. split; [destruct H as [r ->]; rewrite <- app_assoc; eexists; reflexivity|]. intros <-. exact (snoc_not_within _ _ H).
Qed.
Lemma below_within (q p : list string) : below q p -> exists f, within (q ++ [f]) p.
Proof.
  intros [[r ->] Hne]. destruct r as [|f r]; [rewrite app_nil_r in Hne; congruence|]. exists f. exists r. rewrite <- app_assoc. reflexivity.
Qed.
Lemma below_trans (q : list string) f p : below (q ++ [f]) p -> below q p.
Proof. intros [H _]. exact (within_below _ _ _ H). Qed.
Lemma within_removelast (q p : list string) : within q p -> p = q \/ within q (removelast p).
Proof.
  intros [r ->]. destruct r as [|f r _] using rev_ind; [left; rewrite app_nil_r; reflexivity|right]. rewrite app_assoc, removelast_last. eexists; reflexivity.
Qed.

Lemma ready_without a a' pr q f g m Q D : without Q D a a' -> (forall p, Q p -> within (q ++ [f]) p) -> f <> g -> ready a pr (q ++ [g]) m -> ready a' pr (q ++ [g]) m.
Proof.
  intros W HQ Hfg ([Hm Hd] & Hs & Hsh).
  assert (Hat : forall p, within (q ++ [g]) p -> vw_at a' !! p = vw_at a !! p).
  { intros p Hp. apply (without_same _ _ _ _ _ W). intros HQp. apply Hfg. exact (snoc_other _ _ _ _ (HQ _ HQp) Hp). }
  split; [constructor|split].
  - intros p i Hi Hp. rewrite Hat in Hi by exact Hp. apply (truth_same a); [exact (wo_kind _ _ _ _ W i)|exact (wo_type _ _ _ _ W i)|eauto].
  - intros p i Hi Hp Hdir. rewrite Hat in Hi by exact Hp. rewrite (without_dir _ _ _ _ _ W) in Hdir. eauto.
  - intros p i Hi Hp Hdir. rewrite Hat in Hi by exact Hp. rewrite (without_dir _ _ _ _ _ W) in Hdir.
    rewrite (listing_ext a a'); [eauto| |].
    + intros h. apply Hat. destruct Hp as [r ->]. exists (r ++ [h]). rewrite app_assoc. reflexivity.
    + destruct (within_removelast _ _ Hp) as [->|Hr]; [|apply Hat; exact Hr]. rewrite removelast_last. apply (without_same _ _ _ _ _ W).
      intros HQp. exact (snoc_not_within _ _ (HQ _ HQp)).
  - intros p i Hi Hp. rewrite Hat in Hi by exact Hp. eauto.
Qed.

(** What is below a child is ready one level less *)
Lemma ready_child a pr pr' q f j m : vw_at a !! (q ++ [f]) = Some j -> ready a pr q m -> (size (q_tab pr') <= S (size (q_tab pr)))%nat ->
  ready a pr' (q ++ [f]) (m - 1).
Proof.
  intros Hj ([Hm Hd] & Hs & Hsh) Hsz.
  assert (K : forall p, within (q ++ [f]) p -> within q p) by (intros p Hp; exact (proj1 (within_below _ _ _ Hp))).
  assert (L : forall p, within (q ++ [f]) p -> (length q + 1 <= length p)%nat) by (intros p [r ->]; rewrite !app_length; cbn; lia).
  split; [constructor|split].
  - intros p i Hi Hp. eauto.
  - intros p i Hi Hp Hdir. pose proof (Hd p i Hi (K _ Hp) Hdir). pose proof (L _ Hp). rewrite app_length. cbn [length]. lia.
  - intros p i Hi Hp Hdir. eauto.
  - intros p i Hi Hp. pose proof (Hsh p i Hi (K _ Hp)). pose proof (L _ Hp). rewrite app_length. cbn [length]. lia.
Qed.

(** ** The children *)
Definition del_visitor (n : nat) : string -> bool -> prog -> prog :=
  fun child isdir k => if isdir then deltree n child k else Call (Unlink child) (fun _ => k).

(** What a correct run of [deltree n] on a non-root name does *)
Definition deletes (n : nat) : Prop :=
  forall q path a pr m i d, good a -> vw_proc a !! c = Some pr -> path <> "" -> where_is (q_cwd pr) path = q -> vw_at a !! q = Some i ->
  up_dir a q = Some d -> may_write a d = true -> ready a pr q m -> (m + 2 <= n)%nat ->
  exists a', without (within q) (within q) a a' /\ good a' /\ forall k, aprog a c (deltree n path k) = aprog a' c k.

Definition named (l : list (string * Z)) (f : string) : Prop := f <> "." /\ f <> ".." /\ f ∈ l.*1.

Lemma delete_children n (IH : deletes n) q path pr i m : path <> "" -> where_is (q_cwd pr) path = q -> (m + 2 <= n)%nat -> forall l a,
  good a -> vw_proc a !! c = Some pr -> vw_at a !! q = Some i -> is_adir a i = true -> may_write a i = true -> NoDup (l.*1) ->
  (forall f, named l f -> exists j, vw_at a !! (q ++ [f]) = Some j) -> (forall f, named l f -> ready a pr (q ++ [f]) m) ->
  exists a', without (fun p => exists f, named l f /\ within (q ++ [f]) p) (below q) a a' /\ good a' /\
    forall k, aprog a c (entries path (del_visitor n) l k) = aprog a' c k.
Proof.
  intros Hne Hq Hmn l. induction l as [|[f x] r IHl]; intros a Hg Hp Hi Hd Hw Hnd Hl Hrd.
  - exists a. split; [|split; [exact Hg|reflexivity]]. eapply without_weaken; [apply (without_refl (below q))| |tauto].
    intros p _. split; [tauto|]. intros (f & (_ & _ & Hf) & _). apply elem_of_nil in Hf. exact Hf.
  - cbn [fmap list_fmap fst] in Hnd. apply NoDup_cons in Hnd as [Hfr Hnd].
    assert (Hsub : forall g, named r g -> named ((f, x) :: r) g) by (intros g (N1 & N2 & N3); split; [exact N1|split; [exact N2|right; exact N3]]).
    cbn [entries]. destruct (String.eqb f "." || String.eqb f "..") eqn:Edot.
    + destruct (IHl a Hg Hp Hi Hd Hw Hnd) as (a' & W & Hg' & E); [eauto|eauto|]. exists a'. split; [|split; [exact Hg'|exact E]].
      eapply without_weaken; [exact W| |tauto]. intros p _. split; intros (g & Hgn & Hgp); exists g; (split; [|exact Hgp]); [eauto|].
      destruct Hgn as (N1 & N2 & N3). split; [exact N1|split; [exact N2|]]. cbn [fmap list_fmap fst] in N3. apply elem_of_cons in N3 as [->|N3]; [|exact N3].
      exfalso. apply orb_true_iff in Edot as [E1|E1]; apply String.eqb_eq in E1; congruence.
    + apply orb_false_iff in Edot as [E1 E2]. apply String.eqb_neq in E1, E2.
      assert (Hf : named ((f, x) :: r) f) by (split; [exact E1|split; [exact E2|left]]).
      destruct (Hl f Hf) as [j Hj]. destruct (good_at _ _ _ Hg Hj) as [Hcan [o Ho]].
      assert (Hgn : good_name f) by (apply Forall_app in Hcan as [_ Hcan]; exact (proj1 (Forall_singleton _ _) Hcan)).
      destruct (down_norm (q_cwd pr) path f Hne Hgn) as [Hne' Hq']. rewrite <- !where_is_eq, Hq in Hq'.
      assert (Hup : up_dir a (q ++ [f]) = Some i).
      { unfold up_dir. destruct (q ++ [f]) eqn:Eq; [destruct q; discriminate Eq|]. rewrite <- Eq, removelast_last, Hi, Hd. reflexivity. }
      assert (Hstep : exists a1, without (within (q ++ [f])) (within (q ++ [f])) a a1 /\ good a1 /\ forall k,
                aprog a c (Call (Stat (down path f)) (fun y => del_visitor n (down path f) (match y with RetStat _ md _ _ _ => is_dir md | _ => false end) k)) = aprog a1 c k).
      { pose proof (ok_mode _ _ _ (proj1 (Hrd f Hf)) _ _ Hj (reflexivity _)) as Ht. unfold says_truth in Ht. rewrite Ho in Ht.
        destruct (is_adir a j) eqn:Edj.
        - destruct (IH (q ++ [f]) (down path f) a pr m j i Hg Hp Hne' Hq' Hj Hup Hw (Hrd f Hf) Hmn) as (a1 & W & Hg1 & E).
          exists a1. split; [exact W|]. split; [exact Hg1|]. intros k.
          destruct (do_stat a pr (down path f) j o (fun y => del_visitor n (down path f) (match y with RetStat _ md _ _ _ => is_dir md | _ => false end) k) Hp) as (n0 & s0 & d0 & Es);
            [rewrite Hq'; exact Hj|exact Ho|]. rewrite Es. change (is_dir (o_mode o)) with (says_dir (o_mode o)). rewrite Ht. cbn [del_visitor]. apply E.
        - destruct (do_unlink a pr (down path f) (q ++ [f]) j i Hg Hp Hne' Hq' Hj Edj Hup Hw) as (a1 & Hg1 & W & E).
          exists a1. split; [exact W|]. split; [exact Hg1|]. intros k.
          destruct (do_stat a pr (down path f) j o (fun y => del_visitor n (down path f) (match y with RetStat _ md _ _ _ => is_dir md | _ => false end) k) Hp) as (n0 & s0 & d0 & Es);
            [rewrite Hq'; exact Hj|exact Ho|]. rewrite Es. change (is_dir (o_mode o)) with (says_dir (o_mode o)). rewrite Ht. cbn [del_visitor]. apply E. }
      destruct Hstep as (a1 & W1 & Hg1 & E3).
      destruct (IHl a1 Hg1) as (a' & W & Hg' & E).
      * rewrite (wo_proc _ _ _ _ W1). exact Hp.
      * rewrite (without_same _ _ _ _ _ W1); [exact Hi|apply snoc_not_within].
      * rewrite (without_dir _ _ _ _ _ W1). exact Hd.
      * rewrite (may_write_mode a); [exact Hw|]. destruct (wo_mode _ _ _ _ W1 i) as [Hm|(_ & p & Hpw & Hpi)]; [exact Hm|].
        exfalso. assert (p = q) by (exact (good_dir _ _ _ _ Hg Hpi Hi Hd)). subst p. exact (snoc_not_within _ _ Hpw).
      * exact Hnd.
      * intros g Hgn'. destruct (Hl g (Hsub g Hgn')) as [j' Hj']. exists j'. rewrite (without_same _ _ _ _ _ W1); [exact Hj'|].
        intros Hww. assert (f = g) by (exact (snoc_other _ _ _ _ Hww (reflexivity _))). subst g. apply Hfr. apply Hgn'.
      * intros g Hgn'. apply (ready_without a a1 pr q f g m _ _ W1); [auto| |eauto]. intros ->. apply Hfr. apply Hgn'.
      * exists a'. split; [|split; [exact Hg'|]].
        -- eapply without_weaken; [exact (without_trans _ _ _ _ _ _ _ W1 W)| |].
           ++ intros p _. cbv beta. split.
              ** intros [Hpw|(g & Hgn' & Hgp)]; [exists f; auto|exists g; auto].
              ** intros (g & (N1 & N2 & N3) & Hgp). cbn [fmap list_fmap fst] in N3. apply elem_of_cons in N3 as [->|N3]; [left; exact Hgp|right; exists g; repeat split; assumption].
           ++ intros p [Hpw|Hpw]; [exact (within_below _ _ _ Hpw)|exact Hpw].
        -- intros k. rewrite <- E. apply E3.
Qed.

(** ** A directory is emptied *)
Lemma ready_same a a' pr q m D : without (fun _ => False) D a a' -> ready a pr q m -> ready a' pr q m.
Proof.
  intros W ([Hm Hd] & Hs & Hsh).
  assert (Hat : forall p, vw_at a' !! p = vw_at a !! p) by (intros p; apply (without_same _ _ _ _ _ W); tauto).
  split; [constructor|split].
  - intros p i Hi Hp. rewrite Hat in Hi. apply (truth_same a); [exact (wo_kind _ _ _ _ W i)|exact (wo_type _ _ _ _ W i)|eauto].
  - intros p i Hi Hp Hdir. rewrite Hat in Hi. rewrite (without_dir _ _ _ _ _ W) in Hdir. eauto.
  - intros p i Hi Hp Hdir. rewrite Hat in Hi. rewrite (without_dir _ _ _ _ _ W) in Hdir. rewrite (listing_ext a a'); eauto.
  - intros p i Hi Hp. rewrite Hat in Hi. eauto.
Qed.

Lemma listing_named a q i f : named (map_to_list (listing a q i)) f <-> f <> "." /\ f <> ".." /\ is_Some (vw_at a !! (q ++ [f])).
Proof.
  unfold named. split; intros (N1 & N2 & H); (split; [exact N1|split; [exact N2|]]).
  - apply elem_of_list_fmap in H as ([g x] & -> & H). apply elem_of_map_to_list in H. rewrite listing_look in H. cbn [fst] in *.
    apply String.eqb_neq in N1, N2. rewrite N1, N2 in H. eauto.
  - destruct H as [x H]. apply elem_of_list_fmap. exists (f, x). split; [reflexivity|]. apply elem_of_map_to_list. rewrite listing_look.
    apply String.eqb_neq in N1, N2. rewrite N1, N2. exact H.
Qed.
Lemma zlen_listing (m : gmap string Z) : zlen (map_to_list m) = Z.of_nat (size m).
Proof. unfold zlen. f_equal. Qed.
Lemma total_pos a q i : 0 < sum_len (map_to_list (listing a q i)).
Proof.
  assert (H : (".", i) ∈ map_to_list (listing a q i)) by (apply elem_of_map_to_list; rewrite listing_look; reflexivity).
  destruct (map_to_list (listing a q i)) as [|e l]; [apply elem_of_nil in H; destruct H|]. change (sum_len (e :: l)) with (record_len (fst e) + sum_len l).
  pose proof (record_pos (fst e)). pose proof (sum_nonneg l). lia.
Qed.
Lemma fewer a a' q i : (forall f x, vw_at a' !! (q ++ [f]) = Some x -> is_Some (vw_at a !! (q ++ [f]))) -> (size (listing a' q i) <= size (listing a q i))%nat.
Proof.
  intros H. rewrite <- !(size_dom (D := gset string)). apply subseteq_size. intros f Hf. apply elem_of_dom in Hf as [x Hf]. apply elem_of_dom.
  rewrite listing_look in Hf |- *. destruct (String.eqb f "."); [eauto|]. destruct (String.eqb f ".."); [eauto|]. eauto.
Qed.

Lemma empties n (IH : deletes n) q path a pr m i o : good a -> vw_proc a !! c = Some pr -> path <> "" -> where_is (q_cwd pr) path = q -> vw_at a !! q = Some i ->
  vw_obj a !! i = Some o -> is_adir a i = true -> ready a pr q m -> (m + 1 <= n)%nat ->
  exists a', without (below q) (within q) a a' /\ good a' /\ may_write a' i = true /\
    forall k, aprog a c (Call (Chmod path S_IRWXA) (fun _ => visit n path (del_visitor n) k)) = aprog a' c k.
Proof.
  intros Hg Hp Hne Hq Hi Ho Hd Hrd Hmn.
  assert (Hm1 : (1 <= m)%nat) by (pose proof (proj2 (proj2 Hrd) q i Hi (reflexivity _)); lia).
  destruct (do_chmod a pr path q i o Hg Hp Hq Hi Ho Hd) as (a1 & Hg1 & W1 & Hw1 & E1).
  pose proof (ready_same _ _ _ _ _ _ W1 Hrd) as Hrd1.
  assert (Hp1 : vw_proc a1 !! c = Some pr) by (rewrite (wo_proc _ _ _ _ W1); exact Hp).
  assert (Hi1 : vw_at a1 !! q = Some i) by (rewrite (without_same _ _ _ _ _ W1); [exact Hi|tauto]).
  assert (Hd1 : is_adir a1 i = true) by (rewrite (without_dir _ _ _ _ _ W1); exact Hd).
  assert (Hsz : Z.of_nat (size (q_tab pr)) < 1024) by (pose proof (ok_deep _ _ _ (proj1 Hrd1) q i Hi1 (reflexivity _) Hd1); lia).
  destruct (do_open a1 pr path q i Hg1 Hp1 Hne Hq Hi1 Hsz) as (fd & Hfn & Hfd & Hg2 & E2).
  set (l := map_to_list (listing a1 q i)).
  assert (Hrec : records (drop (Z.to_nat 0) l) 0 65536 = (l, sum_len l)).
  { change (drop (Z.to_nat 0) l) with l. rewrite records_all; [reflexivity|]. exact (proj1 (proj2 Hrd1) q i Hi1 (reflexivity _) Hd1). }
  assert (Hsum : to_i32 (sum_len l) = sum_len l) by (apply small_i32; split; [apply sum_nonneg|exact (proj1 (proj2 Hrd1) q i Hi1 (reflexivity _) Hd1)]).
  pose proof (total_pos a1 q i) as Hpos. fold l in Hpos.
  set (pos := Z.of_nat (size (listing a1 q i))).
  set (a3 := opened a1 pr fd i pos).
  assert (Hgd : good a3 /\ forall k, aprog (opened a1 pr fd i 0) c (Call (Getdents fd 65536) k) = aprog a3 c (k (RetDents (sum_len l) l))).
  { assert (K : forall k, good a3 /\ aprog (opened a1 pr fd i 0) c (Call (Getdents fd 65536) k) = aprog a3 c (k (RetDents (sum_len l) l))).
    { intros k. pose proof (do_getdents a1 pr fd q i 0 k Hg2 Hi1 Hd1) as G. cbv zeta in G. fold l in G. rewrite Hrec in G. cbn [fst snd] in G. rewrite Hsum in G.
      replace (Z.min (0 + zlen l) (Z.of_nat (size (listing a1 q i)))) with pos in G by (unfold l; rewrite zlen_listing; unfold pos; lia).
      exact G. }
    split; [exact (proj1 (K (fun _ => Stop)))|intros k; exact (proj2 (K k))]. }
  destruct Hgd as [Hg3 E3].
  set (pr3 := AProc (q_cwd pr) (<[fd := DFile i pos 0]> (q_tab pr))).
  assert (Hp3 : vw_proc a3 !! c = Some pr3) by apply opened_proc.
  destruct (delete_children n IH q path pr3 i (m - 1) Hne Hq ltac:(lia) l a3 Hg3 Hp3 Hi1 Hd1 Hw1) as (a4 & W4 & Hg4 & E4).
  { apply NoDup_fst_map_to_list. }
  { intros f Hf. apply listing_named in Hf as (_ & _ & [j Hj]). exists j. exact Hj. }
  { intros f Hf. apply listing_named in Hf as (_ & _ & [j Hj]). assert (R : ready a1 pr3 (q ++ [f]) (m - 1)).
    { apply (ready_child a1 pr pr3 q f j m Hj Hrd1). unfold pr3. cbn [q_tab]. rewrite map_size_insert_None by exact Hfn. lia. }
    destruct R as ([X1 X2] & X3 & X4). split; [constructor; [exact X1|exact X2]|split; [exact X3|exact X4]]. }
  set (a5 := with_proc (fun _ => vw_proc a1) a4).
  assert (Ha4 : a4 = opened a5 pr fd i pos).
  { unfold opened, a5, with_proc. cbn [vw_proc]. pose proof (wo_proc _ _ _ _ W4) as E. change (vw_proc a3) with (<[c := pr3]> (vw_proc a1)) in E. destruct a4. cbn in E |- *. rewrite E. reflexivity. }
  assert (W5 : without (below q) (below q) a1 a5).
  { assert (W : without (fun p => exists f, named l f /\ within (q ++ [f]) p) (below q) a1 a5) by (destruct W4 as [A K M T N P I]; constructor; try assumption; reflexivity).
    eapply without_weaken; [exact W| |tauto]. intros p [j Hj]. split.
    - intros (f & _ & H). exact (within_below _ _ _ H).
    - intros H. destruct (below_within _ _ H) as [f Hf]. exists f. split; [|exact Hf]. apply listing_named.
      destruct Hf as [r ->]. destruct (good_down _ _ _ _ Hg1 Hj) as (j' & Hj' & _). pose proof (proj1 (good_at _ _ _ Hg1 Hj')) as Hcan.
      apply Forall_app in Hcan as [_ Hcan]. apply Forall_cons in Hcan as [(_ & H1 & H2 & _) _]. split; [exact H1|split; [exact H2|eauto]]. }
  assert (Hi5 : vw_at a5 !! q = Some i) by (rewrite (without_same _ _ _ _ _ W5); [exact Hi1|intros [_ H]; congruence]).
  assert (Hd5 : is_adir a5 i = true) by (rewrite (without_dir _ _ _ _ _ W5); exact Hd1).
  assert (Hfew : (size (listing a5 q i) <= size (listing a1 q i))%nat) by (apply fewer; intros f x Hx; apply (wo_at _ _ _ _ W5) in Hx as [Hx _]; eauto).
  rewrite Ha4 in Hg4, E4.
  assert (Hgd2 : exists pos', good (opened a5 pr fd i pos') /\ forall k, aprog (opened a5 pr fd i pos) c (Call (Getdents fd 65536) k) = aprog (opened a5 pr fd i pos') c (k (RetDents 0 []))).
  { assert (Hdrop : drop (Z.to_nat pos) (map_to_list (listing a5 q i)) = []).
    { apply drop_ge. change (length (map_to_list (listing a5 q i))) with (size (listing a5 q i)). unfold pos. lia. }
    exists (Z.min (pos + zlen ([] : list (string * Z))) (Z.of_nat (size (listing a5 q i)))).
    assert (K : forall k, good (opened a5 pr fd i (Z.min (pos + zlen ([] : list (string * Z))) (Z.of_nat (size (listing a5 q i))))) /\
       aprog (opened a5 pr fd i pos) c (Call (Getdents fd 65536) k) = aprog (opened a5 pr fd i (Z.min (pos + zlen ([] : list (string * Z))) (Z.of_nat (size (listing a5 q i))))) c (k (RetDents 0 []))).
    { intros k. pose proof (do_getdents a5 pr fd q i pos k Hg4 Hi5 Hd5) as G. cbv zeta in G. rewrite Hdrop in G. exact G. }
    split; [exact (proj1 (K (fun _ => Stop)))|intros k; exact (proj2 (K k))]. }
  destruct Hgd2 as (pos' & Hg6 & E6).
  assert (Hp5 : vw_proc a5 !! c = Some pr) by exact Hp1.
  destruct (do_close a5 pr fd i pos' (fun _ => Stop) Hg6 Hp5 Hfn Hfd) as [Hg5 _].
  exists a5. split; [|split; [exact Hg5|split]].
  - eapply without_weaken; [exact (without_trans _ _ _ _ _ _ _ W1 W5)|intros p _; cbv beta; tauto|]. intros p [H|H]; [exact H|apply H].
  - rewrite (may_write_mode a1); [exact Hw1|]. destruct (wo_mode _ _ _ _ W5 i) as [Hm|(_ & p & [Hb1 Hb2] & Hpi)]; [exact Hm|].
    exfalso. apply Hb2. exact (eq_sym (good_dir _ _ _ _ Hg1 Hpi Hi1 Hd1)).
  - intros k. rewrite E1. unfold visit. rewrite E2. destruct (Z.ltb_spec fd 0) as [|_]; [lia|].
    destruct n as [|[|n2]]; [lia|lia|]. cbn [rounds]. rewrite E3. cbv beta iota. destruct (Z.eqb_spec (sum_len l) 0) as [|_]; [lia|].
    rewrite E4. cbn [rounds]. rewrite E6. cbv beta iota. change (0 =? 0) with true. cbv iota.
    exact (proj2 (do_close a5 pr fd i pos' (fun _ => k) Hg6 Hp5 Hfn Hfd)).
Qed.

(** ** deltree *)
Lemma deltree_ok n : deletes n.
Proof.
  induction n as [|n IH]; intros q path a pr m i d Hg Hp Hne Hq Hi Hu Hw Hrd Hmn; [lia|].
  destruct (good_at _ _ _ Hg Hi) as [Hcan [o Ho]].
  pose proof (ok_mode _ _ _ (proj1 Hrd) _ _ Hi (reflexivity _)) as Ht. unfold says_truth in Ht. rewrite Ho in Ht.
  destruct (is_adir a i) eqn:Ed.
  - destruct (empties n IH q path a pr m i o Hg Hp Hne Hq Hi Ho Ed Hrd ltac:(lia)) as (a1 & W1 & Hg1 & Hw1 & E1).
    assert (Hp1 : vw_proc a1 !! c = Some pr) by (rewrite (wo_proc _ _ _ _ W1); exact Hp).
    assert (Hi1 : vw_at a1 !! q = Some i) by (rewrite (without_same _ _ _ _ _ W1); [exact Hi|intros [_ H]; congruence]).
    assert (Ed1 : is_adir a1 i = true) by (rewrite (without_dir _ _ _ _ _ W1); exact Ed).
    destruct (good_at _ _ _ Hg1 Hi1) as [_ [o1 Ho1]].
    assert (Ht1 : says_dir (o_mode o1) = true).
    { pose proof (wo_type _ _ _ _ W1 i) as T. rewrite Ho, Ho1 in T. cbn in T. injection T as T. rewrite T. exact Ht. }
    assert (Hqne : q <> []) by (intros ->; discriminate Hu).
    assert (Hdq : exists q' f, q = q' ++ [f] /\ vw_at a !! q' = Some d /\ is_adir a d = true).
    { destruct q as [|f q' _] using rev_ind; [congruence|]. exists q', f. split; [reflexivity|]. unfold up_dir in Hu.
      destruct (q' ++ [f]) eqn:Eq; [destruct q'; discriminate Eq|]. rewrite <- Eq, removelast_last in Hu.
      destruct (vw_at a !! q') as [d'|]; [|discriminate Hu]. destruct (is_adir a d') eqn:Ed'; [|discriminate Hu]. injection Hu as ->. auto. }
    destruct Hdq as (q' & f & Hqq & Hdq & Hdd).
    assert (Hnw : ~ within q q') by (rewrite Hqq; apply snoc_not_within).
    assert (Hu1 : up_dir a1 q = Some d).
    { rewrite Hqq. unfold up_dir. destruct (q' ++ [f]) eqn:Eq; [destruct q'; discriminate Eq|]. rewrite <- Eq, removelast_last.
      rewrite (without_same _ _ _ _ _ W1) by (intros [H _]; exact (Hnw H)). rewrite Hdq, (without_dir _ _ _ _ _ W1), Hdd. reflexivity. }
    assert (Hwd1 : may_write a1 d = true).
    { rewrite (may_write_mode a); [exact Hw|]. destruct (wo_mode _ _ _ _ W1 d) as [Hm|(_ & p & Hb & Hpi)]; [exact Hm|].
      exfalso. assert (p = q') by (exact (good_dir _ _ _ _ Hg Hpi Hdq Hdd)). subst p. exact (Hnw Hb). }
    destruct (do_rmdir a1 pr path q i o1 d Hg1 Hp1 Hne Hq Hi1 Ho1 Ed1 Hu1 Hwd1 Hw1 Ht1) as (a2 & Hg2 & W2 & E2).
    { intros p' j Hj Hb. apply (wo_at _ _ _ _ W1) in Hj as [_ Hj]. exact (Hj Hb). }
    exists a2. split; [|split; [exact Hg2|]].
    + eapply without_weaken; [exact (without_trans _ _ _ _ _ _ _ W1 W2)| |intros p [H|H]; exact H]. intros p _. cbv beta. split; [intros [[H _]|H]; exact H|auto].
    + intros k. cbn [deltree]. edestruct (do_stat a pr path i o) as (n0 & s0 & d0 & Es); [exact Hp|rewrite Hq; exact Hi|exact Ho|]. rewrite Es. cbv beta iota.
      change (is_dir (o_mode o)) with (says_dir (o_mode o)). rewrite Ht. cbn [negb]. cbv iota. rewrite E1. apply E2.
  - destruct (do_unlink a pr path q i d Hg Hp Hne Hq Hi Ed Hu Hw) as (a1 & Hg1 & W1 & E1).
    exists a1. split; [exact W1|]. split; [exact Hg1|]. intros k. cbn [deltree].
    edestruct (do_stat a pr path i o) as (n0 & s0 & d0 & Es); [exact Hp|rewrite Hq; exact Hi|exact Ho|]. rewrite Es. cbv beta iota.
    change (is_dir (o_mode o)) with (says_dir (o_mode o)). rewrite Ht. cbn [negb]. cbv iota. apply E1.
Qed.

(** The root: everything below goes *)
Lemma format_ok n path a pr m i : good a -> vw_proc a !! c = Some pr -> path <> "" -> where_is (q_cwd pr) path = [] -> vw_at a !! [] = Some i ->
  is_adir a i = true -> ready a pr [] m -> (m + 2 <= n)%nat ->
  exists a', without (below []) (within []) a a' /\ good a' /\ forall k, aprog a c (deltree n path k) = aprog a' c k.
Proof.
  intros Hg Hp Hne Hq Hi Ed Hrd Hmn. destruct n as [|n]; [lia|].
  destruct (good_at _ _ _ Hg Hi) as [Hcan [o Ho]].
  pose proof (ok_mode _ _ _ (proj1 Hrd) _ _ Hi (reflexivity _)) as Ht. unfold says_truth in Ht. rewrite Ho, Ed in Ht.
  destruct (empties n (deltree_ok n) [] path a pr m i o Hg Hp Hne Hq Hi Ho Ed Hrd ltac:(lia)) as (a1 & W1 & Hg1 & Hw1 & E1).
  exists a1. split; [exact W1|]. split; [exact Hg1|]. intros k. cbn [deltree].
  edestruct (do_stat a pr path i o) as (n0 & s0 & d0 & Es); [exact Hp|rewrite Hq; exact Hi|exact Ho|]. rewrite Es. cbv beta iota.
  change (is_dir (o_mode o)) with (says_dir (o_mode o)). rewrite Ht. cbn [negb]. cbv iota. rewrite E1.
  apply (do_rmroot a1 pr path i); [exact Hg1|rewrite (wo_proc _ _ _ _ W1); exact Hp|exact Hne|exact Hq|].
  rewrite (without_same _ _ _ _ _ W1); [exact Hi|intros [_ H]; congruence].
Qed.
End S.
