(** The tools that copy host files: what one copied file changes. *)
From stdpp Require Import gmap.
From Verif Require Import Base PathModel PathSpec PathProofs FsModel FsBoot FsSpec FsWalk Count FsNames FsTr FsInv FsInv2
  FsSteps FsSteps2 FsFrame FsReachSpec FsWinv FsReach FsTree FsNameSpec FsPath FdSpec FsDesc FsOps FsTmp FsNameProofs FsFail FsPos FsIoSpec FsIo
  FsCopyModel FsCopySpec.
Local Open Scope list_scope.
Local Open Scope Z_scope.
Opaque all_fds next_fd.

(** ** [added] *)
Lemma added_refl L w : added L w w.
Proof. constructor; eauto 10. Qed.

Lemma added_mono L L' w w' : (forall q, In q L -> In q L') -> added L w w' -> added L' w w'.
Proof.
  intros HL H. constructor.
  - exact (ad_old _ _ _ H).
  - intros p j Hp Hr. destruct (ad_new _ _ _ H _ _ Hp Hr) as [K|[(q & Hq & Hpq) K]]; [auto|]. right. split; [eauto|exact K].
  - intros p j x Hp Hr Hx. destruct (ad_obj _ _ _ H _ _ _ Hp Hr Hx) as (y & Hy & E1 & E2 & E3). exists y.
    do 3 (split; [assumption|]). intros Hno. apply E3. auto.
Qed.

Lemma added_trans L a b d : Forall canonical L -> added L a b -> added L b d -> added L a d.
Proof.
  intros HL H1 H2. rewrite Forall_forall in HL. constructor.
  - intros p j Hp H. apply (ad_old _ _ _ H2 _ _ Hp), (ad_old _ _ _ H1 _ _ Hp), H.
  - intros p j Hp H. destruct (ad_new _ _ _ H2 _ _ Hp H) as [K|[Hq K]].
    + exact (ad_new _ _ _ H1 _ _ Hp K).
    + right. split; [exact Hq|]. intros r Hr Hj. exact (K r Hr (ad_old _ _ _ H1 _ _ Hr Hj)).
  - intros p j x Hp H Hx. destruct (ad_obj _ _ _ H1 _ _ _ Hp H Hx) as (y & Hy & E1 & E2 & E3).
    destruct (ad_obj _ _ _ H2 _ _ _ Hp (ad_old _ _ _ H1 _ _ Hp H) Hy) as (z & Hz & F1 & F2 & F3).
    exists z. split; [exact Hz|]. split; [congruence|]. split; [congruence|]. intros Hno.
    destruct (E3 Hno) as [G1 G2]. destruct F3 as [G3 G4]; [|split; congruence].
    intros q Hq Hr. assert (Hcq : canonical q) by (apply HL, elem_of_list_In, Hq).
    destruct (ad_new _ _ _ H1 _ _ Hcq Hr) as [K|[_ K]]; [exact (Hno q Hq K)|exact (K p Hp H)].
Qed.

Lemma creates_added L w w' q q0 i : winv w -> winv w' -> canonical q -> In q0 L -> q `prefix_of` q0 -> creates w w' q i -> added L w w'.
Proof.
  intros Hw Hw' Hq Hin Hpre ((U1 & _ & _ & _) & [N1 N2] & (par & Hpar & Hob) & Hb & _).
  assert (Hnew : forall r j, canonical r -> resolves (w_ino w) r j -> j <> i).
  { intros r j Hr Hj ->. destruct (resolves_exists _ _ _ Hw Hr Hj). congruence. }
  assert (Hold : forall p j, canonical p -> resolves (w_ino w) p j -> resolves (w_ino w') p j) by (intros p j Hp H; apply N2; auto).
  constructor.
  - exact Hold.
  - intros p j Hp H. apply (N2 _ _ Hp) in H as [H|[-> ->]]; [auto|]. right. split; [eauto|].
    intros r Hr Hj. exact (Hnew r i Hr Hj eq_refl).
  - intros p j x Hp Hr Hx. destruct (resolves_exists _ _ _ Hw' Hp (Hold _ _ Hp Hr)) as [y Hy]. exists y. split; [exact Hy|].
    pose proof (Hnew _ _ Hp Hr) as Hne. destruct (Hob j) as [O1 O2]. destruct (decide (j = par)) as [->|Hj].
    + destruct (O2 ltac:(right; left; reflexivity) x y Hx Hy) as (E1 & E2 & E3). split; [congruence|]. split; [congruence|]. intros _.
      split; [congruence|apply Hb; exact Hne].
    + rewrite O1 in Hy by (intros [E|[E|[]]]; congruence). assert (y = x) by congruence. subst y.
      do 2 (split; [reflexivity|]). intros _. split; [reflexivity|apply Hb; exact Hne].
Qed.

(** ** Calls that change no name, and at most the bytes of one object *)
Record touched (i : Z) (w w' : world) : Prop := {
  to_names : names (w_ino w') = names (w_ino w);
  to_obj j x : named (w_ino w) j -> w_ino w !! j = Some x ->
    exists y, w_ino w' !! j = Some y /\ i_kind y = i_kind x /\ i_mode y = i_mode x /\
      (j <> i -> i_size y = i_size x /\ bytes w' j = bytes w j)
}.

Lemma touched_refl i w : touched i w w.
Proof. constructor; [reflexivity|]. eauto 10. Qed.

Lemma touched_trans i a b d : touched i a b -> touched i b d -> touched i a d.
Proof.
  intros H1 H2. constructor; [rewrite (to_names _ _ _ H2); apply H1|].
  intros j x Hn Hx. destruct (to_obj _ _ _ H1 _ _ Hn Hx) as (y & Hy & E1 & E2 & E3).
  assert (Hn' : named (w_ino b) j) by (unfold named; rewrite (to_names _ _ _ H1); exact Hn).
  destruct (to_obj _ _ _ H2 _ _ Hn' Hy) as (z & Hz & F1 & F2 & F3). exists z. split; [exact Hz|].
  split; [congruence|]. split; [congruence|]. intros Hj. destruct (E3 Hj), (F3 Hj). split; congruence.
Qed.

Lemma still_touched i w w' : still w w' -> touched i w w'.
Proof.
  intros H. constructor; [apply H|]. intros j x Hn Hx. destruct (st_obj _ _ H _ _ Hn Hx) as (y & Hy & E1 & E2 & E3 & E4 & E5 & E6).
  exists y. auto 10.
Qed.

Lemma touched_same_names i w w' : winv w -> winv w' -> touched i w w' -> names_same_as (w_ino w) (w_ino w').
Proof. intros Hw Hw' H. exact (same_paths _ _ _ _ (v_n _ (u_inv _ Hw)) (v_n _ (u_inv _ Hw')) (to_names _ _ _ H)). Qed.

Lemma touched_added L q i w w' : winv w -> winv w' -> In q L -> resolves (w_ino w) q i -> touched i w w' -> added L w w'.
Proof.
  intros Hw Hw' Hin Hq H. pose proof (touched_same_names _ _ _ Hw Hw' H) as Hs. constructor.
  - intros p j Hp. apply (Hs _ _ Hp).
  - intros p j Hp Hr. left. apply (Hs _ _ Hp). exact Hr.
  - intros p j x Hp Hr Hx. destruct (to_obj _ _ _ H _ _ (resolves_named _ _ _ Hp Hr) Hx) as (y & Hy & E1 & E2 & E3).
    exists y. do 3 (split; [assumption|]). intros Hno. apply E3. intros ->. exact (Hno q Hin Hq).
Qed.

(** One object gets another size or reference count, and perhaps other bytes *)
Lemma touched_upd i w w' x y : w_ino w !! i = Some x -> w_ino w' = <[i := y]> (w_ino w) -> i_kind y = i_kind x -> i_mode y = i_mode x ->
  i_dict y = i_dict x -> (forall j, j <> i -> bytes w' j = bytes w j) -> touched i w w'.
Proof.
  intros Hx Ht Hk Hm Hd Hb. constructor.
  - rewrite Ht. apply (names_same _ _ _ x); assumption.
  - intros j z _ Hz. destruct (decide (j = i)) as [->|Hj].
    + exists y. rewrite Ht, lookup_insert. assert (z = x) by congruence. subst z. do 3 (split; [congruence|]). congruence.
    + exists z. rewrite Ht, lookup_insert_ne by congruence. do 3 (split; [congruence|]). intros _. split; [reflexivity|apply Hb; exact Hj].
Qed.

Definition WFLAGS : Z := Z.lor (Z.lor O_CREAT O_TRUNC) O_WRONLY.

(** ** open of something that exists *)
Lemma open_old w c cwd p fl m w' fd i x : winv w -> w_cwd w !! c = Some cwd -> resolves (w_ino w) (normpath cwd p) i -> w_ino w !! i = Some x ->
  step w c (Open p fl m) = Done (w', Ret fd) -> 0 <= fd ->
  exists pos fl', w_fds w' = <[(c, fd) := FFile i pos fl']> (w_fds w) /\ w_fds w !! (c, fd) = None /\ w_cwd w' = w_cwd w /\
    touched i w w' /\ Z.land fl' 3 = Z.land fl 3 /\ (hasbit fl O_APPEND = false -> pos = 0) /\
    (i_kind x = KFile -> Z.land fl O_TRUNC = O_TRUNC -> bytes w' i = Some []).
Proof.
  intros Hw Hc Hres Hx H Hfd. pose proof (u_inv _ Hw) as Hi.
  unfold step in H. rewrite Hc in H. unfold ret in H. peelc H. unfold open_syscall in H.
  destruct (String.eqb p ""); [negr H|]. destruct (next_fd w c 0) as [k|] eqn:Ek; [|negr H]. apply next_fd_some in Ek as [Ek _].
  pose proof (resolves_metawalk _ _ _ (root_some _ Hw) Hres) as Hm. unfold metawalk in Hm.
  destruct (metawalkandparent _ _) as [[o op]|]; cbn [obind fst] in *; [|discriminate Hm]. injection Hm as ->.
  destruct (_ =? _) in H; [negr H|]. unfold get_ino in H. rewrite Hx in H. cbn [obind] in H.
  destruct (i_kind x) eqn:Hk.
  - destruct (inv_file w i x Hi Hx Hk) as (Hf & b & Hb & Hs).
    destruct (Z.eqb_spec (Z.land fl O_TRUNC) O_TRUNC) as [Et|Et].
    + match type of H with obind ?q _ = _ => destruct q as [w1|] eqn:E1; cbn [obind] in H; [|discriminate H] end.
      unfold remove_host in E1. wcbn1 E1. rewrite Hb in E1. injection E1 as <-. injection H as <- <-.
      destruct (initializer_mode i fl 0) as (pos & fl' & Ei & Em & Ep). rewrite Ei. exists pos, fl'.
      unfold open_fobj. wcbn. rewrite lookup_delete. wcbn. split; [reflexivity|]. split; [exact Ek|]. split; [reflexivity|].
      split; [|split; [exact Em|split; [intros Ha; rewrite Ep, Ha; reflexivity|]]].
      * eapply (touched_upd i w _ x); [exact Hx|wcbn; rewrite insert_insert; reflexivity|reflexivity..|].
        intros j Hj. unfold bytes. wcbn. rewrite lookup_insert_ne, lookup_delete_ne by congruence. reflexivity.
      * intros _ _. unfold bytes. wcbn. rewrite lookup_delete, lookup_insert. reflexivity.
    + cbn [obind] in H. injection H as <- <-. destruct (initializer_mode i fl (i_size x)) as (pos & fl' & Ei & Em & Ep). rewrite Ei. exists pos, fl'.
      unfold open_fobj. destruct (w_fobj w !! i) eqn:Eo; wcbn; (split; [reflexivity|]; split; [exact Ek|]; split; [reflexivity|];
        split; [|split; [exact Em|split; [intros Ha; rewrite Ep, Ha; reflexivity|intros _ E; contradiction]]]).
      * eapply (touched_upd i w _ x); [exact Hx|wcbn; reflexivity|reflexivity..|]. intros j Hj. reflexivity.
      * eapply (touched_upd i w _ x); [exact Hx|wcbn; reflexivity|reflexivity..|].
        intros j Hj. unfold bytes. wcbn. rewrite lookup_insert_ne by congruence. reflexivity.
  - injection H as <- <-. destruct (initializer_mode i fl (i_size x)) as (pos & fl' & Ei & Em & Ep). rewrite Ei. exists pos, fl'.
    wcbn; (split; [reflexivity|]; split; [exact Ek|]; split; [reflexivity|];
        split; [|split; [exact Em|split; [intros Ha; rewrite Ep, Ha; reflexivity|intros E; discriminate E]]]).
    eapply (touched_upd i w _ x); [exact Hx|wcbn; reflexivity|reflexivity..|]. intros j Hj. reflexivity.
  - injection H as <- <-. destruct (initializer_mode i fl (i_size x)) as (pos & fl' & Ei & Em & Ep). rewrite Ei. exists pos, fl'.
    wcbn; (split; [reflexivity|]; split; [exact Ek|]; split; [reflexivity|];
        split; [|split; [exact Em|split; [intros Ha; rewrite Ep, Ha; reflexivity|intros E; discriminate E]]]).
    eapply (touched_upd i w _ x); [exact Hx|wcbn; reflexivity|reflexivity..|]. intros j Hj. reflexivity.
  - negr H.
Qed.

(** ** write to a file descriptor *)
Lemma file_write_touch w i pos bs x w' : inv (core_of w) -> w_ino w !! i = Some x -> i_kind x = KFile ->
  file_write i pos bs x w = Done w' -> touched i w w'.
Proof.
  intros Hi Hx Hk H. destruct (inv_file w i x Hi Hx Hk) as (Hf & b & Hb & Hs).
  destruct (file_write_post _ _ _ _ _ _ _ Hi Hx Hk Hb H) as [_ Hd].
  assert (exists n, w_ino w' = <[i := set_size n x]> (w_ino w)) as [n Hn].
  { unfold file_write in H. match type of H with obind ?q _ = _ => destruct q as [w1|] eqn:E1; cbn [obind] in H; [|discriminate H] end.
    destruct (writeat i pos bs w1) as [w2|] eqn:E2; cbn [obind] in H; [|discriminate H].
    assert (H1 : w_ino w1 = w_ino w).
    { destruct (0 <? _) in E1; [|destruct (w_fobj w !! i); [|discriminate E1]; injection E1 as <-; reflexivity].
      unfold zerofill in E1. destruct (w_fobj w !! i); [|discriminate E1]. destruct (_ <? _) in E1; [discriminate E1|]. injection E1 as <-. reflexivity. }
    assert (H2 : w_ino w2 = w_ino w1).
    { unfold writeat in E2. destruct (w_fobj w1 !! i); [|discriminate E2]. destruct (_ || _) in E2; [discriminate E2|]. injection E2 as <-. reflexivity. }
    destruct (i_size x <? _) in H; injection H as <-; [eexists; wcbn; rewrite H2, H1; reflexivity|].
    exists (i_size x). rewrite H2, H1, set_size_id. symmetry. apply insert_id. exact Hx. }
  eapply (touched_upd i w w' x); [exact Hx|exact Hn|reflexivity..|].
  intros j Hj. unfold bytes. rewrite Hd, lookup_insert_ne by congruence. reflexivity.
Qed.

Lemma write_touch w c fd bs w' r i pos fl : winv w -> w_fds w !! (c, fd) = Some (FFile i pos fl) -> step w c (Write fd bs) = Done (w', r) ->
  touched i w w' /\ w_cwd w' = w_cwd w /\ exists pos', w_fds w' = <[(c, fd) := FFile i pos' fl]> (w_fds w).
Proof.
  intros Hw Hd H. pose proof (u_inv _ Hw) as Hi. destruct (slot_cwd _ _ _ _ Hw Hd) as [cwd Hc]. unfold step in H. rewrite Hc in H. unfold write_syscall in H.
  assert (K : forall w1, w1 = w -> touched i w w1 /\ w_cwd w1 = w_cwd w /\ exists pos', w_fds w1 = <[(c, fd) := FFile i pos' fl]> (w_fds w)).
  { intros w1 ->. split; [apply touched_refl|]. split; [reflexivity|]. exists pos. symmetry. apply insert_id. exact Hd. }
  rewrite (range_slot _ _ _ _ Hw Hd) in H. cbn [obind] in H. destruct (is_rdonly fl); [injection H as <- _; apply K; reflexivity|].
  destruct (get_ino w i) as [x|] eqn:Hx; cbn [obind] in H; [|discriminate H]. apply get_ino_done in Hx.
  destruct (i_kind x) eqn:Hk; try (injection H as <- _; apply K; reflexivity); [|discriminate H].
  destruct (file_write _ _ _ _ _) as [w1|] eqn:E; cbn [obind] in H; [|discriminate H]. injection H as <- _.
  pose proof (file_write_touch _ _ _ _ _ _ Hi Hx Hk E) as Ht. apply file_write_kp in E as (E1 & E2).
  split; [|split; [wcbn; exact E2|]].
  - apply (touched_trans _ _ _ _ Ht). apply still_touched, still_same; reflexivity.
  - wcbn. rewrite E1. eauto.
Qed.

Lemma write_all_touch c fd cs : forall sum w w' r i pos fl, reach true w -> w_fds w !! (c, fd) = Some (FFile i pos fl) ->
  write_all c fd cs sum w = Done (w', r) ->
  reach true w' /\ touched i w w' /\ w_cwd w' = w_cwd w /\ exists pos', w_fds w' = <[(c, fd) := FFile i pos' fl]> (w_fds w).
Proof.
  induction cs as [|b cs IH]; intros sum w w' r i pos fl Hr Hd H; cbn [write_all] in H.
  - injection H as <- _. split; [exact Hr|]. split; [apply touched_refl|]. split; [reflexivity|]. exists pos. symmetry. apply insert_id, Hd.
  - destruct (step w c (Write fd b)) as [[w1 o]|] eqn:E; cbn [obind] in H; [|discriminate H].
    destruct o; try discriminate H. destruct (_ <? 0) in H; [discriminate H|].
    destruct (write_touch _ _ _ _ _ _ _ _ _ (reach_winv _ _ Hr) Hd E) as (T & C & pos1 & F).
    assert (Hr1 : reach true w1) by (eapply reach_step; [exact Hr|exact E|exact I]).
    assert (Hd1 : w_fds w1 !! (c, fd) = Some (FFile i pos1 fl)) by (rewrite F; apply lookup_insert).
    destruct (IH _ _ _ _ _ _ _ Hr1 Hd1 H) as (R & T' & C' & pos2 & F'). split; [exact R|].
    split; [exact (touched_trans _ _ _ _ T T')|]. split; [congruence|]. exists pos2. rewrite F', F. apply insert_insert.
Qed.

(** Writing after the end *)
Lemma applied_end l bs l' : applied (AWrite (len l) bs) l l' -> l' = l ++ bs.
Proof.
  intros (_ & Hlen & Hb). unfold len in *. apply (nth_ext _ _ 0 0); [rewrite app_length; lia|].
  intros k Hk. specialize (Hb (Z.of_nat k) ltac:(lia)). unfold byte_at in Hb. rewrite !Nat2Z.id in Hb. rewrite Hb, nth_app0.
  destruct (Z.leb_spec (Z.of_nat (length l)) (Z.of_nat k)), (Nat.ltb_spec k (length l)); try lia; cbn [andb].
  - destruct (Z.ltb_spec (Z.of_nat k) (Z.of_nat (length l) + Z.of_nat (length bs))); [|lia].
    f_equal. lia.
  - reflexivity.
Qed.

Lemma write_all_exact c fd fl i cs : forall done sum w, reach true w -> w_fds w !! (c, fd) = Some (FFile i (len done) fl) -> Z.land fl 3 <> 0 ->
  bytes w i = Some done -> Forall (fun b => len b < 2147483648) cs ->
  exists w', write_all c fd cs sum w = Done (w', sum + len (concat cs)) /\ bytes w' i = Some (done ++ concat cs).
Proof.
  induction cs as [|b cs IH]; intros done sum w Hr Hd Hfl Hb Hcs.
  - exists w. cbn. rewrite app_nil_r, Z.add_0_r. auto.
  - apply Forall_cons in Hcs as [Hl Hcs]. destruct (write_exact _ _ _ _ _ _ _ _ Hr Hd Hb Hfl Hl) as (w1 & l' & E & F & Hb1 & Ha).
    apply applied_end in Ha. subst l'.
    assert (Hr1 : reach true w1) by (eapply reach_step; [exact Hr|exact E|exact I]).
    assert (El : len (done ++ b) = len done + len b) by (unfold len; rewrite app_length; lia).
    destruct (IH (done ++ b) (sum + len b) w1) as (w' & E' & B'); [exact Hr1|rewrite F, El; apply lookup_insert|exact Hfl|exact Hb1|exact Hcs|].
    exists w'. cbn [write_all]. rewrite E. cbn [obind]. destruct (Z.ltb_spec (len b) 0) as [K|_]; [unfold len in K; lia|].
    rewrite E'. cbn [concat]. split; [|rewrite app_assoc; exact B']. f_equal. f_equal. unfold len. rewrite app_length. lia.
Qed.

(** ** The chunks are the file *)
Lemma cut_spec l : forall n, fst (cut n l) ++ snd (cut n l) = l /\ (0 <= n -> Z.of_nat (length (fst (cut n l))) <= n) /\
  (0 < n -> l <> [] -> (length (snd (cut n l)) < length l)%nat).
Proof.
  induction l as [|b l IH]; intros n; cbn [cut].
  - repeat split; cbn; try lia; congruence.
  - destruct (Z.leb_spec n 0) as [Hn|Hn].
    + repeat split; cbn; try lia.
    + destruct (IH (n - 1)) as (I1 & I2 & I3). destruct (cut (n - 1) l) as [a z]. cbn [fst snd] in *. split; [cbn; congruence|].
      split; [intros _; cbn [length]; lia|]. intros _ _. cbn [length].
      apply (f_equal length) in I1. rewrite app_length in I1. lia.
Qed.

Lemma chunks_of_spec k : forall l, (length l <= k)%nat ->
  concat (chunks_of k l) = l /\ Forall (fun b => len b < 2147483648) (chunks_of k l).
Proof.
  induction k as [|k IH]; intros l Hl; destruct l as [|b r]; cbn [chunks_of]; try (cbn in Hl; lia); try (split; [reflexivity|constructor]).
  destruct (cut_spec (b :: r) LINUX_MAX_RW_COUNT) as (C1 & C2 & C3). destruct (cut LINUX_MAX_RW_COUNT (b :: r)) as [a z]. cbn [fst snd] in *.
  destruct (IH z) as [I1 I2]. { specialize (C3 ltac:(reflexivity) ltac:(discriminate)). lia. }
  cbn [concat]. split; [rewrite I1; exact C1|]. constructor; [|exact I2].
  specialize (C2 ltac:(unfold LINUX_MAX_RW_COUNT; lia)). unfold len, LINUX_MAX_RW_COUNT in *. lia.
Qed.

Lemma chunks_spec l : concat (chunks l) = l /\ Forall (fun b => len b < 2147483648) (chunks l).
Proof. apply chunks_of_spec. reflexivity. Qed.

(** ** The directories on the way *)
Definition same_procs (w w' : world) : Prop := w_fds w' = w_fds w /\ w_cwd w' = w_cwd w.

Lemma canonical_prefix p q : canonical q -> p `prefix_of` q -> canonical p.
Proof. intros Hq [r ->]. apply canonical_app in Hq. tauto. Qed.

Lemma mkdir_out w c p m w' o : step w c (Mkdir p m) = Done (w', o) -> exists r, o = Ret r.
Proof. intros H. unfold step in H. destruct (w_cwd w !! c); [|discriminate H]. unfold ret in H. peelc H. eauto. Qed.
Lemma stat_same w c p w' o : step w c (Stat p) = Done (w', o) -> w' = w.
Proof. intros H. unfold step, same in H. destruct (w_cwd w !! c); [|discriminate H]. destruct (stat_syscall _ _ _); cbn [obind] in H; [|discriminate H]. injection H as <- _. reflexivity. Qed.
Lemma mkdir_failed w c p m w' r : step w c (Mkdir p m) = Done (w', Ret r) -> r < 0 -> w' = w.
Proof. intros H Hr. unfold step in H. destruct (w_cwd w !! c); [|discriminate H]. unfold ret in H. peelc H. exact (mkdir_fails _ _ _ _ _ _ H Hr). Qed.

Lemma make_dirs_added c create q cwd : canonical q -> forall rest anc w w' ok, (anc ++ rest) `prefix_of` q -> reach true w -> w_cwd w !! c = Some cwd ->
  make_dirs c create anc rest w = Done (w', ok) -> reach true w' /\ same_procs w w' /\ added [q] w w'.
Proof.
  intros Hq. induction rest as [|f rest IH]; intros anc w w' ok Hpre Hr Hc H; cbn [make_dirs] in H.
  all: assert (Hanc : anc `prefix_of` q) by (etransitivity; [|exact Hpre]; apply prefix_app_r; reflexivity).
  all: assert (Hca : canonical anc) by exact (canonical_prefix _ _ Hq Hanc).
  all: destruct (step w c (Stat (render anc))) as [[w1 o]|] eqn:E1; cbn [obind] in H; [|discriminate H].
  all: apply stat_same in E1 as ->.
  all: assert (Z : reach true w /\ same_procs w w /\ added [q] w w) by (split; [exact Hr|]; split; [split; reflexivity|apply added_refl]).
  all: assert (Mk : forall w2 o2, step w c (Mkdir (render anc) S_IRWXA) = Done (w2, o2) -> reach true w2 /\ same_procs w w2 /\ added [q] w w2)
    by (intros w2 o2 E2; destruct (mkdir_out _ _ _ _ _ _ E2) as [r ->]; destruct (Z.lt_ge_cases r 0) as [Hn|Hn];
        [apply mkdir_failed in E2; [subst w2; exact Z|exact Hn]|];
        assert (Hr2 : reach true w2) by (eapply reach_step; [exact Hr|exact E2|exact I]);
        destruct (mkdir_creates _ _ _ _ _ _ _ anc Hr Hc ltac:(apply denotes_normpath; symmetry; apply normpath_render; exact Hca) E2 Hn) as (i & Cr & _ & _ & F & _);
        split; [exact Hr2|]; split; [split; [exact F|apply Cr]|];
        exact (creates_added [q] _ _ anc q i (reach_winv _ _ Hr) (reach_winv _ _ Hr2) Hca ltac:(left; reflexivity) Hanc Cr)).
  - destruct o; try (injection H as <- _; exact Z).
    + destruct (_ && create) in H; [|injection H as <- _; exact Z].
      destruct (step w c (Mkdir _ _)) as [[w2 o2]|] eqn:E2; cbn [obind] in H; [|discriminate H]. specialize (Mk _ _ eq_refl).
      destruct o2; try (injection H as <- _; exact Mk). destruct (_ =? 0) in H; injection H as <- _; exact Mk.
    + destruct (is_dir _) in H; injection H as <- _; exact Z.
  - assert (Hpre2 : ((anc ++ [f]) ++ rest) `prefix_of` q) by (rewrite <- app_assoc; exact Hpre).
    destruct o; try (injection H as <- _; exact Z).
    + destruct (_ && create) in H; [|injection H as <- _; exact Z].
      destruct (step w c (Mkdir _ _)) as [[w2 o2]|] eqn:E2; cbn [obind] in H; [|discriminate H]. specialize (Mk _ _ eq_refl).
      destruct o2; try (injection H as <- _; exact Mk). destruct (_ =? 0) in H; [|injection H as <- _; exact Mk].
      destruct Mk as (R2 & [P1 P2] & A2).
      destruct (IH _ _ _ _ Hpre2 R2 ltac:(rewrite P2; exact Hc) H) as (R3 & [P3 P4] & A3).
      split; [exact R3|]. split; [split; congruence|]. apply (added_trans _ _ w2); [constructor; [exact Hq|constructor]|assumption..].
    + destruct (is_dir _) in H; [|injection H as <- _; exact Z]. exact (IH _ _ _ _ Hpre2 Hr Hc H).
Qed.

(** ** close *)
Lemma close_step w c fd w' o i pos fl : reach true w -> w_fds w !! (c, fd) = Some (FFile i pos fl) -> step w c (Close fd) = Done (w', o) ->
  reach true w' /\ still w w' /\ w_fds w' = delete (c, fd) (w_fds w) /\ w_cwd w' = w_cwd w /\ o = Ret 0.
Proof.
  intros Hr Hd H. pose proof (reach_winv _ _ Hr) as Hw. destruct (slot_cwd _ _ _ _ Hw Hd) as [cwd Hc].
  destruct (close_total _ _ _ _ Hw (mk_is_Some _ _ Hc) Hd) as (w1 & E & F). assert (w1 = w' /\ o = Ret 0) as [-> ->] by (rewrite E in H; injection H as <- <-; auto).
  split; [eapply reach_step; [exact Hr|exact E|exact I]|]. split; [|split; [exact F|split; [|reflexivity]]].
  - unfold step in E. rewrite Hc in E. unfold ret in E. destruct (close_syscall w c fd) as [[w2 r]|] eqn:Ec; cbn [obind] in E; [|discriminate E].
    injection E as <- _. exact (close_still _ _ _ _ _ (u_inv _ Hw) Ec).
  - exact (proj2 (step_frame _ _ _ _ _ E eq_refl)).
Qed.

(** ** One file *)
Lemma open_copy w c cwd q w' fd : reach true w -> w_cwd w !! c = Some cwd -> canonical q ->
  step w c (Open (render q) WFLAGS S_IRWXA) = Done (w', Ret fd) -> 0 <= fd ->
  exists i fl, reach true w' /\ w_fds w' = <[(c, fd) := FFile i 0 fl]> (w_fds w) /\ w_fds w !! (c, fd) = None /\ w_cwd w' = w_cwd w /\
    added [q] w w' /\ resolves (w_ino w') q i /\ Z.land fl 3 = 1 /\
    ((forall j x, resolves (w_ino w) q j -> w_ino w !! j = Some x -> i_kind x = KFile) -> bytes w' i = Some []).
Proof.
  intros Hr Hc Hq H Hfd. pose proof (reach_winv _ _ Hr) as Hw. assert (Hr' : reach true w') by (eapply reach_step; [exact Hr|exact H|exact I]).
  pose proof (reach_winv _ _ Hr') as Hw'. pose proof (normpath_render cwd q Hq) as En.
  destruct (metawalk_done w q Hw Hq) as ([i|] & Hm & Hi).
  - pose proof (metawalk_resolves _ _ _ Hm) as Hres. destruct (Hi i eq_refl) as [x Hx]. rewrite <- En in Hres.
    destruct (open_old _ _ _ _ _ _ _ _ _ _ Hw Hc Hres Hx H Hfd) as (pos & fl & F1 & F2 & C & T & M & P & B). rewrite En in Hres.
    exists i, fl. rewrite (P ltac:(reflexivity)) in F1. split; [exact Hr'|]. split; [exact F1|]. split; [exact F2|]. split; [exact C|].
    split; [exact (touched_added [q] q i w w' Hw Hw' ltac:(left; reflexivity) Hres T)|].
    split; [apply (touched_same_names _ _ _ Hw Hw' T); [exact Hq|exact Hres]|]. split; [rewrite M; reflexivity|].
    intros HK. apply B; [exact (HK _ _ Hres Hx)|reflexivity].
  - pose proof (metawalk_none _ _ Hm) as Hno.
    destruct (create_file _ _ _ _ _ _ _ _ q Hr Hc ltac:(apply denotes_normpath; symmetry; exact En) H Hfd Hno) as (i & fl & Cr & No & B & F & M & Fr).
    exists i, fl. split; [exact Hr'|]. split; [exact F|]. split; [exact Fr|]. split; [apply Cr|].
    split; [exact (creates_added [q] _ _ q q i Hw Hw' Hq ltac:(left; reflexivity) ltac:(reflexivity) Cr)|].
    split; [|split; [rewrite M; reflexivity|auto]].
    destruct Cr as (_ & [_ N] & _). apply (N _ _ Hq). auto.
Qed.

Lemma cp_names_added c create bs q w w' ok cwd : canonical q -> reach true w -> w_cwd w !! c = Some cwd ->
  cp_names c create bs q w = Done (w', ok) -> reach true w' /\ same_procs w w' /\ added [q] w w'.
Proof.
  intros Hq Hr Hc H. unfold cp_names in H. destruct q as [|q0 qr]; [discriminate H|]. set (q := q0 :: qr) in *. cbv zeta in H.
  destruct (make_dirs _ _ _ _ _) as [[w1 ok1]|] eqn:E1; cbn [obind] in H; [|discriminate H].
  assert (Hpre : ([] ++ removelast q) `prefix_of` q) by (exists [List.last q ""]; cbn [app]; apply app_removelast_last; subst q; discriminate).
  destruct (make_dirs_added _ _ q cwd Hq _ _ _ _ _ Hpre Hr Hc E1) as (R1 & [P1 P2] & A1). clear E1.
  destruct ok1; cbn [negb] in H; [|injection H as <- _; split; [exact R1|]; split; [split; assumption|exact A1]].
  fold WFLAGS in H. destruct (step w1 c (Open _ _ _)) as [[w2 o2]|] eqn:E2; cbn [obind] in H; [|discriminate H].
  destruct o2 as [fd| | | | | |]; try discriminate H. destruct (Z.ltb_spec fd 0) as [|Hfd]; [discriminate H|].
  destruct (open_copy _ _ cwd q _ _ R1 ltac:(rewrite P2; exact Hc) Hq E2 Hfd) as (i & fl & R2 & F2 & N2 & C2 & A2 & S2 & _ & _).
  destruct (write_all _ _ _ _ _) as [[w3 sum]|] eqn:E3; cbn [obind] in H; [|discriminate H].
  destruct (write_all_touch _ _ _ _ _ _ _ i 0 fl R2 ltac:(rewrite F2; apply lookup_insert) E3) as (R3 & T3 & C3 & pos & F3).
  destruct (negb _); [discriminate H|]. destruct (step w3 c (Fstat fd)) as [s|]; cbn [obind] in H; [|discriminate H].
  destruct (step w3 c (Close fd)) as [[w4 o4]|] eqn:E4; cbn [obind] in H; [|discriminate H].
  destruct (close_step _ _ _ _ _ i pos fl R3 ltac:(rewrite F3; apply lookup_insert) E4) as (R4 & T4 & F4 & C4 & ->).
  cbn in H. injection H as <- _. split; [exact R4|]. split.
  - split; [|congruence]. rewrite F4, F3, F2, delete_insert_delete, delete_insert_delete, <- P1. apply delete_notin. exact N2.
  - assert (HL : Forall canonical [q]) by (constructor; [exact Hq|constructor]).
    apply (added_trans _ _ w1); [exact HL|exact A1|]. apply (added_trans _ _ w2); [exact HL|exact A2|].
    apply (touched_added [q] q i); [eapply reach_winv; eassumption..|left; reflexivity|exact S2|].
    apply (touched_trans _ _ w3); [exact T3|apply still_touched; exact T4].
Qed.

(** ** Nothing in the way *)
Lemma mwap_dir w q f d x : winv w -> resolves (w_ino w) q d -> w_ino w !! d = Some x -> i_kind x = KDir ->
  metawalkandparent (w_ino w) (q ++ [f]) = Done (i_dict x !! f, Some d).
Proof.
  intros Hw Hd Hx Hk. pose proof (resolves_metawalk _ _ _ (root_some _ Hw) Hd) as Hm. unfold metawalk, metawalkandparent in *.
  destruct (w_ino w !! ROOTINO); [|discriminate Hm]. rewrite walk_from_snoc. destruct (walk_from _ _ _ _) as [[o p]|]; cbn [obind fst] in *; [|discriminate Hm].
  injection Hm as ->. rewrite Hx, Hk. reflexivity.
Qed.
Lemma dict_none w q f d x : resolves (w_ino w) q d -> w_ino w !! d = Some x -> i_kind x = KDir ->
  (forall i, ~ resolves (w_ino w) (q ++ [f]) i) -> i_dict x !! f = None.
Proof. intros Hd Hx Hk Hno. destruct (i_dict x !! f) as [i|] eqn:E; [|reflexivity]. exfalso. apply (Hno i). eapply res_step; eauto. Qed.

Lemma mkdir_ok w c cwd q f d x : reach true w -> w_cwd w !! c = Some cwd -> canonical (q ++ [f]) -> resolves (w_ino w) q d -> w_ino w !! d = Some x ->
  i_kind x = KDir -> (forall i, ~ resolves (w_ino w) (q ++ [f]) i) -> exists w', step w c (Mkdir (render (q ++ [f])) S_IRWXA) = Done (w', Ret 0).
Proof.
  intros Hr Hc Hq Hd Hx Hk Hno. pose proof (reach_winv _ _ Hr) as Hw. unfold step. rewrite Hc. unfold ret, mkdir_syscall.
  rewrite normpath_render by exact Hq. replace (String.eqb (render (q ++ [f])) "") with false by reflexivity.
  rewrite (mwap_dir _ _ f _ _ Hw Hd Hx Hk), (dict_none _ _ _ _ _ Hd Hx Hk Hno). cbn [obind].
  unfold file_name. rewrite last_snoc. replace (negb (sane_mode S_IRWXA)) with false by reflexivity.
  unfold add_child, get_ino. rewrite Hx. cbn [obind]. eauto.
Qed.

Definition way_dirs (w : world) (q : list string) : Prop :=
  forall p f r i x, q = p ++ f :: r -> resolves (w_ino w) p i -> w_ino w !! i = Some x -> i_kind x = KDir /\ dir_mode x.

Lemma stat_dir w c cwd q i x : reach true w -> w_cwd w !! c = Some cwd -> canonical q -> resolves (w_ino w) q i -> w_ino w !! i = Some x ->
  step w c (Stat (render q)) = Done (w, stat_of i x).
Proof.
  intros Hr Hc Hq Hres Hx. pose proof (reach_winv _ _ Hr) as Hw. unfold step, same, stat_syscall. rewrite Hc, normpath_render by exact Hq.
  rewrite (resolves_metawalk _ _ _ (root_some _ Hw) Hres). cbn [obind]. unfold get_ino. rewrite Hx. reflexivity.
Qed.
Lemma stat_missing w c cwd q : reach true w -> w_cwd w !! c = Some cwd -> canonical q -> (forall i, ~ resolves (w_ino w) q i) ->
  step w c (Stat (render q)) = Done (w, Ret (err ENOENT)).
Proof.
  intros Hr Hc Hq Hno. pose proof (reach_winv _ _ Hr) as Hw. unfold step, same, stat_syscall. rewrite Hc, normpath_render by exact Hq.
  destruct (metawalk_done w q Hw Hq) as ([i|] & Hm & _); [exfalso; exact (Hno i (metawalk_resolves _ _ _ Hm))|]. rewrite Hm. reflexivity.
Qed.

Lemma way_dirs_mkdir w w' a i q : winv w -> winv w' -> canonical q -> a `prefix_of` q -> way_dirs w q -> creates w w' a i -> new_object w' i KDir S_IFDIR S_IRWXA ->
  way_dirs w' q.
Proof.
  intros Hw Hw' Hq Ha Hway Cr (y & Hy & Ky & _ & _ & My). pose proof (canonical_prefix _ _ Hq Ha) as Hca.
  assert (A : added [a] w w') by exact (creates_added [a] w w' a a i Hw Hw' Hca ltac:(left; reflexivity) ltac:(reflexivity) Cr).
  destruct Cr as (_ & [_ N] & _). intros p f' r' j z Ep Hp Hz.
  assert (Hcp : canonical p) by (apply (canonical_prefix _ _ Hq); rewrite Ep; eexists; reflexivity).
  apply (N _ _ Hcp) in Hp as [Hp|[-> ->]].
  - destruct (resolves_exists _ _ _ Hw Hcp Hp) as [z0 Hz0]. destruct (ad_obj _ _ _ A _ _ _ Hcp Hp Hz0) as (z1 & Hz1 & K1 & K2 & _).
    assert (z1 = z) by congruence. subst z1. destruct (Hway _ _ _ _ _ Ep Hp Hz0) as [K3 K4]. unfold dir_mode in *. rewrite K1, K2. auto.
  - assert (y = z) by congruence. subst z. split; [exact Ky|]. exact (My eq_refl).
Qed.

Lemma make_dirs_ok c q g cwd : canonical (q ++ [g]) -> forall rest anc w, q = anc ++ rest -> reach true w -> w_cwd w !! c = Some cwd ->
  way_dirs w (q ++ [g]) -> (forall a f, anc = a ++ [f] -> exists d x, resolves (w_ino w) a d /\ w_ino w !! d = Some x /\ i_kind x = KDir) ->
  exists w', make_dirs c true anc rest w = Done (w', true) /\
    (exists d x, resolves (w_ino w') q d /\ w_ino w' !! d = Some x /\ i_kind x = KDir) /\
    (forall i, resolves (w_ino w') (q ++ [g]) i -> resolves (w_ino w) (q ++ [g]) i) /\ way_dirs w' (q ++ [g]).
Proof.
  intros Hcq. induction rest as [|f rest IH]; intros anc w Hq Hr Hc Hway Hpar; pose proof (reach_winv _ _ Hr) as Hw.
  all: assert (Hca : canonical anc) by (apply (canonical_prefix _ _ Hcq); rewrite Hq; eexists; rewrite <- app_assoc; reflexivity).
  all: cbn [make_dirs].
  all: assert (Hsplit : exists h r, q ++ [g] = anc ++ h :: r) by (rewrite Hq, <- app_assoc; eexists _, _; reflexivity).
  all: destruct Hsplit as (h & r & Hsplit).
  all: destruct (metawalk_done w anc Hw Hca) as ([i|] & Hm & Hi).
  1, 3: pose proof (metawalk_resolves _ _ _ Hm) as Hres; destruct (Hi i eq_refl) as [x Hx]; rewrite (stat_dir _ _ cwd _ _ _ Hr Hc Hca Hres Hx);
    cbn [obind]; unfold stat_of; destruct (Hway _ _ _ _ _ Hsplit Hres Hx) as [Hk Hdm];
    replace (is_dir (i_mode x)) with true by (symmetry; apply Z.eqb_eq; exact Hdm).
  - exists w. split; [reflexivity|]. rewrite app_nil_r in Hq. subst q. split; [eauto|]. split; [auto|exact Hway].
  - apply IH; [rewrite Hq, <- app_assoc; reflexivity|exact Hr|exact Hc|exact Hway|].
    intros a f' E. apply snoc_eq in E as [<- _]. eauto.
  - (* missing, last *)
    pose proof (metawalk_none _ _ Hm) as Hno. rewrite (stat_missing _ _ cwd _ Hr Hc Hca Hno). cbn [obind].
    replace ((err ENOENT =? err ENOENT) && true) with true by reflexivity.
    destruct anc as [|f anc _] using rev_ind; [exfalso; exact (Hno _ (res_root _))|].
    destruct (Hpar _ _ eq_refl) as (d & x & Hd & Hx & Hk). destruct (mkdir_ok _ _ _ _ _ _ _ Hr Hc Hca Hd Hx Hk Hno) as [w2 E].
    rewrite E. cbn [obind]. rewrite Z.eqb_refl. exists w2. split; [reflexivity|].
    destruct (mkdir_creates _ _ _ _ _ _ _ (anc ++ [f]) Hr Hc ltac:(apply denotes_normpath; symmetry; apply normpath_render; exact Hca) E ltac:(lia)) as (i & Cr & No & _).
    assert (Hr2 : reach true w2) by (eapply reach_step; [exact Hr|exact E|exact I]). rewrite app_nil_r in Hq. subst q.
    pose proof (way_dirs_mkdir _ _ _ _ _ Hw (reach_winv _ _ Hr2) Hcq ltac:(eexists; reflexivity) Hway Cr No) as Hway2.
    destruct No as (y & Hy & Ky & _). destruct Cr as (_ & [_ N] & _). split; [|split; [|exact Hway2]].
    + exists i, y. split; [apply N; auto|auto].
    + intros j Hj. apply (N _ _ Hcq) in Hj as [Hj|[Hj _]]; [exact Hj|]. exfalso. apply (f_equal length) in Hj. rewrite !app_length in Hj. cbn in Hj. lia.
  - pose proof (metawalk_none _ _ Hm) as Hno. rewrite (stat_missing _ _ cwd _ Hr Hc Hca Hno). cbn [obind].
    replace ((err ENOENT =? err ENOENT) && true) with true by reflexivity.
    destruct anc as [|f0 anc _] using rev_ind; [exfalso; exact (Hno _ (res_root _))|].
    destruct (Hpar _ _ eq_refl) as (d & x & Hd & Hx & Hk). destruct (mkdir_ok _ _ _ _ _ _ _ Hr Hc Hca Hd Hx Hk Hno) as [w2 E].
    rewrite E. cbn [obind]. rewrite Z.eqb_refl. assert (Hr2 : reach true w2) by (eapply reach_step; [exact Hr|exact E|exact I]).
    destruct (mkdir_creates _ _ _ _ _ _ _ (anc ++ [f0]) Hr Hc ltac:(apply denotes_normpath; symmetry; apply normpath_render; exact Hca) E ltac:(lia)) as (i & Cr & No & _).
    assert (Ha0 : (anc ++ [f0]) `prefix_of` (q ++ [g])) by (rewrite Hq, <- !app_assoc; eexists; rewrite <- !app_assoc; reflexivity).
    pose proof (way_dirs_mkdir _ _ _ _ _ Hw (reach_winv _ _ Hr2) Hcq Ha0 Hway Cr No) as Hway2.
    destruct No as (y & Hy & Ky & _). destruct Cr as (U & [_ N] & _ & _ & C2 & _).
    destruct (IH ((anc ++ [f0]) ++ [f]) w2) as (w' & E' & D' & B' & W'); [rewrite Hq, <- !app_assoc; reflexivity|exact Hr2|rewrite C2; exact Hc|exact Hway2| |].
    + intros a f' Ea. apply snoc_eq in Ea as [<- _]. exists i, y. split; [apply N; auto|auto].
    + exists w'. split; [exact E'|]. split; [exact D'|]. split; [|exact W']. intros j Hj. apply B' in Hj. apply (N _ _ Hcq) in Hj as [Hj|[Hj _]]; [exact Hj|].
      exfalso. rewrite Hq in Hj. apply (f_equal length) in Hj. rewrite !app_length in Hj. cbn in Hj. lia.
Qed.

Lemma open_ok w c cwd q g d x : reach true w -> w_cwd w !! c = Some cwd -> canonical (q ++ [g]) -> ~ none_free (w_fds w) c 0 ->
  resolves (w_ino w) q d -> w_ino w !! d = Some x -> i_kind x = KDir ->
  (forall i y, resolves (w_ino w) (q ++ [g]) i -> w_ino w !! i = Some y -> i_kind y = KFile) ->
  exists w' fd, step w c (Open (render (q ++ [g])) WFLAGS S_IRWXA) = Done (w', Ret fd) /\ 0 <= fd.
Proof.
  intros Hr Hc Hq Hfree Hd Hx Hk Hfile. pose proof (reach_winv _ _ Hr) as Hw. unfold step. rewrite Hc. unfold ret, open_syscall.
  rewrite normpath_render by exact Hq. replace (String.eqb (render (q ++ [g])) "") with false by reflexivity.
  destruct (next_fd w c 0) as [fd|] eqn:Ef; [|exfalso; apply Hfree, next_fd_none_eq, Ef]. apply next_fd_some in Ef as [_ Hfd].
  rewrite (mwap_dir _ _ g _ _ Hw Hd Hx Hk). cbn [obind]. destruct (i_dict x !! g) as [i|] eqn:Eg.
  - assert (Hres : resolves (w_ino w) (q ++ [g]) i) by (eapply res_step; eauto).
    destruct (resolves_exists _ _ _ Hw Hq Hres) as [y Hy]. pose proof (Hfile _ _ Hres Hy) as Hky.
    replace (Z.land WFLAGS (Z.lor O_CREAT O_EXCL) =? Z.lor O_CREAT O_EXCL) with false by reflexivity.
    unfold get_ino. rewrite Hy. cbn [obind]. rewrite Hky. replace (Z.land WFLAGS O_TRUNC =? O_TRUNC) with true by reflexivity.
    destruct (inv_file w i y (u_inv _ Hw) Hy Hky) as (_ & b & Hb & _). unfold remove_host. wcbn. rewrite Hb. cbn [obind]. eexists _, _. split; [reflexivity|cbn [snd]; lia].
  - replace (negb (hasbit WFLAGS O_CREAT)) with false by reflexivity. replace (Z.land S_IFCHR WFLAGS =? S_IFCHR) with false by reflexivity.
    replace (negb (sane_mode S_IRWXA)) with false by reflexivity. unfold file_name. rewrite last_snoc.
    unfold add_child, get_ino. rewrite Hx. cbn [obind]. eexists _, _. split; [reflexivity|cbn [snd]; lia].
Qed.

Lemma fstat_done w c fd i pos fl : reach true w -> w_fds w !! (c, fd) = Some (FFile i pos fl) -> exists s, step w c (Fstat fd) = Done s.
Proof.
  intros Hr Hd. pose proof (reach_winv _ _ Hr) as Hw. destruct (slot_cwd _ _ _ _ Hw Hd) as [cwd Hc]. unfold step, same, fstat_syscall. rewrite Hc, (range_slot _ _ _ _ Hw Hd).
  cbn [obind]. destruct (open_alive _ i (c, fd) Hr) as (x & Hx & _); [eexists _, _; exact Hd|]. unfold get_ino. rewrite Hx. cbn [obind]. eauto.
Qed.

Lemma resolves_upto t q r : forall d, resolves t (q ++ r) d -> exists i, resolves t q i.
Proof.
  induction r as [|f r IH] using rev_ind; intros d H; [rewrite app_nil_r in H; eauto|]. rewrite app_assoc in H.
  apply resolves_snoc in H as (e & x & H & _). exact (IH _ H).
Qed.
Lemma snoc_split {A} (q p : list A) g f r : q ++ [g] = p ++ f :: r -> exists r', q = p ++ r'.
Proof.
  destruct r as [|h r _] using rev_ind; intros H.
  - apply app_inj_tail in H as [-> _]. exists []. rewrite app_nil_r. reflexivity.
  - change (p ++ f :: r ++ [h]) with (p ++ (f :: r) ++ [h]) in H. rewrite app_assoc in H. apply app_inj_tail in H as [-> _]. eauto.
Qed.

(** A regular file stays one while its bytes are written *)
Lemma added_kind L w w' q i x y : winv w -> canonical q -> added L w w' -> resolves (w_ino w) q i -> w_ino w !! i = Some x -> w_ino w' !! i = Some y ->
  i_kind y = i_kind x /\ i_mode y = i_mode x.
Proof. intros Hw Hq A Hr Hx Hy. destruct (ad_obj _ _ _ A _ _ _ Hq Hr Hx) as (z & Hz & K1 & K2 & _). assert (z = y) by congruence. subst z. auto. Qed.

Lemma cp_names_ok c bs q w cwd : canonical q -> q <> [] -> reach true w -> w_cwd w !! c = Some cwd -> way_free w q -> ~ none_free (w_fds w) c 0 ->
  exists w', cp_names c true bs q w = Done (w', true) /\ holds_file w' q bs /\ way_dirs w' q.
Proof.
  intros Hq Hne Hr Hc [Hfile Hway] Hfree. destruct q as [|g q _] using rev_ind; [congruence|].
  destruct (make_dirs_ok c q g cwd Hq q [] w eq_refl Hr Hc Hway) as (w1 & E1 & (d & x & Hd & Hx & Hk) & B1 & V1); [intros a f E; destruct a; discriminate E|].
  assert (Hpre : ([] ++ q) `prefix_of` (q ++ [g])) by (exists [g]; reflexivity).
  destruct (make_dirs_added _ _ _ cwd Hq _ _ _ _ _ Hpre Hr Hc E1) as (R1 & [P1 P2] & A1).
  pose proof (reach_winv _ _ R1) as W1. assert (Hc1 : w_cwd w1 !! c = Some cwd) by (rewrite P2; exact Hc).
  assert (Hfile1 : forall i y, resolves (w_ino w1) (q ++ [g]) i -> w_ino w1 !! i = Some y -> i_kind y = KFile).
  { intros i y Hi Hy. apply B1 in Hi. destruct (resolves_exists _ _ _ (reach_winv _ _ Hr) Hq Hi) as [y0 Hy0].
    rewrite (proj1 (added_kind _ _ _ _ _ _ _ (reach_winv _ _ Hr) Hq A1 Hi Hy0 Hy)). eauto. }
  destruct (open_ok w1 c cwd q g d x R1 Hc1 Hq ltac:(rewrite P1; exact Hfree) Hd Hx Hk Hfile1) as (w2 & fd & E2 & Hfd).
  destruct (open_copy _ _ cwd _ _ _ R1 Hc1 Hq E2 Hfd) as (i & fl & R2 & F2 & N2 & C2 & A2 & S2 & M2 & Z2). specialize (Z2 Hfile1).
  assert (D2 : w_fds w2 !! (c, fd) = Some (FFile i 0 fl)) by (rewrite F2; apply lookup_insert).
  destruct (chunks_spec bs) as [K1 K2].
  destruct (write_all_exact c fd fl i (chunks bs) [] 0 w2 R2 D2 ltac:(lia) Z2 K2) as (w3 & E3 & Z3). rewrite K1 in E3, Z3. cbn [app] in Z3. rewrite Z.add_0_l in E3.
  destruct (write_all_touch _ _ _ _ _ _ _ i 0 fl R2 D2 E3) as (R3 & T3 & C3 & pos & F3).
  assert (D3 : w_fds w3 !! (c, fd) = Some (FFile i pos fl)) by (rewrite F3; apply lookup_insert).
  destruct (fstat_done _ _ _ _ _ _ R3 D3) as [s Es].
  destruct (close_total _ _ _ _ (reach_winv _ _ R3) (ltac:(rewrite C3, C2, Hc1; eauto)) D3) as (w4 & E4 & _).
  destruct (close_step _ _ _ _ _ i pos fl R3 D3 E4) as (R4 & T4 & F4 & C4 & _).
  exists w4. split; [|split].
  - assert (Er : removelast (q ++ [g]) = q) by apply removelast_snoc. clear - E1 E2 E3 E4 Es Er Hfd.
    destruct (q ++ [g]) as [|q0 qr] eqn:Eq; [destruct q; discriminate Eq|]. unfold cp_names. rewrite Er, E1. cbn [obind negb].
    fold WFLAGS. rewrite E2. cbn [obind]. destruct (Z.ltb_spec fd 0); [lia|]. rewrite E3. cbn [obind]. unfold len. rewrite Z.eqb_refl. cbn [negb].
    rewrite Es. cbn [obind]. rewrite E4. cbn [obind]. reflexivity.
  - pose proof (touched_same_names _ _ _ (reach_winv _ _ R2) (reach_winv _ _ R3) T3) as N3.
    assert (S3 : resolves (w_ino w3) (q ++ [g]) i) by (apply N3; assumption).
    destruct (file_of_bytes _ _ _ (reach_winv _ _ R3) Z3) as (y & Hy & Ky & _).
    destruct (st_obj _ _ T4 _ _ (resolves_named _ _ _ Hq S3) Hy) as (z & Hz & Kz & _ & _ & _ & _ & Bz).
    exists i, z. split; [|split; [exact Hz|split; [congruence|congruence]]].
    apply (same_paths _ _ _ _ (v_n _ (u_inv _ (reach_winv _ _ R3))) (v_n _ (u_inv _ (reach_winv _ _ R4))) (st_names _ _ T4)); assumption.
  - assert (A4 : added [q ++ [g]] w1 w4).
    { apply (added_trans _ _ w2); [constructor; [exact Hq|constructor]|exact A2|].
      apply (touched_added [q ++ [g]] (q ++ [g]) i); [eapply reach_winv; eassumption..|left; reflexivity|exact S2|].
      apply (touched_trans _ _ w3); [exact T3|apply still_touched; exact T4]. }
    intros p f r j y Ep Hp Hy.
    assert (Hcp : canonical p) by (apply (canonical_prefix _ _ Hq); rewrite Ep; eexists; reflexivity).
    destruct (snoc_split _ _ _ _ _ Ep) as [r' Er]. rewrite Er in Hd. destruct (resolves_upto _ _ _ _ Hd) as [j1 Hj1].
    assert (j = j1) by exact (resolves_det _ _ _ _ Hp (ad_old _ _ _ A4 _ _ Hcp Hj1)). subst j1.
    destruct (resolves_exists _ _ _ W1 Hcp Hj1) as [y1 Hy1]. destruct (V1 _ _ _ _ _ Ep Hj1 Hy1) as [K3 K4].
    destruct (added_kind _ _ _ _ _ _ _ W1 Hcp A4 Hj1 Hy1 Hy) as [K5 K6]. unfold dir_mode in *. rewrite K5, K6. auto.
Qed.
