(** Exact answers of select, poll and epoll_wait. *)
From Verif Require Import Base NetModel NetSpec NetInv NetStep NetReady NetThm NetReadySpec.
Local Open Scope list_scope.
Local Open Scope Z_scope.
Opaque fd_list next_fd fresh_cage.

(** ** Writers *)
Lemma wide_ready n c fd b : in_range fd = true -> pipe_writer n c fd ->
  wr_ready n c fd = Some (Some b) -> (b = true <-> wide n c fd).
Proof.
  intros Hg (p & fl & Hd) H. unfold wr_ready in H. rewrite Hd in H.
  destruct (n_pipe n !! p) as [x|] eqn:Hx; [|discriminate H]. injection H as <-.
  assert (E : forall bs, Z.of_nat (length bs) = 4097 -> step n c (Write fd bs) =
    match pipe_write x bs (nonblock fl) with inl (x', o) => Go (put_pipe p x' n) o | inr _ => Block end).
  { intros bs _. cbn [step]. unfold write_call. rewrite Hg, Hd, Hx. reflexivity. }
  unfold select_write, wide. split.
  - intros S bs L. rewrite (E bs L). unfold pipe_write. rewrite L. change (4097 =? 0) with false. cbv iota.
    destruct (p_nr x =? 0); [eexists; right; reflexivity|]. rewrite orb_false_r in S.
    unfold PIPE_BUF in *. destruct (Z.ltb_spec (room x) 4096); [lia|].
    replace (Z.min 4097 (room x)) with 4097 by lia. change (4097 =? 4097) with true. cbn [orb]. eexists. left. reflexivity.
  - intros W. destruct (W (repeat 0 (Z.to_nat 4097))) as [n' Q]; [rewrite repeat_length; reflexivity|].
    rewrite E in Q by (rewrite repeat_length; reflexivity). unfold pipe_write in Q. rewrite repeat_length in Q.
    change (Z.of_nat (Z.to_nat 4097)) with 4097 in Q. change (4097 =? 0) with false in Q. cbv iota in Q.
    destruct (p_nr x =? 0); [apply orb_true_r|]. rewrite orb_false_r. unfold PIPE_BUF in *.
    destruct (Z.ltb_spec (room x) 4096).
    + destruct (nonblock fl); destruct Q as [Q|Q]; discriminate Q.
    + destruct (Z.ltb_spec 4096 (room x)); [reflexivity|]. exfalso.
      replace (Z.min 4097 (room x)) with 4096 in Q by lia. change (4096 =? 4097) with false in Q. cbn [orb] in Q.
      destruct (nonblock fl); destruct Q as [Q|Q]; discriminate Q.
Qed.
Lemma select_writers n c nfds r w e late n' k rs ws fd :
  step n c (Select nfds r w e late) = Go n' (Sets k rs ws) ->
  0 <= fd < nfds -> within fd w -> pipe_writer n c fd -> (within fd ws <-> wide n c fd).
Proof.
  intros H Hf Hw P. apply select_spec in H as [-> H]. apply round_spec in H as (H1 & _ & _ & H4).
  destruct w as [w|]; [|done]. destruct ws as [ws|]; [|done]. cbn [within] in *. destruct H4 as [A B].
  destruct (B fd Hf Hw) as [b Eb]. rewrite <- (wide_ready n c fd b (fdmax fd ltac:(lia) ltac:(lia)) P Eb).
  rewrite A. split; [intros (_ & _ & X); congruence|]. intros ->. auto.
Qed.
Lemma select_waits_writers n c nfds r w e late fd : step n c (Select nfds r w e late) = Block ->
  0 <= fd < nfds -> within fd w -> pipe_writer n c fd -> ~ wide n c fd.
Proof.
  cbn [step]. unfold select_call.
  destruct (select_round n c nfds r w e) as [[x|[[k rs] ws]]|] eqn:E; [done| |done].
  destruct (negb (k =? 0) || late) eqn:B; [done|]. intros _ Hf Hw P.
  apply orb_false_iff in B as [B ->]. apply negb_false_iff, Z.eqb_eq in B as ->.
  apply round_spec in E as (H1 & H2 & H3 & H4).
  pose proof (osize_pos rs). pose proof (osize_pos ws). pose proof (osize_0 ws fd ltac:(lia)) as N.
  destruct w as [w|]; [|done]. destruct ws as [ws|]; [|done]. cbn [within] in *. destruct H4 as [A B].
  destruct (B fd Hf Hw) as [b Eb]. rewrite <- (wide_ready n c fd b (fdmax fd ltac:(lia) ltac:(lia)) P Eb).
  intros ->. apply N, A. auto.
Qed.

(** ** Poll of one descriptor *)
Lemma poll_range n c fd ev r : poll_one n c fd ev = Some (inr r) -> 0 <= fd ->
  reqd ev POLLIN \/ reqd ev POLLOUT -> in_range fd = true.
Proof.
  intros H Hf W. unfold poll_one in H. replace (fd <? 0) with false in H by lia.
  destruct ((FD_SET_MAX_FD <=? fd) && _) eqn:Q; [discriminate H|].
  apply fdmax; [done|]. destruct (Z.leb_spec FD_SET_MAX_FD fd); [|done]. exfalso. cbn [andb] in Q.
  apply negb_false_iff, Z.eqb_eq in Q. unfold reqd in W.
  assert (Z : forall bit, Z.land (POLLIN + POLLPRI + POLLOUT) bit = bit -> Z.land ev bit = 0).
  { intros bit Eb. rewrite <- Eb, Z.land_assoc, Q. apply Z.land_0_l. }
  rewrite (Z POLLIN eq_refl), (Z POLLOUT eq_refl) in W. lia.
Qed.
Lemma poll_known n c fd ev r : poll_one n c fd ev = Some (inr r) -> 0 <= fd -> is_open n c fd ->
  r <> POLLNVAL /\
  (reqd ev POLLIN -> exists b, rd_ready n c fd = Some (Some b)) /\
  (reqd ev POLLOUT -> exists b, wr_ready n c fd = Some (Some b)).
Proof.
  intros H Hf [d O]. pose proof (poll_one_spec _ _ _ _ _ H) as (_ & _ & _ & _ & E & _).
  assert (N : r <> POLLNVAL) by (intros X; rewrite (E X) in O; discriminate O).
  split; [exact N|]. unfold poll_one in H. replace (fd <? 0) with false in H by lia.
  destruct ((FD_SET_MAX_FD <=? fd) && _) eqn:Q; [discriminate H|].
  destruct (select_round _ _ _ _ _ _) as [[x|[[k rs] ws]]|] eqn:R; [| |discriminate H].
  { destruct (x =? err EBADF); [|discriminate H]. injection H as <-. by destruct N. }
  apply round_spec in R as (_ & _ & R1 & R2). destruct rs as [rs|]; [|done]. destruct ws as [ws|]; [|done].
  split; intros W; [apply R1|apply R2]; try lia; apply want_spec; done.
Qed.
(** as [poll_one_spec], for open descriptors *)
Lemma poll_flags n c fd ev r : poll_one n c fd ev = Some (inr r) -> 0 <= fd -> is_open n c fd ->
  (hasbit r POLLIN = true <-> reqd ev POLLIN /\ rd_ready n c fd = Some (Some true)) /\
  (hasbit r POLLOUT = true <-> reqd ev POLLOUT /\ wr_ready n c fd = Some (Some true)) /\
  (hasbit r POLLPRI = true -> reqd ev POLLPRI).
Proof.
  intros H Hf O. destruct (poll_known _ _ _ _ _ H Hf O) as [N _].
  pose proof (poll_one_spec _ _ _ _ _ H) as (A & B & C & _). rewrite A, B. tauto.
Qed.
(** what is known of a descriptor gives the truth *)
Lemma truth_of n c fd ev e :
  (reqd ev POLLIN \/ reqd ev POLLOUT -> in_range fd = true) ->
  (reqd ev POLLIN -> plain_reader n c fd -> exists b, rd_ready n c fd = Some (Some b)) ->
  (reqd ev POLLOUT -> pipe_writer n c fd -> exists b, wr_ready n c fd = Some (Some b)) ->
  (is_open n c fd -> (hasbit e POLLIN = true <-> reqd ev POLLIN /\ rd_ready n c fd = Some (Some true)) /\
    (hasbit e POLLOUT = true <-> reqd ev POLLOUT /\ wr_ready n c fd = Some (Some true))) ->
  (hasbit e POLLIN = true -> reqd ev POLLIN) -> (hasbit e POLLOUT = true -> reqd ev POLLOUT) ->
  (hasbit e POLLPRI = true -> reqd ev POLLPRI) -> truth n c fd ev e.
Proof.
  intros G R W B I O P. split; [exact I|]. split; [exact O|]. split; [exact P|]. split.
  - intros Q PL. assert (OP : is_open n c fd).
    { destruct PL as [(p & fl & D)|(h & fl & s & D & _)]; unfold is_open; rewrite D; eauto. }
    destruct (B OP) as [BI _]. destruct (R Q PL) as [b Eb].
    pose proof (read_ready n c fd b (G (or_introl Q)) PL Eb) as X. destruct b.
    + assert (H : hasbit e POLLIN = true) by (apply BI; auto). rewrite H.
      split; [split; auto|]. split; [discriminate|]. intros Y. destruct (now_waits _ _ _ X Y).
    + assert (H : hasbit e POLLIN = false).
      { destruct (hasbit e POLLIN); [|reflexivity]. destruct (proj1 BI eq_refl) as [_ Y]. congruence. }
      rewrite H. split; [|split; auto]. split; [discriminate|]. intros Y. destruct (now_waits _ _ _ Y X).
  - intros Q PW. assert (OP : is_open n c fd) by (destruct PW as (p & fl & D); unfold is_open; rewrite D; eauto).
    destruct (B OP) as [_ BO]. destruct (W Q PW) as [b Eb].
    rewrite <- (wide_ready n c fd b (G (or_intror Q)) PW Eb), BO, Eb. split; [intros [_ [= ->]]; reflexivity|intros ->; auto].
Qed.
Lemma poll_truth n c fd ev r : poll_one n c fd ev = Some (inr r) -> 0 <= fd -> truth n c fd ev r.
Proof.
  intros H Hf. pose proof (poll_one_spec _ _ _ _ _ H) as (A & B & C & _). apply truth_of.
  - exact (poll_range _ _ _ _ _ H Hf).
  - intros Q P. apply (poll_known _ _ _ _ _ H Hf); [|exact Q].
    destruct P as [(p & fl & D)|(h & fl & s & D & _)]; unfold is_open; rewrite D; eauto.
  - intros Q P. apply (poll_known _ _ _ _ _ H Hf); [|exact Q]. destruct P as (p & fl & D); unfold is_open; rewrite D; eauto.
  - intros O. destruct (poll_flags _ _ _ _ _ H Hf O) as (X & Y & _). split; [exact X|exact Y].
  - intros X. apply A in X. tauto.
  - intros X. apply B in X. tauto.
  - exact C.
Qed.
Lemma poll_exact n c l late n' k rs i fd ev r : step n c (Poll l late) = Go n' (Polled k rs) ->
  l !! i = Some (fd, ev) -> rs !! i = Some r -> 0 <= fd -> truth n c fd ev r.
Proof.
  intros H H1 H2. apply poll_spec in H as (-> & H & ->). apply poll_pass_spec in H.
  apply poll_truth. exact (Forall2_lookup_lr _ _ _ _ _ _ H H1 H2).
Qed.
Lemma poll_waits_writers n c l late fd ev : step n c (Poll l late) = Block -> (fd, ev) ∈ l -> 0 <= fd ->
  reqd ev POLLOUT -> pipe_writer n c fd -> ~ wide n c fd.
Proof.
  cbn [step]. unfold poll_call. destruct (poll_pass n c l) as [[x|rs]|] eqn:E; [done| |done].
  destruct (negb (count_pos rs =? 0) || late) eqn:B; [done|]. intros _ Hin Hf W P.
  apply orb_false_iff in B as [B ->]. apply negb_false_iff, Z.eqb_eq in B.
  apply poll_pass_spec in E. apply elem_of_list_lookup in Hin as [i Hi].
  destruct (Forall2_lookup_l _ _ _ _ _ E Hi) as (r & Hr & Ho).
  rewrite (count_pos_0 _ _ _ B Hr) in Ho. destruct (poll_truth _ _ _ _ _ Ho Hf) as (_ & _ & _ & _ & T).
  intros X. apply (T W P) in X. discriminate X.
Qed.

(** ** epoll_wait *)
Fixpoint pick (reg : list (Z * (Z * Z))) (rs : list Z) (max : nat) : list Z :=
  match max, reg, rs with
  | S m, (fd, _) :: reg', r :: rs' =>
      if Z.land r (POLLIN + POLLPRI + POLLOUT) =? 0 then pick reg' rs' max else fd :: pick reg' rs' m
  | _, _, _ => []
  end.
Lemma pick_sub reg : forall rs max fd, fd ∈ pick reg rs max -> fd ∈ reg.*1.
Proof.
  induction reg as [|[f v] reg IH]; intros rs max fd H; [destruct max; cbn in H; by apply elem_of_nil in H|].
  destruct max as [|m]; [by apply elem_of_nil in H|]. destruct rs as [|r rs]; [by apply elem_of_nil in H|]. cbn [pick] in H.
  cbn. destruct (_ =? 0); [right; eauto|]. apply elem_of_cons in H as [->|H]; [left|right; eauto].
Qed.
Lemma pick_nodup reg : forall rs max, NoDup reg.*1 -> NoDup (pick reg rs max).
Proof.
  induction reg as [|[f v] reg IH]; intros rs max H; [destruct max; constructor|].
  destruct max as [|m]; [constructor|]. destruct rs as [|r rs]; [constructor|]. cbn [pick]. cbn in H.
  apply NoDup_cons in H as [H1 H2]. destruct (_ =? 0); [auto|]. constructor; [|auto]. intros X. apply H1. by eapply pick_sub.
Qed.
Lemma pick_report reg : forall rs max, length reg = length rs ->
  Forall2 (fun fd x => exists i ev r, reg !! i = Some (fd, (ev, x.2)) /\ rs !! i = Some r /\
    x.1 = Z.land r (POLLIN + POLLPRI + POLLOUT) /\ x.1 <> 0) (pick reg rs max) (report reg rs max).
Proof.
  induction reg as [|[f [ev d]] reg IH]; intros rs max L; [destruct max; constructor|].
  destruct max as [|m]; [constructor|]. destruct rs as [|r rs]; [discriminate L|]. cbn [pick report].
  assert (L' : length reg = length rs) by (cbn in L; lia).
  assert (W : forall m, Forall2 (fun fd x => exists i ev0 r0, ((f, (ev, d)) :: reg) !! i = Some (fd, (ev0, x.2)) /\ (r :: rs) !! i = Some r0 /\
    x.1 = Z.land r0 (POLLIN + POLLPRI + POLLOUT) /\ x.1 <> 0) (pick reg rs m) (report reg rs m)).
  { intros m'. eapply Forall2_impl; [exact (IH rs m' L')|]. intros fd x (i & e & r' & A). exists (S i), e, r'. exact A. }
  destruct (Z.eqb_spec (Z.land r (POLLIN + POLLPRI + POLLOUT)) 0) as [E|E]; [apply W|].
  constructor; [|apply W]. exists O, ev, r. cbn. auto.
Qed.
Lemma pick_all reg : forall rs max i fd v r, (length (report reg rs max) < max)%nat ->
  reg !! i = Some (fd, v) -> rs !! i = Some r -> Z.land r (POLLIN + POLLPRI + POLLOUT) <> 0 -> fd ∈ pick reg rs max.
Proof.
  induction reg as [|[f [ev d]] reg IH]; intros rs max i fd v r L A B C; [discriminate A|].
  destruct max as [|m]; [lia|]. destruct rs as [|r0 rs]; [discriminate B|]. cbn [pick report] in *.
  destruct (Z.eqb_spec (Z.land r0 (POLLIN + POLLPRI + POLLOUT)) 0) as [E|E].
  - destruct i as [|i]; [injection B as ->; congruence|]. eapply IH; [exact L|exact A|exact B|exact C].
  - destruct i as [|i]; [injection A as -> _; left|]. right. eapply IH; [cbn in L; lia|exact A|exact B|exact C].
Qed.
Lemma mask_reqd ev bit : Z.land (POLLIN + POLLPRI + POLLOUT) bit = bit ->
  reqd (Z.land ev (POLLIN + POLLPRI + POLLOUT)) bit <-> reqd ev bit.
Proof. intros E. unfold reqd. rewrite <- Z.land_assoc. by rewrite E. Qed.
Lemma mask_hasbit r bit : Z.land (POLLIN + POLLPRI + POLLOUT) bit = bit ->
  hasbit (Z.land r (POLLIN + POLLPRI + POLLOUT)) bit = hasbit r bit.
Proof. intros E. unfold hasbit. rewrite <- Z.land_assoc. by rewrite E. Qed.
(** the truth about a watched descriptor *)
Lemma live_truth n c ep reg fd ev r : n_fds n !! (c, ep) = Some (DEpoll reg) -> 0 <= fd ->
  poll_one (put_fd c ep (DEpoll (live n c reg)) n) c fd (Z.land ev (POLLIN + POLLPRI + POLLOUT)) = Some (inr r) ->
  truth n c fd ev (Z.land r (POLLIN + POLLPRI + POLLOUT)).
Proof.
  intros He Hf Q. set (n1 := put_fd c ep (DEpoll (live n c reg)) n) in *.
  destruct (rd_ready_put n c ep reg (live n c reg) fd He) as [Er Ew]. fold n1 in Er, Ew.
  assert (OP : is_open n c fd -> is_open n1 c fd).
  { unfold is_open, n1. cbn. intros O. destruct (decide (ep = fd)) as [->|N]; [rewrite lookup_insert; eauto|].
    rewrite lookup_insert_ne by congruence. exact O. }
  pose proof (poll_one_spec _ _ _ _ _ Q) as (A & B & C & _). apply truth_of.
  - intros W. apply (poll_range _ _ _ _ _ Q Hf). destruct W as [W|W]; [left|right]; apply mask_reqd; [done|exact W|done|exact W].
  - intros W P. rewrite <- Er. apply (poll_known _ _ _ _ _ Q Hf); [|by apply mask_reqd].
    apply OP. destruct P as [(p & fl & D)|(h & fl & s & D & _)]; unfold is_open; rewrite D; eauto.
  - intros W P. rewrite <- Ew. apply (poll_known _ _ _ _ _ Q Hf); [|by apply mask_reqd].
    apply OP. destruct P as (p & fl & D); unfold is_open; rewrite D; eauto.
  - intros O. destruct (poll_flags _ _ _ _ _ Q Hf (OP O)) as (X & Y & _).
    rewrite !mask_hasbit by done. rewrite X, Y, Er, Ew, !mask_reqd by done. tauto.
  - rewrite mask_hasbit by done. intros X. apply A in X as (_ & X & _). exact (proj1 (mask_reqd ev _ eq_refl) X).
  - rewrite mask_hasbit by done. intros X. apply B in X as (_ & X & _). exact (proj1 (mask_reqd ev _ eq_refl) X).
  - rewrite mask_hasbit by done. intros X. apply C in X. exact (proj1 (mask_reqd ev _ eq_refl) X).
Qed.
Lemma plain_open n c fd : plain_reader n c fd -> is_open n c fd.
Proof. intros [(p & fl & D)|(h & fl & s & D & _)]; unfold is_open; rewrite D; eauto. Qed.
Lemma writer_open n c fd : pipe_writer n c fd -> is_open n c fd.
Proof. intros (p & fl & D); unfold is_open; rewrite D; eauto. Qed.
Lemma ewait_exact n c ep max late n' k evs : step n c (Ewait ep max late) = Go n' (Events k evs) ->
  exists fds, NoDup fds /\
  Forall2 (fun fd x => exists ev, watched n c ep fd = Some (ev, x.2) /\ is_open n c fd /\ x.1 <> 0 /\
    (0 <= fd -> truth n c fd ev x.1)) fds evs /\
  (k < max -> forall fd ev d, watched n c ep fd = Some (ev, d) -> 0 <= fd -> fd ∉ fds -> truth n c fd ev 0).
Proof.
  cbn [step]. unfold ewait_call. destruct (negb _); [discriminate|].
  destruct (n_fds n !! (c, ep)) as [[| reg | | |]|] eqn:He; try discriminate.
  destruct (Z.leb_spec max 0); [discriminate|].
  set (lv := live n c reg). set (n1 := put_fd c ep (DEpoll lv) n).
  destruct (poll_pass n1 c _) as [[x|rs]|] eqn:P; [discriminate| |discriminate].
  destruct (_ || late); [|discriminate]. intros [= <- <- <-].
  pose proof (poll_pass_spec _ _ _ _ P) as F.
  assert (L : length (map_to_list lv) = length rs) by (apply Forall2_length in F; by rewrite map_length in F).
  assert (One : forall i fd ev d r, map_to_list lv !! i = Some (fd, (ev, d)) -> rs !! i = Some r ->
    poll_one n1 c fd (Z.land ev (POLLIN + POLLPRI + POLLOUT)) = Some (inr r)).
  { intros i fd ev d r A B.
    apply (Forall2_lookup_lr _ _ _ i (fd, Z.land ev (POLLIN + POLLPRI + POLLOUT)) r F); [|exact B].
    rewrite list_lookup_fmap, A. reflexivity. }
  exists (pick (map_to_list lv) rs (Z.to_nat max)). split; [apply pick_nodup, NoDup_fst_map_to_list|]. split.
  - eapply Forall2_impl; [exact (pick_report _ _ _ L)|]. intros fd [e d] (i & ev & r & A & B & C & D). cbn [fst snd] in *.
    assert (Hl : lv !! fd = Some (ev, d)) by (apply elem_of_map_to_list; by eapply elem_of_list_lookup_2).
    unfold lv in Hl. rewrite live_spec in Hl. case_decide as O; [|discriminate Hl].
    exists ev. unfold watched. rewrite He. split; [exact Hl|]. split; [exact O|]. split; [exact D|]. intros Hf.
    rewrite C. exact (live_truth n c ep reg fd ev r He Hf (One _ _ _ _ _ A B)).
  - intros K fd ev d W Hf N. unfold watched in W. rewrite He in W.
    destruct (decide (is_open n c fd)) as [O|O].
    + assert (Hl : lv !! fd = Some (ev, d)) by (unfold lv; rewrite live_spec; case_decide; [exact W|contradiction]).
      apply elem_of_map_to_list, elem_of_list_lookup in Hl as [i Hi].
      destruct (lookup_lt_is_Some_2 rs i) as [r Hr]; [rewrite <- L; exact (lookup_lt_Some _ _ _ Hi)|].
      assert (Z0 : Z.land r (POLLIN + POLLPRI + POLLOUT) = 0).
      { destruct (decide (Z.land r (POLLIN + POLLPRI + POLLOUT) = 0)) as [E|E]; [exact E|]. destruct N.
        eapply pick_all; [|exact Hi|exact Hr|exact E]. lia. }
      pose proof (live_truth n c ep reg fd ev r He Hf (One _ _ _ _ _ Hi Hr)) as T. rewrite Z0 in T. exact T.
    + split_and!; try (intros X; discriminate X).
      * intros _ X. destruct O. by apply plain_open.
      * intros _ X. destruct O. by apply writer_open.
Qed.
Lemma ewait_waits n c ep max late : step n c (Ewait ep max late) = Block ->
  late = false /\ forall fd ev d, watched n c ep fd = Some (ev, d) -> 0 <= fd -> truth n c fd ev 0.
Proof.
  intros H. assert (G : late = false /\ exists n', step n c (Ewait ep max true) = Go n' (Events 0 []) /\ 0 < max).
  { revert H. cbn [step]. unfold ewait_call. destruct (negb _); [discriminate|].
    destruct (n_fds n !! (c, ep)) as [[| reg | | |]|] eqn:He; try discriminate.
    destruct (Z.leb_spec max 0); [discriminate|].
    destruct (poll_pass _ c _) as [[x|rs]|] eqn:P; [discriminate| |discriminate].
    destruct (negb (count_pos rs =? 0) || late) eqn:B; [discriminate|]. intros _.
    apply orb_false_iff in B as [B ->]. apply negb_false_iff, Z.eqb_eq in B. split; [reflexivity|]. rewrite orb_true_r.
    assert (Z0 : forall l m, report l rs m = []).
    { clear -B. assert (A : forall i r, rs !! i = Some r -> r = 0) by (intros i r; by apply count_pos_0). clear B.
      intros l. revert rs A. induction l as [|[f [e d]] l IH]; intros rs A m; [by destruct m|]. destruct m; [reflexivity|].
      destruct rs as [|r rs]; [reflexivity|]. cbn [report]. rewrite (A 0%nat r eq_refl). cbn. apply IH. intros i x Hx. exact (A (Datatypes.S i) x Hx). }
    rewrite Z0. eexists. split; [reflexivity|exact H]. }
  destruct G as (-> & n' & G & M). split; [reflexivity|]. intros fd ev d W Hf.
  destruct (ewait_exact _ _ _ _ _ _ _ _ G) as (fds & _ & F & C). apply Forall2_nil_inv_r in F. subst fds.
  apply (C M fd ev d W Hf). apply not_elem_of_nil.
Qed.
