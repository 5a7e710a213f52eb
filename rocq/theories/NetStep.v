(** The invariant is kept by every call. *)
From Verif Require Import Base NetModel NetSpec NetInv.
Local Open Scope list_scope.
Local Open Scope Z_scope.

Lemma on_sock_go n c fd f n' x : on_sock n c fd f = Go n' x ->
  (n' = n /\ (x = Ret (err EBADF) /\ n_fds n !! (c, fd) = None \/
              x = Ret (err ENOTSOCK) /\ exists d, n_fds n !! (c, fd) = Some d /\
                                          forall h fl, d <> DSock h fl)) \/
  exists h fl s, in_range fd = true /\ n_fds n !! (c, fd) = Some (DSock h fl) /\
    n_sock n !! h = Some s /\ f h fl s = Go n' x.
Proof.
  unfold on_sock. destruct (in_range fd); [|done]. cbn.
  destruct (n_fds n !! (c, fd)) as [[h fl|reg|p wr fl| |]|] eqn:Hd.
  - destruct (n_sock n !! h) as [s|] eqn:Hs; [|done]. intros H. right. by exists h, fl, s.
  - intros [= <- <-]. left. split; [done|right]. split; [done|]. by eexists.
  - intros [= <- <-]. left. split; [done|right]. split; [done|]. by eexists.
  - intros [= <- <-]. left. split; [done|right]. split; [done|]. by eexists.
  - intros [= <- <-]. left. split; [done|right]. split; [done|]. by eexists.
  - intros [= <- <-]. left. split; [done|]. by left.
Qed.

(** Destruct every match and if in [H : _ = Go n' x] *)
Opaque fd_list next_fd fresh_cage.
Ltac splitgo H :=
  repeat match type of H with
  | Go _ _ = Go _ _ => fail 1
  | context [match ?e with _ => _ end] =>
      let E := fresh "E" in destruct e eqn:E; try discriminate H
  end.

Lemma shr_put_desc c k h fl fl' n :
  n_fds n !! (c, k) = Some (DSock h fl) -> shr n (put_fd c k (DSock h fl') n).
Proof. intros H. apply shr_put_fd. by exists (c, k), fl. Qed.

Lemma send_sock_shr n h fl s bs n' x : send_sock n h fl s bs = Go n' x -> shr n n'.
Proof.
  unfold send_sock. intros H. splitgo H; injection H as <- <-; try apply shr_refl.
  by eapply shr_put_pipe.
Qed.
Lemma recv_sock_shr n h fl s len flags n' x : n_sock n !! h = Some s ->
  recv_sock n h fl s len flags = Go n' x -> shr n n'.
Proof.
  intros Hs. unfold recv_sock. intros H.
  assert (K : forall b, shr n (put_sock h (with_peek b s) n)).
  { intros b. apply (shr_put_sock h s); [done|by left|by left]. }
  splitgo H; injection H as <- <-; try apply shr_refl; try apply K.
  all: eapply shr_trans; [apply K|by eapply shr_put_pipe].
Qed.

Definition grows (o : nop) : bool :=
  match o with
  | Socket _ _ _ | Connect _ _ | Accept _ | Socketpair _ _ _ | Pipe _ => true
  | _ => false
  end.

Lemma shutdown_shr n c fd how n' x : shutdown_call n c fd how = Go n' x -> shr n n'.
Proof.
  unfold shutdown_call. destruct (in_range fd); [|intros [= <- <-]; apply shr_refl]. cbn.
  destruct (_ || _); [|intros [= <- <-]; apply shr_refl]. cbn.
  intros H. apply on_sock_go in H as [[-> _]|(h & fl & s & _ & Hd & Hs & H)]; [apply shr_refl|].
  injection H as <- <-.
  assert (K : shr n (put_sock h (with_st (shut_state how (s_st s)) s) n)).
  { apply (shr_put_sock h s); [done|by left|by left]. }
  destruct (how =? SHUT_RDWR); [|done]. eapply shr_trans; [exact K|apply shr_drop_fd].
Qed.

Lemma step_shr n c o n' x : grows o = false -> step n c o = Go n' x -> shr n n'.
Proof.
  intros Hg. destruct o; cbn in Hg; try discriminate Hg; cbn; intros H.
  - (* Bind *)
    apply on_sock_go in H as [[-> _]|(h & fl & s & _ & Hd & Hs & H)]; [apply shr_refl|].
    destruct (bind_inner p s n) as [[s1 n1] r] eqn:E. injection H as <- <-.
    destruct (bind_inner_shr _ _ _ _ _ _ E) as (A & B & _ & _ & F & G & _).
    eapply shr_trans; [exact A|]. apply (shr_put_sock h s); [by rewrite B|done|done].
  - (* Listen *)
    apply on_sock_go in H as [[-> _]|(h & fl & s & _ & Hd & Hs & H)]; [apply shr_refl|].
    destruct (s_st s); injection H as <- <-; try apply shr_refl.
    apply (shr_put_sock h s); [done|by left|by left].
  - unfold conn_wait in H. injection H as <- <-. apply shr_wait.
  - unfold conn_done in H. destruct (bool_decide _); [|discriminate H].
    injection H as <- <-. apply shr_set_woken.
  - (* Send *)
    apply on_sock_go in H as [[-> _]|(h & fl & s & _ & Hd & Hs & H)]; [apply shr_refl|].
    by eapply send_sock_shr.
  - (* Recv *)
    apply on_sock_go in H as [[-> _]|(h & fl & s & _ & Hd & Hs & H)]; [apply shr_refl|].
    by eapply recv_sock_shr.
  - (* Read *)
    unfold read_call in H. destruct (in_range fd); [|discriminate H]. cbn [negb] in H.
    destruct (n_fds n !! (c, fd)) as [[h fl|reg|p wr fl| |]|] eqn:Hd.
    + destruct (n_sock n !! h) as [s|] eqn:Hs; [|discriminate H]. by eapply recv_sock_shr.
    + injection H as <- <-. apply shr_refl.
    + splitgo H; injection H as <- <-; try apply shr_refl. by eapply shr_put_pipe.
    + injection H as <- <-. apply shr_refl.
    + injection H as <- <-. apply shr_refl.
    + injection H as <- <-. apply shr_refl.
  - (* Write *)
    unfold write_call in H. destruct (in_range fd); [|discriminate H]. cbn [negb] in H.
    destruct (n_fds n !! (c, fd)) as [[h fl|reg|p wr fl| |]|] eqn:Hd.
    + destruct (n_sock n !! h) as [s|] eqn:Hs; [|discriminate H]. by eapply send_sock_shr.
    + injection H as <- <-. apply shr_refl.
    + splitgo H; injection H as <- <-; try apply shr_refl. by eapply shr_put_pipe.
    + injection H as <- <-. apply shr_refl.
    + injection H as <- <-. apply shr_refl.
    + injection H as <- <-. apply shr_refl.
  - by eapply shutdown_shr.
  - (* Close *)
    unfold close_call in H. destruct (in_range fd); [|discriminate H]. cbn [negb] in H.
    destruct (n_fds n !! (c, fd)) as [d|]; [|injection H as <- <-; apply shr_refl].
    destruct (release d n) as [n1|] eqn:E; [|discriminate H]. injection H as <- <-.
    eapply shr_trans; [exact (release_shr _ _ _ E)|apply shr_drop_fd].
  - (* Dup *)
    unfold dup_call in H. destruct (fd =? 0); [injection H as <- <-; apply shr_refl|].
    destruct (in_range fd); [|injection H as <- <-; apply shr_refl]. cbn [negb] in H.
    destruct (n_fds n !! (c, fd)) as [d|] eqn:Hd; [|injection H as <- <-; apply shr_refl].
    destruct (next_fd n c 0) as [k|]; [|injection H as <- <-; apply shr_refl].
    assert (K : forall n1, retain false d n = Some n1 -> shr n (put_fd c k (dup_desc d) n1)).
    { intros n1 E. eapply shr_trans; [exact (retain_shr _ _ _ _ E)|].
      apply shr_put_fd, desc_ok_dup, (desc_ok_table _ (c, fd)). by rewrite (retain_fds _ _ _ _ E). }
    destruct d; try (injection H as <- <-; apply shr_refl).
    all: destruct (retain false _ n) as [n1|] eqn:E; [|discriminate H]; injection H as <- <-.
    all: by apply K.
  - (* Dup2 *)
    unfold dup2_call in H. destruct (in_range fd2); [|injection H as <- <-; apply shr_refl].
    cbn [negb] in H. destruct (fd2 =? fd); [injection H as <- <-; apply shr_refl|].
    destruct (in_range fd); [|injection H as <- <-; apply shr_refl]. cbn [negb] in H.
    destruct (n_fds n !! (c, fd)) as [d|] eqn:Hd; [|injection H as <- <-; apply shr_refl].
    destruct (match n_fds n !! (c, fd2) with Some d2 => release d2 n | None => Some n end)
      as [n1|] eqn:E1; [|discriminate H].
    assert (S1 : shr n n1 /\ n_fds n1 = n_fds n).
    { destruct (n_fds n !! (c, fd2)) as [d2|].
      - split; [exact (release_shr _ _ _ E1)|exact (release_fds _ _ _ E1)].
      - injection E1 as <-. split; [apply shr_refl|done]. }
    destruct S1 as [S1 F1].
    assert (K : forall n2, retain false d n1 = Some n2 -> shr n (put_fd c fd2 (dup_desc d) n2)).
    { intros n2 E. eapply shr_trans; [exact S1|].
      eapply shr_trans; [exact (retain_shr _ _ _ _ E)|].
      apply shr_put_fd, desc_ok_dup, (desc_ok_table _ (c, fd)).
      by rewrite (retain_fds _ _ _ _ E), F1. }
    destruct d; try (injection H as <- <-; exact S1).
    all: destruct (retain false _ n1) as [n2|] eqn:E; [|discriminate H]; injection H as <- <-.
    all: by apply K.
  - (* Fork *)
    unfold fork_call in H. destruct (fresh_cage n child); [|discriminate H]. cbn [negb] in H.
    destruct (fork_fds c child fd_list n) as [n1|] eqn:E; [|discriminate H].
    injection H as <- <-. exact (fork_fds_shr _ _ _ _ _ E).
  - (* Open *)
    unfold open_call in H. destruct (next_fd n c 0); injection H as <- <-; [|apply shr_refl].
    apply shr_put_fd. by destruct stream.
  - (* SetNb *)
    unfold setnb_call in H. destruct (in_range fd); [|discriminate H]. cbn [negb] in H.
    destruct (n_fds n !! (c, fd)) as [[h fl|reg|p wr fl| |]|] eqn:Hd; injection H as <- <-;
      try apply shr_refl.
    + apply shr_put_fd. by exists (c, fd), fl.
    + apply shr_put_fd. by exists (c, fd), wr, fl.
  - (* Ioctl *)
    unfold ioctl_call in H. destruct (in_range fd); [|discriminate H]. cbn [negb] in H.
    destruct (n_fds n !! (c, fd)) as [[h fl|reg|p wr fl| |]|] eqn:Hd; injection H as <- <-;
      try apply shr_refl.
    apply shr_put_fd. by exists (c, fd), fl.
  - (* Unlink *)
    unfold unlink_call in H. destruct (n_names n !! p) as [[i|]|]; [| |injection H as <- <-; apply shr_refl].
    + destruct (n_ino n !! i) as [[r l]|]; [|discriminate H]. injection H as <- <-.
      eapply shr_trans; [apply shr_set_names|]. eapply shr_trans; [apply shr_set_bound|apply shr_set_ino].
    + injection H as <- <-. eapply shr_trans; [apply shr_set_names|apply shr_set_bound].
  - unfold create_call in H. destruct (n_names n !! p); injection H as <- <-;
      [apply shr_refl|apply shr_set_names].
  - (* Getopt *)
    unfold getopt_call in H. destruct (in_range fd); [|injection H as <- <-; apply shr_refl].
    cbn [negb] in H.
    apply on_sock_go in H as [[-> _]|(h & fl & s & _ & Hd & Hs & H)]; [apply shr_refl|].
    splitgo H; injection H as <- <-; apply shr_refl.
  - (* Setopt *)
    unfold setopt_call in H. destruct (in_range fd); [|injection H as <- <-; apply shr_refl].
    cbn [negb] in H.
    apply on_sock_go in H as [[-> _]|(h & fl & s & _ & Hd & Hs & H)]; [apply shr_refl|].
    splitgo H; injection H as <- <-; try apply shr_refl.
    all: apply (shr_put_sock h s); [done|by left|by left].
  - unfold select_call in H. splitgo H; injection H as <- <-; apply shr_refl.
  - unfold poll_call in H. splitgo H; injection H as <- <-; apply shr_refl.
  - unfold ecreate_call in H. splitgo H; injection H as <- <-; try apply shr_refl.
    by apply shr_put_fd.
  - unfold ectl_call in H. splitgo H; injection H as <- <-; try apply shr_refl.
    all: by apply shr_put_fd.
  - unfold ewait_call in H. splitgo H; injection H as <- <-; try apply shr_refl.
    all: by apply shr_put_fd.
Qed.

Lemma alloc_pipe_fresh cap n x : ninv n -> ~ reads (alloc_pipe cap n) (n_npipe n) x.
Proof. intros I H. by apply (fresh_pipe n x I). Qed.

Lemma connect_ninv n c fd p n' x : ninv n -> connect_call n c fd p = Go n' x -> ninv n'.
Proof.
  intros I H. unfold connect_call in H.
  apply on_sock_go in H as [[-> _]|(h & fl & s & _ & Hd & Hs & H)]; [done|].
  destruct (bool_decide (s_st s = NotConn)); cbn in H; [|by injection H as <- <-].
  destruct (auto_bind s n) as [s1 n1] eqn:E.
  destruct (auto_bind_shr _ _ _ _ E) as (A & B & _ & _ & F & G & _).
  pose proof (shr_ninv _ _ A I) as I1.
  assert (Hs1 : n_sock n1 !! h = Some s) by (by rewrite B).
  destruct (bool_decide (p ∈ n_bound n1)); cbn [negb] in H.
  2:{ injection H as <- <-. eapply shr_ninv; [|exact I1]. by apply (shr_put_sock h s). }
  destruct (s_ui s1) as [u|] eqn:Hu; [|discriminate H].
  destruct (s_loc s1) as [l|] eqn:Hl; [|discriminate H].
  injection H as <- _.
  set (n2 := alloc_pipe UDSOCK_CAPACITY n1).
  pose proof (ninv_alloc_pipe UDSOCK_CAPACITY _ I1) as I2. fold n2 in I2.
  set (n3 := alloc_pipe UDSOCK_CAPACITY n2).
  pose proof (ninv_alloc_pipe UDSOCK_CAPACITY _ I2) as I3. fold n3 in I3.
  assert (P0 : 0 <= n_npipe n1) by apply I1.
  assert (P3 : n_npipe n3 = n_npipe n1 + 2) by (cbn; lia).
  assert (N2 : forall y, ~ reads n3 (n_npipe n1 + 1) y).
  { intros y Hy. apply (fresh_pipe n2 y I2). exact Hy. }
  assert (N1 : forall y, ~ reads n3 (n_npipe n1) y).
  { intros y Hy. apply (fresh_pipe n1 y I1). exact Hy. }
  match goal with |- ninv (bump_req (set_pend (insert _ ?q) (put_sock _ ?s2 _))) =>
    set (qq := q); set (ss := s2) end.
  eapply (shr_ninv (set_pend (insert p qq) (put_sock h ss n3))); [apply shr_bumps|].
  apply ninv_put_pend.
  - apply ninv_put_sock; [done|by exists s| |].
    + intros z. cbn. intros [= <-]. split; [lia|]. intros y Hy. by destruct (N2 y).
    + intros z. cbn. intros [= <-]. lia.
  - cbn. lia.
  - cbn. lia.
  - intros [k|k|] Hy.
    + cbn [reads] in Hy. rewrite from_put in Hy. case_decide as D.
      * cbn in Hy. injection Hy as Hy. lia.
      * exact (N1 (HSock k) Hy).
    + exact (N1 (HPend k) Hy).
    + exact (N1 HPipe Hy).
Qed.

Lemma accept_ninv n c fd n' x : ninv n -> accept_call n c fd = Go n' x -> ninv n'.
Proof.
  intros I H. unfold accept_call in H. destruct (in_range fd); [|discriminate H]. cbn [negb] in H.
  destruct (n_fds n !! (c, fd)) as [d|]; [|by injection H as <- <-].
  destruct (next_fd n c 0) as [k|]; [|by injection H as <- <-].
  destruct d as [h fl| | | |]; try (by injection H as <- <-).
  destruct (n_sock n !! h) as [s|] eqn:Hs; [|discriminate H].
  destruct (negb _); [by injection H as <- <-|].
  destruct (s_loc s) as [l|]; [|discriminate H].
  destruct (n_pend n !! l) as [q|] eqn:Hq.
  2:{ destruct (nonblock fl); [by injection H as <- <-|discriminate H]. }
  destruct (bool_decide (q_cond q = Some false)); [discriminate H|].
  set (n1 := set_pend (delete l) n) in *.
  assert (A1 : shr n n1) by apply shr_del_pend.
  set (n2 := if bool_decide (q_cond q = Some true) then _ else n1) in *.
  assert (A2 : shr n1 n2).
  { unfold n2. destruct (bool_decide _); [apply shr_set_woken|apply shr_refl]. }
  assert (Q2 : n_pend n2 = delete l (n_pend n)).
  { unfold n2. by destruct (bool_decide _). }
  assert (RQ : reads n (q_rp q) (HPend l)) by (exists q; done).
  assert (Rng : 0 <= q_rp q < n_npipe n) by exact (ni_rd _ I _ _ RQ).
  assert (Wng : 0 <= q_sp q < n_npipe n).
  { apply (ni_wr _ I). right. by exists l, q. }
  pose proof (shr_trans _ _ _ A1 A2) as A.
  (* in any state that descends from [n2], nobody reads [q_rp q] *)
  assert (NR : forall n3, shr n2 n3 -> forall y, ~ reads n3 (q_rp q) y).
  { intros n3 A3 y Hy. apply (sh_rd _ _ A3) in Hy.
    pose proof (sh_rd _ _ A _ _ Hy) as Hy'.
    pose proof (ni_one _ I _ _ _ RQ Hy') as <-.
    destruct Hy as (q' & Hq' & _). rewrite Q2, lookup_delete in Hq'. discriminate Hq'. }
  assert (Fin : forall n3 st fl', shr n2 n3 ->
     (forall p, recv_of st = Some p -> p = q_rp q) -> (forall p, send_of st = Some p -> p = q_sp q) ->
     ninv (put_fd c k (DSock (n_nsock n2) fl') (alloc_sock st n3))).
  { intros n3 st fl' A3 Hr Hw. pose proof (shr_trans _ _ _ A A3) as A'.
    apply ninv_put_fd.
    - apply ninv_alloc_sock.
      + exact (shr_ninv _ _ A' I).
      + intros p Hp. rewrite (Hr p Hp). rewrite (sh_np _ _ A'). split; [done|]. by apply NR.
      + intros p Hp. rewrite (Hw p Hp). by rewrite (sh_np _ _ A').
    - cbn. rewrite (sh_ns _ _ A3). pose proof (ni_s0 _ (shr_ninv _ _ A I)). lia. }
  destruct (n_names n !! q_from q) as [[i|]|].
  - destruct (s_ui s); [|discriminate H].
    destruct (ino_ref 1 i n2) as [n3|] eqn:Ei; [|discriminate H]. injection H as <- <-.
    apply (Fin n3); [exact (shr_ino_ref _ _ _ _ Ei)| |]; cbn; congruence.
  - destruct (s_ui s); [|discriminate H]. injection H as <- <-.
    apply (Fin n2); [apply shr_refl| |]; cbn; congruence.
  - injection H as <- <-.
    apply (Fin n2); [apply shr_refl| |]; cbn; congruence.
Qed.

Lemma pair_fd_ninv c h fl na nb f :
  ninv na -> 0 <= h < n_nsock na ->
  match next_fd na c 0 with
  | Some k => (put_fd c k (DSock h fl) na, k)
  | None => (na, err ENFILE)
  end = (nb, f) ->
  ninv nb /\ n_nsock nb = n_nsock na /\ n_npipe nb = n_npipe na /\ n_sock nb = n_sock na /\
  n_pend nb = n_pend na.
Proof.
  intros I Hh. destruct (next_fd na c 0) as [k|]; intros [= <- <-]; [|done].
  split; [|done]. by apply ninv_put_fd.
Qed.

Lemma socketpair_ninv n c d t pr n' x : ninv n -> socketpair_call n c d t pr = Go n' x -> ninv n'.
Proof.
  intros I H. unfold socketpair_call in H.
  destruct (negb (d =? AF_UNIX)); [by injection H as <- <-|].
  destruct (negb _ || _); [by injection H as <- <-|].
  destruct (negb _); [by injection H as <- <-|].
  set (fl := fl_of _ _) in H.
  set (s := new_sock NotConn t fl) in H.
  set (h1 := n_nsock n) in *. set (h2 := n_nsock n + 1) in *.
  set (na := alloc_sock s (alloc_sock s n)) in H.
  assert (Ia : ninv na).
  { apply ninv_alloc_sock; [apply ninv_alloc_sock; [done| |]| |]; cbn; done. }
  assert (S0 : 0 <= n_nsock n) by apply I.
  assert (Na : n_nsock na = n_nsock n + 2) by (cbn; lia).
  destruct (match next_fd na c 0 with Some k => _ | None => _ end) as [nb f1] eqn:E1.
  destruct (pair_fd_ninv c h1 fl na nb f1 Ia ltac:(unfold h1; lia) E1) as (Ib & Sb & Pb & Kb & _).
  destruct (match next_fd nb c 0 with Some k => _ | None => _ end) as [nc f2] eqn:E2.
  destruct (pair_fd_ninv c h2 fl nb nc f2 Ib ltac:(unfold h2; lia) E2) as (Ic & Sc & Pc & Kc & _).
  destruct (bind_inner (Auto (n_auto n)) s (bump_auto (bump_auto nc))) as [[s1 nd] r1] eqn:B1.
  destruct (bind_inner (Auto (n_auto n + 1)) s nd) as [[s2 ne] r2] eqn:B2.
  destruct (bind_inner_shr _ _ _ _ _ _ B1) as (A1 & K1 & _).
  destruct (bind_inner_shr _ _ _ _ _ _ B2) as (A2 & K2 & _).
  assert (Ie : ninv ne).
  { eapply shr_ninv; [exact A2|]. eapply shr_ninv; [exact A1|].
    eapply shr_ninv; [apply shr_bumps|]. eapply shr_ninv; [apply shr_bumps|]. exact Ic. }
  assert (Se : n_sock ne = n_sock na).
  { rewrite K2, K1. change (n_sock nc = n_sock na). by rewrite Kc, Kb. }
  destruct (s_ui s1) as [u1|]; [|discriminate H].
  destruct (s_ui s2) as [u2|]; [|discriminate H].
  set (n2 := alloc_pipe UDSOCK_CAPACITY ne) in H.
  pose proof (ninv_alloc_pipe UDSOCK_CAPACITY _ Ie) as I2. fold n2 in I2.
  set (nf := alloc_pipe UDSOCK_CAPACITY n2) in H.
  pose proof (ninv_alloc_pipe UDSOCK_CAPACITY _ I2) as If. fold nf in If.
  destruct (ino_ref 1 (u_ino u1) nf) as [ng|] eqn:G1; [|discriminate H].
  destruct (ino_ref 1 (u_ino u2) ng) as [nh|] eqn:G2; [|discriminate H].
  injection H as <- _.
  pose proof (shr_trans _ _ _ (shr_ino_ref _ _ _ _ G1) (shr_ino_ref _ _ _ _ G2)) as A3.
  pose proof (shr_ninv _ _ A3 If) as Ih.
  assert (Kh : n_sock nh = n_sock na).
  { rewrite (ino_ref_sock _ _ _ _ G2), (ino_ref_sock _ _ _ _ G1). exact Se. }
  assert (Ph : n_npipe nh = n_npipe ne + 2) by (rewrite (sh_np _ _ A3); cbn; lia).
  assert (P0 : 0 <= n_npipe ne) by apply Ie.
  assert (N2 : forall y, ~ reads nh (n_npipe ne + 1) y).
  { intros y Hy. apply (sh_rd _ _ A3) in Hy. apply (fresh_pipe n2 y I2). exact Hy. }
  assert (N1 : forall y, ~ reads nh (n_npipe ne) y).
  { intros y Hy. apply (sh_rd _ _ A3) in Hy. apply (fresh_pipe ne y Ie). exact Hy. }
  assert (D1 : is_Some (n_sock nh !! h1)).
  { rewrite Kh. apply (ni_sock _ Ia). unfold h1. lia. }
  assert (D2 : is_Some (n_sock nh !! h2)).
  { rewrite Kh. apply (ni_sock _ Ia). unfold h2. lia. }
  apply ninv_put_sock.
  - apply ninv_put_sock; [done|done| |].
    + intros z. cbn. intros [= <-]. split; [lia|]. intros y Hy. by destruct (N2 y).
    + intros z. cbn. intros [= <-]. lia.
  - cbn. rewrite lookup_insert_ne by (unfold h1, h2; lia). exact D2.
  - intros z. cbn. intros [= <-]. split; [lia|]. intros [k|k|] Hy.
    + cbn [reads] in Hy. rewrite from_put in Hy. case_decide as D.
      * cbn in Hy. injection Hy as Hy. lia.
      * destruct (N1 (HSock k) Hy).
    + destruct (N1 (HPend k) Hy).
    + destruct (N1 HPipe Hy).
  - intros z. cbn. intros [= <-]. lia.
Qed.

Lemma pipe_ninv n c nb n' x : ninv n -> pipe_call n c nb = Go n' x -> ninv n'.
Proof.
  intros I H. unfold pipe_call in H.
  pose proof (ninv_alloc_pipe PIPE_CAPACITY _ I) as I1.
  set (n1 := alloc_pipe PIPE_CAPACITY n) in *.
  assert (P0 : 0 <= n_npipe n) by apply I.
  destruct (next_fd n1 c 0) as [a|]; [|by injection H as <- <-].
  set (n2 := put_fd c a _ n1) in H.
  assert (I2 : ninv n2).
  { apply ninv_put_fd; [done|]. cbn. split; [lia|].
    intros y Hy. destruct (alloc_pipe_fresh PIPE_CAPACITY n y I). exact Hy. }
  destruct (next_fd n2 c 0) as [b|]; [|by injection H as <- <-].
  injection H as <- <-. apply ninv_put_fd; [done|]. cbn. split; [lia|].
  intros [h|l|] Hy; [| |done].
  - exfalso. exact (alloc_pipe_fresh PIPE_CAPACITY n (HSock h) I Hy).
  - exfalso. exact (alloc_pipe_fresh PIPE_CAPACITY n (HPend l) I Hy).
Qed.

Lemma step_ninv n c o n' x : ninv n -> step n c o = Go n' x -> ninv n'.
Proof.
  intros I H. destruct (grows o) eqn:Hg.
  - destruct o; cbn in Hg; try discriminate Hg; cbn [step] in H.
    + unfold socket_call in H. splitgo H; injection H as <- <-; try done.
      apply ninv_put_fd.
      * apply ninv_alloc_sock; [done| |]; cbn; done.
      * cbn. pose proof (ni_s0 _ I). lia.
    + by eapply connect_ninv.
    + by eapply accept_ninv.
    + by eapply socketpair_ninv.
    + by eapply pipe_ninv.
  - eapply shr_ninv; [by eapply step_shr|done].
Qed.
Lemma init_ninv : ninv init_net.
Proof.
  assert (F : forall k d, n_fds init_net !! k = Some d -> d = DStream).
  { intros k d Hk. cbn in Hk.
    apply lookup_insert_Some in Hk as [[_ <-]|[_ Hk]]; [done|].
    apply lookup_insert_Some in Hk as [[_ <-]|[_ Hk]]; [done|].
    by apply lookup_singleton_Some in Hk as [_ <-]. }
  split; cbn; try lia.
  - intros h. rewrite lookup_empty. split; [by intros []|lia].
  - intros h. rewrite lookup_empty. split; [by intros []|lia].
  - intros h (k & fl & Hk). apply F in Hk. discriminate Hk.
  - intros p [[h Hh]|(l & q & Hq & _)]; [unfold into in Hh; cbn in Hh; by rewrite lookup_empty in Hh|].
    cbn in Hq. by rewrite lookup_empty in Hq.
  - intros p [h|l|]; cbn [reads].
    + unfold from. cbn. by rewrite lookup_empty.
    + intros (q & Hq & _). cbn in Hq. by rewrite lookup_empty in Hq.
    + intros (k & wr & fl & Hk). apply F in Hk. discriminate Hk.
  - intros p x y Hx. exfalso. destruct x as [h|l|]; cbn [reads] in Hx.
    + unfold from in Hx. cbn in Hx. by rewrite lookup_empty in Hx.
    + destruct Hx as (q & Hq & _). cbn in Hq. by rewrite lookup_empty in Hq.
    + destruct Hx as (k & wr & fl & Hk). apply F in Hk. discriminate Hk.
Qed.
Lemma run_ninv l n n' xs : ninv n -> run n l = Some (n', xs) -> ninv n'.
Proof.
  revert n xs. induction l as [|[c o] l IH]; intros n xs I; cbn; [by intros [= <- <-]|].
  destruct (step n c o) as [n1 x| |] eqn:E; [|done|done].
  destruct (run n1 l) as [[n2 ys]|] eqn:R; [|done]. intros [= <- <-].
  exact (IH n1 ys (step_ninv _ _ _ _ _ I E) R).
Qed.
Lemma reachable_ninv n : reachable n -> ninv n.
Proof. intros (l & xs & H). exact (run_ninv _ _ _ _ init_ninv H). Qed.
