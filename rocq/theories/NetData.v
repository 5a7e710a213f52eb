(** Bytes in flight on a local connection: proofs for C57. *)
From Verif Require Import Base NetModel NetSpec NetInv NetStep.
Local Open Scope list_scope.
Local Open Scope Z_scope.
Opaque fd_list next_fd fresh_cage.

(** ** Steps that move no bytes *)
Record qt (n n' : net) : Prop := {
  qt_sock : forall h s, n_sock n !! h = Some s ->
    exists s', n_sock n' !! h = Some s' /\ s_peek s' = s_peek s;
  qt_pipe : forall p x, n_pipe n !! p = Some x ->
    exists x', n_pipe n' !! p = Some x' /\ p_buf x' = p_buf x
}.
Lemma qt_refl n : qt n n.
Proof. split; eauto. Qed.
Lemma qt_trans a b c : qt a b -> qt b c -> qt a c.
Proof.
  intros [A1 A2] [B1 B2]. split.
  - intros h s Hs. destruct (A1 h s Hs) as (s' & Hs' & E). destruct (B1 h s' Hs') as (t & Ht & F).
    exists t. split; [done|congruence].
  - intros h s Hs. destruct (A2 h s Hs) as (s' & Hs' & E). destruct (B2 h s' Hs') as (t & Ht & F).
    exists t. split; [done|congruence].
Qed.
Lemma qt_put_fd c k d n : qt n (put_fd c k d n).
Proof. split; eauto. Qed.
Lemma qt_drop_fd c k n : qt n (drop_fd c k n).
Proof. split; eauto. Qed.
Lemma qt_other n n' : n_sock n' = n_sock n -> n_pipe n' = n_pipe n -> qt n n'.
Proof. intros A B. split; rewrite ?A, ?B; eauto. Qed.
Lemma qt_put_sock h s s' n :
  n_sock n !! h = Some s -> s_peek s' = s_peek s -> qt n (put_sock h s' n).
Proof.
  intros Hs Hp. split; [|eauto]. intros k t Ht. cbn. destruct (decide (h = k)) as [<-|E].
  - rewrite lookup_insert. exists s'. split; [done|congruence].
  - rewrite lookup_insert_ne by done. eauto.
Qed.
Lemma qt_upd_pipe p f n : (forall x, p_buf (f x) = p_buf x) -> qt n (upd_pipe p f n).
Proof.
  intros Hf. split; [eauto|]. intros k x Hx. cbn. destruct (decide (p = k)) as [<-|E].
  - rewrite lookup_alter, Hx. exists (f x). split; [done|apply Hf].
  - rewrite lookup_alter_ne by done. eauto.
Qed.
Lemma qt_opt_pipe o f n : (forall x, p_buf (f x) = p_buf x) -> qt n (opt_pipe o f n).
Proof. intros Hf. destruct o; [by apply qt_upd_pipe|apply qt_refl]. Qed.
Lemma qt_alloc_pipe cap n : ninv n -> qt n (alloc_pipe cap n).
Proof.
  intros I. split; [eauto|]. intros p x Hx. cbn. rewrite lookup_insert_ne; [eauto|].
  intros <-. assert (is_Some (n_pipe n !! n_npipe n)) as K by eauto. apply (ni_pipe _ I) in K. lia.
Qed.
Lemma qt_alloc_sock s n : ninv n -> qt n (alloc_sock s n).
Proof.
  intros I. split; [|eauto]. intros h t Ht. cbn. rewrite lookup_insert_ne; [eauto|].
  intros <-. assert (is_Some (n_sock n !! n_nsock n)) as K by eauto. apply (ni_sock _ I) in K. lia.
Qed.
Lemma qt_ino_ref d i n n' : ino_ref d i n = Some n' -> qt n n'.
Proof.
  unfold ino_ref. destruct (n_ino n !! i) as [[r l]|]; [|done].
  destruct (r + d <? 0); intros [= <-]. by apply qt_other.
Qed.
Lemma release_qt d n n' : release d n = Some n' -> qt n n'.
Proof.
  destruct d as [h fl|reg|p wr fl| |]; cbn; try (intros [= <-]; apply qt_refl).
  - destruct (n_sock n !! h) as [s|] eqn:Hs; [|done].
    destruct (s_ui s) as [u|] eqn:Hu; [|intros [= <-]; apply qt_refl].
    set (n1 := opt_pipe (u_send u) decr_w n).
    set (n2 := opt_pipe (u_recv u) decr_r n1).
    set (s' := with_ui (Some _) s).
    destruct (too_many _ _ || too_many _ _); [done|].
    assert (H3 : qt n (put_sock h s' n2)).
    { eapply qt_trans; [by apply (qt_opt_pipe (u_send u) decr_w)|].
      eapply qt_trans; [by apply (qt_opt_pipe (u_recv u) decr_r)|].
      apply (qt_put_sock h s); [|done]. unfold n2, n1. by rewrite !opt_pipe_sock. }
    destruct (u_ino u =? -1); [by intros [= <-]|].
    destruct (_ !! u_ino u) as [[r l]|]; [|done].
    destruct (r =? 0); [done|]. destruct ((r - 1 =? 0) && (l =? 0)).
    + destruct (s_loc s); [|done]. intros [= <-].
      eapply qt_trans; [exact H3|]. by apply qt_other.
    + intros [= <-]. eapply qt_trans; [exact H3|]. by apply qt_other.
  - intros [= <-]. apply qt_upd_pipe. by destruct wr.
Qed.
Lemma retain_qt b d n n' : retain b d n = Some n' -> qt n n'.
Proof.
  destruct d as [h fl|reg|p wr fl| |]; cbn; try (intros [= <-]; apply qt_refl).
  - destruct (n_sock n !! h) as [s|] eqn:Hs; [|done].
    destruct (s_ui s) as [u|] eqn:Hu; [|intros [= <-]; apply qt_refl].
    intros H.
    eapply qt_trans; [by apply (qt_opt_pipe (u_send u) incr_w)|].
    eapply qt_trans; [by apply (qt_opt_pipe (u_recv u) incr_r)|].
    destruct (b && negb (u_ino u =? -1)).
    + exact (qt_ino_ref _ _ _ _ H).
    + injection H as <-. apply qt_refl.
  - intros [= <-]. apply qt_upd_pipe. by destruct wr.
Qed.
Lemma fork_fds_qt c c' l n n' : fork_fds c c' l n = Some n' -> qt n n'.
Proof.
  revert n. induction l as [|k l IH]; intros n; cbn; [intros [= <-]; apply qt_refl|].
  destruct (n_fds n !! (c, k)) as [d|] eqn:Hd; [|apply IH].
  destruct (retain true d n) as [n1|] eqn:Hr; [|done]. intros H.
  eapply qt_trans; [exact (retain_qt _ _ _ _ Hr)|].
  eapply qt_trans; [|exact (IH _ H)]. apply qt_put_fd.
Qed.
Lemma bind_inner_pipe p s n s1 n1 r : bind_inner p s n = (s1, n1, r) -> n_pipe n1 = n_pipe n.
Proof.
  unfold bind_inner, bind_unix. destruct (s_loc s); [by intros [= <- <- <-]|].
  destruct (n_names n !! p); by intros [= <- <- <-].
Qed.
Lemma auto_bind_pipe s n s1 n1 : auto_bind s n = (s1, n1) -> n_pipe n1 = n_pipe n.
Proof.
  unfold auto_bind. destruct (s_loc s); [by intros [= <- <-]|].
  destruct (bind_inner _ s _) as [[a b] d] eqn:E. intros [= <- <-].
  by rewrite (bind_inner_pipe _ _ _ _ _ _ E).
Qed.

Definition moves (o : nop) : bool :=
  match o with Send _ _ | Recv _ _ _ | Read _ _ | Write _ _ => true | _ => false end.

Lemma connect_qt n c fd p n' x : ninv n -> connect_call n c fd p = Go n' x -> qt n n'.
Proof.
  intros I H. unfold connect_call in H.
  apply on_sock_go in H as [[-> _]|(h & fl & s & _ & Hd & Hs & H)]; [apply qt_refl|].
  destruct (bool_decide (s_st s = NotConn)); cbn [negb] in H; [|injection H as <- <-; apply qt_refl].
  destruct (auto_bind s n) as [s1 n1] eqn:E.
  destruct (auto_bind_shr _ _ _ _ E) as (A & B & _ & _ & F & G & P & _).
  pose proof (shr_ninv _ _ A I) as I1.
  assert (Hs1 : n_sock n1 !! h = Some s) by (by rewrite B).
  assert (Q1 : qt n n1) by (apply qt_other; [done|exact (auto_bind_pipe _ _ _ _ E)]).
  destruct (bool_decide (p ∈ n_bound n1)); cbn [negb] in H.
  2:{ injection H as <- <-. eapply qt_trans; [exact Q1|]. by apply (qt_put_sock h s). }
  destruct (s_ui s1) as [u|] eqn:Hu; [|discriminate H].
  destruct (s_loc s1) as [l|] eqn:Hl; [|discriminate H].
  injection H as <- _.
  pose proof (ninv_alloc_pipe UDSOCK_CAPACITY _ I1) as I2.
  eapply qt_trans; [exact Q1|].
  eapply qt_trans; [apply (qt_alloc_pipe UDSOCK_CAPACITY _ I1)|].
  eapply qt_trans; [apply (qt_alloc_pipe UDSOCK_CAPACITY _ I2)|].
  match goal with |- qt ?a (bump_req (set_pend _ (put_sock _ ?s2 _))) =>
    apply (qt_trans a (put_sock h s2 a)) end.
  - apply (qt_put_sock h s); [done|]. cbn. exact P.
  - by apply qt_other.
Qed.
Lemma accept_qt n c fd n' x : ninv n -> accept_call n c fd = Go n' x -> qt n n'.
Proof.
  intros I H. unfold accept_call in H. destruct (in_range fd); [|discriminate H]. cbn [negb] in H.
  destruct (n_fds n !! (c, fd)) as [d|]; [|injection H as <- <-; apply qt_refl].
  destruct (next_fd n c 0) as [k|]; [|injection H as <- <-; apply qt_refl].
  destruct d as [h fl| | | |]; try (injection H as <- <-; apply qt_refl).
  destruct (n_sock n !! h) as [s|] eqn:Hs; [|discriminate H].
  destruct (negb _); [injection H as <- <-; apply qt_refl|].
  destruct (s_loc s) as [l|]; [|discriminate H].
  destruct (n_pend n !! l) as [q|] eqn:Hq.
  2:{ destruct (nonblock fl); [injection H as <- <-; apply qt_refl|discriminate H]. }
  destruct (bool_decide (q_cond q = Some false)); [discriminate H|].
  set (n1 := set_pend (delete l) n) in *.
  set (n2 := if bool_decide (q_cond q = Some true) then _ else n1) in *.
  assert (A : shr n n2).
  { eapply shr_trans; [apply (shr_del_pend l)|]. unfold n2.
    destruct (bool_decide _); [apply shr_set_woken|apply shr_refl]. }
  assert (Q : qt n n2).
  { apply qt_other; unfold n2; by destruct (bool_decide _). }
  assert (Fin : forall n3 st h' fl', shr n2 n3 -> qt n2 n3 ->
     qt n (put_fd c k (DSock h' fl') (alloc_sock st n3))).
  { intros n3 st h' fl' A3 Q3. eapply qt_trans; [exact Q|]. eapply qt_trans; [exact Q3|].
    eapply qt_trans; [apply (qt_alloc_sock st)|apply qt_put_fd].
    exact (shr_ninv _ _ (shr_trans _ _ _ A A3) I). }
  destruct (n_names n !! q_from q) as [[i|]|].
  - destruct (s_ui s); [|discriminate H].
    destruct (ino_ref 1 i n2) as [n3|] eqn:Ei; [|discriminate H]. injection H as <- <-.
    apply Fin; [exact (shr_ino_ref _ _ _ _ Ei)|exact (qt_ino_ref _ _ _ _ Ei)].
  - destruct (s_ui s); [|discriminate H]. injection H as <- <-.
    apply Fin; [apply shr_refl|apply qt_refl].
  - injection H as <- <-. apply Fin; [apply shr_refl|apply qt_refl].
Qed.
Lemma pair_fd_eq c h fl na nb f :
  match next_fd na c 0 with
  | Some k => (put_fd c k (DSock h fl) na, k)
  | None => (na, err ENFILE)
  end = (nb, f) ->
  n_nsock nb = n_nsock na /\ n_pipe nb = n_pipe na /\ n_sock nb = n_sock na.
Proof. destruct (next_fd na c 0) as [k|]; by intros [= <- <-]. Qed.

Lemma socketpair_qt n c d t pr n' x : ninv n -> socketpair_call n c d t pr = Go n' x -> qt n n'.
Proof.
  intros I H. unfold socketpair_call in H.
  destruct (negb (d =? AF_UNIX)); [injection H as <- <-; apply qt_refl|].
  destruct (negb _ || _); [injection H as <- <-; apply qt_refl|].
  destruct (negb _); [injection H as <- <-; apply qt_refl|].
  set (fl := fl_of _ _) in H.
  set (s := new_sock NotConn t fl) in H.
  set (na := alloc_sock s (alloc_sock s n)) in H.
  assert (I0 : ninv (alloc_sock s n)) by (apply ninv_alloc_sock; [done| |]; cbn; done).
  assert (Ia : ninv na) by (apply ninv_alloc_sock; [done| |]; cbn; done).
  assert (Qa : qt n na) by (eapply qt_trans; by apply qt_alloc_sock).
  assert (S0 : 0 <= n_nsock n) by apply I.
  assert (Na : n_nsock na = n_nsock n + 2) by (cbn; lia).
  destruct (match next_fd na c 0 with Some k => _ | None => _ end) as [nb f1] eqn:E1.
  destruct (pair_fd_ninv c (n_nsock n) fl na nb f1 Ia ltac:(lia) E1) as (Ib & Sb & _).
  destruct (pair_fd_eq _ _ _ _ _ _ E1) as (_ & Pb & Kb).
  destruct (match next_fd nb c 0 with Some k => _ | None => _ end) as [nc f2] eqn:E2.
  destruct (pair_fd_ninv c (n_nsock n + 1) fl nb nc f2 Ib ltac:(lia) E2) as (Ic & Sc & _).
  destruct (pair_fd_eq _ _ _ _ _ _ E2) as (_ & Pc & Kc).
  destruct (bind_inner (Auto (n_auto n)) s (bump_auto (bump_auto nc))) as [[s1 nd] r1] eqn:B1.
  destruct (bind_inner (Auto (n_auto n + 1)) s nd) as [[s2 ne] r2] eqn:B2.
  destruct (bind_inner_shr _ _ _ _ _ _ B1) as (A1 & K1 & _).
  destruct (bind_inner_shr _ _ _ _ _ _ B2) as (A2 & K2 & _).
  pose proof (bind_inner_pipe _ _ _ _ _ _ B1) as P1.
  pose proof (bind_inner_pipe _ _ _ _ _ _ B2) as P2.
  assert (Ie : ninv ne).
  { eapply shr_ninv; [exact A2|]. eapply shr_ninv; [exact A1|].
    eapply shr_ninv; [apply shr_bumps|]. eapply shr_ninv; [apply shr_bumps|]. exact Ic. }
  assert (Se : n_sock ne = n_sock na).
  { rewrite K2, K1. change (n_sock nc = n_sock na). by rewrite Kc, Kb. }
  assert (Pe : n_pipe ne = n_pipe na).
  { rewrite P2, P1. change (n_pipe nc = n_pipe na). by rewrite Pc, Pb. }
  destruct (s_ui s1) as [u1|]; [|discriminate H].
  destruct (s_ui s2) as [u2|]; [|discriminate H].
  pose proof (ninv_alloc_pipe UDSOCK_CAPACITY _ Ie) as I2.
  set (nf := alloc_pipe UDSOCK_CAPACITY (alloc_pipe UDSOCK_CAPACITY ne)) in H.
  assert (Qf : qt n nf).
  { eapply qt_trans; [exact Qa|]. eapply qt_trans; [by apply (qt_other na ne)|].
    eapply qt_trans; by apply qt_alloc_pipe. }
  destruct (ino_ref 1 (u_ino u1) nf) as [ng|] eqn:G1; [|discriminate H].
  destruct (ino_ref 1 (u_ino u2) ng) as [nh|] eqn:G2; [|discriminate H].
  injection H as <- _.
  assert (Qh : qt n nh).
  { eapply qt_trans; [exact Qf|]. eapply qt_trans; [exact (qt_ino_ref _ _ _ _ G1)|].
    exact (qt_ino_ref _ _ _ _ G2). }
  split.
  - intros k z Hz. assert (k < n_nsock n).
    { assert (is_Some (n_sock n !! k)) as K by eauto. apply (ni_sock _ I) in K. lia. }
    cbn. rewrite !lookup_insert_ne by lia. exact (qt_sock _ _ Qh k z Hz).
  - exact (qt_pipe _ _ Qh).
Qed.

Lemma step_qt n c o n' x : ninv n -> moves o = false -> step n c o = Go n' x -> qt n n'.
Proof.
  intros I Hg. destruct o; cbn in Hg; try discriminate Hg; cbn [step]; intros H.
  - (* Socket *)
    unfold socket_call in H. splitgo H; injection H as <- <-; try apply qt_refl.
    eapply qt_trans; [by apply qt_alloc_sock|apply qt_put_fd].
  - (* Bind *)
    apply on_sock_go in H as [[-> _]|(h & fl & s & _ & Hd & Hs & H)]; [apply qt_refl|].
    destruct (bind_inner p s n) as [[s1 n1] r] eqn:E. injection H as <- <-.
    destruct (bind_inner_shr _ _ _ _ _ _ E) as (A & B & _ & _ & F & G & P & _).
    apply (qt_trans n n1).
    + apply qt_other; [done|exact (bind_inner_pipe _ _ _ _ _ _ E)].
    + apply (qt_put_sock h s); [by rewrite B|done].
  - (* Listen *)
    apply on_sock_go in H as [[-> _]|(h & fl & s & _ & Hd & Hs & H)]; [apply qt_refl|].
    destruct (s_st s); injection H as <- <-; try apply qt_refl.
    by apply (qt_put_sock h s).
  - by eapply connect_qt.
  - unfold conn_wait in H. injection H as <- <-. by apply qt_other.
  - unfold conn_done in H. destruct (bool_decide _); [|discriminate H].
    injection H as <- <-. by apply qt_other.
  - by eapply accept_qt.
  - by eapply socketpair_qt.
  - (* Shutdown *)
    unfold shutdown_call in H. destruct (in_range fd); [|injection H as <- <-; apply qt_refl].
    cbn [negb] in H. destruct (negb _); [injection H as <- <-; apply qt_refl|].
    apply on_sock_go in H as [[-> _]|(h & fl & s & _ & Hd & Hs & H)]; [apply qt_refl|].
    injection H as <- <-.
    assert (K : qt n (put_sock h (with_st (shut_state how (s_st s)) s) n)).
    { by apply (qt_put_sock h s). }
    destruct (how =? SHUT_RDWR); [|done]. eapply qt_trans; [exact K|apply qt_drop_fd].
  - (* Close *)
    unfold close_call in H. destruct (in_range fd); [|discriminate H]. cbn [negb] in H.
    destruct (n_fds n !! (c, fd)) as [d|]; [|injection H as <- <-; apply qt_refl].
    destruct (release d n) as [n1|] eqn:E; [|discriminate H]. injection H as <- <-.
    eapply qt_trans; [exact (release_qt _ _ _ E)|apply qt_drop_fd].
  - (* Dup *)
    unfold dup_call in H. destruct (fd =? 0); [injection H as <- <-; apply qt_refl|].
    destruct (in_range fd); [|injection H as <- <-; apply qt_refl]. cbn [negb] in H.
    destruct (n_fds n !! (c, fd)) as [d|] eqn:Hd; [|injection H as <- <-; apply qt_refl].
    destruct (next_fd n c 0) as [k|]; [|injection H as <- <-; apply qt_refl].
    destruct d; try (injection H as <- <-; apply qt_refl).
    all: destruct (retain false _ n) as [n1|] eqn:E; [|discriminate H]; injection H as <- <-.
    all: eapply qt_trans; [exact (retain_qt _ _ _ _ E)|apply qt_put_fd].
  - (* Dup2 *)
    unfold dup2_call in H. destruct (in_range fd2); [|injection H as <- <-; apply qt_refl].
    cbn [negb] in H. destruct (fd2 =? fd); [injection H as <- <-; apply qt_refl|].
    destruct (in_range fd); [|injection H as <- <-; apply qt_refl]. cbn [negb] in H.
    destruct (n_fds n !! (c, fd)) as [d|] eqn:Hd; [|injection H as <- <-; apply qt_refl].
    destruct (match n_fds n !! (c, fd2) with Some d2 => release d2 n | None => Some n end)
      as [n1|] eqn:E1; [|discriminate H].
    assert (S1 : qt n n1).
    { destruct (n_fds n !! (c, fd2)) as [d2|].
      - exact (release_qt _ _ _ E1).
      - injection E1 as <-. apply qt_refl. }
    destruct d; try (injection H as <- <-; exact S1).
    all: destruct (retain false _ n1) as [n2|] eqn:E; [|discriminate H]; injection H as <- <-.
    all: eapply qt_trans; [exact S1|]; eapply qt_trans; [exact (retain_qt _ _ _ _ E)|apply qt_put_fd].
  - (* Fork *)
    unfold fork_call in H. destruct (fresh_cage n child); [|discriminate H]. cbn [negb] in H.
    destruct (fork_fds c child fd_list n) as [n1|] eqn:E; [|discriminate H].
    injection H as <- <-. exact (fork_fds_qt _ _ _ _ _ E).
  - (* Pipe *)
    unfold pipe_call in H. splitgo H; injection H as <- <-; try apply qt_refl.
    + eapply qt_trans; [by apply (qt_alloc_pipe PIPE_CAPACITY)|].
      eapply qt_trans; apply qt_put_fd.
    + eapply qt_trans; [by apply (qt_alloc_pipe PIPE_CAPACITY)|apply qt_put_fd].
  - unfold open_call in H. destruct (next_fd n c 0); injection H as <- <-; [|apply qt_refl].
    apply qt_put_fd.
  - unfold setnb_call in H. splitgo H; injection H as <- <-; try apply qt_refl.
    all: apply qt_put_fd.
  - unfold ioctl_call in H. splitgo H; injection H as <- <-; try apply qt_refl.
    all: apply qt_put_fd.
  - unfold unlink_call in H. splitgo H; injection H as <- <-; try apply qt_refl.
    all: by apply qt_other.
  - unfold create_call in H. splitgo H; injection H as <- <-; try apply qt_refl.
    by apply qt_other.
  - unfold getopt_call in H. destruct (in_range fd); [|injection H as <- <-; apply qt_refl].
    cbn [negb] in H.
    apply on_sock_go in H as [[-> _]|(h & fl & s & _ & Hd & Hs & H)]; [apply qt_refl|].
    splitgo H; injection H as <- <-; apply qt_refl.
  - unfold setopt_call in H. destruct (in_range fd); [|injection H as <- <-; apply qt_refl].
    cbn [negb] in H.
    apply on_sock_go in H as [[-> _]|(h & fl & s & _ & Hd & Hs & H)]; [apply qt_refl|].
    splitgo H; injection H as <- <-; try apply qt_refl.
    all: by apply (qt_put_sock h s).
  - unfold select_call in H. splitgo H; injection H as <- <-; apply qt_refl.
  - unfold poll_call in H. splitgo H; injection H as <- <-; apply qt_refl.
  - unfold ecreate_call in H. splitgo H; injection H as <- <-; try apply qt_refl. apply qt_put_fd.
  - unfold ectl_call in H. splitgo H; injection H as <- <-; try apply qt_refl.
    all: apply qt_put_fd.
  - unfold ewait_call in H. splitgo H; injection H as <- <-; try apply qt_refl.
    all: apply qt_put_fd.
Qed.

(** ** Who reads what after a step *)
Lemma step_from n c o n' x h : ninv n -> step n c o = Go n' x -> is_Some (n_sock n !! h) ->
  connects h n c o = false -> le_opt (from n' h) (from n h).
Proof.
  intros I H Hh Hc. destruct (grows o) eqn:Hg.
  2:{ pose proof (step_shr _ _ _ _ _ Hg H) as S. unfold le_opt.
      destruct (from n' h) as [p|] eqn:E; [left|by right].
      symmetry. apply (sh_rd _ _ S p (HSock h)). exact E. }
  assert (Hlt : 0 <= h < n_nsock n) by (by apply (ni_sock _ I)).
  destruct o; cbn in Hg; try discriminate Hg; cbn [step] in H.
  - unfold socket_call in H. splitgo H; injection H as <- <-; try (by left).
    left. unfold from. cbn. rewrite lookup_insert_ne by lia. done.
  - (* Connect *)
    unfold connect_call in H. cbn [connects] in Hc.
    apply on_sock_go in H as [[-> _]|(h0 & fl & s & _ & Hd & Hs & H)]; [by left|].
    assert (Hne : h0 <> h).
    { unfold opens in Hc. rewrite Hd in Hc. lia. }
    destruct (bool_decide (s_st s = NotConn)); cbn [negb] in H; [|injection H as <- <-; by left].
    destruct (auto_bind s n) as [s1 n1] eqn:E.
    destruct (auto_bind_shr _ _ _ _ E) as (A & B & _).
    destruct (bool_decide (p ∈ n_bound n1)); cbn [negb] in H.
    2:{ injection H as <- <-. left. rewrite from_put. rewrite decide_False by done.
        unfold from. by rewrite B. }
    destruct (s_ui s1) as [u|] eqn:Hu; [|discriminate H].
    destruct (s_loc s1) as [l|] eqn:Hl; [|discriminate H].
    injection H as <- _. left. unfold from. cbn. rewrite lookup_insert_ne by done. by rewrite B.
  - (* Accept *)
    unfold accept_call in H. destruct (in_range fd); [|discriminate H]. cbn [negb] in H.
    destruct (n_fds n !! (c, fd)) as [d|]; [|injection H as <- <-; by left].
    destruct (next_fd n c 0) as [k|]; [|injection H as <- <-; by left].
    destruct d as [h0 fl| | | |]; try (injection H as <- <-; by left).
    destruct (n_sock n !! h0) as [s|] eqn:Hs; [|discriminate H].
    destruct (negb _); [injection H as <- <-; by left|].
    destruct (s_loc s) as [l|]; [|discriminate H].
    destruct (n_pend n !! l) as [q|] eqn:Hq.
    2:{ destruct (nonblock fl); [injection H as <- <-; by left|discriminate H]. }
    destruct (bool_decide (q_cond q = Some false)); [discriminate H|].
    set (n1 := set_pend (delete l) n) in *.
    set (n2 := if bool_decide (q_cond q = Some true) then _ else n1) in *.
    assert (A : n_sock n2 = n_sock n /\ n_nsock n2 = n_nsock n).
    { unfold n2. by destruct (bool_decide _). }
    destruct A as [A1 A2].
    assert (Fin : forall n3 st h' fl', n_sock n3 = n_sock n2 -> n_nsock n3 = n_nsock n2 ->
       le_opt (from (put_fd c k (DSock h' fl') (alloc_sock st n3)) h) (from n h)).
    { intros n3 st h' fl' K3 K4. left. unfold from. cbn. rewrite lookup_insert_ne by lia.
      by rewrite K3, A1. }
    destruct (n_names n !! q_from q) as [[i|]|].
    + destruct (s_ui s); [|discriminate H].
      destruct (ino_ref 1 i n2) as [n3|] eqn:Ei; [|discriminate H]. injection H as <- <-.
      apply Fin; [exact (ino_ref_sock _ _ _ _ Ei)|exact (sh_ns _ _ (shr_ino_ref _ _ _ _ Ei))].
    + destruct (s_ui s); [|discriminate H]. injection H as <- <-. by apply Fin.
    + injection H as <- <-. by apply Fin.
  - (* Socketpair *)
    unfold socketpair_call in H.
    destruct (negb (domain =? AF_UNIX)); [injection H as <- <-; by left|].
    destruct (negb _ || _); [injection H as <- <-; by left|].
    destruct (negb _); [injection H as <- <-; by left|].
    set (fl := fl_of _ _) in H.
    set (s := new_sock NotConn ty fl) in H.
    set (na := alloc_sock s (alloc_sock s n)) in H.
    destruct (match next_fd na c 0 with Some k => _ | None => _ end) as [nb f1] eqn:E1.
    destruct (pair_fd_eq _ _ _ _ _ _ E1) as (_ & Pb & Kb).
    destruct (match next_fd nb c 0 with Some k => _ | None => _ end) as [nc f2] eqn:E2.
    destruct (pair_fd_eq _ _ _ _ _ _ E2) as (_ & Pc & Kc).
    destruct (bind_inner (Auto (n_auto n)) s (bump_auto (bump_auto nc))) as [[s1 nd] r1] eqn:B1.
    destruct (bind_inner (Auto (n_auto n + 1)) s nd) as [[s2 ne] r2] eqn:B2.
    destruct (bind_inner_shr _ _ _ _ _ _ B1) as (A1 & K1 & _).
    destruct (bind_inner_shr _ _ _ _ _ _ B2) as (A2 & K2 & _).
    destruct (s_ui s1) as [u1|]; [|discriminate H].
    destruct (s_ui s2) as [u2|]; [|discriminate H].
    destruct (ino_ref 1 (u_ino u1) _) as [ng|] eqn:G1; [|discriminate H].
    destruct (ino_ref 1 (u_ino u2) ng) as [nh|] eqn:G2; [|discriminate H].
    injection H as <- _. left. unfold from. cbn.
    rewrite !lookup_insert_ne by lia.
    rewrite (ino_ref_sock _ _ _ _ G2), (ino_ref_sock _ _ _ _ G1). cbn.
    rewrite K2, K1. cbn. rewrite Kc, Kb. cbn. by rewrite !lookup_insert_ne by lia.
  - unfold pipe_call in H. splitgo H; injection H as <- <-; by left.
Qed.

(** New readers only come to streams nobody else could read. *)
Definition alone (n : net) (h p : Z) : Prop :=
  is_Some (n_sock n !! h) /\ is_Some (n_pipe n !! p) /\
  (from n h = Some p \/ from n h = None) /\ forall x, reads n p x -> x = HSock h.

Lemma step_reads n c o n' x p y : ninv n -> step n c o = Go n' x ->
  0 <= p < n_npipe n -> reads n' p y ->
  reads n p y \/ exists l, reads n p (HPend l).
Proof.
  intros I H Hp Hy. destruct (grows o) eqn:Hg.
  2:{ left. exact (sh_rd _ _ (step_shr _ _ _ _ _ Hg H) _ _ Hy). }
  destruct o; cbn in Hg; try discriminate Hg; cbn [step] in H.
  - unfold socket_call in H. splitgo H; injection H as <- <-; try (by left).
    left. destruct y as [h|l|]; cbn [reads] in *.
    + unfold from in Hy. cbn in Hy. destruct (decide (n_nsock n = h)) as [<-|N].
      * by rewrite lookup_insert in Hy.
      * by rewrite lookup_insert_ne in Hy.
    + done.
    + destruct Hy as (k & wr & fl & Hk). cbn in Hk.
      apply lookup_insert_Some in Hk as [[_ Hk]|[_ Hk]]; [discriminate Hk|]. by exists k, wr, fl.
  - (* Connect *)
    unfold connect_call in H.
    apply on_sock_go in H as [[-> _]|(h0 & fl & s & _ & Hd & Hs & H)]; [by left|].
    destruct (bool_decide (s_st s = NotConn)); cbn [negb] in H; [|injection H as <- <-; by left].
    destruct (auto_bind s n) as [s1 n1] eqn:E.
    destruct (auto_bind_shr _ _ _ _ E) as (A & B & C & D & F & G & _).
    assert (S1 : shr n (put_sock h0 s1 n1)).
    { eapply shr_trans; [exact A|]. apply (shr_put_sock h0 s); [by rewrite B|done|done]. }
    destruct (bool_decide (p0 ∈ n_bound n1)); cbn [negb] in H.
    2:{ injection H as <- <-. left. exact (sh_rd _ _ S1 _ _ Hy). }
    destruct (s_ui s1) as [u|] eqn:Hu; [|discriminate H].
    destruct (s_loc s1) as [l|] eqn:Hl; [|discriminate H].
    injection H as <- _. left. pose proof (sh_np _ _ A) as NP.
    destruct y as [h|k|]; cbn [reads] in *.
    + unfold from in Hy. cbn in Hy. destruct (decide (h0 = h)) as [<-|N].
      * rewrite lookup_insert in Hy. cbn in Hy. injection Hy as Hy. lia.
      * rewrite lookup_insert_ne in Hy by done. rewrite B in Hy. exact Hy.
    + destruct Hy as (q & Hq & Hr). cbn in Hq.
      apply lookup_insert_Some in Hq as [[_ Hq]|[_ Hq]].
      * subst q. cbn in Hr. lia.
      * exists q. rewrite <- D. done.
    + destruct Hy as (k & wr & fl' & Hk). cbn in Hk. rewrite C in Hk. by exists k, wr, fl'.
  - (* Accept *)
    unfold accept_call in H. destruct (in_range fd); [|discriminate H]. cbn [negb] in H.
    destruct (n_fds n !! (c, fd)) as [d|]; [|injection H as <- <-; by left].
    destruct (next_fd n c 0) as [k|]; [|injection H as <- <-; by left].
    destruct d as [h fl| | | |]; try (injection H as <- <-; by left).
    destruct (n_sock n !! h) as [s|] eqn:Hs; [|discriminate H].
    destruct (negb _); [injection H as <- <-; by left|].
    destruct (s_loc s) as [l|]; [|discriminate H].
    destruct (n_pend n !! l) as [q|] eqn:Hq.
    2:{ destruct (nonblock fl); [injection H as <- <-; by left|discriminate H]. }
    destruct (bool_decide (q_cond q = Some false)); [discriminate H|].
    set (n1 := set_pend (delete l) n) in *.
    set (n2 := if bool_decide (q_cond q = Some true) then _ else n1) in *.
    assert (A : shr n n2).
    { eapply shr_trans; [apply (shr_del_pend l)|]. unfold n2.
      destruct (bool_decide _); [apply shr_set_woken|apply shr_refl]. }
    assert (Fin : forall n3 st h' fl', shr n2 n3 -> n_sock n3 = n_sock n2 ->
       (forall z, recv_of st = Some z -> z = q_rp q) ->
       reads (put_fd c k (DSock h' fl') (alloc_sock st n3)) p y ->
       reads n p y \/ exists l, reads n p (HPend l)).
    { intros n3 st h' fl' A3 K3 Hr Hz. pose proof (shr_trans _ _ _ A A3) as A'.
      destruct y as [hh|ll|].
      - cbn [reads] in Hz. unfold from in Hz. cbn in Hz. destruct (decide (n_nsock n3 = hh)) as [<-|N].
        + rewrite lookup_insert in Hz. right. exists l, q. split; [done|]. symmetry. apply Hr. exact Hz.
        + rewrite lookup_insert_ne in Hz by done. left. apply (sh_rd _ _ A'). exact Hz.
      - left. apply (sh_rd _ _ A'). exact Hz.
      - left. apply (sh_rd _ _ A'). destruct Hz as (j & wr & fl'' & Hj). cbn in Hj.
        apply lookup_insert_Some in Hj as [[_ Hj]|[_ Hj]]; [discriminate Hj|]. by exists j, wr, fl''. }
    destruct (n_names n !! q_from q) as [[i|]|].
    + destruct (s_ui s); [|discriminate H].
      destruct (ino_ref 1 i n2) as [n3|] eqn:Ei; [|discriminate H]. injection H as <- _.
      eapply Fin; [exact (shr_ino_ref _ _ _ _ Ei)|exact (ino_ref_sock _ _ _ _ Ei)| |exact Hy].
      cbn. congruence.
    + destruct (s_ui s); [|discriminate H]. injection H as <- _.
      eapply Fin; [apply shr_refl|done| |exact Hy]. cbn. congruence.
    + injection H as <- _. eapply Fin; [apply shr_refl|done| |exact Hy]. cbn. congruence.
  - (* Socketpair *)
    unfold socketpair_call in H.
    destruct (negb (domain =? AF_UNIX)); [injection H as <- <-; by left|].
    destruct (negb _ || _); [injection H as <- <-; by left|].
    destruct (negb _); [injection H as <- <-; by left|].
    set (fl := fl_of _ _) in H.
    set (s := new_sock NotConn ty fl) in H.
    set (na := alloc_sock s (alloc_sock s n)) in H.
    assert (I0 : ninv (alloc_sock s n)) by (apply ninv_alloc_sock; [done| |]; cbn; done).
    assert (Ia : ninv na) by (apply ninv_alloc_sock; [done| |]; cbn; done).
    assert (S0 : 0 <= n_nsock n) by apply I.
    assert (Ra : forall z, reads na p z -> reads n p z).
    { intros [hh|ll|]; try done. cbn [reads]. unfold from. cbn.
      destruct (decide (n_nsock n + 1 = hh)) as [<-|N1]; [by rewrite lookup_insert|].
      rewrite lookup_insert_ne by done.
      destruct (decide (n_nsock n = hh)) as [<-|N2]; [by rewrite lookup_insert|].
      by rewrite lookup_insert_ne. }
    assert (FD : forall h m m' f,
      match next_fd m c 0 with
      | Some k => (put_fd c k (DSock h fl) m, k)
      | None => (m, err ENFILE)
      end = (m', f) -> forall z, reads m' p z -> reads m p z).
    { intros h m m' f Hm z. destruct (next_fd m c 0); injection Hm as <- <-; [|done].
      destruct z as [hh|ll|]; try done. intros (j & wr & fl'' & Hj). cbn in Hj.
      apply lookup_insert_Some in Hj as [[_ Hj]|[_ Hj]]; [discriminate Hj|]. by exists j, wr, fl''. }
    destruct (match next_fd na c 0 with Some k => _ | None => _ end) as [nb f1] eqn:E1.
    destruct (match next_fd nb c 0 with Some k => _ | None => _ end) as [nc f2] eqn:E2.
    pose proof (FD _ _ _ _ E1) as R1. pose proof (FD _ _ _ _ E2) as R2.
    assert (NP : n_npipe nc = n_npipe n).
    { destruct (next_fd nb c 0); injection E2 as <- <-; cbn;
      destruct (next_fd na c 0); injection E1 as <- <-; done. }
    destruct (bind_inner (Auto (n_auto n)) s (bump_auto (bump_auto nc))) as [[s1 nd] r1] eqn:B1.
    destruct (bind_inner (Auto (n_auto n + 1)) s nd) as [[s2 ne] r2] eqn:B2.
    destruct (bind_inner_shr _ _ _ _ _ _ B1) as (A1 & K1 & _).
    destruct (bind_inner_shr _ _ _ _ _ _ B2) as (A2 & K2 & _).
    destruct (s_ui s1) as [u1|]; [|discriminate H].
    destruct (s_ui s2) as [u2|]; [|discriminate H].
    destruct (ino_ref 1 (u_ino u1) _) as [ng|] eqn:G1; [|discriminate H].
    destruct (ino_ref 1 (u_ino u2) ng) as [nh|] eqn:G2; [|discriminate H].
    injection H as <- _.
    pose proof (shr_trans _ _ _ (shr_ino_ref _ _ _ _ G1) (shr_ino_ref _ _ _ _ G2)) as A3.
    pose proof (shr_trans _ _ _ A1 A2) as A4.
    assert (NE : n_npipe ne = n_npipe n).
    { rewrite (sh_np _ _ A4). exact NP. }
    assert (Hh : reads nh p y -> reads n p y).
    { intros Hz. apply (sh_rd _ _ A3) in Hz. apply Ra, R1, R2.
      apply (sh_rd (bump_auto (bump_auto nc)) ne A4 p y). exact Hz. }
    left. destruct y as [hh|ll|]; [|exact (Hh Hy)|exact (Hh Hy)].
    cbn [reads] in Hy. rewrite !from_put in Hy.
    case_decide as D2; [cbn in Hy; injection Hy as Hy; lia|].
    case_decide as D1; [cbn in Hy; injection Hy as Hy; lia|].
    exact (Hh Hy).
  - unfold pipe_call in H.
    assert (K : forall a wr fl m, reads (put_fd c a (DPipe (n_npipe n) wr fl) m) p y -> reads m p y).
    { intros a wr fl m Hz. destruct y as [hh|ll|]; try done.
      destruct Hz as (j & wr' & fl'' & Hj). cbn in Hj.
      apply lookup_insert_Some in Hj as [[_ Hj]|[_ Hj]]; [injection Hj as Hj; lia|].
      by exists j, wr', fl''. }
    left. splitgo H; injection H as <- <-; try done.
    + exact (K _ _ _ _ (K _ _ _ _ Hy)).
    + exact (K _ _ _ _ Hy).
Qed.

Lemma step_alone n c o n' x h p : ninv n -> step n c o = Go n' x ->
  connects h n c o = false -> alone n h p -> alone n' h p.
Proof.
  intros I H Hc (Hh & Hp & Hf & Ha).
  pose proof (step_ninv _ _ _ _ _ I H) as I'.
  assert (Hrng : 0 <= p < n_npipe n) by (by apply (ni_pipe _ I)).
  assert (K : is_Some (n_sock n' !! h) /\ is_Some (n_pipe n' !! p)).
  { destruct (moves o) eqn:Hm.
    - assert (Hg : grows o = false) by (destruct o; try discriminate Hm; done).
      pose proof (step_shr _ _ _ _ _ Hg H) as S.
      split; [by apply (sh_sock _ _ S)|by apply (sh_pipe _ _ S)].
    - pose proof (step_qt _ _ _ _ _ I Hm H) as Q. destruct Hh as [s Hs], Hp as [z Hz].
      destruct (qt_sock _ _ Q _ _ Hs) as (s' & Hs' & _).
      destruct (qt_pipe _ _ Q _ _ Hz) as (z' & Hz' & _). eauto. }
  destruct K as [K1 K2]. split_and!; [done|done| |].
  - destruct (step_from _ _ _ _ _ h I H Hh Hc) as [->| ->]; auto.
  - intros y Hy. destruct (step_reads _ _ _ _ _ _ _ I H Hrng Hy) as [Hz|[l Hz]].
    + by apply Ha.
    + apply Ha in Hz. discriminate Hz.
Qed.

(** ** Moving bytes *)
Lemma take_drop_app {A} (P B : list A) (len : nat) : (length P <= len)%nat ->
  take len (P ++ B) = P ++ take (len - length P) B /\
  drop len (P ++ B) = drop (len - length P) B.
Proof.
  intros L. split.
  - rewrite take_app_ge by done. done.
  - by rewrite drop_app_ge.
Qed.

Lemma pipe_read_some x len nb x' bs : 0 <= len -> pipe_read x len nb = inl (Some (x', bs)) ->
  bs = take (Z.to_nat len) (p_buf x) /\ p_buf x' = drop (Z.to_nat len) (p_buf x).
Proof.
  intros L. unfold pipe_read. destruct (len =? 0) eqn:E.
  - intros [= <- <-]. assert (len = 0) as -> by lia. cbn. by rewrite take_0.
  - destruct (p_buf x) as [|b l] eqn:Eb.
    + destruct (p_nw x =? 0); [|by destruct nb]. intros [= <- <-].
      rewrite Eb. by rewrite take_nil, drop_nil.
    + intros [= <- <-]. done.
Qed.
Lemma pipe_read_none x len nb : pipe_read x len nb = inl None \/ pipe_read x len nb = inr tt ->
  p_buf x = [] /\ p_nw x <> 0.
Proof.
  unfold pipe_read. destruct (len =? 0); [intros [H|H]; discriminate H|].
  destruct (p_buf x); [|intros [H|H]; discriminate H].
  destruct (p_nw x =? 0) eqn:E; [intros [H|H]; discriminate H|]. intros _. split; [done|lia].
Qed.

Lemma unread_put n h p s x : n_sock n !! h = Some s -> n_pipe n !! p = Some x ->
  unread n h p = s_peek s ++ p_buf x.
Proof. intros A B. unfold unread. by rewrite A, B. Qed.

Definition after (flags len : Z) (l : list Z) : list Z :=
  if hasbit flags MSG_PEEK then l else drop (Z.to_nat len) l.

Lemma recv_sock_data n h fl s len flags n' x p y :
  n_sock n !! h = Some s -> n_pipe n !! p = Some y ->
  (recv_of s = Some p \/ recv_of s = None) ->
  recv_sock n h fl s len flags = Go n' x ->
  (n' = n /\ (x = Ret (err ENOTCONN) \/
              (x = Ret (err EAGAIN) /\ nonblock fl = true /\ unread n h p = [] /\ p_nw y <> 0))) \/
  (x = Data (take (Z.to_nat len) (unread n h p)) /\
   unread n' h p = after flags len (unread n h p) /\
   (exists P, n_sock n' = <[h := with_peek P s]> (n_sock n)) /\
   (forall z, z <> p -> n_pipe n' !! z = n_pipe n !! z)).
Proof.
  intros Hs Hp Hr H. rewrite (unread_put _ _ _ _ _ Hs Hp).
  unfold recv_sock in H.
  destruct (negb _); [injection H as <- <-; auto|].
  set (P := s_peek s) in *. set (B := p_buf y).
  set (k := Z.min (Z.of_nat (length P)) len) in *.
  set (pk := hasbit flags MSG_PEEK) in *.
  set (rest := if pk then P else drop (Z.to_nat k) P) in *.
  assert (U1 : forall Q n0, n0 = put_sock h (with_peek Q s) n ->
     unread n0 h p = Q ++ B /\ (exists P, n_sock n0 = <[h := with_peek P s]> (n_sock n)) /\
     (forall z, z <> p -> n_pipe n0 !! z = n_pipe n !! z)).
  { intros Q n0 ->. split_and!; [|by exists Q|done].
    unfold unread. cbn. by rewrite lookup_insert, Hp. }
  destruct (bool_decide (P <> []) && (len - k =? 0)) eqn:Early.
  { (* served from the peeked bytes *)
    injection H as <- <-. right.
    apply andb_true_iff in Early as [E1 E2]. apply bool_decide_eq_true in E1.
    assert (Hk : k = len) by lia.
    assert (Hl : (Z.to_nat len <= length P)%nat) by lia.
    rewrite Hk. rewrite take_app_le by done. split; [done|].
    destruct (U1 rest _ eq_refl) as (A & C & D).
    split; [|done]. rewrite A. unfold after, rest. fold pk. destruct pk; [done|].
    rewrite Hk. by rewrite drop_app_le. }
  assert (Hlen : len < 0 \/ (Z.of_nat (length P) <= len)).
  { destruct (decide (P = [])) as [E|E]; [rewrite E; cbn; lia|].
    rewrite bool_decide_eq_true_2 in Early by done. cbn in Early. lia. }
  destruct (s_ui s) as [u|] eqn:Hu; [|discriminate H].
  destruct (u_recv u) as [p'|] eqn:Hp'; [|discriminate H].
  assert (p' = p) as ->.
  { unfold recv_of in Hr. rewrite Hu, Hp' in Hr. destruct Hr as [Hr|Hr]; congruence. }
  rewrite Hp in H.
  assert (Hneg : len < 0 -> P = [] /\ k = len).
  { intros L. assert (k = len) by lia. split; [|done].
    destruct (decide (P = [])) as [E|E]; [done|].
    rewrite bool_decide_eq_true_2 in Early by done. cbn in Early. lia. }
  assert (Hk : 0 <= len - k /\ (0 <= len -> k = Z.of_nat (length P))) by lia.
  assert (Ek : take (Z.to_nat k) P = P /\ (pk = false -> rest = [])).
  { destruct Hlen as [L|L].
    - destruct (Hneg L) as [-> ->]. rewrite take_nil. split; [done|].
      intros ->. unfold rest. by rewrite drop_nil.
    - assert (Z.to_nat k = length P) as -> by lia. rewrite firstn_all. split; [done|].
      intros Ek. unfold rest. rewrite Ek.
      assert (Z.to_nat k = length P) as -> by lia. by rewrite drop_all. }
  destruct Ek as [Ek Er].
  destruct (pipe_read y (len - k) (nonblock fl)) as [[[y' bs]|]|[]] eqn:R.
  - (* bytes from the pipe *)
    injection H as <- <-. right.
    destruct (pipe_read_some _ _ _ _ _ (proj1 Hk) R) as [-> Eb].
    rewrite Ek. fold B. fold B in Eb.
    assert (T : take (Z.to_nat len) (P ++ B) = P ++ take (Z.to_nat (len - k)) B /\
                drop (Z.to_nat len) (P ++ B) = drop (Z.to_nat (len - k)) B).
    { destruct Hlen as [L|L].
      - destruct (Hneg L) as [-> ->]. rewrite Z.sub_diag.
        replace (Z.to_nat len) with 0%nat by lia. done.
      - replace (Z.to_nat (len - k)) with (Z.to_nat len - length P)%nat by lia.
        apply take_drop_app. lia. }
    destruct T as [T1 T2]. split; [by rewrite T1|]. split_and!.
    + unfold unread. cbn. rewrite !lookup_insert. cbn. unfold after. fold pk. rewrite T2, Eb.
      destruct pk eqn:Epk.
      * unfold rest. rewrite <- app_assoc. by rewrite take_drop.
      * by rewrite (Er eq_refl).
    + by eexists.
    + intros z Hz. cbn. by rewrite lookup_insert_ne.
  - destruct (pipe_read_none _ _ _ (or_introl R)) as [Bn Wn]. fold B in Bn.
    destruct (0 <? k) eqn:K0; injection H as <- <-.
    + right. rewrite Ek. rewrite Bn, app_nil_r. rewrite take_ge by lia.
      destruct (U1 rest _ eq_refl) as (A & C & D).
      split; [done|]. split; [|done]. rewrite A, Bn, app_nil_r. unfold after. fold pk.
      destruct pk eqn:Epk; [done|]. rewrite (Er eq_refl). by rewrite drop_ge by lia.
    + left. split; [done|]. right. rewrite Bn, app_nil_r. split; [done|]. split_and!.
      * unfold pipe_read in R. destruct (len - k =? 0); [done|]. fold B in R. rewrite Bn in R.
        destruct (p_nw y =? 0); [done|]. by destruct (nonblock fl).
      * destruct (decide (P = [])) as [E|E]; [done|]. exfalso.
        assert (0 < Z.of_nat (length P)) by (destruct P; cbn; [done|lia]).
        destruct Hlen as [L|L]; [by destruct (Hneg L)|lia].
      * done.
  - destruct (pipe_read_none _ _ _ (or_intror R)) as [Bn Wn]. fold B in Bn.
    destruct (0 <? k) eqn:K0; [|discriminate H]. injection H as <- <-.
    right. rewrite Ek. rewrite Bn, app_nil_r. rewrite take_ge by lia.
    destruct (U1 rest _ eq_refl) as (A & C & D).
    split; [done|]. split; [|done]. rewrite A, Bn, app_nil_r. unfold after. fold pk.
    destruct pk eqn:Epk; [done|]. rewrite (Er eq_refl). by rewrite drop_ge by lia.
Qed.

Lemma pipe_write_data x bs nb x' o : pipe_write x bs nb = inl (x', o) ->
  p_buf x' = p_buf x ++ accepted bs o.
Proof.
  unfold pipe_write. destruct (Z.of_nat (length bs) =? 0) eqn:E0.
  { intros [= <- <-]. cbn. by rewrite take_0, app_nil_r. }
  destruct (p_nr x =? 0); [intros [= <- <-]; cbn; by rewrite take_0, app_nil_r|].
  destruct (room x <? PIPE_BUF).
  { destruct nb; [|done]. intros [= <- <-]. cbn. by rewrite take_0, app_nil_r. }
  intros [= <- <-]. destruct (_ || nb); done.
Qed.

Lemma send_sock_data n h fl s bs n' x p : n_sock n !! h = Some s -> is_Some (n_pipe n !! p) ->
  send_sock n h fl s bs = Go n' x ->
  n_sock n' = n_sock n /\
  (exists y y', n_pipe n !! p = Some y /\ n_pipe n' !! p = Some y' /\
     p_buf y' = p_buf y ++ (if bool_decide (into n h = Some p) then accepted bs x else [])).
Proof.
  intros Hs [y Hy] H. rewrite (into_eq _ _ _ Hs). unfold send_of. unfold send_sock in H.
  destruct (negb _).
  { injection H as <- <-. split; [done|]. exists y, y. split_and!; [done|done|].
    cbn. rewrite take_0. by case_bool_decide; rewrite app_nil_r. }
  destruct (s_ui s) as [u|]; [|discriminate H].
  destruct (u_send u) as [p'|].
  2:{ injection H as <- <-. split; [done|]. exists y, y. split_and!; [done|done|].
      cbn. by rewrite app_nil_r. }
  destruct (n_pipe n !! p') as [z|] eqn:Hz; [|discriminate H].
  destruct (pipe_write z bs (nonblock fl)) as [[z' o]|] eqn:W; [|discriminate H].
  injection H as <- <-. split; [done|]. exists y. cbn.
  destruct (decide (p' = p)) as [->|N].
  - rewrite bool_decide_eq_true_2 by done. rewrite lookup_insert. exists z'.
    split_and!; [done|done|]. assert (z = y) as -> by congruence. exact (pipe_write_data _ _ _ _ _ W).
  - rewrite bool_decide_eq_false_2 by congruence. rewrite lookup_insert_ne by done. exists y.
    split_and!; [done|done|]. by rewrite app_nil_r.
Qed.

(** One step of the conservation law *)
Lemma step_conserve n c o n' x h p : ninv n -> step n c o = Go n' x ->
  alone n h p ->
  unread n h p ++ put_in p n c o x = took h n c o x ++ unread n' h p.
Proof.
  intros I H ([s Hs] & [y Hy] & Hf & Ha).
  rewrite (from_eq _ _ _ Hs) in Hf.
  assert (SEND : forall fd bs h0 fl s0, n_fds n !! (c, fd) = Some (DSock h0 fl) ->
    n_sock n !! h0 = Some s0 -> send_sock n h0 fl s0 bs = Go n' x ->
    unread n h p ++ (if sends n c fd p then accepted bs x else []) = unread n' h p).
  { intros fd bs h0 fl s0 Hd Hs0 H0.
    destruct (send_sock_data n h0 fl s0 bs n' x p Hs0 (ex_intro _ y Hy) H0)
      as (K & y1 & y' & Hy1 & Hy' & E).
    assert (y1 = y) as -> by congruence.
    rewrite (unread_put _ _ _ _ _ Hs Hy).
    rewrite (unread_put n' h p s y') by (rewrite ?K; done).
    unfold sends. rewrite Hd. rewrite E. by rewrite app_assoc. }
  assert (RECV : forall fd len flags h0 fl s0, n_fds n !! (c, fd) = Some (DSock h0 fl) ->
    n_sock n !! h0 = Some s0 -> recv_sock n h0 fl s0 len flags = Go n' x ->
    unread n h p = (match x with
      | Data bs => if opens n c fd h && negb (hasbit flags MSG_PEEK) then bs else []
      | _ => [] end) ++ unread n' h p).
  { intros fd len flags h0 fl s0 Hd Hs0 H0. unfold opens. rewrite Hd.
    destruct (h0 =? h) eqn:E.
    - assert (h0 = h) as -> by lia. assert (s0 = s) as -> by congruence.
      destruct (recv_sock_data n h fl s len flags n' x p y Hs Hy Hf H0)
        as [[-> [->|[-> _]]]|(-> & -> & _)]; cbn; [done|done|].
      unfold after. destruct (hasbit flags MSG_PEEK); cbn; [done|]. by rewrite take_drop.
    - assert (N : h0 <> h) by lia. cbn [andb].
      assert (R : unread n' h p = unread n h p).
      { assert (G : n_sock n' !! h = n_sock n !! h /\ n_pipe n' !! p = n_pipe n !! p).
        { unfold recv_sock in H0.
          assert (P0 : forall b, n_sock (put_sock h0 b n) !! h = n_sock n !! h).
          { intros b. cbn. by rewrite lookup_insert_ne. }
          splitgo H0; injection H0 as <- <-; try (split; [done|done]); try (split; [by apply P0|done]).
          all: cbn; rewrite !lookup_insert_ne; try done.
          all: intros ->; assert (Hn : reads n p (HSock h0)) by
            (cbn [reads]; rewrite (from_eq _ _ _ Hs0); unfold recv_of;
             repeat match goal with E : s_ui _ = _ |- _ => rewrite E; clear E end; done).
          all: apply Ha in Hn; congruence. }
        destruct G as [G1 G2]. unfold unread. by rewrite G1, G2. }
      rewrite R. by destruct x. }
  destruct (moves o) eqn:Hm.
  - destruct o; try discriminate Hm; cbn [step put_in took] in *.
    + apply on_sock_go in H as H'.
      destruct H' as [[-> [[-> E]|(-> & d & E & Hd)]]|(h0 & fl & s0 & _ & Hd & Hs0 & H0)].
      * unfold sends. rewrite E. by rewrite app_nil_r.
      * unfold sends. rewrite E. cbn. rewrite take_0.
        destruct d; [by destruct (Hd h0 fl)|..]; by rewrite app_nil_r.
      * cbn. exact (SEND _ _ _ _ _ Hd Hs0 H0).
    + rewrite app_nil_r. apply on_sock_go in H as H'.
      destruct H' as [[-> [[-> E]|(-> & _)]]|(h0 & fl & s0 & _ & Hd & Hs0 & H0)].
      * done.
      * done.
      * exact (RECV _ _ _ _ _ _ Hd Hs0 H0).
    + rewrite app_nil_r. unfold read_call in H. destruct (in_range fd); [|discriminate H].
      cbn [negb] in H.
      destruct (n_fds n !! (c, fd)) as [[h0 fl|reg|z wr fl| |]|] eqn:Hd.
      * destruct (n_sock n !! h0) as [s0|] eqn:Hs0; [|discriminate H].
        rewrite (RECV _ _ _ _ _ _ Hd Hs0 H) at 1. destruct x; try done.
        by rewrite andb_true_r.
      * injection H as <- <-. done.
      * assert (NZ : z <> p).
        { intros ->. assert (Hn : reads n p HPipe) by (by exists (c, fd), wr, fl).
          apply Ha in Hn. discriminate Hn. }
        assert (U : forall b m, m = put_pipe z b n -> unread m h p = unread n h p).
        { intros b m ->. unfold unread. cbn. by rewrite lookup_insert_ne. }
        unfold opens. rewrite Hd.
        splitgo H; injection H as <- <-; try done. cbn. symmetry. by eapply U.
      * injection H as <- <-. unfold opens. by rewrite Hd.
      * injection H as <- <-. unfold opens. by rewrite Hd.
      * injection H as <- <-. done.
    + unfold write_call in H. destruct (in_range fd); [|discriminate H]. cbn [negb] in H.
      destruct (n_fds n !! (c, fd)) as [[h0 fl|reg|z wr fl| |]|] eqn:Hd.
      * destruct (n_sock n !! h0) as [s0|] eqn:Hs0; [|discriminate H].
        cbn. exact (SEND _ _ _ _ _ Hd Hs0 H).
      * injection H as <- <-. unfold sends. rewrite Hd. by rewrite app_nil_r.
      * assert (NZ : z <> p).
        { intros ->. assert (Hn : reads n p HPipe) by (by exists (c, fd), wr, fl).
          apply Ha in Hn. discriminate Hn. }
        assert (U : forall b m, m = put_pipe z b n -> unread m h p = unread n h p).
        { intros b m ->. unfold unread. cbn. by rewrite lookup_insert_ne. }
        unfold sends. rewrite Hd, app_nil_r. cbn.
        splitgo H; injection H as <- <-; try done. symmetry. by eapply U.
      * injection H as <- <-. unfold sends. rewrite Hd. by rewrite app_nil_r.
      * injection H as <- <-. unfold sends. rewrite Hd. by rewrite app_nil_r.
      * injection H as <- <-. unfold sends. rewrite Hd. by rewrite app_nil_r.
  - pose proof (step_qt _ _ _ _ _ I Hm H) as Q.
    destruct (qt_sock _ _ Q _ _ Hs) as (s' & Hs' & Es).
    destruct (qt_pipe _ _ Q _ _ Hy) as (y' & Hy' & Ey).
    rewrite (unread_put _ _ _ _ _ Hs Hy), (unread_put _ _ _ _ _ Hs' Hy'), Es, Ey.
    assert (put_in p n c o x = [] /\ took h n c o x = []) as [-> ->].
    { destruct o; try discriminate Hm; done. }
    by rewrite app_nil_r.
Qed.

Lemma run_conserve l : forall n n' xs h p, ninv n -> run n l = Some (n', xs) ->
  alone n h p -> along (no_connect h) n l ->
  unread n h p ++ gather (put_in p) n l = gather (took h) n l ++ unread n' h p.
Proof.
  induction l as [|[c o] l IH]; intros n n' xs h p I; cbn.
  - intros [= <- <-] _ _. by rewrite app_nil_r.
  - destruct (step n c o) as [n1 x| |] eqn:E; [|done|done].
    destruct (run n1 l) as [[n2 ys]|] eqn:R; [|done]. intros [= <- <-] A [Hc Hl].
    rewrite app_assoc, (step_conserve _ _ _ _ _ _ _ I E A), <- !app_assoc. f_equal.
    apply (IH n1 _ ys).
    + exact (step_ninv _ _ _ _ _ I E).
    + exact R.
    + exact (step_alone _ _ _ _ _ _ _ I E Hc A).
    + exact Hl.
Qed.

Lemma reachable_alone n h p : ninv n -> from n h = Some p -> alone n h p.
Proof.
  intros I Hf. assert (R : reads n p (HSock h)) by exact Hf.
  split_and!; [| |by left|].
  - unfold from in Hf. destruct (n_sock n !! h); [eauto|done].
  - apply (ni_pipe _ I). exact (ni_rd _ I _ _ R).
  - intros y Hy. exact (ni_one _ I _ _ _ Hy R).
Qed.
