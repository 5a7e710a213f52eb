(** Which socket calls can bring the runtime down *)
From Verif Require Import Base NetModel NetSpec NetSpec2 NetInv NetStep NetKeep NetReq NetThm.
Local Open Scope list_scope.
Local Open Scope Z_scope.
Opaque fd_list next_fd fresh_cage.

(** ** Descriptor numbers *)
Definition fdok (n : net) : Prop := forall c k d, n_fds n !! (c, k) = Some d -> 0 <= k < MAXFD.
Lemma fdok_same n n' : n_fds n' = n_fds n -> fdok n -> fdok n'.
Proof. intros E H c k d. rewrite E. apply H. Qed.
Lemma fdok_put c k d n n' : n_fds n' = <[(c, k) := d]> (n_fds n) -> 0 <= k < MAXFD -> fdok n -> fdok n'.
Proof.
  intros E K H c' k' d'. rewrite E. intros L.
  apply lookup_insert_Some in L as [[[= -> ->] _]|[_ L]]; [done|exact (H _ _ _ L)].
Qed.
Lemma fdok_old c k d d0 n n' : n_fds n' = <[(c, k) := d]> (n_fds n) -> n_fds n !! (c, k) = Some d0 ->
  fdok n -> fdok n'.
Proof. intros E F H. exact (fdok_put _ _ _ _ _ E (H _ _ _ F) H). Qed.
Lemma fdok_new c k d n n' : n_fds n' = <[(c, k) := d]> (n_fds n) -> next_fd n c 0 = Some k -> fdok n -> fdok n'.
Proof. intros E F. apply (fdok_put _ _ _ _ _ E). by destruct (next_fd_free _ _ _ _ F). Qed.
Lemma fdok_drop c k n n' : n_fds n' = delete (c, k) (n_fds n) -> fdok n -> fdok n'.
Proof.
  intros E H c' k' d'. rewrite E. intros L. apply lookup_delete_Some in L as [_ L]. exact (H _ _ _ L).
Qed.
Lemma ino_ref_fds d i n n' : ino_ref d i n = Some n' -> n_fds n' = n_fds n.
Proof. unfold ino_ref. intros H. splitgo H. by injection H as <-. Qed.
Lemma fork_fdok c c' l n n' : fork_fds c c' l n = Some n' -> fdok n -> fdok n'.
Proof.
  revert n. induction l as [|k l IH]; intros n; cbn; [by intros [= <-]|].
  destruct (n_fds n !! (c, k)) as [d|] eqn:Hd; [|apply IH].
  destruct (retain true d n) as [n1|] eqn:E; [|done]. intros H I.
  apply (IH _ H). apply (fdok_put c' k d n); [cbn; by rewrite (retain_fds _ _ _ _ E)| |done].
  exact (I _ _ _ Hd).
Qed.
Lemma accept_fdok n c fd n' x : accept_call n c fd = Go n' x -> fdok n -> fdok n'.
Proof.
  intros H I. unfold accept_call in H. destruct (negb (in_range fd)); [discriminate H|].
  destruct (n_fds n !! (c, fd)) as [d|]; [|injection H as <- <-; done].
  destruct (next_fd n c 0) as [k|] eqn:Hk; [|injection H as <- <-; done].
  destruct d as [h fl|reg|p wr fl| |]; try (injection H as <- <-; exact I).
  destruct (n_sock n !! h) as [s|]; [|discriminate H].
  destruct (negb _); [injection H as <- <-; done|].
  destruct (s_loc s) as [l|]; [|discriminate H].
  destruct (n_pend n !! l) as [q|]; [|destruct (nonblock fl); [injection H as <- <-; done|discriminate H]].
  destruct (bool_decide (q_cond q = Some false)); [discriminate H|].
  set (n2 := if bool_decide (q_cond q = Some true) then _ else _) in *.
  assert (I2 : n_fds n2 = n_fds n) by (unfold n2; by destruct (bool_decide _)).
  clearbody n2.
  destruct (n_names n !! q_from q) as [[i|]|].
  - destruct (s_ui s); [|discriminate H]. destruct (ino_ref 1 i n2) as [n3|] eqn:E; [|discriminate H].
    injection H as <- <-. refine (fdok_new c k _ n _ _ Hk I). cbn. by rewrite (ino_ref_fds _ _ _ _ E), I2.
  - destruct (s_ui s); [|discriminate H]. injection H as <- <-.
    refine (fdok_new c k _ n _ _ Hk I). cbn. by rewrite I2.
  - injection H as <- <-. refine (fdok_new c k _ n _ _ Hk I). cbn. by rewrite I2.
Qed.
Lemma socketpair_fdok n c d t p n' x : socketpair_call n c d t p = Go n' x -> fdok n -> fdok n'.
Proof.
  intros H I. unfold socketpair_call in H.
  destruct (negb _); [injection H as <- <-; done|].
  destruct (_ || _); [injection H as <- <-; done|].
  destruct (negb _); [injection H as <- <-; done|].
  set (fl := fl_of _ _) in H.
  set (s0 := new_sock NotConn t fl) in H.
  set (na := alloc_sock s0 (alloc_sock s0 n)) in H.
  assert (Ia : fdok na) by exact (fdok_same n _ eq_refl I). clearbody na.
  destruct (match next_fd na c 0 with Some k => _ | None => _ end) as [nb f1] eqn:Eb.
  assert (Ib : fdok nb).
  { destruct (next_fd na c 0) eqn:F; injection Eb as <- _; [|done]. refine (fdok_new _ _ _ na _ _ F Ia); reflexivity. }
  destruct (match next_fd nb c 0 with Some k => _ | None => _ end) as [nc f2] eqn:Ec.
  assert (Ic : fdok nc).
  { destruct (next_fd nb c 0) eqn:F; injection Ec as <- _; [|done]. refine (fdok_new _ _ _ nb _ _ F Ib); reflexivity. }
  destruct (bind_inner _ s0 (bump_auto (bump_auto nc))) as [[s1 nd] r1] eqn:B1.
  destruct (bind_inner _ s0 nd) as [[s2 ne] r2] eqn:B2.
  destruct (bind_inner_shr _ _ _ _ _ _ B1) as (_ & _ & C1 & _).
  destruct (bind_inner_shr _ _ _ _ _ _ B2) as (_ & _ & C2 & _).
  destruct (s_ui s1) as [u1|]; [|discriminate H]. destruct (s_ui s2) as [u2|]; [|discriminate H].
  destruct (ino_ref 1 (u_ino u1) _) as [ng|] eqn:F1; [|discriminate H].
  destruct (ino_ref 1 (u_ino u2) ng) as [nh|] eqn:F2; [|discriminate H].
  injection H as <- <-. apply (fdok_same nc); [|done]. cbn.
  rewrite (ino_ref_fds _ _ _ _ F2), (ino_ref_fds _ _ _ _ F1). cbn. by rewrite C2, C1.
Qed.
Lemma send_fds n h fl s bs n' x : send_sock n h fl s bs = Go n' x -> n_fds n' = n_fds n.
Proof. unfold send_sock. intros H. splitgo H; injection H as <- <-; reflexivity. Qed.
Lemma recv_fds n h fl s len flags n' x : recv_sock n h fl s len flags = Go n' x -> n_fds n' = n_fds n.
Proof. unfold recv_sock. intros H. splitgo H; injection H as <- <-; reflexivity. Qed.

Lemma step_fdok n c o n' x : step n c o = Go n' x -> fdok n -> fdok n'.
Proof.
  intros H I. destruct o; cbn [step] in H.
  - unfold socket_call in H. splitgo H; injection H as <- <-; try exact I.
    match goal with E : next_fd n c 0 = Some _ |- _ => refine (fdok_new _ _ _ n _ _ E I); reflexivity end.
  - apply on_sock_go in H as [[-> _]|(h & fl & s & _ & _ & _ & H)]; [done|].
    destruct (bind_inner p s n) as [[s1 n1] r] eqn:E. injection H as <- <-.
    destruct (bind_inner_shr _ _ _ _ _ _ E) as (_ & _ & C & _). exact (fdok_same n _ C I).
  - apply on_sock_go in H as [[-> _]|(h & fl & s & _ & _ & _ & H)]; [done|].
    destruct (s_st s); injection H as <- <-; try exact I; exact (fdok_same n _ eq_refl I).
  - apply on_sock_go in H as [[-> _]|(h & fl & s & _ & _ & _ & H)]; [done|].
    destruct (negb _); [injection H as <- <-; done|].
    destruct (auto_bind s n) as [s1 n1] eqn:E.
    destruct (auto_bind_shr _ _ _ _ E) as (_ & _ & C & _).
    destruct (negb _); [injection H as <- <-; exact (fdok_same n _ C I)|].
    destruct (s_ui s1); [|discriminate H]. destruct (s_loc s1); [|discriminate H].
    injection H as <- <-. exact (fdok_same n _ C I).
  - unfold conn_wait in H. injection H as <- <-. exact (fdok_same n _ eq_refl I).
  - unfold conn_done in H. destruct (bool_decide _); [|discriminate H].
    injection H as <- <-. exact (fdok_same n _ eq_refl I).
  - exact (accept_fdok _ _ _ _ _ H I).
  - exact (socketpair_fdok _ _ _ _ _ _ _ H I).
  - apply on_sock_go in H as [[-> _]|(h & fl & s & _ & _ & _ & H)]; [done|].
    exact (fdok_same n _ (send_fds _ _ _ _ _ _ _ H) I).
  - apply on_sock_go in H as [[-> _]|(h & fl & s & _ & _ & _ & H)]; [done|].
    exact (fdok_same n _ (recv_fds _ _ _ _ _ _ _ _ H) I).
  - unfold read_call in H. destruct (negb (in_range fd)); [discriminate H|].
    destruct (n_fds n !! (c, fd)) as [[h fl|reg|p wr fl| |]|]; try (injection H as <- <-; exact I).
    + destruct (n_sock n !! h) as [s|]; [|discriminate H].
      exact (fdok_same n _ (recv_fds _ _ _ _ _ _ _ _ H) I).
    + splitgo H; injection H as <- <-; try exact I; exact (fdok_same n _ eq_refl I).
  - unfold write_call in H. destruct (negb (in_range fd)); [discriminate H|].
    destruct (n_fds n !! (c, fd)) as [[h fl|reg|p wr fl| |]|]; try (injection H as <- <-; exact I).
    + destruct (n_sock n !! h) as [s|]; [|discriminate H].
      exact (fdok_same n _ (send_fds _ _ _ _ _ _ _ H) I).
    + splitgo H; injection H as <- <-; try exact I; exact (fdok_same n _ eq_refl I).
  - unfold shutdown_call in H. destruct (negb _); [injection H as <- <-; exact I|].
    destruct (negb _); [injection H as <- <-; exact I|].
    apply on_sock_go in H as [[-> _]|(h & fl & s & _ & _ & _ & H)]; [done|].
    injection H as <- <-. destruct (how =? SHUT_RDWR); [|exact (fdok_same n _ eq_refl I)].
    refine (fdok_drop c fd n _ _ I); reflexivity.
  - unfold close_call in H. destruct (negb (in_range fd)); [discriminate H|].
    destruct (n_fds n !! (c, fd)) as [d|]; [|injection H as <- <-; exact I].
    destruct (release d n) as [n1|] eqn:E; [|discriminate H]. injection H as <- <-.
    apply (fdok_drop c fd n); [|done]. cbn. by rewrite (release_fds _ _ _ E).
  - unfold dup_call in H. destruct (fd =? 0); [injection H as <- <-; exact I|].
    destruct (negb (in_range fd)); [injection H as <- <-; exact I|].
    destruct (n_fds n !! (c, fd)) as [d|]; [|injection H as <- <-; exact I].
    destruct (next_fd n c 0) as [k|] eqn:Hk; [|injection H as <- <-; exact I].
    destruct d; [| injection H as <- <-; exact I | | |];
      match type of H with context [retain false ?d n] => destruct (retain false d n) as [n1|] eqn:E end;
      try discriminate H; injection H as <- <-;
      (refine (fdok_new c k _ n _ _ Hk I); cbn; by rewrite (retain_fds _ _ _ _ E)).
  - unfold dup2_call in H. destruct (negb (in_range fd2)) eqn:R2; [injection H as <- <-; exact I|].
    destruct (fd2 =? fd); [injection H as <- <-; exact I|].
    destruct (negb (in_range fd)); [injection H as <- <-; exact I|].
    destruct (n_fds n !! (c, fd)) as [d|]; [|injection H as <- <-; exact I].
    destruct (match n_fds n !! (c, fd2) with None => _ | Some d2 => _ end) as [n1|] eqn:E; [|discriminate H].
    assert (I1 : fdok n1).
    { destruct (n_fds n !! (c, fd2)); [|injection E as <-; exact I].
      exact (fdok_same n _ (release_fds _ _ _ E) I). }
    assert (K : 0 <= fd2 < MAXFD).
    { unfold in_range in R2. rewrite negb_false_iff, andb_true_iff in R2. lia. }
    destruct d; [| injection H as <- <-; exact I1 | | |];
      match type of H with context [retain false ?d n1] => destruct (retain false d n1) as [n2|] eqn:F end;
      try discriminate H; injection H as <- <-;
      (refine (fdok_put c fd2 _ n1 _ _ K I1); cbn; by rewrite (retain_fds _ _ _ _ F)).
  - unfold fork_call in H. destruct (negb _); [discriminate H|].
    destruct (fork_fds c child fd_list n) as [n1|] eqn:E; [|discriminate H]. injection H as <- <-.
    exact (fork_fdok _ _ _ _ _ E I).
  - unfold pipe_call in H. cbn zeta in H.
    destruct (next_fd (alloc_pipe PIPE_CAPACITY n) c 0) as [a|] eqn:E1; [|injection H as <- <-; exact I].
    assert (I1 : fdok (put_fd c a (DPipe (n_npipe n) false (fl_of nb false)) (alloc_pipe PIPE_CAPACITY n))).
    { refine (fdok_new c a _ (alloc_pipe PIPE_CAPACITY n) _ _ E1 (fdok_same n _ eq_refl I)). reflexivity. }
    set (n2 := put_fd c a _ _) in *. clearbody n2.
    destruct (next_fd n2 c 0) as [b|] eqn:E2; injection H as <- <-; [|exact I1].
    refine (fdok_new c b _ n2 _ _ E2 I1); reflexivity.
  - unfold open_call in H. destruct (next_fd n c 0) eqn:E; injection H as <- <-; [|exact I].
    refine (fdok_new _ _ _ n _ _ E I); reflexivity.
  - unfold setnb_call in H. destruct (negb (in_range fd)); [discriminate H|].
    destruct (n_fds n !! (c, fd)) as [[h fl|reg|p wr fl| |]|] eqn:E; injection H as <- <-; try exact I;
      (refine (fdok_old c fd _ _ n _ _ E I); reflexivity).
  - unfold ioctl_call in H. destruct (negb (in_range fd)); [discriminate H|].
    destruct (n_fds n !! (c, fd)) as [[h fl|reg|p wr fl| |]|] eqn:E; injection H as <- <-; try exact I;
      (refine (fdok_old c fd _ _ n _ _ E I); reflexivity).
  - unfold unlink_call in H. splitgo H; injection H as <- <-; try exact I; exact (fdok_same n _ eq_refl I).
  - unfold create_call in H. splitgo H; injection H as <- <-; try exact I; exact (fdok_same n _ eq_refl I).
  - unfold getopt_call in H. destruct (negb _); [injection H as <- <-; exact I|].
    apply on_sock_go in H as [[-> _]|(h & fl & s & _ & _ & _ & H)]; [done|].
    splitgo H; injection H as <- <-; exact I.
  - unfold setopt_call in H. destruct (negb _); [injection H as <- <-; exact I|].
    apply on_sock_go in H as [[-> _]|(h & fl & s & _ & _ & _ & H)]; [done|].
    splitgo H; injection H as <- <-; try exact I; exact (fdok_same n _ eq_refl I).
  - unfold select_call in H. destruct (select_round n c nfds r w e) as [[y|[[k rs] ws]]|]; [| |discriminate H].
    + injection H as <- <-. exact I.
    + destruct (_ || _); [|discriminate H]. injection H as <- <-. exact I.
  - unfold poll_call in H. destruct (poll_pass n c l) as [[y|rs]|]; [| |discriminate H].
    + injection H as <- <-. exact I.
    + destruct (_ || _); [|discriminate H]. injection H as <- <-. exact I.
  - unfold ecreate_call in H. destruct (size <=? 0); [injection H as <- <-; exact I|].
    destruct (next_fd n c 0) eqn:E; injection H as <- <-; [|exact I].
    refine (fdok_new _ _ _ n _ _ E I); reflexivity.
  - unfold ectl_call in H. destruct (_ || _); [injection H as <- <-; exact I|].
    destruct (n_fds n !! (c, epfd)) as [[h fl|reg|p wr fl| |]|] eqn:E; try (injection H as <- <-; exact I).
    destruct (fd =? epfd); [injection H as <- <-; exact I|].
    destruct (n_fds n !! (c, fd)) as [[h fl|reg0|p wr fl| |]|]; try (injection H as <- <-; exact I);
      cbn zeta in H; splitgo H; injection H as <- <-; try exact I;
      (refine (fdok_old c epfd _ _ n _ _ E I); reflexivity).
  - unfold ewait_call in H. destruct (negb _); [injection H as <- <-; exact I|].
    destruct (n_fds n !! (c, epfd)) as [[h fl|reg|p wr fl| |]|] eqn:E; try (injection H as <- <-; exact I).
    destruct (max <=? 0); [injection H as <- <-; exact I|]. cbn zeta in H.
    destruct (poll_pass _ c _) as [[y|rs]|]; [| |discriminate H].
    + injection H as <- <-. (refine (fdok_old c epfd _ _ n _ _ E I); reflexivity).
    + destruct (_ || _); [|discriminate H]. injection H as <- <-. (refine (fdok_old c epfd _ _ n _ _ E I); reflexivity).
Qed.
Lemma init_fdok : fdok init_net.
Proof.
  intros c k d Hk. cbn in Hk. unfold MAXFD.
  apply lookup_insert_Some in Hk as [[[= <- <-] _]|[_ Hk]]; [lia|].
  apply lookup_insert_Some in Hk as [[[= <- <-] _]|[_ Hk]]; [lia|].
  apply lookup_singleton_Some in Hk as [[= <- <-] _]. lia.
Qed.
Lemma run_fdok l n n' xs : fdok n -> run n l = Some (n', xs) -> fdok n'.
Proof.
  revert n xs. induction l as [|[c o] l IH]; intros n xs I; cbn; [by intros [= <- <-]|].
  destruct (step n c o) as [n1 x| |] eqn:E; [|done|done].
  destruct (run n1 l) as [[n2 ys]|] eqn:R; [|done]. intros [= <- <-].
  exact (IH n1 ys (step_fdok _ _ _ _ _ E I) R).
Qed.
Lemma reach_fdok n : reachable n -> fdok n.
Proof. intros (l & xs & H). exact (run_fdok _ _ _ _ init_fdok H). Qed.

(** ** Calls that cannot abort *)
Lemma aborts_step n c o : aborts n c o <-> step n c o = Dies.
Proof. unfold aborts, says. destruct (step n c o); naive_solver. Qed.
Lemma on_sock_dies n c fd f : ninv n -> 0 <= fd < MAXFD ->
  (forall h fl s, n_fds n !! (c, fd) = Some (DSock h fl) -> n_sock n !! h = Some s -> f h fl s <> Dies) ->
  on_sock n c fd f <> Dies.
Proof.
  intros I R F. unfold on_sock. rewrite (inr_ok _ R). cbn [negb].
  destruct (n_fds n !! (c, fd)) as [[h fl|reg|p wr fl| |]|] eqn:Hd; try discriminate.
  assert (U : uses n h) by by exists (c, fd), fl.
  apply (ni_use _ I), (ni_sock _ I) in U as [s Hs]. rewrite Hs. exact (F h fl s eq_refl Hs).
Qed.
Lemma in_range_b fd : negb (in_range fd) = false -> 0 <= fd < MAXFD.
Proof. unfold in_range. rewrite negb_false_iff, andb_true_iff. lia. Qed.
Lemma bad_shift_ok opt : 0 <= opt < 32 -> bad_shift opt = false.
Proof. unfold bad_shift. intros. rewrite negb_false_iff, andb_true_iff. lia. Qed.
Ltac leaf := repeat match goal with |- context [match ?e with _ => _ end] => destruct e end; discriminate.

Lemma setup_lives n c o : reachable n -> args_ok o -> setup_call o = true -> ~ aborts n c o.
Proof.
  intros R A S. rewrite aborts_step. pose proof (reach_inv _ R) as I.
  destruct o; cbn in S; try discriminate S; cbn [step]; cbn in A.
  - unfold socket_call. leaf.
  - apply on_sock_dies; [done|done|]. intros h fl s _ _.
    destruct (bind_inner p s n) as [[s1 n1] r]. discriminate.
  - apply on_sock_dies; [done|done|]. intros h fl s _ _. destruct (s_st s); discriminate.
  - discriminate.
  - unfold conn_done. leaf.
  - unfold shutdown_call. destruct (negb (in_range fd)) eqn:E; [discriminate|].
    destruct (negb (_ || _)); [discriminate|].
    apply on_sock_dies; [done|by apply in_range_b|]. intros h fl s _ _. discriminate.
  - unfold dup_call. destruct (fd =? 0); [discriminate|].
    destruct (negb (in_range fd)) eqn:E; [discriminate|].
    destruct (n_fds n !! (c, fd)) as [d|] eqn:Hd; [|discriminate].
    destruct (next_fd n c 0) as [k|]; [|discriminate].
    destruct d as [h fl|reg|p wr fl| |]; cbn [retain]; try discriminate.
    assert (U : uses n h) by by exists (c, fd), fl.
    apply (ni_use _ I), (ni_sock _ I) in U as [s Hs]. rewrite Hs.
    destruct (s_ui s); cbn [andb]; discriminate.
  - unfold pipe_call. leaf.
  - unfold open_call. leaf.
  - unfold setnb_call. rewrite (inr_ok _ A). cbn [negb].
    destruct (n_fds n !! (c, fd)) as [[h fl|reg|p wr fl| |]|]; discriminate.
  - unfold ioctl_call. rewrite (inr_ok _ A). cbn [negb].
    destruct (n_fds n !! (c, fd)) as [[h fl|reg|p wr fl| |]|]; discriminate.
  - unfold unlink_call. destruct (n_names n !! p) as [[i|]|] eqn:E; try discriminate.
    destruct (g_nm _ (reach_ginv _ R) p i E) as (r & l & Hr & _). rewrite Hr. discriminate.
  - unfold create_call. leaf.
  - unfold getopt_call. destruct (negb (in_range fd)) eqn:E; [discriminate|].
    apply on_sock_dies; [done|by apply in_range_b|]. intros h fl s _ _.
    rewrite (bad_shift_ok _ A). leaf.
  - unfold setopt_call. destruct (negb (in_range fd)) eqn:E; [discriminate|].
    apply on_sock_dies; [done|by apply in_range_b|]. intros h fl s _ _.
    rewrite (bad_shift_ok _ A). leaf.
  - unfold ecreate_call. leaf.
  - unfold ectl_call. leaf.
Qed.

(** ** Moving data on settled sockets *)
Lemma settled_sock n c fd h fl s : settled n c -> n_fds n !! (c, fd) = Some (DSock h fl) ->
  n_sock n !! h = Some s ->
  s_st s = NotConn \/ (s_st s = Listening /\ is_Some (s_loc s)) \/
  (s_st s <> Listening /\ exists u a b, s_ui s = Some u /\ u_send u = Some a /\ u_recv u = Some b).
Proof.
  intros S Hd Hs. assert (O : opens n c fd h = true) by (unfold opens; rewrite Hd; apply Z.eqb_refl).
  destruct (S fd h O) as [(s' & Hs' & E)|[[(s' & Hs' & E) (p & s2 & Hs2 & E2)]|([a Ha] & [b Hb] & Hn)]].
  - left. congruence.
  - right. left. rewrite Hs in Hs', Hs2. injection Hs' as <-. injection Hs2 as <-. split; [done|by eexists].
  - right. right. split.
    + intros E. apply Hn. by exists s.
    + unfold from in Ha. unfold into in Hb. rewrite Hs in Ha, Hb.
      destruct (s_ui s) as [u|]; [|discriminate Ha]. by exists u, b, a.
Qed.
Lemma send_sock_lives n c fd h fl s bs : ninv n -> settled n c -> n_fds n !! (c, fd) = Some (DSock h fl) ->
  n_sock n !! h = Some s -> send_sock n h fl s bs <> Dies.
Proof.
  intros I S Hd Hs. unfold send_sock.
  destruct (settled_sock _ _ _ _ _ _ S Hd Hs) as [E|[[E _]|(_ & u & a & b & Eu & Ea & _)]].
  - rewrite E. cbn. discriminate.
  - rewrite E. cbn. discriminate.
  - destruct (negb _); [discriminate|]. rewrite Eu, Ea.
    assert (W : writes n a).
    { left. exists h. unfold into. by rewrite Hs, Eu, Ea. }
    apply (ni_wr _ I), (ni_pipe _ I) in W as [x Hx]. rewrite Hx.
    destruct (pipe_write x bs (nonblock fl)) as [[y z]|]; discriminate.
Qed.
Lemma recv_sock_lives n c fd h fl s len flags : ninv n -> settled n c ->
  n_fds n !! (c, fd) = Some (DSock h fl) -> n_sock n !! h = Some s -> recv_sock n h fl s len flags <> Dies.
Proof.
  intros I S Hd Hs. unfold recv_sock.
  destruct (settled_sock _ _ _ _ _ _ S Hd Hs) as [E|[[E _]|(_ & u & a & b & Eu & _ & Eb)]].
  - rewrite E. cbn. discriminate.
  - rewrite E. cbn. discriminate.
  - destruct (negb _); [discriminate|]. cbn zeta. rewrite Eu, Eb.
    assert (W : reads n b (HSock h)).
    { cbn. unfold from. by rewrite Hs, Eu, Eb. }
    apply (ni_rd _ I), (ni_pipe _ I) in W as [x Hx]. rewrite Hx. leaf.
Qed.
Lemma pipe_some n k p wr fl : ninv n -> n_fds n !! k = Some (DPipe p wr fl) -> is_Some (n_pipe n !! p).
Proof.
  intros I H. apply (ni_pipe _ I), (ni_rd _ I p HPipe). by exists k, wr, fl.
Qed.
Lemma rd_ready_some n c fd : ninv n -> settled n c -> is_Some (rd_ready n c fd).
Proof.
  intros I S. unfold rd_ready. destruct (n_fds n !! (c, fd)) as [[h fl|reg|p wr fl| |]|] eqn:Hd; try by eexists.
  - assert (U : uses n h) by by exists (c, fd), fl.
    apply (ni_use _ I), (ni_sock _ I) in U as [s Hs]. rewrite Hs.
    destruct (settled_sock _ _ _ _ _ _ S Hd Hs) as [E|[[E [l El]]|(E & u & a & b & Eu & _ & Eb)]].
    + rewrite E. by eexists.
    + rewrite E, El. by eexists.
    + destruct (s_st s); [by eexists| |by eexists|by eexists|done]. rewrite Eu, Eb.
      assert (W : reads n b (HSock h)).
      { cbn. unfold from. by rewrite Hs, Eu, Eb. }
      apply (ni_rd _ I), (ni_pipe _ I) in W as [x Hx]. rewrite Hx. by eexists.
  - destruct (pipe_some _ _ _ _ _ I Hd) as [x Hx]. rewrite Hx. by eexists.
Qed.
Lemma wr_ready_some n c fd : ninv n -> is_Some (wr_ready n c fd).
Proof.
  intros I. unfold wr_ready. destruct (n_fds n !! (c, fd)) as [[h fl|reg|p wr fl| |]|] eqn:Hd; try by eexists.
  destruct (pipe_some _ _ _ _ _ I Hd) as [x Hx]. rewrite Hx. by eexists.
Qed.
Lemma scan_some f w l : (forall fd, is_Some (f fd)) -> is_Some (scan f w l).
Proof.
  intros F. induction l as [|fd l IH]; cbn; [by eexists|].
  destruct (negb _); [done|]. destruct (F fd) as [[b|] Hb]; rewrite Hb; [|by eexists].
  destruct IH as [[[st k]|] E]; rewrite E; by eexists.
Qed.
Lemma scan_opt_some f w l : (forall fd, is_Some (f fd)) -> is_Some (scan_opt f w l).
Proof. destruct w; cbn; [apply scan_some|by eexists]. Qed.
Lemma select_round_some n c nfds r w e : ninv n -> settled n c -> is_Some (select_round n c nfds r w e).
Proof.
  intros I S. unfold select_round. destruct (_ || _); [by eexists|]. cbn zeta.
  destruct (scan_opt_some (rd_ready n c) r (seqZ 0 nfds)) as [[[rs kr]|] E1];
    [intros; by apply rd_ready_some| |]; rewrite E1; [|by eexists].
  destruct (scan_opt_some (wr_ready n c) w (seqZ 0 nfds)) as [[[ws kw]|] E2];
    [intros; by apply wr_ready_some| |]; rewrite E2; [|by eexists].
  match goal with |- context [scan_opt ?f e ?l] =>
    destruct (scan_opt_some f e l) as [[[es ke]|] E3]; [intros; by eexists| |] end;
    rewrite E3; by eexists.
Qed.
Lemma poll_pass_some n c l : ninv n -> settled n c -> Forall (fun x => x.1 < FD_SET_MAX_FD) l ->
  is_Some (poll_pass n c l).
Proof.
  intros I S. induction 1 as [|[fd ev] l Hfd _ IH]; cbn [poll_pass]; [by eexists|]. cbn in Hfd.
  assert (O : is_Some (poll_one n c fd ev)).
  { unfold poll_one. destruct (fd <? 0); [by eexists|].
    destruct (FD_SET_MAX_FD <=? fd) eqn:E; [apply Z.leb_le in E; lia|]. cbn [andb]. cbn zeta.
    match goal with |- context [select_round n c ?k ?r ?w ?e] =>
      destruct (select_round_some n c k r w e I S) as [[x|[[k' rs] ws]] Er]; rewrite Er end.
    - destruct (_ =? _); by eexists.
    - destruct (0 <? k'); by eexists. }
  destruct O as [[x|r] E]; rewrite E; [by eexists|].
  destruct IH as [[x|rs] F]; rewrite F; by eexists.
Qed.
Lemma settled_put_epoll n c k reg reg' c' : n_fds n !! (c, k) = Some (DEpoll reg) ->
  settled n c' -> settled (put_fd c k (DEpoll reg') n) c'.
Proof.
  intros Hk S fd h O. apply (S fd h). unfold opens in *. cbn in O.
  destruct (decide ((c, k) = (c', fd))) as [E|Hn].
  - rewrite E, lookup_insert in O. discriminate O.
  - by rewrite lookup_insert_ne in O.
Qed.
Lemma live_lt n c reg : fdok n ->
  Forall (fun x : Z * Z => x.1 < FD_SET_MAX_FD)
    (map (fun x : Z * (Z * Z) => (x.1, Z.land x.2.1 (POLLIN + POLLPRI + POLLOUT))) (map_to_list (live n c reg))).
Proof.
  intros T. apply Forall_forall. intros [fd ev] H. apply elem_of_list_fmap in H as ([k y] & [= -> ->] & H).
  apply elem_of_map_to_list in H.
  apply map_filter_lookup_Some in H as [_ [d Hd]]. cbn in Hd. apply T in Hd.
  unfold MAXFD in Hd. unfold FD_SET_MAX_FD. cbn. lia.
Qed.
Lemma data_lives n c o : reachable n -> args_ok o -> data_call o = true -> settled n c -> ~ aborts n c o.
Proof.
  intros R A D S. rewrite aborts_step. pose proof (reach_inv _ R) as I.
  destruct o; cbn in D; try discriminate D; cbn [step]; cbn in A.
  - apply on_sock_dies; [done|done|]. intros h fl s Hd Hs. exact (send_sock_lives _ _ _ _ _ _ _ I S Hd Hs).
  - apply on_sock_dies; [done|done|]. intros h fl s Hd Hs. exact (recv_sock_lives _ _ _ _ _ _ _ _ I S Hd Hs).
  - unfold read_call. rewrite (inr_ok _ A). cbn [negb].
    destruct (n_fds n !! (c, fd)) as [[h fl|reg|p wr fl| |]|] eqn:Hd; try discriminate.
    + assert (U : uses n h) by by exists (c, fd), fl.
      apply (ni_use _ I), (ni_sock _ I) in U as [s Hs]. rewrite Hs.
      exact (recv_sock_lives _ _ _ _ _ _ _ _ I S Hd Hs).
    + destruct wr; [discriminate|]. destruct (pipe_some _ _ _ _ _ I Hd) as [x Hx]. rewrite Hx. leaf.
  - unfold write_call. rewrite (inr_ok _ A). cbn [negb].
    destruct (n_fds n !! (c, fd)) as [[h fl|reg|p wr fl| |]|] eqn:Hd; try discriminate.
    + assert (U : uses n h) by by exists (c, fd), fl.
      apply (ni_use _ I), (ni_sock _ I) in U as [s Hs]. rewrite Hs.
      exact (send_sock_lives _ _ _ _ _ _ _ I S Hd Hs).
    + destruct (negb wr); [discriminate|]. destruct (pipe_some _ _ _ _ _ I Hd) as [x Hx]. rewrite Hx. leaf.
  - unfold select_call. destruct (select_round_some n c nfds r w e I S) as [[y|[[k rs] ws]] E]; rewrite E; leaf.
  - unfold poll_call. destruct (poll_pass_some n c l I S A) as [[y|rs] E]; rewrite E; leaf.
  - unfold ewait_call. destruct (negb _); [discriminate|].
    destruct (n_fds n !! (c, epfd)) as [[h fl|reg|p wr fl| |]|] eqn:Hd; try discriminate.
    destruct (max <=? 0); [discriminate|]. cbn zeta.
    assert (I1 : ninv (put_fd c epfd (DEpoll (live n c reg)) n)).
    { apply (shr_ninv n); [|done]. apply shr_put_fd. exact Logic.I. }
    destruct (poll_pass_some _ c _ I1 (settled_put_epoll _ _ _ _ _ _ Hd S) (live_lt n c reg (reach_fdok _ R)))
      as [[y|rs] E]; rewrite E; leaf.
Qed.

(** ** Whom a connect reaches *)
Definition nbound (n n' : net) : Prop := forall k, User k ∈ n_bound n' -> User k ∈ n_bound n.
Lemma nb_same n n' : n_bound n' = n_bound n -> nbound n n'.
Proof. intros E k. by rewrite E. Qed.
Lemma nb_trans a b c : nbound a b -> nbound b c -> nbound a c.
Proof. intros H K k Hk. exact (H k (K k Hk)). Qed.
Lemma nb_less p n n' : n_bound n' = n_bound n ∖ {[ p ]} -> nbound n n'.
Proof. intros E k. rewrite E. set_solver. Qed.
Lemma bind_inner_bound p s n s1 n1 r : bind_inner p s n = (s1, n1, r) ->
  (n_bound n1 = n_bound n) \/ (r = 0 /\ n_bound n1 = {[ p ]} ∪ n_bound n).
Proof.
  unfold bind_inner, bind_unix. destruct (s_loc s); [intros [= _ <- _]; by left|].
  destruct (n_names n !! p); intros [= _ <- <-]; [by left|by right].
Qed.
Lemma bind_auto_bound k s n s1 n1 r : bind_inner (Auto k) s n = (s1, n1, r) -> nbound n n1.
Proof.
  intros H. destruct (bind_inner_bound _ _ _ _ _ _ H) as [E|[_ E]]; intros j; rewrite E; set_solver.
Qed.
Lemma auto_bind_bound s n s1 n1 : auto_bind s n = (s1, n1) -> nbound n n1.
Proof.
  unfold auto_bind. destruct (s_loc s); [intros [= _ <-]; by apply nb_same|].
  destruct (bind_inner _ s (bump_auto n)) as [[s2 n2] r] eqn:E. intros [= _ <-].
  exact (bind_auto_bound _ _ _ _ _ _ E).
Qed.
Lemma ino_ref_bound d i n n' : ino_ref d i n = Some n' -> n_bound n' = n_bound n.
Proof. unfold ino_ref. intros H. splitgo H. by injection H as <-. Qed.
Lemma release_bound d n n' : release d n = Some n' -> nbound n n'.
Proof.
  intros H. destruct d as [h fl|reg|p wr fl| |]; cbn [release] in H; try (injection H as <-; by apply nb_same).
  destruct (n_sock n !! h) as [s|]; [|discriminate H].
  destruct (s_ui s) as [u|]; [|injection H as <-; by apply nb_same].
  match type of H with context [put_sock h ?s ?m] => set (n3 := put_sock h s m) in * end.
  assert (T : n_bound n3 = n_bound n).
  { unfold n3. cbn. destruct (u_recv u), (u_send u); reflexivity. }
  clearbody n3.
  destruct (_ || _); [discriminate H|].
  destruct (u_ino u =? -1); [injection H as <-; by apply nb_same|].
  destruct (n_ino n3 !! u_ino u) as [[r l]|]; [|discriminate H].
  destruct (r =? 0); [discriminate H|].
  destruct (_ && _); [|injection H as <-; by apply nb_same].
  destruct (s_loc s) as [q|]; [|discriminate H]. injection H as <-. apply (nb_less q). cbn. by rewrite T.
Qed.
Lemma retain_bound b d n n' : retain b d n = Some n' -> n_bound n' = n_bound n.
Proof.
  intros H. destruct d as [h fl|reg|p wr fl| |]; cbn [retain] in H; try (injection H as <-; reflexivity).
  destruct (n_sock n !! h) as [s|]; [|discriminate H].
  destruct (s_ui s) as [u|]; [|injection H as <-; reflexivity].
  match type of H with context [opt_pipe (u_recv u) ?f ?m] => set (n3 := opt_pipe (u_recv u) f m) in * end.
  assert (T : n_bound n3 = n_bound n).
  { unfold n3. cbn. destruct (u_recv u), (u_send u); reflexivity. }
  clearbody n3.
  destruct (_ && _); [by rewrite (ino_ref_bound _ _ _ _ H)|]. injection H as <-. done.
Qed.
Lemma fork_bound c c' l n n' : fork_fds c c' l n = Some n' -> n_bound n' = n_bound n.
Proof.
  revert n. induction l as [|k l IH]; intros n; cbn; [by intros [= <-]|].
  destruct (n_fds n !! (c, k)) as [d|]; [|apply IH].
  destruct (retain true d n) as [n1|] eqn:E; [|done]. intros H.
  rewrite (IH _ H). exact (retain_bound _ _ _ _ E).
Qed.
Lemma accept_bound n c fd n' x : accept_call n c fd = Go n' x -> n_bound n' = n_bound n.
Proof.
  intros H. unfold accept_call in H. destruct (negb (in_range fd)); [discriminate H|].
  destruct (n_fds n !! (c, fd)) as [d|]; [|injection H as <- <-; done].
  destruct (next_fd n c 0) as [k|] eqn:Hk; [|injection H as <- <-; done].
  destruct d as [h fl|reg|p wr fl| |]; try (injection H as <- <-; reflexivity).
  destruct (n_sock n !! h) as [s|]; [|discriminate H].
  destruct (negb _); [injection H as <- <-; done|].
  destruct (s_loc s) as [l|]; [|discriminate H].
  destruct (n_pend n !! l) as [q|]; [|destruct (nonblock fl); [injection H as <- <-; done|discriminate H]].
  destruct (bool_decide (q_cond q = Some false)); [discriminate H|].
  set (n2 := if bool_decide (q_cond q = Some true) then _ else _) in *.
  assert (I2 : n_bound n2 = n_bound n) by (unfold n2; by destruct (bool_decide _)).
  clearbody n2.
  destruct (n_names n !! q_from q) as [[i|]|].
  - destruct (s_ui s); [|discriminate H]. destruct (ino_ref 1 i n2) as [n3|] eqn:E; [|discriminate H].
    injection H as <- <-. cbn. by rewrite (ino_ref_bound _ _ _ _ E), I2.
  - destruct (s_ui s); [|discriminate H]. injection H as <- <-. exact I2.
  - injection H as <- <-. exact I2.
Qed.
Lemma socketpair_bound n c d t p n' x : socketpair_call n c d t p = Go n' x -> nbound n n'.
Proof.
  intros H. unfold socketpair_call in H.
  destruct (negb _); [injection H as <- <-; by apply nb_same|].
  destruct (_ || _); [injection H as <- <-; by apply nb_same|].
  destruct (negb _); [injection H as <- <-; by apply nb_same|].
  set (fl := fl_of _ _) in H.
  set (s0 := new_sock NotConn t fl) in H.
  set (na := alloc_sock s0 (alloc_sock s0 n)) in H.
  assert (Ia : n_bound na = n_bound n) by reflexivity. clearbody na.
  destruct (match next_fd na c 0 with Some k => _ | None => _ end) as [nb f1] eqn:Eb.
  assert (Ib : n_bound nb = n_bound n) by (destruct (next_fd na c 0); injection Eb as <- _; done).
  destruct (match next_fd nb c 0 with Some k => _ | None => _ end) as [nc f2] eqn:Ec.
  assert (Ic : n_bound nc = n_bound n) by (destruct (next_fd nb c 0); injection Ec as <- _; done).
  destruct (bind_inner _ s0 (bump_auto (bump_auto nc))) as [[s1 nd] r1] eqn:B1.
  destruct (bind_inner _ s0 nd) as [[s2 ne] r2] eqn:B2.
  apply bind_auto_bound in B1, B2.
  destruct (s_ui s1) as [u1|]; [|discriminate H]. destruct (s_ui s2) as [u2|]; [|discriminate H].
  destruct (ino_ref 1 (u_ino u1) _) as [ng|] eqn:F1; [|discriminate H].
  destruct (ino_ref 1 (u_ino u2) ng) as [nh|] eqn:F2; [|discriminate H].
  injection H as <- <-. apply (nb_trans _ nc); [by apply nb_same|].
  apply (nb_trans _ nd); [exact B1|]. apply (nb_trans _ ne); [exact B2|].
  apply nb_same. cbn. by rewrite (ino_ref_bound _ _ _ _ F2), (ino_ref_bound _ _ _ _ F1).
Qed.
Lemma send_bound n h fl s bs n' x : send_sock n h fl s bs = Go n' x -> n_bound n' = n_bound n.
Proof. unfold send_sock. intros H. splitgo H; injection H as <- <-; reflexivity. Qed.
Lemma recv_bound n h fl s len flags n' x : recv_sock n h fl s len flags = Go n' x -> n_bound n' = n_bound n.
Proof. unfold recv_sock. intros H. splitgo H; injection H as <- <-; reflexivity. Qed.

Lemma step_bound n c o n' x k : step n c o = Go n' x -> binds (User k) n c o x = [] ->
  User k ∈ n_bound n' -> User k ∈ n_bound n.
Proof.
  intros H B. destruct o; cbn [step] in H.
  - unfold socket_call in H. splitgo H; injection H as <- <-; done.
  - apply on_sock_go in H as [[-> _]|(h & fl & s & _ & _ & _ & H)]; [done|].
    destruct (bind_inner p s n) as [[s1 n1] r] eqn:E. injection H as <- <-. cbn in B |- *.
    destruct (bind_inner_bound _ _ _ _ _ _ E) as [->|[-> ->]]; [done|].
    case_bool_decide as G; [discriminate B|]. set_solver.
  - apply on_sock_go in H as [[-> _]|(h & fl & s & _ & _ & _ & H)]; [done|].
    destruct (s_st s); injection H as <- <-; done.
  - apply on_sock_go in H as [[-> _]|(h & fl & s & _ & _ & _ & H)]; [done|].
    destruct (negb _); [injection H as <- <-; done|].
    destruct (auto_bind s n) as [s1 n1] eqn:E. pose proof (auto_bind_bound _ _ _ _ E) as C.
    destruct (negb _); [injection H as <- <-; exact (C k)|].
    destruct (s_ui s1); [|discriminate H]. destruct (s_loc s1); [|discriminate H].
    injection H as <- <-. exact (C k).
  - unfold conn_wait in H. injection H as <- <-. done.
  - unfold conn_done in H. destruct (bool_decide _); [|discriminate H]. injection H as <- <-. done.
  - by rewrite (accept_bound _ _ _ _ _ H).
  - exact (socketpair_bound _ _ _ _ _ _ _ H k).
  - apply on_sock_go in H as [[-> _]|(h & fl & s & _ & _ & _ & H)]; [done|].
    by rewrite (send_bound _ _ _ _ _ _ _ H).
  - apply on_sock_go in H as [[-> _]|(h & fl & s & _ & _ & _ & H)]; [done|].
    by rewrite (recv_bound _ _ _ _ _ _ _ _ H).
  - unfold read_call in H. destruct (negb (in_range fd)); [discriminate H|].
    destruct (n_fds n !! (c, fd)) as [[h fl|reg|p wr fl| |]|]; try (injection H as <- <-; done).
    + destruct (n_sock n !! h) as [s|]; [|discriminate H].
      by rewrite (recv_bound _ _ _ _ _ _ _ _ H).
    + splitgo H; injection H as <- <-; done.
  - unfold write_call in H. destruct (negb (in_range fd)); [discriminate H|].
    destruct (n_fds n !! (c, fd)) as [[h fl|reg|p wr fl| |]|]; try (injection H as <- <-; done).
    + destruct (n_sock n !! h) as [s|]; [|discriminate H].
      by rewrite (send_bound _ _ _ _ _ _ _ H).
    + splitgo H; injection H as <- <-; done.
  - unfold shutdown_call in H. destruct (negb _); [injection H as <- <-; done|].
    destruct (negb (_ || _)); [injection H as <- <-; done|].
    apply on_sock_go in H as [[-> _]|(h & fl & s & _ & _ & _ & H)]; [done|].
    injection H as <- <-. destruct (how =? SHUT_RDWR); done.
  - unfold close_call in H. destruct (negb (in_range fd)); [discriminate H|].
    destruct (n_fds n !! (c, fd)) as [d|]; [|injection H as <- <-; done].
    destruct (release d n) as [n1|] eqn:E; [|discriminate H]. injection H as <- <-.
    exact (release_bound _ _ _ E k).
  - unfold dup_call in H. destruct (fd =? 0); [injection H as <- <-; done|].
    destruct (negb (in_range fd)); [injection H as <- <-; done|].
    destruct (n_fds n !! (c, fd)) as [d|]; [|injection H as <- <-; done].
    destruct (next_fd n c 0) as [j|]; [|injection H as <- <-; done].
    destruct d; [| injection H as <- <-; done | | |];
      match type of H with context [retain false ?d n] => destruct (retain false d n) as [n1|] eqn:E end;
      try discriminate H; injection H as <- <-; cbn; by rewrite (retain_bound _ _ _ _ E).
  - unfold dup2_call in H. destruct (negb (in_range fd2)); [injection H as <- <-; done|].
    destruct (fd2 =? fd); [injection H as <- <-; done|].
    destruct (negb (in_range fd)); [injection H as <- <-; done|].
    destruct (n_fds n !! (c, fd)) as [d|]; [|injection H as <- <-; done].
    destruct (match n_fds n !! (c, fd2) with None => _ | Some d2 => _ end) as [n1|] eqn:E; [|discriminate H].
    assert (I1 : nbound n n1).
    { destruct (n_fds n !! (c, fd2)); [exact (release_bound _ _ _ E)|injection E as <-; by apply nb_same]. }
    intros G. apply (I1 k). revert G.
    destruct d; [| injection H as <- <-; done | | |];
      match type of H with context [retain false ?d n1] => destruct (retain false d n1) as [n2|] eqn:F end;
      try discriminate H; injection H as <- <-; cbn; by rewrite (retain_bound _ _ _ _ F).
  - unfold fork_call in H. destruct (negb _); [discriminate H|].
    destruct (fork_fds c child fd_list n) as [n1|] eqn:E; [|discriminate H]. injection H as <- <-.
    by rewrite (fork_bound _ _ _ _ _ E).
  - unfold pipe_call in H. splitgo H; injection H as <- <-; done.
  - unfold open_call in H. splitgo H; injection H as <- <-; done.
  - unfold setnb_call in H. destruct (negb (in_range fd)); [discriminate H|].
    destruct (n_fds n !! (c, fd)) as [[h fl|reg|p wr fl| |]|]; injection H as <- <-; done.
  - unfold ioctl_call in H. destruct (negb (in_range fd)); [discriminate H|].
    destruct (n_fds n !! (c, fd)) as [[h fl|reg|p wr fl| |]|]; injection H as <- <-; done.
  - unfold unlink_call in H. splitgo H; injection H as <- <-; cbn; set_solver.
  - unfold create_call in H. splitgo H; injection H as <- <-; done.
  - unfold getopt_call in H. destruct (negb _); [injection H as <- <-; done|].
    apply on_sock_go in H as [[-> _]|(h & fl & s & _ & _ & _ & H)]; [done|].
    splitgo H; injection H as <- <-; done.
  - unfold setopt_call in H. destruct (negb _); [injection H as <- <-; done|].
    apply on_sock_go in H as [[-> _]|(h & fl & s & _ & _ & _ & H)]; [done|].
    splitgo H; injection H as <- <-; done.
  - unfold select_call in H. destruct (select_round n c nfds r w e) as [[y|[[j rs] ws]]|]; [| |discriminate H].
    + injection H as <- <-. done.
    + destruct (_ || _); [|discriminate H]. injection H as <- <-. done.
  - unfold poll_call in H. destruct (poll_pass n c l) as [[y|rs]|]; [| |discriminate H].
    + injection H as <- <-. done.
    + destruct (_ || _); [|discriminate H]. injection H as <- <-. done.
  - unfold ecreate_call in H. splitgo H; injection H as <- <-; done.
  - unfold ectl_call in H. splitgo H; injection H as <- <-; done.
  - unfold ewait_call in H. splitgo H; injection H as <- <-; done.
Qed.
Lemma run_bound k l n n' xs : run n l = Some (n', xs) -> gather (binds (User k)) n l = [] ->
  User k ∉ n_bound n -> User k ∉ n_bound n'.
Proof.
  revert n xs. induction l as [|[c o] l IH]; intros n xs; cbn; [by intros [= <- <-]|].
  destruct (step n c o) as [n1 x| |] eqn:E; [|done|done].
  destruct (run n1 l) as [[n2 ys]|] eqn:R; [|done]. intros [= <- <-] G N.
  apply app_eq_nil in G as [G1 G2].
  apply (IH n1 ys R G2). intros K. exact (N (step_bound _ _ _ _ _ _ E G1 K)).
Qed.
Lemma connect_unbound n c fd k n' x : User k ∉ n_bound n -> step n c (Connect fd (User k)) = Go n' x ->
  (exists e, x = Ret e /\ e < 0) /\ n_pend n' = n_pend n /\
  forall h st, sock_state n h st -> sock_state n' h st.
Proof.
  intros N H. cbn [step] in H.
  apply on_sock_go in H as [[-> [[-> _]|[-> _]]]|(h & fl & s & _ & _ & Hs & H)].
  - split; [eexists; split; [done|unfold err, EBADF; lia]|done].
  - split; [eexists; split; [done|unfold err, ENOTSOCK; lia]|done].
  - destruct (negb _); [injection H as <- <-; split; [eexists; split; [done|unfold err, EISCONN; lia]|done]|].
    destruct (auto_bind s n) as [s1 n1] eqn:E.
    destruct (auto_bind_shr _ _ _ _ E) as (_ & A & _ & P & _ & _ & _ & T).
    pose proof (auto_bind_bound _ _ _ _ E k) as C.
    rewrite bool_decide_eq_false_2 in H by (intros G; exact (N (C G))). cbn in H. injection H as <- <-.
    split; [eexists; split; [done|unfold err, ENOENT; lia]|].
    split; [exact P|].
    intros h' st (s' & Hs' & Es). destruct (decide (h = h')) as [<-|Hn].
    + exists s1. cbn. rewrite lookup_insert. split; [done|]. rewrite Hs in Hs'. injection Hs' as <-.
      by rewrite T.
    + exists s'. cbn. rewrite lookup_insert_ne by done. rewrite A. done.
Qed.
Lemma unlink_unbound n c k n' : step n c (Unlink (User k)) = Go n' (Ret 0) -> User k ∉ n_bound n'.
Proof.
  cbn [step]. unfold unlink_call. intros H. splitgo H; injection H as <-; cbn; set_solver.
Qed.
