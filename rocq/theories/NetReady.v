(** Descriptor tables, epoll, readiness: proofs for C60, C61, C63. *)
From Verif Require Import Base NetModel NetSpec NetInv NetStep NetData NetKeep NetCalls.
Local Open Scope list_scope.
Local Open Scope Z_scope.

Lemma fresh_cage_none n c k : fresh_cage n c = true -> 0 <= k < MAXFD -> n_fds n !! (c, k) = None.
Proof.
  intros H Hk. unfold fresh_cage in H. rewrite forallb_forall in H.
  specialize (H k (proj1 (elem_of_list_In _ _) (proj2 (fd_list_in k) Hk))).
  by apply bool_decide_eq_true in H.
Qed.
Opaque fd_list next_fd fresh_cage.

(** ** Open descriptors stay as they are *)
Definition fds_le (n n' : net) (c k : Z) : Prop := forall d,
  n_fds n !! (c, k) = Some d -> n_fds n' !! (c, k) = Some d.
Lemma fds_put n c k d c0 k0 : (n_fds n !! (c, k) = None \/ (c, k) <> (c0, k0)) ->
  fds_le n (put_fd c k d n) c0 k0.
Proof.
  intros H e He. cbn. destruct (decide ((c, k) = (c0, k0))) as [E|E].
  - destruct H as [H|H]; congruence.
  - by rewrite lookup_insert_ne.
Qed.
Lemma retain_fds' b d n n' : retain b d n = Some n' -> n_fds n' = n_fds n.
Proof. exact (retain_fds b d n n'). Qed.
Lemma fork_fds_le c c' l n n' c0 k0 : fork_fds c c' l n = Some n' ->
  c0 <> c' -> fds_le n n' c0 k0.
Proof.
  intros H N. revert n H. induction l as [|k l IH]; intros n H d Hd; cbn in H; [by injection H as <-|].
  destruct (n_fds n !! (c, k)) as [e|]; [|exact (IH _ H d Hd)].
  destruct (retain true e n) as [n1|] eqn:R; [|discriminate H].
  apply (IH _ H). apply retain_fds in R. cbn. rewrite lookup_insert_ne by congruence. by rewrite R.
Qed.
Lemma step_fds n c o n' x c0 k0 : 0 <= k0 < MAXFD ->
  step n c o = Go n' x -> (c = c0 -> touches o k0 = false) -> fds_le n n' c0 k0.
Proof.
  intros Hk H Ht.
  assert (SAME : forall m, n_fds m = n_fds n -> fds_le n m c0 k0).
  { intros m E d Hd. by rewrite E. }
  assert (NEW : forall m k d, n_fds m = n_fds n -> next_fd n c 0 = Some k ->
    fds_le n (put_fd c k d m) c0 k0).
  { intros m k d E Hn e He. apply (fds_put m c k d c0 k0); [|by rewrite E].
    left. rewrite E. by destruct (next_fd_free _ _ _ _ Hn). }
  assert (OLD : forall m k d, n_fds m = n_fds n -> (c = c0 -> (k =? k0) = false) ->
    fds_le n (put_fd c k d m) c0 k0).
  { intros m k d E Hn e He. apply (fds_put m c k d c0 k0); [|by rewrite E].
    right. intros [= -> ->]. specialize (Hn eq_refl). lia. }
  destruct o; cbn [step] in H; cbn [touches] in Ht.
  - unfold socket_call in H. splitgo H; injection H as <- <-; try (by apply SAME). by apply NEW.
  - apply on_sock_go in H as [[-> _]|(h & fl & s & _ & Hd & Hs & H)]; [by apply SAME|].
    destruct (bind_inner p s n) as [[s1 n1] r] eqn:E. injection H as <- <-.
    destruct (bind_inner_shr _ _ _ _ _ _ E) as (_ & _ & C & _). by apply SAME.
  - apply on_sock_go in H as [[-> _]|(h & fl & s & _ & Hd & Hs & H)]; [by apply SAME|].
    destruct (s_st s); injection H as <- <-; by apply SAME.
  - unfold connect_call in H.
    apply on_sock_go in H as [[-> _]|(h & fl & s & _ & Hd & Hs & H)]; [by apply SAME|].
    destruct (bool_decide (s_st s = NotConn)); cbn [negb] in H; [|injection H as <- <-; by apply SAME].
    destruct (auto_bind s n) as [s1 n1] eqn:E.
    destruct (auto_bind_shr _ _ _ _ E) as (_ & _ & C & _).
    splitgo H; injection H as <- <-; by apply SAME.
  - unfold conn_wait in H. injection H as <- <-. by apply SAME.
  - unfold conn_done in H. splitgo H. injection H as <- <-. by apply SAME.
  - (* Accept *)
    unfold accept_call in H. destruct (in_range fd); [|discriminate H]. cbn [negb] in H.
    destruct (n_fds n !! (c, fd)) as [d|]; [|injection H as <- <-; by apply SAME].
    destruct (next_fd n c 0) as [k|] eqn:Hn; [|injection H as <- <-; by apply SAME].
    destruct d as [h fl| | | |]; try (injection H as <- <-; by apply SAME).
    destruct (n_sock n !! h) as [s|] eqn:Hs; [|discriminate H].
    destruct (negb _); [injection H as <- <-; by apply SAME|].
    destruct (s_loc s) as [l|]; [|discriminate H].
    destruct (n_pend n !! l) as [q|] eqn:Hq.
    2:{ destruct (nonblock fl); [injection H as <- <-; by apply SAME|discriminate H]. }
    destruct (bool_decide (q_cond q = Some false)); [discriminate H|].
    set (n1 := set_pend (delete l) n) in *.
    set (n2 := if bool_decide (q_cond q = Some true) then _ else n1) in *.
    assert (A : n_fds n2 = n_fds n) by (unfold n2; by destruct (bool_decide _)).
    destruct (n_names n !! q_from q) as [[i|]|].
    + destruct (s_ui s); [|discriminate H].
      destruct (ino_ref 1 i n2) as [n3|] eqn:Ei; [|discriminate H]. injection H as <- <-.
      apply NEW; [|done]. cbn. unfold ino_ref in Ei. splitgo Ei. injection Ei as <-. exact A.
    + destruct (s_ui s); [|discriminate H]. injection H as <- <-. by apply NEW.
    + injection H as <- <-. by apply NEW.
  - (* Socketpair *)
    unfold socketpair_call in H.
    destruct (negb (domain =? AF_UNIX)); [injection H as <- <-; by apply SAME|].
    destruct (negb _ || _); [injection H as <- <-; by apply SAME|].
    destruct (negb _); [injection H as <- <-; by apply SAME|].
    set (fl := fl_of _ _) in H.
    set (s := new_sock NotConn ty fl) in H.
    set (na := alloc_sock s (alloc_sock s n)) in H.
    assert (FD : forall h m m' f,
      match next_fd m c 0 with
      | Some k => (put_fd c k (DSock h fl) m, k)
      | None => (m, err ENFILE)
      end = (m', f) -> fds_le m m' c0 k0).
    { intros h m m' f Hm. destruct (next_fd m c 0) as [k|] eqn:Hn; injection Hm as <- <-.
      - apply fds_put. left. by destruct (next_fd_free _ _ _ _ Hn).
      - by intros d. }
    destruct (match next_fd na c 0 with Some k => _ | None => _ end) as [nb f1] eqn:E1.
    destruct (match next_fd nb c 0 with Some k => _ | None => _ end) as [nc f2] eqn:E2.
    destruct (bind_inner (Auto (n_auto n)) s (bump_auto (bump_auto nc))) as [[s1 nd] r1] eqn:B1.
    destruct (bind_inner (Auto (n_auto n + 1)) s nd) as [[s2 ne] r2] eqn:B2.
    destruct (bind_inner_shr _ _ _ _ _ _ B1) as (_ & _ & C1 & _).
    destruct (bind_inner_shr _ _ _ _ _ _ B2) as (_ & _ & C2 & _).
    destruct (s_ui s1) as [u1|]; [|discriminate H].
    destruct (s_ui s2) as [u2|]; [|discriminate H].
    destruct (ino_ref 1 (u_ino u1) _) as [ng|] eqn:G1; [|discriminate H].
    destruct (ino_ref 1 (u_ino u2) ng) as [nh|] eqn:G2; [|discriminate H].
    injection H as <- _. intros d Hd. cbn.
    assert (Eh : n_fds nh = n_fds nc).
    { unfold ino_ref in G2. splitgo G2. injection G2 as <-. cbn.
      unfold ino_ref in G1. splitgo G1. injection G1 as <-. cbn. by rewrite C2, C1. }
    rewrite Eh. apply (FD _ _ _ _ E2). apply (FD _ _ _ _ E1). exact Hd.
  - apply on_sock_go in H as [[-> _]|(h & fl & s & _ & Hd & Hs & H)]; [by apply SAME|].
    unfold send_sock in H. splitgo H; injection H as <- <-; by apply SAME.
  - apply on_sock_go in H as [[-> _]|(h & fl & s & _ & Hd & Hs & H)]; [by apply SAME|].
    unfold recv_sock in H. splitgo H; injection H as <- <-; by apply SAME.
  - unfold read_call in H. destruct (in_range fd); [|discriminate H]. cbn [negb] in H.
    destruct (n_fds n !! (c, fd)) as [[h fl|reg|z wr fl| |]|]; try (injection H as <- <-; by apply SAME).
    + destruct (n_sock n !! h) as [s|] eqn:Hs; [|discriminate H].
      unfold recv_sock in H. splitgo H; injection H as <- <-; by apply SAME.
    + splitgo H; injection H as <- <-; by apply SAME.
  - unfold write_call in H. destruct (in_range fd); [|discriminate H]. cbn [negb] in H.
    destruct (n_fds n !! (c, fd)) as [[h fl|reg|z wr fl| |]|]; try (injection H as <- <-; by apply SAME).
    + destruct (n_sock n !! h) as [s|] eqn:Hs; [|discriminate H].
      unfold send_sock in H. splitgo H; injection H as <- <-; by apply SAME.
    + splitgo H; injection H as <- <-; by apply SAME.
  - (* Shutdown *)
    unfold shutdown_call in H. destruct (in_range fd); [|injection H as <- <-; by apply SAME].
    cbn [negb] in H. destruct (negb _); [injection H as <- <-; by apply SAME|].
    apply on_sock_go in H as [[-> _]|(h & fl & s & _ & Hd & Hs & H)]; [by apply SAME|].
    injection H as <- <-. destruct (how =? SHUT_RDWR); [|by apply SAME].
    intros d He. cbn. rewrite lookup_delete_ne; [done|]. intros [= -> ->]. specialize (Ht eq_refl). lia.
  - (* Close *)
    unfold close_call in H. destruct (in_range fd); [|discriminate H]. cbn [negb] in H.
    destruct (n_fds n !! (c, fd)) as [d|]; [|injection H as <- <-; by apply SAME].
    destruct (release d n) as [n1|] eqn:E; [|discriminate H]. injection H as <- <-.
    intros e He. cbn. rewrite lookup_delete_ne.
    + by rewrite (release_fds _ _ _ E).
    + intros [= -> ->]. specialize (Ht eq_refl). lia.
  - (* Dup *)
    unfold dup_call in H. destruct (fd =? 0); [injection H as <- <-; by apply SAME|].
    destruct (in_range fd); [|injection H as <- <-; by apply SAME]. cbn [negb] in H.
    destruct (n_fds n !! (c, fd)) as [d|] eqn:Hd; [|injection H as <- <-; by apply SAME].
    destruct (next_fd n c 0) as [k|] eqn:Hn; [|injection H as <- <-; by apply SAME].
    destruct d; try (injection H as <- <-; by apply SAME).
    all: destruct (retain false _ n) as [n1|] eqn:E; [|discriminate H]; injection H as <- <-.
    all: apply NEW; [exact (retain_fds _ _ _ _ E)|done].
  - (* Dup2 *)
    unfold dup2_call in H. destruct (in_range fd2); [|injection H as <- <-; by apply SAME].
    cbn [negb] in H. destruct (fd2 =? fd); [injection H as <- <-; by apply SAME|].
    destruct (in_range fd); [|injection H as <- <-; by apply SAME]. cbn [negb] in H.
    destruct (n_fds n !! (c, fd)) as [d|] eqn:Hd; [|injection H as <- <-; by apply SAME].
    destruct (match n_fds n !! (c, fd2) with Some d2 => release d2 n | None => Some n end)
      as [n1|] eqn:E1; [|discriminate H].
    assert (S1 : n_fds n1 = n_fds n).
    { destruct (n_fds n !! (c, fd2)) as [d2|].
      - exact (release_fds _ _ _ E1).
      - by injection E1 as <-. }
    destruct d; try (injection H as <- <-; by apply SAME).
    all: destruct (retain false _ n1) as [n2|] eqn:E; [|discriminate H]; injection H as <- <-.
    all: apply OLD; [rewrite (retain_fds _ _ _ _ E); exact S1|exact Ht].
  - (* Fork *)
    unfold fork_call in H. destruct (fresh_cage n child) eqn:F; [|discriminate H]. cbn [negb] in H.
    destruct (fork_fds c child fd_list n) as [n1|] eqn:E; [|discriminate H].
    injection H as <- <-. destruct (decide (c0 = child)) as [->|N].
    + intros d Hd. by rewrite (fresh_cage_none _ _ _ F Hk) in Hd.
    + exact (fork_fds_le _ _ _ _ _ _ _ E N).
  - (* Pipe *)
    unfold pipe_call in H. set (n1 := alloc_pipe PIPE_CAPACITY n) in H.
    destruct (next_fd n1 c 0) as [a|] eqn:E1; [|injection H as <- <-; by apply SAME].
    set (n2 := put_fd c a _ n1) in H.
    assert (L : fds_le n n2 c0 k0).
    { intros d Hd. apply (fds_put n1); [|exact Hd]. left. by destruct (next_fd_free _ _ _ _ E1). }
    destruct (next_fd n2 c 0) as [b|] eqn:E2; injection H as <- <-; [|exact L].
    intros d Hd. apply (fds_put n2); [|exact (L d Hd)]. left. by destruct (next_fd_free _ _ _ _ E2).
  - unfold open_call in H. destruct (next_fd n c 0) as [k|] eqn:E; injection H as <- <-; [|by apply SAME].
    by apply NEW.
  - unfold setnb_call in H. splitgo H; injection H as <- <-; try (by apply SAME); by apply OLD.
  - unfold ioctl_call in H. splitgo H; injection H as <- <-; try (by apply SAME); by apply OLD.
  - unfold unlink_call in H. splitgo H; injection H as <- <-; by apply SAME.
  - unfold create_call in H. splitgo H; injection H as <- <-; by apply SAME.
  - unfold getopt_call in H. destruct (in_range fd); [|injection H as <- <-; by apply SAME].
    cbn [negb] in H.
    apply on_sock_go in H as [[-> _]|(h & fl & s & _ & Hd & Hs & H)]; [by apply SAME|].
    splitgo H; injection H as <- <-; by apply SAME.
  - unfold setopt_call in H. destruct (in_range fd); [|injection H as <- <-; by apply SAME].
    cbn [negb] in H.
    apply on_sock_go in H as [[-> _]|(h & fl & s & _ & Hd & Hs & H)]; [by apply SAME|].
    splitgo H; injection H as <- <-; by apply SAME.
  - unfold select_call in H. splitgo H; injection H as <- <-; by apply SAME.
  - unfold poll_call in H. splitgo H; injection H as <- <-; by apply SAME.
  - unfold ecreate_call in H. destruct (size <=? 0); [injection H as <- <-; by apply SAME|].
    destruct (next_fd n c 0) as [k|] eqn:E; injection H as <- <-; [|by apply SAME]. by apply NEW.
  - unfold ectl_call in H. splitgo H; injection H as <- <-; try (by apply SAME); by apply OLD.
  - unfold ewait_call in H. splitgo H; injection H as <- <-; try (by apply SAME); by apply OLD.
Qed.

(** ** Epoll *)
Lemma run_watched l : forall n n' xs c ep, 0 <= ep < MAXFD -> is_epoll n c ep ->
  along (leaves c ep) n l -> run n l = Some (n', xs) ->
  is_epoll n' c ep /\ forall fd, watched n' c ep fd = watched n c ep fd.
Proof.
  induction l as [|[c1 o] l IH]; intros n n' xs c ep Hk He HQ H; cbn in *.
  - injection H as <- <-. done.
  - destruct HQ as [HQ HQ']. destruct (step n c1 o) as [n1 x| |] eqn:E; [|done|done].
    destruct (run n1 l) as [[n2 ys]|] eqn:R; [|done]. injection H as <- <-.
    destruct He as [reg He]. pose proof (step_fds _ _ _ _ _ c ep Hk E HQ _ He) as He1.
    destruct (IH n1 n2 ys c ep Hk) as [A B]; [by exists reg|done|done|].
    split; [done|]. intros fd. rewrite B. unfold watched. by rewrite He1, He.
Qed.
Lemma watched_put n c ep reg reg' c' ep' fd' :
  n_fds n !! (c, ep) = Some (DEpoll reg) ->
  watched (put_fd c ep (DEpoll reg') n) c' ep' fd' =
  if decide ((c', ep') = (c, ep)) then reg' !! fd' else watched n c' ep' fd'.
Proof.
  intros H. unfold watched. cbn. case_decide as E.
  - injection E as -> ->. by rewrite lookup_insert.
  - by rewrite lookup_insert_ne by congruence.
Qed.
Lemma ectl_watch n c ep op fd ev data : in_range ep = true -> in_range fd = true -> fd <> ep ->
  is_epoll n c ep -> watchable n c fd ->
  exists reg, n_fds n !! (c, ep) = Some (DEpoll reg) /\
  step n c (Ectl ep op fd ev data) =
   (if op =? CTL_DEL then
      if bool_decide (is_Some (reg !! fd)) then Go (put_fd c ep (DEpoll (delete fd reg)) n) (Ret 0)
      else Go n (Ret (err ENOENT))
    else if op =? CTL_MOD then
      if bool_decide (is_Some (reg !! fd)) then Go (put_fd c ep (DEpoll (<[fd := (ev, data)]> reg)) n) (Ret 0)
      else Go n (Ret (err ENOENT))
    else if op =? CTL_ADD then
      if bool_decide (is_Some (reg !! fd)) then Go n (Ret (err EEXIST))
      else Go (put_fd c ep (DEpoll (<[fd := (ev, data)]> reg)) n) (Ret 0)
    else Go n (Ret (err EINVAL))).
Proof.
  intros H1 H2 H3 (reg & He) (d & Hd & N1 & N2). exists reg. split; [done|].
  cbn [step]. unfold ectl_call. rewrite H1, H2, He, Hd. cbn [negb orb].
  destruct (Z.eqb_spec fd ep); [done|].
  destruct d as [?|reg0| | |]; try done. by destruct (N2 reg0).
Qed.

(** Watching changes exactly at the one descriptor *)
Lemma only_insert n c ep reg fd v : n_fds n !! (c, ep) = Some (DEpoll reg) ->
  only_at n (put_fd c ep (DEpoll (<[fd := v]> reg)) n) c ep fd (Some v).
Proof.
  intros He c' ep' fd'. rewrite (watched_put _ _ _ _ _ _ _ _ He). case_decide as E.
  - injection E as -> ->. case_decide as F.
    + injection F as ->. by rewrite lookup_insert.
    + rewrite lookup_insert_ne by congruence. unfold watched. by rewrite He.
  - rewrite decide_False; [done|congruence].
Qed.
Lemma only_delete n c ep reg fd : n_fds n !! (c, ep) = Some (DEpoll reg) ->
  only_at n (put_fd c ep (DEpoll (delete fd reg)) n) c ep fd None.
Proof.
  intros He c' ep' fd'. rewrite (watched_put _ _ _ _ _ _ _ _ He). case_decide as E.
  - injection E as -> ->. case_decide as F.
    + injection F as ->. by rewrite lookup_delete.
    + rewrite lookup_delete_ne by congruence. unfold watched. by rewrite He.
  - rewrite decide_False; [done|congruence].
Qed.

(** ** Select *)
Lemma scan_spec f w l st k : NoDup l -> scan f w l = Some (Some (st, k)) ->
  k = Z.of_nat (size st) /\
  (forall fd, fd ∈ st <-> fd ∈ l /\ fd ∈ w /\ f fd = Some (Some true)) /\
  (forall fd, fd ∈ l -> fd ∈ w -> exists b, f fd = Some (Some b)).
Proof.
  revert st k. induction l as [|x l IH]; intros st k ND H; cbn in H.
  - injection H as <- <-. rewrite size_empty. split; [done|]. split.
    + intros fd. split; [set_solver|]. intros [HH _]. by apply elem_of_nil in HH.
    + intros fd HH. by apply elem_of_nil in HH.
  - apply NoDup_cons in ND as [Nx ND]. destruct (bool_decide (x ∈ w)) eqn:E; cbn [negb] in H.
    + apply bool_decide_eq_true in E. destruct (f x) as [[b|]|] eqn:F; [|discriminate H|discriminate H].
      destruct (scan f w l) as [[[st1 k1]|]|] eqn:S; [|discriminate H|discriminate H].
      destruct (IH st1 k1 ND eq_refl) as (A & B & C).
      assert (Hx : x ∉ st1) by (intros Hx; apply B in Hx as [Hx _]; done).
      destruct b; injection H as <- <-.
      * split; [|split].
        -- rewrite size_union by set_solver. rewrite size_singleton. lia.
        -- intros fd. rewrite elem_of_union, elem_of_singleton, elem_of_cons, B. split.
           ++ intros [->|(H1 & H2 & H3)]; auto.
           ++ intros ([->|H1] & H2 & H3); auto.
        -- intros fd Hfd Hw. apply elem_of_cons in Hfd as [->|Hfd]; [eauto|by apply C].
      * split; [done|split].
        -- intros fd. rewrite elem_of_cons, B. split.
           ++ intros (H1 & H2 & H3); auto.
           ++ intros ([->|H1] & H2 & H3); [congruence|auto].
        -- intros fd Hfd Hw. apply elem_of_cons in Hfd as [->|Hfd]; [eauto|by apply C].
    + apply bool_decide_eq_false in E. destruct (IH st k ND H) as (A & B & C).
      split; [done|split].
      * intros fd. rewrite elem_of_cons, B. split.
        -- intros (H1 & H2 & H3); auto.
        -- intros ([->|H1] & H2 & H3); [done|auto].
      * intros fd Hfd Hw. apply elem_of_cons in Hfd as [->|Hfd]; [done|by apply C].
Qed.
(** What a reported set means *)
Definition reported (f : Z -> option (option bool)) (nfds : Z) (w rs : gset Z) : Prop :=
  (forall fd, fd ∈ rs <-> 0 <= fd < nfds /\ fd ∈ w /\ f fd = Some (Some true)) /\
  (forall fd, 0 <= fd < nfds -> fd ∈ w -> exists b, f fd = Some (Some b)).
Lemma scan_opt_spec f w nfds st k : scan_opt f w (seqZ 0 nfds) = Some (Some (st, k)) ->
  k = Z.of_nat (size st) /\ match w with
                            | Some w => reported f nfds w st
                            | None => st = ∅
                            end.
Proof.
  destruct w as [w|]; cbn.
  - intros H. destruct (scan_spec _ _ _ _ _ (NoDup_seqZ 0 nfds) H) as (A & B & C).
    split; [done|split].
    + intros fd. rewrite B, elem_of_seqZ. by replace (0 + nfds) with nfds by lia.
    + intros fd Hfd. apply C. rewrite elem_of_seqZ. lia.
  - intros [= <- <-]. by rewrite size_empty.
Qed.
Lemma round_spec n c nfds r w e k rs ws : select_round n c nfds r w e = Some (inr (k, rs, ws)) ->
  0 <= nfds < FD_SET_MAX_FD /\ k = osize rs + osize ws /\
  match r, rs with
  | Some r, Some rs => reported (rd_ready n c) nfds r rs
  | None, None => True
  | _, _ => False
  end /\
  match w, ws with
  | Some w, Some ws => reported (wr_ready n c) nfds w ws
  | None, None => True
  | _, _ => False
  end.
Proof.
  unfold select_round. destruct (_ || _) eqn:B; [discriminate|].
  destruct (scan_opt (rd_ready n c) r _) as [[[a ka]|]|] eqn:E1; [|discriminate|discriminate].
  destruct (scan_opt (wr_ready n c) w _) as [[[b kb]|]|] eqn:E2; [|discriminate|discriminate].
  destruct (scan_opt _ e _) as [[[d kd]|]|] eqn:E3; [|discriminate|discriminate].
  intros [= <- <- <-].
  destruct (scan_opt_spec _ _ _ _ _ E1) as [A1 A2]. destruct (scan_opt_spec _ _ _ _ _ E2) as [B1 B2].
  split; [lia|]. split.
  - destruct r, w; subst; cbn; rewrite ?size_empty; lia.
  - by destruct r, w.
Qed.
Lemma select_spec n c nfds r w e late n' k rs ws :
  step n c (Select nfds r w e late) = Go n' (Sets k rs ws) ->
  n' = n /\ select_round n c nfds r w e = Some (inr (k, rs, ws)).
Proof.
  cbn [step]. unfold select_call.
  destruct (select_round n c nfds r w e) as [[x|[[k' rs'] ws']]|]; [discriminate| |discriminate].
  destruct (_ || late); [|discriminate]. by intros [= <- <- <- <-].
Qed.

(** Ready for reading means that a read does not wait *)
Lemma pipe_read_waits x len nb : 0 < len ->
  (select_read x = false -> pipe_read x len nb = if nb then inl None else inr tt) /\
  (select_read x = true -> exists r, pipe_read x len nb = inl (Some r)).
Proof.
  intros L. unfold select_read, pipe_read. destruct (Z.eqb_spec len 0); [lia|].
  destruct (p_buf x) as [|b l] eqn:E.
  - rewrite bool_decide_eq_false_2 by auto. cbn.
    destruct (p_nw x =? 0); split; intros H; try discriminate H; eauto.
  - rewrite bool_decide_eq_true_2 by done. cbn. split; intros H; try discriminate H. eauto.
Qed.
Lemma read_ready n c fd b : in_range fd = true -> plain_reader n c fd ->
  rd_ready n c fd = Some (Some b) -> if b then read_now n c fd else read_waits n c fd.
Proof.
  intros Hg Hp H. unfold rd_ready in H. unfold read_waits, read_now.
  destruct Hp as [(p & fl & Hd)|(h & fl & s & Hd & Hs & Est & Epk)].
  - rewrite Hd in H. destruct (n_pipe n !! p) as [x|] eqn:Hx; [|discriminate H]. injection H as <-.
    cbn [step]. unfold read_call. rewrite Hg, Hd, Hx. cbn [negb].
    destruct (select_read x) eqn:Sx.
    + intros len L. destruct (proj2 (pipe_read_waits x len (nonblock fl) L) Sx) as [[y bs] Py].
      rewrite Py. eauto.
    + intros len L.
      rewrite (proj1 (pipe_read_waits x len (nonblock fl) L) Sx). destruct (nonblock fl); auto.
  - rewrite Hd, Hs, Est in H. destruct (s_ui s) as [u|] eqn:Hu; [|discriminate H].
    destruct (u_recv u) as [p|] eqn:Hr; [|discriminate H].
    destruct (n_pipe n !! p) as [x|] eqn:Hx; [|discriminate H]. injection H as <-.
    cbn [step]. unfold read_call. rewrite Hg, Hd, Hs. cbn [negb].
    unfold recv_sock. rewrite Est, Epk, Hu, Hr, Hx. cbn [length negb bool_decide decide orb].
    rewrite (bool_decide_eq_true_2 (Conn = Conn)) by done. cbn [negb orb].
    rewrite (bool_decide_eq_false_2 ([] <> [])) by auto. cbn [andb].
    change (Z.of_nat 0) with 0.
    assert (M : forall len, 0 < len -> Z.min 0 len = 0) by lia.
    destruct (select_read x) eqn:Sx.
    + intros len L. rewrite M by lia.
      destruct (proj2 (pipe_read_waits x (len - 0) (nonblock fl) ltac:(lia)) Sx) as [[y bs] Py].
      rewrite Py. eauto.
    + intros len L. rewrite M by lia.
      rewrite (proj1 (pipe_read_waits x (len - 0) (nonblock fl) ltac:(lia)) Sx).
      destruct (nonblock fl); cbn; auto.
Qed.
Lemma now_waits n c fd : read_now n c fd -> read_waits n c fd -> False.
Proof.
  intros A B. destruct (A 1 ltac:(lia)) as (n' & bs & E).
  destruct (B 1 ltac:(lia)) as [F|F]; rewrite E in F; discriminate F.
Qed.
Lemma accept_ready n c fd b : in_range fd = true -> nb_listener n c fd -> space n c 1 ->
  rd_ready n c fd = Some (Some b) ->
  if b then step n c (Accept fd) <> Go n (Ret (err EAGAIN)) else step n c (Accept fd) = Go n (Ret (err EAGAIN)).
Proof.
  intros Hg (h & fl & s & Hd & Hnb & Hs & Est) Hsp H.
  unfold rd_ready in H. rewrite Hd, Hs, Est in H.
  destruct (s_loc s) as [l|] eqn:El; [|discriminate H]. injection H as <-.
  cbn [step]. unfold accept_call. rewrite Hg, Hd. cbn [negb].
  destruct (next_fd n c 0) as [k|] eqn:Ek.
  2:{ exfalso. destruct Hsp as (l0 & L & _ & F). destruct l0 as [|a l0]; [discriminate L|].
      destruct (F a ltac:(left)) as [Fa Fb]. apply Fb. exact (next_fd_full _ _ _ Ek Fa). }
  rewrite Hs, Est, El. rewrite (bool_decide_eq_true_2 (Listening = Listening)) by done. cbn [negb].
  destruct (n_pend n !! l) as [q|] eqn:Hq.
  - rewrite (bool_decide_eq_true_2 (is_Some (Some q))) by eauto.
    assert (Nk : forall m, Go m (Ret k) <> Go n (Ret (err EAGAIN))).
    { intros m [= _ E]. destruct (next_fd_free _ _ _ _ Ek) as [_ K]. rewrite E in K. cbn in K. lia. }
    destruct (bool_decide (q_cond q = Some false)); [discriminate|].
    destruct (n_names n !! q_from q) as [[i|]|].
    + destruct (s_ui s); [|discriminate]. destruct (ino_ref 1 i _); [apply Nk|discriminate].
    + destruct (s_ui s); [apply Nk|discriminate].
    + apply Nk.
  - rewrite (bool_decide_eq_false_2 (is_Some None)) by (by intros [? ?]). by rewrite Hnb.
Qed.
Lemma write_ready n c fd bs b : in_range fd = true -> pipe_writer n c fd ->
  wr_ready n c fd = Some (Some b) -> b = true ->
  step n c (Write fd bs) <> Block /\ step n c (Write fd bs) <> Go n (Ret (err EAGAIN)).
Proof.
  intros Hg (p & fl & Hd) H ->. unfold wr_ready in H. rewrite Hd in H.
  destruct (n_pipe n !! p) as [x|] eqn:Hx; [|discriminate H]. injection H as H.
  cbn [step]. unfold write_call. rewrite Hg, Hd, Hx. cbn [negb]. unfold pipe_write.
  destruct (Z.of_nat (length bs) =? 0); [split; discriminate|].
  unfold select_write in H. destruct (p_nr x =? 0); [split; discriminate|].
  rewrite orb_false_r in H.
  destruct (Z.ltb_spec (room x) PIPE_BUF); [lia|].
  assert (0 < Z.of_nat (length bs) \/ bs = []) as [L| ->]; [destruct bs; [auto|left; cbn; lia]| |].
  - destruct ((_ =? _) || nonblock fl); split; try discriminate. intros [= _ E].
    assert (0 <= Z.min (Z.of_nat (length bs)) (room x)) by (unfold PIPE_BUF in *; lia).
    rewrite E in *. cbn in *. lia.
  - cbn. split; [destruct (_ || _); discriminate|]. intros [= _ E].
    destruct (_ || nonblock fl); [|discriminate E].
    injection E as E. unfold PIPE_BUF in *. lia.
Qed.

(** ** Poll *)
Lemma want_spec ev bit fd k : k ∈ want ev bit fd <-> k = fd /\ 0 < Z.land ev bit.
Proof. unfold want. destruct (Z.ltb_spec 0 (Z.land ev bit)); set_solver by lia. Qed.
Lemma reported_one f fd ev bit rs : 0 <= fd -> reported f (fd + 1) (want ev bit fd) rs ->
  (rs = ∅ \/ rs = {[ fd ]}) /\
  (rs = {[ fd ]} <-> 0 < Z.land ev bit /\ f fd = Some (Some true)).
Proof.
  intros Hfd [A _].
  assert (S : forall k, k ∈ rs -> k = fd) by (intros k Hk; apply A in Hk as (_ & Hk & _);
    by apply want_spec in Hk as [-> _]).
  assert (I : fd ∈ rs <-> 0 < Z.land ev bit /\ f fd = Some (Some true)).
  { rewrite A, want_spec. split; [tauto|]. intros [H1 H2]. split_and!; auto; lia. }
  destruct (decide (fd ∈ rs)) as [D|D].
  - assert (E : rs = {[ fd ]}).
    { apply set_eq. intros k. rewrite elem_of_singleton. split; [apply S|by intros ->]. }
    split; [auto|]. rewrite <- I. by split.
  - assert (E : rs = ∅).
    { apply set_eq. intros k. split; [|set_solver]. intros Hk. by rewrite (S k Hk) in Hk. }
    split; [auto|]. rewrite <- I. split; [|done]. rewrite E. intros F. set_solver.
Qed.
Lemma scan_open (f : Z -> option (option bool)) w fd l : (forall k, k ∈ w -> k = fd) ->
  f fd <> Some None -> scan f w l <> Some None.
Proof.
  intros Hw Hf. induction l as [|a l IH]; cbn; [discriminate|].
  destruct (bool_decide (a ∈ w)) eqn:Ea; cbn [negb]; [|exact IH].
  apply bool_decide_eq_true in Ea. rewrite (Hw a Ea).
  destruct (f fd) as [[b|]|]; [|done|discriminate].
  destruct (scan f w l) as [[[]|]|]; [by destruct b|done|discriminate].
Qed.
Lemma poll_one_spec n c fd ev r : poll_one n c fd ev = Some (inr r) ->
  (hasbit r POLLIN = true <-> 0 <= fd /\ reqd ev POLLIN /\ rd_ready n c fd = Some (Some true) /\ r <> POLLNVAL) /\
  (hasbit r POLLOUT = true <-> 0 <= fd /\ reqd ev POLLOUT /\ wr_ready n c fd = Some (Some true) /\ r <> POLLNVAL) /\
  (hasbit r POLLPRI = true -> reqd ev POLLPRI) /\
  (hasbit r POLLNVAL = true <-> r = POLLNVAL) /\
  (r = POLLNVAL -> n_fds n !! (c, fd) = None) /\
  0 <= r /\ Z.land r (Z.lnot (POLLIN + POLLOUT + POLLPRI + POLLNVAL)) = 0.
Proof.
  unfold poll_one. destruct (Z.ltb_spec fd 0).
  { intros [= <-]. cbn. split_and!; try done.
    all: split; [discriminate|]. all: intros (A & _); lia. }
  destruct (_ && _); [discriminate|].
  destruct (select_round n c (fd + 1) _ _ _) as [[x|[[k rs] ws]]|] eqn:S; [| |discriminate].
  - destruct (Z.eqb_spec x (err EBADF)) as [->|]; [|discriminate]. intros [= <-]. cbn.
    assert (NO : n_fds n !! (c, fd) = None).
    { destruct (n_fds n !! (c, fd)) as [d|] eqn:Hd; [exfalso|done].
      unfold select_round in S. destruct (_ || _); [discriminate S|].
      assert (K : forall (f : Z -> option (option bool)) w, (forall k, k ∈ w -> k = fd) ->
        f fd <> Some None -> scan_opt f (Some w) (seqZ 0 (fd + 1)) <> Some None).
      { intros f w Hw Hf. exact (scan_open f w fd _ Hw Hf). }
      assert (W : forall bit k, k ∈ want ev bit fd -> k = fd).
      { intros bit k Hk. by apply want_spec in Hk as [-> _]. }
      assert (R1 : rd_ready n c fd <> Some None).
      { unfold rd_ready. rewrite Hd. destruct d; try discriminate;
        repeat match goal with |- context [match ?e with _ => _ end] => destruct e end; discriminate. }
      assert (R2 : wr_ready n c fd <> Some None).
      { unfold wr_ready. rewrite Hd. destruct d; try discriminate.
        destruct (n_pipe n !! p); discriminate. }
      pose proof (K _ _ (W POLLIN) R1) as K1. pose proof (K _ _ (W POLLOUT) R2) as K2.
      destruct (scan_opt (rd_ready n c) _ _) as [[[]|]|]; [|by apply K1|discriminate S].
      destruct (scan_opt (wr_ready n c) _ _) as [[[]|]|]; [|by apply K2|discriminate S].
      match type of S with context [scan_opt ?f (Some (want ev POLLPRI fd)) ?l] =>
        assert (K3 : scan_opt f (Some (want ev POLLPRI fd)) l <> Some None) end.
      { apply K; [apply W|]. by rewrite Hd. }
      destruct (scan_opt _ (Some (want ev POLLPRI fd)) _) as [[[]|]|]; [discriminate S|by apply K3|discriminate S]. }
    split_and!; try done.
    all: split; [discriminate|]. all: intros (_ & _ & _ & A); done.
  - destruct (round_spec _ _ _ _ _ _ _ _ _ S) as (Hn & Hk & Hr & Hw).
    destruct rs as [rs|]; [|done]. destruct ws as [ws|]; [|done]. cbn in Hk.
    destruct (reported_one _ _ _ _ _ H Hr) as [R1 R2]. destruct (reported_one _ _ _ _ _ H Hw) as [W1 W2].
    assert (NE : ({[ fd ]} : gset Z) <> ∅) by set_solver.
    assert (P : bool_decide (want ev POLLPRI fd = ∅) = negb (0 <? Z.land ev POLLPRI)).
    { unfold want. destruct (0 <? _); [by apply bool_decide_eq_false_2|by apply bool_decide_eq_true_2]. }
    destruct (Z.ltb_spec 0 k).
    + intros [= <-]. rewrite P.
      assert (RD : bool_decide (Some rs = Some ∅) = negb (bool_decide (rs = {[ fd ]}))).
      { destruct R1 as [->| ->]; [rewrite bool_decide_eq_true_2 by done|rewrite bool_decide_eq_false_2 by congruence].
        - rewrite bool_decide_eq_false_2 by congruence. done.
        - rewrite bool_decide_eq_true_2 by done. done. }
      assert (WD : bool_decide (Some ws = Some ∅) = negb (bool_decide (ws = {[ fd ]}))).
      { destruct W1 as [->| ->]; [rewrite bool_decide_eq_true_2 by done|rewrite bool_decide_eq_false_2 by congruence].
        - rewrite bool_decide_eq_false_2 by congruence. done.
        - rewrite bool_decide_eq_true_2 by done. done. }
      rewrite RD, WD. unfold reqd.
      assert (R3 : bool_decide (rs = {[ fd ]}) = true <-> 0 < Z.land ev POLLIN /\ rd_ready n c fd = Some (Some true)).
      { rewrite bool_decide_eq_true. exact R2. }
      assert (W3 : bool_decide (ws = {[ fd ]}) = true <-> 0 < Z.land ev POLLOUT /\ wr_ready n c fd = Some (Some true)).
      { rewrite bool_decide_eq_true. exact W2. }
      assert (P3 : (0 <? Z.land ev POLLPRI) = true -> 0 < Z.land ev POLLPRI) by lia.
      clear RD WD P Hk S. revert R3 W3 P3.
      generalize (bool_decide (rs = {[ fd ]})) as p, (bool_decide (ws = {[ fd ]})) as q, (0 <? Z.land ev POLLPRI) as u.
      intros p q u R3 W3 P3.
      set (r := _ + _).
      assert (F : hasbit r POLLIN = p /\ hasbit r POLLOUT = q /\ hasbit r POLLPRI = u /\ hasbit r POLLNVAL = false /\
        r <> POLLNVAL /\ 0 <= r /\ Z.land r (Z.lnot (POLLIN + POLLOUT + POLLPRI + POLLNVAL)) = 0).
      { unfold r. destruct p, q, u; done. }
      destruct F as (F1 & F2 & F3 & F4 & F5 & F6 & F7). rewrite F1, F2, F3, F4.
      split_and!; [| |exact P3|split; [discriminate|done]|done|exact F6|exact F7].
      * split; [intros A; apply R3 in A as [A B]; auto|]. intros (_ & A & B & _). by apply R3.
      * split; [intros A; apply W3 in A as [A B]; auto|]. intros (_ & A & B & _). by apply W3.
    + intros [= <-]. assert (Z.of_nat (size rs) = 0 /\ Z.of_nat (size ws) = 0) as [Z1 Z2] by lia.
      assert (rs = ∅) as -> by (destruct R1 as [->| ->]; [done|rewrite size_singleton in Z1; lia]).
      assert (ws = ∅) as -> by (destruct W1 as [->| ->]; [done|rewrite size_singleton in Z2; lia]).
      unfold reqd. cbn. split_and!; try done; try (split; [discriminate|]); try (split; [done|done]).
      * intros (_ & A & B & _). assert (F : (∅ : gset Z) = {[ fd ]}) by (by apply R2). congruence.
      * intros (_ & A & B & _). assert (F : (∅ : gset Z) = {[ fd ]}) by (by apply W2). congruence.
Qed.
Lemma poll_pass_spec n c l rs : poll_pass n c l = Some (inr rs) ->
  Forall2 (fun x r => poll_one n c x.1 x.2 = Some (inr r)) l rs.
Proof.
  revert rs. induction l as [|[fd ev] l IH]; intros rs H; cbn in H; [injection H as <-; constructor|].
  destruct (poll_one n c fd ev) as [[x|r]|] eqn:E; [discriminate H| |discriminate H].
  destruct (poll_pass n c l) as [[x|rs']|]; [discriminate H| |discriminate H].
  injection H as <-. constructor; [done|]. by apply IH.
Qed.
Lemma poll_spec n c l late n' k rs : step n c (Poll l late) = Go n' (Polled k rs) ->
  n' = n /\ poll_pass n c l = Some (inr rs) /\ k = count_pos rs.
Proof.
  cbn [step]. unfold poll_call. destruct (poll_pass n c l) as [[x|rs']|]; [discriminate| |discriminate].
  destruct (_ || late); [|discriminate]. by intros [= <- <- <-].
Qed.

(** ** epoll_wait *)
Lemma report_spec items rs max e d : (e, d) ∈ report items rs max -> length items = length rs ->
  exists i fd ev r, items !! i = Some (fd, (ev, d)) /\ rs !! i = Some r /\
    e = Z.land r (POLLIN + POLLPRI + POLLOUT) /\ e <> 0.
Proof.
  revert rs max. induction items as [|[fd [ev data]] items IH]; intros rs max H L.
  - destruct max; cbn in H; by apply elem_of_nil in H.
  - destruct rs as [|r rs]; [discriminate L|]. destruct max as [|m]; cbn [report] in H; [by apply elem_of_nil in H|].
    destruct (Z.eqb_spec (Z.land r (POLLIN + POLLPRI + POLLOUT)) 0) as [E|E].
    + destruct (IH rs (S m) H ltac:(cbn in L; lia)) as (i & fd' & ev' & r' & A & B & C).
      exists (S i), fd', ev', r'. done.
    + apply elem_of_cons in H as [[= -> ->]|H].
      * by exists O, fd, ev, r.
      * destruct (IH rs m H ltac:(cbn in L; lia)) as (i & fd' & ev' & r' & A & B & C).
        exists (S i), fd', ev', r'. done.
Qed.
Lemma report_length items rs max : (length (report items rs max) <= max)%nat.
Proof.
  revert rs max. induction items as [|[fd [ev data]] items IH]; intros rs max.
  - destruct max; cbn; lia.
  - destruct rs as [|r rs]; [destruct max; cbn; lia|]. destruct max as [|m]; [cbn; lia|]. cbn [report].
    destruct (_ =? _); [apply IH|]. cbn [length]. specialize (IH rs m). lia.
Qed.
Lemma live_spec n c reg fd : live n c reg !! fd = if decide (is_open n c fd) then reg !! fd else None.
Proof.
  unfold live. case_decide as D.
  - destruct (reg !! fd) as [v|] eqn:E.
    + apply map_filter_lookup_Some. done.
    + apply map_filter_lookup_None. by left.
  - apply map_filter_lookup_None. right. intros v _. exact D.
Qed.
Lemma rd_ready_put n c ep reg reg' fd : n_fds n !! (c, ep) = Some (DEpoll reg) ->
  rd_ready (put_fd c ep (DEpoll reg') n) c fd = rd_ready n c fd /\
  wr_ready (put_fd c ep (DEpoll reg') n) c fd = wr_ready n c fd.
Proof.
  intros H. unfold rd_ready, wr_ready. cbn. destruct (decide (ep = fd)) as [->|N].
  - by rewrite lookup_insert, H.
  - by rewrite lookup_insert_ne by congruence.
Qed.
Lemma land_sub a m b : Z.land a (Z.land m b) = Z.land (Z.land a b) m.
Proof. rewrite (Z.land_comm m b), Z.land_assoc. done. Qed.
Lemma ewait_spec n c ep max late n' k evs : step n c (Ewait ep max late) = Go n' (Events k evs) ->
  k = Z.of_nat (length evs) /\ 0 <= k <= max /\
  (forall fd, watched n' c ep fd = if decide (is_open n c fd) then watched n c ep fd else None) /\
  (forall e d, (e, d) ∈ evs -> exists fd ev,
     watched n c ep fd = Some (ev, d) /\ is_open n c fd /\ e <> 0 /\
     (hasbit e POLLIN = true -> reqd ev POLLIN /\ rd_ready n c fd = Some (Some true)) /\
     (hasbit e POLLOUT = true -> reqd ev POLLOUT /\ wr_ready n c fd = Some (Some true)) /\
     (hasbit e POLLPRI = true -> reqd ev POLLPRI)).
Proof.
  cbn [step]. unfold ewait_call. destruct (negb _); [discriminate|].
  destruct (n_fds n !! (c, ep)) as [[| reg | | |]|] eqn:He; try discriminate.
  destruct (Z.leb_spec max 0); [discriminate|].
  set (lv := live n c reg). set (n1 := put_fd c ep (DEpoll lv) n).
  destruct (poll_pass n1 c _) as [[x|rs]|] eqn:P; [discriminate| |discriminate].
  destruct (_ || late); [|discriminate]. intros [= <- <- <-].
  split; [done|]. split; [pose proof (report_length (map_to_list lv) rs (Z.to_nat max)); lia|]. split.
  - intros fd. unfold watched at 1. unfold n1. cbn. rewrite lookup_insert. unfold lv. rewrite live_spec.
    unfold watched. by rewrite He.
  - intros e d Hin. pose proof (poll_pass_spec _ _ _ _ P) as F.
    assert (L : length (map_to_list lv) = length rs).
    { apply Forall2_length in F. by rewrite map_length in F. }
    destruct (report_spec _ _ _ _ _ Hin L) as (i & fd & ev & r & A & B & C & D).
    assert (Hl : lv !! fd = Some (ev, d)).
    { apply elem_of_map_to_list. by eapply elem_of_list_lookup_2. }
    unfold lv in Hl. rewrite live_spec in Hl. case_decide as O; [|discriminate Hl].
    exists fd, ev. unfold watched. rewrite He. split_and!; [done|done|done|..].
    all: assert (Q : poll_one n1 c fd (Z.land ev (POLLIN + POLLPRI + POLLOUT)) = Some (inr r)) by
      (apply (Forall2_lookup_lr _ _ _ i (fd, Z.land ev (POLLIN + POLLPRI + POLLOUT)) r F); [|done];
       rewrite list_lookup_fmap, A; done).
    all: destruct (poll_one_spec _ _ _ _ _ Q) as (Q1 & Q2 & Q3 & _).
    all: assert (RQ : forall bit, Z.land (POLLIN + POLLPRI + POLLOUT) bit = bit ->
          reqd (Z.land ev (POLLIN + POLLPRI + POLLOUT)) bit -> reqd ev bit) by
      (intros bit Eb; unfold reqd; rewrite <- Z.land_assoc; by rewrite Eb).
    all: assert (HB : forall bit, Z.land (POLLIN + POLLPRI + POLLOUT) bit = bit ->
          hasbit e bit = hasbit r bit) by
      (intros bit Eb; unfold hasbit; rewrite C, <- Z.land_assoc; by rewrite Eb).
    all: rewrite HB by done; intros Hb.
    + apply Q1 in Hb as (_ & Hb1 & Hb2 & _). split; [by apply RQ|].
      by rewrite <- (proj1 (rd_ready_put n c ep reg lv fd He)).
    + apply Q2 in Hb as (_ & Hb1 & Hb2 & _). split; [by apply RQ|].
      by rewrite <- (proj2 (rd_ready_put n c ep reg lv fd He)).
    + by apply RQ, Q3.
Qed.

(** ** New descriptors *)
Lemma accept_new n c fd n' k : ninv n -> space n c 1 -> step n c (Accept fd) = Go n' (Ret k) -> 0 <= k ->
  new_conn n n' c k.
Proof.
  intros I Hsp H Hk. cbn [step] in H. unfold accept_call in H.
  destruct (in_range fd); [|discriminate H]. cbn [negb] in H.
  assert (NEG : forall e, 0 < e -> k = err e -> False) by (unfold err; lia).
  destruct (n_fds n !! (c, fd)) as [d|]; [|injection H as _ E; by destruct (NEG EBADF)].
  destruct (next_fd n c 0) as [j|] eqn:Ej.
  2:{ exfalso. destruct Hsp as (l0 & L & _ & F). destruct l0 as [|a l0]; [discriminate L|].
      destruct (F a ltac:(left)) as [Fa Fb]. apply Fb. exact (next_fd_full _ _ _ Ej Fa). }
  destruct (next_fd_free _ _ _ _ Ej) as [Fj _].
  destruct d as [h fl| | | |]; try (injection H as _ E; by destruct (NEG ENOTSOCK)).
  destruct (n_sock n !! h) as [s|] eqn:Hs; [|discriminate H].
  destruct (negb _); [injection H as _ E; by destruct (NEG EINVAL)|].
  destruct (s_loc s) as [l|]; [|discriminate H].
  destruct (n_pend n !! l) as [q|] eqn:Hq.
  2:{ destruct (nonblock fl); [injection H as _ E; by destruct (NEG EAGAIN)|discriminate H]. }
  destruct (bool_decide (q_cond q = Some false)); [discriminate H|].
  set (n1 := set_pend (delete l) n) in *.
  set (n2 := if bool_decide (q_cond q = Some true) then _ else n1) in *.
  assert (A : n_nsock n2 = n_nsock n) by (unfold n2; by destruct (bool_decide _)).
  assert (FR : n_sock n !! n_nsock n = None).
  { destruct (n_sock n !! n_nsock n) eqn:F; [|done].
    assert (is_Some (n_sock n !! n_nsock n)) as K by eauto. apply (ni_sock _ I) in K. lia. }
  assert (Fin : forall n3 st fl', n_nsock n3 = n_nsock n2 -> s_st st = Conn ->
    new_conn n (put_fd c j (DSock (n_nsock n2) fl') (alloc_sock st n3)) c j).
  { intros n3 st fl' E3 Est. split; [unfold is_open; rewrite Fj; by intros [? ?]|].
    exists (n_nsock n2). split_and!.
    - unfold opens. cbn. rewrite lookup_insert. lia.
    - by rewrite A.
    - exists st. split; [|done]. cbn. rewrite E3. by rewrite lookup_insert. }
  destruct (n_names n !! q_from q) as [[i|]|].
  - destruct (s_ui s); [|discriminate H].
    destruct (ino_ref 1 i n2) as [n3|] eqn:Ei; [|discriminate H]. injection H as <- <-.
    apply Fin; [exact (sh_ns _ _ (shr_ino_ref _ _ _ _ Ei))|done].
  - destruct (s_ui s); [|discriminate H]. injection H as <- <-. by apply Fin.
  - injection H as <- <-. by apply Fin.
Qed.
Lemma space_next n c k : space n c (S k) -> exists a, next_fd n c 0 = Some a.
Proof.
  intros (l & L & _ & F). destruct (next_fd n c 0) as [a|] eqn:E; [eauto|]. exfalso.
  destruct l as [|a l]; [discriminate L|]. destruct (F a ltac:(left)) as [Fa Fb].
  apply Fb. exact (next_fd_full _ _ _ E Fa).
Qed.
Lemma socketpair_new n c d t pr n' a b : ninv n -> space n c 2 ->
  step n c (Socketpair d t pr) = Go n' (Pair a b) ->
  a <> b /\ new_conn n n' c a /\ new_conn n n' c b.
Proof.
  intros I Hsp H. cbn [step] in H. unfold socketpair_call in H.
  destruct (negb (d =? AF_UNIX)); [discriminate H|].
  destruct (negb _ || _); [discriminate H|].
  destruct (negb _); [discriminate H|].
  set (fl := fl_of _ _) in H.
  set (s := new_sock NotConn t fl) in H.
  set (na := alloc_sock s (alloc_sock s n)) in H.
  destruct (space_next na c 1) as [a' Ea]; [exact Hsp|]. rewrite Ea in H.
  destruct (next_fd_free _ _ _ _ Ea) as [Fa Ra].
  set (nb := put_fd c a' (DSock (n_nsock n) fl) na) in H.
  destruct (space_next nb c 0) as [b' Eb].
  { destruct Hsp as (l & L & ND & F).
    destruct l as [|x [|y [|? ?]]]; try discriminate L.
    apply NoDup_cons in ND as [Nx _].
    destruct (decide (x = a')) as [->|N].
    - exists [y]. split; [done|]. split; [apply NoDup_singleton|].
      intros fd Hfd. apply elem_of_list_singleton in Hfd as ->. destruct (F y ltac:(by right; left)) as [F1 F2].
      split; [done|]. unfold is_open, nb. cbn. rewrite lookup_insert_ne; [done|].
      intros [= ->]. apply Nx. by left.
    - exists [x]. split; [done|]. split; [apply NoDup_singleton|].
      intros fd Hfd. apply elem_of_list_singleton in Hfd as ->. destruct (F x ltac:(by left)) as [F1 F2].
      split; [done|]. unfold is_open, nb. cbn. rewrite lookup_insert_ne; [done|]. congruence. }
  rewrite Eb in H. destruct (next_fd_free _ _ _ _ Eb) as [Fb Rb].
  assert (Nab : a' <> b').
  { intros ->. unfold nb in Fb. cbn in Fb. by rewrite lookup_insert in Fb. }
  set (nc := put_fd c b' (DSock (n_nsock n + 1) fl) nb) in H.
  destruct (bind_inner (Auto (n_auto n)) s (bump_auto (bump_auto nc))) as [[s1 nd] r1] eqn:B1.
  destruct (bind_inner (Auto (n_auto n + 1)) s nd) as [[s2 ne] r2] eqn:B2.
  destruct (bind_inner_shr _ _ _ _ _ _ B1) as (_ & _ & C1 & _).
  destruct (bind_inner_shr _ _ _ _ _ _ B2) as (_ & _ & C2 & _).
  destruct (s_ui s1) as [u1|]; [|discriminate H].
  destruct (s_ui s2) as [u2|]; [|discriminate H].
  destruct (ino_ref 1 (u_ino u1) _) as [ng|] eqn:G1; [|discriminate H].
  destruct (ino_ref 1 (u_ino u2) ng) as [nh|] eqn:G2; [|discriminate H].
  injection H as <- <- <-. split; [done|].
  assert (Eh : n_fds nh = n_fds nc).
  { unfold ino_ref in G2. splitgo G2. injection G2 as <-. cbn.
    unfold ino_ref in G1. splitgo G1. injection G1 as <-. cbn. by rewrite C2, C1. }
  assert (FR : forall k, n_nsock n <= k -> n_sock n !! k = None).
  { intros k Hk. destruct (n_sock n !! k) eqn:F; [|done].
    assert (is_Some (n_sock n !! k)) as K by eauto. apply (ni_sock _ I) in K. lia. }
  split.
  - split; [unfold is_open; cbn in Fa; rewrite Fa; by intros [? ?]|]. exists (n_nsock n). split_and!.
    + unfold opens. cbn. rewrite Eh. unfold nc, nb. cbn. rewrite lookup_insert_ne by congruence.
      rewrite lookup_insert. lia.
    + apply FR. lia.
    + eexists. cbn. rewrite lookup_insert_ne by lia. rewrite lookup_insert. done.
  - split.
    + unfold is_open. unfold nb in Fb. cbn in Fb. rewrite lookup_insert_ne in Fb by congruence.
      rewrite Fb. by intros [? ?].
    + exists (n_nsock n + 1). split_and!.
      * unfold opens. cbn. rewrite Eh. unfold nc. cbn. rewrite lookup_insert. lia.
      * apply FR. lia.
      * eexists. cbn. rewrite lookup_insert. done.
Qed.
