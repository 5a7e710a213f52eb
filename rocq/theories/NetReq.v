(** Connection requests: proofs for C59. *)
From Verif Require Import Base NetModel NetSpec NetInv NetStep NetData NetKeep NetCalls NetReady.
Local Open Scope list_scope.
Local Open Scope Z_scope.
Opaque fd_list next_fd fresh_cage.

(** ** The transitions of the request tables *)
(** [a]: the address a [connect] goes to *)
Definition tgt (o : nop) : option upath := match o with Connect _ p => Some p | _ => None end.
Inductive rtr (n n' : net) (a : option upath) : list Z -> list Z -> list Z -> Prop :=
  | RSame : n_pend n' = n_pend n -> n_req n' = n_req n -> n_woken n' = n_woken n ->
      rtr n n' a [] [] []
  | RIssue p q : a = Some p -> q_req q = n_req n -> n_pend n' = <[p := q]> (n_pend n) ->
      n_req n' = n_req n + 1 -> n_woken n' = n_woken n -> rtr n n' a [] [n_req n] []
  | RWait r : n_pend n' = set_wait r <$> n_pend n -> n_req n' = n_req n -> n_woken n' = n_woken n ->
      rtr n n' a [] [] []
  | RDone r : r ∈ n_woken n -> n_pend n' = n_pend n -> n_req n' = n_req n ->
      n_woken n' = n_woken n ∖ {[ r ]} -> rtr n n' a [] [] [r]
  | RServe l q : n_pend n !! l = Some q -> n_pend n' = delete l (n_pend n) -> n_req n' = n_req n ->
      (n_woken n' = n_woken n \/ n_woken n' = {[ q_req q ]} ∪ n_woken n) -> rtr n n' a [q_req q] [] [].

Definition rsame (n n' : net) : Prop :=
  n_pend n' = n_pend n /\ n_req n' = n_req n /\ n_woken n' = n_woken n.
Lemma rsame_refl n : rsame n n.
Proof. done. Qed.
Lemma rsame_trans a b c : rsame a b -> rsame b c -> rsame a c.
Proof. intros (A & B & C) (D & E & F). split_and!; congruence. Qed.
Lemma ino_ref_rsame d i n n' : ino_ref d i n = Some n' -> rsame n n'.
Proof. unfold ino_ref. intros H. splitgo H. by injection H as <-. Qed.
Lemma bind_inner_rsame p s n s1 n1 r : bind_inner p s n = (s1, n1, r) -> rsame n n1.
Proof.
  unfold bind_inner, bind_unix. destruct (s_loc s); [by intros [= <- <- <-]|].
  destruct (n_names n !! p); by intros [= <- <- <-].
Qed.
Lemma auto_bind_rsame s n s1 n1 : auto_bind s n = (s1, n1) -> rsame n n1.
Proof.
  unfold auto_bind. destruct (s_loc s); [by intros [= <- <-]|].
  destruct (bind_inner _ s _) as [[a b] d] eqn:E. intros [= <- <-].
  exact (bind_inner_rsame _ _ _ _ _ _ E).
Qed.
Lemma opt_pipe_rsame o f n : rsame n (opt_pipe o f n).
Proof. by destruct o. Qed.
Lemma release_rsame d n n' : release d n = Some n' -> rsame n n'.
Proof.
  destruct d as [h fl|reg|p wr fl| |]; cbn; try (by intros [= <-]).
  destruct (n_sock n !! h) as [s|]; [|done].
  destruct (s_ui s) as [u|]; [|by intros [= <-]].
  assert (R : rsame n (opt_pipe (u_recv u) decr_r (opt_pipe (u_send u) decr_w n))).
  { eapply rsame_trans; apply opt_pipe_rsame. }
  intros H. splitgo H; injection H as <-; exact R.
Qed.
Lemma retain_rsame b d n n' : retain b d n = Some n' -> rsame n n'.
Proof.
  destruct d as [h fl|reg|p wr fl| |]; cbn; try (by intros [= <-]).
  destruct (n_sock n !! h) as [s|]; [|done].
  destruct (s_ui s) as [u|]; [|by intros [= <-]].
  assert (R : rsame n (opt_pipe (u_recv u) incr_r (opt_pipe (u_send u) incr_w n))).
  { eapply rsame_trans; apply opt_pipe_rsame. }
  destruct (b && _).
  - intros H. eapply rsame_trans; [exact R|]. exact (ino_ref_rsame _ _ _ _ H).
  - by intros [= <-].
Qed.
Lemma fork_fds_rsame c c' l n n' : fork_fds c c' l n = Some n' -> rsame n n'.
Proof.
  revert n. induction l as [|k l IH]; intros n; cbn; [by intros [= <-]|].
  destruct (n_fds n !! (c, k)) as [d|] eqn:Hd; [|apply IH].
  destruct (retain true d n) as [n1|] eqn:Hr; [|done]. intros H.
  eapply rsame_trans; [exact (retain_rsame _ _ _ _ Hr)|]. exact (IH _ H).
Qed.

Lemma step_rtr n c o n' x : step n c o = Go n' x ->
  rtr n n' (tgt o) (serves n c o x) (issues n c o x) (returns n c o x).
Proof.
  intros H.
  assert (SAME : forall n1, rsame n n1 -> rtr n n1 (tgt o) [] [] []) by (intros n1 (A & B & C); by apply RSame).
  destruct o; cbn [step] in H; cbn [serves issues returns tgt]; cbn [tgt] in SAME.
  - unfold socket_call in H. splitgo H; injection H as <- <-; by apply SAME.
  - apply on_sock_go in H as [[-> _]|(h & fl & s & _ & Hd & Hs & H)]; [by apply SAME|].
    destruct (bind_inner p s n) as [[s1 n1] r] eqn:E. injection H as <- <-.
    apply SAME. exact (bind_inner_rsame _ _ _ _ _ _ E).
  - apply on_sock_go in H as [[-> _]|(h & fl & s & _ & Hd & Hs & H)]; [by apply SAME|].
    destruct (s_st s); injection H as <- <-; by apply SAME.
  - (* Connect *)
    unfold connect_call in H.
    apply on_sock_go in H as [[-> [[-> _]|(-> & _)]]|(h & fl & s & _ & Hd & Hs & H)];
      [by apply SAME|by apply SAME|].
    destruct (bool_decide (s_st s = NotConn)); cbn [negb] in H; [|injection H as <- <-; by apply SAME].
    destruct (auto_bind s n) as [s1 n1] eqn:E.
    pose proof (auto_bind_rsame _ _ _ _ E) as (A & B & C).
    destruct (bool_decide (p ∈ n_bound n1)); cbn [negb] in H; [|injection H as <- <-; by apply SAME].
    destruct (s_ui s1) as [u|]; [|discriminate H].
    destruct (s_loc s1) as [l|]; [|discriminate H].
    set (q := Pend _ _ _ _ _) in H.
    assert (I : issues n c (Connect fd p) x = [n_req n]).
    { injection H as _ <-. cbn. rewrite B. by destruct (nonblock fl). }
    cbn [issues] in I. injection H as <- <-. rewrite I.
    apply (RIssue _ _ _ p q); cbn; congruence.
  - unfold conn_wait in H. injection H as <- <-. by apply (RWait _ _ _ r).
  - unfold conn_done in H. destruct (bool_decide (r ∈ n_woken n)) eqn:E; [|discriminate H].
    apply bool_decide_eq_true in E. injection H as <- <-. by apply RDone.
  - (* Accept *)
    unfold accept_call in H. destruct (in_range fd); [|discriminate H]. cbn [negb] in H.
    assert (NEG : forall e, 0 < e -> negb (err e =? fd) && (0 <=? err e) = false) by (unfold err; lia).
    destruct (n_fds n !! (c, fd)) as [d|] eqn:Hd; [|injection H as <- <-; by apply SAME].
    destruct (next_fd n c 0) as [k|] eqn:Hn.
    2:{ injection H as <- <-. destruct d as [h fl| | | |]; try (by apply SAME).
        destruct (n_sock n !! h); [|by apply SAME]. destruct (s_loc _); [|by apply SAME].
        destruct (n_pend n !! _); [|by apply SAME]. rewrite Z.eqb_refl. by apply SAME. }
    destruct d as [h fl| | | |]; try (injection H as <- <-; by apply SAME).
    destruct (n_sock n !! h) as [s|] eqn:Hs; [|discriminate H].
    destruct (negb _).
    { injection H as <- <-. destruct (s_loc _); [|by apply SAME].
      destruct (n_pend n !! _); [|by apply SAME].
      change (negb (err EINVAL =? fd) && false) with (negb (err EINVAL =? fd) && false). rewrite andb_false_r. by apply SAME. }
    destruct (s_loc s) as [l|]; [|discriminate H].
    destruct (n_pend n !! l) as [q|] eqn:Hq.
    2:{ destruct (nonblock fl); [injection H as <- <-; by apply SAME|discriminate H]. }
    destruct (bool_decide (q_cond q = Some false)); [discriminate H|].
    set (n1 := set_pend (delete l) n) in *.
    set (n2 := if bool_decide (q_cond q = Some true) then _ else n1) in *.
    assert (A : n_pend n2 = delete l (n_pend n) /\ n_req n2 = n_req n /\
      (n_woken n2 = n_woken n \/ n_woken n2 = {[ q_req q ]} ∪ n_woken n)).
    { unfold n2. destruct (bool_decide _); split_and!; auto. }
    assert (Hk : negb (k =? fd) && (0 <=? k) = true).
    { destruct (next_fd_free _ _ _ _ Hn) as [F1 F2].
      assert (k <> fd) by (intros ->; congruence). lia. }
    assert (Fin : forall n3 d st, rsame n2 n3 ->
      rtr n (put_fd c k d (alloc_sock st n3)) None [q_req q] [] []).
    { intros n3 d st (B1 & B2 & B3). destruct A as (A1 & A2 & A3).
      apply (RServe _ _ _ l q); cbn; [done|congruence|congruence|]. rewrite B3. exact A3. }
    destruct (n_names n !! q_from q) as [[i|]|].
    + destruct (s_ui s); [|discriminate H].
      destruct (ino_ref 1 i n2) as [n3|] eqn:Ei; [|discriminate H]. injection H as <- <-.
      rewrite Hk. apply Fin. exact (ino_ref_rsame _ _ _ _ Ei).
    + destruct (s_ui s); [|discriminate H]. injection H as <- <-. rewrite Hk. by apply Fin.
    + injection H as <- <-. rewrite Hk. by apply Fin.
  - (* Socketpair *)
    unfold socketpair_call in H.
    destruct (negb (domain =? AF_UNIX)); [injection H as <- <-; by apply SAME|].
    destruct (negb _ || _); [injection H as <- <-; by apply SAME|].
    destruct (negb _); [injection H as <- <-; by apply SAME|].
    set (fl := fl_of _ _) in H.
    set (s := new_sock NotConn ty fl) in H.
    set (na := alloc_sock s (alloc_sock s n)) in H.
    assert (FD : forall h m m' f,
      match next_fd m c 0 with
      | Some k => (put_fd c k (DSock h fl) m, k)
      | None => (m, err ENFILE)
      end = (m', f) -> rsame m m').
    { intros h m m' f Hm. destruct (next_fd m c 0); by injection Hm as <- <-. }
    destruct (match next_fd na c 0 with Some k => _ | None => _ end) as [nb f1] eqn:E1.
    destruct (match next_fd nb c 0 with Some k => _ | None => _ end) as [nc f2] eqn:E2.
    destruct (bind_inner (Auto (n_auto n)) s (bump_auto (bump_auto nc))) as [[s1 nd] r1] eqn:B1.
    destruct (bind_inner (Auto (n_auto n + 1)) s nd) as [[s2 ne] r2] eqn:B2.
    destruct (s_ui s1) as [u1|]; [|discriminate H].
    destruct (s_ui s2) as [u2|]; [|discriminate H].
    destruct (ino_ref 1 (u_ino u1) _) as [ng|] eqn:G1; [|discriminate H].
    destruct (ino_ref 1 (u_ino u2) ng) as [nh|] eqn:G2; [|discriminate H].
    injection H as <- _. apply SAME.
    apply (rsame_trans n na); [done|]. apply (rsame_trans na nb); [exact (FD _ _ _ _ E1)|].
    apply (rsame_trans nb nc); [exact (FD _ _ _ _ E2)|].
    apply (rsame_trans nc nd); [exact (bind_inner_rsame _ _ _ _ _ _ B1)|].
    apply (rsame_trans nd ne); [exact (bind_inner_rsame _ _ _ _ _ _ B2)|].
    apply (rsame_trans ne ng); [exact (ino_ref_rsame _ _ _ _ G1)|].
    apply (rsame_trans ng nh); [exact (ino_ref_rsame _ _ _ _ G2)|]. done.
  - apply on_sock_go in H as [[-> _]|(h & fl & s & _ & Hd & Hs & H)]; [by apply SAME|].
    unfold send_sock in H. splitgo H; injection H as <- <-; by apply SAME.
  - apply on_sock_go in H as [[-> _]|(h & fl & s & _ & Hd & Hs & H)]; [by apply SAME|].
    unfold recv_sock in H. splitgo H; injection H as <- <-; by apply SAME.
  - unfold read_call in H. destruct (in_range fd); [|discriminate H]. cbn [negb] in H.
    destruct (n_fds n !! (c, fd)) as [[h fl|reg|z wr fl| |]|]; try (injection H as <- <-; by apply SAME).
    + destruct (n_sock n !! h) as [s|] eqn:Hs; [|discriminate H].
      unfold recv_sock in H. splitgo H; injection H as <- <-; by apply SAME.
    + splitgo H; injection H as <- <-; by apply SAME.
  - unfold write_call in H. destruct (in_range fd); [|discriminate H]. cbn [negb] in H.
    destruct (n_fds n !! (c, fd)) as [[h fl|reg|z wr fl| |]|]; try (injection H as <- <-; by apply SAME).
    + destruct (n_sock n !! h) as [s|] eqn:Hs; [|discriminate H].
      unfold send_sock in H. splitgo H; injection H as <- <-; by apply SAME.
    + splitgo H; injection H as <- <-; by apply SAME.
  - unfold shutdown_call in H. destruct (in_range fd); [|injection H as <- <-; by apply SAME].
    cbn [negb] in H. destruct (negb _); [injection H as <- <-; by apply SAME|].
    apply on_sock_go in H as [[-> _]|(h & fl & s & _ & Hd & Hs & H)]; [by apply SAME|].
    injection H as <- <-. destruct (how =? SHUT_RDWR); by apply SAME.
  - unfold close_call in H. destruct (in_range fd); [|discriminate H]. cbn [negb] in H.
    destruct (n_fds n !! (c, fd)) as [d|]; [|injection H as <- <-; by apply SAME].
    destruct (release d n) as [n1|] eqn:E; [|discriminate H]. injection H as <- <-.
    apply SAME. exact (release_rsame _ _ _ E).
  - unfold dup_call in H. destruct (fd =? 0); [injection H as <- <-; by apply SAME|].
    destruct (in_range fd); [|injection H as <- <-; by apply SAME]. cbn [negb] in H.
    destruct (n_fds n !! (c, fd)) as [d|] eqn:Hd; [|injection H as <- <-; by apply SAME].
    destruct (next_fd n c 0) as [k|] eqn:Hn; [|injection H as <- <-; by apply SAME].
    destruct d; try (injection H as <- <-; by apply SAME).
    all: destruct (retain false _ n) as [n1|] eqn:E; [|discriminate H]; injection H as <- <-.
    all: apply SAME; exact (retain_rsame _ _ _ _ E).
  - unfold dup2_call in H. destruct (in_range fd2); [|injection H as <- <-; by apply SAME].
    cbn [negb] in H. destruct (fd2 =? fd); [injection H as <- <-; by apply SAME|].
    destruct (in_range fd); [|injection H as <- <-; by apply SAME]. cbn [negb] in H.
    destruct (n_fds n !! (c, fd)) as [d|] eqn:Hd; [|injection H as <- <-; by apply SAME].
    destruct (match n_fds n !! (c, fd2) with Some d2 => release d2 n | None => Some n end)
      as [n1|] eqn:E1; [|discriminate H].
    assert (S1 : rsame n n1).
    { destruct (n_fds n !! (c, fd2)) as [d2|].
      - exact (release_rsame _ _ _ E1).
      - by injection E1 as <-. }
    destruct d; try (injection H as <- <-; by apply SAME).
    all: destruct (retain false _ n1) as [n2|] eqn:E; [|discriminate H]; injection H as <- <-.
    all: apply SAME; apply (rsame_trans _ _ _ S1); exact (retain_rsame _ _ _ _ E).
  - unfold fork_call in H. destruct (fresh_cage n child) eqn:F; [|discriminate H]. cbn [negb] in H.
    destruct (fork_fds c child fd_list n) as [n1|] eqn:E; [|discriminate H].
    injection H as <- <-. apply SAME. exact (fork_fds_rsame _ _ _ _ _ E).
  - unfold pipe_call in H. splitgo H; injection H as <- <-; by apply SAME.
  - unfold open_call in H. splitgo H; injection H as <- <-; by apply SAME.
  - unfold setnb_call in H. splitgo H; injection H as <- <-; by apply SAME.
  - unfold ioctl_call in H. splitgo H; injection H as <- <-; by apply SAME.
  - unfold unlink_call in H. splitgo H; injection H as <- <-; by apply SAME.
  - unfold create_call in H. splitgo H; injection H as <- <-; by apply SAME.
  - unfold getopt_call in H. destruct (in_range fd); [|injection H as <- <-; by apply SAME].
    cbn [negb] in H.
    apply on_sock_go in H as [[-> _]|(h & fl & s & _ & Hd & Hs & H)]; [by apply SAME|].
    splitgo H; injection H as <- <-; by apply SAME.
  - unfold setopt_call in H. destruct (in_range fd); [|injection H as <- <-; by apply SAME].
    cbn [negb] in H.
    apply on_sock_go in H as [[-> _]|(h & fl & s & _ & Hd & Hs & H)]; [by apply SAME|].
    splitgo H; injection H as <- <-; by apply SAME.
  - unfold select_call in H. splitgo H; injection H as <- <-; by apply SAME.
  - unfold poll_call in H. splitgo H; injection H as <- <-; by apply SAME.
  - unfold ecreate_call in H. splitgo H; injection H as <- <-; by apply SAME.
  - unfold ectl_call in H. splitgo H; injection H as <- <-; by apply SAME.
  - unfold ewait_call in H. splitgo H; injection H as <- <-; by apply SAME.
Qed.

(** ** History invariant: [S] served, [I] issued, [R] returned so far *)
Record hist (n : net) (S I R : list Z) : Prop := {
  h_iss : forall r, r ∈ I -> r < n_req n;
  h_ni : NoDup I;
  h_ns : NoDup S;
  h_si : forall r, r ∈ S -> r ∈ I;
  h_rs : forall r, r ∈ R -> r ∈ S;
  h_nr : NoDup R;
  h_pi : forall l q, n_pend n !! l = Some q -> q_req q ∈ I /\ q_req q ∉ S;
  h_pj : forall l l' q q', n_pend n !! l = Some q -> n_pend n !! l' = Some q' ->
    q_req q = q_req q' -> l = l';
  h_ws : forall r, r ∈ n_woken n -> r ∈ S /\ r ∉ R
}.
Lemma set_wait_req r q : q_req (set_wait r q) = q_req q.
Proof. unfold set_wait. by destruct (_ && _). Qed.
Lemma hist_step n n' a S I R s i r : hist n S I R -> rtr n n' a s i r -> hist n' (S ++ s) (I ++ i) (R ++ r).
Proof.
  intros [A1 A2 A3 A4 A5 A6 A7 A8 A9] T. destruct T as [P Q W|p q _ Eq P Q W|z P Q W|z Hz P Q W|l q Hl P Q W];
    rewrite ?app_nil_r.
  - split; rewrite ?P, ?Q, ?W; done.
  - assert (F : n_req n ∉ I) by (intros F; apply A1 in F; lia).
    split; rewrite ?P, ?Q, ?W; try done.
    + intros r Hr. apply elem_of_app in Hr as [Hr|Hr]; [apply A1 in Hr; lia|].
      apply elem_of_list_singleton in Hr as ->. lia.
    + apply NoDup_app. split_and!; [done| |apply NoDup_singleton].
      intros y Hy Hy'. apply elem_of_list_singleton in Hy' as ->. done.
    + intros r Hr. apply elem_of_app. left. by apply A4.
    + intros l0 q0 Hq0. apply lookup_insert_Some in Hq0 as [[_ <-]|[_ Hq0]].
      * rewrite Eq. split; [apply elem_of_app; right; by left|]. intros G. by apply A4 in G.
      * destruct (A7 _ _ Hq0) as [B1 B2]. split; [apply elem_of_app; by left|done].
    + intros l0 l1 q0 q1 H0 H1 E.
      apply lookup_insert_Some in H0 as [[<- <-]|[N0 H0]];
      apply lookup_insert_Some in H1 as [[<- <-]|[N1 H1]]; [done| | |by eapply A8].
      * destruct (A7 _ _ H1) as [B1 _]. rewrite <- E, Eq in B1. done.
      * destruct (A7 _ _ H0) as [B1 _]. rewrite E, Eq in B1. done.
  - split; rewrite ?P, ?Q, ?W; try done.
    + intros l q Hq. rewrite lookup_fmap in Hq. destruct (n_pend n !! l) as [q0|] eqn:E; [|done].
      injection Hq as <-. rewrite set_wait_req. by eapply A7.
    + intros l l' q q' H0 H1. rewrite lookup_fmap in H0, H1.
      destruct (n_pend n !! l) as [q0|] eqn:E0; [|done]. destruct (n_pend n !! l') as [q1|] eqn:E1; [|done].
      injection H0 as <-. injection H1 as <-. rewrite !set_wait_req. by eapply A8.
  - destruct (A9 _ Hz) as [B1 B2]. split; rewrite ?P, ?Q, ?W; try done.
    + intros r Hr. apply elem_of_app in Hr as [Hr|Hr]; [by apply A5|].
      by apply elem_of_list_singleton in Hr as ->.
    + apply NoDup_app. split_and!; [done| |apply NoDup_singleton].
      intros y Hy Hy'. apply elem_of_list_singleton in Hy' as ->. done.
    + intros r Hr. apply elem_of_difference in Hr as [Hr1 Hr2]. destruct (A9 _ Hr1) as [C1 C2].
      split; [done|]. intros G. apply elem_of_app in G as [G|G]; [done|].
      apply elem_of_list_singleton in G as ->. apply Hr2. by apply elem_of_singleton.
  - destruct (A7 _ _ Hl) as [B1 B2].
    assert (B3 : q_req q ∉ R) by (intros G; by apply A5 in G).
    split; rewrite ?P, ?Q; try done.
    + apply NoDup_app. split_and!; [done| |apply NoDup_singleton].
      intros y Hy Hy'. apply elem_of_list_singleton in Hy' as ->. done.
    + intros r Hr. apply elem_of_app in Hr as [Hr|Hr]; [by apply A4|].
      by apply elem_of_list_singleton in Hr as ->.
    + intros r Hr. apply elem_of_app. left. by apply A5.
    + intros l0 q0 Hq0. apply lookup_delete_Some in Hq0 as [N0 Hq0].
      destruct (A7 _ _ Hq0) as [C1 C2]. split; [done|]. intros G. apply elem_of_app in G as [G|G]; [done|].
      apply elem_of_list_singleton in G. apply N0. by eapply A8.
    + intros l0 l1 q0 q1 H0 H1. apply lookup_delete_Some in H0 as [_ H0].
      apply lookup_delete_Some in H1 as [_ H1]. by eapply A8.
    + intros r Hr. assert (Hr' : r ∈ n_woken n \/ r = q_req q).
      { destruct W as [W|W]; rewrite W in Hr; [by left|]. apply elem_of_union in Hr as [Hr|Hr]; [right|by left].
        by apply elem_of_singleton in Hr. }
      destruct Hr' as [Hr'| ->].
      * destruct (A9 _ Hr') as [C1 C2]. split; [|done]. apply elem_of_app. by left.
      * split; [|done]. apply elem_of_app. right. by left.
Qed.
Lemma run_hist l : forall n n' xs S I R, hist n S I R -> run n l = Some (n', xs) ->
  hist n' (S ++ gather serves n l) (I ++ gather issues n l) (R ++ gather returns n l).
Proof.
  induction l as [|[c o] l IH]; intros n n' xs S I R Hh H; cbn in *.
  - injection H as <- <-. by rewrite !app_nil_r.
  - destruct (step n c o) as [n1 x| |] eqn:E; [|done|done].
    destruct (run n1 l) as [[n2 ys]|] eqn:Rn; [|done]. injection H as <- <-.
    rewrite !app_assoc. apply (IH n1 n2 ys); [|done].
    exact (hist_step _ _ _ _ _ _ _ _ _ Hh (step_rtr _ _ _ _ _ E)).
Qed.
Lemma init_hist : hist init_net [] [] [].
Proof.
  split; try (intros r Hr; by apply elem_of_nil in Hr); try apply NoDup_nil_2.
  - intros l q Hq. cbn in Hq. by rewrite lookup_empty in Hq.
  - intros l l' q q' Hq. cbn in Hq. by rewrite lookup_empty in Hq.
  - intros r Hr. by apply not_elem_of_empty in Hr.
Qed.

(** Nothing is forgotten without a rival *)
Definition kept (n : net) (S I : list Z) : Prop :=
  forall r, r ∈ I -> r ∈ S \/ exists l q, n_pend n !! l = Some q /\ q_req q = r.
Lemma kept_step n n' a S I s i r : rtr n n' a s i r ->
  (forall p, a = Some p -> n_pend n !! p = None) -> kept n S I -> kept n' (S ++ s) (I ++ i).
Proof.
  intros T N K y Hy.
  destruct T as [P Q W|p q Ea Eq P Q W|z P Q W|z Hz P Q W|l q Hl P Q W]; rewrite ?app_nil_r in *; rewrite P.
  - by apply K.
  - apply elem_of_app in Hy as [Hy|Hy].
    + destruct (K y Hy) as [A|(l & q0 & A & B)]; [by left|right].
      exists l, q0. split; [|done]. rewrite lookup_insert_ne; [done|]. intros <-. rewrite (N _ Ea) in A. done.
    + apply elem_of_list_singleton in Hy as ->. right. exists p, q. by rewrite lookup_insert.
  - destruct (K y Hy) as [A|(l & q0 & A & B)]; [by left|right].
    exists l, (set_wait z q0). by rewrite lookup_fmap, A, set_wait_req.
  - by apply K.
  - destruct (K y Hy) as [A|(l0 & q0 & A & B)]; [left; apply elem_of_app; by left|].
    destruct (decide (l0 = l)) as [->|D].
    + assert (q0 = q) as -> by congruence. left. apply elem_of_app. right. subst y. by left.
    + right. exists l0, q0. by rewrite lookup_delete_ne by done.
Qed.
Lemma run_kept l : forall n n' xs S I, kept n S I -> along no_rival n l -> run n l = Some (n', xs) ->
  kept n' (S ++ gather serves n l) (I ++ gather issues n l).
Proof.
  induction l as [|[c o] l IH]; intros n n' xs S I K HA H; cbn in *.
  - injection H as <- <-. by rewrite !app_nil_r.
  - destruct HA as [N HA]. destruct (step n c o) as [n1 x| |] eqn:E; [|done|done].
    destruct (run n1 l) as [[n2 ys]|] eqn:Rn; [|done]. injection H as <- <-.
    rewrite !app_assoc. apply (IH n1 n2 ys); [|done|done].
    apply (kept_step _ _ _ _ _ _ _ _ (step_rtr _ _ _ _ _ E)); [|done].
    intros p Hp. destruct o; try discriminate Hp. injection Hp as <-. exact N.
Qed.

(** ** A request that is neither pending nor woken stays so *)
Definition lost (n : net) (r : Z) : Prop :=
  r < n_req n /\ r ∉ n_woken n /\ forall l q, n_pend n !! l = Some q -> q_req q <> r.
Lemma lost_step n n' a s i r z : rtr n n' a s i r -> lost n z -> lost n' z /\ z ∉ s /\ z ∉ i /\ z ∉ r.
Proof.
  intros T (L1 & L2 & L3).
  destruct T as [P Q W|p q Ea Eq P Q W|y P Q W|y Hy P Q W|l q Hl P Q W];
    (split; [split_and!|split_and!]); rewrite ?P, ?Q, ?W; try done; try apply not_elem_of_nil; try lia.
  - intros l q0 H0. apply lookup_insert_Some in H0 as [[_ <-]|[_ H0]]; [lia|by eapply L3].
  - intros F. apply elem_of_list_singleton in F. lia.
  - intros l q Hq. rewrite lookup_fmap in Hq. destruct (n_pend n !! l) as [q0|] eqn:E; [|done].
    injection Hq as <-. rewrite set_wait_req. by eapply L3.
  - intros F. apply elem_of_difference in F as [F _]. done.
  - intros F. apply elem_of_list_singleton in F as ->. done.
  - destruct W as [W|W]; rewrite W; [done|]. intros F. apply elem_of_union in F as [F|F]; [|done].
    apply elem_of_singleton in F. by apply (L3 _ _ Hl).
  - intros l0 q0 H0. apply lookup_delete_Some in H0 as [_ H0]. by eapply L3.
  - intros F. apply elem_of_list_singleton in F. by apply (L3 _ _ Hl).
Qed.
Lemma run_lost l : forall n n' xs r, lost n r -> run n l = Some (n', xs) ->
  lost n' r /\ r ∉ gather serves n l /\ r ∉ gather returns n l.
Proof.
  induction l as [|[c o] l IH]; intros n n' xs r L H; cbn in *.
  - injection H as <- <-. split_and!; [done|apply not_elem_of_nil|apply not_elem_of_nil].
  - destruct (step n c o) as [n1 x| |] eqn:E; [|done|done].
    destruct (run n1 l) as [[n2 ys]|] eqn:Rn; [|done]. injection H as <- <-.
    destruct (lost_step _ _ _ _ _ _ _ (step_rtr _ _ _ _ _ E) L) as (L' & A & _ & B).
    destruct (IH _ _ _ _ L' Rn) as (C & D & F).
    split; [done|]. split; intros G; apply elem_of_app in G as [G|G]; done.
Qed.
Lemma lost_blocks n c r : lost n r -> step n c (ConnDone r) = Block.
Proof. intros (_ & L & _). cbn. unfold conn_done. by rewrite bool_decide_eq_false_2. Qed.

(** ** What a pending request remembers *)
Definition same_q (q q' : pend) : Prop :=
  q_req q' = q_req q /\ q_from q' = q_from q /\ q_rp q' = q_rp q /\ q_sp q' = q_sp q.
Lemma set_wait_same z q : same_q q (set_wait z q).
Proof. unfold set_wait, same_q. by destruct (_ && _). Qed.
(** [r] is pending, if at all, as a copy of [q] *)
Definition only_as (q : pend) (n : net) : Prop :=
  q_req q < n_req n /\ forall l q', n_pend n !! l = Some q' -> q_req q' = q_req q -> same_q q q'.
Lemma only_as_step q n n' a s i r : rtr n n' a s i r -> only_as q n -> only_as q n'.
Proof.
  intros T [A B].
  destruct T as [P Q W|p q0 Ea Eq P Q W|y P Q W|y Hy P Q W|l q0 Hl P Q W]; (split; [lia|]); rewrite P.
  - done.
  - intros l q' H E. apply lookup_insert_Some in H as [[_ <-]|[_ H]]; [lia|by eapply B].
  - intros l q' H E. rewrite lookup_fmap in H. destruct (n_pend n !! l) as [q1|] eqn:F; [|done].
    injection H as <-. rewrite set_wait_req in E. destruct (B _ _ F E) as (B1 & B2 & B3 & B4).
    destruct (set_wait_same y q1) as (C1 & C2 & C3 & C4). split_and!; congruence.
  - done.
  - intros l0 q' H E. apply lookup_delete_Some in H as [_ H]. by eapply B.
Qed.
Lemma run_only_as q l : forall n n' xs, only_as q n -> run n l = Some (n', xs) -> only_as q n'.
Proof.
  induction l as [|[c o] l IH]; intros n n' xs L H; cbn in *.
  - by injection H as <- <-.
  - destruct (step n c o) as [n1 x| |] eqn:E; [|done|done].
    destruct (run n1 l) as [[n2 ys]|] eqn:Rn; [|done]. injection H as <- <-.
    exact (IH _ _ _ (only_as_step _ _ _ _ _ _ _ (step_rtr _ _ _ _ _ E) L) Rn).
Qed.

Lemma connect_only n c fd p n1 x r h : hist n [] [] [] \/ (forall l q, n_pend n !! l = Some q -> q_req q < n_req n) ->
  step n c (Connect fd p) = Go n1 x -> issues n c (Connect fd p) x = [r] -> opens n c fd h = true ->
  exists q s, q_req q = r /\ only_as q n1 /\ n_sock n1 !! h = Some s /\ s_loc s = Some (q_from q) /\
    into n1 h = Some (q_rp q) /\ from n1 h = Some (q_sp q).
Proof.
  intros R H I O.
  assert (R' : forall l q, n_pend n !! l = Some q -> q_req q < n_req n).
  { destruct R as [R|R]; [|done]. intros l q Hq. destruct (h_pi _ _ _ _ R _ _ Hq) as [F _]. by apply elem_of_nil in F. }
  clear R. cbn [step] in H. unfold connect_call in H.
  apply on_sock_go in H as [[-> [[-> _]|(-> & _)]]|(h0 & fl & s & _ & Hd & Hs & H)]; [discriminate I|discriminate I|].
  unfold opens in O. rewrite Hd in O. apply Z.eqb_eq in O as ->.
  destruct (bool_decide (s_st s = NotConn)); cbn [negb] in H; [|injection H as <- <-; discriminate I].
  destruct (auto_bind s n) as [s1 n2] eqn:E.
  pose proof (auto_bind_rsame _ _ _ _ E) as (A & B & C).
  destruct (bool_decide (p ∈ n_bound n2)); cbn [negb] in H; [|injection H as <- <-; discriminate I].
  destruct (s_ui s1) as [u|]; [|discriminate H].
  destruct (s_loc s1) as [l|] eqn:El; [|discriminate H].
  assert (r = n_req n) as ->.
  { injection H as _ <-. cbn in I. rewrite B in I. destruct (nonblock fl); by injection I as ->. }
  injection H as <- _.
  eexists (Pend (n_req n) l (n_npipe n2) (n_npipe n2 + 1) (if nonblock fl then None else Some false)), _.
  split; [done|]. split.
  { split; [cbn; lia|]. cbn. rewrite A, B. intros l0 q' H0 E0.
    apply lookup_insert_Some in H0 as [[_ <-]|[_ H0]]; [done|]. pose proof (R' _ _ H0). lia. }
  unfold into, from. cbn. rewrite lookup_insert. split_and!; done.
Qed.

Lemma accept_ends n c fd n' k r : step n c (Accept fd) = Go n' (Ret k) ->
  serves n c (Accept fd) (Ret k) = [r] ->
  exists l q, n_pend n !! l = Some q /\ q_req q = r /\
    (is_Some (n_names n !! q_from q) ->
     exists h', opens n' c k h' = true /\ from n' h' = Some (q_rp q) /\ into n' h' = Some (q_sp q)).
Proof.
  intros H S. cbn [step] in H. cbn [serves] in S. unfold accept_call in H.
  destruct (in_range fd); [|discriminate H]. cbn [negb] in H.
  destruct (n_fds n !! (c, fd)) as [[h fl| | | |]|] eqn:Hd; try discriminate S.
  destruct (n_sock n !! h) as [s|] eqn:Hs; [|discriminate S].
  destruct (s_loc s) as [l|] eqn:Hl; [|discriminate S].
  destruct (n_pend n !! l) as [q|] eqn:Hq; [|discriminate S].
  destruct (negb (k =? fd) && (0 <=? k)) eqn:Hk; [|discriminate S].
  exists l, q. split; [done|]. split; [by injection S as ->|]. clear S.
  destruct (next_fd n c 0) as [j|] eqn:Ej; [|injection H as _ <-; rewrite Z.eqb_refl in Hk; discriminate Hk].
  destruct (negb (bool_decide _)); [injection H as _ <-; rewrite andb_false_r in Hk; discriminate Hk|].
  destruct (bool_decide (q_cond q = Some false)); [discriminate H|].
  set (n1 := set_pend (delete l) n) in *.
  set (n2 := if bool_decide (q_cond q = Some true) then _ else n1) in *.
  intros [[i|] Hi]; rewrite Hi in H.
  - destruct (s_ui s); [|discriminate H].
    destruct (ino_ref 1 i n2) as [n3|] eqn:Ei; [|discriminate H]. injection H as <- <-.
    assert (n_nsock n3 = n_nsock n2) as E3.
    { unfold ino_ref in Ei. splitgo Ei. by injection Ei as <-. }
    exists (n_nsock n2). unfold opens, from, into. cbn. rewrite E3, !lookup_insert. split_and!; [apply Z.eqb_refl|done|done].
  - destruct (s_ui s); [|discriminate H]. injection H as <- <-.
    exists (n_nsock n2). unfold opens, from, into. cbn. rewrite !lookup_insert. split_and!; [apply Z.eqb_refl|done|done].
Qed.

Lemma matched n c fd p n1 x r h l n2 xs c2 fd2 n3 k : (exists S I R, hist n S I R) ->
  step n c (Connect fd p) = Go n1 x -> issues n c (Connect fd p) x = [r] -> opens n c fd h = true ->
  run n1 l = Some (n2, xs) ->
  step n2 c2 (Accept fd2) = Go n3 (Ret k) -> serves n2 c2 (Accept fd2) (Ret k) = [r] ->
  (forall a, bound_to n1 h a -> is_Some (n_names n2 !! a)) ->
  exists h' a b, opens n3 c2 k h' = true /\ from n3 h' = Some a /\ into n1 h = Some a /\
    into n3 h' = Some b /\ from n1 h = Some b.
Proof.
  intros (S & I & R & Hh) H Is O Rn A Se Nm.
  destruct (connect_only n c fd p n1 x r h) as (q & s & E & K & Hs & Hl & Hi & Hf); [|done..|].
  { right. intros l0 q Hq. destruct (h_pi _ _ _ _ Hh _ _ Hq) as [F _]. by apply (h_iss _ _ _ _ Hh). }
  destruct (accept_ends _ _ _ _ _ _ A Se) as (l0 & q' & P & E' & G).
  destruct (run_only_as _ _ _ _ _ K Rn) as [_ K2].
  destruct (K2 _ _ P) as (_ & F2 & F3 & F4); [congruence|].
  destruct G as (h' & G1 & G2 & G3).
  { rewrite F2. apply Nm. by exists s. }
  exists h', (q_rp q), (q_sp q). rewrite G2, G3, F3, F4. done.
Qed.

(** ** Names of socket inodes *)
Record ginv (n : net) : Prop := {
  g_nm : forall p i, n_names n !! p = Some (NSock i) -> exists r l, n_ino n !! i = Some (r, l) /\ 1 <= l;
  g_in : forall i r l, n_ino n !! i = Some (r, l) -> 0 <= r /\ i < n_nino n;
  g_inj : forall p p' i, n_names n !! p = Some (NSock i) -> n_names n !! p' = Some (NSock i) -> p = p'
}.
Definition gsame (n n' : net) : Prop :=
  n_names n' = n_names n /\ n_ino n' = n_ino n /\ n_nino n' = n_nino n.
Lemma gsame_inv n n' : gsame n n' -> ginv n -> ginv n'.
Proof. intros (A & B & C) [D E F]. split; rewrite ?A, ?B, ?C; done. Qed.
Lemma bind_inner_ginv p s n s1 n1 r : bind_inner p s n = (s1, n1, r) -> ginv n -> ginv n1.
Proof.
  unfold bind_inner, bind_unix. destruct (s_loc s); [by intros [= <- <- <-]|].
  destruct (n_names n !! p) eqn:Hp; [by intros [= <- <- <-]|]. intros [= <- <- <-] [A B C].
  split; cbn.
  - intros p0 i H. apply lookup_insert_Some in H as [[<- E]|[D H]].
    + injection E as <-. rewrite lookup_insert. eauto with lia.
    + destruct (A _ _ H) as (r & l & F & G). destruct (B _ _ _ F) as [_ L].
      rewrite lookup_insert_ne by lia. eauto.
  - intros i r l H. apply lookup_insert_Some in H as [[<- E]|[D H]].
    + injection E as <- <-. lia.
    + destruct (B _ _ _ H). lia.
  - assert (X : forall q i, n_names n !! q = Some (NSock i) -> i <> n_nino n).
    { intros q i H ->. destruct (A _ _ H) as (r & l & F & G). destruct (B _ _ _ F) as [_ L]. lia. }
    intros p0 p1 i H0 H1. apply lookup_insert_Some in H0 as [[<- E]|[D H0]];
      apply lookup_insert_Some in H1 as [[<- E']|[D' H1]]; try done.
    + injection E as <-. by destruct (X _ _ H1).
    + injection E' as <-. by destruct (X _ _ H0).
    + by eapply C.
Qed.
Lemma auto_bind_ginv s n s1 n1 : auto_bind s n = (s1, n1) -> ginv n -> ginv n1.
Proof.
  unfold auto_bind. destruct (s_loc s); [by intros [= <- <-]|].
  destruct (bind_inner _ s _) as [[a b] d] eqn:E. intros [= <- <-] G.
  apply (bind_inner_ginv _ _ _ _ _ _ E). by apply (gsame_inv n).
Qed.
(** A change of one inode's counts that keeps it, or removes it unnamed *)
Lemma count_ginv n n' i r l r' : n_names n' = n_names n -> n_nino n' = n_nino n ->
  n_ino n !! i = Some (r, l) -> 0 <= r' -> n_ino n' = <[i := (r', l)]> (n_ino n) -> ginv n -> ginv n'.
Proof.
  intros E1 E2 Hi Hr E3 [A B C]. split; rewrite ?E1, ?E2, ?E3.
  - intros p j H. destruct (A _ _ H) as (r0 & l0 & F & G). destruct (decide (i = j)) as [<-|D].
    + rewrite lookup_insert. assert (l0 = l) as -> by congruence. eauto.
    + rewrite lookup_insert_ne by done. eauto.
  - intros j r0 l0 H. apply lookup_insert_Some in H as [[<- E]|[D H]]; [|by eapply B].
    injection E as <- <-. destruct (B _ _ _ Hi). lia.
  - exact C.
Qed.
Lemma ino_ref_ginv d i n n' : ino_ref d i n = Some n' -> ginv n -> ginv n'.
Proof.
  unfold ino_ref. destruct (n_ino n !! i) as [[r l]|] eqn:E; [|done].
  destruct (r + d <? 0) eqn:L; [done|]. intros [= <-].
  apply (count_ginv n _ i r l (r + d)); try done. lia.
Qed.
Lemma opt_pipe_gsame o f n : gsame n (opt_pipe o f n).
Proof. by destruct o. Qed.
Lemma gsame_trans a b c : gsame a b -> gsame b c -> gsame a c.
Proof. intros (A & B & C) (D & E & F). split_and!; congruence. Qed.
Lemma release_ginv d n n' : release d n = Some n' -> ginv n -> ginv n'.
Proof.
  destruct d as [h fl|reg|p wr fl| |]; cbn; try (by intros [= <-]).
  2:{ intros [= <-]. by apply gsame_inv. }
  destruct (n_sock n !! h) as [s|]; [|done].
  destruct (s_ui s) as [u|]; [|by intros [= <-]].
  set (n2 := opt_pipe (u_recv u) decr_r (opt_pipe (u_send u) decr_w n)).
  assert (R : gsame n n2).
  { eapply gsame_trans; apply opt_pipe_gsame. }
  destruct (_ || _); [done|].
  destruct (u_ino u =? -1).
  { intros [= <-]. by apply gsame_inv. }
  destruct R as (R1 & R2 & R3). cbn. rewrite R2.
  destruct (n_ino n !! u_ino u) as [[r l]|] eqn:E; [|done].
  destruct (r =? 0) eqn:Er; [done|].
  destruct (_ && _) eqn:Ec.
  - destruct (s_loc s) as [p|]; [|done]. intros [= <-] [A B C].
    split; cbn; rewrite ?R1, ?R2, ?R3.
    + intros q i H. destruct (A _ _ H) as (r0 & l0 & F & G).
      destruct (decide (u_ino u = i)) as [<-|D]; [|rewrite lookup_delete_ne by done; eauto].
      assert (l0 = l) as -> by congruence. lia.
    + intros i r0 l0 H. apply lookup_delete_Some in H as [_ H]. by eapply B.
    + exact C.
  - intros [= <-] G. destruct (g_in _ G _ _ _ E).
    apply (count_ginv n _ (u_ino u) r l (r - 1)); cbn; try done; [lia|by rewrite R2].
Qed.
Lemma retain_ginv b d n n' : retain b d n = Some n' -> ginv n -> ginv n'.
Proof.
  destruct d as [h fl|reg|p wr fl| |]; cbn; try (by intros [= <-]).
  2:{ intros [= <-]. by apply gsame_inv. }
  destruct (n_sock n !! h) as [s|]; [|done].
  destruct (s_ui s) as [u|]; [|by intros [= <-]].
  assert (R : gsame n (opt_pipe (u_recv u) incr_r (opt_pipe (u_send u) incr_w n))).
  { eapply gsame_trans; apply opt_pipe_gsame. }
  destruct (b && _).
  - intros H G. exact (ino_ref_ginv _ _ _ _ H (gsame_inv _ _ R G)).
  - intros [= <-] G. exact (gsame_inv _ _ R G).
Qed.
Lemma fork_fds_ginv c c' l n n' : fork_fds c c' l n = Some n' -> ginv n -> ginv n'.
Proof.
  revert n. induction l as [|k l IH]; intros n; cbn; [by intros [= <-]|].
  destruct (n_fds n !! (c, k)) as [d|] eqn:Hd; [|apply IH].
  destruct (retain true d n) as [n1|] eqn:Hr; [|done]. intros H G.
  apply (IH _ H). apply (gsame_inv n1); [done|]. exact (retain_ginv _ _ _ _ Hr G).
Qed.

Lemma step_ginv n c o n' x : step n c o = Go n' x -> ginv n -> ginv n'.
Proof.
  intros H G.
  assert (SAME : forall n1, gsame n n1 -> ginv n1) by (intros n1 E; exact (gsame_inv _ _ E G)).
  destruct o; cbn [step] in H.
  - unfold socket_call in H. splitgo H; injection H as <- <-; by apply SAME.
  - apply on_sock_go in H as [[-> _]|(h & fl & s & _ & Hd & Hs & H)]; [by apply SAME|].
    destruct (bind_inner p s n) as [[s1 n1] r] eqn:E. injection H as <- <-.
    apply (gsame_inv n1); [done|]. exact (bind_inner_ginv _ _ _ _ _ _ E G).
  - apply on_sock_go in H as [[-> _]|(h & fl & s & _ & Hd & Hs & H)]; [by apply SAME|].
    destruct (s_st s); injection H as <- <-; by apply SAME.
  - unfold connect_call in H.
    apply on_sock_go in H as [[-> _]|(h & fl & s & _ & Hd & Hs & H)]; [by apply SAME|].
    destruct (bool_decide (s_st s = NotConn)); cbn [negb] in H; [|injection H as <- <-; by apply SAME].
    destruct (auto_bind s n) as [s1 n1] eqn:E.
    pose proof (auto_bind_ginv _ _ _ _ E G) as G1.
    splitgo H; injection H as <- <-; by apply (gsame_inv n1).
  - unfold conn_wait in H. injection H as <- <-. by apply SAME.
  - unfold conn_done in H. splitgo H; injection H as <- <-; by apply SAME.
  - unfold accept_call in H. destruct (in_range fd); [|discriminate H]. cbn [negb] in H.
    destruct (n_fds n !! (c, fd)) as [d|] eqn:Hd; [|injection H as <- <-; by apply SAME].
    destruct (next_fd n c 0) as [k|] eqn:Hn; [|injection H as <- <-; by apply SAME].
    destruct d as [h fl| | | |]; try (injection H as <- <-; by apply SAME).
    destruct (n_sock n !! h) as [s|] eqn:Hs; [|discriminate H].
    destruct (negb _); [injection H as <- <-; by apply SAME|].
    destruct (s_loc s) as [l|]; [|discriminate H].
    destruct (n_pend n !! l) as [q|] eqn:Hq.
    2:{ destruct (nonblock fl); [injection H as <- <-; by apply SAME|discriminate H]. }
    destruct (bool_decide (q_cond q = Some false)); [discriminate H|].
    set (n1 := set_pend (delete l) n) in *.
    set (n2 := if bool_decide (q_cond q = Some true) then _ else n1) in *.
    assert (A : ginv n2).
    { apply SAME. unfold n2. by destruct (bool_decide _). }
    destruct (n_names n !! q_from q) as [[i|]|].
    + destruct (s_ui s); [|discriminate H].
      destruct (ino_ref 1 i n2) as [n3|] eqn:Ei; [|discriminate H]. injection H as <- <-.
      apply (gsame_inv n3); [done|]. exact (ino_ref_ginv _ _ _ _ Ei A).
    + destruct (s_ui s); [|discriminate H]. injection H as <- <-. by apply (gsame_inv n2).
    + injection H as <- <-. by apply (gsame_inv n2).
  - unfold socketpair_call in H.
    destruct (negb (domain =? AF_UNIX)); [injection H as <- <-; by apply SAME|].
    destruct (negb _ || _); [injection H as <- <-; by apply SAME|].
    destruct (negb _); [injection H as <- <-; by apply SAME|].
    set (fl := fl_of _ _) in H.
    set (s := new_sock NotConn ty fl) in H.
    set (na := alloc_sock s (alloc_sock s n)) in H.
    assert (FD : forall h m m' f,
      match next_fd m c 0 with
      | Some k => (put_fd c k (DSock h fl) m, k)
      | None => (m, err ENFILE)
      end = (m', f) -> gsame m m').
    { intros h m m' f Hm. destruct (next_fd m c 0); by injection Hm as <- <-. }
    destruct (match next_fd na c 0 with Some k => _ | None => _ end) as [nb f1] eqn:E1.
    destruct (match next_fd nb c 0 with Some k => _ | None => _ end) as [nc f2] eqn:E2.
    assert (Gc : ginv nc).
    { apply (gsame_inv nb); [exact (FD _ _ _ _ E2)|]. apply (gsame_inv na); [exact (FD _ _ _ _ E1)|]. by apply SAME. }
    destruct (bind_inner (Auto (n_auto n)) s (bump_auto (bump_auto nc))) as [[s1 nd] r1] eqn:B1.
    destruct (bind_inner (Auto (n_auto n + 1)) s nd) as [[s2 ne] r2] eqn:B2.
    assert (Ge : ginv ne).
    { apply (bind_inner_ginv _ _ _ _ _ _ B2). apply (bind_inner_ginv _ _ _ _ _ _ B1).
      by apply (gsame_inv nc). }
    destruct (s_ui s1) as [u1|]; [|discriminate H].
    destruct (s_ui s2) as [u2|]; [|discriminate H].
    destruct (ino_ref 1 (u_ino u1) _) as [ng|] eqn:G1; [|discriminate H].
    destruct (ino_ref 1 (u_ino u2) ng) as [nh|] eqn:G2; [|discriminate H].
    injection H as <- _. apply (gsame_inv nh); [done|].
    apply (ino_ref_ginv _ _ _ _ G2). apply (ino_ref_ginv _ _ _ _ G1). by apply (gsame_inv ne).
  - apply on_sock_go in H as [[-> _]|(h & fl & s & _ & Hd & Hs & H)]; [by apply SAME|].
    unfold send_sock in H. splitgo H; injection H as <- <-; by apply SAME.
  - apply on_sock_go in H as [[-> _]|(h & fl & s & _ & Hd & Hs & H)]; [by apply SAME|].
    unfold recv_sock in H. splitgo H; injection H as <- <-; by apply SAME.
  - unfold read_call in H. destruct (in_range fd); [|discriminate H]. cbn [negb] in H.
    destruct (n_fds n !! (c, fd)) as [[h fl|reg|z wr fl| |]|]; try (injection H as <- <-; by apply SAME).
    + destruct (n_sock n !! h) as [s|] eqn:Hs; [|discriminate H].
      unfold recv_sock in H. splitgo H; injection H as <- <-; by apply SAME.
    + splitgo H; injection H as <- <-; by apply SAME.
  - unfold write_call in H. destruct (in_range fd); [|discriminate H]. cbn [negb] in H.
    destruct (n_fds n !! (c, fd)) as [[h fl|reg|z wr fl| |]|]; try (injection H as <- <-; by apply SAME).
    + destruct (n_sock n !! h) as [s|] eqn:Hs; [|discriminate H].
      unfold send_sock in H. splitgo H; injection H as <- <-; by apply SAME.
    + splitgo H; injection H as <- <-; by apply SAME.
  - unfold shutdown_call in H. destruct (in_range fd); [|injection H as <- <-; by apply SAME].
    cbn [negb] in H. destruct (negb _); [injection H as <- <-; by apply SAME|].
    apply on_sock_go in H as [[-> _]|(h & fl & s & _ & Hd & Hs & H)]; [by apply SAME|].
    injection H as <- <-. destruct (how =? SHUT_RDWR); by apply SAME.
  - unfold close_call in H. destruct (in_range fd); [|discriminate H]. cbn [negb] in H.
    destruct (n_fds n !! (c, fd)) as [d|]; [|injection H as <- <-; by apply SAME].
    destruct (release d n) as [n1|] eqn:E; [|discriminate H]. injection H as <- <-.
    apply (gsame_inv n1); [done|]. exact (release_ginv _ _ _ E G).
  - unfold dup_call in H. destruct (fd =? 0); [injection H as <- <-; by apply SAME|].
    destruct (in_range fd); [|injection H as <- <-; by apply SAME]. cbn [negb] in H.
    destruct (n_fds n !! (c, fd)) as [d|] eqn:Hd; [|injection H as <- <-; by apply SAME].
    destruct (next_fd n c 0) as [k|] eqn:Hn; [|injection H as <- <-; by apply SAME].
    destruct d; try (injection H as <- <-; by apply SAME).
    all: destruct (retain false _ n) as [n1|] eqn:E; [|discriminate H]; injection H as <- <-.
    all: apply (gsame_inv n1); [done|]; exact (retain_ginv _ _ _ _ E G).
  - unfold dup2_call in H. destruct (in_range fd2); [|injection H as <- <-; by apply SAME].
    cbn [negb] in H. destruct (fd2 =? fd); [injection H as <- <-; by apply SAME|].
    destruct (in_range fd); [|injection H as <- <-; by apply SAME]. cbn [negb] in H.
    destruct (n_fds n !! (c, fd)) as [d|] eqn:Hd; [|injection H as <- <-; by apply SAME].
    destruct (match n_fds n !! (c, fd2) with Some d2 => release d2 n | None => Some n end)
      as [n1|] eqn:E1; [|discriminate H].
    assert (S1 : ginv n1).
    { destruct (n_fds n !! (c, fd2)) as [d2|].
      - exact (release_ginv _ _ _ E1 G).
      - by injection E1 as <-. }
    destruct d; try (injection H as <- <-; exact S1).
    all: destruct (retain false _ n1) as [n2|] eqn:E; [|discriminate H]; injection H as <- <-.
    all: apply (gsame_inv n2); [done|]; exact (retain_ginv _ _ _ _ E S1).
  - unfold fork_call in H. destruct (fresh_cage n child) eqn:F; [|discriminate H]. cbn [negb] in H.
    destruct (fork_fds c child fd_list n) as [n1|] eqn:E; [|discriminate H].
    injection H as <- <-. exact (fork_fds_ginv _ _ _ _ _ E G).
  - unfold pipe_call in H. splitgo H; injection H as <- <-; by apply SAME.
  - unfold open_call in H. splitgo H; injection H as <- <-; by apply SAME.
  - unfold setnb_call in H. splitgo H; injection H as <- <-; by apply SAME.
  - unfold ioctl_call in H. splitgo H; injection H as <- <-; by apply SAME.
  - unfold unlink_call in H. destruct G as [A B C].
    destruct (n_names n !! p) as [[i|]|] eqn:Hp; [| |injection H as <- <-; by apply SAME].
    + destruct (n_ino n !! i) as [[r l]|] eqn:Hi; [|discriminate H]. injection H as <- <-.
      split; cbn.
      * intros p0 j Hj. apply lookup_delete_Some in Hj as [D Hj].
        assert (i <> j) by (intros <-; apply D; by eapply C).
        destruct (A _ _ Hj) as (r0 & l0 & F & L0). exists r0, l0. split; [|done].
        destruct (_ && _); [by rewrite lookup_delete_ne|by rewrite lookup_insert_ne].
      * intros j r0 l0 Hj. destruct (_ && _).
        -- apply lookup_delete_Some in Hj as [_ Hj]. by eapply B.
        -- apply lookup_insert_Some in Hj as [[<- E]|[_ Hj]]; [|by eapply B].
           injection E as <- <-. by eapply B.
      * intros p0 p1 j H0 H1. apply lookup_delete_Some in H0 as [_ H0].
        apply lookup_delete_Some in H1 as [_ H1]. by eapply C.
    + injection H as <- <-. split; cbn.
      * intros p0 j Hj. apply lookup_delete_Some in Hj as [_ Hj]. by eapply A.
      * exact B.
      * intros p0 p1 j H0 H1. apply lookup_delete_Some in H0 as [_ H0].
        apply lookup_delete_Some in H1 as [_ H1]. by eapply C.
  - unfold create_call in H. destruct G as [A B C].
    destruct (n_names n !! p) eqn:Hp; injection H as <- <-; [by apply SAME|].
    split; cbn.
    + intros p0 j Hj. apply lookup_insert_Some in Hj as [[_ E]|[_ Hj]]; [discriminate E|]. by eapply A.
    + exact B.
    + intros p0 p1 j H0 H1. apply lookup_insert_Some in H0 as [[_ E]|[_ H0]]; [discriminate E|].
      apply lookup_insert_Some in H1 as [[_ E]|[_ H1]]; [discriminate E|]. by eapply C.
  - unfold getopt_call in H. destruct (in_range fd); [|injection H as <- <-; by apply SAME].
    cbn [negb] in H.
    apply on_sock_go in H as [[-> _]|(h & fl & s & _ & Hd & Hs & H)]; [by apply SAME|].
    splitgo H; injection H as <- <-; by apply SAME.
  - unfold setopt_call in H. destruct (in_range fd); [|injection H as <- <-; by apply SAME].
    cbn [negb] in H.
    apply on_sock_go in H as [[-> _]|(h & fl & s & _ & Hd & Hs & H)]; [by apply SAME|].
    splitgo H; injection H as <- <-; by apply SAME.
  - unfold select_call in H. splitgo H; injection H as <- <-; by apply SAME.
  - unfold poll_call in H. splitgo H; injection H as <- <-; by apply SAME.
  - unfold ecreate_call in H. splitgo H; injection H as <- <-; by apply SAME.
  - unfold ectl_call in H. splitgo H; injection H as <- <-; by apply SAME.
  - unfold ewait_call in H. splitgo H; injection H as <- <-; by apply SAME.
Qed.
Lemma run_ginv l : forall n n' xs, ginv n -> run n l = Some (n', xs) -> ginv n'.
Proof.
  induction l as [|[c o] l IH]; intros n n' xs G H; cbn in *.
  - by injection H as <- <-.
  - destruct (step n c o) as [n1 x| |] eqn:E; [|done|done].
    destruct (run n1 l) as [[n2 ys]|] eqn:Rn; [|done]. injection H as <- <-.
    exact (IH _ _ _ (step_ginv _ _ _ _ _ E G) Rn).
Qed.
Lemma init_ginv : ginv init_net.
Proof.
  split; cbn.
  - intros p i H. by rewrite lookup_empty in H.
  - intros i r l H. by rewrite lookup_empty in H.
  - intros p p' i H. by rewrite lookup_empty in H.
Qed.

(** ** Accept takes what is pending *)
Lemma accept_serves n c fd h fl s l q : ginv n -> in_range fd = true ->
  n_fds n !! (c, fd) = Some (DSock h fl) -> n_sock n !! h = Some s -> s_st s = Listening ->
  s_ui s <> None -> s_loc s = Some l -> n_pend n !! l = Some q -> q_cond q <> Some false ->
  space n c 1 ->
  exists n' k, step n c (Accept fd) = Go n' (Ret k) /\ serves n c (Accept fd) (Ret k) = [q_req q].
Proof.
  intros G Hf Hd Hs Hst Hu Hl Hq Hc Hsp. cbn [step serves]. unfold accept_call.
  rewrite Hf, Hd, Hs, Hl, Hq, Hst. cbn [negb].
  destruct (next_fd n c 0) as [k|] eqn:Ek.
  2:{ exfalso. destruct Hsp as (l0 & L & _ & F). destruct l0 as [|a l0]; [discriminate L|].
      destruct (F a ltac:(left)) as [Fa Fb]. apply Fb. exact (next_fd_full _ _ _ Ek Fa). }
  assert (Hk : negb (k =? fd) && (0 <=? k) = true).
  { destruct (next_fd_free _ _ _ _ Ek) as [F1 F2].
    assert (k <> fd) by (intros ->; congruence). lia. }
  rewrite bool_decide_eq_true_2 by done. rewrite (bool_decide_eq_false_2 (q_cond q = Some false)) by done.
  cbn [negb]. destruct (s_ui s); [|done].
  set (n1 := set_pend (delete l) n).
  set (n2 := if bool_decide (q_cond q = Some true) then _ else n1).
  assert (E2 : n_ino n2 = n_ino n) by (unfold n2; by destruct (bool_decide _)).
  destruct (n_names n !! q_from q) as [[i|]|] eqn:En.
  - destruct (g_nm _ G _ _ En) as (r & l0 & F & _). destruct (g_in _ G _ _ _ F) as [F0 _].
    unfold ino_ref. rewrite E2, F. replace (r + 1 <? 0) with false by lia.
    eexists _, k. split; [reflexivity|]. by rewrite Hk.
  - eexists _, k. split; [reflexivity|]. by rewrite Hk.
  - eexists _, k. split; [reflexivity|]. by rewrite Hk.
Qed.
