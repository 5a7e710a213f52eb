(** The statements about local sockets, put together from the lemmas. *)
From Verif Require Import Base NetModel NetSpec NetInv NetStep NetData NetKeep NetCalls NetReady NetReq.
Local Open Scope list_scope.
Local Open Scope Z_scope.
Opaque fd_list next_fd fresh_cage.

Lemma reach_inv n : reachable n -> ninv n.
Proof. apply reachable_ninv. Qed.
Lemma reach_ginv n : reachable n -> ginv n.
Proof. intros (l & xs & H). exact (run_ginv _ _ _ _ init_ginv H). Qed.
Lemma reach_hist n : reachable n -> exists S I R, hist n S I R.
Proof. intros (l & xs & H). do 3 eexists. exact (run_hist _ _ _ _ _ _ _ init_hist H). Qed.
Lemma inr_ok fd : 0 <= fd < MAXFD -> in_range fd = true.
Proof. unfold in_range. lia. Qed.

(** ** C57 *)
Lemma conserved n h p l n' xs : reachable n -> from n h = Some p -> along (no_connect h) n l ->
  run n l = Some (n', xs) ->
  unread n h p ++ gather (put_in p) n l = gather (took h) n l ++ unread n' h p.
Proof.
  intros Hr Hf Ha H. pose proof (reach_inv _ Hr) as I.
  exact (run_conserve _ _ _ _ _ _ I H (reachable_alone _ _ _ I Hf) Ha).
Qed.
Lemma peek_next n c fd h p len flags n1 bs c' fd' len' flags' n2 bs' :
  reachable n -> from n h = Some p -> opens n c fd h = true -> hasbit flags MSG_PEEK = true ->
  step n c (Recv fd len flags) = Go n1 (Data bs) ->
  opens n1 c' fd' h = true -> step n1 c' (Recv fd' len' flags') = Go n2 (Data bs') ->
  bs = take (Z.to_nat len) (unread n h p) /\ bs' = take (Z.to_nat len') (unread n h p).
Proof. intros Hr. apply peek_then. exact (reach_inv _ Hr). Qed.

(** ** C58 *)
Lemma shut_wr n c fd h n1 l n2 xs : reachable n -> opens n c fd h = true -> sock_state n h Conn ->
  step n c (Shutdown fd SHUT_WR) = Go n1 (Ret 0) -> run n1 l = Some (n2, xs) ->
  along (no_shutdown h) n1 l -> forall c' fd', 0 <= fd' < MAXFD -> opens n2 c' fd' h = true ->
  (forall bs, step n2 c' (Send fd' bs) = Go n2 (Ret (err ENOTCONN))) /\
  (forall bs, step n2 c' (Write fd' bs) = Go n2 (Ret (err ENOTCONN))) /\
  (forall p len flags, from n2 h = Some p -> 0 < len -> unread n2 h p <> [] ->
    exists n3, step n2 c' (Recv fd' len flags) = Go n3 (Data (take (Z.to_nat len) (unread n2 h p)))).
Proof.
  intros Hr O S Hs R A c' fd' Hf O'.
  destruct (after_shut_wr _ _ _ _ _ _ _ _ (reach_inv _ Hr) O S Hs R A) as [S2 I2].
  apply inr_ok in Hf.
  split_and!.
  - intros bs. by eapply (proj1 (send_refused _ _ _ _ bs _ Hf O' S2 _ _)).
  - intros bs. by eapply (proj2 (send_refused _ _ _ _ bs _ Hf O' S2 _ _)).
  - intros p len flags Hp Hl Hu. apply (recv_ready _ _ _ h); try done.
    destruct S2 as (s & E1 & E2). exists s. auto.
  Unshelve. all: done.
Qed.
Lemma shut_rd n c fd h n1 l n2 xs : reachable n -> opens n c fd h = true -> sock_state n h Conn ->
  step n c (Shutdown fd SHUT_RD) = Go n1 (Ret 0) -> run n1 l = Some (n2, xs) ->
  along (no_shutdown h) n1 l -> forall c' fd', 0 <= fd' < MAXFD -> opens n2 c' fd' h = true ->
  (forall len flags, step n2 c' (Recv fd' len flags) = Go n2 (Ret (err ENOTCONN))) /\
  (forall len, step n2 c' (Read fd' len) = Go n2 (Ret (err ENOTCONN))) /\
  (forall p bs, into n2 h = Some p -> takes n2 p -> bs <> [] -> exists n3 k, 0 < k /\
    (step n2 c' (Send fd' bs) = Go n3 (Ret k) \/ step n2 c' (Send fd' bs) = Go n3 (More k))).
Proof.
  intros Hr O S Hs R A c' fd' Hf O'.
  destruct (after_shut_rd _ _ _ _ _ _ _ _ (reach_inv _ Hr) O S Hs R A) as [S2 I2].
  apply inr_ok in Hf.
  split_and!.
  - intros len flags. by eapply (proj1 (recv_refused _ _ _ _ len flags _ Hf O' S2 _ _)).
  - intros len. by eapply (proj2 (recv_refused _ _ _ _ len 0 _ Hf O' S2 _ _)).
  - intros p bs Hp (x & X1 & X2 & X3) Hb. apply (send_ready _ _ _ h p x); try done.
    destruct S2 as (s & E1 & E2). exists s. auto.
  Unshelve. all: done.
Qed.
Lemma shut_state_dead n c fd h how n1 : step n c (Shutdown fd how) = Go n1 (Ret 0) ->
  opens n c fd h = true ->
  (how = SHUT_RDWR \/ how = SHUT_RD /\ sock_state n h RdOnly \/ how = SHUT_WR /\ sock_state n h WrOnly) ->
  dead n1 h.
Proof.
  intros Hs O W. destruct (shutdown_go _ _ _ _ _ _ Hs O) as (s & Es & S1). left.
  destruct W as [->|[[-> (t & Et & F)]|[-> (t & Et & F)]]]; [done| |].
  all: rewrite Es in Et; injection Et as <-; rewrite F in S1; exact S1.
Qed.
Lemma dead_refuses n c fd h : dead n h -> 0 <= fd < MAXFD -> opens n c fd h = true ->
  (forall bs, step n c (Send fd bs) = Go n (Ret (err ENOTCONN))) /\
  (forall bs, step n c (Write fd bs) = Go n (Ret (err ENOTCONN))) /\
  (forall len flags, step n c (Recv fd len flags) = Go n (Ret (err ENOTCONN))) /\
  (forall len, step n c (Read fd len) = Go n (Ret (err ENOTCONN))).
Proof.
  intros D Hf O. apply inr_ok in Hf.
  assert (E : exists st, sock_state n h st /\ st <> Conn /\ st <> WrOnly /\ st <> RdOnly).
  { destruct D as [D|D]; eexists; (split; [exact D|done]). }
  destruct E as (st & S & A & B & C).
  split_and!; intros.
  - by apply (send_refused _ _ _ _ bs _ Hf O S).
  - by apply (send_refused _ _ _ _ bs _ Hf O S).
  - by apply (recv_refused _ _ _ _ len flags _ Hf O S).
  - by apply (recv_refused _ _ _ _ len 0 _ Hf O S).
Qed.
Lemma shut_both n c fd h n1 l n2 xs c' fd' how how' n3 l' n4 ys :
  reachable n -> opens n c fd h = true -> sock_state n h Conn ->
  step n c (Shutdown fd how) = Go n1 (Ret 0) -> run n1 l = Some (n2, xs) ->
  along (no_shutdown h) n1 l -> opens n2 c' fd' h = true ->
  step n2 c' (Shutdown fd' how') = Go n3 (Ret 0) -> run n3 l' = Some (n4, ys) ->
  along (fun m c o => no_shutdown h m c o /\ no_connect h m c o) n3 l' ->
  how = SHUT_RD /\ how' = SHUT_WR \/ how = SHUT_WR /\ how' = SHUT_RD \/ how' = SHUT_RDWR ->
  forall c2 fd2, 0 <= fd2 < MAXFD -> opens n4 c2 fd2 h = true ->
  (forall bs, step n4 c2 (Send fd2 bs) = Go n4 (Ret (err ENOTCONN))) /\
  (forall bs, step n4 c2 (Write fd2 bs) = Go n4 (Ret (err ENOTCONN))) /\
  (forall len flags, step n4 c2 (Recv fd2 len flags) = Go n4 (Ret (err ENOTCONN))) /\
  (forall len, step n4 c2 (Read fd2 len) = Go n4 (Ret (err ENOTCONN))).
Proof.
  intros Hr O S Hs R A O' Hs' R' A' W c2 fd2 Hf O2.
  pose proof (reach_inv _ Hr) as I.
  assert (I2 : ninv n2).
  { destruct (run_step (fun _ => True) (no_shutdown h) ltac:(done) l n1 n2 xs) as [_ I2]; try done.
    exact (step_ninv _ _ _ _ _ I Hs). }
  assert (D : dead n3 h).
  { apply (shut_state_dead _ _ _ _ _ _ Hs' O').
    destruct W as [[-> ->]|[[-> ->]| ->]]; [| |by left].
    - right. right. split; [done|]. exact (proj1 (after_shut_rd _ _ _ _ _ _ _ _ I O S Hs R A)).
    - right. left. split; [done|]. exact (proj1 (after_shut_wr _ _ _ _ _ _ _ _ I O S Hs R A)). }
  apply (dead_refuses n4 c2 fd2 h); try done.
  apply (stays_dead n3 h l' n4 ys); try done. exact (step_ninv _ _ _ _ _ I2 Hs').
Qed.

(** ** C59 *)
Lemma at_most_once l n xs : run init_net l = Some (n, xs) -> NoDup (gather serves init_net l) /\
  (forall r, r ∈ gather serves init_net l -> r ∈ gather issues init_net l) /\
  (forall r, r ∈ gather returns init_net l -> r ∈ gather serves init_net l) /\
  NoDup (gather issues init_net l) /\ NoDup (gather returns init_net l).
Proof.
  intros H. destruct (run_hist _ _ _ _ _ _ _ init_hist H) as [A1 A2 A3 A4 A5 A6 A7 A8 A9].
  split_and!; done.
Qed.
Lemma none_lost l n xs : run init_net l = Some (n, xs) -> along no_rival init_net l ->
  forall r, r ∈ gather issues init_net l ->
  r ∈ gather serves init_net l \/ exists a q, n_pend n !! a = Some q /\ q_req q = r.
Proof.
  intros H A. refine (run_kept l _ _ _ [] [] _ A H). intros r Hr. by apply elem_of_nil in Hr.
Qed.
Lemma accept_takes n c fd h fl s l q : reachable n -> 0 <= fd < MAXFD ->
  n_fds n !! (c, fd) = Some (DSock h fl) -> n_sock n !! h = Some s -> s_st s = Listening ->
  s_ui s <> None -> s_loc s = Some l -> n_pend n !! l = Some q -> q_cond q <> Some false ->
  space n c 1 ->
  exists n' k, step n c (Accept fd) = Go n' (Ret k) /\ serves n c (Accept fd) (Ret k) = [q_req q].
Proof. intros Hr Hf. apply accept_serves; [exact (reach_ginv _ Hr)|by apply inr_ok]. Qed.
Lemma matched' n c fd p n1 x r h l n2 xs c2 fd2 n3 k : reachable n ->
  step n c (Connect fd p) = Go n1 x -> issues n c (Connect fd p) x = [r] -> opens n c fd h = true ->
  run n1 l = Some (n2, xs) ->
  step n2 c2 (Accept fd2) = Go n3 (Ret k) -> serves n2 c2 (Accept fd2) (Ret k) = [r] ->
  (forall a, bound_to n1 h a -> is_Some (n_names n2 !! a)) ->
  exists h' a b, opens n3 c2 k h' = true /\ from n3 h' = Some a /\ into n1 h = Some a /\
    into n3 h' = Some b /\ from n1 h = Some b.
Proof. intros Hr. apply matched. exact (reach_hist _ Hr). Qed.

(** ** C60 *)
Lemma fdmax fd : 0 <= fd -> fd < FD_SET_MAX_FD -> in_range fd = true.
Proof. unfold in_range, FD_SET_MAX_FD, MAXFD. lia. Qed.
Lemma reported_rd n c nfds w rs fd : nfds <= FD_SET_MAX_FD -> reported (rd_ready n c) nfds w rs ->
  (fd ∈ rs -> 0 <= fd < nfds /\ fd ∈ w) /\
  (0 <= fd < nfds -> fd ∈ w -> plain_reader n c fd ->
     (fd ∈ rs <-> read_now n c fd) /\ (fd ∉ rs <-> read_waits n c fd)) /\
  (0 <= fd < nfds -> fd ∈ w -> nb_listener n c fd -> space n c 1 ->
     (fd ∉ rs <-> step n c (Accept fd) = Go n (Ret (err EAGAIN)))).
Proof.
  intros Hm [A B]. split_and!.
  - intros H. apply A in H. tauto.
  - intros Hf Hw Hp. destruct (B _ Hf Hw) as [b Hb].
    pose proof (read_ready n c fd b (fdmax fd ltac:(lia) ltac:(lia)) Hp Hb) as R.
    pose proof (now_waits n c fd) as N.
    assert (E : fd ∈ rs <-> b = true).
    { rewrite A, Hb. split; [intros (_ & _ & F); by injection F|]. intros ->. done. }
    rewrite E. destruct b; [tauto|]. split; split; try done. intros F. by destruct N.
  - intros Hf Hw Hp Hs. destruct (B _ Hf Hw) as [b Hb].
    pose proof (accept_ready n c fd b (fdmax fd ltac:(lia) ltac:(lia)) Hp Hs Hb) as R.
    assert (E : fd ∈ rs <-> b = true).
    { rewrite A, Hb. split; [intros (_ & _ & F); by injection F|]. intros ->. done. }
    rewrite E. destruct b; split; done.
Qed.
Lemma reported_wr n c nfds w rs fd : nfds <= FD_SET_MAX_FD -> reported (wr_ready n c) nfds w rs ->
  fd ∈ rs -> 0 <= fd < nfds /\ fd ∈ w /\
  (pipe_writer n c fd -> forall bs, step n c (Write fd bs) <> Block /\
     step n c (Write fd bs) <> Go n (Ret (err EAGAIN))).
Proof.
  intros Hm [A B] H. apply A in H as (H1 & H2 & H3). split_and!; [lia|lia|done|].
  intros Hp bs. by apply (write_ready n c fd bs true (fdmax fd ltac:(lia) ltac:(lia)) Hp H3).
Qed.
Lemma select_answer n c nfds r w e late n' k rs ws :
  step n c (Select nfds r w e late) = Go n' (Sets k rs ws) ->
  n' = n /\ k = osize rs + osize ws /\
  (forall fd, within fd rs -> within fd r /\ 0 <= fd < nfds) /\
  (forall fd, within fd ws -> within fd w /\ 0 <= fd < nfds) /\
  (forall fd, 0 <= fd < nfds -> within fd r -> plain_reader n c fd ->
     (within fd rs <-> read_now n c fd) /\ (~ within fd rs <-> read_waits n c fd)) /\
  (forall fd, 0 <= fd < nfds -> within fd r -> nb_listener n c fd -> space n c 1 ->
     (~ within fd rs <-> step n c (Accept fd) = Go n (Ret (err EAGAIN)))) /\
  (forall fd bs, within fd ws -> pipe_writer n c fd -> step n c (Write fd bs) <> Block /\
     step n c (Write fd bs) <> Go n (Ret (err EAGAIN))).
Proof.
  intros H. apply select_spec in H as [-> H]. apply round_spec in H as (H1 & H2 & H3 & H4).
  split; [done|]. split; [done|].
  assert (Hm : nfds <= FD_SET_MAX_FD) by lia.
  split_and!.
  - intros fd Hf. destruct r, rs; try done. destruct (reported_rd _ _ _ _ _ fd Hm H3) as (X & _ & _). cbn in *. tauto.
  - intros fd Hf. destruct w, ws; try done. destruct (reported_wr _ _ _ _ _ fd Hm H4 Hf) as (X & Y & _). done.
  - intros fd Hf Hw. destruct r, rs; try done. destruct (reported_rd _ _ _ _ _ fd Hm H3) as (_ & X & _). by apply X.
  - intros fd Hf Hw. destruct r, rs; try done. destruct (reported_rd _ _ _ _ _ fd Hm H3) as (_ & _ & X). by apply X.
  - intros fd bs Hf Hp. destruct w, ws; try done. destruct (reported_wr _ _ _ _ _ fd Hm H4 Hf) as (_ & _ & X). by apply X.
Qed.
Lemma osize_0 o fd : osize o <= 0 -> ~ within fd o.
Proof.
  destruct o as [s|]; cbn; [|by intros _ F]. intros H F.
  assert (size s = 0%nat) by lia. apply size_empty_inv in H0. set_solver.
Qed.
Lemma osize_pos o : 0 <= osize o.
Proof. destruct o; cbn; lia. Qed.
Lemma select_waits n c nfds r w e late : step n c (Select nfds r w e late) = Block ->
  late = false /\ forall fd, 0 <= fd < nfds -> within fd r ->
  (plain_reader n c fd -> read_waits n c fd) /\
  (nb_listener n c fd -> space n c 1 -> step n c (Accept fd) = Go n (Ret (err EAGAIN))).
Proof.
  cbn [step]. unfold select_call.
  destruct (select_round n c nfds r w e) as [[x|[[k rs] ws]]|] eqn:E; [done| |done].
  destruct (negb (k =? 0) || late) eqn:B; [done|]. intros _.
  apply orb_false_iff in B as [B ->]. apply negb_false_iff, Z.eqb_eq in B as ->.
  split; [done|]. intros fd Hf Hw.
  pose proof (round_spec _ _ _ _ _ _ _ _ _ E) as (H1 & H2 & H3 & H4).
  pose proof (osize_pos ws). pose proof (osize_0 rs fd ltac:(pose proof (osize_pos rs); lia)) as N.
  destruct r as [r|], rs as [rs|]; try done.
  assert (Hm : nfds <= FD_SET_MAX_FD) by lia.
  destruct (reported_rd _ _ _ _ _ fd Hm H3) as (_ & X & Y).
  cbn [within] in *.
  split; intros; [by apply X|by apply Y].
Qed.

Lemma poll_bits n c fd ev r : poll_one n c fd ev = Some (inr r) ->
  (hasbit r POLLIN = true -> reqd ev POLLIN /\ (plain_reader n c fd -> read_now n c fd)) /\
  (reqd ev POLLIN -> plain_reader n c fd -> 0 <= fd -> hasbit r POLLIN = false -> read_waits n c fd) /\
  (hasbit r POLLOUT = true -> reqd ev POLLOUT /\ (pipe_writer n c fd -> forall bs,
     step n c (Write fd bs) <> Block /\ step n c (Write fd bs) <> Go n (Ret (err EAGAIN)))) /\
  (hasbit r POLLPRI = true -> reqd ev POLLPRI) /\
  (hasbit r POLLNVAL = true -> ~ is_open n c fd) /\
  Z.land r (Z.lnot (POLLIN + POLLOUT + POLLPRI + POLLNVAL)) = 0.
Proof.
  intros H. pose proof (poll_one_spec _ _ _ _ _ H) as (A & B & C & D & E & F & G).
  assert (FD : reqd ev POLLIN \/ reqd ev POLLOUT -> 0 <= fd -> in_range fd = true).
  { intros W Hf. unfold poll_one in H. replace (fd <? 0) with false in H by lia.
    destruct ((FD_SET_MAX_FD <=? fd) && _) eqn:Q; [discriminate H|].
    apply fdmax; [done|]. destruct (Z.leb_spec FD_SET_MAX_FD fd); [|done]. exfalso. cbn [andb] in Q.
    apply negb_false_iff, Z.eqb_eq in Q. unfold reqd in W.
    assert (Z : forall bit, Z.land (POLLIN + POLLPRI + POLLOUT) bit = bit -> Z.land ev bit = 0).
    { intros bit Eb. rewrite <- Eb, Z.land_assoc, Q. apply Z.land_0_l. }
    rewrite (Z POLLIN eq_refl), (Z POLLOUT eq_refl) in W. lia. }
  split_and!.
  - intros W. apply A in W as (W1 & W2 & W3 & _). split; [done|]. intros P.
    exact (read_ready n c fd true (FD (or_introl W2) W1) P W3).
  - intros W P Hf N.
    assert (Q : exists b, rd_ready n c fd = Some (Some b)).
    { unfold poll_one in H. replace (fd <? 0) with false in H by lia.
      destruct ((FD_SET_MAX_FD <=? fd) && _) eqn:Q; [discriminate H|].
      destruct (select_round _ _ _ _ _ _) as [[x|[[k rs] ws]]|] eqn:R; [| |discriminate H].
      - destruct (x =? err EBADF); [|discriminate H]. injection H as <-. exfalso.
        destruct P as [(p0 & fl & P)|(h & fl & s & P & _)]; rewrite (E eq_refl) in P; done.
      - apply round_spec in R as (_ & _ & R & _). destruct rs as [rs|]; [|done].
        destruct R as [_ R]. apply R; [lia|]. apply want_spec. done. }
    destruct Q as [b Q]. pose proof (read_ready n c fd b (FD (or_introl W) Hf) P Q) as R.
    destruct b; [|exact R]. exfalso.
    assert (X : r <> POLLNVAL).
    { intros ->. destruct P as [(p0 & fl & P)|(h & fl & s & P & _)]; rewrite (E eq_refl) in P; done. }
    rewrite (proj2 A ltac:(done)) in N. discriminate N.
  - intros W. apply B in W as (W1 & W2 & W3 & _). split; [done|]. intros P bs.
    by apply (write_ready n c fd bs true (FD (or_intror W2) W1) P W3).
  - done.
  - intros W. apply D, E in W. intros [d Hd]. congruence.
  - done.
Qed.
Lemma poll_answer n c l late n' k rs : step n c (Poll l late) = Go n' (Polled k rs) ->
  n' = n /\ length rs = length l /\ k = Z.of_nat (length (List.filter (fun r => negb (r =? 0)) rs)) /\
  forall i fd ev r, l !! i = Some (fd, ev) -> rs !! i = Some r ->
  (hasbit r POLLIN = true -> reqd ev POLLIN /\ (plain_reader n c fd -> read_now n c fd)) /\
  (reqd ev POLLIN -> plain_reader n c fd -> 0 <= fd -> hasbit r POLLIN = false -> read_waits n c fd) /\
  (hasbit r POLLOUT = true -> reqd ev POLLOUT /\ (pipe_writer n c fd -> forall bs,
     step n c (Write fd bs) <> Block /\ step n c (Write fd bs) <> Go n (Ret (err EAGAIN)))) /\
  (hasbit r POLLPRI = true -> reqd ev POLLPRI) /\
  (hasbit r POLLNVAL = true -> ~ is_open n c fd) /\
  Z.land r (Z.lnot (POLLIN + POLLOUT + POLLPRI + POLLNVAL)) = 0.
Proof.
  intros H. apply poll_spec in H as (-> & H & ->). apply poll_pass_spec in H.
  split; [done|]. split; [symmetry; exact (Forall2_length _ _ _ H)|]. split; [done|].
  intros i fd ev r H1 H2. apply poll_bits.
  exact (Forall2_lookup_lr _ _ _ _ _ _ H H1 H2).
Qed.
Lemma count_pos_0 rs i r : count_pos rs = 0 -> rs !! i = Some r -> r = 0.
Proof.
  unfold count_pos. revert i. induction rs as [|a rs IH]; intros i H L; [done|]. cbn in H.
  destruct (a =? 0) eqn:E; cbn in H; [|lia]. destruct i; cbn in L; [injection L as <-; lia|]. by eapply IH.
Qed.
Lemma poll_waits n c l late : step n c (Poll l late) = Block ->
  late = false /\ forall fd ev, (fd, ev) ∈ l -> 0 <= fd -> reqd ev POLLIN -> plain_reader n c fd ->
  read_waits n c fd.
Proof.
  cbn [step]. unfold poll_call. destruct (poll_pass n c l) as [[x|rs]|] eqn:E; [done| |done].
  destruct (negb (count_pos rs =? 0) || late) eqn:B; [done|]. intros _.
  apply orb_false_iff in B as [B ->]. apply negb_false_iff, Z.eqb_eq in B.
  split; [done|]. intros fd ev Hin Hf W P. apply poll_pass_spec in E.
  apply elem_of_list_lookup in Hin as [i Hi].
  destruct (Forall2_lookup_l _ _ _ _ _ E Hi) as (r & Hr & Ho).
  destruct (poll_bits _ _ _ _ _ Ho) as (_ & X & _). apply (X W P Hf).
  by rewrite (count_pos_0 _ _ _ B Hr).
Qed.
Lemma ewait_answer n c ep max late n' k evs : step n c (Ewait ep max late) = Go n' (Events k evs) ->
  k = Z.of_nat (length evs) /\ 0 <= k <= max /\
  (forall fd, watched n' c ep fd = if decide (is_open n c fd) then watched n c ep fd else None) /\
  (forall e d, (e, d) ∈ evs -> exists fd ev,
     watched n c ep fd = Some (ev, d) /\ is_open n c fd /\ e <> 0 /\
     (hasbit e POLLIN = true -> reqd ev POLLIN /\ (0 <= fd < MAXFD -> plain_reader n c fd -> read_now n c fd)) /\
     (hasbit e POLLOUT = true -> reqd ev POLLOUT /\ (0 <= fd < MAXFD -> pipe_writer n c fd -> forall bs,
        step n c (Write fd bs) <> Block /\ step n c (Write fd bs) <> Go n (Ret (err EAGAIN)))) /\
     (hasbit e POLLPRI = true -> reqd ev POLLPRI)).
Proof.
  intros H. apply ewait_spec in H as (A & B & C & D). split_and!; [done|lia|lia|done|].
  intros e d Hi. destruct (D _ _ Hi) as (fd & ev & E1 & E2 & E3 & E4 & E5 & E6).
  exists fd, ev. split_and!; try done.
  - intros W. destruct (E4 W) as [F1 F2]. split; [done|]. intros Hf P.
    exact (read_ready n c fd true (inr_ok _ Hf) P F2).
  - intros W. destruct (E5 W) as [F1 F2]. split; [done|]. intros Hf P bs.
    by apply (write_ready n c fd bs true (inr_ok _ Hf) P F2).
Qed.

(** ** C61 *)
Lemma epoll_ctl n c ep op fd ev data : 0 <= ep < MAXFD -> 0 <= fd < MAXFD -> fd <> ep ->
  is_epoll n c ep -> watchable n c fd ->
  match watched n c ep fd with
  | None =>
      (op = CTL_ADD -> exists n', step n c (Ectl ep op fd ev data) = Go n' (Ret 0) /\
         only_at n n' c ep fd (Some (ev, data))) /\
      (op = CTL_MOD \/ op = CTL_DEL -> step n c (Ectl ep op fd ev data) = Go n (Ret (err ENOENT)))
  | Some _ =>
      (op = CTL_ADD -> step n c (Ectl ep op fd ev data) = Go n (Ret (err EEXIST))) /\
      (op = CTL_MOD -> exists n', step n c (Ectl ep op fd ev data) = Go n' (Ret 0) /\
         only_at n n' c ep fd (Some (ev, data))) /\
      (op = CTL_DEL -> exists n', step n c (Ectl ep op fd ev data) = Go n' (Ret 0) /\
         only_at n n' c ep fd None)
  end.
Proof.
  intros He Hf D Ie W.
  destruct (ectl_watch n c ep op fd ev data (inr_ok _ He) (inr_ok _ Hf) D Ie W) as (reg & Hr & E).
  unfold watched. rewrite Hr. destruct (reg !! fd) as [v|] eqn:Ev.
  - rewrite (bool_decide_eq_true_2 (is_Some (Some v))) in E by eauto. split_and!; intros ->.
    + exact E.
    + eexists. split; [exact E|]. by apply only_insert.
    + eexists. split; [exact E|]. by apply only_delete.
  - rewrite (bool_decide_eq_false_2 (is_Some None)) in E by (by intros [? ?]). split.
    + intros ->. eexists. split; [exact E|]. by apply only_insert.
    + intros [-> | ->]; exact E.
Qed.
Lemma epoll_kept n l n' xs c ep : 0 <= ep < MAXFD -> is_epoll n c ep ->
  along (leaves c ep) n l -> run n l = Some (n', xs) ->
  is_epoll n' c ep /\ forall fd, watched n' c ep fd = watched n c ep fd.
Proof. intros. by eapply run_watched. Qed.

(** ** C62 *)
Lemma opt_stays n h lv opt v l n' xs : ninv n -> bool_opt lv opt -> opt_is h lv opt v n ->
  along (no_set h lv opt) n l -> run n l = Some (n', xs) -> opt_is h lv opt v n'.
Proof.
  intros I B O A R.
  apply (run_step (opt_is h lv opt v) (no_set h lv opt)
    (fun n c o n' x I P Q E => step_opt_is n c o n' x h lv opt v I B P Q E) l n n' xs); done.
Qed.
Lemma read_back n c fd h lv opt v n1 x l n2 xs c2 fd2 : reachable n -> bool_opt lv opt ->
  0 <= fd < MAXFD -> opens n c fd h = true -> step n c (Setopt fd lv opt v) = Go n1 x ->
  run n1 l = Some (n2, xs) -> along (no_set h lv opt) n1 l ->
  0 <= fd2 < MAXFD -> opens n2 c2 fd2 h = true ->
  x = Ret 0 /\ step n2 c2 (Getopt fd2 lv opt) = Go n2 (Val (if v =? 0 then 0 else 1)).
Proof.
  intros Hr B Hf O Hs R A Hf2 O2. pose proof (reach_inv _ Hr) as I.
  assert (S : is_Some (n_sock n !! h)).
  { apply opens_inv in O as [fl O]. apply (ni_sock _ I), (ni_use _ I). exists (c, fd), fl. done. }
  destruct (setopt_sets _ _ _ _ _ _ _ _ _ B O (inr_ok _ Hf) S Hs) as [-> P].
  split; [done|]. apply (getopt_val _ _ _ h); try done; [by apply inr_ok|].
  apply (opt_stays n1 h lv opt _ l n2 xs); try done. exact (step_ninv _ _ _ _ _ I Hs).
Qed.

Lemma fl_opts nb ce lv opt : bool_opt lv opt -> getbit (fl_of nb ce) opt = 0.
Proof.
  intros [[-> ->]|[-> H]]; [by destruct nb, ce|].
  repeat (apply elem_of_cons in H as [->|H]; [by destruct nb, ce|]). by apply elem_of_nil in H.
Qed.
Lemma new_sock_off s nb ce lv opt : bool_opt lv opt -> s_tcp s = 0 -> s_opts s = fl_of nb ce ->
  opt_val lv opt s = 0.
Proof.
  intros B E1 E2. unfold opt_val. rewrite E1, E2.
  destruct B as [[-> ->]|[-> B]]; [done|]. change (SOL_SOCKET =? SOL_TCP) with false.
  apply (fl_opts nb ce SOL_SOCKET). by right.
Qed.
Lemma bind_inner_opts p s n s1 n1 r : bind_inner p s n = (s1, n1, r) ->
  s_tcp s1 = s_tcp s /\ s_opts s1 = s_opts s.
Proof.
  unfold bind_inner, bind_unix. destruct (s_loc s); [by intros [= <- <- <-]|].
  destruct (n_names n !! p); by intros [= <- <- <-].
Qed.
Lemma step_born n c o n' x h : ninv n -> step n c o = Go n' x -> n_sock n !! h = None ->
  is_Some (n_sock n' !! h) -> forall lv opt, bool_opt lv opt -> opt_is h lv opt 0 n'.
Proof.
  intros I H Hn Hs lv opt B.
  assert (NS : n_nsock n' = n_nsock n -> False).
  { intros E. apply (ni_sock _ (step_ninv _ _ _ _ _ I H)) in Hs. rewrite E in Hs.
    apply (ni_sock _ I) in Hs. rewrite Hn in Hs. by destruct Hs. }
  assert (ONE : forall s k nb ce, n_sock n' = <[k := s]> (n_sock n) -> s_tcp s = 0 -> s_opts s = fl_of nb ce ->
    opt_is h lv opt 0 n').
  { intros s k nb ce E E1 E2. unfold opt_is. rewrite E in Hs |- *. destruct (decide (k = h)) as [->|D].
    - rewrite lookup_insert. exists s. split; [done|]. by apply (new_sock_off s nb ce).
    - rewrite lookup_insert_ne in Hs by done. rewrite Hn in Hs. by destruct Hs. }
  destruct (grows o) eqn:Hg.
  2:{ exfalso. apply NS. exact (sh_ns _ _ (step_shr _ _ _ _ _ Hg H)). }
  destruct o; cbn in Hg; try discriminate Hg; cbn [step] in H.
  - unfold socket_call in H. splitgo H; injection H as <- <-; try (by destruct NS).
    by eapply ONE.
  - exfalso. unfold connect_call in H.
    apply on_sock_go in H as [[-> _]|(h0 & fl & s & _ & Hd & Hs0 & H)]; [by apply NS|].
    destruct (negb _); [injection H as <- <-; by apply NS|].
    destruct (auto_bind s n) as [s1 n1] eqn:E.
    pose proof (auto_bind_shr _ _ _ _ E) as (A & _). apply sh_ns in A.
    splitgo H; injection H as <- <-; by apply NS.
  - unfold accept_call in H. destruct (in_range fd); [|discriminate H]. cbn [negb] in H.
    destruct (n_fds n !! (c, fd)) as [d|] eqn:Hd; [|injection H as <- <-; by destruct NS].
    destruct (next_fd n c 0) as [k|] eqn:Hk; [|injection H as <- <-; by destruct NS].
    destruct d as [h0 fl| | | |]; try (injection H as <- <-; by destruct NS).
    destruct (n_sock n !! h0) as [s|] eqn:Hs0; [|discriminate H].
    destruct (negb _); [injection H as <- <-; by destruct NS|].
    destruct (s_loc s) as [l|]; [|discriminate H].
    destruct (n_pend n !! l) as [q|] eqn:Hq.
    2:{ destruct (nonblock fl); [injection H as <- <-; by destruct NS|discriminate H]. }
    destruct (bool_decide (q_cond q = Some false)); [discriminate H|].
    set (n1 := set_pend (delete l) n) in *.
    set (n2 := if bool_decide (q_cond q = Some true) then _ else n1) in *.
    assert (E2 : n_sock n2 = n_sock n) by (unfold n2; by destruct (bool_decide _)).
    destruct (n_names n !! q_from q) as [[i|]|].
    + destruct (s_ui s); [|discriminate H].
      destruct (ino_ref 1 i n2) as [n3|] eqn:Ei; [|discriminate H].
      assert (E3 : n_sock n3 = n_sock n2) by (unfold ino_ref in Ei; splitgo Ei; by injection Ei as <-).
      injection H as <- <-. eapply ONE; [cbn; rewrite E3, E2; reflexivity|done|reflexivity].
    + destruct (s_ui s); [|discriminate H]. injection H as <- <-.
      eapply ONE; [cbn; rewrite E2; reflexivity|done|reflexivity].
    + injection H as <- <-. eapply ONE; [cbn; rewrite E2; reflexivity|done|reflexivity].
  - unfold socketpair_call in H.
    destruct (negb (domain =? AF_UNIX)); [injection H as <- <-; by destruct NS|].
    destruct (negb _ || _); [injection H as <- <-; by destruct NS|].
    destruct (negb _); [injection H as <- <-; by destruct NS|].
    set (fl := fl_of _ _) in H.
    set (s := new_sock NotConn ty fl) in H.
    set (na := alloc_sock s (alloc_sock s n)) in H.
    assert (FD : forall h m m' f,
      match next_fd m c 0 with
      | Some k => (put_fd c k (DSock h fl) m, k)
      | None => (m, err ENFILE)
      end = (m', f) -> n_sock m' = n_sock m).
    { intros h0 m m' f Hm. destruct (next_fd m c 0); by injection Hm as <- <-. }
    destruct (match next_fd na c 0 with Some k => _ | None => _ end) as [nb f1] eqn:E1.
    destruct (match next_fd nb c 0 with Some k => _ | None => _ end) as [nc f2] eqn:E2.
    apply FD in E1, E2.
    destruct (bind_inner (Auto (n_auto n)) s (bump_auto (bump_auto nc))) as [[s1 nd] r1] eqn:B1.
    destruct (bind_inner (Auto (n_auto n + 1)) s nd) as [[s2 ne] r2] eqn:B2.
    destruct (bind_inner_shr _ _ _ _ _ _ B1) as (_ & S1 & _).
    destruct (bind_inner_shr _ _ _ _ _ _ B2) as (_ & S2 & _).
    destruct (bind_inner_opts _ _ _ _ _ _ B1) as [T1 O1].
    destruct (bind_inner_opts _ _ _ _ _ _ B2) as [T2 O2].
    destruct (s_ui s1) as [u1|]; [|discriminate H].
    destruct (s_ui s2) as [u2|]; [|discriminate H].
    destruct (ino_ref 1 (u_ino u1) _) as [ng|] eqn:G1; [|discriminate H].
    destruct (ino_ref 1 (u_ino u2) ng) as [nh|] eqn:G2; [|discriminate H].
    assert (G1' : n_sock ng = n_sock ne) by (unfold ino_ref in G1; splitgo G1; by injection G1 as <-).
    assert (G2' : n_sock nh = n_sock ng) by (unfold ino_ref in G2; splitgo G2; by injection G2 as <-).
    assert (G : n_sock nh = n_sock na) by (rewrite G2', G1', S2, S1; cbn; by rewrite E2, E1).
    injection H as <- _. unfold opt_is. cbn in Hs |- *. rewrite G in Hs |- *.
    destruct (decide (h = n_nsock n + 1)) as [->|D1].
    { rewrite lookup_insert. eexists. split; [reflexivity|].
      by eapply new_sock_off; [|cbn; rewrite T2|cbn; rewrite O2]. }
    rewrite lookup_insert_ne in Hs |- * by done.
    destruct (decide (h = n_nsock n)) as [->|D2].
    { rewrite lookup_insert. eexists. split; [reflexivity|].
      by eapply new_sock_off; [|cbn; rewrite T1|cbn; rewrite O1]. }
    rewrite lookup_insert_ne in Hs |- * by done. unfold na in Hs. cbn in Hs.
    rewrite !lookup_insert_ne in Hs by done. rewrite Hn in Hs. by destruct Hs.
  - exfalso. unfold pipe_call in H. splitgo H; injection H as <- <-; by apply NS.
Qed.
Lemma new_off n c o n1 x h l n2 xs c2 fd2 lv opt : reachable n -> bool_opt lv opt ->
  step n c o = Go n1 x -> n_sock n !! h = None -> run n1 l = Some (n2, xs) ->
  is_Some (n_sock n1 !! h) ->
  along (no_set h lv opt) n1 l -> 0 <= fd2 < MAXFD -> opens n2 c2 fd2 h = true ->
  step n2 c2 (Getopt fd2 lv opt) = Go n2 (Val 0).
Proof.
  intros Hr B H Hn R Hs A Hf O. pose proof (reach_inv _ Hr) as I.
  apply (getopt_val _ _ _ h); try done; [by apply inr_ok|].
  apply (opt_stays n1 h lv opt _ l n2 xs); try done; [exact (step_ninv _ _ _ _ _ I H)|].
  exact (step_born _ _ _ _ _ _ I H Hn Hs lv opt B).
Qed.

(** ** C63 *)
Lemma accept_fresh n c fd n' k : reachable n -> space n c 1 -> step n c (Accept fd) = Go n' (Ret k) ->
  0 <= k -> new_conn n n' c k.
Proof. intros Hr. apply accept_new. exact (reach_inv _ Hr). Qed.
Lemma socketpair_fresh n c d t pr n' a b : reachable n -> space n c 2 ->
  step n c (Socketpair d t pr) = Go n' (Pair a b) ->
  a <> b /\ new_conn n n' c a /\ new_conn n n' c b.
Proof. intros Hr. apply socketpair_new. exact (reach_inv _ Hr). Qed.
