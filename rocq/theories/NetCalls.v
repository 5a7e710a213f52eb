(** Shutdown, options, epoll, readiness, full tables: proofs for C57, C58 and
    C60 to C63. *)
From Verif Require Import Base NetModel NetSpec NetInv NetStep NetData NetKeep.
Local Open Scope list_scope.
Local Open Scope Z_scope.
Opaque fd_list next_fd fresh_cage.

Lemma run_step (P : net -> Prop) (Q : net -> Z -> nop -> Prop) :
  (forall n c o n' x, ninv n -> P n -> Q n c o -> step n c o = Go n' x -> P n') ->
  forall l n n' xs, ninv n -> P n -> along Q n l -> run n l = Some (n', xs) -> P n' /\ ninv n'.
Proof.
  intros Hs. induction l as [|[c o] l IH]; intros n n' xs I HP HQ H; cbn in *.
  - injection H as <- <-. done.
  - destruct HQ as [HQ HQ']. destruct (step n c o) as [n1 x| |] eqn:E; [|done|done].
    destruct (run n1 l) as [[n2 ys]|] eqn:R; [|done]. injection H as <- <-.
    apply (IH n1 n2 ys); [exact (step_ninv _ _ _ _ _ I E)|exact (Hs _ _ _ _ _ I HP HQ E)|done|done].
Qed.
Lemma opens_inv n c fd h : opens n c fd h = true -> exists fl, n_fds n !! (c, fd) = Some (DSock h fl).
Proof.
  unfold opens. destruct (n_fds n !! (c, fd)) as [[h' fl|?|? ? ?| |]|]; try done.
  intros H. exists fl. by assert (h' = h) as -> by lia.
Qed.

(** ** Receiving *)
Lemma recv_opens n c fd h len flags n' x :
  step n c (Recv fd len flags) = Go n' x -> opens n c fd h = true ->
  exists fl s, n_fds n !! (c, fd) = Some (DSock h fl) /\ n_sock n !! h = Some s /\
    recv_sock n h fl s len flags = Go n' x.
Proof.
  intros H Ho. destruct (opens_inv _ _ _ _ Ho) as [fl Hd]. cbn [step] in H.
  apply on_sock_go in H as [[_ [[_ E]|(_ & d & E & N)]]|(h0 & fl0 & s0 & _ & E & Hs & H)].
  - congruence.
  - rewrite Hd in E. injection E as <-. by destruct (N h fl).
  - rewrite Hd in E. injection E as <- <-. by exists fl, s0.
Qed.
Lemma peek_then n c fd h p len flags n1 bs c' fd' len' flags' n2 bs' :
  ninv n -> from n h = Some p -> opens n c fd h = true -> hasbit flags MSG_PEEK = true ->
  step n c (Recv fd len flags) = Go n1 (Data bs) ->
  opens n1 c' fd' h = true -> step n1 c' (Recv fd' len' flags') = Go n2 (Data bs') ->
  bs = take (Z.to_nat len) (unread n h p) /\ bs' = take (Z.to_nat len') (unread n h p).
Proof.
  intros I Hf Ho Hpk H1 Ho' H2.
  destruct (reachable_alone _ _ _ I Hf) as ([s Hs] & [y Hy] & Hr & Ha).
  destruct (recv_opens _ _ _ _ _ _ _ _ H1 Ho) as (fl & s0 & Hd & Hs0 & R1).
  assert (s0 = s) as -> by congruence.
  rewrite (from_eq _ _ _ Hs) in Hr.
  assert (A1 : alone n1 h p).
  { apply (step_alone _ _ _ _ _ _ _ I H1); [done|]. exact (reachable_alone _ _ _ I Hf). }
  destruct (recv_sock_data _ _ _ _ _ _ _ _ _ _ Hs Hy Hr R1)
    as [[_ [E|[E _]]]|(E & U & _)]; [discriminate E|discriminate E|].
  injection E as ->. split; [done|].
  unfold after in U. rewrite Hpk in U. rewrite <- U.
  destruct A1 as ([s1 Hs1] & [y1 Hy1] & Hr1 & _).
  destruct (recv_opens _ _ _ _ _ _ _ _ H2 Ho') as (fl' & s1' & Hd' & Hs1' & R2).
  assert (s1' = s1) as -> by congruence.
  rewrite (from_eq _ _ _ Hs1) in Hr1.
  destruct (recv_sock_data _ _ _ _ _ _ _ _ _ _ Hs1 Hy1 Hr1 R2)
    as [[_ [E|[E _]]]|(E & _)]; [discriminate E|discriminate E|]. by injection E as ->.
Qed.
Lemma recv_ready n c fd h p len flags :
  ninv n -> from n h = Some p -> can_recv n h -> in_range fd = true -> opens n c fd h = true ->
  0 < len -> unread n h p <> [] ->
  exists n', step n c (Recv fd len flags) = Go n' (Data (take (Z.to_nat len) (unread n h p))).
Proof.
  intros I Hf (s & Hs & Hst) Hg Ho Hl Hu.
  destruct (reachable_alone _ _ _ I Hf) as (_ & [y Hy] & _ & _).
  assert (Hr : recv_of s = Some p) by (by rewrite <- (from_eq _ _ _ Hs)).
  destruct (opens_inv _ _ _ _ Ho) as [fl Hd]. cbn [step]. unfold recv_call, on_sock.
  rewrite Hg, Hd, Hs. cbn [negb].
  destruct (recv_sock n h fl s len flags) as [n' x| |] eqn:R.
  - destruct (recv_sock_data _ _ _ _ _ _ _ _ _ _ Hs Hy (or_introl Hr) R)
      as [[_ [E|(_ & _ & E & _)]]|(E & _)]; [|done|].
    + exfalso. subst x. unfold recv_sock in R.
      assert (B : bool_decide (s_st s = Conn) || bool_decide (s_st s = RdOnly) = true).
      { apply orb_true_iff. destruct Hst as [->| ->]; [left|right]; by apply bool_decide_eq_true. }
      rewrite B in R. cbn [negb] in R. splitgo R; try discriminate R.
    + exists n'. by rewrite E.
  - exfalso. rewrite (unread_put _ _ _ _ _ Hs Hy) in Hu.
    unfold recv_sock in R. destruct (negb _); [discriminate R|].
    destruct (_ && _); [discriminate R|].
    unfold recv_of in Hr. destruct (s_ui s) as [u|]; [|discriminate R].
    rewrite Hr, Hy in R.
    destruct (pipe_read y _ _) as [[[y' bs]|]|[]] eqn:P; [discriminate R| |].
    { destruct (0 <? _); discriminate R. }
    destruct (pipe_read_none _ _ _ (or_intror P)) as [Bn _]. rewrite Bn, app_nil_r in Hu.
    assert (0 < Z.of_nat (length (s_peek s))) by (destruct (s_peek s); [done|cbn; lia]).
    destruct (Z.ltb_spec 0 (Z.min (Z.of_nat (length (s_peek s))) len)); [discriminate R|lia].
  - exfalso. unfold recv_sock in R. unfold recv_of in Hr. splitgo R; try discriminate R; try congruence.
Qed.

(** ** Shutdown *)
Lemma step_open_state n c o n' x h st : ninv n -> st <> NotConn -> sock_state n h st ->
  no_shutdown h n c o -> step n c o = Go n' x -> sock_state n' h st.
Proof.
  intros I Hst (s & Hs & E) Hn H.
  destruct (step_sock _ _ _ _ _ h s I Hs H) as (s' & Hs' & _ & Hc). exists s'. split; [done|].
  destruct Hc as [Hc|[(fd & how & -> & Ho & _)|(Hc & _)]].
  - unfold same_st in Hc. congruence.
  - unfold no_shutdown, shuts in Hn. congruence.
  - congruence.
Qed.
Lemma step_dead n c o n' x h : ninv n -> dead n h ->
  no_shutdown h n c o /\ no_connect h n c o -> step n c o = Go n' x -> dead n' h.
Proof.
  intros I Hd [Hn Hc] H. destruct Hd as [(s & Hs & E)|Hd].
  2:{ right. by apply (step_open_state _ _ _ _ _ _ Listening I ltac:(done) Hd Hn H). }
  destruct (step_sock _ _ _ _ _ h s I Hs H) as (s' & Hs' & _ & K).
  destruct K as [K|[(fd & how & -> & Ho & _)|(_ & fd & Ho & [[-> K]|(p & -> & _)])]].
  - left. exists s'. split; [done|]. unfold same_st in K. congruence.
  - unfold no_shutdown, shuts in Hn. congruence.
  - right. by exists s'.
  - unfold no_connect, connects in Hc. congruence.
Qed.
Lemma shutdown_go n c fd h how n1 : step n c (Shutdown fd how) = Go n1 (Ret 0) ->
  opens n c fd h = true -> exists s, n_sock n !! h = Some s /\
    sock_state n1 h (shut_state how (s_st s)).
Proof.
  intros H Ho. destruct (opens_inv _ _ _ _ Ho) as [fl Hd]. cbn [step] in H.
  unfold shutdown_call in H. destruct (in_range fd); [|discriminate H]. cbn [negb] in H.
  destruct (negb _); [discriminate H|].
  apply on_sock_go in H as [[_ [[E _]|(E & _)]]|(h0 & fl0 & s & _ & E & Hs & H)];
    [discriminate E|discriminate E|].
  rewrite Hd in E. injection E as <- <-. injection H as <-. exists s. split; [done|].
  exists (with_st (shut_state how (s_st s)) s). split; [|done].
  destruct (how =? SHUT_RDWR); cbn; by rewrite lookup_insert.
Qed.
(** Sending or receiving on a socket that may not *)
Lemma send_refused n c fd h bs st : in_range fd = true -> opens n c fd h = true ->
  sock_state n h st -> st <> Conn -> st <> WrOnly ->
  step n c (Send fd bs) = Go n (Ret (err ENOTCONN)) /\ step n c (Write fd bs) = Go n (Ret (err ENOTCONN)).
Proof.
  intros Hg Ho (s & Hs & E) N1 N2. destruct (opens_inv _ _ _ _ Ho) as [fl Hd]. cbn [step].
  unfold send_call, write_call, on_sock. rewrite Hg, Hd, Hs. cbn [negb].
  unfold send_sock. rewrite E. rewrite !bool_decide_eq_false_2 by done. done.
Qed.
Lemma recv_refused n c fd h len flags st : in_range fd = true -> opens n c fd h = true ->
  sock_state n h st -> st <> Conn -> st <> RdOnly ->
  step n c (Recv fd len flags) = Go n (Ret (err ENOTCONN)) /\
  step n c (Read fd len) = Go n (Ret (err ENOTCONN)).
Proof.
  intros Hg Ho (s & Hs & E) N1 N2. destruct (opens_inv _ _ _ _ Ho) as [fl Hd]. cbn [step].
  unfold recv_call, read_call, on_sock. rewrite Hg, Hd, Hs. cbn [negb].
  unfold recv_sock. rewrite E. rewrite !bool_decide_eq_false_2 by done. done.
Qed.
(** Sending works while the stream has room *)
Lemma send_ready n c fd h p x bs : in_range fd = true -> opens n c fd h = true -> can_send n h ->
  into n h = Some p -> n_pipe n !! p = Some x -> p_nr x <> 0 -> PIPE_BUF <= room x -> bs <> [] ->
  exists n' k, 0 < k /\ (step n c (Send fd bs) = Go n' (Ret k) \/ step n c (Send fd bs) = Go n' (More k)).
Proof.
  intros Hg Ho (s & Hs & Hst) Hi Hx Hr Hroom Hb.
  destruct (opens_inv _ _ _ _ Ho) as [fl Hd]. cbn [step].
  unfold send_call, on_sock. rewrite Hg, Hd, Hs. cbn [negb]. unfold send_sock.
  assert (B : bool_decide (s_st s = Conn) || bool_decide (s_st s = WrOnly) = true).
  { apply orb_true_iff. destruct Hst as [->| ->]; [left|right]; by apply bool_decide_eq_true. }
  rewrite B. cbn [negb]. rewrite (into_eq _ _ _ Hs) in Hi. unfold send_of in Hi.
  destruct (s_ui s) as [u|]; [|done]. rewrite Hi, Hx. unfold pipe_write.
  assert (0 < Z.of_nat (length bs)) by (destruct bs; [done|cbn; lia]).
  destruct (Z.eqb_spec (Z.of_nat (length bs)) 0); [lia|].
  destruct (Z.eqb_spec (p_nr x) 0); [lia|].
  destruct (Z.ltb_spec (room x) PIPE_BUF); [lia|].
  assert (0 < Z.min (Z.of_nat (length bs)) (room x)) by (unfold PIPE_BUF in *; lia).
  destruct ((_ =? _) || nonblock fl).
  - eexists _, _. split; [|by left]. done.
  - eexists _, _. split; [|by right]. done.
Qed.

Lemma after_shut_wr n c fd h n1 l n2 xs : ninv n -> opens n c fd h = true ->
  sock_state n h Conn -> step n c (Shutdown fd SHUT_WR) = Go n1 (Ret 0) ->
  run n1 l = Some (n2, xs) -> along (no_shutdown h) n1 l -> sock_state n2 h RdOnly /\ ninv n2.
Proof.
  intros I Ho (s & Hs & E) H R A.
  destruct (shutdown_go _ _ _ _ _ _ H Ho) as (s0 & Hs0 & K).
  assert (s0 = s) as -> by congruence. rewrite E in K. change (shut_state SHUT_WR Conn) with RdOnly in K.
  exact (run_step (fun m => sock_state m h RdOnly) (no_shutdown h)
    (fun a b d e f g i j k => step_open_state a b d e f h RdOnly g ltac:(done) i j k)
    l n1 n2 xs (step_ninv _ _ _ _ _ I H) K A R).
Qed.
Lemma after_shut_rd n c fd h n1 l n2 xs : ninv n -> opens n c fd h = true ->
  sock_state n h Conn -> step n c (Shutdown fd SHUT_RD) = Go n1 (Ret 0) ->
  run n1 l = Some (n2, xs) -> along (no_shutdown h) n1 l -> sock_state n2 h WrOnly /\ ninv n2.
Proof.
  intros I Ho (s & Hs & E) H R A.
  destruct (shutdown_go _ _ _ _ _ _ H Ho) as (s0 & Hs0 & K).
  assert (s0 = s) as -> by congruence. rewrite E in K. change (shut_state SHUT_RD Conn) with WrOnly in K.
  exact (run_step (fun m => sock_state m h WrOnly) (no_shutdown h)
    (fun a b d e f g i j k => step_open_state a b d e f h WrOnly g ltac:(done) i j k)
    l n1 n2 xs (step_ninv _ _ _ _ _ I H) K A R).
Qed.
Lemma stays_dead n h l n2 xs : ninv n -> dead n h -> run n l = Some (n2, xs) ->
  along (fun m c o => no_shutdown h m c o /\ no_connect h m c o) n l -> dead n2 h.
Proof.
  intros I K R A.
  destruct (run_step (fun m => dead m h) (fun m c o => no_shutdown h m c o /\ no_connect h m c o)
    (fun a b d e f g i j k => step_dead a b d e f h g i j k) l n n2 xs I K A R) as [F _]. exact F.
Qed.

(** ** Options *)
Lemma hasbit_pow o k : 0 <= k -> hasbit o (2 ^ k) = Z.testbit o k.
Proof.
  intros Hk. unfold hasbit. destruct (Z.testbit o k) eqn:T.
  - apply negb_true_iff, Z.eqb_neq. intros E. assert (B : Z.testbit (Z.land o (2 ^ k)) k = false).
    { rewrite E. by rewrite Z.testbit_0_l. }
    rewrite Z.land_spec, T, Z.pow2_bits_true in B by done. done.
  - apply negb_false_iff, Z.eqb_eq. apply Z.bits_inj'. intros m Hm.
    rewrite Z.land_spec, Z.testbit_0_l. destruct (decide (m = k)) as [->|N].
    + by rewrite T.
    + rewrite Z.pow2_bits_false by lia. by rewrite andb_false_r.
Qed.
Lemma getbit_testbit o k : 0 <= k -> getbit o k = if Z.testbit o k then 1 else 0.
Proof. intros Hk. unfold getbit, optbit. by rewrite hasbit_pow. Qed.
Lemma setbit_testbit o k v m : 0 <= k -> 0 <= m ->
  Z.testbit (setbit o k v) m = if decide (m = k) then negb (v =? 0) else Z.testbit o m.
Proof.
  intros Hk Hm. unfold setbit, optbit. destruct (v =? 0).
  - rewrite Z.land_spec, Z.lnot_spec by done. case_decide as E.
    + subst m. rewrite Z.pow2_bits_true by done. by rewrite andb_false_r.
    + rewrite Z.pow2_bits_false by lia. by rewrite andb_true_r.
  - rewrite Z.lor_spec. case_decide as E.
    + subst m. rewrite Z.pow2_bits_true by done. by rewrite orb_true_r.
    + rewrite Z.pow2_bits_false by lia. by rewrite orb_false_r.
Qed.
(** The stored value of a boolean option *)
Definition opt_val (lv opt : Z) (s : sock) : Z :=
  if lv =? SOL_TCP then getbit (s_tcp s) opt else getbit (s_opts s) opt.
Definition opt_is (h lv opt v : Z) (n : net) : Prop :=
  exists s, n_sock n !! h = Some s /\ opt_val lv opt s = v.
Lemma bool_opt_range lv opt : bool_opt lv opt -> 0 <= opt < 32.
Proof.
  intros [[-> ->]|[-> H]]; [unfold TCP_NODELAY; lia|].
  rewrite !elem_of_cons in H.
  unfold SO_LINGER, SO_KEEPALIVE, SO_REUSEPORT, SO_REUSEADDR in H.
  destruct H as [->|[->|[->|[->|H]]]]; [lia..|]. by apply elem_of_nil in H.
Qed.
Lemma step_opt_is n c o n' x h lv opt v : ninv n -> bool_opt lv opt -> opt_is h lv opt v n ->
  no_set h lv opt n c o -> step n c o = Go n' x -> opt_is h lv opt v n'.
Proof.
  intros I Hb (s & Hs & E) Hn H. pose proof (bool_opt_range _ _ Hb) as Hr.
  destruct (step_sock _ _ _ _ _ h s I Hs H) as (s' & Hs' & K & _). exists s'. split; [done|].
  rewrite <- E. unfold opt_val. destruct K as [[K1 K2]|(fd & lv' & opt' & v' & -> & Ho & K)].
  - by rewrite K1, K2.
  - unfold no_set, sets in Hn. rewrite Ho in Hn. cbn in Hn.
    destruct K as [(-> & -> & K1 & K2)|(-> & Hin & K1 & K2)].
    + rewrite K1, K2. destruct (lv =? SOL_TCP) eqn:El; [|done].
      assert (lv = SOL_TCP) as -> by lia.
      destruct Hb as [[_ ->]|[Hb _]]; [done|discriminate Hb].
    + rewrite K1, K2. destruct (lv =? SOL_TCP) eqn:El; [done|].
      destruct Hb as [[-> _]|[-> Hin']]; [done|].
      assert (N : opt <> opt') by (unfold SOL_SOCKET in Hn; lia).
      pose proof (bool_opt_range SOL_SOCKET opt' (or_intror (conj eq_refl Hin))) as Hr'.
      rewrite !getbit_testbit by lia. rewrite setbit_testbit by lia. by rewrite decide_False.
Qed.
Lemma setopt_sets n c fd h lv opt v n1 x : bool_opt lv opt -> opens n c fd h = true ->
  in_range fd = true -> is_Some (n_sock n !! h) ->
  step n c (Setopt fd lv opt v) = Go n1 x ->
  x = Ret 0 /\ opt_is h lv opt (if v =? 0 then 0 else 1) n1.
Proof.
  intros Hb Ho Hg [s Hs] H. destruct (opens_inv _ _ _ _ Ho) as [fl Hd]. cbn [step] in H.
  pose proof (bool_opt_range _ _ Hb) as Hr.
  unfold setopt_call, on_sock in H. rewrite Hg, Hd, Hs in H. cbn [negb] in H.
  destruct Hb as [[-> ->]|[-> Hin]].
  - cbn in H. injection H as <- <-. split; [done|]. eexists. cbn. rewrite lookup_insert. split; [done|].
    unfold opt_val. cbn. rewrite getbit_testbit by done. rewrite setbit_testbit by done.
    rewrite decide_True by done. by destruct (v =? 0).
  - change (SOL_SOCKET =? SOL_UDP) with false in H. change (SOL_SOCKET =? SOL_TCP) with false in H.
    change (SOL_SOCKET =? SOL_SOCKET) with true in H. cbn iota in H.
    unfold bad_shift in H. rewrite (proj2 (andb_true_iff _ _)) in H by lia. cbn [negb] in H.
    rewrite bool_decide_eq_false_2 in H.
    2:{ intros Hx. rewrite !elem_of_cons in Hx, Hin.
        destruct Hin as [->|[->|[->|[->|Hin]]]]; [..|by apply elem_of_nil in Hin].
        all: destruct Hx as [Hx|[Hx|[Hx|[Hx|Hx]]]]; try discriminate Hx; by apply elem_of_nil in Hx. }
    rewrite bool_decide_eq_true_2 in H by done. injection H as <- <-. split; [done|].
    eexists. cbn. rewrite lookup_insert. split; [done|].
    unfold opt_val. cbn. rewrite getbit_testbit by lia. rewrite setbit_testbit by lia.
    rewrite decide_True by done. by destruct (v =? 0).
Qed.
Lemma getopt_val n c fd h lv opt v : bool_opt lv opt -> opens n c fd h = true ->
  in_range fd = true -> opt_is h lv opt v n -> step n c (Getopt fd lv opt) = Go n (Val v).
Proof.
  intros Hb Ho Hg (s & Hs & E). destruct (opens_inv _ _ _ _ Ho) as [fl Hd]. cbn [step].
  pose proof (bool_opt_range _ _ Hb) as Hr.
  unfold getopt_call, on_sock. rewrite Hg, Hd, Hs. cbn [negb].
  unfold bad_shift. rewrite (proj2 (andb_true_iff _ _)) by lia. cbn [negb].
  unfold opt_val in E. destruct Hb as [[-> ->]|[-> Hin]].
  - cbn in E |- *. by rewrite E.
  - change (SOL_SOCKET =? SOL_TCP) with false in *.
    change (SOL_SOCKET =? SOL_UDP) with false.
    change (SOL_SOCKET =? SOL_SOCKET) with true. cbn iota in *.
    rewrite !elem_of_cons in Hin.
    destruct Hin as [->|[->|[->|[->|Hin]]]]; [..|by apply elem_of_nil in Hin].
    all: match goal with |- context [?a =? SO_ACCEPTCONN] => change (a =? SO_ACCEPTCONN) with false end.
    all: cbn iota; rewrite bool_decide_eq_true_2 by (rewrite !elem_of_cons; auto 8).
    all: by rewrite <- E.
Qed.
Lemma setopt_defined n c fd h lv opt v : bool_opt lv opt -> opens n c fd h = true ->
  in_range fd = true -> is_Some (n_sock n !! h) -> exists n1, step n c (Setopt fd lv opt v) = Go n1 (Ret 0).
Proof.
  intros Hb Ho Hg Hh. destruct (step n c (Setopt fd lv opt v)) as [n1 x| |] eqn:H.
  - exists n1. by destruct (setopt_sets _ _ _ _ _ _ _ _ _ Hb Ho Hg Hh H) as [-> _].
  - exfalso. destruct (opens_inv _ _ _ _ Ho) as [fl Hd]. destruct Hh as [s Hs]. cbn [step] in H.
    unfold setopt_call, on_sock in H. rewrite Hg, Hd, Hs in H. cbn [negb] in H.
    splitgo H; discriminate H.
  - exfalso. destruct (opens_inv _ _ _ _ Ho) as [fl Hd]. destruct Hh as [s Hs]. cbn [step] in H.
    unfold setopt_call, on_sock in H. rewrite Hg, Hd, Hs in H. cbn [negb] in H.
    pose proof (bool_opt_range _ _ Hb) as Hr. unfold bad_shift in H.
    rewrite (proj2 (andb_true_iff _ _)) in H by lia. cbn [negb] in H.
    splitgo H; discriminate H.
Qed.
