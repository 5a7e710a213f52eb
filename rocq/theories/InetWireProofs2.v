(** Proofs for the entry point of INET sockets: programs, memory, names. *)
From stdpp Require Import gmap.
From Verif Require Import Base AbiModel AbiSpec AbiProofs EntryModel EntrySpec WireSpec WireProofs WireProofs6 PropsAbi
  PortModel InetModel InetSpec InetInv InetStep InetConn InetData InetUdp InetWireModel InetWireSpec InetWireProofs.
Local Open Scope list_scope.
Local Open Scope Z_scope.

Lemma returned_told x : returned x = told x.
Proof. destruct x; reflexivity. Qed.
Lemma enter_inv devs s c n a k s2 t2 r : enter devs s c n a k = Rep s2 t2 r ->
  (s2 = s /\ t2 = [] /\ exists e, r = Some e /\ decode (s_m s) n a = Bad e) \/
  exists o d x, decode (s_m s) n a = Do o d /\ step devs (s_i s) c o k = IGo (s_i s2) t2 x /\ deliver x d (s_m s) = Some (s_m s2) /\ r = told x.
Proof.
  unfold enter. destruct (decode (s_m s) n a) as [e|o d|]; cbn [perform]; [|destruct (foreign _ _ _ _); [discriminate|]; destruct (stuck _ _ _); [discriminate|]|discriminate].
  - intros H. injection H as <- <- <-. left. eauto.
  - destruct (step devs (s_i s) c o k) as [i' t x| |] eqn:E; [|discriminate|discriminate]. destruct (deliver x d (s_m s)) as [m'|] eqn:Ed; [|discriminate].
    intros H. right. exists o, d, x. rewrite <- returned_told. injection H as <- <- <-. auto.
Qed.
Lemma decode_asks m a n o d : bytes_only m -> Forall is_word (words a) -> decode m n a = Do o d -> asks m a n o /\ goes a n d.
Proof.
  intros B W E. pose proof (asks_complete _ _ _ _ _ B W E) as A. split; [exact A|]. destruct (asks_sound _ _ _ _ B A) as (d' & E' & G). congruence.
Qed.
Lemma fails_neg {A} (e : AbiModel.res A) f b : (forall r, e = Fail r -> r < 0) -> (forall v, e = Ok v -> f v = Bad b -> b < 0) -> arg e f = Bad b -> b < 0.
Proof. intros H1 H2 E. destruct e as [v|r]; cbn [arg] in E; [exact (H2 v eq_refl E)|]. injection E as <-. exact (H1 r eq_refl). Qed.
Lemma int_neg w r : get_int w = Fail r -> r < 0.
Proof. unfold get_int. destruct (_ =? 0); [discriminate|]. intros E. injection E as <-. reflexivity. Qed.
Lemma uint_neg w r : get_uint w = Fail r -> r < 0.
Proof. unfold get_uint. destruct (_ =? 0); [discriminate|]. intros E. injection E as <-. reflexivity. Qed.
Lemma ptr_neg w r : get_ptr w = Fail r -> r < 0.
Proof. unfold get_ptr. destruct (_ =? 0); [|discriminate]. intros E. injection E as <-. reflexivity. Qed.
Lemma sock_neg m p l r : get_sockaddr m p l = Fail r -> r < 0.
Proof.
  unfold get_sockaddr. destruct (p =? 0); [intros E; injection E as <-; reflexivity|]. cbv zeta. destruct (_ =? 1).
  { destruct (_ || _); [intros E; injection E as <-; reflexivity|discriminate]. }
  destruct (_ =? 2). { destruct (_ <? _); [intros E; injection E as <-; reflexivity|discriminate]. }
  destruct (_ =? 30). { destruct (_ <? _); [intros E; injection E as <-; reflexivity|discriminate]. }
  intros E; injection E as <-; reflexivity.
Qed.
Ltac neg1 := apply fails_neg; [first [exact (int_neg _)|exact (uint_neg _)|exact (ptr_neg _)|intros ?; exact (sock_neg _ _ _ _)|discriminate]|intros ? _].
Lemma bad_neg m n a e : decode m n a = Bad e -> e < 0.
Proof.
  unfold decode, buffer, with_addr.
  repeat match goal with |- (if _ =? _ then _ else _) = Bad _ -> _ => destruct (_ =? _) end; try discriminate.
  all: repeat first [neg1|progress (match goal with |- (match ?b with _ => _ end) = Bad _ -> _ => destruct b end)]; try discriminate.
  all: try (intros E; injection E as <-; reflexivity).
  unfold socket_of. cbv zeta. repeat match goal with |- (if ?b then _ else _) = Bad _ -> _ => destruct b end; discriminate.
Qed.

(** ** Memory *)
Lemma accepted_fd devs s c fd k s' t nfd y : step devs s c (Accept fd) k = IGo s' t (IAccepted nfd y) -> 0 <= nfd.
Proof.
  cbn [step]. unfold accept_call. destruct (negb (in_range fd)); [discriminate|]. destruct (i_fds s !! (c, fd)) as [d|]; [|discriminate].
  destruct (next_fd s c) as [n0|] eqn:En; [|discriminate]. destruct d as [i fl raw|]; [|discriminate]. destruct (i_h s !! i) as [h|]; [|discriminate].
  destruct (negb _); [discriminate|]. destruct (negb _); [discriminate|]. destruct (h_loc h) as [l|]; [|discriminate]. destruct (h_in h) as [j|]; [|discriminate].
  destruct (negb _); [discriminate|]. cbv zeta. destruct (a_acc k) as [p|e].
  - destruct (reserve _ _ _ _ _ _) as [p0 r]. destruct (r <? 0); [discriminate|]. intros H. injection H as _ _ <- _.
    unfold next_fd in En. apply find_some in En as [En _]. apply elem_of_list_In in En. unfold fd_list in En. apply elem_of_seqZ in En. lia.
  - destruct (_ && _); [discriminate|]. intros H. apply kfail_go in H as (_ & _ & r & H & _). discriminate H.
Qed.
Lemma frame devs s c n a k s2 t2 r : bytes_only (s_m s) -> Forall is_word (words a) -> enter devs s c n a k = Rep s2 t2 r ->
  forall q, ~ may_change n a r q -> s_m s2 q = s_m s q.
Proof.
  intros B W E q N. apply enter_inv in E as [(-> & _)|(o & d & x & E1 & E2 & E3 & ->)]; [reflexivity|].
  destruct (decode_asks _ _ _ _ _ B W E1) as [A G]. destruct G as [(G1 & G2 & ->)|[(G1 & G2 & G3 & ->)|(_ & -> & _)]].
  - destruct x; try (injection E3 as <-; reflexivity). injection E3 as <-. apply store_out. intros H. apply N. exists (Z.of_nat (length bs)). split; [reflexivity|]. split; [lia|]. left. split; [exact G1|lia].
  - assert (Q : forall v, told x = Some v -> 0 <= v -> forall f po i z, copy_out_sockaddr (s_m s) (a2 a) (a3 a) (GV4 f po i z) q = s_m s q).
    { intros v Hv Hp f po i z. apply out_frame; intros H; apply N; exists v; (split; [exact Hv|]; split; [exact Hp|]; right; split; [exact G1|]; auto). }
    destruct x as [r|bs|y|fd y|fds|]; cbn [deliver] in E3; try (injection E3 as <-; reflexivity).
    + destruct (0 <=? r) eqn:L; [|injection E3 as <-; reflexivity]. injection E3 as <-. apply (Q r); [reflexivity|lia].
    + unfold record_of in E3. destruct (ia_v6 y); [discriminate E3|]. injection E3 as <-. apply (Q 0); [reflexivity|lia].
    + unfold record_of in E3. destruct (ia_v6 y); [discriminate E3|]. injection E3 as <-. apply (Q fd); [reflexivity|].
      destruct A; try (exfalso; clear -G1; revert G1; outlist); [eapply accepted_fd; exact E2|cbn [step] in E2; unfold getsockname_call in E2|cbn [step] in E2; unfold getpeername_call in E2].
      * destruct (negb _) in E2; [discriminate E2|]. unfold on_sock in E2. destruct (negb _) in E2; [discriminate E2|]. destruct (i_fds (s_i s) !! _) as [[| ]|]; [|discriminate E2..]. destruct (i_h (s_i s) !! _); discriminate E2.
      * destruct (negb _) in E2; [discriminate E2|]. unfold on_sock in E2. destruct (negb _) in E2; [discriminate E2|]. destruct (i_fds (s_i s) !! _) as [[| ]|]; [|discriminate E2..]. destruct (i_h (s_i s) !! _) as [hh|]; [|discriminate E2]. destruct (h_rem hh); discriminate E2.
  - destruct x; injection E3 as <-; reflexivity.
Qed.

(** ** Programs *)
Lemma calls_snoc evs e : calls (evs ++ [e]) = calls evs ++ e_tr e.
Proof. unfold calls. rewrite map_app, concat_app. cbn [map concat]. rewrite app_nil_r. reflexivity. Qed.
Lemma kdata_bytes t j : honest t -> Forall is_byte (kdata t j).
Proof.
  intros H. unfold kdata. apply Forall_concat. apply Forall_fmap, Forall_forall. intros e He. unfold compose. destruct e; try apply Forall_nil_2. destruct r as [bs|]; [|apply Forall_nil_2].
  destruct (k =? j); [|apply Forall_nil_2]. exact (proj1 (H _ _ _ He)).
Qed.
Lemma honest_app t t' : honest t -> honest t' -> honest (t ++ t').
Proof. intros H H' k len bs Hin. apply elem_of_app in Hin as [Hin|Hin]; [exact (H _ _ _ Hin)|exact (H' _ _ _ Hin)]. Qed.
Lemma data_bytes devs evs s c fd len flags k s' t bs : history devs evs s -> honest (calls evs) -> honest t ->
  step devs s c (Recv fd len flags None) k = IGo s' t (IData bs) -> Forall is_byte bs.
Proof.
  intros H Ho Ht E. cbn [step] in E. apply recv_call_form in E as [(_ & _ & No & _)|(i & fl & raw & h & Hd & Hi & E)]; [destruct (No bs eq_refl)|].
  destruct (h_tcp h) eqn:Tc.
  - apply recv_tcp_form in E as (h' & d & _ & _ & _ & Dn & F & _ & G & _). pose proof (history_dinv _ _ _ H) as D.
    assert (X : Forall is_byte (h_peek h ++ d)).
    { destruct (h_in h) as [j|] eqn:Hk.
      - apply Forall_app. split.
        + pose proof (kdata_bytes (calls evs) j Ho) as Y. rewrite (d_in _ _ D _ _ _ Hi Tc Hk) in Y. apply Forall_app in Y as [_ Y]. exact Y.
        + pose proof (kdata_bytes t j Ht) as Y. rewrite F, bool_decide_eq_true_2 in Y by reflexivity. exact Y.
      - rewrite (Dn eq_refl), (proj2 (d_none _ _ D _ _ Hi Tc Hk)). apply Forall_nil_2. }
    rewrite G in X. apply Forall_app in X as [X _]. exact X.
  - unfold recv_udp in E. destruct (implicit_bind _ _ _ _ _) as [[[[s1 h1] t1] r]|]; [|discriminate E]. destruct (r <? 0); [discriminate E|]. destruct (h_in h1) as [j|]; [|discriminate E].
    destruct (a_recv k) as [b|e] eqn:Ea; [|destruct (_ && _) in E; [discriminate E|]; apply kfail_go in E as (_ & _ & r0 & X & _); discriminate X]. injection E as _ <- <-.
    apply (Ht j len b). apply elem_of_app. right. left.
Qed.
Lemma asks_valid m a n o s : bytes_only m -> Forall is_word (words a) -> asks m a n o -> valid s o.
Proof.
  intros B W A. assert (W3 : is_word (a3 a)) by (unfold words in W; rewrite !Forall_cons in W; tauto). destruct W3 as [W3 _].
  destruct A; cbn [valid]; try exact I; try exact W3. destruct H0 as (_ & _ & _ & _ & <- & _). pose proof (short_range m (a2 a + 2) B). lia.
Qed.
Lemma call_history devs evs s c n a k s2 t2 r : bytes_only (s_m s) -> Forall is_word (words a) -> history devs evs (s_i s) -> honest (calls evs) -> honest t2 ->
  enter devs s c n a k = Rep s2 t2 r ->
  bytes_only (s_m s2) /\
  ((s2 = s /\ t2 = [] /\ exists e, r = Some e /\ e < 0) \/
   exists o x, asks (s_m s) a n o /\ told x = r /\ history devs (evs ++ [Ev (s_i s) c o k t2 x]) (s_i s2)).
Proof.
  intros B W H Ho Ht E. apply enter_inv in E as [(-> & -> & e & -> & E)|(o & d & x & E1 & E2 & E3 & ->)].
  - split; [exact B|]. left. apply bad_neg in E. eauto.
  - destruct (decode_asks _ _ _ _ _ B W E1) as [A G]. split.
    + destruct x as [r|bs|y|fd y|fds|]; destruct d as [|p|p lp]; cbn [deliver] in E3; try (injection E3 as <-; exact B).
      * destruct (0 <=? r); injection E3 as <-; [apply out_bytes; exact B|exact B].
      * injection E3 as <-. apply store_bytes; [exact B|]. destruct G as [(G1 & _)|[(_ & _ & _ & G)|(_ & G & _)]]; [|discriminate G..].
        destruct A; try (exfalso; clear -G1; revert G1; outlist); eapply data_bytes; eassumption.
      * unfold record_of in E3. destruct (ia_v6 y); [discriminate E3|]. injection E3 as <-. apply out_bytes. exact B.
      * unfold record_of in E3. destruct (ia_v6 y); [discriminate E3|]. injection E3 as <-. apply out_bytes. exact B.
    + right. exists o, x. split; [exact A|]. split; [reflexivity|]. apply h_step; [exact H|eapply asks_valid; eassumption|exact E2].
Qed.
Lemma runs_history devs m0 l t s : bytes_only m0 -> runs devs (St init_inet m0) l t s ->
  bytes_only (s_m s) /\ honest t /\ exists evs, history devs evs (s_i s) /\ calls evs = t.
Proof.
  intros B R. induction R as [|l t s1 x s2 t2 r R (IB & IH0 & evs & IH & IC) Sx E Ht].
  - split; [exact B|]. split; [intros k len bs Hin; inversion Hin|]. exists []. split; [apply h_nil|reflexivity].
  - subst t. destruct x as [p b|c n a k|c o k]; cbn [act_step sane] in *.
    + injection E as <- <- <-. rewrite app_nil_r. split; [|split; [exact IH0|exists evs; auto]]. apply store_bytes; [exact IB|]. repeat constructor; apply Sx.
    + destruct (call_history _ _ _ _ _ _ _ _ _ _ IB Sx IH IH0 Ht E) as [B2 [(-> & -> & _)|(o & x & _ & _ & H2)]].
      * rewrite app_nil_r. split; [exact B2|]. split; [exact IH0|]. exists evs. auto.
      * split; [exact B2|]. split; [apply honest_app; assumption|]. eexists. split; [exact H2|]. apply calls_snoc.
    + destruct (step devs (s_i s1) c o k) as [i' t x| |] eqn:Es; [|discriminate E|discriminate E]. injection E as <- <- <-. split; [exact IB|]. split; [apply honest_app; assumption|].
      exists (evs ++ [Ev (s_i s1) c o k t x]). split; [|apply calls_snoc]. apply h_step; assumption.
Qed.
