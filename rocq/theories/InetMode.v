(** Blocking and non-blocking mode of INET sockets *)
From Verif Require Import Base PortModel PortSpec PortProofs ErrnoModel CodecProofs InetModel InetSpec InetSpec2 InetInv InetStep InetConn InetName InetPort InetPort2 InetKeep InetData.
Local Open Scope list_scope.
Local Open Scope Z_scope.

Opaque fd_list next_fd reserve release from_discriminant.

Lemma kmode_app t1 t2 k d : kmode (t1 ++ t2) k d = kmode t2 k (kmode t1 k d).
Proof. revert d. induction t1 as [|e t1 IH]; intros d; [done|]. destruct e; cbn; apply IH. Qed.
Lemma kmode_skip t k d : (forall b, KMode k b ∉ t) -> (forall v q b, KSocket k v q b ∉ t) -> kmode t k d = d.
Proof.
  revert d. induction t as [|e t IH]; intros d N M; [done|]. assert (Nt : forall b, KMode k b ∉ t) by (intros b Hb; apply (N b); right; exact Hb).
  assert (Mt : forall v q b, KSocket k v q b ∉ t) by (intros v q b Hb; apply (M v q b); right; exact Hb).
  destruct e; cbn; try exact (IH _ Nt Mt).
  - rewrite (IH _ Nt Mt). destruct (Z.eqb_spec k0 k) as [->|]; [|done]. destruct (M v6 tcp nb). left.
  - rewrite (IH _ Nt Mt). destruct (Z.eqb_spec k0 k) as [->|]; [|done]. destruct (N nb). left.
Qed.
Lemma kerr_again e : kerr e = Some (err EAGAIN) -> e = EAGAIN.
Proof.
  unfold kerr. destruct (from_discriminant e) as [n|] eqn:E; [|discriminate]. intros [= H]. apply discriminant_from in E. unfold err, EAGAIN in *. lia.
Qed.

(** ** recv *)
Lemma bracket_at (nb : bool) k e t1 t2 t0 : bracket nb k [e] = t1 ++ e :: t2 -> (forall b, e <> KMode k b) -> nb = true -> forall d, kmode (t0 ++ t1) k d = true.
Proof.
  intros E N -> d. cbn in E. destruct t1 as [|x [|y [|z t1]]]; cbn in E.
  - injection E as E _. destruct (N true). symmetry. exact E.
  - injection E as <- _. rewrite kmode_app. cbn. rewrite Z.eqb_refl. reflexivity.
  - injection E as _ _ E. destruct (N false). symmetry. exact E.
  - injection E as _ _ _ E. destruct t1; discriminate E.
Qed.
Lemma recv_nonblocking devs s c fd len flags fam a s' t out i : step devs s c (Recv fd len flags fam) a = IGo s' t out -> sock_of s c fd = Some i -> is_tcp s i -> nonblocking s c fd = true ->
  out <> IWaits /\ forall tr t1 k n r t2 d, t = t1 ++ KRecv k n r :: t2 -> kmode (tr ++ t1) k d = true.
Proof.
  intros E Hs (h & Hi & Ht) Hn. apply recv_call_form in E as [(_ & _ & _ & Ns)|(j & fl & raw & g & Hd & Hj & E)]; [congruence|].
  unfold sock_of in Hs. unfold nonblocking in Hn. rewrite Hd in Hs, Hn. injection Hs as ->. assert (g = h) as -> by congruence. rewrite Ht in E.
  change (nonblock fl = true) in Hn. unfold recv_tcp in E. match type of E with match ?x with _ => _ end = _ => destruct x as [[h0 t0]|] eqn:E0 end; [|discriminate E].
  assert (Y : t0 = [] \/ exists k b, t0 = [KErr k b]) by (destruct (h_st h); try (injection E0 as _ <-; auto; fail); destruct (h_in h); [|discriminate E0]; injection E0 as _ <-; eauto). clear E0.
  assert (Y1 : forall k n r, KRecv k n r ∉ t0) by (intros k n r Hin; destruct Y as [->|(k0 & b & ->)]; [inversion Hin|apply elem_of_list_singleton in Hin; discriminate Hin]).
  assert (Z0 : t = t0 -> forall tr t1 k n r t2 d, t = t1 ++ KRecv k n r :: t2 -> kmode (tr ++ t1) k d = true).
  { intros -> tr t1 k n r t2 d E1. destruct (Y1 k n r). rewrite E1. apply elem_of_app. right. left. }
  assert (B : forall k0 n0, t = t0 ++ bracket (nonblock fl) k0 [KRecv k0 n0 (a_recv a)] -> forall tr t1 k n r t2 d, t = t1 ++ KRecv k n r :: t2 -> kmode (tr ++ t1) k d = true).
  { intros k0 n0 Et tr t1 k n r t2 d E1. rewrite Et, Hn in E1. cbn in E1.
    assert (X : t1 = t0 ++ [KMode k0 true] /\ k = k0).
    { destruct Y as [->|(k1 & b & ->)]; cbn in E1.
      - destruct t1 as [|x [|y [|z t1]]]; cbn in E1; try discriminate E1; [injection E1 as <- <- _ _ _; auto|]. injection E1 as _ _ _ E1. destruct t1; discriminate E1.
      - destruct t1 as [|w [|x [|y [|z t1]]]]; cbn in E1; try discriminate E1; [injection E1 as <- <- <- _ _ _; auto|]. injection E1 as _ _ _ _ E1. destruct t1; discriminate E1. }
    destruct X as [-> ->]. rewrite app_assoc, kmode_app. cbn. rewrite Z.eqb_refl. reflexivity. }
  destruct (h_st h0); try (injection E as _ <- <-; split; [discriminate|exact (Z0 eq_refl)]).
  all: cbv zeta in E; destruct (_ && _) in E; [injection E as _ <- <-; split; [discriminate|exact (Z0 eq_refl)]|].
  all: match type of E with match ?x with _ => _ end = _ => destruct x as [k|]; [|discriminate E] end.
  all: destruct (a_recv a) as [bs|e] eqn:Ea; [injection E as _ <- <-; split; [discriminate|exact (B _ _ eq_refl)]|].
  all: destruct (negb _) in E; [injection E as _ <- <-; split; [discriminate|exact (B _ _ eq_refl)]|]; rewrite Hn in E; cbn [negb andb] in E.
  all: rewrite Hn in B; apply kfail_go in E as (_ & -> & r & -> & _); split; [discriminate|exact (B _ _ eq_refl)].
Qed.
Lemma recv_blocking devs s c fd len flags fam a s' t out i : step devs s c (Recv fd len flags fam) a = IGo s' t out -> sock_of s c fd = Some i -> is_tcp s i -> nonblocking s c fd = false ->
  out <> IRet (err EAGAIN).
Proof.
  intros E Hs (h & Hi & Ht) Hn. apply recv_call_form in E as [(_ & _ & _ & Ns)|(j & fl & raw & g & Hd & Hj & E)]; [congruence|].
  unfold sock_of in Hs. unfold nonblocking in Hn. rewrite Hd in Hs, Hn. injection Hs as ->. assert (g = h) as -> by congruence. rewrite Ht in E.
  change (nonblock fl = false) in Hn. unfold recv_tcp in E. match type of E with match ?x with _ => _ end = _ => destruct x as [[h0 t0]|] eqn:E0 end; [|discriminate E].
  destruct (h_st h0); try (injection E as _ _ <-; discriminate).
  all: cbv zeta in E; destruct (_ && _) in E; [injection E as _ _ <-; discriminate|].
  all: match type of E with match ?x with _ => _ end = _ => destruct x as [k|]; [|discriminate E] end.
  all: destruct (a_recv a) as [bs|e] eqn:Ea; [injection E as _ _ <-; discriminate|].
  all: destruct (negb _) in E; [injection E as _ _ <-; discriminate|]; rewrite Hn in E; cbn [negb andb] in E.
  all: destruct (Z.eqb_spec e EAGAIN) as [Ee|Ee]; [injection E as _ _ <-; discriminate|].
  all: apply kfail_go in E as (_ & _ & r & -> & Er); intros [= ->]; apply Ee; exact (kerr_again _ Er).
Qed.
(** ** accept *)
Lemma accept_mode devs s c fd a s' t out : step devs s c (Accept fd) a = IGo s' t out -> next_ok (i_ports s) ->
  (nonblocking s c fd = true -> out <> IWaits /\ forall tr t1 k r k' t2 d, t = t1 ++ KAccept k r k' :: t2 -> kmode (tr ++ t1) k d = true) /\
  (nonblocking s c fd = false -> out <> IRet (err EAGAIN)).
Proof.
  intros E Nk. cbn [step] in E. unfold accept_call in E. unfold nonblocking. destruct (in_range fd) eqn:Hf; cbn [negb] in E; [|discriminate E].
  assert (R : t = [] -> forall tr t1 k r k' t2 d, t = t1 ++ KAccept k r k' :: t2 -> kmode (tr ++ t1) k d = true) by (intros -> tr [|x t1] k r k' t2 d E1; discriminate E1).
  destruct (i_fds s !! (c, fd)) as [d|]; [|injection E as _ <- <-; split; [intros _; split; [discriminate|exact (R eq_refl)]|intros _; discriminate]].
  destruct (next_fd s c) as [nfd|]; [|injection E as _ <- <-; split; [intros _; split; [discriminate|exact (R eq_refl)]|intros _ [= Hx]; unfold in_range, err, EAGAIN in *; lia]].
  destruct d as [i fl raw|]; [|injection E as _ <- <-; split; [intros _; split; [discriminate|exact (R eq_refl)]|intros _; discriminate]].
  destruct (i_h s !! i) as [h|]; [|discriminate E].
  destruct (negb _) in E; [injection E as _ <- <-; split; [intros _; split; [discriminate|exact (R eq_refl)]|intros _; discriminate]|].
  destruct (negb _) in E; [injection E as _ <- <-; split; [intros _; split; [discriminate|exact (R eq_refl)]|intros _; discriminate]|].
  destruct (h_loc h) as [l|]; [|discriminate E]. destruct (h_in h) as [k|]; [|discriminate E]. destruct (negb _) in E; [discriminate E|]. change (hasbit fl O_NONBLOCK) with (nonblock fl).
  assert (B : forall t', (t' = [] \/ exists q, t' = [KClose q]) -> nonblock fl = true -> t = bracket (nonblock fl) k [KAccept k (a_acc a) (i_nk s)] ++ t' -> forall tr t1 k1 r k' t2 d, t = t1 ++ KAccept k1 r k' :: t2 -> kmode (tr ++ t1) k1 d = true).
  { intros t' Ht' Hn Et tr t1 k1 r k' t2 d E1. rewrite Et, Hn in E1. cbn in E1.
    assert (X : t1 = [KMode k true] /\ k1 = k).
    { destruct t1 as [|x [|y [|z t1]]]; cbn in E1; try discriminate E1; [injection E1 as <- <- _ _ _; auto|]. injection E1 as _ _ _ E1. destruct Ht' as [->|(q & ->)]; [destruct t1; discriminate E1|destruct t1 as [|? [|? ?]]; discriminate E1]. }
    destruct X as [-> ->]. rewrite kmode_app. cbn. rewrite Z.eqb_refl. reflexivity. }
  destruct (a_acc a) as [p|e] eqn:Ea.
  - destruct (reserve _ _ _ _ _ _) as [pp r] eqn:Er. destruct (Z.ltb_spec r 0) as [Hr|Hr].
    + injection E as _ <- <-. split; [intros Hn; split; [discriminate|]|].
      * exact (B _ (or_intror (ex_intro _ _ eq_refl)) Hn eq_refl).
      * intros _ [= Hx]. destruct (proj1 (reserve_ans _ _ _ _ _ _ _ _ Nk (Z.le_refl 0) Er) Hr) as [_ [X|X]]; unfold err, EADDRINUSE, EADDRNOTAVAIL, EAGAIN in *; lia.
    + injection E as _ <- <-. split; [intros Hn; split; [discriminate|]|intros _; discriminate]. apply (B [] (or_introl eq_refl) Hn). rewrite app_nil_r. reflexivity.
  - destruct (nonblock fl) eqn:Hn; cbn [negb andb] in E.
    + apply kfail_go in E as (_ & -> & r & -> & _). split; [|discriminate]. intros _. split; [discriminate|]. apply (B [] (or_introl eq_refl) eq_refl). rewrite app_nil_r. reflexivity.
    + split; [discriminate|]. intros _. destruct (Z.eqb_spec e EAGAIN) as [Ee|Ee]; [injection E as _ _ <-; discriminate|]. apply kfail_go in E as (_ & _ & r & -> & Er). intros [= ->]. apply Ee. exact (kerr_again _ Er).
Qed.

(** ** F_GETFL *)
Lemma getfl_nonblocking devs s c fd a s' t r : step devs s c (Getfl fd) a = IGo s' t (IRet r) -> 0 <= r -> (exists i, sock_of s c fd = Some i) -> hasbit r O_NONBLOCK = nonblocking s c fd.
Proof.
  intros E Hr (i & Hs). cbn [step] in E. unfold getfl_call, on_sock in E. unfold nonblocking, sock_of in *. destruct (negb _); [discriminate E|].
  destruct (i_fds s !! (c, fd)) as [[j fl raw|]|]; [|discriminate Hs..]. destruct (i_h s !! j); [|discriminate E]. injection E as _ _ <-.
  unfold hasbit. f_equal. f_equal. apply Z.bits_inj'. intros n Hn. rewrite !Z.land_spec, Z.ldiff_spec. destruct (Z.testbit O_NONBLOCK n) eqn:Eb; [|rewrite !andb_false_r; reflexivity].
  assert (n = 11) as ->. { change O_NONBLOCK with (2 ^ 11) in Eb. rewrite Z.pow2_bits_eqb in Eb by lia. lia. } rewrite andb_true_r. reflexivity.
Qed.


Lemma mode_calls devs s c o a s' t out k b : iinv s -> step devs s c o a = IGo s' t out -> KMode k b ∈ t -> exists fd i, sets_mode o fd /\ sock_of s c fd = Some i /\ owns s i k.
Proof.
  intros V E Hin. pose proof (step_may _ _ _ _ _ _ _ _ V E _ Hin) as M. destruct o; try discriminate M; exists fd; cbn [step sets_mode] in *.
  - unfold accept_call in E. destruct (negb _) in E; [discriminate E|]. unfold sock_of. destruct (i_fds s !! (c, fd)) as [d|] eqn:Hd; [|injection E as _ <- _; inversion Hin].
    destruct (next_fd s c); [|injection E as _ <- _; inversion Hin]. destruct d as [i fl raw|]; [|injection E as _ <- _; inversion Hin].
    destruct (i_h s !! i) as [h|] eqn:Hi; [|discriminate E]. exists i. split; [done|]. split; [done|]. exists h. split; [exact Hi|].
    destruct (negb _) in E; [injection E as _ <- _; inversion Hin|]. destruct (negb _) in E; [injection E as _ <- _; inversion Hin|].
    destruct (h_loc h) as [l|]; [|discriminate E]. destruct (h_in h) as [k0|]; [|discriminate E]. destruct (negb _) in E; [discriminate E|]. f_equal.
    assert (X : forall r t', (forall q, KMode k q ∉ t') -> KMode k b ∈ bracket (nonblock fl) k0 [KAccept k0 r (i_nk s)] ++ t' -> k0 = k).
    { intros r t' N [H|H]%elem_of_app; [|destruct (N _ H)]. destruct (nonblock fl); cbn in H; rewrite ?elem_of_cons in H; destruct H as [H|H]; try congruence; [destruct H as [H|[H|H]]; try congruence; inversion H|inversion H]. }
    destruct (a_acc a).
    + destruct (reserve _ _ _ _ _ _) as [pp r]. destruct (r <? 0); injection E as _ <- _; [apply (X _ _) in Hin; [exact Hin|]; intros q Hq; apply elem_of_list_singleton in Hq; discriminate Hq|].
      rewrite <- (app_nil_r (bracket _ _ _)) in Hin. apply (X _ _) in Hin; [exact Hin|]. intros q Hq. inversion Hq.
    + assert (t = bracket (nonblock fl) k0 [KAccept k0 (inr z0) (i_nk s)]) as -> by (destruct (_ && _) in E; [injection E as _ <- _; done|apply kfail_go in E as (_ & -> & _); done]).
      rewrite <- (app_nil_r (bracket _ _ _)) in Hin. apply (X _ _) in Hin; [exact Hin|]. intros q Hq. inversion Hq.
  - apply recv_call_form in E as [(_ & -> & _ & _)|(i & fl & raw & h & Hd & Hi & E)]; [inversion Hin|]. exists i. split; [done|]. split; [unfold sock_of; rewrite Hd; done|]. destruct (h_tcp h).
    + exists h. split; [exact Hi|]. unfold recv_tcp in E. match type of E with match ?x with _ => _ end = _ => destruct x as [[h0 t0]|] eqn:E0 end; [|discriminate E].
      assert (Y : h_in h0 = h_in h /\ forall q r, KMode q r ∉ t0).
      { destruct (h_st h); try (injection E0 as <- <-; split; [done|intros q r Hq; inversion Hq]; fail). destruct (h_in h) eqn:Ei; [|discriminate E0]. injection E0 as <- <-.
        split; [destruct (a_soerr a); exact Ei|]. intros q r Hq. apply elem_of_list_singleton in Hq. discriminate Hq. }
      destruct Y as [Y1 Y2]. destruct (h_st h0); try (injection E as _ <- _; destruct (Y2 _ _ Hin)).
      all: cbv zeta in E; destruct (_ && _) in E; [injection E as _ <- _; destruct (Y2 _ _ Hin)|].
      all: match type of E with match ?x with _ => _ end = _ => assert (W : x = h_in h) by (destruct (hasbit flags MSG_PEEK); exact Y1); rewrite W in E; clear W end.
      all: destruct (h_in h) as [k0|]; [|discriminate E]; f_equal.
      all: match type of E with context [bracket ?nb ?q ?l] => assert (X : KMode k b ∈ t0 ++ bracket nb q l -> q = k) by
        (intros [H|H]%elem_of_app; [destruct (Y2 _ _ H)|]; destruct nb; cbn in H; rewrite ?elem_of_cons in H; (destruct H as [H|H]; [congruence|]); [destruct H as [H|[H|H]]; try congruence; inversion H|inversion H]) end.
      all: destruct (a_recv a) as [bs|e] eqn:Ea; [injection E as _ <- _; exact (X Hin)|].
      all: destruct (negb _) in E; [injection E as _ <- _; exact (X Hin)|]; destruct (_ && _) in E; [injection E as _ <- _; exact (X Hin)|]; apply kfail_go in E as (_ & -> & _); exact (X Hin).
    + exfalso. unfold recv_udp in E. destruct (implicit_bind _ _ _ _ _) as [[[[s1 h1] t1] r]|] eqn:Eb; [|discriminate E]. pose proof (implicit_all _ _ _ _ _ _ _ _ _ Eb) as Al.
      assert (N1 : KMode k b ∉ t1) by (intros X; specialize (Al _ X); discriminate Al). destruct (r <? 0); [injection E as _ <- _; exact (N1 Hin)|]. destruct (h_in h1) as [k1|]; [|discriminate E].
      assert (X : forall n r0, KMode k b ∈ t1 ++ [KRecv k1 n r0] -> False) by (intros n r0 [H|H%elem_of_list_singleton]%elem_of_app; [exact (N1 H)|discriminate H]).
      destruct (a_recv a); [injection E as _ <- _; exact (X _ _ Hin)|]. destruct (_ && _) in E; [injection E as _ <- _; exact (X _ _ Hin)|]. apply kfail_go in E as (_ & -> & _). exact (X _ _ Hin).
  - unfold setfl_call in E. apply on_sock_go in E as [[_ ->]|(i & fl & raw & h & Hd & Hi & E)]; [inversion Hin|]. exists i. split; [done|]. split; [unfold sock_of; rewrite Hd; done|]. exists h. split; [exact Hi|].
    destruct (_ <? 0) in E; [injection E as _ <- _; inversion Hin|]. destruct (h_in h) as [k0|]; [|injection E as _ <- _; inversion Hin]. destruct (_ =? 0) in E; [injection E as _ <- _; apply elem_of_list_singleton in Hin; congruence|].
    apply kfail_go in E as (_ & -> & _). inversion Hin.
  - unfold fionbio_call in E. apply on_sock_go in E as [[_ ->]|(i & fl & raw & h & Hd & Hi & E)]; [inversion Hin|]. exists i. split; [done|]. split; [unfold sock_of; rewrite Hd; done|]. exists h. split; [exact Hi|].
    destruct (h_in h) as [k0|]; [|injection E as _ <- _; inversion Hin]. destruct (a_mode a =? 0) in E; [injection E as _ <- _; apply elem_of_list_singleton in Hin; congruence|].
    apply kfail_go in E as (_ & -> & _). inversion Hin.
Qed.

Definition mh (nb : bool) (tr : list kcall) (h : hdl) : Prop := h_nb h = nb /\ forall k d, h_in h = Some k -> kmode tr k d = nb.
Lemma hat_mh nb tr nk h t nk1 h1 : hat nk h t nk1 h1 -> (forall k b, h_in h = Some k \/ nk <= k -> KMode k b ∉ t) -> mh nb tr h -> mh nb (tr ++ t) h1.
Proof.
  intros H N [M1 M2]. destruct H; try (rewrite app_nil_r; split; [exact M1|exact M2]);
    try (split; [first [exact M1|destruct ok; exact M1]|]; intros k1 d1 Hk; rewrite kmode_app; cbn; apply M2; first [exact Hk|destruct ok; exact Hk]).
  - split; [exact M1|]. cbn. intros k d [= <-]. rewrite kmode_app. cbn. rewrite Z.eqb_refl. exact M1.
  - destruct (N k b); [auto|left].
Qed.
Lemma hat_nk nk h t nk1 h1 : hat nk h t nk1 h1 -> nk <= nk1 /\ forall k, h_in h1 = Some k -> h_in h = Some k \/ nk <= k.
Proof. destruct 1; (split; [lia|]); cbn; intros k1 Hk; auto; try (destruct ok; auto). injection Hk as <-. right. lia. Qed.
Lemma hats_mh nb tr nk h t nk1 h1 : hats nk h t nk1 h1 -> (forall k b, h_in h = Some k \/ nk <= k -> KMode k b ∉ t) -> mh nb tr h -> mh nb (tr ++ t) h1.
Proof.
  intros H. revert tr. induction H as [|nk h t nk1 h1 t' nk2 h2 Ha _ IH]; intros tr N M; [rewrite app_nil_r; exact M|]. rewrite app_assoc. destruct (hat_nk _ _ _ _ _ Ha) as [A1 A2]. apply IH.
  - intros k b [Hk|Hk] Hin; (apply (N k b); [|apply elem_of_app; right; exact Hin]); [destruct (A2 _ Hk); auto|right; lia].
  - apply (hat_mh _ _ _ _ _ _ _ Ha); [|exact M]. intros k b Hk Hin. apply (N k b Hk), elem_of_app. auto.
Qed.
Lemma shutting_mh nb tr ok h t h' : shutting ok h t h' -> mh nb tr h -> mh nb (tr ++ t) h'.
Proof.
  intros H [M1 M2]. destruct H; (split; [exact M1|]); intros k1 d1 Hk; rewrite kmode_app; cbn; apply M2; exact Hk.
Qed.
Definition modes (C : Z -> bool -> Prop) (tr : list kcall) (s : ist) : Prop := forall i h nb, C i nb -> i_h s !! i = Some h -> mh nb tr h.
Lemma move_modes (C : Z -> bool -> Prop) sh tr s t s' : iinv s -> move sh s t s' -> (forall i nb, C i nb -> i < i_nh s) ->
  (forall i nb k b, C i nb -> KMode k b ∈ t -> owns s i k \/ i_nk s <= k -> False) -> modes C tr s -> modes C (tr ++ t) s'.
Proof.
  intros V M L N Q i g' nb HC Hi. pose proof (L _ _ HC) as Hlt. destruct (move_sock _ _ _ _ _ _ V M Hi) as [g Hg Ht|Hg Hp|v6 tcp nb0 fl Hg _ _|? ? ? ? ? ? ? Hg _ _ _ _ _].
  - destruct Ht as [Ht|(_ & ok & _ & Ht)]; [|exact (shutting_mh _ _ _ _ _ _ Ht (Q _ _ _ HC Hg))]. apply (hats_mh _ _ _ _ _ _ _ Ht); [|exact (Q _ _ _ HC Hg)].
    intros k b Hk Hin. apply (N _ _ k b HC Hin). destruct Hk as [Hk|Hk]; [left; exists g; auto|auto].
  - destruct (Q _ _ _ HC Hg) as [Q1 Q2]. split; [exact Q1|]. intros k d Hk. rewrite kmode_app, (Q2 k d Hk). apply kmode_skip.
    + intros b Hin. apply (N _ _ k b HC Hin). left. exists g'. auto.
    + intros v q b Hin. destruct (Hp k _ Hk Hin) as [[(ks & r & X)|(k1 & X)]|[(b1 & X)|(p & k1 & X)]]; [right; reflexivity|discriminate X..].
  - rewrite (move_gone _ _ _ _ _ V M Hlt Hg) in Hi. discriminate Hi.
  - rewrite (move_gone _ _ _ _ _ V M Hlt Hg) in Hi. discriminate Hi.
Qed.
Lemma moves_modes (C : Z -> bool -> Prop) sh tr s t s' : iinv s -> moves sh s t s' -> (forall i nb, C i nb -> i < i_nh s) ->
  (forall i nb k b, C i nb -> KMode k b ∈ t -> owns s i k \/ i_nk s <= k -> False) -> modes C tr s -> modes C (tr ++ t) s'.
Proof.
  intros V [M|(t1 & s1 & t2 & -> & M1 & M2 & T1 & T2)] L N Q; [exact (move_modes _ _ _ _ _ _ V M L N Q)|]. rewrite app_assoc.
  assert (X1 : forall k b, KMode k b ∉ t1) by (intros k b Hin; destruct T1 as [->|(k1 & how & ->)]; [inversion Hin|apply elem_of_list_singleton in Hin; discriminate Hin]).
  assert (X2 : forall k b, KMode k b ∉ t2) by (intros k b Hin; destruct T2 as [->|(k1 & ->)]; [inversion Hin|apply elem_of_list_singleton in Hin; discriminate Hin]).
  apply (move_modes C None _ s1 t2 s').
  - exact (move_inv _ _ _ _ V M1).
  - exact M2.
  - intros i nb HC. pose proof (L _ _ HC). pose proof (move_nh _ _ _ _ M1). lia.
  - intros i nb k b _ Hin. destruct (X2 _ _ Hin).
  - apply (move_modes C sh _ s t1 s1 V M1 L); [|exact Q]. intros i nb k b _ Hin. destruct (X1 _ _ Hin).
Qed.
Lemma created_lt devs evs s i nb : history devs evs s -> created evs i nb -> i < i_nh s.
Proof.
  intros H. induction H as [|evs s c o a s' t out H IH Hv E]; intros (e & v6 & tcp & ce & fd & He & Ho & Hout & Hfd & ->); [inversion He|]. destruct (history_inv _ _ _ H) as [V _].
  pose proof (step_nh _ _ _ _ _ _ _ _ V Hv E). apply elem_of_app in He as [He|He%elem_of_list_singleton]; [assert (i_nh (e_pre e) < i_nh s); [|lia]; apply IH; exists e, v6, tcp, ce, fd; auto|].
  subst e. cbn in *. subst o out. cbn [step] in E. unfold socket_call in E. destruct (next_fd s c); injection E as <- _ Ef; [cbn; lia|]. subst fd. exfalso. revert Hfd. unfold err, ENFILE. lia.
Qed.
Lemma mode_set_app evs e i : mode_set evs i -> mode_set (evs ++ [e]) i.
Proof. intros (e0 & fd & A & B). exists e0, fd. split; [apply elem_of_app; auto|exact B]. Qed.
Lemma history_modes devs evs s : history devs evs s -> modes (fun i nb => created evs i nb /\ ~ mode_set evs i) (calls evs) s.
Proof.
  intros H. induction H as [|evs s c o a s' t out H IH Hv E]; [intros i h nb _ Hi; discriminate Hi|]. destruct (history_inv _ _ _ H) as [V _].
  assert (Ec : calls (evs ++ [Ev s c o a t out]) = calls evs ++ t) by (rewrite calls_app; cbn; rewrite app_nil_r; reflexivity). rewrite Ec.
  assert (Old : modes (fun i nb => created evs i nb /\ ~ mode_set (evs ++ [Ev s c o a t out]) i) (calls evs ++ t) s').
  { apply (moves_modes _ (shuts s c o out) _ s t s' V (step_moves _ _ _ _ _ _ _ _ V Hv E)).
    - intros i nb [HC _]. exact (created_lt _ _ _ _ _ H HC).
    - intros i nb k b [_ Hn] Hin Hk. destruct (mode_calls _ _ _ _ _ _ _ _ _ _ V E Hin) as (fd & j & Hm & Hs & (g & Hg & Hgk)).
      assert (i = j) as ->; [|apply Hn; exists (Ev s c o a t out), fd; split; [apply elem_of_app; right; left|auto]].
      destruct Hk as [(h & Hh & Hhk)|Hk]; [exact (v_inj s V _ _ _ _ _ Hh Hg Hhk Hgk)|]. pose proof (v_k s V _ _ _ Hg Hgk). lia.
    - intros i h nb [HC Hn] Hi. apply (IH i h nb); [|exact Hi]. split; [exact HC|]. intros X. apply Hn. exact (mode_set_app _ _ _ X). }
  intros i h nb [HC Hn] Hi. destruct HC as (e & v6 & tcp & ce & fd & He & Ho & Hout & Hfd & Ei). apply elem_of_app in He as [He|He%elem_of_list_singleton].
  - apply (Old i h nb); [|exact Hi]. split; [|exact Hn]. exists e, v6, tcp, ce, fd. auto.
  - subst e. cbn in Ho, Hout, Ei. subst o out i. cbn [step] in E. unfold socket_call in E. destruct (next_fd s c); injection E as <- <- Ef; [|subst fd; exfalso; revert Hfd; unfold err, ENFILE; lia].
    cbn in Hi. rewrite lookup_insert in Hi. injection Hi as <-. split; [done|]. discriminate.
Qed.
Lemma created_mode devs evs s i nb k d : history devs evs s -> created evs i nb -> ~ mode_set evs i -> owns s i k -> kmode (calls evs) k d = nb.
Proof. intros H HC Hn (h & Hi & Hk). exact (proj2 (history_modes _ _ _ H i h nb (conj HC Hn) Hi) k d Hk). Qed.

(** ** Setting the mode *)
Lemma hasbit_keep x y z f : Z.land x f = 0 -> hasbit (Z.lor (Z.ldiff y x) (Z.land z x)) f = hasbit y f.
Proof.
  intros Z0. unfold hasbit. f_equal. f_equal. apply Z.bits_inj'. intros n Hn. apply (f_equal (fun z => Z.testbit z n)) in Z0. rewrite Z.land_spec, Z.bits_0 in Z0.
  rewrite !Z.land_spec, Z.lor_spec, Z.ldiff_spec, Z.land_spec. destruct (Z.testbit x n), (Z.testbit y n), (Z.testbit z n), (Z.testbit f n); try reflexivity; discriminate Z0.
Qed.
Lemma hasbit_lor x : hasbit (Z.lor x O_NONBLOCK) O_NONBLOCK = true.
Proof.
  unfold hasbit. assert (E : Z.land (Z.lor x O_NONBLOCK) O_NONBLOCK = O_NONBLOCK). { apply Z.bits_inj'. intros n Hn. rewrite Z.land_spec, Z.lor_spec. destruct (Z.testbit x n), (Z.testbit O_NONBLOCK n); reflexivity. }
  rewrite E. reflexivity.
Qed.
Lemma hasbit_ldiff x : hasbit (Z.ldiff x O_NONBLOCK) O_NONBLOCK = false.
Proof.
  unfold hasbit. assert (E : Z.land (Z.ldiff x O_NONBLOCK) O_NONBLOCK = 0). { apply Z.bits_inj'. intros n Hn. rewrite Z.land_spec, Z.ldiff_spec, Z.bits_0. destruct (Z.testbit x n), (Z.testbit O_NONBLOCK n); reflexivity. }
  rewrite E. reflexivity.
Qed.
Lemma mode_sets devs s c o a s' t fd b : step devs s c o a = IGo s' t (IRet 0) -> asks o fd b ->
  nonblocking s' c fd = b /\ forall i k tr d, sock_of s c fd = Some i -> owns s i k -> kmode (tr ++ t) k d = b.
Proof.
  intros E A. destruct o; try destruct A; cbn [step] in E; subst fd0 b.
  - unfold setfl_call, on_sock in E. destruct (negb _) in E; [discriminate E|]. destruct (i_fds s !! (c, fd)) as [[i fl raw|]|] eqn:Hd; [|discriminate E..].
    destruct (i_h s !! i) as [h|] eqn:Hi; [|discriminate E]. destruct (_ <? 0) in E; [discriminate E|]. cbv zeta in E.
    assert (X : forall x, nonblocking (put_fd c fd (ISock i x raw) s) c fd = hasbit x O_NONBLOCK) by (intros x; unfold nonblocking, put_fd, set_fds; cbn [i_fds]; rewrite lookup_insert; reflexivity).
    assert (Y : hasbit (Z.lor (Z.ldiff arg keep_bits) (Z.land fl keep_bits)) O_NONBLOCK = hasbit arg O_NONBLOCK) by (apply hasbit_keep; reflexivity).
    destruct (h_in h) as [k|] eqn:Ek.
    + destruct (_ =? 0) in E; [|apply kfail_go in E as (_ & _ & r & [= <-] & Hr); apply kerr_neg in Hr; lia]. injection E as <- <-. split; [rewrite X; exact Y|].
      intros j k0 tr d Hs (g & Hg & Hk). unfold sock_of in Hs. rewrite Hd in Hs. injection Hs as <-. assert (k0 = k) as -> by congruence. rewrite kmode_app. cbn. rewrite Z.eqb_refl. reflexivity.
    + injection E as <- <-. split; [rewrite X; exact Y|]. intros j k0 tr d Hs (g & Hg & Hk). unfold sock_of in Hs. rewrite Hd in Hs. injection Hs as <-. congruence.
  - unfold fionbio_call, on_sock in E. destruct (negb _) in E; [discriminate E|]. destruct (i_fds s !! (c, fd)) as [[i fl raw|]|] eqn:Hd; [|discriminate E..].
    destruct (i_h s !! i) as [h|] eqn:Hi; [|discriminate E]. cbv zeta in E.
    assert (X : forall x, nonblocking (put_fd c fd (ISock i x raw) s) c fd = hasbit x O_NONBLOCK) by (intros x; unfold nonblocking, put_fd, set_fds; cbn [i_fds]; rewrite lookup_insert; reflexivity).
    assert (Y : hasbit (if arg =? 0 then Z.ldiff fl O_NONBLOCK else Z.lor fl O_NONBLOCK) O_NONBLOCK = negb (arg =? 0)) by (destruct (arg =? 0); [apply hasbit_ldiff|apply hasbit_lor]).
    destruct (h_in h) as [k|] eqn:Ek.
    + destruct (a_mode a =? 0); [|apply kfail_go in E as (_ & _ & r & [= <-] & Hr); apply kerr_neg in Hr; lia]. injection E as <- <-. split; [rewrite X; exact Y|].
      intros j k0 tr d Hs (g & Hg & Hk). unfold sock_of in Hs. rewrite Hd in Hs. injection Hs as <-. assert (k0 = k) as -> by congruence. rewrite kmode_app. cbn. rewrite Z.eqb_refl. reflexivity.
    + injection E as <- <-. split; [rewrite X; exact Y|]. intros j k0 tr d Hs (g & Hg & Hk). unfold sock_of in Hs. rewrite Hd in Hs. injection Hs as <-. congruence.
Qed.

(** ** In histories *)
Lemma recv_mode devs ev1 e ev2 s fd len flags fam i : history devs (ev1 ++ e :: ev2) s -> e_op e = Recv fd len flags fam -> sock_of (e_pre e) (e_cage e) fd = Some i -> is_tcp (e_pre e) i ->
  (nonblocking (e_pre e) (e_cage e) fd = true -> e_out e <> IWaits /\ forall t1 k n r t2 d, e_tr e = t1 ++ KRecv k n r :: t2 -> kmode (calls ev1 ++ t1) k d = true) /\
  (nonblocking (e_pre e) (e_cage e) fd = false -> e_out e <> IRet (err EAGAIN)).
Proof.
  intros H Ho Hs Ht. destruct (history_at _ _ _ _ _ H) as (s1 & H1 & Hv & E & _). rewrite Ho in E. split; intros Hn.
  - destruct (recv_nonblocking _ _ _ _ _ _ _ _ _ _ _ _ E Hs Ht Hn) as [A B]. split; [exact A|]. intros t1 k n r t2 d Et. exact (B _ _ _ _ _ _ _ Et).
  - exact (recv_blocking _ _ _ _ _ _ _ _ _ _ _ _ E Hs Ht Hn).
Qed.
Lemma accept_mode_at devs ev1 e ev2 s fd : history devs (ev1 ++ e :: ev2) s -> e_op e = Accept fd ->
  (nonblocking (e_pre e) (e_cage e) fd = true -> e_out e <> IWaits /\ forall t1 k r k' t2 d, e_tr e = t1 ++ KAccept k r k' :: t2 -> kmode (calls ev1 ++ t1) k d = true) /\
  (nonblocking (e_pre e) (e_cage e) fd = false -> e_out e <> IRet (err EAGAIN)).
Proof.
  intros H Ho. destruct (history_at _ _ _ _ _ H) as (s1 & H1 & Hv & E & _). rewrite Ho in E. destruct (accept_mode _ _ _ _ _ _ _ _ E (history_next _ _ _ H1)) as [A B]. split; [|exact B].
  intros Hn. destruct (A Hn) as [A1 A2]. split; [exact A1|]. intros t1 k r k' t2 d Et. exact (A2 _ _ _ _ _ _ _ Et).
Qed.
Lemma getfl_at devs ev1 e ev2 s fd r : history devs (ev1 ++ e :: ev2) s -> e_op e = Getfl fd -> e_out e = IRet r -> 0 <= r -> (exists i, sock_of (e_pre e) (e_cage e) fd = Some i) ->
  hasbit r O_NONBLOCK = nonblocking (e_pre e) (e_cage e) fd.
Proof. intros H Ho Hr H0 Hs. destruct (history_at _ _ _ _ _ H) as (s1 & H1 & Hv & E & _). rewrite Ho, Hr in E. exact (getfl_nonblocking _ _ _ _ _ _ _ _ E H0 Hs). Qed.
Lemma mode_sets_at devs evs e s fd b : history devs (evs ++ [e]) s -> asks (e_op e) fd b -> e_out e = IRet 0 ->
  nonblocking s (e_cage e) fd = b /\ forall i k d, sock_of (e_pre e) (e_cage e) fd = Some i -> owns (e_pre e) i k -> kmode (calls (evs ++ [e])) k d = b.
Proof.
  intros H Ha Hr. inversion H as [E0|evs2 s2 c2 o2 a2 s3 tr2 out2 H0 Hv0 E2 Eq]; [destruct evs; discriminate|]. apply app_inj_tail in Eq as [-> <-]. subst s3. cbn in *. rewrite Hr in E2.
  destruct (mode_sets _ _ _ _ _ _ _ _ _ E2 Ha) as [A B]. split; [exact A|]. intros i k d Hs Ho. rewrite calls_app. cbn. rewrite app_nil_r. exact (B _ _ _ _ Hs Ho).
Qed.
