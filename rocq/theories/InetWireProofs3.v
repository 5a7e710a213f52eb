(** Proofs for the entry point of INET sockets: answers, and names that come
    back. *)
From stdpp Require Import gmap.
From Verif Require Import Base AbiModel AbiSpec AbiProofs EntryModel EntrySpec WireSpec WireProofs WireProofs6 PropsAbi
  PortModel InetModel InetSpec InetInv InetStep InetConn InetData InetUdp InetMode InetPort InetPort2 InetWireModel InetWireSpec InetWireProofs InetWireProofs2.
Local Open Scope list_scope.
Local Open Scope Z_scope.

Lemma stuck_iff s c fd : stuck s c (Getsockname fd) = true <-> nameless6 s c fd.
Proof.
  unfold stuck, nameless6, hdl_of, sock_of. destruct (i_fds s !! (c, fd)) as [[i fl raw|]|]; cbn [mbind option_bind].
  - destruct (i_h s !! i) as [h|].
    + rewrite andb_true_iff, bool_decide_eq_true. split; [intros [A B]; eauto|]. intros (h' & E & A & B). injection E as <-. auto.
    + split; [discriminate|]. intros (h & E & _). discriminate E.
  - split; [discriminate|]. intros (h & E & _). discriminate E.
  - split; [discriminate|]. intros (h & E & _). discriminate E.
Qed.
Lemma foreign_iff s c n o : foreign s c n (fd_of o) = true <-> beyond s c n o.
Proof.
  unfold foreign, beyond, sock_of. rewrite andb_true_iff, orb_true_iff, !Z.eqb_eq. split.
  - intros [N F]. split; [destruct N as [-> | ->]; inlist|]. intros fd <-. destruct (i_fds s !! _) as [[| ]|]; [discriminate F|reflexivity..].
  - intros [N F]. specialize (F _ eq_refl). split; [|destruct (i_fds s !! _) as [[| ]|]; [discriminate F|reflexivity..]].
    apply elem_of_cons in N as [->|N]; [auto|]. apply elem_of_list_singleton in N as ->. auto.
Qed.
(** ** Shapes of answers *)
Definition shape (o : iop) (x : iout) : Prop :=
  match o with
  | Recv _ _ _ _ => match x with IRet r => r < 0 | IData _ | IWaits => True | _ => False end
  | Accept _ => match x with IRet _ | IAccepted _ _ | IWaits => True | _ => False end
  | Getpeername _ | Getsockname _ => match x with IRet r => r < 0 | IName _ => True | _ => False end
  | Socket _ _ _ _ | Bind _ _ | Connect _ _ | Listen _ _ | Send _ _ | Sendto _ _ _ | Shutdown _ _ | Close _ => match x with IRet _ => True | _ => False end
  | _ => True
  end.
Ltac walk H :=
  repeat (first
    [ apply kfail_go in H as (_ & _ & ? & -> & H); first [exact I|exact (kerr_neg _ _ H)]
    | discriminate H
    | injection H as _ _ <-; first [exact I|reflexivity|lia]
    | match type of H with
      | (match ?b with _ => _ end) = IGo _ _ _ => destruct b eqn:?
      | (let _ := _ in _) = IGo _ _ _ => cbv zeta in H
      end ]).
Lemma step_shape devs s c o k s' t x : step devs s c o k = IGo s' t x -> shape o x.
Proof.
  destruct o; cbn [step shape]; try (intros _; exact I); intros H.
  - unfold socket_call in H. walk H.
  - unfold bind_call, on_sock in H. walk H.
  - unfold connect_call, on_sock, connect_tcp, connect_udp, connect_kernel in H. walk H.
  - unfold listen_call, on_sock in H. walk H.
  - unfold accept_call in H. walk H.
  - unfold send_call, on_sock, send_tcp, sendto_inner in H. walk H.
  - unfold sendto_call, send_call, on_sock, send_tcp, sendto_inner in H. walk H.
  - unfold recv_call, on_sock, recv_tcp, recv_udp in H. walk H.
  - unfold shutdown_call, on_sock in H. walk H.
  - unfold close_call in H. walk H.
  - unfold getpeername_call, on_sock in H. walk H.
  - unfold getsockname_call, on_sock in H. walk H.
Qed.

Lemma understood devs s c n a k o : bytes_only (s_m s) -> asks (s_m s) a n o -> ~ beyond (s_i s) c n o -> (forall fd, o = Getsockname fd -> ~ nameless6 (s_i s) c fd) ->
  match step devs (s_i s) c o k with
  | IGo i' t x => answers6 x \/ exists m', enter devs s c n a k = Rep (St i' m') t (told x) /\ found a (s_m s) m' x
  | IDies | IHang => enter devs s c n a k = Crash
  end.
Proof.
  intros B A F Q. destruct (asks_sound _ _ _ _ B A) as (d & E & G). unfold enter. rewrite E. cbn [perform].
  destruct (foreign _ _ _ _) eqn:Ef; [apply foreign_iff in Ef; destruct (F Ef)|].
  destruct (stuck (s_i s) c o) eqn:Es. { destruct o; try discriminate Es. apply stuck_iff in Es. destruct (Q _ eq_refl Es). }
  destruct (step devs (s_i s) c o k) as [i' t x| |] eqn:Ep; [|reflexivity|reflexivity]. rewrite <- (returned_told x). apply step_shape in Ep.
  assert (R : forall y, record_of y <> None -> record_of y = Some (GV4 2 (ia_port y) (host (ia_a y)) 0)) by (intros y; unfold record_of; destruct (ia_v6 y); [intros X; destruct (X eq_refl)|intros _; reflexivity]).
  assert (Nn : forall y, record_of y = None -> ia_v6 y = true) by (intros y; unfold record_of; destruct (ia_v6 y); [reflexivity|discriminate]).
  destruct G as [(G1 & G2 & ->)|[(G1 & G2 & G3 & ->)|(G1 & -> & G2)]].
  - destruct A; try (exfalso; clear -G1; revert G1; outlist); destruct x as [r|bs|y|fd' y|fds|]; try destruct Ep; cbn [deliver]; right; eexists; (split; [reflexivity|]); cbn [found]; try exact I; apply stored_bytes.
  - assert (O : forall y, x = IName y \/ (exists fd', x = IAccepted fd' y) -> answers6 x \/ exists m', match deliver x (Addr (a2 a) (a3 a)) (s_m s) with Some m2 => Rep (St i' m2) t (returned x) | None => Outside end = Rep (St i' m') t (returned x) /\ found a (s_m s) m' x).
    { intros y Hy. destruct (record_of y) as [g|] eqn:Er; [right|left; destruct Hy as [->|[fd' ->]]; exact (Nn _ Er)].
      exists (copy_out_sockaddr (s_m s) (a2 a) (a3 a) g). pose proof Er as Er'. rewrite (R y) in Er by congruence. apply (inj Some) in Er. subst g.
      destruct Hy as [->|[fd' ->]]; cbn [deliver]; rewrite Er'; (split; [reflexivity|]); intros _ D; apply out_record; assumption. }
    destruct x as [r|bs|y|fd' y|fds|].
    + right. eexists. split; [reflexivity|exact I].
    + exfalso. destruct A; try (clear -G1; revert G1; outlist); destruct Ep.
    + apply (O y). auto.
    + apply (O y). eauto.
    + right. eexists. split; [reflexivity|exact I].
    + right. eexists. split; [reflexivity|exact I].
  - destruct A; try (exfalso; apply G1; inlist); destruct x as [r|bs|y|fd' y|fds|]; try destruct Ep; right; eexists; (split; [reflexivity|]); cbn [found]; try exact I.
    intros N. destruct (N (proj1 (G2 eq_refl))).
Qed.
(** The name of an IPv6 socket that has none *)
Lemma nameless_crash devs s c a k fd : bytes_only (s_m s) -> asks (s_m s) a 144 (Getsockname fd) -> nameless6 (s_i s) c fd -> enter devs s c 144 a k = Crash.
Proof.
  intros B A N. destruct (asks_sound _ _ _ _ B A) as (d & E & _). unfold enter. rewrite E. cbn [perform]. apply stuck_iff in N. rewrite N. reflexivity.
Qed.

(** ** The kernel gets what lies in memory *)
Lemma reserve_port devs p a port q reuse p' r : port <> 0 -> reserve devs p a port q reuse = (p', r) -> r = port \/ r < 0.
Proof.
  intros N. unfold reserve. destruct (negb _); [intros [= _ <-]; right; reflexivity|]. replace (port =? 0) with false by lia. cbv zeta.
  destruct (unspecified a); destruct (p_used p !! _) as [l|]; try (intros [= _ <-]; auto; right; reflexivity). destruct (add_user a l); intros [= _ <-]; auto. right. reflexivity.
Qed.
Lemma bind_names devs s h x a s1 h1 t r : bind_inner devs s h x false a = Some (s1, h1, t, r) ->
  (forall k y e, KBind k y e ∈ t -> ia_a y = ia_a x /\ (ia_port x <> 0 -> y = x)) /\
  (r = 0 -> ia_port x <> 0 -> h_loc h1 = Some x).
Proof.
  unfold bind_inner. destruct (negb _). { intros [= _ _ <- <-]. split; [intros k y e Hin; inversion Hin|discriminate]. }
  destruct (h_loc h). { intros [= _ _ <- <-]. split; [intros k y e Hin; inversion Hin|discriminate]. }
  destruct (force_inner s h a) as [[[[s0 h0] k] t0]|] eqn:Ef; [|discriminate]. pose proof (force_nobind _ _ _ _ _ _ _ Ef) as Nb.
  destruct (reserve _ _ _ _ _ _) as [p2 r2] eqn:Er. cbv zeta. destruct (r2 <? 0) eqn:L.
  { intros [= _ _ <- <-]. split; [intros k' y e Hin; destruct (Nb _ _ _ Hin)|lia]. }
  assert (X : ia_port x <> 0 -> with_port r2 x = x). { intros N. destruct (reserve_port _ _ _ _ _ _ _ _ N Er) as [->|Y]; [destruct x; reflexivity|lia]. }
  assert (T : forall k' y e, KBind k' y e ∈ t0 ++ [KBind k (with_port r2 x) (a_bind a)] -> ia_a y = ia_a x /\ (ia_port x <> 0 -> y = x)).
  { intros k' y e Hin. apply elem_of_app in Hin as [Hin|Hin]; [destruct (Nb _ _ _ Hin)|]. apply elem_of_list_singleton in Hin. injection Hin as _ -> _. split; [reflexivity|exact X]. }
  destruct (a_bind a =? 0).
  { intros [= _ <- <- <-]. split; [exact T|]. intros _ N. cbn. rewrite (X N). reflexivity. }
  destruct (kerr (a_bind a)) as [e0|]; [|discriminate]. intros [= _ <- <- <-]. split; [exact T|]. intros _ N. cbn. rewrite (X N). reflexivity.
Qed.
Lemma sendto_dest devs s c fd bs x a s' t out k bs' dest r : sendto_call devs s c fd bs x a = IGo s' t out -> no_dest x = false -> KSend k bs' dest r ∈ t -> dest = Some x.
Proof.
  unfold sendto_call. intros E N Hin. rewrite N in E. apply on_sock_go in E as [[_ ->]|(i & fl & raw & h & _ & _ & E)]; [inversion Hin|]. unfold sendto_inner in E.
  destruct (negb _) in E; [injection E as _ <- _; inversion Hin|]. destruct (negb _) in E; [injection E as _ <- _; inversion Hin|]. destruct (h_tcp h) in E; [injection E as _ <- _; inversion Hin|].
  destruct (implicit_bind _ _ _ _ _) as [[[[s1 h1] t1] r1]|] eqn:Ei; [|discriminate E]. apply implicit_all in Ei.
  assert (T : forall rr, KSend k bs' dest r ∈ t1 ++ [KSend rr bs (Some x) (a_send a)] -> dest = Some x).
  { intros rr Hi. apply elem_of_app in Hi as [Hi|Hi]; [specialize (Ei _ Hi); discriminate Ei|]. apply elem_of_list_singleton in Hi. injection Hi as _ _ -> _. reflexivity. }
  destruct (r1 <? 0); [injection E as _ <- _; specialize (Ei _ Hin); discriminate Ei|]. destruct (h_in h1) as [j|]; [|discriminate E]. cbv zeta in E.
  destruct (a_send a <? 0); [apply kfail_go in E as (_ & -> & _)|injection E as _ <- _]; exact (T _ Hin).
Qed.
Lemma given_fun m p w x y : bytes_only m -> given m p w x -> given m p w y -> x = y.
Proof. intros B G H. destruct (given_sound _ _ _ _ B G) as (g & _ & E1 & E2). destruct (given_sound _ _ _ _ B H) as (g' & _ & E3 & E4). congruence. Qed.
Lemma kernel_sees devs m0 l t s c n a k s2 t2 r e : bytes_only m0 -> runs devs (St init_inet m0) l t s -> Forall is_word (words a) -> honest t2 ->
  enter devs s c n a k = Rep s2 t2 r -> e ∈ t2 -> seen (s_m s) n a e.
Proof.
  intros B R W Ht E Hin. destruct (runs_history _ _ _ _ _ B R) as (B1 & Ho & evs & H & C). subst t.
  destruct (call_history _ _ _ _ _ _ _ _ _ _ B1 W H Ho Ht E) as [_ [(_ & -> & _)|(o & x & A & T & H2)]]; [inversion Hin|].
  destruct (history_at _ _ _ _ _ H2) as (s3 & _ & _ & Es & _). cbn [e_pre e_cage e_op e_ans e_tr e_out] in Es.
  pose proof (step_may _ _ _ _ _ _ _ _ (proj1 (history_inv _ _ _ H)) Es _ Hin) as M.
  destruct e; cbn [seen]; try exact I.
  - intros -> xg G0. inversion A; subst. match goal with G : given _ _ _ _ |- _ => pose proof (given_fun _ _ _ _ _ B1 G0 G) as -> end.
    cbn [step] in Es. unfold bind_call in Es. apply on_sock_go in Es as [[_ ->]|(i & fl & raw & h & _ & _ & Es)]; [inversion Hin|].
    destruct (bind_inner _ _ _ _ _ _) as [[[[s4 h1] t1] r1]|] eqn:Eb; [|discriminate Es]. injection Es as _ <- _. exact (proj1 (bind_names _ _ _ _ _ _ _ _ _ Eb) _ _ _ Hin).
  - destruct (connect_tcp_only _ _ _ _ _ _ _ _ H2 Hin) as (fd & i & Eo & _). cbn in Eo. subst o. inversion A; subst. auto.
  - destruct A; try discriminate M.
    cbn [step] in Es. unfold listen_call in Es. apply on_sock_go in Es as [[_ ->]|(i & fl & raw & h & _ & _ & Es)]; [inversion Hin|].
    split; [reflexivity|]. destruct (h_st h); try (injection Es as _ <- _; inversion Hin). destruct (negb _) in Es; [injection Es as _ <- _; inversion Hin|].
    destruct (implicit_bind _ _ _ _ _) as [[[[s4 h1] t1] r1]|] eqn:Ei; [|discriminate Es]. apply implicit_all in Ei.
    destruct (r1 <? 0); [apply kfail_go in Es as (_ & -> & _); specialize (Ei _ Hin); discriminate Ei|]. destruct (h_in h1); [|discriminate Es]. destruct (h_loc h1); [|discriminate Es]. cbv zeta in Es.
    assert (Hx : KListen k0 n0 e ∈ t1 ++ [KListen z b (a_listen k)]) by (destruct (a_listen k =? 0); [injection Es as _ <- _; exact Hin|apply kfail_go in Es as (_ & -> & _); exact Hin]).
    apply elem_of_app in Hx as [Hx|Hx]; [specialize (Ei _ Hx); discriminate Ei|]. apply elem_of_list_singleton in Hx. injection Hx as _ -> _. assumption.
  - destruct A; try discriminate M. reflexivity.
  - destruct A; try discriminate M; cbn [may] in M; apply bool_decide_eq_true in M; (split; [inlist|]; split; [exact M|]); try (intros X; discriminate X).
    intros _ xg G0 N. match goal with G : given _ _ _ _ |- _ => pose proof (given_fun _ _ _ _ _ B1 G0 G) as -> end. exact (sendto_dest _ _ _ _ _ _ _ _ _ _ _ _ _ _ Es N Hin).
  - destruct A; try discriminate M; inlist.
  - destruct A; try discriminate M. cbn [may] in M. apply Z.eqb_eq in M. subst. auto.
  - destruct A; try discriminate M; inlist.
Qed.
(** no more bytes than the caller has room for *)
Lemma room devs m0 l t s c n a k s2 t2 v : bytes_only m0 -> runs devs (St init_inet m0) l t s -> Forall is_word (words a) -> honest t2 ->
  enter devs s c n a k = Rep s2 t2 (Some v) -> n ∈ [12; 36; 37] -> v <= a3 a.
Proof.
  intros B R W Ht E Hn. destruct (runs_history _ _ _ _ _ B R) as (B1 & Ho & evs & H & C). subst t. assert (W3 : is_word (a3 a)) by (unfold words in W; rewrite !Forall_cons in W; tauto). destruct W3 as [W3 _].
  destruct (call_history _ _ _ _ _ _ _ _ _ _ B1 W H Ho Ht E) as [_ [(_ & _ & e & X & Y)|(o & x & A & T & H2)]]; [injection X as ->; lia|].
  assert (Sh : shape o x). { destruct (history_at _ _ _ _ _ H2) as (s3 & _ & _ & Es & _). exact (step_shape _ _ _ _ _ _ _ _ Es). }
  assert (F : forall d, x = IData d -> Z.of_nat (length d) <= a3 a).
  { intros d ->. destruct A; try (exfalso; clear -Hn; revert Hn; outlist); (eapply (recv_fits devs evs _ []); [exact H2|reflexivity|reflexivity|]); intros k0 n0 bs Hin; exact (proj2 (Ht _ _ _ Hin)). }
  destruct A; try (exfalso; clear -Hn; revert Hn; outlist); destruct x; cbn [shape] in Sh; try contradiction; cbn [told] in T; try discriminate T; injection T as <-; first [exact (F _ eq_refl)|lia].
Qed.
