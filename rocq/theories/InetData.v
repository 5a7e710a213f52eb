(** The bytes received on stream sockets *)
From Verif Require Import Base PortModel PortSpec PortProofs ErrnoModel InetModel InetSpec InetSpec2 InetInv InetStep InetConn InetName InetPort InetPort2 InetKeep.
Local Open Scope list_scope.
Local Open Scope Z_scope.

Opaque fd_list next_fd reserve release from_discriminant.

Definition kd (e : kcall) (k : Z) : list Z := match e with KRecv j _ (inl bs) => if j =? k then bs else [] | _ => [] end.
Lemma kdata_app t1 t2 k : kdata (t1 ++ t2) k = kdata t1 k ++ kdata t2 k.
Proof. unfold kdata. rewrite map_app, concat_app. reflexivity. Qed.
Lemma kdata_none t k : (forall e, e ∈ t -> kd e k = []) -> kdata t k = [].
Proof.
  induction t as [|e t IH]; intros N; [reflexivity|]. change (kd e k ++ kdata t k = []). rewrite (N e) by left. apply IH. intros e' He. apply N. right. exact He.
Qed.
Lemma kd_about e k : kd e k <> [] -> k ∈ about e.
Proof. destruct e; cbn; try congruence. destruct r; [|congruence]. destruct (Z.eqb_spec k0 k) as [->|]; [intros _; left|congruence]. Qed.
Lemma kdata_binding t k : all binding t -> kdata t k = [].
Proof. intros A. apply kdata_none. intros e He. specialize (A e He). destruct e; try discriminate A; reflexivity. Qed.
Lemma kdata_fresh tr s k : tinv tr s -> i_nk s <= k -> kdata tr k = [].
Proof.
  intros (P & _ & R) Hk. apply kdata_none. intros e He. destruct (decide (kd e k = [])) as [E|E]; [exact E|]. exfalso. apply kd_about in E.
  apply elem_of_list_split in He as (t1 & t2 & E'). destruct (P t1 e t2 E') as [A _]. destruct (A k E) as [(e0 & H0 & H1) _].
  assert (k < i_nk s); [|lia]. apply (R e0); [rewrite E'; apply elem_of_app; auto|exact H1].
Qed.
(** what one call adds to [readby] *)
Definition rd1 (e : event) (i : Z) : list Z :=
  match e_op e, e_out e with
  | Recv fd _ flags _, IData bs => if bool_decide (sock_of (e_pre e) (e_cage e) fd = Some i) && negb (hasbit flags MSG_PEEK) then bs else []
  | _, _ => []
  end.
Lemma readby_snoc evs e i : readby (evs ++ [e]) i = readby evs i ++ rd1 e i.
Proof. unfold readby. rewrite map_app, concat_app. cbn [map concat]. rewrite app_nil_r. reflexivity. Qed.

(** a receive on a stream socket *)
Lemma recv_tcp_form s i fl h len flags a s' t out : recv_tcp s i fl h len flags a = IGo s' t out -> exists h' d,
  s' = put_h i h' s /\ h_in h' = h_in h /\ h_tcp h' = h_tcp h /\ (h_in h = None -> d = []) /\
  (forall j, kdata t j = if bool_decide (h_in h = Some j) then d else []) /\
  (match out with
   | IData bs => (d = [] \/ bs = h_peek h ++ d) /\ h_peek h ++ d = bs ++ drop (length bs) (h_peek h ++ d) /\ h_peek h' = if hasbit flags MSG_PEEK then h_peek h ++ d else drop (length bs) (h_peek h ++ d)
   | _ => d = [] /\ h_peek h' = h_peek h
   end).
Proof.
  intros E. unfold recv_tcp in E. match type of E with match ?x with _ => _ end = _ => destruct x as [[h0 t0]|] eqn:E0 end; [|discriminate E].
  assert (Y : h_tcp h0 = h_tcp h /\ h_in h0 = h_in h /\ h_peek h0 = h_peek h /\ forall j, kdata t0 j = []).
  { destruct (h_st h); try (injection E0 as <- <-; auto; fail). destruct (h_in h) eqn:Ek; [|discriminate E0]. injection E0 as <- <-. destruct (a_soerr a); auto. }
  destruct Y as (Y2 & Y3 & Y4 & Y5).
  assert (B : forall nb k r, exists d, (forall j, kdata (t0 ++ bracket nb k [KRecv k r (a_recv a)]) j = if bool_decide (Some k = Some j) then d else []) /\
    d = match a_recv a with inl bs => bs | inr _ => [] end).
  { intros nb k r. eexists. split; [|reflexivity]. intros j. rewrite kdata_app, Y5. cbn [app]. destruct nb; cbn; destruct (a_recv a); cbn; destruct (Z.eqb_spec k j) as [->|Hne]; cbn; rewrite ?bool_decide_eq_true_2 by done; rewrite ?app_nil_r; try reflexivity;
      rewrite bool_decide_eq_false_2 by congruence; reflexivity. }
  assert (N : forall j, kdata t0 j = if bool_decide (h_in h = Some j) then [] else []) by (intros j; rewrite Y5; destruct (bool_decide (h_in h = Some j)); reflexivity).
  destruct (h_st h0); try (injection E as <- <- <-; exists h0, []; split; [done|]; split; [exact Y3|]; split; [exact Y2|]; split; [done|]; split; [exact N|]; split; [done|exact Y4]).
  all: cbv zeta in E; rewrite Y4 in E.
  all: set (n := Z.min (Z.of_nat (length (h_peek h))) len) in E; set (h1 := if hasbit flags MSG_PEEK then h0 else with_peek (drop (Z.to_nat n) (h_peek h)) h0) in E.
  all: assert (Z0 : h_tcp h1 = h_tcp h /\ h_in h1 = h_in h /\ h_peek h1 = if hasbit flags MSG_PEEK then h_peek h else drop (Z.to_nat n) (h_peek h)) by (unfold h1; destruct (hasbit _ _); auto).
  all: destruct Z0 as (Z1 & Z2 & Z3); clearbody h1.
  all: assert (L : length (take (Z.to_nat n) (h_peek h)) = Z.to_nat n) by (rewrite take_length; lia).
  all: destruct (bool_decide (h_peek h <> []) && (len - n =? 0)) eqn:Eb; [injection E as <- <- <-; exists h1, []|].
  all: try (split; [done|]; split; [exact Z2|]; split; [exact Z1|]; split; [done|]; split; [exact N|]; rewrite app_nil_r, L; split; [auto|]; split; [rewrite take_drop; reflexivity|exact Z3]).
  all: assert (Hn : n = Z.of_nat (length (h_peek h)) \/ h_peek h = [] /\ n <= 0) by
    (apply andb_false_iff in Eb as [Eb|Eb]; [right; apply bool_decide_eq_false in Eb; destruct (h_peek h); [split; [done|unfold n; cbn; lia]|destruct Eb; done]|left; unfold n in *; lia]).
  all: assert (Hd : drop (Z.to_nat n) (h_peek h) = [] /\ take (Z.to_nat n) (h_peek h) = h_peek h) by
    (destruct Hn as [->|[-> Hn]]; [rewrite Nat2Z.id, drop_all, firstn_all; done|rewrite drop_nil, take_nil; done]).
  all: destruct Hd as [Hd Ht]; rewrite Hd in Z3; rewrite Ht in E; rewrite Z2 in E.
  all: destruct (h_in h) as [k|] eqn:Ek; [|discriminate E].
  all: destruct (B (nonblock fl) k (len - n)) as (d & Bd & Ed); destruct (a_recv a) as [bs|e] eqn:Ea.
  all: try (injection E as <- <- <-; eexists; exists d; split; [reflexivity|]; split; [destruct (hasbit flags MSG_PEEK); exact Z2|]; split; [destruct (hasbit flags MSG_PEEK); exact Z1|]; split; [discriminate|]; split; [exact Bd|]; subst d;
    rewrite drop_all, app_nil_r; split; [auto|]; split; [reflexivity|]; destruct (hasbit flags MSG_PEEK); cbn; rewrite Z3; reflexivity).
  all: assert (P1 : d = []) by exact Ed; assert (W : h_peek h = [] -> h_peek h1 = h_peek h) by (intros W; rewrite Z3, W; destruct (hasbit flags MSG_PEEK); reflexivity).
  all: destruct (Z.eqb_spec n 0) as [En|En]; cbn [negb] in E.
  all: try (injection E as <- <- <-; exists h1, d; split; [reflexivity|]; split; [exact Z2|]; split; [exact Z1|]; split; [discriminate|]; split; [exact Bd|]; rewrite P1, app_nil_r, drop_all, app_nil_r; split; [auto|]; split; [reflexivity|exact Z3]).
  all: assert (Pk : h_peek h = []) by (destruct Hn as [Hn|[Hn _]]; [|exact Hn]; destruct (h_peek h); [reflexivity|cbn in Hn; lia]).
  all: assert (G : s' = put_h i h1 s /\ t = t0 ++ bracket (nonblock fl) k [KRecv k (len - n) (inr e)] /\ forall bs, out <> IData bs) by
    (destruct (_ && _) in E; [injection E as <- <- <-; split; [done|]; split; [done|discriminate]|]; apply kfail_go in E as (-> & -> & r & Er & _); split; [done|]; split; [done|rewrite Er; discriminate]).
  all: destruct G as (-> & -> & G); exists h1, d; split; [reflexivity|]; split; [exact Z2|]; split; [exact Z1|]; split; [discriminate|]; split; [exact Bd|].
  all: destruct out; try (split; [exact P1|exact (W Pk)]); destruct (G bs eq_refl).
Qed.
Lemma recv_udp_form devs s i fl h len fam a s' t out : i_h s !! i = Some h -> recv_udp devs s i fl h len fam a = IGo s' t out -> exists h',
  i_h s' = <[i := h']> (i_h s) /\ h_tcp h' = h_tcp h /\ kin (i_nk s) h h' /\ forall j, kdata t j <> [] -> h_in h' = Some j.
Proof.
  intros Hi E. unfold recv_udp in E. destruct (implicit_bind _ _ _ _ _) as [[[[s1 h1] t1] r]|] eqn:Eb; [|discriminate E].
  destruct (implicit_spec _ _ _ _ _ _ _ _ _ Eb) as (P & _). destruct (prog_keep true true _ _ _ _ _ P) as (_ & _ & K3 & K4). destruct P as (_ & P2 & _).
  pose proof (fun k => kdata_binding t1 k (implicit_all _ _ _ _ _ _ _ _ _ Eb)) as B.
  assert (X : exists h', i_h (put_h i h1 s1) = <[i := h']> (i_h s) /\ h_tcp h' = h_tcp h /\ kin (i_nk s) h h' /\ h' = h1) by (exists h1; cbn; rewrite P2; auto).
  assert (C : i_h s' = i_h (put_h i h1 s1) /\ forall j, kdata t j <> [] -> h_in h1 = Some j).
  { destruct (r <? 0); [injection E as <- <- _; split; [done|]; intros j Hj; rewrite B in Hj; done|]. destruct (h_in h1) as [k|]; [|discriminate E].
    assert (D : forall r0 j, kdata (t1 ++ [KRecv k len r0]) j <> [] -> Some k = Some j).
    { intros r0 j Hj. rewrite kdata_app, B in Hj. cbn in Hj. destruct r0; [|done]. destruct (Z.eqb_spec k j); [congruence|done]. }
    destruct (a_recv a); [injection E as <- <- _; split; [done|apply D]|]. destruct (_ && _); [injection E as <- <- _; split; [done|apply D]|]. apply kfail_go in E as (-> & -> & _). split; [done|apply D]. }
  destruct X as (h' & X1 & X2 & X3 & ->). destruct C as [C1 C2]. exists h1. split; [congruence|]. auto.
Qed.

Record dinv (evs : list event) (s : ist) : Prop := {
  d_in : forall i h k, i_h s !! i = Some h -> h_tcp h = true -> h_in h = Some k -> kdata (calls evs) k = readby evs i ++ h_peek h;
  d_none : forall i h, i_h s !! i = Some h -> h_tcp h = true -> h_in h = None -> readby evs i = [] /\ h_peek h = [];
  d_peek : forall i h, i_h s !! i = Some h -> h_tcp h = true -> h_peek h = [] \/ peeked evs i;
  d_new : forall i, i_nh s <= i -> readby evs i = [] }.
Lemma step_nh devs s c o a s' t out : iinv s -> valid s o -> step devs s c o a = IGo s' t out -> i_nh s <= i_nh s'.
Proof.
  intros V Hv E. pose proof (step_moves devs s c o a s' t out V Hv E) as M. destruct M as [M|(t1 & s1 & t2 & _ & M1 & M2 & _)].
  - exact (move_nh _ _ _ _ M).
  - pose proof (move_nh _ _ _ _ M1). pose proof (move_nh _ _ _ _ M2). lia.
Qed.

Lemma nonrecv_kdata o t k : is_recv o = false -> all (may o) t -> kdata t k = [].
Proof.
  intros N A. apply kdata_none. intros e He. specialize (A e He). destruct e; try reflexivity. destruct o; try discriminate A. discriminate N.
Qed.
Lemma nonrecv_rd1 s c o a t out i : is_recv o = false -> rd1 (Ev s c o a t out) i = [].
Proof. destruct o; try reflexivity. discriminate. Qed.
Lemma recv_call_form devs s c fd len flags fam a s' t out : recv_call devs s c fd len flags fam a = IGo s' t out ->
  (s' = s /\ t = [] /\ (forall bs, out <> IData bs) /\ sock_of s c fd = None) \/
  exists i fl raw h, i_fds s !! (c, fd) = Some (ISock i fl raw) /\ i_h s !! i = Some h /\
    (if h_tcp h then recv_tcp s i fl h len flags a else recv_udp devs s i fl h len fam a) = IGo s' t out.
Proof.
  intros E. unfold recv_call, on_sock in E. destruct (negb _); [discriminate E|]. unfold sock_of. destruct (i_fds s !! (c, fd)) as [[i fl raw|]|]; [|injection E as <- <- <-; left; auto; fail..].
  destruct (i_h s !! i) as [h|] eqn:Hi; [|discriminate E]. right. eauto 8.
Qed.
Lemma peeked_app evs e i : peeked evs i -> peeked (evs ++ [e]) i.
Proof. intros (e0 & fd & len & flags & fam & A & B). exists e0, fd, len, flags, fam. split; [apply elem_of_app; auto|exact B]. Qed.
Lemma dinv_step devs evs s c o a s' t out : iinv s -> tinv (calls evs) s -> dinv evs s -> valid s o -> step devs s c o a = IGo s' t out -> dinv (evs ++ [Ev s c o a t out]) s'.
Proof.
  intros V T [D1 D2 D3 D4] Hv E. pose proof (step_nh _ _ _ _ _ _ _ _ V Hv E) as Hnh. pose proof (step_keep _ _ _ _ _ _ _ _ V E) as K. pose proof (step_may _ _ _ _ _ _ _ _ V E) as M.
  assert (Ec : calls (evs ++ [Ev s c o a t out]) = calls evs ++ t) by (rewrite calls_app; cbn; rewrite app_nil_r; reflexivity).
  destruct (is_recv o) eqn:Er.
  - destruct o; try discriminate Er. clear K M Er. cbn [step] in E. apply recv_call_form in E as [(-> & -> & No & Ns)|(i & fl & raw & h & Hd & Hi & E)].
    + assert (R : forall j, rd1 (Ev s c (Recv fd len flags fam) a [] out) j = []) by (intros j; unfold rd1; cbn; destruct out; try reflexivity; destruct (No bs eq_refl)).
      split.
      * intros i h k A B C. rewrite Ec, readby_snoc, R, !app_nil_r. exact (D1 _ _ _ A B C).
      * intros i h A B C. rewrite readby_snoc, R, app_nil_r. exact (D2 _ _ A B C).
      * intros i h A B. destruct (D3 _ _ A B) as [X|X]; [auto|right; exact (peeked_app _ _ _ X)].
      * intros i A. rewrite readby_snoc, R, app_nil_r. exact (D4 _ A).
    + assert (So : sock_of s c fd = Some i) by (unfold sock_of; rewrite Hd; reflexivity).
      assert (R : forall j, j <> i -> rd1 (Ev s c (Recv fd len flags fam) a t out) j = []) by (intros j Hj; unfold rd1; cbn; destruct out; try reflexivity; rewrite bool_decide_eq_false_2 by congruence; reflexivity).
      assert (R' : rd1 (Ev s c (Recv fd len flags fam) a t out) i = match out with IData bs => if hasbit flags MSG_PEEK then [] else bs | _ => [] end) by
        (unfold rd1; cbn; destruct out; try reflexivity; rewrite bool_decide_eq_true_2 by exact So; destruct (hasbit _ _); reflexivity).
      assert (Lt : i < i_nh s) by exact (v_nh s V _ _ Hi).
      assert (N : forall j, i_nh s' <= j -> readby (evs ++ [Ev s c (Recv fd len flags fam) a t out]) j = []) by (intros j Hj; rewrite readby_snoc, R, app_nil_r by lia; apply D4; lia).
      assert (X : exists h', i_h s' = <[i := h']> (i_h s) /\ h_tcp h' = h_tcp h /\ kin (i_nk s) h h' /\ (forall j, kdata t j <> [] -> h_in h' = Some j) /\
        (h_tcp h = true -> h_in h' = h_in h /\ forall j, h_in h = Some j -> kdata t j = kdata t j /\ h_peek h ++ kdata t j = rd1 (Ev s c (Recv fd len flags fam) a t out) i ++ h_peek h') /\
        (h_tcp h = true -> h_in h = None -> h_peek h = [] -> rd1 (Ev s c (Recv fd len flags fam) a t out) i = [] /\ h_peek h' = []) /\
        (h_tcp h = true -> hasbit flags MSG_PEEK = false -> h_peek h = [] -> h_peek h' = [])).
      { destruct (h_tcp h) eqn:Et.
        - apply recv_tcp_form in E as (h' & d & -> & A & B & C & F & G). exists h'. split; [reflexivity|]. split; [congruence|]. split; [left; exact A|]. split.
          { intros j Hj. rewrite F in Hj. destruct (bool_decide (h_in h = Some j)) eqn:Eb; [apply bool_decide_eq_true in Eb; congruence|done]. }
          rewrite R'. split; [intros _; split; [exact A|]|split].
          + intros j Hj. split; [done|]. rewrite F, bool_decide_eq_true_2 by exact Hj. destruct out; try (destruct G as [-> G]; rewrite app_nil_r; symmetry; exact G).
            destruct G as (_ & G1 & G2). rewrite G2. destruct (hasbit flags MSG_PEEK); [reflexivity|exact G1].
          + intros _ Hn Hp. rewrite Hp, (C Hn) in G. destruct out; try (destruct G as [_ G]; done). destruct G as (_ & G1 & G2). cbn in G1. symmetry in G1. apply app_eq_nil in G1 as [G1 G3].
            subst bs. cbn in G2. split; destruct (hasbit _ _); auto.
          + intros _ Hf Hp. destruct out; try (destruct G as [_ G]; congruence). destruct G as (G0 & _ & G2). rewrite Hf, Hp in G2. rewrite Hp in G0. cbn in G0, G2. rewrite G2.
            destruct G0 as [->| ->]; [apply drop_nil|apply drop_all].
        - destruct (recv_udp_form _ _ _ _ _ _ _ _ _ _ _ Hi E) as (h' & A & B & C & F). exists h'. split; [exact A|]. split; [congruence|]. split; [exact C|]. split; [exact F|]. repeat split; discriminate. }
      destruct X as (h' & X1 & X2 & X3 & X4 & X5 & X6 & X7).
      assert (KO : forall j g, j <> i -> i_h s !! j = Some g -> forall k, h_in g = Some k -> kdata t k = []).
      { intros j g Hj Hg k Hk. destruct (decide (kdata t k = [])) as [W|W]; [exact W|]. exfalso. apply X4 in W. pose proof (v_k s V _ _ _ Hg Hk). destruct X3 as [X3|[_ X3]].
        - apply Hj. apply (v_inj s V _ _ _ _ _ Hg Hi Hk). congruence.
        - assert (k = i_nk s) by congruence. lia. }
      split.
      * intros j g k A B C. rewrite X1 in A. rewrite Ec, kdata_app, readby_snoc. destruct (decide (j = i)) as [->|Hj].
        -- rewrite lookup_insert in A. injection A as <-. rewrite X2 in B. destruct (X5 B) as [X8 X9]. rewrite X8 in C. rewrite (D1 _ _ _ Hi B C), <- app_assoc, (proj2 (X9 _ C)), app_assoc. reflexivity.
        -- rewrite lookup_insert_ne in A by auto. rewrite (KO _ _ Hj A _ C), R, !app_nil_r by exact Hj. exact (D1 _ _ _ A B C).
      * intros j g A B C. rewrite X1 in A. rewrite readby_snoc. destruct (decide (j = i)) as [->|Hj].
        -- rewrite lookup_insert in A. injection A as <-. rewrite X2 in B. destruct (X5 B) as [X8 _]. rewrite X8 in C. destruct (D2 _ _ Hi B C) as [Y1 Y2]. destruct (X6 B C Y2) as [Y3 Y4]. rewrite Y1, Y3. auto.
        -- rewrite lookup_insert_ne in A by auto. rewrite R, app_nil_r by exact Hj. exact (D2 _ _ A B C).
      * intros j g A B. rewrite X1 in A. destruct (decide (j = i)) as [->|Hj].
        -- rewrite lookup_insert in A. injection A as <-. rewrite X2 in B. destruct (D3 _ _ Hi B) as [Y|Y]; [|right; exact (peeked_app _ _ _ Y)].
           destruct (hasbit flags MSG_PEEK) eqn:Ef; [|left; exact (X7 B eq_refl Y)]. right. exists (Ev s c (Recv fd len flags fam) a t out), fd, len, flags, fam. split; [apply elem_of_app; right; left|]. auto.
        -- rewrite lookup_insert_ne in A by auto. destruct (D3 _ _ A B) as [Y|Y]; [auto|right; exact (peeked_app _ _ _ Y)].
      * exact N.
  - assert (Kd : forall k, kdata t k = []) by (intros k; exact (nonrecv_kdata _ _ _ Er M)). cbn [negb] in K.
    assert (R : forall j, rd1 (Ev s c o a t out) j = []) by (intros j; exact (nonrecv_rd1 _ _ _ _ _ _ _ Er)).
    split.
    + intros j g' k A B C. rewrite Ec, kdata_app, readby_snoc, Kd, R, !app_nil_r. destruct (K j g' A) as [(g & Hg & K1 & _ & K3 & K4)|(Hj & K1 & K4 & _)].
      * rewrite (K1 eq_refl). rewrite K3 in B. destruct K4 as [K4|[K4 K5]]; [rewrite K4 in C; exact (D1 _ _ _ Hg B C)|]. assert (k = i_nk s) as -> by congruence.
        destruct (D2 _ _ Hg B K4) as [-> ->]. apply (kdata_fresh _ _ _ T). lia.
      * rewrite K1, (D4 _ Hj). destruct K4 as [K4|K4]; [congruence|]. assert (k = i_nk s) as -> by congruence. apply (kdata_fresh _ _ _ T). lia.
    + intros j g' A B C. rewrite readby_snoc, R, app_nil_r. destruct (K j g' A) as [(g & Hg & K1 & _ & K3 & K4)|(Hj & K1 & K4 & _)].
      * rewrite (K1 eq_refl). rewrite K3 in B. destruct K4 as [K4|[K4 K5]]; [rewrite K4 in C; exact (D2 _ _ Hg B C)|congruence].
      * auto.
    + intros j g' A B. destruct (K j g' A) as [(g & Hg & K1 & _ & K3 & K4)|(Hj & K1 & K4 & _)]; [|auto]. rewrite (K1 eq_refl). rewrite K3 in B.
      destruct (D3 _ _ Hg B) as [Y|Y]; [auto|right; exact (peeked_app _ _ _ Y)].
    + intros j Hj. rewrite readby_snoc, R, app_nil_r. apply D4. lia.
Qed.
Lemma history_dinv devs evs s : history devs evs s -> dinv evs s.
Proof.
  induction 1 as [|evs s c o a s' t out H IH Hv E]; [split; [intros i h k A|intros i h A|intros i h A|reflexivity]; discriminate A|].
  destruct (history_inv _ _ _ H) as [V T]. exact (dinv_step _ _ _ _ _ _ _ _ _ V T IH Hv E).
Qed.

Lemma stream_delivered devs ev1 e ev2 s fd len flags fam d i k : history devs (ev1 ++ e :: ev2) s -> e_op e = Recv fd len flags fam -> e_out e = IData d ->
  sock_of (e_pre e) (e_cage e) fd = Some i -> is_tcp (e_pre e) i -> owns (e_pre e) i k ->
  exists rest, kdata (calls ev1 ++ e_tr e) k = readby ev1 i ++ d ++ rest.
Proof.
  intros H Ho Hd Hs (h & Hi & Ht) (h' & Hi' & Hk). assert (h' = h) as -> by congruence. destruct (history_at _ _ _ _ _ H) as (s1 & H1 & Hv & E & _).
  destruct e as [s0 c o a t out]. cbn in *. subst o out. apply recv_call_form in E as [(_ & _ & _ & Ns)|(j & fl & raw & g & Hd & Hj & E)]; [congruence|].
  unfold sock_of in Hs. rewrite Hd in Hs. injection Hs as ->. assert (g = h) as -> by congruence. rewrite Ht in E.
  apply recv_tcp_form in E as (h1 & dd & _ & _ & _ & _ & F & _ & G & _). rewrite kdata_app, (d_in _ _ (history_dinv _ _ _ H1) _ _ _ Hi Ht Hk), F, bool_decide_eq_true_2 by exact Hk.
  exists (drop (length d) (h_peek h ++ dd)). rewrite <- app_assoc. f_equal. exact G.
Qed.
Lemma stream_prefix devs evs s i k : history devs evs s -> is_tcp s i -> owns s i k -> exists rest, kdata (calls evs) k = readby evs i ++ rest /\ (~ peeked evs i -> rest = []).
Proof.
  intros H (h & Hi & Ht) (h' & Hi' & Hk). assert (h' = h) as -> by congruence. pose proof (history_dinv _ _ _ H) as D. exists (h_peek h). split; [exact (d_in _ _ D _ _ _ Hi Ht Hk)|].
  intros N. destruct (d_peek _ _ D _ _ Hi Ht) as [X|X]; [exact X|destruct (N X)].
Qed.
(** no more bytes than asked for *)
Lemma recv_fits devs ev1 e ev2 s fd len flags fam d : history devs (ev1 ++ e :: ev2) s -> e_op e = Recv fd len flags fam -> e_out e = IData d ->
  (forall k n bs, KRecv k n (inl bs) ∈ e_tr e -> Z.of_nat (length bs) <= n) -> Z.of_nat (length d) <= len.
Proof.
  intros H Ho Hd Hk. destruct (history_at _ _ _ _ _ H) as (s1 & H1 & Hv & E & _). destruct e as [s0 c o a t out]. cbn in *. subst o out. unfold valid in Hv.
  apply recv_call_form in E as [(_ & _ & No & _)|(i & fl & raw & h & Hd & Hi & E)]; [destruct (No d eq_refl)|]. destruct (h_tcp h).
  - unfold recv_tcp in E. match type of E with match ?x with _ => _ end = _ => destruct x as [[h0 t0]|] end; [|discriminate E].
    assert (L : forall l : list Z, (length (take (Z.to_nat (Z.min (Z.of_nat (length (h_peek h0))) len)) l) <= Z.to_nat (Z.min (Z.of_nat (length (h_peek h0))) len))%nat) by (intros l; rewrite take_length; lia).
    destruct (h_st h0); try discriminate E. all: cbv zeta in E; destruct (_ && _) in E; [injection E as _ _ <-; specialize (L (h_peek h0)); lia|].
    all: match type of E with match ?x with _ => _ end = _ => destruct x as [k|]; [|discriminate E] end.
    all: destruct (a_recv a) as [bs|er]; [|destruct (negb _) in E; [injection E as _ _ <-; specialize (L (h_peek h0)); lia|]; destruct (_ && _) in E; [discriminate E|]; apply kfail_go in E as (_ & _ & r & X & _); discriminate X].
    all: injection E as _ Et <-; rewrite app_length; specialize (L (h_peek h0)); specialize (Hk k (len - Z.min (Z.of_nat (length (h_peek h0))) len) bs); rewrite <- Et in Hk;
      assert (B : KRecv k (len - Z.min (Z.of_nat (length (h_peek h0))) len) (inl bs) ∈ t0 ++ bracket (nonblock fl) k [KRecv k (len - Z.min (Z.of_nat (length (h_peek h0))) len) (inl bs)]) by (apply elem_of_app; right; destruct (nonblock fl); cbn; [right; left|left]); specialize (Hk B); lia.
  - unfold recv_udp in E. destruct (implicit_bind _ _ _ _ _) as [[[[s2 h2] t1] r]|]; [|discriminate E]. destruct (r <? 0); [discriminate E|]. destruct (h_in h2) as [k|]; [|discriminate E].
    destruct (a_recv a) as [bs|er]; [|destruct (_ && _) in E; [discriminate E|]; apply kfail_go in E as (_ & _ & r0 & X & _); discriminate X]. injection E as _ <- <-.
    apply (Hk k len bs), elem_of_app. right. left.
Qed.
