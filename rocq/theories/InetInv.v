(** Invariants of the INET socket model *)
From Verif Require Import Base PortModel PortSpec ErrnoModel InetModel InetSpec.
Local Open Scope list_scope.
Local Open Scope Z_scope.

Opaque fd_list next_fd reserve release from_discriminant.

(** ** What a call may do to one socket *)
Definition kuse (k : Z) (e : kcall) : Prop := about e = [k] /\ makes e = None /\ e <> KClose k.
Inductive kext (nk : Z) (i0 : option Z) : Z -> option Z -> list kcall -> Prop :=
| kx_keep t : (forall e, e ∈ t -> exists k, i0 = Some k /\ kuse k e) -> kext nk i0 nk i0 t
| kx_make v6 tcp nb t : i0 = None -> Forall (kuse nk) t -> kext nk i0 (nk + 1) (Some nk) (KSocket nk v6 tcp nb :: t).
Lemma kext_app nk i0 nk1 i1 t1 nk2 i2 t2 : kext nk i0 nk1 i1 t1 -> kext nk1 i1 nk2 i2 t2 -> kext nk i0 nk2 i2 (t1 ++ t2).
Proof.
  destruct 1 as [t1 H1|v6 tcp nb t1 -> H1]; destruct 1 as [t2 H2|v6' tcp' nb' t2 E H2].
  - constructor. intros e [He|He]%elem_of_app; auto.
  - subst. destruct t1 as [|e t1]; [constructor; auto|]. destruct (H1 e) as (k & [=] & _). left.
  - cbn. constructor; [done|]. apply Forall_app. split; [exact H1|]. apply Forall_forall. intros e He. destruct (H2 e He) as (k & [= <-] & ?). done.
  - discriminate E.
Qed.
Lemma kext_none nk i0 : kext nk i0 nk i0 [].
Proof. constructor. intros e He. inversion He. Qed.
Lemma kext_one nk k e : kuse k e -> kext nk (Some k) nk (Some k) [e].
Proof. intros H. constructor. intros e' He. apply elem_of_list_singleton in He as ->. eauto. Qed.

(** One thing that may happen to one socket, the kernel calls it takes, and the
    next free kernel socket number afterwards *)
Inductive hat (nk : Z) : hdl -> list kcall -> Z -> hdl -> Prop :=
| at_sock h : h_in h = None -> hat nk h [KSocket nk (h_v6 h) (h_tcp h) (h_nb h)] (nk + 1) (with_in (Some nk) h)
| at_setopt h k b v e : h_in h = Some k -> hat nk h [KSetopt k b v e] nk h
| at_opts h n : hat nk h [] nk (with_opts n h)
| at_mode h k b : h_in h = Some k -> hat nk h [KMode k b] nk h
| at_loc h x : h_in h <> None -> h_loc h = None -> hat nk h [] nk (with_loc (Some x) h)
| at_bind h k x e : h_in h = Some k -> h_loc h = None -> hat nk h [KBind k x e] nk (with_loc (Some x) h)
| at_lost h k x : h_in h = Some k -> h_loc h = None -> h_tcp h = true -> h_st h = NotConn -> hat nk h [KBind k x 0] nk h
| at_rem h x : h_tcp h = false -> hat nk h [] nk (with_rem (Some x) h)
| at_conn h k x : h_in h = Some k -> h_tcp h = true -> h_st h = NotConn -> hat nk h [KConnect k x 0] nk (with_rem (Some x) (with_st Conn h))
| at_prog h k x : h_in h = Some k -> h_tcp h = true -> h_st h = NotConn -> hat nk h [KConnect k x EINPROGRESS] nk (with_rem (Some x) (with_st InProg h))
| at_refused h k x e : h_in h = Some k -> h_tcp h = true -> h_st h = NotConn -> e <> 0 -> e <> EINPROGRESS -> hat nk h [KConnect k x e] nk h
| at_listen h k n : h_in h = Some k -> h_tcp h = true -> h_st h = NotConn -> h_loc h <> None -> hat nk h [KListen k n 0] nk (with_st Listening h)
| at_nolisten h k n e : h_in h = Some k -> h_tcp h = true -> e <> 0 -> hat nk h [KListen k n e] nk h
| at_noaccept h k e k' : h_in h = Some k -> h_st h = Listening -> hat nk h [KAccept k (inr e) k'] nk h
| at_send h k bs r : h_in h = Some k -> h_tcp h = true -> h_st h = Conn \/ h_st h = WrOnly -> hat nk h [KSend k bs None r] nk h
| at_sendto h k bs x r : h_in h = Some k -> h_tcp h = false -> h_st h = NotConn -> hat nk h [KSend k bs (Some x) r] nk h
| at_recv h k n r : h_in h = Some k -> (h_tcp h = true -> h_st h = Conn \/ h_st h = RdOnly) -> hat nk h [KRecv k n r] nk h
| at_err h k (ok : bool) : h_in h = Some k -> h_tcp h = true -> h_st h = InProg -> hat nk h [KErr k ok] nk (if ok then with_st Conn h else h)
| at_peek h p : h_tcp h = true -> hat nk h [] nk (with_peek p h).
Inductive hats : Z -> hdl -> list kcall -> Z -> hdl -> Prop :=
| hats_nil nk h : hats nk h [] nk h
| hats_cons nk h t nk1 h1 t' nk2 h2 : hat nk h t nk1 h1 -> hats nk1 h1 t' nk2 h2 -> hats nk h (t ++ t') nk2 h2.
Lemma hats_one nk h t nk1 h1 : hat nk h t nk1 h1 -> hats nk h t nk1 h1.
Proof. intros H. rewrite <- (app_nil_r t). eapply hats_cons; [exact H|constructor]. Qed.
Lemma hats_app nk h t nk1 h1 t' nk2 h2 : hats nk h t nk1 h1 -> hats nk1 h1 t' nk2 h2 -> hats nk h (t ++ t') nk2 h2.
Proof. induction 1 as [|nk h t nk1 h1 t1 nk3 h3 Ha _ IH]; [exact id|]. intros H. rewrite <- app_assoc. eapply hats_cons; [exact Ha|auto]. Qed.

(** everything but the kernel socket and the local name *)
Definition hframe (h h1 : hdl) : Prop :=
  h_v6 h1 = h_v6 h /\ h_tcp h1 = h_tcp h /\ h_nb h1 = h_nb h /\ h_st h1 = h_st h /\ h_rem h1 = h_rem h /\ h_opts h1 = h_opts h /\ h_peek h1 = h_peek h.
Lemma hframe_refl h : hframe h h.
Proof. repeat split. Qed.
Definition prog (s : ist) (h : hdl) (s1 : ist) (h1 : hdl) (t : list kcall) : Prop :=
  i_fds s1 = i_fds s /\ i_h s1 = i_h s /\ i_nh s1 = i_nh s /\ i_pend s1 = i_pend s /\ hats (i_nk s) h t (i_nk s1) h1 /\ hframe h h1.
Lemma prog_refl s h : prog s h s h [].
Proof. repeat split. constructor. Qed.

Lemma kuse_setopt k b v e : kuse k (KSetopt k b v e).
Proof. repeat split. discriminate. Qed.
Lemma kuse_bind k x e : kuse k (KBind k x e).
Proof. repeat split. discriminate. Qed.
Lemma kuse_conn k x e : kuse k (KConnect k x e).
Proof. repeat split. discriminate. Qed.
Lemma kuse_listen k x e : kuse k (KListen k x e).
Proof. repeat split. discriminate. Qed.
Lemma kuse_send k bs d r : kuse k (KSend k bs d r).
Proof. repeat split. discriminate. Qed.
Lemma kuse_recv k n r : kuse k (KRecv k n r).
Proof. repeat split. discriminate. Qed.
Lemma kuse_shut k n r : kuse k (KShut k n r).
Proof. repeat split. discriminate. Qed.
Lemma kuse_err k r : kuse k (KErr k r).
Proof. repeat split. discriminate. Qed.
Lemma kuse_mode k r : kuse k (KMode k r).
Proof. repeat split. discriminate. Qed.

Lemma hat_kext nk h t nk1 h1 : hat nk h t nk1 h1 -> kext nk (h_in h) nk1 (h_in h1) t.
Proof.
  destruct 1; try apply kext_none;
    try (match goal with H : h_in ?h = Some ?k |- _ => try (change (h_in (with_loc (Some x) h)) with (h_in h)); try (change (h_in (with_rem (Some x) (with_st Conn h))) with (h_in h));
           try (change (h_in (with_rem (Some x) (with_st InProg h))) with (h_in h)); try (change (h_in (with_st Listening h)) with (h_in h)); rewrite H; apply kext_one; repeat split; discriminate end).
  - rewrite H. constructor; [done|constructor].
  - assert (E : h_in (if ok then with_st Conn h else h) = h_in h) by (destruct ok; done). rewrite E, H. apply kext_one. apply kuse_err.
Qed.
Lemma hats_kext nk h t nk1 h1 : hats nk h t nk1 h1 -> kext nk (h_in h) nk1 (h_in h1) t.
Proof. induction 1 as [|nk h t nk1 h1 t' nk2 h2 Ha _ IH]; [apply kext_none|]. eapply kext_app; [exact (hat_kext _ _ _ _ _ Ha)|exact IH]. Qed.

Lemma force_spec s h a s1 h1 k t : force_inner s h a = Some (s1, h1, k, t) ->
  prog s h s1 h1 t /\ h1 = with_in (Some k) h /\ i_ports s1 = i_ports s.
Proof.
  unfold force_inner. destruct (h_in h) as [k0|] eqn:E.
  - intros [= <- <- <- <-]. split; [apply prog_refl|]. split; [|done]. destruct h; cbn in *. rewrite E. done.
  - destruct (_ && _); [discriminate|]. intros [= <- <- <- <-]. split; [|done]. split; [done|]. split; [done|]. split; [done|]. split; [done|].
    split; [|repeat split]. change (KSocket (i_nk s) (h_v6 h) (h_tcp h) (h_nb h) :: ?t) with ([KSocket (i_nk s) (h_v6 h) (h_tcp h) (h_nb h)] ++ t).
    eapply hats_cons; [apply at_sock; exact E|]. cbn [i_nk bump_k]. generalize (i_nk s + 1). intros nk1. induction (reuse_opts (h_opts h)) as [|b l IH]; [constructor|].
    cbn [map]. change (KSetopt ?k b 1 0 :: ?t) with ([KSetopt k b 1 0] ++ t). eapply hats_cons; [apply at_setopt; done|exact IH].
Qed.

Lemma prog_step s h s1 h1 t s2 h2 t2 : prog s h s1 h1 t ->
  i_fds s2 = i_fds s1 -> i_h s2 = i_h s1 -> i_nh s2 = i_nh s1 -> i_pend s2 = i_pend s1 -> i_nk s2 = i_nk s1 -> hframe h1 h2 ->
  hats (i_nk s1) h1 t2 (i_nk s1) h2 -> prog s h s2 h2 (t ++ t2).
Proof.
  intros (A1 & A2 & A3 & A4 & A5 & A6) B1 B2 B3 B4 B5 B7 B8. split; [congruence|]. split; [congruence|]. split; [congruence|]. split; [congruence|].
  split.
  - eapply hats_app; [exact A5|]. rewrite B5. exact B8.
  - unfold hframe in *. intuition congruence.
Qed.

Lemma bind_inner_spec devs s h x pre a s1 h1 t r : bind_inner devs s h x pre a = Some (s1, h1, t, r) ->
  prog s h s1 h1 t /\ (t <> [] -> h_in h1 <> None) /\ (h_loc h <> None -> h_loc h1 = h_loc h) /\ (ia_v6 x = h_v6 h -> h_loc h1 <> None).
Proof.
  unfold bind_inner. destruct (Bool.eqb (ia_v6 x) (h_v6 h)) eqn:Ev; cbn [negb].
  2:{ intros [= <- <- <- <-]. split; [apply prog_refl|]. split; [done|]. split; [done|]. intros Hv. rewrite Hv, Bool.eqb_reflx in Ev. discriminate Ev. }
  destruct (h_loc h) as [l|] eqn:El; [intros [= <- <- <- <-]; split; [apply prog_refl|]; rewrite El; done|].
  destruct (force_inner s h a) as [[[[s0 h0] k] t0]|] eqn:Ef; [|discriminate]. destruct (force_spec _ _ _ _ _ _ _ Ef) as (Hp & -> & Hpo).
  destruct (if pre then _ else _) as [p2 r2]. destruct (r2 <? 0).
  { intros [= <- <- <- <-]. split; [|split; [done|split; done]]. rewrite <- (app_nil_r t0). eapply prog_step; [exact Hp|done..| |].
    - repeat split.
    - apply hats_one, at_loc; done. }
  assert (K : forall h2 : hdl, h2 = with_loc (Some (with_port r2 x)) (with_in (Some k) h) ->
    prog s h (set_ports p2 s0) h2 (t0 ++ [KBind k (with_port r2 x) (a_bind a)])).
  { intros h2 ->. eapply prog_step; [exact Hp|done..|]. apply hats_one, at_bind; done. }
  destruct (a_bind a =? 0); [|destruct (kerr (a_bind a)); [|discriminate]]; intros [= <- <- <- <-]; (split; [apply K; reflexivity|split; [done|split; done]]).
Qed.

Lemma assign_spec devs s h s1 y : assign devs s h = (s1, y) ->
  i_fds s1 = i_fds s /\ i_h s1 = i_h s /\ i_nh s1 = i_nh s /\ i_pend s1 = i_pend s /\ i_nk s1 = i_nk s /\ (forall x, y = inl x -> ia_v6 x = h_v6 h).
Proof.
  unfold assign. destruct (reserve _ _ _ _ _ _) as [p r]. intros [= <- <-]. repeat split. intros x. destruct (r <? 0); [discriminate|]. intros [= <-]. done.
Qed.

Lemma prog_pre s h s0 s1 h1 t : i_fds s0 = i_fds s -> i_h s0 = i_h s -> i_nh s0 = i_nh s -> i_pend s0 = i_pend s -> i_nk s0 = i_nk s ->
  prog s0 h s1 h1 t -> prog s h s1 h1 t.
Proof. intros E1 E2 E3 E4 E5. unfold prog. rewrite E1, E2, E3, E4, E5. auto. Qed.

Lemma implicit_spec devs s h v6 a s1 h1 t r : implicit_bind devs s h v6 a = Some (s1, h1, t, r) ->
  prog s h s1 h1 t /\ (t <> [] -> h_in h1 <> None) /\ (h_loc h <> None -> h_loc h1 = h_loc h) /\ (0 <= r -> h_loc h1 <> None).
Proof.
  unfold implicit_bind. destruct (h_loc h) as [l|] eqn:El; [intros [= <- <- <- <-]; split; [apply prog_refl|]; rewrite El; done|].
  destruct (Bool.eqb v6 (h_v6 h)); cbn [negb].
  2:{ intros [= <- <- <- <-]. split; [apply prog_refl|]. split; [done|]. split; [done|]. unfold err, EINVAL. lia. }
  destruct (assign devs s h) as [s0 [x|e]] eqn:Ea; pose proof (assign_spec _ _ _ _ _ Ea) as (A1 & A2 & A3 & A4 & A5 & A6).
  - intros Hb. destruct (bind_inner_spec _ _ _ _ _ _ _ _ _ _ Hb) as (B1 & B2 & B3 & B4).
    split; [exact (prog_pre s h s0 s1 h1 t A1 A2 A3 A4 A5 B1)|]. split; [exact B2|]. split; [done|]. intros _. apply B4. exact (A6 x eq_refl).
  - intros [= <- <- <- <-]. split; [apply (prog_pre s h s0); [done..|]; apply prog_refl|]. split; [done|]. split; [done|].
    unfold assign in Ea. destruct (reserve _ _ _ _ _ _) as [p q]. destruct (Z.ltb_spec q 0); simplify_eq. lia.
Qed.

(** ** Moves *)
(** the new contents of the descriptor tables: the same, or one descriptor of
    socket [i] with other flags or another raw number *)
Definition fds_touch (i : Z) (h' : hdl) (m m' : gmap (Z * Z) idesc) : Prop :=
  m' = m \/ exists p fl raw fl' raw', m !! p = Some (ISock i fl raw) /\ m' = <[p := ISock i fl' raw']> m /\ (raw' = raw \/ h_in h' = Some raw').
Definition hok (h : hdl) : Prop :=
  (h_loc h <> None -> h_in h <> None) /\
  (h_st h = Conn \/ h_st h = InProg \/ h_st h = Listening -> h_in h <> None) /\
  (h_tcp h = false -> h_st h = NotConn \/ h_st h = RdOnly \/ h_st h = WrOnly).

(** What [shutdown] may do to a socket, with the kernel calls; [ok]: it
    answers 0. *)
Inductive shutting : bool -> hdl -> list kcall -> hdl -> Prop :=
| sh_none h st : h_in h = None -> st = NotConn \/ st = RdOnly \/ st = WrOnly -> shutting true h [] (with_st st h)
| sh_half h k how st : h_in h = Some k -> st = NotConn \/ st = RdOnly \/ st = WrOnly -> shutting true h [KShut k how 0] (with_st st h)
| sh_full h k how : h_in h = Some k -> shutting true h [KShut k how 0] (with_st NotConn (with_loc None h))
| sh_err h k how e : h_in h = Some k -> e <> 0 -> shutting false h [KShut k how e] h
| sh_stuck h k how : h_in h = Some k -> shutting false h [KShut k how 0] (with_loc None h).
Definition htouch (sh : option (Z * bool)) (i nk : Z) (h : hdl) (t : list kcall) (nk' : Z) (h' : hdl) : Prop :=
  hats nk h t nk' h' \/ nk' = nk /\ exists ok, sh = Some (i, ok) /\ shutting ok h t h'.

Lemma hat_hok nk h t nk1 h1 : hat nk h t nk1 h1 -> hok h -> hok h1.
Proof.
  destruct 1; try exact id; intros (B1 & B2 & B3);
    try (split; [exact B1|]; split; [exact B2|exact B3]);
    try (split; [exact B1|]; cbn; rewrite H, H0; split; discriminate).
  - split; [done|]. split; [done|exact B3].
  - split; [done|]. split; [exact B2|exact B3].
  - split; [cbn; rewrite H; done|]. split; [exact B2|exact B3].
  - destruct ok; [|exact (conj B1 (conj B2 B3))]. split; [exact B1|]. cbn. rewrite H, H0. split; discriminate.
Qed.
Lemma hats_hok nk h t nk1 h1 : hats nk h t nk1 h1 -> hok h -> hok h1.
Proof. induction 1 as [|nk h t nk1 h1 t' nk2 h2 Ha _ IH]; [exact id|]. intros H. exact (IH (hat_hok _ _ _ _ _ Ha H)). Qed.
Lemma shutting_hok ok h t h' : shutting ok h t h' -> hok h -> hok h'.
Proof.
  destruct 1 as [h st E Hs|h k how st E Hs|h k how E|h k how e E Hne|h k how E]; intros (B1 & B2 & B3); try exact (conj B1 (conj B2 B3)).
  - split; [exact B1|]. cbn. split; [|auto]. intros [K|[K|K]]; destruct Hs as [->|[->| ->]]; discriminate K.
  - split; [exact B1|]. cbn. split; [|auto]. intros [K|[K|K]]; destruct Hs as [->|[->| ->]]; discriminate K.
  - split; [done|]. cbn. split; [|auto]. intros [K|[K|K]]; discriminate K.
  - split; [done|]. exact (conj B2 B3).
Qed.
Lemma shutting_kext nk ok h t h' : shutting ok h t h' -> kext nk (h_in h) nk (h_in h') t.
Proof.
  destruct 1 as [h st E Hs|h k how st E Hs|h k how E|h k how e E Hne|h k how E]; [apply kext_none|..];
    cbn [h_in with_st with_loc]; rewrite E; apply kext_one; apply kuse_shut.
Qed.
Lemma htouch_kext sh i nk h t nk' h' : htouch sh i nk h t nk' h' -> kext nk (h_in h) nk' (h_in h') t.
Proof. intros [H|(-> & ok & _ & H)]; [exact (hats_kext _ _ _ _ _ H)|exact (shutting_kext _ _ _ _ _ H)]. Qed.
Lemma htouch_hok sh i nk h t nk' h' : htouch sh i nk h t nk' h' -> hok h -> hok h'.
Proof. intros [H|(-> & ok & _ & H)]; [exact (hats_hok _ _ _ _ _ H)|exact (shutting_hok _ _ _ _ H)]. Qed.

(** events that change nothing in the kernel: [select], and finding a
    connection still in progress *)
Definition quiet (e : kcall) : Prop := (exists ks r, e = KSelect ks r) \/ exists k, e = KErr k false.
Lemma quiet_not e : quiet e -> makes e = None /\ forall k, e <> KClose k.
Proof. intros [(ks & r & ->)|(k & ->)]; split; done. Qed.

(** [sh]: the socket shut down by this call, and whether that worked *)
Inductive move (sh : option (Z * bool)) (s : ist) : list kcall -> ist -> Prop :=
| mv_look t s' : i_fds s' = i_fds s -> i_h s' = i_h s -> i_nh s' = i_nh s -> i_pend s' = i_pend s -> i_nk s' = i_nk s ->
    (forall e, e ∈ t -> quiet e /\ forall k, k ∈ about e -> exists i h, i_h s !! i = Some h /\ h_in h = Some k) ->
    move sh s t s'
| mv_touch i h h' t s' : i_h s !! i = Some h -> i_h s' = <[i := h']> (i_h s) -> i_nh s' = i_nh s -> fds_touch i h' (i_fds s) (i_fds s') ->
    i_pend s ⊆ i_pend s' -> htouch sh i (i_nk s) h t (i_nk s') h' -> move sh s t s'
| mv_new c fd v6 tcp nb fl s' : i_fds s !! (c, fd) = None ->
    s' = put_fd c fd (ISock (i_nh s) fl (-1)) (add_h (new_hdl v6 tcp nb NotConn fl) s) -> move sh s [] s'
| mv_accept c fd h fl i l k x p nb s' : i_fds s !! (c, fd) = None -> i_h s !! i = Some l -> h_in l = Some k -> h_st l = Listening -> h_tcp l = true ->
    h = Hdl (h_v6 l) true (h_nb l) Conn (Some (i_nk s)) (Some x) (Some p) fl [] ->
    i_fds s' = <[(c, fd) := ISock (i_nh s) fl (i_nk s)]> (i_fds s) -> i_h s' = <[i_nh s := h]> (i_h s) -> i_nh s' = i_nh s + 1 ->
    i_pend s' = i_pend s -> i_nk s' = i_nk s + 1 -> move sh s (bracket nb k [KAccept k (inl p) (i_nk s)]) s'
| mv_lost i l k p nb s' : i_h s !! i = Some l -> h_in l = Some k -> 
    i_fds s' = i_fds s -> i_h s' = i_h s -> i_nh s' = i_nh s -> i_pend s' = i_pend s -> i_nk s' = i_nk s + 1 ->
    move sh s (bracket nb k [KAccept k (inl p) (i_nk s)] ++ [KClose (i_nk s)]) s'
| mv_put p d s' : s' = set_fds (insert p d) s -> (forall i fl raw, d = ISock i fl raw -> exists q fl0, i_fds s !! q = Some (ISock i fl0 raw)) ->
    (forall i fl raw, i_fds s !! p = Some (ISock i fl raw) -> used s' i = true) -> move sh s [] s'
| mv_drop p i h fl raw d t s' : i_fds s !! p = Some (ISock i fl raw) -> i_h s !! i = Some h ->
    (d = None \/ d = Some IOther \/ exists q i' fl' raw' fl2, q <> p /\ i_fds s !! q = Some (ISock i' fl' raw') /\ d = Some (ISock i' fl2 raw')) ->
    i_fds s' = partial_alter (fun _ => d) p (i_fds s) -> (forall q fl0 raw0, i_fds s' !! q <> Some (ISock i fl0 raw0)) ->
    i_h s' = delete i (i_h s) -> i_nh s' = i_nh s -> i_pend s' = i_pend s -> i_nk s' = i_nk s ->
    t = match h_in h with Some k => [KClose k] | None => [] end -> move sh s t s'
| mv_del p d s' : s' = set_fds (partial_alter (fun _ => None) p) s -> i_fds s !! p = Some d -> (forall i fl raw, d = ISock i fl raw -> used s' i = true) -> move sh s [] s'
| mv_fork c c' s' : (forall fd, i_fds s !! (c', fd) = None) -> s' = set_fds (fork_fds c c') s -> move sh s [] s'.

Record iinv (s : ist) : Prop := IInv {
  v_fd : forall p i fl raw, i_fds s !! p = Some (ISock i fl raw) -> exists h, i_h s !! i = Some h /\ (raw < 0 \/ h_in h = Some raw);
  v_used : forall i h, i_h s !! i = Some h -> exists p fl raw, i_fds s !! p = Some (ISock i fl raw);
  v_nh : forall i h, i_h s !! i = Some h -> i < i_nh s;
  v_k : forall i h k, i_h s !! i = Some h -> h_in h = Some k -> k < i_nk s;
  v_inj : forall i j h g k, i_h s !! i = Some h -> i_h s !! j = Some g -> h_in h = Some k -> h_in g = Some k -> i = j;
  v_h : forall i h, i_h s !! i = Some h -> hok h
}.

Lemma used_spec s i : used s i = true <-> exists p fl raw, i_fds s !! p = Some (ISock i fl raw).
Proof.
  unfold used. rewrite existsb_exists. split.
  - intros ([p d] & Hin & E). apply elem_of_list_In, elem_of_map_to_list in Hin. cbn in E. destruct d as [j fl raw|]; [|discriminate E].
    apply Z.eqb_eq in E as ->. eauto.
  - intros (p & fl & raw & E). exists (p, ISock i fl raw). split; [apply elem_of_list_In, elem_of_map_to_list; exact E|]. cbn. apply Z.eqb_refl.
Qed.

Lemma fork_lookup c c' m : (forall fd, m !! (c', fd) = None) -> forall p d, fork_fds c c' m !! p = Some d ->
  m !! p = Some d \/ exists k, p = (c', k) /\ m !! (c, k) = Some d.
Proof.
  intros _ p d. unfold fork_fds. induction fd_list as [|k l IH]; cbn [foldr]; [auto|]. destruct (m !! (c, k)) as [d0|] eqn:E; [|exact IH].
  destruct (decide (p = (c', k))) as [->|Hne]; [rewrite lookup_insert; intros [= <-]; eauto|rewrite lookup_insert_ne by auto; exact IH].
Qed.
Lemma fork_keeps c c' m : (forall fd, m !! (c', fd) = None) -> forall p d, m !! p = Some d -> fork_fds c c' m !! p = Some d.
Proof.
  intros Hn p d Hp. unfold fork_fds. induction fd_list as [|k l IH]; cbn [foldr]; [exact Hp|]. destruct (m !! (c, k)) as [d0|] eqn:E; [|exact IH].
  rewrite lookup_insert_ne; [exact IH|]. intros <-. rewrite Hn in Hp. discriminate Hp.
Qed.

Lemma move_inv sh s t s' : iinv s -> move sh s t s' -> iinv s'.
Proof.
  intros [V1 V2 V3 V4 V5 V6] M. destruct M as
    [t s' E1 E2 E3 E4 E5 Ht|i h h' t s' Hi E2 E3 F Hpe Ka|c fd v6 tcp nb fl s' Hf ->|c fd h fl i l k x p nb s' Hf Hl Hk Hls Htl Eh E1 E2 E3 E4 E5
    |i l k p nb s' Hl Hk E1 E2 E3 E4 E5|p d s' -> Hd Hu|p i h fl raw d t s' Hp Hi Hd E1 Hno E2 E3 E4 E5 ->|p d s' -> Hp Hu|c c' s' Hn ->].
  - constructor; rewrite ?E1, ?E2, ?E3, ?E4, ?E5; assumption.
  - pose proof (htouch_kext _ _ _ _ _ _ _ Ka) as K. pose proof (htouch_hok _ _ _ _ _ _ _ Ka) as Hh.
    assert (Hk : forall k, h_in h' = Some k -> h_in h = Some k \/ (h_in h = None /\ k = i_nk s /\ i_nk s' = i_nk s + 1)).
    { intros k E. destruct K as [|v6 tcp nb t -> _]; [auto|]. injection E as <-. auto. }
    assert (Hk' : forall k, h_in h = Some k -> h_in h' = Some k). { intros k E. destruct K as [|v6 tcp nb t E0 _]; [auto|congruence]. }
    assert (Hnk : i_nk s <= i_nk s'). { destruct K; lia. }
    assert (G : forall j g, i_h s' !! j = Some g -> exists g0, i_h s !! j = Some g0 /\ (j <> i /\ g = g0 \/ j = i /\ g = h' /\ g0 = h)).
    { intros j g. rewrite E2. destruct (decide (j = i)) as [->|Hne]; [rewrite lookup_insert; intros [= <-]; eauto 6|rewrite lookup_insert_ne by auto; eauto 6]. }
    assert (G2 : forall (j fl raw : Z) g0, i_h s !! j = Some g0 -> (raw < 0 \/ h_in g0 = Some raw) -> exists g, i_h s' !! j = Some g /\ (raw < 0 \/ h_in g = Some raw)).
    { intros j _ raw g0 Hg Hr. rewrite E2. destruct (decide (j = i)) as [->|Hne]; [|rewrite lookup_insert_ne by auto; eauto].
      rewrite lookup_insert. exists h'. split; [done|]. destruct Hr as [?|Hr]; [auto|]. right. apply Hk'. congruence. }
    constructor.
    + intros q j fl raw Hq. destruct F as [F|(p & fl0 & raw0 & fl' & raw' & Hp & F & Hr)]; rewrite F in Hq.
      * destruct (V1 _ _ _ _ Hq) as (g & Hg & Hr). exact (G2 j fl raw g Hg Hr).
      * destruct (decide (q = p)) as [->|Hne].
        -- rewrite lookup_insert in Hq. injection Hq as <- <- <-. destruct (V1 _ _ _ _ Hp) as (g & Hg & Hr0). 
           destruct Hr as [->|Hr]; [exact (G2 i 0 raw0 g Hg Hr0)|]. exists h'. rewrite E2, lookup_insert. auto.
        -- rewrite lookup_insert_ne in Hq by auto. destruct (V1 _ _ _ _ Hq) as (g & Hg & Hr0). exact (G2 j fl raw g Hg Hr0).
    + intros j g Hg. destruct (G j g Hg) as (g0 & Hg0 & _). destruct (V2 j g0 Hg0) as (q & fl & raw & Hq).
      destruct F as [F|(p & fl0 & raw0 & fl' & raw' & Hp & F & Hr)]; rewrite F; [eauto|]. destruct (decide (q = p)) as [->|Hne].
      * rewrite Hp in Hq. injection Hq as <- _ _. exists p, fl', raw'. apply lookup_insert.
      * exists q, fl, raw. rewrite lookup_insert_ne by auto. exact Hq.
    + intros j g Hg. destruct (G j g Hg) as (g0 & Hg0 & _). rewrite E3. exact (V3 j g0 Hg0).
    + intros j g k Hg E. destruct (G j g Hg) as (g0 & Hg0 & [[_ ->]|(-> & -> & ->)]); [specialize (V4 j g0 k Hg0 E); lia|].
      destruct (Hk k E) as [E'|(_ & -> & ->)]; [specialize (V4 i h k Hi E'); lia|lia].
    + intros j1 j2 g1 g2 k H1 H2 K1 K2. destruct (G j1 g1 H1) as (b1 & B1 & C1). destruct (G j2 g2 H2) as (b2 & B2 & C2).
      destruct C1 as [[N1 ->]|(-> & -> & ->)], C2 as [[N2 ->]|(-> & -> & ->)].
      * exact (V5 _ _ _ _ _ B1 B2 K1 K2).
      * destruct (Hk k K2) as [E'|(_ & -> & _)]; [exact (V5 _ _ _ _ _ B1 B2 K1 E')|]. specialize (V4 _ _ _ B1 K1). lia.
      * destruct (Hk k K1) as [E'|(_ & -> & _)]; [exact (V5 _ _ _ _ _ B1 B2 E' K2)|]. specialize (V4 _ _ _ B2 K2). lia.
      * done.
    + intros j g Hg. destruct (G j g Hg) as (g0 & Hg0 & [[_ ->]|(-> & -> & ->)]); [exact (V6 j g0 Hg0)|exact (Hh (V6 i h Hi))].
  - assert (Hfresh : i_h s !! i_nh s = None). { destruct (i_h s !! i_nh s) as [g|] eqn:E; [|done]. specialize (V3 _ _ E). lia. }
    constructor; cbn [i_fds i_h i_nh i_ports i_pend i_nk put_fd add_h set_fds]; set (h := new_hdl v6 tcp nb NotConn fl); assert (Hin : h_in h = None) by done;
      (assert (Hh : hok h) by (split; [done|]; split; [intros [?|[?|?]]; discriminate|auto])).
    + intros q j fl0 raw Hq. destruct (decide (q = (c, fd))) as [->|Hne].
      * rewrite lookup_insert in Hq. injection Hq as <- <- <-. exists h. rewrite lookup_insert. split; [done|]. left. lia.
      * rewrite lookup_insert_ne in Hq by auto. destruct (V1 _ _ _ _ Hq) as (g & Hg & Hr). exists g. rewrite lookup_insert_ne by congruence. auto.
    + intros j g Hg. destruct (decide (j = i_nh s)) as [->|Hne]; [exists (c, fd); do 2 eexists; apply lookup_insert|].
      rewrite lookup_insert_ne in Hg by auto. destruct (V2 j g Hg) as (q & fl0 & raw & Hq). exists q, fl0, raw. rewrite lookup_insert_ne by congruence. done.
    + intros j g Hg. destruct (decide (j = i_nh s)) as [->|Hne]; [lia|]. rewrite lookup_insert_ne in Hg by auto. specialize (V3 j g Hg). lia.
    + intros j g k Hg E. destruct (decide (j = i_nh s)) as [->|Hne]; [rewrite lookup_insert in Hg; congruence|]. rewrite lookup_insert_ne in Hg by auto. eauto.
    + intros j1 j2 g1 g2 k H1 H2 K1 K2. destruct (decide (j1 = i_nh s)) as [->|N1]; [rewrite lookup_insert in H1; congruence|].
      destruct (decide (j2 = i_nh s)) as [->|N2]; [rewrite lookup_insert in H2; congruence|]. rewrite lookup_insert_ne in H1, H2 by auto. eauto.
    + intros j g Hg. destruct (decide (j = i_nh s)) as [->|Hne]; [|rewrite lookup_insert_ne in Hg by auto; eauto]. rewrite lookup_insert in Hg. injection Hg as <-.
      exact Hh.
  - assert (Hfresh : i_h s !! i_nh s = None). { destruct (i_h s !! i_nh s) as [g|] eqn:E; [|done]. specialize (V3 _ _ E). lia. }
    assert (Hin : h_in h = Some (i_nk s)) by (rewrite Eh; done). assert (Hh : hok h) by (rewrite Eh; split; [done|]; split; done). clear Eh.
    constructor; rewrite ?E1, ?E2, ?E3, ?E4, ?E5.
    + intros q j fl0 raw Hq. destruct (decide (q = (c, fd))) as [->|Hne].
      * rewrite lookup_insert in Hq. injection Hq as <- <- <-. exists h. rewrite lookup_insert. auto.
      * rewrite lookup_insert_ne in Hq by auto. destruct (V1 _ _ _ _ Hq) as (g & Hg & Hr). exists g. rewrite lookup_insert_ne by congruence. auto.
    + intros j g Hg. destruct (decide (j = i_nh s)) as [->|Hne]; [exists (c, fd); do 2 eexists; apply lookup_insert|].
      rewrite lookup_insert_ne in Hg by auto. destruct (V2 j g Hg) as (q & fl0 & raw & Hq). exists q, fl0, raw. rewrite lookup_insert_ne by congruence. done.
    + intros j g Hg. destruct (decide (j = i_nh s)) as [->|Hne]; [lia|]. rewrite lookup_insert_ne in Hg by auto. specialize (V3 j g Hg). lia.
    + intros j g k0 Hg E. destruct (decide (j = i_nh s)) as [->|Hne]; [rewrite lookup_insert in Hg; injection Hg as <-; rewrite Hin in E; injection E as <-; lia|].
      rewrite lookup_insert_ne in Hg by auto. specialize (V4 _ _ _ Hg E). lia.
    + intros j1 j2 g1 g2 k0 H1 H2 K1 K2. destruct (decide (j1 = i_nh s)) as [->|N1], (decide (j2 = i_nh s)) as [->|N2]; [done| | |].
      * rewrite lookup_insert in H1. injection H1 as <-. rewrite lookup_insert_ne in H2 by auto. rewrite Hin in K1. injection K1 as <-. specialize (V4 _ _ _ H2 K2). lia.
      * rewrite lookup_insert in H2. injection H2 as <-. rewrite lookup_insert_ne in H1 by auto. rewrite Hin in K2. injection K2 as <-. specialize (V4 _ _ _ H1 K1). lia.
      * rewrite lookup_insert_ne in H1, H2 by auto. eauto.
    + intros j g Hg. destruct (decide (j = i_nh s)) as [->|Hne]; [|rewrite lookup_insert_ne in Hg by auto; eauto]. rewrite lookup_insert in Hg. injection Hg as <-.
      exact Hh.
  - constructor; rewrite ?E1, ?E2, ?E3, ?E4, ?E5; try assumption. intros j g k0 Hg E. specialize (V4 _ _ _ Hg E). lia.
  - constructor; cbn [i_fds i_h i_nh i_ports i_pend i_nk set_fds]; try assumption.
    + intros q j fl raw Hq. destruct (decide (q = p)) as [->|Hne]; [|rewrite lookup_insert_ne in Hq by auto; eauto].
      rewrite lookup_insert in Hq. injection Hq as ->. destruct (Hd _ _ _ eq_refl) as (q & fl0 & Hq). exact (V1 _ _ _ _ Hq).
    + intros j g Hg. destruct (V2 j g Hg) as (q & fl & raw & Hq). destruct (decide (q = p)) as [->|Hne].
      * apply Hu in Hq. apply used_spec in Hq. exact Hq.
      * exists q, fl, raw. rewrite lookup_insert_ne by auto. exact Hq.
  - constructor; rewrite ?E3, ?E4, ?E5.
    + intros q j fl0 raw0 Hq. assert (j <> i) as Hji. { intros ->. exact (Hno _ _ _ Hq). }
      assert (exists h0, i_h s !! j = Some h0 /\ (raw0 < 0 \/ h_in h0 = Some raw0)) as (h0 & H0 & Hr).
      { rewrite E1 in Hq. destruct (decide (q = p)) as [->|Hne].
        - rewrite lookup_partial_alter in Hq. destruct Hd as [->|[->|(q & i' & fl' & raw' & fl2 & _ & Hq' & ->)]]; [discriminate Hq|discriminate Hq|].
          injection Hq as <- <- <-. exact (V1 _ _ _ _ Hq').
        - rewrite lookup_partial_alter_ne in Hq by auto. exact (V1 _ _ _ _ Hq). }
      exists h0. rewrite E2, lookup_delete_ne by auto. auto.
    + intros j g Hg. rewrite E2 in Hg. apply lookup_delete_Some in Hg as [Hne Hg]. destruct (V2 j g Hg) as (q & fl0 & raw0 & Hq).
      exists q, fl0, raw0. rewrite E1. rewrite lookup_partial_alter_ne; [exact Hq|]. intros ->. congruence.
    + intros j g Hg. rewrite E2 in Hg. apply lookup_delete_Some in Hg as [Hne Hg]. eauto.
    + intros j g k Hg. rewrite E2 in Hg. apply lookup_delete_Some in Hg as [Hne Hg]. eauto.
    + intros j1 j2 g1 g2 k H1 H2. rewrite E2 in H1, H2. apply lookup_delete_Some in H1 as [_ H1]. apply lookup_delete_Some in H2 as [_ H2]. eauto.
    + intros j g Hg. rewrite E2 in Hg. apply lookup_delete_Some in Hg as [Hne Hg]. eauto.
  - constructor; cbn [i_fds i_h i_nh i_ports i_pend i_nk set_fds]; try assumption.
    + intros q j fl raw Hq. destruct (decide (q = p)) as [->|Hne]; [rewrite lookup_partial_alter in Hq; discriminate Hq|].
      rewrite lookup_partial_alter_ne in Hq by auto. eauto.
    + intros j g Hg. destruct (V2 j g Hg) as (q & fl & raw & Hq). destruct (decide (q = p)) as [->|Hne].
      * assert (d = ISock j fl raw) as E by congruence. apply Hu in E. apply used_spec in E. exact E.
      * exists q, fl, raw. rewrite lookup_partial_alter_ne by auto. exact Hq.
  - constructor; cbn [i_fds i_h i_nh i_ports i_pend i_nk set_fds]; try assumption.
    + intros q j fl raw Hq. destruct (fork_lookup _ _ _ Hn _ _ Hq) as [H|(k & _ & H)]; exact (V1 _ _ _ _ H).
    + intros j g Hg. destruct (V2 j g Hg) as (q & fl & raw & Hq). exists q, fl, raw. exact (fork_keeps _ _ _ Hn _ _ Hq).
Qed.

(** ** Kernel calls *)
Definition live (s : ist) (k : Z) : Prop := exists i h, i_h s !! i = Some h /\ h_in h = Some k.
Definition tstate (O : Z -> Prop) (N : Z) (tr : list kcall) : Prop :=
  proper tr /\ (forall k, kopen tr k <-> O k) /\ (forall e k, e ∈ tr -> makes e = Some k -> k < N).

Lemma snoc_split {A} (l t1 t2 : list A) x e : l ++ [x] = t1 ++ e :: t2 -> (t1 = l /\ e = x /\ t2 = []) \/ exists t2', t2 = t2' ++ [x] /\ l = t1 ++ e :: t2'.
Proof.
  intros E. destruct (decide (t2 = [])) as [->|Hne].
  - apply app_inj_tail in E as [-> ->]. auto.
  - right. destruct (exists_last Hne) as (t2' & y & ->). exists t2'. rewrite app_comm_cons, app_assoc in E. apply app_inj_tail in E as [-> ->]. done.
Qed.
Lemma proper_snoc tr e : proper tr -> (forall k, k ∈ about e -> kopen tr k) -> (forall k, makes e = Some k -> forall e', e' ∈ tr -> makes e' <> Some k) ->
  proper (tr ++ [e]).
Proof.
  intros H A M t1 e0 t2 E. destruct (snoc_split _ _ _ _ _ E) as [(-> & -> & _)|(t2' & _ & E')]; [auto|exact (H t1 e0 t2' E')].
Qed.
Lemma proper_closed tr k : proper tr -> KClose k ∈ tr -> exists e, e ∈ tr /\ makes e = Some k.
Proof.
  intros H Hin. apply elem_of_list_split in Hin as (t1 & t2 & E). destruct (H t1 _ t2 E) as [A _]. destruct (A k) as [(e & He & Hm) _]; [left|].
  exists e. split; [rewrite E; apply elem_of_app; auto|exact Hm].
Qed.

Lemma ts_use (O : Z -> Prop) N tr e : tstate O N tr -> makes e = None -> (forall k, e <> KClose k) -> (forall k, k ∈ about e -> O k) -> tstate O N (tr ++ [e]).
Proof.
  intros (P & Q & R) M C A. split; [|split].
  - apply proper_snoc; [exact P| |]; [intros k Hk; apply Q; auto|intros k E; congruence].
  - intros k. rewrite <- Q. unfold kopen. split.
    + intros [(e' & He & Hm) Hc]. split; [|intros H; apply Hc, elem_of_app; auto]. apply elem_of_app in He as [He|He%elem_of_list_singleton]; [eauto|congruence].
    + intros [(e' & He & Hm) Hc]. split; [exists e'; split; [apply elem_of_app; auto|exact Hm]|]. intros [H|H%elem_of_list_singleton]%elem_of_app; [auto|]. exact (C k (eq_sym H)).
  - intros e' k [He|He%elem_of_list_singleton]%elem_of_app Hm; [exact (R e' k He Hm)|congruence].
Qed.
Lemma ts_uses (O : Z -> Prop) N t : forall tr, tstate O N tr ->
  (forall e, e ∈ t -> makes e = None /\ (forall k, e <> KClose k) /\ forall k, k ∈ about e -> O k) -> tstate O N (tr ++ t).
Proof.
  induction t as [|e t IH]; intros tr H A; [rewrite app_nil_r; exact H|]. change (e :: t) with ([e] ++ t). rewrite app_assoc. apply IH.
  - destruct (A e) as (A1 & A2 & A3); [left|]. exact (ts_use O N tr e H A1 A2 A3).
  - intros e' He. apply A. right. exact He.
Qed.
Lemma ts_make (O : Z -> Prop) N tr e : tstate O N tr -> makes e = Some N -> (forall k, k ∈ about e -> O k) -> tstate (fun k => O k \/ k = N) (N + 1) (tr ++ [e]).
Proof.
  intros (P & Q & R) M A.
  assert (F : forall e', e' ∈ tr -> makes e' <> Some N). { intros e' He E. specialize (R e' N He E). lia. }
  assert (C : KClose N ∉ tr). { intros H. destruct (proper_closed tr N P H) as (e' & He & Hm). exact (F e' He Hm). }
  assert (Ce : forall k, e <> KClose k) by (intros k ->; discriminate M).
  split; [|split].
  - apply proper_snoc; [exact P| |]; [intros k Hk; apply Q; auto|intros k E; rewrite M in E; injection E as <-; exact F].
  - intros k. rewrite <- Q. unfold kopen. split.
    + intros [(e' & He & Hm) Hc]. apply elem_of_app in He as [He|He%elem_of_list_singleton].
      * left. split; [eauto|]. intros H. apply Hc, elem_of_app. auto.
      * right. subst. congruence.
    + intros [[(e' & He & Hm) Hc]| ->].
      * split; [exists e'; split; [apply elem_of_app; auto|exact Hm]|]. intros [H|H%elem_of_list_singleton]%elem_of_app; [auto|]. exact (Ce k (eq_sym H)).
      * split; [exists e; split; [apply elem_of_app; right; left|exact M]|]. intros [H|H%elem_of_list_singleton]%elem_of_app; [auto|]. exact (Ce N (eq_sym H)).
  - intros e' k [He|He%elem_of_list_singleton]%elem_of_app Hm; [specialize (R e' k He Hm); lia|]. subst. rewrite M in Hm. injection Hm as <-. lia.
Qed.
Lemma ts_close (O : Z -> Prop) N tr k0 : tstate O N tr -> O k0 -> tstate (fun k => O k /\ k <> k0) N (tr ++ [KClose k0]).
Proof.
  intros (P & Q & R) H0. split; [|split].
  - apply proper_snoc; [exact P| |discriminate]. intros k Hk. apply elem_of_list_singleton in Hk as ->. apply Q, H0.
  - intros k. rewrite <- Q. unfold kopen. split.
    + intros [(e' & He & Hm) Hc]. split; [|intros ->; apply Hc, elem_of_app; right; left]. split; [|intros H; apply Hc, elem_of_app; auto].
      apply elem_of_app in He as [He|He%elem_of_list_singleton]; [eauto|subst; discriminate Hm].
    + intros [[(e' & He & Hm) Hc] Hne]. split; [exists e'; split; [apply elem_of_app; auto|exact Hm]|].
      intros [H|H%elem_of_list_singleton]%elem_of_app; [auto|]. congruence.
  - intros e' k [He|He%elem_of_list_singleton]%elem_of_app Hm; [exact (R e' k He Hm)|]. subst. discriminate Hm.
Qed.
Lemma ts_ext (O O' : Z -> Prop) N tr : (forall k, O k <-> O' k) -> tstate O N tr -> tstate O' N tr.
Proof. intros H (P & Q & R). split; [exact P|]. split; [|exact R]. intros k. rewrite Q. apply H. Qed.

Lemma kuse_ok (O : Z -> Prop) k e : kuse k e -> O k -> makes e = None /\ (forall k, e <> KClose k) /\ forall k, k ∈ about e -> O k.
Proof.
  intros (A & B & C) HO. split; [exact B|]. split.
  - intros k' ->. cbn in A. injection A as ->. auto.
  - rewrite A. intros k' Hk. apply elem_of_list_singleton in Hk as ->. exact HO.
Qed.
Lemma ts_bracket (O : Z -> Prop) N tr nb k p : tstate O N tr -> O k -> tstate (fun j => O j \/ j = N) (N + 1) (tr ++ bracket nb k [KAccept k (inl p) N]).
Proof.
  intros H Hk. assert (K : forall tr, tstate O N tr -> tstate (fun j => O j \/ j = N) (N + 1) (tr ++ [KAccept k (inl p) N])).
  { intros tr0 H0. apply ts_make; [exact H0|reflexivity|]. intros j Hj. apply elem_of_list_singleton in Hj as ->. exact Hk. }
  destruct nb; [|exact (K tr H)]. cbn [bracket app].
  change [KMode k true; KAccept k (inl p) N; KMode k false] with ([KMode k true] ++ [KAccept k (inl p) N] ++ [KMode k false]). rewrite !app_assoc.
  apply ts_use; [|reflexivity|discriminate|].
  - apply K. apply ts_use; [exact H|reflexivity|discriminate|]. intros j Hj. apply elem_of_list_singleton in Hj as ->. exact Hk.
  - intros j Hj. apply elem_of_list_singleton in Hj as ->. auto.
Qed.

Definition tinv (tr : list kcall) (s : ist) : Prop := tstate (live s) (i_nk s) tr.
Lemma move_trace sh tr s t s' : iinv s -> tinv tr s -> move sh s t s' -> tinv (tr ++ t) s'.
Proof.
  intros [V1 V2 V3 V4 V5 V6] T M. unfold tinv in *.
  assert (L0 : i_h s' = i_h s -> forall k, live s k <-> live s' k). { intros E k. unfold live. rewrite E. done. }
  destruct M as
    [t s' E1 E2 E3 E4 E5 Ht|i h h' t s' Hi E2 E3 F Hpe Ka|c fd v6 tcp nb fl s' Hf ->|c fd h fl i l k x p nb s' Hf Hl Hk Hls Htl Eh E1 E2 E3 E4 E5
    |i l k p nb s' Hl Hk E1 E2 E3 E4 E5|p d s' -> Hd Hu|p i h fl raw d t s' Hp Hi Hd E1 Hno E2 E3 E4 E5 ->|p d s' -> Hp Hu|c c' s' Hn ->].
  - rewrite E5. apply (ts_ext (live s)); [exact (L0 E2)|]. apply ts_uses; [exact T|]. intros e He. destruct (Ht e He) as [Hq HO]. destruct (quiet_not e Hq) as [Q1 Q2]. exact (conj Q1 (conj Q2 HO)).
  - assert (L : forall k, live s' k <-> h_in h' = Some k \/ exists j g, j <> i /\ i_h s !! j = Some g /\ h_in g = Some k).
    { intros k. unfold live. rewrite E2. split.
      - intros (j & g & Hg & E). destruct (decide (j = i)) as [->|Hne]; [rewrite lookup_insert in Hg; injection Hg as <-; auto|rewrite lookup_insert_ne in Hg by auto; eauto 6].
      - intros [E|(j & g & Hne & Hg & E)]; [exists i, h'; rewrite lookup_insert; auto|exists j, g; rewrite lookup_insert_ne by auto; auto]. }
    assert (L1 : forall k, live s k <-> h_in h = Some k \/ exists j g, j <> i /\ i_h s !! j = Some g /\ h_in g = Some k).
    { intros k. unfold live. split; [|intros [E|(j & g & _ & ?)]; eauto]. intros (j & g & Hg & E). destruct (decide (j = i)) as [->|Hne]; [left; congruence|eauto 6]. }
    pose proof (htouch_kext _ _ _ _ _ _ _ Ka) as K. clear Ka.
    remember (i_nk s') as nk' eqn:En. remember (h_in h') as ih' eqn:Ei. destruct K as [t Ht|v6 tcp nb t E0 Ht].
    + apply (ts_ext (live s)); [intros k; rewrite L, L1; done|]. apply ts_uses; [exact T|]. intros e He. destruct (Ht e He) as (k & E & Hk).
      apply (kuse_ok (live s) k e Hk). exists i, h. auto.
    + change (KSocket (i_nk s) v6 tcp nb :: t) with ([KSocket (i_nk s) v6 tcp nb] ++ t). rewrite app_assoc. apply ts_uses.
      * apply (ts_ext (fun k => live s k \/ k = i_nk s)).
        -- intros k. rewrite L, L1, E0. split; [intros [[?|?]| ->]; [discriminate|auto|auto]|intros [E|?]; [injection E as ->; auto|auto]].
        -- apply ts_make; [exact T|reflexivity|]. intros k Hk. inversion Hk.
      * intros e He. rewrite Forall_forall in Ht. apply (kuse_ok _ (i_nk s) e (Ht e He)). apply L. auto.
  - set (h := new_hdl v6 tcp nb NotConn fl). assert (Hin : h_in h = None) by done. rewrite app_nil_r. apply (ts_ext (live s)); [|exact T]. intros k. unfold live. cbn [i_h put_fd add_h set_fds]. fold h.
    assert (i_h s !! i_nh s = None) as Hfr. { destruct (i_h s !! i_nh s) as [g|] eqn:E; [|done]. specialize (V3 _ _ E). lia. }
    split; intros (j & g & Hg & E).
    + exists j, g. rewrite lookup_insert_ne by congruence. auto.
    + destruct (decide (j = i_nh s)) as [->|Hne]; [rewrite lookup_insert in Hg; congruence|]. rewrite lookup_insert_ne in Hg by auto. eauto.
  - assert (Hin : h_in h = Some (i_nk s)) by (rewrite Eh; done). rewrite E5. apply (ts_ext (fun j => live s j \/ j = i_nk s)).
    + intros j. unfold live. rewrite E2. assert (i_h s !! i_nh s = None) as Hfr. { destruct (i_h s !! i_nh s) as [g|] eqn:E; [|done]. specialize (V3 _ _ E). lia. }
      split.
      * intros [(i0 & g & Hg & E)| ->]; [exists i0, g; rewrite lookup_insert_ne by congruence; auto|]. exists (i_nh s), h. rewrite lookup_insert. auto.
      * intros (i0 & g & Hg & E). destruct (decide (i0 = i_nh s)) as [->|Hne]; [rewrite lookup_insert in Hg; right; congruence|]. rewrite lookup_insert_ne in Hg by auto. eauto.
    + apply ts_bracket; [exact T|]. exists i, l. auto.
  - rewrite E5, app_assoc. apply (ts_ext (fun j => (live s j \/ j = i_nk s) /\ j <> i_nk s)).
    + intros j. rewrite <- (L0 E2 j). split; [intros [[?| ->] ?]; [done|done]|]. intros H. split; [auto|]. intros ->. destruct H as (i0 & g & Hg & E). specialize (V4 _ _ _ Hg E). lia.
    + apply ts_close; [|auto]. apply ts_bracket; [exact T|]. exists i, l. auto.
  - rewrite app_nil_r. exact T.
  - rewrite E5. destruct (h_in h) as [k0|] eqn:Ek.
    + apply (ts_ext (fun k => live s k /\ k <> k0)); [|apply ts_close; [exact T|exists i, h; auto]]. intros k. unfold live. rewrite E2. split.
      * intros [(j & g & Hg & E) Hne]. exists j, g. rewrite lookup_delete_ne by congruence. auto.
      * intros (j & g & Hg & E). apply lookup_delete_Some in Hg as [Hne Hg]. split; [eauto|]. intros ->. exact (Hne (V5 _ _ _ _ _ Hi Hg Ek E)).
    + rewrite app_nil_r. apply (ts_ext (live s)); [|exact T]. intros k. unfold live. rewrite E2. split.
      * intros (j & g & Hg & E). exists j, g. rewrite lookup_delete_ne by congruence. auto.
      * intros (j & g & Hg & E). apply lookup_delete_Some in Hg as [Hne Hg]. eauto.
  - rewrite app_nil_r. exact T.
  - rewrite app_nil_r. exact T.
Qed.
