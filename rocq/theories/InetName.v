(** Kernel sockets and descriptors; names of INET sockets *)
From Verif Require Import Base PortModel PortSpec PortProofs ErrnoModel InetModel InetSpec InetInv InetStep InetConn.
Local Open Scope list_scope.
Local Open Scope Z_scope.

Opaque fd_list next_fd reserve release from_discriminant.

(** ** Kernel sockets are those of the descriptors *)
Lemma live_held s k : iinv s -> (live s k <-> held s k).
Proof.
  intros V. split.
  - intros (i & h & Hi & Hk). destruct (v_used s V i h Hi) as ([c fd] & fl & raw & Hd). exists c, fd, h. split; [|exact Hk].
    unfold hdl_of, sock_of. rewrite Hd. exact Hi.
  - intros (c & fd & h & Hd & Hk). unfold hdl_of in Hd. destruct (sock_of s c fd) as [i|]; [|discriminate Hd]. exists i, h. auto.
Qed.
Lemma kernel_sockets devs evs s : history devs evs s -> proper (calls evs) /\ forall k, kopen (calls evs) k <-> held s k.
Proof. intros H. destruct (history_inv _ _ _ H) as [V (P & Q & _)]. split; [exact P|]. intros k. rewrite (Q k). exact (live_held s k V). Qed.
Lemma all_closed devs evs s : history devs evs s -> (forall c fd, sock_of s c fd = None) ->
  forall e k, e ∈ calls evs -> makes e = Some k -> KClose k ∈ calls evs.
Proof.
  intros H N e k He Hm. destruct (kernel_sockets _ _ _ H) as [_ Q]. destruct (decide (KClose k ∈ calls evs)) as [Hc|Hc]; [exact Hc|]. exfalso.
  assert (K : kopen (calls evs) k) by (split; eauto). apply Q in K as (c & fd & h & Hd & _). unfold hdl_of in Hd. rewrite N in Hd. discriminate Hd.
Qed.
(** one kernel socket is never shared by two sockets *)
Lemma kernel_unshared devs evs s i j k : history devs evs s -> owns s i k -> owns s j k -> i = j.
Proof. intros H (h & Hi & Hk) (g & Hj & Hk'). destruct (history_inv _ _ _ H) as [V _]. exact (v_inj s V _ _ _ _ _ Hi Hj Hk Hk'). Qed.

(** ** What one step does to one socket *)
Definition mentions (e : kcall) (k : Z) : Prop := k ∈ about e \/ makes e = Some k.
Definition passive (e : kcall) (k : Z) : Prop := quiet e \/ (exists b, e = KMode k b) \/ exists p k', e = KAccept k (inl p) k'.
Inductive sock_step (sh : option (Z * bool)) (s : ist) (t : list kcall) (s' : ist) (j : Z) (g' : hdl) : Prop :=
| ss_touch g : i_h s !! j = Some g -> htouch sh j (i_nk s) g t (i_nk s') g' -> sock_step sh s t s' j g'
| ss_keep : i_h s !! j = Some g' -> (forall k e, h_in g' = Some k -> e ∈ t -> mentions e k -> passive e k) -> sock_step sh s t s' j g'
| ss_new v6 tcp nb fl : i_h s !! j = None -> t = [] -> g' = new_hdl v6 tcp nb NotConn fl -> sock_step sh s t s' j g'
| ss_accept i l k x p nb fl : i_h s !! j = None -> i_h s !! i = Some l -> h_in l = Some k -> h_tcp l = true -> t = bracket nb k [KAccept k (inl p) (i_nk s)] ->
    g' = Hdl (h_v6 l) true (h_nb l) Conn (Some (i_nk s)) (Some x) (Some p) fl [] -> sock_step sh s t s' j g'.

Lemma move_sock sh s t s' j g' : iinv s -> move sh s t s' -> i_h s' !! j = Some g' -> sock_step sh s t s' j g'.
Proof.
  intros V M Hg.
  assert (Fr : i_h s !! i_nh s = None). { destruct (i_h s !! i_nh s) as [h|] eqn:E; [|done]. pose proof (v_nh s V _ _ E). lia. }
  assert (Acc : forall i l k p nb g, i_h s !! i = Some l -> h_in l = Some k -> i_h s !! j = Some g -> forall k' e, h_in g = Some k' -> e ∈ bracket nb k [KAccept k (inl p) (i_nk s)] -> mentions e k' -> passive e k').
  { intros i l k p nb g Hl Hk Hg0 k' e Hk' He Hm. pose proof (v_k s V _ _ _ Hg0 Hk') as Hlt.
    assert (A : (exists b, e = KMode k b) \/ e = KAccept k (inl p) (i_nk s)).
    { destruct nb; cbn in He; rewrite ?elem_of_cons in He; [destruct He as [->|[->|[->|He]]]; [eauto|auto|eauto|inversion He]|destruct He as [->|He]; [auto|inversion He]]. }
    destruct A as [(b & ->)| ->]; destruct Hm as [Hm|Hm]; try discriminate Hm.
    - apply elem_of_list_singleton in Hm as ->. right. left. eauto.
    - apply elem_of_list_singleton in Hm as ->. right. right. eauto.
    - injection Hm as Hm. lia. }
  destruct M as
    [t s' E1 E2 E3 E4 E5 Ht|i h h' t s' Hi E2 E3 Fd Hpe Ka|c fd v6 tcp nb fl s' Hf ->|c fd h fl i l k x p nb s' Hf Hl Hk Hls Htl Eh E1 E2 E3 E4 E5
    |i l k p nb s' Hl Hk E1 E2 E3 E4 E5|p d s' -> Hd Hu|p i h fl raw d t s' Hp Hi Hd E1 Hno E2 E3 E4 E5 ->|p d s' -> Hp Hu|c c' s' Hn ->].
  - rewrite E2 in Hg. apply ss_keep; [exact Hg|]. intros k e _ He _. left. exact (proj1 (Ht e He)).
  - rewrite E2 in Hg. destruct (decide (j = i)) as [->|Hne].
    + rewrite lookup_insert in Hg. injection Hg as <-. exact (ss_touch _ _ _ _ _ _ h Hi Ka).
    + rewrite lookup_insert_ne in Hg by auto. apply ss_keep; [exact Hg|]. intros k e Hk He Hm. exfalso.
      pose proof (htouch_kext _ _ _ _ _ _ _ Ka) as K. pose proof (v_k s V _ _ _ Hg Hk) as Hlt. remember (h_in h) as ih eqn:Eih.
      destruct K as [t Hu|v6 tcp nb t E0 Hu].
      * destruct (Hu e He) as (k0 & E & (Ha & Hx & _)). destruct Hm as [Hin|Hin]; [|congruence]. rewrite Ha in Hin.
        apply elem_of_list_singleton in Hin as ->. apply Hne. exact (v_inj s V _ _ _ _ _ Hg Hi Hk (eq_trans (eq_sym Eih) E)).
      * apply elem_of_cons in He as [->|He]; [destruct Hm as [Hin|Hin]; [inversion Hin|injection Hin as Hin; lia]|].
        rewrite Forall_forall in Hu. destruct (Hu e He) as (Ha & Hx & _). destruct Hm as [Hin|Hin]; [|congruence]. rewrite Ha in Hin.
        apply elem_of_list_singleton in Hin. lia.
  - cbn in Hg. destruct (decide (j = i_nh s)) as [->|Hne].
    + rewrite lookup_insert in Hg. injection Hg as <-. exact (ss_new _ _ _ _ _ _ _ _ _ _ Fr eq_refl eq_refl).
    + rewrite lookup_insert_ne in Hg by auto. apply ss_keep; [exact Hg|]. intros k e _ He. inversion He.
  - rewrite E2 in Hg. destruct (decide (j = i_nh s)) as [->|Hne].
    + rewrite lookup_insert in Hg. injection Hg as <-. exact (ss_accept _ _ _ _ _ _ i l k x p nb fl Fr Hl Hk Htl eq_refl Eh).
    + rewrite lookup_insert_ne in Hg by auto. apply ss_keep; [exact Hg|]. exact (Acc i l k p nb g' Hl Hk Hg).
  - rewrite E2 in Hg. apply ss_keep; [exact Hg|]. intros k' e Hk' [He|He%elem_of_list_singleton]%elem_of_app Hm; [exact (Acc i l k p nb g' Hl Hk Hg k' e Hk' He Hm)|].
    subst e. pose proof (v_k s V _ _ _ Hg Hk'). destruct Hm as [Hm|Hm]; [apply elem_of_list_singleton in Hm; lia|discriminate Hm].
  - apply ss_keep; [exact Hg|]. intros k e _ He. inversion He.
  - rewrite E2 in Hg. apply lookup_delete_Some in Hg as [Hne Hg]. apply ss_keep; [exact Hg|]. intros k e Hk He Hm. exfalso.
    destruct (h_in h) as [k0|] eqn:E0; [|inversion He]. apply elem_of_list_singleton in He as ->. destruct Hm as [Hm|Hm]; [|discriminate Hm].
    apply elem_of_list_singleton in Hm as ->. apply Hne. exact (v_inj s V _ _ _ _ _ Hi Hg E0 Hk).
  - apply ss_keep; [exact Hg|]. intros k e _ He. inversion He.
  - apply ss_keep; [exact Hg|]. intros k e _ He. inversion He.
Qed.
(** sockets do not come back *)
Lemma move_gone sh s t s' j : iinv s -> move sh s t s' -> j < i_nh s -> i_h s !! j = None -> i_h s' !! j = None.
Proof.
  intros V M Hj Hn. destruct (i_h s' !! j) as [g'|] eqn:E; [|done]. exfalso.
  destruct M as
    [t s' E1 E2 E3 E4 E5 Ht|i h h' t s' Hi E2 E3 Fd Hpe Ka|c fd v6 tcp nb fl s' Hf ->|c fd h fl i l k x p nb s' Hf Hl Hk Hls Htl Eh E1 E2 E3 E4 E5
    |i l k p nb s' Hl Hk E1 E2 E3 E4 E5|p d s' -> Hd Hu|p i h fl raw d t s' Hp Hi Hd E1 Hno E2 E3 E4 E5 ->|p d s' -> Hp Hu|c c' s' Hn' ->]; try (cbn in E; congruence).
  - rewrite E2 in E. apply lookup_insert_Some in E as [[-> _]|[_ E]]; congruence.
  - cbn in E. apply lookup_insert_Some in E as [[E0 _]|[_ E]]; [lia|congruence].
  - rewrite E2 in E. apply lookup_insert_Some in E as [[E0 _]|[_ E]]; [lia|congruence].
  - rewrite E2 in E. apply lookup_delete_Some in E as [_ E]. congruence.
Qed.
Lemma move_nh sh s t s' : move sh s t s' -> i_nh s <= i_nh s'.
Proof. destruct 1; subst; cbn; lia. Qed.

(** ** Names *)
Lemma kname_app t1 t2 k d : kname (t1 ++ t2) k d = kname t2 k (kname t1 k d).
Proof. revert d. induction t1 as [|e t1 IH]; intros d; [done|]. destruct e; cbn; apply IH. Qed.
Lemma kname_skip t k d : (forall x, KBind k x 0 ∉ t) -> kname t k d = d.
Proof.
  revert d. induction t as [|e t IH]; intros d N; [done|]. assert (Nt : forall x, KBind k x 0 ∉ t) by (intros x Hx; apply (N x); right; exact Hx).
  destruct e; cbn; try apply IH, Nt. rewrite IH by exact Nt. destruct (Z.eqb_spec k0 k) as [->|]; [|done]. destruct (Z.eqb_spec e 0) as [->|]; [|done].
  destruct (N x). left.
Qed.
Lemma hat_named nk h t nk1 h1 k y : hat nk h t nk1 h1 -> h_in h = Some k -> h_loc h = Some y ->
  h_in h1 = Some k /\ h_loc h1 = Some y /\ h_v6 h1 = h_v6 h /\ h_tcp h1 = h_tcp h /\ forall j x e, KBind j x e ∉ t.
Proof.
  destruct 1; intros A B; try congruence; (split; [try exact A; destruct ok; exact A|]); (split; [try exact B; destruct ok; exact B|]);
    (split; [try done; destruct ok; done|]); (split; [try done; destruct ok; done|]);
    intros j y' e' Hin; try (inversion Hin; fail); apply elem_of_list_singleton in Hin; try discriminate Hin.
Qed.
Lemma hats_named nk h t nk1 h1 k y : hats nk h t nk1 h1 -> h_in h = Some k -> h_loc h = Some y ->
  h_in h1 = Some k /\ h_loc h1 = Some y /\ h_v6 h1 = h_v6 h /\ h_tcp h1 = h_tcp h /\ forall j x e, KBind j x e ∉ t.
Proof.
  induction 1 as [|nk h t nk1 h1 t' nk2 h2 Ha _ IH]; intros A B; [repeat split; auto; intros j x e He; inversion He|].
  destruct (hat_named _ _ _ _ _ _ _ Ha A B) as (A1 & B1 & C1 & D1 & N1). destruct (IH A1 B1) as (A2 & B2 & C2 & D2 & N2).
  split; [exact A2|]. split; [exact B2|]. split; [congruence|]. split; [congruence|]. intros j x e [He|He]%elem_of_app; [exact (N1 _ _ _ He)|exact (N2 _ _ _ He)].
Qed.

Definition named (tr : list kcall) (s : ist) (i k : Z) (y : iaddr) : Prop :=
  i < i_nh s /\ forall h, i_h s !! i = Some h -> h_in h = Some k /\ h_loc h = Some y /\ kname tr k None = Some y.
Lemma move_named sh tr s t s' i k y : iinv s -> (forall ok, sh <> Some (i, ok)) -> move sh s t s' -> named tr s i k y -> named (tr ++ t) s' i k y.
Proof.
  intros V Hsh M [Hi N]. split; [pose proof (move_nh _ _ _ _ M); lia|]. intros h' Hh'. rewrite kname_app.
  destruct (move_sock _ _ _ _ _ _ V M Hh') as [g Hg Ka|Hg Hp|v6 tcp nb fl Hg _ _|i0 l k0 x p nb fl Hg Hl Hk Htl Et Eg].
  - destruct (N g Hg) as (A & B & C). destruct Ka as [Ka|(_ & ok & E & _)]; [|destruct (Hsh ok E)]. destruct (hats_named _ _ _ _ _ _ _ Ka A B) as (A1 & B1 & _ & _ & N1).
    split; [exact A1|]. split; [exact B1|]. rewrite C. apply kname_skip. intros x. apply N1.
  - destruct (N h' Hg) as (A & B & C). split; [exact A|]. split; [exact B|]. rewrite C. apply kname_skip. intros x Hx.
    destruct (Hp k _ A Hx) as [[(ks & r & E)|(k0 & E)]|[(b & E)|(p & k' & E)]]; [left; left|discriminate E..].
  - pose proof (move_gone _ _ _ _ i V M Hi Hg). congruence.
  - pose proof (move_gone _ _ _ _ i V M Hi Hg). congruence.
Qed.
Lemma moves_named sh tr s t s' i k y : iinv s -> (forall ok, sh <> Some (i, ok)) -> moves sh s t s' -> named tr s i k y -> named (tr ++ t) s' i k y.
Proof.
  intros V Hsh [M|(t1 & s1 & t2 & -> & M1 & M2 & _)] N; [exact (move_named _ _ _ _ _ _ _ _ V Hsh M N)|].
  rewrite app_assoc. apply (move_named None _ s1 _ _ _ _ _ (move_inv _ _ _ _ V M1)); [discriminate|exact M2|]. exact (move_named _ _ _ _ _ _ _ _ V Hsh M1 N).
Qed.
Lemma shuts_none s c o out i : (forall fd how, o = Shutdown fd how -> sock_of s c fd <> Some i) -> forall ok, shuts s c o out <> Some (i, ok).
Proof.
  intros H ok E. unfold shuts in E. destruct o; try discriminate E. destruct (sock_of s c fd) as [j|] eqn:Es; [|discriminate E]. injection E as -> _. exact (H _ _ eq_refl Es).
Qed.
Lemma calls_app ev1 ev2 : calls (ev1 ++ ev2) = calls ev1 ++ calls ev2.
Proof. unfold calls. rewrite map_app, concat_app. done. Qed.
(** an induction over the calls after an event *)
Lemma after devs (P : list event -> ist -> Prop) (ok : event -> Prop) ev1 s1 : history devs ev1 s1 -> P ev1 s1 ->
  (forall evs s c o a s' t out, history devs evs s -> valid s o -> step devs s c o a = IGo s' t out -> ok (Ev s c o a t out) -> P evs s -> P (evs ++ [Ev s c o a t out]) s') ->
  forall ev2 s, history devs (ev1 ++ ev2) s -> (forall e, e ∈ ev2 -> ok e) -> P (ev1 ++ ev2) s.
Proof.
  intros H1 P1 St ev2. induction ev2 as [|e ev2 IH] using rev_ind; intros s H Ok.
  - rewrite app_nil_r in *. assert (s = s1) as ->; [|exact P1]. clear - H H1. revert s1 H1. induction H as [|evs s c o a s' tr out H IH Hv E]; intros s1 H1.
    + inversion H1 as [|evs s c o a s' tr out H Hv E Eq]; [done|]. destruct evs; discriminate Eq.
    + inversion H1 as [Eq|evs1 s2 c1 o1 a1 s1' tr1 out1 H2 Hv2 E2 Eq]; [destruct evs; discriminate Eq|].
      apply app_inj_tail in Eq as [-> Eq]. injection Eq as -> -> -> -> -> ->. congruence.
  - rewrite app_assoc in *. destruct (history_at _ _ _ [] _ H) as (s2 & H2 & Hv & Es & H3). 
    assert (s2 = s) as ->.
    { inversion H as [Eq|evs3 s3 c3 o3 a3 s3' tr3 out3 H4 Hv4 E4 Eq]; [destruct (ev1 ++ ev2); discriminate Eq|]. apply app_inj_tail in Eq as [_ <-]. cbn in Es. congruence. }
    destruct e as [pre c o a t out]. cbn [e_pre e_cage e_op e_ans e_tr e_out] in *. apply (St _ _ _ _ _ _ _ _ H2 Hv Es); [apply Ok, elem_of_app; right; left|].
    apply IH; [exact H2|]. intros e He. apply Ok, elem_of_app. auto.
Qed.
