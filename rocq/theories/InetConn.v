(** Connections and names of INET sockets *)
From Verif Require Import Base PortModel PortSpec PortProofs ErrnoModel InetModel InetSpec InetInv InetStep.
Local Open Scope list_scope.
Local Open Scope Z_scope.

Opaque fd_list next_fd reserve release from_discriminant.

(** ** Histories *)
Lemma history_at devs ev1 e ev2 s : history devs (ev1 ++ e :: ev2) s ->
  exists s1, history devs ev1 (e_pre e) /\ valid (e_pre e) (e_op e) /\ step devs (e_pre e) (e_cage e) (e_op e) (e_ans e) = IGo s1 (e_tr e) (e_out e) /\
             history devs (ev1 ++ [e]) s1.
Proof.
  remember (ev1 ++ e :: ev2) as evs eqn:E. intros H. revert ev2 E. induction H as [|evs s c o a s' tr out H IH Hv Es]; intros ev2 E.
  - destruct ev1; discriminate E.
  - destruct (snoc_split _ _ _ _ _ E) as [(-> & -> & ->)|(t2 & -> & ->)]; [|exact (IH t2 eq_refl)].
    exists s'. split; [exact H|]. split; [exact Hv|]. split; [exact Es|]. econstructor; [exact H|exact Hv|exact Es].
Qed.

(** ** Established connections *)
Definition estev (e : kcall) (k : Z) : Prop := (exists l p, e = KAccept l (inl p) k) \/ (exists x, e = KConnect k x 0) \/ e = KErr k true.
Lemma est_mono tr t k : established tr k -> established (tr ++ t) k.
Proof.
  intros [(l & p & H)|[(x & H)|(t1 & t2 & x & -> & H)]].
  - left. exists l, p. apply elem_of_app. auto.
  - right. left. exists x. apply elem_of_app. auto.
  - right. right. exists t1, (t2 ++ t), x. split; [rewrite <- app_assoc; done|]. apply elem_of_app. auto.
Qed.
Lemma est_snoc tr e k : ~ estev e k -> established (tr ++ [e]) k -> established tr k.
Proof.
  intros N [(l & p & H)|[(x & H)|(t1 & t2 & x & E & H)]].
  - apply elem_of_app in H as [H|H%elem_of_list_singleton]; [left; eauto|]. destruct N. left. eauto.
  - apply elem_of_app in H as [H|H%elem_of_list_singleton]; [right; left; eauto|]. destruct N. right. left. eauto.
  - destruct (snoc_split _ _ _ _ _ E) as [(-> & _ & ->)|(t2' & -> & ->)]; [inversion H|].
    apply elem_of_app in H as [H|H%elem_of_list_singleton]; [right; right; eauto|]. destruct N. right. right. done.
Qed.
Lemma est_app tr t k : (forall e, e ∈ t -> ~ estev e k) -> established (tr ++ t) k -> established tr k.
Proof.
  revert tr. induction t as [|e t IH]; intros tr N H; [rewrite app_nil_r in H; exact H|]. change (e :: t) with ([e] ++ t) in H. rewrite app_assoc in H.
  apply (est_snoc tr e); [apply N; left|]. apply IH; [|exact H]. intros e' He. apply N. right. exact He.
Qed.
Lemma estev_k e k : estev e k -> k ∈ about e \/ makes e = Some k.
Proof. intros [(l & p & ->)|[(x & ->)| ->]]; [right; done|left; left|left; left]. Qed.

Definition fresh_k (tr : list kcall) (nk : Z) : Prop := forall k e, nk <= k -> e ∈ tr -> ~ estev e k.
Lemma fresh_not_est tr nk k : fresh_k tr nk -> nk <= k -> ~ established tr k.
Proof.
  intros F Hk [(l & p & H)|[(x & H)|(t1 & t2 & x & -> & H)]].
  - apply (F k _ Hk H). left. eauto.
  - apply (F k _ Hk H). right. left. eauto.
  - apply (F k (KErr k true) Hk); [apply elem_of_app; right; right; exact H|]. right. right. done.
Qed.
Lemma tinv_fresh tr s : tinv tr s -> fresh_k tr (i_nk s).
Proof.
  intros (P & Q & R) k e Hk He Hv. destruct (estev_k e k Hv) as [Ha|Hm].
  - apply elem_of_list_split in He as (t1 & t2 & E). destruct (P t1 e t2 E) as [A _]. destruct (A k Ha) as [(e' & He' & Hm) _].
    assert (e' ∈ tr) by (rewrite E; apply elem_of_app; auto). specialize (R e' k H Hm). lia.
  - specialize (R e k He Hm). lia.
Qed.

(** what the state of a socket says about the calls made on its kernel socket;
    [d]: it has been shut down *)
Definition jl (tr : list kcall) (d : Prop) (h : hdl) : Prop :=
  (h_st h = Conn -> exists k, h_in h = Some k /\ established tr k) /\
  (h_st h = InProg -> exists k x, h_in h = Some k /\ KConnect k x EINPROGRESS ∈ tr) /\
  (h_st h = RdOnly \/ h_st h = WrOnly -> d) /\
  (forall k, h_in h = Some k -> established tr k -> h_st h = Conn \/ d).

Lemma jl_mono (tr t : list kcall) (d d' : Prop) h : (d -> d') -> (forall k, h_in h = Some k -> forall e, e ∈ t -> ~ estev e k) -> jl tr d h -> jl (tr ++ t) d' h.
Proof.
  intros Hd N (A & B & C & D). split; [|split; [|split]].
  - intros E. destruct (A E) as (k & Hk & He). exists k. split; [exact Hk|apply est_mono; exact He].
  - intros E. destruct (B E) as (k & x & Hk & He). exists k, x. split; [exact Hk|apply elem_of_app; auto].
  - intros E. exact (Hd (C E)).
  - intros k Hk He. apply est_app in He; [|exact (N k Hk)]. destruct (D k Hk He); auto.
Qed.
Lemma jl_sim (tr : list kcall) (d : Prop) h h' : h_st h' = h_st h -> h_in h' = h_in h -> jl tr d h -> jl tr d h'.
Proof. intros E1 E2. unfold jl. rewrite E1, E2. exact id. Qed.

Lemma hat_event nk h t nk1 h1 : hat nk h t nk1 h1 -> t = [] \/ exists e, t = [e].
Proof. destruct 1; eauto. Qed.
Lemma fresh_snoc tr e nk : fresh_k tr nk -> (forall k, nk <= k -> ~ estev e k) -> fresh_k (tr ++ [e]) nk.
Proof. intros F N k e' Hk [He|He%elem_of_list_singleton]%elem_of_app; [exact (F k e' Hk He)|]. subst. exact (N k Hk). Qed.

(** the kernel sockets of a socket are old *)
Definition old (nk : Z) (h : hdl) : Prop := forall k, h_in h = Some k -> k < nk.
Lemma hat_old nk h t nk1 h1 : hat nk h t nk1 h1 -> old nk h -> old nk1 h1 /\ nk <= nk1.
Proof.
  destruct 1; intros O; try (split; [exact O|lia]).
  - split; [|lia]. intros k [= <-]. lia.
  - split; [|lia]. destruct ok; exact O.
Qed.

Lemma hat_jl tr d nk h t nk1 h1 : hat nk h t nk1 h1 -> fresh_k tr nk -> old nk h -> jl tr d h -> jl (tr ++ t) d h1 /\ fresh_k (tr ++ t) nk1.
Proof.
  intros H F O J. pose proof J as (A & B & C & D).
  assert (Quiet : forall e g, (forall k, ~ estev e k) -> h_st g = h_st h -> h_in g = h_in h -> jl (tr ++ [e]) d g /\ fresh_k (tr ++ [e]) nk).
  { intros e g N E1 E2. split; [|apply fresh_snoc; auto]. apply (jl_sim _ _ h); [done..|]. apply (jl_mono tr [e] d); [exact id| |exact J]. intros k _ e' He%elem_of_list_singleton. subst. auto. }
  assert (Nil : forall g, h_st g = h_st h -> h_in g = h_in h -> jl (tr ++ []) d g /\ fresh_k (tr ++ []) nk).
  { intros g E1 E2. rewrite app_nil_r. split; [|exact F]. apply (jl_sim _ _ h); done. }
  assert (Nest : forall e, (forall l p k, e <> KAccept l (inl p) k) -> (forall k x, e <> KConnect k x 0) -> (forall k, e <> KErr k true) -> forall k, ~ estev e k).
  { intros e N1 N2 N3 k [(l & p & E)|[(x & E)|E]]; [exact (N1 _ _ _ E)|exact (N2 _ _ E)|exact (N3 _ E)]. }
  destruct H; try (apply Quiet; [apply Nest; intros; discriminate|done|done]); try (apply Nil; done).
  - assert (N : forall k, ~ estev (KSocket nk (h_v6 h) (h_tcp h) (h_nb h)) k) by (apply Nest; discriminate). split.
    + split; [|split; [|split]].
      * intros E. destruct (A E) as (k & Hk & _). congruence.
      * intros E. destruct (B E) as (k & x & Hk & _). congruence.
      * exact C.
      * intros k [= <-] He. apply est_snoc in He; [|apply N]. destruct (fresh_not_est tr nk nk F ltac:(lia) He).
    + intros k e Hk [He|He%elem_of_list_singleton]%elem_of_app; [apply (F k e); [lia|exact He]|]. subst. apply N.
  - split.
    + split; [|split; [|split]]; cbn; try discriminate.
      * intros _. exists k. split; [exact H|]. right. left. exists x. apply elem_of_app. right. left.
      * intros [?|?]; discriminate.
      * auto.
    + apply fresh_snoc; [exact F|]. intros k' Hk' [(l & p & E)|[(x' & E)|E]]; try discriminate E. injection E as -> ->. specialize (O _ H). lia.
  - assert (N : forall j, ~ estev (KConnect k x EINPROGRESS) j) by (apply Nest; intros; discriminate). split; [|apply fresh_snoc; auto].
    split; [|split; [|split]]; cbn; try discriminate.
    + intros _. exists k, x. split; [exact H|]. apply elem_of_app. right. left.
    + intros [?|?]; discriminate.
    + intros k' Hk' He. apply est_snoc in He; [|apply N]. destruct (D k' Hk' He); [congruence|auto].
  - apply Quiet; [|done|done]. apply Nest; intros; congruence.
  - assert (N : forall j, ~ estev (KListen k n 0) j) by (apply Nest; intros; discriminate). split; [|apply fresh_snoc; auto].
    split; [|split; [|split]]; cbn; try discriminate.
    + intros [?|?]; discriminate.
    + intros k' Hk' He. apply est_snoc in He; [|apply N]. destruct (D k' Hk' He); [congruence|auto].
  - destruct ok; [|apply Quiet; [apply Nest; intros; congruence|done|done]]. split.
    + destruct (B H1) as (k' & x & Hk' & Hin). assert (k' = k) as -> by congruence. split; [|split; [|split]]; cbn; try discriminate.
      * intros _. exists k. split; [exact H|]. right. right. apply elem_of_list_split in Hin as (t1 & t2 & ->). exists t1, (t2 ++ [KErr k true]), x.
        split; [rewrite <- app_assoc; done|]. apply elem_of_app. right. left.
      * intros [?|?]; discriminate.
      * auto.
    + apply fresh_snoc; [exact F|]. intros k' Hk' [(l & p & E)|[(x' & E)|E]]; try discriminate E. injection E as ->. specialize (O _ H). lia.
Qed.
Lemma hats_jl tr d nk h t nk1 h1 : hats nk h t nk1 h1 -> fresh_k tr nk -> old nk h -> jl tr d h -> jl (tr ++ t) d h1 /\ fresh_k (tr ++ t) nk1.
Proof.
  intros H. revert tr. induction H as [nk h|nk h t nk1 h1 t' nk2 h2 Ha _ IH]; intros tr F O J; [rewrite app_nil_r; auto|].
  destruct (hat_jl _ _ _ _ _ _ _ Ha F O J) as [J1 F1]. destruct (hat_old _ _ _ _ _ Ha O) as [O1 _]. rewrite app_assoc. exact (IH _ F1 O1 J1).
Qed.
(** an event of a chain, and the socket at that moment *)
Lemma hats_split nk h t nk1 h1 : hats nk h t nk1 h1 -> forall t1 e t2, t = t1 ++ e :: t2 ->
  exists nk' g nk'' g', hats nk h t1 nk' g /\ hat nk' g [e] nk'' g' /\ hats nk'' g' t2 nk1 h1.
Proof.
  induction 1 as [nk h|nk h t nk1 h1 t' nk2 h2 Ha Hr IH]; intros t1 e t2 E; [destruct t1; discriminate E|].
  destruct (hat_event _ _ _ _ _ Ha) as [->|(e' & ->)].
  - destruct (IH t1 e t2 E) as (nk' & g & nk'' & g' & H1 & H2 & H3). exists nk', g, nk'', g'. split; [|auto]. change t1 with ([] ++ t1). eapply hats_cons; [exact Ha|exact H1].
  - destruct t1 as [|e1 t1]; injection E as -> E.
    + exists nk, h, nk1, h1. split; [constructor|]. split; [exact Ha|]. subst. exact Hr.
    + destruct (IH t1 e t2 E) as (nk' & g & nk'' & g' & H1 & H2 & H3). exists nk', g, nk'', g'. split; [|auto]. change (e1 :: t1) with ([e1] ++ t1).
      eapply hats_cons; [exact Ha|exact H1].
Qed.
(** a chain does not make a socket unconnected *)
Lemma hats_notconn nk h t nk1 h1 : hats nk h t nk1 h1 -> h_st h1 = NotConn -> h_st h = NotConn.
Proof.
  induction 1 as [|nk h t nk1 h1 t' nk2 h2 Ha _ IH]; [exact id|]. intros E. specialize (IH E). destruct Ha; try exact IH; try discriminate IH.
  destruct ok; [discriminate IH|exact IH].
Qed.
Lemma hats_in nk h t nk1 h1 k : hats nk h t nk1 h1 -> h_in h1 = Some k -> h_in h = Some k \/ h_in h = None.
Proof. intros H E. apply hats_kext in H. rewrite E in H. inversion H; subst; auto. Qed.

Definition jinv (tr : list kcall) (D : Z -> Prop) (s : ist) : Prop := forall i h, i_h s !! i = Some h -> jl tr (D i) h.
Definition shd (sh : option (Z * bool)) (i : Z) : Prop := sh = Some (i, true).

Lemma jl_shut tr (d : Prop) ok h t h' : shutting ok h t h' -> jl tr d h -> jl (tr ++ t) (d \/ ok = true) h'.
Proof.
  intros H J.
  assert (N : forall e, e ∈ t -> forall k, ~ estev e k).
  { intros e He k. destruct H; try (inversion He; fail); apply elem_of_list_singleton in He; subst; intros [(l & p & E)|[(x & E)|E]]; discriminate E. }
  assert (J' : jl (tr ++ t) (d \/ ok = true) h) by (apply (jl_mono tr t d); [auto|intros k _ e He; exact (N e He k)|exact J]).
  destruct H as [h st E Hs|h k how st E Hs|h k how E|h k how e E Hne|h k how E]; [| | |exact J'|exact (jl_sim _ _ h _ eq_refl eq_refl J')].
  all: (split; [|split; [|split]]; cbn; auto); intros K; try destruct Hs as [->|[->| ->]]; discriminate K.
Qed.

Lemma move_jinv sh tr D s t s' : iinv s -> tinv tr s -> jinv tr D s -> move sh s t s' -> jinv (tr ++ t) (fun i => D i \/ shd sh i) s'.
Proof.
  intros V T J M. pose proof (tinv_fresh tr s T) as F.
  assert (Keep : (forall e, e ∈ t -> forall k, (exists i h, i_h s !! i = Some h /\ h_in h = Some k) -> ~ estev e k) ->
    forall j g, i_h s !! j = Some g -> jl (tr ++ t) (D j \/ shd sh j) g).
  { intros N j g Hg. apply (jl_mono tr t (D j)); [auto| |exact (J j g Hg)]. intros k Hk e He. apply (N e He). eauto. }
  assert (Acc : forall nb k p, (exists i h, i_h s !! i = Some h /\ h_in h = Some k) -> forall e, e ∈ bracket nb k [KAccept k (inl p) (i_nk s)] -> forall k',
    (exists i h, i_h s !! i = Some h /\ h_in h = Some k') -> ~ estev e k').
  { intros nb k p _ e He k' (i & h & Hi & Hk) Hv. pose proof (v_k s V _ _ _ Hi Hk). assert (e = KAccept k (inl p) (i_nk s)) as ->.
    { destruct nb; cbn in He; [|apply elem_of_list_singleton in He; exact He]. rewrite !elem_of_cons in He. destruct He as [->|[->|[->|He]]]; [|done| |inversion He];
        destruct Hv as [(l & q & E)|[(x & E)|E]]; discriminate E. }
    destruct Hv as [(l & q & E)|[(x & E)|E]]; try discriminate E. injection E as _ _ E. lia. }
  destruct M as
    [t s' E1 E2 E3 E4 E5 Ht|i h h' t s' Hi E2 E3 Fd Hpe Ka|c fd v6 tcp nb fl s' Hf ->|c fd h fl i l k x p nb s' Hf Hl Hk Hls Htl Eh E1 E2 E3 E4 E5
    |i l k p nb s' Hl Hk E1 E2 E3 E4 E5|p d s' -> Hd Hu|p i h fl raw d t s' Hp Hi Hd E1 Hno E2 E3 E4 E5 ->|p d s' -> Hp Hu|c c' s' Hn ->].
  - intros j g Hg. rewrite E2 in Hg. apply Keep; [|exact Hg]. intros e He k _ Hv. destruct (Ht e He) as [[(ks & r & ->)|(k0 & ->)] _];
      destruct Hv as [(l & q & E)|[(x & E)|E]]; discriminate E.
  - intros j g Hg. rewrite E2 in Hg. destruct (decide (j = i)) as [->|Hne].
    + rewrite lookup_insert in Hg. injection Hg as <-. destruct Ka as [Ka|(En & ok & Esh & Ka)].
      * assert (jl tr (D i \/ shd sh i) h) as J0 by (rewrite <- (app_nil_r tr); apply (jl_mono tr [] (D i)); [auto|intros k _ e He; inversion He|exact (J i h Hi)]).
        destruct (hats_jl _ _ _ _ _ _ _ Ka F (fun k Hk => v_k s V _ _ _ Hi Hk) J0) as [J1 _]. exact J1.
      * pose proof (jl_shut _ _ _ _ _ _ Ka (J i h Hi)) as J1. destruct ok.
        -- replace (tr ++ t) with (tr ++ t ++ []) by (rewrite app_nil_r; done). rewrite app_assoc. apply (jl_mono _ [] (D i \/ true = true)); [|intros k _ e He; inversion He|exact J1].
           intros _. right. exact Esh.
        -- replace (tr ++ t) with (tr ++ t ++ []) by (rewrite app_nil_r; done). rewrite app_assoc. apply (jl_mono _ [] (D i \/ false = true)); [|intros k _ e He; inversion He|exact J1].
           intros [?|?]; [auto|discriminate].
    + rewrite lookup_insert_ne in Hg by auto. apply (jl_mono tr t (D j)); [auto| |exact (J j g Hg)]. intros k Hk e He Hv.
      pose proof (htouch_kext _ _ _ _ _ _ _ Ka) as K. pose proof (v_k s V _ _ _ Hg Hk) as Hlt. remember (h_in h) as ih eqn:Eih.
      destruct K as [t Hu|v6 tcp nb t E0 Hu].
      * destruct (Hu e He) as (k0 & E & (Ha & Hm & _)). destruct (estev_k e k Hv) as [Hin|Hin]; [|congruence]. rewrite Ha in Hin.
        apply elem_of_list_singleton in Hin as ->. apply Hne. exact (v_inj s V _ _ _ _ _ Hg Hi Hk (eq_trans (eq_sym Eih) E)).
      * apply elem_of_cons in He as [->|He]; [destruct Hv as [(l & q & E)|[(x & E)|E]]; discriminate E|].
        rewrite Forall_forall in Hu. destruct (Hu e He) as (Ha & Hm & _). destruct (estev_k e k Hv) as [Hin|Hin]; [|congruence]. rewrite Ha in Hin.
        apply elem_of_list_singleton in Hin. lia.
  - intros j g Hg. cbn in Hg. rewrite app_nil_r. destruct (decide (j = i_nh s)) as [->|Hne].
    + rewrite lookup_insert in Hg. injection Hg as <-. split; [|split; [|split]]; cbn; try discriminate. intros [?|?]; discriminate.
    + rewrite lookup_insert_ne in Hg by auto. rewrite <- (app_nil_r tr). apply Keep; [|exact Hg]. intros e He. inversion He.
  - intros j g Hg. rewrite E2 in Hg. destruct (decide (j = i_nh s)) as [->|Hne].
    + rewrite lookup_insert in Hg. injection Hg as <-. rewrite Eh. split; [|split; [|split]]; cbn; try discriminate.
      * intros _. exists (i_nk s). split; [done|]. left. exists k, p. apply elem_of_app. right. destruct nb; cbn; [right; left|left].
      * intros [?|?]; discriminate.
      * auto.
    + rewrite lookup_insert_ne in Hg by auto. apply Keep; [|exact Hg]. apply Acc. eauto.
  - intros j g Hg. rewrite E2 in Hg. apply Keep; [|exact Hg]. intros e [He|He%elem_of_list_singleton]%elem_of_app; [apply (Acc nb k p); [eauto|exact He]|].
    subst. intros k' _ [(l' & q & E)|[(x & E)|E]]; discriminate E.
  - intros j g Hg. apply Keep; [|exact Hg]. intros e He. inversion He.
  - intros j g Hg. rewrite E2 in Hg. apply lookup_delete_Some in Hg as [_ Hg]. apply Keep; [|exact Hg]. intros e He k _ Hv.
    destruct (h_in h); [|inversion He]. apply elem_of_list_singleton in He as ->. destruct Hv as [(l' & q & E)|[(x & E)|E]]; discriminate E.
  - intros j g Hg. apply Keep; [|exact Hg]. intros e He. inversion He.
  - intros j g Hg. apply Keep; [|exact Hg]. intros e He. inversion He.
Qed.

Lemma shuts_call devs evs s c o a s' tr out i : step devs s c o a = IGo s' tr out -> shuts s c o out = Some (i, true) -> shut_by (evs ++ [Ev s c o a tr out]) i.
Proof.
  intros _ H. unfold shuts in H. destruct o; try discriminate H. destruct (sock_of s c fd) as [j|] eqn:E; [|discriminate H]. injection H as -> Ho.
  exists (Ev s c (Shutdown fd how) a tr out). split; [apply elem_of_app; right; left|]. split; [exists fd, how; auto|]. exact (bool_decide_eq_true_1 _ Ho).
Qed.
Lemma shut_by_app evs e i : shut_by evs i -> shut_by (evs ++ e) i.
Proof. intros (x & Hx & H). exists x. split; [apply elem_of_app; auto|exact H]. Qed.
Lemma jinv_weaken tr (D D' : Z -> Prop) s : (forall i, D i -> D' i) -> jinv tr D s -> jinv tr D' s.
Proof.
  intros H J i h Hi. rewrite <- (app_nil_r tr). apply (jl_mono tr [] (D i)); [apply H|intros k _ e He; inversion He|exact (J i h Hi)].
Qed.

Lemma history_jinv devs evs s : history devs evs s -> jinv (calls evs) (shut_by evs) s.
Proof.
  induction 1 as [|evs s c o a s' tr out H IH Hv E]; [intros i h Hi; cbn in Hi; rewrite lookup_empty in Hi; discriminate Hi|].
  destruct (history_inv _ _ _ H) as [V T]. rewrite calls_snoc. cbn [e_tr].
  assert (W : forall i, shut_by evs i \/ shd (shuts s c o out) i -> shut_by (evs ++ [Ev s c o a tr out]) i).
  { intros i [Hi|Hi]; [apply shut_by_app; exact Hi|exact (shuts_call devs evs s c o a s' tr out i E Hi)]. }
  destruct (step_moves _ _ _ _ _ _ _ _ V Hv E) as [M|(t1 & s1 & t2 & -> & M1 & M2 & _)].
  - apply (jinv_weaken _ (fun i => shut_by evs i \/ shd (shuts s c o out) i)); [exact W|]. exact (move_jinv _ _ _ _ _ _ V T IH M).
  - rewrite app_assoc. pose proof (move_jinv _ _ _ _ _ _ V T IH M1) as J1.
    pose proof (move_jinv _ _ _ _ _ _ (move_inv _ _ _ _ V M1) (move_trace _ _ _ _ _ V T M1) J1 M2) as J2.
    refine (jinv_weaken _ _ _ _ _ J2). intros i [Hi|Hi]; [exact (W i Hi)|discriminate Hi].
Qed.

(** ** Events of a step on connections *)
Definition conn_ev (e : kcall) : Prop := (exists k bs r, e = KSend k bs None r) \/ (exists k x r, e = KConnect k x r).
Lemma move_at sh s t s' t1 e t2 : move sh s t s' -> t = t1 ++ e :: t2 -> conn_ev e ->
  exists i h g nk nk' g', i_h s !! i = Some h /\ hats (i_nk s) h t1 nk g /\ hat nk g [e] nk' g'.
Proof.
  intros M E Hk. assert (He : e ∈ t) by (rewrite E; apply elem_of_app; right; left).
  assert (NS : forall ok h h' t0, shutting ok h t0 h' -> e ∉ t0).
  { intros ok h h' t0 Hs Hin. destruct Hs; try (inversion Hin; fail); apply elem_of_list_singleton in Hin; subst; destruct Hk as [(? & ? & ? & Ek)|(? & ? & ? & Ek)]; discriminate Ek. }
  assert (NB : forall nb k p k', e ∉ bracket nb k [KAccept k p k']).
  { intros nb k p k' Hin. destruct nb; cbn in Hin; rewrite ?elem_of_cons in Hin;
      repeat (destruct Hin as [->|Hin]; [destruct Hk as [(? & ? & ? & Ek)|(? & ? & ? & Ek)]; discriminate Ek|]); inversion Hin. }
  destruct M as
    [t s' E1 E2 E3 E4 E5 Ht|i h h' t s' Hi E2 E3 Fd Hpe Ka|c fd v6 tcp nb fl s' Hf ->|c fd h fl i l k x p nb s' Hf Hl Hk' Hls Htl Eh E1 E2 E3 E4 E5
    |i l k p nb s' Hl Hk' E1 E2 E3 E4 E5|p d s' -> Hd Hu|p i h fl raw d t s' Hp Hi Hd E1 Hno E2 E3 E4 E5 ->|p d s' -> Hp Hu|c c' s' Hn ->]; try (inversion He; fail).
  - destruct (Ht e He) as [[(ks & r & ->)|(k0 & ->)] _]; destruct Hk as [(? & ? & ? & Ek)|(? & ? & ? & Ek)]; discriminate Ek.
  - destruct Ka as [Ka|(_ & ok & _ & Ka)]; [|destruct (NS _ _ _ _ Ka He)].
    destruct (hats_split _ _ _ _ _ Ka t1 e t2 E) as (nk' & g & nk'' & g' & H1 & H2 & _). exists i, h, g, nk', nk'', g'. auto.
  - destruct (NB _ _ _ _ He).
  - apply elem_of_app in He as [He|He%elem_of_list_singleton]; [destruct (NB _ _ _ _ He)|]. subst. destruct Hk as [(? & ? & ? & Ek)|(? & ? & ? & Ek)]; discriminate Ek.
  - destruct (h_in h); [|inversion He]. apply elem_of_list_singleton in He as ->. destruct Hk as [(? & ? & ? & Ek)|(? & ? & ? & Ek)]; discriminate Ek.
Qed.
(** of the two moves of [shutdown] none sends or connects *)
Lemma moves_at devs s c o a s' t out t1 e t2 : iinv s -> valid s o -> step devs s c o a = IGo s' t out -> t = t1 ++ e :: t2 -> conn_ev e ->
  exists i h g nk nk' g', i_h s !! i = Some h /\ hats (i_nk s) h t1 nk g /\ hat nk g [e] nk' g'.
Proof.
  intros V Hv H E Hk. destruct (step_moves _ _ _ _ _ _ _ _ V Hv H) as [M|(u1 & s1 & u2 & -> & M1 & M2 & T1 & T2)]; [exact (move_at _ _ _ _ _ _ _ M E Hk)|]. exfalso.
  assert (He : e ∈ u1 ++ u2) by (rewrite E; apply elem_of_app; right; left). apply elem_of_app in He as [He|He].
  - destruct T1 as [->|(k & how & ->)]; [inversion He|]. apply elem_of_list_singleton in He as ->. destruct Hk as [(? & ? & ? & Ek)|(? & ? & ? & Ek)]; discriminate Ek.
  - destruct T2 as [->|(k & ->)]; [inversion He|]. apply elem_of_list_singleton in He as ->. destruct Hk as [(? & ? & ? & Ek)|(? & ? & ? & Ek)]; discriminate Ek.
Qed.

(** ** The kernel calls of each call *)
Definition all (P : kcall -> bool) (t : list kcall) : Prop := forall e, e ∈ t -> P e = true.
Lemma all_nil P : all P [].
Proof. intros e He. inversion He. Qed.
Lemma all_one (P : kcall -> bool) e : P e = true -> all P [e].
Proof. intros H e' He. apply elem_of_list_singleton in He as ->. exact H. Qed.
Lemma all_app P t1 t2 : all P t1 -> all P t2 -> all P (t1 ++ t2).
Proof. intros H1 H2 e [He|He]%elem_of_app; auto. Qed.
Lemma all_mono (P Q : kcall -> bool) t : (forall e, P e = true -> Q e = true) -> all P t -> all Q t.
Proof. intros H A e He. apply H, A, He. Qed.
Lemma all_bracket (P : kcall -> bool) nb k e : P (KMode k true) = true -> P (KMode k false) = true -> P e = true -> all P (bracket nb k [e]).
Proof.
  intros H1 H2 H3. destruct nb; [|apply all_one; exact H3]. cbn. intros e' He. rewrite !elem_of_cons in He. destruct He as [->|[->|[->|He]]]; [done..|inversion He].
Qed.
Lemma force_all s h a s1 h1 k t : force_inner s h a = Some (s1, h1, k, t) -> all binding t.
Proof.
  unfold force_inner. destruct (h_in h); [intros [= _ _ _ <-]; apply all_nil|]. destruct (_ && _); [discriminate|]. intros [= _ _ _ <-] e.
  intros [->|He]%elem_of_cons; [done|]. apply elem_of_list_fmap in He as (b & -> & _). done.
Qed.
Lemma bind_inner_all devs s h x pre a s1 h1 t r : bind_inner devs s h x pre a = Some (s1, h1, t, r) -> all binding t.
Proof.
  unfold bind_inner. destruct (negb _); [intros [= _ _ <- _]; apply all_nil|]. destruct (h_loc h); [intros [= _ _ <- _]; apply all_nil|].
  destruct (force_inner s h a) as [[[[s0 h0] k] t0]|] eqn:Ef; [|discriminate]. apply force_all in Ef. destruct (if pre then _ else _) as [p2 r2].
  destruct (r2 <? 0); [intros [= _ _ <- _]; exact Ef|].
  destruct (a_bind a =? 0); [|destruct (kerr (a_bind a)); [|discriminate]]; intros [= _ _ <- _]; (apply all_app; [exact Ef|apply all_one; done]).
Qed.
Lemma implicit_all devs s h v6 a s1 h1 t r : implicit_bind devs s h v6 a = Some (s1, h1, t, r) -> all binding t.
Proof.
  unfold implicit_bind. destruct (h_loc h); [intros [= _ _ <- _]; apply all_nil|]. destruct (negb _); [intros [= _ _ <- _]; apply all_nil|].
  destruct (assign devs s h) as [s0 [x|e]]; [exact (bind_inner_all _ _ _ _ _ _ _ _ _ _)|intros [= _ _ <- _]; apply all_nil].
Qed.
Lemma send_tcp_all s h bs a s' t out P : send_tcp s h bs a = IGo s' t out -> (forall k r, P (KSend k bs None r) = true) -> all P t.
Proof.
  unfold send_tcp. intros H HP. destruct (h_st h); try (injection H as _ <- _; apply all_nil);
    (destruct (h_in h) as [k|]; [|discriminate H]; destruct (a_send a <? 0); [kf H|injection H as _ <- _]; apply all_one, HP).
Qed.
Lemma sendto_inner_all devs s i h bs x a s' t out (P : kcall -> bool) : sendto_inner devs s i h bs x a = IGo s' t out ->
  (forall e, binding e = true -> P e = true) -> (forall k r, P (KSend k bs (Some x) r) = true) -> all P t.
Proof.
  unfold sendto_inner. intros H HB HP. destruct (negb _); [injection H as _ <- _; apply all_nil|]. destruct (negb _); [injection H as _ <- _; apply all_nil|].
  destruct (h_tcp h); [injection H as _ <- _; apply all_nil|]. destruct (implicit_bind devs s h _ a) as [[[[s1 h1] t1] r]|] eqn:Ei; [|discriminate H].
  apply implicit_all in Ei. apply (all_mono _ P) in Ei; [|exact HB]. destruct (r <? 0); [injection H as _ <- _; exact Ei|]. destruct (h_in h1); [|discriminate H].
  destruct (a_send a <? 0); [kf H|injection H as _ <- _]; (apply all_app; [exact Ei|apply all_one, HP]).
Qed.
Lemma send_all devs s c fd bs a s' t out (P : kcall -> bool) : send_call devs s c fd bs a = IGo s' t out ->
  (forall e, binding e = true -> P e = true) -> (forall k x r, P (KSend k bs x r) = true) -> all P t.
Proof.
  unfold send_call. intros H HB HP. apply on_sock_go in H as [[_ ->]|(i & fl & raw & h & Hd & Hi & H)]; [apply all_nil|]. destruct (h_tcp h); [exact (send_tcp_all _ _ _ _ _ _ _ _ H (fun k r => HP k None r))|].
  destruct (h_rem h) as [x|]; [|injection H as _ <- _; apply all_nil]. destruct (no_dest x); [discriminate H|]. exact (sendto_inner_all _ _ _ _ _ _ _ _ _ _ _ H HB (fun k r => HP k (Some x) r)).
Qed.
Lemma recv_all devs s c fd len flags fam a s' t out : recv_call devs s c fd len flags fam a = IGo s' t out -> all (may (Recv fd len flags fam)) t.
Proof.
  unfold recv_call. intros H. apply on_sock_go in H as [[_ ->]|(i & fl & raw & h & Hd & Hi & H)]; [apply all_nil|]. destruct (h_tcp h).
  - unfold recv_tcp in H. destruct (match h_st h with InProg => _ | _ => _ end) as [[h0 t0]|] eqn:E0; [|discriminate H].
    assert (A0 : all (may (Recv fd len flags fam)) t0).
    { destruct (h_st h); try (injection E0 as _ <-; apply all_nil). destruct (h_in h); [|discriminate E0]. injection E0 as _ <-. apply all_one. done. }
    clear E0. set (h1 := if hasbit flags MSG_PEEK then h0 else with_peek _ h0) in H.
    assert (B : forall k n r, all (may (Recv fd len flags fam)) (t0 ++ bracket (nonblock fl) k [KRecv k n r])) by (intros k n r; apply all_app; [exact A0|apply all_bracket; done]).
    destruct (h_st h0); try (injection H as _ <- _; exact A0).
    all: destruct (_ && _); [injection H as _ <- _; exact A0|]; destruct (h_in h1) as [k|]; [|discriminate H].
    all: destruct (a_recv a) as [bs|e]; [injection H as _ <- _; apply B|].
    all: destruct (negb (_ =? 0)); [injection H as _ <- _; apply B|]; destruct (_ && _); [injection H as _ <- _; apply B|]; kf H; apply B.
  - unfold recv_udp in H. destruct (implicit_bind devs s h _ a) as [[[[s1 h1] t1] r]|] eqn:Ei; [|discriminate H]. apply implicit_all in Ei.
    apply (all_mono _ (may (Recv fd len flags fam))) in Ei; [|intros e; destruct e; done]. destruct (r <? 0); [injection H as _ <- _; exact Ei|].
    destruct (h_in h1) as [k|]; [|discriminate H]. assert (B : all (may (Recv fd len flags fam)) (t1 ++ [KRecv k len (a_recv a)])) by (apply all_app; [exact Ei|apply all_one; done]).
    destruct (a_recv a); [injection H as _ <- _; exact B|]. destruct (_ && _); [injection H as _ <- _; exact B|]. kf H. exact B.
Qed.
Lemma step_may devs s c o a s' t out : iinv s -> step devs s c o a = IGo s' t out -> all (may o) t.
Proof.
  intros V H. destruct o; cbn [step] in H.
  - unfold socket_call in H. destruct (next_fd s c); injection H as _ <- _; apply all_nil.
  - unfold bind_call in H. apply on_sock_go in H as [[_ ->]|(i & fl & raw & h & Hd & Hi & H)]; [apply all_nil|].
    destruct (bind_inner _ _ _ _ _ _) as [[[[s1 h1] tr] r]|] eqn:E; [|discriminate H]. injection H as _ <- _. exact (bind_inner_all _ _ _ _ _ _ _ _ _ _ E).
  - unfold connect_call in H. apply on_sock_go in H as [[_ ->]|(i & fl & raw & h & Hd & Hi & H)]; [apply all_nil|].
    assert (HB : forall e, binding e = true -> may (Connect fd x) e = true) by (intros e; destruct e; done).
    destruct (negb _); [injection H as _ <- _; apply all_nil|]. destruct (h_tcp h).
    + assert (K : forall s1 h1 k tr, all binding tr -> connect_kernel s1 c fd i fl h1 k tr x a = IGo s' t out -> all (may (Connect fd x)) t).
      { intros s1 h1 k tr A E. apply (all_mono _ (may (Connect fd x))) in A; [|exact HB]. assert (B : all (may (Connect fd x)) (tr ++ [KConnect k x (a_conn a)])) by (apply all_app; [exact A|apply all_one; done]).
        unfold connect_kernel in E. destruct (_ =? 0); [injection E as _ <- _; exact B|]. destruct (_ =? EINPROGRESS); [injection E as _ <- _; exact B|]. kf E. exact B. }
      unfold connect_tcp in H. destruct (negb _); [injection H as _ <- _; apply all_nil|]. destruct (h_loc h).
      * destruct (h_in h) as [k|]; [|discriminate H]. exact (K _ _ _ _ (all_nil _) H).
      * destruct (force_inner s h a) as [[[[s1 h1] k] t1]|] eqn:Ef; [|discriminate H]. apply force_all in Ef. destruct (assign devs s1 h1) as [s2 [y|e]].
        -- assert (A : all binding (t1 ++ [KBind k y (a_bind a)])) by (apply all_app; [exact Ef|apply all_one; done]).
           destruct (a_bind a =? 0); [exact (K _ _ _ _ A H)|]. kf H. exact (all_mono _ _ _ HB A).
        -- injection H as _ <- _. exact (all_mono _ _ _ HB Ef).
    + unfold connect_udp in H. destruct (h_loc _); [injection H as _ <- _; apply all_nil|]. destruct (assign _ _ _) as [s1 [y|e]]; [|injection H as _ <- _; apply all_nil].
      destruct (bind_inner _ _ _ _ _ _) as [[[[s2 h2] tr] r]|] eqn:E; [|discriminate H]. destruct (h_in h2); [|discriminate H]. injection H as _ <- _.
      exact (all_mono _ _ _ HB (bind_inner_all _ _ _ _ _ _ _ _ _ _ E)).
  - unfold listen_call in H. apply on_sock_go in H as [[_ ->]|(i & fl & raw & h & Hd & Hi & H)]; [apply all_nil|].
    destruct (h_st h); try (injection H as _ <- _; apply all_nil). destruct (negb _); [injection H as _ <- _; apply all_nil|].
    destruct (implicit_bind _ _ _ _ _) as [[[[s1 h1] t1] r]|] eqn:Ei; [|discriminate H]. apply implicit_all in Ei.
    apply (all_mono _ (may (Listen fd backlog))) in Ei; [|intros e; destruct e; done]. destruct (r <? 0); [kf H; exact Ei|].
    destruct (h_in h1) as [k|]; [|discriminate H]. destruct (h_loc h1); [|discriminate H].
    destruct (_ =? 0); [injection H as _ <- _|kf H]; (apply all_app; [exact Ei|apply all_one; done]).
  - unfold accept_call in H. destruct (negb _); [discriminate H|]. destruct (i_fds s !! (c, fd)) as [d|]; [|injection H as _ <- _; apply all_nil].
    destruct (next_fd s c); [|injection H as _ <- _; apply all_nil]. destruct d; [|injection H as _ <- _; apply all_nil]. destruct (i_h s !! h) as [g|]; [|discriminate H].
    destruct (negb _); [injection H as _ <- _; apply all_nil|]. destruct (negb _); [injection H as _ <- _; apply all_nil|].
    destruct (h_loc g); [|discriminate H]. destruct (h_in g) as [k|]; [|discriminate H]. destruct (negb _); [discriminate H|].
    assert (B : forall r, all (may (Accept fd)) (bracket (nonblock fl) k [KAccept k r (i_nk s)])) by (intros r; apply all_bracket; done).
    destruct (a_acc a) as [p|e].
    + destruct (reserve _ _ _ _ _ _). destruct (_ <? 0); injection H as _ <- _; [apply all_app; [apply B|apply all_one; done]|apply B].
    + destruct (_ && _); [injection H as _ <- _; apply B|]. kf H. apply B.
  - apply (send_all _ _ _ _ _ _ _ _ _ _ H); [intros e; destruct e; done|]. intros k x r. cbn. apply bool_decide_eq_true_2. done.
  - unfold sendto_call in H. assert (HB : forall e, binding e = true -> may (Sendto fd bs x) e = true) by (intros e; destruct e; done).
    assert (HP : forall k y r, may (Sendto fd bs x) (KSend k bs y r) = true) by (intros; apply bool_decide_eq_true_2; done).
    destruct (no_dest x); [exact (send_all _ _ _ _ _ _ _ _ _ _ H HB HP)|]. apply on_sock_go in H as [[_ ->]|(i & fl & raw & h & Hd & Hi & H)]; [apply all_nil|].
    exact (sendto_inner_all _ _ _ _ _ _ _ _ _ _ _ H HB (fun k r => HP k (Some x) r)).
  - unfold writev_call in H. apply on_sock_go in H as [[_ ->]|(i & fl & raw & h & Hd & Hi & H)]; [apply all_nil|].
    destruct (h_tcp h); [|injection H as _ <- _; apply all_nil]. apply (send_tcp_all _ _ _ _ _ _ _ _ H). intros. apply bool_decide_eq_true_2. done.
  - exact (recv_all _ _ _ _ _ _ _ _ _ _ _ H).
  - unfold shutdown_call in H. destruct (negb _); [injection H as _ <- _; apply all_nil|]. destruct (negb _); [injection H as _ <- _; apply all_nil|].
    apply on_sock_go in H as [[_ ->]|(i & fl & raw & h & Hd & Hi & H)]; [apply all_nil|]. destruct (shut_inner _ _ _ _ _) as [[[[s1 h1] t1] r]|] eqn:E; [|discriminate H].
    assert (B : all (may (Shutdown fd how)) t1).
    { unfold shut_inner in E. destruct (h_in h) as [k|]; [|injection E as _ _ <- _; apply all_nil].
      assert (B : forall e, all (may (Shutdown fd how)) [KShut k how e]) by (intros e; apply all_one, Z.eqb_refl).
      destruct (negb _); [destruct (kerr _); [|discriminate E]; injection E as _ _ <- _; apply B|]. destruct (if _ || _ then h_loc h else None); [|injection E as _ _ <- _; apply B].
      destruct (release _ _ _ _ _) as [[p r0]|]; [|discriminate E]. destruct (r0 <? 0); injection E as _ _ <- _; apply B. }
    destruct (r <? 0); [injection H as _ <- _; exact B|]. destruct (how =? SHUT_RDWR); [|injection H as _ <- _; exact B].
    destruct (drop_fd _ _ _ _) as [[s3 t3]|] eqn:Ed; [|discriminate H]. injection H as _ <- _. apply all_app; [exact B|].
    destruct (drop_fd_tr _ _ _ _ _ _ Ed) as [->|(k & ->)]; [apply all_nil|apply all_one; done].
  - unfold close_call in H. destruct (negb _); [discriminate H|]. destruct (i_fds s !! (c, fd)); [|injection H as _ <- _; apply all_nil].
    destruct (drop_fd _ _ _ _) as [[s3 t3]|] eqn:Ed; [|discriminate H]. injection H as _ <- _. destruct (drop_fd_tr _ _ _ _ _ _ Ed) as [->|(k & ->)]; [apply all_nil|apply all_one; done].
  - unfold dup_call in H. destruct (_ =? 0); [injection H as _ <- _; apply all_nil|]. destruct (negb _); [injection H as _ <- _; apply all_nil|].
    destruct (i_fds s !! (c, fd)); [|injection H as _ <- _; apply all_nil]. destruct (next_fd s c); injection H as _ <- _; apply all_nil.
  - unfold dup2_call in H. destruct (negb _); [injection H as _ <- _; apply all_nil|]. destruct (_ =? _); [injection H as _ <- _; apply all_nil|].
    destruct (negb _); [injection H as _ <- _; apply all_nil|]. destruct (i_fds s !! (c, fd)); [|injection H as _ <- _; apply all_nil].
    destruct (i_fds s !! (c, fd2)) as [[j fl raw|]|]; [|injection H as _ <- _; apply all_nil|injection H as _ <- _; apply all_nil].
    destruct (drop_hdl _ _ _) as [[s2 tr]|] eqn:Eh; [|discriminate H]. injection H as _ <- _.
    apply drop_hdl_spec in Eh as [(_ & _ & ->)|[(_ & _ & _ & ->)|(h & _ & _ & _ & _ & _ & _ & _ & ->)]]; [apply all_nil|apply all_nil|]. destruct (h_in h); [apply all_one; done|apply all_nil].
  - injection H as _ <- _. apply all_nil.
  - unfold getpeername_call in H. destruct (negb _); [injection H as _ <- _; apply all_nil|]. apply on_sock_go in H as [[_ ->]|(i & fl & raw & h & Hd & Hi & H)]; [apply all_nil|].
    destruct (h_rem h); injection H as _ <- _; apply all_nil.
  - unfold getsockname_call in H. destruct (negb _); [injection H as _ <- _; apply all_nil|]. apply on_sock_go in H as [[_ ->]|(i & fl & raw & h & Hd & Hi & H)]; [apply all_nil|].
    injection H as _ <- _; apply all_nil.
  - unfold setopt_call in H. destruct (negb _); [injection H as _ <- _; apply all_nil|]. apply on_sock_go in H as [[_ ->]|(i & fl & raw & h & Hd & Hi & H)]; [apply all_nil|].
    destruct (negb _); [injection H as _ <- _; apply all_nil|]. cbv zeta in H. match type of H with match ?x with _ => _ end = _ => destruct x as [k|] end; [|injection H as _ <- _; apply all_nil].
    destruct (_ =? 0); [injection H as _ <- _|kf H]; apply all_one; cbn; rewrite !Z.eqb_refl; done.
  - unfold getfl_call in H. apply on_sock_go in H as [[_ ->]|(i & fl & raw & h & Hd & Hi & H)]; [apply all_nil|]. injection H as _ <- _; apply all_nil.
  - unfold setfl_call in H. apply on_sock_go in H as [[_ ->]|(i & fl & raw & h & Hd & Hi & H)]; [apply all_nil|]. destruct (_ <? 0); [injection H as _ <- _; apply all_nil|].
    destruct (h_in h); [|injection H as _ <- _; apply all_nil]. destruct (_ =? 0); [injection H as _ <- _|kf H; apply all_nil]. apply all_one. cbn. apply Bool.eqb_reflx.
  - unfold fionbio_call in H. apply on_sock_go in H as [[_ ->]|(i & fl & raw & h & Hd & Hi & H)]; [apply all_nil|].
    destruct (h_in h); [|injection H as _ <- _; apply all_nil]. destruct (a_mode a =? 0); [injection H as _ <- _|kf H; apply all_nil]. apply all_one. cbn. apply Bool.eqb_reflx.
  - unfold select_read_call in H. destruct (sel_read s c fds) as [[l|]|]; [|injection H as _ <- _; apply all_nil|discriminate H].
    destruct (bool_decide _); injection H as _ <- _; [apply all_nil|apply all_one; done].
  - apply sel_write_move in H as [-> Ht]; [|exact V]. intros e He. destruct (Ht e He) as (k & -> & _). done.
Qed.

(** A call that sends on a connection *)
Lemma send_ops devs s c o a s' t out k bs r : iinv s -> step devs s c o a = IGo s' t out -> KSend k bs None r ∈ t ->
  exists fd i h, (o = Send fd bs \/ (exists x, o = Sendto fd bs x) \/ o = Writev fd bs) /\ sock_of s c fd = Some i /\ i_h s !! i = Some h /\
    t = [KSend k bs None r] /\ h_in h = Some k /\ h_tcp h = true /\ (h_st h = Conn \/ h_st h = WrOnly) /\ r = a_send a /\ s' = s /\
    out = IRet (if r <? 0 then match kerr (- r) with Some e => e | None => 0 end else r).
Proof.
  intros V H Hin. pose proof (step_may _ _ _ _ _ _ _ _ V H _ Hin) as Hm.
  assert (K : forall h bs0, send_tcp s h bs0 a = IGo s' t out -> t = [KSend k bs None r] /\ bs0 = bs /\ h_in h = Some k /\ (h_st h = Conn \/ h_st h = WrOnly) /\ r = a_send a /\ s' = s /\
    out = IRet (if r <? 0 then match kerr (- r) with Some e => e | None => 0 end else r)).
  { intros h bs0 E. unfold send_tcp in E. destruct (h_st h); try (injection E as _ <- _; inversion Hin; fail).
    all: destruct (h_in h) as [k0|]; [|discriminate E]; destruct (a_send a <? 0) eqn:El.
    all: try (apply kfail_go in E as (-> & -> & e & -> & Ee)); try (injection E as <- <- <-); apply elem_of_list_singleton in Hin; injection Hin as -> -> ->; rewrite El; rewrite ?Ee; auto 10. }
  assert (N : forall i h bs0 x, sendto_inner devs s i h bs0 x a = IGo s' t out -> False).
  { intros i h bs0 x E. pose proof (sendto_inner_all _ _ _ _ _ _ _ _ _ _ (fun e => match e with KSend _ _ None _ => false | _ => true end) E) as A.
    specialize (A ltac:(intros e; destruct e; done) ltac:(done) _ Hin). discriminate A. }
  assert (S : forall fd bs0, send_call devs s c fd bs0 a = IGo s' t out -> exists i h, sock_of s c fd = Some i /\ i_h s !! i = Some h /\
    t = [KSend k bs None r] /\ bs0 = bs /\ h_in h = Some k /\ h_tcp h = true /\ (h_st h = Conn \/ h_st h = WrOnly) /\ r = a_send a /\ s' = s /\
    out = IRet (if r <? 0 then match kerr (- r) with Some e => e | None => 0 end else r)).
  { intros fd bs0 E. unfold send_call in E. apply on_sock_go in E as [[_ ->]|(i & fl & raw & h & Hd & Hi & E)]; [inversion Hin|]. exists i, h.
    split; [unfold sock_of; rewrite Hd; done|]. split; [exact Hi|]. destruct (h_tcp h).
    - destruct (K _ _ E) as (A1 & A2 & A3 & A4 & A5 & A6 & A7). auto 10.
    - exfalso. destruct (h_rem h) as [x|]; [|injection E as _ <- _; inversion Hin]. destruct (no_dest x); [discriminate E|]. exact (N _ _ _ _ E). }
  destruct o; try discriminate Hm; cbn [step] in H.
  - destruct (S _ _ H) as (i & h & A1 & A2 & A3 & <- & A4). exists fd, i, h. auto.
  - unfold sendto_call in H. destruct (no_dest x).
    + destruct (S _ _ H) as (i & h & A1 & A2 & A3 & <- & A4). exists fd, i, h. split; [right; left; eauto|auto].
    + exfalso. apply on_sock_go in H as [[_ ->]|(i & fl & raw & h & Hd & Hi & E)]; [inversion Hin|]. exact (N _ _ _ _ E).
  - unfold writev_call in H. apply on_sock_go in H as [[_ ->]|(i & fl & raw & h & Hd & Hi & E)]; [inversion Hin|]. exists fd, i, h.
    destruct (h_tcp h) eqn:Et; [|injection E as _ <- _; inversion Hin]. destruct (K _ _ E) as (A1 & -> & A3 & A4 & A5 & A6 & A7).
    split; [auto|]. split; [unfold sock_of; rewrite Hd; done|]. auto 10.
Qed.

Lemma send_est devs ev1 e ev2 s k bs r : history devs (ev1 ++ e :: ev2) s -> KSend k bs None r ∈ e_tr e ->
  exists fd i, (e_op e = Send fd bs \/ (exists x, e_op e = Sendto fd bs x) \/ e_op e = Writev fd bs) /\
    sock_of (e_pre e) (e_cage e) fd = Some i /\ owns (e_pre e) i k /\ e_tr e = [KSend k bs None r] /\
    (established (calls ev1) k \/ shut_by ev1 i) /\ (0 <= r -> e_out e = IRet r).
Proof.
  intros H Hin. destruct (history_at _ _ _ _ _ H) as (s1 & H1 & Hv & Hs & _). destruct (history_inv _ _ _ H1) as [V T]. pose proof (history_jinv _ _ _ H1) as J.
  destruct (send_ops _ _ _ _ _ _ _ _ _ _ _ V Hs Hin) as (fd & i & h & Ho & Hi & Hh & Et & Hk & Htcp & Hst & _ & _ & Hout).
  exists fd, i. split; [exact Ho|]. split; [exact Hi|]. split; [exists h; auto|]. split; [exact Et|]. destruct (J i h Hh) as (A & B & C & D). split.
  - destruct Hst as [Hst|Hst]; [destruct (A Hst) as (k0 & Hk0 & He); left; congruence|right; auto].
  - intros Hr. rewrite Hout. destruct (Z.ltb_spec r 0); [lia|done].
Qed.

Lemma connect_est devs ev1 e ev2 s t1 t2 k x r : history devs (ev1 ++ e :: ev2) s -> e_tr e = t1 ++ KConnect k x r :: t2 ->
  (exists fd, e_op e = Connect fd x) /\ (established (calls ev1 ++ t1) k -> exists i, owns (e_pre e) i k /\ shut_by ev1 i).
Proof.
  intros H E. destruct (history_at _ _ _ _ _ H) as (s1 & H1 & Hv & Hs & _). destruct (history_inv _ _ _ H1) as [V T]. pose proof (history_jinv _ _ _ H1) as J.
  assert (Hc : conn_ev (KConnect k x r)) by (right; eauto).
  destruct (moves_at _ _ _ _ _ _ _ _ _ _ _ V Hv Hs E Hc) as (i & h & g & nk & nk' & g' & Hi & Hch & Ha).
  assert (Hg : h_in g = Some k /\ h_st g = NotConn) by (inversion Ha; subst; auto). destruct Hg as [Hk Hst]. split.
  - assert (Hin : KConnect k x r ∈ e_tr e) by (rewrite E; apply elem_of_app; right; left). pose proof (step_may _ _ _ _ _ _ _ _ V Hs _ Hin) as Hm.
    destruct (e_op e) eqn:Eo; try discriminate Hm. exists fd. f_equal.
    cbn [step] in Hs. unfold connect_call in Hs. apply on_sock_go in Hs as [[_ Et]|(i' & fl & raw & h' & Hd & Hi' & Hs)]; [rewrite Et in Hin; inversion Hin|].
    destruct (negb _); [injection Hs as _ Et _; rewrite <- Et in Hin; inversion Hin|].
    assert (NB : forall l, all binding l -> KConnect k x r ∉ l). { intros l Hl He. specialize (Hl _ He). discriminate Hl. }
    assert (K : forall sx hx kx tr, all binding tr -> connect_kernel sx (e_cage e) fd i' fl hx kx tr x0 (e_ans e) = IGo s1 (e_tr e) (e_out e) -> x0 = x).
    { intros sx hx kx tr A Ex. unfold connect_kernel in Ex. assert (F : e_tr e = tr ++ [KConnect kx x0 (a_conn (e_ans e))]).
      { destruct (_ =? 0); [injection Ex as _ <- _; done|]. destruct (_ =? EINPROGRESS); [injection Ex as _ <- _; done|]. apply kfail_go in Ex as (_ & -> & _). done. }
      rewrite F in Hin. apply elem_of_app in Hin as [Hin|Hin%elem_of_list_singleton]; [destruct (NB _ A Hin)|congruence]. }
    destruct (h_tcp h').
    + unfold connect_tcp in Hs. destruct (negb _); [injection Hs as _ Et _; rewrite <- Et in Hin; inversion Hin|]. destruct (h_loc h').
      * destruct (h_in h') as [k0|]; [|discriminate Hs]. exact (K _ _ _ _ (all_nil _) Hs).
      * destruct (force_inner _ _ _) as [[[[sx hx] kx] tx]|] eqn:Ef; [|discriminate Hs]. apply force_all in Ef. destruct (assign _ _ _) as [s2 [y|e0]].
        -- assert (A : all binding (tx ++ [KBind kx y (a_bind (e_ans e))])) by (apply all_app; [exact Ef|apply all_one; done]).
           destruct (_ =? 0); [exact (K _ _ _ _ A Hs)|]. apply kfail_go in Hs as (_ & Et & _). rewrite Et in Hin. destruct (NB _ A Hin).
        -- injection Hs as _ Et _. rewrite <- Et in Hin. destruct (NB _ Ef Hin).
    + unfold connect_udp in Hs. destruct (h_loc _); [injection Hs as _ Et _; rewrite <- Et in Hin; inversion Hin|]. destruct (assign _ _ _) as [s2 [y|e0]]; [|injection Hs as _ Et _; rewrite <- Et in Hin; inversion Hin].
      destruct (bind_inner _ _ _ _ _ _) as [[[[s3 h3] tr] r3]|] eqn:Eb; [|discriminate Hs]. destruct (h_in h3); [|discriminate Hs]. injection Hs as _ Et _. rewrite <- Et in Hin. destruct (NB _ (bind_inner_all _ _ _ _ _ _ _ _ _ _ Eb) Hin).
  - pose proof (hats_notconn _ _ _ _ _ Hch Hst) as Hst0. destruct (hats_in _ _ _ _ _ k Hch Hk) as [Eh|Eh].
    + destruct (hats_jl _ _ _ _ _ _ _ Hch (tinv_fresh _ _ T) (fun k Hk => v_k _ V _ _ _ Hi Hk) (J i h Hi)) as [(_ & _ & _ & D) _].
      intros He. destruct (D k Hk He) as [Hx|Hx]; [congruence|]. exists i. split; [exists h; auto|exact Hx].
    + assert (J0 : jl (calls ev1) False h). { split; [|split; [|split]]; try congruence. intros [?|?]; congruence. }
      destruct (hats_jl _ _ _ _ _ _ _ Hch (tinv_fresh _ _ T) (fun k Hk => v_k _ V _ _ _ Hi Hk) J0) as [(_ & _ & _ & D) _].
      intros He. destruct (D k Hk He); [congruence|done].
Qed.
