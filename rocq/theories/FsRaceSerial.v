(** Calls of processes that work on separate names: whatever they do at once
    they can also do in turn. *)
From stdpp Require Import gmap.
From Verif Require Import Base PathModel PathSpec FsModel FsSpec FsWalk FsRaceModel FsRaceSpec FsRaceOrder FsRaceProofs.
Local Open Scope list_scope.
Local Open Scope Z_scope.

(** ** Steps without waiting for locks *)
Definition ust (i : nat) (s s' : rst) : Prop :=
  r_dead s = false /\ exists t e tick t', r_proc s !! i = Some t /\
    move (r_tab s) (r_next s) t = Some (Done (e, tick, t')) /\
    s' = Rst (perform e (r_tab s)) (if (tick : bool) then r_next s + 1 else r_next s) (<[i := t']> (r_proc s)) false.
Definition upan (i : nat) (s : rst) : Prop :=
  r_dead s = false /\ exists t, r_proc s !! i = Some t /\ move (r_tab s) (r_next s) t = Some Panic.
Definition pcs (P : rpc -> bool) (i : nat) (s : rst) : Prop := exists t, r_proc s !! i = Some t /\ P (t_pc t) = true.

Lemma rgo_ust s i s' :
  rgo s i = Some s' -> ust i s s' \/ (upan i s /\ s' = Rst (r_tab s) (r_next s) (r_proc s) true).
Proof.
  unfold rgo. destruct (r_dead s) eqn:Ed; [discriminate|]. destruct (r_proc s !! i) as [t|] eqn:Et; [|discriminate].
  destruct (waits _ _ _); [discriminate|]. destruct (move (r_tab s) (r_next s) t) as [[[[e tick] t']|]|] eqn:Em; [| |discriminate].
  - intros [= <-]. left. split; [exact Ed|]. exists t, e, tick, t'. auto.
  - intros [= <-]. right. split; [|reflexivity]. split; [exact Ed|]. exists t. auto.
Qed.

Lemma no_wait s i p : (forall j, j <> i -> at_rest j s) -> waits (r_proc s) i p = false.
Proof.
  intros H. unfold waits. destruct (takes p) as [x|]; [|reflexivity]. apply not_true_is_false. intros Hx.
  apply existsb_exists in Hx as ([j t] & Hin & Hb). cbn in Hb. apply andb_true_iff in Hb as [Hj Hh].
  apply negb_true_iff, Nat.eqb_neq in Hj. apply bool_decide_eq_true in Hh.
  apply elem_of_list_In, elem_of_lookup_imap in Hin as (j' & t' & [= <- <-] & Hl).
  rewrite (H j Hj t Hl) in Hh. discriminate Hh.
Qed.

Lemma ust_rgo s i s' : (forall j, j <> i -> at_rest j s) -> ust i s s' -> rgo s i = Some s'.
Proof.
  intros Hr (Hd & t & e & tick & t' & Ht & Hm & ->). unfold rgo. rewrite Hd, Ht, no_wait by exact Hr. rewrite Hm. reflexivity.
Qed.
Lemma upan_rgo s i :
  (forall j, j <> i -> at_rest j s) -> upan i s -> rgo s i = Some (Rst (r_tab s) (r_next s) (r_proc s) true).
Proof.
  intros Hr (Hd & t & Ht & Hm). unfold rgo. rewrite Hd, Ht, no_wait by exact Hr. rewrite Hm. reflexivity.
Qed.

Lemma ust_other i j s s1 : i <> j -> ust j s s1 -> r_proc s1 !! i = r_proc s !! i.
Proof. intros Hij (_ & t & e & tick & t' & _ & _ & ->). cbn. apply list_lookup_insert_ne. congruence. Qed.

Lemma ust_det i s a b : ust i s a -> ust i s b -> a = b.
Proof.
  intros (_ & t & e & k & t' & Ht & Hm & ->) (_ & u & e' & k' & u' & Hu & Hm' & ->).
  rewrite Ht in Hu. injection Hu as <-. rewrite Hm in Hm'. injection Hm' as <- <- <-. reflexivity.
Qed.

Section serial.
  Context (bs : list (list string)) (sh : list string -> Z -> Prop) (Hso : shared_ok bs sh).

  Definition okproc (own : Z -> nat -> Prop) (tab : gmap Z inode) (i : nat) (b : list string) (t : proc) : Prop :=
    okpc sh own tab i b (t_pc t) /\ (forall o, o ∈ t_todo t -> okop b o) /\
    (forall x, Some x ∈ t_open t -> own x i).

  Record inv (own : Z -> nat -> Prop) (s : rst) : Prop := {
    n_dirs : dirs bs sh own (r_tab s);
    n_owns : owns sh own (r_next s);
    n_fresh : forall x, r_next s <= x -> r_tab s !! x = None;
    n_proc : forall i t, r_proc s !! i = Some t -> exists b, bs !! i = Some b /\ okproc own (r_tab s) i b t
  }.

  Definition ext (own : Z -> nat -> Prop) (next : Z) (i : nat) (tick : bool) : Z -> nat -> Prop :=
    fun x j => own x j \/ (tick = true /\ x = next /\ j = i).

  Lemma okproc_mono (own own' : Z -> nat -> Prop) tab i b t :
    (forall x, own x i -> own' x i) -> okproc own tab i b t -> okproc own' tab i b t.
  Proof.
    intros Hm (H1 & H2 & H3). split; [exact (okpc_mono sh own own' tab i b _ Hm H1)|]. split; [exact H2|].
    intros x Hx. exact (Hm _ (H3 x Hx)).
  Qed.

  Lemma lead_ok own tab i b r t :
    okres sh own tab i b r -> (forall o, o ∈ t_todo t -> okop b o) -> (forall x, Some x ∈ t_open t -> own x i) ->
    okproc own tab i b (lead r t).
  Proof.
    intros Hr Ht Ho. destruct r as [p|o|x]; cbn in *; (split; [first [exact Hr|exact I]|]); (split; [exact Ht|]); [exact Ho|exact Ho|].
    cbn. intros y Hy. apply elem_of_app in Hy as [Hy|Hy]; [exact (Ho y Hy)|]. apply elem_of_list_singleton in Hy. injection Hy as ->. exact Hr.
  Qed.

  Lemma move_ok own tab next i b t e tick t' :
    bs !! i = Some b -> dirs bs sh own tab -> okproc own tab i b t ->
    move tab next t = Some (Done (e, tick, t')) ->
    legal sh own tab i b e /\ tick = is_num (t_pc t) /\ okproc (ext own next i tick) (perform e tab) i b t'.
  Proof.
    intros Hb Hd (Hpc & Htodo & Hop) Hm.
    assert (Hact : forall p, t_pc t = p -> is_num p = false ->
      (do a <- act tab next p; let '(e, tick, r) := a in Done (e, tick, lead r t)) = Done (e, tick, t') ->
      legal sh own tab i b e /\ tick = false /\ okproc (ext own next i tick) (perform e tab) i b t').
    { intros p Ep Hn Ha. destruct (act tab next p) as [[[e0 k0] r0]|] eqn:Ea; [|discriminate Ha].
      cbn [obind] in Ha. injection Ha as <- <- <-. rewrite Ep in Hpc.
      destruct (act_ok bs sh Hso own tab next i b p e0 k0 r0 Hb Hd Hpc Hn Ea) as (H1 & H2 & H3).
      split; [exact H1|]. split; [exact H2|]. apply (okproc_mono own); [intros x Hx; left; exact Hx|].
      apply lead_ok; assumption. }
    unfold move in Hm. destruct (t_pc t) as [| | | | | |o par f| | | | | | | | | | | | | | |] eqn:Ep;
      try (apply (f_equal (fun x => match x with Some y => y | None => Panic end)) in Hm; exact (Hact _ eq_refl eq_refl Hm)).
    - destruct (t_todo t) as [|o rest] eqn:Etd; [discriminate Hm|]. injection Hm as Hm.
      assert (Ho : okop b o) by (apply Htodo, elem_of_list_here).
      assert (Hrest : forall o', o' ∈ rest -> okop b o') by (intros o' Ho'; apply Htodo, elem_of_list_further, Ho').
      destruct (begin o (t_open t)) as [r|] eqn:Eb; [|discriminate Hm]. cbn [obind] in Hm. injection Hm as <- <- <-.
      split; [exact I|]. split; [reflexivity|]. apply (okproc_mono own); [intros x Hx; left; exact Hx|].
      apply lead_ok; cbn; [|exact Hrest|].
      + destruct o as [p|p m|p fl m|p m|p m dv|a c|p|p|a c|k]; cbn in Eb;
          try (injection Eb as <-; cbn; split; [exact I|]; split; [exact Ho|]; exact I).
        * destruct (file_name c); [|discriminate Eb]. injection Eb as <-. cbn. split; [exact I|]. split; [exact Ho|exact I].
        * destruct (t_open t !! k) as [[x|]|] eqn:Ek; injection Eb as <-; cbn; try exact I.
          apply Hop. apply elem_of_list_lookup. eauto.
      + intros x Hx. apply Hop. destruct o; cbn in Hx; try exact Hx.
        apply elem_of_list_lookup in Hx as [j Hj]. apply list_lookup_insert_Some in Hj as [(_ & [=] & _)|[_ Hj]].
        apply elem_of_list_lookup. eauto.
    - injection Hm as <- <- <-. split; [exact I|]. split; [reflexivity|]. cbn [perform].
      destruct Hpc as [Hpar Hdir]. split; [|split; [exact Htodo|intros x Hx; left; exact (Hop x Hx)]].
      cbn. split; [|split; [exact Hdir|right; auto]].
      destruct Hpar as [Hpar|Hpar]; [left; left; exact Hpar|right; exact Hpar].
  Qed.

  Lemma owns_ext own next i tick :
    owns sh own next -> owns sh (ext own next i tick) (if (tick : bool) then next + 1 else next).
  Proof.
    intros [Wf Wl Ws Wsl]. split.
    - intros x j k [Hj|(_ & -> & ->)] [Hk|(_ & E & ->)]; [exact (Wf _ _ _ Hj Hk)|subst|idtac|reflexivity].
      + apply Wl in Hj. lia.
      + apply Wl in Hk. lia.
    - intros x j [Hj|(-> & -> & ->)]; [apply Wl in Hj; destruct tick; lia|lia].
    - intros p d j Hp [Hj|(_ & -> & ->)]; [exact (Ws _ _ _ Hp Hj)|]. apply Wsl in Hp. lia.
    - intros p d Hp. apply Wsl in Hp. destruct tick; lia.
  Qed.

  Lemma dirs_ext own tab next i tick :
    (forall x, next <= x -> tab !! x = None) -> dirs bs sh own tab -> dirs bs sh (ext own next i tick) tab.
  Proof.
    intros Hf [D1 D2]. split.
    - intros p d Hp. destruct (D1 p d Hp) as (x & E & K & L & S & O). exists x. split; [exact E|]. split; [exact K|].
      split; [exact L|]. split; [exact S|]. intros j f e Hj He. left. exact (O _ _ _ Hj He).
    - intros x j y f e [Hj|(_ & -> & ->)] Ey K F1 Ee; [left; exact (D2 _ _ _ _ _ Hj Ey K F1 Ee)|].
      rewrite Hf in Ey by lia. discriminate Ey.
  Qed.

  Lemma legal_fresh own next tab i b e x :
    owns sh own next -> legal sh own tab i b e -> next <= x -> tab !! x = None -> perform e tab !! x = None.
  Proof.
    intros [Wf Wl Ws Wsl] Hl Hx Ht. destruct e as [[y d]|]; [|exact Ht].
    rewrite (perform_ne _ _ y d); [exact Ht|reflexivity|]. intros ->.
    destruct Hl as [[Hy _]|(p & f & _ & Hp & _)]; [apply Wl in Hy; lia|apply Wsl in Hp; lia].
  Qed.

  Lemma keep_ok own next tab i j a b e p :
    bs !! i = Some a -> bs !! j = Some b -> i <> j -> dirs bs sh own tab -> owns sh own next -> legal sh own tab i a e ->
    okpc sh own tab j b p -> okpc sh own (perform e tab) j b p.
  Proof.
    intros Ha Hb Hij D W Hl. apply okpc_tab. intros q (x & Ex & Kx) Hq.
    destruct (perform_agree bs sh Hso own next tab i j a b e Ha Hb Hij D W Hl) as [A1 A2].
    destruct Hq as [Hq|[p0 Hq]].
    - rewrite (A1 q Hq) in Ex. exists x. auto.
    - destruct (d_dir bs sh own _ (perform_dirs bs sh Hso own next tab i a e Ha D W Hl) _ _ Hq) as (y & Ey & Ky & _).
      exists y. auto.
  Qed.

  Lemma inv_step own s i s' : inv own s -> ust i s s' -> exists own', inv own' s' /\ (forall x j, own x j -> own' x j).
  Proof.
    intros [D W Fr Pr] (Hd & t & e & tick & t' & Ht & Hm & ->).
    destruct (Pr i t Ht) as (b & Hb & Hok).
    destruct (move_ok own _ _ i b t e tick t' Hb D Hok Hm) as (Hl & _ & Hok').
    pose proof (perform_dirs bs sh Hso own _ _ i b e Hb D W Hl) as D'.
    assert (Fr' : forall x, r_next s <= x -> perform e (r_tab s) !! x = None).
    { intros x Hx. exact (legal_fresh own _ _ i b e x W Hl Hx (Fr x Hx)). }
    exists (ext own (r_next s) i tick). split; [|intros x j Hx; left; exact Hx]. split; cbn.
    - exact (dirs_ext own _ _ i tick Fr' D').
    - apply owns_ext, W.
    - intros x Hx. apply Fr'. destruct tick; lia.
    - intros j u Hu. apply list_lookup_insert_Some in Hu as [(<- & <- & _)|[Hij Hu]].
      + exists b. split; [exact Hb|]. exact Hok'.
      + destruct (Pr j u Hu) as (c & Hc & Hku). exists c. split; [exact Hc|].
        apply (okproc_mono own); [intros x Hx; left; exact Hx|]. destruct Hku as (K1 & K2 & K3).
        split; [|split; [exact K2|exact K3]].
        exact (keep_ok own _ _ i j b c e _ Hb Hc Hij D W Hl K1).
  Qed.

  (** What a process does next is not changed by a step of another. *)
  Lemma move_same own s i j t u e tick u' :
    inv own s -> i <> j -> ~ (pcs is_num i s /\ pcs is_num j s) ->
    r_proc s !! i = Some t -> r_proc s !! j = Some u ->
    move (r_tab s) (r_next s) u = Some (Done (e, tick, u')) ->
    move (perform e (r_tab s)) (if (tick : bool) then r_next s + 1 else r_next s) t = move (r_tab s) (r_next s) t.
  Proof.
    intros [D W Fr Pr] Hij Hl Ht Hu Hm.
    destruct (Pr i t Ht) as (a & Ha & Hoki). destruct (Pr j u Hu) as (b & Hb & Hokj).
    destruct (move_ok own _ _ j b u e tick u' Hb D Hokj Hm) as (Hle & Etick & _).
    assert (Hact : act (perform e (r_tab s)) (if (tick : bool) then r_next s + 1 else r_next s) (t_pc t)
                   = act (r_tab s) (r_next s) (t_pc t)).
    { symmetry. apply (act_agree bs sh Hso own _ _ _ _ i a _ Ha D).
      - exact (perform_dirs bs sh Hso own _ _ j b e Hb D W Hle).
      - exact (perform_agree bs sh Hso own _ _ j i b a e Hb Ha (not_eq_sym Hij) D W Hle).
      - exact (proj1 Hoki).
      - intros Hn. destruct tick; [|reflexivity]. exfalso. apply Hl. split; [exists t; auto|exists u; auto]. }
    unfold move. destruct (t_pc t) eqn:Ep; [destruct (t_todo t); reflexivity|..]; rewrite Hact; reflexivity.
  Qed.

  Lemma ust_dia own i j s a b :
    inv own s -> i <> j -> ~ (pcs is_num i s /\ pcs is_num j s) -> ust i s a -> ust j s b ->
    exists c, ust j a c /\ ust i b c.
  Proof.
    intros Hinv Hij Hl (Hd & t & e & k & t' & Ht & Hm & ->) (_ & u & e2 & k2 & u' & Hu & Hm2 & ->).
    assert (Hl' : ~ (pcs is_num j s /\ pcs is_num i s)) by tauto.
    pose proof (move_same own s j i u t e k t' Hinv (not_eq_sym Hij) Hl' Hu Ht Hm) as Su.
    pose proof (move_same own s i j t u e2 k2 u' Hinv Hij Hl Ht Hu Hm2) as St.
    assert (Hc : perform e2 (perform e (r_tab s)) = perform e (perform e2 (r_tab s))).
    { destruct Hinv as [D W Fr Pr]. destruct (Pr i t Ht) as (ba & Ha & Hoki). destruct (Pr j u Hu) as (bb & Hb & Hokj).
      destruct (move_ok own _ _ i ba t e k t' Ha D Hoki Hm) as (L1 & _).
      destruct (move_ok own _ _ j bb u e2 k2 u' Hb D Hokj Hm2) as (L2 & _).
      symmetry. exact (perform_comm bs sh Hso own _ (r_tab s) _ _ i j ba bb e e2 Ha Hb Hij W L1 L2). }
    assert (Hk : (if k2 then (if k then r_next s + 1 else r_next s) + 1 else (if k then r_next s + 1 else r_next s))
                 = (if k then (if k2 then r_next s + 1 else r_next s) + 1 else (if k2 then r_next s + 1 else r_next s))).
    { destruct k, k2; reflexivity. }
    eexists. split.
    - split; [reflexivity|]. exists u, e2, k2, u'. cbn. split; [rewrite list_lookup_insert_ne by exact Hij; exact Hu|].
      split; [rewrite Su; exact Hm2|reflexivity].
    - split; [reflexivity|]. exists t, e, k, t'. cbn. split; [rewrite list_lookup_insert_ne by congruence; exact Ht|].
      split; [rewrite St; exact Hm|]. rewrite Hc, Hk. rewrite list_insert_commute by congruence. reflexivity.
  Qed.

  Lemma ust_loc own i j s s1 t :
    inv own s -> i <> j -> ~ (pcs is_num i s /\ pcs is_num j s) -> ust j s s1 -> ust i s1 t -> exists u, ust i s u.
  Proof.
    intros Hinv Hij Hl Hj Hi. pose proof (ust_other i j s s1 Hij Hj) as Eo.
    destruct Hj as (Hd & u & e & k & u' & Hu & Hm & ->). destruct Hi as (_ & v & e2 & k2 & v' & Hv & Hm2 & _).
    rewrite Eo in Hv. cbn [r_tab r_next] in Hm2. rewrite (move_same own s i j v u e k u' Hinv Hij Hl Hv Hu Hm) in Hm2.
    eexists. split; [exact Hd|]. exists v, e2, k2, v'. split; [exact Hv|]. split; [exact Hm2|reflexivity].
  Qed.

  Lemma num_move tab next t : is_num (t_pc t) = true -> move tab next t <> Some Panic.
  Proof. unfold move. destruct (t_pc t); cbn; discriminate. Qed.

  Lemma ust_pan own i j s s1 : inv own s -> i <> j -> ust j s s1 -> upan i s <-> upan i s1.
  Proof.
    intros Hinv Hij Hj. pose proof (ust_other i j s s1 Hij Hj) as Eo.
    destruct Hj as (Hd & u & e & k & u' & Hu & Hm & ->). unfold upan. cbn [r_dead r_tab r_next]. rewrite Eo.
    assert (Hs : forall t, is_num (t_pc t) = false -> r_proc s !! i = Some t ->
      move (perform e (r_tab s)) (if k then r_next s + 1 else r_next s) t = move (r_tab s) (r_next s) t).
    { intros t Hn Ht. apply (move_same own s i j t u e k u' Hinv Hij); [|assumption..].
      intros [(t0 & Ht0 & Hn0) _]. rewrite Ht in Ht0. injection Ht0 as <-. rewrite Hn in Hn0. discriminate Hn0. }
    split; intros (_ & t & Ht & Hp); (split; [first [reflexivity|exact Hd]|]); exists t; (split; [exact Ht|]);
      (destruct (is_num (t_pc t)) eqn:En; [destruct (num_move _ _ t En Hp)|]);
      [rewrite (Hs t En Ht)|rewrite <- (Hs t En Ht)]; exact Hp.
  Qed.

  (** A creation that has its number is sure to succeed. *)
  Lemma finish_new i s t o par n :
    r_proc s !! i = Some t -> r_dead s = false -> t_pc t = New o par n -> exists z, ust i s z /\ at_rest i z.
  Proof.
    intros Ht Hd Ep. eexists. split.
    - split; [exact Hd|]. exists t. eexists _, _, _. split; [exact Ht|]. unfold move. rewrite Ep. cbn. split; reflexivity.
    - intros z. cbn. rewrite list_lookup_insert by (apply lookup_lt_Some in Ht; exact Ht).
      intros [= <-]. destruct o; reflexivity.
  Qed.

  Lemma finish own i s : inv own s -> r_dead s = false -> pcs is_post i s ->
    exists t, rtc (fun a b => pcs is_post i a /\ ust i a b) s t /\ at_rest i t.
  Proof.
    intros Hinv Hd (t & Ht & Hp). destruct (t_pc t) as [| | | | | | |o par f n|o par n| | | | | | | | | | | | |] eqn:Ep; try discriminate Hp.
    - destruct (n_proc _ _ Hinv i t Ht) as (b & Hb & (Hpc & _)). rewrite Ep in Hpc. destruct Hpc as (_ & (x & Ex & Kx) & _).
      assert (Hs : exists z u, ust i s z /\ r_proc z !! i = Some u /\ t_pc u = New o par n /\ r_dead z = false).
      { eexists _, _. split.
        - split; [exact Hd|]. exists t. eexists _, _, _. split; [exact Ht|]. unfold move. rewrite Ep. cbn. unfold fetch. rewrite Ex. cbn.
          rewrite Kx. cbn. split; reflexivity.
        - cbn. split; [apply list_lookup_insert; apply lookup_lt_Some in Ht; exact Ht|]. split; reflexivity. }
      destruct Hs as (z & u & Hz & Hu & Eu & Hdz). destruct (finish_new i z u o par n Hu Hdz Eu) as (y & Hy & Hr).
      exists y. split; [|exact Hr]. apply (rtc_l _ _ z); [split; [exists t; rewrite Ep; auto|exact Hz]|].
      apply rtc_once. split; [exists u; rewrite Eu; auto|exact Hy].
    - destruct (finish_new i s t o par n Ht Hd Ep) as (y & Hy & Hr). exists y. split; [|exact Hr].
      apply rtc_once. split; [exists t; rewrite Ep; auto|exact Hy].
  Qed.

  Lemma pcs_other P i j s s1 : i <> j -> ust j s s1 -> pcs P i s <-> pcs P i s1.
  Proof. intros Hij Hj. unfold pcs. rewrite (ust_other i j s s1 Hij Hj). reflexivity. Qed.
  Lemma rest_other i j s s1 : i <> j -> ust j s s1 -> at_rest i s <-> at_rest i s1.
  Proof. intros Hij Hj. unfold at_rest. rewrite (ust_other i j s s1 Hij Hj). reflexivity. Qed.

  Lemma pcs_dec P i s : pcs P i s \/ ~ pcs P i s.
  Proof.
    unfold pcs. destruct (r_proc s !! i) as [t|]; [|right; intros (t & [=] & _)].
    destruct (P (t_pc t)) eqn:E; [left; eauto|right; intros (u & [= <-] & Hu); congruence].
  Qed.
  Lemma rest_dec i s : at_rest i s \/ ~ at_rest i s.
  Proof.
    unfold at_rest. destruct (r_proc s !! i) as [t|]; [|left; intros t [=]].
    destruct (t_pc t) eqn:E; [left; intros u [= <-]; exact E|..]; right; intros H; specialize (H t eq_refl); rewrite E in H; discriminate H.
  Qed.

  Lemma after_no_post o k r e t p : after o k r = Done (e, t, Go p) -> is_post p = false.
  Proof.
    intros H. destruct r as [x q]. destruct o; cbn [after fst] in H;
      repeat (match type of H with
              | quiet (Go _) = _ => injection H as <- <- <-; reflexivity
              | quiet _ = _ => discriminate H
              | Panic = _ => discriminate H
              | context[match ?x with _ => _ end] => destruct x
              end).
  Qed.

  Lemma act_no_post tab next q e t p : act tab next q = Done (e, t, Go p) -> is_num q = false -> is_post q = false -> is_post p = false.
  Proof.
    intros H Hn Hp. destruct q as [|o k|o k cur has prev rest|x|x m|x fl|o par f|o par f n|o par n|o x|x par f|x er|x par f|x par f gone|x
                  |x par f|x par f|x par f rm|x|x par fo fn|x|x]; try discriminate Hn; try discriminate Hp; cbn [act] in H.
    2: { destruct (tab !! ROOTINO); [|discriminate H]. injection H as <- <- <-. reflexivity. }
    2: { destruct rest as [|f r]; [exact (after_no_post _ _ _ _ _ _ H)|].
         destruct cur as [d|]; [|exact (after_no_post _ _ _ _ _ _ H)].
         destruct (negb has); [discriminate H|]. destruct (fetch tab d) as [y|]; [|discriminate H]. cbn [obind] in H.
         destruct (i_kind y); try exact (after_no_post _ _ _ _ _ _ H).
         destruct (i_dict y !! f); injection H as <- <- <-; reflexivity. }
    all: repeat (match type of H with
              | quiet (Go _) = _ => injection H as <- <- <-; reflexivity
              | change _ _ (Go _) = _ => injection H as <- <- <-; reflexivity
              | quiet _ = _ => discriminate H
              | change _ _ (Back _) = _ => discriminate H
              | change _ _ (Opened _) = _ => discriminate H
              | Panic = _ => discriminate H
              | obind ?o _ = _ => destruct o; cbn [obind] in H
              | context[match ?x with _ => _ end] => destruct x
              end).
  Qed.

  Lemma ust_kind i s a : ust i s a -> ~ pcs is_num i s -> ~ pcs is_post i s -> ~ pcs is_post i a.
  Proof.
    intros (Hd & t & e & k & t' & Ht & Hm & ->) Hn Hp (u & Hu & Hpu). cbn in Hu.
    rewrite list_lookup_insert in Hu by (apply lookup_lt_Some in Ht; exact Ht). injection Hu as <-.
    assert (En : is_num (t_pc t) = false) by (apply not_true_is_false; intros E; apply Hn; exists t; auto).
    assert (Epo : is_post (t_pc t) = false) by (apply not_true_is_false; intros E; apply Hp; exists t; auto).
    assert (Hact : (do a <- act (r_tab s) (r_next s) (t_pc t); let '(e, tick, r) := a in Done (e, tick, lead r t)) = Done (e, k, t') -> False).
    { intros Ha. destruct (act _ _ _) as [[[e0 k0] r0]|] eqn:Ea; [|discriminate Ha]. cbn [obind] in Ha. injection Ha as <- <- <-.
      destruct r0 as [p|o|x]; cbn in Hpu; try discriminate Hpu. rewrite (act_no_post _ _ _ _ _ _ Ea En Epo) in Hpu. discriminate Hpu. }
    unfold move in Hm. destruct (t_pc t) eqn:Ep;
      try (apply (f_equal (fun x => match x with Some y => y | None => Panic end)) in Hm; exact (Hact Hm)).
    destruct (t_todo t) as [|o rest]; [discriminate Hm|]. injection Hm as Hm.
    destruct (begin o (t_open t)) as [r|] eqn:Eb; [|discriminate Hm]. cbn [obind] in Hm. injection Hm as <- <- <-.
    destruct r as [p|o'|x]; cbn in Hpu; try discriminate Hpu.
    destruct o; cbn in Eb; try (injection Eb as <-; discriminate Hpu).
    - destruct (file_name b); [|discriminate Eb]. injection Eb as <-. discriminate Hpu.
    - destruct (t_open t !! k) as [[x|]|]; try discriminate Eb. injection Eb as <-. discriminate Hpu.
  Qed.

  Lemma ust_lp i s a : pcs is_num i s -> ust i s a -> pcs is_post i a.
  Proof.
    intros (t0 & Ht0 & Hn) (Hd & t & e & k & t' & Ht & Hm & ->). rewrite Ht in Ht0. injection Ht0 as <-.
    eexists. cbn. split; [apply list_lookup_insert; apply lookup_lt_Some in Ht; exact Ht|].
    unfold move in Hm. destruct (t_pc t) eqn:Ep; try discriminate Hn. injection Hm as <- <- <-. reflexivity.
  Qed.

  (** ** The order *)
  Definition Inv (s : rst) : Prop := r_dead s = false /\ exists own, inv own s.

  Lemma Inv_step i s s' : Inv s -> ust i s s' -> Inv s'.
  Proof.
    intros [Hd [own Hi]] Hs. destruct (inv_step own s i s' Hi Hs) as (own' & Hi' & _). split; [|eauto].
    destruct Hs as (_ & t & e & k & t' & _ & _ & ->). reflexivity.
  Qed.

  Ltac order_side :=
    first
      [ exact Inv_step
      | exact ust_det
      | intros ? ? ? ? ? [_ [? Hi]]; apply (ust_dia _ _ _ _ _ _ Hi)
      | intros ? ? ? ? ? [_ [? Hi]]; apply (ust_loc _ _ _ _ _ _ Hi)
      | intros ? ? ? ?; apply rest_other
      | intros ? ? ? ?; apply pcs_other
      | intros ? ? ? _; apply ust_lp
      | intros ? ? [? [? Hi]]; apply (finish _ _ _ Hi); assumption
      | intros ? ? (t & Ht & Hp) Hr; rewrite (Hr t Ht) in Hp; discriminate Hp
      | intros ? ? (t & Ht & Hp) (u & Hu & Hn); rewrite Ht in Hu; injection Hu as <-; destruct (t_pc t); discriminate
      | intros ? ? ?; apply ust_kind
      | intros; apply pcs_dec
      | intros; apply rest_dec ].

  Lemma serial_rest s0 s :
    Inv s0 -> all_rest s0 -> rtc (any ust) s0 s -> all_rest s -> rtc (any (whole ust at_rest)) s0 s.
  Proof. apply (order_rest ust at_rest (pcs is_num) (pcs is_post) Inv); order_side. Qed.

  Lemma serial_pan s0 s i :
    Inv s0 -> all_rest s0 -> rtc (any ust) s0 s -> upan i s ->
    exists a m, rtc (any (whole ust at_rest)) s0 a /\ all_rest a /\ rtc (pre ust at_rest (pcs is_num) (pcs is_post) i) a m /\ upan i m.
  Proof.
    apply (order_pan ust upan at_rest (pcs is_num) (pcs is_post) Inv);
      first
        [ intros ? ? ? ? [_ [? Hi]]; apply (ust_pan _ _ _ _ _ Hi)
        | intros ? ? ? (_ & t & Ht & Hm) (_ & u & e & k & u' & Hu & Hm' & _); rewrite Ht in Hu; injection Hu as <-;
          rewrite Hm in Hm'; discriminate Hm'
        | order_side ].
  Qed.
End serial.

(** ** Back to runs with locks *)
Lemma goes_rtc i a b :
  (forall j, j <> i -> at_rest j a) -> rtc (fun x y => ~ at_rest i x /\ ust i x y) a b -> at_rest i b -> goes_on i a b.
Proof.
  intros Hr H. revert Hr. induction H as [a|a c b [Hn Hs] _ IH]; intros Hr Hb; [apply on_end; left; exact Hb|].
  apply (on_step _ _ c); [exact Hn|exact (ust_rgo _ _ _ Hr Hs)|]. apply IH; [|exact Hb].
  intros j Hj. apply (rest_other j i a c Hj Hs), Hr, Hj.
Qed.

Lemma whole_call i a b : all_rest a -> whole ust at_rest i a b -> one_call i a b /\ all_rest b.
Proof.
  intros Hr (Hi & a1 & H1 & H2 & H3).
  assert (Hr1 : forall j, j <> i -> at_rest j a1) by (intros j Hj; apply (rest_other j i a a1 Hj H1), Hr).
  split.
  - split; [exact Hi|]. exists a1. split; [apply ust_rgo; [intros j _; apply Hr|exact H1]|]. apply goes_rtc; assumption.
  - intros j. destruct (decide (j = i)) as [->|Hj]; [exact H3|].
    clear -H2 Hr1 Hj. induction H2 as [a1|a1 c b [_ Hs] _ IH]; [exact (Hr1 j Hj)|].
    apply IH. intros k Hk. apply (rest_other k i a1 c Hk Hs), Hr1, Hk.
Qed.

Lemma wholes_turn a b : all_rest a -> rtc (any (whole ust at_rest)) a b -> in_turn a b.
Proof.
  intros Hr H. revert Hr. induction H as [a|a c b [i Hi] _ IH]; intros Hr; [apply rtc_refl|].
  destruct (whole_call i a c Hr Hi) as [Hc Hr']. apply (rtc_l _ _ c); [exists i; exact Hc|exact (IH Hr')].
Qed.

Lemma goes_pan i a m :
  (forall j, j <> i -> at_rest j a) -> ~ at_rest i a -> rtc (pre ust at_rest (pcs is_num) (pcs is_post) i) a m -> upan i m ->
  goes_on i a (Rst (r_tab m) (r_next m) (r_proc m) true).
Proof.
  intros Hr Hn H. revert Hr Hn. induction H as [a|a c m (Hs & _ & _ & Hc) _ IH]; intros Hr Hn Hp.
  - apply (on_step _ _ _ _ Hn (upan_rgo _ _ Hr Hp)). apply on_end. right. reflexivity.
  - apply (on_step _ _ c); [exact Hn|exact (ust_rgo _ _ _ Hr Hs)|]. apply IH; [|exact Hc|exact Hp].
    intros j Hj. apply (rest_other j i a c Hj Hs), Hr, Hj.
Qed.

Lemma pan_call i a m :
  all_rest a -> rtc (pre ust at_rest (pcs is_num) (pcs is_post) i) a m -> upan i m ->
  one_call i a (Rst (r_tab m) (r_next m) (r_proc m) true).
Proof.
  intros Hr H Hp. split; [apply Hr|]. destruct H as [a|a c m (Hs & _ & _ & Hc) H].
  - eexists. split; [apply (upan_rgo _ _ (fun j _ => Hr j) Hp)|]. apply on_end. right. reflexivity.
  - exists c. split; [apply ust_rgo; [intros j _; apply Hr|exact Hs]|]. apply goes_pan; [|exact Hc|exact H|exact Hp].
    intros j Hj. apply (rest_other j i a c Hj Hs), Hr.
Qed.

Lemma rsteps_ust a b : rsteps a b ->
  rtc (any ust) a b \/ exists c i, rtc (any ust) a c /\ upan i c /\ b = Rst (r_tab c) (r_next c) (r_proc c) true.
Proof.
  intros H. induction H as [a|a c b [i Hi] Hcb IH]; [left; apply rtc_refl|].
  destruct (rgo_ust _ _ _ Hi) as [Hs|[Hp ->]].
  - destruct IH as [IH|(d & j & H1 & H2)].
    + left. apply (rtc_l _ _ c); [exists i; exact Hs|exact IH].
    + right. exists d, j. split; [|exact H2]. apply (rtc_l _ _ c); [exists i; exact Hs|exact H1].
  - right. exists a, i. split; [apply rtc_refl|]. split; [exact Hp|].
    inversion Hcb as [|x y z [j Hj] _]; [reflexivity|]. unfold rgo in Hj. cbn in Hj. discriminate Hj.
Qed.

(** ** The beginning *)
Section start.
  Context (tab : gmap Z inode) (next : Z) (bs : list (list string)) (Hsep : separate tab next bs).

  Definition shd (p : list string) (d : Z) : Prop :=
    (exists b f r, b ∈ bs /\ b = p ++ f :: r) /\ resolves tab p d.
  Definition ownd (x : Z) (i : nat) : Prop :=
    exists b p, bs !! i = Some b /\ canonical p /\ b `prefix_of` p /\ resolves tab p x.

  Lemma canon_pre b p : b ∈ bs -> p `prefix_of` b -> canonical p.
  Proof. intros Hb [k ->]. destruct (sep_canon _ _ _ Hsep _ Hb) as [Hc _]. apply Forall_app in Hc as [Hc _]. exact Hc. Qed.

  Lemma shd_canon p d : shd p d -> canonical p /\ concerns bs p.
  Proof.
    intros [(b & f & r & Hb & ->) _].
    assert (Hp : p `prefix_of` p ++ f :: r) by (exists (f :: r); reflexivity).
    split; [exact (canon_pre _ _ Hb Hp)|]. exists (p ++ f :: r). auto.
  Qed.

  Lemma apart_in a b : a ∈ bs -> b ∈ bs -> a `prefix_of` b -> a = b.
  Proof.
    intros Ha Hb H. apply elem_of_list_lookup in Ha as [i Hi]. apply elem_of_list_lookup in Hb as [j Hj].
    destruct (decide (i = j)) as [->|Hij]; [rewrite Hi in Hj; congruence|].
    destruct (sep_apart _ _ _ Hsep _ _ _ _ Hi Hj Hij H).
  Qed.

  Lemma not_below b p d : b ∈ bs -> shd p d -> ~ b `prefix_of` p.
  Proof.
    intros Hb [(c & f & r & Hc & ->) _] H.
    assert (E : b = p ++ f :: r) by (apply apart_in; [exact Hb|exact Hc|apply prefix_app_r, H]).
    destruct H as [k Hk]. rewrite E in Hk. apply (f_equal length) in Hk. rewrite !app_length in Hk. cbn in Hk. lia.
  Qed.

  Lemma shared_start : shared_ok bs shd.
  Proof.
    split.
    - intros p d e [_ Hd] [_ He]. exact (resolves_det _ _ _ _ Hd He).
    - intros p q d Hp Hq. destruct (shd_canon _ _ Hp) as [Cp Np], (shd_canon _ _ Hq) as [Cq Nq].
      destruct (sep_tree _ _ _ Hsep p q d Cp Cq Np Nq (proj2 Hp) (proj2 Hq)) as [E|(b & Hb & H & _)]; [exact E|].
      destruct (not_below _ _ _ Hb Hp H).
    - intros p d [H _]. exact H.
    - intros b p f r Hb E. destruct (sep_above _ _ _ Hsep b p f r Hb E) as (d & x & Hd & _).
      exists d. split; [exists b, f, r; auto|exact Hd].
    - intros d [_ H]. exact (resolves_nil _ _ H).
    - exact (sep_apart _ _ _ Hsep).
    - intros b Hb. exact (proj2 (sep_canon _ _ _ Hsep b Hb)).
  Qed.

  Lemma resolves_lt p i : canonical p -> resolves tab p i -> i < next.
  Proof.
    destruct (sep_next _ _ _ Hsep) as (H0 & _ & H1). intros Hc H. destruct p as [|f p _] using rev_ind.
    - rewrite (resolves_nil _ _ H). exact H0.
    - apply resolves_snoc in H as (d & x & _ & Hx & _ & Hf). apply Forall_app in Hc as [_ Hc]. apply Forall_inv in Hc.
      destruct (good_dots _ Hc) as [N1 N2]. apply (H1 d f i). split; [exact N1|]. split; [exact N2|]. eauto.
  Qed.

  Lemma dirs_start : dirs bs shd ownd tab.
  Proof.
    split.
    - intros p d [(b & f & r & Hb & E) Hd]. destruct (sep_above _ _ _ Hsep b p f r Hb E) as (d' & x & Hd' & Hx & Hk & Hz).
      rewrite (resolves_det _ _ _ _ Hd' Hd) in Hx. exists x. split; [exact Hx|]. split; [exact Hk|]. split; [exact Hz|]. split.
      + intros g e [_ He]. apply resolves_snoc in He as (d2 & y & Hd2 & Hy & _ & Hg).
        rewrite (resolves_det _ _ _ _ Hd2 Hd) in Hy. rewrite Hx in Hy. injection Hy as <-. exact Hg.
      + intros i g e Hi Hg. exists (p ++ [g]), (p ++ [g]). split; [exact Hi|].
        split; [apply (sep_canon _ _ _ Hsep); apply elem_of_list_lookup; eauto|]. split; [reflexivity|].
        exact (res_step _ _ _ _ _ _ Hd Hx Hk Hg).
    - intros x i y f e (b & p & Hb & Hc & Hp & Hr) Hx Hk Hf He. exists b, (p ++ [f]). split; [exact Hb|].
      split; [apply Forall_app; split; [exact Hc|apply Forall_singleton; exact Hf]|]. split; [apply prefix_app_r, Hp|].
      exact (res_step _ _ _ _ _ _ Hr Hx Hk He).
  Qed.

  Lemma owns_start : owns shd ownd next.
  Proof.
    split.
    - intros x i j (a & p & Ha & Cp & Hp & Rp) (b & q & Hb & Cq & Hq & Rq).
      assert (Ia : a ∈ bs) by (apply elem_of_list_lookup; eauto). assert (Ib : b ∈ bs) by (apply elem_of_list_lookup; eauto).
      assert (H : exists c, c ∈ bs /\ c `prefix_of` p /\ c `prefix_of` q).
      { destruct (sep_tree _ _ _ Hsep p q x Cp Cq) as [E|H]; [exists a; auto|exists b; auto|exact Rp|exact Rq| |exact H].
        subst q. exists a. auto. }
      destruct H as (c & Ic & H1 & H2).
      assert (Eq : forall u v r, u ∈ bs -> v ∈ bs -> u `prefix_of` r -> v `prefix_of` r -> u = v).
      { intros u v r Hu Hv H3 H4. destruct (prefix_weak_total _ _ _ H3 H4) as [H|H]; [apply apart_in; assumption|].
        symmetry. apply apart_in; assumption. }
      assert (E : a = b) by (rewrite (Eq a c p Ia Ic Hp H1); symmetry; exact (Eq b c q Ib Ic Hq H2)). subst b.
      destruct (decide (i = j)) as [E|Hij]; [exact E|]. destruct (sep_apart _ _ _ Hsep _ _ _ _ Ha Hb Hij). reflexivity.
    - intros x i (b & p & _ & Hc & _ & Hr). exact (resolves_lt _ _ Hc Hr).
    - intros p d i Hp (b & q & Hb & Cq & Hq & Rq). assert (Ib : b ∈ bs) by (apply elem_of_list_lookup; eauto).
      destruct (shd_canon _ _ Hp) as [Cp Np]. apply (not_below b p d Ib Hp).
      destruct (sep_tree _ _ _ Hsep p q d Cp Cq Np) as [E|(c & Ic & H1 & _)]; [exists b; auto|exact (proj2 Hp)|exact Rq|subst; exact Hq|].
      destruct (not_below c p d Ic Hp H1).
    - intros p d H. exact (resolves_lt _ _ (proj1 (shd_canon _ _ H)) (proj2 H)).
  Qed.

  Context (progs : list (list rop)) (Hlen : length progs = length bs)
          (Hstay : forall i b l, bs !! i = Some b -> progs !! i = Some l -> stays_in b l).

  Lemma Inv_start : Inv bs shd (rstart tab next progs).
  Proof.
    split; [reflexivity|]. exists ownd. split.
    - exact dirs_start.
    - exact owns_start.
    - intros x Hx. cbn in *. destruct (tab !! x) as [y|] eqn:E; [|reflexivity].
      pose proof (proj1 (proj2 (sep_next _ _ _ Hsep)) _ _ E). lia.
    - intros i t Ht. cbn in Ht. apply list_lookup_fmap_Some in Ht as (l & Hl & ->).
      destruct (bs !! i) as [b|] eqn:Eb; [|apply lookup_ge_None in Eb; apply lookup_lt_Some in Hl; lia].
      exists b. split; [reflexivity|]. split; [exact I|]. split; [|intros x Hx; apply elem_of_nil in Hx as []].
      intros o Ho p Hp. exact (Hstay i b l Eb Hl o p Ho Hp).
  Qed.

  Lemma rest_start : all_rest (rstart tab next progs).
  Proof. intros i t Ht. cbn in Ht. apply list_lookup_fmap_Some in Ht as (l & _ & ->). reflexivity. Qed.

  Lemma separate_turn s :
    rsteps (rstart tab next progs) s -> r_dead s = false -> all_rest s -> in_turn (rstart tab next progs) s.
  Proof.
    intros H Hd Hr. apply rsteps_ust in H as [H|(c & i & _ & _ & ->)]; [|discriminate Hd].
    apply wholes_turn; [exact rest_start|].
    exact (serial_rest bs shd shared_start _ _ Inv_start rest_start H Hr).
  Qed.

  Lemma separate_abort s :
    rsteps (rstart tab next progs) s -> r_dead s = true ->
    exists s', in_turn (rstart tab next progs) s' /\ r_dead s' = true.
  Proof.
    intros H Hd. apply rsteps_ust in H as [H|(c & i & H & Hp & ->)].
    { exfalso. assert (Hn : r_dead s = false); [|rewrite Hn in Hd; discriminate Hd].
      clear Hd. remember (rstart tab next progs) as s0 eqn:E0. assert (H0 : r_dead s0 = false) by (subst; reflexivity). clear E0.
      induction H as [s|a b s [i (_ & t & e & k & t' & _ & _ & ->)] _ IH]; [exact H0|]. apply IH. reflexivity. }
    destruct (serial_pan bs shd shared_start _ _ _ Inv_start rest_start H Hp) as (a & m & Ha & Ra & Hm & Pm).
    eexists. split; [|exact (eq_refl : r_dead (Rst (r_tab m) (r_next m) (r_proc m) true) = true)].
    etransitivity; [exact (wholes_turn _ _ rest_start Ha)|]. apply rtc_once. exists i. exact (pan_call i a m Ra Hm Pm).
  Qed.
End start.
