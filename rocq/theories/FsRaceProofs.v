(** Processes that work on separate names do not disturb each other: each has
    its own objects ([own]); the directories above the names ([sh]) are shared,
    but each process uses one entry of one of them. *)
From stdpp Require Import gmap.
From Verif Require Import Base PathModel PathSpec FsModel FsSpec FsWalk FsRaceModel FsRaceSpec FsRaceOrder.
Local Open Scope list_scope.
Local Open Scope Z_scope.

Definition is_num (p : rpc) : bool := match p with Num _ _ _ => true | _ => false end.
Definition is_post (p : rpc) : bool := match p with Enter _ _ _ _ | New _ _ _ => true | _ => false end.

Section sep.
  Context (bs : list (list string)) (sh : list string -> Z -> Prop).

  Record shared_ok : Prop := {
    so_fun : forall p d e, sh p d -> sh p e -> d = e;
    so_inj : forall p q d, sh p d -> sh q d -> p = q;
    so_above : forall p d, sh p d -> exists b f r, b ∈ bs /\ b = p ++ f :: r;
    so_all : forall b p f r, b ∈ bs -> b = p ++ f :: r -> exists d, sh p d;
    so_root : forall d, sh [] d -> d = ROOTINO;
    so_apart : forall i j a b, bs !! i = Some a -> bs !! j = Some b -> i <> j -> ~ a `prefix_of` b;
    so_ne : forall b, b ∈ bs -> b <> []
  }.

  Definition isdir (tab : gmap Z inode) (d : Z) : Prop := exists x, tab !! d = Some x /\ i_kind x = KDir.

  Section own.
  Context (own : Z -> nat -> Prop).

  Record dirs (tab : gmap Z inode) : Prop := {
    d_dir : forall p d, sh p d -> exists x, tab !! d = Some x /\ i_kind x = KDir /\
      Z.of_nat (size (i_dict x)) <= i_link x /\
      (forall f e, sh (p ++ [f]) e -> i_dict x !! f = Some e) /\
      (forall i f e, bs !! i = Some (p ++ [f]) -> i_dict x !! f = Some e -> own e i);
    d_own : forall x i y f e, own x i -> tab !! x = Some y -> i_kind y = KDir -> good_name f ->
      i_dict y !! f = Some e -> own e i
  }.

  Record owns (next : Z) : Prop := {
    o_fun : forall x i j, own x i -> own x j -> i = j;
    o_lt : forall x i, own x i -> x < next;
    o_sh : forall p d i, sh p d -> own d i -> False;
    o_shlt : forall p d, sh p d -> d < next
  }.

  Definition okpar (i : nat) (b : list string) (par : Z) (f : string) : Prop :=
    own par i \/ exists p, b = p ++ [f] /\ sh p par.

  Definition okop (b : list string) (o : rop) : Prop := forall p, p ∈ paths o -> canonical p /\ b `prefix_of` p.
  Definition names_op (o : rop) : Prop := match o with RClose _ => False | _ => True end.

  Definition okk (i : nat) (b : list string) (o : rop) (k : kont) : Prop :=
    match o, k with
    | RLink _ _, Second x _ => own x i
    | RRename a _, Second x par => own x i /\ exists f, file_name a = Some f /\ okpar i b par f
    | _, _ => True
    end.

  Definition outside (path rest : list string) (cur : option Z) (has : bool) : Prop :=
    exists p d, path = p ++ rest /\ sh p d /\ cur = Some d /\ has = true.
  Definition inside (tab : gmap Z inode) (i : nat) (b path rest : list string) (cur prev : option Z) : Prop :=
    exists p, path = p ++ rest /\ b `prefix_of` p /\ (forall x, cur = Some x -> own x i) /\
    exists q, prev = Some q /\ isdir tab q /\ (own q i \/ exists p0 f, b = p0 ++ [f] /\ p = b /\ sh p0 q).

  Definition okpc (tab : gmap Z inode) (i : nat) (b : list string) (p : rpc) : Prop :=
    match p with
    | Idle => True
    | Root o k => names_op o /\ okop b o /\ okk i b o k
    | Walk o k cur has prev rest =>
        names_op o /\ okop b o /\ okk i b o k /\
        (outside (wpath o k) rest cur has \/ inside tab i b (wpath o k) rest cur prev)
    | Look x | Mode x _ | Old x _ | LnUndo x _ | UnDel x | RmDel x | ClDec x | ClDel x => own x i
    | Num o par f => okpar i b par f /\ isdir tab par
    | Enter o par f n => okpar i b par f /\ isdir tab par /\ own n i
    | New o par n => own n i
    | LnInc o x => own x i /\ okop b o /\ match o with RLink _ _ => True | _ => False end
    | LnEnter x par f => own x i /\ okpar i b par f
    | UnDec x par f | UnRem x par f _ | RmPar x par f | RmSelf x par f | RmRem x par f _ =>
        own x i /\ okpar i b par f
    | Ren x par fo fn => own x i /\ okpar i b par fo /\ okpar i b par fn
    end.

  Definition okres (tab : gmap Z inode) (i : nat) (b : list string) (r : rres) : Prop :=
    match r with Go p => okpc tab i b p | Back _ => True | Opened x => own x i end.

  (** Changes process [i] may make *)
  Definition legal (tab : gmap Z inode) (i : nat) (b : list string) (e : option (Z * edit)) : Prop :=
    match e with
    | None => True
    | Some (x, d) =>
        (own x i /\
         match d with
         | Put y => forall f z, i_kind y = KDir -> good_name f -> i_dict y !! f = Some z -> own z i
         | AddName _ n | MvName _ _ n => own n i
         | Del | DelName _ => True
         end) \/
        (exists p f, b = p ++ [f] /\ sh p x /\
           ((exists n, own n i /\ d = AddName f n) \/
            (d = DelName f /\ exists y e, tab !! x = Some y /\ i_dict y !! f = Some e) \/
            (exists n, own n i /\ d = MvName f f n)))
    end.

  Definition agree (i : nat) (b : list string) (t1 t2 : gmap Z inode) : Prop :=
    (forall x, own x i -> t1 !! x = t2 !! x) /\
    (forall p d, sh p d -> exists x1 x2, t1 !! d = Some x1 /\ t2 !! d = Some x2 /\ i_mode x1 = i_mode x2 /\
       forall f, b = p ++ [f] -> i_dict x1 !! f = i_dict x2 !! f).
  End own.

  Context (Hso : shared_ok).

  Lemma good_dots f : good_name f -> f <> "." /\ f <> "..".
  Proof. unfold good_name. intuition. Qed.

  Lemma prefix_snoc {A} (b p : list A) f : b `prefix_of` p ++ [f] -> b `prefix_of` p \/ b = p ++ [f].
  Proof.
    intros [k Hk]. destruct k as [|x k _] using rev_ind; [right; rewrite app_nil_r in Hk; congruence|].
    rewrite app_assoc in Hk. apply app_inj_tail in Hk as [-> _]. left. exists k. reflexivity.
  Qed.
  Lemma prefix_two {A} (a b p : list A) : a `prefix_of` p -> b `prefix_of` p -> a `prefix_of` b \/ b `prefix_of` a.
  Proof. intros Ha Hb. exact (prefix_weak_total _ _ _ Ha Hb). Qed.

  (** What comes after a shared directory on the way to [b] *)
  Lemma shared_not_below i b p d : bs !! i = Some b -> sh p d -> ~ b `prefix_of` p.
  Proof.
    intros Hb Hp Hpre. destruct (so_above Hso _ _ Hp) as (b' & f & r & Hb' & ->).
    apply elem_of_list_lookup in Hb' as [j Hj].
    assert (Hbb : b `prefix_of` p ++ f :: r) by (apply (prefix_app_r _ _ _ Hpre)).
    destruct (decide (i = j)) as [->|Hij].
    - rewrite Hb in Hj. injection Hj as ->. destruct Hpre as [k Hk].
      apply (f_equal length) in Hk. rewrite !app_length in Hk. cbn in Hk. lia.
    - exact (so_apart Hso _ _ _ _ Hb Hj Hij Hbb).
  Qed.

  Lemma next_name i b p d f r :
    bs !! i = Some b -> sh p d -> b `prefix_of` p ++ f :: r ->
    b = p ++ [f] \/ exists e, sh (p ++ [f]) e.
  Proof.
    intros Hb Hp Hpre.
    assert (Hpf : p ++ [f] `prefix_of` p ++ f :: r) by (exists r; rewrite <- app_assoc; reflexivity).
    destruct (prefix_two _ _ _ Hpre Hpf) as [H|H].
    - destruct (prefix_snoc _ _ _ H) as [H'|H']; [|left; exact H'].
      destruct (shared_not_below _ _ _ _ Hb Hp H').
    - destruct H as [k Hk]. destruct k as [|g k]; [left; rewrite app_nil_r in Hk; exact Hk|].
      right. apply (so_all Hso b (p ++ [f]) g k); [apply elem_of_list_lookup; eauto|exact Hk].
  Qed.

  Lemma wpath_op o k : names_op o -> wpath o k ∈ paths o.
  Proof. destruct o, k; cbn; intros []; repeat (apply elem_of_list_here || apply elem_of_list_further). Qed.

  Lemma okop_wpath b o k : names_op o -> okop b o -> canonical (wpath o k) /\ b `prefix_of` wpath o k.
  Proof. intros Hn Ho. apply Ho, wpath_op, Hn. Qed.

  (** After a walk *)
  Lemma after_ok own tab i b o k r e t res :
    b <> [] -> names_op o -> okop b o -> okk own i b o k ->
    (forall x, fst r = Some x -> own x i) ->
    (forall q, snd r = Some q -> isdir tab q /\ forall f, file_name (wpath o k) = Some f -> okpar own i b q f) ->
    after o k r = Done (e, t, res) -> e = None /\ t = false /\ okres own tab i b res.
  Proof.
    intros Hne Hn Ho Hk Hx Hq H. destruct r as [x q]. cbn [fst snd] in *.
    destruct o as [p|p m|p fl m|p m|p m dv|a c|p|p|a c|kk]; cbn [after wpath fst] in *.
    - destruct x as [x|]; injection H as <- <- <-; (split; [reflexivity|]); (split; [reflexivity|]); cbn; auto.
    - destruct x as [x|]; [destruct (_ =? _)|]; injection H as <- <- <-; (split; [reflexivity|]); (split; [reflexivity|]); cbn; auto.
    - destruct x as [x|]; [destruct (_ =? _); injection H as <- <- <-; (split; [reflexivity|]); (split; [reflexivity|]); cbn; auto|].
      destruct q as [q|]; [|injection H as <- <- <-; cbn; auto].
      destruct (negb _); [injection H as <- <- <-; cbn; auto|].
      destruct (_ =? _); [injection H as <- <- <-; cbn; auto|].
      destruct (negb _); [injection H as <- <- <-; cbn; auto|].
      destruct (file_name p) as [f|] eqn:Ef; [|discriminate H]. injection H as <- <- <-.
      destruct (Hq q eq_refl) as [Hd Hf]. split; [reflexivity|]. split; [reflexivity|]. cbn. split; [apply Hf; reflexivity|assumption].
    - destruct x as [x|]; [injection H as <- <- <-; cbn; auto|].
      destruct q as [q|]; [|injection H as <- <- <-; cbn; auto].
      destruct (file_name p) as [f|] eqn:Ef; [|discriminate H].
      destruct (negb _); [injection H as <- <- <-; cbn; auto|]. injection H as <- <- <-.
      destruct (Hq q eq_refl) as [Hd Hf]. split; [reflexivity|]. split; [reflexivity|]. cbn. split; [apply Hf; reflexivity|assumption].
    - destruct x as [x|]; [injection H as <- <- <-; cbn; auto|].
      destruct q as [q|]; [|injection H as <- <- <-; cbn; auto].
      destruct (file_name p) as [f|] eqn:Ef; [|discriminate H].
      destruct (negb _); [injection H as <- <- <-; cbn; auto|].
      destruct (_ =? _); [injection H as <- <- <-; cbn; auto|]. injection H as <- <- <-.
      destruct (Hq q eq_refl) as [Hd Hf]. split; [reflexivity|]. split; [reflexivity|]. cbn. split; [apply Hf; reflexivity|assumption].
    - destruct k as [|y par].
      + destruct x as [x|]; injection H as <- <- <-; (split; [reflexivity|]); (split; [reflexivity|]); cbn; auto.
      + cbn in Hk. destruct x as [x|]; [injection H as <- <- <-; cbn; auto|].
        destruct q as [q|]; [|injection H as <- <- <-; cbn; auto].
        destruct (file_name c) as [f|] eqn:Ef; [|discriminate H]. injection H as <- <- <-.
        destruct (Hq q eq_refl) as [Hd Hf]. split; [reflexivity|]. split; [reflexivity|]. cbn. split; [exact Hk|apply Hf; reflexivity].
    - destruct x as [x|]; [|injection H as <- <- <-; cbn; auto].
      destruct q as [q|]; [|injection H as <- <- <-; cbn; auto].
      destruct (file_name p) as [f|] eqn:Ef; [|discriminate H]. injection H as <- <- <-.
      destruct (Hq q eq_refl) as [Hd Hf]. split; [reflexivity|]. split; [reflexivity|]. cbn. split; [apply Hx; reflexivity|apply Hf; reflexivity].
    - destruct x as [x|]; [|injection H as <- <- <-; cbn; auto].
      destruct q as [q|]; [|injection H as <- <- <-; cbn; auto].
      destruct (file_name p) as [f|] eqn:Ef; [|discriminate H]. injection H as <- <- <-.
      destruct (Hq q eq_refl) as [Hd Hf]. split; [reflexivity|]. split; [reflexivity|]. cbn. split; [apply Hx; reflexivity|apply Hf; reflexivity].
    - destruct k as [|y par].
      + destruct x as [x|]; [|injection H as <- <- <-; cbn; auto].
        destruct q as [q|]; [|injection H as <- <- <-; cbn; auto]. injection H as <- <- <-.
        destruct (Hq q eq_refl) as [Hd Hf]. split; [reflexivity|]. split; [reflexivity|].
        cbn. split; [exact I|]. split; [exact Ho|]. split; [apply Hx; reflexivity|].
        destruct (file_name a) as [f|] eqn:Ef; [exists f; split; [reflexivity|apply Hf; reflexivity]|].
        exfalso. unfold file_name in Ef. apply last_None in Ef.
        assert (Ha : a ∈ paths (RRename a c)) by apply elem_of_list_here.
        destruct (Ho a Ha) as [_ Hpre]. subst a. apply prefix_nil_inv in Hpre. exact (Hne Hpre).
      + destruct (negb _) eqn:Eq; [injection H as <- <- <-; cbn; auto|].
        apply negb_false_iff, bool_decide_eq_true in Eq. cbn [snd] in Eq. subst q.
        destruct (file_name a) as [fo|] eqn:Ea; [|discriminate H].
        destruct (file_name c) as [fn|] eqn:Ec; [|discriminate H]. injection H as <- <- <-.
        destruct Hk as (Hy & f & Ef & Hpar). rewrite Ea in Ef. injection Ef as <-.
        split; [reflexivity|]. split; [reflexivity|]. cbn. split; [exact Hy|]. split; [exact Hpar|].
        apply (Hq par eq_refl). reflexivity.
    - destruct Hn.
  Qed.

  Lemma okpc_mono (own own' : Z -> nat -> Prop) tab i b p :
    (forall x, own x i -> own' x i) -> okpc own tab i b p -> okpc own' tab i b p.
  Proof.
    intros Hm. assert (Hpar : forall par f, okpar own i b par f -> okpar own' i b par f).
    { intros par f [H|H]; [left; auto|right; exact H]. }
    assert (Hkk : forall o k, okk own i b o k -> okk own' i b o k).
    { intros [] []; cbn; auto. intros [H1 (f & H2 & H3)]. split; [auto|]. exists f. auto. }
    destruct p; cbn; auto; try (intros [H1 H2]; split; [auto|]; auto).
    - intuition.
    - destruct H2 as (H2 & H3 & H4). split; [assumption|]. split; [auto|].
      destruct H4 as [H4|(p & E & H4 & H5 & q & Eq & H6 & H7)]; [left; exact H4|right].
      exists p. split; [exact E|]. split; [exact H4|]. split; [auto|]. exists q. split; [exact Eq|]. split; [exact H6|].
      destruct H7 as [H7|H7]; [left; auto|right; exact H7].
    - intuition.
    - intuition.
  Qed.

  Lemma okpc_tab (own : Z -> nat -> Prop) tab tab' i b p :
    (forall q, isdir tab q -> own q i \/ (exists p0, sh p0 q) -> isdir tab' q) ->
    okpc own tab i b p -> okpc own tab' i b p.
  Proof.
    intros Hm. assert (Hpar : forall par f, okpar own i b par f -> own par i \/ exists p0, sh p0 par).
    { intros par f [H|(q & _ & H)]; [left; exact H|right; eauto]. }
    destruct p; cbn; auto.
    - intros (H1 & H2 & H3 & H4). split; [exact H1|]. split; [exact H2|]. split; [exact H3|].
      destruct H4 as [H4|(p & E & H4 & H5 & q & Eq & H6 & H7)]; [left; exact H4|right].
      exists p. split; [exact E|]. split; [exact H4|]. split; [exact H5|]. exists q. split; [exact Eq|]. split; [|exact H7].
      apply Hm; [exact H6|]. destruct H7 as [H7|(p0 & f & _ & _ & H7)]; [left; exact H7|right; eauto].
    - intros [H1 H2]. split; [exact H1|]. apply Hm; eauto.
    - intros (H1 & H2 & H3). split; [exact H1|]. split; [apply Hm; eauto|exact H3].
  Qed.

  Lemma fetch_done tab x y : fetch tab x = Done y -> tab !! x = Some y.
  Proof. unfold fetch. destruct (tab !! x); [intros [= ->]; reflexivity|discriminate]. Qed.

  Ltac got H x E := match type of H with obind (fetch ?t ?i) _ = _ =>
    destruct (fetch t i) as [x|] eqn:E; [apply fetch_done in E; cbn [obind] in H|discriminate H] end.
  Ltac fin H := injection H as <- <- <-.

  (** One step of a process *)
  Lemma act_ok (own : Z -> nat -> Prop) tab next i b p e t res :
    bs !! i = Some b -> dirs own tab -> okpc own tab i b p -> is_num p = false ->
    act tab next p = Done (e, t, res) ->
    legal own tab i b e /\ t = false /\ okres own (perform e tab) i b res.
  Proof.
    intros Hb Hd Hok Hnum H.
    assert (Hne : b <> []) by (apply (so_ne Hso), elem_of_list_lookup; eauto).
    assert (Hroot : sh [] ROOTINO).
    { destruct b as [|f r]; [destruct (Hne eq_refl)|].
      destruct (so_all Hso (f :: r) [] f r) as [d Hr]; [apply elem_of_list_lookup; eauto|reflexivity|].
      rewrite <- (so_root Hso _ Hr) in *. exact Hr. }
    assert (Hafter : forall o k r, names_op o -> okop b o -> okk own i b o k ->
      (forall x, fst r = Some x -> own x i) ->
      (forall q, snd r = Some q -> isdir tab q /\ forall f, file_name (wpath o k) = Some f -> okpar own i b q f) ->
      after o k r = Done (e, t, res) ->
      legal own tab i b e /\ t = false /\ okres own (perform e tab) i b res).
    { intros o k r Hn Ho Hk Hx Hq H0. destruct (after_ok own tab i b o k r e t res) as (-> & -> & Hr); auto.
      split; [exact I|]. split; [reflexivity|]. exact Hr. }
    assert (Hself : forall x y, own x i -> tab !! x = Some y -> forall y', i_kind y' = i_kind y -> i_dict y' = i_dict y ->
              legal own tab i b (Some (x, Put y'))).
    { intros x y Hx Hy y' Hk' Hd'. left. split; [exact Hx|]. intros f z Hk Hf1 Hz.
      rewrite Hd' in Hz. rewrite Hk' in Hk. exact (d_own own tab Hd _ _ _ _ _ Hx Hy Hk Hf1 Hz). }
    destruct p as [|o k|o k cur has prev rest|x|x m|x fl|o par f|o par f n|o par n|o x|x par f|x er|x par f|x par f gone|x
                  |x par f|x par f|x par f rm|x|x par fo fn|x|x]; cbn [act] in H; cbn [okpc] in Hok.
    - discriminate H.
    - destruct (tab !! ROOTINO); [|discriminate H]. fin H. split; [exact I|]. split; [reflexivity|].
      destruct Hok as (H1 & H2 & H3). cbn. split; [exact H1|]. split; [exact H2|]. split; [exact H3|].
      left. exists [], ROOTINO. repeat split. exact Hroot.
    - destruct Hok as (Hn & Ho & Hk & Hw). destruct (okop_wpath b o k Hn Ho) as [Hcan Hpre].
      destruct Hw as [(p & d & Ep & Hp & -> & ->)|(p & Ep & Hbp & Hcur & q & -> & Hq & Hq')].
      + (* above the name of the process *)
        destruct rest as [|f r].
        { exfalso. rewrite app_nil_r in Ep. rewrite Ep in Hpre. exact (shared_not_below _ _ _ _ Hb Hp Hpre). }
        cbn [negb] in H. got H x Ex. destruct (d_dir own tab Hd p d Hp) as (x' & Ex' & Hk' & _ & Hsh & Hown).
        rewrite Ex in Ex'. injection Ex' as <-. rewrite Hk' in H.
        assert (Hpre2 := Hpre). rewrite Ep in Hpre2.
        destruct (next_name _ _ _ _ _ _ Hb Hp Hpre2) as [Eb|(e' & He')].
        * destruct (i_dict x !! f) as [j|] eqn:Ej; fin H; (split; [exact I|]); (split; [reflexivity|]); cbn;
            (split; [exact Hn|]); (split; [exact Ho|]); (split; [exact Hk|]); right; exists (p ++ [f]);
            (split; [rewrite <- app_assoc; exact Ep|]); (split; [rewrite Eb; reflexivity|]).
          -- split; [intros z [= <-]; apply (Hown i f); [rewrite Hb, Eb; reflexivity|exact Ej]|].
             exists d. split; [reflexivity|]. split; [exists x; auto|]. right. exists p, f. rewrite Eb. auto.
          -- split; [intros z [=]|].
             exists d. split; [reflexivity|]. split; [exists x; auto|]. right. exists p, f. rewrite Eb. auto.
        * rewrite (Hsh _ _ He') in H. fin H. split; [exact I|]. split; [reflexivity|]. cbn.
          split; [exact Hn|]. split; [exact Ho|]. split; [exact Hk|]. left. exists (p ++ [f]), e'.
          split; [rewrite <- app_assoc; exact Ep|]. split; [exact He'|]. split; [reflexivity|].
          apply bool_decide_eq_true. destruct (d_dir own tab Hd _ _ He') as (y & Ey & _). rewrite Ey. eauto.
      + destruct rest as [|f r].
        { apply (Hafter o k (cur, Some q)); try assumption. cbn [snd fst]. intros q' [= <-]. split; [exact Hq|].
          intros f Hf. destruct Hq' as [Hq'|(p0 & f0 & E1 & E2 & Hsh)]; [left; exact Hq'|].
          right. exists p0. split; [|exact Hsh]. rewrite app_nil_r in Ep. rewrite Ep, E2, E1 in Hf. unfold file_name in Hf.
          rewrite last_snoc in Hf. injection Hf as ->. exact E1. }
        destruct cur as [d|].
        2:{ apply (Hafter o k (None, None)); try assumption; cbn; discriminate. }
        destruct has; [|discriminate H]. cbn [negb] in H. got H x Ex.
        assert (Hod : own d i) by (apply Hcur; reflexivity).
        assert (Hgood : good_name f).
        { rewrite Ep in Hcan. apply Forall_app in Hcan as [_ Hcan]. inversion Hcan; assumption. }
        assert (Hpf : b `prefix_of` p ++ [f]) by (apply prefix_app_r; exact Hbp).
        destruct (i_kind x) eqn:Ekx; try (apply (Hafter o k (None, None)); try assumption; cbn; discriminate).
        destruct (i_dict x !! f) as [j|] eqn:Ej; fin H; (split; [exact I|]); (split; [reflexivity|]); cbn;
          (split; [exact Hn|]); (split; [exact Ho|]); (split; [exact Hk|]); right; exists (p ++ [f]);
          (split; [rewrite <- app_assoc; exact Ep|]); (split; [exact Hpf|]).
        * split.
          { intros z [= <-]. exact (d_own own tab Hd _ _ _ _ _ Hod Ex Ekx Hgood Ej). }
          exists d. split; [reflexivity|]. split; [exists x; auto|]. left. exact Hod.
        * split; [intros z [=]|]. exists d. split; [reflexivity|]. split; [exists x; auto|]. left. exact Hod.
    - got H y Ey. fin H. repeat split; exact I.
    - got H y Ey. fin H. split; [apply (Hself _ _ Hok Ey); reflexivity|]. split; [reflexivity|exact I].
    - got H y Ey. destruct (i_kind y) eqn:Ek; fin H; (split; [first [exact I|apply (Hself _ _ Hok Ey); reflexivity]|]);
        (split; [reflexivity|]); first [exact I|exact Hok].
    - discriminate Hnum.
    - destruct Hok as (Hpar & (x & Ex & Hx) & Hn). got H y Ey. rewrite Ex in Ey. injection Ey as <-. rewrite Hx in H.
      fin H. split; [|split; [reflexivity|exact Hn]].
      destruct Hpar as [Hpar|(p & Eb & Hp)]; [left; split; [exact Hpar|exact Hn]|].
      right. exists p, f. split; [exact Eb|]. split; [exact Hp|]. left. eauto.
    - fin H. split; [|split; [reflexivity|destruct o; first [exact I|exact Hok]]].
      left. split; [exact Hok|]. intros f z Hk Hf1 Hz. exfalso.
      destruct o; cbn in Hk, Hz; try discriminate Hk; try (rewrite lookup_empty in Hz; discriminate Hz).
      apply good_dots in Hf1 as [N1 N2].
      unfold new_dict in Hz. rewrite !lookup_insert_ne, lookup_empty in Hz by congruence. discriminate Hz.
    - destruct Hok as (Hx & Ho & Hl). got H y Ey.
      destruct (i_kind y) eqn:Ek; fin H; (split; [first [exact I|apply (Hself _ _ Hx Ey); reflexivity]|]);
        (split; [reflexivity|]); try exact I; cbn; (split; [destruct o; tauto|]); (split; [exact Ho|]); destruct o; tauto.
    - destruct Hok as (Hx & Hpar). got H y Ey. destruct (i_kind y) eqn:Ek; try discriminate H. fin H.
      split; [|split; [reflexivity|exact I]].
      destruct Hpar as [Hpar|(p & Eb & Hp)]; [left; split; [exact Hpar|exact Hx]|].
      right. exists p, f. split; [exact Eb|]. split; [exact Hp|]. left. eauto.
    - got H y Ey. destruct (dec (i_link y)) as [l|]; [|discriminate H]. cbn [obind] in H.
      destruct (i_kind y) eqn:Ek; try discriminate H; fin H; (split; [apply (Hself _ _ Hok Ey); reflexivity|split; [reflexivity|exact I]]).
    - destruct Hok as (Hx & Hpar). got H y Ey. destruct (i_kind y) eqn:Ek;
        try (fin H; split; [exact I|split; [reflexivity|exact I]]);
        (destruct (dec (i_link y)) as [l|]; [|discriminate H]); cbn [obind] in H; fin H;
        (split; [apply (Hself _ _ Hx Ey); reflexivity|split; [reflexivity|split; assumption]]).
    - destruct Hok as (Hx & Hpar). got H y Ey. destruct (i_kind y) eqn:Ek; try discriminate H.
      destruct (no_write_bits _); [fin H; split; [exact I|split; [reflexivity|exact I]]|].
      destruct (i_dict y !! f) as [z|] eqn:Ez; [|discriminate H].
      destruct (dec (i_link y)) as [l|]; [|discriminate H]. cbn [obind] in H. fin H.
      split; [|split; [reflexivity|destruct gone; [exact Hx|exact I]]].
      destruct Hpar as [Hpar|(p & Eb & Hp)]; [left; split; [exact Hpar|exact I]|].
      right. exists p, f. split; [exact Eb|]. split; [exact Hp|]. right; left. eauto.
    - fin H. split; [left; split; [exact Hok|exact I]|split; [reflexivity|exact I]].
    - destruct Hok as (Hx & Hpar). got H y Ey. destruct (i_kind y); [|destruct (no_write_bits _)|..]; fin H;
        (split; [exact I|]); (split; [reflexivity|]); cbn; auto.
    - destruct Hok as (Hx & Hpar). got H y Ey. destruct (i_kind y) eqn:Ek; try (fin H; split; [exact I|split; [reflexivity|exact I]]).
      destruct (3 <? _); [fin H; split; [exact I|split; [reflexivity|exact I]]|].
      destruct (negb _); [discriminate H|].
      destruct (no_write_bits _); [fin H; split; [exact I|split; [reflexivity|exact I]]|].
      destruct (_ =? _); fin H; (split; [first [exact I|apply (Hself _ _ Hx Ey); reflexivity]|]); (split; [reflexivity|]); cbn; auto.
    - destruct Hok as (Hx & Hpar). got H y Ey. destruct (i_kind y) eqn:Ek; try discriminate H.
      destruct (no_write_bits _); [fin H; split; [exact I|split; [reflexivity|exact I]]|].
      destruct (i_dict y !! f) as [z|] eqn:Ez; [|discriminate H].
      destruct (dec (i_link y)) as [l|]; [|discriminate H]. cbn [obind] in H. fin H.
      split; [|split; [reflexivity|destruct rm; [exact Hx|exact I]]].
      destruct Hpar as [Hpar|(p & Eb & Hp)]; [left; split; [exact Hpar|exact I]|].
      right. exists p, f. split; [exact Eb|]. split; [exact Hp|]. right; left. eauto.
    - got H y Ey. fin H. split; [left; split; [exact Hok|exact I]|split; [reflexivity|exact I]].
    - destruct Hok as (Hx & Hpo & Hpn). got H y Ey. destruct (i_kind y) eqn:Ek; fin H;
        (split; [|split; [reflexivity|exact I]]); try exact I.
      destruct Hpo as [Hpo|(p & Eb & Hp)]; [left; split; [exact Hpo|exact Hx]|].
      destruct Hpn as [Hpn|(p' & Eb' & Hp')]; [left; split; [exact Hpn|exact Hx]|].
      right. exists p, fo. split; [exact Eb|]. split; [exact Hp|]. right; right. exists x. split; [exact Hx|].
      rewrite Eb in Eb'. apply app_inj_tail in Eb' as [_ <-]. reflexivity.
    - got H y Ey. destruct (dec (i_ref y)) as [r|]; [|discriminate H]. cbn [obind] in H.
      destruct (i_kind y) eqn:Ek; try discriminate H; fin H;
        (split; [apply (Hself _ _ Hok Ey); reflexivity|]); (split; [reflexivity|]);
        match goal with |- context[if ?c then _ else _] => destruct c end; first [exact I|exact Hok].
    - fin H. split; [left; split; [exact Hok|exact I]|split; [reflexivity|exact I]].
  Qed.

  (** What a process does depends on its own part only. *)
  Lemma act_agree (own : Z -> nat -> Prop) t1 t2 n1 n2 i b p :
    bs !! i = Some b -> dirs own t1 -> dirs own t2 -> agree own i b t1 t2 -> okpc own t1 i b p ->
    (is_num p = true -> n1 = n2) -> act t1 n1 p = act t2 n2 p.
  Proof.
    intros Hb D1 D2 [Ho Hs] Hok Hn.
    assert (Hne : b <> []) by (apply (so_ne Hso), elem_of_list_lookup; eauto).
    assert (Hroot : sh [] ROOTINO).
    { destruct b as [|f r]; [destruct (Hne eq_refl)|].
      destruct (so_all Hso (f :: r) [] f r) as [d Hr]; [apply elem_of_list_lookup; eauto|reflexivity|].
      rewrite <- (so_root Hso _ Hr) in *. exact Hr. }
    assert (Hf : forall x, own x i -> fetch t1 x = fetch t2 x) by (intros x Hx; unfold fetch; rewrite (Ho x Hx); reflexivity).
    assert (Hp : forall par f, okpar own i b par f ->
      (fetch t1 par = fetch t2 par) \/
      exists x1 x2, fetch t1 par = Done x1 /\ fetch t2 par = Done x2 /\ i_kind x1 = KDir /\ i_kind x2 = KDir /\
        i_mode x1 = i_mode x2 /\ i_dict x1 !! f = i_dict x2 !! f /\
        (i_dict x1 !! f <> None -> 0 < i_link x1 /\ 0 < i_link x2)).
    { intros par f [H|(q & Eb & Hq)]; [left; apply Hf, H|right].
      destruct (Hs q par Hq) as (x1 & x2 & E1 & E2 & Em & Ed). exists x1, x2. unfold fetch. rewrite E1, E2.
      destruct (d_dir own t1 D1 q par Hq) as (y1 & F1 & K1 & L1 & _). rewrite E1 in F1. injection F1 as <-.
      destruct (d_dir own t2 D2 q par Hq) as (y2 & F2 & K2 & L2 & _). rewrite E2 in F2. injection F2 as <-.
      specialize (Ed f Eb). repeat (split; [first [reflexivity|assumption]|]).
      assert (Hsz : forall m : gmap string Z, m !! f <> None -> 1 <= Z.of_nat (size m)).
      { intros m Hm. destruct (decide (m = ∅)) as [->|Hne']; [rewrite lookup_empty in Hm; destruct (Hm eq_refl)|].
        apply map_size_non_empty_iff in Hne'. lia. }
      intros Hx. pose proof (Hsz _ Hx). rewrite Ed in Hx. pose proof (Hsz _ Hx). lia. }
    destruct p as [|o k|o k cur has prev rest|x|x m|x fl|o par f|o par f n|o par n|o x|x par f|x er|x par f|x par f gone|x
                  |x par f|x par f|x par f rm|x|x par fo fn|x|x]; cbn [act]; cbn [okpc] in Hok.
    - reflexivity.
    - destruct (d_dir own t1 D1 _ _ Hroot) as (x1 & -> & _). destruct (d_dir own t2 D2 _ _ Hroot) as (x2 & -> & _). reflexivity.
    - destruct Hok as (Hnm & Hop & Hk & Hw). destruct (okop_wpath b o k Hnm Hop) as [Hcan Hpre].
      destruct rest as [|f r]; [reflexivity|]. destruct cur as [d|]; [|reflexivity].
      destruct has; [|reflexivity]. cbn [negb].
      destruct Hw as [(p & d' & Ep & Hpd & [= <-] & _)|(p & Ep & Hbp & Hcur & q & -> & Hq & Hq')].
      + destruct (Hs p d Hpd) as (x1 & x2 & E1 & E2 & Em & Ed).
        destruct (d_dir own t1 D1 p d Hpd) as (y1 & F1 & K1 & _ & S1 & W1). rewrite E1 in F1. injection F1 as <-.
        destruct (d_dir own t2 D2 p d Hpd) as (y2 & F2 & K2 & _ & S2 & W2). rewrite E2 in F2. injection F2 as <-.
        unfold fetch. rewrite E1, E2. cbn [obind]. rewrite K1, K2.
        rewrite Ep in Hpre. destruct (next_name _ _ _ _ _ _ Hb Hpd Hpre) as [Eb|(e' & He')].
        * rewrite <- (Ed f Eb). destruct (i_dict x1 !! f) as [j|] eqn:Ej; [|reflexivity].
          assert (Hj : own j i) by (apply (W1 i f); [rewrite Hb, Eb; reflexivity|exact Ej]).
          rewrite (Ho j Hj). reflexivity.
        * rewrite (S1 _ _ He'), (S2 _ _ He').
          destruct (d_dir own t1 D1 _ _ He') as (z1 & -> & _). destruct (d_dir own t2 D2 _ _ He') as (z2 & -> & _).
          rewrite !bool_decide_eq_true_2 by eauto. reflexivity.
      + assert (Hod : own d i) by (apply Hcur; reflexivity). rewrite <- (Hf d Hod).
        destruct (fetch t1 d) as [x|] eqn:Ex; [|reflexivity]. apply fetch_done in Ex. cbn [obind].
        destruct (i_kind x) eqn:Ek; try reflexivity. destruct (i_dict x !! f) as [j|] eqn:Ej; [|reflexivity].
        assert (Hgood : good_name f).
        { rewrite Ep in Hcan. apply Forall_app in Hcan as [_ Hcan]. inversion Hcan; assumption. }
        assert (Hj : own j i) by exact (d_own own t1 D1 _ _ _ _ _ Hod Ex Ek Hgood Ej).
        rewrite (Ho j Hj). reflexivity.
    - rewrite (Hf x Hok). reflexivity.
    - rewrite (Hf x Hok). reflexivity.
    - rewrite (Hf x Hok). reflexivity.
    - rewrite (Hn eq_refl). reflexivity.
    - destruct Hok as (Hpar & _). destruct (Hp _ _ Hpar) as [->|(x1 & x2 & -> & -> & K1 & K2 & _)]; [reflexivity|].
      cbn [obind]. rewrite K1, K2. reflexivity.
    - reflexivity.
    - destruct Hok as (Hx & _). rewrite (Hf x Hx). reflexivity.
    - destruct Hok as (_ & Hpar). destruct (Hp _ _ Hpar) as [->|(x1 & x2 & -> & -> & K1 & K2 & _)]; [reflexivity|].
      cbn [obind]. rewrite K1, K2. reflexivity.
    - rewrite (Hf x Hok). reflexivity.
    - destruct Hok as (Hx & _). rewrite (Hf x Hx). reflexivity.
    - destruct Hok as (_ & Hpar). destruct (Hp _ _ Hpar) as [->|(x1 & x2 & -> & -> & K1 & K2 & Em & Ed & Hl)]; [reflexivity|].
      cbn [obind]. rewrite K1, K2, Em, <- Ed. destruct (no_write_bits _); [reflexivity|].
      destruct (i_dict x1 !! f) as [z|]; [|reflexivity]. destruct Hl as [L1 L2]; [discriminate|].
      unfold dec. destruct (Z.leb_spec (i_link x1) 0), (Z.leb_spec (i_link x2) 0); try lia. reflexivity.
    - reflexivity.
    - destruct Hok as (_ & Hpar). destruct (Hp _ _ Hpar) as [->|(x1 & x2 & -> & -> & K1 & K2 & Em & _)]; [reflexivity|].
      cbn [obind]. rewrite K1, K2, Em. reflexivity.
    - destruct Hok as (Hx & _). rewrite (Hf x Hx). reflexivity.
    - destruct Hok as (_ & Hpar). destruct (Hp _ _ Hpar) as [->|(x1 & x2 & -> & -> & K1 & K2 & Em & Ed & Hl)]; [reflexivity|].
      cbn [obind]. rewrite K1, K2, Em, <- Ed. destruct (no_write_bits _); [reflexivity|].
      destruct (i_dict x1 !! f) as [z|]; [|reflexivity]. destruct Hl as [L1 L2]; [discriminate|].
      unfold dec. destruct (Z.leb_spec (i_link x1) 0), (Z.leb_spec (i_link x2) 0); try lia. reflexivity.
    - rewrite (Hf x Hok). reflexivity.
    - destruct Hok as (_ & Hpar & _). destruct (Hp _ _ Hpar) as [->|(x1 & x2 & -> & -> & K1 & K2 & _)]; [reflexivity|].
      cbn [obind]. rewrite K1, K2. reflexivity.
    - rewrite (Hf x Hok). reflexivity.
    - reflexivity.
  Qed.

  Lemma perform_ne e tab x d y : e = Some (x, d) -> y <> x -> perform e tab !! y = tab !! y.
  Proof. intros -> H. cbn. apply lookup_partial_alter_ne. congruence. Qed.
  Lemma perform_eq e tab x d : e = Some (x, d) -> perform e tab !! x = run_edit d (tab !! x).
  Proof. intros ->. cbn. apply lookup_partial_alter. Qed.

  (** A change of one process does not concern another. *)
  Lemma perform_agree (own : Z -> nat -> Prop) next tab i j a b e :
    bs !! i = Some a -> bs !! j = Some b -> i <> j ->
    dirs own tab -> owns own next -> legal own tab i a e -> agree own j b tab (perform e tab).
  Proof.
    intros Ha Hb Hij D [Wf _ Ws _] Hl. destruct e as [[x d]|].
    2:{ split; [reflexivity|]. intros p z Hz. destruct (d_dir own tab D _ _ Hz) as (y & Ey & _). exists y, y. auto. }
    split.
    - intros y Hy. symmetry. apply (perform_ne _ _ x d); [reflexivity|]. intros ->.
      destruct Hl as [[Hx _]|(p & f & _ & Hp & _)]; [exact (Hij (Wf _ _ _ Hx Hy))|exact (Ws _ _ _ Hp Hy)].
    - intros p z Hz. destruct (d_dir own tab D _ _ Hz) as (y & Ey & _). destruct (decide (z = x)) as [->|Hzx].
      2:{ exists y, y. rewrite (perform_ne _ _ x d) by auto. auto. }
      destruct Hl as [[Hx _]|(p' & f & Ea & Hp' & Hd)]; [destruct (Ws _ _ _ Hz Hx)|].
      rewrite (so_inj Hso _ _ _ Hp' Hz) in *. rewrite (perform_eq _ _ x d), Ey by reflexivity.
      assert (Hff : forall g, b = p ++ [g] -> f <> g).
      { intros g Eg ->. apply (so_apart Hso _ _ _ _ Ha Hb Hij). rewrite Ea, Eg. reflexivity. }
      destruct Hd as [(n & Hn & ->)|[(-> & _)|(n & Hn & ->)]]; cbn [run_edit fmap option_fmap option_map];
        eexists _, _; (split; [reflexivity|]); (split; [reflexivity|]); (split; [reflexivity|]); intros g Eg; cbn;
        specialize (Hff g Eg).
      + rewrite lookup_insert_ne by exact Hff. reflexivity.
      + rewrite lookup_delete_ne by exact Hff. reflexivity.
      + rewrite lookup_delete_ne, lookup_insert_ne by exact Hff. reflexivity.
  Qed.

  (** A change keeps the shape of the tree. *)
  Lemma perform_dirs (own : Z -> nat -> Prop) next tab i a e :
    bs !! i = Some a -> dirs own tab -> owns own next -> legal own tab i a e -> dirs own (perform e tab).
  Proof.
    intros Ha D [Wf _ Ws _] Hl. destruct e as [[x d]|]; [|exact D]. split.
    - intros p z Hz. destruct (d_dir own tab D _ _ Hz) as (y & Ey & Ky & Ly & Sy & Oy).
      destruct (decide (z = x)) as [->|Hzx].
      2:{ exists y. rewrite (perform_ne _ _ x d) by auto. auto. }
      destruct Hl as [[Hx _]|(p' & f & Ea & Hp' & Hd)]; [destruct (Ws _ _ _ Hz Hx)|].
      rewrite (so_inj Hso _ _ _ Hp' Hz) in *. rewrite (perform_eq _ _ x d), Ey by reflexivity.
      assert (Hsh : forall g e, sh (p ++ [g]) e -> f <> g).
      { intros g e He ->. apply (shared_not_below _ _ _ _ Ha He). rewrite Ea. reflexivity. }
      assert (Hbb : forall j, bs !! j = Some (p ++ [f]) -> j = i).
      { intros j Hj. destruct (decide (i = j)) as [->|Hij]; [reflexivity|].
        exfalso. apply (so_apart Hso _ _ _ _ Ha Hj Hij). rewrite Ea. reflexivity. }
      destruct Hd as [(n & Hn & ->)|[(-> & y' & z & Ey' & Ez)|(n & Hn & ->)]]; cbn [run_edit fmap option_fmap option_map];
        eexists; (split; [reflexivity|]); (split; [exact Ky|]); cbn.
      + split.
        { rewrite map_size_insert. destruct (i_dict y !! f); cbn; lia. }
        split.
        { intros g e He. rewrite lookup_insert_ne by exact (Hsh g e He). exact (Sy _ _ He). }
        { intros j g e Hj. destruct (decide (g = f)) as [->|Hg].
          - rewrite lookup_insert. intros [= <-]. rewrite (Hbb j Hj). exact Hn.
          - rewrite lookup_insert_ne by congruence. exact (Oy j g e Hj). }
      + rewrite Ey in Ey'. injection Ey' as <-. split.
        { rewrite map_size_delete, Ez. cbn. destruct (decide (i_dict y = ∅)) as [E0|Hne'].
          - rewrite E0, lookup_empty in Ez. discriminate Ez.
          - apply map_size_non_empty_iff in Hne'. lia. }
        split.
        { intros g e He. rewrite lookup_delete_ne by exact (Hsh g e He). exact (Sy _ _ He). }
        { intros j g e Hj. destruct (decide (g = f)) as [->|Hg].
          - rewrite lookup_delete. discriminate.
          - rewrite lookup_delete_ne by congruence. exact (Oy j g e Hj). }
      + split.
        { rewrite delete_insert_delete, map_size_delete. destruct (i_dict y !! f); cbn; lia. }
        split.
        { intros g e He. rewrite lookup_delete_ne, lookup_insert_ne by exact (Hsh g e He). exact (Sy _ _ He). }
        { intros j g e Hj. destruct (decide (g = f)) as [->|Hg].
          - rewrite lookup_delete. discriminate.
          - rewrite lookup_delete_ne, lookup_insert_ne by congruence. exact (Oy j g e Hj). }
    - intros z j y f g Hz Ey Ky F1 Eg. destruct (decide (z = x)) as [->|Hzx].
      2:{ rewrite (perform_ne _ _ x d) in Ey by auto. exact (d_own own tab D _ _ _ _ _ Hz Ey Ky F1 Eg). }
      rewrite (perform_eq _ _ x d) in Ey by reflexivity.
      destruct Hl as [[Hx Hd]|(p' & f' & Ea & Hp' & Hd)]; [|destruct (Ws _ _ _ Hp' Hz)].
      rewrite (Wf _ _ _ Hz Hx) in *.
      destruct d as [y'| |f' n|f'|fo fn n]; cbn [run_edit] in Ey.
      + injection Ey as ->. exact (Hd _ _ Ky F1 Eg).
      + discriminate Ey.
      + destruct (tab !! x) as [y0|] eqn:E0; [|discriminate Ey]. injection Ey as <-. cbn in Ky, Eg.
        destruct (decide (f = f')) as [->|Hf]; [rewrite lookup_insert in Eg; injection Eg as <-; exact Hd|].
        rewrite lookup_insert_ne in Eg by congruence. exact (d_own own tab D _ _ _ _ _ Hx E0 Ky F1 Eg).
      + destruct (tab !! x) as [y0|] eqn:E0; [|discriminate Ey]. injection Ey as <-. cbn in Ky, Eg.
        apply lookup_delete_Some in Eg as [_ Eg]. exact (d_own own tab D _ _ _ _ _ Hx E0 Ky F1 Eg).
      + destruct (tab !! x) as [y0|] eqn:E0; [|discriminate Ey]. injection Ey as <-. cbn in Ky, Eg.
        apply lookup_delete_Some in Eg as [_ Eg].
        destruct (decide (f = fn)) as [->|Hf]; [rewrite lookup_insert in Eg; injection Eg as <-; exact Hd|].
        rewrite lookup_insert_ne in Eg by congruence. exact (d_own own tab D _ _ _ _ _ Hx E0 Ky F1 Eg).
  Qed.

  (** Changes of two processes commute. *)
  Lemma perform_comm (own : Z -> nat -> Prop) next tab t1 t2 i j a b e1 e2 :
    bs !! i = Some a -> bs !! j = Some b -> i <> j -> owns own next ->
    legal own t1 i a e1 -> legal own t2 j b e2 ->
    perform e1 (perform e2 tab) = perform e2 (perform e1 tab).
  Proof.
    intros Ha Hb Hij [Wf _ Ws _] H1 H2. destruct e1 as [[x d]|]; [|reflexivity]. destruct e2 as [[y g]|]; [|reflexivity].
    cbn [perform]. destruct (decide (x = y)) as [->|Hxy]; [|apply partial_alter_commute; exact Hxy].
    destruct H1 as [[Hx _]|(p & f & Ea & Hp & Hd)].
    { destruct H2 as [[Hy _]|(p & f & _ & Hp & _)]; [destruct (Hij (Wf _ _ _ Hx Hy))|destruct (Ws _ _ _ Hp Hx)]. }
    destruct H2 as [[Hy _]|(p' & f' & Eb & Hp' & Hd')]; [destruct (Ws _ _ _ Hp Hy)|].
    rewrite (so_inj Hso _ _ _ Hp' Hp) in *.
    assert (Hf : f <> f').
    { intros ->. apply (so_apart Hso _ _ _ _ Ha Hb Hij). rewrite Ea, Eb. reflexivity. }
    rewrite <- !partial_alter_compose. apply partial_alter_ext. intros o _. unfold compose.
    destruct o as [x|];
    destruct Hd as [(n & _ & ->)|[(-> & _)|(n & _ & ->)]]; destruct Hd' as [(n' & _ & ->)|[(-> & _)|(n' & _ & ->)]]; cbn; try reflexivity;
      f_equal; unfold set_link, set_dict; cbn; f_equal; try lia;
      apply map_eq; intros k; (destruct (decide (k = f)) as [->|Hk]; [|destruct (decide (k = f')) as [->|Hk']]);
      rewrite ?lookup_insert_ne, ?lookup_delete_ne, ?lookup_insert_ne, ?lookup_delete_ne, ?lookup_insert_ne by congruence;
      rewrite ?lookup_insert, ?lookup_delete;
      rewrite ?lookup_insert_ne, ?lookup_delete_ne, ?lookup_insert_ne, ?lookup_delete_ne, ?lookup_insert_ne by congruence;
      rewrite ?lookup_insert, ?lookup_delete; reflexivity.
  Qed.
End sep.
