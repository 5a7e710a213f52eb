(** The tools that copy host files: trees. *)
From stdpp Require Import gmap.
From Verif Require Import Base PathModel PathSpec PathProofs FsModel FsBoot FsSpec FsWalk Count FsNames FsTr FsInv FsInv2
  FsSteps FsSteps2 FsFrame FsReachSpec FsWinv FsReach FsTree FsNameSpec FsPath FdSpec FsDesc FsOps FsTmp FsNameProofs FsFail FsPos FsIoSpec FsIo
  FsCopyModel FsCopySpec FsCopyProofs.
From Coq Require Import Ascii.
Local Open Scope list_scope.
Local Open Scope Z_scope.
Opaque all_fds next_fd.

(** ** A list of files *)
Fixpoint cp_list (c : Z) (create : bool) (L : list (list string * list Z)) (w : world) : outcome world :=
  match L with
  | [] => Done w
  | (q, bs) :: r => do x <- cp_names c create bs q w; cp_list c create r (fst x)
  end.

Lemma cp_list_app c create a : forall b w, cp_list c create (a ++ b) w = (do w1 <- cp_list c create a w; cp_list c create b w1).
Proof.
  induction a as [|[q bs] a IH]; intros b w; [reflexivity|]. cbn [app cp_list]. destruct (cp_names _ _ _ _ _) as [x|]; [|reflexivity].
  cbn [obind]. apply IH.
Qed.

Lemma cp_list_added c create cwd L : forall w w', Forall (fun e => canonical (fst e)) L -> reach true w -> w_cwd w !! c = Some cwd ->
  cp_list c create L w = Done w' -> reach true w' /\ same_procs w w' /\ added (map fst L) w w'.
Proof.
  induction L as [|[q bs] L IH]; intros w w' HL Hr Hc H; cbn [cp_list] in H.
  - injection H as <-. split; [exact Hr|]. split; [split; reflexivity|apply added_refl].
  - apply Forall_cons in HL as [Hq HL]. cbn [fst] in Hq. destruct (cp_names _ _ _ _ _) as [[w1 ok]|] eqn:E; cbn [obind fst] in H; [|discriminate H].
    destruct (cp_names_added _ _ _ _ _ _ _ _ Hq Hr Hc E) as (R1 & [P1 P2] & A1).
    destruct (IH _ _ HL R1 ltac:(rewrite P2; exact Hc) H) as (R2 & [P3 P4] & A2). split; [exact R2|]. split; [split; congruence|].
    apply (added_trans _ _ w1).
    + apply Forall_fmap. constructor; [exact Hq|exact HL].
    + apply (added_mono [q]); [intros x [<-|[]]; left; reflexivity|exact A1].
    + apply (added_mono (map fst L)); [intros x Hx; right; exact Hx|exact A2].
Qed.

(** Paths of which none is above another *)
Definition apart (a b : list string) : Prop := ~ a `prefix_of` b /\ ~ b `prefix_of` a.

Lemma cp_list_ok c cwd L : forall w, Forall (fun e => canonical (fst e) /\ fst e <> []) L -> ForallOrdPairs apart (map fst L) -> reach true w -> w_cwd w !! c = Some cwd ->
  (forall q, In q (map fst L) -> way_free w q) -> unlinked w (map fst L) -> ~ none_free (w_fds w) c 0 ->
  exists w', cp_list c true L w = Done w' /\ forall q bs, In (q, bs) L -> holds_file w' q bs.
Proof.
  induction L as [|[q bs] L IH]; intros w HL Hap Hr Hc Hway Hun Hfree.
  - exists w. split; [reflexivity|intros ? ? []].
  - apply Forall_cons in HL as [[Hq Hne] HL]. cbn [fst map] in *. inversion Hap as [|? ? Hap1 Hap2]; subst. rewrite Forall_forall in Hap1.
    pose proof (reach_winv _ _ Hr) as Hw.
    destruct (cp_names_ok c bs q w cwd Hq Hne Hr Hc (Hway q ltac:(left; reflexivity)) Hfree) as (w1 & E1 & H1 & V1).
    destruct (cp_names_added _ _ _ _ _ _ _ _ Hq Hr Hc E1) as (R1 & [P1 P2] & A1). pose proof (reach_winv _ _ R1) as Hw1.
    assert (Hcan : forall a, In a (map fst L) -> canonical a).
    { intros a Ha. apply in_map_iff in Ha as ([a' b'] & <- & Ha). rewrite Forall_forall in HL. apply (HL _ (proj2 (elem_of_list_In _ _) Ha)). }
    (* names of the rest are old *)
    assert (Hold : forall a i, In a (map fst L) -> resolves (w_ino w1) a i -> resolves (w_ino w) a i).
    { intros a i Ha Hi. destruct (ad_new _ _ _ A1 _ _ (Hcan a Ha) Hi) as [K|[(q' & [<-|[]] & K) _]]; [exact K|].
      exfalso. exact (proj2 (Hap1 a (proj2 (elem_of_list_In _ _) Ha)) K). }
    destruct (IH w1) as (w' & E' & F').
    + exact HL.
    + exact Hap2.
    + exact R1.
    + rewrite P2. exact Hc.
    + intros a Ha. pose proof (Hcan a Ha) as Hca. split.
      * intros i y Hi Hy. pose proof (Hold _ _ Ha Hi) as Hi0. destruct (resolves_exists _ _ _ Hw Hca Hi0) as [y0 Hy0].
        rewrite (proj1 (added_kind _ _ _ _ _ _ _ Hw Hca A1 Hi0 Hy0 Hy)). exact (proj1 (Hway a (or_intror Ha)) _ _ Hi0 Hy0).
      * intros p f r i y Ep Hp Hy. assert (Hcp : canonical p) by (apply (canonical_prefix _ _ Hca); rewrite Ep; eexists; reflexivity).
        destruct (ad_new _ _ _ A1 _ _ Hcp Hp) as [K|[(q' & [<-|[]] & K) _]].
        -- destruct (resolves_exists _ _ _ Hw Hcp K) as [y0 Hy0]. destruct (added_kind _ _ _ _ _ _ _ Hw Hcp A1 K Hy0 Hy) as [K1 K2].
           destruct (proj2 (Hway a (or_intror Ha)) _ _ _ _ _ Ep K Hy0) as [K3 K4]. unfold dir_mode in *. rewrite K1, K2. auto.
        -- destruct K as [[|h s] K].
           ++ exfalso. rewrite app_nil_r in K. subst p. apply (proj1 (Hap1 a (proj2 (elem_of_list_In _ _) Ha))). rewrite Ep. eexists; reflexivity.
           ++ exact (V1 _ _ _ _ _ K Hp Hy).
    + intros a b i Ha Hb Hi Hj. apply (Hun a b i); [right; exact Ha|right; exact Hb|apply Hold; assumption..].
    + rewrite P1. exact Hfree.
    + exists w'. cbn [cp_list]. rewrite E1. cbn [obind fst]. split; [exact E'|]. intros a b [E|Hab]; [|exact (F' a b Hab)].
      injection E as <- <-. destruct (cp_list_added c true cwd L w1 w') as (R' & _ & A').
      * eapply Forall_impl; [exact HL|]. cbn. tauto.
      * exact R1.
      * rewrite P2. exact Hc.
      * exact E'.
      * destruct H1 as (i & x & Hi & Hx & Hk & Hb). destruct (ad_obj _ _ _ A' _ _ _ Hq Hi Hx) as (y & Hy & K1 & _ & K3).
        exists i, y. split; [exact (ad_old _ _ _ A' _ _ Hq Hi)|]. split; [exact Hy|]. split; [congruence|].
        rewrite (proj2 (K3 ltac:(idtac; intros a Ha Hai; apply (Hold _ _ Ha) in Hai as Hai0;
          destruct (ad_new _ _ _ A1 _ _ Hq Hi) as [J|[_ J]];
          [pose proof (Hun a q i (or_intror Ha) (or_introl eq_refl) Hai0 J) as Eaq; subst a; apply (proj1 (Hap1 q (proj2 (elem_of_list_In _ _) Ha))); reflexivity
          |exact (J _ (Hcan a Ha) Hai0)]))). exact Hb.
Qed.

(** ** Trees *)
Section htree_ind.
  Variable P : htree -> Prop.
  Hypothesis Hfile : forall bs, P (HFile bs).
  Hypothesis Hdir : forall l, Forall (fun e => P (snd e)) l -> P (HDir l).
  Fixpoint htree_ind2 (t : htree) : P t :=
    match t with
    | HFile bs => Hfile bs
    | HDir l => Hdir l ((fix go (l : list (string * htree)) : Forall (fun e => P (snd e)) l :=
        match l with [] => List.Forall_nil _ | e :: r => List.Forall_cons _ _ _ (htree_ind2 (snd e)) (go r) end) l)
    end.
End htree_ind.

Lemma host_ok_all (l : list (string * htree)) : fold_right (fun e P => host_ok (snd e) /\ P) True l -> Forall (fun e => host_ok (snd e)) l.
Proof. induction l as [|e l IH]; cbn; [constructor|]. intros [H1 H2]. constructor; auto. Qed.

Lemma files_below p t : Forall (fun e => p `prefix_of` fst e) (files p t).
Proof.
  revert p. induction t as [bs|l IH] using htree_ind2; intros p; cbn [files].
  - constructor; [cbn; reflexivity|constructor].
  - induction IH as [|e l He _ IHl]; cbn [map concat]; [constructor|]. apply Forall_app. split; [|exact IHl].
    eapply Forall_impl; [exact (He (p ++ [fst e]))|]. intros x Hx. cbn. etransitivity; [|exact Hx]. eexists; reflexivity.
Qed.

Lemma files_canonical p t : canonical p -> host_ok t -> Forall (fun e => canonical (fst e)) (files p t).
Proof.
  revert p. induction t as [bs|l IH] using htree_ind2; intros p Hp Ht; cbn [files].
  - constructor; [exact Hp|constructor].
  - cbn [host_ok] in Ht. destruct Ht as (_ & Hg & Hk). apply host_ok_all in Hk.
    induction l as [|e l IHl]; cbn [map concat]; [constructor|]. apply Forall_cons in IH as [He IH]. cbn [map] in Hg. apply Forall_cons in Hg as [Hg1 Hg]. apply Forall_cons in Hk as [Hk1 Hk].
    apply Forall_app. split; [|exact (IHl IH Hg Hk)]. apply He; [|exact Hk1]. apply Forall_app. split; [exact Hp|]. constructor; [exact Hg1|constructor].
Qed.

Lemma apart_below p f g a b : f <> g -> (p ++ [f]) `prefix_of` a -> (p ++ [g]) `prefix_of` b -> apart a b.
Proof.
  intros Hfg [ra ->] [rb ->]. rewrite <- !app_assoc. split; intros [r E]; rewrite <- ?app_assoc in E; apply app_inv_head in E; cbn in E; congruence.
Qed.

Lemma fop_app {A} (R : A -> A -> Prop) l1 l2 : ForallOrdPairs R l1 -> ForallOrdPairs R l2 -> (forall a b, In a l1 -> In b l2 -> R a b) -> ForallOrdPairs R (l1 ++ l2).
Proof.
  intros H1 H2 H. induction H1 as [|a l1 Ha H1 IH]; [exact H2|]. cbn. constructor.
  - apply Forall_app. split; [exact Ha|]. apply Forall_forall. intros b Hb. apply H; [left; reflexivity|apply elem_of_list_In; exact Hb].
  - apply IH. intros x y Hx Hy. apply H; [right; exact Hx|exact Hy].
Qed.

Lemma paths_apart p t : host_ok t -> ForallOrdPairs apart (paths p t).
Proof.
  unfold paths. revert p. induction t as [bs|l IH] using htree_ind2; intros p Ht; cbn [files].
  - cbn. constructor; constructor.
  - cbn [host_ok] in Ht. destruct Ht as (Hn & _ & Hk). apply host_ok_all in Hk.
    induction l as [|e l IHl]; cbn [map concat]; [constructor|]. apply Forall_cons in IH as [He IH]. cbn [map] in Hn. apply NoDup_cons in Hn as [Hn1 Hn]. apply Forall_cons in Hk as [Hk1 Hk].
    rewrite map_app. apply fop_app; [apply He; exact Hk1|exact (IHl IH Hn Hk)|].
    intros a b Ha Hb. apply in_map_iff in Ha as ([a' ?] & <- & Ha). apply in_map_iff in Hb as ([b' ?] & <- & Hb). cbn [fst].
    pose proof (files_below (p ++ [fst e]) (snd e)) as Fa. rewrite Forall_forall in Fa. apply elem_of_list_In in Ha. apply Fa in Ha. cbn in Ha.
    apply in_concat in Hb as (L & HL & Hb). apply in_map_iff in HL as (e' & <- & He').
    pose proof (files_below (p ++ [fst e']) (snd e')) as Fb. rewrite Forall_forall in Fb. apply elem_of_list_In in Hb. apply Fb in Hb. cbn in Hb.
    apply (apart_below p (fst e) (fst e')); [|assumption..]. intros E. apply Hn1. rewrite E. apply elem_of_list_In, in_map, He'.
Qed.

(** ** Paths of children *)
Lemma normpath_child cwd f : good_name f -> normpath cwd f = cwd ++ [f].
Proof.
  intros Hf. assert (Hr : has_root f = false). { destruct Hf as (H1 & _ & _ & H4). destruct f as [|a r]; [reflexivity|]. cbn in *. apply orb_false_iff in H4 as [H4 _]. exact H4. }
  unfold normpath, components. rewrite Hr. pose proof (piece_good f Hf) as Hp. destruct Hf as (H1 & H2 & H3 & H4).
  rewrite (split_noslash f H4). cbn [map List.concat]. destruct (String.eqb_spec f "."); [contradiction|]. rewrite Hp. reflexivity.
Qed.

Lemma good_root f : good_name f -> has_root f = false.
Proof. intros (H1 & _ & _ & H4). destruct f as [|a r]; [reflexivity|]. cbn in *. apply orb_false_iff in H4 as [H4 _]. exact H4. Qed.

Lemma slash_end p : ends_with_slash p = true -> exists p', p = p' +:+ "/".
Proof.
  unfold ends_with_slash. induction p as [|a r IH]; [discriminate|]. cbn [String.length]. destruct r as [|b r].
  - intros H. apply String.eqb_eq in H. exists "". exact H.
  - intros H. destruct IH as [p' E]; [exact H|]. exists (String a p'). rewrite E. reflexivity.
Qed.

Lemma app_str_assoc a b d : (a +:+ b) +:+ d = a +:+ (b +:+ d).
Proof. induction a as [|x a IH]; [reflexivity|]. change (String x ((a +:+ b) +:+ d) = String x (a +:+ (b +:+ d))). rewrite IH. reflexivity. Qed.

Lemma down_norm cwd p f : p <> "" -> good_name f -> down p f <> "" /\ normpath cwd (down p f) = normpath cwd p ++ [f].
Proof.
  intros Hp Hf. pose proof (good_root f Hf) as Hr. unfold down. destruct (ends_with_slash p) eqn:E.
  - apply slash_end in E as [p' ->]. rewrite app_str_assoc. change ("/" +:+ f) with (String "/" f). split; [destruct p'; discriminate|].
    destruct p' as [|a r].
    + change ("" +:+ String "/" f) with ("/" +:+ f). change ("" +:+ "/") with "/".
      change ("/" +:+ f) with (render [f]). rewrite normpath_render by (constructor; [exact Hf|constructor]). reflexivity.
    + rewrite normpath_join by (discriminate || exact Hr). change ("/") with (String "/" ""). rewrite normpath_join by (discriminate || reflexivity).
      rewrite normpath_child by exact Hf. reflexivity.
  - change ("/" +:+ f) with (String "/" f). split; [destruct p; [congruence|discriminate]|]. rewrite normpath_join by assumption. apply normpath_child, Hf.
Qed.

Lemma cp_dir_list c create t : forall p w cwd, host_ok t -> p <> "" -> reach true w -> w_cwd w !! c = Some cwd ->
  cp_dir c create t p w = cp_list c create (files (normpath cwd p) t) w.
Proof.
  induction t as [bs|l IH] using htree_ind2; intros p w cwd Ht Hp Hr Hc.
  - cbn [cp_dir files cp_list]. unfold cp_file. rewrite Hc. reflexivity.
  - cbn [host_ok] in Ht. destruct Ht as (_ & Hg & Hk). apply host_ok_all in Hk. cbn [cp_dir files].
    revert w Hr Hc. induction l as [|[f u] l IHl]; intros w Hr Hc; [reflexivity|].
    apply Forall_cons in IH as [He IH]. cbn [map] in Hg. apply Forall_cons in Hg as [Hg1 Hg]. apply Forall_cons in Hk as [Hk1 Hk]. cbn [fst snd] in *.
    cbn [map concat fst snd]. rewrite cp_list_app. destruct (down_norm cwd p f Hp Hg1) as [Hd1 Hd2].
    rewrite (He (down p f) w cwd Hk1 Hd1 Hr Hc), Hd2.
    destruct (cp_list c create (files (normpath cwd p ++ [f]) u) w) as [w1|] eqn:E; [|reflexivity]. cbn [obind].
    assert (Hcan : canonical (normpath cwd p ++ [f])).
    { apply Forall_app. split; [apply normpath_canonical, (u_cwd _ (reach_winv _ _ Hr) _ _ Hc)|constructor; [exact Hg1|constructor]]. }
    destruct (cp_list_added _ _ cwd _ _ _ (files_canonical _ _ Hcan Hk1) Hr Hc E) as (R1 & [_ P2] & _).
    apply IHl; [exact IH|exact Hg|exact Hk|exact R1|rewrite P2; exact Hc].
Qed.

(** ** What the tool does *)
Lemma cp_dir_added c create t p w w' cwd : host_ok t -> p <> "" -> reach true w -> w_cwd w !! c = Some cwd -> cp_dir c create t p w = Done w' ->
  reach true w' /\ same_procs w w' /\ added (paths (normpath cwd p) t) w w'.
Proof.
  intros Ht Hp Hr Hc H. rewrite (cp_dir_list _ _ _ _ _ cwd Ht Hp Hr Hc) in H. apply (cp_list_added c create cwd _ _ _) in H; [exact H| |exact Hr|exact Hc].
  apply files_canonical; [|exact Ht]. apply normpath_canonical, (u_cwd _ (reach_winv _ _ Hr) _ _ Hc).
Qed.

Lemma cp_dir_ok c t p w cwd : host_ok t -> p <> "" -> reach true w -> w_cwd w !! c = Some cwd ->
  ~ In [] (paths (normpath cwd p) t) -> (forall q, In q (paths (normpath cwd p) t) -> way_free w q) -> unlinked w (paths (normpath cwd p) t) ->
  ~ none_free (w_fds w) c 0 ->
  exists w', cp_dir c true t p w = Done w' /\ forall q bs, In (q, bs) (files (normpath cwd p) t) -> holds_file w' q bs.
Proof.
  intros Ht Hp Hr Hc Hne Hway Hun Hfree. rewrite (cp_dir_list _ _ _ _ _ cwd Ht Hp Hr Hc). apply (cp_list_ok c cwd); try assumption; [|apply paths_apart; exact Ht].
  assert (Hcan : canonical (normpath cwd p)) by (apply normpath_canonical, (u_cwd _ (reach_winv _ _ Hr) _ _ Hc)).
  apply Forall_forall. intros e He. split.
  - pose proof (files_canonical _ _ Hcan Ht) as F. rewrite Forall_forall in F. exact (F e He).
  - intros E. apply Hne. unfold paths. rewrite <- E. apply in_map, elem_of_list_In, He.
Qed.
