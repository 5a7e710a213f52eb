From Verif Require Import Base PathModel PathSpec.
From Coq Require Import Ascii.
Open Scope string_scope.

Lemma split_slash_ne s : split_slash s <> [].
Proof.
  destruct s as [|a r]; cbn [split_slash]; [discriminate|].
  destruct (Ascii.eqb a "/"); [discriminate|]. destruct (split_slash r); discriminate.
Qed.

Lemma split_noslash w : has_slash w = false -> split_slash w = [w].
Proof.
  induction w as [|a r IH]; intros H; [reflexivity|].
  cbn [has_slash] in H. apply orb_false_iff in H as [Ha Hr].
  cbn [split_slash]. rewrite Ha, (IH Hr). reflexivity.
Qed.

Lemma split_app w r : has_slash w = false ->
  split_slash (w +:+ String "/" r) = w :: split_slash r.
Proof.
  induction w as [|a w IH]; intros H.
  - cbn [String.append split_slash]. reflexivity.
  - cbn [has_slash] in H. apply orb_false_iff in H as [Ha Hr].
    change (String a w +:+ String "/" r) with (String a (w +:+ String "/" r)). cbn [split_slash]. rewrite Ha, (IH Hr). reflexivity.
Qed.

Lemma words_split p ws : words p ws <-> split_slash p = ws.
Proof.
  split.
  - induction 1 as [w Hw|w r ws Hw Hws IH]; [apply split_noslash; exact Hw|].
    rewrite split_app by exact Hw. congruence.
  - revert ws. induction p as [|a r IH]; intros ws <-.
    + cbn. constructor. reflexivity.
    + cbn [split_slash]. destruct (Ascii.eqb a "/") eqn:Ea.
      * apply Ascii.eqb_eq in Ea as ->.
        apply (words_cons "" r); [reflexivity|]. apply IH. reflexivity.
      * specialize (IH _ eq_refl). inversion IH as [w Hw Hx Hy|w r0 ws Hw Hws Hx Hy].
        -- constructor. cbn [has_slash]. rewrite Ea. exact Hw.
        -- apply (words_cons (String a w) r0 ws); [|exact Hws]. cbn [has_slash]. rewrite Ea. exact Hw.
Qed.

Lemma concat_cons f g ns : String.concat "/" (f :: g :: ns) = f +:+ String "/" (String.concat "/" (g :: ns)).
Proof. reflexivity. Qed.

Lemma split_concat f ns : Forall (fun f => has_slash f = false) (f :: ns) ->
  split_slash (String.concat "/" (f :: ns)) = f :: ns.
Proof.
  revert f. induction ns as [|g ns IH]; intros f H.
  - inversion H; subst. cbn [String.concat]. apply split_noslash. assumption.
  - inversion H as [|? ? H1 H2]; subst. rewrite concat_cons, split_app, IH by assumption. reflexivity.
Qed.

Lemma piece_good f : good_name f -> piece f = [Normal f].
Proof.
  intros (H1 & H2 & H3 & _). unfold piece.
  destruct (String.eqb_spec f ""); [contradiction|].
  destruct (String.eqb_spec f "."); [contradiction|].
  destruct (String.eqb_spec f ".."); [contradiction|]. reflexivity.
Qed.

Lemma pieces_good ns : canonical ns -> List.concat (map piece ns) = map Normal ns.
Proof.
  induction 1 as [|f ns Hf Hns IH]; [reflexivity|].
  cbn [map List.concat]. rewrite piece_good by exact Hf. cbn. rewrite IH. reflexivity.
Qed.

Lemma components_render ns : canonical ns -> components (render ns) = RootDir :: map Normal ns.
Proof.
  intros H. unfold components, render.
  change (has_root ("/" +:+ String.concat "/" ns)) with true. cbv iota. f_equal.
  change (split_slash ("/" +:+ String.concat "/" ns)) with ("" :: split_slash (String.concat "/" ns)).
  cbn [map List.concat]. change (piece "") with (@nil component). cbn [app].
  destruct ns as [|f ns]; [reflexivity|].
  rewrite split_concat.
  - exact (pieces_good (f :: ns) H).
  - eapply Forall_impl; [exact H|]. intros x (_ & _ & _ & ?). assumption.
Qed.

Lemma norm_step_canonical st c :
  canonical st -> (forall f, c = Normal f -> good_name f) -> canonical (norm_step st c).
Proof.
  intros H Hc. destruct c as [| | |f]; cbn [norm_step]; auto.
  - destruct st as [|x st] using rev_ind; [exact H|].
    rewrite removelast_last. apply Forall_app in H as [H _]. exact H.
  - apply Forall_app; split; [exact H|]. constructor; [apply Hc; reflexivity|constructor].
Qed.

Lemma fold_norm_canonical l : forall st,
  canonical st -> (forall f, In (Normal f) l -> good_name f) -> canonical (fold_left norm_step l st).
Proof.
  induction l as [|c l IH]; intros st H Hl; [exact H|]. cbn [fold_left]. apply IH.
  - apply norm_step_canonical; [exact H|]. intros f ->. apply Hl. left; reflexivity.
  - intros f Hf. apply Hl. right; exact Hf.
Qed.

Lemma split_noslash_pieces s x : In x (split_slash s) -> has_slash x = false.
Proof.
  revert x. induction s as [|a r IH]; intros x Hx.
  - cbn in Hx. destruct Hx as [<-|[]]. reflexivity.
  - cbn [split_slash] in Hx. destruct (Ascii.eqb a "/") eqn:Ea.
    + destruct Hx as [<-|Hx]; [reflexivity|auto].
    + destruct (split_slash r) as [|y ys] eqn:E; [exfalso; apply (split_slash_ne r E)|].
      destruct Hx as [<-|Hx]; [|apply IH; right; exact Hx].
      cbn [has_slash]. rewrite Ea. apply IH. left; reflexivity.
Qed.

Lemma piece_normal x f : In (Normal f) (piece x) -> f = x /\ x <> "" /\ x <> "." /\ x <> "..".
Proof.
  unfold piece. destruct (String.eqb_spec x ""); [intros []|].
  destruct (String.eqb_spec x "."); [intros []|].
  destruct (String.eqb_spec x ".."); [intros [H|[]]; discriminate|].
  intros [H|[]]. injection H as ->. auto.
Qed.

Lemma pieces_normal xs f : In (Normal f) (List.concat (map piece xs)) ->
  In f xs /\ f <> "" /\ f <> "." /\ f <> "..".
Proof.
  induction xs as [|x xs IH]; cbn [map List.concat]; [intros []|].
  rewrite in_app_iff. intros [H|H].
  - apply piece_normal in H as (-> & H1 & H2 & H3). split; [left; reflexivity|auto].
  - destruct (IH H) as (H1 & H2). split; [right; exact H1|exact H2].
Qed.

Lemma components_good p f : In (Normal f) (components p) -> good_name f.
Proof.
  unfold components. destruct (has_root p).
  - intros [H|H]; [discriminate|]. apply pieces_normal in H as (H1 & H2 & H3 & H4).
    repeat split; auto. eapply split_noslash_pieces; eauto.
  - destruct (split_slash p) as [|x xs] eqn:E; [intros []|]. rewrite in_app_iff.
    intros [H|H].
    + destruct (String.eqb_spec x "."); [destruct H as [H|[]]; discriminate|].
      apply piece_normal in H as (-> & H2 & H3 & H4). repeat split; auto.
      eapply split_noslash_pieces. rewrite E. left; reflexivity.
    + apply pieces_normal in H as (H1 & H2 & H3 & H4). repeat split; auto.
      eapply split_noslash_pieces. rewrite E. right; exact H1.
Qed.

Lemma normpath_canonical cwd p : canonical cwd -> canonical (normpath cwd p).
Proof.
  intros H. unfold normpath. apply fold_norm_canonical.
  - destruct (has_root p); [constructor|exact H].
  - intros f Hf. eapply components_good; eauto.
Qed.

Lemma fold_norm_normals ns : forall st, fold_left norm_step (map Normal ns) st = (st ++ ns)%list.
Proof.
  induction ns as [|f ns IH]; intros st; cbn [map fold_left].
  - rewrite app_nil_r. reflexivity.
  - rewrite IH. cbn [norm_step]. rewrite <- app_assoc. reflexivity.
Qed.

Lemma normpath_render cwd ns : canonical ns -> normpath cwd (render ns) = ns.
Proof.
  intros H. unfold normpath. rewrite components_render by exact H.
  cbn [fold_left norm_step]. rewrite fold_norm_normals.
  unfold render. cbn [String.append has_root Ascii.eqb Bool.eqb]. reflexivity.
Qed.

Lemma has_root_absolute p : has_root p = true <-> absolute p.
Proof.
  unfold absolute. destruct p as [|a r]; cbn [has_root].
  - split; [discriminate|]. intros [r H]. discriminate.
  - rewrite Ascii.eqb_eq. split; [intros ->; eauto|]. intros [r' H]. injection H; auto.
Qed.

Lemma normpath_absolute cwd cwd' p : absolute p -> normpath cwd p = normpath cwd' p.
Proof. intros H. apply has_root_absolute in H. unfold normpath. rewrite H. reflexivity. Qed.

Lemma render_absolute ns : absolute (render ns).
Proof. eexists. reflexivity. Qed.

Lemma render_inj a b : canonical a -> canonical b -> render a = render b -> a = b.
Proof. intros Ha Hb H. rewrite <- (normpath_render [] a Ha), H. apply normpath_render. exact Hb. Qed.

(** ** The lexical meaning *)

Lemma fold_piece_walks ws : forall st, walks st ws (fold_left norm_step (List.concat (map piece ws)) st).
Proof.
  induction ws as [|w ws IH]; intros st; [constructor|].
  cbn [map List.concat]. rewrite fold_left_app. unfold piece at 2.
  destruct (String.eqb_spec w "") as [->|H1]; [apply walks_stay; auto|].
  destruct (String.eqb_spec w ".") as [->|H2]; [apply walks_stay; auto|].
  destruct (String.eqb_spec w "..") as [->|H3].
  - cbn [fold_left norm_step]. destruct st as [|x st] using rev_ind.
    + apply walks_root. apply IH.
    + rewrite removelast_last. apply walks_up. apply IH.
  - apply walks_down; auto.
Qed.

Lemma walks_det st ws r1 : walks st ws r1 -> forall r2, walks st ws r2 -> r1 = r2.
Proof.
  induction 1 as [st|st w ws r Hw H IH|st n ws r H IH|ws r H IH|st w ws r H1 H2 H3 H IH];
    intros r2 Hr; inversion Hr; subst;
    repeat match goal with
           | H : _ = _ \/ _ = _ |- _ => destruct H; try congruence
           | H : (_ ++ [_])%list = (_ ++ [_])%list |- _ => apply app_inj_tail in H as [-> ->]
           | H : (?l ++ [_])%list = [] |- _ => destruct l; discriminate
           | H : [] = (?l ++ [_])%list |- _ => destruct l; discriminate
           end; try congruence; try (apply IH; assumption).
Qed.

Lemma normpath_walks cwd p ws : words p ws ->
  forall r, walks (if has_root p then [] else cwd) ws r <-> r = normpath cwd p.
Proof.
  intros Hw. apply words_split in Hw.
  assert (H : walks (if has_root p then [] else cwd) ws (normpath cwd p)).
  { unfold normpath, components. rewrite Hw. destruct (has_root p).
    - cbn [fold_left norm_step]. apply fold_piece_walks.
    - destruct ws as [|x xs]; [exfalso; apply (split_slash_ne p Hw)|].
      destruct (String.eqb_spec x ".") as [->|Hx].
      + cbn [app fold_left norm_step]. apply walks_stay; [auto|]. apply fold_piece_walks.
      + change (piece x ++ List.concat (map piece xs))%list with (List.concat (map piece (x :: xs))).
        apply fold_piece_walks. }
  intros r. split; [|intros ->; exact H]. intros Hr. eapply walks_det; eauto.
Qed.

(** Composition: looking up "p/q" is looking up "q" from the directory "p". *)
Lemma split_app_gen p q : split_slash (p +:+ String "/" q) = (split_slash p ++ split_slash q)%list.
Proof.
  induction p as [|a r IH]; [reflexivity|].
  change (String a r +:+ String "/" q) with (String a (r +:+ String "/" q)). cbn [split_slash]. rewrite IH.
  destruct (Ascii.eqb a "/"); [reflexivity|].
  destruct (split_slash r) as [|x xs] eqn:E; [exfalso; apply (split_slash_ne r E)|]. reflexivity.
Qed.

Lemma normpath_join cwd p q : p <> "" -> has_root q = false ->
  normpath cwd (p +:+ String "/" q) = normpath (normpath cwd p) q.
Proof.
  intros Hp Hq.
  assert (Hr : has_root (p +:+ String "/" q) = has_root p) by (destruct p; [congruence|reflexivity]).
  assert (Hcq : forall st, fold_left norm_step (components q) st
                  = fold_left norm_step (List.concat (map piece (split_slash q))) st).
  { intros st. unfold components. rewrite Hq.
    destruct (split_slash q) as [|x xs] eqn:E; [reflexivity|].
    destruct (String.eqb_spec x ".") as [->|Hx]; reflexivity. }
  unfold normpath at 2. rewrite Hq, Hcq.
  unfold normpath, components. rewrite Hr, split_app_gen. destruct (has_root p).
  - rewrite map_app, concat_app. cbn [fold_left]. rewrite fold_left_app. reflexivity.
  - destruct (split_slash p) as [|x xs] eqn:E; [exfalso; apply (split_slash_ne p E)|].
    cbn [app]. rewrite map_app, List.concat_app, app_assoc, fold_left_app. reflexivity.
Qed.

Lemma normpath_canonical_all cwd p : canonical cwd ->
  canonical (normpath cwd p) /\
  components (render (normpath cwd p)) = RootDir :: map Normal (normpath cwd p) /\
  (forall cwd', normpath cwd' (render (normpath cwd p)) = normpath cwd p) /\
  (absolute p -> forall cwd', normpath cwd' p = normpath cwd p).
Proof.
  intros H. pose proof (normpath_canonical cwd p H) as Hc.
  repeat split; [exact Hc|apply components_render; exact Hc| |].
  - intros cwd'. apply normpath_render. exact Hc.
  - intros Ha cwd'. apply normpath_absolute. exact Ha.
Qed.
