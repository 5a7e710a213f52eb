(** The log and several processes: proofs *)
From stdpp Require Import gmap.
From Verif Require Import Base PathModel FsModel FsBoot FsRaceModel LogRaceModel LogRaceSpec.
Local Open Scope list_scope.
Local Open Scope Z_scope.

Lemma last_entry_snoc i l j v : last_entry i (l ++ [(j, v)]) = if i =? j then Some v else last_entry i l.
Proof.
  induction l as [|[k u] l IH]; cbn; [destruct (i =? j); reflexivity|]. rewrite IH.
  destruct (i =? j); reflexivity.
Qed.

Lemma replay_last base l i : replay base l !! i = match last_entry i l with Some v => v | None => base !! i end.
Proof.
  unfold replay. revert base. induction l as [|[j v] l IH] using rev_ind; intros base; [reflexivity|].
  rewrite fold_left_app, last_entry_snoc. cbn. unfold replay_one at 1. cbn. specialize (IH base).
  destruct (Z.eqb_spec i j) as [->|H].
  - destruct v; [apply lookup_insert|apply lookup_delete].
  - rewrite <- IH. destruct v; [apply lookup_insert_ne; congruence|apply lookup_delete_ne; congruence].
Qed.

Lemma logs_tail i a l : logs i (a :: l) -> logs i l.
Proof. intros H l1 f l2 ->. exact (H (a :: l1) f l2 eq_refl). Qed.
Lemma logs_nil i : logs i [].
Proof. intros [|? l1] f l2 [=]. Qed.
Lemma logs_cons_log i j l : logs i l -> logs i (Log j :: l).
Proof. intros H [|a l1] f l2 [= E]. eapply H; eauto. Qed.
Lemma logs_cons i j f l : logs i l -> (i = j -> Log i ∈ l) -> logs i (Edit j f :: l).
Proof. intros H H' [|a l1] g l2 E; [injection E as -> _ <-; auto|]. injection E as _ E. eapply H; eauto. Qed.
Lemma logs_app i l l' : logs i l -> logs i l' -> logs i (l ++ l').
Proof.
  intros H H'. induction l as [|[j f|j] l IH]; [exact H'| |].
  - apply logs_cons; [apply IH; eapply logs_tail; eauto|]. intros <-. apply elem_of_app. left. exact (H [] f l eq_refl).
  - apply logs_cons_log, IH. eapply logs_tail; eauto.
Qed.

Lemma acts_log c i : logs i (acts c).
Proof.
  destruct c as [par f n x|j par f|j par f g|j par f g|j par fo fn|j m|j z]; cbn [acts]; try destruct g; cbn [app];
    repeat first [apply logs_nil | apply logs_cons_log | apply logs_cons; [|intros <-; set_solver]].
Qed.
Lemma program_log cs i : logs i (program cs).
Proof. induction cs as [|c cs IH]; [apply logs_nil|]. apply logs_app; [apply acts_log|exact IH]. Qed.

(** ** One writer *)
Section one.
  Context (base : gmap Z inode) (k : nat) (i : Z).

  Record linv (s : lst) : Prop := {
    lv_other : forall j t a, l_thr s !! j = Some t -> j <> k -> a ∈ h_todo t -> ~ about i a;
    lv_buf : forall j t v, l_thr s !! j = Some t -> h_buf t = Some (i, v) -> j = k /\ v = l_tab s !! i;
    lv_log : forall t, l_thr s !! k = Some t -> logs i (h_todo t);
    lv_now : after_crash base s i = l_tab s !! i \/
             exists t, l_thr s !! k = Some t /\ (Log i ∈ h_todo t \/ exists v, h_buf t = Some (i, v))
  }.

  Lemma linv_step s s' : linv s -> (exists j, lgo s j = Some s') -> linv s'.
  Proof.
    intros Hi (j & H). unfold lgo in H. destruct (l_thr s !! j) as [t|] eqn:Ht; [|discriminate H].
    assert (Hlt : (j < length (l_thr s))%nat) by (eapply lookup_lt_Some; eauto).
    destruct (h_buf t) as [[x v]|] eqn:Eb.
    - injection H as <-. constructor; cbn [l_thr l_tab].
      + intros j' t' a Hl Hj Ha. apply list_lookup_insert_Some in Hl as [(<- & <- & _)|(_ & Hl)];
          [exact (lv_other _ Hi j t a Ht Hj Ha)|exact (lv_other _ Hi j' t' a Hl Hj Ha)].
      + intros j' t' v' Hl Hb. apply list_lookup_insert_Some in Hl as [(<- & <- & _)|(_ & Hl)]; [discriminate Hb|].
        exact (lv_buf _ Hi _ _ _ Hl Hb).
      + intros t' Hl. apply list_lookup_insert_Some in Hl as [(E & <- & _)|(_ & Hl)]; [rewrite E in Ht; exact (lv_log _ Hi t Ht)|exact (lv_log _ Hi _ Hl)].
      + unfold after_crash in *. cbn [l_log]. rewrite last_entry_snoc. destruct (Z.eqb_spec i x) as [<-|Hne].
        * left. exact (proj2 (lv_buf _ Hi _ _ _ Ht Eb)).
        * destruct (lv_now _ Hi) as [H|(t' & Ht' & H)]; [left; exact H|]. right.
          destruct (decide (k = j)) as [->|Hkj].
          -- exists (Thr (h_todo t) None). split; [apply list_lookup_insert; exact Hlt|]. assert (t' = t) by congruence. subst t'.
             destruct H as [H|(v' & H)]; [left; exact H|]. rewrite Eb in H. congruence.
          -- exists t'. split; [rewrite list_lookup_insert_ne by congruence; exact Ht'|exact H].
    - destruct (h_todo t) as [|[x f|x] r] eqn:Et; [discriminate H| |].
      + (* Edit *)
        assert (Hx : x = i -> j = k).
        { intros ->. destruct (decide (j = k)) as [E|E]; [exact E|]. exfalso.
          apply (lv_other _ Hi j t (Edit i f) Ht E); [rewrite Et; left|reflexivity]. }
        injection H as <-. constructor; cbn [l_thr l_tab].
        * intros j' t' a Hl Hj Ha. apply list_lookup_insert_Some in Hl as [(<- & <- & _)|(_ & Hl)].
          -- apply (lv_other _ Hi j t a Ht Hj). rewrite Et. right. exact Ha.
          -- exact (lv_other _ Hi j' t' a Hl Hj Ha).
        * intros j' t' v' Hl Hb. apply list_lookup_insert_Some in Hl as [(<- & <- & _)|(Hne & Hl)]; [discriminate Hb|].
          destruct (lv_buf _ Hi _ _ _ Hl Hb) as [-> ->]. split; [reflexivity|]. symmetry.
          apply lookup_partial_alter_ne. intros ->. apply Hne, Hx. reflexivity.
        * intros t' Hl. apply list_lookup_insert_Some in Hl as [(E & <- & _)|(_ & Hl)]; [|exact (lv_log _ Hi _ Hl)].
          rewrite E in Ht. cbn. eapply logs_tail. rewrite <- Et. exact (lv_log _ Hi t Ht).
        * destruct (decide (x = i)) as [->|Hne].
          -- right. rewrite (Hx eq_refl) in *. exists (Thr r None). split; [apply list_lookup_insert; exact Hlt|]. left.
             pose proof (lv_log _ Hi t Ht) as HL. rewrite Et in HL. exact (HL [] f r eq_refl).
          -- destruct (lv_now _ Hi) as [H|(t' & Ht' & H)].
             ++ left. change (after_crash base s i = partial_alter f x (l_tab s) !! i). rewrite lookup_partial_alter_ne by congruence. exact H.
             ++ right. destruct (decide (k = j)) as [->|Hkj].
                ** exists (Thr r None). split; [apply list_lookup_insert; exact Hlt|]. assert (t' = t) by congruence. subst t'.
                   destruct H as [H|(v' & H)]; [|congruence]. left. rewrite Et in H. apply elem_of_cons in H as [H|H]; [discriminate H|exact H].
                ** exists t'. split; [rewrite list_lookup_insert_ne by congruence; exact Ht'|exact H].
      + (* Log *)
        assert (Hx : x = i -> j = k).
        { intros ->. destruct (decide (j = k)) as [E|E]; [exact E|]. exfalso.
          apply (lv_other _ Hi j t (Log i) Ht E); [rewrite Et; left|reflexivity]. }
        injection H as <-. constructor; cbn [l_thr l_tab].
        * intros j' t' a Hl Hj Ha. apply list_lookup_insert_Some in Hl as [(<- & <- & _)|(_ & Hl)].
          -- apply (lv_other _ Hi j t a Ht Hj). rewrite Et. right. exact Ha.
          -- exact (lv_other _ Hi j' t' a Hl Hj Ha).
        * intros j' t' v' Hl Hb. apply list_lookup_insert_Some in Hl as [(<- & <- & _)|(Hne & Hl)].
          -- injection Hb as -> <-. split; [apply Hx; reflexivity|reflexivity].
          -- exact (lv_buf _ Hi _ _ _ Hl Hb).
        * intros t' Hl. apply list_lookup_insert_Some in Hl as [(E & <- & _)|(_ & Hl)]; [|exact (lv_log _ Hi _ Hl)].
          rewrite E in Ht. cbn. eapply logs_tail. rewrite <- Et. exact (lv_log _ Hi t Ht).
        * destruct (lv_now _ Hi) as [H|(t' & Ht' & H)]; [left; exact H|]. right.
          destruct (decide (k = j)) as [->|Hkj].
          -- exists (Thr r (Some (x, l_tab s !! x))). split; [apply list_lookup_insert; exact Hlt|]. assert (t' = t) by congruence. subst t'.
             destruct H as [H|(v' & H)]; [|congruence]. rewrite Et in H. apply elem_of_cons in H as [H|H]; [|left; exact H].
             injection H as <-. right. eexists. reflexivity.
          -- exists t'. split; [rewrite list_lookup_insert_ne by congruence; exact Ht'|exact H].
  Qed.

  Lemma linv_start progs : only k i progs -> (forall l, progs !! k = Some l -> logs i l) -> linv (lstart base progs).
  Proof.
    intros Ho Hl. constructor; cbn.
    - intros j t a H Hj Ha Hab. apply list_lookup_fmap_Some in H as (l & H & ->). apply Hj. exact (Ho j l a H Ha Hab).
    - intros j t v H Hb. apply list_lookup_fmap_Some in H as (l & H & ->). discriminate Hb.
    - intros t H. apply list_lookup_fmap_Some in H as (l & H & ->). exact (Hl l H).
    - left. reflexivity.
  Qed.

  Lemma one_writer progs s : only k i progs -> (forall l, progs !! k = Some l -> logs i l) ->
    lsteps (lstart base progs) s -> all_back s -> after_crash base s i = l_tab s !! i.
  Proof.
    intros Ho Hl Hs Hb. assert (Hi : linv s).
    { pose proof (linv_start progs Ho Hl) as H0. clear Hb. induction Hs as [|a b c Hab _ IH]; [exact H0|]. apply IH. eapply linv_step; eauto. }
    destruct (lv_now _ Hi) as [H|(t & Ht & H)]; [exact H|]. destruct (Hb _ _ Ht) as [E1 E2]. rewrite E1, E2 in H.
    destruct H as [H|(v & [=])]. apply elem_of_nil in H as [].
  Qed.
End one.

(** ** An earlier state of the object *)
Lemma earlier base progs s i : lsteps (lstart base progs) s ->
  exists s1, lsteps (lstart base progs) s1 /\ lsteps s1 s /\ after_crash base s i = l_tab s1 !! i.
Proof.
  intros Hs.
  enough (H : (exists s1, lsteps (lstart base progs) s1 /\ lsteps s1 s /\ after_crash base s i = l_tab s1 !! i) /\
    forall k t v, l_thr s !! k = Some t -> h_buf t = Some (i, v) ->
      exists s1, lsteps (lstart base progs) s1 /\ lsteps s1 s /\ v = l_tab s1 !! i) by apply H.
  revert s Hs. refine (rtc_ind_r _ _ _ _).
  - split; [exists (lstart base progs); split; [apply rtc_refl|split; [apply rtc_refl|reflexivity]]|].
    intros k t v H Hb. apply list_lookup_fmap_Some in H as (l & H & ->). discriminate Hb.
  - intros s s' Hs Hstep ((s1 & H1 & H2 & H3) & Hbuf). assert (Hone : lsteps s s') by (apply rtc_once; exact Hstep).
    destruct Hstep as (j & H). unfold lgo in H. destruct (l_thr s !! j) as [t|] eqn:Ht; [|discriminate H].
    assert (Hkeep : exists s1, lsteps (lstart base progs) s1 /\ lsteps s1 s' /\ after_crash base s i = l_tab s1 !! i).
    { exists s1. split; [exact H1|]. split; [etransitivity; eauto|exact H3]. }
    assert (Hkeepb : forall k t v, l_thr s !! k = Some t -> h_buf t = Some (i, v) ->
      exists s1, lsteps (lstart base progs) s1 /\ lsteps s1 s' /\ v = l_tab s1 !! i).
    { intros k' t' v' Ht' Hb'. destruct (Hbuf _ _ _ Ht' Hb') as (s2 & A & B & C). exists s2. split; [exact A|]. split; [etransitivity; eauto|exact C]. }
    destruct (h_buf t) as [[x v]|] eqn:Eb; [|destruct (h_todo t) as [|[x f|x] r] eqn:Et; [discriminate H| |]];
      injection H as H; subst s'; (split; [try exact Hkeep|]);
      try (intros k' t' v' Hl Hb; apply list_lookup_insert_Some in Hl as [(<- & <- & _)|(_ & Hl)];
           [try discriminate Hb|exact (Hkeepb _ _ _ Hl Hb)]).
    + unfold after_crash at 1. cbn [l_log]. rewrite last_entry_snoc. destruct (Z.eqb_spec i x) as [<-|Hne].
      * exact (Hkeepb _ _ _ Ht Eb).
      * exact Hkeep.
    + cbn in Hb. injection Hb as -> <-. exists s. split; [exact Hs|]. split; [exact Hone|reflexivity].
Qed.

Lemma lplay_steps l : forall s s', lplay s l = Some s' -> lsteps s s'.
Proof.
  induction l as [|i l IH]; intros s s' H; cbn in H; [injection H as <-; apply rtc_refl|].
  destruct (lgo s i) as [s1|] eqn:E; [|discriminate H]. apply (rtc_l _ _ s1); [exists i; exact E|exact (IH _ _ H)].
Qed.
