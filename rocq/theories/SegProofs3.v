(** Shared memory: the table of attachments and the memory. *)
From Verif Require Import Base SemModel IpcModel IpcSpec IpcProofs IpcShm SegModel SegSpec SegProofs SegProofs2.
Local Open Scope list_scope.
Local Open Scope Z_scope.

(** ** Addresses *)
Lemma owner_at c a : 0 <= a < 2 ^ 32 -> owner (c * 2 ^ 32 + a) = c.
Proof. intros H. unfold owner. rewrite Z.add_comm, Z.div_add, Z.div_small by done. lia. Qed.
Lemma local_at c a : 0 <= a < 2 ^ 32 -> local (c * 2 ^ 32 + a) = a.
Proof. intros H. unfold local. rewrite Z.add_comm, Z.mod_add, Z.mod_small by done. done. Qed.
Lemma addr_split p : p = owner p * 2 ^ 32 + local p.
Proof. unfold owner, local. pose proof (Z.div_mod p (2 ^ 32) ltac:(done)). lia. Qed.
Lemma local_range p : 0 <= local p < 2 ^ 32.
Proof. apply Z.mod_pos_bound. done. Qed.
Lemma owner_of c p : c * 2 ^ 32 <= p < (c + 1) * 2 ^ 32 -> owner p = c.
Proof. intros H. replace p with (c * 2 ^ 32 + (p - c * 2 ^ 32)) by lia. apply owner_at. lia. Qed.
Lemma owner_range p : owner p * 2 ^ 32 <= p < (owner p + 1) * 2 ^ 32.
Proof. pose proof (addr_split p). pose proof (local_range p). lia. Qed.
Lemma pages_pos n : 0 < n -> 0 < pages n.
Proof. intros H. unfold pages. pose proof (Z.div_le_lower_bound (n + 4095) 4096 1). lia. Qed.
Lemma pages_ge n : n <= pages n.
Proof. unfold pages. pose proof (Z.div_mod (n + 4095) 4096 ltac:(done)). pose proof (Z.mod_pos_bound (n + 4095) 4096 ltac:(done)). lia. Qed.

Lemma in_drop {A} `{EqDecision A} (p q : A) l : List.NoDup l -> In q (drop_one p l) <-> In q l /\ q <> p.
Proof.
  induction l as [|x l IH]; cbn; intros Hn; [tauto|]. inversion_clear Hn as [|? ? Hx Hl]. case_bool_decide as E; cbn.
  - subst x. split; [intros Hq; split; [auto|]; intros ->; done|]. intros [[->|?] ?]; done.
  - rewrite IH by done. split; [intros [->|[? ?]]; auto|]. intros [[?|?] ?]; auto.
Qed.
Lemma nodup_drop {A} `{EqDecision A} (p : A) l : List.NoDup l -> List.NoDup (drop_one p l).
Proof.
  induction l as [|x l IH]; cbn; intros Hn; [done|]. inversion_clear Hn as [|? ? Hx Hl]. case_bool_decide; [done|].
  constructor; [|auto]. rewrite in_drop by done. tauto.
Qed.
Lemma nodup_snoc {A} (p : A) l : List.NoDup l -> ~ In p l -> List.NoDup (l ++ [p]).
Proof.
  intros Hl Hp. induction Hl as [|x l Hx Hl IH]; cbn; [constructor; [tauto|constructor]|]. constructor.
  - rewrite in_app_iff. cbn in *. intuition.
  - apply IH. cbn in Hp. tauto.
Qed.

(** ** The invariant *)
Record table (h : list sev) (L : list att) : Prop := {
  tb_nodup : List.NoDup L;
  tb_run : forall c a id, In (c, a, id) L -> running h c = true;
  tb_size : forall c a id, In (c, a, id) L -> 0 < size_of h id;
  tb_fit : forall c a id, In (c, a, id) L -> 0 <= a /\ a + pages (size_of h id) <= 2 ^ 32;
  tb_mem : forall c a id, In (c, a, id) L -> exists w, forall d, 0 <= d < pages (size_of h id) -> sees h (c * 2 ^ 32 + a + d) = Shows id d w;
  tb_back : forall p id pos w, running h (owner p) = true -> sees h p = Shows id pos w ->
     0 <= pos < pages (size_of h id) /\ In (owner p, local p - pos, id) L
}.

(** an event that changes neither attachments nor memory nor processes *)
Lemma table_quiet h e L : table h L -> (forall p, sees (e :: h) p = sees h p) -> (forall c, running (e :: h) c = running h c) ->
  (forall id, size_of h id <> 0 -> size_of (e :: h) id = size_of h id) -> table (e :: h) L.
Proof.
  intros [A1 A2 A3 A4 A5 A6] Hs Hr Hz.
  assert (Z1 : forall c a id, In (c, a, id) L -> size_of (e :: h) id = size_of h id) by (intros c a id H; apply Hz; specialize (A3 _ _ _ H); lia).
  constructor.
  - done.
  - intros c a id H. rewrite Hr. eauto.
  - intros c a id H. rewrite (Z1 _ _ _ H). eauto.
  - intros c a id H. rewrite (Z1 _ _ _ H). eauto.
  - intros c a id H. rewrite (Z1 _ _ _ H). destruct (A5 _ _ _ H) as [w Hw]. exists w. intros d Hd. rewrite Hs. auto.
  - intros p id pos w Hp Hsee. rewrite Hr in Hp. rewrite Hs in Hsee. destruct (A6 _ _ _ _ Hp Hsee) as [B1 B2].
    rewrite (Z1 _ _ _ B2). auto.
Qed.

(** a process goes, and the memory of a new one is its own *)
Lemma table_gone h e L c : table h L -> (forall id, size_of (e :: h) id = size_of h id) ->
  (forall k, running (e :: h) k = true -> k <> c -> running h k = true \/ forall p, owner p = k -> sees (e :: h) p = Own) ->
  (running (e :: h) c = true -> forall p, owner p = c -> sees (e :: h) p = Own) ->
  (forall k, k <> c -> running h k = true -> running (e :: h) k = true /\ forall p, owner p = k -> sees (e :: h) p = sees h p) ->
  table (e :: h) (List.filter (fun p => negb (a_cage p =? c)) L).
Proof.
  intros [A1 A2 A3 A4 A5 A6] Hz H1 H2 H3.
  assert (I : forall c1 a id, In (c1, a, id) (List.filter (fun p => negb (a_cage p =? c)) L) <-> In (c1, a, id) L /\ c1 <> c).
  { intros c1 a id. rewrite filter_In. change (a_cage (c1, a, id)) with c1. rewrite negb_true_iff, Z.eqb_neq. done. }
  constructor.
  - apply List.NoDup_filter. done.
  - intros c1 a id H. apply I in H as [H Hc]. destruct (H3 c1 Hc (A2 _ _ _ H)). done.
  - intros c1 a id H. apply I in H as [H Hc]. rewrite Hz. eauto.
  - intros c1 a id H. apply I in H as [H Hc]. rewrite Hz. eauto.
  - intros c1 a id H. apply I in H as [H Hc]. rewrite Hz. destruct (A5 _ _ _ H) as [w Hw]. exists w. intros d Hd.
    destruct (H3 c1 Hc (A2 _ _ _ H)) as [_ Hsee]. rewrite Hsee; [auto|].
    destruct (A4 _ _ _ H) as [B1 B2]. rewrite <- Z.add_assoc. apply owner_at. lia.
  - intros p id pos w Hp Hsee. rewrite Hz. destruct (Z.eq_dec (owner p) c) as [E|Hne].
    + rewrite <- E in H2. rewrite (H2 Hp p eq_refl) in Hsee. discriminate Hsee.
    + destruct (H1 _ Hp Hne) as [Hr|Ho]; [|rewrite (Ho p eq_refl) in Hsee; discriminate Hsee].
      destruct (H3 _ Hne Hr) as [_ Hs]. rewrite (Hs p eq_refl) in Hsee. destruct (A6 _ _ _ _ Hr Hsee) as [B1 B2].
      split; [done|]. apply I. done.
Qed.

Lemma table_at h L c id p flg pick bad r : table h L -> owner p = c -> running h c = true -> is_addr r = true -> 0 < size_of h id ->
  p + pages (size_of h id) <= (c + 1) * 2 ^ 32 ->
  (forall q, inside q p (size_of h id) = true -> match sees h q with Shows _ _ _ => False | _ => True end) ->
  table (Sev c (At id p flg pick bad) (Call (IRet r)) :: h) (L ++ [(c, local p, id)]).
Proof.
  intros [A1 A2 A3 A4 A5 A6] Hp Hc Hr Hsz Hfit Hov. set (e := Sev _ _ _).
  pose proof (pages_pos _ Hsz) as Hpos. pose proof (addr_split p) as Hps. rewrite Hp in Hps. pose proof (local_range p) as Hlr.
  assert (Hsee : forall q, sees (e :: h) q = if inside q p (size_of h id) then Shows id (q - p) (Z.land flg 4096 =? 0) else sees h q).
  { intros q. cbn. rewrite Hr. done. }
  assert (Hin : forall q, inside q p (size_of h id) = true <-> p <= q < p + pages (size_of h id)).
  { intros q. unfold inside. lia. }
  assert (Hold : forall q i pos w, sees h q = Shows i pos w -> sees (e :: h) q = Shows i pos w).
  { intros q i pos w Hq. rewrite Hsee. destruct (inside q p (size_of h id)) eqn:Ei; [|done]. specialize (Hov q Ei). rewrite Hq in Hov. done. }
  assert (I : forall c1 a i, In (c1, a, i) (L ++ [(c, local p, id)]) <-> In (c1, a, i) L \/ (c1 = c /\ a = local p /\ i = id)).
  { intros c1 a i. rewrite in_app_iff. cbn. split; [intros [?|[E|[]]]; [auto|injection E as <- <- <-; auto]|]. intros [?|(-> & -> & ->)]; auto. }
  assert (Hz : forall i, size_of (e :: h) i = size_of h i) by done.
  assert (Hrun : forall k, running (e :: h) k = running h k) by done.
  constructor.
  - apply nodup_snoc; [done|]. intros H. destruct (A5 _ _ _ H) as [w Hw]. specialize (Hw 0 ltac:(lia)).
    rewrite Z.add_0_r, <- Hps in Hw. specialize (Hov p). rewrite Hw in Hov. apply Hov. apply Hin. lia.
  - intros c1 a i H. rewrite Hrun. apply I in H as [H|(-> & _)]; eauto.
  - intros c1 a i H. rewrite Hz. apply I in H as [H|(_ & _ & ->)]; eauto.
  - intros c1 a i H. rewrite Hz. apply I in H as [H|(_ & -> & ->)]; [eauto|]. lia.
  - intros c1 a i H. rewrite Hz. apply I in H as [H|(-> & -> & ->)].
    + destruct (A5 _ _ _ H) as [w Hw]. exists w. intros d Hd. apply Hold. auto.
    + eexists. intros d Hd. rewrite Hsee. rewrite (proj2 (Hin _)) by lia. f_equal. lia.
  - intros q i pos w Hq Hs. rewrite Hz. rewrite Hrun in Hq. rewrite Hsee in Hs. destruct (inside q p (size_of h id)) eqn:Ei.
    + injection Hs as <- <- _. apply Hin in Ei. split; [lia|]. apply I. right.
      assert (Ho : owner q = c) by (apply owner_of; lia). split; [done|]. split; [|done].
      pose proof (addr_split q). rewrite Ho in *. lia.
    + destruct (A6 _ _ _ _ Hq Hs) as [B1 B2]. split; [done|]. apply I. auto.
Qed.

Lemma table_dt h L c p id : table h L -> owner p = c -> 0 <= id -> p mod 4096 = 0 -> In (c, local p, id) L ->
  table (Sev c (Dt p) (Call (IRet id)) :: h) (drop_one (c, local p, id) L).
Proof.
  intros [A1 A2 A3 A4 A5 A6] Hp Hid Hal HL. set (e := Sev _ _ _).
  pose proof (addr_split p) as Hps. rewrite Hp in Hps. pose proof (local_range p) as Hlr. destruct (A4 _ _ _ HL) as [_ Hfit].
  destruct (A5 _ _ _ HL) as [w0 Hw0].
  assert (Hin : forall q, inside q p (size_of h id) = true <-> p <= q < p + pages (size_of h id)).
  { intros q. unfold inside. lia. }
  assert (Hsee : forall q, sees (e :: h) q = if inside q p (size_of h id) then Hole else sees h q).
  { intros q. cbn. rewrite Hal. rewrite (proj2 (Z.leb_le 0 id)) by lia. done. }
  assert (I : forall q, In q (drop_one (c, local p, id) L) <-> In q L /\ q <> (c, local p, id)) by (intros; apply in_drop; done).
  assert (Hz : forall i, size_of (e :: h) i = size_of h i) by done.
  assert (Hrun : forall k, running (e :: h) k = running h k) by done.
  constructor.
  - apply nodup_drop. done.
  - intros c1 a i H. apply I in H as [H _]. rewrite Hrun. eauto.
  - intros c1 a i H. apply I in H as [H _]. rewrite Hz. eauto.
  - intros c1 a i H. apply I in H as [H _]. rewrite Hz. eauto.
  - intros c1 a i H. apply I in H as [H Hne]. rewrite Hz. destruct (A5 _ _ _ H) as [w Hw]. exists w. intros d Hd.
    rewrite Hsee. destruct (inside _ p (size_of h id)) eqn:Ei; [|auto]. exfalso. apply Hne. apply Hin in Ei.
    specialize (Hw d Hd). destruct (A4 _ _ _ H) as [B1 B2].
    specialize (Hw0 (c1 * 2 ^ 32 + a + d - p) ltac:(lia)).
    replace (c * 2 ^ 32 + local p + (c1 * 2 ^ 32 + a + d - p)) with (c1 * 2 ^ 32 + a + d) in Hw0 by lia.
    rewrite Hw in Hw0. injection Hw0 as <- Hd2 _. assert (c1 = c) by nia. subst c1. repeat f_equal. lia.
  - intros q i pos w Hq Hs. rewrite Hz. rewrite Hrun in Hq. rewrite Hsee in Hs. destruct (inside q p (size_of h id)) eqn:Ei; [discriminate Hs|].
    destruct (A6 _ _ _ _ Hq Hs) as [B1 B2]. split; [done|]. apply I. split; [done|]. intros E. injection E as E1 E2 E3. subst i.
    assert (Hcon : inside q p (size_of h id) = true); [|congruence]. apply Hin. pose proof (addr_split q) as Hqs. rewrite E1 in Hqs. lia.
Qed.

Lemma table_fork h L c ch r : table h L -> running h c = true -> running h ch = false ->
  table (Sev c (Fork ch true) r :: h) (L ++ map (fun p => (ch, a_addr p, a_seg p)) (List.filter (fun p => a_cage p =? c) L)).
Proof.
  intros [A1 A2 A3 A4 A5 A6] Hc Hch. set (e := Sev _ _ _).
  assert (I : forall c1 a i, In (c1, a, i) (L ++ map (fun p => (ch, a_addr p, a_seg p)) (List.filter (fun p => a_cage p =? c) L)) <->
                In (c1, a, i) L \/ (c1 = ch /\ In (c, a, i) L)).
  { intros c1 a i. rewrite in_app_iff, in_map_iff. split.
    - intros [?|([[c2 a2] i2] & E & H)]; [auto|]. apply filter_In in H as [H Hc2]. change (a_cage (c2, a2, i2)) with c2 in Hc2.
      apply Z.eqb_eq in Hc2. subst c2. injection E as <- <- <-. auto.
    - intros [?|[-> H]]; [auto|]. right. exists (c, a, i). split; [done|]. apply filter_In. split; [done|]. apply Z.eqb_refl. }
  assert (Hsee : forall q, sees (e :: h) q = if owner q =? ch then sees h (c * 2 ^ 32 + local q) else sees h q) by done.
  assert (Hz : forall i, size_of (e :: h) i = size_of h i) by done.
  assert (Hrun : forall k, running (e :: h) k = true <-> k = ch \/ running h k = true) by (intros k; cbn; lia).
  assert (Hne : forall c1 a i, In (c1, a, i) L -> c1 <> ch) by (intros c1 a i H ->; specialize (A2 _ _ _ H); congruence).
  constructor.
  - apply NoDup_ListNoDup. apply NoDup_app. split; [apply NoDup_ListNoDup; done|]. split.
    + intros [[c1 a1] i1] H1 H2. apply elem_of_list_In in H1, H2. apply in_map_iff in H2 as (z & E & _). injection E as E _ _.
      exact (Hne _ _ _ H1 (eq_sym E)).
    + apply NoDup_ListNoDup. pose proof (List.NoDup_filter (fun p => a_cage p =? c) A1) as Hf.
      assert (Hall : forall z, In z (List.filter (fun p => a_cage p =? c) L) -> a_cage z = c) by (intros z Hz1; apply filter_In in Hz1 as [_ Hz1]; lia).
      clear -Hf Hall. induction Hf as [|[[c1 a1] i1] l Hx Hl IH]; cbn; [constructor|]. constructor.
      * intros H. apply in_map_iff in H as ([[c2 a2] i2] & E & H). injection E as E2 E3.
        pose proof (Hall (c1, a1, i1) (or_introl eq_refl)) as K1. pose proof (Hall (c2, a2, i2) (or_intror H)) as K2. cbn in *. subst. done.
      * apply IH. intros z Hz1. apply Hall. right. done.
  - intros c1 a i H. apply Hrun. apply I in H as [H|[-> _]]; eauto.
  - intros c1 a i H. rewrite Hz. apply I in H as [H|[_ H]]; eauto.
  - intros c1 a i H. rewrite Hz. apply I in H as [H|[_ H]]; eauto.
  - intros c1 a i H. rewrite Hz. apply I in H as [H|[-> H]]; destruct (A5 _ _ _ H) as [w Hw]; exists w; intros d Hd;
      destruct (A4 _ _ _ H) as [B1 B2]; rewrite Hsee, <- Z.add_assoc, owner_at by lia.
    + rewrite (proj2 (Z.eqb_neq _ _) (Hne _ _ _ H)), Z.add_assoc. auto.
    + rewrite Z.eqb_refl, local_at, Z.add_assoc by lia. auto.
  - intros q i pos w Hq Hs. rewrite Hz. rewrite Hsee in Hs. destruct (Z.eqb_spec (owner q) ch) as [E|Hn].
    + pose proof (local_range q) as Hl. assert (Ho : owner (c * 2 ^ 32 + local q) = c) by (apply owner_at; done).
      assert (Hlo : local (c * 2 ^ 32 + local q) = local q) by (apply local_at; done).
      destruct (A6 (c * 2 ^ 32 + local q) i pos w) as [B1 B2]; [rewrite Ho; done|done|]. split; [done|]. rewrite Ho, Hlo in B2.
      apply I. right. done.
    + apply Hrun in Hq as [?|Hq]; [done|]. destruct (A6 _ _ _ _ Hq Hs) as [B1 B2]. split; [done|]. apply I. auto.
Qed.

Theorem run_table chk h s : srun chk h s -> careful h -> table h (attached (calls h)).
Proof.
  induction 1 as [|h s c o s' r Hr IH Hok Hs]; intros (C1 & C2 & C3 & C4).
  - constructor; cbn; try done. constructor.
  - cbn in C1, C2, C3, C4. destruct C1 as [C1 C1'], C2 as [C2 C2'], C3 as [C3 C3'], C4 as [C4 C4'].
    assert (HT : table h (attached (calls h))) by (apply IH; repeat split; done). clear IH.
    pose proof (run_calls _ _ _ Hr) as Hir. pose proof (failed_maps _ _ _ Hr C1') as Hmo.
    pose proof (run_agree _ _ _ Hr) as HA. pose proof (run_running _ _ _ Hr) as Hrun.
    pose proof (run_inv _ _ _ Hir Hmo) as HI.
    assert (Hg : exists g, x_cage (t_x s) !! c = Some g).
    { unfold sstep in Hs. destruct (x_cage (t_x s) !! c); [eauto|discriminate Hs]. }
    destruct Hg as [g Hg]. assert (Hc : running h c = true) by (apply Hrun; eauto).
    pose proof (step_calls _ _ _ _ _ _ Hok Hs) as K. rewrite calls_cons.
    assert (Hcall : match o with Fetch _ | Store _ _ => True | _ => exists r', r = Call r' end).
    { unfold sstep in Hs. rewrite Hg in Hs. destruct o; try done;
        (destruct (istep chk (t_x s) c _) as [[x' r']|]; [|discriminate Hs]; injection Hs as _ <-; eauto). }
    destruct o; cbn [call_of v_op v_out v_c] in *.
    + destruct Hcall as [r' ->]. cbn [call_of v_op v_out v_c] in *. rewrite shm_fold. destruct Hok as [Hp _].
      destruct o; try discriminate Hp; try (apply table_quiet; done).
      * (* shmget *) destruct r'; try (apply table_quiet; done). apply table_quiet; try done.
        intros i Hi. cbn [size_of v_op v_out]. destruct (_ =? i); [|done]. cbn. rewrite (proj2 (Z.eqb_neq _ _) Hi). done.
      * (* exit *) cbn [att_step e_op e_out e_c]. apply table_gone; try done.
        -- intros k Hk Hne. left. cbn in Hk. lia.
        -- intros Hk. cbn in Hk. lia.
        -- intros k Hne Hk. split; [cbn; lia|done].
    + destruct Hcall as [r' ->]. cbn [call_of v_op v_out v_c] in *. rewrite shm_fold. destruct K as (_ & _ & K). cbn [e_op e_out] in K.
      destruct C1 as [-> C1]. cbn in Hok. unfold istep in K. rewrite Hg in K.
      destruct (x_seg (t_x s) !! id) as [sg|] eqn:Es.
      * destruct (shmat_shape _ _ _ _ _ _ _ _ _ _ _ Hg Es K) as [-> _]. change (local p) with (to_u32 p) in *.
        assert (Ha : page_ok (to_u32 p) = true) by (rewrite low_aligned; apply Z.eqb_eq; done). rewrite Ha in *. cbn [orb negb] in *.
        cbn [att_step e_op e_out e_c]. rewrite to_i32_addr by (done || apply low_range).
        destruct (ag_seg _ _ HA _ _ Es) as (E1 & E2 & _).
        apply (table_at h _ c id p flg pick false); try done; [|lia].
        rewrite to_i32_addr; [done|apply low_range|done].
      * unfold shmat in K. rewrite Es in K. injection K as _ <-. cbn. apply table_quiet; done.
    + destruct Hcall as [r' ->]. cbn [call_of v_op v_out v_c] in *. rewrite shm_fold. destruct K as (_ & _ & K). cbn [e_op e_out] in K.
      unfold istep in K. rewrite Hg in K. cbn in Hok.
      destruct (shmdt_inv _ _ _ HI chk c g (local p) _ _ Hg K) as [[[-> _]|(id & -> & Hid & Hin)] _].
      * apply table_quiet; done.
      * cbn [att_step e_op e_out e_c]. rewrite (proj2 (Z.ltb_ge id 0)) by lia.
        destruct (Z.eq_dec (p mod 4096) 0) as [Hal|Hal]; [apply table_dt; done|].
        (* only aligned addresses are in the table *)
        exfalso. apply Hal.
        assert (Hall : forall tr, maps_ok tr -> forall q, In q (attached tr) -> a_addr q mod 4096 = 0).
        { clear. intros tr. induction tr as [|e tr IH] using rev_ind; intros Hm q Hq; [destruct Hq|].
          apply Forall_app in Hm as [Hm He]. apply Forall_cons in He as [He _]. rewrite shm_fold in Hq. unfold att_step in Hq.
          destruct (e_op e) eqn:Eo; try (apply IH; done).
          - destruct (e_out e); try (apply IH; done). destruct (is_addr r); [|apply IH; done]. apply in_app_iff in Hq as [Hq|[<-|[]]]; [apply IH; done|].
            cbn. destruct He as [_ He]. apply Z.eqb_eq in He. done.
          - destruct (e_out e); try (apply IH; done). destruct (r <? 0); [apply IH; done|]. apply IH; [done|].
            clear -Hq. induction (attached tr) as [|z l IHl]; [destruct Hq|]. cbn in Hq. case_bool_decide; [right; done|]. destruct Hq; [left; done|right; auto].
          - apply in_app_iff in Hq as [Hq|Hq]; [apply IH; done|]. apply in_map_iff in Hq as (z & <- & Hz). apply filter_In in Hz as [Hz _]. cbn. apply IH; done.
          - apply filter_In in Hq as [Hq _]. apply IH; done.
          - apply filter_In in Hq as [Hq _]. apply IH; done. }
        specialize (Hall _ Hmo _ Hin). change (a_addr (c, local p, id)) with (to_u32 p) in Hall.
        pose proof (low_aligned p) as E. unfold page_ok, aligned in E. rewrite Hall in E. symmetry in E. apply Z.eqb_eq in E. done.
    + destruct Hcall as [r' ->]. cbn [call_of v_op v_out v_c] in *. rewrite shm_fold. cbn [att_step e_op e_out e_c]. subst keep.
      assert (Hch : running h ch = false).
      { destruct (running h ch) eqn:E; [|done]. apply Hrun in E. cbn in Hok. rewrite Hok in E. destruct E as [? E]; discriminate E. }
      apply table_fork; done.
    + destruct Hcall as [r' ->]. cbn [call_of v_op v_out v_c] in *. rewrite shm_fold. cbn [att_step e_op e_out e_c].
      assert (Hnc : nc = c \/ running h nc = false).
      { cbn in Hok. destruct Hok as [->|Hok]; [auto|]. right. destruct (running h nc) eqn:E; [|done]. apply Hrun in E. rewrite Hok in E. destruct E as [? E]; discriminate E. }
      apply table_gone; try done; cbn [running sees v_op v_c v_out].
      * intros k Hk Hne. destruct (Z.eqb_spec k nc) as [E|]; [right|left; lia]. intros p Hp. rewrite Hp, E, Z.eqb_refl. done.
      * intros Hk p Hp. rewrite Hp. destruct (c =? nc); [done|]. rewrite Z.eqb_refl in Hk. discriminate Hk.
      * intros k Hne Hk. assert (k <> nc) by (intros ->; destruct Hnc; congruence). split; [lia|].
        intros p Hp. rewrite Hp, (proj2 (Z.eqb_neq k nc)) by done. done.
    + assert (E : call_of (Sev c (Fetch p) r) = None) by (unfold call_of; cbn; destruct r; done).
      rewrite E, app_nil_r. apply table_quiet; done.
    + assert (E : call_of (Sev c (Store p v) r) = None) by (unfold call_of; cbn; destruct r; done).
      rewrite E, app_nil_r. apply table_quiet; done.
Qed.
