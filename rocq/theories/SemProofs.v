(** Proofs about the semaphore model. *)
From Verif Require Import Base Sums SemModel SemSpec.
Local Open Scope Z_scope.

Lemma posts_app a b : posts (a ++ b) = posts a + posts b.
Proof. unfold posts; rewrite List.filter_app, app_length; lia. Qed.
Lemma waits_app a b : waits (a ++ b) = waits a + waits b.
Proof. unfold waits; rewrite List.filter_app, app_length; lia. Qed.
Lemma ticks_app a b : ticks (a ++ b) = ticks a + ticks b.
Proof. unfold ticks; rewrite List.filter_app, app_length; lia. Qed.
Lemma of_thread_app i a b : of_thread i (a ++ b) = of_thread i a ++ of_thread i b.
Proof. apply List.filter_app. Qed.
Lemma level_app n a b : level n (a ++ b) = level n a + posts b - waits b.
Proof. unfold level; rewrite posts_app, waits_app; lia. Qed.

(** The difference one event makes, and to whom. *)
Definition dpost (e : sev) : Z := posts [e].
Definition dwait (e : sev) : Z := waits [e].

(** ** Values *)
Record sinv (n : Z) (k : nat) (tr : list sev) (s : sst) : Prop := {
  si_val : s_val s = level n tr;
  si_range : 0 <= s_val s <= SEM_VALUE_MAX;
  si_len : length (s_pcs s) = k;
  si_clock : s_clock s = ticks tr;
  si_in : forall i o t, s_pcs s !! i = Some (SIn o t) ->
            exists tr1 tr2, tr = tr1 ++ SCall i o :: tr2 /\ t = ticks tr1 /\ of_thread i tr2 = [];
}.

Lemma in_other i j o t tr e tr1 tr2 : i <> j -> tr = tr1 ++ SCall i o :: tr2 /\ t = ticks tr1 /\ of_thread i tr2 = [] ->
  of_thread i e = [] ->
  exists tr1 tr2, tr ++ e = tr1 ++ SCall i o :: tr2 /\ t = ticks tr1 /\ of_thread i tr2 = [].
Proof.
  intros Hne (-> & -> & H2) He. exists tr1, (tr2 ++ e). split_and!; [by rewrite <- app_assoc|done|].
  rewrite of_thread_app, H2, He; done.
Qed.

Lemma of_thread_other i j o r : i <> j -> of_thread i [SRet j o r] = [].
Proof. intros; cbn. rewrite bool_decide_false by done; done. Qed.
Lemma of_thread_other_call i j o : i <> j -> of_thread i [SCall j o] = [].
Proof. intros; cbn. rewrite bool_decide_false by done; done. Qed.

Lemma sdone_inv n k tr s i o v r s' es t :
  sinv n k tr s -> s_pcs s !! i = Some (SIn o t) ->
  sdone s i o v r = Some (s', es) ->
  v = s_val s + posts [SRet i o r] - waits [SRet i o r] -> 0 <= v <= SEM_VALUE_MAX ->
  sinv n k (tr ++ es) s'.
Proof.
  intros [Hv Hr Hl Hc Hi] Hp H Hev Hrv. injection H as <- <-. split; cbn [s_val s_clock s_pcs].
  - rewrite level_app, <- Hv. done.
  - done.
  - by rewrite insert_length.
  - rewrite ticks_app, Hc. change (ticks [SRet i o r]) with 0. lia.
  - intros j o' t' Hj. destruct (decide (i = j)) as [<-|Hne].
    + rewrite list_lookup_insert in Hj by (by eapply lookup_lt_Some). discriminate Hj.
    + rewrite list_lookup_insert_ne in Hj by done. destruct (Hi j o' t' Hj) as (tr1 & tr2 & H1).
      apply (in_other j i o' t' tr _ tr1 tr2); [congruence|done|]. by apply of_thread_other.
Qed.

Lemma sdo_inv n k tr s a s' es : sinv n k tr s -> sdo s a = Some (s', es) -> sinv n k (tr ++ es) s'.
Proof.
  intros HI H. pose proof HI as [Hv Hr Hl Hc Hi]. destruct a as [i o|i|]; cbn [sdo] in H.
  - destruct (s_pcs s !! i) as [[|? ?]|] eqn:E; try discriminate H. injection H as <- <-.
    split; cbn [s_val s_clock s_pcs].
    + rewrite level_app, <- Hv. change (posts [SCall i o]) with 0. change (waits [SCall i o]) with 0. lia.
    + done.
    + by rewrite insert_length.
    + rewrite ticks_app, Hc. change (ticks [SCall i o]) with 0. lia.
    + intros j o' t' Hj. destruct (decide (i = j)) as [<-|Hne].
      * rewrite list_lookup_insert in Hj by (by eapply lookup_lt_Some). injection Hj as <- <-.
        exists tr, []. split_and!; [done|done|done].
      * rewrite list_lookup_insert_ne in Hj by done. destruct (Hi j o' t' Hj) as (tr1 & tr2 & H1).
        apply (in_other j i o' t' tr _ tr1 tr2); [congruence|done|]. by apply of_thread_other_call.
  - unfold sgo in H. destruct (s_pcs s !! i) as [[|o t]|] eqn:E; try discriminate H.
    destruct o as [| |d| |].
    + destruct (Z.eqb_spec (s_val s) 0); [injection H as <- <-; by rewrite app_nil_r|].
      destruct (Z.ltb_spec 0 (s_val s)); [|lia].
      apply (sdone_inv _ _ _ _ _ _ _ _ _ _ _ HI E H); [|lia].
      change (posts [SRet i SWait 0]) with 0. change (waits [SRet i SWait 0]) with 1. lia.
    + destruct (Z.eqb_spec (s_val s) 0).
      * apply (sdone_inv _ _ _ _ _ _ _ _ _ _ _ HI E H); [|lia].
        change (posts [SRet i STry (err EAGAIN)]) with 0. change (waits [SRet i STry (err EAGAIN)]) with 0. lia.
      * destruct (Z.ltb_spec 0 (s_val s)); [|lia].
        apply (sdone_inv _ _ _ _ _ _ _ _ _ _ _ HI E H); [|lia].
        change (posts [SRet i STry 0]) with 0. change (waits [SRet i STry 0]) with 1. lia.
    + destruct (Z.eqb_spec (s_val s) 0).
      * destruct (d <? s_clock s - t); [|injection H as <- <-; by rewrite app_nil_r].
        apply (sdone_inv _ _ _ _ _ _ _ _ _ _ _ HI E H); [|lia].
        change (posts [SRet i (STimed d) (err ETIMEDOUT)]) with 0.
        change (waits [SRet i (STimed d) (err ETIMEDOUT)]) with 0. lia.
      * destruct (Z.ltb_spec 0 (s_val s)); [|lia].
        apply (sdone_inv _ _ _ _ _ _ _ _ _ _ _ HI E H); [|lia].
        change (posts [SRet i (STimed d) 0]) with 0. change (waits [SRet i (STimed d) 0]) with 1. lia.
    + destruct (Z.ltb_spec (s_val s) SEM_VALUE_MAX).
      * apply (sdone_inv _ _ _ _ _ _ _ _ _ _ _ HI E H); [|lia].
        change (posts [SRet i SPost 0]) with 1. change (waits [SRet i SPost 0]) with 0. lia.
      * apply (sdone_inv _ _ _ _ _ _ _ _ _ _ _ HI E H); [|lia].
        change (posts [SRet i SPost (err EOVERFLOW)]) with 0. change (waits [SRet i SPost (err EOVERFLOW)]) with 0. lia.
    + apply (sdone_inv _ _ _ _ _ _ _ _ _ _ _ HI E H); [|lia].
      assert (posts [SRet i SGet (s_val s)] = 0) as -> by (unfold posts; cbn; done).
      assert (waits [SRet i SGet (s_val s)] = 0) as -> by (unfold waits; cbn; destruct (s_val s); done). lia.
  - injection H as <- <-. split; cbn [s_val s_clock s_pcs]; [|done|done| |].
    + rewrite level_app, <- Hv. change (posts [STick]) with 0. change (waits [STick]) with 0. lia.
    + rewrite ticks_app, Hc. change (ticks [STick]) with 1. lia.
    + intros j o' t' Hj. destruct (Hi j o' t' Hj) as (tr1 & tr2 & H1).
      apply (in_other j (S j) o' t' tr _ tr1 tr2); [lia|done|done].
Qed.

Lemma srun_inv n k tr s : 0 <= n <= SEM_VALUE_MAX -> srun n k tr s -> sinv n k tr s.
Proof.
  intros Hn. induction 1 as [|tr s a s' es _ IH Ha].
  - split; cbn [s_val s_clock s_pcs sinit].
    + unfold level. change (posts []) with 0. change (waits []) with 0. lia.
    + done.
    + apply replicate_length.
    + done.
    + intros i o t H. apply lookup_replicate in H as [H _]. discriminate H.
  - exact (sdo_inv _ _ _ _ _ _ _ IH Ha).
Qed.

(** ** Results *)
(** What a call may return, given the value and the time at that instant. *)
Definition result_ok (v elapsed : Z) (o : sop) (r : Z) : Prop :=
  match o with
  | SWait => r = 0 /\ 0 < v
  | STry => (r = 0 /\ 0 < v) \/ (r = err EAGAIN /\ v = 0)
  | STimed d => (r = 0 /\ 0 < v) \/ (r = err ETIMEDOUT /\ v = 0 /\ d < elapsed)
  | SPost => (r = 0 /\ v < SEM_VALUE_MAX) \/ (r = err EOVERFLOW /\ v = SEM_VALUE_MAX)
  | SGet => r = v
  end.

Lemma app_last {A} (l l' : list A) es x : l ++ es = l' ++ [x] -> es = [] \/ exists es', es = es' ++ [x] /\ l' = l ++ es'.
Proof.
  intros H. destruct es as [|y es' _] using rev_ind; [by left|right].
  rewrite app_assoc in H. apply app_inj_tail in H as [H1 H2]. subst. exists es'; done.
Qed.

Lemma call_result n k tr s i o r : 0 <= n <= SEM_VALUE_MAX -> srun n k (tr ++ [SRet i o r]) s ->
  exists tr1 tr2, tr = tr1 ++ SCall i o :: tr2 /\ of_thread i tr2 = [] /\
    result_ok (level n tr) (ticks tr2) o r.
Proof.
  intros Hn H. remember (tr ++ [SRet i o r]) as tr' eqn:Etr.
  revert Etr. induction H as [|tr0 s0 a s' es H0 IH Ha]; intros Etr.
  - by destruct tr.
  - pose proof (srun_inv _ _ _ _ Hn H0) as [Hv Hr Hl Hc Hi].
    destruct (app_last _ _ _ _ Etr) as [->|(es' & -> & ->)].
    { rewrite app_nil_r in Etr. exact (IH Etr). }
    destruct a as [j o'|j|]; cbn [sdo] in Ha.
    { destruct (s_pcs s0 !! j) as [[|? ?]|]; try discriminate Ha. injection Ha as _ Ha.
      destruct es' as [|? [|? ?]]; discriminate Ha. }
    2:{ injection Ha as _ Ha. destruct es' as [|? [|? ?]]; discriminate Ha. }
    unfold sgo in Ha. destruct (s_pcs s0 !! j) as [[|o' t]|] eqn:E; try discriminate Ha.
    destruct (Hi j o' t E) as (tr1 & tr2 & Et & Hti & Hno).
    assert (Hk : forall v x, sdone s0 j o' v x = Some (s', es' ++ [SRet i o r]) ->
      es' = [] /\ i = j /\ o = o' /\ r = x).
    { intros v x Hd. unfold sdone in Hd. injection Hd as _ Hd.
      destruct es' as [|? [|? ?]]; try discriminate Hd. injection Hd as <- <- <-. done. }
    assert (Hel : s_clock s0 - t = ticks tr2).
    { rewrite Hc, Et, ticks_app, Hti. change (ticks (SCall j o' :: tr2)) with (ticks ([SCall j o'] ++ tr2)).
      rewrite ticks_app. change (ticks [SCall j o']) with 0. lia. }
    assert (Hfin : es' = [] -> i = j -> o = o' -> result_ok (s_val s0) (ticks tr2) o r ->
      exists tr1 tr2, tr0 ++ es' = tr1 ++ SCall i o :: tr2 /\ of_thread i tr2 = [] /\
        result_ok (level n (tr0 ++ es')) (ticks tr2) o r).
    { intros -> -> -> Hok. rewrite app_nil_r. exists tr1, tr2. rewrite <- Hv. done. }
    assert (Hstay : forall x : sst, Some (x, []) = Some (s', es' ++ [SRet i o r]) -> False).
    { intros x Hd. injection Hd as _ Hd. by destruct es'. }
    destruct o' as [| |d| |].
    + destruct (Z.eqb_spec (s_val s0) 0); [destruct (Hstay _ Ha)|].
      destruct (Hk _ _ Ha) as (H1 & H2 & H3 & H4). apply Hfin; [done|done|done|]. rewrite H3, H4. split; [done|lia].
    + destruct (Z.eqb_spec (s_val s0) 0); destruct (Hk _ _ Ha) as (H1 & H2 & H3 & H4);
        (apply Hfin; [done|done|done|]); rewrite H3, H4; [right; done|left; split; [done|lia]].
    + destruct (Z.eqb_spec (s_val s0) 0).
      * destruct (Z.ltb_spec d (s_clock s0 - t)); [|destruct (Hstay _ Ha)].
        destruct (Hk _ _ Ha) as (H1 & H2 & H3 & H4). apply Hfin; [done|done|done|]. rewrite H3, H4.
        right. split_and!; [done|done|lia].
      * destruct (Hk _ _ Ha) as (H1 & H2 & H3 & H4). apply Hfin; [done|done|done|]. rewrite H3, H4.
        left; split; [done|lia].
    + destruct (Z.ltb_spec (s_val s0) SEM_VALUE_MAX); destruct (Hk _ _ Ha) as (H1 & H2 & H3 & H4);
        (apply Hfin; [done|done|done|]); rewrite H3, H4; [left; done|right; split; [done|lia]].
    + destruct (Hk _ _ Ha) as (H1 & H2 & H3 & H4). apply Hfin; [done|done|done|]. rewrite H3, H4. done.
Qed.

(** ** Mutual exclusion *)
Definition net (i : nat) (tr : list sev) : Z := waits (of_thread i tr) - posts (of_thread i tr).

Lemma net_app i a b : net i (a ++ b) = net i a + net i b.
Proof. unfold net; rewrite of_thread_app, waits_app, posts_app; lia. Qed.

Lemma inside_net i tr : inside i tr = true <-> 0 < net i tr.
Proof. unfold inside, net. rewrite Z.ltb_lt. lia. Qed.

Lemma net_ret i o r : net i [SRet i o r] = waits [SRet i o r] - posts [SRet i o r].
Proof.
  unfold net, of_thread. cbn [List.filter]. rewrite bool_decide_true by done. done.
Qed.

Lemma net_other i j o r : i <> j -> net i [SRet j o r] = 0.
Proof. intros H. unfold net. rewrite (of_thread_other _ _ _ _ H). done. Qed.

Lemma polite_app a b : polite (a ++ b) -> polite a.
Proof.
  intros H tr1 i tr2 E. apply (H tr1 i (tr2 ++ b)). rewrite E, <- app_assoc. done.
Qed.

(** Every thread has given back at most what it took; inside a post, less. *)
Definition owed (p : spc) : Z := match p with SIn SPost _ => 1 | _ => 0 end.

Lemma sdo_events n k tr s a s' es : sinv n k tr s -> sdo s a = Some (s', es) ->
  (es = [] /\ s' = s) \/ (es = [STick] /\ s_pcs s' = s_pcs s)
  \/ (exists i o, es = [SCall i o] /\ s_pcs s' = <[i := SIn o (s_clock s)]> (s_pcs s) /\ (i < length (s_pcs s))%nat)
  \/ (exists i o r t, es = [SRet i o r] /\ s_pcs s !! i = Some (SIn o t) /\ s_pcs s' = <[i := SIdle]> (s_pcs s)).
Proof.
  intros HI H. destruct a as [i o|i|]; cbn [sdo] in H.
  - destruct (s_pcs s !! i) as [[|? ?]|] eqn:E; try discriminate H. injection H as <- <-.
    right; right; left. exists i, o. split_and!; [done|done|by eapply lookup_lt_Some].
  - unfold sgo in H. destruct (s_pcs s !! i) as [[|o t]|] eqn:E; try discriminate H.
    assert (Hd : forall v r, sdone s i o v r = Some (s', es) ->
      (exists i o r t, es = [SRet i o r] /\ s_pcs s !! i = Some (SIn o t) /\ s_pcs s' = <[i := SIdle]> (s_pcs s))).
    { intros v r Hd. injection Hd as <- <-. exists i, o, r, t. done. }
    assert (Hs : Some (s, []) = Some (s', es) -> es = [] /\ s' = s).
    { intros Hs. injection Hs as <- <-. done. }
    destruct o as [| |d| |].
    + destruct (s_val s =? 0); [left; exact (Hs H)|right; right; right; exact (Hd _ _ H)].
    + destruct (s_val s =? 0); right; right; right; exact (Hd _ _ H).
    + destruct (s_val s =? 0); [destruct (d <? s_clock s - t)|];
        [right; right; right; exact (Hd _ _ H)|left; exact (Hs H)|right; right; right; exact (Hd _ _ H)].
    + destruct (s_val s <? SEM_VALUE_MAX); right; right; right; exact (Hd _ _ H).
    + right; right; right; exact (Hd _ _ H).
  - injection H as <- <-. right; left; done.
Qed.

Lemma owed_net n k tr s : 0 <= n <= SEM_VALUE_MAX -> srun n k tr s -> polite tr ->
  forall i p, s_pcs s !! i = Some p -> owed p <= net i tr.
Proof.
  intros Hn H. induction H as [|tr s a s' es H0 IH Ha]; intros Hp i p Hi.
  - cbn in Hi. apply lookup_replicate in Hi as [-> _]. done.
  - specialize (IH (polite_app _ _ Hp)). pose proof (srun_inv _ _ _ _ Hn H0) as HI.
    rewrite net_app.
    destruct (sdo_events _ _ _ _ _ _ _ HI Ha) as [(-> & ->)|[(-> & Hpc)|[(j & o & -> & Hpc & Hl)|(j & o & r & t & -> & Hj & Hpc)]]].
    + change (net i []) with 0. specialize (IH i p Hi). lia.
    + rewrite Hpc in Hi. change (net i [STick]) with 0. specialize (IH i p Hi). lia.
    + rewrite Hpc in Hi. assert (net i [SCall j o] = 0) as ->.
      { unfold net, of_thread. cbn [List.filter]. by case_bool_decide. }
      destruct (decide (j = i)) as [->|Hne].
      * rewrite list_lookup_insert in Hi by done. injection Hi as <-.
        destruct (s_pcs s !! i) as [q|] eqn:Eq; [|apply lookup_lt_is_Some in Hl as [? Hl]; congruence].
        pose proof (IH i q Eq) as Hq. cbn [owed]. destruct o; try (destruct q as [|[] ?]; cbn in Hq; lia).
        assert (inside i tr = true) as Hin by (apply (Hp tr i []); done).
        apply inside_net in Hin. lia.
      * rewrite list_lookup_insert_ne in Hi by done. specialize (IH i p Hi). lia.
    + rewrite Hpc in Hi. destruct (decide (j = i)) as [->|Hne].
      * rewrite list_lookup_insert in Hi by (by eapply lookup_lt_Some). injection Hi as <-.
        specialize (IH i _ Hj). rewrite net_ret. cbn [owed] in *.
        destruct o; try (match goal with |- context [waits [?e]] =>
          assert (0 <= waits [e]) by (unfold waits; lia); assert (posts [e] = 0) as -> by done end; lia).
        assert (0 <= waits [SRet i SPost r]) by (unfold waits; lia).
        assert (posts [SRet i SPost r] <= 1) by (unfold posts; cbn; destruct r; cbn; lia). lia.
      * rewrite list_lookup_insert_ne in Hi by done. rewrite net_other by congruence. specialize (IH i p Hi). lia.
Qed.

Lemma net_sum n k tr s : 0 <= n <= SEM_VALUE_MAX -> srun n k tr s ->
  zsum k (fun i => net i tr) = waits tr - posts tr.
Proof.
  intros Hn H. induction H as [|tr s a s' es H0 IH Ha].
  - rewrite zsum_0; done.
  - pose proof (srun_inv _ _ _ _ Hn H0) as HI. rewrite waits_app, posts_app.
    destruct (sdo_events _ _ _ _ _ _ _ HI Ha) as [(-> & _)|[(-> & _)|[(j & o & -> & _ & _)|(j & o & r & t & -> & Hj & _)]]].
    + rewrite (zsum_ext k (fun i => net i tr)); [rewrite IH; change (waits []) with 0; change (posts []) with 0; lia|].
      intros i _. rewrite net_app. change (net i []) with 0. lia.
    + rewrite (zsum_ext k (fun i => net i tr)); [rewrite IH; change (waits [STick]) with 0; change (posts [STick]) with 0; lia|].
      intros i _. rewrite net_app. change (net i [STick]) with 0. lia.
    + rewrite (zsum_ext k (fun i => net i tr)); [rewrite IH; change (waits [SCall j o]) with 0; change (posts [SCall j o]) with 0; lia|].
      intros i _. rewrite net_app. assert (net i [SCall j o] = 0) as ->; [|lia].
      unfold net, of_thread. cbn [List.filter]. by case_bool_decide.
    + assert (Hjk : (j < k)%nat) by (rewrite <- (si_len _ _ _ _ HI); by eapply lookup_lt_Some).
      rewrite (zsum_upd k (fun i => net i tr) _ j Hjk).
      * rewrite IH, net_app, net_ret. lia.
      * intros i Hne. rewrite net_app, net_other by done. lia.
Qed.

Lemma at_most_n n k tr s : 0 <= n <= SEM_VALUE_MAX -> srun n k tr s -> polite tr -> insiders k tr <= n.
Proof.
  intros Hn H Hp. pose proof (srun_inv _ _ _ _ Hn H) as [Hv Hr Hl _ _].
  unfold insiders. rewrite filter_zsum.
  transitivity (zsum k (fun i => net i tr)).
  - apply zsum_le. intros i Hi. destruct (inside i tr) eqn:E.
    + apply inside_net in E. lia.
    + rewrite <- Hl in Hi. destruct (lookup_lt_is_Some_2 _ _ Hi) as [p Hpp].
      pose proof (owed_net _ _ _ _ Hn H Hp i p Hpp). destruct p as [|[] ?]; cbn in *; lia.
  - rewrite (net_sum _ _ _ _ Hn H). unfold level in Hv. lia.
Qed.

(** ** Progress *)
Lemma wait_progress n k tr s i o t : 0 <= n <= SEM_VALUE_MAX -> srun n k tr s ->
  s_pcs s !! i = Some (SIn o t) -> is_wait o = true -> 0 < level n tr ->
  exists s', srun n k (tr ++ [SRet i o 0]) s'.
Proof.
  intros Hn H Hp Ho Hlv. pose proof (srun_inv _ _ _ _ Hn H) as [Hv _ _ _ _].
  exists (Sst (s_val s - 1) (s_clock s) (<[i := SIdle]> (s_pcs s))).
  apply (srun_step _ _ _ _ (SGo i) _ _ H). cbn [sdo]. unfold sgo. rewrite Hp.
  destruct o; try discriminate Ho.
  all: destruct (Z.eqb_spec (s_val s) 0); [lia|].
  all: destruct (Z.ltb_spec 0 (s_val s)); [done|lia].
Qed.

(** ** Examples *)
Lemma ssched_run n k as_ : forall tr0 s0 tr s, srun n k tr0 s0 -> ssched s0 as_ = Some (tr, s) -> srun n k (tr0 ++ tr) s.
Proof.
  induction as_ as [|a as_ IH]; intros tr0 s0 tr s H0 H; cbn in H.
  - injection H as <- <-. by rewrite app_nil_r.
  - destruct (sdo s0 a) as [[s1 es]|] eqn:E; [|discriminate H].
    destruct (ssched s1 as_) as [[tr1 s2]|] eqn:E2; [|discriminate H]. injection H as <- <-.
    rewrite app_assoc. apply (IH _ s1); [|done]. by eapply srun_step.
Qed.

Lemma sem_ex n k as_ (chk : list sev -> sst -> bool) :
  match ssched (sinit n k) as_ with Some (tr, s) => chk tr s | None => false end = true ->
  exists tr s, srun n k tr s /\ chk tr s = true.
Proof.
  destruct (ssched (sinit n k) as_) as [[tr s]|] eqn:E; [|done]. intros H. exists tr, s. split; [|done].
  exact (ssched_run n k as_ [] _ _ _ (srun_nil n k) E).
Qed.
