(** Proofs for C57, threads *)
From Verif Require Import Base PeekModel.
Local Open Scope list_scope.
Local Open Scope Z_scope.

Lemma precv_conserve s t len peek s' x : precv s t len peek = (s', x) ->
  k_last s ++ k_buf s = pgot x ++ k_last s' ++ k_buf s'.
Proof.
  unfold precv. set (k := Nat.min _ _). destruct (bool_decide (len - k = 0)%nat) eqn:Ek.
  - intros [= <- <-]. cbn. destruct peek; cbn; [done|]. by rewrite app_assoc, take_drop.
  - destruct (k_buf s) as [|b0 b] eqn:Eb.
    + destruct (bool_decide (k = 0)%nat); intros H; injection H as <- <-; cbn; [done|]. destruct peek; cbn; [done|].
      by rewrite app_assoc, take_drop.
    + intros [= <- <-]. cbn [pgot k_last k_buf]. set (bs := b0 :: b).
      assert (k <= length (k_last s))%nat by (unfold k; lia).
      destruct peek; cbn [app].
      * by rewrite <- app_assoc, take_drop.
      * assert (Hk : k = length (k_last s)) by (unfold k in *; apply bool_decide_eq_false in Ek; lia).
        rewrite Hk, firstn_all, drop_all, <- app_assoc. cbn [app]. by rewrite take_drop.
Qed.
Lemma pretry_conserve s t s' x : (pwakes s t -> k_last s = []) -> pretry s t = Some (s', x) ->
  k_last s ++ k_buf s = pgot x ++ k_last s' ++ k_buf s'.
Proof.
  unfold pretry. intros E. destruct (k_wait s !! t) as [[len peek]|] eqn:W; [|done].
  destruct (k_buf s) as [|b0 b] eqn:Eb; intros [= <- <-].
  - cbn. by rewrite Eb.
  - cbn [pgot k_last k_buf]. destruct peek.
    + cbn [app]. by rewrite <- app_assoc, take_drop.
    + rewrite E by (split; [by exists len|by rewrite Eb]). cbn [app]. by rewrite take_drop.
Qed.
Lemma prun_conserve l : forall s s' xs, prun s l = Some (s', xs) -> no_overlap s l ->
  (k_last s ++ k_buf s) ++ mjoin (map psent l) = mjoin (map pgot xs) ++ k_last s' ++ k_buf s'.
Proof.
  induction l as [|o l IH]; intros s s' xs H N; cbn [prun] in H.
  - injection H as <- <-. cbn. by rewrite app_nil_r.
  - cbn [no_overlap] in N. destruct N as [N1 N2].
    destruct (pstep s o) as [[s1 x]|] eqn:E; [|done].
    destruct (prun s1 l) as [[s2 ys]|] eqn:R; [|done]. injection H as <- <-.
    specialize (IH _ _ _ R N2). cbn [map].
    change (mjoin (psent o :: map psent l)) with (psent o ++ mjoin (map psent l)).
    change (mjoin (pgot x :: map pgot ys)) with (pgot x ++ mjoin (map pgot ys)).
    assert (X : (k_last s ++ k_buf s) ++ psent o = pgot x ++ k_last s1 ++ k_buf s1).
    2:{ rewrite app_assoc, X, <- !app_assoc. f_equal. rewrite <- IH. by rewrite <- !app_assoc. }
    clear IH R.
    destruct o as [bs|t len peek|t]; cbn [pstep] in E.
    + injection E as <- <-. cbn. by rewrite app_assoc.
    + destruct (k_wait s !! t); [done|]. injection E as E. cbn [psent]. rewrite app_nil_r.
      exact (precv_conserve _ _ _ _ _ _ E).
    + cbn [psent]. rewrite app_nil_r. exact (pretry_conserve _ _ _ _ N1 E).
Qed.
Lemma threads_conserve l s xs : prun pinit l = Some (s, xs) -> no_overlap pinit l ->
  mjoin (map psent l) = mjoin (map pgot xs) ++ k_last s ++ k_buf s.
Proof. apply (prun_conserve l pinit). Qed.
(** Without MSG_PEEK nothing is ever held back. *)
Definition plain (o : pop) : Prop := match o with PRecv _ _ true => False | _ => True end.
Lemma plain_step s o s1 x : plain o -> k_last s = [] /\ (forall t len p, k_wait s !! t = Some (len, p) -> p = false) ->
  pstep s o = Some (s1, x) -> k_last s1 = [] /\ forall t len p, k_wait s1 !! t = Some (len, p) -> p = false.
Proof.
  intros P [A B] E. destruct o as [bs|t len peek|t]; cbn [pstep] in E.
  - by injection E as <- <-.
  - destruct peek; [done|]. destruct (k_wait s !! t) eqn:W; [done|]. injection E as E.
    unfold precv in E. rewrite A in E. cbn [length Nat.min drop take] in E.
    destruct (bool_decide _); [by injection E as <- <-|].
    destruct (k_buf s) eqn:Eb; injection E as <- <-.
    + split; [done|]. cbn. intros t0 l0 p H. apply lookup_insert_Some in H as [[_ H]|[_ H]]; [by injection H|by eapply B].
    + split; [done|exact B].
  - unfold pretry in E. destruct (k_wait s !! t) as [[len peek]|] eqn:W; [|done].
    rewrite (B _ _ _ W) in E. destruct (k_buf s); injection E as <- <-; [done|].
    split; [done|]. cbn. intros t0 l0 p H. apply lookup_delete_Some in H as [_ H]. by eapply B.
Qed.
Lemma plain_no_overlap l : forall s, k_last s = [] /\ (forall t len p, k_wait s !! t = Some (len, p) -> p = false) ->
  Forall plain l -> no_overlap s l.
Proof.
  induction l as [|o l IH]; intros s Hs F; [done|]. apply Forall_cons in F as [F1 F2]. cbn [no_overlap]. split.
  - destruct o; [done|done|]. intros _. by destruct Hs.
  - destruct (pstep s o) as [[s1 x]|] eqn:E; [|done]. apply IH; [|done]. by eapply plain_step.
Qed.
Lemma threads_plain l s xs : prun pinit l = Some (s, xs) -> Forall plain l ->
  mjoin (map psent l) = mjoin (map pgot xs) ++ k_last s ++ k_buf s.
Proof.
  intros H F. apply threads_conserve; [done|]. apply plain_no_overlap; [|done]. split; [done|].
  intros t len p E. cbn in E. by rewrite lookup_empty in E.
Qed.
