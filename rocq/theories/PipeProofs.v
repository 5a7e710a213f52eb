(** Proofs about the pipe model. *)
From Verif Require Import Base PipeModel PipeSpec.
Local Open Scope Z_scope.

(** ** Lists *)
Lemma len_nn {A} (l : list A) : 0 <= len l.
Proof. unfold len; lia. Qed.
Lemma len_app {A} (a b : list A) : len (a ++ b) = len a + len b.
Proof. unfold len; rewrite app_length; lia. Qed.
Lemma len_cons {A} (a : A) l : len (a :: l) = 1 + len l.
Proof. unfold len; cbn [length]; lia. Qed.
Lemma len_0 {A} (l : list A) : len l = 0 -> l = [].
Proof. unfold len; destruct l; cbn [length]; [done|lia]. Qed.
Lemma len_ztake {A} n (l : list A) : 0 <= n <= len l -> len (ztake n l) = n.
Proof. unfold len, ztake; rewrite take_length; lia. Qed.
Lemma len_zdrop {A} n (l : list A) : 0 <= n <= len l -> len (zdrop n l) = len l - n.
Proof. unfold len, zdrop; rewrite drop_length; lia. Qed.
Lemma ztake_all {A} n (l : list A) : len l <= n -> ztake n l = l.
Proof. unfold len, ztake; intros; apply take_ge; lia. Qed.
Lemma ztake_0 {A} (l : list A) : ztake 0 l = [].
Proof. done. Qed.
Lemma zdrop_0 {A} (l : list A) : zdrop 0 l = l.
Proof. done. Qed.
Lemma ztake_drop {A} n (l : list A) : ztake n l ++ zdrop n l = l.
Proof. apply take_drop. Qed.
Lemma ztake_ext {A} m n (l : list A) : 0 <= m -> 0 <= n -> ztake m l ++ ztake n (zdrop m l) = ztake (m + n) l.
Proof.
  unfold ztake, zdrop; intros. rewrite take_take_drop. f_equal. lia.
Qed.
Lemma ztake_app {A} n (a b : list A) : n = len a -> ztake n (a ++ b) = a.
Proof. unfold ztake, len; intros ->. rewrite Nat2Z.id. apply take_app. Qed.
Lemma len_concat_mid (pre : list (list Z)) d rest :
  len (concat (pre ++ d :: rest)) = len (concat pre) + len d + len (concat rest).
Proof. rewrite concat_app. cbn [concat]. rewrite !len_app. lia. Qed.

Lemma to_i32_id x : 0 <= x < 2 ^ 31 -> to_i32 x = x.
Proof.
  intros H. unfold to_i32, wrap_u. rewrite Z.mod_small by lia.
  destruct (Z.ltb_spec x (2 ^ 31)); lia.
Qed.

(** ** Counting threads *)
Definition cnt (f : pc -> bool) (l : list pc) : Z := Z.of_nat (length (List.filter f l)).
Definition b2z (b : bool) : Z := if b then 1 else 0.

Lemma cnt_nn f l : 0 <= cnt f l.
Proof. unfold cnt; lia. Qed.
Lemma cnt_cons f p l : cnt f (p :: l) = b2z (f p) + cnt f l.
Proof. unfold cnt; cbn [List.filter]; destruct (f p); cbn [length b2z]; lia. Qed.
Lemma cnt_set f l i p q : l !! i = Some p -> cnt f (<[i := q]> l) = cnt f l - b2z (f p) + b2z (f q).
Proof.
  revert i; induction l as [|x l IH]; intros [|i] H; try discriminate H; cbn in H.
  - injection H as ->. change (<[0%nat := q]> (p :: l)) with (q :: l). rewrite !cnt_cons; lia.
  - change (<[S i := q]> (x :: l)) with (x :: <[i := q]> l). rewrite !cnt_cons, (IH _ H); lia.
Qed.
Lemma cnt_one f l i p : l !! i = Some p -> b2z (f p) <= cnt f l.
Proof.
  revert i; induction l as [|x l IH]; intros [|i] H; try discriminate H; cbn in H; rewrite cnt_cons.
  - injection H as ->. pose proof (cnt_nn f l); lia.
  - specialize (IH _ H). destruct (f x); cbn; lia.
Qed.
Lemma cnt_two f l i j p q : i <> j -> l !! i = Some p -> l !! j = Some q ->
  b2z (f p) + b2z (f q) <= cnt f l.
Proof.
  revert i j; induction l as [|x l IH]; intros [|i] [|j] Hne Hi Hj; try discriminate Hi; try done;
    cbn in Hi, Hj; rewrite cnt_cons.
  - injection Hi as ->. pose proof (cnt_one f l j q Hj); lia.
  - injection Hj as ->. pose proof (cnt_one f l i p Hi); lia.
  - assert (i <> j) by congruence. specialize (IH i j H Hi Hj). destruct (f x); cbn; lia.
Qed.
Lemma cnt_idle f k : f Idle = false -> cnt f (replicate k Idle) = 0.
Proof. intros Hf; induction k; cbn [replicate]; [done|]. rewrite cnt_cons, Hf, IHk; done. Qed.

Definition reading (p : pc) : bool :=
  match p with RWait _ _ | RLen _ _ | RNbRef _ | RRef _ _ | RLen2 _ _ | RPop _ _ => true | _ => false end.
Definition writing (p : pc) : bool :=
  match p with WNext _ _ _ | WWait _ _ _ | WRef _ _ _ _ | WRoom _ _ _ _ | WPush _ _ _ _ _ | WRet _ _ _ => true | _ => false end.
Definition holdsr (p : pc) : bool :=
  match p with RLen _ _ | RNbRef _ | RRef _ _ | RLen2 _ _ | RPop _ _ => true | _ => false end.
Definition holdsw (p : pc) : bool :=
  match p with WRef _ _ _ _ | WRoom _ _ _ _ | WPush _ _ _ _ _ | WRet _ _ _ => true | _ => false end.

(** ** Events *)
Lemma accepted_app a b : accepted (a ++ b) = accepted a ++ accepted b.
Proof. unfold accepted; rewrite map_app, concat_app; done. Qed.
Lemma delivered_app a b : delivered (a ++ b) = delivered a ++ delivered b.
Proof. unfold delivered; rewrite map_app, concat_app; done. Qed.

(** The thread an event belongs to *)
Definition evt (e : ev) : nat := match e with ECall i _ | EIns i _ | ERet i _ _ => i end.

Lemma last_call_other j es tr : Forall (fun e => evt e <> j) es -> last_call j (tr ++ es) = last_call j tr.
Proof.
  intros HF; unfold last_call; rewrite fold_left_app. revert HF. generalize (fold_left (fun (acc : option pop) e =>
    match e with ECall j0 o => if decide (j = j0) then Some o else acc | _ => acc end) tr None).
  intros o0 H0; revert o0; induction H0 as [|e es He _ IH]; intros o0; cbn [fold_left]; [done|].
  destruct e; cbn in He; auto. rewrite decide_False by auto; auto.
Qed.
Lemma pieces_other j es tr : Forall (fun e => evt e <> j) es -> pieces j (tr ++ es) = pieces j tr.
Proof.
  intros HF; unfold pieces; rewrite fold_left_app. revert HF. generalize (fold_left (fun acc e =>
    match e with
    | ECall j0 _ => if decide (j = j0) then [] else acc
    | EIns j0 d => if decide (j = j0) then acc ++ [d] else acc
    | _ => acc
    end) tr []).
  intros o0 H0; revert o0; induction H0 as [|e es He _ IH]; intros o0; cbn [fold_left]; [done|].
  destruct e; cbn in He; auto; rewrite decide_False by auto; auto.
Qed.

Lemma last_call_start i o es tr : Forall (fun e => match e with ERet _ _ _ => True | _ => False end) es ->
  last_call i (tr ++ ECall i o :: es) = Some o.
Proof.
  intros H. unfold last_call; rewrite fold_left_app. cbn [fold_left]. rewrite decide_True by done.
  induction H as [|e es He _ IH]; cbn [fold_left]; [done|]. destruct e; done.
Qed.
Lemma pieces_start i o es tr : Forall (fun e => match e with ERet _ _ _ => True | _ => False end) es ->
  pieces i (tr ++ ECall i o :: es) = [].
Proof.
  intros H. unfold pieces; rewrite fold_left_app. cbn [fold_left]. rewrite decide_True by done.
  induction H as [|e es He _ IH]; cbn [fold_left]; [done|]. destruct e; done.
Qed.
Lemma last_call_ins i d tr : last_call i (tr ++ [EIns i d]) = last_call i tr.
Proof. unfold last_call; rewrite fold_left_app; done. Qed.
Lemma last_call_ret i r d tr : last_call i (tr ++ [ERet i r d]) = last_call i tr.
Proof. unfold last_call; rewrite fold_left_app; done. Qed.
Lemma pieces_ins i d tr : pieces i (tr ++ [EIns i d]) = pieces i tr ++ [d].
Proof. unfold pieces; rewrite fold_left_app; cbn [fold_left]. rewrite decide_True; done. Qed.
Lemma pieces_ret i r d tr : pieces i (tr ++ [ERet i r d]) = pieces i tr.
Proof. unfold pieces; rewrite fold_left_app; done. Qed.

(** ** What a thread inside a call has done so far *)
Definition small (d : list Z) : Prop := len d <= PIPE_BUF.

(** the call, the bytes put in before the current buffer *)
Definition wcall (lc : option pop) (d : list Z) (nb : bool) (v : vec) (b : list Z) : Prop :=
  match v with
  | Plain => lc = Some (PWrite d nb) /\ b = []
  | Vec rest total => exists ds pre, lc = Some (PWritev ds nb) /\ ds = pre ++ d :: rest /\
      (len (concat ds) < 2 ^ 31 -> total = len b /\ len b <= len (concat pre) /\
        (nb = false \/ Forall small ds -> b = concat pre))
  end.

Definition wres (nr : Z) (lc : option pop) (ps : list (list Z)) (nb : bool) (v : vec) (r : Z) : Prop :=
  exists d b, wcall lc d nb v b /\ 0 < len d /\
    ((r = to_i32 (len d) /\ concat ps = b ++ d /\ (v = Plain -> small d -> ps = [d])) \/
     (nb = true /\ exists n, r = to_i32 n /\ 0 < n < len d /\ concat ps = b ++ ztake n d /\ ~ small d) \/
     (nb = true /\ r = err EAGAIN /\ concat ps = b /\ (v = Plain -> ps = [])) \/
     (r = err EPIPE /\ nr = 0 /\ exists n, 0 <= n < len d /\ concat ps = b ++ ztake n d /\
        (small d -> n = 0) /\ (n = 0 -> v = Plain -> ps = []))).

(** inside the loop with [n] bytes of the buffer written *)
Definition wloop (lc : option pop) (ps : list (list Z)) (d : list Z) (nb : bool) (v : vec) (n : Z) : Prop :=
  exists b, wcall lc d nb v b /\ 0 <= n < len d /\ concat ps = b ++ ztake n d /\
    (small d -> n = 0) /\ (n = 0 -> v = Plain -> ps = []).

Definition tinv (nr : Z) (lc : option pop) (ps : list (list Z)) (p : pc) : Prop :=
  match p with
  | Idle => True
  | WNext rest total nb => exists ds pre, lc = Some (PWritev ds nb) /\ ds = pre ++ rest /\
      (len (concat ds) < 2 ^ 31 -> total = len (concat ps) /\ len (concat ps) <= len (concat pre) /\
        (nb = false \/ Forall small ds -> concat ps = concat pre))
  | WWait d nb v => wloop lc ps d nb v 0
  | WRef d nb v n | WRoom d nb v n | WPush d nb v n _ => wloop lc ps d nb v n
  | WRet v nb r => wres nr lc ps nb v r
  | RWait n nb | RLen n nb => lc = Some (PRead n nb) /\ 0 < n
  | RNbRef n => lc = Some (PRead n true) /\ 0 < n
  | RRef n _ | RLen2 n _ => lc = Some (PRead n false) /\ 0 < n
  | RPop n _ => exists nb, lc = Some (PRead n nb) /\ 0 < n
  end.

(** the part that looks at the shared state *)
Definition sinv (cap : Z) (s : pst) (p : pc) : Prop :=
  match p with
  | WPush _ _ _ _ room => PIPE_BUF <= room <= cap - len (t_buf s)
  | RPop _ l => 0 < l <= len (t_buf s)
  | _ => True
  end.

Record pinv (cap : Z) (s : pst) (tr : list ev) : Prop := PInv {
  pv_fr : 0 <= t_fr s;
  pv_fw : 0 <= t_fw s;
  pv_nr : t_nr s = t_fr s + cnt reading (t_pcs s);
  pv_nw : t_nw s = t_fw s + cnt writing (t_pcs s);
  pv_rl : cnt holdsr (t_pcs s) = b2z (t_rl s);
  pv_wl : cnt holdsw (t_pcs s) = b2z (t_wl s);
  pv_cap : len (t_buf s) <= cap;
  pv_str : accepted tr = delivered tr ++ t_buf s;
  pv_thr : forall i p, t_pcs s !! i = Some p ->
    sinv cap s p /\ tinv (t_nr s) (last_call i tr) (pieces i tr) p }.

(** What is known when a call returns. *)
Definition retok (s : pst) (o : pop) (ps : list (list Z)) (r : Z) (out : list Z) : Prop :=
  match o with
  | PRead n nb =>
      (0 <= r -> r = len out /\ r <= n) /\
      (r = 0 -> n = 0 \/ t_nw s = 0) /\
      (r < 0 -> r = err EAGAIN /\ nb = true /\ out = [])
  | PWrite d nb => out = [] /\ (len d < 2 ^ 31 ->
      (0 <= r -> concat ps = ztake r d /\ r <= len d /\ (nb = false \/ small d -> r = len d) /\ (d <> [] -> r <> 0)) /\
      (r < 0 -> (r = err EAGAIN /\ nb = true /\ ps = []) \/
                (r = err EPIPE /\ t_nr s = 0 /\ exists n, 0 <= n < len d /\ concat ps = ztake n d)) /\
      (small d -> ps = [] \/ ps = [d]) /\ (small d -> r < 0 -> ps = []))
  | PWritev ds nb => out = [] /\ (len (concat ds) < 2 ^ 31 ->
      (0 <= r -> r = len (concat ps) /\ r <= len (concat ds) /\
         (nb = false \/ Forall small ds -> concat ps = ztake r (concat ds)) /\
         (nb = false -> r = len (concat ds))) /\
      (r < 0 -> (r = err EAGAIN /\ nb = true /\ concat ps = []) \/ (r = err EPIPE /\ t_nr s = 0)))
  | _ => r = 0 /\ out = []
  end.

Lemma tinv_mono nr nr' lc ps p : (nr = 0 -> nr' = 0) -> tinv nr lc ps p -> tinv nr' lc ps p.
Proof.
  intros Hn. destruct p; cbn [tinv]; auto.
  intros (d & b & Hc & Hd & [H|[H|[H|(H1 & H2 & H3)]]]); exists d, b; split; auto; split; auto.
  right; right; right. auto.
Qed.

(** How a step changes the shared state: enough for the other threads. *)
Definition others_ok (cap : Z) (s s' : pst) (i : nat) : Prop :=
  (t_nr s = 0 -> t_nr s' = 0) /\
  (forall j p, j <> i -> t_pcs s !! j = Some p -> sinv cap s p -> sinv cap s' p).

Lemma pinv_step cap s tr i p p' s' es :
  pinv cap s tr -> t_pcs s !! i = Some p -> t_pcs s' = <[i := p']> (t_pcs s) ->
  Forall (fun e => evt e = i) es ->
  0 <= t_fr s' -> 0 <= t_fw s' ->
  t_nr s' - t_nr s = t_fr s' - t_fr s - b2z (reading p) + b2z (reading p') ->
  t_nw s' - t_nw s = t_fw s' - t_fw s - b2z (writing p) + b2z (writing p') ->
  b2z (t_rl s') - b2z (t_rl s) = b2z (holdsr p') - b2z (holdsr p) ->
  b2z (t_wl s') - b2z (t_wl s) = b2z (holdsw p') - b2z (holdsw p) ->
  len (t_buf s') <= cap ->
  t_buf s ++ accepted es = delivered es ++ t_buf s' ->
  others_ok cap s s' i ->
  sinv cap s' p' -> tinv (t_nr s') (last_call i (tr ++ es)) (pieces i (tr ++ es)) p' ->
  pinv cap s' (tr ++ es).
Proof.
  intros Hv Hi Hp Hes Hfr Hfw Hnr Hnw Hrl Hwl Hcap Hstr [Ho1 Ho2] Hs Ht.
  destruct Hv as [Vfr Vfw Vnr Vnw Vrl Vwl Vcap Vstr Vthr].
  split; auto.
  - rewrite Hp, (cnt_set _ _ _ _ _ Hi). lia.
  - rewrite Hp, (cnt_set _ _ _ _ _ Hi). lia.
  - rewrite Hp, (cnt_set _ _ _ _ _ Hi). lia.
  - rewrite Hp, (cnt_set _ _ _ _ _ Hi). lia.
  - rewrite accepted_app, delivered_app, Vstr, <- !app_assoc, Hstr. done.
  - intros j q Hj. rewrite Hp in Hj. destruct (decide (j = i)) as [->|Hne].
    + rewrite list_lookup_insert in Hj by (apply lookup_lt_Some in Hi; done).
      injection Hj as <-. auto.
    + rewrite list_lookup_insert_ne in Hj by auto. destruct (Vthr _ _ Hj) as [V1 V2]. split.
      * apply (Ho2 j q Hne Hj V1).
      * rewrite last_call_other, pieces_other;
          [|eapply Forall_impl; [exact Hes|intros e <-; congruence]..].
        exact (tinv_mono _ _ _ _ _ Ho1 V2).
Qed.

Lemma oo_same cap s s' i : t_buf s' = t_buf s -> (t_nr s = 0 -> t_nr s' = 0) -> others_ok cap s s' i.
Proof.
  intros Hb Hn. split; [exact Hn|]. intros j p _ _. destruct p; cbn [sinv]; rewrite ?Hb; auto.
Qed.

Lemma b2z_le b : b2z b <= 1.
Proof. destruct b; cbn; lia. Qed.

Lemma oo_push cap s s' i p bs tr : pinv cap s tr -> t_pcs s !! i = Some p -> holdsw p = true ->
  t_buf s' = t_buf s ++ bs -> t_nr s' = t_nr s -> others_ok cap s s' i.
Proof.
  intros Hv Hi Hp Hb Hn. split; [lia|]. intros j q Hne Hj.
  destruct (holdsw q) eqn:Hq.
  - pose proof (cnt_two holdsw _ _ _ _ _ Hne Hj Hi) as H. rewrite (pv_wl _ _ _ Hv), Hp, Hq in H.
    cbn in H. pose proof (b2z_le (t_wl s)). lia.
  - destruct q; cbn [sinv holdsw] in *; try discriminate Hq; auto. rewrite Hb, len_app.
    pose proof (len_nn bs). lia.
Qed.

Lemma oo_pop cap s s' i p n tr : pinv cap s tr -> t_pcs s !! i = Some p -> holdsr p = true ->
  0 <= n <= len (t_buf s) -> t_buf s' = zdrop n (t_buf s) -> t_nr s' = t_nr s -> others_ok cap s s' i.
Proof.
  intros Hv Hi Hp Hl Hb Hn. split; [lia|]. intros j q Hne Hj.
  destruct (holdsr q) eqn:Hq.
  - pose proof (cnt_two holdsr _ _ _ _ _ Hne Hj Hi) as H. rewrite (pv_rl _ _ _ Hv), Hp, Hq in H.
    cbn in H. pose proof (b2z_le (t_rl s)). lia.
  - destruct q; cbn [sinv holdsr] in *; try discriminate Hq; auto. rewrite Hb, len_zdrop by done. lia.
Qed.

Definition last_ret (cap : Z) (s' : pst) (tr es : list ev) : Prop :=
  forall i r out, last es = Some (ERet i r out) ->
    exists o, last_call i (tr ++ es) = Some o /\ retok s' o (pieces i (tr ++ es)) r out.

Lemma no_ret cap s' tr es : (forall i r out, last es <> Some (ERet i r out)) -> last_ret cap s' tr es.
Proof. intros H i r out E. destruct (H _ _ _ E). Qed.

Lemma one_ret cap s' tr i r out o : last_call i tr = Some o -> retok s' o (pieces i tr) r out ->
  last_ret cap s' tr [ERet i r out].
Proof.
  intros H1 H2 j r' out' E. cbn in E. injection E as <- <- <-.
  exists o. rewrite last_call_ret, pieces_ret. auto.
Qed.

Lemma call_ret cap s' tr i r out o : retok s' o [] r out ->
  last_ret cap s' tr [ECall i o; ERet i r out].
Proof.
  intros H2 j r' out' E. cbn in E. injection E as <- <- <-.
  exists o. rewrite last_call_start, pieces_start by (repeat constructor). auto.
Qed.

Lemma goto_self s i p : t_pcs s !! i = Some p -> <[i := p]> (t_pcs s) = t_pcs s.
Proof. apply list_insert_id. Qed.

Ltac fin := cbn [t_buf t_nr t_nw t_fr t_fw t_wl t_rl t_pcs goto set_fr set_fw set_nr set_nw set_wl set_rl set_buf
                 reading writing holdsr holdsw b2z sinv] in *.

Ltac stepv Hv Hi p' :=
  eapply (pinv_step _ _ _ _ _ p' _ _ Hv Hi); fin;
  [try reflexivity | repeat constructor | try lia | try lia | try lia | try lia | try lia | try lia
  | try exact (pv_cap _ _ _ Hv) | try (cbn; rewrite ?app_nil_r; reflexivity)
  | try (apply oo_same; fin; [reflexivity|auto; fail]) | try exact I | try exact I].

Lemma pcall_inv cap s tr i o s' es : capok cap -> pinv cap s tr -> pcall s i o = Some (s', es) ->
  pinv cap s' (tr ++ es) /\ last_ret cap s' tr es.
Proof.
  intros Hcap Hv H. unfold pcall in H.
  pose proof (pv_fr _ _ _ Hv) as Hfr. pose proof (pv_fw _ _ _ Hv) as Hfw.
  pose proof (pv_nr _ _ _ Hv) as Hnr. pose proof (cnt_nn reading (t_pcs s)) as Hc.
  destruct (t_pcs s !! i) as [p|] eqn:Hi; [|discriminate H].
  destruct p; try discriminate H.
  destruct o as [n nb|d nb|ds nb| | | |].
  - destruct (Z.ltb_spec 0 (t_fr s)); [|discriminate H].
    destruct (Z.leb_spec 0 n); [|discriminate H]. cbn [andb] in H.
    destruct (Z.eqb_spec n 0) as [->|Hn]; injection H as <- <-.
    + split; [|apply call_ret; cbn; auto with lia].
      stepv Hv Hi Idle. symmetry; exact (goto_self _ _ _ Hi).
    + split; [|apply no_ret; cbn; congruence].
      stepv Hv Hi (RWait n nb). rewrite last_call_start by constructor. cbn [tinv]. split; [done|lia].
  - destruct (Z.ltb_spec 0 (t_fw s)); [|discriminate H].
    destruct (Z.eqb_spec (len d) 0) as [Hd|Hn]; injection H as <- <-.
    + apply len_0 in Hd as ->. split.
      * stepv Hv Hi Idle. symmetry; exact (goto_self _ _ _ Hi).
      * apply call_ret. cbn. split; [done|]. intros _. split; [|split; [intros ?; lia|split; [auto|intros _ ?; lia]]].
        intros _. split; [done|]. split; [apply len_nn|]. split; [done|]. congruence.
    + split; [|apply no_ret; cbn; congruence].
      stepv Hv Hi (WWait d nb Plain). rewrite last_call_start, pieces_start by constructor.
      cbn [tinv]. exists []. pose proof (len_nn d). cbn. repeat split; auto; try lia.
  - destruct (Z.ltb_spec 0 (t_fw s)); [|discriminate H]. injection H as <- <-.
    split; [|apply no_ret; cbn; congruence].
    stepv Hv Hi (WNext ds 0 nb). rewrite last_call_start, pieces_start by constructor.
    cbn [tinv]. exists ds, []. repeat split; auto; cbn; lia.
  - destruct (Z.ltb_spec 0 (t_fr s)); [|discriminate H]. injection H as <- <-.
    split; [|apply call_ret; cbn; auto].
    stepv Hv Hi Idle. symmetry; exact (goto_self _ _ _ Hi). apply oo_same; fin; [done|lia].
  - destruct (Z.ltb_spec 0 (t_fw s)); [|discriminate H]. injection H as <- <-.
    split; [|apply call_ret; cbn; auto].
    stepv Hv Hi Idle. symmetry; exact (goto_self _ _ _ Hi).
  - destruct (Z.ltb_spec 0 (t_fr s)); [|discriminate H]. injection H as <- <-.
    split; [|apply call_ret; cbn; auto].
    stepv Hv Hi Idle. symmetry; exact (goto_self _ _ _ Hi). apply oo_same; fin; [done|lia].
  - destruct (Z.ltb_spec 0 (t_fw s)); [|discriminate H]. injection H as <- <-.
    split; [|apply call_ret; cbn; auto].
    stepv Hv Hi Idle. symmetry; exact (goto_self _ _ _ Hi).
Qed.

Lemma wcall_next lc d nb rest total b n ps :
  wcall lc d nb (Vec rest total) b -> concat ps = b ++ ztake n d ->
  0 < n <= len d -> (nb = false \/ small d -> n = len d) ->
  exists ds pre, lc = Some (PWritev ds nb) /\ ds = pre ++ rest /\
    (len (concat ds) < 2 ^ 31 -> total + n = len (concat ps) /\ len (concat ps) <= len (concat pre) /\
      (nb = false \/ Forall small ds -> concat ps = concat pre)).
Proof.
  intros (ds & pre & Hlc & Hds & Hb) Hps Hn Hfull. exists ds, (pre ++ [d]).
  split; [done|]. split; [by rewrite <- app_assoc|]. intros Hlen.
  destruct (Hb Hlen) as (Ht & Hl & Hp). rewrite Hps, concat_app. cbn [concat]. rewrite app_nil_r, !len_app, len_ztake by lia.
  split; [lia|]. split; [lia|]. intros Hc. rewrite (Hp Hc), Hfull, ztake_all; [done|lia|].
  destruct Hc as [|Hc]; [auto|]. right. subst ds. rewrite Forall_app, Forall_cons in Hc. tauto.
Qed.

Lemma pos_i32 n : 0 < n < 2 ^ 31 -> 0 < to_i32 n.
Proof. intros. rewrite to_i32_id; lia. Qed.

(** Facts about the result of one buffer when sizes fit *)
Lemma wcall_len lc d nb v b o : wcall lc d nb v b -> lc = Some o -> fits o -> len d < 2 ^ 31.
Proof.
  destruct v as [|rest total].
  - intros [-> _] E. injection E as <-. auto.
  - intros (ds & pre & -> & -> & _) E. injection E as <-. cbn [fits]. rewrite len_concat_mid.
    pose proof (len_nn (concat pre)); pose proof (len_nn (concat rest)). lia.
Qed.

Lemma err_eagain : err EAGAIN = -11. Proof. done. Qed.
Lemma err_epipe : err EPIPE = -32. Proof. done. Qed.

Lemma wres_plain_ret s lc ps nb r : wres (t_nr s) lc ps nb Plain r ->
  exists d, lc = Some (PWrite d nb) /\ retok s (PWrite d nb) ps r [].
Proof.
  intros (d & b & [-> ->] & Hd & H). exists d. split; [done|]. cbn [retok]. split; [done|]. intros Hlen.
  rewrite err_eagain, err_epipe in *.
  destruct H as [(-> & Hp & Hs)|[(-> & n & -> & Hn & Hp & Hs)|[(-> & -> & Hp & Hs)|(-> & Hnr & n & Hn & Hp & Hs & Hs')]]];
    cbn [app] in Hp.
  - rewrite to_i32_id by lia. split; [|split; [intros ?; lia|split; [auto|intros _ ?; lia]]].
    intros _. rewrite ztake_all by lia. split; [done|]. split; [lia|]. split; [auto|]. intros; lia.
  - rewrite to_i32_id by lia. split; [|split; [intros ?; lia|split; [intros ?; tauto|intros _ ?; lia]]].
    intros _. split; [done|]. split; [lia|]. split; [|lia]. intros [?|?]; [discriminate|tauto].
  - split; [intros ?; lia|]. rewrite (Hs eq_refl). split; [auto|]. auto.
  - split; [intros ?; lia|]. split; [intros _; right; eauto|].
    split; [intros Hsm; left; auto|intros Hsm _; auto].
Qed.

Lemma wres_vec_ret s lc ps nb rest total r : wres (t_nr s) lc ps nb (Vec rest total) r ->
  r <= 0 ->
  exists ds, lc = Some (PWritev ds nb) /\
   (len (concat ds) < 2 ^ 31 ->
    (r = err EPIPE /\ t_nr s = 0) \/
    (r = err EAGAIN /\ nb = true /\ total = len (concat ps) /\ len (concat ps) <= len (concat ds) /\
      (Forall small ds -> concat ps = ztake total (concat ds)))).
Proof.
  intros (d & b & (ds & pre & -> & Hds & Hb) & Hd & H) Hr. exists ds. split; [done|]. intros Hlen.
  destruct (Hb Hlen) as (Ht & Hl & Hp).
  assert (len (concat pre) + len d + len (concat rest) < 2 ^ 31) as Hsz.
  { rewrite <- len_concat_mid. subst ds; done. }
  pose proof (len_nn (concat pre)); pose proof (len_nn (concat rest)).
  destruct H as [(-> & Hq & Hs)|[(-> & n & -> & Hn & Hq & Hs)|[(-> & -> & Hq & Hs)|(-> & Hnr & n & Hn & Hq & Hs & Hs')]]].
  - rewrite to_i32_id in Hr; lia.
  - rewrite to_i32_id in Hr; lia.
  - right. rewrite Hq. split; [done|]. split; [done|]. split; [done|].
    rewrite Hds, len_concat_mid. split; [lia|]. intros Hsm. rewrite Hp by (right; subst ds; done).
    rewrite concat_app. rewrite ztake_app; [done|]. rewrite Ht. rewrite Hp by (right; subst ds; done). done.
  - left. auto.
Qed.

Lemma pgo_inv cap s tr i s' es : capok cap -> pinv cap s tr -> pgo cap s i = Some (s', es) ->
  pinv cap s' (tr ++ es) /\ last_ret cap s' tr es.
Proof.
  intros Hcap Hv H. unfold pgo in H.
  pose proof (pv_fr _ _ _ Hv) as Hfr. pose proof (pv_fw _ _ _ Hv) as Hfw.
  pose proof (pv_nr _ _ _ Hv) as Hnr. pose proof (cnt_nn reading (t_pcs s)) as Hc.
  destruct (t_pcs s !! i) as [p|] eqn:Hi; [|discriminate H].
  destruct (pv_thr _ _ _ Hv _ _ Hi) as [Hs Ht].
  pose proof (cnt_one holdsw _ _ _ Hi) as Hhw. rewrite (pv_wl _ _ _ Hv) in Hhw.
  pose proof (cnt_one holdsr _ _ _ Hi) as Hhr. rewrite (pv_rl _ _ _ Hv) in Hhr.
  destruct p as [|rest total nb|d nb v|d nb v n|d nb v n|d nb v n room|v nb r|n nb|n nb|n|n c|n c|n l].
  - discriminate H.
  - destruct rest as [|d rest].
    + injection H as <- <-. split.
      * stepv Hv Hi Idle.
      * destruct Ht as (ds & pre & Hlc & Hds & Hb). rewrite app_nil_r in Hds. subst pre.
        apply (one_ret _ _ _ _ _ _ _ Hlc). cbn [retok]. split; [done|]. intros Hlen.
        destruct (Hb Hlen) as (-> & Hl & Hp). pose proof (len_nn (concat (pieces i tr))).
        rewrite to_i32_id by lia. split; [|intros ?; lia]. intros _. split; [done|]. split; [done|].
        split; [intros Hcc; rewrite ztake_all; [auto|rewrite (Hp Hcc); lia]|].
        intros ->. rewrite Hp; auto.
    + destruct (Z.eqb_spec (len d) 0) as [Hd|Hd]; injection H as <- <-;
        (split; [|apply no_ret; cbn; congruence]); rewrite app_nil_r.
      * apply len_0 in Hd as ->. rewrite <- (app_nil_r tr).
        stepv Hv Hi (WNext rest total nb). rewrite app_nil_r.
        destruct Ht as (ds & pre & Hlc & Hds & Hb). cbn [tinv]. exists ds, (pre ++ [[]]).
        split; [done|]. split; [by rewrite <- app_assoc|]. rewrite concat_app. cbn [concat]. rewrite !app_nil_r. done.
      * rewrite <- (app_nil_r tr). stepv Hv Hi (WWait d nb (Vec rest total)). rewrite app_nil_r.
        destruct Ht as (ds & pre & Hlc & Hds & Hb). cbn [tinv]. exists (concat (pieces i tr)).
        pose proof (len_nn d). rewrite ztake_0, app_nil_r.
        split; [exists ds, pre; auto|]. split; [lia|]. split; [done|]. split; [done|]. discriminate.
  - destruct (t_wl s) eqn:Hwl; [discriminate H|]. injection H as <- <-.
    split; [|apply no_ret; cbn; congruence].
    stepv Hv Hi (WRef d nb v 0). rewrite Hwl; done. rewrite app_nil_r. exact Ht.
  - destruct (Z.eqb_spec (t_nr s) 0) as [Hz|Hz]; injection H as <- <-; (split; [|apply no_ret; cbn; congruence]).
    + stepv Hv Hi (WRet v nb (err EPIPE)). rewrite app_nil_r. cbn [tinv].
      destruct Ht as (b & Hw & Hn & Hp & H1 & H2). exists d, b. split; [done|]. split; [lia|].
      right; right; right. eauto 10.
    + stepv Hv Hi (WRoom d nb v n). rewrite app_nil_r. exact Ht.
  - destruct (Z.ltb_spec (cap - len (t_buf s)) PIPE_BUF) as [Hr|Hr].
    + destruct nb; injection H as <- <-; (split; [|apply no_ret; cbn; congruence]).
      * stepv Hv Hi (WRet v true (if 0 <? n then to_i32 n else err EAGAIN)). rewrite app_nil_r. cbn [tinv].
        destruct Ht as (b & Hw & Hn & Hp & H1 & H2). exists d, b. split; [done|]. split; [lia|].
        destruct (Z.ltb_spec 0 n).
        -- right; left. split; [done|]. exists n. repeat split; auto; try lia. intros Hsm. specialize (H1 Hsm). lia.
        -- assert (n = 0) as -> by lia. right; right; left. rewrite ztake_0, app_nil_r in Hp. auto.
      * stepv Hv Hi (WRef d false v n). rewrite app_nil_r. exact Ht.
    + injection H as <- <-. split; [|apply no_ret; cbn; congruence].
      stepv Hv Hi (WPush d nb v n (cap - len (t_buf s))). cbn [sinv]; fin; lia. rewrite app_nil_r. exact Ht.
  - injection H as <- <-. split; [|apply no_ret; cbn; congruence].
    cbn [sinv] in Hs. destruct Ht as (b & Hw & Hn & Hp & H1 & H2).
    set (upto := Z.min (len d) (n + room)) in *.
    assert (n < upto <= len d /\ upto - n <= room) as Hu by (unfold upto, PIPE_BUF in *; lia).
    assert (len (zdrop n d) = len d - n) as Hzd by (apply len_zdrop; lia).
    assert (len (ztake (upto - n) (zdrop n d)) = upto - n) as Hzt by (apply len_ztake; lia).
    rewrite (ztake_all (cap - len (t_buf s))) by lia.
    assert (concat (pieces i tr ++ [ztake (upto - n) (zdrop n d)]) = b ++ ztake upto d) as Hput.
    { rewrite concat_app, Hp. cbn [concat]. rewrite app_nil_r, <- app_assoc, ztake_ext by lia.
      do 2 f_equal. lia. }
    assert (small d -> n = 0 /\ upto = len d) as Hsm.
    { intros Hsm. specialize (H1 Hsm). split; [done|]. unfold small, upto in *. lia. }
    destruct (Z.ltb_spec upto (len d)) as [Hlt|Hge].
    + stepv Hv Hi (WRef d nb v upto).
      * rewrite len_app. lia.
      * eapply (oo_push _ _ _ _ _ _ _ Hv Hi); fin; done.
      * rewrite last_call_ins, pieces_ins. cbn [tinv]. exists b. split; [done|]. split; [lia|]. split; [done|].
        split; [intros Hx; destruct (Hsm Hx); lia|]. lia.
    + stepv Hv Hi (WRet v nb (to_i32 upto)).
      * rewrite len_app. lia.
      * eapply (oo_push _ _ _ _ _ _ _ Hv Hi); fin; done.
      * rewrite last_call_ins, pieces_ins. cbn [tinv]. exists d, b. split; [done|]. split; [lia|].
        assert (upto = len d) as Hfull by lia. left. split; [by rewrite Hfull|].
        split; [rewrite Hput, ztake_all by lia; done|].
        intros Hpl Hx. destruct (Hsm Hx) as [-> _]. rewrite (H2 eq_refl Hpl). cbn [app].
        rewrite zdrop_0, ztake_all by lia. done.
  - cbn [b2z holdsw] in Hhw. assert (t_wl s = true) as Hwl by (destruct (t_wl s); cbn in Hhw; [done|lia]).
    destruct v as [|rest total].
    + injection H as <- <-. split.
      * stepv Hv Hi Idle. rewrite Hwl; done.
      * destruct (wres_plain_ret _ _ _ _ _ Ht) as (d & Hlc & Hret). apply (one_ret _ _ _ _ _ _ _ Hlc). exact Hret.
    + destruct (Z.ltb_spec 0 r) as [Hr|Hr].
      * injection H as <- <-. split; [|apply no_ret; cbn; congruence].
        stepv Hv Hi (WNext rest (total + r) nb). rewrite Hwl; done. rewrite app_nil_r. cbn [tinv].
        destruct Ht as (d & b & Hw & Hd & Hcase).
        pose proof Hw as (ds & pre & Hlc & Hds & Hb).
        rewrite err_eagain, err_epipe in Hcase.
        destruct Hcase as [(Hrr & Hq & _)|[(Hnb & n & Hrr & Hn & Hq & Hsm)|[(? & ? & _)|(? & _)]]]; [| |lia|lia].
        -- destruct (wcall_next _ _ _ _ _ _ (len d) (pieces i tr) Hw) as (ds' & pre' & Hlc' & Hds' & Hb').
           { rewrite ztake_all by lia. done. }
           { lia. } { auto. }
           exists ds', pre'. split; [done|]. split; [done|]. intros Hlen. destruct (Hb' Hlen) as (E1 & E2 & E3).
           assert (len d < 2 ^ 31) by (exact (wcall_len _ _ _ _ _ _ Hw Hlc' Hlen)).
           rewrite Hrr, to_i32_id by lia. auto.
        -- destruct (wcall_next _ _ _ _ _ _ n (pieces i tr) Hw) as (ds' & pre' & Hlc' & Hds' & Hb').
           { done. } { lia. } { intros [?|?]; [congruence|tauto]. }
           exists ds', pre'. split; [done|]. split; [done|]. intros Hlen. destruct (Hb' Hlen) as (E1 & E2 & E3).
           assert (len d < 2 ^ 31) by (exact (wcall_len _ _ _ _ _ _ Hw Hlc' Hlen)).
           rewrite Hrr, to_i32_id by lia. auto.
      * destruct (wres_vec_ret _ _ _ _ _ _ _ Ht Hr) as (ds & Hlc & Hcase).
        destruct (Z.eqb_spec r (err EPIPE)) as [He|He]; [|destruct (Z.eqb_spec r (err EAGAIN)) as [Ha|Ha]].
        -- injection H as <- <-. split; [stepv Hv Hi Idle; rewrite Hwl; done|].
           apply (one_ret _ _ _ _ _ _ _ Hlc). cbn [retok]. split; [done|]. intros Hlen.
           rewrite err_eagain, err_epipe in *. split; [intros ?; lia|]. intros _.
           destruct (Hcase Hlen) as [[? ?]|(? & _)]; [right; fin; auto|lia].
        -- injection H as <- <-. split; [stepv Hv Hi Idle; rewrite Hwl; done|].
           apply (one_ret _ _ _ _ _ _ _ Hlc). cbn [retok]. split; [done|]. intros Hlen.
           destruct (Hcase Hlen) as [[? ?]|(_ & Hnb & Htot & Hl & Hsm)]; [congruence|].
           pose proof (len_nn (concat (pieces i tr))).
           destruct (Z.eqb_spec total 0) as [Hz|Hz].
           ++ split; [rewrite Ha, err_eagain; intros ?; lia|]. intros _. left. split; [done|]. split; [done|].
              apply len_0. lia.
           ++ rewrite to_i32_id by lia. split; [|intros ?; lia]. intros _. split; [done|]. split; [lia|].
              split; [|congruence]. intros [?|?]; [congruence|auto].
        -- injection H as <- <-. split; [|apply no_ret; cbn; congruence].
           stepv Hv Hi (WNext rest total nb). rewrite Hwl; done. rewrite app_nil_r. cbn [tinv].
           destruct Ht as (d & b & (ds' & pre & Hlc' & Hds & Hb) & Hd & Hx). exists ds', (pre ++ [d]).
           split; [done|]. split; [by rewrite <- app_assoc|]. intros Hlen.
           assert (ds' = ds) as -> by congruence. destruct (Hcase Hlen) as [[? ?]|(? & _)]; congruence.
  - destruct (t_rl s) eqn:Hrl; [discriminate H|]. injection H as <- <-.
    split; [|apply no_ret; cbn; congruence].
    stepv Hv Hi (RLen n nb). rewrite Hrl; done. rewrite app_nil_r. exact Ht.
  - destruct (Z.eqb_spec (len (t_buf s)) 0) as [Hz|Hz]; injection H as <- <-; (split; [|apply no_ret; cbn; congruence]).
    + destruct Ht as [Hlc Hn]. destruct nb.
      * stepv Hv Hi (RNbRef n). rewrite app_nil_r. cbn [tinv]. auto.
      * stepv Hv Hi (RRef n 0). rewrite app_nil_r. cbn [tinv]. auto.
    + stepv Hv Hi (RPop n (len (t_buf s))). cbn [sinv]; fin. pose proof (len_nn (t_buf s)); lia.
      rewrite app_nil_r. cbn [tinv]. destruct Ht. eauto.
  - cbn [b2z holdsr] in Hhr. assert (t_rl s = true) as Hrl by (destruct (t_rl s); cbn in Hhr; [done|lia]).
    destruct Ht as [Hlc Hn]. injection H as <- <-. split; [stepv Hv Hi Idle; rewrite Hrl; done|].
    apply (one_ret _ _ _ _ _ _ _ Hlc). cbn [retok]. rewrite err_eagain. fin.
    destruct (Z.eqb_spec (t_nw s) 0).
    + split; [intros _; split; [done|lia]|]. split; [auto|]. intros ?; lia.
    + split; [intros ?; lia|]. split; [intros ?; lia|]. auto.
  - cbn [b2z holdsr] in Hhr. assert (t_rl s = true) as Hrl by (destruct (t_rl s); cbn in Hhr; [done|lia]).
    destruct Ht as [Hlc Hn].
    destruct (Z.eqb_spec (t_nw s) 0); [|destruct (c =? CANCEL_CHECK_INTERVAL)]; injection H as <- <-.
    + split; [stepv Hv Hi Idle; rewrite Hrl; done|].
      apply (one_ret _ _ _ _ _ _ _ Hlc). cbn [retok]. fin.
      split; [intros _; split; [done|lia]|]. split; [auto|]. intros ?; lia.
    + split; [|apply no_ret; cbn; congruence].
      stepv Hv Hi (RWait n false). rewrite Hrl; done. rewrite app_nil_r. cbn [tinv]. auto.
    + split; [|apply no_ret; cbn; congruence].
      stepv Hv Hi (RLen2 n c). rewrite app_nil_r. cbn [tinv]. auto.
  - destruct (Z.eqb_spec (len (t_buf s)) 0) as [Hz|Hz]; injection H as <- <-; (split; [|apply no_ret; cbn; congruence]).
    + stepv Hv Hi (RRef n (c + 1)). rewrite app_nil_r. exact Ht.
    + stepv Hv Hi (RPop n (len (t_buf s))). cbn [sinv]; fin. pose proof (len_nn (t_buf s)); lia.
      rewrite app_nil_r. cbn [tinv]. destruct Ht. eauto.
  - cbn [b2z holdsr] in Hhr. assert (t_rl s = true) as Hrl by (destruct (t_rl s); cbn in Hhr; [done|lia]).
    destruct Ht as (nb & Hlc & Hn). cbn [sinv] in Hs. injection H as <- <-.
    assert (0 < Z.min n l <= len (t_buf s)) as Hk by lia.
    pose proof (pv_cap _ _ _ Hv) as Hle. destruct Hcap as [_ Hcap].
    split.
    + stepv Hv Hi Idle.
      * rewrite Hrl; done.
      * rewrite len_zdrop by lia. lia.
      * cbn. rewrite !app_nil_r. symmetry. apply ztake_drop.
      * eapply (oo_pop _ _ _ _ _ _ _ Hv Hi); fin; [done| |done..]. lia.
    + apply (one_ret _ _ _ _ _ _ _ Hlc). cbn [retok]. rewrite to_i32_id by lia. rewrite len_ztake by lia.
      split; [lia|]. split; [intros ?; lia|]. intros ?; lia.
Qed.

(** ** Runs *)
Lemma pinit_inv cap k : capok cap -> pinv cap (pinit k) [].
Proof.
  intros [Hc _]. unfold pinit. split; fin; rewrite ?cnt_idle by done; try done.
  - change (len []) with 0. unfold PIPE_BUF in Hc. lia.
  - intros i p Hi. apply lookup_replicate in Hi as [-> _]. done.
Qed.

Lemma pact_inv cap s tr a s' es : capok cap -> pinv cap s tr -> pact cap s a = Some (s', es) ->
  pinv cap s' (tr ++ es) /\ last_ret cap s' tr es.
Proof. destruct a; cbn [pact]; eauto using pcall_inv, pgo_inv. Qed.

Lemma prun_inv cap k tr s : capok cap -> prun cap k tr s -> pinv cap s tr.
Proof.
  intros Hc. induction 1 as [|tr s a s' es _ IH H]; [exact (pinit_inv _ _ Hc)|].
  exact (proj1 (pact_inv _ _ _ _ _ _ Hc IH H)).
Qed.

Lemma zero_stable cap s tr a s' es : pinv cap s tr -> pact cap s a = Some (s', es) ->
  (t_nr s = 0 -> t_nr s' = 0) /\ (t_nw s = 0 -> t_nw s' = 0).
Proof.
  intros Hv H. pose proof (pv_fr _ _ _ Hv). pose proof (pv_fw _ _ _ Hv).
  pose proof (pv_nr _ _ _ Hv). pose proof (pv_nw _ _ _ Hv).
  pose proof (cnt_nn reading (t_pcs s)). pose proof (cnt_nn writing (t_pcs s)).
  destruct a as [i o|i]; cbn [pact] in H; [unfold pcall in H|unfold pgo, rdone, wdone in H];
    (destruct (t_pcs s !! i) as [p|]; [|discriminate H]).
  - destruct p; try discriminate H.
    destruct o; (match type of H with context [0 <? ?x] => destruct (Z.ltb_spec 0 x) end; [|discriminate H]);
      cbn [andb] in H;
      try (match type of H with context [0 <=? ?x] => destruct (Z.leb_spec 0 x) end; [|discriminate H]);
      try (match type of H with context [?x =? 0] => destruct (Z.eqb_spec x 0) end);
      injection H as <- <-; fin; lia.
  - destruct p; try discriminate H;
      repeat (match type of H with
              | context [if ?b then _ else _] => destruct b
              | context [match ?l with [] => _ | _ => _ end] => destruct l
              | context [match ?v with Plain => _ | Vec _ _ => _ end] => destruct v
              end; try discriminate H);
      injection H as <- <-; fin; auto.
Qed.

Lemma retok_mono s s' o ps r out : (t_nr s = 0 -> t_nr s' = 0) -> (t_nw s = 0 -> t_nw s' = 0) ->
  retok s o ps r out -> retok s' o ps r out.
Proof.
  intros Hr Hw. destruct o; cbn [retok]; auto.
  - intros (A & B & C). split; [auto|]. split; [|auto]. intros E. destruct (B E); auto.
  - intros (A & B). split; [auto|]. intros E. destruct (B E) as (B1 & B2 & B3). split; [auto|]. split; [|auto].
    intros E'. destruct (B2 E') as [|(? & ? & ?)]; auto.
  - intros (A & B). split; [auto|]. intros E. destruct (B E) as (B1 & B2). split; [auto|].
    intros E'. destruct (B2 E') as [|(? & ?)]; auto.
Qed.

Lemma last_app_ne {A} (a b : list A) : b <> [] -> last (a ++ b) = last b.
Proof.
  intros Hb. destruct (exists_last Hb) as (l & x & ->). rewrite app_assoc, !last_snoc. done.
Qed.

Lemma prun_ret cap k tr s : capok cap -> prun cap k tr s -> forall i r out, last tr = Some (ERet i r out) ->
  exists o, last_call i tr = Some o /\ retok s o (pieces i tr) r out.
Proof.
  intros Hc. induction 1 as [|tr s a s' es Hr IH H]; intros i r out Hl; [discriminate Hl|].
  pose proof (prun_inv _ _ _ _ Hc Hr) as Hv.
  destruct es as [|e es].
  - rewrite app_nil_r in *. destruct (IH _ _ _ Hl) as (o & H1 & H2). exists o. split; [done|].
    destruct (zero_stable _ _ _ _ _ _ Hv H). eapply retok_mono; eauto.
  - rewrite last_app_ne in Hl by done. exact (proj2 (pact_inv _ _ _ _ _ _ Hc Hv H) _ _ _ Hl).
Qed.

Lemma returned_ok cap k tr s i o r out : capok cap -> returned cap k tr s i o r out ->
  retok s o (pieces i tr) r out.
Proof.
  intros Hc (Hr & Hlc & tr0 & ->). destruct (prun_ret _ _ _ _ Hc Hr i r out) as (o' & H1 & H2).
  - apply last_snoc.
  - congruence.
Qed.

(** ** Continuations *)
Lemma last_call_app i a b : last_call i (a ++ b) =
  match last_call i b with Some o => Some o | None => last_call i a end.
Proof.
  induction b as [|e b IH] using rev_ind; [rewrite app_nil_r; done|].
  rewrite app_assoc. unfold last_call in *. rewrite !fold_left_app in *. cbn [fold_left].
  destruct e; try exact IH. destruct (decide (i = i0)); [done|exact IH].
Qed.
Lemma pieces_app i a b o : last_call i b = Some o -> pieces i (a ++ b) = pieces i b.
Proof.
  induction b as [|e b IH] using rev_ind; [discriminate|]. intros H.
  rewrite app_assoc. unfold pieces, last_call in *. rewrite !fold_left_app in *. cbn [fold_left] in *.
  destruct e; [destruct (decide (i = i0)); [done|auto] | rewrite (IH H); done | auto].
Qed.

Lemma pcont_run cap k tr0 s0 tr s : prun cap k tr0 s0 -> pcont cap s0 tr s -> prun cap k (tr0 ++ tr) s.
Proof.
  intros Hr. induction 1 as [|tr s1 a s2 es _ IH H]; [rewrite app_nil_r; done|].
  rewrite app_assoc. exact (prun_step _ _ _ _ _ _ _ IH H).
Qed.

(** Once no writer is left. *)
Definition sawempty (p : pc) : bool := match p with RNbRef _ | RRef _ _ | RLen2 _ _ => true | _ => false end.

Record eofinv (s : pst) (tr : list ev) : Prop := EofInv {
  ef_nw : t_nw s = 0;
  ef_acc : accepted tr = [];
  ef_thr : forall i p, t_pcs s !! i = Some p -> last_call i tr <> None -> sawempty p = true -> t_buf s = [];
  ef_ret : forall i n nb out, last tr = Some (ERet i 0 out) -> last_call i tr = Some (PRead n nb) -> n <> 0 ->
    t_buf s = [] }.

Lemma zdrop_nil {A} n : zdrop n ([] : list A) = [].
Proof. unfold zdrop; apply drop_nil. Qed.

(** With no writer a step of a thread only takes bytes out. *)
Lemma eof_step cap s tr a s' es : pinv cap s tr -> t_nw s = 0 -> pact cap s a = Some (s', es) ->
  accepted es = [] /\ (t_buf s = [] -> t_buf s' = []).
Proof.
  intros Hv Hw H. pose proof (pv_fw _ _ _ Hv). pose proof (pv_nw _ _ _ Hv).
  destruct a as [i o|i]; cbn [pact] in H; [unfold pcall in H|unfold pgo, rdone, wdone in H];
    (destruct (t_pcs s !! i) as [p|] eqn:Hi; [|discriminate H]).
  - destruct p; try discriminate H.
    destruct o; (match type of H with context [0 <? ?x] => destruct (Z.ltb_spec 0 x) end; [|discriminate H]);
      cbn [andb] in H;
      try (match type of H with context [0 <=? ?x] => destruct (Z.leb_spec 0 x) end; [|discriminate H]);
      try (match type of H with context [?x =? 0] => destruct (Z.eqb_spec x 0) end);
      injection H as <- <-; fin; auto.
  - pose proof (cnt_one writing _ _ _ Hi) as Hc.
    destruct p; try discriminate H; cbn [writing b2z] in Hc; try lia;
      repeat (match type of H with
              | context [if ?b then _ else _] => destruct b
              end; try discriminate H);
      injection H as <- <-; fin; auto.
    split; [done|]. intros ->. apply zdrop_nil.
Qed.

Lemma i32_pos_ne n l : 0 < n -> 0 < l < 2 ^ 31 -> to_i32 (Z.min n l) <> 0.
Proof. intros. rewrite to_i32_id by lia. lia. Qed.

Lemma call_lc i j es tr : Forall (fun e => evt e = j) es -> i <> j ->
  last_call i (tr ++ es) = last_call i tr.
Proof. intros H Hne. apply last_call_other. eapply Forall_impl; [exact H|intros e <-; congruence]. Qed.

Lemma pact_evt cap s a s' es : pact cap s a = Some (s', es) ->
  exists i, (match a with Start j _ | Go j => j = i end) /\ Forall (fun e => evt e = i) es /\
    exists p, t_pcs s !! i = Some p /\ exists p', t_pcs s' = <[i := p']> (t_pcs s).
Proof.
  intros H. destruct a as [i o|i]; exists i; (split; [done|]); cbn [pact] in H; [unfold pcall in H|unfold pgo, rdone, wdone in H];
    (destruct (t_pcs s !! i) as [p|] eqn:Hi; [|discriminate H]).
  - destruct p; try discriminate H.
    destruct o; (match type of H with context [0 <? ?x] => destruct (Z.ltb_spec 0 x) end; [|discriminate H]);
      cbn [andb] in H;
      try (match type of H with context [0 <=? ?x] => destruct (Z.leb_spec 0 x) end; [|discriminate H]);
      try (match type of H with context [?x =? 0] => destruct (Z.eqb_spec x 0) end);
      injection H as <- <-; fin; (split; [repeat constructor|]); exists Idle; (split; [done|]);
      first [eexists; reflexivity | exists Idle; rewrite list_insert_id by done; reflexivity].
  - destruct p; try discriminate H;
      repeat (match type of H with
              | context [if ?b then _ else _] => destruct b
              | context [match ?l with [] => _ | _ => _ end] => destruct l
              | context [match ?v with Plain => _ | Vec _ _ => _ end] => destruct v
              end; try discriminate H);
      injection H as <- <-; fin; (split; [repeat constructor|]); eexists; (split; [reflexivity|]);
      eexists; reflexivity.
Qed.

Lemma eof_keep cap k tr0 s tr a s' es : capok cap -> prun cap k (tr0 ++ tr) s -> eofinv s tr ->
  pact cap s a = Some (s', es) -> eofinv s' (tr ++ es).
Proof.
  intros Hc Hr He H. pose proof (prun_inv _ _ _ _ Hc Hr) as Hv.
  pose proof (ef_nw _ _ He) as Hw.
  destruct (zero_stable _ _ _ _ _ _ Hv H) as [_ Hz]. specialize (Hz Hw).
  destruct (eof_step _ _ _ _ _ _ Hv Hw H) as [Ha Hb].
  destruct (pact_evt _ _ _ _ _ H) as (i & Hact & Hes & p & Hi & p' & Hp').
  pose proof (pv_fw _ _ _ Hv). pose proof (pv_nw _ _ _ Hv).
  pose proof (cnt_one writing _ _ _ Hi) as Hcw. pose proof (cnt_nn writing (t_pcs s)).
  destruct (pv_thr _ _ _ Hv _ _ Hi) as [Hs _]. pose proof (pv_cap _ _ _ Hv) as Hcap. destruct Hc as [_ Hc].
  split; [done| | |].
  - rewrite accepted_app, Ha, (ef_acc _ _ He). done.
  - intros j q Hj Hlc Hq. rewrite Hp' in Hj. destruct (decide (j = i)) as [->|Hne].
    + rewrite list_lookup_insert in Hj by (apply lookup_lt_Some in Hi; done). injection Hj as ->.
      destruct a as [i' o|i']; subst i'; cbn [pact] in H; [unfold pcall in H|unfold pgo, rdone, wdone in H]; rewrite Hi in H.
      * destruct p; try discriminate H.
        destruct o; (match type of H with context [0 <? ?x] => destruct (Z.ltb_spec 0 x) end; [|discriminate H]);
          cbn [andb] in H;
          try (match type of H with context [0 <=? ?x] => destruct (Z.leb_spec 0 x) end; [|discriminate H]);
          try (match type of H with context [?x =? 0] => destruct (Z.eqb_spec x 0) end);
          injection H as <- <-; fin; try lia;
          apply (f_equal (fun l => l !! i)) in Hp';
          rewrite ?list_lookup_insert in Hp' by (apply lookup_lt_Some in Hi; done);
          rewrite ?Hi in Hp'; injection Hp' as <-; discriminate Hq.
      * destruct p; try discriminate H; cbn [writing b2z] in Hcw; try lia;
          repeat (match type of H with
                  | context [if (?x =? 0) then _ else _] => destruct (Z.eqb_spec x 0)
                  | context [if ?b then _ else _] => destruct b
                  end; try discriminate H; try congruence);
          injection H as <- <-; fin;
          apply (f_equal (fun l => l !! i)) in Hp';
          rewrite ?list_lookup_insert in Hp' by (apply lookup_lt_Some in Hi; done);
          injection Hp' as <-; try discriminate Hq; try (apply len_0; done).
    + rewrite list_lookup_insert_ne in Hj by auto. apply Hb.
      refine (ef_thr _ _ He j q Hj _ Hq). rewrite (call_lc _ _ _ _ Hes Hne) in Hlc. done.
  - intros j n nb out Hl Hlc Hn. destruct es as [|e es].
    + rewrite app_nil_r in *. apply Hb. exact (ef_ret _ _ He _ _ _ _ Hl Hlc Hn).
    + rewrite last_app_ne in Hl by done.
      assert (j = i) as ->.
      { assert (In (ERet j 0 out) (e :: es)) as Hin.
        { apply elem_of_list_In. apply last_Some in Hl as (l & ->). apply elem_of_app. right. apply elem_of_list_here. }
        rewrite Forall_forall in Hes. apply elem_of_list_In in Hin. specialize (Hes _ Hin). cbn in Hes. done. }
      destruct a as [i' o|i']; subst i'; cbn [pact] in H; [unfold pcall in H|unfold pgo, rdone, wdone in H]; rewrite Hi in H.
      * destruct p; try discriminate H.
        destruct o; (match type of H with context [0 <? ?x] => destruct (Z.ltb_spec 0 x) end; [|discriminate H]);
          cbn [andb] in H;
          try (match type of H with context [0 <=? ?x] => destruct (Z.leb_spec 0 x) end; [|discriminate H]);
          try (match type of H with context [?x =? 0] => destruct (Z.eqb_spec x 0) end);
          injection H as <- <- <-; fin; try lia; try discriminate Hl;
          rewrite last_call_start in Hlc by (repeat constructor); congruence.
      * destruct p; try discriminate H; cbn [writing b2z] in Hcw; try lia;
          repeat (match type of H with
                  | context [if (?x =? 0) then _ else _] => destruct (Z.eqb_spec x 0)
                  | context [if ?b then _ else _] => destruct b
                  end; try discriminate H; try congruence);
          injection H as <- <- <-; fin; cbn in Hl;
          rewrite last_call_ret in Hlc;
          try (refine (ef_thr _ _ He _ _ Hi _ eq_refl); congruence).
        injection Hl as Hl1 Hl2. exfalso. destruct (pv_thr _ _ _ Hv _ _ Hi) as [_ (nb' & Hlc' & Hn')].
        revert Hl1. apply (i32_pos_ne _ _ Hn'). fin. lia.
Qed.

Lemma eof_cont cap k tr0 s0 tr s : capok cap -> prun cap k tr0 s0 -> t_nw s0 = 0 -> pcont cap s0 tr s ->
  eofinv s tr.
Proof.
  intros Hc Hr Hw. induction 1 as [|tr s1 a s2 es Hk IH H].
  - split; done.
  - exact (eof_keep _ _ _ _ _ _ _ _ Hc (pcont_run _ _ _ _ _ _ Hr Hk) IH H).
Qed.

(** Once no reader is left. *)
Definition brokenpc (o : pop) (p : pc) : Prop :=
  match p with
  | WNext rest total nb => total = 0 /\ exists ds, o = PWritev ds nb /\ concat ds = concat rest
  | WWait d _ _ | WRef d _ _ 0 => True
  | WRet _ _ r => r = err EPIPE
  | WRef _ _ _ _ | WRoom _ _ _ _ | WPush _ _ _ _ _ => False
  | _ => True
  end.

Record brkinv (s : pst) (tr : list ev) : Prop := BrkInv {
  bk_nr : t_nr s = 0;
  bk_thr : forall i p o, t_pcs s !! i = Some p -> last_call i tr = Some o -> brokenpc o p /\ pieces i tr = [];
  bk_ret : forall i r out o, last tr = Some (ERet i r out) -> last_call i tr = Some o -> offered o <> [] ->
    r = err EPIPE }.

Lemma brk_keep cap k tr0 s tr a s' es : capok cap -> prun cap k (tr0 ++ tr) s -> brkinv s tr ->
  pact cap s a = Some (s', es) -> brkinv s' (tr ++ es).
Proof.
  intros Hc Hr He H. pose proof (prun_inv _ _ _ _ Hc Hr) as Hv.
  pose proof (bk_nr _ _ He) as Hw.
  destruct (zero_stable _ _ _ _ _ _ Hv H) as [Hz _]. specialize (Hz Hw).
  destruct (pact_evt _ _ _ _ _ H) as (i & Hact & Hes & p & Hi & p' & Hp').
  split; [done| |].
  - intros j q o' Hj Hlc. rewrite Hp' in Hj. destruct (decide (j = i)) as [->|Hne].
    + rewrite list_lookup_insert in Hj by (apply lookup_lt_Some in Hi; done). injection Hj as ->.
      destruct a as [i' o|i']; subst i'; cbn [pact] in H; [unfold pcall in H|unfold pgo, rdone, wdone in H]; rewrite Hi in H.
      * destruct p; try discriminate H.
        destruct o; (match type of H with context [0 <? ?x] => destruct (Z.ltb_spec 0 x) end; [|discriminate H]);
          cbn [andb] in H;
          try (match type of H with context [0 <=? ?x] => destruct (Z.leb_spec 0 x) end; [|discriminate H]);
          try (match type of H with context [?x =? 0] => destruct (Z.eqb_spec x 0) end);
          injection H as <- <-; fin; try lia;
          rewrite last_call_start in Hlc by (repeat constructor); rewrite pieces_start by (repeat constructor);
          (split; [|done]); injection Hlc as <-;
          apply (f_equal (fun l => l !! i)) in Hp';
          rewrite ?list_lookup_insert in Hp' by (apply lookup_lt_Some in Hi; done);
          rewrite ?Hi in Hp'; injection Hp' as <-; cbn [brokenpc]; eauto.
      * assert (forall es', es = es' -> last_call i (tr ++ es') = last_call i tr) as Hlc0.
        { intros ? <-. clear - H.
          destruct p; try discriminate H;
          repeat (match type of H with
                  | context [if ?b then _ else _] => destruct b
                  | context [match ?l with [] => _ | _ => _ end] => destruct l
                  | context [match ?v with Plain => _ | Vec _ _ => _ end] => destruct v
                  end; try discriminate H); injection H as <- <-;
          rewrite ?app_nil_r, ?last_call_ret, ?last_call_ins; done. }
        rewrite (Hlc0 _ eq_refl) in Hlc.
        destruct (bk_thr _ _ He _ _ _ Hi Hlc) as [Hbp Hps].
        destruct p as [|rest total nb|d nb v|d nb v n|d nb v n|d nb v n room|v nb r|n nb|n nb|n|n c|n c|n l];
          cbn [brokenpc] in Hbp; try contradiction; try discriminate H.
        -- destruct Hbp as (-> & ds & -> & Hds). destruct rest as [|d rest].
           ++ injection H as <- <-; fin. apply (f_equal (fun l => l !! i)) in Hp'.
              rewrite !list_lookup_insert in Hp' by (apply lookup_lt_Some in Hi; done). injection Hp' as <-.
              rewrite pieces_ret. split; done.
           ++ destruct (Z.eqb_spec (len d) 0) as [Hd|Hd]; injection H as <- <-; fin; rewrite app_nil_r;
                apply (f_equal (fun l => l !! i)) in Hp';
                rewrite !list_lookup_insert in Hp' by (apply lookup_lt_Some in Hi; done); injection Hp' as <-;
                (split; [|done]); cbn [brokenpc]; [|done].
              split; [done|]. exists ds. split; [done|]. apply len_0 in Hd as ->. done.
        -- destruct (t_wl s); [discriminate H|]. injection H as <- <-; fin; rewrite app_nil_r;
             apply (f_equal (fun l => l !! i)) in Hp';
             rewrite !list_lookup_insert in Hp' by (apply lookup_lt_Some in Hi; done); injection Hp' as <-. split; done.
        -- destruct n; try contradiction. rewrite Hw in H. cbn in H.
           injection H as <- <-; fin; rewrite app_nil_r;
             apply (f_equal (fun l => l !! i)) in Hp';
             rewrite !list_lookup_insert in Hp' by (apply lookup_lt_Some in Hi; done); injection Hp' as <-. split; done.
        -- subst r. destruct v; cbn in H; injection H as <- <-; fin; rewrite pieces_ret;
             apply (f_equal (fun l => l !! i)) in Hp';
             rewrite !list_lookup_insert in Hp' by (apply lookup_lt_Some in Hi; done); injection Hp' as <-; split; done.
        -- destruct (t_rl s); [discriminate H|]. injection H as <- <-; fin; rewrite app_nil_r;
             apply (f_equal (fun l => l !! i)) in Hp';
             rewrite !list_lookup_insert in Hp' by (apply lookup_lt_Some in Hi; done); injection Hp' as <-; split; done.
        -- destruct (len (t_buf s) =? 0); [destruct nb|]; injection H as <- <-; fin; rewrite app_nil_r;
             apply (f_equal (fun l => l !! i)) in Hp';
             rewrite !list_lookup_insert in Hp' by (apply lookup_lt_Some in Hi; done); injection Hp' as <-; split; done.
        -- injection H as <- <-; fin; rewrite pieces_ret;
             apply (f_equal (fun l => l !! i)) in Hp';
             rewrite !list_lookup_insert in Hp' by (apply lookup_lt_Some in Hi; done); injection Hp' as <-; split; done.
        -- destruct (t_nw s =? 0); [|destruct (c =? _)]; injection H as <- <-; fin; rewrite ?pieces_ret, ?app_nil_r;
             apply (f_equal (fun l => l !! i)) in Hp';
             rewrite !list_lookup_insert in Hp' by (apply lookup_lt_Some in Hi; done); injection Hp' as <-; split; done.
        -- destruct (len (t_buf s) =? 0); injection H as <- <-; fin; rewrite app_nil_r;
             apply (f_equal (fun l => l !! i)) in Hp';
             rewrite !list_lookup_insert in Hp' by (apply lookup_lt_Some in Hi; done); injection Hp' as <-; split; done.
        -- injection H as <- <-; fin; rewrite pieces_ret;
             apply (f_equal (fun l => l !! i)) in Hp';
             rewrite !list_lookup_insert in Hp' by (apply lookup_lt_Some in Hi; done); injection Hp' as <-; split; done.
    + rewrite list_lookup_insert_ne in Hj by auto.
      rewrite (call_lc _ _ _ _ Hes Hne) in Hlc.
      rewrite pieces_other by (eapply Forall_impl; [exact Hes|intros e <-; congruence]).
      exact (bk_thr _ _ He _ _ _ Hj Hlc).
  - intros j r out o Hl Hlc Hn. destruct es as [|e es].
    + rewrite app_nil_r in *. exact (bk_ret _ _ He _ _ _ _ Hl Hlc Hn).
    + rewrite last_app_ne in Hl by done.
      assert (j = i) as ->.
      { assert (ERet j r out ∈ e :: es) as Hin.
        { apply last_Some in Hl as (l & ->). apply elem_of_app. right. apply elem_of_list_here. }
        rewrite Forall_forall in Hes. specialize (Hes _ Hin). cbn in Hes. done. }
      destruct a as [i' o'|i']; subst i'; cbn [pact] in H; [unfold pcall in H|unfold pgo, rdone, wdone in H]; rewrite Hi in H.
      * destruct p; try discriminate H.
        destruct o'; (match type of H with context [0 <? ?x] => destruct (Z.ltb_spec 0 x) end; [|discriminate H]);
          cbn [andb] in H;
          try (match type of H with context [0 <=? ?x] => destruct (Z.leb_spec 0 x) end; [|discriminate H]);
          try (match type of H with context [?x =? 0] => destruct (Z.eqb_spec x 0) as [Hzz|] end);
          injection H as <- <- <-; fin; try lia; try discriminate Hl;
          rewrite last_call_start in Hlc by (repeat constructor); injection Hlc as <-; try done.
        cbn [offered] in Hn. apply len_0 in Hzz. done.
      * destruct p as [|rest total nb|d nb v|d nb v n|d nb v n|d nb v n room|v nb r'|n nb|n nb|n|n c|n c|n l];
          try discriminate H.
        -- destruct rest as [|d rest]; [|destruct (len d =? 0); discriminate H].
           injection H as <- <- <-. cbn in Hl. rewrite last_call_ret in Hlc.
           destruct (bk_thr _ _ He _ _ _ Hi Hlc) as [(-> & ds & -> & Hds) _]. done.
        -- destruct (t_wl s); discriminate H.
        -- destruct (t_nr s =? 0); discriminate H.
        -- destruct (_ <? PIPE_BUF); [destruct nb|]; discriminate H.
        -- injection H as <- <- <-. discriminate Hl.
        -- assert (e :: es = [ERet i r out] /\ (r = r' \/ r' <> err EPIPE)) as [Hee Hrr].
           { destruct v; [|destruct (0 <? r') eqn:?; [discriminate H|destruct (Z.eqb_spec r' (err EPIPE));
               [|destruct (Z.eqb_spec r' (err EAGAIN)); [|discriminate H]]]];
             injection H as <- <- <-; cbn in Hl; injection Hl as -> ->; auto. }
           rewrite Hee, last_call_ret in Hlc. destruct (bk_thr _ _ He _ _ _ Hi Hlc) as [Hb _]. cbn in Hb. subst r'.
           destruct Hrr as [->|?]; [done|congruence].
        -- destruct (t_rl s); discriminate H.
        -- destruct (len (t_buf s) =? 0); discriminate H.
        -- injection H as <- <- <-. cbn in Hl. rewrite last_call_ret in Hlc.
           destruct (pv_thr _ _ _ Hv _ _ Hi) as [_ [Hlc' _]]. rewrite last_call_app, Hlc in Hlc'.
           injection Hlc' as ->. done.
        -- destruct (t_nw s =? 0); [|destruct (c =? _); discriminate H].
           injection H as <- <- <-. cbn in Hl. rewrite last_call_ret in Hlc.
           destruct (pv_thr _ _ _ Hv _ _ Hi) as [_ [Hlc' _]]. rewrite last_call_app, Hlc in Hlc'.
           injection Hlc' as ->. done.
        -- destruct (len (t_buf s) =? 0); discriminate H.
        -- injection H as <- <- <-. cbn in Hl. rewrite last_call_ret in Hlc.
           destruct (pv_thr _ _ _ Hv _ _ Hi) as [_ (? & Hlc' & _)]. rewrite last_call_app, Hlc in Hlc'.
           injection Hlc' as ->. done.
Qed.

Lemma brk_cont cap k tr0 s0 tr s : capok cap -> prun cap k tr0 s0 -> t_nr s0 = 0 -> pcont cap s0 tr s ->
  brkinv s tr.
Proof.
  intros Hc Hr Hw. induction 1 as [|tr s1 a s2 es Hk IH H].
  - split; try done.
  - exact (brk_keep _ _ _ _ _ _ _ _ Hc (pcont_run _ _ _ _ _ _ Hr Hk) IH H).
Qed.

(** ** Descriptors *)
Lemma open_count cap s a s' es tr : pact cap s a = Some (s', es) ->
  t_nr s = open_readers tr -> t_nw s = open_writers tr ->
  t_nr s' = open_readers (tr ++ es) /\ t_nw s' = open_writers (tr ++ es).
Proof.
  intros H Hr Hw. unfold open_readers, open_writers in *. rewrite !fold_left_app, <- Hr, <- Hw.
  destruct a as [i o|i]; cbn [pact] in H; [unfold pcall in H|unfold pgo, rdone, wdone in H];
    (destruct (t_pcs s !! i) as [p|] eqn:Hi; [|discriminate H]).
  - destruct p; try discriminate H.
    destruct o; (match type of H with context [0 <? ?x] => destruct (Z.ltb_spec 0 x) end; [|discriminate H]);
      cbn [andb] in H;
      try (match type of H with context [0 <=? ?x] => destruct (Z.leb_spec 0 x) end; [|discriminate H]);
      try (match type of H with context [?x =? 0] => destruct (Z.eqb_spec x 0) end);
      injection H as <- <-; split; done.
  - destruct p; try discriminate H;
      repeat (match type of H with
              | context [if ?b then _ else _] => destruct b
              | context [match ?l with [] => _ | _ => _ end] => destruct l
              | context [match ?v with Plain => _ | Vec _ _ => _ end] => destruct v
              end; try discriminate H);
      injection H as <- <-; split; done.
Qed.

Lemma prun_open cap k tr s : prun cap k tr s -> t_nr s = open_readers tr /\ t_nw s = open_writers tr.
Proof.
  induction 1 as [|tr s a s' es _ [IH1 IH2] H]; [done|]. exact (open_count _ _ _ _ _ _ H IH1 IH2).
Qed.

(** ** Pieces are in the stream *)
Lemma pieces_in i tr x : x ∈ pieces i tr -> EIns i x ∈ tr.
Proof.
  induction tr as [|e tr IH] using rev_ind; [cbn; intros H; inversion H|].
  intros H. apply elem_of_app. unfold pieces in *. rewrite fold_left_app in H. cbn [fold_left] in H.
  destruct e.
  - destruct (decide (i = i0)); [inversion H|]. left; auto.
  - destruct (decide (i = i0)) as [->|]; [|left; auto]. apply elem_of_app in H as [H|H]; [left; auto|].
    apply elem_of_list_singleton in H as ->. right. apply elem_of_list_here.
  - left; auto.
Qed.
Lemma in_accepted i d tr : EIns i d ∈ tr -> exists a b, accepted tr = a ++ d ++ b.
Proof.
  intros H. apply elem_of_list_split in H as (l1 & l2 & ->).
  exists (accepted l1), (accepted l2). rewrite accepted_app. done.
Qed.

(** ** The properties *)
Lemma stream_ok cap k tr s : capok cap -> prun cap k tr s -> accepted tr = delivered tr ++ t_buf s.
Proof. intros Hc Hr. exact (pv_str _ _ _ (prun_inv _ _ _ _ Hc Hr)). Qed.

Lemma capacity_ok cap k tr s : capok cap -> prun cap k tr s -> len (t_buf s) <= cap.
Proof. intros Hc Hr. exact (pv_cap _ _ _ (prun_inv _ _ _ _ Hc Hr)). Qed.

Lemma write_reports cap k tr s i d nb r out : capok cap -> len d < 2 ^ 31 ->
  returned cap k tr s i (PWrite d nb) r out -> 0 <= r ->
  inserted i tr = take (Z.to_nat r) d /\ r <= len d.
Proof.
  intros Hc Hl Hr H0. destruct (returned_ok _ _ _ _ _ _ _ _ Hc Hr) as [_ H].
  destruct (H Hl) as (H1 & _). destruct (H1 H0) as (E1 & E2 & _). split; [exact E1|exact E2].
Qed.

Lemma write_blocking cap k tr s i d r out : capok cap -> len d < 2 ^ 31 ->
  returned cap k tr s i (PWrite d false) r out -> 0 <= r -> r = len d /\ inserted i tr = d.
Proof.
  intros Hc Hl Hr H0. destruct (returned_ok _ _ _ _ _ _ _ _ Hc Hr) as [_ H].
  destruct (H Hl) as (H1 & _). destruct (H1 H0) as (E1 & E2 & E3 & _).
  assert (r = len d) as -> by auto. split; [done|]. unfold inserted. rewrite E1. apply ztake_all. lia.
Qed.

Lemma write_fails cap k tr s i d nb r out : capok cap -> len d < 2 ^ 31 ->
  returned cap k tr s i (PWrite d nb) r out -> r < 0 ->
  (r = err EAGAIN /\ nb = true /\ inserted i tr = []) \/
  (r = err EPIPE /\ open_readers tr = 0 /\ exists n, inserted i tr = take n d).
Proof.
  intros Hc Hl Hr H0. destruct (returned_ok _ _ _ _ _ _ _ _ Hc Hr) as [_ H].
  destruct (H Hl) as (_ & H1 & _). destruct (H1 H0) as [(E1 & E2 & E3)|(E1 & E2 & n & _ & E3)].
  - left. unfold inserted. rewrite E3. auto.
  - right. split; [done|]. split; [|exists (Z.to_nat n); exact E3].
    rewrite <- E2. symmetry. exact (proj1 (prun_open _ _ _ _ (proj1 Hr))).
Qed.

Lemma read_reports cap k tr s i n nb r out : capok cap ->
  returned cap k tr s i (PRead n nb) r out ->
  (0 <= r /\ r = len out /\ r <= n) \/ (r = err EAGAIN /\ nb = true /\ out = []).
Proof.
  intros Hc Hr. destruct (returned_ok _ _ _ _ _ _ _ _ Hc Hr) as (H1 & _ & H2).
  destruct (Z.le_gt_cases 0 r); [left; auto|right; auto].
Qed.

Lemma small_atomic cap k tr s i d nb r out : capok cap -> len d <= PIPE_BUF ->
  returned cap k tr s i (PWrite d nb) r out ->
  (r = len d /\ (d = [] \/ pieces i tr = [d]) /\ exists before after, accepted tr = before ++ d ++ after) \/
  (r < 0 /\ pieces i tr = []).
Proof.
  intros Hc Hs Hr. destruct (returned_ok _ _ _ _ _ _ _ _ Hc Hr) as [_ H].
  assert (len d < 2 ^ 31) as Hl by (unfold PIPE_BUF in Hs; lia).
  destruct (H Hl) as (H1 & H2 & H3 & H4).
  destruct (Z.le_gt_cases 0 r) as [H0|H0]; [left|right; auto].
  destruct (H1 H0) as (E1 & E2 & E3 & E4). assert (r = len d) as -> by auto.
  rewrite ztake_all in E1 by lia. split; [done|].
  assert (d = [] \/ pieces i tr = [d]) as Hp.
  { destruct (H3 Hs) as [Hp|Hp]; [left; rewrite Hp in E1; done|right; done]. }
  split; [done|]. destruct Hp as [->|Hp].
  - exists [], (accepted tr). done.
  - apply (in_accepted i). apply pieces_in. rewrite Hp. apply elem_of_list_here.
Qed.

Lemma eof_no_writer cap k tr s i n nb out : capok cap -> 0 < n ->
  returned cap k tr s i (PRead n nb) 0 out -> open_writers tr = 0.
Proof.
  intros Hc Hn Hr. destruct (returned_ok _ _ _ _ _ _ _ _ Hc Hr) as (_ & H & _).
  rewrite <- (proj2 (prun_open _ _ _ _ (proj1 Hr))). destruct (H eq_refl); [lia|done].
Qed.

Lemma eof_after cap k tr0 s0 tr s i n nb out : capok cap -> prun cap k tr0 s0 -> open_writers tr0 = 0 ->
  pcont cap s0 tr s -> 0 < n -> last_call i tr = Some (PRead n nb) -> last tr = Some (ERet i 0 out) ->
  t_buf s = [].
Proof.
  intros Hc Hr Hw Hk Hn Hlc Hl. rewrite <- (proj2 (prun_open _ _ _ _ Hr)) in Hw.
  exact (ef_ret _ _ (eof_cont _ _ _ _ _ _ Hc Hr Hw Hk) _ _ _ _ Hl Hlc ltac:(lia)).
Qed.

Lemma eof_conserves cap k tr0 s0 tr s : capok cap -> prun cap k tr0 s0 -> open_writers tr0 = 0 ->
  pcont cap s0 tr s -> t_buf s0 = delivered tr ++ t_buf s.
Proof.
  intros Hc Hr Hw Hk. rewrite <- (proj2 (prun_open _ _ _ _ Hr)) in Hw.
  pose proof (stream_ok _ _ _ _ Hc (pcont_run _ _ _ _ _ _ Hr Hk)) as H.
  rewrite accepted_app, delivered_app, (ef_acc _ _ (eof_cont _ _ _ _ _ _ Hc Hr Hw Hk)), app_nil_r in H.
  rewrite (stream_ok _ _ _ _ Hc Hr), <- app_assoc in H. exact (app_inv_head _ _ _ H).
Qed.

Lemma goto_lookup s i p q : t_pcs s !! i = Some p -> t_pcs (goto s i q) !! i = Some q.
Proof. intros H. cbn. apply list_lookup_insert. apply lookup_lt_Some in H. done. Qed.

Lemma psched_cons cap s tr a l s1 es R : pact cap s a = Some (s1, es) -> psched cap s1 (tr ++ es) l = R ->
  psched cap s tr (a :: l) = R.
Proof. intros H <-. cbn [psched]. rewrite H. done. Qed.

Lemma read_solo cap s i n nb : t_pcs s !! i = Some Idle -> t_rl s = false -> 0 < t_fr s -> 0 < n ->
  len (t_buf s) < 2 ^ 31 -> (t_buf s <> [] \/ t_nw s = 0) ->
  exists s', psched cap s [] [Start i (PRead n nb); Go i; Go i; Go i] =
    Some (s', [ECall i (PRead n nb); ERet i (Z.min n (len (t_buf s))) (take (Z.to_nat n) (t_buf s))]) /\
    t_buf s' = drop (Z.to_nat n) (t_buf s) /\ t_pcs s' !! i = Some Idle /\ t_rl s' = false /\ t_fr s' = t_fr s /\
    t_nw s' = t_nw s.
Proof.
  intros Hi Hl Hf Hn Hlen Hb. pose proof (len_nn (t_buf s)) as Hnn.
  assert (forall q, <[i := q]> (t_pcs s) !! i = Some q) as Hq.
  { intros q. apply list_lookup_insert. apply lookup_lt_Some in Hi. done. }
  set (st rl fr q := Pst (t_buf s) (t_nr s) (t_nw s) fr (t_fw s) (t_wl s) rl (<[i := q]> (t_pcs s))).
  assert (pact cap s (Start i (PRead n nb)) = Some (st false (t_fr s - 1) (RWait n nb), [ECall i (PRead n nb)])) as E1.
  { cbn [pact]. unfold pcall. rewrite Hi, (proj2 (Z.ltb_lt 0 (t_fr s))), (proj2 (Z.leb_le 0 n)) by lia.
    cbn [andb]. rewrite (proj2 (Z.eqb_neq n 0)) by lia. unfold set_fr, goto; cbn. rewrite Hl. done. }
  assert (pact cap (st false (t_fr s - 1) (RWait n nb)) (Go i) = Some (st true (t_fr s - 1) (RLen n nb), [])) as E2.
  { cbn [pact]. unfold pgo, st, set_rl, goto. cbn [t_pcs t_rl t_buf t_nr t_nw t_fr t_fw t_wl].
    rewrite Hq, list_insert_insert. done. }
  destruct (Z.eqb_spec (len (t_buf s)) 0) as [Hz|Hz].
  - apply len_0 in Hz. assert (t_nw s = 0) as Hw by (destruct Hb; done). exists (st false (t_fr s) Idle).
    split; [|unfold st; cbn [t_pcs t_rl t_buf t_nw t_fr]; rewrite Hz, drop_nil, Hq; repeat split].
    eapply (psched_cons _ _ _ _ _ _ _ _ E1). eapply (psched_cons _ _ _ _ _ _ _ _ E2).
    eapply psched_cons.
    { cbn [pact]. unfold pgo, st, goto. cbn [t_pcs t_rl t_buf t_nr t_nw t_fr t_fw t_wl].
      rewrite Hq, list_insert_insert, Hz. cbn [len length Z.of_nat Z.eqb]. reflexivity. }
    eapply psched_cons.
    { cbn [pact]. unfold pgo, rdone, set_rl, set_fr, goto. cbn [t_pcs t_rl t_buf t_nr t_nw t_fr t_fw t_wl].
      rewrite Hq, list_insert_insert, Hw. cbn [Z.eqb].
      instantiate (1 := [ERet i 0 []]). instantiate (1 := st false (t_fr s) Idle).
      unfold st. rewrite Hz, Hw. replace (t_fr s - 1 + 1) with (t_fr s) by lia. destruct nb; reflexivity. }
    cbn [psched app]. rewrite Hz, take_nil. change (@len Z []) with 0. rewrite Z.min_r by lia. done.
  - exists (Pst (drop (Z.to_nat n) (t_buf s)) (t_nr s) (t_nw s) (t_fr s) (t_fw s) (t_wl s) false (<[i := Idle]> (t_pcs s))).
    split; [|cbn [t_pcs t_rl t_buf t_nw t_fr]; rewrite Hq; repeat split].
    eapply (psched_cons _ _ _ _ _ _ _ _ E1). eapply (psched_cons _ _ _ _ _ _ _ _ E2).
    eapply psched_cons.
    { cbn [pact]. unfold pgo, st, goto. cbn [t_pcs t_rl t_buf t_nr t_nw t_fr t_fw t_wl].
      rewrite Hq, !list_insert_insert. destruct (Z.eqb_spec (len (t_buf s)) 0); [lia|]. reflexivity. }
    eapply psched_cons.
    { cbn [pact]. unfold pgo, rdone, set_rl, set_fr, set_buf, goto. cbn [t_pcs t_rl t_buf t_nr t_nw t_fr t_fw t_wl].
      rewrite Hq, list_insert_insert. reflexivity. }
    cbn [psched app]. rewrite to_i32_id by lia. replace (t_fr s - 1 + 1) with (t_fr s) by lia.
    assert (ztake (Z.min n (len (t_buf s))) (t_buf s) = take (Z.to_nat n) (t_buf s)) as ->.
    { unfold ztake. destruct (Z.min_spec n (len (t_buf s))) as [[_ ->]|[? ->]]; [done|]. unfold len in *.
      rewrite !take_ge by lia. done. }
    assert (zdrop (Z.min n (len (t_buf s))) (t_buf s) = drop (Z.to_nat n) (t_buf s)) as ->.
    { unfold zdrop. destruct (Z.min_spec n (len (t_buf s))) as [[_ ->]|[? ->]]; [done|]. unfold len in *.
      rewrite !drop_ge by lia. done. }
    done.
Qed.

Lemma psched_cont cap s l : forall s1 tr1 s2 tr2, pcont cap s tr1 s1 -> psched cap s1 tr1 l = Some (s2, tr2) ->
  pcont cap s tr2 s2.
Proof.
  induction l as [|a l IH]; intros s1 tr1 s2 tr2 Hk E; cbn in E; [injection E as <- <-; done|].
  destruct (pact cap s1 a) as [[s3 es]|] eqn:Ea; [|discriminate E].
  exact (IH _ _ _ _ (pcont_step _ _ _ _ _ _ _ Hk Ea) E).
Qed.

Lemma read_progress cap k tr s i n nb : capok cap -> prun cap k tr s -> open_writers tr = 0 ->
  t_pcs s !! i = Some Idle -> t_rl s = false -> 0 < t_fr s -> 0 < n ->
  exists s', pcont cap s [ECall i (PRead n nb); ERet i (Z.min n (len (t_buf s))) (take (Z.to_nat n) (t_buf s))] s' /\
    t_buf s' = drop (Z.to_nat n) (t_buf s).
Proof.
  intros Hc Hr Hw Hi Hl Hf Hn. rewrite <- (proj2 (prun_open _ _ _ _ Hr)) in Hw.
  pose proof (capacity_ok _ _ _ _ Hc Hr). destruct Hc as [_ Hc].
  destruct (read_solo cap s i n nb) as (s' & H1 & H2 & _); auto; [lia|].
  exists s'. split; [|exact H2]. exact (psched_cont _ _ _ _ _ _ _ (pcont_nil _ _) H1).
Qed.

Lemma write_progress cap k tr s i d nb : capok cap -> prun cap k tr s -> 0 < open_readers tr ->
  t_pcs s !! i = Some Idle -> t_wl s = false -> 0 < t_fw s -> 0 < len d <= PIPE_BUF ->
  PIPE_BUF <= cap - len (t_buf s) ->
  exists s', pcont cap s [ECall i (PWrite d nb); EIns i d; ERet i (len d) []] s' /\ t_buf s' = t_buf s ++ d.
Proof.
  intros Hc Hr Hw Hi Hl Hf Hd Hroom. rewrite <- (proj1 (prun_open _ _ _ _ Hr)) in Hw.
  assert (forall q, <[i := q]> (t_pcs s) !! i = Some q) as Hq.
  { intros q. apply list_lookup_insert. apply lookup_lt_Some in Hi. done. }
  exists (Pst (t_buf s ++ d) (t_nr s) (t_nw s) (t_fr s) (t_fw s) false (t_rl s) (<[i := Idle]> (t_pcs s))).
  split; [|done].
  refine (psched_cont cap s [Start i (PWrite d nb); Go i; Go i; Go i; Go i; Go i] _ _ _ _ (pcont_nil _ _) _).
  eapply psched_cons.
  { cbn [pact]. unfold pcall. rewrite Hi, (proj2 (Z.ltb_lt 0 (t_fw s))) by lia.
    rewrite (proj2 (Z.eqb_neq (len d) 0)) by lia. reflexivity. }
  eapply psched_cons.
  { cbn [pact]. unfold pgo, set_fw, set_wl, goto. cbn [t_pcs t_rl t_buf t_nr t_nw t_fr t_fw t_wl].
    rewrite Hq, Hl, !list_insert_insert. reflexivity. }
  eapply psched_cons.
  { cbn [pact]. unfold pgo, goto. cbn [t_pcs t_rl t_buf t_nr t_nw t_fr t_fw t_wl].
    rewrite Hq, !list_insert_insert. rewrite (proj2 (Z.eqb_neq (t_nr s) 0)) by lia. reflexivity. }
  eapply psched_cons.
  { cbn [pact]. unfold pgo, goto. cbn [t_pcs t_rl t_buf t_nr t_nw t_fr t_fw t_wl].
    rewrite Hq, !list_insert_insert. destruct (Z.ltb_spec (cap - len (t_buf s)) PIPE_BUF); [lia|]. reflexivity. }
  eapply psched_cons.
  { cbn [pact]. unfold pgo, set_buf, goto. cbn [t_pcs t_rl t_buf t_nr t_nw t_fr t_fw t_wl].
    rewrite Hq, !list_insert_insert. rewrite Z.min_l by lia. rewrite Z.ltb_irrefl, Z.sub_0_r, zdrop_0.
    rewrite (ztake_all (len d)) by lia. rewrite ztake_all by lia. reflexivity. }
  eapply psched_cons.
  { cbn [pact]. unfold pgo, wdone, set_fw, set_wl, goto. cbn [t_pcs t_rl t_buf t_nr t_nw t_fr t_fw t_wl].
    rewrite Hq, !list_insert_insert. reflexivity. }
  cbn [psched app]. unfold PIPE_BUF in Hd. rewrite to_i32_id by lia. replace (t_fw s - 1 + 1) with (t_fw s) by lia. done.
Qed.

Lemma broken_after cap k tr0 s0 tr s i o r out : capok cap -> prun cap k tr0 s0 -> open_readers tr0 = 0 ->
  pcont cap s0 tr s -> last_call i tr = Some o -> offered o <> [] -> last tr = Some (ERet i r out) ->
  r = err EPIPE /\ inserted i tr = [].
Proof.
  intros Hc Hr Hw Hk Hlc Hn Hl. rewrite <- (proj1 (prun_open _ _ _ _ Hr)) in Hw.
  pose proof (brk_cont _ _ _ _ _ _ Hc Hr Hw Hk) as Hb. split; [exact (bk_ret _ _ Hb _ _ _ _ Hl Hlc Hn)|].
  pose proof (prun_inv _ _ _ _ Hc (pcont_run _ _ _ _ _ _ Hr Hk)) as Hv.
  assert (exists p, t_pcs s !! i = Some p) as [p Hi].
  { clear - Hk Hlc Hr. assert (forall tr s, pcont cap s0 tr s -> forall e, e ∈ tr -> exists p, t_pcs s !! evt e = Some p) as H.
    { induction 1 as [|tr1 s1 a s2 es _ IH E]; intros e He; [inversion He|].
      destruct (pact_evt _ _ _ _ _ E) as (j & _ & Hes & p & Hj & p' & Hp').
      assert (exists q, t_pcs s1 !! evt e = Some q) as [q Hq].
      { apply elem_of_app in He as [He|He]; [auto|]. rewrite Forall_forall in Hes. rewrite (Hes _ He). eauto. }
      rewrite Hp'. apply lookup_lt_Some in Hq. apply lookup_lt_is_Some. rewrite insert_length. done. }
    assert (exists e, e ∈ tr /\ evt e = i) as (e & He & <-); [|eauto].
    clear - Hlc. induction tr as [|e tr IH] using rev_ind; [discriminate Hlc|].
    rewrite last_call_app in Hlc. destruct (last_call i [e]) eqn:E.
    - exists e. split; [apply elem_of_app; right; apply elem_of_list_here|]. cbn in E. destruct e; try discriminate E.
      destruct (decide (i = i0)); [done|discriminate E].
    - destruct (IH Hlc) as (e' & ? & ?). exists e'. split; [apply elem_of_app; auto|done]. }
  unfold inserted. rewrite (proj2 (bk_thr _ _ Hb _ _ _ Hi Hlc)). done.
Qed.

Lemma epipe_means cap k tr s i o out : capok cap -> fits o -> offered o <> [] ->
  returned cap k tr s i o (err EPIPE) out -> open_readers tr = 0.
Proof.
  intros Hc Hf Ho Hr. rewrite <- (proj1 (prun_open _ _ _ _ (proj1 Hr))).
  pose proof (returned_ok _ _ _ _ _ _ _ _ Hc Hr) as H. destruct o; cbn [offered] in Ho; try done.
  - destruct H as [_ H]. destruct (H Hf) as (_ & H1 & _). destruct (H1 ltac:(done)) as [[? _]|(_ & ? & _)]; [discriminate|done].
  - destruct H as [_ H]. destruct (H Hf) as (_ & H1). destruct (H1 ltac:(done)) as [[? _]|(_ & ?)]; [discriminate|done].
Qed.

Lemma writev_reports cap k tr s i ds nb r out : capok cap -> len (concat ds) < 2 ^ 31 ->
  returned cap k tr s i (PWritev ds nb) r out -> 0 <= r ->
  r = len (inserted i tr) /\ r <= len (concat ds).
Proof.
  intros Hc Hl Hr H0. destruct (returned_ok _ _ _ _ _ _ _ _ Hc Hr) as [_ H].
  destruct (H Hl) as (H1 & _). destruct (H1 H0) as (E1 & E2 & _). auto.
Qed.

Lemma writev_prefix cap k tr s i ds nb r out : capok cap -> len (concat ds) < 2 ^ 31 ->
  returned cap k tr s i (PWritev ds nb) r out -> 0 <= r ->
  (nb = false \/ Forall (fun d => len d <= PIPE_BUF) ds) ->
  inserted i tr = take (Z.to_nat r) (concat ds) /\ (nb = false -> r = len (concat ds)).
Proof.
  intros Hc Hl Hr H0 Hx. destruct (returned_ok _ _ _ _ _ _ _ _ Hc Hr) as [_ H].
  destruct (H Hl) as (H1 & _). destruct (H1 H0) as (E1 & E2 & E3 & E4). split; [exact (E3 Hx)|exact E4].
Qed.

(** ** Concrete schedules *)
#[global] Instance pop_dec : EqDecision pop.
Proof. solve_decision. Defined.
#[global] Instance ev_dec : EqDecision ev.
Proof. solve_decision. Defined.

Lemma psched_run cap k l : forall tr s s' tr', prun cap k tr s -> psched cap s tr l = Some (s', tr') -> prun cap k tr' s'.
Proof.
  induction l as [|a l IH]; intros tr s s' tr' Hr E; cbn in E; [injection E as <- <-; done|].
  destruct (pact cap s a) as [[s1 es]|] eqn:Ea; [|discriminate E].
  exact (IH _ _ _ _ (prun_step _ _ _ _ _ _ _ Hr Ea) E).
Qed.

Lemma last_snoc_inv {A} (l : list A) x : last l = Some x -> exists l0, l = l0 ++ [x].
Proof. intros H. apply last_Some in H. exact H. Qed.

Lemma sched_returned cap k l i o r out (P : list ev -> pst -> bool) :
  match psched cap (pinit k) [] l with
  | Some (s, tr) => bool_decide (last tr = Some (ERet i r out)) && bool_decide (last_call i tr = Some o) && P tr s
  | None => false
  end = true ->
  exists tr s, returned cap k tr s i o r out /\ P tr s = true.
Proof.
  destruct (psched cap (pinit k) [] l) as [[s tr]|] eqn:E; [|discriminate]. intros H.
  apply andb_prop in H as [H HP]. apply andb_prop in H as [H1 H2].
  apply bool_decide_eq_true in H1, H2. exists tr, s. split; [|done].
  split; [exact (psched_run _ _ _ _ _ _ _ (prun_init _ _) E)|]. split; [done|]. exact (last_snoc_inv _ _ H1).
Qed.

Lemma sched_run cap k l (P : list ev -> pst -> bool) :
  match psched cap (pinit k) [] l with Some (s, tr) => P tr s | None => false end = true ->
  exists tr s, prun cap k tr s /\ P tr s = true.
Proof.
  destruct (psched cap (pinit k) [] l) as [[s tr]|] eqn:E; [|discriminate]. intros H.
  exists tr, s. split; [|done]. exact (psched_run _ _ _ _ _ _ _ (prun_init _ _) E).
Qed.
