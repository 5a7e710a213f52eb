(** Sums over thread numbers. *)
From Verif Require Import Base.
Local Open Scope Z_scope.

Fixpoint zsum (k : nat) (f : nat -> Z) : Z :=
  match k with O => 0 | S k' => zsum k' f + f k' end.

Lemma zsum_ext k f g : (forall j, (j < k)%nat -> g j = f j) -> zsum k g = zsum k f.
Proof.
  induction k as [|k IH]; intros H; cbn; [done|].
  rewrite (H k) by lia. rewrite IH; [done|]. intros j Hj; apply H; lia.
Qed.

Lemma zsum_upd k f g i : (i < k)%nat -> (forall j, j <> i -> g j = f j) ->
  zsum k g = zsum k f + (g i - f i).
Proof.
  induction k as [|k IH]; intros Hi H; [lia|]. cbn.
  destruct (decide (i = k)) as [->|Hne].
  - rewrite (zsum_ext k f g); [lia|]. intros j Hj; apply H; lia.
  - rewrite IH by (lia || done). rewrite (H k) by congruence. lia.
Qed.

Lemma zsum_nn k f : (forall j, (j < k)%nat -> 0 <= f j) -> 0 <= zsum k f.
Proof.
  induction k as [|k IH]; intros H; cbn; [lia|].
  pose proof (H k ltac:(lia)). assert (0 <= zsum k f) by (apply IH; intros; apply H; lia). lia.
Qed.

Lemma zsum_le k f g : (forall j, (j < k)%nat -> f j <= g j) -> zsum k f <= zsum k g.
Proof.
  induction k as [|k IH]; intros H; cbn; [lia|].
  pose proof (H k ltac:(lia)). assert (zsum k f <= zsum k g) by (apply IH; intros; apply H; lia). lia.
Qed.

Lemma zsum_one k f i : (i < k)%nat -> (forall j, (j < k)%nat -> 0 <= f j) -> f i <= zsum k f.
Proof.
  induction k as [|k IH]; intros Hi H; [lia|]. cbn.
  assert (0 <= zsum k f) by (apply zsum_nn; intros; apply H; lia).
  destruct (decide (i = k)) as [->|Hne]; [lia|].
  assert (f i <= zsum k f) by (apply IH; [lia|intros; apply H; lia]).
  pose proof (H k ltac:(lia)); lia.
Qed.

Lemma zsum_two k f i j : i <> j -> (i < k)%nat -> (j < k)%nat ->
  (forall j, (j < k)%nat -> 0 <= f j) -> f i + f j <= zsum k f.
Proof.
  induction k as [|k IH]; intros Hij Hi Hj H; [lia|]. cbn.
  destruct (decide (i = k)) as [->|Hi']; [|destruct (decide (j = k)) as [->|Hj']].
  - pose proof (zsum_one k f j ltac:(lia) (fun x Hx => H x ltac:(lia))). lia.
  - pose proof (zsum_one k f i ltac:(lia) (fun x Hx => H x ltac:(lia))). lia.
  - specialize (IH Hij ltac:(lia) ltac:(lia) (fun x Hx => H x ltac:(lia))).
    pose proof (H k ltac:(lia)). lia.
Qed.

Lemma zsum_0 k f : (forall j, (j < k)%nat -> f j = 0) -> zsum k f = 0.
Proof.
  induction k as [|k IH]; intros H; cbn; [done|].
  rewrite (H k) by lia. rewrite IH; [done|]. intros; apply H; lia.
Qed.

(** A sum of non-negative terms is positive only if one term is. *)
Lemma zsum_pos k f : 0 < zsum k f -> exists i, (i < k)%nat /\ 0 < f i.
Proof.
  induction k as [|k IH]; cbn; intros H; [lia|].
  destruct (Z.ltb_spec 0 (f k)); [exists k; split; [lia|done]|].
  destruct IH as (i & Hi & Hf); [lia|]. exists i; split; [lia|done].
Qed.

(** Counting as a sum. *)
Lemma filter_zsum k (p : nat -> bool) :
  Z.of_nat (length (List.filter p (seq 0 k))) = zsum k (fun i => if p i then 1 else 0).
Proof.
  induction k as [|k IH]; cbn [zsum]; [done|].
  rewrite seq_S, List.filter_app, app_length, Nat2Z.inj_add, IH. f_equal.
  cbn. destruct (p k); done.
Qed.
