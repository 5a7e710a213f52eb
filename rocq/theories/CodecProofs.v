From Verif Require Import Base CodecModel ErrnoModel.

Lemma high_bit_zero (k a n : Z) :
  0 <= a < 2 ^ k -> 0 <= k -> k <= n -> Z.testbit a n = false.
Proof.
  intros Ha Hk Hn.
  destruct (decide (a = 0)) as [->|Hz]; [apply Z.bits_0|].
  apply Z.bits_above_log2; [lia|].
  apply Z.log2_lt_pow2; [lia|].
  eapply Z.lt_le_trans; [apply Ha|]. apply Z.pow_le_mono_r; lia.
Qed.

Lemma to_u_spec (k x n : Z) :
  0 <= n -> 0 <= k -> Z.testbit (wrap_u k x) n = (n <? k) && Z.testbit x n.
Proof.
  intros Hn Hk. unfold wrap_u.
  destruct (n <? k) eqn:E.
  - rewrite Z.mod_pow2_bits_low; [reflexivity|lia].
  - rewrite Z.mod_pow2_bits_high; [reflexivity|lia].
Qed.

Lemma wrap_range (k x : Z) : 0 <= k -> 0 <= wrap_u k x < 2 ^ k.
Proof. intros. unfold wrap_u. apply Z.mod_pos_bound. apply Z.pow_pos_nonneg; lia. Qed.

(** A contiguous mask of [k] ones starting at bit [s]. *)
Lemma mask_spec (k s n : Z) :
  0 <= k -> 0 <= s -> 0 <= n ->
  Z.testbit (Z.shiftl (Z.ones k) s) n = (s <=? n) && (n <? s + k).
Proof.
  intros Hk Hs Hn. rewrite Z.shiftl_spec by lia.
  destruct (Z.leb_spec s n) as [Hl|Hl].
  - destruct (Z.ltb_spec n (s + k)); cbn.
    + rewrite Z.ones_spec_low; [reflexivity|lia].
    + rewrite Z.ones_spec_high; [reflexivity|lia].
  - cbn. apply Z.testbit_neg_r. lia.
Qed.

Lemma shiftr_bit a s n : 0 <= n -> Z.testbit (Z.shiftr a s) n = Z.testbit a (n + s).
Proof. apply Z.shiftr_spec. Qed.

(** A total version of [Z.shiftl_spec]: guards the index. *)
Lemma shiftl_bit a s n : 0 <= n -> 0 <= s ->
  Z.testbit (Z.shiftl a s) n = (s <=? n) && Z.testbit a (n - s).
Proof.
  intros Hn Hs. rewrite Z.shiftl_spec by lia.
  destruct (Z.leb_spec s n); [reflexivity|]. apply Z.testbit_neg_r. lia.
Qed.

Lemma land_mask_bit a k s n : 0 <= k -> 0 <= s -> 
  Z.testbit (Z.land a (Z.shiftl (Z.ones k) s)) n
  = (s <=? n) && (n <? s + k) && Z.testbit a n.
Proof.
  intros Hk Hs. rewrite Z.land_spec.
  destruct (Z.neg_nonneg_cases n) as [Hn|Hn].
  - rewrite (Z.testbit_neg_r a n) by lia. cbn. rewrite Bool.andb_false_r. reflexivity.
  - rewrite mask_spec by lia. apply Bool.andb_comm.
Qed.

Lemma shiftl_bit' a s n : 0 <= s ->
  Z.testbit (Z.shiftl a s) n = (s <=? n) && Z.testbit a (n - s).
Proof.
  intros Hs. destruct (Z.neg_nonneg_cases n) as [Hn|Hn].
  - rewrite Z.testbit_neg_r by lia. destruct (Z.leb_spec s n); [lia|reflexivity].
  - apply shiftl_bit; lia.
Qed.

Lemma to_u_bit k x n : 0 <= k -> Z.testbit (wrap_u k x) n = (n <? k) && Z.testbit x n.
Proof.
  intros Hk. destruct (Z.neg_nonneg_cases n) as [Hn|Hn].
  - rewrite !Z.testbit_neg_r by lia. rewrite Bool.andb_false_r. reflexivity.
  - apply to_u_spec; lia.
Qed.

Lemma makedev_bit a b n : 0 <= n ->
  Z.testbit (makedev a b) n =
    if n <? 8 then Z.testbit b n
    else if n <? 20 then Z.testbit a (n - 8)
    else if n <? 44 then Z.testbit b (n - 12)
    else if n <? 64 then Z.testbit a (n - 32)
    else false.
Proof.
  intros Hn. unfold makedev, to_u64.
  change 0xfff with (Z.shiftl (Z.ones 12) 0).
  change 0xfffff000 with (Z.shiftl (Z.ones 20) 12).
  change 0xff with (Z.shiftl (Z.ones 8) 0).
  change 0xffffff00 with (Z.shiftl (Z.ones 24) 8).
  rewrite !Z.lor_spec, !to_u_bit by lia.
  rewrite !shiftl_bit' by lia.
  rewrite !land_mask_bit by lia.
  repeat match goal with
  | |- context [?x <? ?y] => destruct (Z.ltb_spec x y); try lia
  | |- context [?x <=? ?y] => destruct (Z.leb_spec x y); try lia
  end; cbn [andb orb];
  rewrite ?Bool.orb_false_r, ?Bool.orb_false_l;
  rewrite ?Z.sub_0_r; reflexivity.
Qed.

Lemma major_bit d n : 0 <= n ->
  Z.testbit (major d) n =
    if n <? 12 then Z.testbit d (n + 8)
    else if n <? 32 then Z.testbit d (n + 32) else false.
Proof.
  intros Hn. unfold major, to_u32.
  change 0xfff00 with (Z.shiftl (Z.ones 12) 8).
  change 0xfffff00000000000 with (Z.shiftl (Z.ones 20) 44).
  rewrite to_u_bit, Z.lor_spec by lia.
  rewrite !shiftr_bit by lia.
  rewrite !land_mask_bit by lia.
  repeat match goal with
  | |- context [?x <? ?y] => destruct (Z.ltb_spec x y); try lia
  | |- context [?x <=? ?y] => destruct (Z.leb_spec x y); try lia
  end; cbn [andb orb];
  rewrite ?Bool.orb_false_r, ?Bool.orb_false_l; reflexivity.
Qed.

Lemma minor_bit d n : 0 <= n ->
  Z.testbit (minor d) n =
    if n <? 8 then Z.testbit d n
    else if n <? 32 then Z.testbit d (n + 12) else false.
Proof.
  intros Hn. unfold minor, to_u32.
  change 0xff with (Z.shiftl (Z.ones 8) 0).
  change 0x00000ffffff00000 with (Z.shiftl (Z.ones 24) 20).
  rewrite to_u_bit, Z.lor_spec by lia.
  rewrite !shiftr_bit by lia.
  rewrite !land_mask_bit by lia.
  rewrite !Z.add_0_r.
  repeat match goal with
  | |- context [?x <? ?y] => destruct (Z.ltb_spec x y); try lia
  | |- context [?x <=? ?y] => destruct (Z.leb_spec x y); try lia
  end; cbn [andb orb];
  rewrite ?Bool.orb_false_r, ?Bool.orb_false_l; reflexivity.
Qed.

Ltac dev_bits :=
  repeat match goal with
  | |- context [?x <? ?y] => destruct (Z.ltb_spec x y); try lia
  end;
  try reflexivity; try (f_equal; lia);
  try (symmetry; eapply high_bit_zero; eauto; lia).

Lemma major_makedev (a b : Z) :
  0 <= a < 2 ^ 32 -> major (makedev a b) = a.
Proof.
  intros Ha. apply Z.bits_inj'. intros n Hn.
  rewrite major_bit by lia. rewrite !makedev_bit by lia. dev_bits.
Qed.

Lemma minor_makedev (a b : Z) :
  0 <= b < 2 ^ 32 -> minor (makedev a b) = b.
Proof.
  intros Ha. apply Z.bits_inj'. intros n Hn.
  rewrite minor_bit by lia. rewrite !makedev_bit by lia. dev_bits.
Qed.

Lemma makedev_devtuple (d : Z) :
  0 <= d < 2 ^ 64 -> makedev (major d) (minor d) = d.
Proof.
  intros Hd. apply Z.bits_inj'. intros n Hn.
  rewrite makedev_bit by lia.
  destruct (Z.ltb_spec n 8); [rewrite minor_bit by lia; dev_bits|].
  destruct (Z.ltb_spec n 20); [rewrite major_bit by lia; dev_bits|].
  destruct (Z.ltb_spec n 44); [rewrite minor_bit by lia; dev_bits|].
  destruct (Z.ltb_spec n 64); [rewrite major_bit by lia; dev_bits|].
  dev_bits.
Qed.

Lemma makedev_range (a b : Z) : 0 <= makedev a b < 2 ^ 64.
Proof.
  unfold makedev, to_u64.
  assert (H : forall x y, 0 <= x < 2 ^ 64 -> 0 <= y < 2 ^ 64 -> 0 <= Z.lor x y < 2 ^ 64).
  { intros x y Hx Hy. split; [apply Z.lor_nonneg; lia|].
    destruct (decide (Z.lor x y = 0)) as [->|Hz]; [lia|].
    apply Z.log2_lt_pow2; [assert (0 <= Z.lor x y) by (apply Z.lor_nonneg; lia); lia|].
    rewrite Z.log2_lor by lia.
    assert (forall z, 0 <= z < 2 ^ 64 -> Z.log2 z < 64).
    { intros z Hzr. destruct (decide (z = 0)) as [->|]; [cbn; lia|].
      apply Z.log2_lt_pow2; lia. }
    pose proof (H x Hx). pose proof (H y Hy). lia. }
  repeat apply H; apply wrap_range; lia.
Qed.

Lemma from_discriminant_discriminant (e : Errno) :
  from_discriminant (discriminant e) = Some e.
Proof. destruct e; reflexivity. Qed.

Lemma discriminant_from (v : Z) (e : Errno) :
  from_discriminant v = Some e -> discriminant e = v.
Proof.
  unfold from_discriminant. intros H.
  repeat match type of H with
  | match ?x with _ => _ end = _ => is_var x; destruct x; try discriminate
  end; injection H as <-; reflexivity.
Qed.

Lemma discriminant_range (e : Errno) : 1 <= discriminant e <= 131.
Proof. destruct e; cbn; lia. Qed.

From Verif Require Import CodecSpec.

Lemma device_roundtrip :
  (forall a b, is_u32 a -> is_u32 b -> devtuple (makedev a b) = (a, b)) /\
  (forall a b a' b', is_u32 a -> is_u32 b -> is_u32 a' -> is_u32 b' ->
     makedev a b = makedev a' b' -> a = a' /\ b = b') /\
  (forall a b, 0 <= makedev a b < 2 ^ 64) /\
  (forall d, 0 <= d < 2 ^ 64 -> makedev (fst (devtuple d)) (snd (devtuple d)) = d).
Proof.
  assert (H1 : forall a b, is_u32 a -> is_u32 b -> devtuple (makedev a b) = (a, b)).
  { intros a b Ha Hb. unfold devtuple. rewrite major_makedev, minor_makedev by assumption. reflexivity. }
  split; [exact H1|]. split; [|split; [exact makedev_range|]].
  - intros a b a' b' Ha Hb Ha' Hb' He.
    assert (Hp : (a, b) = (a', b')) by (rewrite <- (H1 a b), <- (H1 a' b'), He by assumption; reflexivity).
    injection Hp; auto.
  - intros d Hd. cbn [devtuple fst snd]. apply makedev_devtuple. exact Hd.
Qed.

Lemma errno_roundtrip :
  (forall e, from_discriminant (- syscall_error e) = Some e) /\
  (forall e e', syscall_error e = syscall_error e' -> e = e') /\
  (forall e, syscall_error e < 0) /\
  (forall v, from_discriminant v = None <-> forall e, syscall_error e <> - v) /\
  (forall v, ~ (1 <= v <= 131) -> from_discriminant v = None).
Proof.
  assert (H1 : forall e, from_discriminant (- syscall_error e) = Some e).
  { intros e. unfold syscall_error. rewrite Z.opp_involutive. apply from_discriminant_discriminant. }
  split; [exact H1|]. split; [|split; [|split]].
  - intros e e' He. assert (Hs : Some e = Some e') by (rewrite <- H1, <- (H1 e'), He; reflexivity).
    injection Hs; auto.
  - intros e. unfold syscall_error. pose proof (discriminant_range e). lia.
  - intros v. split.
    + intros Hn e He. specialize (H1 e). rewrite He, Z.opp_involutive in H1. congruence.
    + intros Hall. destruct (from_discriminant v) as [e|] eqn:E; [|reflexivity].
      exfalso. apply (Hall e). unfold syscall_error. rewrite (discriminant_from v e E). reflexivity.
  - intros v Hv. destruct (from_discriminant v) as [e|] eqn:E; [|reflexivity].
    exfalso. pose proof (discriminant_range e). rewrite (discriminant_from v e E) in *. lia.
Qed.
