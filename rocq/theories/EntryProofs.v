(** Proofs for the entry point: words, strings, the table of calls. *)
From stdpp Require Import gmap.
From Coq Require Import Ascii.
From Verif Require Import Base PathModel FsModel AbiModel AbiSpec AbiProofs AbiBuf EntryModel EntrySpec.
Local Open Scope list_scope.
Local Open Scope Z_scope.

(** ** UTF-8 *)
Lemma within_spec lo hi b : within lo hi b = true <-> lo <= b <= hi.
Proof. unfold within. rewrite andb_true_iff, !Z.leb_le. reflexivity. Qed.
Lemma cont_spec b : cont b = true <-> 128 <= b <= 191.
Proof. unfold cont. rewrite andb_true_iff, !Z.leb_le. reflexivity. Qed.
Ltac dm x n := pose proof (Z_div_mod_eq_full x n); pose proof (Z.mod_pos_bound x n ltac:(lia)).
Lemma utf8_encoding cp bs : scalar cp -> utf8 (encoding cp ++ bs) = utf8 bs.
Proof.
  intros S. unfold encoding.
  destruct (cp <? 128) eqn:E1.
  { cbn [app utf8]. rewrite (proj2 (within_spec 0 127 cp)) by (unfold scalar in S; lia). reflexivity. }
  destruct (cp <? 2048) eqn:E2.
  { cbn [app utf8]. dm cp 64.
    assert (A : within 0 127 (192 + cp / 64) = false) by (unfold within; lia).
    assert (B : within 194 223 (192 + cp / 64) = true) by (apply within_spec; lia).
    assert (C : cont (128 + cp mod 64) = true) by (apply cont_spec; lia).
    rewrite A, B, C. reflexivity. }
  destruct (cp <? 65536) eqn:E3.
  { cbn [app utf8]. dm cp 64. dm (cp / 64) 64.
    assert (D : cp / 4096 = cp / 64 / 64) by (rewrite Z.div_div by lia; reflexivity).
    set (b := 224 + cp / 4096) in *. set (c1 := 128 + cp / 64 mod 64) in *. set (c2 := 128 + cp mod 64) in *.
    assert (A : within 0 127 b = false) by (unfold within; lia).
    assert (B : within 194 223 b = false) by (unfold within; lia).
    assert (C : cont c2 = true) by (apply cont_spec; lia).
    assert (C1 : cont c1 = true) by (apply cont_spec; lia).
    rewrite A, B, C.
    destruct (b =? 224) eqn:F1.
    { rewrite (proj2 (within_spec 160 191 c1)) by lia. reflexivity. }
    destruct (b =? 237) eqn:F2.
    { assert (within 225 236 b = false) as -> by (unfold within; lia). assert (within 238 239 b = false) as -> by (unfold within; lia).
      cbn [orb]. rewrite (proj2 (within_spec 128 159 c1)) by (unfold scalar in S; lia). reflexivity. }
    assert (within 225 236 b || within 238 239 b = true) as -> by (rewrite orb_true_iff, !within_spec; lia).
    rewrite C1. reflexivity. }
  cbn [app utf8]. dm cp 64. dm (cp / 64) 64. dm (cp / 4096) 64.
  assert (D : cp / 4096 = cp / 64 / 64) by (rewrite Z.div_div by lia; reflexivity).
  assert (D2 : cp / 262144 = cp / 4096 / 64) by (rewrite Z.div_div by lia; reflexivity).
  set (b := 240 + cp / 262144) in *. set (c1 := 128 + cp / 4096 mod 64) in *. set (c2 := 128 + cp / 64 mod 64) in *. set (c3 := 128 + cp mod 64) in *.
  assert (A : within 0 127 b = false) by (unfold within, scalar in *; lia).
  assert (B : within 194 223 b = false) by (unfold within, scalar in *; lia).
  assert (F : b =? 224 = false) by (unfold scalar in *; lia). assert (F2 : b =? 237 = false) by (unfold scalar in *; lia).
  assert (G1 : within 225 236 b = false) by (unfold within, scalar in *; lia). assert (G2 : within 238 239 b = false) by (unfold within, scalar in *; lia).
  rewrite A, B, F, F2, G1, G2. cbn [orb].
  assert (C2 : cont c2 = true) by (apply cont_spec; lia). assert (C3 : cont c3 = true) by (apply cont_spec; lia).
  assert (C1 : cont c1 = true) by (apply cont_spec; lia).
  rewrite C1, C2, C3.
  destruct (b =? 240) eqn:Q1. { rewrite (proj2 (within_spec 144 191 c1)) by (unfold scalar in *; lia). reflexivity. }
  destruct (within 241 243 b) eqn:Q2. { reflexivity. }
  assert (Hb : b = 244) by (unfold within, scalar in *; lia).
  assert (b =? 244 = true) as -> by (rewrite Hb; reflexivity).
  rewrite (proj2 (within_spec 128 143 c1)) by (unfold scalar in *; lia). reflexivity.
Qed.
Lemma unicode_utf8 bs : unicode bs -> utf8 bs = true.
Proof. induction 1 as [|cp bs S U IH]; [reflexivity|]. rewrite utf8_encoding by exact S. exact IH. Qed.
Ltac bools := repeat match goal with
  | H : _ && _ = true |- _ => apply andb_true_iff in H as [? ?]
  | H : within _ _ _ = true |- _ => apply within_spec in H
  | H : cont _ = true |- _ => apply cont_spec in H
  | H : _ || _ = true |- _ => apply orb_true_iff in H
  end.
Lemma enc2 b c1 : 194 <= b <= 223 -> 128 <= c1 <= 191 -> exists cp, scalar cp /\ encoding cp = [b; c1].
Proof.
  intros B C. exists ((b - 192) * 64 + (c1 - 128)). split; [unfold scalar; lia|]. unfold encoding.
  set (cp := (b - 192) * 64 + (c1 - 128)). dm cp 64.
  assert (E : cp / 64 = b - 192) by lia. rewrite E. replace (cp <? 128) with false by lia. replace (cp <? 2048) with true by lia.
  f_equal; [lia|]. f_equal. lia.
Qed.
Lemma enc3 b c1 c2 : 224 <= b <= 239 -> 128 <= c1 <= 191 -> 128 <= c2 <= 191 -> (b = 224 -> 160 <= c1) -> (b = 237 -> c1 <= 159) ->
  exists cp, scalar cp /\ encoding cp = [b; c1; c2].
Proof.
  intros B C1 C2 H1 H2. exists ((b - 224) * 4096 + (c1 - 128) * 64 + (c2 - 128)). split; [unfold scalar; lia|]. unfold encoding.
  set (cp := (b - 224) * 4096 + (c1 - 128) * 64 + (c2 - 128)). dm cp 64.
  assert (E : cp / 64 = (b - 224) * 64 + (c1 - 128)) by lia.
  assert (D : cp / 4096 = cp / 64 / 64) by (rewrite Z.div_div by lia; reflexivity).
  dm (cp / 64) 64. assert (E2 : cp / 4096 = b - 224) by lia. rewrite E2.
  replace (cp <? 128) with false by lia. replace (cp <? 2048) with false by lia. replace (cp <? 65536) with true by lia.
  f_equal; [lia|]. f_equal; [lia|]. f_equal. lia.
Qed.
Lemma enc4 b c1 c2 c3 : 240 <= b <= 244 -> 128 <= c1 <= 191 -> 128 <= c2 <= 191 -> 128 <= c3 <= 191 -> (b = 240 -> 144 <= c1) -> (b = 244 -> c1 <= 143) ->
  exists cp, scalar cp /\ encoding cp = [b; c1; c2; c3].
Proof.
  intros B C1 C2 C3 H1 H2. exists ((b - 240) * 262144 + (c1 - 128) * 4096 + (c2 - 128) * 64 + (c3 - 128)). split; [unfold scalar; lia|]. unfold encoding.
  set (cp := (b - 240) * 262144 + (c1 - 128) * 4096 + (c2 - 128) * 64 + (c3 - 128)). dm cp 64.
  assert (E : cp / 64 = (b - 240) * 4096 + (c1 - 128) * 64 + (c2 - 128)) by lia.
  assert (D : cp / 4096 = cp / 64 / 64) by (rewrite Z.div_div by lia; reflexivity).
  assert (D2 : cp / 262144 = cp / 4096 / 64) by (rewrite Z.div_div by lia; reflexivity).
  dm (cp / 64) 64. dm (cp / 4096) 64.
  assert (E2 : cp / 4096 = (b - 240) * 64 + (c1 - 128)) by lia. assert (E3 : cp / 262144 = b - 240) by lia. rewrite E3.
  replace (cp <? 128) with false by lia. replace (cp <? 2048) with false by lia. replace (cp <? 65536) with false by lia.
  f_equal; [lia|]. f_equal; [lia|]. f_equal; [lia|]. f_equal. lia.
Qed.
Lemma utf8_unicode bs : utf8 bs = true -> unicode bs.
Proof.
  remember (length bs) as n eqn:E. revert bs E. induction (Wf_nat.lt_wf n) as [n _ IH]. intros bs -> H.
  destruct bs as [|b r]; [constructor|]. cbn [utf8] in H.
  destruct (within 0 127 b) eqn:E0.
  { apply within_spec in E0. assert (En : b :: r = encoding b ++ r) by (unfold encoding; replace (b <? 128) with true by lia; reflexivity).
    rewrite En. constructor; [unfold scalar; lia|]. apply (IH (length r)); [cbn; lia|reflexivity|exact H]. }
  destruct r as [|c1 r1]; [discriminate H|].
  destruct (within 194 223 b) eqn:E1.
  { bools. destruct (enc2 b c1) as (cp & S & En); [lia|lia|]. change (b :: c1 :: r1) with ([b; c1] ++ r1). rewrite <- En.
    constructor; [exact S|]. apply (IH (length r1)); [cbn; lia|reflexivity|assumption]. }
  destruct r1 as [|c2 r2]; [discriminate H|].
  assert (K3 : forall r2, 224 <= b <= 239 -> 128 <= c1 <= 191 -> 128 <= c2 <= 191 -> (b = 224 -> 160 <= c1) -> (b = 237 -> c1 <= 159) ->
    (length r2 < length (b :: c1 :: c2 :: r2))%nat -> unicode r2 -> unicode (b :: c1 :: c2 :: r2)).
  { intros r B1 B2 B3 B4 B5 _ U. destruct (enc3 b c1 c2 B1 B2 B3 B4 B5) as (cp & S & En).
    change (b :: c1 :: c2 :: r) with ([b; c1; c2] ++ r). rewrite <- En. constructor; assumption. }
  destruct (b =? 224) eqn:E2.
  { bools. apply K3; try lia; [cbn; lia|]. apply (IH (length r2)); [cbn; lia|reflexivity|assumption]. }
  destruct (within 225 236 b || within 238 239 b) eqn:E3.
  { bools. rewrite !within_spec in E3. apply K3; try lia; [cbn; lia|]. apply (IH (length r2)); [cbn; lia|reflexivity|assumption]. }
  destruct (b =? 237) eqn:E4.
  { bools. apply K3; try lia; [cbn; lia|]. apply (IH (length r2)); [cbn; lia|reflexivity|assumption]. }
  destruct r2 as [|c3 r3]; [discriminate H|].
  assert (K4 : 240 <= b <= 244 -> 128 <= c1 <= 191 -> 128 <= c2 <= 191 -> 128 <= c3 <= 191 -> (b = 240 -> 144 <= c1) -> (b = 244 -> c1 <= 143) ->
    unicode r3 -> unicode (b :: c1 :: c2 :: c3 :: r3)).
  { intros B1 B2 B3 B4 B5 B6 U. destruct (enc4 b c1 c2 c3 B1 B2 B3 B4 B5 B6) as (cp & S & En).
    change (b :: c1 :: c2 :: c3 :: r3) with ([b; c1; c2; c3] ++ r3). rewrite <- En. constructor; assumption. }
  destruct (b =? 240) eqn:E5.
  { bools. apply K4; try lia. apply (IH (length r3)); [cbn; lia|reflexivity|assumption]. }
  destruct (within 241 243 b) eqn:E6.
  { bools. apply K4; try lia. apply (IH (length r3)); [cbn; lia|reflexivity|assumption]. }
  destruct (b =? 244) eqn:E7; [|discriminate H].
  bools. apply K4; try lia. apply (IH (length r3)); [cbn; lia|reflexivity|assumption].
Qed.
Lemma encoding_bytes cp : scalar cp -> Forall is_byte (encoding cp).
Proof.
  intros S. unfold scalar in S. unfold encoding, is_byte.
  dm cp 64. dm (cp / 64) 64. dm (cp / 4096) 64.
  assert (D : cp / 4096 = cp / 64 / 64) by (rewrite Z.div_div by lia; reflexivity).
  assert (D2 : cp / 262144 = cp / 4096 / 64) by (rewrite Z.div_div by lia; reflexivity).
  destruct (cp <? 128) eqn:E1; [repeat constructor; lia|]. destruct (cp <? 2048) eqn:E2; [repeat constructor; lia|].
  destruct (cp <? 65536) eqn:E3; repeat constructor; lia.
Qed.
Lemma unicode_bytes bs : unicode bs -> Forall is_byte bs.
Proof. induction 1 as [|cp bs S U IH]; [constructor|]. apply Forall_app. split; [apply encoding_bytes; exact S|exact IH]. Qed.
Lemma chars_text bs : Forall is_byte bs -> chars (text bs) = bs.
Proof.
  intros H. unfold chars, text. rewrite String.list_ascii_of_string_of_list_ascii, map_map.
  induction bs as [|b bs IH]; [reflexivity|]. apply Forall_cons in H as [B H]. cbn [map]. f_equal; [|apply IH; exact H].
  unfold is_byte in B. rewrite nat_ascii_embedding by lia. lia.
Qed.

(** ** Strings in memory *)
Lemma find_nul_spec m k : forall a, match find_nul m k a with
  | Some e => a <= e < a + 2 ^ Z.of_nat k /\ m e = 0 /\ (forall y, a <= y < e -> m y <> 0)
  | None => forall y, a <= y < a + 2 ^ Z.of_nat k -> m y <> 0 end.
Proof.
  induction k as [|k IH]; intros a.
  - cbn [find_nul]. change (2 ^ Z.of_nat 0) with 1. destruct (m a =? 0) eqn:E.
    + split; [lia|]. split; [lia|]. intros y Hy. lia.
    + intros y Hy. assert (y = a) as -> by lia. lia.
  - cbn [find_nul]. rewrite Nat2Z.inj_succ, Z.pow_succ_r by lia.
    assert (0 < 2 ^ Z.of_nat k) by lia.
    pose proof (IH a) as I1. destruct (find_nul m k a) as [e|].
    + destruct I1 as (B & M & N). split; [lia|]. split; [exact M|exact N].
    + pose proof (IH (a + 2 ^ Z.of_nat k)) as I2. destruct (find_nul m k (a + 2 ^ Z.of_nat k)) as [e|].
      * destruct I2 as (B & M & N). split; [lia|]. split; [exact M|]. intros y Hy.
        destruct (decide (y < a + 2 ^ Z.of_nat k)); [apply I1; lia|apply N; lia].
      * intros y Hy. destruct (decide (y < a + 2 ^ Z.of_nat k)); [apply I1; lia|apply I2; lia].
Qed.
Lemma lies_load m p n : lies m p (load m p n).
Proof.
  intros k b H. assert (L : (k < n)%nat) by (rewrite <- (length_load m p n); apply nth_error_Some; rewrite H; discriminate).
  rewrite (load_nth m p n k L) in H. injection H as <-. reflexivity.
Qed.
Lemma lies_app m p x y : lies m p (x ++ y) <-> lies m p x /\ lies m (p + Z.of_nat (length x)) y.
Proof.
  split.
  - intros H. split; intros k b E.
    + apply H. rewrite nth_error_app1; [exact E|]. apply nth_error_Some. rewrite E. discriminate.
    + replace (p + Z.of_nat (length x) + Z.of_nat k) with (p + Z.of_nat (length x + k)) by lia. apply H.
      rewrite nth_error_app2 by lia. replace (length x + k - length x)%nat with k by lia. exact E.
  - intros [H1 H2] k b E. destruct (decide (k < length x)%nat) as [L|L].
    + rewrite nth_error_app1 in E by lia. apply H1. exact E.
    + rewrite nth_error_app2 in E by lia. apply H2 in E. rewrite <- E. f_equal. lia.
Qed.
Lemma c_string_load m p e : p <= e < p + 2 ^ 64 -> m e = 0 -> (forall y, p <= y < e -> m y <> 0) -> c_string m p (load m p (Z.to_nat (e - p))).
Proof.
  intros L M N. split.
  - apply lies_app. split; [apply lies_load|]. rewrite length_load. intros k b E. destruct k as [|k]; [|destruct k; discriminate E].
    injection E as <-. replace (p + Z.of_nat (Z.to_nat (e - p)) + Z.of_nat 0) with e by lia. exact M.
  - split; [|rewrite length_load; lia].
    unfold no_char, load. intros H. apply elem_of_list_fmap in H as (k & E & H). apply elem_of_seq in H. symmetry in E. revert E. apply N. lia.
Qed.
Lemma c_string_end m p bs : c_string m p bs -> m (p + Z.of_nat (length bs)) = 0 /\ (forall y, p <= y < p + Z.of_nat (length bs) -> m y <> 0).
Proof.
  intros (L & N & _). apply lies_app in L as [L1 L2]. split.
  - pose proof (L2 0%nat 0 eq_refl) as H. rewrite Z.add_0_r in H. exact H.
  - intros y Hy. assert (K : (Z.to_nat (y - p) < length bs)%nat) by lia.
    destruct (nth_error bs (Z.to_nat (y - p))) as [b|] eqn:E; [|apply nth_error_None in E; lia].
    pose proof (L1 _ _ E) as H. replace (p + Z.of_nat (Z.to_nat (y - p))) with y in H by lia. rewrite H. intros ->. apply N.
    apply elem_of_list_In. eapply nth_error_In. exact E.
Qed.
Lemma c_string_unique m p x y : c_string m p x -> c_string m p y -> x = y.
Proof.
  intros Hx Hy. destruct (c_string_end _ _ _ Hx) as [X1 X2]. destruct (c_string_end _ _ _ Hy) as [Y1 Y2].
  assert (length x = length y).
  { destruct (decide (length x < length y)%nat). { exfalso. apply (Y2 (p + Z.of_nat (length x))); [lia|exact X1]. }
    destruct (decide (length y < length x)%nat). { exfalso. apply (X2 (p + Z.of_nat (length y))); [lia|exact Y1]. } lia. }
  destruct Hx as [Lx _]. destruct Hy as [Ly _]. apply lies_app in Lx as [Lx _]. apply lies_app in Ly as [Ly _].
  apply nth_error_ext. intros k. destruct (nth_error x k) as [b|] eqn:E.
  - assert (k < length y)%nat by (rewrite <- H; apply nth_error_Some; rewrite E; discriminate).
    destruct (nth_error y k) as [b'|] eqn:E'; [|apply nth_error_None in E'; lia]. rewrite <- (Lx _ _ E), <- (Ly _ _ E'). reflexivity.
  - apply nth_error_None in E. symmetry. apply nth_error_None. lia.
Qed.
(** the three cases of [get_cstr] *)
Lemma cstr_cases m p : match get_cstr m p with
  | Done (Ok s) => stands m APath p (Txt s)
  | Done (Fail r) => refused m APath p r
  | Panic => p <> 0 /\ endless m p end.
Proof.
  unfold get_cstr. destruct (p =? 0) eqn:E0. { assert (p = 0) as -> by lia. apply re_null. }
  pose proof (find_nul_spec m 64 p) as H. destruct (find_nul m 64 p) as [e|].
  - destruct H as (B & M & N). pose proof (c_string_load m p e B M N) as C.
    destruct (utf8 (load m p (Z.to_nat (e - p)))) eqn:U.
    + apply utf8_unicode in U. pose proof (chars_text _ (unicode_bytes _ U)) as T.
      apply st_path; [lia| |]; rewrite T; assumption.
    + apply (re_text m p _ ltac:(lia) C). intros K. apply unicode_utf8 in K. rewrite K in U. discriminate U.
  - split; [lia|]. intros k Hk. apply H. change (2 ^ Z.of_nat 64) with (2 ^ 64). lia.
Qed.
Lemma cstr_ok m p s : stands m APath p (Txt s) -> get_cstr m p = Done (Ok s).
Proof.
  intros H. inversion H as [| | | | |p' s' P C U]. subst p' s'. pose proof (cstr_cases m p) as K.
  destruct (get_cstr m p) as [[s'|r]|].
  - inversion K as [| | | | |p' s'' P' C' U']. subst. do 2 f_equal. apply chars_inj. apply (c_string_unique m p); assumption.
  - inversion K as [| | |Z1|p' bs P' C' U']; [congruence|]. subst. rewrite (c_string_unique _ _ _ _ C' C) in U'. contradiction.
  - destruct K as [_ K]. exfalso. destruct (c_string_end _ _ _ C) as [E _]. apply (K (Z.of_nat (length (chars s)))); [destruct C as (_ & _ & C); lia|exact E].
Qed.
