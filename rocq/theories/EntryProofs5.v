(** Proofs for the entry point: what lies in memory after a call, what a call
    may read, what it prints. *)
From stdpp Require Import gmap.
From Coq Require Import Ascii.
From Verif Require Import Base PathModel FsModel AbiModel AbiSpec AbiProofs AbiBuf EntryModel EntrySpec EntryProofs EntryProofs2 EntryProofs3 EntryProofs4.
Local Open Scope list_scope.
Local Open Scope Z_scope.

(** ** Contents *)
Lemma of_le_le_mod n : forall v, of_le (le n v) = v mod 256 ^ Z.of_nat n.
Proof.
  induction n as [|n IH]; intros v. { cbn [le of_le]. change (256 ^ Z.of_nat 0) with 1. rewrite Z.mod_1_r. reflexivity. }
  cbn [le of_le]. rewrite IH. replace (Z.of_nat (S n)) with (Z.of_nat n + 1) by lia. rewrite Z.pow_add_r by lia. change (256 ^ 1) with 256.
  rewrite (Z.mul_comm (256 ^ Z.of_nat n) 256). rewrite Z.rem_mul_r by lia. lia.
Qed.
Lemma field_le m p n v : load m p n = le n v -> field m p n v.
Proof.
  intros H. unfold field. rewrite H, of_le_le_mod. f_equal. rewrite Z.pow_mul_r by lia. reflexivity.
Qed.
Lemma random_from w c o n : random_bytes w c o = Some n -> from_random w c o.
Proof.
  destruct o; try discriminate; cbn [random_bytes]; destruct (w_fds w !! _) as [[i p f| | |]|] eqn:D; try discriminate;
    destruct (w_ino w !! i) as [x|] eqn:X; try discriminate; destruct (i_kind x) as [| |a b|] eqn:K; try discriminate;
    destruct ((a =? 1) && ((b =? 8) || (b =? 9))) eqn:E; try discriminate; intros _.
  - exists fd, n0, i, p, f, x, b. split; [left; reflexivity|]. split; [exact D|]. split; [exact X|]. split; [|lia]. assert (a = 1) as -> by lia. exact K.
  - exists fd, n0, i, p, f, x, b. split; [right; eauto|]. split; [exact D|]. split; [exact X|]. split; [|lia]. assert (a = 1) as -> by lia. exact K.
Qed.
(** the part of a store that a second store leaves alone *)
Lemma load_keep m p bs q k n : (forall x, p <= x < p + Z.of_nat (length bs) -> ~ (q + k <= x < q + k + Z.of_nat n)) ->
  load (store m p bs) (q + k) n = load m (q + k) n.
Proof. intros H. apply load_ext. intros x Hx. apply store_out. intros C. exact (H x C Hx). Qed.
Lemma load_mid m p pre mid post : load (store m p (pre ++ mid ++ post)) (p + Z.of_nat (length pre)) (length mid) = mid.
Proof.
  rewrite load_store by (rewrite !app_length; lia). rewrite drop_app. rewrite take_app. reflexivity.
Qed.
Definition stat_bytes (dev i mode link rdev sz : Z) : list Z :=
  le 8 dev ++ le 8 i ++ le 4 mode ++ le 4 link ++ le 4 DEFAULT_UID ++ le 4 DEFAULT_GID ++ le 8 rdev ++ le 8 sz.
Lemma stat_mid m p dev i mode link rdev sz : let m' := store m p (stat_bytes dev i mode link rdev sz) in
  load m' p 8 = le 8 dev /\ load m' (p + 8) 8 = le 8 i /\ load m' (p + 16) 4 = le 4 mode /\ load m' (p + 20) 4 = le 4 link /\ load m' (p + 24) 4 = le 4 1000 /\
  load m' (p + 28) 4 = le 4 1000 /\ load m' (p + 32) 8 = le 8 rdev /\ load m' (p + 40) 8 = le 8 sz.
Proof.
  cbv zeta. unfold stat_bytes. split.
  { pose proof (load_mid m p [] (le 8 dev) (le 8 i ++ le 4 mode ++ le 4 link ++ le 4 DEFAULT_UID ++ le 4 DEFAULT_GID ++ le 8 rdev ++ le 8 sz)) as E.
    rewrite length_le, Z.add_0_r in E. exact E. }
  split.
  { pose proof (load_mid m p (le 8 dev) (le 8 i) (le 4 mode ++ le 4 link ++ le 4 DEFAULT_UID ++ le 4 DEFAULT_GID ++ le 8 rdev ++ le 8 sz)) as E.
    rewrite !length_le in E. exact E. }
  split.
  { pose proof (load_mid m p (le 8 dev ++ le 8 i) (le 4 mode) (le 4 link ++ le 4 DEFAULT_UID ++ le 4 DEFAULT_GID ++ le 8 rdev ++ le 8 sz)) as E.
    rewrite !app_length, !length_le, <- !app_assoc in E. exact E. }
  split.
  { pose proof (load_mid m p (le 8 dev ++ le 8 i ++ le 4 mode) (le 4 link) (le 4 DEFAULT_UID ++ le 4 DEFAULT_GID ++ le 8 rdev ++ le 8 sz)) as E.
    rewrite !app_length, !length_le, <- !app_assoc in E. exact E. }
  split.
  { pose proof (load_mid m p (le 8 dev ++ le 8 i ++ le 4 mode ++ le 4 link) (le 4 DEFAULT_UID) (le 4 DEFAULT_GID ++ le 8 rdev ++ le 8 sz)) as E.
    rewrite !app_length, !length_le, <- !app_assoc in E. exact E. }
  split.
  { pose proof (load_mid m p (le 8 dev ++ le 8 i ++ le 4 mode ++ le 4 link ++ le 4 DEFAULT_UID) (le 4 DEFAULT_GID) (le 8 rdev ++ le 8 sz)) as E.
    rewrite !app_length, !length_le, <- !app_assoc in E. exact E. }
  split.
  { pose proof (load_mid m p (le 8 dev ++ le 8 i ++ le 4 mode ++ le 4 link ++ le 4 DEFAULT_UID ++ le 4 DEFAULT_GID) (le 8 rdev) (le 8 sz)) as E.
    rewrite !app_length, !length_le, <- !app_assoc in E. exact E. }
  pose proof (load_mid m p (le 8 dev ++ le 8 i ++ le 4 mode ++ le 4 link ++ le 4 DEFAULT_UID ++ le 4 DEFAULT_GID ++ le 8 rdev) (le 8 sz) []) as E.
  rewrite app_nil_r in E. rewrite !app_length, !length_le, <- !app_assoc in E. exact E.
Qed.
Lemma put_stat_fields m p chr i mode link sz rdev : let m' := put_stat m p chr i mode link sz rdev in
  field m' p 8 (if chr then 5 else 20) /\
  field m' (p + 8) 8 i /\ field m' (p + 16) 4 mode /\ field m' (p + 20) 4 link /\ field m' (p + 24) 4 1000 /\ field m' (p + 28) 4 1000 /\
  field m' (p + 32) 8 rdev /\ field m' (p + 40) 8 sz.
Proof.
  cbv zeta. unfold put_stat. fold (stat_bytes (if chr then 5 else DEV_ID) i mode link rdev sz).
  pose proof (stat_mid m p (if chr then 5 else DEV_ID) i mode link rdev sz) as M. cbv zeta in M.
  destruct M as (M0 & M1 & M2 & M3 & M4 & M5 & M6 & M7). remember (store m p (stat_bytes (if chr then 5 else DEV_ID) i mode link rdev sz)) as m1 eqn:E1.
  assert (K : forall k n, k + Z.of_nat n <= 48 -> load (if chr then m1 else store m1 (p + 48) (le 4 0 ++ le 4 0)) (p + k) n = load m1 (p + k) n).
  { intros k n L. destruct chr; [reflexivity|]. apply load_keep. intros x Hx. lia. }
  pose proof (K 0 8%nat ltac:(lia)) as K0. rewrite !Z.add_0_r in K0.
  split; [apply field_le; rewrite K0; exact M0|]. repeat (split; [apply field_le; rewrite K by lia; assumption|]). apply field_le. rewrite K by lia. exact M7.
Qed.
Lemma deliver_delivered w c o w' x p rnd m : step w c o = Done (w', x) -> ~ from_random w c o -> (forall fd k, o = Getdents fd k -> k < 2 ^ 31) ->
  delivered x p (fst (deliver w c o p rnd x m)).
Proof.
  intros S R D. apply out_shape in S. destruct x; cbn [delivered deliver fst shape] in *; try exact I.
  - destruct (random_bytes w c o) eqn:E; [destruct R; eapply random_from; exact E|]. apply store_lies.
  - apply put_stat_fields.
  - destruct S as (fd & k & -> & L & T & ->). specialize (D fd k eq_refl). match goal with |- context [pack_dirents ?l] => pose proof (total_pos l) as P; exists (pack_dirents l) end.
    split; [apply store_lies|]. rewrite to_i32_small by lia. unfold pack_dirents. split; [apply length_pack|]. intros F. apply pack_dirents_from; [lia|lia|exact F].
  - apply store_lies.
  - destruct S as (f & -> & A & B & C). destruct r; try exact I. destruct (C eq_refl) as [A0 B0].
    assert (a =? -1 = false) as -> by lia. assert (b =? -1 = false) as -> by lia.
    rewrite <- !load4. split.
    + pose proof (load_keep (store m p (le 4 a)) (p + 4) (le 4 b) p 0 4) as E. rewrite Z.add_0_r in E. rewrite E by (intros; lia).
      pose proof (load_mid m p [] (le 4 a) []) as E'. rewrite length_le, Z.add_0_r, app_nil_r in E'. cbn [app] in E'. rewrite E', of_le_le; lia.
    + pose proof (load_mid (store m p (le 4 a)) (p + 4) [] (le 4 b) []) as E'. rewrite length_le, Z.add_0_r, app_nil_r in E'. cbn [app] in E'. rewrite E', of_le_le; lia.
Qed.
Lemma call_delivers s c n a rnd ts vs o w' x s' r : (n, ts) ∈ table -> well_typed (s_m s) ts (words a) vs -> meaning (s_m s) n vs = Some o ->
  step (s_w s) c o = Done (w', x) -> ~ from_random (s_w s) c o -> snd (area n a) < 2 ^ 31 -> enter s c n a rnd = Done (s', r) ->
  delivered x (fst (area n a)) (s_m s').
Proof.
  intros T K M S R B H. rewrite (call_done _ _ _ _ rnd _ _ _ _ _ T K M S) in H. injection H as <- _. cbn [s_m].
  destruct (meaning_total _ _ _ _ _ T K) as [(o' & M' & A & P)|Q]; [|destruct Q as [E|[E|E]]; subst n; discriminate M].
  rewrite M in M'. injection M' as <-. pose proof (deliver_delivered _ _ _ _ _ (place n a) rnd (s_m s) S R) as D.
  destruct P as [P|P].
  - rewrite P. apply D. intros fd k ->. cbn [room] in A. lia.
  - pose proof (out_shape _ _ _ _ _ S) as Sh. destruct x; cbn [delivered shape] in *; try exact I.
    + destruct Sh as (fd & k & [E|[off E]] & L & _); subst o; cbn [room] in P; subst k; destruct bs as [|b0 bs]; cbn [length] in L; try lia; intros j b E; destruct j; discriminate E.
    + destruct Sh as [[q ->]|[fd ->]]; discriminate P.
    + destruct Sh as (fd & k & -> & L & _). cbn [room] in P. lia.
    + destruct Sh as (k & -> & L). cbn [room] in P. lia.
    + destruct Sh as (f & -> & _). discriminate P.
Qed.
(** what a stat call leaves alone *)
Lemma put_stat_rest m p chr i mode link sz rdev : let m' := put_stat m p chr i mode link sz rdev in
  (forall y, p + (if chr then 48 else 56) <= y < p + 104 -> m' y = m y) /\ (chr = false -> forall y, p + 48 <= y < p + 56 -> m' y = 0).
Proof.
  cbv zeta. unfold put_stat. fold (stat_bytes (if chr then 5 else DEV_ID) i mode link rdev sz). split.
  - intros y Hy. assert (L : Z.of_nat (length (stat_bytes (if chr then 5 else DEV_ID) i mode link rdev sz)) = 48).
    { unfold stat_bytes. rewrite !app_length, !length_le. reflexivity. }
    destruct chr; [|rewrite store_out by (rewrite app_length, !length_le; lia)]; apply store_out; lia.
  - intros -> y Hy. change (le 4 0 ++ le 4 0) with (replicate 8 0). replace y with (p + 48 + Z.of_nat (Z.to_nat (y - p - 48))) by lia.
    rewrite store_in by (cbn [length replicate]; lia). assert (F : forall j, nth j (replicate 8 0) 0 = 0) by (intros [|[|[|[|[|[|[|[|[|j]]]]]]]]]; reflexivity). apply F.
Qed.

(** ** What is printed *)
Lemma printed_sends w c o bs : sends w c o bs -> unicode bs -> printed w c o = bs.
Proof.
  intros S U. apply unicode_utf8 in U. destruct S as [fd st fl bs D H|fd st fl iov D]; cbn [printed]; rewrite D, U; [|reflexivity].
  assert ((st =? 1) || (st =? 2) = true) as -> by lia. reflexivity.
Qed.
Lemma printed_lost w c o bs : sends w c o bs -> ~ unicode bs -> printed w c o = [].
Proof.
  intros S U. assert (E : utf8 bs = false) by (destruct (utf8 bs) eqn:E; [apply utf8_unicode in E; contradiction|reflexivity]).
  destruct S as [fd st fl bs D H|fd st fl iov D]; cbn [printed]; rewrite D, E; [|reflexivity]. rewrite andb_false_r. reflexivity.
Qed.
Lemma printed_none w c o : (forall bs, ~ sends w c o bs) -> printed w c o = [].
Proof.
  intros N. destruct o; try reflexivity; cbn [printed]; destruct (w_fds w !! (c, fd)) as [[| |st fl|]|] eqn:D; try reflexivity.
  - match goal with |- context [(?x =? 1) || (?x =? 2)] => rename x into st end. destruct ((st =? 1) || (st =? 2)) eqn:E; [|reflexivity]. exfalso. eapply N. eapply se_write; [exact D|lia].
  - exfalso. eapply N. eapply se_writev. exact D.
Qed.
Lemma sends_fun w c o b1 b2 : sends w c o b1 -> sends w c o b2 -> b1 = b2.
Proof. intros A B. destruct A; inversion B; subst; reflexivity. Qed.
Lemma enter_tty s c n a rnd s' r : Forall is_word (words a) -> enter s c n a rnd = Done (s', r) -> exists l, s_tty s' = s_tty s ++ l.
Proof.
  intros W H. apply (enter_did _ _ _ _ _ _ _ W) in H. destruct H; cbn [s_tty]; [exists []; rewrite app_nil_r; reflexivity|eauto|exists []; rewrite app_nil_r; reflexivity].
Qed.

(** ** What is read *)
Lemma cstring_same m1 m2 p bs : (forall x, p <= x -> (forall y, p <= y < x -> m1 y <> 0) -> m2 x = m1 x) -> c_string m1 p bs -> c_string m2 p bs.
Proof.
  intros H (L & N & B). split; [|split; assumption]. intros k b E. rewrite H; [apply L; exact E|lia|].
  intros y Hy. assert (Ky : (Z.to_nat (y - p) < length bs)%nat). { assert (k < length (bs ++ [0%Z]))%nat by (apply nth_error_Some; congruence). rewrite app_length in *. cbn [length] in *. lia. }
  destruct (nth_error bs (Z.to_nat (y - p))) as [v|] eqn:V; [|apply nth_error_None in V; lia].
  pose proof (L (Z.to_nat (y - p)) v) as Lv. rewrite nth_error_app1 in Lv by lia. specialize (Lv V). replace (p + Z.of_nat (Z.to_nat (y - p))) with y in Lv by lia.
  rewrite Lv. intros ->. apply N. apply elem_of_list_In. eapply nth_error_In. exact V.
Qed.
Lemma conv_same m1 m2 t w : is_word w ->
  (t = APath -> forall x, w <= x -> (forall y, w <= y < x -> m1 y <> 0) -> m2 x = m1 x) -> conv m2 t w = conv m1 t w.
Proof.
  intros W H. destruct t; try reflexivity.
  specialize (H eq_refl). pose proof (conv_cases m1 APath w W) as C. destruct (conv m1 APath w) as [[v|r]|] eqn:E.
  - apply conv_ok. inversion C; subst. constructor; [assumption| |assumption]. eapply cstring_same; eassumption.
  - apply conv_bad; [exact W|]. inversion C; subst; [constructor|]. eapply re_text; [assumption| |eassumption]. eapply cstring_same; eassumption.
  - destruct C as (_ & Z0 & En). pose proof (conv_cases m2 APath w W) as C2.
    assert (En2 : endless m2 w). { intros k Hk. rewrite H; [apply En; exact Hk|lia|]. intros y Hy. replace y with (w + (y - w)) by lia. apply En. lia. }
    assert (F : forall bs, ~ c_string m2 w bs).
    { intros bs Cs. destruct (c_string_end _ _ _ Cs) as [E0 _]. destruct Cs as (_ & _ & B). apply (En2 (Z.of_nat (length bs))); [lia|exact E0]. }
    destruct (conv m2 APath w) as [[v|r]|]; [inversion C2; subst|inversion C2; subst|reflexivity]; exfalso; solve [eapply F; eassumption|contradiction].
Qed.
Lemma chain_same m1 m2 ts : forall ws k1 k2, Forall is_word ws ->
  (forall j p, nth_error ts j = Some APath -> nth_error ws j = Some p -> forall x, p <= x -> (forall y, p <= y < x -> m1 y <> 0) -> m2 x = m1 x) ->
  (forall vs, well_typed m1 ts ws vs -> k2 vs = k1 vs) -> (length ts <= length ws)%nat -> chain m2 ts ws k2 = chain m1 ts ws k1.
Proof.
  induction ts as [|t ts IH]; intros ws k1 k2 W H K L; [destruct ws; apply K; constructor|].
  destruct ws as [|w ws]; [cbn in L; lia|]. apply Forall_cons in W as [Ww W]. cbn [chain].
  rewrite (conv_same m1 m2 t w Ww) by (intros -> x A B; apply (H 0%nat w eq_refl eq_refl x A B)).
  pose proof (conv_cases m1 t w Ww) as C. destruct (conv m1 t w) as [[v|r]|]; [|reflexivity|reflexivity].
  apply IH; [exact W| | |cbn in L; lia].
  - intros j p N1 N2. exact (H (S j) p N1 N2).
  - intros vs T. apply K. constructor; [exact C|exact T].
Qed.
Lemma bytes_at_same m1 m2 p n : (forall x, p <= x < p + n -> m2 x = m1 x) -> bytes_at m2 p n = bytes_at m1 p n.
Proof. intros H. unfold bytes_at. apply map_ext_in. intros x Hx. apply elem_of_list_In, elem_of_seqZ in Hx. apply H. exact Hx. Qed.
Lemma word_at_same m1 m2 p : (forall x, p <= x < p + 8 -> m2 x = m1 x) -> word_at m2 p = word_at m1 p.
Proof. intros H. unfold word_at, number_at. repeat (rewrite H by lia). reflexivity. Qed.
Lemma gathered_same m1 m2 p n : (forall x, p <= x < p + 16 * n -> m2 x = m1 x) ->
  (forall k x, 0 <= k < n -> word_at m1 (p + 16 * k) <= x < word_at m1 (p + 16 * k) + word_at m1 (p + 16 * k + 8) -> m2 x = m1 x) ->
  gathered m2 p n = gathered m1 p n.
Proof.
  intros H G. unfold gathered. apply map_ext_in. intros k Hk. apply elem_of_list_In, elem_of_seqZ in Hk.
  rewrite (word_at_same m1 m2 (p + 16 * k)) by (intros; apply H; lia). rewrite (word_at_same m1 m2 (p + 16 * k + 8)) by (intros; apply H; lia).
  apply bytes_at_same. intros x Hx. apply (G k); [lia|exact Hx].
Qed.
Lemma decode_same m1 m2 n a : Forall is_word (words a) -> agree m1 m2 n a -> decode m2 n a = decode m1 n a.
Proof.
  intros W H. destruct (table_or n) as [[ts T]|N]; [|rewrite !(decode_others _ _ _ N); reflexivity].
  rewrite !(decode_chain _ _ _ _ T). apply chain_same; [exact W| | |rewrite len_words; eapply table_len; eassumption].
  - intros j p N1 N2 x A B. apply H. eapply us_path; eassumption.
  - intros vs K. destruct (decide (n = 13 \/ n = 127 \/ n = 170)) as [E|NE].
    + destruct E as [E|[E|E]]; subst n; apply table_sig in T; vm_compute in T; injection T as <-; typed K; kinds; unfold goal_of; cbn [meaning].
      * rewrite (bytes_at_same m1 m2); [reflexivity|]. intros y Hy. apply H. apply us_buffer; [lia|exact Hy].
      * rewrite (bytes_at_same m1 m2); [reflexivity|]. intros y Hy. apply H. apply us_buffer; [lia|exact Hy].
      * match goal with V : is_int ?v, Q : _ = a3 a |- context [gathered _ _ ?v] => assert (Lv : 0 < v -> v = a3 a); [intros Pv; rewrite <- Q; symmetry; apply Z.mod_small; unfold is_int in V; lia|] end.
        rewrite (gathered_same m1 m2); [reflexivity| |].
        -- intros y Hy. apply H. apply us_array; [reflexivity|]. lia.
        -- intros k y Hk Hy. apply H. apply (us_gather _ _ _ k); [reflexivity|lia|exact Hy].
    + unfold goal_of. assert (E : meaning m2 n vs = meaning m1 n vs); [|rewrite E; reflexivity].
      clear -NE. unfold meaning. destruct n as [|q|q]; try reflexivity.
      repeat (destruct q as [q|q|]; try reflexivity); exfalso; lia.
Qed.
(** the bytes that a call writes do not depend on what was there *)
Lemma store_same m1 m2 p bs y : m2 y = m1 y -> store m2 p bs y = store m1 p bs y.
Proof. intros H. unfold store. destruct (_ && _); [reflexivity|exact H]. Qed.
Lemma put_stat_same m1 m2 p chr i mode link sz rdev y : m2 y = m1 y -> put_stat m2 p chr i mode link sz rdev y = put_stat m1 p chr i mode link sz rdev y.
Proof. intros H. unfold put_stat. destruct chr; repeat apply store_same; exact H. Qed.
Lemma deliver_same w c o p rnd x m1 m2 : snd (deliver w c o p rnd x m2) = snd (deliver w c o p rnd x m1) /\
  forall y, m2 y = m1 y -> fst (deliver w c o p rnd x m2) y = fst (deliver w c o p rnd x m1) y.
Proof.
  destruct x; cbn [deliver fst snd]; split; try reflexivity; intros y H; try exact H; try (apply store_same; exact H).
  - apply put_stat_same. exact H.
  - destruct (a =? -1), (b =? -1); repeat apply store_same; exact H.
Qed.
Lemma perform_same s1 s2 c t rnd : same_but s1 s2 ->
  match perform s1 c t rnd, perform s2 c t rnd with
  | Done (t1, r1), Done (t2, r2) => same_but t1 t2 /\ r1 = r2 /\ forall y, s_m s2 y = s_m s1 y -> s_m t2 y = s_m t1 y
  | Panic, Panic => True
  | _, _ => False
  end.
Proof.
  destruct s1 as [w m1 tt], s2 as [w2 m2 tt2]. intros [E1 E2]. cbn [s_w s_tty] in E1, E2. subst w2 tt2. unfold perform. cbn [s_w s_m s_tty].
  destruct (w_cwd w !! c) as [cwd|]; [|exact I]. destruct t as [r| |o p|q p|fd p|p k|]; try exact I.
  - split; [split; reflexivity|]. split; [reflexivity|auto].
  - destruct (step w c o) as [[w' x]|]; cbn [obind]; [|exact I]. cbn [fst snd]. destruct (deliver_same w c o p rnd x m1 m2) as [D1 D2].
    split; [split; reflexivity|]. split; [rewrite D1; reflexivity|exact D2].
  - unfold statfs_mem. destruct (metawalk _ _) as [[i|]|]; cbn [obind]; [| |exact I].
    + destruct (get_ino w i); cbn [obind]; [|exact I]. split; [split; reflexivity|]. split; [reflexivity|]. intros y H. apply store_same. exact H.
    + split; [split; reflexivity|]. split; [reflexivity|auto].
  - unfold fstatfs_mem. destruct (fd_slot w c fd) as [[[i pos fl| | |]|]|]; cbn [obind]; try exact I;
      try (split; [split; reflexivity|]; split; [reflexivity|]; intros y H; try (apply store_same); exact H).
    destruct (get_ino w i); cbn [obind]; [|exact I]. split; [split; reflexivity|]. split; [reflexivity|]. intros y H. apply store_same. exact H.
  - unfold gethostname_mem, fill. destruct (k <? 0); cbn [obind]; [split; [split; reflexivity|]; split; [reflexivity|auto]|].
    destruct (_ <? _)%nat; cbn [obind]; [exact I|]. split; [split; reflexivity|]. split; [reflexivity|]. intros y H. apply store_same. exact H.
Qed.
Lemma enter_same s1 s2 c n a rnd : Forall is_word (words a) -> same_but s1 s2 -> agree (s_m s1) (s_m s2) n a ->
  match enter s1 c n a rnd, enter s2 c n a rnd with
  | Done (t1, r1), Done (t2, r2) => same_but t1 t2 /\ r1 = r2 /\ forall y, s_m s2 y = s_m s1 y -> s_m t2 y = s_m t1 y
  | Panic, Panic => True
  | _, _ => False
  end.
Proof. intros W S H. unfold enter. rewrite (decode_same _ _ _ _ W H). apply perform_same. exact S. Qed.
