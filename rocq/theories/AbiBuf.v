(** Proofs for the boundary: directory records, returned strings, descriptor
    sets. *)
From Coq Require Import Ascii.
From Verif Require Import Base PathModel PathSpec PathProofs FsModel FsBoot FsSpec FsWalk FsReachSpec FsReach FsTree AbiModel AbiSpec AbiProofs.
Local Open Scope list_scope.
Local Open Scope Z_scope.

(** ** Directory records *)
Lemma length_chars f : length (chars f) = String.length f.
Proof. unfold chars. rewrite map_length. induction f as [|a f IH]; [reflexivity|]. cbn. f_equal. exact IH. Qed.
Lemma chars_inj f g : chars f = chars g -> f = g.
Proof.
  unfold chars. revert g. induction f as [|a f IH]; intros [|b g] H; try reflexivity; try discriminate H.
  cbn in H. injection H as H1 H2. f_equal; [|apply IH; exact H2].
  assert (E : nat_of_ascii a = nat_of_ascii b) by lia.
  rewrite <- (ascii_nat_embedding a), <- (ascii_nat_embedding b), E. reflexivity.
Qed.
Lemma word_le n v : 0 <= v < 256 ^ Z.of_nat n -> word n v (le n v).
Proof.
  intros H. split; [apply length_le|]. split; [exact H|]. clear H.
  revert v. induction n as [|n IH]; intros v k b Hk; [destruct k; discriminate Hk|].
  destruct k as [|k]; cbn [le nth_error] in Hk.
  - injection Hk as <-. rewrite Z.pow_0_r, Z.div_1_r. reflexivity.
  - apply IH in Hk. rewrite Hk. rewrite Nat2Z.inj_succ, Z.pow_succ_r by lia.
    rewrite Z.div_div by lia. reflexivity.
Qed.
Lemma word_is_le n v bs : word n v bs -> bs = le n v.
Proof.
  intros (L & R & H). apply nth_error_ext. intros k.
  destruct (word_le n v R) as (L' & _ & H').
  destruct (nth_error bs k) eqn:E.
  - assert (k < n)%nat by (rewrite <- L; apply nth_error_Some; rewrite E; discriminate).
    destruct (nth_error (le n v) k) eqn:E'; [|apply nth_error_None in E'; lia].
    f_equal. rewrite (H _ _ E), (H' _ _ E'). reflexivity.
  - apply nth_error_None in E. symmetry. apply nth_error_None. lia.
Qed.
Lemma reclen_bounds f : Z.of_nat (String.length f) + 20 <= reclen f < Z.of_nat (String.length f) + 28 /\ reclen f mod 8 = 0.
Proof.
  unfold reclen, CLIPPED_DIRENT_SIZE. split; [|apply Z.mod_mul; lia].
  pose proof (Z_div_mod_eq_full (18 + (Z.of_nat (String.length f) + 2) + 7) 8).
  pose proof (Z.mod_pos_bound (18 + (Z.of_nat (String.length f) + 2) + 7) 8). lia.
Qed.
Lemma reclen_fits f : Z.of_nat (String.length f) <= 65508 -> reclen f < 65536.
Proof.
  unfold reclen, CLIPPED_DIRENT_SIZE. intros H.
  assert ((18 + (Z.of_nat (String.length f) + 2) + 7) / 8 < 8192) by (apply Z.div_lt_upper_bound; lia). lia.
Qed.
Definition total (es : list (string * Z)) : Z := fold_right (fun e a => reclen (fst e) + a) 0 es.
Lemma total_pos es : 0 <= total es.
Proof. induction es as [|e es IH]; [reflexivity|]. cbn. pose proof (reclen_bounds (fst e)). fold (total es). lia. Qed.
Lemma length_dirent e o : Z.of_nat (length (dirent_bytes e o)) = reclen (fst e).
Proof.
  unfold dirent_bytes. rewrite !app_length, !length_le, length_chars, replicate_length.
  pose proof (reclen_bounds (fst e)). unfold CLIPPED_DIRENT_SIZE. lia.
Qed.
Lemma length_pack es : forall o, Z.of_nat (length (pack_from o es)) = total es.
Proof.
  induction es as [|e es IH]; intros o; [reflexivity|]. cbn [pack_from total fold_right].
  rewrite app_length, Nat2Z.inj_add, length_dirent, IH. reflexivity.
Qed.
Lemma replicate_one n : (0 < n)%nat -> replicate n 0 = [0] ++ replicate (n - 1) 0.
Proof. intros H. destruct n; [lia|]. cbn. replace (n - 0)%nat with n by lia. reflexivity. Qed.
Lemma pack_dirents_from es : forall o, 0 <= o -> o + total es < 2 ^ 64 -> Forall storable es -> dirents o (pack_from o es) es.
Proof.
  induction es as [|[f i] es IH]; intros o Ho Ht F; [constructor|].
  apply Forall_cons in F as [(N & L & R) F]. cbn [fst snd] in *. cbn [total fold_right fst] in Ht. fold (total es) in Ht.
  pose proof (total_pos es). pose proof (reclen_bounds f) as [B M]. pose proof (reclen_fits f L).
  cbn [pack_from]. unfold dirent_bytes. cbn [fst snd].
  rewrite (replicate_one (Z.to_nat (reclen f - CLIPPED_DIRENT_SIZE) - String.length f)) by (unfold CLIPPED_DIRENT_SIZE; lia).
  rewrite <- !app_assoc.
  eapply de_cons with (n := reclen f).
  - apply word_le. change (256 ^ Z.of_nat 8) with (2 ^ 64). exact R.
  - apply word_le. change (256 ^ Z.of_nat 8) with (2 ^ 64). lia.
  - apply word_le. change (256 ^ Z.of_nat 2) with 65536. lia.
  - exact N.
  - rewrite length_chars, replicate_length. unfold CLIPPED_DIRENT_SIZE. lia.
  - exact M.
  - apply IH; [lia|lia|exact F].
Qed.
(** what a walker finds is determined by the bytes *)
Lemma nul_split a b x y : 0 ∉ a -> 0 ∉ b -> a ++ 0 :: x = b ++ 0 :: y -> a = b /\ x = y.
Proof.
  revert b. induction a as [|c a IH]; intros [|d b] Ha Hb H.
  - injection H as H. done.
  - cbn in H. injection H as H1 H2. subst d. apply not_elem_of_cons in Hb as [Hb _]. lia.
  - cbn in H. injection H as H1 H2. subst c. apply not_elem_of_cons in Ha as [Ha _]. lia.
  - cbn in H. injection H as H1 H2. subst d. apply not_elem_of_cons in Ha as [_ Ha]. apply not_elem_of_cons in Hb as [_ Hb].
    destruct (IH b Ha Hb H2) as [-> ->]. done.
Qed.
Lemma le_inj n v w : 0 <= v < 256 ^ Z.of_nat n -> 0 <= w < 256 ^ Z.of_nat n -> le n v = le n w -> v = w.
Proof. intros Hv Hw H. rewrite <- (of_le_le n v Hv), <- (of_le_le n w Hw), H. reflexivity. Qed.
Lemma app_len_inj {A} (a b x y : list A) : length a = length b -> a ++ x = b ++ y -> a = b /\ x = y.
Proof. intros L H. apply app_inj_1 in H; [done|exact L]. Qed.
Lemma dirents_unique o bs l1 : dirents o bs l1 -> forall l2, dirents o bs l2 -> l1 = l2.
Proof.
  induction 1 as [o|o ino n f i off len pad rest l W1 W2 W3 N E M D IH]; intros l2 D2.
  - inversion D2 as [|? ino2 n2 f2 i2 off2 len2 pad2 rest2 l2' V1 V2 V3 N2 E2 M2 D2' Ho Hb]; [reflexivity|].
    apply (f_equal length) in Hb. rewrite !app_length in Hb. cbn [length] in Hb. lia.
  - inversion D2 as [o2 Ho Hb|o2 ino2 n2 f2 i2 off2 len2 pad2 rest2 l2' V1 V2 V3 N2 E2 M2 D2' Ho Hb].
    { apply (f_equal length) in Hb. rewrite !app_length in Hb. cbn [length] in Hb. lia. }
    subst o2.
    pose proof (proj1 W1) as L1. pose proof (proj1 W2) as L2. pose proof (proj1 W3) as L3.
    pose proof (proj1 V1) as K1. pose proof (proj1 V2) as K2. pose proof (proj1 V3) as K3.
    apply app_len_inj in Hb as [B1 Hb]; [|lia]. apply app_len_inj in Hb as [_ Hb]; [|lia]. apply app_len_inj in Hb as [B3 Hb]; [|lia].
    cbn [app] in Hb.
    apply nul_split in Hb as [B4 Hb]; [|exact N2|exact N].
    apply chars_inj in B4. subst f2.
    rewrite (word_is_le _ _ _ W1), (word_is_le _ _ _ V1) in B1. apply le_inj in B1; [|exact (proj1 (proj2 V1))|exact (proj1 (proj2 W1))]. subst i2.
    rewrite (word_is_le _ _ _ W3), (word_is_le _ _ _ V3) in B3. apply le_inj in B3; [|exact (proj1 (proj2 V3))|exact (proj1 (proj2 W3))]. subst n2.
    apply app_len_inj in Hb as [_ Hb]; [|lia]. subst rest2.
    f_equal. apply IH. rewrite B3 in D2'. exact D2'.
Qed.

(** getdents: what the call reports is what lies in the buffer *)
Lemma dents_fit_spec es : forall b n l r, dents_fit es b n = (l, r) -> 0 <= b <= n -> r = b + total l /\ r <= n /\ exists tl, es = l ++ tl.
Proof.
  induction es as [|e es IH]; intros b n l r H Hb; cbn [dents_fit] in H.
  - injection H as <- <-. cbn. split; [lia|]. split; [lia|]. exists []. reflexivity.
  - destruct (n <? b + reclen (fst e)) eqn:E.
    + injection H as <- <-. cbn. split; [lia|]. split; [lia|]. exists (e :: es). reflexivity.
    + destruct (dents_fit es (b + reclen (fst e)) n) as [l' r'] eqn:D. injection H as <- <-.
      pose proof (reclen_bounds (fst e)).
      destruct (IH _ _ _ _ D ltac:(lia)) as (A & B & tl & C). cbn [total fold_right]. fold (total l').
      split; [lia|]. split; [exact B|]. exists tl. cbn. f_equal. exact C.
Qed.
Lemma getdents_buffer w c fd n w' r l : step w c (Getdents fd n) = Done (w', RetDents r l) -> n < 2 ^ 31 ->
  Z.of_nat (length (pack_dirents l)) = r /\ r <= n /\ r mod 8 = 0 /\ (Forall storable l -> dirents 0 (pack_dirents l) l).
Proof.
  intros H Hn. unfold step in H.
  destruct (w_cwd w !! c) as [cwd|]; [|discriminate H].
  unfold getdents_syscall in H.
  destruct (n <=? CLIPPED_DIRENT_SIZE) eqn:E0; [discriminate H|]. unfold CLIPPED_DIRENT_SIZE in E0.
  destruct (negb (in_fd_range fd)); [discriminate H|].
  destruct (w_fds w !! (c, fd)) as [[i pos flags| | |]|]; try discriminate H.
  unfold obind in H. destruct (get_ino w i) as [x|]; [|discriminate H].
  destruct (i_kind x); try discriminate H.
  destruct (dents_fit _ 0 n) as [l' r'] eqn:D. injection H as _ <- <-.
  destruct (dents_fit_spec _ _ _ _ _ D ltac:(lia)) as (A & B & _).
  pose proof (total_pos l').
  assert (Hr : to_i32 r' = r').
  { unfold to_i32, wrap_u. rewrite Z.mod_small by lia. destruct (_ <? _) eqn:E; lia. }
  rewrite Hr. unfold pack_dirents. rewrite length_pack. split; [lia|]. split; [exact B|]. split.
  - rewrite A. rewrite Z.add_0_l. clear. induction l' as [|e l IH]; [reflexivity|]. cbn [total fold_right]. fold (total l).
    rewrite Zplus_mod, IH, (proj2 (reclen_bounds (fst e))). reflexivity.
  - intros F. apply pack_dirents_from; [lia|lia|exact F].
Qed.

(** a checker for what is not a listing: some record says it is shorter than
    its own header *)
Fixpoint stuck (fuel : nat) (bs : list Z) : bool :=
  match fuel with
  | O => false
  | S k =>
      match bs with
      | [] => false
      | _ => let n := of_le (take 2 (drop 16 bs)) in
             if n <? 19 then true else stuck k (drop (Z.to_nat n) bs)
      end
  end.
Lemma dirents_not_stuck o bs l : dirents o bs l -> forall k, stuck k bs = false.
Proof.
  induction 1 as [o|o ino n f i off len pad rest l W1 W2 W3 N E M D IH]; intros [|k]; try reflexivity.
  cbn [stuck].
  set (bs := ino ++ off ++ len ++ chars f ++ [0] ++ pad ++ rest).
  assert (Hn : of_le (take 2 (drop 16 bs)) = n).
  { unfold bs. rewrite app_assoc. rewrite drop_app_alt by (rewrite app_length, (proj1 W1), (proj1 W2); reflexivity).
    rewrite take_app_alt by (rewrite (proj1 W3); reflexivity).
    rewrite (word_is_le _ _ _ W3). apply of_le_le. exact (proj1 (proj2 W3)). }
  assert (Hb : bs <> []).
  { intros Hb. apply (f_equal length) in Hb. unfold bs in Hb. rewrite !app_length in Hb. cbn [length] in Hb. lia. }
  assert (Hd : drop (Z.to_nat n) bs = rest).
  { unfold bs. rewrite !app_assoc. apply drop_app_alt. rewrite !app_length, (proj1 W1), (proj1 W2), (proj1 W3). cbn [length]. lia. }
  destruct bs as [|b0 bs0] eqn:Eb; [elim Hb; reflexivity|]. rewrite Hn, Hd.
  replace (n <? 19) with false by lia. apply IH.
Qed.

(** ** Strings *)
Lemma fill_all m p bs : fill m p (length bs) bs = Done (store m p bs).
Proof. unfold fill. replace (length bs <? length bs)%nat with false by lia. rewrite take_ge by lia. reflexivity. Qed.
Lemma store_lies m p bs : lies (store m p bs) p bs.
Proof.
  intros k b Hk. assert (k < length bs)%nat by (apply nth_error_Some; rewrite Hk; discriminate).
  rewrite store_in by assumption. apply nth_error_nth. exact Hk.
Qed.
Lemma getcwd_fits cwd m p n : Z.of_nat (length cwd) + 1 <= n ->
  exists m', getcwd_mem cwd m p n = Done (m', 0) /\ lies m' p (cwd ++ [0]) /\ only_within m m' p (Z.of_nat (length cwd) + 1).
Proof.
  intros H. unfold getcwd_mem. replace (n =? 0) with false by lia.
  replace (n <? Z.of_nat (length (cwd ++ [0]))) with false by (rewrite app_length; cbn [length]; lia).
  rewrite fill_all. eexists. split; [reflexivity|]. split; [apply store_lies|].
  intros a Ha. apply store_out. rewrite app_length. cbn [length]. lia.
Qed.
Lemma getcwd_small cwd m p n : 0 <= n -> n < Z.of_nat (length cwd) + 1 ->
  getcwd_mem cwd m p n = Done (m, if n =? 0 then err EINVAL else err ERANGE).
Proof.
  intros H0 H. unfold getcwd_mem. destruct (n =? 0); [reflexivity|].
  replace (n <? Z.of_nat (length (cwd ++ [0]))) with true by (rewrite app_length; cbn [length]; lia). reflexivity.
Qed.
(** the model of the file system and the model of the buffer agree *)
Lemma getcwd_agree w c n w' o cwd m p : step w c (Getcwd n) = Done (w', o) -> w_cwd w !! c = Some cwd -> 0 <= n ->
  (forall s, o = RetPath s -> exists m', getcwd_mem (chars s) m p n = Done (m', 0)) /\
  (forall r, o = Ret r -> getcwd_mem (chars (render cwd)) m p n = Done (m, r)).
Proof.
  intros H Hc Hn. unfold step in H. rewrite Hc in H. injection H as _ <-.
  unfold getcwd_syscall. destruct (n =? 0) eqn:E0.
  - split; [discriminate|]. intros r [= <-]. unfold getcwd_mem. rewrite E0. reflexivity.
  - destruct (n <? _) eqn:E1.
    + split; [discriminate|]. intros r [= <-]. rewrite getcwd_small by (rewrite ?length_chars; lia). rewrite E0. reflexivity.
    + split; [|discriminate]. intros s [= <-]. destruct (getcwd_fits (chars (render cwd)) m p n) as (m' & E & _); [rewrite length_chars; lia|].
      exists m'. exact E.
Qed.
Lemma hostname_spec m p n : 0 <= n ->
  exists m', gethostname_mem m p n = Done (m', 0) /\ lies m' p (take (Z.to_nat n) [76; 105; 110; 100; 0]) /\ only_within m m' p (Z.min n 5).
Proof.
  intros H. unfold gethostname_mem. replace (n <? 0) with false by lia.
  change (length (HOSTNAME ++ [0])) with 5%nat. change (Z.of_nat 5) with 5.
  destruct (n <? 5) eqn:E.
  - unfold fill. change (length (HOSTNAME ++ [0])) with 5%nat. replace (5 <? Z.to_nat n)%nat with false by lia.
    eexists. split; [reflexivity|]. split; [apply store_lies|]. intros a Ha. apply store_out. rewrite take_length.
    change (length (HOSTNAME ++ [0])) with 5%nat. lia.
  - change (fill m p 5 (HOSTNAME ++ [0])) with (fill m p (length (HOSTNAME ++ [0])) (HOSTNAME ++ [0])). rewrite (fill_all m p (HOSTNAME ++ [0])). eexists. split; [reflexivity|].
    split; [rewrite take_ge by (cbn [length]; lia); apply store_lies|]. intros a Ha. apply store_out. change (length (HOSTNAME ++ [0])) with 5%nat. lia.
Qed.
Lemma ifaddrs_spec devs m p n :
  (Z.of_nat (length devs) < n -> exists m', getifaddrs_mem devs m p n = Done (m', 0) /\ lies m' p devs /\ only_within m m' p (Z.of_nat (length devs))) /\
  (n <= Z.of_nat (length devs) -> getifaddrs_mem devs m p n = Done (m, err EOPNOTSUPP)).
Proof.
  unfold getifaddrs_mem. split; intros H.
  - replace (Z.of_nat (length devs) <? n) with true by lia. rewrite fill_all. eexists. split; [reflexivity|].
    split; [apply store_lies|]. intros a Ha. apply store_out. exact Ha.
  - replace (Z.of_nat (length devs) <? n) with false by lia. reflexivity.
Qed.

(** ** Descriptor sets *)
Lemma fd_okE fd : fd_ok fd = true <-> valid_fd fd.
Proof. unfold fd_ok, valid_fd. lia. Qed.
Lemma pos64 fd : valid_fd fd -> 0 <= fd / 64 < 16 /\ 0 <= fd mod 64 < 64 /\ fd = 64 * (fd / 64) + fd mod 64.
Proof.
  unfold valid_fd. intros H. pose proof (Z.mod_pos_bound fd 64). pose proof (Z_div_mod_eq_full fd 64).
  split; [split; [apply Z.div_pos; lia|apply Z.div_lt_upper_bound; lia]|]. lia.
Qed.
Lemma memberE s fd : member s fd <-> valid_fd fd /\ Z.testbit (nth (Z.to_nat (fd / 64)) s 0) (fd mod 64) = true.
Proof.
  unfold member, fdset_is_set. rewrite <- fd_okE. destruct (fd_ok fd); split.
  - intros [= H]. done.
  - intros [_ H]. rewrite H. reflexivity.
  - discriminate.
  - intros [H _]. discriminate H.
Qed.
Lemma is_set_total s fd : valid_fd fd -> exists b, fdset_is_set s fd = Done b.
Proof. intros H. unfold fdset_is_set. rewrite (proj2 (fd_okE fd) H). eexists. reflexivity. Qed.
Lemma nth_alter (f : Z -> Z) (s : list Z) i j : (j < length s)%nat -> nth j (alter f i s) 0 = if decide (j = i) then f (nth j s 0) else nth j s 0.
Proof.
  intros H. rewrite !nth_lookup. case_decide as E.
  - subst. rewrite list_lookup_alter. destruct (s !! i) eqn:E; [reflexivity|]. apply lookup_ge_None in E. lia.
  - rewrite list_lookup_alter_ne by congruence. reflexivity.
Qed.
Lemma word_bits w : 0 <= w < 2 ^ 64 <-> forall k, (k < 0 \/ 64 <= k) -> Z.testbit w k = false.
Proof.
  split.
  - intros H k [Hk|Hk]; [apply Z.testbit_neg_r; exact Hk|]. rewrite <- (Z.mod_small w (2 ^ 64)) by exact H. apply Z.mod_pow2_bits_high. lia.
  - intros H. assert (E : w = w mod 2 ^ 64); [|rewrite E; apply Z.mod_pos_bound; lia].
    apply Z.bits_inj'. intros k Hk. destruct (Z_lt_dec k 64).
    + rewrite Z.mod_pow2_bits_low by lia. reflexivity.
    + rewrite Z.mod_pow2_bits_high by lia. apply H. lia.
Qed.
Lemma fd_set_alter f i s : fd_set s -> (forall w, 0 <= w < 2 ^ 64 -> 0 <= f w < 2 ^ 64) -> fd_set (alter f i s).
Proof.
  intros [L F] H. split; [rewrite alter_length; exact L|]. apply Forall_alter; [exact F|]. intros x _ Hx. apply H. exact Hx.
Qed.
Lemma set_spec s fd : fd_set s -> valid_fd fd ->
  exists s', fdset_set s fd = Done s' /\ fd_set s' /\ forall x, member s' x <-> member s x \/ x = fd.
Proof.
  intros Hs Hv. unfold fdset_set. rewrite (proj2 (fd_okE fd) Hv). eexists. split; [reflexivity|].
  pose proof (pos64 fd Hv) as (P1 & P2 & P3). split.
  - apply fd_set_alter; [exact Hs|]. intros w Hw. apply word_bits. intros k Hk. rewrite Z.lor_spec.
    rewrite (proj1 (word_bits w) Hw k Hk). destruct (Z_lt_dec k 0); [apply Z.testbit_neg_r; lia|].
    rewrite Z.pow2_bits_false by lia. reflexivity.
  - intros x. rewrite !memberE. destruct (decide (valid_fd x)) as [Hx|Hx].
    2: { split; [intros [? _]; contradiction|]. intros [[? _]| ->]; contradiction. }
    pose proof (pos64 x Hx) as (Q1 & Q2 & Q3). rewrite nth_alter by (rewrite (proj1 Hs); lia). case_decide as E.
    + rewrite Z.lor_spec, orb_true_iff.
      destruct (decide (x = fd)) as [->|Hne].
      * rewrite Z.pow2_bits_true by lia. tauto.
      * rewrite Z.pow2_bits_false by lia. intuition discriminate.
    + assert (x <> fd) by (intros ->; apply E; reflexivity). tauto.
Qed.
Lemma clear_spec s fd : fd_set s -> valid_fd fd ->
  exists s', fdset_clear s fd = Done s' /\ fd_set s' /\ forall x, member s' x <-> member s x /\ x <> fd.
Proof.
  intros Hs Hv. unfold fdset_clear. rewrite (proj2 (fd_okE fd) Hv). eexists. split; [reflexivity|].
  pose proof (pos64 fd Hv) as (P1 & P2 & P3). split.
  - apply fd_set_alter; [exact Hs|]. intros w Hw. apply word_bits. intros k Hk. rewrite Z.land_spec.
    rewrite (proj1 (word_bits w) Hw k Hk). reflexivity.
  - intros x. rewrite !memberE. destruct (decide (valid_fd x)) as [Hx|Hx]; [|tauto].
    pose proof (pos64 x Hx) as (Q1 & Q2 & Q3). rewrite nth_alter by (rewrite (proj1 Hs); lia). case_decide as E.
    + rewrite Z.land_spec, andb_true_iff, Z.lnot_spec by lia.
      destruct (decide (x = fd)) as [->|Hne].
      * rewrite Z.pow2_bits_true by lia. cbn. intuition discriminate.
      * rewrite Z.pow2_bits_false by lia. cbn. tauto.
    + assert (x <> fd) by (intros ->; apply E; reflexivity). tauto.
Qed.
Lemma new_spec : fd_set fdset_new /\ forall x, ~ member fdset_new x.
Proof.
  split; [split; [reflexivity|]; unfold fdset_new; apply Forall_replicate; lia|].
  intros x H. apply memberE in H as [_ H]. unfold fdset_new in H.
  rewrite nth_lookup in H. destruct (replicate 16 0 !! Z.to_nat (x / 64)) eqn:E.
  - apply lookup_replicate in E as [-> _]. cbn in H. rewrite Z.bits_0 in H. discriminate H.
  - cbn in H. rewrite Z.bits_0 in H. discriminate H.
Qed.
Lemma empty_spec s : fd_set s -> fdset_is_empty s = true <-> forall x, ~ member s x.
Proof.
  intros [L F]. unfold fdset_is_empty. rewrite forallb_forall. split.
  - intros H x Hm. apply memberE in Hm as [Hv Hm]. pose proof (pos64 x Hv) as (P1 & P2 & P3).
    assert (Hin : In (nth (Z.to_nat (x / 64)) s 0) s) by (apply nth_In; lia).
    apply H in Hin. apply Z.eqb_eq in Hin. rewrite Hin, Z.bits_0 in Hm. discriminate Hm.
  - intros H w Hin. apply Z.eqb_eq.
    apply In_nth with (d := 0) in Hin as (i & Hi & E).
    apply Z.bits_inj'. intros k Hk. rewrite Z.bits_0.
    assert (Hw : 0 <= w < 2 ^ 64) by (rewrite Forall_forall in F; apply F; apply elem_of_list_In; rewrite <- E; apply nth_In; exact Hi).
    destruct (Z_lt_dec k 64) as [H64|H64]; [|apply (proj1 (word_bits w) Hw); lia].
    destruct (Z.testbit w k) eqn:Eb; [|reflexivity]. exfalso.
    apply (H (64 * Z.of_nat i + k)). apply memberE.
    assert (Hdiv : (64 * Z.of_nat i + k) / 64 = Z.of_nat i) by (symmetry; apply (Z.div_unique_pos _ _ _ k); lia).
    assert (Hmod : (64 * Z.of_nat i + k) mod 64 = k) by (symmetry; apply (Z.mod_unique_pos _ _ (Z.of_nat i)); lia).
    split; [unfold valid_fd; lia|]. rewrite Hdiv, Hmod, Nat2Z.id, E. exact Eb.
Qed.
(** translation of a kernel set *)
Lemma find_fst t fd lind : List.find (fun x : Z * Z => fst x =? fd) t = Some (fd, lind) -> (fd, lind) ∈ t.
Proof. intros H. apply find_some in H as [H _]. apply elem_of_list_In. exact H. Qed.
Lemma translate_spec kernel t : Forall (fun x => valid_fd (snd x)) t -> NoDup (map fst t) -> forall fds self,
  Forall valid_fd fds -> fd_set self ->
  exists s', translate kernel self t fds = Done s' /\ fd_set s' /\
    forall x, member s' x <-> member self x \/ exists raw, raw ∈ fds /\ (raw, x) ∈ t /\ member kernel raw.
Proof.
  intros Ht Hd. induction fds as [|fd fds IH]; intros self Hf Hs.
  - exists self. split; [reflexivity|]. split; [exact Hs|]. intros x. split; [auto|]. intros [H|(raw & H & _)]; [exact H|]. inversion H.
  - apply Forall_cons in Hf as [Hv Hf]. cbn [translate].
    destruct (is_set_total kernel fd Hv) as [b Eb]. rewrite Eb. destruct b.
    + destruct (List.find (fun x => fst x =? fd) t) as [[raw lind]|] eqn:Ef.
      * pose proof (find_some _ _ Ef) as [Hin Hfst]. cbn in Hfst. apply Z.eqb_eq in Hfst. subst raw.
        apply elem_of_list_In in Hin.
        assert (Hl : valid_fd lind) by (rewrite Forall_forall in Ht; exact (Ht _ Hin)).
        destruct (set_spec self lind Hs Hl) as (s1 & E1 & F1 & M1). rewrite E1.
        destruct (IH s1 Hf F1) as (s2 & E2 & F2 & M2). exists s2. split; [exact E2|]. split; [exact F2|].
        intros x. rewrite M2, M1. split.
        -- intros [[H| ->]|(raw & A & B & C)]; [left; exact H| |].
           ++ right. exists fd. split; [left|]. split; [exact Hin|exact Eb].
           ++ right. exists raw. split; [right; exact A|]. done.
        -- intros [H|(raw & A & B & C)]; [left; left; exact H|].
           apply elem_of_cons in A as [->|A]; [|right; exists raw; done].
           left. right.
           assert (Huniq : forall l, NoDup (map fst l) -> (fd, x) ∈ l -> (fd, lind) ∈ l -> x = lind).
           { clear. induction l as [|[r y] l IHl]; intros N A B; [inversion A|].
             cbn in N. apply NoDup_cons in N as [N1 N2].
             apply elem_of_cons in A as [A|A]; apply elem_of_cons in B as [B|B].
             - congruence.
             - injection A as -> ->. elim N1. change r with (fst (r, lind)). apply elem_of_list_fmap. exists (r, lind). done.
             - injection B as -> ->. elim N1. apply elem_of_list_fmap. exists (r, x). done.
             - exact (IHl N2 A B). }
           exact (Huniq t Hd B Hin).
      * destruct (IH self Hf Hs) as (s2 & E2 & F2 & M2). exists s2. split; [exact E2|]. split; [exact F2|].
        intros x. rewrite M2. split; [intros [H|(raw & A & B & C)]; [left; exact H|right; exists raw; split; [right; exact A|done]]|].
        intros [H|(raw & A & B & C)]; [left; exact H|]. apply elem_of_cons in A as [->|A]; [|right; exists raw; done].
        exfalso. apply elem_of_list_In in B. pose proof (List.find_none _ _ Ef _ B) as Hc. cbn in Hc. rewrite Z.eqb_refl in Hc. discriminate Hc.
    + destruct (IH self Hf Hs) as (s2 & E2 & F2 & M2). exists s2. split; [exact E2|]. split; [exact F2|].
      intros x. rewrite M2. split; [intros [H|(raw & A & B & C)]; [left; exact H|right; exists raw; split; [right; exact A|done]]|].
      intros [H|(raw & A & B & C)]; [left; exact H|]. apply elem_of_cons in A as [->|A]; [|right; exists raw; done].
      unfold member in C. rewrite Eb in C. discriminate C.
Qed.
Lemma kernel_set_spec kernel self n t : fd_set self -> 0 <= n <= 1024 -> Forall (fun x => valid_fd (snd x)) t -> NoDup (map fst t) ->
  exists s', set_from_kernelfds kernel self n t = Done s' /\ fd_set s' /\
    forall x, member s' x <-> member self x \/ exists raw, 0 <= raw < n /\ (raw, x) ∈ t /\ member kernel raw.
Proof.
  intros Hs Hn Ht Hd. unfold set_from_kernelfds.
  destruct (translate_spec kernel t Ht Hd (seqZ 0 n) self) as (s' & E & F & M); [|exact Hs|].
  { apply Forall_forall. intros x Hx. apply elem_of_seqZ in Hx. unfold valid_fd. lia. }
  exists s'. split; [exact E|]. split; [exact F|]. intros x. rewrite M. split.
  - intros [H|(raw & A & B)]; [left; exact H|]. right. exists raw. apply elem_of_seqZ in A. split; [lia|exact B].
  - intros [H|(raw & A & B)]; [left; exact H|]. right. exists raw. split; [apply elem_of_seqZ; lia|exact B].
Qed.

(** chdir to what getcwd said *)
Lemma getcwd_chdir w c n w1 s : reach true w -> step w c (Getcwd n) = Done (w1, RetPath s) ->
  (forall cwd, w_cwd w !! c = Some cwd -> denotes cwd s cwd) /\
  exists w' r, step w1 c (Chdir s) = Done (w', Ret r) /\ w_cwd w' = w_cwd w.
Proof.
  intros Hr H. pose proof (reach_winv _ _ Hr) as Hw. unfold step in H.
  destruct (w_cwd w !! c) as [cwd|] eqn:Hc; [|discriminate H]. injection H as <- H.
  unfold getcwd_syscall in H. destruct (n =? 0); [discriminate H|]. destruct (_ <? _) in H; [discriminate H|]. injection H as <-.
  pose proof (u_cwd _ Hw _ _ Hc) as Hcan.
  split. { intros ? [= <-]. apply denotes_normpath. symmetry. apply normpath_render. exact Hcan. }
  unfold step. rewrite Hc. unfold ret, chdir_syscall. rewrite normpath_render by exact Hcan.
  destruct (metawalk_done w cwd Hw Hcan) as (o & E & Hi). rewrite E. cbn [obind].
  destruct o as [i|]; [|eexists _, _; split; reflexivity].
  destruct (Hi i eq_refl) as [x Hx]. unfold get_ino. rewrite Hx. cbn [obind].
  destruct (i_kind x); (eexists _, _; split; [reflexivity|]); try reflexivity.
  cbn [with_cwd w_cwd]. apply insert_id. exact Hc.
Qed.
