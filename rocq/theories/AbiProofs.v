(** Proofs for the boundary: words, timeouts, memory, socket addresses. *)
From Coq Require Import Ascii.
From Verif Require Import Base PathModel FsModel AbiModel AbiSpec.
Local Open Scope list_scope.
Local Open Scope Z_scope.

(** ** Words *)
Lemma high_mask w : Z.land w (to_u64 (Z.lnot LOW32)) = Z.shiftl (Z.shiftr w 32 mod 2 ^ 32) 32.
Proof.
  assert (Hm : forall n, 0 <= n -> Z.testbit (to_u64 (Z.lnot LOW32)) n = (32 <=? n) && (n <? 64)).
  { intros n Hn. unfold to_u64, wrap_u, LOW32. destruct (Z_lt_dec n 64) as [H|H].
    - rewrite Z.mod_pow2_bits_low by lia. rewrite Z.lnot_spec by lia.
      replace 4294967295 with (Z.ones 32) by reflexivity.
      destruct (Z_lt_dec n 32); [rewrite Z.ones_spec_low by lia|rewrite Z.ones_spec_high by lia]; cbn; lia.
    - rewrite Z.mod_pow2_bits_high by lia. lia. }
  apply Z.bits_inj'. intros n Hn. rewrite Z.land_spec, Hm by lia.
  rewrite Z.shiftl_spec by lia.
  destruct (Z_lt_dec n 32) as [H|H].
  { rewrite (Z.testbit_neg_r _ (n - 32)) by lia. replace (32 <=? n) with false by lia. cbn. apply andb_false_r. }
  destruct (Z_lt_dec n 64) as [H2|H2].
  - rewrite Z.mod_pow2_bits_low by lia. rewrite Z.shiftr_spec by lia. replace (n - 32 + 32) with n by lia.
    replace (32 <=? n) with true by lia. replace (n <? 64) with true by lia. apply andb_true_r.
  - rewrite Z.mod_pow2_bits_high by lia. replace (n <? 64) with false by lia. rewrite andb_false_r. apply andb_false_r.
Qed.
Lemma high_zero w : is_word w -> (Z.land w (to_u64 (Z.lnot LOW32)) =? 0) = (w <? 2 ^ 32).
Proof.
  intros Hw. unfold is_word in Hw. rewrite high_mask, Z.shiftl_mul_pow2, Z.shiftr_div_pow2 by lia.
  assert (0 <= w / 2 ^ 32 < 2 ^ 32) by (split; [apply Z.div_pos; lia|apply Z.div_lt_upper_bound; lia]).
  rewrite Z.mod_small by lia.
  destruct (Z_lt_dec w (2 ^ 32)) as [H0|H0].
  - rewrite (Z.div_small w (2 ^ 32)) by lia. replace (w <? 2 ^ 32) with true by lia. reflexivity.
  - assert (1 <= w / 2 ^ 32) by (apply Z.div_le_lower_bound; lia).
    replace (w <? 2 ^ 32) with false by lia. apply Z.eqb_neq. lia.
Qed.
Lemma to_i32_mod v : is_int v -> to_i32 (v mod 2 ^ 32) = v.
Proof.
  unfold is_int, to_i32, wrap_u. intros H. rewrite Z.mod_mod by lia.
  destruct (Z_lt_dec v 0).
  - rewrite <- (Z.mod_unique v (2 ^ 32) (-1) (v + 2 ^ 32)) by lia. destruct (_ <? _) eqn:E; lia.
  - rewrite Z.mod_small by lia. destruct (_ <? _) eqn:E; lia.
Qed.
Lemma get_int_exact v : is_int v -> get_int (zero_extended 32 v) = Ok v.
Proof.
  intros H. unfold get_int, zero_extended.
  assert (0 <= v mod 2 ^ 32 < 2 ^ 32) by (apply Z.mod_pos_bound; lia).
  rewrite high_zero by (unfold is_word; lia). replace (v mod 2 ^ 32 <? 2 ^ 32) with true by lia.
  rewrite to_i32_mod by exact H. reflexivity.
Qed.
Lemma get_uint_exact v : is_uint v -> get_uint (zero_extended 32 v) = Ok v.
Proof.
  unfold is_uint, get_uint, zero_extended. intros H. rewrite Z.mod_small by lia.
  rewrite high_zero by (unfold is_word; lia). replace (v <? 2 ^ 32) with true by lia.
  unfold to_u32, wrap_u. rewrite Z.mod_small by lia. reflexivity.
Qed.
Lemma get_long_exact v : is_long v -> get_long (v mod 2 ^ 64) = Ok v.
Proof.
  unfold is_long, get_long, to_i64, wrap_u. intros H. rewrite Z.mod_mod by lia. f_equal.
  destruct (Z_lt_dec v 0).
  - rewrite <- (Z.mod_unique v (2 ^ 64) (-1) (v + 2 ^ 64)) by lia. destruct (_ <? _) eqn:E; lia.
  - rewrite Z.mod_small by lia. destruct (_ <? _) eqn:E; lia.
Qed.
Lemma get_int_wide w : is_word w -> 2 ^ 32 <= w -> get_int w = Fail (err EINVAL) /\ get_uint w = Fail (err EINVAL).
Proof.
  intros Hw H. unfold get_int, get_uint. rewrite high_zero by exact Hw.
  replace (w <? 2 ^ 32) with false by lia. done.
Qed.
Lemma get_int_only w v : is_word w -> get_int w = Ok v -> is_int v /\ w = zero_extended 32 v.
Proof.
  intros Hw H. unfold get_int in H. rewrite high_zero in H by exact Hw. unfold is_word in Hw.
  destruct (w <? 2 ^ 32) eqn:E; [|discriminate]. injection H as <-.
  unfold is_int, zero_extended, to_i32, wrap_u. rewrite Z.mod_small by lia.
  destruct (w <? 2 ^ 31) eqn:E2.
  - rewrite Z.mod_small by lia. lia.
  - split; [lia|]. apply (Z.mod_unique _ _ (-1)); lia.
Qed.
Lemma get_int_negative v : is_int v -> v < 0 -> get_int (sign_extended v) = Fail (err EINVAL).
Proof.
  unfold is_int, sign_extended. intros H Hn.
  rewrite <- (Z.mod_unique v (2 ^ 64) (-1) (v + 2 ^ 64)) by lia.
  apply get_int_wide; unfold is_word; lia.
Qed.

(** ** Timeouts *)
Lemma to_u64_small s : 0 <= s < 2 ^ 63 -> to_u64 s = s.
Proof. intros H. unfold to_u64, wrap_u. rewrite Z.mod_small by lia. reflexivity. Qed.
Lemma to_u32_small s : 0 <= s < 2 ^ 32 -> to_u32 s = s.
Proof. intros H. unfold to_u32, wrap_u. rewrite Z.mod_small by lia. reflexivity. Qed.
Lemma timeval_exact s u : 0 <= s < 2 ^ 63 -> 0 <= u < 1000000 ->
  duration_fromtimeval (Some (s, u)) = Done (Some (s * 1000000000 + u * 1000)).
Proof.
  intros Hs Hu. unfold duration_fromtimeval. rewrite to_u32_small, to_u64_small by lia.
  unfold mul32. replace (2 ^ 32 <=? u * 1000) with false by lia.
  unfold duration_new, NS. rewrite (Z.div_small (u * 1000)) by lia.
  replace (2 ^ 64 <=? s + 0) with false by lia. reflexivity.
Qed.
Lemma timespec_char s n : 0 <= s < 2 ^ 63 -> 0 <= n < 1000000000 ->
  duration_fromtimespec (Some (s, n)) = if n <? 5 then Done (Ok ((s + n) * 1000000000)) else Panic.
Proof.
  intros Hs Hn. unfold duration_fromtimespec, NS.
  replace ((n <? 0) || (1000000000 <=? n)) with false by lia.
  rewrite to_u32_small, to_u64_small by lia. unfold mul32.
  destruct (n <? 5) eqn:E.
  - replace (2 ^ 32 <=? n * 1000000000) with false by lia.
    unfold duration_new, NS. rewrite Z.div_mul by lia. replace (2 ^ 64 <=? s + n) with false by lia.
    do 2 f_equal. lia.
  - replace (2 ^ 32 <=? n * 1000000000) with true by lia. reflexivity.
Qed.
Lemma timespec_refused s n : n < 0 \/ 1000000000 <= n -> duration_fromtimespec (Some (s, n)) = Done (Fail (err EINVAL)).
Proof. intros H. unfold duration_fromtimespec, NS. replace ((n <? 0) || (1000000000 <=? n)) with true by lia. reflexivity. Qed.
Lemma millis_exact ms : is_int ms ->
  get_duration_from_millis (zero_extended 32 ms) = Ok (if ms <? 0 then None else Some (ms * 1000000)).
Proof.
  intros H. unfold get_duration_from_millis. rewrite get_int_exact by exact H.
  destruct (ms <? 0) eqn:E; destruct (0 <=? ms) eqn:E2; try lia; reflexivity.
Qed.

(** ** Memory *)
Lemma length_le n : forall v, length (le n v) = n.
Proof. induction n as [|n IH]; intros v; [reflexivity|]. cbn. f_equal. apply IH. Qed.
Lemma of_le_le n : forall v, 0 <= v < 256 ^ Z.of_nat n -> of_le (le n v) = v.
Proof.
  induction n as [|n IH]; intros v H; [cbn in *; lia|].
  rewrite Nat2Z.inj_succ, Z.pow_succ_r in H by lia.
  cbn [le of_le]. rewrite IH.
  - pose proof (Z_div_mod_eq_full v 256). lia.
  - split; [apply Z.div_pos; lia|apply Z.div_lt_upper_bound; lia].
Qed.
Lemma le_byte n : forall v, Forall is_byte (le n v).
Proof.
  induction n as [|n IH]; intros v; [constructor|]. cbn. constructor; [|apply IH].
  unfold is_byte. apply Z.mod_pos_bound. lia.
Qed.
Lemma of_le_pos bs : Forall is_byte bs -> 0 <= of_le bs.
Proof. induction 1 as [|b r Hb _ IH]; [reflexivity|]. cbn [of_le]. unfold is_byte in Hb. lia. Qed.
Lemma length_load m p n : length (load m p n) = n.
Proof. unfold load. rewrite map_length, seq_length. reflexivity. Qed.
Lemma load_nth m p n k : (k < n)%nat -> nth_error (load m p n) k = Some (m (p + Z.of_nat k)).
Proof.
  intros H. unfold load.
  rewrite (map_nth_error _ k (seq 0 n) (d := k)); [reflexivity|].
  rewrite (nth_error_nth' (seq 0 n) O) by (rewrite seq_length; exact H). rewrite seq_nth by exact H. reflexivity.
Qed.
Lemma store_in m p bs k : (k < length bs)%nat -> store m p bs (p + Z.of_nat k) = nth k bs 0.
Proof.
  intros H. unfold store. replace ((p <=? p + Z.of_nat k) && (p + Z.of_nat k <? p + Z.of_nat (length bs))) with true by lia.
  f_equal. lia.
Qed.
Lemma store_out m p bs a : ~ (p <= a < p + Z.of_nat (length bs)) -> store m p bs a = m a.
Proof. intros H. unfold store. destruct ((p <=? a) && (a <? p + Z.of_nat (length bs))) eqn:E; [lia|reflexivity]. Qed.
Lemma load_ext m m' p n : (forall a, p <= a < p + Z.of_nat n -> m' a = m a) -> load m' p n = load m p n.
Proof.
  intros H. unfold load. apply map_ext_in. intros k Hk. apply in_seq in Hk. apply H. lia.
Qed.
Lemma nth_error_ext {A} (l l' : list A) : (forall k, nth_error l k = nth_error l' k) -> l = l'.
Proof.
  revert l'. induction l as [|a l IH]; intros [|b l'] H; try reflexivity; try discriminate (H O).
  f_equal; [exact (match H O in _ = x return Some a = x with eq_refl => eq_refl end : Some a = Some b) || (injection (H O); auto)|].
  apply IH. intros k. exact (H (S k)).
Qed.
Lemma nth_error_lookup {A} (l : list A) : forall k, nth_error l k = l !! k.
Proof. induction l as [|a l IH]; intros [|k]; try reflexivity. apply IH. Qed.
Lemma load_store m p bs k n : (k + n <= length bs)%nat -> load (store m p bs) (p + Z.of_nat k) n = take n (drop k bs).
Proof.
  intros H. apply nth_error_ext. intros j.
  destruct (Nat.lt_ge_cases j n) as [Hj|Hj].
  - rewrite load_nth by exact Hj.
    replace (p + Z.of_nat k + Z.of_nat j) with (p + Z.of_nat (k + j)) by lia.
    rewrite store_in by lia. rewrite !nth_error_lookup. rewrite lookup_take by exact Hj. rewrite lookup_drop.
    symmetry. rewrite <- nth_error_lookup. apply nth_error_nth'. lia.
  - replace (nth_error (load (store m p bs) (p + Z.of_nat k) n) j) with (@None Z)
      by (symmetry; apply nth_error_None; rewrite length_load; exact Hj).
    symmetry. apply nth_error_None. rewrite take_length. lia.
Qed.
Lemma load4 m p : of_le (load m p 4) = number_at m p.
Proof. unfold load, number_at. cbn [seq map of_le]. change (Z.of_nat 0) with 0. change (Z.of_nat 1) with 1. change (Z.of_nat 2) with 2. change (Z.of_nat 3) with 3. rewrite Z.add_0_r. lia. Qed.

(** ** Socket addresses *)
Lemma sock_len_size g : sock_len g = size_of g.
Proof. destruct g; reflexivity. Qed.
Lemma length_sock f g : address f g -> length (sock_bytes g) = Z.to_nat (size_of g).
Proof.
  destruct g; cbn [address sock_bytes size_of]; intros H; rewrite !app_length, ?length_le.
  - destruct H as (_ & -> & _). reflexivity.
  - reflexivity.
  - destruct H as (_ & _ & _ & -> & _). reflexivity.
Qed.
(** what the buffer and the length cell hold afterwards *)
Lemma copy_out_length m p lp g : bytes_only m -> number_at (copy_out_sockaddr m p lp g) lp = size_of g.
Proof.
  intros Hb. unfold copy_out_sockaddr. rewrite <- load4.
  set (l := le 4 _).
  pose proof (load_store (store m p (take (Z.to_nat (Z.min (of_le (load m lp 4)) (sock_len g))) (sock_bytes g))) lp l 0 4) as H.
  rewrite Z.add_0_r in H. rewrite H by (unfold l; rewrite length_le; lia).
  rewrite drop_0, take_ge by (unfold l; rewrite length_le; lia).
  unfold l. rewrite sock_len_size, Z.max_l by lia. apply of_le_le. destruct g; cbn; lia.
Qed.
Lemma copy_out_buffer m p lp g : bytes_only m -> address (family_of g) g ->
  (lp + 4 <= p \/ p + size_of g <= lp) ->
  lies (copy_out_sockaddr m p lp g) p (take (Z.to_nat (Z.min (number_at m lp) (size_of g))) (sock_bytes g)).
Proof.
  intros Hb Ha Hd k b Hk. unfold copy_out_sockaddr. rewrite load4, sock_len_size.
  assert (Hlen : (k < length (take (Z.to_nat (Z.min (number_at m lp) (size_of g))) (sock_bytes g)))%nat)
    by (apply nth_error_Some; rewrite Hk; discriminate).
  pose proof Hlen as Hlen2. rewrite take_length, (length_sock _ _ Ha) in Hlen2.
  rewrite store_out by (rewrite length_le; lia). rewrite store_in by exact Hlen.
  apply (nth_error_nth _ _ 0) in Hk. exact Hk.
Qed.
Lemma copy_out_frame m p lp g a : address (family_of g) g ->
  ~ (p <= a < p + Z.min (number_at m lp) (size_of g)) -> ~ (lp <= a < lp + 4) -> copy_out_sockaddr m p lp g a = m a.
Proof.
  intros Ha H1 H2. unfold copy_out_sockaddr. rewrite load4, sock_len_size.
  rewrite store_out by (rewrite length_le; lia).
  apply store_out. rewrite take_length, (length_sock _ _ Ha). lia.
Qed.
(** reading a structure that lies in memory *)
Lemma load_lies m p bs k n : lies m p bs -> (k + n <= length bs)%nat -> load m (p + Z.of_nat k) n = take n (drop k bs).
Proof.
  intros H Hk. rewrite <- (load_store m p bs k n Hk). apply load_ext. intros a Ha.
  replace a with (p + Z.of_nat (Z.to_nat (a - p))) by lia.
  rewrite store_in by lia. apply H. apply nth_error_nth'. lia.
Qed.
Lemma load_lies0 m p bs n : lies m p bs -> (n <= length bs)%nat -> load m p n = take n bs.
Proof. intros H Hk. pose proof (load_lies m p bs 0 n H) as E. rewrite Z.add_0_r, drop_0 in E. apply E. lia. Qed.
Lemma get_lies m p g : p <> 0 -> address (family_of g) g -> ~ is_v6 g -> lies m p (sock_bytes g) -> get_sockaddr m p (size_of g) = Ok g.
Proof.
  intros Hp Ha Hv Hl. pose proof (length_sock _ _ Ha) as Hlen. unfold get_sockaddr.
  replace (p =? 0) with false by lia.
  destruct g as [f path|f port addr pad|f port flow addr scope]; [| |elim Hv; exact I]; cbn [address family_of size_of sock_bytes] in *; unfold AF_UNIX, AF_INET in *.
  - destruct Ha as (-> & Hpl & Hpb).
    rewrite (load_lies0 _ _ _ 2 Hl) by lia. rewrite take_app_le by (rewrite length_le; lia). rewrite take_ge by (rewrite length_le; lia).
    rewrite of_le_le by (cbn; lia). cbn [Z.eqb Pos.eqb].
    replace ((110 <? SIZEOF_SOCKADDR) || (UNIX_LEN <? 110)) with false by reflexivity.
    replace (p + 2) with (p + Z.of_nat 2) by lia. rewrite (load_lies _ _ _ 2 108 Hl) by lia.
    rewrite drop_app_alt by (rewrite length_le; lia). rewrite take_ge by lia. reflexivity.
  - destruct Ha as (-> & H1 & H2 & H3).
    rewrite (load_lies0 _ _ _ 2 Hl) by lia. rewrite take_app_le by (rewrite length_le; lia). rewrite take_ge by (rewrite length_le; lia).
    rewrite of_le_le by (cbn; lia). cbn [Z.eqb Pos.eqb].
    replace (16 <? V4_LEN) with false by reflexivity.
    replace (p + 2) with (p + Z.of_nat 2) by lia. rewrite (load_lies _ _ _ 2 2 Hl) by lia.
    replace (p + 4) with (p + Z.of_nat 4) by lia. rewrite (load_lies _ _ _ 4 4 Hl) by lia.
    replace (p + 8) with (p + Z.of_nat 8) by lia. rewrite (load_lies _ _ _ 8 8 Hl) by lia.
    change (take 2 (drop 2 (le 2 2 ++ le 2 port ++ le 4 addr ++ le 8 pad))) with (le 2 port).
    change (take 4 (drop 4 (le 2 2 ++ le 2 port ++ le 4 addr ++ le 8 pad))) with (le 4 addr).
    change (take 8 (drop 8 (le 2 2 ++ le 2 port ++ le 4 addr ++ le 8 pad))) with (le 8 pad).
    rewrite !of_le_le by (cbn; lia). reflexivity.
Qed.
Lemma sock_round_trip m p lp g : bytes_only m -> p <> 0 -> address (family_of g) g -> ~ is_v6 g ->
  size_of g <= number_at m lp -> (lp + 4 <= p \/ p + size_of g <= lp) ->
  let m' := copy_out_sockaddr m p lp g in get_sockaddr m' p (number_at m' lp) = Ok g.
Proof.
  intros Hb Hp Ha Hv Hs Hd m'. unfold m'. rewrite copy_out_length by exact Hb.
  apply get_lies; [exact Hp|exact Ha|exact Hv|].
  pose proof (copy_out_buffer m p lp g Hb Ha Hd) as H. rewrite Z.min_r in H by exact Hs.
  rewrite take_ge in H; [exact H|]. rewrite (length_sock _ _ Ha). lia.
Qed.
Lemma sock_v6_refused m p lp g : bytes_only m -> p <> 0 -> address (family_of g) g -> is_v6 g ->
  size_of g <= number_at m lp -> (lp + 4 <= p \/ p + size_of g <= lp) ->
  let m' := copy_out_sockaddr m p lp g in get_sockaddr m' p (number_at m' lp) = Fail (err EOPNOTSUPP).
Proof.
  intros Hb Hp Ha Hv Hs Hd m'. 
  pose proof (copy_out_buffer m p lp g Hb Ha Hd) as H. rewrite Z.min_r in H by exact Hs.
  rewrite take_ge in H by (rewrite (length_sock _ _ Ha); lia). fold m' in H.
  destruct g as [| |f port flow addr scope]; [elim Hv|elim Hv|]. cbn [address family_of] in Ha. destruct Ha as (-> & _).
  unfold get_sockaddr. replace (p =? 0) with false by lia.
  assert (E : of_le (load m' p 2) = 10).
  { rewrite (load_lies0 _ _ _ 2 H) by (cbn [sock_bytes]; rewrite !app_length, !length_le; lia). reflexivity. }
  rewrite E. reflexivity.
Qed.
(** a decoded internet address depends only on the bytes given *)
Lemma get_local m m' p n g : same_at m m' p n -> get_sockaddr m p n = Ok g -> (forall f path, g <> GUnix f path) ->
  get_sockaddr m' p n = Ok g.
Proof.
  intros Hs. unfold get_sockaddr. destruct (p =? 0); [discriminate|].
  assert (Hl : forall k j, Z.of_nat k + Z.of_nat j <= n -> load m' (p + Z.of_nat k) j = load m (p + Z.of_nat k) j).
  { intros k j Hk. apply load_ext. intros a Ha. apply Hs. lia. }
  intros H Hu.
  assert (H16 : 16 <= n).
  { destruct (_ =? 1); [destruct (_ || _) eqn:E; [discriminate H|unfold SIZEOF_SOCKADDR in E; lia]|].
    destruct (_ =? 2); [destruct (n <? V4_LEN) eqn:E; [discriminate H|unfold V4_LEN in E; lia]|].
    destruct (_ =? 30); [destruct (n <? V6_LEN) eqn:E; [discriminate H|unfold V6_LEN in E; lia]|discriminate H]. }
  assert (E0 : load m' p 2 = load m p 2).
  { pose proof (Hl 0%nat 2%nat) as E. rewrite Z.add_0_r in E. apply E. lia. }
  rewrite E0.
  destruct (of_le (load m p 2) =? 1) eqn:F1.
  { destruct (_ || _); [discriminate H|]. injection H as H. elim (Hu _ _ (eq_sym H)). }
  destruct (of_le (load m p 2) =? 2) eqn:F2.
  { destruct (n <? V4_LEN) eqn:E; [discriminate H|].
    pose proof (Hl 2%nat 2%nat) as A. pose proof (Hl 4%nat 4%nat) as B. pose proof (Hl 8%nat 8%nat) as C.
    change (Z.of_nat 2) with 2 in A; change (Z.of_nat 4) with 4 in B; change (Z.of_nat 8) with 8 in C. rewrite A, B, C by (unfold V4_LEN in E; lia). exact H. }
  destruct (of_le (load m p 2) =? 30) eqn:F3; [|discriminate H].
  destruct (n <? V6_LEN) eqn:E; [discriminate H|].
  pose proof (Hl 2%nat 2%nat) as A. pose proof (Hl 4%nat 4%nat) as B. pose proof (Hl 8%nat 16%nat) as C. pose proof (Hl 24%nat 4%nat) as D.
  change (Z.of_nat 2) with 2 in A; change (Z.of_nat 4) with 4 in B; change (Z.of_nat 8) with 8 in C; change (Z.of_nat 24) with 24 in D. rewrite A, B, C, D by (unfold V6_LEN in E; lia). exact H.
Qed.
(** the path of a local address: up to the NUL, if there is one in the bytes
    given *)
Lemma until_nul_stop a : forall l, 0 ∉ a -> until_nul (a ++ 0 :: l) = a.
Proof.
  induction a as [|b a IH]; intros l H; [reflexivity|]. cbn.
  apply not_elem_of_cons in H as [H1 H2]. replace (b =? 0) with false by lia. rewrite IH by exact H2. reflexivity.
Qed.
Lemma until_nul_pad a n : 0 ∉ a -> until_nul (a ++ replicate n 0) = a.
Proof.
  intros H. destruct n as [|n]; [|cbn [replicate]; apply until_nul_stop; exact H].
  cbn [replicate]. rewrite app_nil_r. induction a as [|b a IH]; [reflexivity|]. cbn.
  apply not_elem_of_cons in H as [H1 H2]. replace (b =? 0) with false by lia. rewrite IH by exact H2. reflexivity.
Qed.
Lemma get_unix_path m p n path : p <> 0 -> 16 <= n <= 110 -> lies m p (1 :: 0 :: path ++ [0]) -> 0 ∉ path ->
  2 + Z.of_nat (length path) + 1 <= n ->
  exists g, get_sockaddr m p n = Ok g /\ path_bytes g = path.
Proof.
  intros Hp Hn Hl H0 Hlen. unfold get_sockaddr. replace (p =? 0) with false by lia.
  rewrite (load_lies0 _ _ _ 2 Hl) by (cbn; rewrite app_length; cbn; lia).
  change (of_le (take 2 (1 :: 0 :: path ++ [0]))) with 1. cbn [Z.eqb Pos.eqb].
  replace ((n <? SIZEOF_SOCKADDR) || (UNIX_LEN <? n)) with false by (unfold SIZEOF_SOCKADDR, UNIX_LEN; lia).
  eexists. split; [reflexivity|]. cbn [path_bytes].
  assert (E : load m (p + 2) 108 = path ++ 0 :: load m (p + 2 + Z.of_nat (length path) + 1) (108 - length path - 1)).
  { apply nth_error_ext. intros k. destruct (Nat.lt_ge_cases k 108) as [Hk|Hk].
    - rewrite load_nth by exact Hk.
      destruct (Nat.lt_ge_cases k (length path)) as [H1|H1].
      + rewrite nth_error_app1 by exact H1. destruct (nth_error path k) eqn:E; [|apply nth_error_None in E; lia].
        f_equal. replace (p + 2 + Z.of_nat k) with (p + Z.of_nat (S (S k))) by lia. apply Hl. cbn. rewrite nth_error_app1 by exact H1. exact E.
      + rewrite nth_error_app2 by exact H1. destruct (k - length path)%nat eqn:E.
        * cbn. f_equal. replace (p + 2 + Z.of_nat k) with (p + Z.of_nat (S (S k))) by lia. apply Hl. cbn. rewrite nth_error_app2 by exact H1. rewrite E. reflexivity.
        * cbn [nth_error]. rewrite load_nth by lia. do 2 f_equal. lia.
    - transitivity (@None Z); [apply nth_error_None; rewrite length_load; exact Hk|].
      symmetry. apply nth_error_None. rewrite app_length. cbn [length]. rewrite length_load. lia. }
  rewrite E. apply until_nul_stop. exact H0.
Qed.
