(** Proofs for the entry point of the socket calls: every case of the table. *)
From stdpp Require Import gmap.
From Verif Require Import Base AbiModel AbiSpec AbiProofs AbiBuf EntryModel EntrySpec EntryProofs NetModel NetSpec WireModel WireSpec WireProofs.
Local Open Scope list_scope.
Local Open Scope Z_scope.

(** ** Paths *)
Lemma until_pad a k : 0 ∉ a -> until_nul (a ++ replicate k 0) = a.
Proof.
  induction a as [|b a IH]; intros N.
  - destruct k; reflexivity.
  - cbn [app until_nul]. destruct (b =? 0) eqn:E; [exfalso; apply N; apply Z.eqb_eq in E as ->; left|]. rewrite IH; [reflexivity|]. intros H. apply N. right. exact H.
Qed.
Lemma until_no_nul p : 0 ∉ until_nul p.
Proof.
  induction p as [|b p IH]; cbn [until_nul]; [apply not_elem_of_nil|]. destruct (b =? 0) eqn:E; [apply not_elem_of_nil|].
  apply not_elem_of_cons. split; [lia|exact IH].
Qed.
Lemma forallb_no_slash r : forallb (fun b => negb (b =? 47)) r = true <-> 47 ∉ r.
Proof.
  induction r as [|b r IH]; cbn [forallb]; [split; [intros _; apply not_elem_of_nil|reflexivity]|].
  rewrite andb_true_iff, IH, not_elem_of_cons. split; intros [H1 H2]; (split; [lia|exact H2]).
Qed.
Lemma plain_local p : length p = 108%nat -> plain_path p = true <-> local_path p.
Proof.
  intros L. unfold plain_path, local_path. split.
  - intros H. rewrite !andb_true_iff in H. destruct H as (((H1 & H2) & H3) & H4). apply bool_decide_eq_true in H1. pose proof (until_no_nul p) as N0.
    destruct (until_nul p) as [|s r] eqn:U; [discriminate H3|]. rewrite !andb_true_iff in H3. destruct H3 as ((((H3 & H5) & H6) & H7) & H8).
    apply Z.eqb_eq in H3 as ->. apply forallb_no_slash in H6.
    rewrite negb_true_iff, bool_decide_eq_false in H5, H7, H8, H4. apply not_elem_of_cons in N0 as [_ N0].
    assert (Lr : (length r <= 107)%nat) by (rewrite H1 in L; unfold pad in L; rewrite app_length, replicate_length in L; cbn [length] in L; lia).
    exists r. split; [|split; [|split; [exact N0|split; [exact H6|split; [apply utf8_unicode; exact H2|split; [exact H7|split; [exact H8|]]]]]]].
    + rewrite H1. unfold pad. cbn [length app]. reflexivity.
    + destruct r; [contradiction|cbn [length] in *; lia].
    + intros E. apply H4. cbn [take]. unfold SOCK. f_equal. exact E.
  - intros (r & E & Lr & N0 & N47 & U & D1 & D2 & S).
    assert (Eu : until_nul p = 47 :: r).
    { rewrite E. change (47 :: r ++ replicate (107 - length r) 0) with ((47 :: r) ++ replicate (107 - length r) 0). apply until_pad. apply not_elem_of_cons. split; [lia|exact N0]. }
    rewrite Eu. rewrite !andb_true_iff, !negb_true_iff, !bool_decide_eq_false. split; [split; [split; [apply bool_decide_eq_true|apply unicode_utf8; exact U]|]|].
    + rewrite E. unfold pad. cbn [length app]. reflexivity.
    + split; [|exact D2]. split; [|exact D1]. split; [split; [reflexivity|]|apply forallb_no_slash; exact N47]. intros ->. cbn in Lr. lia.
    + intros Q. apply S. cbn [take] in Q. unfold SOCK in Q. injection Q as Q. exact Q.
Qed.
(** ** Addresses *)
Lemma address_get m p len path : bytes_only m -> address_at m p len path -> get_sockaddr m p len = Ok (GUnix 1 path).
Proof.
  intros B (N & L & A & Lp). unfold get_sockaddr. replace (p =? 0) with false by lia. rewrite load2.
  assert (F : short_at m p = 1).
  { unfold short_at. pose proof (A 0%nat 1 eq_refl) as H0. pose proof (A 1%nat 0 eq_refl) as H1. change (Z.of_nat 0) with 0 in H0. rewrite Z.add_0_r in H0. change (Z.of_nat 1) with 1 in H1. lia. }
  rewrite F. unfold SIZEOF_SOCKADDR, UNIX_LEN. replace (len <? 16) with false by lia. replace (110 <? len) with false by lia. cbn [Z.eqb Pos.eqb orb].
  f_equal. f_equal. pose proof (load_lies m p ([1; 0] ++ path) 2 108 A) as H. change (Z.of_nat 2) with 2 in H. rewrite H by (rewrite app_length, Lp; cbn; lia).
  cbn [app drop]. apply take_ge. lia.
Qed.
Lemma get_address m p len g : bytes_only m -> get_sockaddr m p len = Ok g ->
  (exists path, g = GUnix 1 path /\ address_at m p len path) \/ (short_at m p <> 1 /\ forall f path, g <> GUnix f path).
Proof.
  intros B H. unfold get_sockaddr in H. destruct (p =? 0) eqn:N; [discriminate H|]. rewrite load2 in H.
  destruct (short_at m p =? 1) eqn:F.
  - left. unfold SIZEOF_SOCKADDR, UNIX_LEN in H. destruct ((len <? 16) || (110 <? len)) eqn:L; [discriminate H|]. injection H as <-. apply Z.eqb_eq in F. rewrite F.
    eexists. split; [reflexivity|]. split; [lia|]. split; [lia|]. split; [|apply length_load].
    assert (F' : m p = 1 /\ m (p + 1) = 0) by (unfold short_at in F; pose proof (B p); pose proof (B (p + 1)); unfold is_byte in *; lia).
    intros k b E. destruct k as [|[|k]].
    + injection E as <-. change (Z.of_nat 0) with 0. rewrite Z.add_0_r. tauto.
    + injection E as <-. tauto.
    + change (nth_error (load m (p + 2) 108) k = Some b) in E. assert (K : (k < 108)%nat) by (rewrite <- (length_load m (p + 2) 108); apply nth_error_Some; rewrite E; discriminate).
      rewrite load_nth in E by exact K. injection E as <-. f_equal. lia.
  - right. split; [lia|]. intros f path E. subst g.
    destruct (short_at m p =? 2); [destruct (len <? V4_LEN); discriminate H|].
    destruct (short_at m p =? 30); [destruct (len <? V6_LEN); discriminate H|]. discriminate H.
Qed.

(** ** Time limits *)
Lemma late_limit P (t : option Z) late late' : (t = None <-> P) -> limit P late late' -> is_late t late = late'.
Proof. intros E [[H ->]|[H ->]]; destruct t; cbn; try reflexivity; [apply E in H; discriminate H|]. exfalso. apply H, E. reflexivity. Qed.
Lemma limit_late P (t : option Z) late : (t = None <-> P) -> limit P late (is_late t late).
Proof. intros E. destruct t; cbn; [right; split; [intros H; apply E in H; discriminate H|reflexivity]|left; split; [apply E; reflexivity|reflexivity]]. Qed.
Lemma word_range m p : bytes_only m -> 0 <= word_at m p < 2 ^ 64.
Proof. intros B. unfold word_at. pose proof (number_range m p B). pose proof (number_range m (p + 4) B). lia. Qed.
Lemma u64_i64 x : 0 <= x < 2 ^ 64 -> to_u64 (to_i64 x) = x.
Proof.
  intros H. unfold to_u64, to_i64, wrap_u. rewrite (Z.mod_small x) by lia. destruct (x <? 2 ^ 63); [apply Z.mod_small; lia|].
  replace (x - 2 ^ 64) with (x + (-1) * 2 ^ 64) by lia. rewrite Z.mod_add by lia. apply Z.mod_small. lia.
Qed.
Lemma u32_i64 m p : bytes_only m -> to_u32 (to_i64 (word_at m p)) = number_at m p.
Proof.
  intros B. pose proof (number_range m p B). pose proof (number_range m (p + 4) B). unfold to_u32, to_i64, wrap_u.
  rewrite (Z.mod_small (word_at m p)) by (apply word_range; exact B). unfold word_at.
  destruct (_ <? 2 ^ 63).
  - replace (number_at m p + 2 ^ 32 * number_at m (p + 4)) with (number_at m p + number_at m (p + 4) * 2 ^ 32) by lia. rewrite Z.mod_add by lia. apply Z.mod_small. lia.
  - replace (number_at m p + 2 ^ 32 * number_at m (p + 4) - 2 ^ 64) with (number_at m p + (number_at m (p + 4) - 2 ^ 32) * 2 ^ 32) by lia. rewrite Z.mod_add by lia. apply Z.mod_small. lia.
Qed.
Lemma timeval_spec m p : bytes_only m -> match timeval m p with Panic => ~ clock_ok m p | Done t => clock_ok m p /\ (t = None <-> p = 0) end.
Proof.
  intros B. unfold timeval. destruct (p =? 0) eqn:E.
  - cbn [duration_fromtimeval]. split; [left; lia|]. split; [lia|reflexivity].
  - cbn [duration_fromtimeval]. rewrite !load8, u32_i64, u64_i64 by (auto using word_range). unfold mul32. pose proof (number_range m (p + 8) B).
    destruct (2 ^ 32 <=? number_at m (p + 8) * 1000) eqn:M; [intros [H1|[H1 _]]; lia|]. unfold duration_new, NS.
    destruct (2 ^ 64 <=? _) eqn:D; [intros [H1|[_ H1]]; lia|]. split; [right; split; lia|]. split; [discriminate|lia].
Qed.
Lemma millis_late w ms : int_word w ms -> exists t, get_duration_from_millis w = Ok t /\ (t = None <-> ms < 0).
Proof.
  intros H. unfold get_duration_from_millis. rewrite (int_word_ok _ _ H). eexists. split; [reflexivity|]. destruct (0 <=? ms) eqn:E; split; try discriminate; try lia; reflexivity.
Qed.

(** ** The cases *)
Lemma words_word a : Forall is_word (words a) -> is_word (a1 a) /\ is_word (a2 a) /\ is_word (a3 a) /\ is_word (a4 a) /\ is_word (a5 a) /\ is_word (a6 a).
Proof. intros W. unfold words in W. repeat (apply Forall_cons in W as [? W]). auto 10. Qed.
Lemma pollfds_is m p n l : bytes_only m -> Z.of_nat (length l) = n -> (forall i x, l !! i = Some x -> x = polled m p i) -> pollfds m p n = l.
Proof.
  intros B L H. unfold pollfds. apply list_eq. intros i. subst n. rewrite Nat2Z.id.
  change (map ?f ?x) with (f <$> x). rewrite list_lookup_fmap. destruct (l !! i) as [x|] eqn:E.
  - apply lookup_lt_Some in E as Li. rewrite lookup_seq_lt by exact Li. cbn [fmap option_fmap option_map]. rewrite pollfd_polled by exact B. f_equal. symmetry. apply H. exact E.
  - apply lookup_ge_None in E. rewrite lookup_seq_ge by exact E. reflexivity.
Qed.
Lemma pollfds_polled m p n i x : bytes_only m -> pollfds m p n !! i = Some x -> x = polled m p i.
Proof.
  intros B H. unfold pollfds in H. change (map ?f ?x) with (f <$> x) in H. rewrite list_lookup_fmap in H.
  destruct (seq 0 (Z.to_nat n) !! i) as [k|] eqn:E; [|discriminate H]. apply lookup_seq in E as [-> _]. cbn [fmap option_fmap option_map] in H. injection H as <-. apply pollfd_polled. exact B.
Qed.
Lemma length_pollfds m p n : length (pollfds m p n) = Z.to_nat n.
Proof. unfold pollfds. rewrite map_length, seq_length. reflexivity. Qed.

Lemma asks_decode m a late n o : bytes_only m -> Forall is_word (words a) -> asks m a late n o -> decode m n a late = Do o (where_to m n a).
Proof.
  intros B W H. pose proof (words_word a W) as (W1 & W2 & W3 & W4 & W5 & W6). destruct H.
  - rewrite (decode_plain m n a late ts B) by (auto; reflexivity). destruct (wtable_plain _ _ H) as [N L].
    destruct (chain_typed m ts (words a) vs (do_plain m n a) N L H0) as (xs & -> & _ & ->). unfold do_plain. rewrite H1. reflexivity.
  - unfold decode. cbn [Z.eqb Pos.eqb]. unfold with_addr. rewrite (small_uint (a3 a)) by (auto; destruct H0; lia). cbn [arg]. rewrite (address_get _ _ _ path B H0). cbn [arg].
    rewrite (int_word_ok _ _ H). cbn [arg]. rewrite (proj2 (plain_local path (proj2 (proj2 (proj2 H0)))) H1). reflexivity.
  - unfold decode. cbn [Z.eqb Pos.eqb]. unfold with_addr. rewrite (small_uint (a3 a)) by (auto; destruct H0; lia). cbn [arg]. rewrite (address_get _ _ _ path B H0). cbn [arg].
    rewrite (int_word_ok _ _ H). cbn [arg]. rewrite (proj2 (plain_local path (proj2 (proj2 (proj2 H0)))) H1). reflexivity.
  - unfold decode. cbn [Z.eqb Pos.eqb]. unfold null. rewrite H2, H3. cbn [Z.eqb andb]. rewrite (int_word_ok _ _ H), (ptr_ok _ H0), (int_word_ok _ _ H1). reflexivity.
  - unfold decode. cbn [Z.eqb Pos.eqb]. unfold null. rewrite (int_word_ok _ _ H). unfold where_to.
    destruct (a2 a =? 0) eqn:E2, (a3 a =? 0) eqn:E3; cbn [andb orb negb]; [reflexivity|exfalso; lia|exfalso; lia|reflexivity].
  - unfold decode. cbn [Z.eqb Pos.eqb]. unfold null. replace (a4 a =? 0) with false by lia. replace (a5 a =? 0) with false by lia. cbn [orb].
    rewrite load4, H4. cbn [Z.eqb Pos.eqb negb]. rewrite (int_word_ok _ _ H), (int_word_ok _ _ H0), (int_word_ok _ _ H1). reflexivity.
  - unfold decode. cbn [Z.eqb Pos.eqb]. unfold null. cbv zeta. rewrite (int_word_ok _ _ H), (int_word_ok _ _ H0), (int_word_ok _ _ H1). cbn [arg].
    destruct H2 as [[E ->]|(E & E5 & ->)].
    + rewrite E. reflexivity.
    + replace (a4 a =? 0) with false by lia. rewrite (small_uint (a5 a)) by (auto; lia). cbn [arg]. rewrite E5. cbn [Z.eqb Pos.eqb negb]. rewrite int_at_load by exact B. reflexivity.
  - unfold decode. cbn [Z.eqb Pos.eqb]. rewrite (int_word_ok _ _ H). cbn [arg]. replace (k <? 0) with false by lia.
    pose proof (timeval_spec m (a5 a) B) as T. destruct (timeval m (a5 a)) as [t|]; [|contradiction]. destruct T as [_ T].
    rewrite (shows_fun _ _ _ H1), (shows_fun _ _ _ H2), (shows_fun _ _ _ H3), (late_limit _ _ _ _ T H5). reflexivity.
  - unfold decode. cbn [Z.eqb Pos.eqb get_ulong arg]. rewrite (ptr_ok _ H). cbn [arg]. destruct (millis_late _ _ H2) as (t & -> & T). cbn [arg]. cbv zeta.
    rewrite (late_limit _ _ _ _ T H3). cbn [where_to]. rewrite (pollfds_is _ _ _ _ B H0 H1). reflexivity.
  - unfold decode. cbn [Z.eqb Pos.eqb]. rewrite (int_word_ok _ _ H1). cbn [arg]. replace (k <? 0) with false by lia.
    rewrite (int_word_ok _ _ H), (ptr_ok _ H0). cbn [arg]. destruct (millis_late _ _ H3) as (t & -> & T). cbn [arg]. rewrite (late_limit _ _ _ _ T H4). reflexivity.
Qed.
Lemma asks_name_decode m a late n fd : asks_name a n fd -> decode m n a late = Name (n =? 145) fd (a2 a) (a3 a).
Proof.
  intros ([->| ->] & H & N2 & N3); unfold decode; cbn [Z.eqb Pos.eqb]; unfold null; replace (a2 a =? 0) with false by lia; replace (a3 a =? 0) with false by lia;
    cbn [orb]; rewrite (int_word_ok _ _ H); reflexivity.
Qed.
Lemma three_ints (k : Z -> Z -> Z -> todo) a : Forall is_word (words a) -> 2 ^ 32 <= a1 a \/ 2 ^ 32 <= a2 a \/ 2 ^ 32 <= a3 a ->
  arg (get_int (a1 a)) (fun x => arg (get_int (a2 a)) (fun y => arg (get_int (a3 a)) (fun z => k x y z))) = Bad (-22).
Proof.
  intros W H. pose proof (words_word a W) as (W1 & W2 & W3 & _).
  destruct (int_word_cases (a1 a) W1) as [(x & E)|E]; [rewrite (int_word_ok _ _ E)|rewrite (wide_int _ W1 E); reflexivity]. cbn [arg]. apply int_word_small in E.
  destruct (int_word_cases (a2 a) W2) as [(y & F)|F]; [rewrite (int_word_ok _ _ F)|rewrite (wide_int _ W2 F); reflexivity]. cbn [arg]. apply int_word_small in F.
  rewrite (wide_int _ W3) by lia. reflexivity.
Qed.
Lemma family_cases m p len f size : p <> 0 -> (f, size) ∈ [(1, 16); (2, 16); (30, 28)] -> short_at m p = f -> size <= len -> (f = 1 -> len <= 110) -> exists g, get_sockaddr m p len = Ok g.
Proof.
  intros N F S L1 L2. unfold get_sockaddr. replace (p =? 0) with false by lia. rewrite load2, S.
  repeat (apply elem_of_cons in F as [F|F]; [injection F as -> ->|]); [..|apply elem_of_nil in F; contradiction]; cbn [Z.eqb Pos.eqb]; unfold SIZEOF_SOCKADDR, UNIX_LEN, V4_LEN, V6_LEN.
  - replace (len <? 16) with false by lia. replace (110 <? len) with false by lia. eauto.
  - replace (len <? 16) with false by lia. eauto.
  - replace (len <? 28) with false by lia. eauto.
Qed.
Lemma family_short m p len f size : p <> 0 -> (f, size) ∈ [(1, 16); (2, 16); (30, 28)] -> short_at m p = f -> len < size \/ (f = 1 /\ 110 < len) -> get_sockaddr m p len = Fail (-22).
Proof.
  intros N F S L. unfold get_sockaddr. replace (p =? 0) with false by lia. rewrite load2, S.
  repeat (apply elem_of_cons in F as [F|F]; [injection F as -> ->|]); [..|apply elem_of_nil in F; contradiction]; cbn [Z.eqb Pos.eqb]; unfold SIZEOF_SOCKADDR, UNIX_LEN, V4_LEN, V6_LEN.
  - replace ((len <? 16) || (110 <? len)) with true by lia. reflexivity.
  - replace (len <? 16) with true by lia. reflexivity.
  - replace (len <? 28) with true by lia. reflexivity.
Qed.
Lemma family_other m p len : p <> 0 -> short_at m p ∉ [1; 2; 30] -> get_sockaddr m p len = Fail (-95).
Proof.
  intros N F. unfold get_sockaddr. replace (p =? 0) with false by lia. rewrite load2. rewrite !not_elem_of_cons in F.
  replace (short_at m p =? 1) with false by lia. replace (short_at m p =? 2) with false by lia. replace (short_at m p =? 30) with false by lia. reflexivity.
Qed.
Lemma declines_decode m a late n r : bytes_only m -> Forall is_word (words a) -> declines m a n r -> decode m n a late = Bad r.
Proof.
  intros B W H. pose proof (words_word a W) as (W1 & W2 & W3 & W4 & W5 & W6). destruct H as
    [n ts r T F|n N L|n N L P|n f size N L P F S Q|n N L P F|n f size N L P F S Q Q1 Q2|E|r E1 E2 F|E|E L|E|E1 E2 L|E1 E2 L I|E L|E I|L|k I K|E|E L|L|k I K|k r I K F|n N E|n N E1 E2 L].
  - rewrite (decode_plain m n a late ts B) by (auto; reflexivity). destruct (wtable_plain _ _ T) as [N L]. exact (chain_bad m ts (words a) r _ N W F).
  - destruct N as [->| ->]; unfold decode; cbn [Z.eqb Pos.eqb]; unfold with_addr; rewrite (wide_uint _ W3 L); reflexivity.
  - destruct N as [->| ->]; unfold decode; cbn [Z.eqb Pos.eqb]; unfold with_addr; rewrite (small_uint _ W3 L), P; reflexivity.
  - destruct N as [->| ->]; unfold decode; cbn [Z.eqb Pos.eqb]; unfold with_addr; rewrite (small_uint _ W3 L); cbn [arg]; rewrite (family_short _ _ _ _ _ P F S Q); reflexivity.
  - destruct N as [->| ->]; unfold decode; cbn [Z.eqb Pos.eqb]; unfold with_addr; rewrite (small_uint _ W3 L); cbn [arg]; rewrite (family_other _ _ _ P F); reflexivity.
  - destruct (family_cases _ _ _ _ _ P F S Q Q1) as (g & G).
    destruct N as [->| ->]; unfold decode; cbn [Z.eqb Pos.eqb]; unfold with_addr; rewrite (small_uint _ W3 L); cbn [arg]; rewrite G; cbn [arg]; rewrite (wide_int _ W1 Q2); reflexivity.
  - unfold decode. cbn [Z.eqb Pos.eqb]. unfold null. destruct (a5 a =? 0) eqn:E5, (a6 a =? 0) eqn:E6; cbn [andb orb negb]; try reflexivity; exfalso; lia.
  - unfold decode. cbn [Z.eqb Pos.eqb]. unfold null. rewrite E1, E2. cbn [Z.eqb andb].
    pose proof (chain_bad m [AInt; APtr; ASize; AInt] (words a) r (fun xs => Do (Recv (nth 0 xs 0) (nth 2 xs 0) (nth 3 xs 0)) (Buf (nth 1 xs 0)))) as C.
    cbn [chain words convert nth] in C. apply C; [|exact W|exact F]. intros H. repeat (apply elem_of_cons in H as [H|H]; [discriminate H|]). apply elem_of_nil in H. exact H.
  - unfold decode. cbn [Z.eqb Pos.eqb]. unfold null. destruct (a2 a =? 0) eqn:E2, (a3 a =? 0) eqn:E3; cbn [andb orb negb]; try reflexivity; exfalso; lia.
  - unfold decode. cbn [Z.eqb Pos.eqb]. unfold null. rewrite (wide_int _ W1 L). destruct (a2 a =? 0) eqn:E2, (a3 a =? 0) eqn:E3; cbn [andb orb negb]; reflexivity.
  - unfold decode. cbn [Z.eqb Pos.eqb]. unfold null. replace ((a4 a =? 0) || (a5 a =? 0)) with true by lia. reflexivity.
  - unfold decode. cbn [Z.eqb Pos.eqb]. unfold null. replace ((a4 a =? 0) || (a5 a =? 0)) with false by lia. rewrite load4. replace (negb (number_at m (a5 a) =? 4)) with true by lia. reflexivity.
  - unfold decode. cbn [Z.eqb Pos.eqb]. unfold null. replace ((a4 a =? 0) || (a5 a =? 0)) with false by lia. rewrite load4, L. cbn [Z.eqb Pos.eqb negb]. exact (three_ints _ a W I).
  - unfold decode. cbn [Z.eqb Pos.eqb]. unfold null. replace (a4 a =? 0) with false by lia. cbv zeta.
    destruct (Z_lt_le_dec (a5 a) (2 ^ 32)) as [K|K]; [rewrite (small_uint _ W5 K)|rewrite (wide_uint _ W5 K); reflexivity]. cbn [arg]. replace (negb (a5 a =? 4)) with true by lia. reflexivity.
  - unfold decode. cbn [Z.eqb Pos.eqb]. unfold null. cbv zeta. destruct (a4 a =? 0) eqn:E4; [exact (three_ints _ a W I)|].
    rewrite (small_uint (a5 a)) by (auto; lia). cbn [arg]. replace (negb (a5 a =? 4)) with false by lia. exact (three_ints _ a W I).
  - unfold decode. cbn [Z.eqb Pos.eqb]. rewrite (wide_int _ W1 L). reflexivity.
  - unfold decode. cbn [Z.eqb Pos.eqb]. rewrite (int_word_ok _ _ I). cbn [arg]. replace (k <? 0) with true by lia. reflexivity.
  - unfold decode. cbn [Z.eqb Pos.eqb get_ulong arg]. rewrite E. reflexivity.
  - unfold decode. cbn [Z.eqb Pos.eqb get_ulong arg]. rewrite (ptr_ok _ E). cbn [arg]. unfold get_duration_from_millis. rewrite (wide_int _ W3 L). reflexivity.
  - unfold decode. cbn [Z.eqb Pos.eqb]. rewrite (wide_int _ W3 L). reflexivity.
  - unfold decode. cbn [Z.eqb Pos.eqb]. rewrite (int_word_ok _ _ I). cbn [arg]. replace (k <? 0) with true by lia. reflexivity.
  - unfold decode. cbn [Z.eqb Pos.eqb]. rewrite (int_word_ok _ _ I). cbn [arg]. replace (k <? 0) with false by lia.
    pose proof (chain_bad m [AInt; APtr; AInt] [a1 a; a2 a; a4 a] r
      (fun xs => Do (Ewait (nth 0 xs 0) k (is_late (if 0 <=? nth 2 xs 0 then Some (nth 2 xs 0 * 1000000) else None) late)) (Evs (nth 1 xs 0)))) as C.
    cbn [chain convert nth] in C. unfold get_duration_from_millis.
    assert (C' := C ltac:(intros H; repeat (apply elem_of_cons in H as [H|H]; [discriminate H|]); apply elem_of_nil in H; exact H) ltac:(repeat (constructor; [assumption|]); constructor) F).
    destruct (get_int (a1 a)); [|exact C']. cbn [arg] in *. destruct (get_ptr (a2 a)); [|exact C']. cbn [arg] in *. destruct (get_int (a4 a)); exact C'.
  - destruct N as [->| ->]; unfold decode; cbn [Z.eqb Pos.eqb]; unfold null; replace ((a2 a =? 0) || (a3 a =? 0)) with true by lia; reflexivity.
  - destruct N as [->| ->]; unfold decode; cbn [Z.eqb Pos.eqb]; unfold null; replace ((a2 a =? 0) || (a3 a =? 0)) with false by lia; rewrite (wide_int _ W1 L); reflexivity.
Qed.
