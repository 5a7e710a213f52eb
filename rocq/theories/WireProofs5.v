(** Proofs for the entry point of the socket calls: readiness in memory. *)
From stdpp Require Import gmap.
From Verif Require Import Base AbiModel AbiSpec AbiProofs AbiBuf EntryModel EntrySpec NetModel NetSpec NetData NetKeep NetReady NetThm WireModel WireSpec WireProofs WireProofs2 WireProofs3 WireProofs4.
Local Open Scope list_scope.
Local Open Scope Z_scope.

(** ** Sets *)
Lemma octet_bits s k b : 0 <= octet s k b < 2 ^ Z.of_nat b /\ forall j, 0 <= j < Z.of_nat b -> Z.testbit (octet s k b) j = bool_decide (8 * k + j ∈ s).
Proof.
  induction b as [|b [R H]]; [split; [cbn; lia|intros j Hj; cbn in Hj; lia]|]. cbn [octet]. rewrite Nat2Z.inj_succ, Z.pow_succ_r by lia.
  set (x := octet s k b) in *. set (e := bool_decide (8 * k + Z.of_nat b ∈ s)).
  assert (E : (if e then 2 ^ Z.of_nat b else 0) = (if e then 1 else 0) * 2 ^ Z.of_nat b) by (destruct e; lia). rewrite E.
  split; [destruct e; lia|]. intros j Hj. destruct (Z.eq_dec j (Z.of_nat b)) as [->|N].
  - pose proof (Z.div_pow2_bits (x + (if e then 1 else 0) * 2 ^ Z.of_nat b) (Z.of_nat b) 0 ltac:(lia) ltac:(lia)) as D. rewrite Z.add_0_l in D. rewrite <- D. rewrite Z.div_add by lia. rewrite Z.div_small by lia. fold e. destruct e; reflexivity.
  - rewrite <- (Z.mod_pow2_bits_low _ (Z.of_nat b) j) by lia. rewrite Z.mod_add by lia. rewrite Z.mod_small by lia. apply H. lia.
Qed.
Lemma set_bytes_nth s k : (k < 128)%nat -> nth k (set_bytes s) 0 = octet s (Z.of_nat k) 8.
Proof.
  intros K. unfold set_bytes. rewrite (nth_indep _ 0 (octet s 0 8)) by (rewrite map_length; exact K). rewrite (map_nth (fun k => octet s k 8) (seqZ 0 128) 0 k). f_equal.
  assert (L : seqZ 0 128 !! k = Some (0 + Z.of_nat k)) by (apply lookup_seqZ; lia). rewrite nth_lookup, L. cbn. lia.
Qed.
Lemma on_put m p s fd : on (store m p (set_bytes s)) p fd <-> 0 <= fd < 1024 /\ fd ∈ s.
Proof.
  unfold on. split; intros [R H]; (split; [exact R|]).
  - replace (p + fd / 8) with (p + Z.of_nat (Z.to_nat (fd / 8))) in H by lia. rewrite store_in in H by (rewrite set_bytes_length; lia). rewrite set_bytes_nth in H by lia.
    rewrite (proj2 (octet_bits s _ 8)) in H by lia. apply bool_decide_eq_true in H. replace (8 * Z.of_nat (Z.to_nat (fd / 8)) + fd mod 8) with fd in H by lia. exact H.
  - replace (p + fd / 8) with (p + Z.of_nat (Z.to_nat (fd / 8))) by lia. rewrite store_in by (rewrite set_bytes_length; lia). rewrite set_bytes_nth by lia.
    rewrite (proj2 (octet_bits s _ 8)) by lia. apply bool_decide_eq_true. replace (8 * Z.of_nat (Z.to_nat (fd / 8)) + fd mod 8) with fd by lia. exact H.
Qed.
Lemma on_ext m m' p fd : (forall q, p <= q < p + 128 -> m' q = m q) -> on m' p fd <-> on m p fd.
Proof. intros H. unfold on. split; intros [R E]; (split; [exact R|]); [rewrite <- H by lia|rewrite H by lia]; exact E. Qed.
Lemma on_sets m r w rs ws fd : (r = 0 \/ w = 0 \/ apart r 128 w 128) -> (rs = None <-> r = 0) -> (ws = None <-> w = 0) ->
  (r <> 0 -> (on (put_set (put_set m r rs) w ws) r fd <-> 0 <= fd < 1024 /\ within fd rs)) /\
  (w <> 0 -> (on (put_set (put_set m r rs) w ws) w fd <-> 0 <= fd < 1024 /\ within fd ws)).
Proof.
  intros A R W. split; intros N.
  - destruct rs as [rs|]; [|destruct (N (proj1 R eq_refl))]. cbn [within]. rewrite <- (on_put m r rs fd). apply on_ext. intros q Q. apply put_set_out. intros NW. unfold apart in A.
    destruct A as [A|[A|A]]; [contradiction| |lia]. apply W in A. contradiction.
  - destruct ws as [ws|]; [|destruct (N (proj1 W eq_refl))]. cbn [within put_set]. apply on_put.
Qed.
Lemma count_size m p (s : gset Z) : p <> 0 -> (forall fd, on m p fd <-> fd ∈ s) -> on_count m p = Z.of_nat (base.size s).
Proof.
  intros N H. unfold on_count. replace (p =? 0) with false by lia. f_equal.
  assert (E : s = list_to_set (List.filter (on_b m p) (seqZ 0 1024))).
  { apply set_eq. intros fd. rewrite <- H. rewrite elem_of_list_to_set, elem_of_list_In, filter_In, <- elem_of_list_In, elem_of_seqZ. unfold on, on_b. split; intros [A B]; (split; [lia|exact B]). }
  rewrite E. rewrite size_list_to_set; [reflexivity|]. apply NoDup_ListNoDup, List.NoDup_filter. apply NoDup_ListNoDup, NoDup_seqZ.
Qed.
Lemma within_opt m p fd : p <> 0 -> within fd (opt_set m p) <-> on m p fd.
Proof. intros N. unfold opt_set. replace (p =? 0) with false by lia. cbn [within]. apply set_at_on. Qed.
Lemma within_none m fd : ~ within fd (opt_set m 0).
Proof. cbn. auto. Qed.
Lemma select_neg n c k r w e late n' v : step n c (Select k r w e late) = Go n' (Ret v) -> v < 0.
Proof.
  intros H. cbn [step] in H. unfold select_call in H. destruct (select_round n c k r w e) as [[x|[[j rs] ws]]|] eqn:E; [| |discriminate H]; [|destruct (_ || late); discriminate H].
  injection H as _ <-. unfold select_round in E. destruct (_ || _); [injection E as <-; reflexivity|]. destruct (scan_opt _ r _) as [[[? ?]|]|]; [|injection E as <-; reflexivity|discriminate E].
  destruct (scan_opt _ w _) as [[[? ?]|]|]; [|injection E as <-; reflexivity|discriminate E]. destruct (scan_opt _ e _) as [[[? ?]|]|]; [discriminate E|injection E as <-; reflexivity|discriminate E].
Qed.
Lemma enter_do s c n a late s' r : enter s c n a late = Rep s' (Some r) -> n <> 144 -> n <> 145 -> 0 <= r -> (forall e, decode (s_m s) n a late <> Bad e) ->
  exists o d n' x, decode (s_m s) n a late = Do o d /\ foreign (s_n s) c o = false /\ step (s_n s) c o = Go n' x /\ s' = St n' (deliver (s_n s) c n' x d (s_m s)) /\ returned x = Some r.
Proof.
  intros H N1 N2 R B. unfold enter in H. destruct (decode (s_m s) n a late) as [e| |o d|peer fd p lp|] eqn:D; cbn [perform] in H; [destruct (B e eq_refl)|discriminate H| | |discriminate H].
  - destruct (foreign (s_n s) c o) eqn:FO; [discriminate H|]. destruct (step (s_n s) c o) as [n' x| |] eqn:S; [|discriminate H|discriminate H]. injection H as <- E. exists o, d, n', x. auto.
  - apply decode_name in D as (_ & _ & _ & [C|C] & _); contradiction.
Qed.
Lemma bad_neg m n a late e : decode m n a late = Bad e -> e < 0.
Proof.
  assert (G : forall (A : Type) (x : AbiModel.res A) k, (match x with Ok _ => True | Fail r => r < 0 end) -> (forall v, x = Ok v -> forall e, k v = Bad e -> e < 0) -> forall e, arg x k = Bad e -> e < 0).
  { intros A x k P Q e' E. destruct x as [v|r]; cbn [arg] in E; [exact (Q v eq_refl e' E)|injection E as <-; exact P]. }
  assert (GI : forall w, match get_int w with Ok _ => True | Fail r => r < 0 end) by (intros w; unfold get_int; destruct (_ =? _); [exact I|reflexivity]).
  assert (GU : forall w, match get_uint w with Ok _ => True | Fail r => r < 0 end) by (intros w; unfold get_uint; destruct (_ =? _); [exact I|reflexivity]).
  assert (GP : forall w, match get_ptr w with Ok _ => True | Fail r => r < 0 end) by (intros w; unfold get_ptr; destruct (_ =? _); [reflexivity|exact I]).
  assert (GL : forall w, match get_ulong w with Ok _ => True | Fail r => r < 0 end) by (intros w; exact I).
  assert (GM : forall w, match get_duration_from_millis w with Ok _ => True | Fail r => r < 0 end) by (intros w; unfold get_duration_from_millis; specialize (GI w); destruct (get_int w); [exact I|exact GI]).
  assert (GS : forall p len, match get_sockaddr m p len with Ok _ => True | Fail r => r < 0 end).
  { intros p len. unfold get_sockaddr. destruct (p =? 0); [reflexivity|]. destruct (_ =? 1); [destruct (_ || _); [reflexivity|exact I]|]. destruct (_ =? 2); [destruct (_ <? _); [reflexivity|exact I]|].
    destruct (_ =? 30); [destruct (_ <? _); [reflexivity|exact I]|reflexivity]. }
  assert (GA : forall f e, with_addr m a f = Bad e -> e < 0).
  { intros f. unfold with_addr. apply G; [apply GU|intros ? _]. apply G; [apply GS|intros ? _]. apply G; [apply GI|intros ? _ e' E]. match type of E with match ?g with _ => _ end = _ => destruct g end; try discriminate E. destruct (plain_path _); discriminate E. }
  revert e. unfold decode.
  repeat match goal with |- forall e, (if n =? ?k then _ else _) = _ -> _ => destruct (n =? k) end; cbv zeta;
  repeat match goal with
  | |- forall e, with_addr _ _ _ = _ -> _ => apply GA
  | |- forall e, arg (get_int _) _ = _ -> _ => apply G; [apply GI|intros ? _]
  | |- forall e, arg (get_uint _) _ = _ -> _ => apply G; [apply GU|intros ? _]
  | |- forall e, arg (get_ptr _) _ = _ -> _ => apply G; [apply GP|intros ? _]
  | |- forall e, arg (get_ulong _) _ = _ -> _ => apply G; [apply GL|intros ? _]
  | |- forall e, arg (get_duration_from_millis _) _ = _ -> _ => apply G; [apply GM|intros ? _]
  | |- forall e, (if ?b then _ else _) = _ -> _ => destruct b
  | |- forall e, match ?b with _ => _ end = _ -> _ => destruct b
  | |- forall e, Do _ _ = _ -> _ => discriminate
  | |- forall e, Name _ _ _ _ = _ -> _ => discriminate
  | |- forall e, Away = _ -> _ => discriminate
  | |- forall e, Fault = _ -> _ => discriminate
  | |- forall e, Bad _ = _ -> _ => intros e' [= <-]; reflexivity
  end.
Qed.
Lemma enter_good s c n a late s' r : enter s c n a late = Rep s' (Some r) -> n <> 144 -> n <> 145 -> 0 <= r ->
  exists o d n' x, fits (s_m s) a n o d /\ decode (s_m s) n a late = Do o d /\ foreign (s_n s) c o = false /\ step (s_n s) c o = Go n' x /\ s' = St n' (deliver (s_n s) c n' x d (s_m s)) /\ returned x = Some r.
Proof.
  intros H N1 N2 R. destruct (decode (s_m s) n a late) as [e| |o d|peer fd p lp|] eqn:D.
  - pose proof (bad_neg _ _ _ _ _ D). unfold enter in H. rewrite D in H. cbn [perform] in H. injection H as _ H. lia.
  - unfold enter in H. rewrite D in H. discriminate H.
  - destruct (enter_do s c n a late s' r H N1 N2 R) as (o' & d' & n' & x & D' & F & S & E1 & E2); [intros e; rewrite D; discriminate|]. rewrite D in D'. injection D' as <- <-.
    exists o, d, n', x. split; [exact (decode_fits _ _ _ _ _ _ D)|]. auto 10.
  - apply decode_name in D as (_ & _ & _ & [C|C] & _); contradiction.
  - unfold enter in H. rewrite D in H. discriminate H.
Qed.
Lemma int_of w v : is_word w -> get_int w = Ok v -> int_word w v.
Proof. intros W E. destruct (get_int_only _ _ W E) as [H1 H2]. split; assumption. Qed.
Lemma select_memory s c a late s' k : Forall is_word (words a) -> enter s c 46 a late = Rep s' (Some k) -> 0 <= k ->
  (a2 a = 0 \/ a3 a = 0 \/ apart (a2 a) 128 (a3 a) 128) ->
  exists nfds, int_word (a1 a) nfds /\ s_n s' = s_n s /\ k = on_count (s_m s') (a2 a) + on_count (s_m s') (a3 a) /\
  (a2 a <> 0 -> forall fd, on (s_m s') (a2 a) fd -> on (s_m s) (a2 a) fd /\ fd < nfds) /\
  (a3 a <> 0 -> forall fd, on (s_m s') (a3 a) fd -> on (s_m s) (a3 a) fd /\ fd < nfds) /\
  (a2 a <> 0 -> forall fd, fd < nfds -> on (s_m s) (a2 a) fd -> plain_reader (s_n s) c fd ->
     (on (s_m s') (a2 a) fd <-> read_now (s_n s) c fd) /\ (~ on (s_m s') (a2 a) fd <-> read_waits (s_n s) c fd)) /\
  (a2 a <> 0 -> forall fd, fd < nfds -> on (s_m s) (a2 a) fd -> nb_listener (s_n s) c fd -> space (s_n s) c 1 ->
     (~ on (s_m s') (a2 a) fd <-> step (s_n s) c (Accept fd) = Go (s_n s) (Ret (-11)))) /\
  (a3 a <> 0 -> forall fd bs, on (s_m s') (a3 a) fd -> pipe_writer (s_n s) c fd ->
     step (s_n s) c (Write fd bs) <> Block /\ step (s_n s) c (Write fd bs) <> Go (s_n s) (Ret (-11))).
Proof.
  intros W H K A. pose proof (words_word a W) as (W1 & _). destruct (enter_good _ _ _ _ _ _ _ H ltac:(lia) ltac:(lia) K) as (o & d & n' & x & F & _ & _ & S & -> & E).
  inversion F as [? ? NI| |? ? ? [C|C]| | |nfds e late' KI| | | |]; subst; [destruct NI; set_solver|discriminate C|discriminate C|].
  destruct (select_shape _ _ _ _ _ _ _ _ _ S) as [_ [(v & ->)|(j & rs & ws & -> & _ & R1 & R2)]]; [apply select_neg in S; cbn [returned] in E; injection E as ->; lia|].
  cbn [returned] in E. injection E as ->. destruct (select_answer _ _ _ _ _ _ _ _ _ _ _ S) as (-> & C & S1 & S2 & S3 & S4 & S5). rewrite opt_set_none in R1, R2. cbn [s_n s_m deliver].
  pose proof (fun fd => on_sets (s_m s) (a2 a) (a3 a) rs ws fd A R1 R2) as O. set (m' := put_set (put_set (s_m s) (a2 a) rs) (a3 a) ws) in *.
  assert (D1 : forall fd, a2 a <> 0 -> on m' (a2 a) fd <-> within fd rs).
  { intros fd N. rewrite (proj1 (O fd) N). split; [tauto|]. intros Q. split; [|exact Q]. apply S1 in Q as [Q _]. apply within_opt in Q; [|exact N]. apply Q. }
  assert (D2 : forall fd, a3 a <> 0 -> on m' (a3 a) fd <-> within fd ws).
  { intros fd N. rewrite (proj2 (O fd) N). split; [tauto|]. intros Q. split; [|exact Q]. apply S2 in Q as [Q _]. apply within_opt in Q; [|exact N]. apply Q. }
  exists nfds. split; [apply int_of; assumption|]. split; [reflexivity|]. split.
  { rewrite C. f_equal.
    - destruct (Z.eq_dec (a2 a) 0) as [N|N]; [rewrite (proj2 R1 N); unfold on_count; rewrite N; reflexivity|]. destruct rs as [rs|]; [|destruct (N (proj1 R1 eq_refl))]. symmetry. apply count_size; [exact N|]. intros fd. exact (D1 fd N).
    - destruct (Z.eq_dec (a3 a) 0) as [N|N]; [rewrite (proj2 R2 N); unfold on_count; rewrite N; reflexivity|]. destruct ws as [ws|]; [|destruct (N (proj1 R2 eq_refl))]. symmetry. apply count_size; [exact N|]. intros fd. exact (D2 fd N). }
  split; [intros N fd Q; apply D1 in Q; [|exact N]; apply S1 in Q as [Q1 Q2]; apply within_opt in Q1; [|exact N]; split; [exact Q1|lia]|].
  split; [intros N fd Q; apply D2 in Q; [|exact N]; apply S2 in Q as [Q1 Q2]; apply within_opt in Q1; [|exact N]; split; [exact Q1|lia]|].
  split; [intros N fd L Q P; rewrite (D1 fd N); apply S3; [destruct Q; lia|apply within_opt; assumption|exact P]|].
  split; [intros N fd L Q P Sp; rewrite (D1 fd N); apply S4; [destruct Q; lia|apply within_opt; assumption|exact P|exact Sp]|].
  intros N fd bs Q P. rewrite (D2 fd N) in Q. exact (S5 fd bs Q P).
Qed.

(** ** Records of poll *)
Lemma put_revents_at rs : forall m p i r, rs !! i = Some r -> 0 <= r < 65536 -> short_at (put_revents m p rs) (p + 8 * Z.of_nat i + 6) = r.
Proof.
  induction rs as [|x rs IH]; intros m p i r E R; [discriminate E|]. cbn [put_revents]. destruct i as [|i].
  - injection E as ->. unfold short_at. rewrite !put_revents_out by (intros j Hj; lia). change (8 * Z.of_nat 0) with 0.
    pose proof (store_in m (p + 6) (le 2 r) 0 ltac:(rewrite length_le; lia)) as H0. pose proof (store_in m (p + 6) (le 2 r) 1 ltac:(rewrite length_le; lia)) as H1.
    change (Z.of_nat 0) with 0 in H0. change (Z.of_nat 1) with 1 in H1. replace (p + 0 + 6) with (p + 6 + 0) by lia. rewrite H0. replace (p + 6 + 0 + 1) with (p + 6 + 1) by lia. rewrite H1.
    cbn [le nth]. lia.
  - replace (p + 8 * Z.of_nat (Datatypes.S i) + 6) with (p + 8 + 8 * Z.of_nat i + 6) by lia. apply IH; [exact E|exact R].
Qed.
Lemma mask_range r m : 0 <= m -> Z.land r (Z.lnot m) = 0 -> 0 <= r <= m.
Proof.
  intros M H. assert (E : r = Z.land r m).
  { apply Z.bits_inj'. intros j J. rewrite Z.land_spec. apply (f_equal (fun x => Z.testbit x j)) in H. rewrite Z.land_spec, Z.lnot_spec, Z.bits_0 in H by exact J. destruct (Z.testbit r j), (Z.testbit m j); try reflexivity; discriminate H. }
  assert (P : 0 <= Z.land r m) by (apply Z.land_nonneg; auto). split; [lia|]. rewrite E.
  assert (Q : Z.ldiff m (Z.land r m) = m - Z.land r m). { symmetry. apply Z.sub_nocarry_ldiff. apply Z.bits_inj'. intros j J. rewrite Z.ldiff_spec, Z.land_spec, Z.bits_0. destruct (Z.testbit r j), (Z.testbit m j); reflexivity. }
  assert (R : 0 <= Z.ldiff m (Z.land r m)) by (apply Z.ldiff_nonneg; auto). lia.
Qed.
Lemma hits_count m p n rs : Z.of_nat (length rs) = n -> (forall i r, rs !! i = Some r -> short_at m (p + 8 * Z.of_nat i + 6) = r) ->
  hits m p n = Z.of_nat (length (List.filter (fun r => negb (r =? 0)) rs)).
Proof.
  intros L H. unfold hits. f_equal.
  assert (G : forall rs k, (forall i r, rs !! i = Some r -> short_at m (p + 8 * (k + Z.of_nat i) + 6) = r) ->
    length (List.filter (fun i => negb (short_at m (p + 8 * i + 6) =? 0)) (seqZ k (Z.of_nat (length rs)))) = length (List.filter (fun r => negb (r =? 0)) rs)).
  { clear. induction rs as [|r rs IH]; intros k H; [reflexivity|]. rewrite seqZ_cons by (cbn [length]; lia). cbn [List.filter].
    pose proof (H 0%nat r eq_refl) as H0. change (Z.of_nat 0) with 0 in H0. rewrite Z.add_0_r in H0. rewrite H0.
    assert (IH' := IH (Z.succ k)). replace (Z.pred (Z.of_nat (length (r :: rs)))) with (Z.of_nat (length rs)) by (cbn [length]; lia).
    assert (E := IH' ltac:(intros i x Ex; specialize (H (Datatypes.S i) x Ex); rewrite <- H; f_equal; lia)). destruct (negb (r =? 0)); cbn [length]; rewrite E; reflexivity. }
  rewrite <- L. apply G. intros i r E. rewrite Z.add_0_l. apply H. exact E.
Qed.
Lemma poll_neg n c l late n' v : step n c (Poll l late) = Go n' (Ret v) -> v < 0.
Proof.
  intros H. cbn [step] in H. unfold poll_call in H. destruct (poll_pass n c l) as [[x|rs]|] eqn:E; [| |discriminate H]; [|destruct (_ || late); discriminate H]. injection H as _ <-.
  revert E. induction l as [|[fd ev] l IH]; cbn [poll_pass]; [discriminate|]. destruct (poll_one n c fd ev) as [[y|y]|] eqn:P; [| |discriminate].
  - intros [= <-]. unfold poll_one in P. destruct (fd <? 0); [discriminate P|]. destruct (_ && _); [discriminate P|]. cbv zeta in P.
    destruct (select_round _ _ _ _ _ _) as [[z|[[j rs] ws]]|] eqn:R; [| |discriminate P]; [|destruct (0 <? j); discriminate P].
    destruct (z =? err EBADF) eqn:Z0; [discriminate P|]. injection P as <-. unfold select_round in R. destruct (_ || _); [injection R as <-; reflexivity|].
    destruct (scan_opt _ (Some (want ev POLLIN fd)) _) as [[[? ?]|]|]; [|injection R as <-; reflexivity|discriminate R].
    destruct (scan_opt _ (Some (want ev POLLOUT fd)) _) as [[[? ?]|]|]; [|injection R as <-; reflexivity|discriminate R].
    destruct (scan_opt _ _ _) as [[[? ?]|]|]; [discriminate R|injection R as <-; reflexivity|discriminate R].
  - destruct (poll_pass n c l) as [[z|rs]|]; [|discriminate|discriminate]. intros [= <-]. apply IH. reflexivity.
Qed.
Lemma poll_memory s c a late s' k : bytes_only (s_m s) -> Forall is_word (words a) -> enter s c 48 a late = Rep s' (Some k) -> 0 <= k ->
  s_n s' = s_n s /\ k = hits (s_m s') (a1 a) (a2 a) /\
  forall i fd ev r, 0 <= Z.of_nat i < a2 a -> polled (s_m s) (a1 a) i = (fd, ev) -> r = short_at (s_m s') (a1 a + 8 * Z.of_nat i + 6) ->
  (hasbit r 1 = true -> reqd ev 1 /\ (plain_reader (s_n s) c fd -> read_now (s_n s) c fd)) /\
  (reqd ev 1 -> plain_reader (s_n s) c fd -> 0 <= fd -> hasbit r 1 = false -> read_waits (s_n s) c fd) /\
  (hasbit r 4 = true -> reqd ev 4 /\ (pipe_writer (s_n s) c fd -> forall bs,
     step (s_n s) c (Write fd bs) <> Block /\ step (s_n s) c (Write fd bs) <> Go (s_n s) (Ret (-11)))) /\
  (hasbit r 2 = true -> reqd ev 2) /\
  (hasbit r 32 = true -> ~ is_open (s_n s) c fd) /\
  Z.land r (Z.lnot 39) = 0.
Proof.
  intros B W H K. pose proof (words_word a W) as (_ & W2 & _). unfold is_word in W2. destruct (enter_good _ _ _ _ _ _ _ H ltac:(lia) ltac:(lia) K) as (o & d & n' & x & F & _ & _ & S & -> & E).
  inversion F as [? ? NI| |? ? ? [C|C]| | | |late'| | |]; subst; [destruct NI; set_solver|discriminate C|discriminate C|].
  destruct (poll_shape _ _ _ _ _ _ S) as [_ [(v & ->)|(j & rs & -> & _ & L)]]; [apply poll_neg in S; cbn [returned] in E; injection E as ->; lia|].
  cbn [returned] in E. injection E as ->. destruct (poll_answer _ _ _ _ _ _ _ S) as (-> & _ & C & P). cbn [s_n s_m deliver]. rewrite length_pollfds in L.
  assert (G : forall i, (i < length rs)%nat -> pollfds (s_m s) (a1 a) (a2 a) !! i = Some (polled (s_m s) (a1 a) i)).
  { intros i Hi. destruct (pollfds (s_m s) (a1 a) (a2 a) !! i) as [x|] eqn:Q; [rewrite (pollfds_polled _ _ _ _ _ B Q); reflexivity|]. apply lookup_ge_None in Q. rewrite length_pollfds in Q. lia. }
  assert (At : forall i r, rs !! i = Some r -> short_at (put_revents (s_m s) (a1 a) rs) (a1 a + 8 * Z.of_nat i + 6) = r).
  { intros i r Q. apply put_revents_at; [exact Q|]. pose proof (G i (lookup_lt_Some _ _ _ Q)) as Gi. destruct (polled (s_m s) (a1 a) i) as [fd ev]. destruct (P i fd ev r Gi Q) as (_ & _ & _ & _ & _ & M).
    apply mask_range in M; [|vm_compute; discriminate]. change (POLLIN + POLLOUT + POLLPRI + POLLNVAL) with 39 in M. lia. }
  split; [reflexivity|]. split.
  - rewrite C. symmetry. apply hits_count; [lia|]. exact At.
  - intros i fd ev r Hi Ep ->. assert (Hl : (i < length rs)%nat) by lia. destruct (lookup_lt_is_Some_2 rs i Hl) as [r Er]. rewrite (At i r Er). pose proof (G i Hl) as Gi. rewrite Ep in Gi. exact (P i fd ev r Gi Er).
Qed.

(** ** Records of epoll_wait *)
Lemma events_at evs : forall m p i e d, evs !! i = Some (e, d) -> 0 <= e < 2 ^ 32 ->
  number_at (store m p (concat (map event_bytes evs))) (p + 8 * Z.of_nat i) = e /\ number_at (store m p (concat (map event_bytes evs))) (p + 8 * Z.of_nat i + 4) = d mod 2 ^ 32.
Proof.
  intros m p i e d E R.
  assert (G : forall k : nat, (k < 8)%nat -> store m p (concat (map event_bytes evs)) (p + 8 * Z.of_nat i + Z.of_nat k) = nth k (event_bytes (e, d)) 0).
  { intros k K. pose proof (lookup_lt_Some _ _ _ E) as Li. pose proof (events_length evs) as Le. replace (p + 8 * Z.of_nat i + Z.of_nat k) with (p + Z.of_nat (8 * i + k)) by lia. rewrite store_in by lia.
    clear m p Le R. revert i E Li. induction evs as [|[e0 d0] evs IH]; intros i E Li; [discriminate E|]. cbn [map concat]. assert (L8 : length (event_bytes (e0, d0)) = 8%nat) by (unfold event_bytes; rewrite app_length, !length_le; reflexivity).
    destruct i as [|i].
    - injection E as -> ->. rewrite app_nth1 by lia. f_equal; lia.
    - rewrite app_nth2 by lia. rewrite L8. replace (8 * Datatypes.S i + k - 8)%nat with (8 * i + k)%nat by lia. apply IH; [exact E|cbn [length] in Li; lia]. }
  assert (N : forall q j, (forall k : nat, (k < 4)%nat -> store m p (concat (map event_bytes evs)) (q + Z.of_nat k) = nth k (le 4 j) 0) -> number_at (store m p (concat (map event_bytes evs))) q = j mod 2 ^ 32).
  { intros q j Q. unfold number_at. pose proof (Q 0%nat ltac:(lia)) as Q0. pose proof (Q 1%nat ltac:(lia)) as Q1. pose proof (Q 2%nat ltac:(lia)) as Q2. pose proof (Q 3%nat ltac:(lia)) as Q3.
    change (Z.of_nat 0) with 0 in Q0. change (Z.of_nat 1) with 1 in Q1. change (Z.of_nat 2) with 2 in Q2. change (Z.of_nat 3) with 3 in Q3. rewrite Z.add_0_r in Q0. rewrite Q0, Q1, Q2, Q3. cbn [le nth]. lia. }
  split.
  - rewrite (N _ e); [apply Z.mod_small; exact R|]. intros k K. rewrite G by lia. unfold event_bytes. cbn [fst snd]. rewrite app_nth1 by (rewrite length_le; lia). reflexivity.
  - apply N. intros k K. replace (p + 8 * Z.of_nat i + 4 + Z.of_nat k) with (p + 8 * Z.of_nat i + Z.of_nat (4 + k)) by lia. rewrite G by lia. unfold event_bytes. cbn [fst snd]. rewrite app_nth2 by (rewrite length_le; lia). rewrite length_le.
    f_equal. lia.
Qed.
Lemma ewait_range n c ep k late n' j evs e d : step n c (Ewait ep k late) = Go n' (Events j evs) -> (e, d) ∈ evs -> 0 <= e < 8.
Proof.
  intros H I. cbn [step] in H. unfold ewait_call in H. destruct (negb _); [discriminate H|]. destruct (n_fds n !! (c, ep)) as [[]|]; try discriminate H. destruct (k <=? 0); [discriminate H|]. cbv zeta in H.
  destruct (poll_pass _ _ _) as [[v|rs]|] eqn:P; [discriminate H| |discriminate H]. destruct (_ || late); [|discriminate H]. injection H as _ _ <-.
  assert (L := Forall2_length _ _ _ (poll_pass_spec _ _ _ _ P)). rewrite map_length in L. destruct (report_spec _ _ _ _ _ I L) as (i & fd & ev & r & _ & _ & -> & _). change (POLLIN + POLLPRI + POLLOUT) with (Z.ones 3).
  rewrite Z.land_ones by lia. change (2 ^ 3) with 8. apply Z.mod_pos_bound. lia.
Qed.
Lemma epoll_memory s c a late s' k : Forall is_word (words a) -> enter s c 58 a late = Rep s' (Some k) -> 0 <= k ->
  exists ep max, int_word (a1 a) ep /\ int_word (a3 a) max /\ k <= max /\
  forall i, 0 <= i < k -> exists fd ev d, watched (s_n s) c ep fd = Some (ev, d) /\ is_open (s_n s) c fd /\
    number_at (s_m s') (a2 a + 8 * i + 4) = d mod 2 ^ 32 /\
    let e := number_at (s_m s') (a2 a + 8 * i) in e <> 0 /\
    (hasbit e 1 = true -> reqd ev 1 /\ (0 <= fd < 1024 -> plain_reader (s_n s) c fd -> read_now (s_n s) c fd)) /\
    (hasbit e 4 = true -> reqd ev 4 /\ (0 <= fd < 1024 -> pipe_writer (s_n s) c fd -> forall bs,
       step (s_n s) c (Write fd bs) <> Block /\ step (s_n s) c (Write fd bs) <> Go (s_n s) (Ret (-11)))) /\
    (hasbit e 2 = true -> reqd ev 2).
Proof.
  intros W H K. pose proof (words_word a W) as (W1 & _ & W3 & _). destruct (enter_good _ _ _ _ _ _ _ H ltac:(lia) ltac:(lia) K) as (o & d & n' & x & F & _ & _ & S & -> & E).
  inversion F as [? ? NI| |? ? ? [C|C]| | | | | |ep max late' Ke Km Kp|]; subst; [destruct NI; set_solver|discriminate C|discriminate C|].
  destruct (ewait_shape _ _ _ _ _ _ _ S) as [(v & ->)|(evs & -> & L)].
  - exfalso. cbn [returned] in E. injection E as ->. revert S K. clear. intros S K. cbn [step] in S. unfold ewait_call in S. destruct (negb _); [injection S as _ <-; vm_compute in K; congruence|].
    destruct (n_fds (s_n s) !! (c, ep)) as [[]|]; try (injection S as _ <-; vm_compute in K; congruence). destruct (max <=? 0); [injection S as _ <-; vm_compute in K; congruence|]. cbv zeta in S.
    destruct (poll_pass _ _ _) as [[v|rs]|] eqn:P; [| |discriminate S]; [|destruct (_ || late'); discriminate S]. injection S as _ ->.
    match type of P with poll_pass ?n1 _ ?l = _ => pose proof (poll_neg n1 c l false n1 k) as Q end. cbn [step] in Q. unfold poll_call in Q. rewrite P in Q. specialize (Q eq_refl). lia.
  - cbn [returned] in E. injection E as <-. destruct (ewait_answer _ _ _ _ _ _ _ _ S) as (_ & R & _ & A). cbn [s_n s_m deliver]. exists ep, max.
    split; [apply int_of; assumption|]. split; [apply int_of; assumption|]. split; [lia|]. intros i Hi.
    destruct (lookup_lt_is_Some_2 evs (Z.to_nat i) ltac:(lia)) as [[e d] Ei]. pose proof (elem_of_list_lookup_2 _ _ _ Ei) as In. pose proof (ewait_range _ _ _ _ _ _ _ _ _ _ S In) as Er.
    destruct (events_at evs (s_m s) (a2 a) (Z.to_nat i) e d Ei ltac:(lia)) as [X Y]. rewrite Z2Nat.id in X, Y by lia.
    destruct (A e d In) as (fd & ev & A1 & A2 & A3 & A4 & A5 & A6). exists fd, ev, d. rewrite X, Y. cbv zeta. auto 10.
Qed.
