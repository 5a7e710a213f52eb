(** Proofs for the boundary: textual addresses and the device list. *)
From Coq Require Import Ascii.
From Verif Require Import Base PathModel FsModel AbiModel AbiSpec.
Local Open Scope list_scope.
Local Open Scope Z_scope.

Definition digit (d : Z) : Prop := 48 <= d <= 57.
Fixpoint value (acc : Z) (s : list Z) : Z :=
  match s with [] => acc | d :: r => value (acc * 10 + (d - 48)) r end.
Lemma value_ge s : forall acc, 0 <= acc -> Forall digit s -> acc <= value acc s.
Proof.
  induction s as [|d s IH]; intros acc Ha H; [cbn; lia|]. cbn [value]. apply Forall_cons in H as [Hd H]. unfold digit in Hd.
  pose proof (IH (acc * 10 + (d - 48))). lia || (assert (0 <= acc * 10 + (d - 48)) by lia; specialize (H0 H1 H); lia).
Qed.
Lemma digits_sound max s : forall acc n, acc <= max -> digits max acc s = Some n -> Forall digit s /\ value acc s = n /\ n <= max.
Proof.
  induction s as [|d s IH]; intros acc n Ha H; cbn [digits value] in *.
  - injection H as <-. split; [constructor|lia].
  - destruct ((48 <=? d) && (d <=? 57)) eqn:E; [|discriminate H].
    destruct (max <? _) eqn:E2; [discriminate H|].
    assert (Hle : acc * 10 + (d - 48) <= max) by lia.
    destruct (IH _ _ Hle H) as (A & B & C). split; [constructor; [unfold digit; lia|exact A]|]. split; assumption.
Qed.
Lemma digits_complete max s : forall acc, 0 <= acc -> Forall digit s -> value acc s <= max -> digits max acc s = Some (value acc s).
Proof.
  induction s as [|d s IH]; intros acc Ha H Hm; cbn [digits value] in *; [reflexivity|].
  apply Forall_cons in H as [Hd H]. unfold digit in Hd.
  replace ((48 <=? d) && (d <=? 57)) with true by lia.
  assert (0 <= acc * 10 + (d - 48)) as Hp by lia.
  pose proof (value_ge s _ Hp H). replace (max <? acc * 10 + (d - 48)) with false by lia.
  apply IH; assumption.
Qed.
Lemma value_app s : forall acc t, value acc (s ++ t) = value (value acc s) t.
Proof. induction s as [|d s IH]; intros acc t; [reflexivity|]. cbn [value app]. apply IH. Qed.
Lemma numeral_value s n : numeral s n <-> s <> [] /\ Forall digit s /\ value 0 s = n.
Proof.
  split.
  - induction 1 as [d Hd|s n d _ (A & B & C) Hd].
    + split; [discriminate|]. split; [repeat constructor; unfold digit; lia|cbn [value]; lia].
    + split; [destruct s; discriminate|]. split; [apply Forall_app; split; [exact B|repeat constructor; unfold digit; lia]|].
      rewrite value_app. cbn [value]. lia.
  - revert n. induction s as [|d s IH] using rev_ind; intros n (A & B & C); [elim A; reflexivity|].
    apply Forall_app in B as [B D]. apply Forall_cons in D as [D _]. unfold digit in D.
    rewrite value_app in C. cbn [value] in C.
    replace d with (48 + (d - 48)) by lia.
    destruct (decide (s = [])) as [->|Hs].
    + cbn [value app] in *. replace n with (d - 48) by lia. apply num_one. lia.
    + replace n with (10 * value 0 s + (d - 48)) by lia. apply num_more; [|lia]. apply IH. done.
Qed.
Lemma digit_not_plus s : Forall digit s -> forall t, s <> 43 :: t.
Proof. intros H t ->. apply Forall_cons in H as [H _]. unfold digit in H. lia. Qed.
Lemma parse_u_iff max s n : 0 <= max -> parse_u max s = Some n <-> reads_as s n /\ n <= max.
Proof.
  intros Hm. unfold parse_u, reads_as. split.
  - destruct s as [|c r]; [discriminate|]. destruct (c =? PLUS) eqn:E.
    + intros H. assert (Hr : r <> []) by (destruct r; [discriminate H|discriminate]).
      assert (Hd : digits max 0 r = Some n) by (destruct r; [discriminate H|exact H]).
      destruct (digits_sound _ _ _ _ Hm Hd) as (A & B & C). split; [|exact C].
      right. exists r. split; [unfold PLUS in E; f_equal; lia|]. apply numeral_value. done.
    + intros H. destruct (digits_sound _ _ _ _ Hm H) as (A & B & C). split; [|exact C].
      left. apply numeral_value. done.
  - intros [[H|(t & -> & H)] Hn]; apply numeral_value in H as (A & B & C); subst n.
    + destruct s as [|c r]; [elim A; reflexivity|].
      destruct (c =? PLUS) eqn:E; [elim (digit_not_plus _ B r); unfold PLUS in E; f_equal; lia|].
      apply digits_complete; [lia|exact B|exact Hn].
    + replace (43 =? PLUS) with true by reflexivity. destruct t as [|c r]; [elim A; reflexivity|].
      apply digits_complete; [lia|exact B|exact Hn].
Qed.
Lemma reads_as_chars s n : reads_as s n -> Forall (fun c => c = 43 \/ digit c) s /\ s <> [].
Proof.
  intros [H|(t & -> & H)]; apply numeral_value in H as (A & B & C).
  - split; [|exact A]. eapply Forall_impl; [exact B|]. cbn. auto.
  - split; [|discriminate]. constructor; [left; reflexivity|]. eapply Forall_impl; [exact B|]. cbn. auto.
Qed.
Lemma reads_as_no c s n : reads_as s n -> c <> 43 -> ~ digit c -> c ∉ s.
Proof.
  intros H Hc Hd Hin. apply reads_as_chars in H as [H _]. rewrite Forall_forall in H. destruct (H _ Hin); contradiction.
Qed.

(** ** Splitting *)
Lemma split_none c s : c ∉ s -> split_at c s = [s].
Proof.
  induction s as [|a s IH]; intros H; [reflexivity|]. apply not_elem_of_cons in H as [H1 H2].
  cbn. replace (a =? c) with false by lia. rewrite IH by exact H2. reflexivity.
Qed.
Lemma split_app c a r : c ∉ a -> split_at c (a ++ c :: r) = a :: split_at c r.
Proof.
  induction a as [|x a IH]; intros H.
  - cbn. rewrite Z.eqb_refl. reflexivity.
  - apply not_elem_of_cons in H as [H1 H2]. cbn. replace (x =? c) with false by lia.
    rewrite IH by exact H2. reflexivity.
Qed.
Fixpoint join (c : Z) (ps : list (list Z)) : list Z :=
  match ps with [] => [] | [p] => p | p :: r => p ++ c :: join c r end.
Lemma split_join c s : join c (split_at c s) = s /\ Forall (fun p => c ∉ p) (split_at c s) /\ split_at c s <> [].
Proof.
  induction s as [|a s (IH & F & N)]; [cbn; split; [reflexivity|split; [repeat constructor; set_solver|discriminate]]|].
  cbn [split_at]. destruct (a =? c) eqn:E.
  - replace a with c by lia. split; [|split; [constructor; [set_solver|exact F]|discriminate]].
    destruct (split_at c s) as [|x xs]; [elim N; reflexivity|]. cbn [join app] in *. f_equal. exact IH.
  - destruct (split_at c s) as [|x xs]; [elim N; reflexivity|]. apply Forall_cons in F as [F1 F2].
    split; [|split; [constructor; [set_solver by lia|exact F2]|discriminate]].
    destruct xs as [|y ys]; cbn [join app] in *; [f_equal; exact IH|f_equal; exact IH].
Qed.
Lemma split_of_join c ps : ps <> [] -> Forall (fun p => c ∉ p) ps -> split_at c (join c ps) = ps.
Proof.
  induction ps as [|p ps IH]; intros N F; [elim N; reflexivity|]. apply Forall_cons in F as [F1 F2].
  destruct ps as [|q qs]; [cbn; apply split_none; exact F1|].
  change (join c (p :: q :: qs)) with (p ++ c :: join c (q :: qs)). rewrite split_app by exact F1.
  rewrite IH by (try discriminate; exact F2). reflexivity.
Qed.
Lemma colons_join ps : colons ps = join 58 ps.
Proof. induction ps as [|p ps IH]; [reflexivity|]. destruct ps; [reflexivity|]. cbn [colons join] in *. rewrite IH. reflexivity. Qed.
Lemma dotted_join a b c d : dotted a b c d = join 46 [a; b; c; d].
Proof. reflexivity. Qed.

(** ** IPv4 *)
Lemma v4_text_iff s bs : ip_from_string s = Done (Some (IP4 bs)) <->
  exists a b c d va vb vc vd, s = dotted a b c d /\ bs = [va; vb; vc; vd] /\
    reads_as a va /\ reads_as b vb /\ reads_as c vc /\ reads_as d vd /\ va <= 255 /\ vb <= 255 /\ vc <= 255 /\ vd <= 255.
Proof.
  unfold ip_from_string. split.
  - destruct ((length (split_at DOT s) =? 1)%nat && (1 <? length (split_at COLON s))%nat).
    { destruct (v6_loop _ _ _ _ _) as [[x|]|]; discriminate. }
    destruct ((length (split_at DOT s) =? 4)%nat && (length (split_at COLON s) =? 1)%nat) eqn:E; [|discriminate].
    destruct (mapM _ _) as [l|] eqn:Em; [|discriminate]. intros [= <-].
    destruct (split_join DOT s) as (J & _ & _).
    destruct (split_at DOT s) as [|a [|b [|c [|d [|]]]]]; try discriminate E.
    cbn in Em.
    destruct (parse_u 255 a) as [va|] eqn:E1; [|discriminate]. destruct (parse_u 255 b) as [vb|] eqn:E2; [|discriminate].
    destruct (parse_u 255 c) as [vc|] eqn:E3; [|discriminate]. destruct (parse_u 255 d) as [vd|] eqn:E4; [|discriminate].
    cbn in Em. injection Em as <-.
    apply parse_u_iff in E1 as [A1 B1], E2 as [A2 B2], E3 as [A3 B3], E4 as [A4 B4]; try lia.
    exists a, b, c, d, va, vb, vc, vd. rewrite dotted_join. symmetry in J. tauto.
  - intros (a & b & c & d & va & vb & vc & vd & -> & -> & A1 & A2 & A3 & A4 & B1 & B2 & B3 & B4).
    assert (Hdot : forall x n, reads_as x n -> 46 ∉ x) by (intros x n H; eapply reads_as_no; [exact H|lia|unfold digit; lia]).
    assert (Hcol : forall x n, reads_as x n -> 58 ∉ x) by (intros x n H; eapply reads_as_no; [exact H|lia|unfold digit; lia]).
    assert (ED : split_at DOT (dotted a b c d) = [a; b; c; d]).
    { rewrite dotted_join. apply split_of_join; [discriminate|]. repeat constructor; eapply Hdot; eassumption. }
    assert (EC : split_at COLON (dotted a b c d) = [dotted a b c d]).
    { apply split_none. unfold dotted, COLON. pose proof (Hcol _ _ A1). pose proof (Hcol _ _ A2). pose proof (Hcol _ _ A3). pose proof (Hcol _ _ A4).
      rewrite !elem_of_app, !elem_of_list_singleton. intuition lia. }
    rewrite ED, EC. cbn [length Nat.eqb Nat.ltb Nat.leb andb].
    assert (P : forall x n, reads_as x n -> n <= 255 -> parse_u 255 x = Some n) by (intros x n H1 H2; apply parse_u_iff; [lia|done]).
    cbn. rewrite (P a va), (P b vb), (P c vc), (P d vd) by assumption. reflexivity.
Qed.

(** ** IPv6: groups are read as decimal *)
Lemma group_length gs : length (group_bytes gs) = (2 * length gs)%nat.
Proof. induction gs as [|g gs IH]; [reflexivity|]. unfold group_bytes in *. cbn [flat_map app length]. rewrite IH. lia. Qed.
Lemma put_group pre g k arr :
  arr = group_bytes pre ++ replicate (2 * S k) 0 ->
  <[(2 * length pre)%nat := g / 256]> (<[(2 * length pre + 1)%nat := g mod 256]> arr) = group_bytes (pre ++ [g]) ++ replicate (2 * k) 0.
Proof.
  intros ->. rewrite <- group_length.
  rewrite insert_app_r_alt by lia. rewrite insert_app_r_alt by lia.
  replace (length (group_bytes pre) + 1 - length (group_bytes pre))%nat with 1%nat by lia.
  replace (length (group_bytes pre) - length (group_bytes pre))%nat with 0%nat by lia.
  replace (2 * S k)%nat with (S (S (2 * k))) by lia. cbn [replicate].
  unfold group_bytes. rewrite flat_map_app, <- app_assoc. reflexivity.
Qed.
Lemma v6_decimal l ps : forall gs pre k seen,
  Forall2 reads_as ps gs -> Forall (fun g => g <= 65535) gs -> k = length gs -> (length pre + k = 8)%nat ->
  v6_loop l ps (group_bytes pre ++ replicate (2 * k) 0) (length pre) seen = Done (Some (group_bytes (pre ++ gs))).
Proof.
  induction ps as [|p ps IH]; intros gs pre k seen F G Hk H8.
  - inversion F; subst. cbn [v6_loop length Nat.mul replicate]. rewrite !app_nil_r. reflexivity.
  - inversion F as [|? g ? gs' R F']; subst. apply Forall_cons in G as [G1 G2]. cbn [length] in H8.
    cbn [v6_loop]. destruct p as [|c p]; [destruct (proj2 (reads_as_chars _ _ R)); reflexivity|].
    assert (E : parse_u 65535 (c :: p) = Some g) by (apply parse_u_iff; [lia|done]).
    rewrite E. replace (16 <=? 2 * length pre)%nat with false by lia.
    rewrite (put_group pre g (length gs')) by reflexivity.
    replace (S (length pre)) with (length (pre ++ [g])) by (rewrite app_length; cbn; lia).
    rewrite IH with (gs := gs') by (try assumption; try reflexivity; rewrite app_length; cbn [length]; lia).
    rewrite <- app_assoc. reflexivity.
Qed.
Lemma v6_text_decimal ps gs : Forall2 reads_as ps gs -> Forall (fun g => g <= 65535) gs -> length gs = 8%nat ->
  ip_from_string (colons ps) = Done (Some (IP6 (group_bytes gs))).
Proof.
  intros F G H8. pose proof (Forall2_length _ _ _ F) as Hl. unfold ip_from_string.
  assert (Hc : Forall (fun p => 58 ∉ p) ps /\ Forall (fun p => 46 ∉ p) ps).
  { clear -F. induction F as [|p g ps gs R _ [IH1 IH2]]; [split; constructor|].
    split; constructor; try assumption; (eapply reads_as_no; [exact R|lia|unfold digit; lia]). }
  destruct Hc as [Hc Hd].
  assert (EC : split_at COLON (colons ps) = ps).
  { rewrite colons_join. apply split_of_join; [destruct ps; [cbn in Hl; lia|discriminate]|exact Hc]. }
  assert (ED : split_at DOT (colons ps) = [colons ps]).
  { apply split_none. rewrite colons_join. clear -Hd. unfold DOT. induction Hd as [|p ps Hp Hd IH]; [set_solver|].
    destruct ps; [exact Hp|]. change (join 58 (p :: l :: ps)) with (p ++ 58 :: join 58 (l :: ps)).
    rewrite elem_of_app, elem_of_cons. intuition lia. }
  rewrite EC, ED, Hl, H8. cbn [length Nat.eqb Nat.ltb Nat.leb andb].
  pose proof (v6_decimal 8 ps gs [] 8 false F G (eq_sym H8) eq_refl) as E.
  cbn [group_bytes flat_map app length] in E. cbn [Nat.mul Nat.add] in E. rewrite E. reflexivity.
Qed.

(** a double colon stands for as many zero groups as are missing *)
Lemma v6_prefix l ps : forall gs pre k seen rest,
  Forall2 reads_as ps gs -> Forall (fun g => g <= 65535) gs -> (length gs <= k)%nat -> (length pre + k = 8)%nat ->
  v6_loop l (ps ++ rest) (group_bytes pre ++ replicate (2 * k) 0) (length pre) seen =
  v6_loop l rest (group_bytes (pre ++ gs) ++ replicate (2 * (k - length gs)) 0) (length (pre ++ gs)) seen.
Proof.
  induction ps as [|p ps IH]; intros gs pre k seen rest F G Hk H8.
  - inversion F; subst. cbn [app length]. rewrite app_nil_r, Nat.sub_0_r. reflexivity.
  - inversion F as [|? g ? gs' R F']; subst. apply Forall_cons in G as [G1 G2]. cbn [length] in Hk. destruct k as [|k]; [lia|].
    cbn [app v6_loop]. destruct p as [|c p]; [destruct (proj2 (reads_as_chars _ _ R)); reflexivity|].
    assert (E : parse_u 65535 (c :: p) = Some g) by (apply parse_u_iff; [lia|done]).
    rewrite E. replace (16 <=? 2 * length pre)%nat with false by lia.
    rewrite (put_group pre g k) by reflexivity.
    replace (S (length pre)) with (length (pre ++ [g])) by (rewrite app_length; cbn; lia).
    rewrite IH with (gs := gs') by (try assumption; try lia; rewrite app_length; cbn [length]; lia).
    rewrite <- !app_assoc. reflexivity.
Qed.
Lemma group_zeros k : group_bytes (replicate k 0) = replicate (2 * k) 0.
Proof. induction k as [|k IH]; [reflexivity|]. replace (2 * S k)%nat with (S (S (2 * k))) by lia. cbn [replicate]. unfold group_bytes in *. cbn [flat_map app]. rewrite IH. reflexivity. Qed.
Lemma v6_text_gap ps gs qs hs : Forall2 reads_as ps gs -> Forall2 reads_as qs hs -> Forall (fun g => g <= 65535) (gs ++ hs) ->
  gs <> [] -> hs <> [] -> (length gs + length hs <= 7)%nat ->
  ip_from_string (colons (ps ++ [] :: qs)) = Done (Some (IP6 (group_bytes (gs ++ replicate (8 - length gs - length hs) 0 ++ hs)))).
Proof.
  intros F F' G N N' H8. pose proof (Forall2_length _ _ _ F) as Hl. pose proof (Forall2_length _ _ _ F') as Hl'. unfold ip_from_string.
  assert (K : forall ps gs, Forall2 reads_as ps gs -> Forall (fun p => 58 ∉ p) ps /\ Forall (fun p => 46 ∉ p) ps).
  { clear. intros ps gs F. induction F as [|p g ps gs R _ [IH1 IH2]]; [split; constructor|].
    split; constructor; try assumption; (eapply reads_as_no; [exact R|lia|unfold digit; lia]). }
  destruct (K _ _ F) as [Hc Hd]. destruct (K _ _ F') as [Hc' Hd']. clear K.
  assert (Hc2 : Forall (fun p => 58 ∉ p) (ps ++ [] :: qs)) by (apply Forall_app; split; [assumption|constructor; [apply not_elem_of_nil|assumption]]).
  assert (Hd2 : Forall (fun p => 46 ∉ p) (ps ++ [] :: qs)) by (apply Forall_app; split; [assumption|constructor; [apply not_elem_of_nil|assumption]]).
  assert (EC : split_at COLON (colons (ps ++ [] :: qs)) = ps ++ [] :: qs).
  { rewrite colons_join. apply split_of_join; [destruct ps; discriminate|exact Hc2]. }
  assert (ED : split_at DOT (colons (ps ++ [] :: qs)) = [colons (ps ++ [] :: qs)]).
  { apply split_none. rewrite colons_join. clear -Hd2. unfold DOT. induction Hd2 as [|p r Hp Hd IH]; [set_solver|].
    destruct r; [exact Hp|]. change (join 58 (p :: l :: r)) with (p ++ 58 :: join 58 (l :: r)).
    rewrite elem_of_app, elem_of_cons. intuition lia. }
  rewrite EC, ED. apply Forall_app in G as [G G']. set (l := length (ps ++ [] :: qs)).
  assert (L : l = (length gs + 1 + length hs)%nat) by (unfold l; rewrite app_length; cbn [length]; lia).
  assert (Lg : (0 < length gs)%nat) by (destruct gs; [contradiction|cbn; lia]). assert (Lh : (0 < length hs)%nat) by (destruct hs; [contradiction|cbn; lia]).
  cbn [length Nat.eqb andb]. replace (1 <? l)%nat with true by lia.
  replace (v6_loop l (ps ++ [] :: qs) (replicate 16 0) 0 false) with (v6_loop l ([] :: qs) (group_bytes gs ++ replicate (2 * (8 - length gs)) 0) (length gs) false)
    by (symmetry; exact (v6_prefix l ps gs [] 8 false ([] :: qs) F G ltac:(lia) eq_refl)).
  cbn [v6_loop]. replace (8 <? l)%nat with false by lia.
  set (z := (8 - length gs - length hs)%nat). replace (length gs + (8 - l + 1))%nat with (length (gs ++ replicate z 0)) by (rewrite app_length, replicate_length; lia).
  replace (group_bytes gs ++ replicate (2 * (8 - length gs)) 0) with (group_bytes (gs ++ replicate z 0) ++ replicate (2 * length hs) 0).
  2:{ unfold group_bytes at 1. rewrite flat_map_app. fold (group_bytes gs). fold (group_bytes (replicate z 0)). rewrite group_zeros, <- app_assoc, <- replicate_add. do 2 f_equal. lia. }
  rewrite (v6_decimal l qs hs _ (length hs) true F' G' eq_refl) by (rewrite app_length, replicate_length; lia).
  rewrite <- app_assoc. reflexivity.
Qed.

(** ** The device list *)
Lemma numeral_reads s n : numeral s n -> reads_as s n.
Proof. left. assumption. Qed.
Lemma numeral_no c s n : numeral s n -> ~ digit c -> c ∉ s.
Proof. intros H Hd Hin. apply numeral_value in H as (_ & F & _). rewrite Forall_forall in F. exact (Hd (F _ Hin)). Qed.
Lemma device_line_read l a : device_line l a -> l <> [] /\ 10 ∉ l /\ exists f, nth_error (split_at SPACE l) 2 = Some f /\ ip_from_string f = Done (Some (IP4 a)).
Proof.
  intros [nm sn x y z t rest vx vy vz vt N1 N2 N3 N4 N5 X Y Z T BX BY BZ BT].
  assert (Hn : forall c s n, numeral s n -> c < 48 -> c ∉ s) by (intros c s n H Hc; eapply numeral_no; [exact H|unfold digit; lia]).
  assert (D32 : 32 ∉ dotted x y z t).
  { unfold dotted. pose proof (Hn 32 _ _ X ltac:(lia)). pose proof (Hn 32 _ _ Y ltac:(lia)). pose proof (Hn 32 _ _ Z ltac:(lia)). pose proof (Hn 32 _ _ T ltac:(lia)).
    rewrite !elem_of_app, !elem_of_list_singleton. intuition lia. }
  assert (D10 : 10 ∉ dotted x y z t).
  { unfold dotted. pose proof (Hn 10 _ _ X ltac:(lia)). pose proof (Hn 10 _ _ Y ltac:(lia)). pose proof (Hn 10 _ _ Z ltac:(lia)). pose proof (Hn 10 _ _ T ltac:(lia)).
    rewrite !elem_of_app, !elem_of_list_singleton. intuition lia. }
  split; [destruct nm; discriminate|]. split.
  { unfold no_char in *. rewrite !elem_of_app, !elem_of_list_singleton. intuition lia. }
  exists (dotted x y z t). split.
  - unfold SPACE. cbn [app]. rewrite split_app by exact N1. rewrite split_app by exact N2. rewrite split_app by exact D32. reflexivity.
  - apply v4_text_iff. exists x, y, z, t, vx, vy, vz, vt. repeat (split; [first [reflexivity|apply numeral_reads; assumption|assumption]|]). assumption.
Qed.
Lemma device_file_ips f l : device_file f l -> device_ips (split_at NEWLINE f) = Done (map IP4 l).
Proof.
  induction 1 as [|ln a f r Hl Hf IH]; [reflexivity|].
  destruct (device_line_read _ _ Hl) as (N0 & N10 & g & E1 & E2).
  unfold NEWLINE in *. cbn [app]. rewrite split_app by exact N10. cbn [device_ips].
  replace (length ln =? 0)%nat with false by (destruct ln; [elim N0; reflexivity|reflexivity]).
  rewrite E1, E2, IH. reflexivity.
Qed.
Lemma device_file_list f l : device_file f l -> ips_from_ifaddrs f = Done (map IP4 l ++ [IP4 [0; 0; 0; 0]]).
Proof. intros H. unfold ips_from_ifaddrs. rewrite (device_file_ips _ _ H). reflexivity. Qed.
