(** The entry point: all words, memory after a call, histories. *)
From stdpp Require Import gmap.
From Verif Require Import Base AbiModel AbiSpec AbiProofs AbiBuf EntryModel EntrySpec EntryProofs EntryProofs2 EntryProofs3 EntryProofs4 EntryProofs5 WireSpec WireProofs.
From Verif Require Import SemModel IpcModel SigModel SigSpec SigProofs GateModel GateSpec GateProofs.
Local Open Scope list_scope.
Local Open Scope Z_scope.

(** ** One meaning *)
Lemma plain_inj q q' : plain_todo (Some q) = plain_todo (Some q') -> q = q'.
Proof. destruct q, q'; cbn; congruence. Qed.
Lemma plain_decoded chk m c e a n ts vs q : (n, ts) ∈ gtable -> well_typed m ts (words a) vs -> gmeaning c e n vs = Some q ->
  decode chk m e c n a = plain_todo (Some q).
Proof.
  intros T K M. destruct (gtable_plain n ts T) as [N L]. destruct (chain_typed _ ts (words a) vs (fun xs => plain_todo (gmeaning c e n (map Num xs))) N L K) as (xs & -> & _ & E).
  rewrite (decode_plain _ _ _ _ _ _ _ T), E, M. reflexivity.
Qed.
Lemma not_special n ts : (n, ts) ∈ gtable -> n ∉ [65; 80; 94; 147; 149; 150].
Proof. intros T. in_gtable T; intros H; repeat (apply elem_of_cons in H as [H|H]; [discriminate H|]); apply elem_of_nil in H; exact H. Qed.
Lemma asks_unique chk m c e a n q q' : asks chk m c e a n q -> asks chk m c e a n q' -> q = q'.
Proof.
  intros H H'. destruct H as [n ts vs q T K M|id cmd H1 H2 H3|h k H1 H2 V F|H1 V F|sig H1 K|how H1 K|which H1 K].
  - pose proof (not_special _ _ T) as NS. inversion H' as [? ts' vs' ? T' K' M' | | | | | |]; subst; try (exfalso; apply NS; now repeat constructor).
    apply plain_inj. rewrite <- (plain_decoded chk _ _ _ _ _ _ _ _ T K M), <- (plain_decoded chk _ _ _ _ _ _ _ _ T' K' M'). reflexivity.
  - inversion H' as [? ts' vs' ? T' K' M' | | | | | |]; subst; [exfalso; apply (not_special _ _ T'); now repeat constructor|].
    repeat f_equal; eapply int_word_fun; eassumption.
  - inversion H' as [? ts' vs' ? T' K' M' | | | | | |]; subst; [exfalso; apply (not_special _ _ T'); now repeat constructor|].
    repeat f_equal; eapply int_word_fun; eassumption.
  - inversion H' as [? ts' vs' ? T' K' M' | | | | | |]; subst; [exfalso; apply (not_special _ _ T'); now repeat constructor|]. reflexivity.
  - inversion H' as [? ts' vs' ? T' K' M' | | | | | |]; subst; [exfalso; apply (not_special _ _ T'); now repeat constructor|].
    repeat f_equal; eapply int_word_fun; eassumption.
  - inversion H' as [? ts' vs' ? T' K' M' | | | | | |]; subst; [exfalso; apply (not_special _ _ T'); now repeat constructor|].
    repeat f_equal; eapply int_word_fun; eassumption.
  - inversion H' as [? ts' vs' ? T' K' M' | | | | | |]; subst; [exfalso; apply (not_special _ _ T'); now repeat constructor|].
    repeat f_equal; eapply int_word_fun; eassumption.
Qed.
Lemma decl_decoded chk m c e a n r : bytes_only m -> Forall is_word (words a) -> declines m a n r -> enter chk (Gst pinit iboot m) e c n a = Rep (Gst pinit iboot m) (Some r).
Proof. intros B W. exact (declined chk (Gst pinit iboot m) c e a n r B W). Qed.
Lemma declines_unique m a n r r' : bytes_only m -> Forall is_word (words a) -> declines m a n r -> declines m a n r' -> r = r'.
Proof.
  intros B W D D'. set (e := Env 0 0 0 false false (fun _ => 0)). pose proof (decl_decoded true m 1 e a n r B W D) as E. rewrite (decl_decoded true m 1 e a n r' B W D') in E. congruence.
Qed.

(** every word of these calls means something *)
Lemma plain_meaning c e m a n ts vs : (n, ts) ∈ gtable -> well_typed m ts (words a) vs -> exists q, gmeaning c e n vs = Some q.
Proof.
  intros T K. destruct (gtable_plain n ts T) as [N L]. destruct (chain_typed _ ts (words a) vs (fun xs => Bad 0) N L K) as (xs & -> & X & _).
  in_gtable T; cbn [length] in X; repeat (destruct xs as [|? xs]; cbn [length] in X; try lia); cbn; eauto.
Qed.
Lemma clear_dec p q n : clear_of p q n \/ ~ clear_of p q n.
Proof. unfold clear_of. lia. Qed.
Lemma all_cases chk m c e a n : bytes_only m -> Forall is_word (words a) -> n ∈ gcalls ->
  (exists q, asks chk m c e a n q) \/ (exists r, declines m a n r) \/ aborts chk m a n \/ overlapping a n.
Proof.
  intros B W G. unfold gcalls in G. apply elem_of_app in G as [G|G].
  - apply elem_of_list_fmap in G as ([n' ts] & -> & T). cbn [fst]. destruct (gtable_plain n' ts T) as [N L].
    destruct (chain_cases m ts (words a) N L W) as [(vs & K)|(r & F)].
    + left. destruct (plain_meaning c e m a n' ts vs T K) as [q M]. exists q. exact (as_plain _ _ _ _ _ n' ts vs q T K M).
    + right. left. exists r. exact (de_plain _ _ n' ts r T F).
  - assert (W1 : is_word (a1 a)) by (inversion W; assumption). assert (W2 : is_word (a2 a)) by (inversion W as [|? ? ? X]; inversion X; assumption).
    repeat (apply elem_of_cons in G as [->|G]); [..|apply elem_of_nil in G; contradiction].
    + destruct (int_word_cases _ W2) as [(cmd & V)|V]; [|right; left; eexists; apply de_ctl_cmd; exact V].
      assert (C : cmd = 2 -> a2 a = 2) by (intros ->; destruct V as [_ V]; exact V).
      assert (C' : a2 a = 2 -> cmd = 2).
      { intros E. apply (int_word_fun (a2 a)); [exact V|]. rewrite E. split; [unfold is_int; lia|reflexivity]. }
      destruct (Z.eq_dec (a2 a) 2) as [E|E]; [destruct (Z.eq_dec (a3 a) 0) as [Z0|Z0]|].
      * right. left. eexists. apply de_ctl_null; assumption.
      * destruct (int_word_cases _ W1) as [(id & V1)|V1]; [left; eexists; apply (as_shmctl _ _ _ _ _ id cmd); auto|].
        right. left. eexists. apply de_ctl_id; [pose proof (int_word_small _ _ V); lia|auto|exact V1].
      * destruct (int_word_cases _ W1) as [(id & V1)|V1]; [left; eexists; apply (as_shmctl _ _ _ _ _ id cmd); auto; intros X; destruct (E (C X))|].
        right. left. eexists. apply de_ctl_id; [pose proof (int_word_small _ _ V); lia|intros X; destruct (E X)|exact V1].
    + destruct (int_word_cases _ W1) as [(h & V1)|V1]; [|right; left; eexists; apply de_cond_int; auto].
      destruct (int_word_cases _ W2) as [(k & V2)|V2]; [|right; left; eexists; apply de_cond_int; auto].
      pose proof (int_word_small _ _ V1). pose proof (int_word_small _ _ V2).
      pose proof (limit_cases chk m (a3 a) B) as C. destruct (limit_at chk m (a3 a)) as [[[]|r]|].
      * left. eexists. apply (as_cond _ _ _ _ _ h k); tauto.
      * right. left. destruct C as [(_ & C)|(_ & C & C')]; eexists; [apply de_cond_null; assumption|apply de_cond_nanos; assumption].
      * right. right. left. apply ab_cond; tauto.
    + destruct (Z_lt_le_dec (a1 a) (2 ^ 32)) as [V1|V1]; [|right; left; eexists; apply de_sem_int; auto].
      pose proof (limit_cases chk m (a2 a) B) as C. destruct (limit_at chk m (a2 a)) as [[[]|r]|].
      * left. eexists. apply as_sem; tauto.
      * right. left. destruct C as [(_ & C)|(_ & C & C')]; eexists; [apply de_sem_null; assumption|apply de_sem_nanos; assumption].
      * right. right. left. apply ab_sem; tauto.
    + destruct (int_word_cases _ W1) as [(v & V1)|V1]; [|right; left; eexists; apply de_signal; auto].
      destruct (clear_dec (a2 a) (a3 a) 24); [left; eexists; apply (as_action _ _ _ _ _ v); assumption|]. right. right. right. left. auto.
    + destruct (int_word_cases _ W1) as [(v & V1)|V1]; [|right; left; eexists; apply de_signal; auto].
      destruct (clear_dec (a2 a) (a3 a) 8); [left; eexists; apply (as_mask _ _ _ _ _ v); assumption|]. right. right. right. right. left. auto.
    + destruct (int_word_cases _ W1) as [(v & V1)|V1]; [|right; left; eexists; apply de_signal; auto].
      destruct (clear_dec (a2 a) (a3 a) 32); [left; eexists; apply (as_timer _ _ _ _ _ v); assumption|]. right. right. right. right. right. auto.
Qed.

(** ** Memory *)
Definition quiet (t : todo) : bool := match t with Action _ _ _ | Mask _ _ _ | Itimer _ _ _ | StatTo _ _ => false | _ => true end.
Lemma quiet_mem chk s e c t s' r : quiet t = true -> perform chk s e c t = Rep s' r -> g_m s' = g_m s.
Proof.
  destruct t as [v| | |o|o|o|o q|? ? ?|? ? ?|? ? ?|? ?]; intros Q H; try discriminate Q; cbn [perform] in H; try discriminate H.
  - injection H as <- _. reflexivity.
  - destruct (pstep (g_p s) o) as [[w y]|]; [|discriminate H]. injection H as <- _. reflexivity.
  - destruct (istep chk (g_x s) c o) as [[x y]|]; [|discriminate H]. injection H as <- _. reflexivity.
  - destruct (istep chk (g_x s) c o) as [[x []]|]; [..|discriminate H]; injection H as <- _; reflexivity.
  - destruct (pstep (g_p s) o) as [[w y]|]; [|discriminate H]. destruct (istep chk (g_x s) c q) as [[x z]|]; [|discriminate H]. injection H as <- _. reflexivity.
Qed.
Lemma arg_quiet {A} (v : AbiModel.res A) k : (forall x, quiet (k x) = true) -> quiet (arg v k) = true.
Proof. intros H. destruct v; cbn [arg]; [apply H|reflexivity]. Qed.
Lemma decode_quiet chk m e c n a : n <> 65 -> n <> 147 -> n <> 149 -> n <> 150 -> quiet (decode chk m e c n a) = true.
Proof.
  intros H1 H2 H3 H4. unfold decode.
  repeat match goal with |- quiet (if n =? ?k then _ else _) = true =>
    destruct (Z.eqb_spec n k) as [X|X]; [first [contradiction|repeat (apply arg_quiet; intros ?); first [reflexivity|
      unfold with_limit; destruct (limit_at _ _ _) as [?|]; [apply arg_quiet; reflexivity|reflexivity]]]|clear X] end. reflexivity.
Qed.
Lemma signal_dec chk m e c a n : n = 147 \/ n = 149 \/ n = 150 -> Forall is_word (words a) ->
  decode chk m e c n a = Bad (-22) \/
  exists v, int_word (a1 a) v /\ decode chk m e c n a = (if n =? 147 then Action v (a2 a) (a3 a) else if n =? 149 then Mask v (a2 a) (a3 a) else Itimer v (a2 a) (a3 a)).
Proof.
  intros N W. assert (W1 : is_word (a1 a)) by (inversion W; assumption).
  assert (D : decode chk m e c n a = arg (get_int (a1 a)) (fun v => if n =? 147 then Action v (a2 a) (a3 a) else if n =? 149 then Mask v (a2 a) (a3 a) else Itimer v (a2 a) (a3 a))).
  { destruct N as [->|[-> | ->]]; reflexivity. }
  destruct (int_word_cases _ W1) as [(v & V)|V]; [right; exists v; split; [exact V|]|left]; rewrite D.
  - rewrite (int_word_ok _ _ V). reflexivity.
  - rewrite (wide_int _ W1 V). reflexivity.
Qed.
Lemma stat_dec chk m e c a : Forall is_word (words a) ->
  (exists r, decode chk m e c 65 a = Bad r) \/ (exists o, decode chk m e c 65 a = OnI o) \/
  exists id, int_word (a1 a) id /\ a2 a = 2 /\ a3 a <> 0 /\ decode chk m e c 65 a = StatTo id (a3 a).
Proof.
  intros W. assert (W1 : is_word (a1 a)) by (inversion W; assumption). assert (W2 : is_word (a2 a)) by (inversion W as [|? ? ? X]; inversion X; assumption).
  assert (D : decode chk m e c 65 a = arg (get_int (a2 a)) (fun cmd => if cmd =? IPC_STAT then let! p := get_ptr (a3 a) in let! id := get_int (a1 a) in StatTo id p
    else let! id := get_int (a1 a) in OnI (Shmctl id cmd))) by reflexivity. rewrite D. clear D.
  destruct (int_word_cases _ W2) as [(cmd & V)|V]; [|left; eexists; rewrite (wide_int _ W2 V); reflexivity].
  rewrite (int_word_ok _ _ V). cbn [arg]. change IPC_STAT with 2.
  destruct (int_word_cases _ W1) as [(id & V1)|V1].
  - rewrite (int_word_ok _ _ V1). cbn [arg]. destruct (Z.eqb_spec cmd 2) as [->|]; [|right; left; eauto].
    destruct (Z.eq_dec (a3 a) 0) as [E|E]; [left; rewrite E; eexists; reflexivity|]. right. right. exists id. rewrite (ptr_ok _ E). cbn [arg].
    split; [exact V1|]. split; [destruct V as [_ V]; exact V|]. split; [exact E|reflexivity].
  - rewrite (wide_int _ W1 V1). cbn [arg]. left. destruct (cmd =? 2); [|eauto]. destruct (get_ptr (a3 a)); cbn [arg]; eauto.
Qed.
Lemma frame chk s c e a n s' r : Forall is_word (words a) -> enter chk s e c n a = Rep s' r -> forall q, ~ may_change n a q -> g_m s' q = g_m s q.
Proof.
  intros W H q N. unfold enter in H.
  destruct (Z.eq_dec n 65) as [->|N1].
  { destruct (stat_dec chk (g_m s) e c a W) as [(v & D)|[(o & D)|(id & _ & E2 & E3 & D)]]; rewrite D in H.
    - rewrite (quiet_mem _ _ _ _ _ _ _ (eq_refl : quiet (Bad v) = true) H). reflexivity.
    - rewrite (quiet_mem _ _ _ _ _ _ _ (eq_refl : quiet (OnI o) = true) H). reflexivity.
    - cbn [perform] in H. destruct (istep chk (g_x s) c _) as [[x []]|]; [| | |discriminate H]; injection H as <- _; cbn [g_m]; try reflexivity.
      apply put_shm_frame. intros K. apply N. split; [exact E3|]. auto. }
  destruct (Z.eq_dec n 147) as [->|N2].
  { destruct (signal_dec chk (g_m s) e c a 147 ltac:(auto) W) as [D|(v & V & D)]; rewrite D in H; [rewrite (quiet_mem _ _ _ _ _ _ _ (eq_refl : quiet (Bad (-22)) = true) H); reflexivity|].
    cbn [Z.eqb Pos.eqb perform] in H. destruct (pstep (g_p s) (PSigaction c v None)) as [[w []]|]; try discriminate H.
    destruct (pstep (g_p s) _) as [[w' y]|]; [|discriminate H]. injection H as <- _. cbn [g_m]. destruct (Z.eqb_spec (a3 a) 0); [reflexivity|].
    apply put_act_frame. intros K. apply N. split; assumption. }
  destruct (Z.eq_dec n 149) as [->|N3].
  { destruct (signal_dec chk (g_m s) e c a 149 ltac:(auto) W) as [D|(v & V & D)]; rewrite D in H; [rewrite (quiet_mem _ _ _ _ _ _ _ (eq_refl : quiet (Bad (-22)) = true) H); reflexivity|].
    cbn [Z.eqb Pos.eqb perform] in H. destruct (pstep (g_p s) (PSigprocmask c (e_tid e) v None)) as [[w []]|]; try discriminate H.
    destruct (pstep (g_p s) _) as [[w' y]|]; [|discriminate H]. injection H as <- _. cbn [g_m]. destruct (Z.eqb_spec (a3 a) 0); [reflexivity|].
    apply mask_frame. intros K. apply N. split; assumption. }
  destruct (Z.eq_dec n 150) as [->|N4].
  { destruct (signal_dec chk (g_m s) e c a 150 ltac:(auto) W) as [D|(v & V & D)]; rewrite D in H; [rewrite (quiet_mem _ _ _ _ _ _ _ (eq_refl : quiet (Bad (-22)) = true) H); reflexivity|].
    cbn [Z.eqb Pos.eqb perform] in H. pose proof (timer_query (g_p s) c v None) as Q. destruct (pstep (g_p s) (PSetitimer c v None)) as [[w y]|]; [|discriminate H].
    destruct (pstep (g_p s) _) as [[w' y']|]; [|discriminate H]. injection H as <- _. cbn [g_m]. destruct Q as (_ & [(-> & old & ->)|(_ & ->)]); [|reflexivity].
    destruct (Z.eqb_spec (a3 a) 0); [reflexivity|]. apply put_timer_frame. intros K. apply N. split; [assumption|]. split; [|exact K]. destruct V as [_ V]. exact V. }
  rewrite (quiet_mem _ _ _ _ _ _ _ (decode_quiet chk (g_m s) e c n a N1 N2 N3 N4) H). reflexivity.
Qed.
Lemma failed chk s c e a n s' r : Forall is_word (words a) -> enter chk s e c n a = Rep s' (Some r) -> r < 0 -> n <> 147 -> n <> 149 -> g_m s' = g_m s.
Proof.
  intros W H R N2 N3. unfold enter in H.
  destruct (Z.eq_dec n 65) as [->|N1].
  { destruct (stat_dec chk (g_m s) e c a W) as [(v & D)|[(o & D)|(id & _ & E2 & E3 & D)]]; rewrite D in H.
    - exact (quiet_mem _ _ _ _ _ _ _ (eq_refl : quiet (Bad v) = true) H).
    - exact (quiet_mem _ _ _ _ _ _ _ (eq_refl : quiet (OnI o) = true) H).
    - cbn [perform] in H. destruct (istep chk (g_x s) c _) as [[x []]|]; [| | |discriminate H].
      + injection H as <- _. reflexivity.
      + injection H as _ H. lia.
      + discriminate H. }
  destruct (Z.eq_dec n 150) as [->|N4].
  { destruct (signal_dec chk (g_m s) e c a 150 ltac:(auto) W) as [D|(v & V & D)]; rewrite D in H; [exact (quiet_mem _ _ _ _ _ _ _ (eq_refl : quiet (Bad (-22)) = true) H)|].
    cbn [Z.eqb Pos.eqb perform] in H. destruct (pstep (g_p s) (PSetitimer c v None)) as [[w y]|]; [|discriminate H].
    destruct (pstep (g_p s) _) as [[w' y']|] eqn:E; [|discriminate H]. injection H as _ H. exfalso. clear -E H R.
    cbn [pstep] in E. unfold p_setitimer in E. destruct (getref (g_p s) c) as [g|]; [|discriminate E]. cbn [obind] in E. destruct (v =? 0).
    - destruct (a2 a =? 0); [injection E as _ <-; cbn in H; lia|]. destruct (SigModel.duration_new _ _); [|discriminate E]. cbn [obind] in E.
      destruct (SigModel.duration_new _ _); [|discriminate E]. cbn [obind] in E. injection E as _ <-. cbn in H. lia.
    - injection E as _ <-. cbn in H. lia. }
  exact (quiet_mem _ _ _ _ _ _ _ (decode_quiet chk (g_m s) e c n a N1 N2 N3 N4) H).
Qed.

Lemma unknown_away chk s e c n a : n ∉ gcalls -> enter chk s e c n a = Outside.
Proof.
  intros N. unfold enter. replace (decode chk (g_m s) e c n a) with Away; [reflexivity|]. unfold decode.
  repeat match goal with |- Away = (if n =? ?k then _ else _) => destruct (Z.eqb_spec n k) as [X|X]; [exfalso; apply N; rewrite X; unfold gcalls; cbn [map app gtable fst]; now repeat constructor|clear X] end.
  reflexivity.
Qed.
(** a time limit that the library can compute *)
Lemma timed chk s c e a : bytes_only (g_m s) -> Forall is_word (words a) -> a1 a < 2 ^ 32 -> limit_valid (g_m s) (a2 a) -> word_at (g_m s) (a2 a) < 2 ^ 64 - 4 ->
  chk = false \/ nanos (g_m s) (a2 a) <= 4 -> does chk s e c (ForTimed (SemWait (a1 a))) (enter chk s e c 94 a).
Proof.
  intros B W H V K C. apply understood; [exact B|exact W|]. apply as_sem; [exact H|exact V|].
  assert (Q : (nanos (g_m s) (a2 a) * 1000000000) mod 2 ^ 32 / 1000000000 <= 4).
  { pose proof (Z.mod_pos_bound (nanos (g_m s) (a2 a) * 1000000000) (2 ^ 32) ltac:(lia)). apply Z.lt_succ_r. apply Z.div_lt_upper_bound; lia. }
  split; [|lia]. intros ->. destruct C as [C|C]; [discriminate C|]. destruct V as [_ V]. lia.
Qed.
