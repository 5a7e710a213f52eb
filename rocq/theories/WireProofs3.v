(** Proofs for the entry point of the socket calls: what is understood, and
    which memory changes. *)
From stdpp Require Import gmap.
From Verif Require Import Base AbiModel AbiSpec AbiProofs AbiBuf EntryModel EntrySpec EntryProofs NetModel NetSpec NetData NetReady WireModel WireSpec WireProofs WireProofs2.
Local Open Scope list_scope.
Local Open Scope Z_scope.

(** ** C120 *)
Lemma foreign_file n c o : foreign n c o = true <-> on_file n c o.
Proof.
  unfold foreign, on_file. split.
  - intros H. destruct o; try discriminate H; destruct (n_fds n !! (c, fd)) as [[]|] eqn:E; try discriminate H; exists fd; eauto.
  - intros (fd & [[k ->]|[bs ->]] & [E|E]); rewrite E; reflexivity.
Qed.
Lemma returned_answer x : returned x = answer_of x.
Proof. reflexivity. Qed.
Lemma understood s c n a late o : bytes_only (s_m s) -> Forall is_word (words a) -> asks (s_m s) a late n o -> ~ on_file (s_n s) c o ->
  match step (s_n s) c o with
  | Go n' x => exists m', enter s c n a late = Rep (St n' m') (answer_of x)
  | Block => exists m', enter s c n a late = Rep (St (s_n s) m') None
  | Dies => enter s c n a late = Crash
  end.
Proof.
  intros B W A F. unfold enter. rewrite (asks_decode _ _ _ _ _ B W A). cbn [perform].
  destruct (foreign (s_n s) c o) eqn:E; [apply foreign_file in E; contradiction|].
  destruct (step (s_n s) c o); [eexists; reflexivity|eexists; reflexivity|reflexivity].
Qed.
Lemma declined s c n a late r : bytes_only (s_m s) -> Forall is_word (words a) -> declines (s_m s) a n r -> enter s c n a late = Rep s (Some r).
Proof. intros B W D. unfold enter. rewrite (declines_decode _ _ late _ _ B W D). reflexivity. Qed.
Lemma asks_unique m a late n o o' : bytes_only m -> Forall is_word (words a) -> asks m a late n o -> asks m a late n o' -> o = o'.
Proof. intros B W A A'. pose proof (asks_decode _ _ _ _ _ B W A) as H. rewrite (asks_decode _ _ _ _ _ B W A') in H. injection H. auto. Qed.
Lemma asks_not_declined m a late n o r : bytes_only m -> Forall is_word (words a) -> asks m a late n o -> ~ declines m a n r.
Proof. intros B W A D. pose proof (asks_decode _ _ _ _ _ B W A) as H. rewrite (declines_decode _ _ late _ _ B W D) in H. discriminate H. Qed.
Lemma declines_unique m a n r r' : bytes_only m -> Forall is_word (words a) -> declines m a n r -> declines m a n r' -> r = r'.
Proof. intros B W A A'. pose proof (declines_decode _ _ false _ _ B W A) as H. rewrite (declines_decode _ _ false _ _ B W A') in H. injection H. auto. Qed.
Lemma wmeaning_ok m n ts : (n, ts) ∈ wtable -> forall ws vs, (length ts <= length ws)%nat -> well_typed m ts ws vs -> exists o, wmeaning m n vs = Some o.
Proof.
  intros T ws vs L K. destruct (wtable_plain _ _ T) as [N L6]. destruct (chain_typed m ts ws vs (fun _ => Away) N L K) as (xs & -> & X & _).
  in_table T; cbn in X; repeat (destruct xs as [|? xs]; [discriminate X|cbn in X]); (destruct xs; [|discriminate X]); cbn; eauto.
Qed.
Lemma words_length a : length (words a) = 6%nat.
Proof. reflexivity. Qed.
Lemma plain_cases m a late n ts : (n, ts) ∈ wtable -> Forall is_word (words a) -> (exists o, asks m a late n o) \/ (exists r, declines m a n r).
Proof.
  intros T W. destruct (wtable_plain _ _ T) as [N L]. destruct (chain_cases m ts (words a) N ltac:(rewrite words_length; exact L) W) as [(vs & K)|(r & K)].
  - left. destruct (wmeaning_ok m n ts T (words a) vs ltac:(rewrite words_length; exact L) K) as (o & M). exists o. exact (as_plain _ _ _ _ _ _ _ T K M).
  - right. exists r. exact (de_plain _ _ _ _ _ T K).
Qed.
Lemma three_cases a : Forall is_word (words a) -> (exists x y z, int_word (a1 a) x /\ int_word (a2 a) y /\ int_word (a3 a) z) \/ (2 ^ 32 <= a1 a \/ 2 ^ 32 <= a2 a \/ 2 ^ 32 <= a3 a).
Proof.
  intros W. pose proof (words_word a W) as (W1 & W2 & W3 & _).
  destruct (int_word_cases _ W1) as [[x X]|X]; [|auto]. destruct (int_word_cases _ W2) as [[y Y]|Y]; [|auto]. destruct (int_word_cases _ W3) as [[z Z]|Z]; [|auto]. left. eauto 10.
Qed.
Lemma addr_cases m a n : bytes_only m -> Forall is_word (words a) -> n = 33 \/ n = 38 ->
  (exists r, declines m a n r) \/ (exists fd path, int_word (a1 a) fd /\ address_at m (a2 a) (a3 a) path /\ local_path path) \/
  (left_out m a n /\ forall r, ~ declines m a n r).
Proof.
  intros B W N. pose proof (words_word a W) as (W1 & W2 & W3 & _).
  destruct (Z_lt_le_dec (a3 a) (2 ^ 32)) as [L|L]; [|left; exists (-22); exact (de_len _ _ _ N L)].
  destruct (Z.eq_dec (a2 a) 0) as [P|P]; [left; exists (-14); exact (de_null _ _ _ N L P)|].
  assert (D : short_at m (a2 a) ∉ [1; 2; 30] \/ exists f size, (f, size) ∈ [(1, 16); (2, 16); (30, 28)] /\ short_at m (a2 a) = f).
  { destruct (decide (short_at m (a2 a) ∈ [1; 2; 30])) as [E|E]; [right|left; exact E].
    apply elem_of_cons in E as [E|E]; [exists 1, 16; split; [left|exact E]|].
    apply elem_of_cons in E as [E|E]; [exists 2, 16; split; [right; left|exact E]|].
    apply elem_of_cons in E as [E|E]; [exists 30, 28; split; [right; right; left|exact E]|]. apply elem_of_nil in E. contradiction. }
  destruct D as [D|(f & size & F & E)]; [left; exists (-95); exact (de_family _ _ _ N L P D)|].
  assert (Q : (a3 a < size \/ f = 1 /\ 110 < a3 a) \/ (size <= a3 a /\ (f = 1 -> a3 a <= 110))) by lia.
  destruct Q as [Q|[Q1 Q2]]; [left; exists (-22); exact (de_short _ _ _ _ _ N L P F E Q)|].
  destruct (int_word_cases _ W1) as [[fd X]|X]; [|left; exists (-22); exact (de_addr_fd _ _ _ _ _ N L P F E Q1 Q2 X)].
  destruct (family_cases _ _ _ _ _ P F E Q1 Q2) as [g G]. right.
  assert (ND : forall r, ~ (declines m a n r)).
  { intros r D. pose proof (declines_decode _ _ false _ _ B W D) as H. destruct N as [->| ->]; unfold decode in H; cbn [Z.eqb Pos.eqb] in H; unfold with_addr in H; rewrite (small_uint _ W3 L) in H; cbn [arg] in H;
      rewrite G in H; cbn [arg] in H; rewrite (int_word_ok _ _ X) in H; cbn [arg] in H; destruct g; try discriminate H; destruct (plain_path _); discriminate H. }
  destruct (get_address _ _ _ _ B G) as [(path & -> & A)|[NF _]].
  - destruct (plain_path path) eqn:PP.
    + left. exists fd, path. split; [exact X|]. split; [exact A|]. apply plain_local; [apply A|exact PP].
    + right. split; [|exact ND]. left. split; [exact N|]. intros path' A' LP. pose proof (address_get _ _ _ _ B A') as H. rewrite (address_get _ _ _ _ B A) in H. injection H as ->.
      apply plain_local in LP; [|apply A']. rewrite PP in LP. discriminate LP.
  - right. split; [|exact ND]. left. split; [exact N|]. intros path' A' LP. apply NF. destruct A' as (_ & _ & K & _). unfold short_at. pose proof (K 0%nat 1 eq_refl) as H0. pose proof (K 1%nat 0 eq_refl) as H1.
    change (Z.of_nat 0) with 0 in H0. rewrite Z.add_0_r in H0. change (Z.of_nat 1) with 1 in H1. lia.
Qed.
Lemma limit_ex (P : Prop) late : Decision P -> exists late', limit P late late'.
Proof. intros [H|H]; [exists false; left; auto|exists late; right; auto]. Qed.
Lemma all_cases m a late n : bytes_only m -> Forall is_word (words a) -> n ∈ calls ->
  (exists o, asks m a late n o) \/ (exists fd, asks_name a n fd) \/ (exists r, declines m a n r) \/
  (n = 46 /\ ~ clock_ok m (a5 a)) \/ (left_out m a n /\ forall r, ~ declines m a n r).
Proof.
  intros B W N. pose proof (words_word a W) as (W1 & W2 & W3 & W4 & W5 & W6).
  assert (P : forall ts, (n, ts) ∈ wtable -> (exists o, asks m a late n o) \/ (exists r, declines m a n r)) by (intros ts T; exact (plain_cases m a late n ts T W)).
  assert (P' : (exists o, asks m a late n o) \/ (exists r, declines m a n r) -> (exists o, asks m a late n o) \/ (exists fd, asks_name a n fd) \/ (exists r, declines m a n r) \/
    (n = 46 /\ ~ clock_ok m (a5 a)) \/ (left_out m a n /\ forall r, ~ declines m a n r)) by tauto.
  unfold calls in N. repeat (apply elem_of_cons in N as [N|N]; [subst n|]); [..|apply elem_of_nil in N; contradiction];
    try (apply P'; eapply P; unfold wtable; repeat (first [apply elem_of_list_here|apply elem_of_list_further]); fail).
  - destruct (addr_cases m a 33 B W (or_introl eq_refl)) as [D|[(fd & path & X & A & LP)|L]]; [tauto| |tauto]. left. eexists. exact (as_bind _ _ _ _ _ X A LP).
  - destruct (Z.eq_dec (a5 a) 0) as [E5|E5], (Z.eq_dec (a6 a) 0) as [E6|E6].
    + apply P'. destruct (chain_cases m [AInt; APtr; ASize; AInt] (words a)) as [(vs & K)|(r & K)]; [intros H; repeat (apply elem_of_cons in H as [H|H]; [discriminate H|]); apply elem_of_nil in H; exact H|cbn; lia|exact W| |].
      * left. unfold well_typed in K. cbn in K. inversion K as [|? v1 ? vs1 S1 K1]; subst. inversion K1 as [|? v2 ? vs2 S2 K2]; subst. inversion K2 as [|? v3 ? vs3 S3 K3]; subst. inversion K3 as [|? v4 ? vs4 S4 K4]; subst.
        cbn in S1, S2, S4. inversion S1 as [v HI HE| | | | |]; subst. inversion S2 as [| | | |p HP HE2|]; subst. inversion S4 as [v' HI' HE'| | | | |]; subst.
        exists (Recv v (a3 a) v'). apply as_recvfrom; auto; [split; auto|split; auto].
      * right. exists r. exact (de_from_bad _ _ _ E5 E6 K).
    + apply P'. right. exists (-22). apply de_from_one. lia.
    + apply P'. right. exists (-22). apply de_from_one. lia.
    + do 4 right. split; [right; auto|]. intros r D. inversion D as [? ts ? T| | | | | | | | | | | | | | | | | | | | | | |]; subst; try lia. unfold wtable in T. repeat (apply elem_of_cons in T as [T|T]; [discriminate T|]). apply elem_of_nil in T. contradiction.
  - destruct (addr_cases m a 38 B W (or_intror eq_refl)) as [D|[(fd & path & X & A & LP)|L]]; [tauto| |tauto]. left. eexists. exact (as_connect _ _ _ _ _ X A LP).
  - apply P'. destruct (Z.eq_dec (a2 a) 0) as [E2|E2], (Z.eq_dec (a3 a) 0) as [E3|E3].
    2,3: right; exists (-22); apply de_accept_one; lia.
    + destruct (int_word_cases _ W1) as [[fd X]|X]; [left; eexists; eapply as_accept; [exact X|lia]|right; eexists; eapply de_accept_fd; [lia|exact X]].
    + destruct (int_word_cases _ W1) as [[fd X]|X]; [left; eexists; eapply as_accept; [exact X|lia]|right; eexists; eapply de_accept_fd; [lia|exact X]].
  - apply P'. destruct (Z.eq_dec (a4 a) 0) as [E4|E4]; [right; eexists; exact (de_getopt_null _ _ (or_introl E4))|]. destruct (Z.eq_dec (a5 a) 0) as [E5|E5]; [right; eexists; exact (de_getopt_null _ _ (or_intror E5))|].
    destruct (Z.eq_dec (number_at m (a5 a)) 4) as [E|E]; [|right; eexists; exact (de_getopt_len _ _ E4 E5 E)].
    destruct (three_cases a W) as [(x & y & z & X & Y & Z)|I]; [left; eexists; exact (as_getopt _ _ _ _ _ _ X Y Z E4 E5 E)|right; eexists; exact (de_getopt_int _ _ E4 E5 E I)].
  - apply P'. destruct (Z.eq_dec (a4 a) 0) as [E4|E4].
    + destruct (three_cases a W) as [(x & y & z & X & Y & Z)|I]; [left; eexists; exact (as_setopt _ _ _ _ _ _ _ X Y Z (or_introl (conj E4 eq_refl)))|right; eexists; exact (de_setopt_int _ _ (or_introl E4) I)].
    + destruct (Z.eq_dec (a5 a) 4) as [E5|E5]; [|right; eexists; exact (de_setopt_len _ _ E4 E5)].
      destruct (three_cases a W) as [(x & y & z & X & Y & Z)|I]; [left; eexists; exact (as_setopt _ _ _ _ _ _ _ X Y Z (or_intror (conj E4 (conj E5 eq_refl))))|right; eexists; exact (de_setopt_int _ _ (or_intror E5) I)].
  - destruct (int_word_cases _ W1) as [[k X]|X]; [|do 2 right; left; eexists; exact (de_select_int _ _ X)].
    destruct (Z_lt_le_dec k 0) as [K|K]; [do 2 right; left; eexists; exact (de_select_neg _ _ _ X K)|].
    pose proof (timeval_spec m (a5 a) B) as T. destruct (timeval m (a5 a)) as [t|]; [|do 3 right; left; auto]. destruct T as [T _].
    destruct (limit_ex (a5 a = 0) late ltac:(apply _)) as [late' Hl]. left. eexists.
    exact (as_select _ _ _ _ _ _ _ _ X K (opt_set_shows m (a2 a)) (opt_set_shows m (a3 a)) (opt_set_shows m (a4 a)) T Hl).
  - apply P'. destruct (Z.eq_dec (a1 a) 0) as [E|E]; [right; eexists; exact (de_poll_null _ _ E)|].
    destruct (int_word_cases _ W3) as [[ms X]|X]; [|right; eexists; exact (de_poll_time _ _ E X)].
    destruct (limit_ex (ms < 0) late ltac:(apply _)) as [late' Hl]. left. eexists. eapply (as_poll _ _ _ (pollfds m (a1 a) (a2 a))); [exact E| | |exact X|exact Hl].
    + rewrite length_pollfds. unfold is_word in W2. lia.
    + intros i x H. exact (pollfds_polled _ _ _ _ _ B H).
  - apply P'. destruct (int_word_cases _ W3) as [[k X]|X]; [|right; eexists; exact (de_wait_max _ _ X)].
    destruct (Z_lt_le_dec k 0) as [K|K]; [right; eexists; exact (de_wait_neg _ _ _ X K)|].
    destruct (chain_cases m [AInt; APtr; AInt] [a1 a; a2 a; a4 a]) as [(vs & V)|(r & V)]; [intros H; repeat (apply elem_of_cons in H as [H|H]; [discriminate H|]); apply elem_of_nil in H; exact H|cbn; lia|repeat (constructor; [assumption|]); constructor| |].
    + left. unfold well_typed in V. cbn in V. inversion V as [|? v1 ? vs1 S1 K1]; subst. inversion K1 as [|? v2 ? vs2 S2 K2]; subst. inversion K2 as [|? v3 ? vs3 S3 K3]; subst.
      cbn in S1, S2, S3. inversion S1 as [v HI HE| | | | |]; subst. inversion S2 as [| | | |p HP HE2|]; subst. inversion S3 as [v' HI' HE'| | | | |]; subst.
      destruct (limit_ex (v' < 0) late ltac:(apply _)) as [late' Hl]. eexists. apply (as_ewait _ _ _ v k v' late'); auto; [split; auto|split; auto].
    + right. eexists. exact (de_wait_bad _ _ _ _ X K V).
  - destruct (decide (a2 a = 0 \/ a3 a = 0)) as [E|E]; [do 2 right; left; eexists; exact (de_name_null _ _ _ (or_introl eq_refl) E)|].
    destruct (int_word_cases _ W1) as [[fd X]|X]; [right; left; exists fd; unfold asks_name; tauto|do 2 right; left; eexists; apply (de_name_fd _ _ 144); tauto].
  - destruct (decide (a2 a = 0 \/ a3 a = 0)) as [E|E]; [do 2 right; left; eexists; exact (de_name_null _ _ _ (or_intror eq_refl) E)|].
    destruct (int_word_cases _ W1) as [[fd X]|X]; [right; left; exists fd; unfold asks_name; tauto|do 2 right; left; eexists; apply (de_name_fd _ _ 145); tauto].
Qed.
Lemma address_bytes m p len path : bytes_only m -> address_at m p len path -> Forall is_byte path.
Proof.
  intros B (_ & _ & L & _). apply Forall_forall. intros b H. apply elem_of_list_In, In_nth_error in H as [k H]. rewrite <- (L (2 + k)%nat b); [apply B|exact H].
Qed.
