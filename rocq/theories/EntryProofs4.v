(** Proofs for the entry point: whole calls. *)
From stdpp Require Import gmap.
From Coq Require Import Ascii.
From Verif Require Import Base PathModel FsModel AbiModel AbiSpec AbiProofs AbiBuf EntryModel EntrySpec EntryProofs EntryProofs2 EntryProofs3.
Local Open Scope list_scope.
Local Open Scope Z_scope.

(** ** Calls that are understood *)
Lemma len_words a : length (words a) = 6%nat.
Proof. reflexivity. Qed.
Lemma decode_ok m n a ts vs : (n, ts) ∈ table -> well_typed m ts (words a) vs -> decode m n a = goal_of m n a vs.
Proof. intros T H. rewrite (decode_chain _ _ _ _ T). apply chain_ok; [rewrite len_words; eapply table_len; eassumption|exact H]. Qed.
Lemma goal_meaning m n a vs o : meaning m n vs = Some o -> goal_of m n a vs = Do o (place n a).
Proof.
  intros H. unfold goal_of. destruct (decide (n = 19)) as [->|N1]; [discriminate H|]. destruct (decide (n = 26)) as [->|N2]; [discriminate H|].
  destruct (decide (n = 125)) as [->|N3]; [discriminate H|]. rewrite H.
  destruct n as [|q|q]; try reflexivity; repeat (destruct q as [q|q|]; try reflexivity); try contradiction.
Qed.
Lemma stands_kind m t w v : stands m t w v -> match t with APath => exists s, v = Txt s | _ => exists z, v = Num z end.
Proof. intros H. destruct H; eauto. Qed.
Ltac typed H :=
  repeat match type of H with
  | well_typed _ _ _ _ => unfold well_typed, words in H; cbn [zip zip_with] in H
  | Forall2 _ (_ :: _) _ => let v := fresh "v" in let l := fresh "l" in let Hv := fresh "Hv" in let Hr := fresh "Hr" in
      inversion H as [|? v ? l Hv Hr]; subst; clear H; rename Hr into H; cbn [fst snd] in Hv
  | Forall2 _ [] _ => inversion H; subst; clear H
  end.
Ltac kinds := repeat match goal with
  | H : stands _ APath _ ?v |- _ => let E := fresh in destruct (stands_kind _ _ _ _ H) as [? E]; cbn in E; subst v; inversion H; subst; clear H
  | H : stands _ _ _ ?v |- _ => let E := fresh in destruct (stands_kind _ _ _ _ H) as [? E]; cbn in E; subst v; inversion H; subst; clear H
  end.
(** every call that is understood has a meaning or is one of the three queries *)
Lemma meaning_total m n a ts vs : (n, ts) ∈ table -> well_typed m ts (words a) vs ->
  (exists o, meaning m n vs = Some o /\ snd (area n a) = room o /\ (fst (area n a) = place n a \/ room o = 0)) \/ query n.
Proof.
  intros T H. destruct (decide (n = 19 \/ n = 26 \/ n = 125)) as [Q|Q]; [right; exact Q|left].
  each_call T; try (exfalso; lia).
  all: typed H.
  all: repeat match goal with K : stands _ APath _ ?v |- _ => destruct (stands_kind _ _ _ _ K) as [? ->]; clear K end.
  all: repeat match goal with K : stands _ ?t ?w ?v |- _ => first
        [ lazymatch type of K with stands _ AUint _ (Num _) => fail | stands _ ASize _ (Num _) => fail | _ => idtac end;
          let E := fresh "E" in destruct (stands_kind _ _ _ _ K) as [? E]; subst v;
          lazymatch t with AUint => idtac | ASize => idtac | _ => clear K end ] end.
  all: eexists; split; [reflexivity|]; cbn [area snd fst room place]; split; [|first [left; reflexivity|right; reflexivity]].
  all: try reflexivity.
  all: match goal with K : stands _ AUint ?w (Num ?v) |- ?w = ?v => inversion K; reflexivity | K : stands _ ASize ?w (Num ?v) |- ?w = ?v => inversion K; reflexivity end.
Qed.
Definition sig (n : Z) : option (list aty) := option_map snd (List.find (fun e => fst e =? n) table).
Lemma table_sig n ts : (n, ts) ∈ table -> sig n = Some ts.
Proof. intros T. each_call T; reflexivity. Qed.
Lemma call_done s c n a rnd ts vs o w' x : (n, ts) ∈ table -> well_typed (s_m s) ts (words a) vs -> meaning (s_m s) n vs = Some o ->
  step (s_w s) c o = Done (w', x) ->
  enter s c n a rnd = Done (St w' (fst (deliver (s_w s) c o (place n a) rnd x (s_m s))) (s_tty s ++ printed (s_w s) c o),
                            if not_text (s_w s) c o then Some (err EIO) else answer x).
Proof.
  intros T H M S. unfold enter. rewrite (decode_ok _ _ _ _ _ T H), (goal_meaning _ _ _ _ _ M). unfold perform.
  assert (L : exists cwd, w_cwd (s_w s) !! c = Some cwd).
  { unfold step in S. destruct (w_cwd (s_w s) !! c); [eauto|discriminate S]. }
  destruct L as [cwd ->]. rewrite S. cbn [obind fst snd]. do 2 f_equal. destruct (not_text _ _ _); [reflexivity|]. destruct x; reflexivity.
Qed.
Lemma call_panic s c n a rnd ts vs o : (n, ts) ∈ table -> well_typed (s_m s) ts (words a) vs -> meaning (s_m s) n vs = Some o ->
  step (s_w s) c o = Panic -> enter s c n a rnd = Panic.
Proof.
  intros T H M S. unfold enter. rewrite (decode_ok _ _ _ _ _ T H), (goal_meaning _ _ _ _ _ M). unfold perform.
  destruct (w_cwd (s_w s) !! c); [|reflexivity]. rewrite S. reflexivity.
Qed.
Lemma call_refused s c n a rnd ts r cwd : w_cwd (s_w s) !! c = Some cwd -> (n, ts) ∈ table -> Forall is_word (words a) ->
  first_bad (s_m s) ts (words a) r -> enter s c n a rnd = Done (s, Some r).
Proof.
  intros L T W B. unfold enter. rewrite (decode_chain _ _ _ _ T), (chain_bad _ _ _ _ _ W B). unfold perform. rewrite L. reflexivity.
Qed.
Lemma decode_others m n a : (forall ts, (n, ts) ∉ table) -> decode m n a = if existsb (Z.eqb n) elsewhere then Elsewhere else Bad (-1).
Proof.
  intros H. unfold decode.
  repeat (match goal with |- (if ?b =? ?k then _ else ?e) = _ => replace (b =? k) with false; [|symmetry; apply Z.eqb_neq; intros ->; eapply H; unfold table;
     repeat (first [apply elem_of_list_here|apply elem_of_list_further])] end).
  reflexivity.
Qed.
Lemma elsewhere_others : elsewhere = others.
Proof. vm_compute. reflexivity. Qed.
Lemma call_unknown s c n a rnd cwd : w_cwd (s_w s) !! c = Some cwd -> (forall ts, (n, ts) ∉ table) -> n ∉ others ->
  enter s c n a rnd = Done (s, Some (-1)).
Proof.
  intros L H N. unfold enter. rewrite (decode_others _ _ _ H). assert (existsb (Z.eqb n) elsewhere = false) as ->.
  { destruct (existsb _ _) eqn:E; [|reflexivity]. apply existsb_exists in E as (y & Hy & E). apply Z.eqb_eq in E. subst y.
    rewrite elsewhere_others in Hy. apply elem_of_list_In in Hy. contradiction. }
  unfold perform. rewrite L. reflexivity.
Qed.
Lemma not_text_garbled w c o : not_text w c o = true <-> garbled w c o.
Proof.
  split.
  - destruct o; try discriminate. cbn [not_text]. destruct (w_fds w !! (c, fd)) as [[| |st fl|]|] eqn:D; try discriminate. intros N.
    exists fd, iov, (concat iov). split; [reflexivity|]. split; [econstructor; exact D|]. intros U. apply unicode_utf8 in U. rewrite U in N. discriminate N.
  - intros (fd & iov & bs & -> & S & U). inversion S as [|fd' st fl iov' D]. subst. cbn [not_text]. rewrite D.
    destruct (utf8 (concat iov)) eqn:E; [|reflexivity]. apply utf8_unicode in E. contradiction.
Qed.

(** ** All calls *)
Lemma table_or n : (exists ts, (n, ts) ∈ table) \/ (forall ts, (n, ts) ∉ table).
Proof.
  destruct (existsb (fun e => fst e =? n) table) eqn:E.
  - apply existsb_exists in E as ([k ts] & I & E). cbn in E. left. exists ts. apply elem_of_list_In. assert (k = n) as <- by lia. exact I.
  - right. intros ts I. apply elem_of_list_In in I. assert (existsb (fun e => fst e =? n) table = true); [|congruence].
    apply existsb_exists. exists (n, ts). split; [exact I|cbn; lia].
Qed.
(** what a call does that answers *)
Inductive did (s : state) (c n : Z) (a : args) (rnd : Z -> Z) : state -> option Z -> Prop :=
| did_nothing r : r < 0 -> did s c n a rnd s (Some r)
| did_step ts vs o w' x : (n, ts) ∈ table -> well_typed (s_m s) ts (words a) vs -> meaning (s_m s) n vs = Some o ->
    step (s_w s) c o = Done (w', x) ->
    did s c n a rnd (St w' (fst (deliver (s_w s) c o (place n a) rnd x (s_m s))) (s_tty s ++ printed (s_w s) c o))
      (if not_text (s_w s) c o then Some (err EIO) else answer x)
| did_query m' r : query n -> only_within (s_m s) m' (fst (area n a)) (snd (area n a)) -> (r < 0 -> n = 26 \/ n = 125 -> m' = s_m s) ->
    did s c n a rnd (St (s_w s) m' (s_tty s)) (Some r).
Lemma len_fsdata : length fsdata = 112%nat.
Proof. vm_compute. reflexivity. Qed.
Lemma refused_neg m t w r : refused m t w r -> r < 0.
Proof. intros H. destruct H; lia. Qed.
Lemma enter_did s c n a rnd s' r : Forall is_word (words a) -> enter s c n a rnd = Done (s', r) -> did s c n a rnd s' r.
Proof.
  intros W H. assert (L : exists cwd, w_cwd (s_w s) !! c = Some cwd).
  { unfold enter, perform in H. destruct (w_cwd (s_w s) !! c); [eauto|discriminate H]. }
  destruct L as [cwd L]. destruct (table_or n) as [[ts T]|N].
  - destruct (chain_cases (s_m s) ts (words a)) as [(vs & K)|[(q & B)|(j & w & _ & _ & _ & K)]]; [rewrite len_words; eapply table_len; eassumption|exact W| | |].
    + destruct (meaning_total _ _ _ _ _ T K) as [(o & M & _)|Q].
      * destruct (step (s_w s) c o) as [[w' x]|] eqn:S.
        -- rewrite (call_done _ _ _ _ rnd _ _ _ _ _ T K M S) in H. injection H as <- <-. eapply did_step; eassumption.
        -- rewrite (call_panic _ _ _ _ rnd _ _ _ T K M S) in H. discriminate H.
      * unfold enter in H. rewrite (decode_ok _ _ _ _ _ T K) in H. destruct Q as [E|[E|E]]; subst n; apply table_sig in T; vm_compute in T; injection T as <-; typed K; kinds; cbn [goal_of] in H;
          unfold perform in H; rewrite L in H.
        -- unfold fstatfs_mem in H. destruct (fd_slot _ _ _) as [[[| | |]|]|]; cbn [obind fst snd] in H; try discriminate H;
             [destruct (get_ino _ _); cbn [obind fst snd] in H; [|discriminate H]|..]; injection H as <- <-;
             apply did_query; try (left; reflexivity); try (intros _ [?|?]; discriminate); cbn [area fst snd]; try apply within_refl;
             [apply within_store; rewrite len_fsdata; lia|..];
             (eapply within_sub; [apply (within_store _ _ _ 8); first [rewrite length_le|cbn [length]]; lia|lia|lia]).
        -- unfold statfs_mem in H. destruct (metawalk _ _) as [[i|]|]; cbn [obind fst snd] in H; [| |discriminate H];
             [destruct (get_ino _ _); cbn [obind fst snd] in H; [|discriminate H]|]; injection H as <- <-;
             (apply did_query; [right; left; reflexivity| |]); cbn [area fst snd]; try apply within_refl; try reflexivity; try (intros; lia).
           apply within_store. rewrite len_fsdata. lia.
        -- match goal with V : is_long ?v |- _ => rename v into k end. unfold gethostname_mem in H. destruct (k <? 0) eqn:K0; cbn [obind fst snd] in H.
           { injection H as <- <-. apply did_query; [right; right; reflexivity|apply within_refl|reflexivity]. }
           destruct (hostname_spec (s_m s) (a1 a) k ltac:(lia)) as (m' & E & _ & O). unfold gethostname_mem in E. rewrite K0 in E. rewrite E in H.
           cbn [obind fst snd] in H. injection H as <- <-. apply did_query; [right; right; reflexivity| |intros; lia].
           match goal with V : is_long k, Q : _ = a2 a |- _ => cbn [area fst snd]; rewrite <- Q; unfold is_long in V end. rewrite Z.mod_small by lia.
           eapply within_sub; [exact O|lia|lia].
    + rewrite (call_refused _ _ _ _ _ _ _ _ L T W B) in H. injection H as <- <-. apply did_nothing.
      destruct B as (j & vs & t & w & _ & _ & _ & R). eapply refused_neg. exact R.
    + unfold enter in H. rewrite (decode_chain _ _ _ _ T), K in H. unfold perform in H. rewrite L in H. discriminate H.
  - unfold enter in H. rewrite (decode_others _ _ _ N) in H. unfold perform in H. rewrite L in H.
    destruct (existsb _ _); [discriminate H|]. injection H as <- <-. apply did_nothing. lia.
Qed.
Lemma enter_endless s c n a rnd ts : (n, ts) ∈ table -> Forall is_word (words a) ->
  (forall vs, ~ well_typed (s_m s) ts (words a) vs) -> (forall r, ~ first_bad (s_m s) ts (words a) r) ->
  enter s c n a rnd = Panic /\ exists k p, nth_error ts k = Some APath /\ nth_error (words a) k = Some p /\ endless (s_m s) p.
Proof.
  intros T W A B. destruct (chain_cases (s_m s) ts (words a)) as [(vs & K)|[(q & K)|(j & w & N1 & N2 & E & K)]];
    [rewrite len_words; eapply table_len; eassumption|exact W|destruct (A _ K)|destruct (B _ K)|].
  split; [|eauto]. unfold enter. rewrite (decode_chain _ _ _ _ T), K. unfold perform. destruct (w_cwd (s_w s) !! c); reflexivity.
Qed.

(** ** Where calls write *)
Lemma call_within s c n a rnd s' r : Forall is_word (words a) -> enter s c n a rnd = Done (s', r) ->
  only_within (s_m s) (s_m s') (fst (area n a)) (snd (area n a)).
Proof.
  intros W H. apply (enter_did _ _ _ _ _ _ _ W) in H. destruct H as [r _|ts vs o w' x T K M S|m' r Q O _]; cbn [s_m].
  - apply within_refl.
  - pose proof (deliver_within _ _ _ _ _ (place n a) rnd (s_m s) S) as D.
    destruct (meaning_total _ _ _ _ _ T K) as [(o' & M' & A & B)|Q].
    + rewrite M in M'. injection M' as <-. rewrite A. destruct B as [ -> |B]; [exact D|]. rewrite B in *. intros y Hy. apply D. lia.
    + destruct Q as [E|[E|E]]; subst n; discriminate M.
  - exact O.
Qed.
Lemma acts_within l y : forall s s' ys, Forall act_ok l -> acts s l = Some (s', ys) -> Forall (fun x => ~ touches x y) l -> s_m s' y = s_m s y.
Proof.
  induction l as [|x l IH]; intros s s' ys W H N.
  - injection H as <- _. reflexivity.
  - apply Forall_cons in W as [W0 W]. apply Forall_cons in N as [N0 N]. cbn [acts] in H. destruct (act_step s x) as [[s1 r]|] eqn:E; [|discriminate H].
    destruct (acts s1 l) as [[s2 ys']|] eqn:F; [|discriminate H]. injection H as <- _. rewrite (IH _ _ _ W F N).
    destruct x as [p b|c n a rnd]; cbn [act_step] in E.
    + injection E as <- _. cbn [s_m]. apply store_out. cbn in N0 |- *. lia.
    + apply (call_within _ _ _ _ _ _ _ W0 E). exact N0.
Qed.
(** calls that fail *)
Lemma answer_neg_deliver w c o w' x p rnd m r : step w c o = Done (w', x) -> answer x = Some r -> r < 0 -> 0 <= room o < 2 ^ 31 -> (forall f, o <> Pipe2 f) ->
  fst (deliver w c o p rnd x m) = m.
Proof.
  intros S A R B P. apply out_shape in S. destruct x; cbn [answer deliver fst shape] in *; try reflexivity; injection A as A; subst; try lia.
  - destruct S as (fd & n & Ho & _ & K). destruct Ho as [->|[off ->]]; cbn [room] in B; specialize (K B); lia.
  - destruct S as (fd & k & -> & _ & T & E). cbn [room] in B. match goal with E1 : r = to_i32 (total ?l0) |- _ => pose proof (total_pos l0) end. rewrite to_i32_small in E by lia. lia.
  - destruct S as (f & -> & _). destruct (P f eq_refl).
Qed.
Lemma call_fails s c n a rnd s' r : Forall is_word (words a) -> enter s c n a rnd = Done (s', Some r) -> r < 0 ->
  n ∉ [19; 66; 67] -> snd (area n a) < 2 ^ 31 -> s_m s' = s_m s.
Proof.
  intros W H R N B. apply (enter_did _ _ _ _ _ _ _ W) in H. inversion H as [r' R' E1 E2|ts vs o w' x T K M S E1 E2|m' r' Q O F E1 E2].
  - subst. reflexivity.
  - cbn [s_m]. destruct (not_text (s_w s) c o) eqn:NT.
    + destruct o; try discriminate NT. cbn [deliver]. apply out_shape in S. destruct x; cbn [shape] in S; try reflexivity;
        repeat match goal with X : exists _, _ |- _ => destruct X | X : _ /\ _ |- _ => destruct X | X : _ \/ _ |- _ => destruct X | X : Writev _ _ = _ |- _ => discriminate X end.
    + destruct (meaning_total _ _ _ _ _ T K) as [(o' & M' & A & _)|Q].
      * rewrite M in M'. injection M' as <-. eapply answer_neg_deliver; [exact S|exact E2|exact R| |].
        -- rewrite A in B. split; [|exact B]. rewrite <- A. clear -W. repeat (apply Forall_cons in W as [? W]). unfold is_word in *.
           unfold area. repeat match goal with |- context [match ?q with _ => _ end] => destruct q; cbn [snd]; try lia end.
        -- intros f ->. each_call T; typed K; cbn [meaning] in M; try discriminate M; repeat match type of M with context [match ?q with _ => _ end] => destruct q; try discriminate M end;
             apply N; repeat (first [apply elem_of_list_here|apply elem_of_list_further]).
      * destruct Q as [E|[E|E]]; subst n; discriminate M.
  - subst. cbn [s_m]. apply F; [exact R|]. destruct Q as [E|[E|E]]; subst n; [exfalso; apply N; apply elem_of_list_here|lia|lia].
Qed.
