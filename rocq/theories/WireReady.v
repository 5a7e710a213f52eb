(** What select, poll and epoll_wait leave in memory, exactly: writers, and all
    the watched descriptors. *)
From stdpp Require Import gmap.
From Coq Require Import Ascii.
From Verif Require Import Base AbiModel AbiSpec EntryModel EntrySpec NetModel NetSpec NetInv NetReady NetThm NetReadySpec NetEpoll WireModel WireSpec.
From Verif Require Import WireProofs WireProofs2 WireProofs3 WireProofs4 WireProofs5.
Local Open Scope list_scope.
Local Open Scope Z_scope.

Lemma select_memory_writers s c a late s' k : Forall is_word (words a) -> enter s c 46 a late = Rep s' (Some k) -> 0 <= k ->
  (a2 a = 0 \/ a3 a = 0 \/ apart (a2 a) 128 (a3 a) 128) ->
  exists nfds, int_word (a1 a) nfds /\
  (a3 a <> 0 -> forall fd, fd < nfds -> on (s_m s) (a3 a) fd -> pipe_writer (s_n s) c fd ->
     (on (s_m s') (a3 a) fd <-> wide (s_n s) c fd)).
Proof.
  intros W H K A. pose proof (words_word a W) as (W1 & _). destruct (enter_good _ _ _ _ _ _ _ H ltac:(lia) ltac:(lia) K) as (o & d & n' & x & F & _ & _ & S & -> & E).
  inversion F as [? ? NI| |? ? ? [C|C]| | |nfds e late' KI| | | |]; subst; [destruct NI; set_solver|discriminate C|discriminate C|].
  destruct (select_shape _ _ _ _ _ _ _ _ _ S) as [_ [(v & ->)|(j & rs & ws & -> & _ & R1 & R2)]]; [apply select_neg in S; cbn [returned] in E; injection E as ->; lia|].
  destruct (select_answer _ _ _ _ _ _ _ _ _ _ _ S) as (-> & C & S1 & S2 & _). rewrite opt_set_none in R1, R2. cbn [s_n s_m deliver].
  pose proof (fun fd => on_sets (s_m s) (a2 a) (a3 a) rs ws fd A R1 R2) as O. set (m' := put_set (put_set (s_m s) (a2 a) rs) (a3 a) ws) in *.
  assert (D2 : forall fd, a3 a <> 0 -> on m' (a3 a) fd <-> within fd ws).
  { intros fd N. rewrite (proj2 (O fd) N). split; [tauto|]. intros Q. split; [|exact Q]. apply S2 in Q as [Q _]. apply within_opt in Q; [|exact N]. apply Q. }
  exists nfds. split; [apply int_of; assumption|]. intros N fd L Q P. rewrite (D2 fd N).
  apply (select_writers _ _ _ _ _ _ _ _ _ _ _ fd S); [destruct Q; lia|apply within_opt; assumption|exact P].
Qed.
Lemma poll_memory_exact s c a late s' k i fd ev : bytes_only (s_m s) -> Forall is_word (words a) -> enter s c 48 a late = Rep s' (Some k) -> 0 <= k ->
  0 <= Z.of_nat i < a2 a -> polled (s_m s) (a1 a) i = (fd, ev) -> 0 <= fd ->
  truth (s_n s) c fd ev (short_at (s_m s') (a1 a + 8 * Z.of_nat i + 6)).
Proof.
  intros B W H K Hi Ep Hf. pose proof (words_word a W) as (_ & W2 & _). unfold is_word in W2. destruct (enter_good _ _ _ _ _ _ _ H ltac:(lia) ltac:(lia) K) as (o & d & n' & x & F & _ & _ & S & -> & E).
  inversion F as [? ? NI| |? ? ? [C|C]| | | |late'| | |]; subst; [destruct NI; set_solver|discriminate C|discriminate C|].
  destruct (poll_shape _ _ _ _ _ _ S) as [_ [(v & ->)|(j & rs & -> & _ & L)]]; [apply poll_neg in S; cbn [returned] in E; injection E as ->; lia|].
  cbn [returned] in E. injection E as ->. destruct (poll_answer _ _ _ _ _ _ _ S) as (-> & _ & C & P). cbn [s_n s_m deliver]. rewrite length_pollfds in L.
  assert (Hl : (i < length rs)%nat) by lia. destruct (lookup_lt_is_Some_2 rs i Hl) as [r Er].
  assert (G : pollfds (s_m s) (a1 a) (a2 a) !! i = Some (fd, ev)).
  { destruct (pollfds (s_m s) (a1 a) (a2 a) !! i) as [x|] eqn:Q; [rewrite (pollfds_polled _ _ _ _ _ B Q), Ep; reflexivity|]. apply lookup_ge_None in Q. rewrite length_pollfds in Q. lia. }
  assert (At : short_at (put_revents (s_m s) (a1 a) rs) (a1 a + 8 * Z.of_nat i + 6) = r).
  { apply put_revents_at; [exact Er|]. destruct (P i fd ev r G Er) as (_ & _ & _ & _ & _ & M).
    apply mask_range in M; [|vm_compute; discriminate]. change (POLLIN + POLLOUT + POLLPRI + POLLNVAL) with 39 in M. lia. }
  rewrite At. exact (poll_exact _ _ _ _ _ _ _ _ _ _ _ S G Er Hf).
Qed.
Lemma epoll_memory_exact s c a late s' k : Forall is_word (words a) -> enter s c 58 a late = Rep s' (Some k) -> 0 <= k ->
  exists ep max fds, int_word (a1 a) ep /\ int_word (a3 a) max /\ NoDup fds /\ Z.of_nat (length fds) = k /\
  (forall i fd, fds !! i = Some fd -> exists ev d, watched (s_n s) c ep fd = Some (ev, d) /\ is_open (s_n s) c fd /\
    number_at (s_m s') (a2 a + 8 * Z.of_nat i + 4) = d mod 2 ^ 32 /\ number_at (s_m s') (a2 a + 8 * Z.of_nat i) <> 0 /\
    (0 <= fd -> truth (s_n s) c fd ev (number_at (s_m s') (a2 a + 8 * Z.of_nat i)))) /\
  (k < max -> forall fd ev d, watched (s_n s) c ep fd = Some (ev, d) -> 0 <= fd -> fd ∉ fds -> truth (s_n s) c fd ev 0).
Proof.
  intros W H K. pose proof (words_word a W) as (W1 & _ & W3 & _). destruct (enter_good _ _ _ _ _ _ _ H ltac:(lia) ltac:(lia) K) as (o & d & n' & x & F & _ & _ & S & -> & E).
  inversion F as [? ? NI| |? ? ? [C|C]| | | | | |ep max late' Ke Km Kp|]; subst; [destruct NI; set_solver|discriminate C|discriminate C|].
  destruct (ewait_shape _ _ _ _ _ _ _ S) as [(v & ->)|(evs & -> & L)].
  - exfalso. cbn [returned] in E. injection E as ->. revert S K. clear. intros S K. cbn [step] in S. unfold ewait_call in S. destruct (negb _); [injection S as _ <-; vm_compute in K; congruence|].
    destruct (n_fds (s_n s) !! (c, ep)) as [[]|]; try (injection S as _ <-; vm_compute in K; congruence). destruct (max <=? 0); [injection S as _ <-; vm_compute in K; congruence|]. cbv zeta in S.
    destruct (poll_pass _ _ _) as [[v|rs]|] eqn:P; [| |discriminate S]; [|destruct (_ || late'); discriminate S]. injection S as _ ->.
    match type of P with poll_pass ?n1 _ ?l = _ => pose proof (poll_neg n1 c l false n1 k) as Q end. cbn [step] in Q. unfold poll_call in Q. rewrite P in Q. specialize (Q eq_refl). lia.
  - cbn [returned] in E. injection E as <-. destruct (ewait_exact _ _ _ _ _ _ _ _ S) as (fds & N & A & B). cbn [s_n s_m deliver]. exists ep, max, fds.
    split; [apply int_of; assumption|]. split; [apply int_of; assumption|]. split; [exact N|]. split; [rewrite (Forall2_length _ _ _ A); reflexivity|]. split; [|exact B].
    intros i fd Hi. destruct (Forall2_lookup_l _ _ _ _ _ A Hi) as ([e d] & Ei & ev & A1 & A2 & A3 & A4). cbn [fst snd] in *.
    pose proof (ewait_range _ _ _ _ _ _ _ _ _ _ S (elem_of_list_lookup_2 _ _ _ Ei)) as Er.
    destruct (events_at evs (s_m s) (a2 a) i e d Ei ltac:(lia)) as [X Y]. exists ev, d. rewrite X, Y. auto 10.
Qed.
