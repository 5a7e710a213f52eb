(** Proofs for the entry point of the socket calls: the memory it changes. *)
From stdpp Require Import gmap.
From Verif Require Import Base AbiModel AbiSpec AbiProofs AbiBuf EntryModel EntrySpec NetModel NetSpec NetData NetKeep NetReady WireModel WireSpec WireProofs WireProofs2 WireProofs3.
Local Open Scope list_scope.
Local Open Scope Z_scope.

(** ** What a call asks for, and where its answer goes *)
Inductive fits (m : Z -> Z) (a : args) : Z -> nop -> dst -> Prop :=
| fit_none n o : n ∉ [12; 36; 37; 43; 46; 48; 49; 58; 66] -> fits m a n o Nowhere
| fit_read fd : fits m a 12 (Read fd (a3 a)) (Buf (a2 a))
| fit_recv n fd f : n = 36 \/ n = 37 -> fits m a n (Recv fd (a3 a) f) (Buf (a2 a))
| fit_accept fd : a2 a <> 0 -> a3 a <> 0 -> fits m a 40 (Accept fd) (Addr (a2 a) (a3 a))
| fit_getopt fd lv o : fits m a 43 (Getopt fd lv o) (Value (a4 a))
| fit_select k e late : get_int (a1 a) = Ok k -> fits m a 46 (Select k (opt_set m (a2 a)) (opt_set m (a3 a)) e late) (FdSets (a2 a) (a3 a))
| fit_poll late : fits m a 48 (Poll (pollfds m (a1 a) (a2 a)) late) (Polls (a1 a) (pollfds m (a1 a) (a2 a)))
| fit_pair d t p : fits m a 49 (Socketpair d t p) (Two (a4 a))
| fit_wait ep k late : get_int (a1 a) = Ok ep -> get_int (a3 a) = Ok k -> 0 <= k -> fits m a 58 (Ewait ep k late) (Evs (a2 a))
| fit_pipe : fits m a 66 (Pipe false) (Two (a1 a)).
Lemma get_ptr_same w x : get_ptr w = Ok x -> x = w /\ w <> 0.
Proof. unfold get_ptr. destruct (w =? 0) eqn:E; [discriminate|]. intros [= <-]. split; [reflexivity|lia]. Qed.
Ltac argstep H :=
  repeat lazymatch type of H with
  | arg ?e _ = Do _ _ => let E := fresh "E" in destruct e eqn:E; [cbn [arg] in H|discriminate H]
  | arg ?e _ = Name _ _ _ _ => let E := fresh "E" in destruct e eqn:E; [cbn [arg] in H|discriminate H]
  end.
Ltac no_in := let Q := fresh in intros Q; repeat (apply elem_of_cons in Q as [Q|Q]; [discriminate Q|]); apply elem_of_nil in Q; exact Q.
Lemma decode_fits m n a late o d : decode m n a late = Do o d -> fits m a n o d.
Proof.
  unfold decode. intros H.
  destruct (n =? 11) eqn:N; [apply Z.eqb_eq in N as ->; argstep H; injection H as <- <-; apply fit_none; no_in|clear N].
  destruct (n =? 12) eqn:N; [apply Z.eqb_eq in N as ->; argstep H; injection H as <- <-; apply get_ptr_same in E0 as [-> _]; unfold get_ulong in E1; injection E1 as <-; apply fit_read|clear N].
  destruct (n =? 13) eqn:N; [apply Z.eqb_eq in N as ->; argstep H; injection H as <- <-; apply fit_none; no_in|clear N].
  destruct (n =? 24) eqn:N; [apply Z.eqb_eq in N as ->; argstep H; injection H as <- <-; apply fit_none; no_in|clear N].
  destruct (n =? 25) eqn:N; [apply Z.eqb_eq in N as ->; argstep H; injection H as <- <-; apply fit_none; no_in|clear N].
  destruct (n =? 33) eqn:N; [apply Z.eqb_eq in N as ->; unfold with_addr in H; argstep H; match type of H with match ?g with _ => _ end = _ => destruct g end; try discriminate H; destruct (plain_path _); [|discriminate H]; injection H as <- <-; apply fit_none; no_in|clear N].
  destruct (n =? 34) eqn:N; [apply Z.eqb_eq in N as ->; argstep H; injection H as <- <-; apply fit_none; no_in|clear N].
  destruct (n =? 36) eqn:N; [apply Z.eqb_eq in N as ->; argstep H; injection H as <- <-; apply get_ptr_same in E0 as [-> _]; unfold get_ulong in E1; injection E1 as <-; apply fit_recv; auto|clear N].
  destruct (n =? 37) eqn:N; [apply Z.eqb_eq in N as ->; destruct (_ && _); [|destruct (negb _); discriminate H]; argstep H; injection H as <- <-; apply get_ptr_same in E0 as [-> _]; unfold get_ulong in E1; injection E1 as <-; apply fit_recv; auto|clear N].
  destruct (n =? 38) eqn:N; [apply Z.eqb_eq in N as ->; unfold with_addr in H; argstep H; match type of H with match ?g with _ => _ end = _ => destruct g end; try discriminate H; destruct (plain_path _); [|discriminate H]; injection H as <- <-; apply fit_none; no_in|clear N].
  destruct (n =? 39) eqn:N; [apply Z.eqb_eq in N as ->; argstep H; injection H as <- <-; apply fit_none; no_in|clear N].
  destruct (n =? 40) eqn:N; [apply Z.eqb_eq in N as ->; unfold null in H; destruct (_ && _) eqn:E1|clear N].
  { argstep H. injection H as <- <-. apply fit_none. no_in. }
  { destruct (negb _) eqn:E2; [|discriminate H]. argstep H. injection H as <- <-. apply fit_accept; lia. }
  destruct (n =? 43) eqn:N; [apply Z.eqb_eq in N as ->; destruct (_ || _); [discriminate H|]; destruct (negb _); [discriminate H|]; argstep H; injection H as <- <-; apply fit_getopt|clear N].
  destruct (n =? 44) eqn:N; [apply Z.eqb_eq in N as ->; cbv zeta in H; destruct (null (a4 a)); argstep H; [|destruct (negb _); [discriminate H|]; argstep H]; injection H as <- <-; apply fit_none; no_in|clear N].
  destruct (n =? 45) eqn:N; [apply Z.eqb_eq in N as ->; argstep H; injection H as <- <-; apply fit_none; no_in|clear N].
  destruct (n =? 46) eqn:N; [apply Z.eqb_eq in N as ->; argstep H; destruct (_ <? 0); [discriminate H|]; destruct (timeval m (a5 a)); [|discriminate H]; injection H as <- <-; apply fit_select; exact E|clear N].
  destruct (n =? 48) eqn:N; [apply Z.eqb_eq in N as ->; argstep H; cbv zeta in H; injection H as <- <-; apply get_ptr_same in E0 as [-> _]; unfold get_ulong in E; injection E as <-; apply fit_poll|clear N].
  destruct (n =? 49) eqn:N; [apply Z.eqb_eq in N as ->; argstep H; injection H as <- <-; apply get_ptr_same in E2 as [-> _]; apply fit_pair|clear N].
  destruct (n =? 56) eqn:N; [apply Z.eqb_eq in N as ->; argstep H; injection H as <- <-; apply fit_none; no_in|clear N].
  destruct (n =? 57) eqn:N; [apply Z.eqb_eq in N as ->; argstep H; injection H as <- <-; apply fit_none; no_in|clear N].
  destruct (n =? 58) eqn:N; [apply Z.eqb_eq in N as ->; argstep H; destruct (_ <? 0) eqn:K; [discriminate H|]; argstep H; injection H as <- <-; apply get_ptr_same in E1 as [-> _]; apply fit_wait; [assumption|assumption|lia]|clear N].
  destruct (n =? 66) eqn:N; [apply Z.eqb_eq in N as ->; argstep H; injection H as <- <-; apply get_ptr_same in E as [-> _]; apply fit_pipe|clear N].
  destruct (n =? 136) eqn:N; [apply Z.eqb_eq in N as ->; argstep H; injection H as <- <-; apply fit_none; no_in|clear N].
  destruct (n =? 144) eqn:N; [destruct (_ || _); [discriminate H|]; argstep H; discriminate H|clear N].
  destruct (n =? 145) eqn:N; [destruct (_ || _); [discriminate H|]; argstep H; discriminate H|clear N]. discriminate H.
Qed.
Lemma decode_name m n a late peer fd p lp : decode m n a late = Name peer fd p lp ->
  peer = (n =? 145) /\ p = a2 a /\ lp = a3 a /\ (n = 144 \/ n = 145) /\ a2 a <> 0 /\ a3 a <> 0 /\ get_int (a1 a) = Ok fd.
Proof.
  intros H. assert (N : n ∈ calls \/ n ∉ calls) by (destruct (decide (n ∈ calls)); auto). unfold decode in H.
  repeat match type of H with (if n =? ?k then _ else _) = _ => destruct (n =? k) eqn:N';
    [apply Z.eqb_eq in N' as ->; try (repeat (first [progress unfold with_addr in H|progress (argstep H)|progress (cbv zeta in H)|discriminate H|
       match type of H with (if ?b then _ else _) = _ => destruct b eqn:? | match ?x with _ => _ end = _ => destruct x end]); fail)|clear N'] end.
  - destruct (_ || _) eqn:E; [discriminate H|]. argstep H. injection H as <- <- <- <-. unfold null in E. repeat split; auto; lia.
  - destruct (_ || _) eqn:E; [discriminate H|]. argstep H. injection H as <- <- <- <-. unfold null in E. repeat split; auto; lia.
  - discriminate H.
Qed.

(** ** Answers *)
Lemma recv_sock_shape n h fl s len flags n' x : 0 <= len -> recv_sock n h fl s len flags = Go n' x ->
  (exists bs, x = Data bs /\ Z.of_nat (length bs) <= len) \/ (exists r, x = Ret r /\ r < 0 /\ n' = n).
Proof.
  intros L H. unfold recv_sock in H. destruct (negb _); [injection H as <- <-; right; eexists; split; [reflexivity|split; [reflexivity|reflexivity]]|]. cbv zeta in H.
  set (k := Z.min (Z.of_nat (length (s_peek s))) len) in *.
  assert (E : Z.of_nat (length (take (Z.to_nat k) (s_peek s))) <= k) by (rewrite take_length; lia).
  destruct (_ && _); [injection H as <- <-; left; eexists; split; [reflexivity|lia]|].
  destruct (s_ui s) as [u|]; [|discriminate H]. destruct (u_recv u) as [p|]; [|discriminate H]. destruct (n_pipe n !! p) as [y|]; [|discriminate H].
  destruct (pipe_read y (len - k) (nonblock fl)) as [[[y' bs]|]|] eqn:P.
  - injection H as <- <-. left. eexists. split; [reflexivity|]. apply pipe_read_some in P as [-> _]; [|lia]. rewrite app_length, take_length. rewrite take_length in *. lia.
  - destruct (0 <? k); injection H as <- <-; [left; eexists; split; [reflexivity|lia]|right; eexists; split; [reflexivity|split; reflexivity]].
  - destruct (0 <? k); [injection H as <- <-; left; eexists; split; [reflexivity|lia]|discriminate H].
Qed.
Lemma recv_shape n c fd len flags n' x : 0 <= len -> step n c (Recv fd len flags) = Go n' x ->
  (exists bs, x = Data bs /\ Z.of_nat (length bs) <= len) \/ (exists r, x = Ret r /\ r < 0 /\ n' = n).
Proof.
  intros L H. cbn [step] in H. unfold recv_call, on_sock in H. destruct (negb _); [first [discriminate H|injection H as <- <-; right; eexists; split; [reflexivity|split; reflexivity]]|].
  destruct (n_fds n !! (c, fd)) as [[]|]; try (injection H as <- <-; right; eexists; split; [reflexivity|split; reflexivity]).
  destruct (n_sock n !! _); [exact (recv_sock_shape _ _ _ _ _ _ _ _ L H)|first [discriminate H|injection H as <- <-; right; eexists; split; [reflexivity|split; reflexivity]]].
Qed.
Lemma read_shape n c fd len n' x : 0 <= len -> foreign n c (Read fd len) = false -> step n c (Read fd len) = Go n' x ->
  (exists bs, x = Data bs /\ Z.of_nat (length bs) <= len) \/ (exists r, x = Ret r /\ r < 0 /\ n' = n).
Proof.
  intros L F H. cbn [step] in H. unfold read_call in H. cbn [foreign] in F. destruct (negb _); [discriminate H|].
  destruct (n_fds n !! (c, fd)) as [[h fl|reg|p wr fl| |]|]; try discriminate F; try (injection H as <- <-; right; eexists; split; [reflexivity|split; reflexivity]).
  - destruct (n_sock n !! h); [exact (recv_sock_shape _ _ _ _ _ _ _ _ L H)|discriminate H].
  - destruct wr; [injection H as <- <-; right; eexists; split; [reflexivity|split; reflexivity]|]. destruct (n_pipe n !! p) as [y|]; [|discriminate H].
    destruct (pipe_read y len (nonblock fl)) as [[[y' bs]|]|] eqn:P; [|injection H as <- <-; right; eexists; split; [reflexivity|split; reflexivity]|discriminate H].
    injection H as <- <-. left. eexists. split; [reflexivity|]. apply pipe_read_some in P as [-> _]; [|lia]. rewrite take_length. lia.
Qed.
Lemma select_shape n c k r w e late n' x : step n c (Select k r w e late) = Go n' x ->
  n' = n /\ ((exists v, x = Ret v) \/ exists j rs ws, x = Sets j rs ws /\ 0 <= j /\ (rs = None <-> r = None) /\ (ws = None <-> w = None)).
Proof.
  intros H. cbn [step] in H. unfold select_call in H. destruct (select_round n c k r w e) as [[v|[[j rs] ws]]|] eqn:E; [| |discriminate H].
  - injection H as <- <-. eauto.
  - destruct (_ || late); [|discriminate H]. injection H as <- <-. split; [reflexivity|]. right. exists j, rs, ws. split; [reflexivity|].
    apply round_spec in E as (_ & -> & R1 & R2). split; [destruct rs, ws; cbn; lia|]. destruct r, rs, w, ws; try contradiction; split; split; intros Q; congruence.
Qed.
Lemma poll_stored_length n c l : length (poll_stored n c l) = length l.
Proof. induction l as [|[fd ev] l IH]; [reflexivity|]. cbn [poll_stored]. destruct (poll_one n c fd ev) as [[?|?]|]; cbn [length map]; rewrite ?map_length, ?IH; reflexivity. Qed.
Lemma poll_shape n c l late n' x : step n c (Poll l late) = Go n' x -> n' = n /\ ((exists v, x = Ret v) \/ exists k rs, x = Polled k rs /\ 0 <= k /\ length rs = length l).
Proof.
  intros H. cbn [step] in H. unfold poll_call in H. destruct (poll_pass n c l) as [[v|rs]|] eqn:E; [| |discriminate H].
  - injection H as <- <-. eauto.
  - destruct (_ || late); [|discriminate H]. injection H as <- <-. split; [reflexivity|]. right. exists (count_pos rs), rs. split; [reflexivity|]. split; [unfold count_pos; lia|].
    apply poll_pass_spec, Forall2_length in E. congruence.
Qed.
Lemma ewait_shape n c ep k late n' x : step n c (Ewait ep k late) = Go n' x -> (exists v, x = Ret v) \/ exists evs, x = Events (Z.of_nat (length evs)) evs /\ Z.of_nat (length evs) <= k.
Proof.
  intros H. pose proof H as H0. cbn [step] in H. unfold ewait_call in H. destruct (negb _); [injection H as <- <-; eauto|]. destruct (n_fds n !! (c, ep)) as [[]|]; try (injection H as <- <-; eauto; fail).
  destruct (k <=? 0); [injection H as <- <-; eauto|]. destruct (poll_pass _ _ _) as [[v|rs]|]; [injection H as <- <-; eauto| |discriminate H].
  destruct (_ || late); [|discriminate H]. injection H as <- <-. right. eexists. split; [reflexivity|]. apply ewait_spec in H0 as (_ & R & _). lia.
Qed.
Lemma getopt_shape n c fd lv o n' x : step n c (Getopt fd lv o) = Go n' x -> (exists v, x = Ret v) \/ (exists v, x = Val v).
Proof.
  intros H. cbn [step] in H. unfold getopt_call, on_sock in H.
  repeat match type of H with
  | (if ?b then _ else _) = _ => destruct b
  | match ?e with _ => _ end = _ => destruct e
  | Go _ _ = Go _ _ => injection H as <- <-; eauto
  | _ => discriminate H
  end.
Qed.
Lemma accept_shape n c fd n' x : step n c (Accept fd) = Go n' x -> exists v, x = Ret v.
Proof.
  intros H. cbn [step] in H. unfold accept_call in H.
  repeat match type of H with
  | (if ?b then _ else _) = _ => destruct b
  | match ?e with _ => _ end = _ => destruct e
  | Go _ _ = Go _ _ => injection H as <- <-; eauto
  | _ => discriminate H
  end.
Qed.
Lemma pair_shape n c d t p n' x : step n c (Socketpair d t p) = Go n' x -> (exists r, x = Ret r /\ n' = n) \/ (exists f g, x = Pair f g).
Proof.
  intros H. cbn [step] in H. unfold socketpair_call in H.
  repeat match type of H with
  | (if ?b then _ else _) = _ => destruct b
  | match ?e with _ => _ end = _ => destruct e
  | Go _ _ = Go _ _ => injection H as <- <-; eauto
  | _ => discriminate H
  | _ => progress cbv zeta in H
  end.
Qed.
Lemma pipe_shape n c b n' x : step n c (Pipe b) = Go n' x -> (exists r, x = Ret r) \/ (exists f g, x = Pair f g).
Proof.
  intros H. cbn [step] in H. unfold pipe_call in H. cbv zeta in H. destruct (next_fd _ c 0); [|injection H as <- <-; eauto]. destruct (next_fd _ c 0); injection H as <- <-; eauto.
Qed.

(** ** C121: what stays *)
Lemma put_revents_out p rs : forall m q, (forall i, 0 <= i < Z.of_nat (length rs) -> ~ p + 8 * i + 6 <= q < p + 8 * i + 8) -> put_revents m p rs q = m q.
Proof.
  revert p. induction rs as [|r rs IH]; intros p m q H; [reflexivity|]. cbn [put_revents]. rewrite IH.
  - apply store_out. rewrite length_le. cbn [length] in H. specialize (H 0 ltac:(lia)). lia.
  - intros i Hi. cbn [length] in H. specialize (H (i + 1) ltac:(lia)). lia.
Qed.
Lemma set_bytes_length s : length (set_bytes s) = 128%nat.
Proof. unfold set_bytes. rewrite map_length. reflexivity. Qed.
Lemma put_set_out m p o q : (o <> None -> ~ p <= q < p + 128) -> put_set m p o q = m q.
Proof. intros H. destruct o as [s|]; [|reflexivity]. apply store_out. rewrite set_bytes_length. change (Z.of_nat 128) with 128. apply H. discriminate. Qed.
Lemma opt_set_none m p : opt_set m p = None <-> p = 0.
Proof. unfold opt_set. destruct (p =? 0) eqn:E; split; intros H; try lia; try reflexivity; discriminate H. Qed.
Lemma path_of_length u : length (path_of u) = 108%nat \/ exists k, u = Auto k.
Proof. destruct u; [left; apply length_le|right; eauto]. Qed.
Lemma decimal_length f : forall v, (length (decimal f v) <= f)%nat.
Proof. induction f as [|f IH]; intros v; cbn [decimal]; [cbn; lia|]. destruct (v <? 10); [cbn; lia|]. rewrite app_length. specialize (IH (v / 10)). cbn [length]. lia. Qed.
Lemma decimal_bytes f : forall v, 0 <= v -> Forall is_byte (decimal f v).
Proof.
  induction f as [|f IH]; intros v V; cbn [decimal]; [constructor|]. destruct (v <? 10) eqn:E; [constructor; [unfold is_byte; lia|constructor]|].
  apply Forall_app. split; [apply IH; apply Z.div_pos; lia|]. constructor; [|constructor]. unfold is_byte. pose proof (Z.mod_pos_bound v 10 ltac:(lia)). lia.
Qed.
Lemma length_path u : length (path_of u) = 108%nat.
Proof.
  destruct u as [k|k]; cbn [path_of]; [apply length_le|]. unfold pad. rewrite app_length, replicate_length.
  pose proof (decimal_length 20 k) as L. rewrite app_length. change (length SOCK) with 5%nat. lia.
Qed.
Lemma frame_sock m p lp g q : (exists path, g = GUnix 1 path /\ length path = 108%nat) \/ g = no_addr ->
  ~ (p <= q < p + Z.min (number_at m lp) 110 \/ lp <= q < lp + 4) -> copy_out_sockaddr m p lp g q = m q.
Proof.
  intros G H. unfold copy_out_sockaddr. rewrite load4. rewrite store_out by (rewrite length_le; change (Z.of_nat 4) with 4; lia). apply store_out. rewrite take_length.
  destruct G as [(path & -> & L)| ->].
  - cbn [sock_len sock_bytes]. unfold UNIX_LEN. lia.
  - change (sock_len no_addr) with 16. lia.
Qed.
Lemma accepted_shape n c n' k : (exists path, accepted_addr n c n' k = GUnix 1 path /\ length path = 108%nat) \/ accepted_addr n c n' k = no_addr.
Proof.
  unfold accepted_addr. destruct (next_fd n c 0); [|auto]. destruct (n_fds n' !! (c, k)) as [[h fl| | | |]|]; auto. destruct (n_sock n' !! h) as [s|]; [|auto]. destruct (s_rem s) as [u|]; [|auto].
  left. exists (path_of u). split; [reflexivity|apply length_path].
Qed.
Lemma events_length evs : Z.of_nat (length (concat (map event_bytes evs))) = 8 * Z.of_nat (length evs).
Proof.
  induction evs as [|e evs IH]; [reflexivity|]. cbn [map concat length]. rewrite app_length. unfold event_bytes at 1. rewrite app_length, !length_le. lia.
Qed.
Lemma fits_read_int a : Forall is_word (words a) -> forall k, get_int (a3 a) = Ok k -> int_word (a3 a) k.
Proof. intros W k E. pose proof (words_word a W) as (_ & _ & W3 & _). destruct (get_int_only _ _ W3 E) as [H1 H2]. split; assumption. Qed.
Lemma deliver_frame m a n o d n0 c n' x q : Forall is_word (words a) -> fits m a n o d -> foreign n0 c o = false -> step n0 c o = Go n' x ->
  ~ may_change m n a q -> deliver n0 c n' x d m q = m q.
Proof.
  intros W F FO H N. pose proof (words_word a W) as (W1 & W2 & W3 & W4 & _).
  destruct F as [n o NI|fd|n fd f C|fd N2 N3|fd lv o|k e late K|late|dd t p|ep k late Ke K P|].
  - destruct x; reflexivity.
  - unfold is_word in W3. destruct (read_shape _ _ _ _ _ _ (proj1 W3) FO H) as [(bs & -> & L)|(r & -> & _)]; [|reflexivity]. cbn [deliver]. apply store_out. cbn [may_change] in N. lia.
  - unfold is_word in W3. destruct (recv_shape _ _ _ _ _ _ _ (proj1 W3) H) as [(bs & -> & L)|(r & -> & _)]; [|reflexivity]. cbn [deliver]. apply store_out. destruct C as [->| ->]; cbn [may_change] in N; lia.
  - destruct (accept_shape _ _ _ _ _ H) as (r & ->). cbn [deliver]. destruct (0 <=? r); [|reflexivity]. apply frame_sock; [apply accepted_shape|]. intros Q. apply N. cbn [may_change]. auto.
  - destruct (getopt_shape _ _ _ _ _ _ _ H) as [(v & ->)|(v & ->)]; [reflexivity|]. cbn [deliver]. apply store_out. rewrite length_le. cbn [may_change] in N. lia.
  - destruct (select_shape _ _ _ _ _ _ _ _ _ H) as [_ [(v & ->)|(j & rs & ws & -> & _ & R1 & R2)]]; [reflexivity|]. cbn [deliver]. rewrite opt_set_none in R1, R2. cbn [may_change] in N.
    rewrite put_set_out by tauto. apply put_set_out. tauto.
  - destruct (poll_shape _ _ _ _ _ _ H) as [_ [(v & ->)|(j & rs & -> & _ & L)]]; cbn [deliver]; apply put_revents_out; intros i Hi Q; apply N; cbn [may_change]; exists i.
    + rewrite poll_stored_length, length_pollfds in Hi. unfold is_word in W2. split; lia.
    + rewrite L, length_pollfds in Hi. unfold is_word in W2. split; lia.
  - destruct (pair_shape _ _ _ _ _ _ _ H) as [(r & -> & ->)|(f & g & ->)]; cbn [deliver may_change] in *.
    + destruct (next_fd n0 c 0) as [k|]; [|reflexivity]. destruct (n_fds n0 !! (c, k)); [|reflexivity]. apply store_out. rewrite length_le. lia.
    + apply store_out. rewrite app_length, !length_le. lia.
  - destruct (ewait_shape _ _ _ _ _ _ _ H) as [(v & ->)|(evs & -> & L)]; [reflexivity|]. cbn [deliver]. apply store_out. rewrite events_length. intros Q. apply N. cbn [may_change]. exists k.
    split; [apply fits_read_int; assumption|lia].
  - destruct (pipe_shape _ _ _ _ _ H) as [(r & ->)|(f & g & ->)]; cbn [deliver may_change] in *.
    + destruct (next_fd n0 c 0) as [k|]; [|reflexivity]. destruct (n_fds n' !! (c, k)); [|reflexivity]. apply store_out. rewrite length_le. lia.
    + apply store_out. rewrite app_length, !length_le. lia.
Qed.
Lemma name_shape n c peer fd g : name_call n c peer fd = Ok g -> exists path, g = GUnix 1 path /\ length path = 108%nat.
Proof.
  unfold name_call. intros H. destruct (negb _); [discriminate H|]. destruct (n_fds n !! (c, fd)) as [[h fl| | | |]|]; try discriminate H. destruct (n_sock n !! h) as [s|]; [|discriminate H].
  destruct peer; [destruct (s_rem s) as [u|]; [|discriminate H]|destruct (s_loc s) as [u|]]; injection H as <-; eexists; (split; [reflexivity|]); try apply length_path; reflexivity.
Qed.
Lemma frame s c n a late s' r : Forall is_word (words a) -> enter s c n a late = Rep s' r -> forall q, ~ may_change (s_m s) n a q -> s_m s' q = s_m s q.
Proof.
  intros W H q N. unfold enter in H. pose proof (words_word a W) as (W1 & W2 & W3 & W4 & _).
  destruct (decode (s_m s) n a late) as [e| |o d|peer fd p lp|] eqn:D; cbn [perform] in H; [injection H as <- <-; reflexivity|discriminate H| | |discriminate H].
  - destruct (foreign (s_n s) c o) eqn:FO; [discriminate H|]. apply decode_fits in D. destruct (step (s_n s) c o) as [n' x| |] eqn:S; [| |discriminate H]; injection H as <- <-; cbn [s_m].
    + exact (deliver_frame _ _ _ _ _ _ _ _ _ _ W D FO S N).
    + destruct D; try reflexivity. cbn [waiting]. apply put_revents_out. intros i Hi Q. apply N. cbn [may_change]. exists i. rewrite map_length, length_pollfds in Hi. unfold is_word in W2. split; lia.
  - apply decode_name in D as (-> & -> & -> & C & N2 & N3 & _). destruct (name_call _ _ _ _) as [g|e] eqn:G; injection H as <- <-; [|reflexivity]. cbn [s_m]. apply frame_sock.
    + left. exact (name_shape _ _ _ _ _ G).
    + intros Q. apply N. destruct C as [->| ->]; cbn [may_change]; auto.
Qed.
Lemma failed s c n a late s' r : Forall is_word (words a) -> enter s c n a late = Rep s' (Some r) -> r < 0 -> n <> 48 -> n <> 66 -> s_m s' = s_m s.
Proof.
  intros W H R N1 N2. unfold enter in H. pose proof (words_word a W) as (_ & _ & W3 & _). unfold is_word in W3.
  destruct (decode (s_m s) n a late) as [e| |o d|peer fd p lp|] eqn:D; cbn [perform] in H; [injection H as <- <-; reflexivity|discriminate H| | |discriminate H].
  - destruct (foreign (s_n s) c o) eqn:FO; [discriminate H|]. apply decode_fits in D. destruct (step (s_n s) c o) as [n' x| |] eqn:S; [| |discriminate H]; [|discriminate H].
    injection H as <- E. cbn [s_m]. destruct D as [n o NI|fd|n fd f C|fd M2 M3|fd lv o|k e late' K|late'|dd t p|ep k late' Ke K P|].
    + destruct x; reflexivity.
    + destruct (read_shape _ _ _ _ _ _ (proj1 W3) FO S) as [(bs & -> & L)|(v & -> & _)]; [|reflexivity]. cbn [returned] in E. injection E as E. lia.
    + destruct (recv_shape _ _ _ _ _ _ _ (proj1 W3) S) as [(bs & -> & L)|(v & -> & _)]; [|reflexivity]. cbn [returned] in E. injection E as E. lia.
    + destruct (accept_shape _ _ _ _ _ S) as (v & ->). cbn [returned] in E. injection E as ->. cbn [deliver]. replace (0 <=? r) with false by lia. reflexivity.
    + destruct (getopt_shape _ _ _ _ _ _ _ S) as [(v & ->)|(v & ->)]; [reflexivity|]. cbn [returned] in E. injection E as E. lia.
    + destruct (select_shape _ _ _ _ _ _ _ _ _ S) as [_ [(v & ->)|(j & rs & ws & -> & J & _)]]; [reflexivity|]. cbn [returned] in E. injection E as E. lia.
    + lia.
    + destruct (pair_shape _ _ _ _ _ _ _ S) as [(v & -> & ->)|(f & g & ->)]; [|cbn [returned] in E; injection E as E; lia]. cbn [deliver].
      destruct (next_fd (s_n s) c 0) as [k|] eqn:K; [|reflexivity]. destruct (n_fds (s_n s) !! (c, k)) eqn:Q; [|reflexivity]. exfalso. destruct (next_fd_free _ _ _ _ K) as (Kf & _). congruence.
    + destruct (ewait_shape _ _ _ _ _ _ _ S) as [(v & ->)|(evs & -> & L)]; [reflexivity|]. cbn [returned] in E. injection E as E. lia.
    + lia.
  - destruct (name_call _ _ _ _) as [g|e] eqn:G; injection H as <- E; [lia|reflexivity].
Qed.
Lemma waits s c n a late s' : enter s c n a late = Rep s' None -> n <> 48 -> s_m s' = s_m s.
Proof.
  intros H N. unfold enter in H.
  destruct (decode (s_m s) n a late) as [e| |o d|peer fd p lp|] eqn:D; cbn [perform] in H; [discriminate H|discriminate H| | |discriminate H].
  - destruct (foreign (s_n s) c o) eqn:FO; [discriminate H|]. apply decode_fits in D. destruct (step (s_n s) c o) as [n' x| |] eqn:S; [| |discriminate H]; injection H as <-; cbn [s_m].
    + destruct x; try discriminate H; destruct d; reflexivity.
    + destruct D; try reflexivity. lia.
  - destruct (name_call _ _ _ _) as [g|e] eqn:G; discriminate H.
Qed.
