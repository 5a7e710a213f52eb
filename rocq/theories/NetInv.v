(** Structural invariant of the socket model: every byte stream has at most
    one receiver.  Nothing here models code. *)
From Verif Require Import Base NetModel NetSpec.
Local Open Scope list_scope.
Local Open Scope Z_scope.

(** Who can take bytes out of pipe [p] *)
Inductive holder := HSock (h : Z) | HPend (l : upath) | HPipe.
Definition reads (n : net) (p : Z) (x : holder) : Prop :=
  match x with
  | HSock h => from n h = Some p
  | HPend l => exists q, n_pend n !! l = Some q /\ q_rp q = p
  | HPipe => exists k wr fl, n_fds n !! k = Some (DPipe p wr fl)
  end.
Definition writes (n : net) (p : Z) : Prop :=
  (exists h, into n h = Some p) \/ (exists l q, n_pend n !! l = Some q /\ q_sp q = p).
Definition uses (n : net) (h : Z) : Prop := exists k fl, n_fds n !! k = Some (DSock h fl).

Record ninv (n : net) : Prop := {
  ni_s0 : 0 <= n_nsock n;
  ni_p0 : 0 <= n_npipe n;
  ni_sock : forall h, is_Some (n_sock n !! h) <-> 0 <= h < n_nsock n;
  ni_pipe : forall p, is_Some (n_pipe n !! p) <-> 0 <= p < n_npipe n;
  ni_use : forall h, uses n h -> 0 <= h < n_nsock n;
  ni_wr : forall p, writes n p -> 0 <= p < n_npipe n;
  ni_rd : forall p x, reads n p x -> 0 <= p < n_npipe n;
  ni_one : forall p x y, reads n p x -> reads n p y -> x = y
}.

(** Steps that add no reader, writer or user *)
Record shr (n n' : net) : Prop := {
  sh_ns : n_nsock n' = n_nsock n;
  sh_np : n_npipe n' = n_npipe n;
  sh_sock : forall h, is_Some (n_sock n' !! h) <-> is_Some (n_sock n !! h);
  sh_pipe : forall p, is_Some (n_pipe n' !! p) <-> is_Some (n_pipe n !! p);
  sh_use : forall h, uses n' h -> uses n h;
  sh_wr : forall p, writes n' p -> writes n p;
  sh_rd : forall p x, reads n' p x -> reads n p x
}.

Lemma shr_refl n : shr n n.
Proof. split; naive_solver. Qed.
Lemma shr_trans a b c : shr a b -> shr b c -> shr a c.
Proof.
  intros H K. destruct H, K. split; try congruence; try naive_solver.
Qed.
Lemma shr_ninv n n' : shr n n' -> ninv n -> ninv n'.
Proof.
  intros [S1 S2 S3 S4 S5 S6 S7] [I1 I2 I3 I4 I5 I6 I7 I8]. split; rewrite ?S1, ?S2; auto.
  - intros h. rewrite S3. apply I3.
  - intros p. rewrite S4. apply I4.
  - intros p x Hx. apply (I7 p x), S7, Hx.
  - intros p x y Hx Hy. apply (I8 p); auto.
Qed.

(** ** Field updates *)
Lemma shr_drop_fd c k n : shr n (drop_fd c k n).
Proof.
  split; try done.
  - intros h (q & fl & H). exists q, fl. cbn in H. by apply lookup_delete_Some in H as [_ H].
  - intros p [|l|]; cbn; try done.
    intros (q & wr & fl & H). exists q, wr, fl. by apply lookup_delete_Some in H as [_ H].
Qed.
(** Putting a descriptor that shares what another one refers to *)
Definition desc_ok (n : net) (d : desc) : Prop :=
  match d with
  | DSock h _ => uses n h
  | DPipe p _ _ => reads n p HPipe
  | _ => True
  end.
Lemma shr_put_fd c k d n : desc_ok n d -> shr n (put_fd c k d n).
Proof.
  intros Hd. split; try done.
  - intros h (q & fl & H). cbn in H. apply lookup_insert_Some in H as [[_ ->]|[_ H]]; [done|].
    by exists q, fl.
  - intros p [|l|]; cbn; try done.
    intros (q & wr & fl & H). apply lookup_insert_Some in H as [[_ ->]|[_ H]]; [done|].
    by exists q, wr, fl.
Qed.
Lemma desc_ok_table n k d : n_fds n !! k = Some d -> desc_ok n d.
Proof. destruct d; cbn; try done; intros H; [by exists k, fl|by exists k, wr, fl]. Qed.
Lemma desc_ok_dup n d : desc_ok n d -> desc_ok n (dup_desc d).
Proof. by destruct d. Qed.

Definition recv_of (s : sock) : option Z := match s_ui s with Some u => u_recv u | None => None end.
Definition send_of (s : sock) : option Z := match s_ui s with Some u => u_send u | None => None end.
Lemma from_eq n h s : n_sock n !! h = Some s -> from n h = recv_of s.
Proof. intros H. unfold from. by rewrite H. Qed.
Lemma into_eq n h s : n_sock n !! h = Some s -> into n h = send_of s.
Proof. intros H. unfold into. by rewrite H. Qed.
Lemma from_put h h' s n :
  from (put_sock h s n) h' = if decide (h = h') then recv_of s else from n h'.
Proof.
  unfold from. cbn. case_decide as E.
  - subst. by rewrite lookup_insert.
  - by rewrite lookup_insert_ne.
Qed.
Lemma into_put h h' s n :
  into (put_sock h s n) h' = if decide (h = h') then send_of s else into n h'.
Proof.
  unfold into. cbn. case_decide as E.
  - subst. by rewrite lookup_insert.
  - by rewrite lookup_insert_ne.
Qed.

Definition le_opt (a b : option Z) : Prop := a = b \/ a = None.
Lemma shr_put_sock h s s' n :
  n_sock n !! h = Some s -> le_opt (recv_of s') (recv_of s) -> le_opt (send_of s') (send_of s) ->
  shr n (put_sock h s' n).
Proof.
  intros Hs Hr Hw. split; try done.
  - intros k. cbn. destruct (decide (h = k)) as [->|E].
    + rewrite lookup_insert, Hs. split; eauto.
    + by rewrite lookup_insert_ne.
  - intros p [[k Hk]|(l & q & Hq)]; [left|right].
    + exists k. rewrite into_put in Hk. case_decide as E; [|done]. subst k.
      rewrite (into_eq _ _ _ Hs). destruct Hw; congruence.
    + by exists l, q.
  - intros p [k|l|]; cbn [reads]; try done.
    rewrite from_put. case_decide as E; [|done]. subst k. rewrite (from_eq _ _ _ Hs).
    destruct Hr; congruence.
Qed.
Lemma shr_put_pipe p x y n : n_pipe n !! p = Some x -> shr n (put_pipe p y n).
Proof.
  intros Hx. split; try done.
  intros k. cbn. destruct (decide (p = k)) as [->|E].
  - rewrite lookup_insert, Hx. split; eauto.
  - by rewrite lookup_insert_ne.
Qed.
Lemma shr_upd_pipe p f n : shr n (upd_pipe p f n).
Proof.
  split; try done. intros k. cbn. destruct (decide (p = k)) as [->|E].
  - rewrite lookup_alter. by rewrite fmap_is_Some.
  - by rewrite lookup_alter_ne.
Qed.
Lemma shr_opt_pipe o f n : shr n (opt_pipe o f n).
Proof. destruct o; [apply shr_upd_pipe|apply shr_refl]. Qed.
Lemma shr_set_ino f n : shr n (set_ino f n).
Proof. by split. Qed.
Lemma shr_set_bound f n : shr n (set_bound f n).
Proof. by split. Qed.
Lemma shr_set_names f n : shr n (set_names f n).
Proof. by split. Qed.
Lemma shr_set_woken f n : shr n (set_woken f n).
Proof. by split. Qed.
Lemma shr_bumps n : shr n (bump_nino n) /\ shr n (bump_auto n) /\ shr n (bump_req n).
Proof. by split_and!. Qed.
Lemma shr_del_pend l n : shr n (set_pend (delete l) n).
Proof.
  split; try done.
  - intros p [H|(k & q & Hq & E)]; [by left|right]. exists k, q.
    cbn in Hq. apply lookup_delete_Some in Hq as [_ Hq]. done.
  - intros p [h|k|]; cbn [reads]; try done.
    intros (q & Hq & E). exists q. cbn in Hq. apply lookup_delete_Some in Hq as [_ Hq]. done.
Qed.
Lemma set_wait_rp r q : q_rp (set_wait r q) = q_rp q /\ q_sp (set_wait r q) = q_sp q.
Proof. unfold set_wait. by destruct (_ && _). Qed.
Lemma shr_wait r n : shr n (set_pend (fmap (set_wait r)) n).
Proof.
  split; try done.
  - intros p [H|(k & q & Hq & E)]; [by left|right].
    cbn in Hq. apply lookup_fmap_Some in Hq as (q0 & <- & Hq). exists k, q0.
    split; [done|]. by rewrite <- (proj2 (set_wait_rp r q0)).
  - intros p [h|k|]; cbn [reads]; try done.
    intros (q & Hq & E). cbn in Hq. apply lookup_fmap_Some in Hq as (q0 & <- & Hq). exists q0.
    split; [done|]. by rewrite <- (proj1 (set_wait_rp r q0)).
Qed.
Lemma shr_ino_ref d i n n' : ino_ref d i n = Some n' -> shr n n'.
Proof.
  unfold ino_ref. destruct (n_ino n !! i) as [[r l]|]; [|done].
  destruct (r + d <? 0); intros [= <-]. apply shr_set_ino.
Qed.

(** Inspecting what is left alone *)
Lemma opt_pipe_sock o f n : n_sock (opt_pipe o f n) = n_sock n.
Proof. by destruct o. Qed.
Lemma opt_pipe_fds o f n : n_fds (opt_pipe o f n) = n_fds n.
Proof. by destruct o. Qed.
Lemma ino_ref_sock d i n n' : ino_ref d i n = Some n' -> n_sock n' = n_sock n.
Proof.
  unfold ino_ref. destruct (n_ino n !! i) as [[r l]|]; [|done].
  destruct (r + d <? 0); by intros [= <-].
Qed.
Lemma gone_le o n : le_opt (gone o n) o.
Proof.
  unfold gone, le_opt. destruct o as [p|]; [|auto].
  destruct (n_pipe n !! p) as [x|]; [|auto]. destruct (pipe_closed x); auto.
Qed.

Lemma release_shr d n n' : release d n = Some n' -> shr n n'.
Proof.
  destruct d as [h fl|reg|p wr fl| |]; cbn; try (intros [= <-]; apply shr_refl).
  - destruct (n_sock n !! h) as [s|] eqn:Hs; [|done].
    destruct (s_ui s) as [u|] eqn:Hu; [|intros [= <-]; apply shr_refl].
    set (n1 := opt_pipe (u_send u) decr_w n).
    set (n2 := opt_pipe (u_recv u) decr_r n1).
    set (s' := with_ui (Some _) s).
    destruct (too_many _ _ || too_many _ _); [done|].
    assert (H3 : shr n (put_sock h s' n2)).
    { eapply shr_trans; [apply (shr_opt_pipe (u_send u) decr_w)|].
      eapply shr_trans; [apply (shr_opt_pipe (u_recv u) decr_r)|].
      apply (shr_put_sock h s).
      - unfold n2, n1. by rewrite !opt_pipe_sock.
      - unfold recv_of at 2. rewrite Hu. apply gone_le.
      - unfold send_of at 2. rewrite Hu. apply gone_le. }
    destruct (u_ino u =? -1); [by intros [= <-]|].
    destruct (_ !! u_ino u) as [[r l]|]; [|done].
    destruct (r =? 0); [done|]. destruct ((r - 1 =? 0) && (l =? 0)).
    + destruct (s_loc s); [|done]. intros [= <-].
      eapply shr_trans; [exact H3|]. eapply shr_trans; [apply shr_set_ino|apply shr_set_bound].
    + intros [= <-]. eapply shr_trans; [exact H3|apply shr_set_ino].
  - intros [= <-]. apply shr_upd_pipe.
Qed.
Lemma release_fds d n n' : release d n = Some n' -> n_fds n' = n_fds n.
Proof.
  destruct d as [h fl|reg|p wr fl| |]; cbn; try (by intros [= <-]).
  destruct (n_sock n !! h) as [s|] eqn:Hs; [|done].
  destruct (s_ui s) as [u|] eqn:Hu; [|by intros [= <-]].
  destruct (too_many _ _ || too_many _ _); [done|].
  destruct (u_ino u =? -1); [intros [= <-]; cbn; by rewrite !opt_pipe_fds|].
  destruct (_ !! u_ino u) as [[r l]|]; [|done].
  destruct (r =? 0); [done|]. destruct ((r - 1 =? 0) && (l =? 0)).
  - destruct (s_loc s); [|done]. intros [= <-]. cbn. by rewrite !opt_pipe_fds.
  - intros [= <-]. cbn. by rewrite !opt_pipe_fds.
Qed.
Lemma retain_shr b d n n' : retain b d n = Some n' -> shr n n'.
Proof.
  destruct d as [h fl|reg|p wr fl| |]; cbn; try (intros [= <-]; apply shr_refl).
  - destruct (n_sock n !! h) as [s|] eqn:Hs; [|done].
    destruct (s_ui s) as [u|] eqn:Hu; [|intros [= <-]; apply shr_refl].
    intros H.
    eapply shr_trans; [apply (shr_opt_pipe (u_send u) incr_w)|].
    eapply shr_trans; [apply (shr_opt_pipe (u_recv u) incr_r)|].
    destruct (b && negb (u_ino u =? -1)).
    + exact (shr_ino_ref _ _ _ _ H).
    + injection H as <-. apply shr_refl.
  - intros [= <-]. apply shr_upd_pipe.
Qed.
Lemma retain_fds b d n n' : retain b d n = Some n' -> n_fds n' = n_fds n.
Proof.
  destruct d as [h fl|reg|p wr fl| |]; cbn; try (by intros [= <-]).
  destruct (n_sock n !! h) as [s|] eqn:Hs; [|done].
  destruct (s_ui s) as [u|] eqn:Hu; [|by intros [= <-]].
  destruct (b && negb (u_ino u =? -1)).
  - unfold ino_ref. destruct (_ !! u_ino u) as [[r l]|]; [|done].
    destruct (r + 1 <? 0); intros [= <-]. cbn. by rewrite !opt_pipe_fds.
  - intros [= <-]. by rewrite !opt_pipe_fds.
Qed.
Lemma fork_fds_shr c c' l n n' : fork_fds c c' l n = Some n' -> shr n n'.
Proof.
  revert n. induction l as [|k l IH]; intros n; cbn; [intros [= <-]; apply shr_refl|].
  destruct (n_fds n !! (c, k)) as [d|] eqn:Hd; [|apply IH].
  destruct (retain true d n) as [n1|] eqn:Hr; [|done]. intros H.
  eapply shr_trans; [exact (retain_shr _ _ _ _ Hr)|].
  eapply shr_trans; [|exact (IH _ H)].
  apply shr_put_fd, (desc_ok_table _ (c, k)). by rewrite (retain_fds _ _ _ _ Hr).
Qed.

(** ** Binding *)
Lemma bind_unix_shr p s n s1 n1 r : bind_unix p s n = (s1, n1, r) ->
  shr n n1 /\ n_sock n1 = n_sock n /\ n_fds n1 = n_fds n /\ n_pend n1 = n_pend n /\
  (s1 = s \/ (n_names n !! p = None /\ recv_of s1 = None /\ send_of s1 = None)).
Proof.
  unfold bind_unix. destruct (n_names n !! p); intros [= <- <- <-].
  - split_and!; auto. apply shr_refl.
  - split_and!; auto. by split.
Qed.
Lemma bind_inner_shr p s n s1 n1 r : bind_inner p s n = (s1, n1, r) ->
  shr n n1 /\ n_sock n1 = n_sock n /\ n_fds n1 = n_fds n /\ n_pend n1 = n_pend n /\
  le_opt (recv_of s1) (recv_of s) /\ le_opt (send_of s1) (send_of s) /\
  s_peek s1 = s_peek s /\ s_st s1 = s_st s.
Proof.
  unfold bind_inner. destruct (s_loc s).
  - intros [= <- <- <-]. unfold le_opt. split_and!; auto. apply shr_refl.
  - destruct (bind_unix p s n) as [[a b] d] eqn:E. intros [= <- <- <-].
    destruct (bind_unix_shr _ _ _ _ _ _ E) as (A & B & C & D & F).
    split_and!; auto.
    + destruct F as [->|(_ & F & _)]; [by left|right]. exact F.
    + destruct F as [->|(_ & _ & F)]; [by left|right]. exact F.
    + unfold bind_unix in E. destruct (n_names n !! p); injection E as <- <- <-; done.
    + unfold bind_unix in E. destruct (n_names n !! p); injection E as <- <- <-; done.
Qed.
Lemma auto_bind_shr s n s1 n1 : auto_bind s n = (s1, n1) ->
  shr n n1 /\ n_sock n1 = n_sock n /\ n_fds n1 = n_fds n /\ n_pend n1 = n_pend n /\
  le_opt (recv_of s1) (recv_of s) /\ le_opt (send_of s1) (send_of s) /\
  s_peek s1 = s_peek s /\ s_st s1 = s_st s.
Proof.
  unfold auto_bind. destruct (s_loc s).
  - intros [= <- <-]. unfold le_opt. split_and!; auto. apply shr_refl.
  - destruct (bind_inner _ s _) as [[a b] d] eqn:E. intros [= <- <-].
    destruct (bind_inner_shr _ _ _ _ _ _ E) as (A & B & C & D & F & G & K & L).
    split_and!; auto. eapply shr_trans; [|exact A]. apply shr_bumps.
Qed.

(** ** Growth *)
Lemma from_alloc_pipe cap n h : from (alloc_pipe cap n) h = from n h.
Proof. done. Qed.
Lemma ninv_alloc_pipe cap n : ninv n -> ninv (alloc_pipe cap n).
Proof.
  intros [I1 I2 I3 I4 I5 I6 I7 I8]. split; try done.
  - cbn. lia.
  - intros p. cbn. destruct (decide (n_npipe n = p)) as [<-|E].
    + rewrite lookup_insert. split; [lia|eauto].
    + rewrite lookup_insert_ne by done. rewrite I4. lia.
  - intros p Hp. cbn. specialize (I6 p Hp). lia.
  - intros p x Hx. cbn. specialize (I7 p x Hx). lia.
Qed.
Lemma fresh_pipe n x : ninv n -> ~ reads n (n_npipe n) x.
Proof. intros I H. apply (ni_rd _ I) in H. lia. Qed.
Lemma ninv_alloc_sock s n :
  ninv n ->
  (forall p, recv_of s = Some p -> 0 <= p < n_npipe n /\ forall x, ~ reads n p x) ->
  (forall p, send_of s = Some p -> 0 <= p < n_npipe n) ->
  ninv (alloc_sock s n).
Proof.
  intros I Hr Hw. assert (Hfrom : forall h, from (alloc_sock s n) h =
    if decide (h = n_nsock n) then recv_of s else from n h).
  { intros h. unfold from. cbn. case_decide as E.
    - subst. by rewrite lookup_insert.
    - by rewrite lookup_insert_ne. }
  assert (Hnew : from n (n_nsock n) = None).
  { unfold from. destruct (n_sock n !! n_nsock n) eqn:E; [|done].
    assert (is_Some (n_sock n !! n_nsock n)) as K by eauto. apply (ni_sock _ I) in K. lia. }
  destruct I as [I1 I2 I3 I4 I5 I6 I7 I8]. split; try done.
  - cbn. lia.
  - intros h. cbn. destruct (decide (n_nsock n = h)) as [<-|E].
    + rewrite lookup_insert. split; [lia|eauto].
    + rewrite lookup_insert_ne by done. rewrite I3. lia.
  - intros h Hh. cbn. specialize (I5 h Hh). lia.
  - intros p [[h Hh]|H]; cbn.
    + unfold into in Hh. cbn in Hh. destruct (decide (n_nsock n = h)) as [<-|E].
      * rewrite lookup_insert in Hh. by apply Hw.
      * rewrite lookup_insert_ne in Hh by done. apply I6. left. by exists h.
    + apply I6. by right.
  - intros p [h|l|]; cbn [reads].
    + rewrite Hfrom. case_decide as E; intros H; cbn; [by apply Hr|].
      apply (I7 p (HSock h)). exact H.
    + intros H. apply (I7 p (HPend l)). exact H.
    + intros H. apply (I7 p HPipe). exact H.
  - assert (Hold : forall p x, reads (alloc_sock s n) p x ->
      (x = HSock (n_nsock n) /\ recv_of s = Some p) \/ reads n p x).
    { intros p [h|l|]; cbn [reads]; try (by right).
      rewrite Hfrom. case_decide as E; [subst; left; done|by right]. }
    intros p x y Hx Hy. apply Hold in Hx as [[-> Hx]|Hx], Hy as [[-> Hy]|Hy]; try done.
    + destruct (Hr p Hx) as [_ Hn]. exfalso. by apply (Hn y).
    + destruct (Hr p Hy) as [_ Hn]. exfalso. by apply (Hn x).
    + by apply (I8 p).
Qed.
(** Giving a handle a new incoming stream *)
Lemma ninv_put_sock h s n :
  ninv n -> is_Some (n_sock n !! h) ->
  (forall p, recv_of s = Some p -> 0 <= p < n_npipe n /\ forall x, reads n p x -> x = HSock h) ->
  (forall p, send_of s = Some p -> 0 <= p < n_npipe n) ->
  ninv (put_sock h s n).
Proof.
  intros I Hs Hr Hw. destruct I as [I1 I2 I3 I4 I5 I6 I7 I8]. split; try done.
  - intros k. cbn. destruct (decide (h = k)) as [<-|E].
    + rewrite lookup_insert. rewrite <- I3. split; eauto.
    + by rewrite lookup_insert_ne.
  - intros p [[k Hk]|H].
    + rewrite into_put in Hk. case_decide as E; [by apply Hw|]. apply I6. left. by exists k.
    + apply I6. by right.
  - intros p [k|l|]; cbn [reads].
    + rewrite from_put. case_decide as E; intros H; [by apply Hr|]. apply (I7 p (HSock k)), H.
    + intros H. apply (I7 p (HPend l)), H.
    + intros H. apply (I7 p HPipe), H.
  - assert (Hold : forall p x, reads (put_sock h s n) p x ->
      (x = HSock h /\ recv_of s = Some p) \/ (x <> HSock h /\ reads n p x)).
    { intros p [k|l|]; cbn [reads]; try (by right).
      rewrite from_put. case_decide as E; [subst; left; done|].
      right. split; [congruence|done]. }
    intros p x y Hx Hy. apply Hold in Hx as [[-> Hx]|[Nx Hx]], Hy as [[-> Hy]|[Ny Hy]]; try done.
    + destruct (Hr p Hx) as [_ Hn]. symmetry. by apply Hn.
    + destruct (Hr p Hy) as [_ Hn]. by apply Hn.
    + by apply (I8 p).
Qed.
Lemma ninv_put_pend l q n :
  ninv n -> 0 <= q_rp q < n_npipe n -> 0 <= q_sp q < n_npipe n ->
  (forall x, ~ reads n (q_rp q) x) ->
  ninv (set_pend (insert l q) n).
Proof.
  intros I Hr Hw Hn. destruct I as [I1 I2 I3 I4 I5 I6 I7 I8]. split; try done.
  - intros p [[k Hk]|(k & z & Hz & <-)].
    + apply I6. left. by exists k.
    + cbn in Hz. apply lookup_insert_Some in Hz as [[<- <-]|[_ Hz]]; [done|].
      apply I6. right. by exists k, z.
  - intros p [k|k|]; cbn [reads].
    + intros H. apply (I7 p (HSock k)), H.
    + intros (z & Hz & <-). cbn in Hz. apply lookup_insert_Some in Hz as [[<- <-]|[_ Hz]]; [done|].
      apply (I7 _ (HPend k)). by exists z.
    + intros H. apply (I7 p HPipe), H.
  - assert (Hold : forall p x, reads (set_pend (insert l q) n) p x ->
      (x = HPend l /\ p = q_rp q) \/ reads n p x).
    { intros p [k|k|]; cbn [reads]; try (by right).
      intros (z & Hz & <-). cbn in Hz. apply lookup_insert_Some in Hz as [[<- <-]|[_ Hz]]; [by left|].
      right. by exists z. }
    intros p x y Hx Hy. apply Hold in Hx as [[-> Hx]|Hx], Hy as [[-> Hy]|Hy]; try done.
    + subst. exfalso. by apply (Hn y).
    + subst. exfalso. by apply (Hn x).
    + by apply (I8 p).
Qed.
Lemma ninv_put_fd c k d n :
  ninv n ->
  match d with
  | DSock h _ => 0 <= h < n_nsock n
  | DPipe p _ _ => 0 <= p < n_npipe n /\ forall x, reads n p x -> x = HPipe
  | _ => True
  end -> ninv (put_fd c k d n).
Proof.
  intros I Hd. destruct I as [I1 I2 I3 I4 I5 I6 I7 I8]. split; try done.
  - intros h (j & fl & Hj). cbn in Hj. apply lookup_insert_Some in Hj as [[_ ->]|[_ Hj]]; [done|].
    apply I5. by exists j, fl.
  - intros p [h|l|]; cbn [reads].
    + intros H. apply (I7 p (HSock h)), H.
    + intros H. apply (I7 p (HPend l)), H.
    + intros (j & wr & fl & Hj). cbn in Hj. apply lookup_insert_Some in Hj as [[_ ->]|[_ Hj]].
      * apply Hd.
      * apply (I7 p HPipe). by exists j, wr, fl.
  - assert (Hold : forall p x, reads (put_fd c k d n) p x ->
      (x = HPipe /\ forall y, reads n p y -> y = HPipe) \/ reads n p x).
    { intros p [h|l|]; cbn [reads]; try (by right).
      intros (j & wr & fl & Hj). cbn in Hj. apply lookup_insert_Some in Hj as [[_ ->]|[_ Hj]].
      - left. split; [done|]. apply Hd.
      - right. by exists j, wr, fl. }
    intros p x y Hx Hy. apply Hold in Hx as [[-> Hx]|Hx], Hy as [[-> Hy]|Hy]; try done.
    + symmetry. by apply Hx.
    + by apply Hy.
    + by apply (I8 p).
Qed.
