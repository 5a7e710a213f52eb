(** select on INET sockets *)
From Verif Require Import Base PortModel PortSpec PortProofs ErrnoModel InetModel InetSpec InetSpec2 InetInv InetStep InetConn InetName InetPort InetPort2 InetKeep.
Local Open Scope list_scope.
Local Open Scope Z_scope.

Opaque fd_list next_fd reserve release from_discriminant.

Definition shows (s : ist) (p : Z * Z) (i k : Z) : Prop := exists fl, i_fds s !! p = Some (ISock i fl k).
Lemma fork_keeps c c' m p d : (forall fd, m !! (c', fd) = None) -> m !! p = Some d -> fork_fds c c' m !! p = Some d.
Proof.
  intros N Hp. unfold fork_fds. induction fd_list as [|k l IH]; cbn [foldr]; [exact Hp|]. destruct (m !! (c, k)) as [d0|] eqn:E; [|exact IH].
  rewrite lookup_insert_ne; [exact IH|]. intros <-. rewrite N in Hp. discriminate Hp.
Qed.
Lemma shows_same s s' p i k : i_fds s' = i_fds s -> shows s p i k -> shows s' p i k.
Proof. intros E (fl & H). exists fl. rewrite E. exact H. Qed.
Lemma shows_free s s' p i k q d : i_fds s !! q = None -> i_fds s' = <[q := d]> (i_fds s) -> shows s p i k -> shows s' p i k.
Proof. intros N E (fl & H). exists fl. rewrite E, lookup_insert_ne; [exact H|]. intros <-. congruence. Qed.
Lemma shows_put s s' p i k q j fl raw fl' raw' : i_fds s !! q = Some (ISock j fl raw) -> i_fds s' = <[q := ISock j fl' raw']> (i_fds s) -> (0 <= raw -> raw' = raw) -> 0 <= k -> shows s p i k -> shows s' p i k.
Proof.
  intros N E R Hk (fl0 & H). unfold shows. rewrite E. destruct (decide (p = q)) as [->|Hne]; [|exists fl0; rewrite lookup_insert_ne by auto; exact H].
  rewrite lookup_insert. assert (E0 : ISock j fl raw = ISock i fl0 k) by congruence. injection E0 as -> -> ->. rewrite (R Hk). eauto.
Qed.
Lemma bind_shows devs s c fd x a s' t out : bind_call devs s c fd x a = IGo s' t out -> i_fds s' = i_fds s.
Proof.
  intros E. unfold bind_call in E. apply on_sock_go in E as [[-> ->]|(i & fl & raw & h & Hd & Hi & E)]; [done|].
  destruct (bind_inner _ _ _ _ _ _) as [[[[s1 h1] tr] r]|] eqn:Eb; [|discriminate E]. injection E as <- _ _. destruct (bind_inner_spec _ _ _ _ _ _ _ _ _ _ Eb) as ((P & _) & _). exact P.
Qed.
Lemma raw_in s p i fl raw h h1 nk t nk1 : iinv s -> i_fds s !! p = Some (ISock i fl raw) -> i_h s !! i = Some h -> hats nk h t nk1 h1 -> 0 <= raw -> h_in h1 = Some raw.
Proof.
  intros V Hd Hi Hh Hr. destruct (v_fd s V _ _ _ _ Hd) as (g & Hg & [X|X]); [lia|]. assert (g = h) as -> by congruence.
  destruct (hats_kin _ _ _ _ _ Hh) as [K|[K _]]; congruence.
Qed.
Lemma connect_shows devs s c fd x a s' t out p i k : iinv s -> 0 <= k -> connect_call devs s c fd x a = IGo s' t out -> shows s p i k -> shows s' p i k.
Proof.
  intros V Hk E S. unfold connect_call in E. apply on_sock_go in E as [[-> ->]|(j & fl & raw & h & Hd & Hi & E)]; [exact S|].
  destruct (negb _) in E; [injection E as <- _ _; exact S|]. destruct (h_tcp h).
  - unfold connect_tcp in E. destruct (negb _) in E; [injection E as <- _ _; exact S|].
    assert (K : forall s1 h1 k1 tr, i_fds s1 = i_fds s -> (0 <= raw -> k1 = raw) -> connect_kernel s1 c fd j fl h1 k1 tr x a = IGo s' t out -> shows s' p i k).
    { intros s1 h1 k1 tr E1 R E'. unfold connect_kernel in E'.
      assert (X : forall q, shows (put_fd c fd (ISock j fl k1) (put_h j q s1)) p i k).
      { intros q. refine (shows_put s _ p i k (c, fd) j fl raw fl k1 Hd _ R Hk S). cbn. rewrite E1. reflexivity. }
      destruct (_ =? 0) in E'; [injection E' as <- _ _; apply X|]. destruct (_ =? EINPROGRESS) in E'; [injection E' as <- _ _; apply X|].
      apply kfail_go in E' as (-> & _). apply (shows_same s); [exact E1|exact S]. }
    destruct (h_loc h).
    + destruct (h_in h) as [k0|] eqn:Ek; [|discriminate E]. refine (K _ _ _ _ eq_refl _ E). intros Hr. pose proof (raw_in _ _ _ _ _ _ _ 0 [] 0 V Hd Hi (hats_nil _ _) Hr). congruence.
    + destruct (force_inner s h a) as [[[[s0 h0] k0] t0]|] eqn:Ef; [|discriminate E]. destruct (force_spec _ _ _ _ _ _ _ Ef) as ((P1 & _ & _ & _ & P5 & _) & P6 & _).
      destruct (assign devs s0 h0) as [s1 [y|e]] eqn:Ea; destruct (assign_spec _ _ _ _ _ Ea) as (A1 & _).
      * destruct (_ =? 0) in E.
        -- refine (K _ _ _ _ _ _ E); [congruence|]. intros Hr. pose proof (raw_in _ _ _ _ _ _ _ _ _ _ V Hd Hi P5 Hr) as X. rewrite P6 in X. cbn in X. congruence.
        -- apply kfail_go in E as (-> & _). apply (shows_same s); [cbn; congruence|exact S].
      * injection E as <- _ _. apply (shows_same s); [cbn; congruence|exact S].
  - unfold connect_udp in E. cbn [h_loc with_rem] in E. destruct (h_loc h); [injection E as <- _ _; exact S|].
    destruct (assign devs s (with_rem (Some x) h)) as [s1 [y|e]] eqn:Ea; destruct (assign_spec _ _ _ _ _ Ea) as (A1 & _).
    + destruct (bind_inner _ _ _ _ _ _) as [[[[s2 h2] tr] r]|] eqn:Eb; [|discriminate E]. destruct (h_in h2) as [k2|] eqn:Ei; [|discriminate E]. injection E as <- _ _.
      destruct (bind_inner_spec _ _ _ _ _ _ _ _ _ _ Eb) as ((P1 & _ & _ & _ & P5 & _) & _).
      refine (shows_put s _ p i k (c, fd) j fl raw fl k2 Hd _ _ Hk S); [cbn; congruence|]. intros Hr.
      destruct (v_fd s V _ _ _ _ Hd) as (g & Hg & [X|X]); [lia|]. assert (g = h) as -> by congruence. destruct (hats_kin _ _ _ _ _ P5) as [Y|[Y _]]; cbn in Y; congruence.
    + injection E as <- _ _. apply (shows_same s); [cbn; congruence|exact S].
Qed.
Lemma listen_shows devs s c fd n a s' t out p i k : iinv s -> 0 <= k -> listen_call devs s c fd n a = IGo s' t out -> shows s p i k -> shows s' p i k.
Proof.
  intros V Hk E S. unfold listen_call in E. apply on_sock_go in E as [[-> ->]|(j & fl & raw & h & Hd & Hi & E)]; [exact S|].
  destruct (h_st h) eqn:Est; try (injection E as <- _ _; exact S). destruct (negb _) in E; [injection E as <- _ _; exact S|].
  destruct (implicit_bind _ _ _ _ _) as [[[[s1 h1] t1] r]|] eqn:Eb; [|discriminate E]. destruct (implicit_spec _ _ _ _ _ _ _ _ _ Eb) as ((P1 & _ & _ & _ & P5 & _) & _).
  assert (X : shows (put_h j h1 s1) p i k) by (apply (shows_same s); [exact P1|exact S]).
  destruct (r <? 0); [apply kfail_go in E as (-> & _); exact X|]. destruct (h_in h1) as [k1|] eqn:Ek; [|discriminate E]. destruct (h_loc h1) as [l|]; [|discriminate E].
  destruct (_ =? 0) in E; [|apply kfail_go in E as (-> & _); exact X]. injection E as <- _ _.
  refine (shows_put s _ p i k (c, fd) j fl raw fl k1 Hd _ _ Hk S); [cbn; rewrite P1; reflexivity|]. intros Hr. pose proof (raw_in _ _ _ _ _ _ _ _ _ _ V Hd Hi P5 Hr). congruence.
Qed.
Lemma sendto_shows devs s i h bs x a s' t out : sendto_inner devs s i h bs x a = IGo s' t out -> i_fds s' = i_fds s.
Proof.
  intros E. unfold sendto_inner in E. destruct (negb _) in E; [injection E as <- _ _; done|]. destruct (negb _) in E; [injection E as <- _ _; done|]. destruct (h_tcp h); [injection E as <- _ _; done|].
  destruct (implicit_bind _ _ _ _ _) as [[[[s1 h1] t1] r]|] eqn:Eb; [|discriminate E]. destruct (implicit_spec _ _ _ _ _ _ _ _ _ Eb) as ((P1 & _) & _).
  destruct (r <? 0); [injection E as <- _ _; exact P1|]. destruct (h_in h1); [|discriminate E]. destruct (_ <? 0) in E; [apply kfail_go in E as (-> & _)|injection E as <- _ _]; exact P1.
Qed.
Lemma send_shows devs s c fd bs a s' t out : send_call devs s c fd bs a = IGo s' t out -> i_fds s' = i_fds s.
Proof.
  intros E. unfold send_call in E. apply on_sock_go in E as [[-> ->]|(i & fl & raw & h & Hd & Hi & E)]; [done|]. destruct (h_tcp h).
  - apply send_tcp_same in E as ->. done.
  - destruct (h_rem h) as [x|]; [|injection E as <- _ _; done]. destruct (no_dest x); [discriminate E|]. exact (sendto_shows _ _ _ _ _ _ _ _ _ _ E).
Qed.
Lemma recv_shows devs s c fd len flags fam a s' t out : recv_call devs s c fd len flags fam a = IGo s' t out -> i_fds s' = i_fds s.
Proof.
  intros E. unfold recv_call in E. apply on_sock_go in E as [[-> ->]|(i & fl & raw & h & Hd & Hi & E)]; [done|]. destruct (h_tcp h).
  - unfold recv_tcp in E. match type of E with match ?x with _ => _ end = _ => destruct x as [[h0 t0]|] eqn:E0 end; [|discriminate E].
    destruct (h_st h0); try (injection E as <- _ _; done). all: cbv zeta in E; destruct (_ && _) in E; [injection E as <- _ _; done|].
    all: match type of E with match ?x with _ => _ end = _ => destruct x as [k|]; [|discriminate E] end.
    all: destruct (a_recv a) as [bs|e] eqn:Ea; [injection E as <- _ _; done|].
    all: destruct (negb _) in E; [injection E as <- _ _; done|]; destruct (_ && _) in E; [injection E as <- _ _; done|]; apply kfail_go in E as (-> & _); done.
  - unfold recv_udp in E. destruct (implicit_bind _ _ _ _ _) as [[[[s1 h1] t1] r]|] eqn:Eb; [|discriminate E]. destruct (implicit_spec _ _ _ _ _ _ _ _ _ Eb) as ((P1 & _) & _).
    destruct (r <? 0); [injection E as <- _ _; exact P1|]. destruct (h_in h1); [|discriminate E]. destruct (a_recv a); [injection E as <- _ _; exact P1|].
    destruct (_ && _) in E; [injection E as <- _ _; exact P1|]. apply kfail_go in E as (-> & _). exact P1.
Qed.
Lemma step_shows devs s c o a s' t out p i k : iinv s -> valid s o -> 0 <= k -> step devs s c o a = IGo s' t out -> ~ removes o c p -> shows s p i k -> shows s' p i k.
Proof.
  intros V Hv Hk H Nr S. destruct o; cbn [step removes] in *.
  - unfold socket_call in H. destruct (next_fd s c) as [fd|] eqn:En; injection H as <- _ _; [|exact S].
    refine (shows_free s _ p i k (c, fd) _ (next_free _ _ _ En) _ S). reflexivity.
  - exact (shows_same _ _ _ _ _ (bind_shows _ _ _ _ _ _ _ _ _ H) S).
  - exact (connect_shows _ _ _ _ _ _ _ _ _ _ _ _ V Hk H S).
  - exact (listen_shows _ _ _ _ _ _ _ _ _ _ _ _ V Hk H S).
  - unfold accept_call in H. destruct (negb _) in H; [discriminate H|]. destruct (i_fds s !! (c, fd)) as [d|]; [|injection H as <- _ _; exact S].
    destruct (next_fd s c) as [nfd|] eqn:En; [|injection H as <- _ _; exact S]. destruct d as [j fl raw|]; [|injection H as <- _ _; exact S]. destruct (i_h s !! j) as [h|]; [|discriminate H].
    destruct (negb _) in H; [injection H as <- _ _; exact S|]. destruct (negb _) in H; [injection H as <- _ _; exact S|]. destruct (h_loc h) as [l|]; [|discriminate H]. destruct (h_in h); [|discriminate H].
    destruct (negb _) in H; [discriminate H|]. destruct (a_acc a).
    + destruct (reserve _ _ _ _ _ _) as [pp r]. destruct (_ <? 0) in H; injection H as <- _ _; [exact S|]. refine (shows_free s _ p i k (c, nfd) _ (next_free _ _ _ En) _ S). reflexivity.
    + destruct (_ && _) in H; [injection H as <- _ _; exact S|]. apply kfail_go in H as (-> & _). exact S.
  - exact (shows_same _ _ _ _ _ (send_shows _ _ _ _ _ _ _ _ _ H) S).
  - unfold sendto_call in H. destruct (no_dest x); [exact (shows_same _ _ _ _ _ (send_shows _ _ _ _ _ _ _ _ _ H) S)|].
    apply on_sock_go in H as [[-> ->]|(j & fl & raw & h & Hd & Hi & H)]; [exact S|]. exact (shows_same _ _ _ _ _ (sendto_shows _ _ _ _ _ _ _ _ _ _ H) S).
  - unfold writev_call in H. apply on_sock_go in H as [[-> ->]|(j & fl & raw & h & Hd & Hi & H)]; [exact S|]. destruct (h_tcp h); [apply send_tcp_same in H as ->|injection H as <- _ _]; exact S.
  - exact (shows_same _ _ _ _ _ (recv_shows _ _ _ _ _ _ _ _ _ _ _ H) S).
  - unfold shutdown_call in H. destruct (negb _) in H; [injection H as <- _ _; exact S|]. destruct (negb _) in H; [injection H as <- _ _; exact S|].
    apply on_sock_go in H as [[-> ->]|(j & fl & raw & h & Hd & Hi & H)]; [exact S|]. destruct (shut_inner _ _ _ _ _) as [[[[s1 h1] t1] r]|] eqn:Es; [|discriminate H].
    assert (X : i_fds s1 = i_fds s).
    { unfold shut_inner in Es. destruct (h_in h) as [k0|]; [|injection Es as <- _ _ _; done]. destruct (negb _) in Es; [destruct (kerr _); [injection Es as <- _ _ _; done|discriminate Es]|].
      match type of Es with match ?x with _ => _ end = _ => destruct x as [l|] end; [|injection Es as <- _ _ _; done]. destruct (release _ _ _ _ _) as [[q r0]|]; [|discriminate Es]. destruct (r0 <? 0); injection Es as <- _ _ _; done. }
    destruct (r <? 0); [injection H as <- _ _; exact (shows_same s (put_h j h1 s1) _ _ _ X S)|]. destruct (how =? SHUT_RDWR); [|injection H as <- _ _; exact (shows_same s (put_h j h1 s1) _ _ _ X S)].
    destruct (drop_fd _ _ _ _) as [[s3 t3]|] eqn:Ed; [|discriminate H]. injection H as <- _ _. unfold drop_fd in Ed.
    assert (Y : i_fds s3 = delete (c, fd) (i_fds s)).
    { destruct (i_fds (put_h j h1 s1) !! (c, fd)) as [[j' fl' raw'|]|]; [|injection Ed as <- _; cbn; congruence|injection Ed as <- _; cbn; congruence].
      apply drop_hdl_spec in Ed as [(_ & -> & _)|[(_ & _ & -> & _)|(g & _ & _ & Ed & _)]]; [cbn; congruence..|]. rewrite Ed. cbn. congruence. }
    destruct S as (fl0 & S). exists fl0. rewrite Y, lookup_delete_ne by exact Nr. exact S.
  - unfold close_call in H. destruct (negb _) in H; [discriminate H|]. destruct (i_fds s !! (c, fd)) eqn:Ef; [|injection H as <- _ _; exact S].
    destruct (drop_fd _ _ _ _) as [[s3 t3]|] eqn:Ed; [|discriminate H]. injection H as <- _ _. unfold drop_fd in Ed. rewrite Ef in Ed.
    assert (Y : i_fds s3 = delete (c, fd) (i_fds s)).
    { destruct i0 as [j' fl' raw'|]; [|injection Ed as <- _; done].
      apply drop_hdl_spec in Ed as [(_ & -> & _)|[(_ & _ & -> & _)|(g & _ & _ & Ed & _)]]; [done..|]. exact Ed. }
    destruct S as (fl0 & S). exists fl0. rewrite Y, lookup_delete_ne by exact Nr. exact S.
  - unfold dup_call in H. destruct (_ =? 0) in H; [injection H as <- _ _; exact S|]. destruct (negb _) in H; [injection H as <- _ _; exact S|].
    destruct (i_fds s !! (c, fd)); [|injection H as <- _ _; exact S]. destruct (next_fd s c) as [nfd|] eqn:En; injection H as <- _ _; [|exact S]. refine (shows_free s _ p i k (c, nfd) _ (next_free _ _ _ En) _ S). reflexivity.
  - unfold dup2_call in H. destruct (negb _) in H; [injection H as <- _ _; exact S|]. destruct (_ =? _) in H; [injection H as <- _ _; exact S|].
    destruct (negb _) in H; [injection H as <- _ _; exact S|]. destruct (i_fds s !! (c, fd)) as [d|]; [|injection H as <- _ _; exact S].
    assert (Y : i_fds s' = <[(c, fd2) := dup_desc d]> (i_fds s)).
    { destruct (i_fds s !! (c, fd2)) as [[j fl raw|]|]; [|injection H as <- _ _; done|injection H as <- _ _; done].
      destruct (drop_hdl _ _ _) as [[s2 tr]|] eqn:Ed; [|discriminate H]. injection H as <- _ _. apply drop_hdl_spec in Ed as [(_ & -> & _)|[(_ & _ & -> & _)|(g & _ & _ & Ed & _)]]; [done..|]. exact Ed. }
    destruct S as (fl0 & S). exists fl0. rewrite Y, lookup_insert_ne by exact Nr. exact S.
  - injection H as <- _ _. destruct S as (fl0 & S). exists fl0. cbn. exact (fork_keeps _ _ _ _ _ Hv S).
  - unfold getpeername_call in H. destruct (negb _) in H; [injection H as <- _ _; exact S|]. apply on_sock_go in H as [[-> ->]|(j & fl & raw & h & Hd & Hi & H)]; [exact S|].
    destruct (h_rem h); injection H as <- _ _; exact S.
  - unfold getsockname_call in H. destruct (negb _) in H; [injection H as <- _ _; exact S|]. apply on_sock_go in H as [[-> ->]|(j & fl & raw & h & Hd & Hi & H)]; [exact S|].
    injection H as <- _ _; exact S.
  - unfold setopt_call in H. destruct (negb _) in H; [injection H as <- _ _; exact S|]. apply on_sock_go in H as [[-> ->]|(j & fl & raw & h & Hd & Hi & H)]; [exact S|].
    destruct (negb _) in H; [injection H as <- _ _; exact S|]. cbv zeta in H. match type of H with match ?x with _ => _ end = _ => destruct x as [k0|] end; [|injection H as <- _ _; exact S].
    destruct (_ =? 0) in H; [injection H as <- _ _; exact S|]. apply kfail_go in H as (-> & _). exact S.
  - unfold getfl_call in H. apply on_sock_go in H as [[-> ->]|(j & fl & raw & h & Hd & Hi & H)]; [exact S|]. injection H as <- _ _; exact S.
  - unfold setfl_call in H. apply on_sock_go in H as [[-> ->]|(j & fl & raw & h & Hd & Hi & H)]; [exact S|]. destruct (_ <? 0) in H; [injection H as <- _ _; exact S|].
    assert (X : forall fl', shows (put_fd c fd (ISock j fl' raw) s) p i k) by (intros fl'; refine (shows_put s _ p i k (c, fd) j fl raw fl' raw Hd _ (fun _ => eq_refl) Hk S); reflexivity).
    destruct (h_in h); [|injection H as <- _ _; apply X]. destruct (_ =? 0) in H; [injection H as <- _ _; apply X|]. apply kfail_go in H as (-> & _). exact S.
  - unfold fionbio_call in H. apply on_sock_go in H as [[-> ->]|(j & fl & raw & h & Hd & Hi & H)]; [exact S|].
    assert (X : forall fl', shows (put_fd c fd (ISock j fl' raw) s) p i k) by (intros fl'; refine (shows_put s _ p i k (c, fd) j fl raw fl' raw Hd _ (fun _ => eq_refl) Hk S); reflexivity).
    destruct (h_in h); [|injection H as <- _ _; apply X]. destruct (a_mode a =? 0); [injection H as <- _ _; apply X|]. apply kfail_go in H as (-> & _). apply X.
  - unfold select_read_call in H. destruct (sel_read s c fds) as [[l|]|]; [|injection H as <- _ _; exact S|discriminate H]. destruct (bool_decide _) in H; injection H as <- _ _; exact S.
  - apply sel_write_move in H as [-> _]; [|exact V]. exact S.
Qed.

(** ** select *)
Lemma sel_read_in s c fds l : sel_read s c fds = Some (Some l) -> forall k fd, (k, fd) ∈ l <-> fd ∈ fds /\ 0 <= k /\ exists i, shows s (c, fd) i k.
Proof.
  revert l. induction fds as [|f r IH]; intros l; cbn [sel_read].
  - intros [= <-] k fd. split; [intros H; inversion H|intros [H _]; inversion H].
  - destruct (negb _); [discriminate|]. destruct (i_fds s !! (c, f)) as [d|] eqn:E; [|discriminate]. destruct (sel_read s c r) as [[l0|]|]; try discriminate. specialize (IH l0 eq_refl). intros [= <-] k fd.
    assert (T : (k, fd) ∈ l0 -> fd ∈ f :: r /\ 0 <= k /\ exists i, shows s (c, fd) i k) by (intros Hin; apply IH in Hin as (A & B); split; [right; exact A|exact B]).
    assert (U : fd ∈ r /\ 0 <= k /\ (exists i, shows s (c, fd) i k) -> (k, fd) ∈ l0) by (intros Hin; apply IH; exact Hin).
    destruct d as [j fl raw|].
    + destruct (Z.ltb_spec raw 0) as [Hr|Hr].
      * split; [exact T|]. intros (A & B & C). apply elem_of_cons in A as [->|A]; [|auto]. destruct C as (i & fl0 & C). assert (k = raw) by congruence. lia.
      * split; [intros [[= -> ->]|Hin]%elem_of_cons; [|auto]; split; [left|]; split; [exact Hr|]; exists j, fl; exact E|].
        intros (A & B & C). apply elem_of_cons in A as [->|A]; [|right; auto]. destruct C as (i & fl0 & C). assert (k = raw) as -> by congruence. left.
    + split; [exact T|]. intros (A & B & C). apply elem_of_cons in A as [->|A]; [|auto]. destruct C as (i & fl0 & C). congruence.
Qed.
Lemma first_fd_in l k fd : first_fd l k = Some fd -> (k, fd) ∈ l.
Proof.
  unfold first_fd. destruct (List.find _ l) as [[a b]|] eqn:E; [|discriminate]. intros [= <-]. apply List.find_some in E as [A B]. cbn in B. apply Z.eqb_eq in B as ->. apply elem_of_list_In. exact A.
Qed.
Lemma first_fd_some l k fd : (k, fd) ∈ l -> exists fd', first_fd l k = Some fd'.
Proof.
  intros H. unfold first_fd. destruct (List.find _ l) as [[a b]|] eqn:E; [eauto|]. apply elem_of_list_In in H. pose proof (List.find_none _ _ E _ H) as X. cbn in X. rewrite Z.eqb_refl in X. discriminate X.
Qed.
Lemma select_form s c fds a s' t l : select_read_call s c fds a = IGo s' t (IReady l) -> exists m, sel_read s c fds = Some (Some m) /\
  forall fd, fd ∈ l <-> exists k, k ∈ a_ready a /\ first_fd m k = Some fd.
Proof.
  intros E. unfold select_read_call in E. destruct (sel_read s c fds) as [[m|]|]; [|discriminate E|discriminate E]. exists m. split; [done|]. intros fd.
  destruct (bool_decide_reflect (m = [])) as [Hm|Hm] in E.
  - injection E as _ _ <-. split; [intros H; inversion H|]. intros (k & _ & Hk). apply first_fd_in in Hk. rewrite Hm in Hk. inversion Hk.
  - injection E as _ _ <-. rewrite elem_of_list_omap. split; intros (k & A & B); exists k; (split; [|exact B]).
    + apply elem_of_list_In, List.filter_In in A as [A _]. apply elem_of_list_In. exact A.
    + apply elem_of_list_In, List.filter_In. split; [apply elem_of_list_In; exact A|]. apply existsb_exists. exists (k, fd). split; [apply elem_of_list_In, first_fd_in; exact B|apply Z.eqb_refl].
Qed.
Lemma select_sound devs ev1 e ev2 s fds l fd : history devs (ev1 ++ e :: ev2) s -> e_op e = SelectR fds -> e_out e = IReady l -> fd ∈ l ->
  fd ∈ fds /\ exists i k, sock_of (e_pre e) (e_cage e) fd = Some i /\ owns (e_pre e) i k /\ k ∈ a_ready (e_ans e).
Proof.
  intros H Ho Hl Hin. destruct (history_at _ _ _ _ _ H) as (s1 & H1 & Hv & E & _). destruct (history_inv _ _ _ H1) as [V _]. destruct e as [s0 c o a t out]. cbn in *. subst o out.
  destruct (select_form _ _ _ _ _ _ _ E) as (m & Em & F). apply F in Hin as (k & Hk & Hf). apply first_fd_in in Hf. apply (sel_read_in _ _ _ _ Em) in Hf as (A & B & i & fl & C). split; [exact A|].
  exists i, k. split; [unfold sock_of; rewrite C; done|]. split; [|exact Hk]. destruct (v_fd s0 V _ _ _ _ C) as (h & Hh & [X|X]); [lia|]. exists h. auto.
Qed.
Lemma select_shown s c fds a s' t l i k fd : iinv s -> select_read_call s c fds a = IGo s' t (IReady l) -> fd ∈ fds -> 0 <= k -> shows s (c, fd) i k -> k ∈ a_ready a ->
  exists fd', fd' ∈ l /\ fd' ∈ fds /\ sock_of s c fd' = Some i.
Proof.
  intros V E Hin Hk Hs Hr. destruct (select_form _ _ _ _ _ _ _ E) as (m & Em & F). assert (X : (k, fd) ∈ m) by (apply (sel_read_in _ _ _ _ Em); eauto).
  destruct (first_fd_some _ _ _ X) as (fd' & Hf). exists fd'. split; [apply F; eauto|]. apply first_fd_in in Hf. apply (sel_read_in _ _ _ _ Em) in Hf as (A & _ & j & fl & C). split; [exact A|].
  unfold sock_of. rewrite C. f_equal. destruct Hs as (fl0 & Hs). destruct (v_fd s V _ _ _ _ C) as (h & Hh & [Y|Y]); [lia|]. destruct (v_fd s V _ _ _ _ Hs) as (h0 & Hh0 & [Y0|Y0]); [lia|].
  exact (v_inj s V _ _ _ _ _ Hh Hh0 Y Y0).
Qed.

Lemma kfail_no s tr e s' t out : kfail s tr e = IGo s' t out -> t = tr.
Proof. intros H. apply kfail_go in H as (_ & -> & _). done. Qed.
Lemma move_nk sh s t s' : move sh s t s' -> i_nk s <= i_nk s'.
Proof.
  intros M. destruct M as
    [t s' E1 E2 E3 E4 E5 Ht|i h h' t s' Hi E2 E3 F Hpe Ka|c fd v6 tcp nb fl s' Hf ->|c fd h fl i l k x p nb s' Hf Hl Hk Hls Htl Eh E1 E2 E3 E4 E5
    |i l k p nb s' Hl Hk E1 E2 E3 E4 E5|p d s' -> Hd Hu|p i h fl raw d t s' Hp Hi Hd E1 Hno E2 E3 E4 E5 ->|p d s' -> Hp Hu|c c' s' Hn ->]; cbn; try lia.
  pose proof (htouch_kext _ _ _ _ _ _ _ Ka) as K. destruct K; lia.
Qed.
Lemma history_kpos devs evs s : history devs evs s -> 0 <= i_nk s /\ forall i h k, i_h s !! i = Some h -> h_in h = Some k -> 0 <= k.
Proof.
  induction 1 as [|evs s c o a s' tr out H [IH1 IH2] Hv E].
  - split; [cbn; lia|]. intros i h k Hi. cbn [i_h init_inet] in Hi. rewrite lookup_empty in Hi. discriminate Hi.
  - destruct (history_inv _ _ _ H) as [V _]. assert (N : i_nk s <= i_nk s').
    { pose proof (step_moves devs s c o a s' tr out V Hv E) as M. destruct M as [M|(t1 & s1 & t2 & _ & M1 & M2 & _)]; [exact (move_nk _ _ _ _ M)|]. pose proof (move_nk _ _ _ _ M1). pose proof (move_nk _ _ _ _ M2). lia. }
    split; [lia|]. intros i h k Hi Hk. destruct (step_keep _ _ _ _ _ _ _ _ V E i h Hi) as [(g & Hg & _ & _ & _ & [K|[_ K]])|(_ & _ & [K|K] & _)]; rewrite K in Hk; [exact (IH2 _ _ _ Hg Hk)| |discriminate Hk|]; injection Hk as <-; exact IH1.
Qed.
Definition kpos (s : ist) : Prop := 0 <= i_nk s /\ forall i h k, i_h s !! i = Some h -> h_in h = Some k -> 0 <= k.
Lemma opened_shows devs s c o a s' t out fd k : iinv s -> kpos s -> step devs s c o a = IGo s' t out -> opened (Ev s c o a t out) c fd k -> 0 <= k /\ exists i, shows s' (c, fd) i k.
Proof.
  intros V [P0 P1] H [_ [(x & Ho & Hk)|[(n & Ho & Hk)|(l & x & Ho & Hk)]]]; cbn [e_op e_tr e_out] in *.
  - subst o. cbn [step] in H. unfold connect_call in H. apply on_sock_go in H as [[-> ->]|(j & fl & raw & h & Hd & Hi & H)]; [inversion Hk|].
    destruct (negb _) in H; [injection H as _ <- _; inversion Hk|]. destruct (h_tcp h).
    + unfold connect_tcp in H. destruct (negb _) in H; [injection H as _ <- _; inversion Hk|].
      assert (K : forall s1 h1 k1 tr, 0 <= k1 -> all binding tr -> connect_kernel s1 c fd j fl h1 k1 tr x a = IGo s' t out -> 0 <= k /\ exists i, shows s' (c, fd) i k).
      { intros s1 h1 k1 tr K0 N E. unfold connect_kernel in E.
        assert (Ht : t = tr ++ [KConnect k1 x (a_conn a)]) by (destruct (_ =? 0) in E; [|destruct (_ =? EINPROGRESS) in E; [|exact (kfail_no _ _ _ _ _ _ E)]]; injection E as _ <- _; done).
        rewrite Ht in Hk. apply elem_of_app in Hk as [Hk|Hk]; [specialize (N _ Hk); discriminate N|]. apply elem_of_list_singleton in Hk. injection Hk as -> Ha. rewrite <- Ha in E. cbn [Z.eqb] in E. injection E as <- _ _.
        split; [exact K0|]. exists j, fl. cbn. apply lookup_insert. }
      destruct (h_loc h).
      * destruct (h_in h) as [k0|] eqn:Ek; [|discriminate H]. exact (K _ _ _ _ (P1 _ _ _ Hi Ek) (all_nil _) H).
      * destruct (force_inner s h a) as [[[[s0 h0] k0] t0]|] eqn:Ef; [|discriminate H]. pose proof (force_all _ _ _ _ _ _ _ Ef) as Al.
        assert (K0 : 0 <= k0) by (unfold force_inner in Ef; destruct (h_in h) as [k1|] eqn:Ek; [injection Ef as _ _ <- _; exact (P1 _ _ _ Hi Ek)|destruct (_ && _) in Ef; [discriminate Ef|injection Ef as _ _ <- _; exact P0]]).
        destruct (assign devs s0 h0) as [s1 [y|e]].
        -- assert (Al2 : all binding (t0 ++ [KBind k0 y (a_bind a)])) by (apply all_app; [exact Al|apply all_one; reflexivity]).
           destruct (_ =? 0) in H; [exact (K _ _ _ _ K0 Al2 H)|]. apply kfail_no in H. rewrite H in Hk. specialize (Al2 _ Hk). discriminate Al2.
        -- injection H as _ <- _. specialize (Al _ Hk). discriminate Al.
    + exfalso. unfold connect_udp in H. cbn [h_loc with_rem] in H. destruct (h_loc h); [injection H as _ <- _; inversion Hk|]. destruct (assign _ _ _) as [s2 [y|er]]; [|injection H as _ <- _; inversion Hk].
      destruct (bind_inner _ _ _ _ _ _) as [[[[s3 h3] tr] r3]|] eqn:Eb; [|discriminate H]. pose proof (bind_inner_all _ _ _ _ _ _ _ _ _ _ Eb) as Al. destruct (h_in h3); [|discriminate H]. injection H as _ <- _. specialize (Al _ Hk). discriminate Al.
  - subst o. cbn [step] in H. unfold listen_call in H. apply on_sock_go in H as [[-> ->]|(j & fl & raw & h & Hd & Hi & H)]; [inversion Hk|].
    destruct (h_st h); try (injection H as _ <- _; inversion Hk). destruct (negb _) in H; [injection H as _ <- _; inversion Hk|].
    destruct (implicit_bind _ _ _ _ _) as [[[[s1 h1] t1] r]|] eqn:Eb; [|discriminate H]. pose proof (implicit_all _ _ _ _ _ _ _ _ _ Eb) as Al. destruct (implicit_spec _ _ _ _ _ _ _ _ _ Eb) as ((_ & _ & _ & _ & P5 & _) & _).
    destruct (r <? 0); [apply kfail_no in H; rewrite H in Hk; specialize (Al _ Hk); discriminate Al|]. destruct (h_in h1) as [k1|] eqn:Ek; [|discriminate H]. destruct (h_loc h1) as [l|]; [|discriminate H].
    assert (K0 : 0 <= k1) by (destruct (hats_kin _ _ _ _ _ P5) as [Y|[_ Y]]; rewrite Ek in Y; [exact (P1 _ _ _ Hi (eq_sym Y))|injection Y as ->; exact P0]).
    assert (Ht : t = t1 ++ [KListen k1 n (a_listen a)]) by (destruct (_ =? 0) in H; [injection H as _ <- _; done|exact (kfail_no _ _ _ _ _ _ H)]).
    rewrite Ht in Hk. apply elem_of_app in Hk as [Hk|Hk]; [specialize (Al _ Hk); discriminate Al|]. apply elem_of_list_singleton in Hk. injection Hk as -> Ha. rewrite <- Ha in H. cbn [Z.eqb] in H. injection H as <- _ _.
    split; [exact K0|]. exists j, fl. cbn. apply lookup_insert.
  - pose proof (step_may _ _ _ _ _ _ _ _ V H _ Hk) as M. destruct o; try discriminate M. cbn [step] in H. subst out.
    unfold accept_call in H. destruct (negb _) in H; [discriminate H|]. destruct (i_fds s !! (c, fd0)) as [d|]; [|discriminate H].
    destruct (next_fd s c) as [nfd|]; [|discriminate H]. destruct d as [j fl raw|]; [|discriminate H]. destruct (i_h s !! j) as [h|]; [|discriminate H].
    destruct (negb _) in H; [discriminate H|]. destruct (negb _) in H; [discriminate H|]. destruct (h_loc h) as [l0|]; [|discriminate H]. destruct (h_in h) as [k0|]; [|discriminate H].
    destruct (negb _) in H; [discriminate H|]. destruct (a_acc a) as [peer|e].
    + destruct (reserve _ _ _ _ _ _) as [pp r]. destruct (_ <? 0) in H; [discriminate H|]. injection H as <- <- <- <-. cbn [i_nk i_nh bump_k set_ports].
      assert (k = i_nk s) as ->. { unfold bracket in Hk. destruct (nonblock fl); cbn in Hk; rewrite ?elem_of_cons, ?elem_of_nil in Hk; intuition congruence. }
      split; [exact P0|]. eexists _, _. cbn. apply lookup_insert.
    + destruct (_ && _) in H; [discriminate H|]. apply kfail_go in H as (_ & _ & r & X & _). discriminate X.
Qed.
Lemma history_last devs evs e s : history devs (evs ++ [e]) s -> history devs evs (e_pre e) /\ valid (e_pre e) (e_op e) /\ step devs (e_pre e) (e_cage e) (e_op e) (e_ans e) = IGo s (e_tr e) (e_out e).
Proof.
  intros H. inversion H as [E0|evs2 s2 c2 o2 a2 s3 tr2 out2 H0 Hv0 E2 Eq]; [destruct evs; discriminate|]. apply app_inj_tail in Eq as [-> <-]. subst s3. cbn. auto.
Qed.
Lemma history_shows devs ev1 ev2 : forall e1 c fd k s, history devs (ev1 ++ e1 :: ev2) s -> opened e1 c fd k -> Forall (fun e => ~ gone e c fd) ev2 -> 0 <= k /\ exists i, shows s (c, fd) i k.
Proof.
  induction ev2 as [|e ev2 IH] using rev_ind; intros e1 c fd k s H Ho Hg.
  - apply history_last in H as (H1 & Hv & E). destruct (history_inv _ _ _ H1) as [V _].
    destruct e1 as [s0 c0 o a t out]. assert (c0 = c) as -> by (destruct Ho as [Ho _]; exact Ho). cbn in *.
    exact (opened_shows _ _ _ _ _ _ _ _ _ _ V (history_kpos _ _ _ H1) E Ho).
  - apply Forall_app in Hg as [Hg He]. apply Forall_inv in He. rewrite app_comm_cons, app_assoc in H. apply history_last in H as (H1 & Hv & E).
    destruct (IH _ _ _ _ _ H1 Ho Hg) as (Hk & i & S). destruct (history_inv _ _ _ H1) as [V _]. split; [exact Hk|]. exists i.
    exact (step_shows _ _ _ _ _ _ _ _ _ _ _ V Hv Hk E He S).
Qed.
Lemma select_complete devs ev1 e1 ev2 e2 ev3 s c fd k fds l : history devs (ev1 ++ e1 :: ev2 ++ e2 :: ev3) s -> opened e1 c fd k -> Forall (fun e => ~ gone e c fd) ev2 ->
  e_cage e2 = c -> e_op e2 = SelectR fds -> e_out e2 = IReady l -> fd ∈ fds -> k ∈ a_ready (e_ans e2) ->
  exists fd', fd' ∈ l /\ fd' ∈ fds /\ sock_of (e_pre e2) c fd' = sock_of (e_pre e2) c fd.
Proof.
  intros H Ho Hg Hc Hp Hl Hin Hr. rewrite app_comm_cons, app_assoc in H. destruct (history_at _ _ _ _ _ H) as (s1 & H1 & Hv & E & _). destruct (history_inv _ _ _ H1) as [V _].
  destruct (history_shows _ _ _ _ _ _ _ _ H1 Ho Hg) as (Hk & i & S). rewrite Hp, Hl, Hc in E. cbn [step] in E.
  destruct (select_shown _ _ _ _ _ _ _ _ _ _ V E Hin Hk S Hr) as (fd' & A & B & C). exists fd'. split; [exact A|]. split; [exact B|]. rewrite C. destruct S as (fl & S). unfold sock_of. rewrite S. reflexivity.
Qed.
Lemma selw_all s c a fds : forall s' t l, sel_write s c a fds = IGo s' t (IReady l) -> l = fds.
Proof.
  induction fds as [|fd r IH]; intros s' t l; cbn [sel_write]; [intros [= _ _ <-]; done|].
  destruct (negb _); [discriminate|]. destruct (i_fds s !! (c, fd)) as [d|]; [|discriminate].
  assert (G : forall t0, match sel_write s c a r with IGo s' tr (IReady l) => IGo s' (t0 ++ tr) (IReady (fd :: l)) | IGo s' tr o => IGo s' (t0 ++ tr) o | x => x end = IGo s' t (IReady l) -> l = fd :: r).
  { intros t0 H. destruct (sel_write s c a r) as [s1 tr o| |]; [|discriminate H|discriminate H]. destruct o; try discriminate H. injection H as _ _ <-. f_equal. exact (IH _ _ _ eq_refl). }
  destruct d as [i fl raw|]; [|apply G]. destruct (i_h s !! i) as [h|]; [|discriminate].
  destruct (h_st h); try apply G. destruct (h_in h); [|discriminate]. destruct (a_soerr a); [discriminate|apply G].
Qed.
Lemma selw_history devs ev1 e ev2 s fds l : history devs (ev1 ++ e :: ev2) s -> e_op e = SelectW fds -> e_out e = IReady l -> l = fds.
Proof.
  intros H Hp Hl. destruct (history_at _ _ _ _ _ H) as (s1 & _ & _ & E & _). rewrite Hp, Hl in E. cbn [step] in E. exact (selw_all _ _ _ _ _ _ _ E).
Qed.
