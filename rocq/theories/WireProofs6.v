(** Proofs of C123 (data) and C124 (names). *)
From stdpp Require Import gmap.
From Verif Require Import Base AbiModel AbiSpec AbiProofs EntryModel EntrySpec EntryProofs2 NetModel NetSpec NetInv NetStep NetData NetCalls NetKeep NetReq NetThm NetAbort
  WireModel WireSpec WireProofs WireProofs2 WireProofs3 WireProofs4 WireProofs5 WireKeep.
Local Open Scope list_scope.
Local Open Scope Z_scope.
Opaque fd_list next_fd fresh_cage.

(** ** Histories *)
Lemma run_trans l : forall n n1 xs l' n2 ys, run n l = Some (n1, xs) -> run n1 l' = Some (n2, ys) -> exists zs, run n (l ++ l') = Some (n2, zs).
Proof.
  induction l as [|[c o] l IH]; intros n n1 xs l' n2 ys; cbn [run app].
  - intros [= <- <-] H. eauto.
  - destruct (step n c o) as [k x| |]; [|discriminate|discriminate]. destruct (run k l) as [[k2 zs]|] eqn:E; [|discriminate].
    intros [= <- <-] H. destruct (IH _ _ _ _ _ _ E H) as (ws & ->). eauto.
Qed.
Lemma reach_run n l n' xs : reachable n -> run n l = Some (n', xs) -> reachable n'.
Proof. intros (l0 & xs0 & H0) H. destruct (run_trans _ _ _ _ _ _ _ H0 H) as (zs & E). exists (l0 ++ l), zs. exact E. Qed.
Lemma run_one n c o n' x : step n c o = Go n' x -> run n [(c, o)] = Some (n', [x]).
Proof. intros H. cbn [run]. rewrite H. reflexivity. Qed.
Lemma enter_run s c n a late s' r : enter s c n a late = Rep s' r -> exists l xs, run (s_n s) l = Some (s_n s', xs).
Proof.
  unfold enter. destruct (decode (s_m s) n a late) as [e| |o d|peer fd p lp|]; cbn [perform]; intros H; [|discriminate H| | |discriminate H].
  - injection H as <- <-. exists [], []. reflexivity.
  - destruct (foreign _ _ _); [discriminate H|]. destruct (step (s_n s) c o) as [n' x| |] eqn:E; [| |discriminate H]; injection H as <- <-.
    + exists [(c, o)], [x]. cbn [s_n]. exact (run_one _ _ _ _ _ E).
    + exists [], []. reflexivity.
  - destruct (name_call _ _ _ _); injection H as <- <-; exists [], []; reflexivity.
Qed.
Lemma act_run s x s' r : act_step s x = Rep s' r -> exists l xs, run (s_n s) l = Some (s_n s', xs).
Proof.
  destruct x as [p b|c n a late|c o]; cbn [act_step].
  - intros [= <- <-]. exists [], []. reflexivity.
  - apply enter_run.
  - destruct (step (s_n s) c o) as [n' x| |] eqn:E; [| |discriminate]; intros [= <- <-].
    + exists [(c, o)], [x]. cbn [s_n]. exact (run_one _ _ _ _ _ E).
    + exists [], []. reflexivity.
Qed.
Lemma acts_run l : forall s s' ys, acts s l = Some (s', ys) -> exists l' xs, run (s_n s) l' = Some (s_n s', xs).
Proof.
  induction l as [|x l IH]; intros s s' ys; cbn [acts].
  - intros [= <- <-]. exists [], []. reflexivity.
  - destruct (act_step s x) as [s1 y| |] eqn:E; [|discriminate|discriminate]. destruct (acts s1 l) as [[s2 zs]|] eqn:A; [|discriminate]. intros [= <- <-].
    destruct (act_run _ _ _ _ E) as (l1 & xs1 & R1). destruct (IH _ _ _ A) as (l2 & xs2 & R2). destruct (run_trans _ _ _ _ _ _ _ R1 R2) as (zs' & R). eauto.
Qed.
Lemma reached s l s' ys : reachable (s_n s) -> acts s l = Some (s', ys) -> reachable (s_n s').
Proof. intros R A. destruct (acts_run _ _ _ _ A) as (l' & xs & H). exact (reach_run _ _ _ _ R H). Qed.
Lemma enter_reach s c n a late s' r : reachable (s_n s) -> enter s c n a late = Rep s' r -> reachable (s_n s').
Proof. intros R H. destruct (enter_run _ _ _ _ _ _ _ H) as (l & xs & E). exact (reach_run _ _ _ _ R E). Qed.

(** ** Data *)
Lemma asked s c n a late o s' k : bytes_only (s_m s) -> Forall is_word (words a) -> asks (s_m s) a late n o -> enter s c n a late = Rep s' (Some k) ->
  foreign (s_n s) c o = false /\ exists n' x, step (s_n s) c o = Go n' x /\ s' = St n' (deliver (s_n s) c n' x (where_to (s_m s) n a) (s_m s)) /\ returned x = Some k.
Proof.
  intros B W A H. unfold enter in H. rewrite (asks_decode _ _ _ _ _ B W A) in H. cbn [perform] in H.
  destruct (foreign _ _ _); [discriminate H|]. split; [reflexivity|]. destruct (step (s_n s) c o) as [n' x| |]; [|discriminate H|discriminate H].
  injection H as <- E. eauto.
Qed.
Lemma table_of m n vs o : wmeaning m n vs = Some o -> match o with Recv _ _ _ => n = 36 | Read _ _ => n = 12 | Send _ _ => n = 34 | Write _ _ => n = 13 | _ => True end.
Proof.
  unfold wmeaning. intros H.
  repeat match type of H with
  | match ?t with _ => _ end = _ => destruct t; try discriminate H
  end; injection H as <-; reflexivity || exact I.
Qed.
Lemma receives_buf m a late n o fd f : asks m a late n o -> receives a fd f o -> where_to m n a = Buf (a2 a).
Proof.
  intros A R. destruct A; destruct R as [R|[R _]]; try discriminate R; try reflexivity; subst o.
  - pose proof (table_of _ _ _ _ H1) as T. cbn in T. subst n. reflexivity.
  - pose proof (table_of _ _ _ _ H1) as T. cbn in T. subst n. reflexivity.
Qed.
Lemma stored_bytes m p bs : bytes_at (store m p bs) p (Z.of_nat (length bs)) = bs.
Proof.
  rewrite <- bytes_at_load. pose proof (load_store m p bs 0 (length bs)) as H. rewrite Z.add_0_r in H. rewrite Nat2Z.id, H by lia.
  rewrite drop_0. apply take_ge. lia.
Qed.
Lemma received s c n a late o fd f h p s' k : reachable (s_n s) -> bytes_only (s_m s) -> Forall is_word (words a) ->
  asks (s_m s) a late n o -> receives a fd f o -> opens (s_n s) c fd h = true -> from (s_n s) h = Some p ->
  enter s c n a late = Rep s' (Some k) -> 0 <= k ->
  k = Z.min (a3 a) (Z.of_nat (length (unread (s_n s) h p))) /\
  bytes_at (s_m s') (a2 a) k = take (Z.to_nat k) (unread (s_n s) h p) /\
  unread (s_n s') h p = (if hasbit f 2 then unread (s_n s) h p else drop (Z.to_nat k) (unread (s_n s) h p)).
Proof.
  intros Rc B W A R O F H K. pose proof (words_word a W) as (_ & _ & W3 & _). unfold is_word in W3.
  destruct (asked _ _ _ _ _ _ _ _ B W A H) as (FO & n' & x & S & -> & E).
  rewrite (receives_buf _ _ _ _ _ _ _ A R). cbn [s_m s_n].
  pose proof (reach_inv _ Rc) as I. destruct (reachable_alone _ _ _ I F) as ([t Ht] & [y Hy] & Hr & _).
  rewrite (from_eq _ _ _ Ht) in Hr.
  assert (G : exists fl, recv_sock (s_n s) h fl t (a3 a) f = Go n' x).
  { destruct R as [->|[-> ->]].
    - destruct (recv_opens _ _ _ _ _ _ _ _ S O) as (fl & t0 & _ & Ht0 & Q). assert (t0 = t) as -> by congruence. eauto.
    - destruct (opens_inv _ _ _ _ O) as [fl Hd]. cbn [step] in S. unfold read_call in S. destruct (in_range fd); [|discriminate S]. cbn [negb] in S.
      rewrite Hd, Ht in S. eauto. }
  destruct G as (fl & G).
  destruct (recv_sock_data _ _ _ _ _ _ _ _ _ _ Ht Hy Hr G) as [[_ [->|[-> _]]]|(-> & U & _)].
  - cbn in E. injection E as <-. unfold err in K. vm_compute in K. exfalso. apply K. reflexivity.
  - cbn in E. injection E as <-. vm_compute in K. exfalso. apply K. reflexivity.
  - cbn [returned] in E. injection E as E. cbn [deliver].
    set (u := unread (s_n s) h p) in *. assert (L : k = Z.min (a3 a) (Z.of_nat (length u))) by (rewrite <- E, take_length; lia).
    assert (T : take (Z.to_nat (a3 a)) u = take (Z.to_nat k) u).
    { rewrite L. destruct (Z.le_gt_cases (a3 a) (Z.of_nat (length u))); [f_equal; lia|]. rewrite !take_ge by lia. reflexivity. }
    split; [exact L|]. split.
    + rewrite <- T, <- E. apply stored_bytes.
    + rewrite U. unfold after. change MSG_PEEK with 2. destruct (hasbit f 2); [reflexivity|].
      rewrite L. destruct (Z.le_gt_cases (a3 a) (Z.of_nat (length u))); [f_equal; lia|]. rewrite !drop_ge by lia. reflexivity.
Qed.
Lemma send_range n h fl s bs n' k : send_sock n h fl s bs = Go n' (Ret k) -> k <= Z.of_nat (length bs).
Proof.
  unfold send_sock, pipe_write. intros H. destruct (negb _); [injection H as _ <-; vm_compute err; lia|].
  destruct (s_ui s) as [u|]; [|discriminate H]. destruct (u_send u) as [p|]; [|injection H as _ <-; vm_compute err; lia].
  destruct (n_pipe n !! p) as [z|]; [|discriminate H].
  destruct (_ =? 0) eqn:E0; [injection H as _ <-; lia|]. destruct (p_nr z =? 0); [injection H as _ <-; vm_compute err; lia|].
  destruct (room z <? PIPE_BUF); [destruct (nonblock fl); [injection H as _ <-; vm_compute err; lia|discriminate H]|].
  destruct (_ || _); [injection H as _ <-; lia|discriminate H].
Qed.
Lemma delivers_bytes m a late n o fd bs : bytes_only m -> Forall is_word (words a) -> asks m a late n o -> delivers fd bs o -> bs = bytes_at m (a2 a) (a3 a).
Proof.
  intros B W A R. pose proof (asks_decode _ _ _ _ _ B W A) as D.
  assert (N : (n = 34 /\ o = Send fd bs) \/ (n = 13 /\ o = Write fd bs)).
  { destruct A; destruct R as [R|R]; try discriminate R; subst o; pose proof (table_of _ _ _ _ H1) as T; cbn in T; auto. }
  destruct N as [[-> ->]|[-> ->]]; unfold decode in D; cbn [Z.eqb Pos.eqb] in D; argstep D; apply get_ptr_same in E0 as [-> _]; unfold get_ulong in E1; injection E1 as <-;
    injection D as _ <-; apply bytes_load.
Qed.
Lemma bytes_take m p n k : 0 <= k <= n -> take (Z.to_nat k) (bytes_at m p n) = bytes_at m p k.
Proof.
  intros H. unfold bytes_at. replace n with (k + (n - k)) by lia. rewrite seqZ_app by lia. rewrite map_app.
  apply take_app_alt. rewrite map_length, seqZ_length. reflexivity.
Qed.
Lemma sent s c n a late o fd bs h p s' k : reachable (s_n s) -> bytes_only (s_m s) -> Forall is_word (words a) ->
  asks (s_m s) a late n o -> delivers fd bs o -> sends (s_n s) c fd p = true -> from (s_n s) h = Some p ->
  enter s c n a late = Rep s' (Some k) -> 0 <= k ->
  k <= a3 a /\ unread (s_n s') h p = unread (s_n s) h p ++ bytes_at (s_m s) (a2 a) k.
Proof.
  intros Rc B W A R O F H K. pose proof (words_word a W) as (_ & W2 & W3 & _). unfold is_word in W2, W3.
  destruct (asked _ _ _ _ _ _ _ _ B W A H) as (FO & n' & x & S & -> & E). cbn [s_n].
  pose proof (delivers_bytes _ _ _ _ _ _ _ B W A R) as BS.
  pose proof (reach_inv _ Rc) as I.
  pose proof (step_conserve _ _ _ _ _ _ _ I S (reachable_alone _ _ _ I F)) as C.
  unfold sends in O. destruct (n_fds (s_n s) !! (c, fd)) as [[h0 fl|reg|z wr fl| |]|] eqn:Hd; try discriminate O.
  assert (G : exists t, n_sock (s_n s) !! h0 = Some t /\ send_sock (s_n s) h0 fl t bs = Go n' x).
  { destruct R as [->| ->]; cbn [step] in S.
    - apply on_sock_go in S as [[_ [[_ Q]|(_ & d & Q & N)]]|(h1 & fl1 & t & _ & Q & Ht & S)]; [congruence| |].
      + rewrite Hd in Q. injection Q as <-. destruct (N h0 fl eq_refl).
      + rewrite Hd in Q. injection Q as <- <-. eauto.
    - unfold write_call in S. destruct (in_range fd); [|discriminate S]. cbn [negb] in S. rewrite Hd in S.
      destruct (n_sock (s_n s) !! h0) as [t|] eqn:Ht; [|discriminate S]. eauto. }
  destruct G as (t & Ht & G).
  assert (X : x = Ret k).
  { unfold send_sock in G. destruct (negb _); [injection G as _ <-; cbn in E; congruence|].
    destruct (s_ui t) as [u|]; [|discriminate G]. destruct (u_send u) as [p0|]; [|injection G as _ <-; cbn in E; congruence].
    destruct (n_pipe _ !! p0) as [z|]; [|discriminate G]. unfold pipe_write in G.
    destruct (_ =? 0); [injection G as _ <-; cbn in E; congruence|]. destruct (p_nr z =? 0); [injection G as _ <-; cbn in E; congruence|].
    destruct (room z <? PIPE_BUF); [destruct (nonblock fl); [injection G as _ <-; cbn in E; congruence|discriminate G]|].
    destruct (_ || _); injection G as _ <-; cbn in E; congruence. }
  subst x. pose proof (send_range _ _ _ _ _ _ _ G) as L.
  assert (LB : Z.of_nat (length bs) = a3 a) by (rewrite BS; unfold bytes_at; rewrite map_length, seqZ_length; lia).
  split; [lia|].
  assert (P : put_in p (s_n s) c o (Ret k) = take (Z.to_nat k) bs /\ took h (s_n s) c o (Ret k) = []).
  { destruct R as [->| ->]; unfold put_in, took, sends; rewrite Hd, O; split; reflexivity. }
  destruct P as [P1 P2]. rewrite P1, P2 in C. cbn [app] in C. rewrite <- C, BS. f_equal. apply bytes_take. lia.
Qed.
Lemma transferred s c n a late o fd bs h p s1 k m c' n' a' late' o' fd' f s2 j : reachable (s_n s) -> bytes_only (s_m s) -> Forall is_word (words a) ->
  asks (s_m s) a late n o -> delivers fd bs o -> sends (s_n s) c fd p = true -> from (s_n s) h = Some p -> unread (s_n s) h p = [] ->
  enter s c n a late = Rep s1 (Some k) -> 0 <= k ->
  bytes_only m -> Forall is_word (words a') -> asks m a' late' n' o' -> receives a' fd' f o' -> opens (s_n s1) c' fd' h = true -> from (s_n s1) h = Some p ->
  enter (St (s_n s1) m) c' n' a' late' = Rep s2 (Some j) -> 0 <= j ->
  j = Z.min (a3 a') k /\ bytes_at (s_m s2) (a2 a') j = bytes_at (s_m s) (a2 a) j.
Proof.
  intros Rc B W A R O F U H K B' W' A' R' O' F' H' J.
  destruct (sent _ _ _ _ _ _ _ _ _ _ _ _ Rc B W A R O F H K) as (_ & U1). rewrite U in U1. cbn [app] in U1.
  destruct (received (St (s_n s1) m) c' n' a' late' o' fd' f h p s2 j (enter_reach _ _ _ _ _ _ _ Rc H) B' W' A' R' O' F' H' J) as (L & E & _).
  cbn [s_n] in L, E. rewrite U1 in L, E.
  assert (LB : Z.of_nat (length (bytes_at (s_m s) (a2 a) k)) = k) by (unfold bytes_at; rewrite map_length, seqZ_length; lia).
  rewrite LB in L. split; [exact L|]. rewrite E. apply bytes_take. lia.
Qed.

(** ** Names *)
Lemma copied m p lp path : length path = 108%nat -> written m (copy_out_sockaddr m p lp (GUnix 1 path)) p lp path.
Proof.
  intros L. unfold written, apart, copy_out_sockaddr. rewrite load4. change (sock_len _) with 110. change (sock_bytes _) with ([1; 0] ++ path).
  set (b := take _ _). set (l := le 4 _). split.
  - rewrite <- load4. pose proof (load_store (store m p b) lp l 0 4) as H. rewrite Z.add_0_r in H.
    rewrite H by (unfold l; rewrite length_le; lia). rewrite drop_0, take_ge by (unfold l; rewrite length_le; lia).
    unfold l. rewrite Z.max_l by lia. reflexivity.
  - intros D k x Hk. assert (Lk : (k < length b)%nat) by (apply nth_error_Some; rewrite Hk; discriminate).
    assert (Lb : (length b <= 110)%nat) by (unfold b; rewrite take_length, app_length, L; cbn [length]; lia).
    rewrite store_out by (unfold l; rewrite length_le; lia). rewrite store_in by exact Lk. apply (nth_error_nth _ _ 0) in Hk. exact Hk.
Qed.
Lemma in_table n c fd d : reachable n -> n_fds n !! (c, fd) = Some d -> in_range fd = true.
Proof. intros R H. pose proof (reach_fdok _ R _ _ _ H). unfold in_range. unfold MAXFD in *. lia. Qed.
Lemma tells_is s c n fd path : n = 144 \/ n = 145 -> length path = 108%nat -> name_call (s_n s) c (n =? 145) fd = Ok (GUnix 1 path) -> tells s c n fd path.
Proof.
  intros N L H a late A. unfold enter. rewrite (asks_name_decode _ _ _ _ _ A). cbn [perform]. rewrite H. eexists. split; [reflexivity|]. by apply copied.
Qed.
Lemma local_name s c fd h u : reachable (s_n s) -> opens (s_n s) c fd h = true -> bound_to (s_n s) h u -> tells s c 144 fd (path_of u).
Proof.
  intros R O (t & Ht & Hu). destruct (opens_inv _ _ _ _ O) as [fl Hd]. apply tells_is; [auto|apply length_path|].
  unfold name_call. rewrite (in_table _ _ _ _ R Hd). cbn [negb]. rewrite Hd, Ht, Hu. reflexivity.
Qed.
Lemma peer_name s c fd h t u : reachable (s_n s) -> opens (s_n s) c fd h = true -> n_sock (s_n s) !! h = Some t -> s_rem t = Some u -> tells s c 145 fd (path_of u).
Proof.
  intros R O Ht Hu. destruct (opens_inv _ _ _ _ O) as [fl Hd]. apply tells_is; [auto|apply length_path|].
  unfold name_call. rewrite (in_table _ _ _ _ R Hd). cbn [negb]. rewrite Hd, Ht, Hu. reflexivity.
Qed.
Lemma le_of_le l : Forall is_byte l -> le (length l) (of_le l) = l.
Proof.
  induction l as [|b l IH]; intros F; [reflexivity|]. inversion F as [|? ? Hb Hl]; subst. cbn [length le of_le]. unfold is_byte in Hb.
  replace (b + 256 * of_le l) with (b + of_le l * 256) by lia. rewrite Z.mod_add, Z.div_add, (Z.mod_small b), (Z.div_small b) by lia. rewrite Z.add_0_l. f_equal. exact (IH Hl).
Qed.
Lemma path_called path : length path = 108%nat -> Forall is_byte path -> path_of (called path) = path.
Proof. intros L F. unfold called. cbn [path_of]. rewrite <- L. by apply le_of_le. Qed.
Lemma bound_name s c fd h path : reachable (s_n s) -> opens (s_n s) c fd h = true -> bound_to (s_n s) h (called path) -> length path = 108%nat -> Forall is_byte path ->
  tells s c 144 fd path.
Proof. intros R O Bd L F. pose proof (local_name s c fd h _ R O Bd) as T. by rewrite (path_called _ L F) in T. Qed.
Lemma run_local l : forall n n' xs h u, ninv n -> run n l = Some (n', xs) -> bound_to n h u -> bound_to n' h u.
Proof.
  induction l as [|[c o] l IH]; intros n n' xs h u I; cbn [run]; [intros [= <- <-]; auto|].
  destruct (step n c o) as [n1 x| |] eqn:E; [|discriminate|discriminate]. destruct (run n1 l) as [[n2 ys]|] eqn:R; [|discriminate]. intros [= <- <-] (t & Ht & Hu).
  apply (IH n1 n2 ys h u (step_ninv _ _ _ _ _ I E) R). exact (step_local _ _ _ _ _ _ _ _ I E Ht Hu).
Qed.
Lemma acts_local s l s' ys h u : reachable (s_n s) -> acts s l = Some (s', ys) -> bound_to (s_n s) h u -> bound_to (s_n s') h u.
Proof. intros R A Bd. destruct (acts_run _ _ _ _ A) as (l' & xs & H). exact (run_local _ _ _ _ _ _ (reach_inv _ R) H Bd). Qed.
Lemma bind_bound n c fd u h n' : step n c (Bind fd u) = Go n' (Ret 0) -> opens n c fd h = true -> bound_to n' h u.
Proof.
  cbn [step]. intros H O. destruct (opens_inv _ _ _ _ O) as [fl Hd].
  apply on_sock_go in H as [[_ [[Q _]|(Q & _)]]|(h0 & fl0 & s0 & _ & E & Hs & H)]; [discriminate Q|discriminate Q|].
  rewrite Hd in E. injection E as <- <-. destruct (bind_inner u s0 n) as [[s1 n1] r] eqn:Bi. injection H as <- ->.
  exists s1. cbn. rewrite lookup_insert. split; [reflexivity|]. unfold bind_inner in Bi. destruct (s_loc s0); [discriminate Bi|].
  destruct (bind_unix u s0 n) as [[s2 n2] r2]. injection Bi as <- _ _. reflexivity.
Qed.
Lemma bind_tells s c a late fd path h s1 l s2 ys c' fd' : reachable (s_n s) -> bytes_only (s_m s) -> Forall is_word (words a) ->
  int_word (a1 a) fd -> address_at (s_m s) (a2 a) (a3 a) path -> local_path path -> opens (s_n s) c fd h = true ->
  enter s c 33 a late = Rep s1 (Some 0) -> acts s1 l = Some (s2, ys) -> opens (s_n s2) c' fd' h = true -> tells s2 c' 144 fd' path.
Proof.
  intros R B W If Ad Lp O H A O2.
  destruct (asked s c 33 a late _ s1 0 B W (as_bind _ _ _ _ _ If Ad Lp) H) as (_ & n' & x & S & -> & E).
  assert (x = Ret 0) as ->.
  { cbn [step] in S. apply on_sock_go in S as [[_ [[-> _]|(-> & _)]]|(h0 & fl0 & s0 & _ & _ & _ & S)]; [discriminate E|discriminate E|].
    destruct (bind_inner _ s0 _) as [[s3 n3] r]. injection S as _ <-. cbn in E. congruence. }
  pose proof (enter_reach _ _ _ _ _ _ _ R H) as R1.
  apply (bound_name s2 c' fd' h path (reached _ _ _ _ R1 A) O2); [|apply Ad|exact (address_bytes _ _ _ _ B Ad)].
  exact (acts_local _ _ _ _ _ _ R1 A (bind_bound _ _ _ _ _ _ S O)).
Qed.
Lemma unbound_name s c fd h : reachable (s_n s) -> opens (s_n s) c fd h = true -> (forall u, ~ bound_to (s_n s) h u) -> tells s c 144 fd (replicate 108 0).
Proof.
  intros R O N. destruct (opens_inv _ _ _ _ O) as [fl Hd]. apply tells_is; [auto|reflexivity|].
  unfold name_call. rewrite (in_table _ _ _ _ R Hd). cbn [negb]. rewrite Hd. pose proof (reach_inv _ R) as I.
  destruct (n_sock (s_n s) !! h) as [t|] eqn:Ht.
  - cbn [Z.eqb Pos.eqb]. destruct (s_loc t) as [u|] eqn:Hu; [|reflexivity]. destruct (N u). exists t. auto.
  - assert (U : uses (s_n s) h) by (exists (c, fd), fl; exact Hd). apply (ni_use _ I), (ni_sock _ I) in U as [t U]. congruence.
Qed.
Lemma name_errors s c n fd a late : asks_name a n fd ->
  match n_fds (s_n s) !! (c, fd) with
  | None => enter s c n a late = Rep s (Some (-9))
  | Some (DSock h _) => reachable (s_n s) -> n = 145 -> (forall t, n_sock (s_n s) !! h = Some t -> s_rem t = None) -> enter s c n a late = Rep s (Some (-107))
  | Some _ => reachable (s_n s) -> enter s c n a late = Rep s (Some (-88))
  end.
Proof.
  intros A. unfold enter. rewrite (asks_name_decode _ _ _ _ _ A). cbn [perform]. unfold name_call.
  destruct (n_fds (s_n s) !! (c, fd)) as [d|] eqn:Hd; [|destruct (in_range fd); reflexivity].
  destruct d as [h fl|reg|z wr fl| |].
  2-5: intros R; rewrite (in_table _ _ _ _ R Hd); reflexivity.
  intros R -> N. rewrite (in_table _ _ _ _ R Hd). cbn [negb]. pose proof (reach_inv _ R) as I.
  assert (U : uses (s_n s) h) by (exists (c, fd), fl; exact Hd). apply (ni_use _ I), (ni_sock _ I) in U as [t U]. rewrite U. cbn [Z.eqb Pos.eqb]. rewrite (N _ U). reflexivity.
Qed.

(** Connect: the address that the client asked for is that of its peer *)
Lemma connect_rem n c fd u h n1 x : step n c (Connect fd u) = Go n1 x -> returned x = Some 0 \/ returned x = None -> opens n c fd h = true ->
  (x = Ret 0 \/ x = Waits (n_req n)) /\ opens n1 c fd h = true /\ exists t, n_sock n1 !! h = Some t /\ s_rem t = Some u.
Proof.
  cbn [step]. unfold connect_call. intros H Y O. destruct (opens_inv _ _ _ _ O) as [fl Hd].
  apply on_sock_go in H as [[_ [[-> _]|(-> & _)]]|(h0 & fl0 & s0 & _ & E & Hs & H)]; [destruct Y; discriminate|destruct Y; discriminate|].
  rewrite Hd in E. injection E as <- <-.
  destruct (negb _); [injection H as _ <-; destruct Y; discriminate|].
  destruct (auto_bind s0 n) as [s1 n2] eqn:Au. pose proof (auto_bind_rsame _ _ _ _ Au) as (_ & B & _).
  destruct (negb _); [injection H as _ <-; destruct Y; discriminate|].
  destruct (s_ui s1); [|discriminate H]. destruct (s_loc s1); [|discriminate H]. injection H as <- <-.
  split; [cbn; rewrite B; destruct (nonblock fl); auto|]. split.
  - assert (F : n_fds n2 = n_fds n).
    { unfold auto_bind in Au. destruct (s_loc s0); [injection Au as _ <-; reflexivity|]. unfold bind_inner, bind_unix in Au. destruct (s_loc s0); [injection Au as _ <-; reflexivity|].
      destruct (n_names _ !! _); injection Au as _ <-; reflexivity. }
    unfold opens. cbn. rewrite F, Hd. apply Z.eqb_refl.
  - eexists. cbn. rewrite lookup_insert. split; reflexivity.
Qed.
Lemma connect_tells s c a late fd path h s1 y : reachable (s_n s) -> bytes_only (s_m s) -> Forall is_word (words a) ->
  int_word (a1 a) fd -> address_at (s_m s) (a2 a) (a3 a) path -> local_path path -> opens (s_n s) c fd h = true ->
  enter s c 38 a late = Rep s1 y -> y = Some 0 \/ y = None -> tells s1 c 145 fd path.
Proof.
  intros R B W If Ad Lp O H Y. pose proof (enter_reach _ _ _ _ _ _ _ R H) as R1. unfold enter in H.
  rewrite (asks_decode _ _ _ _ _ B W (as_connect _ _ late _ _ If Ad Lp)) in H. cbn [perform foreign] in H.
  destruct (step (s_n s) c (Connect fd (called path))) as [n' x| |] eqn:S; [|exfalso|discriminate H].
  2:{ cbn [step] in S. unfold connect_call, on_sock in S. destruct (negb _); [discriminate S|]. destruct (n_fds _ !! _) as [[]|]; try discriminate S.
      destruct (n_sock _ !! _); [|discriminate S]. destruct (negb _); [discriminate S|]. destruct (auto_bind _ _). destruct (negb _); [discriminate S|].
      destruct (s_ui _); [|discriminate S]. destruct (s_loc _); discriminate S. }
  injection H as <- E. rewrite <- E in Y. destruct (connect_rem _ _ _ _ _ _ _ S Y O) as (_ & O1 & t & Ht & Hr).
  pose proof (peer_name (St n' _) c fd h t _ R1 O1 Ht Hr) as T. rewrite (path_called path) in T; [exact T|apply Ad|exact (address_bytes _ _ _ _ B Ad)].
Qed.

(** A pair *)
Lemma bind_inner_fds p s n s1 n1 r : bind_inner p s n = (s1, n1, r) -> n_fds n1 = n_fds n.
Proof. unfold bind_inner, bind_unix. destruct (s_loc s); [intros [= _ <- _]; reflexivity|]. destruct (n_names n !! p); intros [= _ <- _]; reflexivity. Qed.
Lemma bind_inner_loc p s n s1 n1 r : bind_inner p s n = (s1, n1, r) -> s_loc s = None -> s_loc s1 = Some p.
Proof. unfold bind_inner, bind_unix. intros H E. rewrite E in H. destruct (n_names n !! p); injection H as <- _ _; reflexivity. Qed.
Lemma ino_ref_fds d i n n' : ino_ref d i n = Some n' -> n_fds n' = n_fds n.
Proof. unfold ino_ref. destruct (n_ino n !! i) as [[r l]|]; [|discriminate]. destruct (_ <? 0); [discriminate|]. intros [= <-]. reflexivity. Qed.
Lemma pair_names n c d t pr n' f1 f2 : ninv n -> step n c (Socketpair d t pr) = Go n' (Pair f1 f2) -> 0 <= f2 ->
  0 <= f1 < 1024 /\ 0 <= f2 < 1024 /\ f1 <> f2 /\ exists h1 h2 t1 t2 l1 l2, h1 <> h2 /\ opens n' c f1 h1 = true /\ opens n' c f2 h2 = true /\ n_sock n' !! h1 = Some t1 /\ n_sock n' !! h2 = Some t2 /\
    s_loc t1 = Some l1 /\ s_rem t1 = Some l2 /\ s_loc t2 = Some l2 /\ s_rem t2 = Some l1.
Proof.
  cbn [step]. intros I H P. unfold socketpair_call in H.
  destruct (negb (d =? AF_UNIX)); [discriminate H|]. destruct (negb _ || _); [discriminate H|]. destruct (negb _); [discriminate H|].
  set (fl := fl_of _ _) in H. set (s := new_sock NotConn t fl) in H. set (na := alloc_sock s (alloc_sock s n)) in H.
  destruct (next_fd na c 0) as [k1|] eqn:N1.
  2:{ rewrite N1 in H. destruct (bind_inner (Auto (n_auto n)) s (bump_auto (bump_auto na))) as [[s1 nd] r1]. destruct (bind_inner (Auto (n_auto n + 1)) s nd) as [[s2 ne] r2].
      destruct (s_ui s1); [|discriminate H]. destruct (s_ui s2); [|discriminate H]. destruct (ino_ref _ _ _); [|discriminate H]. destruct (ino_ref _ _ _); [|discriminate H].
      injection H as _ _ <-. vm_compute in P. exfalso. apply P. reflexivity. }
  set (nb := put_fd c k1 (DSock (n_nsock n) fl) na) in H.
  destruct (next_fd nb c 0) as [k2|] eqn:N2.
  2:{ destruct (bind_inner (Auto (n_auto n)) s (bump_auto (bump_auto nb))) as [[s1 nd] r1]. destruct (bind_inner (Auto (n_auto n + 1)) s nd) as [[s2 ne] r2].
      destruct (s_ui s1); [|discriminate H]. destruct (s_ui s2); [|discriminate H]. destruct (ino_ref _ _ _); [|discriminate H]. destruct (ino_ref _ _ _); [|discriminate H].
      injection H as _ _ <-. vm_compute in P. exfalso. apply P. reflexivity. }
  set (nc := put_fd c k2 (DSock (n_nsock n + 1) fl) nb) in H.
  destruct (bind_inner (Auto (n_auto n)) s (bump_auto (bump_auto nc))) as [[s1 nd] r1] eqn:B1.
  destruct (bind_inner (Auto (n_auto n + 1)) s nd) as [[s2 ne] r2] eqn:B2.
  destruct (s_ui s1) as [u1|]; [|discriminate H]. destruct (s_ui s2) as [u2|]; [|discriminate H].
  destruct (ino_ref 1 (u_ino u1) _) as [ng|] eqn:G1; [|discriminate H]. destruct (ino_ref 1 (u_ino u2) ng) as [nh|] eqn:G2; [|discriminate H].
  injection H as <- <- <-.
  destruct (next_fd_free _ _ _ _ N1) as (F1 & R1). destruct (next_fd_free _ _ _ _ N2) as (F2 & R2).
  assert (NE : k1 <> k2). { intros ->. unfold nb in F2. cbn in F2. rewrite lookup_insert in F2. discriminate F2. }
  assert (FD : n_fds nh = n_fds nc).
  { rewrite (ino_ref_fds _ _ _ _ G2), (ino_ref_fds _ _ _ _ G1). cbn. rewrite (bind_inner_fds _ _ _ _ _ _ B2), (bind_inner_fds _ _ _ _ _ _ B1). reflexivity. }
  split; [unfold MAXFD in *; lia|]. split; [unfold MAXFD in *; lia|]. split; [exact NE|].
  exists (n_nsock n), (n_nsock n + 1). do 2 eexists. exists (Auto (n_auto n)), (Auto (n_auto n + 1)). split; [lia|].
  unfold opens. cbn. rewrite FD. cbn.
  split; [rewrite lookup_insert_ne by congruence; rewrite lookup_insert; apply Z.eqb_refl|].
  split; [rewrite lookup_insert; apply Z.eqb_refl|].
  split; [rewrite lookup_insert_ne by lia; rewrite lookup_insert; reflexivity|].
  split; [rewrite lookup_insert; reflexivity|]. cbn.
  split; [exact (bind_inner_loc _ _ _ _ _ _ B1 eq_refl)|]. split; [reflexivity|]. split; [exact (bind_inner_loc _ _ _ _ _ _ B2 eq_refl)|reflexivity].
Qed.
Lemma int_at_stored m p v : 0 <= v < 1024 -> load m p 4 = le 4 v -> int_at m p = v.
Proof. intros V L. unfold int_at. rewrite <- load4, L, of_le_le by (change (256 ^ Z.of_nat 4) with 4294967296; lia). unfold signed. change (2 ^ (32 - 1)) with 2147483648. replace (v <? 2147483648) with true by lia. reflexivity. Qed.
Lemma neg_stored m p : load m p 4 = le 4 (err ENFILE) -> int_at m p < 0.
Proof. intros L. unfold int_at. rewrite <- load4, L. vm_compute. reflexivity. Qed.
Lemma pair_neg n c d t pr n' f1 f2 : step n c (Socketpair d t pr) = Go n' (Pair f1 f2) -> 0 <= f2 \/ f2 = err ENFILE.
Proof.
  cbn [step]. intros H. unfold socketpair_call in H.
  destruct (negb (d =? AF_UNIX)); [discriminate H|]. destruct (negb _ || _); [discriminate H|]. destruct (negb _); [discriminate H|].
  destruct (match next_fd (alloc_sock _ _) c 0 with Some k => _ | None => _ end) as [nb g1].
  destruct (next_fd nb c 0) as [k2|] eqn:N2; destruct (bind_inner _ _ _) as [[s1 nd] r1]; destruct (bind_inner _ _ nd) as [[s2 ne] r2];
      (destruct (s_ui s1); [|discriminate H]); (destruct (s_ui s2); [|discriminate H]); (destruct (ino_ref _ _ _); [|discriminate H]); (destruct (ino_ref _ _ _); [|discriminate H]);
      injection H as _ _ <-; [left; destruct (next_fd_free _ _ _ _ N2); lia|right; reflexivity].
Qed.
Lemma pair_tells s c a late s1 : reachable (s_n s) -> bytes_only (s_m s) -> Forall is_word (words a) ->
  enter s c 49 a late = Rep s1 (Some 0) -> 0 <= int_at (s_m s1) (a4 a + 4) ->
  let k1 := int_at (s_m s1) (a4 a) in let k2 := int_at (s_m s1) (a4 a + 4) in
  exists h1 h2 p1 p2, h1 <> h2 /\ opens (s_n s1) c k1 h1 = true /\ opens (s_n s1) c k2 h2 = true /\
    tells s1 c 144 k1 p1 /\ tells s1 c 145 k1 p2 /\ tells s1 c 144 k2 p2 /\ tells s1 c 145 k2 p1.
Proof.
  intros R B W H. pose proof (enter_reach _ _ _ _ _ _ _ R H) as R1.
  destruct (enter_good s c 49 a late s1 0 H) as (o & d & n' & x & F & _ & _ & S & -> & E); [discriminate|discriminate|lia|].
  inversion F as [? ? N| | | | | | |dd t p| | ]; subst; [exfalso; apply N; repeat (apply elem_of_cons; first [left; reflexivity|right])|lia|].
  destruct (pair_shape _ _ _ _ _ _ _ S) as [(r & -> & E1)|(f1 & f2 & ->)].
  { cbn [returned] in E. injection E as ->. cbn [step] in S. unfold socketpair_call in S.
    destruct (negb _); [discriminate S|]. destruct (negb _ || _); [discriminate S|]. destruct (negb _); [discriminate S|].
    destruct (match next_fd _ c 0 with Some k => _ | None => _ end) as [nb g1]. destruct (match next_fd nb c 0 with Some k => _ | None => _ end) as [nc g2].
    destruct (bind_inner _ _ _) as [[s1 nd] r1]; destruct (bind_inner _ _ nd) as [[s2 ne] r2].
    destruct (s_ui s1); [|discriminate S]. destruct (s_ui s2); [|discriminate S]. destruct (ino_ref _ _ _); [|discriminate S]. destruct (ino_ref _ _ _); discriminate S. }
  cbn [s_m s_n deliver].
  assert (L1 : load (store (s_m s) (a4 a) (le 4 f1 ++ le 4 f2)) (a4 a) 4 = le 4 f1).
  { pose proof (load_store (s_m s) (a4 a) (le 4 f1 ++ le 4 f2) 0 4) as Q. rewrite Z.add_0_r in Q. rewrite Q by (rewrite app_length, !length_le; lia).
    rewrite drop_0. rewrite take_app_alt by (rewrite length_le; reflexivity). reflexivity. }
  assert (L2 : load (store (s_m s) (a4 a) (le 4 f1 ++ le 4 f2)) (a4 a + 4) 4 = le 4 f2).
  { pose proof (load_store (s_m s) (a4 a) (le 4 f1 ++ le 4 f2) 4 4) as Q. change (Z.of_nat 4) with 4 in Q. rewrite Q by (rewrite app_length, !length_le; lia).
    rewrite drop_app_alt by (rewrite length_le; reflexivity). apply take_ge. rewrite length_le. lia. }
  intros P. destruct (pair_neg _ _ _ _ _ _ _ _ S) as [P2| ->].
  2:{ pose proof (neg_stored _ _ L2). lia. }
  destruct (pair_names _ _ _ _ _ _ _ _ (reach_inv _ R) S P2) as (Q1 & Q2 & _ & h1 & h2 & t1 & t2 & l1 & l2 & NE & O1 & O2 & T1 & T2 & A1 & A2 & A3 & A4).
  rewrite (int_at_stored _ _ _ Q1 L1), (int_at_stored _ _ _ Q2 L2). cbn zeta.
  exists h1, h2, (path_of l1), (path_of l2). split; [exact NE|]. split; [exact O1|]. split; [exact O2|].
  split; [apply (local_name _ c f1 h1 l1 R1 O1); exists t1; auto|]. split; [exact (peer_name _ c f1 h1 t1 l2 R1 O1 T1 A2)|].
  split; [apply (local_name _ c f2 h2 l2 R1 O2); exists t2; auto|]. exact (peer_name _ c f2 h2 t2 l1 R1 O2 T2 A4).
Qed.

(** Accept *)
Lemma accept_names n c fd n' k r : step n c (Accept fd) = Go n' (Ret k) -> serves n c (Accept fd) (Ret k) = [r] ->
  exists l q, n_pend n !! l = Some q /\ q_req q = r /\ next_fd n c 0 = Some k /\
    (exists h0, opens n c fd h0 = true /\ bound_to n h0 l) /\
    exists h' fl' t, n_fds n' !! (c, k) = Some (DSock h' fl') /\ n_sock n' !! h' = Some t /\ s_rem t = Some (q_from q) /\ s_loc t = Some l.
Proof.
  intros H S. cbn [step] in H. cbn [serves] in S. unfold accept_call in H.
  destruct (in_range fd); [|discriminate H]. cbn [negb] in H.
  destruct (n_fds n !! (c, fd)) as [[h fl| | | |]|] eqn:Hd; try discriminate S.
  destruct (n_sock n !! h) as [s|] eqn:Hs; [|discriminate S].
  destruct (s_loc s) as [l|] eqn:Hl; [|discriminate S].
  destruct (n_pend n !! l) as [q|] eqn:Hq; [|discriminate S].
  destruct (negb (k =? fd) && (0 <=? k)) eqn:Hk; [|discriminate S].
  exists l, q. split; [done|]. split; [by injection S as ->|]. clear S.
  destruct (next_fd n c 0) as [j|] eqn:Ej; [|injection H as _ <-; rewrite Z.eqb_refl in Hk; discriminate Hk].
  destruct (negb (bool_decide _)); [injection H as _ <-; rewrite andb_false_r in Hk; discriminate Hk|].
  destruct (bool_decide (q_cond q = Some false)); [discriminate H|].
  assert (BD : exists h0, opens n c fd h0 = true /\ bound_to n h0 l).
  { exists h. unfold opens. rewrite Hd. split; [apply Z.eqb_refl|]. exists s. auto. }
  set (n1 := set_pend (delete l) n) in *.
  set (n2 := if bool_decide (q_cond q = Some true) then _ else n1) in *.
  destruct (n_names n !! q_from q) as [[i|]|].
  - destruct (s_ui s); [|discriminate H].
    destruct (ino_ref 1 i n2) as [n3|] eqn:Ei; [|discriminate H]. injection H as <- <-.
    assert (n_nsock n3 = n_nsock n2) as E3.
    { unfold ino_ref in Ei. splitgo Ei. by injection Ei as <-. }
    split; [done|]. split; [done|]. do 3 eexists. cbn. rewrite E3, !lookup_insert. split_and!; done.
  - destruct (s_ui s); [|discriminate H]. injection H as <- <-.
    split; [done|]. split; [done|]. do 3 eexists. cbn. rewrite !lookup_insert. split_and!; done.
  - injection H as <- <-.
    split; [done|]. split; [done|]. do 3 eexists. cbn. rewrite !lookup_insert. split_and!; done.
Qed.
Lemma accept_tells s0 c a0 late0 fd path0 h s1 y l s ys c2 a late fd2 s' k :
  reachable (s_n s0) -> bytes_only (s_m s0) -> Forall is_word (words a0) ->
  int_word (a1 a0) fd -> address_at (s_m s0) (a2 a0) (a3 a0) path0 -> local_path path0 -> opens (s_n s0) c fd h = true ->
  enter s0 c 38 a0 late0 = Rep s1 y -> y = Some 0 \/ y = None -> acts s1 l = Some (s, ys) ->
  bytes_only (s_m s) -> Forall is_word (words a) -> int_word (a1 a) fd2 -> a2 a <> 0 -> a3 a <> 0 ->
  enter s c2 40 a late = Rep s' (Some k) -> serves (s_n s) c2 (Accept fd2) (Ret k) = [n_req (s_n s0)] ->
  exists path path', written (s_m s) (s_m s') (a2 a) (a3 a) path /\ tells s' c2 145 k path /\ tells s' c2 144 k path' /\
    (forall c3 fd3, opens (s_n s) c3 fd3 h = true -> tells s c3 144 fd3 path) /\ tells s c2 144 fd2 path'.
Proof.
  intros R0 B0 W0 If Ad Lp O H0 Y A B W If2 N2 N3 H Se.
  pose proof (enter_reach _ _ _ _ _ _ _ R0 H0) as R1. pose proof (reached _ _ _ _ R1 A) as R. pose proof (enter_reach _ _ _ _ _ _ _ R H) as R'.
  (* the connect *)
  unfold enter in H0. rewrite (asks_decode _ _ _ _ _ B0 W0 (as_connect _ _ late0 _ _ If Ad Lp)) in H0. cbn [perform foreign] in H0.
  destruct (step (s_n s0) c (Connect fd (called path0))) as [n1 x| |] eqn:S0; [|exfalso|discriminate H0].
  2:{ cbn [step] in S0. unfold connect_call, on_sock in S0. destruct (negb _); [discriminate S0|]. destruct (n_fds _ !! _) as [[]|]; try discriminate S0.
      destruct (n_sock _ !! _); [|discriminate S0]. destruct (negb _); [discriminate S0|]. destruct (auto_bind _ _). destruct (negb _); [discriminate S0|].
      destruct (s_ui _); [|discriminate S0]. destruct (s_loc _); discriminate S0. }
  injection H0 as <- E0. rewrite <- E0 in Y. destruct (connect_rem _ _ _ _ _ _ _ S0 Y O) as (X & _ & _).
  assert (Is : issues (s_n s0) c (Connect fd (called path0)) x = [n_req (s_n s0)]) by (destruct X as [->| ->]; reflexivity).
  destruct (reach_hist _ R0) as (Sh & Ih & Rh & Hh).
  destruct (connect_only (s_n s0) c fd (called path0) n1 x (n_req (s_n s0)) h) as (q & t & Eq & K & Hs & Hl & _); [|exact S0|exact Is|exact O|].
  { right. intros l0 q Hq. destruct (h_pi _ _ _ _ Hh _ _ Hq) as [F _]. by apply (h_iss _ _ _ _ Hh). }
  destruct (acts_run _ _ _ _ A) as (l' & xs & Rn). cbn [s_n] in Rn.
  destruct (run_only_as _ _ _ _ _ K Rn) as [_ K2].
  (* the accept *)
  assert (Ak : asks (s_m s) a late 40 (Accept fd2)) by (apply as_accept; [exact If2|tauto]).
  destruct (asked _ _ _ _ _ _ _ _ B W Ak H) as (_ & n' & x' & S & -> & E).
  assert (x' = Ret k) as -> by (destruct (accept_shape _ _ _ _ _ S) as (r & ->); cbn in E; congruence).
  destruct (accept_names _ _ _ _ _ _ S Se) as (l0 & q' & P & E' & Nx & (h0 & O0 & Bd0) & h' & fl' & t' & Hd' & Ht' & Hr' & Hl').
  destruct (K2 _ _ P) as (_ & F2 & _); [congruence|].
  exists (path_of (q_from q)), (path_of l0).
  assert (O' : opens n' c2 k h' = true) by (unfold opens; rewrite Hd'; apply Z.eqb_refl).
  destruct (next_fd_free _ _ _ _ Nx) as (_ & Rk).
  split; [|split; [|split; [|split]]].
  - cbn [s_m]. unfold where_to. replace (a2 a =? 0) with false by lia. cbn [deliver]. replace (0 <=? k) with true by lia.
    unfold accepted_addr. rewrite Nx, Hd', Ht', Hr', F2. apply copied, length_path.
  - rewrite <- F2. exact (peer_name (St n' _) c2 k h' t' _ R' O' Ht' Hr').
  - apply (local_name (St n' _) c2 k h' l0 R' O'). exists t'. auto.
  - intros c3 fd3 O3. apply (local_name s c3 fd3 h _ R O3). apply (run_local _ _ _ _ h _ (reach_inv _ R1) Rn). exists t. auto.
  - exact (local_name s c2 fd2 h0 l0 R O0 Bd0).
Qed.

(** ** Decoding *)
Lemma clock_crash s c a late k : bytes_only (s_m s) -> Forall is_word (words a) -> int_word (a1 a) k -> 0 <= k -> ~ clock_ok (s_m s) (a5 a) -> enter s c 46 a late = Crash.
Proof.
  intros B W Ik K N. unfold enter, decode. cbn [Z.eqb Pos.eqb]. rewrite (int_word_ok _ _ Ik). cbn [arg]. replace (k <? 0) with false by lia.
  pose proof (timeval_spec (s_m s) (a5 a) B) as T. destruct (timeval (s_m s) (a5 a)) as [t|]; [destruct T as [T _]; contradiction|reflexivity].
Qed.
Lemma called_inj path path' : length path = 108%nat -> length path' = 108%nat -> Forall is_byte path -> Forall is_byte path' -> called path = called path' -> path = path'.
Proof. intros L L' F F' E. rewrite <- (path_called path L F), <- (path_called path' L' F'), E. reflexivity. Qed.
