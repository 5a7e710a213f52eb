(** Proofs about quick_read and quick_write, sync_file_range and ioctl. *)
From stdpp Require Import gmap.
From Verif Require Import Base ErrnoModel FsModel FsSpec Count FsNames FsTr FsInv FsInv2 FsSteps FsWinv FsReachSpec FsReach AbiModel AbiSpec AbiProofs EntryModel EntrySpec EntryProofs2 NetModel WireModel WireProofs6 DirectModel DirectSpec.
Local Open Scope list_scope.
Local Open Scope Z_scope.

Lemma int_ok fd : is_int fd -> get_int (fd mod 2 ^ 32) = Ok fd.
Proof.
  intros H. pose proof (conv_ok (fun _ => 0) AInt (fd mod 2 ^ 32) (Num fd) (st_int _ fd H)) as E. unfold conv, numb in E.
  destruct (get_int (fd mod 2 ^ 32)) eqn:G; [congruence|discriminate E].
Qed.
Lemma uint_ok v : is_uint v -> get_uint v = Ok v.
Proof.
  intros H. pose proof (conv_ok (fun _ => 0) AUint v (Num v) (st_uint _ v H)) as E. unfold conv, numb in E.
  destruct (get_uint v) eqn:G; [congruence|discriminate E].
Qed.
Lemma long_ok v : is_long v -> get_long (v mod 2 ^ 64) = Ok v.
Proof.
  intros H. pose proof (conv_ok (fun _ => 0) ALong (v mod 2 ^ 64) (Num v) (st_long _ v H)) as E. unfold conv, numb in E.
  destruct (get_long (v mod 2 ^ 64)) eqn:G; [congruence|discriminate E].
Qed.
Lemma ptr_ok p : p <> 0 -> get_ptr p = Ok p.
Proof. intros H. unfold get_ptr. destruct (Z.eqb_spec p 0); [contradiction|reflexivity]. Qed.

(** ** Quick calls *)
Lemma fact_same s x : proper x -> fact_step s x = fact_step s (by_dispatcher x).
Proof.
  destruct x; cbn [proper by_dispatcher fact_step EntryModel.act_step]; intros P; try reflexivity; destruct P as [I N];
    unfold EntryModel.enter, EntryModel.decode, EntryModel.int, EntryModel.ptr, EntryModel.size, get_ulong; cbn [a1 a2 a3];
    rewrite int_ok, ptr_ok by assumption; reflexivity.
Qed.
Lemma facts_same l : forall s, Forall proper l -> facts s l = facts s (map by_dispatcher l).
Proof.
  induction l as [|x l IH]; intros s H; [reflexivity|]. apply Forall_cons in H as [P H]. cbn [map facts]. rewrite <- (fact_same s x P).
  destruct (fact_step s x) as [[s1 y]|]; [|reflexivity]. rewrite (IH s1 H). reflexivity.
Qed.
Lemma nact_same s x : proper_n x -> nact_step s x = nact_step s (by_dispatcher_n x).
Proof.
  destruct x; cbn [proper_n by_dispatcher_n nact_step WireModel.act_step]; intros P; try reflexivity; destruct P as [I N];
    unfold WireModel.enter, WireModel.decode, get_ulong; cbn [a1 a2 a3];
    rewrite int_ok, ptr_ok by assumption; reflexivity.
Qed.
Lemma nacts_same l : forall s, Forall proper_n l -> nacts s l = nacts s (map by_dispatcher_n l).
Proof.
  induction l as [|x l IH]; intros s H; [reflexivity|]. apply Forall_cons in H as [P H]. cbn [map nacts]. rewrite <- (nact_same s x P).
  destruct (nact_step s x) as [s1 y| |]; [|reflexivity..]. rewrite (IH s1 H). reflexivity.
Qed.

(** ** sync_file_range *)
Lemma errno_known e : (exists i, from_discriminant e = Some i /\ discriminant i = e) /\ errno e \/ from_discriminant e = None /\ ~ errno e.
Proof.
  assert (A : forallb (fun e => match from_discriminant e with Some i => (discriminant i =? e) && negb (e =? 41) && negb (e =? 58) | None => (e =? 41) || (e =? 58) end) (seqZ 1 131) = true) by (vm_compute; reflexivity).
  destruct (decide (1 <= e <= 131)) as [R|R].
  - rewrite forallb_forall in A. specialize (A e ltac:(apply elem_of_list_In, elem_of_seqZ; lia)). unfold errno.
    destruct (from_discriminant e) as [i|].
    + left. split; [exists i; split; [reflexivity|]; lia|lia].
    + right. split; [reflexivity|lia].
  - right. split; [|unfold errno; lia]. destruct (from_discriminant e) as [i|] eqn:E; [|reflexivity]. exfalso. apply R.
    clear A R. unfold from_discriminant in E. repeat (match type of E with context [match ?x with _ => _ end] => destruct x end; try discriminate E; try lia).
Qed.
Lemma mask7 fl : 0 <= fl -> (Z.land fl (Z.lnot SYNC_FLAGS) =? 0) = (fl <? 8).
Proof.
  intros H. change (Z.land fl (Z.lnot SYNC_FLAGS)) with (Z.land fl (Z.lnot (Z.ones 3))).
  rewrite <- Z.ldiff_land, Z.ldiff_ones_r by lia. rewrite Z.shiftr_div_pow2, Z.shiftl_mul_pow2 by lia. change (2 ^ 3) with 8.
  destruct (Z.ltb_spec fl 8); [rewrite Z.div_small by lia; reflexivity|]. apply Z.eqb_neq. pose proof (Z.div_le_lower_bound fl 8 1). lia.
Qed.
Lemma sync_sound w c fd off n fl kern r : 0 <= fl -> sync_range w c fd off n fl kern = Done r -> 0 <= fd < 1024 /\ sync_answer w c fd off n fl kern r.
Proof.
  intros F H. unfold sync_range, fd_slot, in_fd_range, MAXFD in H. destruct (Z.leb_spec 0 fd); cbn [andb] in H; [|discriminate H].
  destruct (Z.ltb_spec fd 1024); cbn [obind] in H; [|discriminate H]. split; [lia|].
  destruct (w_fds w !! (c, fd)) as [d|] eqn:D; [|injection H as <-; apply sy_other; intros; rewrite D; discriminate].
  destruct d as [i pos f| | |]; try (injection H as <-; apply sy_other; intros; rewrite D; discriminate).
  unfold get_ino in H. destruct (w_ino w !! i) as [x|] eqn:X; cbn [obind] in H; [|discriminate H].
  destruct (i_kind x) eqn:K; try (injection H as <-; apply sy_special; exists i, pos, f, x; repeat split; auto; congruence).
  destruct (w_fobj w !! i); [|discriminate H]. rewrite mask7 in H by exact F.
  assert (R : on_regular w c fd i) by (exists pos, f, x; auto).
  destruct (Z.ltb_spec fl 8); cbn [negb] in H; [|injection H as <-; eapply sy_flags; eauto].
  destruct (Z.eqb_spec (kern i off n fl) 0) as [E|E].
  - injection H as <-. replace 0 with (- kern i off n fl) by lia. eapply sy_kernel; eauto.
  - unfold kernel_error in H. destruct (errno_known (kern i off n fl)) as [[(j & J1 & J2) K1]|[J _]]; [|rewrite J in H; discriminate H].
    rewrite J1 in H. injection H as <-. rewrite J2. eapply sy_kernel; eauto.
Qed.
Lemma answer_fun w c fd off n fl kern r r' : sync_answer w c fd off n fl kern r -> sync_answer w c fd off n fl kern r' -> r = r'.
Proof.
  intros H H'. unfold on_regular, on_special in *.
  destruct H as [A|(i & p & f & x & A & B & C)|i (p & f & x & A & B & C) D|i (p & f & x & A & B & C) D E];
  destruct H' as [A'|(i' & p' & f' & x' & A' & B' & C')|i' (p' & f' & x' & A' & B' & C') D'|i' (p' & f' & x' & A' & B' & C') D' E'];
    try reflexivity; try (exfalso; eapply A; eassumption); try (exfalso; eapply A'; eassumption);
    rewrite A' in A; injection A as -> -> ->; rewrite B' in B; injection B as ->; try contradiction; try lia; reflexivity.
Qed.
Lemma reach_file disp w c fd i pos fl : reach disp w -> w_fds w !! (c, fd) = Some (FFile i pos fl) ->
  exists x, w_ino w !! i = Some x /\ (i_kind x = KFile -> is_Some (w_fobj w !! i)).
Proof.
  intros R E. pose proof (reach_winv _ _ R) as Hw. destruct (u_inv _ Hw) as [Hn Hrr Hdd Hpp]. cbn in *.
  destruct (r_fd _ _ Hrr _ _ _ _ E) as [x Hx]. exists x. split; [exact Hx|]. intros Hk.
  destruct (inv_file w i x (u_inv _ Hw) Hx Hk) as (Hf & b & Hb & Hl).
  destruct (r_ref _ _ Hrr _ _ Hx) as [Hr1 _]. rewrite Hk in Hr1. destruct (Hr1 ltac:(discriminate)) as [Hr2 _].
  assert (0 < nfds (w_fds w) i). { apply cnt_pos. exists (c, fd), (FFile i pos fl). split; [exact E|]. unfold onfile. cbn. apply Z.eqb_refl. }
  rewrite Hf. destruct (Z.ltb_spec 0 (i_ref x)); [eauto|lia].
Qed.
Lemma sync_total disp w c fd off n fl kern : reach disp w -> 0 <= fd < 1024 -> 0 <= fl ->
  (forall i, on_regular w c fd i -> kern i off n fl = 0 \/ errno (kern i off n fl)) -> exists r, sync_range w c fd off n fl kern = Done r.
Proof.
  intros R I F K. unfold sync_range, fd_slot, in_fd_range, MAXFD. destruct (Z.leb_spec 0 fd); [|lia]. destruct (Z.ltb_spec fd 1024); [|lia]. cbn [andb obind].
  destruct (w_fds w !! (c, fd)) as [[i pos f| | |]|] eqn:D; try (eexists; reflexivity).
  destruct (reach_file _ _ _ _ _ _ _ R D) as (x & X & O). unfold get_ino. rewrite X. cbn [obind].
  destruct (i_kind x) eqn:E; try (eexists; reflexivity). destruct (O eq_refl) as [z ->].
  destruct (negb _); [eexists; reflexivity|]. destruct (Z.eqb_spec (kern i off n fl) 0); [eexists; reflexivity|].
  destruct (K i) as [|J]; [exists pos, f, x; auto|contradiction|]. unfold kernel_error.
  destruct (errno_known (kern i off n fl)) as [[(j & -> & _) _]|[_ N]]; [eexists; reflexivity|contradiction].
Qed.
Lemma enter_sync_words s c a kern cwd fd off n fl : w_cwd (s_w s) !! c = Some cwd -> sync_words a fd off n fl ->
  enter_sync s c a kern = do r <- sync_range (s_w s) c fd off n fl kern; Done (s, Some r).
Proof.
  intros C (I & L & L' & U & E1 & E2 & E3 & E4). unfold enter_sync. rewrite C, E1, E2, E3, E4, int_ok, !long_ok, uint_ok by assumption. reflexivity.
Qed.
Lemma sync_frame s c a kern s' r : enter_sync s c a kern = Done (s', r) -> s' = s.
Proof.
  unfold enter_sync. destruct (w_cwd (s_w s) !! c); [|discriminate].
  destruct (get_int (a1 a)); [|congruence]. destruct (get_long (a2 a)); [|congruence]. destruct (get_long (a3 a)); [|congruence]. destruct (get_uint (a4 a)); [|congruence].
  destruct (sync_range _ _ _ _ _ _ _); cbn [obind]; [congruence|discriminate].
Qed.
Lemma sync_refused s c a kern cwd r : w_cwd (s_w s) !! c = Some cwd -> Forall is_word (words a) ->
  first_bad (EntryModel.s_m s) [AInt; ALong; ALong; AUint] (words a) r -> r = -22 /\ enter_sync s c a kern = Done (s, Some r).
Proof.
  intros C W (k & vs & t & w & T & Nt & Nw & Rf). apply Forall_cons in W as [W1 W]. apply Forall_cons in W as [W2 W]. apply Forall_cons in W as [W3 W]. apply Forall_cons in W as [W4 _].
  unfold enter_sync. rewrite C.
  pose proof (get_int_cases _ W1) as C1. pose proof (get_uint_cases _ W4) as C4.
  destruct (get_long_cases _ W2) as (v2 & -> & _). destruct (get_long_cases _ W3) as (v3 & -> & _).
  destruct k as [|[|[|[|k]]]]; cbn in Nt, Nw; try (injection Nt as <-); try (injection Nw as <-); try (inversion Rf; fail).
  - inversion Rf; subst. destruct (get_int (a1 a)) as [v|v]; [destruct C1 as [_ E]; pose proof (Z.mod_pos_bound v (2 ^ 32)); lia|]. destruct C1 as [_ ->]. auto.
  - inversion Rf; subst. destruct (get_int (a1 a)) as [v|v]; [|destruct C1 as [_ ->]; auto].
    destruct (get_uint (a4 a)) as [u|u]; [destruct C4 as [U E]; unfold is_uint in U; lia|]. destruct C4 as [_ ->]. auto.
  - destruct k; discriminate Nt.
Qed.

(** ** ioctl *)
Lemma bytes_nonzero m p : bytes_only m -> to_i32 (of_le (load m p 4)) = 0 <-> ~ nonzero m p.
Proof.
  intros B. unfold load. cbn [seq map of_le]. change (Z.of_nat 0) with 0. change (Z.of_nat 1) with 1. change (Z.of_nat 2) with 2. change (Z.of_nat 3) with 3.
  pose proof (B (p + 0)) as B0. pose proof (B (p + 1)) as B1. pose proof (B (p + 2)) as B2. pose proof (B (p + 3)) as B3. unfold is_byte in *.
  unfold to_i32, wrap_u. rewrite Z.mod_small by lia. cbv zeta. split.
  - intros H (k & K & N). assert (k = 0 \/ k = 1 \/ k = 2 \/ k = 3) as [->|[->|[->| ->]]] by lia; destruct (Z.ltb_spec (m (p + 0) + 256 * (m (p + 1) + 256 * (m (p + 2) + 256 * (m (p + 3) + 256 * 0)))) (2 ^ 31)); lia.
  - intros H. assert (Q : forall k, 0 <= k < 4 -> m (p + k) = 0). { intros k K. destruct (decide (m (p + k) = 0)); [assumption|]. exfalso. apply H. exists k. auto. }
    rewrite !Q by lia. reflexivity.
Qed.
Lemma other_answer m req p (open sock : Prop) : open -> (req = 21537 -> p <> 0 -> ~ sock) -> ioctl_answer m open sock req p (ioctl_other m req p).
Proof.
  intros O N. unfold ioctl_other, ioctl_int. destruct (Z.eqb_spec req FIONBIO) as [E|E].
  - destruct (Z.eqb_spec p 0); [exact (io_null _ _ _ _ _ O E e)|]. exact (io_other _ _ _ _ _ O E n (N E n)).
  - destruct (Z.eqb_spec req FIOASYNC) as [E'|E']; [exact (io_async _ _ _ _ _ O E')|exact (io_unknown _ _ _ _ _ O E E')].
Qed.
Lemma nonblock_bit fl : nonblock fl = Z.testbit fl 11.
Proof.
  unfold nonblock, hasbit. change O_NONBLOCK with (2 ^ 11). destruct (Z.testbit fl 11) eqn:T.
  - apply negb_true_iff, Z.eqb_neq. intros E. assert (Z.testbit (Z.land fl (2 ^ 11)) 11 = false) by (rewrite E; apply Z.bits_0). rewrite Z.land_spec, T, Z.pow2_bits_true in H by lia. discriminate H.
  - apply negb_false_iff, Z.eqb_eq. apply Z.bits_inj'. intros k K. rewrite Z.land_spec, Z.bits_0. destruct (decide (k = 11)) as [->|]; [rewrite T; reflexivity|]. rewrite Z.pow2_bits_false by lia. apply andb_false_r.
Qed.
Lemma switched_on fl : switched fl true (Z.lor fl O_NONBLOCK).
Proof.
  change O_NONBLOCK with (2 ^ 11). split; [rewrite Z.lor_spec, Z.pow2_bits_true by lia; apply orb_true_r|].
  intros k K N. rewrite Z.lor_spec, Z.pow2_bits_false by lia. apply orb_false_r.
Qed.
Lemma switched_off fl : switched fl false (Z.land fl (Z.lnot O_NONBLOCK)).
Proof.
  change O_NONBLOCK with (2 ^ 11). split; [rewrite Z.land_spec, Z.lnot_spec, Z.pow2_bits_true by lia; apply andb_false_r|].
  intros k K N. rewrite Z.land_spec, Z.lnot_spec, Z.pow2_bits_false by lia. apply andb_true_r.
Qed.
Lemma ioctl_net_cases n m c fd req p : bytes_only m -> match ioctl_net n m c fd req p with
  | Dies => ~ 0 <= fd < 1024
  | Block => False
  | Go n' x => 0 <= fd < 1024 /\ (exists r, x = NetModel.Ret r /\ ioctl_answer m (is_Some (n_fds n !! (c, fd))) (a_socket n c fd) req p r) /\
      (n' = n /\ (req <> 21537 \/ p = 0 \/ ~ a_socket n c fd) \/
       exists h fl fl' on, req = 21537 /\ p <> 0 /\ n_fds n !! (c, fd) = Some (DSock h fl) /\ (on = true <-> nonzero m p) /\ switched fl on fl' /\ only_flags n n' c fd h fl')
  end.
Proof.
  intros B. unfold ioctl_net, in_range, MAXFD. destruct (Z.leb_spec 0 fd); cbn [andb negb]; [|lia]. destruct (Z.ltb_spec fd 1024); cbn [negb]; [|lia].
  unfold a_socket. destruct (n_fds n !! (c, fd)) as [d|] eqn:D.
  2:{ split; [lia|]. split; [eexists; split; [reflexivity|]; apply io_closed; intros [? E]; discriminate E|]. left. split; [reflexivity|]. right. right. intros (h & fl & E). discriminate E. }
  assert (O : is_Some (Some d)) by eauto.
  destruct (Z.eqb_spec req FIONBIO) as [E|E].
  2:{ split; [lia|]. split; [eexists; split; [reflexivity|]; apply other_answer; [exact O|]; intros F; contradiction|]. left. auto. }
  unfold ioctl_int. destruct (Z.eqb_spec p 0) as [P|P].
  { split; [lia|]. split; [eexists; split; [reflexivity|]; exact (io_null _ _ _ _ _ O E P)|]. left. auto. }
  cbn [step]. unfold ioctl_call, in_range, MAXFD. destruct (Z.leb_spec 0 fd); [|lia]. destruct (Z.ltb_spec fd 1024); [|lia]. cbn [andb negb]. rewrite D.
  destruct d as [h fl| | | |].
  2-5: (split; [lia|]; split; [eexists; split; [reflexivity|]; apply (io_other _ _ _ _ _ O E P); intros (h' & fl' & E'); discriminate E'|]; left; split; [reflexivity|]; right; right; intros (h' & fl' & E'); discriminate E').
  split; [lia|]. split; [eexists; split; [reflexivity|]; apply io_sock; eauto|]. right.
  destruct (Z.eqb_spec (to_i32 (of_le (load m p 4))) 0) as [V|V].
  all: cbn [negb].
  - exists h, fl, (Z.land fl (Z.lnot O_NONBLOCK)), false. repeat (split; [solve [auto]|]). split; [|split; [apply switched_off|reflexivity]].
    split; [discriminate|]. intros N. exfalso. exact (proj1 (bytes_nonzero m p B) V N).
  - exists h, fl, (Z.lor fl O_NONBLOCK), true. repeat (split; [solve [auto]|]). split; [|split; [apply switched_on|reflexivity]].
    split; [|reflexivity]. intros _. destruct (decide (Exists (fun k => m (p + k) <> 0) [0; 1; 2; 3])) as [X|X].
    + apply Exists_exists in X as (k & K & X). exists k. split; [|exact X]. repeat (apply elem_of_cons in K as [->|K]; [lia|]). inversion K.
    + exfalso. apply V, (bytes_nonzero m p B). intros (k & K & N). apply X, Exists_exists. exists k. split; [|exact N].
      assert (k = 0 \/ k = 1 \/ k = 2 \/ k = 3) as [->|[->|[->| ->]]] by lia; repeat constructor.
Qed.
Lemma ioctl_fun m open sock req p r r' : ioctl_answer m open sock req p r -> ioctl_answer m open sock req p r' -> r = r'.
Proof. intros H H'. destruct H, H'; try reflexivity; try contradiction; exfalso; lia. Qed.
Lemma enter_ioctl_words s c a fd req p : ioctl_words a fd req p ->
  enter_ioctl s c a = match ioctl_net (s_n s) (WireModel.s_m s) c fd req p with
                      | Go n' x => Rep (WireModel.St n' (WireModel.s_m s)) (returned x) | Block => Rep s None | Dies => Crash end.
Proof. intros (I & U & E1 & E2 & E3). unfold enter_ioctl. rewrite E1, E2, E3, int_ok, uint_ok by assumption. reflexivity. Qed.
Lemma enter_ioctl_fs_words s c a cwd fd req p : w_cwd (s_w s) !! c = Some cwd -> ioctl_words a fd req p ->
  enter_ioctl_fs s c a = do r <- ioctl_fs (s_w s) (EntryModel.s_m s) c fd req p; Done (s, Some r).
Proof. intros C (I & U & E1 & E2 & E3). unfold enter_ioctl_fs. rewrite C, E1, E2, E3, int_ok, uint_ok by assumption. reflexivity. Qed.
Lemma ioctl_fs_cases w m c fd req p : match ioctl_fs w m c fd req p with
  | Panic => ~ 0 <= fd < 1024
  | Done r => 0 <= fd < 1024 /\ ioctl_answer m (is_Some (w_fds w !! (c, fd))) False req p r
  end.
Proof.
  unfold ioctl_fs, fd_slot, in_fd_range, MAXFD. destruct (Z.leb_spec 0 fd); cbn [andb obind]; [|lia]. destruct (Z.ltb_spec fd 1024); cbn [obind]; [|lia].
  destruct (w_fds w !! (c, fd)) as [d|] eqn:D; (split; [lia|]).
  - apply other_answer; [eauto|auto].
  - apply io_closed. intros [? E]. discriminate E.
Qed.

(** O_NONBLOCK and the calls that move data *)
Lemma write_wait x bs nb : (nb = true -> pipe_write x bs nb <> inr tt /\ forall x' k, pipe_write x bs nb <> inl (x', More k)) /\
  (nb = false -> forall x', pipe_write x bs nb <> inl (x', NetModel.Ret (err EAGAIN))).
Proof.
  unfold pipe_write. cbv zeta. split; intros ->.
  - destruct (_ =? 0); [split; [discriminate|congruence]|]. destruct (p_nr x =? 0); [split; [discriminate|congruence]|]. destruct (room x <? PIPE_BUF); [split; [discriminate|congruence]|].
    rewrite orb_true_r. split; [discriminate|congruence].
  - intros x'. assert (err EAGAIN = -11) as -> by reflexivity. destruct (Z.eqb_spec (Z.of_nat (length bs)) 0); [injection 1 as _ E; discriminate E|]. destruct (p_nr x =? 0); [injection 1 as _ E; discriminate E|].
    destruct (Z.ltb_spec (room x) PIPE_BUF); [discriminate|]. rewrite orb_false_r. unfold PIPE_BUF in *.
    destruct (_ =? _); [|discriminate]. injection 1 as _ E. lia.
Qed.
Lemma read_wait x k nb : (nb = true -> pipe_read x k nb <> inr tt) /\ (nb = false -> pipe_read x k nb <> inl None).
Proof. unfold pipe_read. split; intros ->; destruct (k =? 0); try discriminate; destruct (p_buf x); try discriminate; destruct (p_nw x =? 0); discriminate. Qed.
Lemma send_wait n h fl s bs :
  (nonblock fl = true -> send_sock n h fl s bs <> Block /\ forall n' k, send_sock n h fl s bs <> Go n' (More k)) /\
  (nonblock fl = false -> forall n', send_sock n h fl s bs <> Go n' (NetModel.Ret (err EAGAIN))).
Proof.
  unfold send_sock. destruct (negb _); [split; [split; [discriminate|congruence]|intros _ n' E; injection E as _ E; discriminate E]|].
  destruct (s_ui s) as [u|]; [|split; [split; discriminate|discriminate]].
  destruct (u_send u) as [p|]; [|split; [split; [discriminate|congruence]|intros _ n' E; injection E as _ E; discriminate E]].
  destruct (n_pipe n !! p) as [x|]; [|split; [split; discriminate|discriminate]].
  destruct (write_wait x bs (nonblock fl)) as [A B]. destruct (pipe_write x bs (nonblock fl)) as [[x' o]|[]] eqn:E.
  - split.
    + intros N. split; [discriminate|]. intros n' k F. injection F as _ ->. exact (proj2 (A N) x' k eq_refl).
    + intros N n' F. injection F as _ ->. exact (B N x' eq_refl).
  - split; [|discriminate]. intros N. exfalso. exact (proj1 (A N) eq_refl).
Qed.
Lemma recv_wait n h fl s k f :
  (nonblock fl = true -> recv_sock n h fl s k f <> Block /\ forall n' j, recv_sock n h fl s k f <> Go n' (More j)) /\
  (nonblock fl = false -> forall n', recv_sock n h fl s k f <> Go n' (NetModel.Ret (err EAGAIN))).
Proof.
  unfold recv_sock. destruct (negb _); [split; [split; [discriminate|congruence]|intros _ n' E; injection E as _ E; discriminate E]|]. cbv zeta.
  destruct (_ && _); [split; [split; discriminate|discriminate]|].
  destruct (s_ui s) as [u|]; [|split; [split; discriminate|discriminate]].
  destruct (u_recv u) as [p|]; [|split; [split; discriminate|discriminate]].
  destruct (n_pipe n !! p) as [x|]; [|split; [split; discriminate|discriminate]].
  match goal with |- context [pipe_read x ?j _] => destruct (read_wait x j (nonblock fl)) as [A B]; destruct (pipe_read x j (nonblock fl)) as [[[x' bs]|]|[]] eqn:E end.
  - split; [split; discriminate|discriminate].
  - split; [intros _; destruct (0 <? _); split; discriminate|]. intros N. exfalso. exact (B N eq_refl).
  - split; [|destruct (0 <? _); discriminate]. intros N. exfalso. exact (A N eq_refl).
Qed.
Lemma transfer_wait n c fd h fl o : n_fds n !! (c, fd) = Some (DSock h fl) -> transfers fd o ->
  (Z.testbit fl 11 = true -> step n c o <> Block /\ forall n' k, step n c o <> Go n' (More k)) /\
  (Z.testbit fl 11 = false -> forall n', step n c o <> Go n' (NetModel.Ret (err EAGAIN))).
Proof.
  intros D T. rewrite <- nonblock_bit. destruct T; cbn [step]; unfold read_call, write_call, send_call, recv_call, on_sock; rewrite D;
    (destruct (negb (in_range fd)); [split; [split; discriminate|discriminate]|]); (destruct (n_sock n !! h) as [s|]; [|split; [split; discriminate|discriminate]]).
  - apply recv_wait.
  - apply send_wait.
  - apply send_wait.
  - apply recv_wait.
Qed.

(** ** Programs stay within the reach of NetModel *)
Lemma step_reach n c o n' x : reachable n -> step n c o = Go n' x -> reachable n'.
Proof. intros R H. apply (reach_run n [(c, o)] n' [x] R). cbn [run]. rewrite H. reflexivity. Qed.
Lemma do_reach s c o d s' y : reachable (s_n s) -> WireModel.perform s c (WireModel.Do o d) = Rep s' y -> reachable (s_n s').
Proof.
  intros R H. unfold WireModel.perform in H. destruct (foreign (s_n s) c o); [discriminate H|].
  destruct (step (s_n s) c o) as [n' x| |] eqn:E; [|injection H as <- _; exact R|discriminate H]. injection H as <- _. exact (step_reach _ _ _ _ _ R E).
Qed.
Lemma nact_reach s x s' y : reachable (s_n s) -> nact_step s x = Rep s' y -> reachable (s_n s').
Proof.
  intros R H. destruct x as [x|c fd buf n|c fd buf n|c a]; cbn [nact_step] in H.
  - apply (reached s [x] s' [y] R). cbn [acts]. rewrite H. reflexivity.
  - exact (do_reach _ _ _ _ _ _ R H).
  - exact (do_reach _ _ _ _ _ _ R H).
  - unfold enter_ioctl in H. destruct (get_int (a1 a)) as [fd|]; [|injection H as <- _; exact R]. destruct (get_uint (a2 a)) as [req|]; [|injection H as <- _; exact R].
    destruct (ioctl_net _ _ _ _ _ _) as [n' z| |] eqn:E; [|injection H as <- _; exact R|discriminate H]. injection H as <- _. cbn [s_n].
    unfold ioctl_net in E. destruct (negb _); [discriminate E|]. destruct (n_fds _ !! _); [|injection E as <- _; exact R].
    destruct (req =? FIONBIO); [|injection E as <- _; exact R]. destruct (ioctl_int _ _); [|injection E as <- _; exact R]. exact (step_reach _ _ _ _ _ R E).
Qed.
Lemma nacts_reach l : forall s s' ys, reachable (s_n s) -> nacts s l = Some (s', ys) -> reachable (s_n s').
Proof.
  induction l as [|x l IH]; intros s s' ys R H; cbn [nacts] in H; [injection H as <- _; exact R|].
  destruct (nact_step s x) as [s1 y| |] eqn:E; [|discriminate H..]. destruct (nacts s1 l) as [[s2 zs]|] eqn:F; [|discriminate H]. injection H as <- _.
  exact (IH _ _ _ (nact_reach _ _ _ _ R E) F).
Qed.
