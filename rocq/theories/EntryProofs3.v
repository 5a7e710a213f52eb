(** Proofs for the entry point: what calls write into memory. *)
From stdpp Require Import gmap.
From Coq Require Import Ascii.
From Verif Require Import Base PathModel FsModel AbiModel AbiSpec AbiProofs AbiBuf EntryModel EntrySpec EntryProofs EntryProofs2.
Local Open Scope list_scope.
Local Open Scope Z_scope.

(** ** The shape of the results *)
Definition shape (w : world) (c : Z) (o : op) (x : out) : Prop :=
  match x with
  | Ret _ | Blocked _ => True
  | RetData r bs => exists fd n, (o = Read fd n \/ exists off, o = Pread fd n off) /\ Z.of_nat (length bs) <= Z.max 0 n /\ (0 <= n < 2 ^ 31 -> 0 <= r)
  | RetStat _ _ _ _ _ => (exists p, o = Stat p) \/ (exists fd, o = Fstat fd)
  | RetDents r es => exists fd k, o = Getdents fd k /\ 18 < k /\ total es <= k /\ r = to_i32 (total es)
  | RetPath s => exists k, o = Getcwd k /\ Z.of_nat (String.length s) + 1 <= k
  | RetFds r a b => exists f, o = Pipe2 f /\ -1 <= a < 1024 /\ -1 <= b < 1024 /\ (r = 0 -> 0 <= a /\ 0 <= b)
  end.
Lemma to_i32_small n : 0 <= n < 2 ^ 31 -> to_i32 n = n.
Proof. intros H. unfold to_i32, wrap_u. rewrite Z.mod_small by lia. destruct (n <? 2 ^ 31) eqn:E; lia. Qed.
Lemma readat_len i off n w bs : readat i off n w = Done bs -> Z.of_nat (length bs) <= Z.max 0 n.
Proof.
  unfold readat. destruct (w_fobj w !! i); [|discriminate]. destruct ((off <? 0) || (z <? off)); [discriminate|]. intros [= <-].
  rewrite take_length. lia.
Qed.
Lemma read_chr_shape a b n w c o fd : (o = Read fd n \/ exists off, o = Pread fd n off) -> shape w c o (read_chr a b n).
Proof.
  intros H. unfold read_chr. destruct ((a =? 1) && (b =? 3)). { exists fd, n. split; [exact H|]. cbn. lia. }
  destruct ((a =? 1) && (b =? 5)). { exists fd, n. split; [exact H|]. rewrite replicate_length. split; [lia|]. intros K. rewrite to_i32_small; lia. }
  destruct ((a =? 1) && ((b =? 8) || (b =? 9))). { exists fd, n. split; [exact H|]. split; [cbn; lia|]. intros K. rewrite to_i32_small; lia. }
  exact I.
Qed.
Lemma pipe_read_shape p n nb w c fd : shape w c (Read fd n) (snd (pipe_read p n nb)).
Proof.
  unfold pipe_read. destruct (n =? 0) eqn:E. { exists fd, n. split; [left; reflexivity|]. cbn. lia. }
  destruct (p_buf p) eqn:B.
  - destruct (p_w p =? 0). { exists fd, n. split; [left; reflexivity|]. cbn. lia. }
    destruct nb; exact I.
  - exists fd, n. split; [left; reflexivity|]. rewrite take_length. split; [cbn [length] in *; lia|]. intros K. rewrite to_i32_small; cbn [length] in *; lia.
Qed.
Definition plain (x : out) : Prop := match x with Ret _ | Blocked _ => True | _ => False end.
Lemma plain_shape w c o x : plain x -> shape w c o x.
Proof. destruct x; try contradiction; intros _; exact I. Qed.
Lemma pipe_write_plain p bs nb : plain (snd (pipe_write p bs nb)).
Proof.
  unfold pipe_write. destruct (_ =? 0); [exact I|]. destruct (p_r p =? 0); [exact I|]. destruct (pipe_room p <? PIPE_BUF); [destruct nb; exact I|].
  destruct (_ =? _); [exact I|]. destruct nb; exact I.
Qed.
Lemma pipe_writev_plain iov nb : forall p t, plain (snd (pipe_writev p iov nb t)).
Proof.
  induction iov as [|bs iov IH]; intros p t; [exact I|]. cbn [pipe_writev]. pose proof (pipe_write_plain p bs nb) as P.
  destruct (pipe_write p bs nb) as [p' [r|r l|i m k z d|r l|s|r a b|k]]; try contradiction; [|exact I].
  destruct (0 <? r); [apply IH|]. destruct (r =? err EPIPE); [exact I|]. destruct (r =? err EAGAIN); [exact I|]. apply IH.
Qed.
Lemma ret_shape w c o w' x e : ret e = Done (w', x) -> shape w c o x.
Proof. unfold ret, obind. destruct e as [[w1 r]|]; [|discriminate]. intros [= _ <-]. exact I. Qed.
Ltac slot H := match type of H with context [fd_slot ?w ?c ?fd] => destruct (fd_slot w c fd) as [[[? ? ?|? ?|? ?|?]|]|]; try discriminate H end.
Ltac ino H := match type of H with context [get_ino ?w ?i] => destruct (get_ino w i) as [?x|]; [|discriminate H] end.
Lemma next_fd_bound w c fd : next_fd w c 0 = Some fd -> 0 <= fd < 1024.
Proof.
  unfold next_fd. intros H. apply find_some in H as [H _]. apply elem_of_list_In, elem_of_seqZ in H. unfold MAXFD in H. lia.
Qed.
Lemma out_shape w c o w' x : step w c o = Done (w', x) -> shape w c o x.
Proof.
  intros H. unfold step in H. destruct (w_cwd w !! c) as [cwd|]; [|discriminate H].
  destruct o; try (apply (ret_shape w c _ w' x _ H)).
  - (* Stat *) unfold same, stat_syscall, obind in H. destruct (metawalk _ _) as [[i|]|]; [|injection H as _ <-; exact I|discriminate H].
    ino H. injection H as _ <-. left. eauto.
  - (* Fstat *) unfold same, fstat_syscall, obind in H. slot H; try (injection H as _ <-); try exact I; try (right; eauto).
    ino H. injection H as _ <-. right. eauto.
  - (* Read *) unfold read_syscall, obind in H. slot H; try (injection H as _ <-; exact I).
    + destruct (is_wronly _); [injection H as _ <-; exact I|]. ino H. destruct (i_kind _).
      * destruct (readat _ _ _ _) as [bs|] eqn:R; [|discriminate H]. injection H as _ <-. exists fd, n. split; [left; reflexivity|]. pose proof (readat_len _ _ _ _ _ R). split; [assumption|]. intros K. rewrite to_i32_small; lia.
      * injection H as _ <-. exact I.
      * injection H as _ <-. apply (read_chr_shape _ _ n w c _ fd). left. reflexivity.
      * discriminate H.
    + destruct (is_wronly _); [injection H as _ <-; exact I|]. destruct (get_pipe _ _) as [p|]; [|discriminate H].
      pose proof (pipe_read_shape p n (hasbit flags O_NONBLOCK) w c fd) as S. destruct (pipe_read _ _ _) as [p' y]. injection H as _ <-. exact S.
  - (* Pread *) unfold same, pread_syscall, obind in H. slot H; try (injection H as _ <-; exact I).
    destruct (is_wronly _); [injection H as _ <-; exact I|]. ino H. destruct (i_kind _).
    + destruct (readat _ _ _ _) as [bs|] eqn:R; [|discriminate H]. injection H as _ <-. exists fd, n. split; [right; eauto|]. pose proof (readat_len _ _ _ _ _ R). split; [assumption|]. intros K. rewrite to_i32_small; lia.
    + injection H as _ <-. exact I.
    + injection H as _ <-. apply (read_chr_shape _ _ n w c _ fd). right. eauto.
    + discriminate H.
  - (* Write *) unfold write_syscall, obind in H. slot H; try (injection H as _ <-; exact I).
    + destruct (is_rdonly _); [injection H as _ <-; exact I|]. ino H. destruct (i_kind _); try (injection H as _ <-; exact I).
      * destruct (file_write _ _ _ _ _); [|discriminate H]. injection H as _ <-. exact I.
      * discriminate H.
    + destruct (is_rdonly _); [injection H as _ <-; exact I|]. destruct (get_pipe _ _) as [p|]; [|discriminate H].
      pose proof (pipe_write_plain p bs (hasbit flags O_NONBLOCK)) as S. destruct (pipe_write _ _ _) as [p' y]. injection H as _ <-. apply plain_shape. exact S.
  - (* Pwrite *) unfold pwrite_syscall, obind in H. slot H; try (injection H as _ <-; exact I).
    destruct (is_rdonly _); [injection H as _ <-; exact I|]. ino H. destruct (i_kind _); try (injection H as _ <-; exact I).
    + destruct (file_write _ _ _ _ _); [|discriminate H]. injection H as _ <-. exact I.
    + discriminate H.
  - (* Writev *) unfold writev_syscall, obind in H. slot H; try (injection H as _ <-; exact I).
    + destruct (is_rdonly _); [injection H as _ <-; exact I|]. ino H. destruct (i_kind _); try (injection H as _ <-; exact I).
      * destruct (file_write _ _ _ _ _); [|discriminate H]. injection H as _ <-. exact I.
      * discriminate H.
    + destruct (is_rdonly _); [injection H as _ <-; exact I|]. destruct (get_pipe _ _) as [p|]; [|discriminate H].
      pose proof (pipe_writev_plain iov (hasbit flags O_NONBLOCK) p 0) as S. destruct (pipe_writev _ _ _ _) as [p' y]. injection H as _ <-. apply plain_shape. exact S.
  - (* Fchdir *) unfold fchdir_syscall, obind in H. slot H; try (injection H as _ <-; exact I).
    destruct (pathname_loop _ _ _ _ _) as [[[s|]|]|]; try discriminate H; injection H as _ <-; exact I.
  - (* Getcwd *) injection H as _ <-. unfold getcwd_syscall. destruct (bufsize =? 0); [exact I|]. destruct (_ <? _) eqn:E; [exact I|].
    exists bufsize. split; [reflexivity|]. lia.
  - (* Getdents *) unfold getdents_syscall, obind in H. destruct (bufsize <=? CLIPPED_DIRENT_SIZE) eqn:E0; [injection H as _ <-; exact I|].
    unfold CLIPPED_DIRENT_SIZE in E0. destruct (negb (in_fd_range fd)); [injection H as _ <-; exact I|].
    destruct (w_fds w !! (c, fd)) as [[i pos flags| | |]|]; try (injection H as _ <-; exact I). ino H.
    destruct (i_kind _); try (injection H as _ <-; exact I).
    destruct (dents_fit _ 0 bufsize) as [l n] eqn:D. injection H as _ <-. destruct (dents_fit_spec _ _ _ _ _ D ltac:(lia)) as (A & B & _).
    exists fd, bufsize. split; [reflexivity|]. split; [lia|]. split; [lia|]. f_equal. lia.
  - (* Pipe2 *) unfold pipe2_syscall in H.
    destruct (next_fd _ c 0) as [a|] eqn:N1; [|injection H as _ <-; exists flags; split; [reflexivity|]; cbn; lia].
    apply next_fd_bound in N1.
    destruct (next_fd _ c 0) as [b|] eqn:N2; injection H as _ <-; exists flags; (split; [reflexivity|]); [apply next_fd_bound in N2; lia|].
    cbn. lia.
Qed.
(** ** Memory *)
Lemma within_store m p bs n : Z.of_nat (length bs) <= Z.max 0 n -> only_within m (store m p bs) p n.
Proof. intros L x Hx. apply store_out. lia. Qed.
Lemma within_sub m m' p n q k : only_within m m' p n -> q <= p -> p + n <= q + k -> only_within m m' q k.
Proof. intros H A B x Hx. apply H. lia. Qed.
Lemma within_trans m m1 m2 p n : only_within m m1 p n -> only_within m1 m2 p n -> only_within m m2 p n.
Proof. intros H1 H2 x Hx. rewrite (H2 x Hx). apply H1. exact Hx. Qed.
Lemma within_refl m p n : only_within m m p n.
Proof. intros x _. reflexivity. Qed.
Definition room (o : op) : Z :=
  match o with Read _ n | Pread _ n _ => n | Getdents _ k => k | Getcwd k => k | Stat _ | Fstat _ => 104 | Pipe2 _ => 8 | _ => 0 end.
Lemma random_len w c o n : random_bytes w c o = Some n -> room o = n.
Proof.
  destruct o; try discriminate; cbn [random_bytes]; destruct (w_fds w !! _) as [[i p f| | |]|]; try discriminate;
    destruct (w_ino w !! i) as [x|]; try discriminate; destruct (i_kind x); try discriminate; destruct (_ && _); try discriminate; intros [= <-]; reflexivity.
Qed.
Lemma put_stat_within m p chr i a b d e : only_within m (put_stat m p chr i a b d e) p 104.
Proof.
  assert (A : forall bs, Z.of_nat (length bs) <= 56 -> only_within m (store m p bs) p 104) by (intros bs L; apply within_store; lia).
  unfold put_stat. destruct chr.
  - apply A. rewrite !app_length, !length_le. lia.
  - apply within_trans with (store m p (le 8 DEV_ID ++ le 8 i ++ le 4 a ++ le 4 b ++ le 4 DEFAULT_UID ++ le 4 DEFAULT_GID ++ le 8 e ++ le 8 d)).
    + apply A. rewrite !app_length, !length_le. lia.
    + apply (within_sub _ _ (p + 48) 8); [|lia|lia]. apply within_store. rewrite app_length, !length_le. lia.
Qed.
Lemma deliver_within w c o w' x p rnd m : step w c o = Done (w', x) -> only_within m (fst (deliver w c o p rnd x m)) p (room o).
Proof.
  intros H. apply out_shape in H. destruct x; cbn [deliver fst shape] in *.
  - apply within_refl.
  - destruct H as (fd & n & Ho & L & _). apply within_store. destruct (random_bytes w c o) as [k|] eqn:R.
    + apply random_len in R. rewrite map_length, seqZ_length, R. lia.
    + destruct Ho as [->|[off ->]]; cbn [room]; lia.
  - destruct H as [[q ->]|[fd ->]]; apply put_stat_within.
  - destruct H as (fd & k & -> & L & T & _). apply within_store. unfold pack_dirents. rewrite length_pack. cbn [room]. lia.
  - destruct H as (k & -> & L). apply within_store. rewrite app_length, length_chars. cbn [room length]. lia.
  - destruct H as (f & -> & Ha & Hb & _). cbn [room].
    assert (A : forall m, only_within m (store m p (le 4 a)) p 8) by (intros; apply within_store; rewrite length_le; lia).
    assert (B : forall m, only_within m (store m (p + 4) (le 4 b)) p 8)
      by (intros; apply (within_sub _ _ (p + 4) 4); [|lia|lia]; apply within_store; rewrite length_le; lia).
    destruct (a =? -1), (b =? -1).
    + apply within_refl.
    + apply B.
    + apply A.
    + eapply within_trans; [apply A|apply B].
  - apply within_refl.
Qed.
