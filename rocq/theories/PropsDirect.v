(** C133-C135: quick_read and quick_write, sync_file_range, ioctl. *)
From stdpp Require Import gmap.
From Coq Require Import Ascii.
From Verif Require Import Base FsModel FsBoot FsReachSpec AbiModel AbiSpec EntryModel EntrySpec NetModel WireModel DirectModel DirectSpec DirectProofs.
Local Open Scope list_scope.
Local Open Scope Z_scope.

(** Programs for the examples *)
Definition fstart : EntryModel.state := EntryModel.St fresh_world (fun _ => 0) [].
Definition nstart : WireModel.state := WireModel.St init_net (fun _ => 0).
Definition words_of (l : list Z) : args := Args (nth 0 l 0) (nth 1 l 0) (nth 2 l 0) (nth 3 l 0) (nth 4 l 0) (nth 5 l 0).
Fixpoint pokes (p : Z) (bs : list Z) : list EntryModel.act := match bs with [] => [] | b :: r => EntryModel.Poke p b :: pokes (p + 1) r end.
Definition put (p : Z) (s : string) : list fact := map FPlain (pokes p (chars s ++ [0])).
Definition fcall (n : Z) (l : list Z) : fact := FPlain (EntryModel.Call 1 n (words_of l) (fun k => k mod 256)).
Definition ncall (n : Z) (l : list Z) : nact := NPlain (WireModel.Call 1 n (words_of l) false).
Definition npoke (p b : Z) : nact := NPlain (WireModel.Poke p b).
Definition nioctl (l : list Z) : nact := NIoctl 1 (words_of l).
Definition nobody : Z -> Z -> Z -> Z -> Z := fun _ _ _ _ => 0.
Definition fgives (l : list fact) (ys : list (option Z)) (p n : Z) (bs : list Z) : bool :=
  match facts fstart l with
  | Some (s, zs) => bool_decide (drop (length zs - length ys) zs = ys) && bool_decide (bytes_at (EntryModel.s_m s) p n = bs)
  | None => false
  end.
Definition ngives (l : list nact) (ys : list (option Z)) (p n : Z) (bs : list Z) : bool :=
  match nacts nstart l with
  | Some (s, zs) => bool_decide (drop (length zs - length ys) zs = ys) && bool_decide (bytes_at (WireModel.s_m s) p n = bs)
  | None => false
  end.
(** open "/f" for writing and reading, create it: descriptor 3 *)
Definition open_f : list fact := put 100 "/f" ++ [fcall 10 [100; 66; 438]].

(** ** C133 *)

(** A program in which some reads and writes are quick ones does what it does
    when they go through the dispatcher: the same state, memory and output, the
    same answers, or it aborts as well. *)
Theorem C133_files : forall s l, Forall proper l -> facts s l = facts s (map by_dispatcher l).
Proof. intros s l. exact (facts_same l s). Qed.
Print Assumptions C133_files.
Theorem C133_sockets : forall s l, Forall proper_n l -> nacts s l = nacts s (map by_dispatcher_n l).
Proof. intros s l. exact (nacts_same l s). Qed.
Print Assumptions C133_sockets.

(** Not so if the buffer is null: read of no bytes, write of no bytes, and read
    of a closed descriptor, through the dispatcher and quick. *)
Theorem C133_null_refuted :
  fgives (open_f ++ [fcall 12 [3; 0; 0]; FRead 1 3 0 0 (fun _ => 0); fcall 13 [3; 0; 0]; FWrite 1 3 0 0 (fun _ => 0); fcall 12 [4; 0; 0]; FRead 1 4 0 0 (fun _ => 0)])
    [Some 3; Some (-14); Some 0; Some (-14); Some 0; Some (-14); Some (-9)] 0 0 [] = true.
Proof. vm_compute. reflexivity. Qed.
Print Assumptions C133_null_refuted.

(** A file is written and read back with quick calls, a socket pair carries three bytes. *)
Example C133_nonvacuous :
  Forall proper (open_f ++ [FWrite 1 3 100 2 (fun _ => 0); fcall 14 [3; 0; 0]; FRead 1 3 500 10 (fun _ => 0); FRead 1 (-1) 500 0 (fun _ => 0)]) /\
  fgives (open_f ++ [FWrite 1 3 100 2 (fun _ => 0); fcall 14 [3; 0; 0]; FRead 1 3 500 10 (fun _ => 0)]) [Some 2; Some 0; Some 2] 500 3 [47; 102; 0] = true /\
  ngives [npoke 50 7; npoke 51 8; ncall 49 [1; 1; 0; 100]; NWrite 1 3 50 3; NRead 1 4 200 10] [Some 0; Some 3; Some 3] 200 4 [7; 8; 0; 0] = true.
Proof.
  split; [|split; vm_compute; reflexivity].
  unfold open_f. rewrite !Forall_app. split; [split|].
  - apply Forall_forall. intros x H. unfold put in H. apply elem_of_list_fmap in H as (y & -> & _). exact I.
  - repeat constructor.
  - repeat constructor; try discriminate; unfold is_int; lia.
Qed.

(** ** C134 *)

(** sync_file_range changes nothing. *)
Theorem C134_frame : forall s c a kern s' r, enter_sync s c a kern = Done (s', r) -> s' = s.
Proof. exact sync_frame. Qed.
Print Assumptions C134_frame.

(** If it answers, then as the table says: a descriptor that is no file EBADF, a
    directory or device ESPIPE, bits that are no flags EINVAL, and otherwise
    what the host says about this range of this file. *)
Theorem C134_answer : forall s c cwd a kern fd off n fl s' r,
  w_cwd (s_w s) !! c = Some cwd -> sync_words a fd off n fl -> enter_sync s c a kern = Done (s', r) ->
  0 <= fd < 1024 /\ exists v, r = Some v /\ sync_answer (s_w s) c fd off n fl kern v.
Proof.
  intros s c cwd a kern fd off n fl s' r C W H. rewrite (enter_sync_words _ _ _ _ _ _ _ _ _ C W) in H.
  destruct (sync_range (s_w s) c fd off n fl kern) as [v|] eqn:E; cbn [obind] in H; [|discriminate H]. injection H as _ <-.
  destruct W as (_ & _ & _ & U & _). unfold is_uint in U. destruct (sync_sound _ _ _ _ _ _ _ _ (proj1 U) E) as [F A]. eauto.
Qed.
Print Assumptions C134_answer.
Theorem C134_unique : forall w c fd off n fl kern r r', sync_answer w c fd off n fl kern r -> sync_answer w c fd off n fl kern r' -> r = r'.
Proof. exact answer_fun. Qed.
Print Assumptions C134_unique.

(** It answers, after any history, if the descriptor is in the table and the
    error of the host, if any, has a number that the library knows. *)
Theorem C134_answers : forall s c cwd a kern fd off n fl disp,
  reach disp (s_w s) -> w_cwd (s_w s) !! c = Some cwd -> sync_words a fd off n fl -> 0 <= fd < 1024 ->
  (forall i, on_regular (s_w s) c fd i -> kern i off n fl = 0 \/ errno (kern i off n fl)) ->
  exists v, enter_sync s c a kern = Done (s, Some v) /\ sync_answer (s_w s) c fd off n fl kern v.
Proof.
  intros s c cwd a kern fd off n fl disp R C W I K. rewrite (enter_sync_words _ _ _ _ _ _ _ _ _ C W). destruct W as (_ & _ & _ & U & _). unfold is_uint in U.
  destruct (sync_total disp (s_w s) c fd off n fl kern R I (proj1 U) K) as [v E]. exists v. rewrite E. split; [reflexivity|]. exact (proj2 (sync_sound _ _ _ _ _ _ _ _ (proj1 U) E)).
Qed.
Print Assumptions C134_answers.

(** The first word that is too large for its parameter: EINVAL *)
Theorem C134_refused : forall s c a kern cwd r,
  w_cwd (s_w s) !! c = Some cwd -> Forall is_word (words a) -> first_bad (EntryModel.s_m s) [AInt; ALong; ALong; AUint] (words a) r ->
  r = -22 /\ enter_sync s c a kern = Done (s, Some r).
Proof. exact sync_refused. Qed.
Print Assumptions C134_refused.

(** A number that is no descriptor should be EBADF; it brings the library down. *)
Theorem C134_range_refuted : forall s c cwd a kern fd off n fl,
  w_cwd (s_w s) !! c = Some cwd -> sync_words a fd off n fl -> ~ 0 <= fd < 1024 -> enter_sync s c a kern = Panic.
Proof.
  intros s c cwd a kern fd off n fl C W I. rewrite (enter_sync_words _ _ _ _ _ _ _ _ _ C W). unfold sync_range, fd_slot, in_fd_range, MAXFD.
  destruct (Z.leb_spec 0 fd); cbn [andb obind]; [|reflexivity]. destruct (Z.ltb_spec fd 1024); [lia|reflexivity].
Qed.
Print Assumptions C134_range_refuted.
(** So does an error of the host that the list of errors lacks, as EHWPOISON. *)
Theorem C134_host_refuted :
  match facts fstart (open_f ++ [FSync 1 (words_of [3; 0; 5; 2]) nobody]) with Some (_, ys) => last ys = Some (Some 0) | None => False end /\
  facts fstart (open_f ++ [FSync 1 (words_of [3; 0; 5; 2]) (fun _ _ _ _ => 133)]) = None.
Proof. split; vm_compute; reflexivity. Qed.
Print Assumptions C134_host_refuted.

(** Where fsync (162) answers 0, the answer of sync_file_range with flags is the host's. *)
Theorem C134_fsync : forall w c fd off n fl kern w',
  FsModel.step w c (Fsync fd) = Done (w', FsModel.Ret 0) -> 0 <= fl < 8 -> (forall i, kern i off n fl = 0) -> sync_range w c fd off n fl kern = Done 0.
Proof.
  intros w c fd off n fl kern w' H F K. unfold FsModel.step in H. destruct (w_cwd w !! c); [|discriminate H].
  destruct (fsync_syscall w c fd) as [r|] eqn:E; cbn [obind ret] in H; [|discriminate H]. injection H as _ ->.
  unfold fsync_syscall in E. unfold sync_range. destruct (fd_slot w c fd) as [[d|]|]; cbn [obind] in *; [|discriminate E..].
  destruct d as [i pos f| | |]; try discriminate E. destruct (is_rdonly f); [discriminate E|]. destruct (get_ino w i) as [x|]; cbn [obind] in *; [|discriminate E].
  destruct (i_kind x); try discriminate E. destruct (w_fobj w !! i); [|discriminate E]. rewrite mask7 by lia. destruct (Z.ltb_spec fl 8); [|lia]. cbn [negb]. rewrite K. reflexivity.
Qed.
Print Assumptions C134_fsync.
(** Not the other way round: a descriptor for reading only can be synchronised
    by range, and fsync refuses it with EBADF. *)
Theorem C134_fsync_refuted :
  fgives (open_f ++ [fcall 10 [100; 0; 0]; FSync 1 (words_of [4; 0; 5; 7]) nobody; fcall 162 [4]; fcall 162 [3]]) [Some 4; Some 0; Some (-9); Some 0] 0 0 [] = true.
Proof. vm_compute. reflexivity. Qed.
Print Assumptions C134_fsync_refuted.

Example C134_nonvacuous :
  sync_words (words_of [3; 2 ^ 64 - 1; 5; 2]) 3 (-1) 5 2 /\
  fgives (put 200 "/" ++ open_f ++ [fcall 10 [200; 0; 0]; FSync 1 (words_of [3; 2 ^ 64 - 1; 5; 2]) (fun _ o _ _ => if o <? 0 then 22 else 0);
            FSync 1 (words_of [3; 0; 5; 8]) nobody; FSync 1 (words_of [4; 0; 5; 8]) nobody; FSync 1 (words_of [1; 0; 5; 2]) nobody; FSync 1 (words_of [9; 0; 5; 2]) nobody;
            FSync 1 (words_of [2 ^ 32; 0; 5; 2]) nobody; FSync 1 (words_of [3; 0; 5; 2]) (fun _ _ _ _ => 5)])
    [Some 4; Some (-22); Some (-22); Some (-29); Some (-9); Some (-9); Some (-22); Some (-5)] 0 0 [] = true.
Proof. split; [|vm_compute; reflexivity]. unfold sync_words, is_int, is_long, is_uint. cbn. repeat split; try lia; reflexivity. Qed.

(** ** C135 *)

(** ioctl of any descriptor: it aborts exactly for numbers outside the table;
    otherwise the answer is that of the table, memory stays, and all that may
    change is the bit O_NONBLOCK of this descriptor, which FIONBIO on a socket
    sets if the number at the pointer is not zero and clears if it is. *)
Theorem C135_ioctl : forall s c a fd req p, bytes_only (WireModel.s_m s) -> ioctl_words a fd req p ->
  (enter_ioctl s c a = Crash /\ ~ 0 <= fd < 1024) \/
  (0 <= fd < 1024 /\ exists n' r, enter_ioctl s c a = Rep (WireModel.St n' (WireModel.s_m s)) (Some r) /\
     ioctl_answer (WireModel.s_m s) (is_Some (n_fds (s_n s) !! (c, fd))) (a_socket (s_n s) c fd) req p r /\
     (n' = s_n s /\ (req <> 21537 \/ p = 0 \/ ~ a_socket (s_n s) c fd) \/
      exists h fl fl' on, req = 21537 /\ p <> 0 /\ n_fds (s_n s) !! (c, fd) = Some (DSock h fl) /\
        (on = true <-> nonzero (WireModel.s_m s) p) /\ switched fl on fl' /\ only_flags (s_n s) n' c fd h fl')).
Proof.
  intros s c a fd req p B W. rewrite (enter_ioctl_words _ _ _ _ _ _ W). pose proof (ioctl_net_cases (s_n s) (WireModel.s_m s) c fd req p B) as H.
  destruct (ioctl_net _ _ _ _ _ _) as [n' x| |]; [|contradiction|auto]. right. destruct H as (F & (r & -> & A) & D). split; [exact F|]. exists n', r. auto.
Qed.
Print Assumptions C135_ioctl.
Theorem C135_unique : forall m open sock req p r r', ioctl_answer m open sock req p r -> ioctl_answer m open sock req p r' -> r = r'.
Proof. exact ioctl_fun. Qed.
Print Assumptions C135_unique.

(** Files, pipes, streams, devices: the same table, and nothing changes. *)
Theorem C135_files : forall s c cwd a fd req p, w_cwd (s_w s) !! c = Some cwd -> ioctl_words a fd req p ->
  (enter_ioctl_fs s c a = Panic /\ ~ 0 <= fd < 1024) \/
  (0 <= fd < 1024 /\ exists r, enter_ioctl_fs s c a = Done (s, Some r) /\ ioctl_answer (EntryModel.s_m s) (is_Some (w_fds (s_w s) !! (c, fd))) False req p r).
Proof.
  intros s c cwd a fd req p C W. rewrite (enter_ioctl_fs_words _ _ _ _ _ _ _ C W). pose proof (ioctl_fs_cases (s_w s) (EntryModel.s_m s) c fd req p) as H.
  destruct (ioctl_fs _ _ _ _ _ _) as [r|]; cbn [obind]; [|auto]. right. destruct H. eauto.
Qed.
Print Assumptions C135_files.

(** What the bit does: after FIONBIO with a number that is not zero no read,
    write, send or recv on the descriptor waits; after FIONBIO with zero none
    answers EAGAIN. *)
Theorem C135_effect : forall s c a fd p n' m' o, bytes_only (WireModel.s_m s) -> ioctl_words a fd 21537 p ->
  enter_ioctl s c a = Rep (WireModel.St n' m') (Some 0) -> transfers fd o ->
  (nonzero (WireModel.s_m s) p -> step n' c o <> Block /\ forall n2 k, step n' c o <> Go n2 (More k)) /\
  (~ nonzero (WireModel.s_m s) p -> forall n2, step n' c o <> Go n2 (NetModel.Ret (-11))).
Proof.
  intros s c a fd p n' m' o B W H T. destruct (C135_ioctl s c a fd 21537 p B W) as [[E _]|(_ & n1 & r & E & A & D)]; [rewrite E in H; discriminate H|].
  rewrite E in H. injection H as -> _ ->.
  assert (exists h fl fl' on, n_fds (s_n s) !! (c, fd) = Some (DSock h fl) /\ (on = true <-> nonzero (WireModel.s_m s) p) /\ switched fl on fl' /\ only_flags (s_n s) n' c fd h fl') as (h & fl & fl' & on & _ & N & [S _] & O).
  { destruct D as [[_ D]|(h & fl & fl' & on & _ & _ & D)]; [|exists h, fl, fl', on; exact D]. exfalso. inversion A; try lia; destruct D as [D|[D|D]]; try lia; contradiction. }
  assert (L : n_fds n' !! (c, fd) = Some (DSock h fl')) by (rewrite O; apply lookup_insert).
  destruct (transfer_wait n' c fd h fl' o L T) as [X Y]. split.
  - intros Q. apply X. rewrite S. apply N, Q.
  - intros Q. apply Y. rewrite S. destruct on; [|reflexivity]. exfalso. apply Q, N. reflexivity.
Qed.
Print Assumptions C135_effect.

(** ioctl and the quick calls lead to no state that the calls of NetModel do not
    reach, so what is proved of those states holds after any such program. *)
Theorem C135_reachable : forall s l s' ys, reachable (s_n s) -> nacts s l = Some (s', ys) -> reachable (s_n s').
Proof. intros s l. exact (nacts_reach l s). Qed.
Print Assumptions C135_reachable.

(** O_NONBLOCK belongs to the open socket, so a duplicate of the descriptor
    should have it too. It does not: recv on the descriptor answers EAGAIN, recv
    on its duplicate waits. *)
Theorem C135_shared_refuted :
  ngives [npoke 300 1; ncall 49 [1; 1; 0; 100]; ncall 24 [3]; nioctl [3; 21537; 300]; ncall 36 [3; 200; 1; 0]; ncall 36 [5; 200; 1; 0]]
    [Some 0; Some 5; Some 0; Some (-11); None] 0 0 [] = true.
Proof. vm_compute. reflexivity. Qed.
Print Assumptions C135_shared_refuted.
(** FIONBIO is for every kind of descriptor; a pipe answers ENOTTY. *)
Theorem C135_pipe_refuted :
  ngives [npoke 300 1; ncall 66 [100]; nioctl [3; 21537; 300]; ncall 12 [3; 200; 1]] [Some 0; Some (-25); None] 0 0 [] = true.
Proof. vm_compute. reflexivity. Qed.
Print Assumptions C135_pipe_refuted.
(** FIOASYNC answers 0 whatever the descriptor and the pointer, and nothing happens. *)
Theorem C135_async_refuted : forall s c a fd p d, ioctl_words a fd 21586 p -> 0 <= fd < 1024 -> n_fds (s_n s) !! (c, fd) = Some d ->
  enter_ioctl s c a = Rep s (Some 0).
Proof.
  intros s c a fd p d W F D. rewrite (enter_ioctl_words _ _ _ _ _ _ W). unfold ioctl_net, in_range, MAXFD. destruct (Z.leb_spec 0 fd); [|lia]. destruct (Z.ltb_spec fd 1024); [|lia]. cbn [andb negb].
  rewrite D. destruct s. destruct d; reflexivity.
Qed.
Print Assumptions C135_async_refuted.
(** A number that is no descriptor should be EBADF; it brings the library down. *)
Theorem C135_range_refuted : forall s c a fd req p, ioctl_words a fd req p -> ~ 0 <= fd < 1024 -> enter_ioctl s c a = Crash.
Proof.
  intros s c a fd req p W F. rewrite (enter_ioctl_words _ _ _ _ _ _ W). unfold ioctl_net, in_range, MAXFD. destruct (Z.leb_spec 0 fd); cbn [andb negb]; [|reflexivity].
  destruct (Z.ltb_spec fd 1024); [lia|reflexivity].
Qed.
Print Assumptions C135_range_refuted.

(** On and off again, on a socket pair: recv answers EAGAIN, then waits *)
Example C135_nonvacuous :
  ioctl_words (words_of [3; 21537; 300]) 3 21537 300 /\
  ngives [npoke 302 1; ncall 49 [1; 1; 0; 100]; nioctl [3; 21537; 300]; ncall 36 [3; 200; 1; 0]; npoke 302 0; nioctl [3; 21537; 300]; ncall 36 [3; 200; 1; 0]; nioctl [3; 21537; 0]; nioctl [3; 1; 0]; nioctl [9; 1; 0]]
    [Some 0; Some 0; Some (-11); None; Some 0; None; Some (-14); Some (-22); Some (-9)] 0 0 [] = true /\
  fgives (open_f ++ [FIoctl 1 (words_of [3; 21537; 300]); FIoctl 1 (words_of [3; 21537; 0]); FIoctl 1 (words_of [3; 21586; 0]); FIoctl 1 (words_of [7; 21586; 0])]) [Some (-25); Some (-14); Some 0; Some (-9)] 0 0 [] = true.
Proof. split; [|split; vm_compute; reflexivity]. unfold ioctl_words, is_int, is_uint. cbn. repeat split; try lia; reflexivity. Qed.
