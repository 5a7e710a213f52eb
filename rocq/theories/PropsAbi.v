(** Properties C76-C82: arguments and results at the boundary of the library. *)
From Coq Require Import Ascii.
From Verif Require Import Base PathModel PathSpec FsModel FsBoot FsSpec FsReachSpec FsTree AbiModel AbiSpec AbiProofs AbiText AbiBuf.
Local Open Scope list_scope.
Local Open Scope Z_scope.

(** ** C76 *)
(** A zero-extended 32-bit value arrives unchanged, as does every 64-bit
    value; wider words are refused; whatever is accepted as an int was the
    zero-extended form of that int. Missing: sign-extended negative values. *)
Theorem C76_integers_partial :
  (forall v, is_int v -> get_int (zero_extended 32 v) = Ok v) /\
  (forall v, is_uint v -> get_uint (zero_extended 32 v) = Ok v) /\
  (forall v, is_long v -> get_long (sign_extended v) = Ok v) /\
  (forall w, is_word w -> get_ulong w = Ok w) /\
  (forall w, is_word w -> 2 ^ 32 <= w -> get_int w = Fail (err EINVAL) /\ get_uint w = Fail (err EINVAL)) /\
  (forall w v, is_word w -> get_int w = Ok v -> is_int v /\ w = zero_extended 32 v).
Proof.
  exact (conj get_int_exact (conj get_uint_exact (conj get_long_exact (conj (fun w _ => eq_refl) (conj get_int_wide get_int_only))))).
Qed.
Print Assumptions C76_integers_partial.
Example C76_nonvacuous : is_int (-100) /\ get_int 4294967196 = Ok (-100) /\ zero_extended 32 (-100) = 4294967196 /\
  is_long (-100) /\ get_long (sign_extended (-100)) = Ok (-100) /\ is_word (2 ^ 32) /\ get_int (2 ^ 32) = Fail (-22).
Proof. unfold is_int, is_long, is_word. repeat split; try lia. Qed.

(** A negative int widened by the caller's compiler (as C's conversion to a
    64-bit type does) is refused, whichever it is. *)
Theorem C76_sign_extended_refuted : forall v, is_int v -> v < 0 -> get_int (sign_extended v) = Fail (err EINVAL).
Proof. exact get_int_negative. Qed.
Print Assumptions C76_sign_extended_refuted.
(** AT_FDCWD, a poll timeout of -1, ... *)
Example C76_sign_extended_nonvacuous : is_int (-1) /\ get_int (sign_extended (-1)) = Fail (-22) /\ get_duration_from_millis (sign_extended (-1)) = Fail (-22).
Proof. unfold is_int. repeat split; lia. Qed.

(** ** C77 *)
(** timevals and milliseconds are converted exactly; timespecs without
    nanoseconds too; nanoseconds out of range are refused.
    Missing: the other timespecs. *)
Theorem C77_timeouts_partial :
  (forall s u, 0 <= s < 2 ^ 63 -> 0 <= u < 1000000 ->
     duration_fromtimeval (Some (s, u)) = Done (Some (s * 1000000000 + u * 1000))) /\
  duration_fromtimeval None = Done None /\
  (forall ms, is_int ms -> get_duration_from_millis (zero_extended 32 ms) = Ok (if ms <? 0 then None else Some (ms * 1000000))) /\
  (forall s, 0 <= s < 2 ^ 63 -> duration_fromtimespec (Some (s, 0)) = Done (Ok (s * 1000000000))) /\
  (forall s n, n < 0 \/ 1000000000 <= n -> duration_fromtimespec (Some (s, n)) = Done (Fail (err EINVAL))) /\
  duration_fromtimespec None = Done (Fail (err EFAULT)).
Proof.
  split; [exact timeval_exact|]. split; [reflexivity|]. split; [exact millis_exact|]. split; [|split; [exact timespec_refused|reflexivity]].
  intros s H. rewrite timespec_char by lia. cbn. do 2 f_equal. lia.
Qed.
Print Assumptions C77_timeouts_partial.
Example C77_nonvacuous : duration_fromtimeval (Some (2, 999999)) = Done (Some 2999999000) /\
  get_duration_from_millis 1500 = Ok (Some 1500000000) /\ duration_fromtimespec (Some (3, 0)) = Done (Ok 3000000000).
Proof. repeat split. Qed.

(** A timespec with nanoseconds is never converted correctly: one to four
    nanoseconds count as seconds, and from five on the conversion aborts. *)
Theorem C77_timespec_refuted : forall s n, 0 <= s < 2 ^ 63 -> 0 < n < 1000000000 ->
  duration_fromtimespec (Some (s, n)) = (if n <? 5 then Done (Ok ((s + n) * 1000000000)) else Panic) /\
  duration_fromtimespec (Some (s, n)) <> Done (Ok (s * 1000000000 + n)).
Proof.
  intros s n Hs Hn. rewrite timespec_char by lia. split; [reflexivity|].
  destruct (n <? 5) eqn:E; [|discriminate]. intros [= H]. lia.
Qed.
Print Assumptions C77_timespec_refuted.
Example C77_timespec_nonvacuous : duration_fromtimespec (Some (0, 500000000)) = Panic /\ duration_fromtimespec (Some (0, 2)) = Done (Ok 2000000000).
Proof. split; reflexivity. Qed.

(** timevals out of range are not refused: -1 second is a wait of more than
    five hundred thousand million years, and many microseconds abort *)
Theorem C77_invalid_timeval_refuted :
  duration_fromtimeval (Some (-1, 0)) = Done (Some ((2 ^ 64 - 1) * 1000000000)) /\
  duration_fromtimeval (Some (0, -1)) = Panic /\ duration_fromtimeval (Some (0, 4294968)) = Panic.
Proof. repeat split. Qed.
Print Assumptions C77_invalid_timeval_refuted.

(** ** C78 *)
(** A local or IPv4 address handed out into a large enough buffer and passed
    back is the same address. Missing: IPv6. *)
Theorem C78_round_trip_partial : forall m p lp g,
  bytes_only m -> p <> 0 -> address (family_of g) g -> ~ is_v6 g ->
  size_of g <= number_at m lp -> (lp + 4 <= p \/ p + size_of g <= lp) ->
  let m' := copy_out_sockaddr m p lp g in get_sockaddr m' p (number_at m' lp) = Ok g.
Proof. exact sock_round_trip. Qed.
Print Assumptions C78_round_trip_partial.

(** Whatever the size of the buffer: it holds the beginning of the address,
    nothing outside of it is touched except the length cell, which gets the
    full length. *)
Theorem C78_within_buffer : forall m p lp g, bytes_only m -> address (family_of g) g ->
  (lp + 4 <= p \/ p + size_of g <= lp) ->
  let m' := copy_out_sockaddr m p lp g in
  let n := Z.min (number_at m lp) (size_of g) in
  number_at m' lp = size_of g /\ lies m' p (take (Z.to_nat n) (sock_bytes g)) /\
  (forall a, ~ (p <= a < p + n) -> ~ (lp <= a < lp + 4) -> m' a = m a).
Proof.
  intros m p lp g Hb Ha Hd. split; [exact (copy_out_length m p lp g Hb)|].
  split; [exact (copy_out_buffer m p lp g Hb Ha Hd)|]. intros a. exact (copy_out_frame m p lp g a Ha).
Qed.
Print Assumptions C78_within_buffer.

(** An internet address depends only on the bytes given; a local address with
    its NUL among the bytes given has the path before the NUL. Missing: local
    addresses whose path fills the length given. *)
Theorem C78_only_given_bytes_partial :
  (forall m m' p n g, same_at m m' p n -> get_sockaddr m p n = Ok g -> (forall f path, g <> GUnix f path) ->
     get_sockaddr m' p n = Ok g) /\
  (forall m p n path, p <> 0 -> 16 <= n <= 110 -> lies m p (1 :: 0 :: path ++ [0]) -> 0 ∉ path ->
     2 + Z.of_nat (length path) + 1 <= n -> exists g, get_sockaddr m p n = Ok g /\ path_bytes g = path).
Proof. exact (conj get_local get_unix_path). Qed.
Print Assumptions C78_only_given_bytes_partial.

(** 127.0.0.1:80 into a buffer of 16 bytes, and of 5 bytes; a local address of
    17 characters passed with its exact length *)
Definition addr78 : gsock := GV4 2 20480 16777343 0.
Definition blank (n : Z) : Z -> Z := store (fun _ => 0) 100 (le 4 n).
Definition path78 : list Z := map (fun k => 97 + Z.of_nat k) (seq 0 17).
Definition unix78 (rest : list Z) : Z -> Z := store (fun _ => 0) 200 (1 :: 0 :: path78 ++ rest).
Lemma store_bytes m p bs : bytes_only m -> Forall is_byte bs -> bytes_only (store m p bs).
Proof.
  intros Hm F a. unfold store. destruct ((p <=? a) && (a <? p + Z.of_nat (length bs))) eqn:E; [|apply Hm].
  rewrite Forall_forall in F. apply F. apply elem_of_list_In. apply nth_In. lia.
Qed.
Example C78_nonvacuous :
  bytes_only (blank 16) /\ address (family_of addr78) addr78 /\ number_at (blank 16) 100 = 16 /\
  (let m := copy_out_sockaddr (blank 16) 200 100 addr78 in
   number_at m 100 = 16 /\ get_sockaddr m 200 16 = Ok addr78 /\ load m 200 16 = [2; 0; 0; 80; 127; 0; 0; 1; 0; 0; 0; 0; 0; 0; 0; 0]) /\
  (let m := copy_out_sockaddr (blank 5) 200 100 addr78 in number_at m 100 = 16 /\ load m 200 8 = [2; 0; 0; 80; 127; 0; 0; 0]) /\
  lies (unix78 [0]) 200 (1 :: 0 :: path78 ++ [0]) /\
  (exists g, get_sockaddr (unix78 [0; 33]) 200 20 = Ok g /\ path_bytes g = path78).
Proof.
  split; [apply store_bytes; [intros a; unfold is_byte; lia|apply le_byte]|].
  split; [cbn; unfold AF_INET; lia|]. split; [reflexivity|]. split; [repeat split|]. split; [repeat split|].
  split; [apply store_lies|]. eexists. split; [vm_compute; reflexivity|vm_compute; reflexivity].
Qed.

(** Every IPv6 address handed out is refused when passed back: it carries the
    family number 10 and only 30 is recognised. *)
Theorem C78_ipv6_refuted : forall m p lp g,
  bytes_only m -> p <> 0 -> address (family_of g) g -> is_v6 g ->
  size_of g <= number_at m lp -> (lp + 4 <= p \/ p + size_of g <= lp) ->
  let m' := copy_out_sockaddr m p lp g in get_sockaddr m' p (number_at m' lp) = Fail (err EOPNOTSUPP).
Proof. exact sock_v6_refused. Qed.
Print Assumptions C78_ipv6_refuted.
Example C78_ipv6_nonvacuous :
  let g := GV6 10 20480 0 (replicate 15 0 ++ [1]) 0 in
  address (family_of g) g /\ is_v6 g /\ size_of g <= number_at (blank 28) 100 /\
  get_sockaddr (copy_out_sockaddr (blank 28) 200 100 g) 200 28 = Fail (-95).
Proof. cbn [address family_of]. split; [|split; [exact I|split; [vm_compute; discriminate|vm_compute; reflexivity]]].
  split; [reflexivity|]. split; [lia|]. split; [lia|]. split; [reflexivity|]. split; [|lia]. unfold is_byte. cbn. repeat constructor; lia. Qed.

(** The same bytes, of the same length, mean different local addresses
    depending on what lies behind them: a path that fills the given length
    goes on beyond it. *)
Theorem C78_local_path_refuted : exists m m' p n, same_at m m' p n /\ exists g g',
  get_sockaddr m p n = Ok g /\ get_sockaddr m' p n = Ok g' /\ path_bytes g = path78 /\ path_bytes g' = path78 ++ [33].
Proof.
  exists (unix78 [0]), (unix78 [33; 0]), 200, 19. split.
  - intros a Ha. assert (E : exists k : nat, (k < 19)%nat /\ a = 200 + Z.of_nat k) by (exists (Z.to_nat (a - 200)); lia).
    destruct E as (k & Hk & ->). do 19 (destruct k as [|k]; [vm_compute; reflexivity|]). lia.
  - eexists _, _. split; [vm_compute; reflexivity|]. split; [vm_compute; reflexivity|]. split; vm_compute; reflexivity.
Qed.
Print Assumptions C78_local_path_refuted.

(** A local address shorter than 16 bytes, such as that of "/tmp/s", is
    refused when passed with its exact length. *)
Theorem C78_short_local_refuted : forall m p n, p <> 0 -> number_at m p mod 65536 = 1 -> bytes_only m -> n < 16 ->
  get_sockaddr m p n = Fail (err EINVAL).
Proof.
  intros m p n Hp Hf Hb Hn. unfold get_sockaddr. replace (p =? 0) with false by lia.
  assert (E : of_le (load m p 2) = 1).
  { unfold number_at in Hf. cbn [load seq map of_le]. change (Z.of_nat 0) with 0. change (Z.of_nat 1) with 1. rewrite Z.add_0_r.
    pose proof (Hb p). pose proof (Hb (p + 1)). unfold is_byte in *.
    replace (m p + 256 * m (p + 1) + 65536 * m (p + 2) + 16777216 * m (p + 3))
      with (m p + 256 * m (p + 1) + (m (p + 2) + 256 * m (p + 3)) * 65536) in Hf by lia.
    rewrite Z_mod_plus_full, Z.mod_small in Hf by lia. lia. }
  rewrite E. cbn [Z.eqb Pos.eqb]. replace ((n <? SIZEOF_SOCKADDR) || (UNIX_LEN <? n)) with true by (unfold SIZEOF_SOCKADDR; lia). reflexivity.
Qed.
Print Assumptions C78_short_local_refuted.
Example C78_short_local_nonvacuous :
  let m := store (fun _ => 0) 200 [1; 0; 47; 116; 109; 112; 47; 115; 0] in number_at m 200 mod 65536 = 1 /\ get_sockaddr m 200 9 = Fail (-22).
Proof. split; vm_compute; reflexivity. Qed.

(** An address built by the library from a path keeps the path, up to 108
    bytes; a longer one aborts. *)
Theorem C78_built_path : forall f path, 0 ∉ path ->
  ((length path <= 108)%nat -> exists g, new_sockaddr_unix f path = Done g /\ path_bytes g = path) /\
  ((108 < length path)%nat -> new_sockaddr_unix f path = Panic).
Proof.
  intros f path H0. unfold new_sockaddr_unix. split; intros H.
  - replace (108 <? length path)%nat with false by lia. eexists. split; [reflexivity|]. cbn [path_bytes].
    exact (until_nul_pad path _ H0).
  - replace (108 <? length path)%nat with true by lia. reflexivity.
Qed.
Print Assumptions C78_built_path.
Example C78_built_path_nonvacuous : exists g, new_sockaddr_unix 1 path78 = Done g /\ path_bytes g = path78 /\ new_sockaddr_unix 1 (replicate 109 97) = Panic.
Proof. eexists. split; [reflexivity|]. split; vm_compute; reflexivity. Qed.

(** ** C79 *)
(** A string is read as an IPv4 address exactly if it is four numbers not
    above 255 separated by dots, and then as those four bytes. *)
Theorem C79_ipv4 : forall s bs, ip_from_string s = Done (Some (IP4 bs)) <->
  exists a b c d va vb vc vd, s = dotted a b c d /\ bs = [va; vb; vc; vd] /\
    reads_as a va /\ reads_as b vb /\ reads_as c vc /\ reads_as d vd /\ va <= 255 /\ vb <= 255 /\ vc <= 255 /\ vd <= 255.
Proof. exact v4_text_iff. Qed.
Print Assumptions C79_ipv4.

(** The device list of a file of IPv4 devices *)
Theorem C79_device_list_partial : forall f l, device_file f l -> ips_from_ifaddrs f = Done (map IP4 l ++ [IP4 [0; 0; 0; 0]]).
Proof. exact device_file_list. Qed.
Print Assumptions C79_device_list_partial.

Definition text (s : string) : list Z := chars s.
Example C79_nonvacuous :
  ip_from_string (text "192.168.0.255") = Done (Some (IP4 [192; 168; 0; 255])) /\
  ip_from_string (text "192.168.0.256") = Done None /\ ip_from_string (text "1.2.3") = Done None /\
  ips_from_ifaddrs (text "lo 73 127.0.0.1 255.0.0.0" ++ [10] ++ text "eth0 4163 10.0.0.7 255.0.0.0" ++ [10]) =
    Done [IP4 [127; 0; 0; 1]; IP4 [10; 0; 0; 7]; IP4 [0; 0; 0; 0]] /\
  device_line (text "lo 73 127.0.0.1 255.0.0.0") [127; 0; 0; 1].
Proof.
  split; [vm_compute; reflexivity|]. split; [vm_compute; reflexivity|]. split; [vm_compute; reflexivity|]. split; [vm_compute; reflexivity|].
  assert (D : forall c s, forallb (fun x => negb (x =? c)) s = true -> no_char c s).
  { intros c s H Hin. rewrite forallb_forall in H. apply elem_of_list_In in Hin. apply H in Hin. rewrite Z.eqb_refl in Hin. discriminate Hin. }
  refine (dl (text "lo") (text "73") (text "127") (text "0") (text "0") (text "1") (text "255.0.0.0") 127 0 0 1 _ _ _ _ _ _ _ _ _ _ _ _ _); try lia;
    first [apply D; vm_compute; reflexivity|apply numeral_value; split; [discriminate|split; [vm_compute; repeat constructor; discriminate|vm_compute; reflexivity]]].
Qed.

(** Eight groups are read as decimal numbers, ... *)
Theorem C79_ipv6_decimal : forall ps gs, Forall2 reads_as ps gs -> Forall (fun g => g <= 65535) gs -> length gs = 8%nat ->
  ip_from_string (colons ps) = Done (Some (IP6 (group_bytes gs))).
Proof. exact v6_text_decimal. Qed.
Print Assumptions C79_ipv6_decimal.
Example C79_ipv6_decimal_nonvacuous : ip_from_string (text "1:2:3:4:5:6:7:256") = Done (Some (IP6 [0;1;0;2;0;3;0;4;0;5;0;6;0;7;1;0])).
Proof. vm_compute. reflexivity. Qed.
(** A double colon between groups stands for the zero groups that are missing. *)
Theorem C79_ipv6_gap : forall ps gs qs hs, Forall2 reads_as ps gs -> Forall2 reads_as qs hs -> Forall (fun g => g <= 65535) (gs ++ hs) ->
  gs <> [] -> hs <> [] -> (length gs + length hs <= 7)%nat ->
  ip_from_string (colons (ps ++ [] :: qs)) = Done (Some (IP6 (group_bytes (gs ++ replicate (8 - length gs - length hs) 0 ++ hs)))).
Proof. exact v6_text_gap. Qed.
Print Assumptions C79_ipv6_gap.
Example C79_ipv6_gap_nonvacuous :
  colons [text "1"; text "2"; []; text "513"] = text "1:2::513" /\
  ip_from_string (text "1:2::513") = Done (Some (IP6 [0;1;0;2;0;0;0;0;0;0;0;0;0;0;2;1])).
Proof. split; vm_compute; reflexivity. Qed.
(** ... so a hexadecimal group means something else or nothing; the wildcard
    and the loopback address are not recognised; a ninth group aborts. *)
Theorem C79_ipv6_refuted :
  (exists gs, Forall (fun g => 0 <= g < 65536) gs /\ length gs = 8%nat /\
    exists bs, ip_from_string (v6_text gs) = Done (Some (IP6 bs)) /\ bs <> group_bytes gs) /\
  (exists gs, Forall (fun g => 0 <= g < 65536) gs /\ length gs = 8%nat /\ ip_from_string (v6_text gs) = Done None) /\
  ip_from_string (text "::") = Done None /\ ip_from_string (text "::1") = Done None /\
  ip_from_string (text "1:2:3:4:5:6:7:8:9") = Panic /\ ip_from_string (text "1:2:3:4:5:6:7:8::") = Panic.
Proof.
  split. { exists [1; 2; 3; 4; 5; 6; 7; 16]. split; [repeat constructor; lia|]. split; [reflexivity|]. eexists. split; [vm_compute; reflexivity|]. vm_compute. discriminate. }
  split. { exists [65152; 0; 0; 0; 0; 0; 0; 1]. split; [repeat constructor; lia|]. split; [reflexivity|]. vm_compute. reflexivity. }
  repeat split; vm_compute; reflexivity.
Qed.
Print Assumptions C79_ipv6_refuted.
(** A device with an IPv6 address such as ::1 aborts the first use of the list. *)
Theorem C79_device_list_refuted : ips_from_ifaddrs (text "lo 73 ::1 128" ++ [10]) = Panic.
Proof. vm_compute. reflexivity. Qed.
Print Assumptions C79_device_list_refuted.

(** ** C80 *)
(** The bytes written are as many as returned, at most the size of the buffer,
    and a multiple of eight; if the names are shorter than 65509 bytes and
    contain no NUL, walking them gives the entries. Missing: longer names. *)
Theorem C80_buffer_partial : forall w c fd n w' r l, step w c (Getdents fd n) = Done (w', RetDents r l) -> n < 2 ^ 31 ->
  Z.of_nat (length (pack_dirents l)) = r /\ r <= n /\ r mod 8 = 0 /\ (Forall storable l -> dirents 0 (pack_dirents l) l).
Proof. exact getdents_buffer. Qed.
Print Assumptions C80_buffer_partial.
(** Walking has one result only. *)
Theorem C80_unambiguous : forall o bs l1 l2, dirents o bs l1 -> dirents o bs l2 -> l1 = l2.
Proof. intros o bs l1 l2 H1. exact (dirents_unique o bs l1 H1 l2). Qed.
Print Assumptions C80_unambiguous.

Example C80_nonvacuous : exists wx, run fresh_world [(1, Open "/" 0 0); (1, Getdents 3 60)] = Some wx /\
  (exists r l, nth_error wx.2 1 = Some (RetDents r l) /\ r = 48 /\ length l = 2%nat /\
   length (pack_dirents l) = 48%nat /\
   forallb (fun e => (String.length (fst e) <=? 65508)%nat && (0 <=? snd e) && (snd e <? 2 ^ 64) && forallb (fun c => negb (c =? 0)) (chars (fst e))) l = true).
Proof.
  apply (ex_some (fresh_world, @nil out)); [vm_compute; reflexivity|]. cbv beta. eexists _, _.
  split; [vm_compute; reflexivity|]. split; [reflexivity|]. split; [reflexivity|]. split; vm_compute; reflexivity.
Qed.

(** A name of 65510 bytes: its record length does not fit in two bytes and a
    walker never gets past the record. *)
Definition big80 : string := String.string_of_list_ascii (replicate 65510 "a"%char).
Lemma no_walk_of_stuck o bs k : stuck k bs = true -> forall l, ~ dirents o bs l.
Proof. intros H l D. rewrite (dirents_not_stuck o bs l D k) in H. discriminate H. Qed.
Theorem C80_long_name_refuted : exists wx, run fresh_world [(1, Mkdir ("/" +:+ big80) 511); (1, Open "/" 0 0); (1, Getdents 3 200000)] = Some wx /\
  exists r l, nth_error wx.2 2 = Some (RetDents r l) /\ forall l', ~ dirents 0 (pack_dirents l) l'.
Proof.
  assert (H : exists wx, run fresh_world [(1, Mkdir ("/" +:+ big80) 511); (1, Open "/" 0 0); (1, Getdents 3 200000)] = Some wx /\
    match nth_error wx.2 2 with Some (RetDents r l) => stuck 20 (pack_dirents l) | _ => false end = true).
  { run_ex (fresh_world, @nil out) (Ret 0). }
  destruct H as (wx & Hr & H). exists wx. split; [exact Hr|].
  destruct (nth_error wx.2 2) as [[]|]; try discriminate H. eexists _, _. split; [reflexivity|]. exact (no_walk_of_stuck 0 _ 20 H).
Qed.
Print Assumptions C80_long_name_refuted.

(** ** C81 *)
(** getcwd: the whole string and its NUL, within the buffer, or nothing *)
Theorem C81_getcwd_buffer : forall cwd m p n, 0 <= n ->
  (Z.of_nat (length cwd) + 1 <= n -> exists m', getcwd_mem cwd m p n = Done (m', 0) /\ lies m' p (cwd ++ [0]) /\
     only_within m m' p (Z.of_nat (length cwd) + 1)) /\
  (n < Z.of_nat (length cwd) + 1 -> getcwd_mem cwd m p n = Done (m, if n =? 0 then err EINVAL else err ERANGE)).
Proof. intros cwd m p n Hn. split; [exact (getcwd_fits cwd m p n)|exact (getcwd_small cwd m p n Hn)]. Qed.
Print Assumptions C81_getcwd_buffer.
(** it is the working directory of the calling process that is written *)
Theorem C81_getcwd_call : forall w c n w' o cwd m p, step w c (Getcwd n) = Done (w', o) -> w_cwd w !! c = Some cwd -> 0 <= n ->
  (forall s, o = RetPath s -> exists m', getcwd_mem (chars s) m p n = Done (m', 0)) /\
  (forall r, o = Ret r -> getcwd_mem (chars (render cwd)) m p n = Done (m, r)).
Proof. exact getcwd_agree. Qed.
Print Assumptions C81_getcwd_call.
(** and chdir to it changes nothing *)
Theorem C81_getcwd_then_chdir : forall w c n w1 s, reach true w -> step w c (Getcwd n) = Done (w1, RetPath s) ->
  (forall cwd, w_cwd w !! c = Some cwd -> denotes cwd s cwd) /\
  exists w' r, step w1 c (Chdir s) = Done (w', Ret r) /\ w_cwd w' = w_cwd w.
Proof. exact getcwd_chdir. Qed.
Print Assumptions C81_getcwd_then_chdir.
Example C81_nonvacuous :
  (exists wx, run fresh_world [(1, Mkdir "/tmp/a" 511); (1, Chdir "tmp/a"); (1, Getcwd 7); (1, Getcwd 6); (1, Chdir "/tmp/a")] = Some wx /\
    drop 1 wx.2 = [Ret 0; RetPath "/tmp/a"; Ret (-34); Ret 0]) /\
  exists m', getcwd_mem (chars "/tmp/a") (fun _ => 7) 50 7 = Done (m', 0) /\ load m' 49 9 = [7; 47; 116; 109; 112; 47; 97; 0; 7].
Proof. split; [run_ex (fresh_world, @nil out) (Ret 0)|]. eexists. split; [reflexivity|]. vm_compute. reflexivity. Qed.

(** gethostname and getifaddrs stay within the buffer; what is written is a
    prefix of the name with its NUL, resp. the text of the device file.
    Missing: termination, see below. *)
Theorem C81_names_partial :
  (forall m p n, 0 <= n -> exists m', gethostname_mem m p n = Done (m', 0) /\
     lies m' p (take (Z.to_nat n) [76; 105; 110; 100; 0]) /\ only_within m m' p (Z.min n 5)) /\
  (forall m p n, n < 0 -> gethostname_mem m p n = Done (m, err EINVAL)) /\
  (forall devs m p n,
    (Z.of_nat (length devs) < n -> exists m', getifaddrs_mem devs m p n = Done (m', 0) /\ lies m' p devs /\ only_within m m' p (Z.of_nat (length devs))) /\
    (n <= Z.of_nat (length devs) -> getifaddrs_mem devs m p n = Done (m, err EOPNOTSUPP))).
Proof.
  split; [exact hostname_spec|]. split; [|exact ifaddrs_spec].
  intros m p n H. unfold gethostname_mem. replace (n <? 0) with true by lia. reflexivity.
Qed.
Print Assumptions C81_names_partial.
Example C81_names_nonvacuous : exists m', gethostname_mem (fun _ => 7) 50 64 = Done (m', 0) /\ load m' 49 8 = [7; 76; 105; 110; 100; 0; 7; 7].
Proof. eexists. split; [reflexivity|]. vm_compute. reflexivity. Qed.
(** Success without a terminating NUL: a host name buffer of four bytes, and
    any buffer for the device list. *)
Theorem C81_no_nul_refuted :
  (exists m', gethostname_mem (fun _ => 7) 50 4 = Done (m', 0) /\ load m' 50 5 = [76; 105; 110; 100; 7]) /\
  (forall devs m p n, Z.of_nat (length devs) < n ->
    exists m', getifaddrs_mem devs m p n = Done (m', 0) /\ m' (p + Z.of_nat (length devs)) = m (p + Z.of_nat (length devs))).
Proof.
  split; [eexists; split; [reflexivity|vm_compute; reflexivity]|].
  intros devs m p n H. destruct (proj1 (ifaddrs_spec devs m p n) H) as (m' & E & _ & W). exists m'. split; [exact E|]. apply W. lia.
Qed.
Print Assumptions C81_no_nul_refuted.
Example C81_no_nul_nonvacuous : exists m', getifaddrs_mem [108; 111] (fun _ => 7) 50 100 = Done (m', 0) /\ load m' 50 3 = [108; 111; 7].
Proof. eexists. split; [reflexivity|]. vm_compute. reflexivity. Qed.

(** ** C82 *)
Theorem C82_set_operations :
  (fd_set fdset_new /\ forall x, ~ member fdset_new x) /\
  (forall s fd, fd_set s -> valid_fd fd -> exists s', fdset_set s fd = Done s' /\ fd_set s' /\ forall x, member s' x <-> member s x \/ x = fd) /\
  (forall s fd, fd_set s -> valid_fd fd -> exists s', fdset_clear s fd = Done s' /\ fd_set s' /\ forall x, member s' x <-> member s x /\ x <> fd) /\
  (forall s, fd_set s -> fdset_is_empty s = true <-> forall x, ~ member s x).
Proof. exact (conj new_spec (conj set_spec (conj clear_spec empty_spec))). Qed.
Print Assumptions C82_set_operations.
Example C82_nonvacuous : exists s, fdset_set fdset_new 70 = Done s /\ fdset_is_set s 70 = Done true /\ fdset_is_set s 6 = Done false /\
  fdset_is_empty s = false /\ fdset_clear s 70 = Done fdset_new.
Proof. eexists. split; [reflexivity|]. repeat split. Qed.

(** When no two of the program's descriptors share a host descriptor, the
    descriptors added are exactly those whose host descriptor the kernel
    reports. Missing: shared host descriptors. *)
Theorem C82_kernel_answer_partial : forall kernel self n t,
  fd_set self -> 0 <= n <= 1024 -> Forall (fun x => valid_fd (snd x)) t -> NoDup (map fst t) ->
  exists s', set_from_kernelfds kernel self n t = Done s' /\ fd_set s' /\
    forall x, member s' x <-> member self x \/ exists raw, 0 <= raw < n /\ (raw, x) ∈ t /\ member kernel raw.
Proof. exact kernel_set_spec. Qed.
Print Assumptions C82_kernel_answer_partial.
Example C82_kernel_answer_nonvacuous : exists k s, fdset_set fdset_new 9 = Done k /\ NoDup (map fst [(8, 3); (9, 70)]) /\
  set_from_kernelfds k fdset_new 10 [(8, 3); (9, 70)] = Done s /\ fdset_is_set s 70 = Done true /\ fdset_is_set s 3 = Done false.
Proof. eexists _, _. split; [reflexivity|]. split; [cbn; repeat constructor; set_solver|]. split; [vm_compute; reflexivity|]. split; reflexivity. Qed.

(** With dup two descriptors share the host descriptor: the kernel says it is
    ready, but only the first one is reported. *)
Theorem C82_shared_refuted : exists kernel t s, member kernel 9 /\ (9, 3) ∈ t /\ (9, 4) ∈ t /\
  set_from_kernelfds kernel fdset_new 10 t = Done s /\ member s 3 /\ ~ member s 4.
Proof.
  exists (alter (fun w => Z.lor w (2 ^ 9)) 0%nat fdset_new), [(9, 3); (9, 4)]. eexists.
  split; [vm_compute; reflexivity|]. split; [left|]. split; [right; left|]. split; [vm_compute; reflexivity|].
  split; [vm_compute; reflexivity|]. vm_compute. discriminate.
Qed.
Print Assumptions C82_shared_refuted.
