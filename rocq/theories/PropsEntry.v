(** C107-C112: calls as the dispatcher receives them, a number and six words. *)
From stdpp Require Import gmap.
From Coq Require Import Ascii.
From Verif Require Import Base PathModel FsModel FsBoot FsSpec FsReachSpec FsNameSpec FsIoSpec FsTree FsViewSpec FsAbortSpec FsView6.
From Verif Require Import AbiModel AbiSpec EntryModel EntrySpec EntryProofs EntryProofs2 EntryProofs3 EntryProofs4 EntryProofs5 EntryProofs6.
Local Open Scope list_scope.
Local Open Scope Z_scope.

(** Programs for the examples: memory all zero, or all seven, at the first start *)
Definition start (b : Z) : state := St fresh_world (fun _ => b) [].
Fixpoint pokes (p : Z) (bs : list Z) : list act := match bs with [] => [] | b :: r => Poke p b :: pokes (p + 1) r end.
Definition put (p : Z) (s : string) : list act := pokes p (chars s ++ [0]).
Definition call (n : Z) (l : list Z) : act :=
  Call 1 n (Args (nth 0 l 0) (nth 1 l 0) (nth 2 l 0) (nth 3 l 0) (nth 4 l 0) (nth 5 l 0)) (fun k => k mod 256).
(** the last answers, and a piece of memory *)
Definition gives (b : Z) (l : list act) (ys : list (option Z)) (p n : Z) (bs : list Z) (tty : list Z) : bool :=
  match acts (start b) l with
  | Some (s, zs) => bool_decide (drop (length zs - length ys) zs = ys) && bool_decide (bytes_at (s_m s) p n = bs) && bool_decide (s_tty s = tty)
  | None => false
  end.

(** ** C107 *)

(** A call whose words stand for values of the types of its parameters does
    what the call with these values does: it aborts if that aborts, and
    otherwise leaves the same state and answers the same number. (Only writev
    to the terminal of bytes that are no text answers EIO.) *)
Theorem C107_understood : forall s c n a rnd ts vs o,
  (n, ts) ∈ table -> well_typed (s_m s) ts (words a) vs -> meaning (s_m s) n vs = Some o ->
  (step (s_w s) c o = Panic -> enter s c n a rnd = Panic) /\
  (forall w' x, step (s_w s) c o = Done (w', x) -> exists s' r, enter s c n a rnd = Done (s', r) /\ s_w s' = w' /\
     (garbled (s_w s) c o -> r = Some (-5)) /\ (~ garbled (s_w s) c o -> r = answer x)).
Proof.
  intros s c n a rnd ts vs o T K M. split; [exact (call_panic _ _ _ _ rnd _ _ _ T K M)|].
  intros w' x S. eexists. eexists. split; [exact (call_done _ _ _ _ rnd _ _ _ _ _ T K M S)|]. split; [reflexivity|]. split.
  - intros G. apply not_text_garbled in G. rewrite G. reflexivity.
  - intros G. destruct (not_text (s_w s) c o) eqn:N; [apply not_text_garbled in N; contradiction|reflexivity].
Qed.
Print Assumptions C107_understood.

(** The first word that stands for no value decides the answer, and nothing happens. *)
Theorem C107_refused : forall s c cwd n a rnd ts r,
  w_cwd (s_w s) !! c = Some cwd -> (n, ts) ∈ table -> Forall is_word (words a) -> first_bad (s_m s) ts (words a) r ->
  enter s c n a rnd = Done (s, Some r).
Proof. intros s c cwd n a rnd ts r L T W B. exact (call_refused _ _ _ _ _ _ _ _ L T W B). Qed.
Print Assumptions C107_refused.

(** A number that is no call: -1, and nothing happens *)
Theorem C107_unknown : forall s c cwd n a rnd,
  w_cwd (s_w s) !! c = Some cwd -> (forall ts, (n, ts) ∉ table) -> n ∉ others -> enter s c n a rnd = Done (s, Some (-1)).
Proof. intros s c cwd n a rnd L H N. exact (call_unknown _ _ _ _ _ _ L H N). Qed.
Print Assumptions C107_unknown.

(** There is no other case, except a string without an end, which aborts. The
    values are determined, and have a meaning unless the call is a query. *)
Theorem C107_cases : forall s c n a rnd ts,
  (n, ts) ∈ table -> Forall is_word (words a) ->
  (exists vs, well_typed (s_m s) ts (words a) vs /\ (query n \/ exists o, meaning (s_m s) n vs = Some o)) \/
  (exists r, first_bad (s_m s) ts (words a) r) \/
  (enter s c n a rnd = Panic /\ exists k p, nth_error ts k = Some APath /\ nth_error (words a) k = Some p /\ endless (s_m s) p).
Proof.
  intros s c n a rnd ts T W. destruct (chain_cases (s_m s) ts (words a)) as [(vs & K)|[(r & K)|(j & w & N1 & N2 & E & K)]];
    [rewrite len_words; eapply table_len; eassumption|exact W| | |].
  - left. exists vs. split; [exact K|]. destruct (meaning_total _ _ _ _ _ T K) as [(o & M & _)|Q]; eauto.
  - right. left. eauto.
  - right. right. split; [|eauto]. unfold enter. rewrite (decode_chain _ _ _ _ T), K. unfold perform. destruct (w_cwd (s_w s) !! c); reflexivity.
Qed.
Print Assumptions C107_cases.
Theorem C107_values_unique : forall m t w v v', stands m t w v -> stands m t w v' -> v = v'.
Proof. exact stands_fun. Qed.
Print Assumptions C107_values_unique.

(** Words after the parameters do not matter. *)
Theorem C107_extra : forall s c n a a' rnd ts,
  (n, ts) ∈ table -> take (length ts) (words a) = take (length ts) (words a') -> enter s c n a rnd = enter s c n a' rnd.
Proof. intros s c n a a' rnd ts T H. unfold enter. rewrite (decode_extra _ _ _ _ _ T H). reflexivity. Qed.
Print Assumptions C107_extra.

(** But parameters that the call does not need do: open without O_CREAT, fcntl
    F_GETFL, read and write of no bytes. Three programs that differ in a word
    without a role; the second of each pair fails. *)
Definition opened : list act := put 4096 "/f" ++ [call 10 [4096; 66; 438]].
Theorem C107_needless_word_refuted :
  gives 0 (opened ++ [call 10 [4096; 0; 0]; call 10 [4096; 0; 2 ^ 32]]) [Some 4; Some (-22)] 0 0 [] [] = true /\
  gives 0 (opened ++ [call 28 [3; 3; 0]; call 28 [3; 3; 2 ^ 32]]) [Some 2; Some (-22)] 0 0 [] [] = true /\
  gives 0 (opened ++ [call 12 [3; 8; 0]; call 12 [3; 0; 0]; call 13 [3; 8; 0]; call 13 [3; 0; 0]]) [Some 0; Some (-14); Some 0; Some (-14)] 0 0 [] [] = true.
Proof. split; [vm_compute; reflexivity|]. split; vm_compute; reflexivity. Qed.
Print Assumptions C107_needless_word_refuted.

(** A program: it makes a directory with a name in UTF-8, renames it, opens with
    a negative descriptor (as a 32-bit word), with a sign-extended one, with a
    name that is not UTF-8, with a null name, and calls number 999. *)
Example C107_nonvacuous :
  gives 0 (pokes 100 [47; 195; 169; 0] ++ put 200 "/d" ++ pokes 300 [47; 255; 0] ++
    [call 131 [100; 511]; call 6 [100; 200]; call 130 [200]; call 24 [2 ^ 32 - 1]; call 24 [2 ^ 64 - 1]; call 131 [300; 511]; call 131 [0; 2 ^ 32]; call 999 []])
    [Some 0; Some 0; Some 0; Some (-9); Some (-22); Some (-84); Some (-14); Some (-1)] 0 0 [] [] = true.
Proof. vm_compute. reflexivity. Qed.
Example C107_nonvacuous_typed : let m := store (fun _ => 0) 100 [47; 195; 169; 0] in
  (131, [APath; AUint]) ∈ table /\ well_typed m [APath; AUint] (words (Args 100 511 7 7 7 7)) [Txt (String "/" (String "195" (String "169" EmptyString))); Num 511] /\
  meaning m 131 [Txt (String "/" (String "195" (String "169" EmptyString))); Num 511] = Some (Mkdir (String "/" (String "195" (String "169" EmptyString))) 511) /\
  first_bad m [APath; AUint] (words (Args 100 (2 ^ 32) 7 7 7 7)) (-22).
Proof.
  cbv zeta. split; [repeat (first [apply elem_of_list_here|apply elem_of_list_further])|].
  assert (P : stands (store (fun _ => 0) 100 [47; 195; 169; 0]) APath 100 (Txt (String "/" (String "195" (String "169" EmptyString))))).
  { constructor; [lia| |].
    - split; [|split; [|vm_compute; reflexivity]].
      + intros k b H. destruct k as [|[|[|[|k]]]]; vm_compute in H; try (injection H as <-; reflexivity). destruct k; discriminate H.
      + intros H. vm_compute in H. repeat (apply elem_of_cons in H as [H|H]; [discriminate H|]). apply elem_of_nil in H. exact H.
    - apply utf8_unicode. vm_compute. reflexivity. }
  assert (U : stands (store (fun _ => 0) 100 [47; 195; 169; 0]) AUint 511 (Num 511)) by (constructor; unfold is_uint; lia).
  split; [apply List.Forall2_cons; [exact P|apply List.Forall2_cons; [exact U|apply List.Forall2_nil]]|]. split; [reflexivity|].
  eexists 1%nat, [_], AUint, (2 ^ 32). split; [apply List.Forall2_cons; [exact P|apply List.Forall2_nil]|]. split; [reflexivity|]. split; [reflexivity|].
  constructor. lia.
Qed.

(** ** C108 *)

(** A call changes the caller's memory at most in the structure or buffer that
    its words describe. *)
Theorem C108_call : forall s c n a rnd s' r y,
  Forall is_word (words a) -> enter s c n a rnd = Done (s', r) -> ~ in_area n a y -> s_m s' y = s_m s y.
Proof. intros s c n a rnd s' r y W H N. exact (call_within _ _ _ _ _ _ _ W H y N). Qed.
Print Assumptions C108_call.

(** Programs: a byte that no assignment and no call of the program concerns
    never changes. *)
Theorem C108_program : forall l s s' ys y,
  Forall act_ok l -> acts s l = Some (s', ys) -> Forall (fun x => ~ touches x y) l -> s_m s' y = s_m s y.
Proof. intros l s s' ys y W H N. exact (acts_within _ _ _ _ _ W H N). Qed.
Print Assumptions C108_program.

(** A call that fails changes no memory. (Missing: fstatfs and pipe, see below;
    buffers of two gigabytes and more, where the count does not fit the answer.) *)
Theorem C108_failed_partial : forall s c n a rnd s' r,
  Forall is_word (words a) -> enter s c n a rnd = Done (s', Some r) -> r < 0 -> n ∉ [19; 66; 67] -> snd (area n a) < 2 ^ 31 ->
  s_m s' = s_m s.
Proof. exact call_fails. Qed.
Print Assumptions C108_failed_partial.

(** fstatfs of a pipe fails, but has written eight bytes; so has the pipe call
    that finds only one free descriptor (it writes that number, four bytes). *)
Theorem C108_failed_refuted :
  gives 7 [call 66 [64]; call 19 [3; 100]] [Some 0; Some (-9)] 155 10 [7; 20; 0; 0; 0; 0; 0; 0; 0; 7] [] = true /\
  gives 7 (repeat (call 24 [1]) 1020 ++ [call 66 [64]]) [Some 1022; Some (-23)] 63 6 [7; 255; 3; 0; 0; 7] [] = true.
Proof. split; [vm_compute; reflexivity|vm_cast_no_check (eq_refl true)]. Qed.
Print Assumptions C108_failed_refuted.

Example C108_nonvacuous :
  gives 7 (pokes 4096 [47; 102; 0; 97; 98; 99] ++ [call 10 [4096; 66; 438]; call 13 [3; 4099; 3]; call 14 [3; 0; 0]; call 12 [3; 20; 8]])
    [Some 3; Some 3; Some 0; Some 3] 18 7 [7; 7; 97; 98; 99; 7; 7] [] = true.
Proof. vm_compute. reflexivity. Qed.

(** ** C109 *)

(** What the call with values reports lies in the caller's memory: the bytes
    read, the fields of the stat structure, the records of the directory, the
    path of the working directory, the two descriptors of a pipe. *)
Theorem C109_delivered : forall s c n a rnd ts vs o w' x s' r,
  (n, ts) ∈ table -> well_typed (s_m s) ts (words a) vs -> meaning (s_m s) n vs = Some o -> step (s_w s) c o = Done (w', x) ->
  ~ from_random (s_w s) c o -> snd (area n a) < 2 ^ 31 -> enter s c n a rnd = Done (s', r) ->
  delivered x (fst (area n a)) (s_m s').
Proof. exact call_delivers. Qed.
Print Assumptions C109_delivered.

(** statfs answers as stat does, and fills the structure. *)
Theorem C109_statfs : forall s c a rnd p b,
  well_typed (s_m s) [APath; APtr] (words a) [Txt p; Num b] ->
  match step (s_w s) c (Stat p) with
  | Done (_, RetStat _ _ _ _ _) => exists m', enter s c 26 a rnd = Done (St (s_w s) m' (s_tty s), Some 0) /\ Forall (fun f => field m' (b + fst f) 8 (snd f)) fs_fields
  | Done (_, Ret r) => enter s c 26 a rnd = Done (s, Some r)
  | Done _ => False
  | Panic => enter s c 26 a rnd = Panic
  end.
Proof. exact statfs_stat. Qed.
Print Assumptions C109_statfs.
Theorem C109_fstatfs_partial : forall s c a rnd fd b,
  well_typed (s_m s) [AInt; APtr] (words a) [Num fd; Num b] ->
  (forall i pos fl, w_fds (s_w s) !! (c, fd) = Some (FFile i pos fl) -> step (s_w s) c (Fstat fd) <> Panic ->
     exists m', enter s c 19 a rnd = Done (St (s_w s) m' (s_tty s), Some 0) /\ Forall (fun f => field m' (b + fst f) 8 (snd f)) fs_fields) /\
  (w_fds (s_w s) !! (c, fd) = None -> step (s_w s) c (Fstat fd) <> Panic -> enter s c 19 a rnd = Done (s, Some (-9))).
Proof. exact fstatfs_fstat. Qed.
Print Assumptions C109_fstatfs_partial.

(** The whole structure is not determined: of a regular file the block counts
    (offset 48) are zero and the times (56 to 103) are what the caller had
    there; of a character device so are the block counts. *)
Theorem C109_stat_refuted : forall b, b = 0 \/ b = 7 ->
  gives b (opened ++ [call 17 [3; 200]]) [Some 0] 248 10 [0; 0; 0; 0; 0; 0; 0; 0; b; b] [] = true /\
  gives b (opened ++ [call 17 [3; 200]]) [Some 0] 256 48 (repeat b 48) [] = true /\
  gives b (put 4096 "/dev/null" ++ [call 9 [4096; 200]]) [Some 0] 248 56 (repeat b 56) [] = true.
Proof.
  intros b [->| ->].
  - split; [vm_compute; reflexivity|]. split; vm_compute; reflexivity.
  - split; [vm_compute; reflexivity|]. split; vm_compute; reflexivity.
Qed.
Print Assumptions C109_stat_refuted.

(** getcwd; pipe; the stat structure of a file of three bytes: device 20,
    number 9, mode 0100644, one link, user and group 1000, rdev 0, size 3 *)
Example C109_nonvacuous :
  gives 7 [call 47 [50; 2]] [Some 0] 49 4 [7; 47; 0; 7] [] = true /\
  gives 7 [call 66 [64]] [Some 0] 63 10 [7; 3; 0; 0; 0; 4; 0; 0; 0; 7] [] = true /\
  gives 7 (put 4096 "/f" ++ [call 10 [4096; 66; 420]; call 13 [3; 4096; 3]; call 17 [3; 200]]) [Some 3; Some 3; Some 0] 200 48
    (le 8 20 ++ le 8 9 ++ le 4 33188 ++ le 4 1 ++ le 4 1000 ++ le 4 1000 ++ le 8 0 ++ le 8 3) [] = true /\
  gives 7 (put 4096 "/" ++ [call 26 [4096; 200]]) [Some 0] 248 17 (le 8 540016640 ++ [20; 0; 0; 0; 0; 0; 0; 0; 254]) [] = true.
Proof. split; [vm_compute; reflexivity|]. split; [vm_compute; reflexivity|]. split; vm_compute; reflexivity. Qed.

(** ** C110 *)

(** A call reads only its strings, up to the NUL, and the buffers to be written:
    if two memories agree there, it aborts in both or in none, and the state
    after it, the answer and the output are the same; so is every byte of
    memory that was the same before. *)
Theorem C110_reads_only : forall s1 s2 c n a rnd,
  Forall is_word (words a) -> same_but s1 s2 -> agree (s_m s1) (s_m s2) n a ->
  match enter s1 c n a rnd, enter s2 c n a rnd with
  | Done (t1, r1), Done (t2, r2) => same_but t1 t2 /\ r1 = r2 /\ forall y, s_m s2 y = s_m s1 y -> s_m t2 y = s_m t1 y
  | Panic, Panic => True
  | _, _ => False
  end.
Proof. exact enter_same. Qed.
Print Assumptions C110_reads_only.

(** Two memories that agree on "/f" and its NUL and nowhere else *)
Example C110_nonvacuous : let m1 := store (fun _ => 0) 100 [47; 102; 0] in let m2 := store (fun _ => 7) 100 [47; 102; 0] in
  agree m1 m2 131 (Args 100 511 0 0 0 0) /\ same_but (St fresh_world m1 []) (St fresh_world m2 []) /\
  match enter (St fresh_world m2 []) 1 131 (Args 100 511 0 0 0 0) (fun _ => 0) with Done (_, r) => bool_decide (r = Some 0) | Panic => false end = true.
Proof.
  cbv zeta. split; [|split; [split; reflexivity|vm_compute; reflexivity]].
  intros x U. inversion U as [ts k p x' T N1 N2 L A|x' B _|x' B _|k x' B _ _]; subst; try lia.
  apply table_sig in T. vm_compute in T. injection T as <-.
  assert (k = 0%nat) as -> by (destruct k as [|[|k]]; [reflexivity|discriminate N1|destruct k; discriminate N1]). injection N2 as <-.
  assert (x < 103). { destruct (decide (x < 103)) as [Q|Q]; [exact Q|]. exfalso. apply (A 102); [lia|]. vm_compute. reflexivity. }
  assert (x = 100 \/ x = 101 \/ x = 102) as [-> |[-> | ->]] by lia; vm_compute; reflexivity.
Qed.

(** ** C111 *)

(** Whatever a program does with words and memory, the library is in a state
    that calls with values lead to: what is proved of these holds of all
    programs. *)
Theorem C111_states : forall l s' ys b,
  Forall act_ok l -> acts (start b) l = Some (s', ys) -> reach_any (s_w s').
Proof. intros l s' ys b W H. apply (acts_reach _ _ _ _ W H). exact any_boot. Qed.
Print Assumptions C111_states.

(** The map from paths to objects of C105 predicts calls through words and
    memory: whether they abort, the state, the answer, and what they put into
    memory. (Missing: the calls that [allowed] excludes.) *)
Theorem C111_view_partial : forall s c n a rnd ts vs o v,
  (n, ts) ∈ table -> well_typed (s_m s) ts (words a) vs -> meaning (s_m s) n vs = Some o ->
  reach false (s_w s) -> shows (s_w s) v -> allowed v c o = true ->
  (aborts v c o = true -> enter s c n a rnd = Panic) /\
  (aborts v c o = false -> exists s' r v' x, enter s c n a rnd = Done (s', r) /\ aexec v c o = (v', x) /\ shows (s_w s') v' /\ reach false (s_w s') /\
     (garbled (s_w s) c o -> r = Some (-5)) /\ (~ garbled (s_w s) c o -> r = answer x) /\
     (~ from_random (s_w s) c o -> snd (area n a) < 2 ^ 31 -> delivered x (fst (area n a)) (s_m s'))).
Proof. exact enter_view. Qed.
Print Assumptions C111_view_partial.

(** Data written to a file come back: k bytes from address b, read to address d,
    are at d what they were at b (the areas may overlap), and nothing else in
    memory changes. *)
Theorem C111_round_trip : forall s c fd i pos fl l b d k e4 e5 e6 g5 g6 r1 r2,
  reach true (s_w s) -> w_fds (s_w s) !! (c, fd) = Some (FFile i pos fl) -> bytes (s_w s) i = Some l -> Z.land fl 3 = 2 ->
  b <> 0 -> d <> 0 -> 0 <= k < 2 ^ 31 -> pos < 2 ^ 31 ->
  exists s1 s2, enter s c 13 (Args fd b k e4 e5 e6) r1 = Done (s1, Some k) /\ enter s1 c 126 (Args fd d k pos g5 g6) r2 = Done (s2, Some k) /\
    bytes_at (s_m s2) d k = bytes_at (s_m s) b k /\ only_within (s_m s) (s_m s2) d k.
Proof. exact round_trip. Qed.
Print Assumptions C111_round_trip.

Example C111_nonvacuous :
  gives 7 (put 4096 "/f" ++ pokes 300 [1; 2; 3; 4] ++ [call 10 [4096; 66; 438]; call 13 [3; 300; 4]; call 126 [3; 302; 4; 0]]) [Some 3; Some 4; Some 4]
    299 8 [7; 1; 2; 1; 2; 3; 4; 7] [] = true /\
  (exists w, step fresh_world 1 (Open "/f" 66 438) = Done (w, Ret 3) /\ w_fds w !! (1, 3) = Some (FFile 9 0 2) /\ bytes w 9 = Some []) /\
  Forall act_ok (put 4096 "/f" ++ pokes 300 [1; 2; 3; 4] ++ [call 10 [4096; 66; 438]; call 13 [3; 300; 4]; call 126 [3; 302; 4; 0]]).
Proof.
  split; [vm_compute; reflexivity|]. split; [run_ex fresh_world (Ret 0)|].
  repeat (apply List.Forall_cons; [first [exact I|unfold call, act_ok, words; cbn [nth a1 a2 a3 a4 a5 a6]; repeat (apply List.Forall_cons; [unfold is_word; lia|]); apply List.Forall_nil]|]). apply List.Forall_nil.
Qed.

(** ** C112 *)

(** Text that is sent to the terminal is printed, at the end of what was
    printed before, and no other call prints. (Missing: bytes that are not
    text, see below.) *)
Theorem C112_printed_partial : forall s c n a rnd ts vs o w' x s' r,
  (n, ts) ∈ table -> well_typed (s_m s) ts (words a) vs -> meaning (s_m s) n vs = Some o -> step (s_w s) c o = Done (w', x) ->
  enter s c n a rnd = Done (s', r) ->
  (forall bs, sends (s_w s) c o bs -> unicode bs -> s_tty s' = s_tty s ++ bs) /\
  (forall bs, sends (s_w s) c o bs -> ~ unicode bs -> s_tty s' = s_tty s) /\
  ((forall bs, ~ sends (s_w s) c o bs) -> s_tty s' = s_tty s).
Proof.
  intros s c n a rnd ts vs o w' x s' r T K M S H. rewrite (call_done _ _ _ _ rnd _ _ _ _ _ T K M S) in H. injection H as <- _. cbn [s_tty].
  split; [intros bs B U; rewrite (printed_sends _ _ _ _ B U); reflexivity|].
  split; [intros bs B U; rewrite (printed_lost _ _ _ _ B U); apply app_nil_r|]. intros N. rewrite (printed_none _ _ _ N). apply app_nil_r.
Qed.
Print Assumptions C112_printed_partial.

(** Nothing printed is taken back, and queries and calls that are not understood
    print nothing. *)
Theorem C112_grows : forall l s s' ys, Forall act_ok l -> acts s l = Some (s', ys) -> exists t, s_tty s' = s_tty s ++ t.
Proof. exact acts_tty. Qed.
Print Assumptions C112_grows.
Theorem C112_silent : forall s c n a rnd s' r,
  Forall is_word (words a) -> enter s c n a rnd = Done (s', r) -> n <> 13 -> n <> 170 -> s_tty s' = s_tty s.
Proof.
  intros s c n a rnd s' r W H N1 N2. apply (enter_did _ _ _ _ _ _ _ W) in H. destruct H as [q _|ts vs o w' x T K M S|m' q Q O F]; cbn [s_tty]; [reflexivity| |reflexivity].
  assert (P : printed (s_w s) c o = []); [|rewrite P; apply app_nil_r].
  each_call T; try contradiction; typed K; kinds; cbn [meaning] in M; try discriminate M; injection M as <-; reflexivity.
Qed.
Print Assumptions C112_silent.

(** That all bytes written to stdout appear is false: write answers 1 for each
    byte of a character of two bytes and prints neither; sent at once the
    character is printed. writev of the same bytes answers EIO. writev to
    stdin prints. *)
Definition e_acute : list act := pokes 100 [195; 169] ++ pokes 200 ([100; 0; 0; 0; 0; 0; 0; 0] ++ [1; 0; 0; 0; 0; 0; 0; 0]).
Theorem C112_bytes_refuted :
  gives 0 (e_acute ++ [call 13 [1; 100; 1]; call 13 [1; 101; 1]]) [Some 1; Some 1] 0 0 [] [] = true /\
  gives 0 (e_acute ++ [call 13 [1; 100; 2]]) [Some 2] 0 0 [] [195; 169] = true /\
  gives 0 (e_acute ++ [call 170 [1; 200; 1]]) [Some (-5)] 0 0 [] [] = true /\
  gives 0 (pokes 100 [72] ++ pokes 200 ([100; 0; 0; 0; 0; 0; 0; 0] ++ [1; 0; 0; 0; 0; 0; 0; 0]) ++ [call 170 [0; 200; 1]]) [Some 1] 0 0 [] [72] = true.
Proof. split; [vm_compute; reflexivity|]. split; [vm_compute; reflexivity|]. split; vm_compute; reflexivity. Qed.
Print Assumptions C112_bytes_refuted.

(** Output of two calls, also through a duplicate of stdout, is in their order. *)
Example C112_nonvacuous :
  gives 0 (put 100 "hello" ++ [call 24 [1]; call 13 [3; 100; 2]; call 13 [2; 102; 3]; call 11 [1]; call 13 [1; 100; 1]]) [Some 3; Some 2; Some 3; Some 0; Some (-9)] 0 0 []
    [104; 101; 108; 108; 111] = true.
Proof. vm_compute. reflexivity. Qed.
