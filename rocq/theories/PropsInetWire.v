(** C137: the entry point of AF_INET and AF_INET6 sockets *)
From stdpp Require Import gmap.
From Verif Require Import Base AbiModel AbiSpec EntryModel EntrySpec WireSpec PortModel InetModel InetSpec InetRun
  InetWireModel InetWireSpec InetWireProofs InetWireProofs2 InetWireProofs3 InetWireProofs4.
Local Open Scope list_scope.
Local Open Scope Z_scope.

(** Words that ask for a call get that call, its answer and what it leaves in
    memory. *)
Theorem C137_words : forall devs s c n a k o,
  bytes_only (s_m s) -> asks (s_m s) a n o -> ~ beyond (s_i s) c n o -> (forall fd, o = Getsockname fd -> ~ nameless6 (s_i s) c fd) ->
  match step devs (s_i s) c o k with
  | IGo i' t x => answers6 x \/ exists m', enter devs s c n a k = Rep (St i' m') t (told x) /\ found a (s_m s) m' x
  | IDies | IHang => enter devs s c n a k = Crash
  end.
Proof. exact understood. Qed.
Print Assumptions C137_words.

(** They ask for one call at most. *)
Theorem C137_unique : forall m a n o o', bytes_only m -> asks m a n o -> asks m a n o' -> o = o'.
Proof. exact asks_fun. Qed.
Print Assumptions C137_unique.

(** Programs made of words are programs of INET calls: whatever words are
    passed and whatever the memory holds, the state is that of a history with
    the same calls to the kernel, so that C89-C97 hold of it. *)
Theorem C137_program : forall devs m0 l t s,
  bytes_only m0 -> runs devs (St init_inet m0) l t s ->
  bytes_only (s_m s) /\ exists evs, history devs evs (s_i s) /\ calls evs = t.
Proof. intros devs m0 l t s B R. destruct (runs_history _ _ _ _ _ B R) as (X & _ & Y). split; [exact X|exact Y]. Qed.
Print Assumptions C137_program.

(** A call that returns was either refused, with a negative number and without
    any effect, or the one that its words ask for. *)
Theorem C137_refused : forall devs m0 l t s c n a k s2 t2 r,
  bytes_only m0 -> runs devs (St init_inet m0) l t s -> Forall is_word (words a) -> honest t2 -> enter devs s c n a k = Rep s2 t2 r ->
  (s2 = s /\ t2 = [] /\ exists e, r = Some e /\ e < 0) \/
  exists evs o x, asks (s_m s) a n o /\ told x = r /\ history devs evs (s_i s) /\ calls evs = t /\ history devs (evs ++ [Ev (s_i s) c o k t2 x]) (s_i s2).
Proof.
  intros devs m0 l t s c n a k s2 t2 r B R W Ht E. destruct (runs_history _ _ _ _ _ B R) as (B1 & Ho & evs & H & C). subst t.
  destruct (call_history _ _ _ _ _ _ _ _ _ _ B1 W H Ho Ht E) as [_ [X|(o & x & A & T & H2)]]; [left; exact X|]. right. exists evs, o, x. auto.
Qed.
Print Assumptions C137_refused.

(** Memory changes in the received bytes, or in the address and its length; and
    not at all when the answer is an error or the call waits. *)
Theorem C137_frame : forall devs s c n a k s2 t2 r,
  bytes_only (s_m s) -> Forall is_word (words a) -> enter devs s c n a k = Rep s2 t2 r ->
  forall q, ~ may_change n a r q -> s_m s2 q = s_m s q.
Proof. exact frame. Qed.
Print Assumptions C137_frame.

(** The received bytes do not exceed the length that the caller gave. *)
Theorem C137_room : forall devs m0 l t s c n a k s2 t2 v,
  bytes_only m0 -> runs devs (St init_inet m0) l t s -> Forall is_word (words a) -> honest t2 ->
  enter devs s c n a k = Rep s2 t2 (Some v) -> n ∈ [12; 36; 37] -> v <= a3 a.
Proof. exact room. Qed.
Print Assumptions C137_room.

(** The kernel gets the bytes and the addresses that lie in memory. *)
Theorem C137_kernel : forall devs m0 l t s c n a k s2 t2 r e,
  bytes_only m0 -> runs devs (St init_inet m0) l t s -> Forall is_word (words a) -> honest t2 ->
  enter devs s c n a k = Rep s2 t2 r -> e ∈ t2 -> seen (s_m s) n a e.
Proof. exact kernel_sees. Qed.
Print Assumptions C137_kernel.

(** The sixteen bytes that bind was given come back from getsockname (a port
    was chosen), those of connect from getpeername; whatever else memory holds
    by then. *)
Theorem C137_sockname : forall devs s c n a k s2 t2 fd x m2 a' k',
  bytes_only (s_m s) -> asks (s_m s) a n (Bind fd x) -> ia_port x <> 0 -> enter devs s c n a k = Rep s2 t2 (Some 0) ->
  bytes_only m2 -> asks m2 a' 144 (Getsockname fd) -> fits m2 a' ->
  exists m3, enter devs (St (s_i s2) m2) c 144 a' k' = Rep (St (s_i s2) m3) [] (Some 0) /\
    bytes_at m3 (a2 a') 16 = bytes_at (s_m s) (a2 a) 16 /\ number_at m3 (a3 a') = 16.
Proof. exact bind_back. Qed.
Print Assumptions C137_sockname.
Theorem C137_peername : forall devs s c n a k s2 t2 fd x m2 a' k',
  bytes_only (s_m s) -> asks (s_m s) a n (Connect fd x) -> enter devs s c n a k = Rep s2 t2 (Some 0) ->
  bytes_only m2 -> asks m2 a' 145 (Getpeername fd) -> fits m2 a' ->
  exists m3, enter devs (St (s_i s2) m2) c 145 a' k' = Rep (St (s_i s2) m3) [] (Some 0) /\
    bytes_at m3 (a2 a') 16 = bytes_at (s_m s) (a2 a) 16 /\ number_at m3 (a3 a') = 16.
Proof. exact connect_back. Qed.
Print Assumptions C137_peername.

(** IPv6: an address that lies in memory as the system lays it out (family 10)
    is refused by bind, connect and sendto, always. *)
Theorem C137_ipv6_refuted : forall devs s c a k n p w,
  is_word (a3 a) -> is_word (a6 a) -> (n = 33 \/ n = 38) /\ p = a2 a /\ w = a3 a \/ n = 35 /\ p = a5 a /\ w = a6 a ->
  p <> 0 -> w < 2 ^ 32 -> short_at (s_m s) p = 10 -> enter devs s c n a k = Rep s [] (Some (-95)).
Proof. exact ipv6_refused. Qed.
Print Assumptions C137_ipv6_refuted.
(** getsockname of an IPv6 socket without a name brings the library down. *)
Theorem C137_nameless_aborts : forall devs s c a k fd,
  bytes_only (s_m s) -> asks (s_m s) a 144 (Getsockname fd) -> nameless6 (s_i s) c fd -> enter devs s c 144 a k = Crash.
Proof. exact nameless_crash. Qed.
Print Assumptions C137_nameless_aborts.

(** ** Examples *)
Definition cl (k : kans) (n : Z) (ws : list Z) : act :=
  Call 1 n (Args (nth 0 ws 0) (nth 1 ws 0) (nth 2 ws 0) (nth 3 ws 0) (nth 4 ws 0) (nth 5 ws 0)) k.
(** 10.0.0.1, port 80, at address 100; three bytes at 200; a length at 400 *)
Definition fill : list act :=
  [Poke 100 2; Poke 103 80; Poke 104 10; Poke 107 1; Poke 200 7; Poke 201 8; Poke 202 9; Poke 400 16].
Definition at80 : iaddr := IAddr false (Host 16777226) 20480.
Definition devs1 : list addr := [Host 16777226].
Definition gets (bs : list Z) : kans := KAns 0 0 0 0 0 0 (inr EAGAIN) 0 (inl bs) true [] 0.
Definition sends (r : Z) : kans := KAns 0 0 0 0 0 0 (inr EAGAIN) r (inr EAGAIN) true [] 0.

(** A datagram socket is bound, sends three bytes of memory to an address in
    memory, receives two bytes and reports its name; the flags of the type are
    understood; IPv6 addresses and senseless words are refused. *)
Definition talk : list act :=
  fill ++ [cl yes 136 [2; 2 + 2048 + 524288; 17]; cl yes 33 [3; 100; 16]; cl (sends 3) 35 [3; 200; 3; 0; 100; 16];
           cl (gets [5; 6]) 36 [3; 300; 10; 0]; cl yes 144 [3; 500; 400]; cl yes 33 [2 ^ 32; 100; 16]; cl yes 11 [3]].
Definition talk_answers : list (option Z) := replicate 8 None ++ [Some 3; Some 0; Some 3; Some 2; Some 0; Some (-22); Some 0].
Definition talk_kernel : list kcall :=
  [KSocket 0 false false true; KBind 0 at80 0; KSend 0 [7; 8; 9] (Some at80) 3; KRecv 0 10 (inl [5; 6]); KClose 0].
Example C137_nonvacuous :
  exists s, runs devs1 (St init_inet (fun _ => 0)) talk talk_kernel s /\
    acts devs1 (St init_inet (fun _ => 0)) talk = Some (s, talk_kernel, talk_answers).
Proof. apply plays_runs. vm_compute. reflexivity. Qed.
Definition peek_mem (l : list act) (p n : Z) : option (list Z) :=
  match acts devs1 (St init_inet (fun _ => 0)) l with Some (s, _, _) => Some (bytes_at (s_m s) p n) | None => None end.
Example C137_nonvacuous_memory : peek_mem talk 300 2 = Some [5; 6] /\ peek_mem talk 500 16 = peek_mem talk 100 16 /\ peek_mem talk 400 4 = Some [16; 0; 0; 0].
Proof. split; [|split]; vm_compute; reflexivity. Qed.
Example C137_nonvacuous_given :
  given (fun p => if p =? 100 then 2 else if p =? 103 then 80 else if p =? 104 then 10 else if p =? 107 then 1 else 0) 100 16 at80.
Proof. split; [lia|]. split; [lia|]. split; [reflexivity|]. split; [reflexivity|]. split; [reflexivity|]. split; [|split; reflexivity]. right. exists 16777226. split; [reflexivity|]. split; [lia|reflexivity]. Qed.
(** A program whose last call is the end of the library *)
Theorem C137_name6_refuted :
  exists s, runs devs1 (St init_inet (fun _ => 0)) (fill ++ [cl yes 136 [10; 1; 0]]) [] s /\
    nameless6 (s_i s) 1 3 /\ act_step devs1 s (cl yes 144 [3; 500; 400]) = Crash.
Proof.
  destruct (plays_runs devs1 (fill ++ [cl yes 136 [10; 1; 0]]) (replicate 8 None ++ [Some 3]) []) as (s & R & E); [vm_compute; reflexivity|].
  exists s. split; [exact R|]. assert (X : exists i m, s = St i m /\ nameless6 i 1 3).
  { vm_compute in E. injection E as <-. eexists _, _. split; [reflexivity|]. exists (Hdl true true false NotConn None None None 0 []). vm_compute. auto. }
  destruct X as (i & m & -> & N). split; [exact N|]. cbn [act_step cl]. unfold enter. cbn [decode Z.eqb Pos.eqb a1 a2 a3 nth null orb]. change (get_int 3) with (@Ok Z 3). cbn [arg perform foreign Z.eqb Pos.eqb orb andb s_i].
  rewrite (proj2 (stuck_iff i 1 3) N). reflexivity.
Qed.
Print Assumptions C137_name6_refuted.
