(** Proofs for the entry point of INET sockets: the name given to bind comes
    back from getsockname, that given to connect from getpeername. *)
From stdpp Require Import gmap.
From Verif Require Import Base AbiModel AbiSpec AbiProofs EntryModel EntrySpec WireSpec WireProofs WireProofs6
  PortModel InetModel InetSpec InetInv InetStep InetConn InetPort InetWireModel InetWireSpec InetWireProofs InetWireProofs2 InetWireProofs3.
Local Open Scope list_scope.
Local Open Scope Z_scope.

Lemma v4_read m p x : bytes_only m -> v4_at m p x -> bytes_at m p 16 = v4_bytes (ia_port x) (host (ia_a x)).
Proof.
  intros B (H1 & _ & H2 & H3 & H4 & H5). unfold bytes_at. change (seqZ p 16) with (map (fun i => Z.of_nat i + p) (seq 0 16)). cbn [seq map].
  assert (Hh : number_at m (p + 4) = host (ia_a x)) by (destruct H3 as [[-> ->]|(ip & -> & _ & ->)]; reflexivity). rewrite <- Hh, <- H2. clear Hh H3.
  unfold v4_bytes, le2, le4, short_at, number_at in *.
  replace (p + 2 + 1) with (p + 3) in * by lia. replace (p + 4 + 1) with (p + 5) in * by lia. replace (p + 4 + 2) with (p + 6) in * by lia. replace (p + 4 + 3) with (p + 7) in * by lia.
  replace (p + 8 + 1) with (p + 9) in * by lia. replace (p + 8 + 2) with (p + 10) in * by lia. replace (p + 8 + 3) with (p + 11) in * by lia.
  replace (p + 12 + 1) with (p + 13) in * by lia. replace (p + 12 + 2) with (p + 14) in * by lia. replace (p + 12 + 3) with (p + 15) in * by lia.
  assert (R : forall i, 0 <= m i < 256) by exact B.
  pose proof (R p). pose proof (R (p + 1)). pose proof (R (p + 2)). pose proof (R (p + 3)). pose proof (R (p + 4)). pose proof (R (p + 5)). pose proof (R (p + 6)). pose proof (R (p + 7)).
  pose proof (R (p + 8)). pose proof (R (p + 9)). pose proof (R (p + 10)). pose proof (R (p + 11)). pose proof (R (p + 12)). pose proof (R (p + 13)). pose proof (R (p + 14)). pose proof (R (p + 15)).
  assert (D2 : forall u v, 0 <= u < 256 -> 0 <= v < 256 -> (u + 256 * v) mod 256 = u /\ (u + 256 * v) / 256 mod 256 = v).
  { intros u v Hu Hv. Z.div_mod_to_equations. lia. }
  assert (D4 : forall u v w z, 0 <= u < 256 -> 0 <= v < 256 -> 0 <= w < 256 -> 0 <= z < 256 -> let n := u + 256 * v + 65536 * w + 16777216 * z in
    n mod 256 = u /\ n / 256 mod 256 = v /\ n / 65536 mod 256 = w /\ n / 16777216 mod 256 = z).
  { intros u v w z Hu Hv Hw Hz n. unfold n. repeat split; Z.div_mod_to_equations; lia. }
  destruct (D2 (m (p + 2)) (m (p + 3))) as [E1 E2]; [assumption..|]. destruct (D4 (m (p + 4)) (m (p + 5)) (m (p + 6)) (m (p + 7))) as (E3 & E4 & E5 & E6); [assumption..|]. cbv zeta in *.
  rewrite E1, E2, E3, E4, E5, E6. clear D2 D4 E1 E2 E3 E4 E5 E6.
  assert (Zp : m p = 2) by lia. assert (Z1 : m (p + 1) = 0) by lia.
  assert (Z8 : m (p + 8) = 0) by lia.
  assert (Z9 : m (p + 9) = 0) by lia.
  assert (Z10 : m (p + 10) = 0) by lia.
  assert (Z11 : m (p + 11) = 0) by lia.
  assert (Z12 : m (p + 12) = 0) by lia.
  assert (Z13 : m (p + 13) = 0) by lia.
  assert (Z14 : m (p + 14) = 0) by lia.
  assert (Z15 : m (p + 15) = 0) by lia.
  repeat match goal with |- context [m (Z.of_nat ?i + p)] => replace (Z.of_nat i + p) with (p + Z.of_nat i) by lia end.
  change (Z.of_nat 0) with 0. change (Z.of_nat 1) with 1. change (Z.of_nat 2) with 2. change (Z.of_nat 3) with 3. change (Z.of_nat 4) with 4. change (Z.of_nat 5) with 5. change (Z.of_nat 6) with 6. change (Z.of_nat 7) with 7. change (Z.of_nat 8) with 8. change (Z.of_nat 9) with 9. change (Z.of_nat 10) with 10. change (Z.of_nat 11) with 11. change (Z.of_nat 12) with 12. change (Z.of_nat 13) with 13. change (Z.of_nat 14) with 14. change (Z.of_nat 15) with 15. 
  rewrite Z.add_0_r, Zp, Z1, Z8, Z9, Z10, Z11, Z12, Z13, Z14, Z15. reflexivity.
Qed.
Lemma read_back m p bs : lies m p bs -> bytes_at m p (Z.of_nat (length bs)) = bs.
Proof. intros H. rewrite <- bytes_load, Nat2Z.id, (load_lies0 m p bs (length bs) H) by lia. apply take_ge. lia. Qed.

Lemma name_back devs i c n o m2 a k m p w x :
  bytes_only m -> bytes_only m2 -> given m p w x -> asks m2 a n o -> n ∈ [144; 145] -> step devs i c o k = IGo i [] (IName x) ->
  (forall fd, o = Getsockname fd -> ~ nameless6 i c fd) -> fits m2 a ->
  exists m3, enter devs (St i m2) c n a k = Rep (St i m3) [] (Some 0) /\ bytes_at m3 (a2 a) 16 = bytes_at m p 16 /\ number_at m3 (a3 a) = 16.
Proof.
  intros B B2 (P & L & V) A Hn Es N [F1 F2]. pose proof (understood devs (St i m2) c n a k o B2 A) as U. cbn [s_i s_m] in U. rewrite Es in U.
  destruct U as [X|(m3 & E & Fo)]; [|exact N|..].
  - intros [X _]. clear -Hn X. apply elem_of_cons in Hn as [->|Hn]; [revert X; outlist|]. apply elem_of_list_singleton in Hn as ->. revert X. outlist.
  - cbn in X. destruct V as (_ & V & _). congruence.
  - exists m3. split; [exact E|]. assert (Pa : a2 a <> 0) by (clear -A Hn; destruct A; try assumption; exfalso; revert Hn; outlist).
    destruct (Fo Pa F2) as [Li Nu]. split; [|exact Nu]. rewrite Z.min_r in Li by exact F1. rewrite (v4_read m p x B V). apply read_back in Li. exact Li.
Qed.
Lemma bind_set devs s c n a k s2 t2 fd x : bytes_only (s_m s) -> asks (s_m s) a n (Bind fd x) -> ia_port x <> 0 -> enter devs s c n a k = Rep s2 t2 (Some 0) ->
  in_range fd = true /\ exists i fl raw h, i_fds (s_i s2) !! (c, fd) = Some (ISock i fl raw) /\ i_h (s_i s2) !! i = Some h /\ h_loc h = Some x.
Proof.
  intros B A N E. destruct (asks_sound _ _ _ _ B A) as (d & Ed & _). apply enter_inv in E as [(_ & _ & e & _ & E)|(o & d' & y & E1 & E2 & _ & T)]; [congruence|].
  rewrite Ed in E1. injection E1 as <- <-. cbn [step] in E2. pose proof (step_shape devs (s_i s) c (Bind fd x) k _ _ _ E2) as Sh. destruct y as [r| | | | |]; cbn [shape] in Sh; try contradiction. injection T as <-.
  unfold bind_call, on_sock in E2. destruct (in_range fd); cbn [negb] in E2; [|discriminate E2]. split; [reflexivity|].
  destruct (i_fds (s_i s) !! (c, fd)) as [[i fl raw|]|] eqn:Ef; [|discriminate E2..]. destruct (i_h (s_i s) !! i) as [h|] eqn:Eh; [|discriminate E2].
  destruct (bind_inner _ _ _ _ _ _) as [[[[s4 h1] t1] r1]|] eqn:Eb; [|discriminate E2]. destruct (bind_inner_spec _ _ _ _ _ _ _ _ _ _ Eb) as ((P1 & _) & _).
  injection E2 as E2 _ E3. subst r1. rewrite <- E2. exists i, fl, raw, h1. cbn. rewrite P1. split; [exact Ef|]. split; [apply lookup_insert|]. exact (proj2 (bind_names _ _ _ _ _ _ _ _ _ Eb) eq_refl N).
Qed.
Lemma bind_back devs s c n a k s2 t2 fd x m2 a' k' : bytes_only (s_m s) -> asks (s_m s) a n (Bind fd x) -> ia_port x <> 0 -> enter devs s c n a k = Rep s2 t2 (Some 0) ->
  bytes_only m2 -> asks m2 a' 144 (Getsockname fd) -> fits m2 a' ->
  exists m3, enter devs (St (s_i s2) m2) c 144 a' k' = Rep (St (s_i s2) m3) [] (Some 0) /\ bytes_at m3 (a2 a') 16 = bytes_at (s_m s) (a2 a) 16 /\ number_at m3 (a3 a') = 16.
Proof.
  intros B A N E B2 A2 F. destruct (bind_set _ _ _ _ _ _ _ _ _ _ B A N E) as (R & i & fl & raw & h & E1 & E2 & E3).
  assert (G : given (s_m s) (a2 a) (a3 a) x) by (inversion A; subst; assumption).
  eapply name_back; [exact B|exact B2|exact G|exact A2|inlist| |..|exact F].
  - cbn [step]. unfold getsockname_call, on_sock. rewrite R. cbn [negb]. rewrite E1, E2, E3. reflexivity.
  - intros fd' X. injection X as <-. intros (h' & Hh & _ & Hn). unfold hdl_of, sock_of in Hh. rewrite E1 in Hh. cbn in Hh. congruence.
Qed.
Lemma connect_set devs s c n a k s2 t2 fd x : bytes_only (s_m s) -> asks (s_m s) a n (Connect fd x) -> enter devs s c n a k = Rep s2 t2 (Some 0) ->
  in_range fd = true /\ exists i fl raw h, i_fds (s_i s2) !! (c, fd) = Some (ISock i fl raw) /\ i_h (s_i s2) !! i = Some h /\ h_rem h = Some x.
Proof.
  intros B A E. destruct (asks_sound _ _ _ _ B A) as (d & Ed & _). apply enter_inv in E as [(_ & _ & e & _ & E)|(o & d' & y & E1 & E2 & _ & T)]; [congruence|].
  rewrite Ed in E1. injection E1 as <- <-. cbn [step] in E2. pose proof (step_shape devs (s_i s) c (Connect fd x) k _ _ _ E2) as Sh. destruct y as [r| | | | |]; cbn [shape] in Sh; try contradiction. injection T as <-.
  unfold connect_call, on_sock in E2. destruct (in_range fd); cbn [negb] in E2; [|discriminate E2]. split; [reflexivity|].
  destruct (i_fds (s_i s) !! (c, fd)) as [[i fl raw|]|] eqn:Ef; [|discriminate E2..]. destruct (i_h (s_i s) !! i) as [h|] eqn:Eh; [|discriminate E2].
  destruct (negb _) in E2; [discriminate E2|]. exists i, fl.
  assert (K : forall s0 h0 j tr, connect_kernel s0 c fd i fl h0 j tr x k = IGo (s_i s2) t2 (IRet 0) ->
    exists raw h, i_fds (s_i s2) !! (c, fd) = Some (ISock i fl raw) /\ i_h (s_i s2) !! i = Some h /\ h_rem h = Some x).
  { intros s0 h0 j tr X. unfold connect_kernel in X. cbv zeta in X. destruct (a_conn k =? 0).
    - injection X as X _. rewrite <- X. exists j, (with_rem (Some x) (with_st Conn h0)). cbn. split; [apply lookup_insert|]. split; [apply lookup_insert|reflexivity].
    - destruct (_ =? _) in X; [discriminate X|]. apply kfail_go in X as (_ & _ & r & X & Y). injection X as <-. apply kerr_neg in Y. lia. }
  destruct (h_tcp h).
  - unfold connect_tcp in E2. destruct (negb _) in E2; [discriminate E2|]. destruct (h_loc h).
    + destruct (h_in h); [|discriminate E2]. exact (K _ _ _ _ E2).
    + destruct (force_inner _ _ _) as [[[[s1 h1] j] t1]|]; [|discriminate E2]. destruct (assign devs s1 h1) as [s3 [y|e]] eqn:Ea.
      * cbv zeta in E2. destruct (a_bind k =? 0); [exact (K _ _ _ _ E2)|]. apply kfail_go in E2 as (_ & _ & r & X & Y). injection X as <-. apply kerr_neg in Y. lia.
      * exfalso. unfold assign in Ea. destruct (reserve _ _ _ _ _ _) as [p0 r0]. destruct (r0 <? 0) eqn:L; [|discriminate Ea]. injection Ea as _ <-. injection E2 as _ _ ->. lia.
  - unfold connect_udp in E2. cbv zeta in E2. destruct (h_loc (with_rem (Some x) h)).
    + injection E2 as E2 _. rewrite <- E2. exists raw, (with_rem (Some x) h). cbn. split; [exact Ef|]. split; [apply lookup_insert|reflexivity].
    + destruct (assign _ _ _) as [s3 [y|e]] eqn:Ea.
      * destruct (bind_inner _ _ _ _ _ _) as [[[[s4 h1] t1] r1]|] eqn:Eb; [|discriminate E2]. destruct (bind_inner_spec _ _ _ _ _ _ _ _ _ _ Eb) as ((_ & _ & _ & _ & _ & Hf) & _).
        destruct (h_in h1) as [j|]; [|discriminate E2]. injection E2 as E2 _ _. rewrite <- E2. exists j, h1. cbn. split; [apply lookup_insert|]. split; [apply lookup_insert|].
        destruct Hf as (_ & _ & _ & _ & -> & _). reflexivity.
      * exfalso. unfold assign in Ea. destruct (reserve _ _ _ _ _ _) as [p0 r0]. destruct (r0 <? 0) eqn:L; [|discriminate Ea]. injection Ea as _ <-. injection E2 as _ _ ->. lia.
Qed.
Lemma connect_back devs s c n a k s2 t2 fd x m2 a' k' : bytes_only (s_m s) -> asks (s_m s) a n (Connect fd x) -> enter devs s c n a k = Rep s2 t2 (Some 0) ->
  bytes_only m2 -> asks m2 a' 145 (Getpeername fd) -> fits m2 a' ->
  exists m3, enter devs (St (s_i s2) m2) c 145 a' k' = Rep (St (s_i s2) m3) [] (Some 0) /\ bytes_at m3 (a2 a') 16 = bytes_at (s_m s) (a2 a) 16 /\ number_at m3 (a3 a') = 16.
Proof.
  intros B A E B2 A2 F. destruct (connect_set _ _ _ _ _ _ _ _ _ _ B A E) as (R & i & fl & raw & h & E1 & E2 & E3).
  assert (G : given (s_m s) (a2 a) (a3 a) x) by (inversion A; subst; assumption).
  eapply name_back; [exact B|exact B2|exact G|exact A2|inlist| |..|exact F].
  - cbn [step]. unfold getpeername_call, on_sock. rewrite R. cbn [negb]. rewrite E1, E2, E3. reflexivity.
  - discriminate.
Qed.

(** Addresses of the IPv6 family, as the system lays them out *)
Lemma ipv6_refused devs s c a k n p w : is_word (a3 a) -> is_word (a6 a) -> (n = 33 \/ n = 38) /\ p = a2 a /\ w = a3 a \/ n = 35 /\ p = a5 a /\ w = a6 a ->
  p <> 0 -> w < 2 ^ 32 -> short_at (s_m s) p = 10 -> enter devs s c n a k = Rep s [] (Some (-95)).
Proof.
  intros W3 W6 C P L F. assert (Ww : is_word w) by (destruct C as [(_ & _ & ->)|(_ & _ & ->)]; assumption).
  assert (G : forall f, with_addr (s_m s) p w f = Bad (-95)).
  { intros f. unfold with_addr. rewrite (DirectProofs.uint_ok w) by (unfold is_uint, is_word in *; lia). cbn [arg]. unfold get_sockaddr. replace (p =? 0) with false by lia. rewrite load2, F. reflexivity. }
  unfold enter. destruct C as [([-> | ->] & -> & ->)|(-> & -> & ->)]; cbn [decode Z.eqb Pos.eqb]; rewrite G; reflexivity.
Qed.

(** ** Playing programs, for the examples *)
Definition okact (x : act) : bool :=
  match x with
  | Poke _ b => (0 <=? b) && (b <? 256)
  | Call _ _ a _ => forallb (fun w => (0 <=? w) && (w <? 2 ^ 64)) (words a)
  | Inner _ _ _ => false
  end.
Definition okcall (e : kcall) : bool :=
  match e with KRecv _ len (inl bs) => forallb (fun b => (0 <=? b) && (b <? 256)) bs && (Z.of_nat (length bs) <=? len) | _ => true end.
Lemma okact_sane s x : okact x = true -> sane s x.
Proof.
  destruct x as [p b|c n a k|c o k]; cbn [okact sane]; [unfold is_byte; lia| |discriminate].
  rewrite forallb_forall, Forall_forall. intros H w Hw. apply elem_of_list_In, H in Hw. unfold is_word. lia.
Qed.
Lemma okcall_honest t : forallb okcall t = true -> honest t.
Proof.
  rewrite forallb_forall. intros H k len bs Hin. apply elem_of_list_In, H in Hin. cbn [okcall] in Hin. apply andb_true_iff in Hin as [A B]. split; [|lia].
  rewrite forallb_forall in A. apply Forall_forall. intros b Hb. apply elem_of_list_In, A in Hb. unfold is_byte. lia.
Qed.
Lemma runs_app devs s l t s1 l2 : forall t2 s2 ys, runs devs s l t s1 -> forallb okact l2 = true -> acts devs s1 l2 = Some (s2, t2, ys) -> forallb okcall t2 = true -> runs devs s (l ++ l2) (t ++ t2) s2.
Proof.
  revert l t s1. induction l2 as [|x l2 IH]; intros l t s1 t2 s2 ys R O E Ok; cbn [acts] in E.
  - injection E as <- <- _. rewrite !app_nil_r. exact R.
  - cbn [forallb] in O. apply andb_true_iff in O as [O1 O2]. destruct (act_step devs s1 x) as [s3 t3 r| |] eqn:Ex; [|discriminate E..].
    destruct (acts devs s3 l2) as [[[s4 t4] zs]|] eqn:Ea; [|discriminate E]. injection E as <- <- _. rewrite forallb_app in Ok. apply andb_true_iff in Ok as [Ok1 Ok2].
    change (x :: l2) with ([x] ++ l2). rewrite !app_assoc. eapply IH; [|exact O2|exact Ea|exact Ok2]. econstructor; [exact R|apply okact_sane; exact O1|exact Ex|apply okcall_honest; exact Ok1].
Qed.
(** the program runs, with these answers and calls to the kernel *)
Definition plays_acts (devs : list addr) (l : list act) (ys : list (option Z)) (t : list kcall) : bool :=
  match acts devs (St init_inet (fun _ => 0)) l with
  | Some (s, t', ys') => bool_decide (ys' = ys) && bool_decide (t' = t) && forallb okact l && forallb okcall t
  | None => false
  end.
Lemma plays_runs devs l ys t : plays_acts devs l ys t = true ->
  exists s, runs devs (St init_inet (fun _ => 0)) l t s /\ acts devs (St init_inet (fun _ => 0)) l = Some (s, t, ys).
Proof.
  unfold plays_acts. destruct (acts devs _ l) as [[[s t'] ys']|] eqn:E; [|discriminate]. rewrite !andb_true_iff, !bool_decide_eq_true. intros [[[-> ->] O] K]. exists s. split; [|reflexivity].
  exact (runs_app devs _ [] [] _ l t s ys (runs_nil _ _) O E K).
Qed.
