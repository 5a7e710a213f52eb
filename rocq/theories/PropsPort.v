(** C55, C56: port reservations *)
From Verif Require Import Base PortModel PortSpec PortProofs.
Local Open Scope list_scope.
Local Open Scope Z_scope.

(** ** Histories computed *)
Definition overlapb (r q : resv) : bool :=
  bool_decide (r_port r = r_port q) && bool_decide (r_pt r = r_pt q) &&
  (bool_decide (r_addr r = r_addr q) || unspecified (r_addr r) || unspecified (r_addr q)).
Definition fairb (L : list resv) (q : resv) : bool :=
  (r_port q =? 0) || unspecified (r_addr q) ||
  (forallb (fun r => implb (bool_decide (r_port r = r_port q) && bool_decide (r_pt r = r_pt q)) (existsb (fun r' => overlapb r' q) L)) L &&
   forallb (fun r => implb (overlapb r q && r_reuse r) (negb (unspecified (r_addr r)) && r_reuse q)) L).
Lemma overlapb_ok r q : overlapb r q = true <-> overlap r q.
Proof. unfold overlapb, overlap. rewrite !andb_true_iff, !orb_true_iff, !bool_decide_eq_true. tauto. Qed.
Lemma fairb_ok L q : fairb L q = true -> fair L (Reserve q).
Proof.
  unfold fairb, fair. rewrite !orb_true_iff, andb_true_iff, !forallb_forall. intros [[H|H]|[H1 H2]]; [left; lia|auto|]. right. right. split.
  - intros r Hr E1 E2. apply elem_of_list_In in Hr. specialize (H1 r Hr). rewrite !bool_decide_eq_true_2 in H1 by assumption. cbn in H1.
    apply existsb_exists in H1 as (r' & Hr' & Ho). exists r'. split; [apply elem_of_list_In; exact Hr'|apply overlapb_ok; exact Ho].
  - intros r Hr Ho Hu. apply elem_of_list_In in Hr. specialize (H2 r Hr). apply overlapb_ok in Ho. rewrite Ho, Hu in H2. cbn in H2.
    apply andb_true_iff in H2 as [H2 H3]. apply negb_true_iff in H2. auto.
Qed.

(** A list of calls: reservations, and releases of the n-th held reservation *)
Fixpoint plays (strict : bool) (devs : list addr) (s : ports) (L : list resv) (cs : list (resv + nat)) : option (ports * list resv) :=
  match cs with
  | [] => Some (s, L)
  | inl q :: r =>
      if (0 <=? r_port q) && (r_port q <=? 65535) && implb strict (fairb L q) then
        let '(s', port) := reserve devs s (r_addr q) (r_port q) (r_pt q) (r_reuse q) in
        if 0 <=? port then plays strict devs s' (Resv (r_addr q) port (r_pt q) (r_reuse q) :: L) r else plays strict devs s' L r
      else None
  | inr n :: r =>
      match L !! n with
      | Some q => match release devs s (r_addr q) (r_port q) (r_pt q) with Done (s', _) => plays strict devs s' (take n L ++ drop (S n) L) r | Panic => None end
      | None => None
      end
  end.
Lemma plays_ok strict devs cs : forall s L s' L', holds strict devs s L -> plays strict devs s L cs = Some (s', L') -> holds strict devs s' L'.
Proof.
  induction cs as [|[q|n] cs IH]; intros s L s' L' H E; cbn [plays] in E; [injection E as <- <-; exact H| |].
  - destruct (_ && _ && _) eqn:B; [|discriminate E]. apply andb_true_iff in B as [B B3]. apply andb_true_iff in B as [B1 B2].
    assert (Hr : 0 <= r_port q <= 65535) by lia.
    assert (Hf : strict = true -> fair L (Reserve q)) by (intros ->; exact (fairb_ok _ _ B3)).
    destruct (reserve _ _ _ _ _ _) as [s1 port] eqn:Er. destruct (Z.leb_spec 0 port).
    + exact (IH _ _ _ _ (holds_take strict devs s L q s1 port H Hr Hf Er H0) E).
    + exact (IH _ _ _ _ (holds_fail strict devs s L q s1 port H Hr Hf Er H0) E).
  - destruct (L !! n) as [q|] eqn:El; [|discriminate E]. destruct (release _ _ _ _ _) as [[s1 x]|] eqn:Er; [|discriminate E].
    rewrite <- (take_drop_middle L n q El) in H. exact (IH _ _ _ _ (holds_release strict devs s _ q _ s1 x H (fun _ => I) Er) E).
Qed.
(** A history and a check of what it leads to *)
Lemma port_ex strict devs cs (P : ports -> list resv -> Prop) :
  match plays strict devs new_ports [] cs with Some (s, L) => P s L | None => False end ->
  exists s L, holds strict devs s L /\ P s L.
Proof.
  destruct (plays strict devs new_ports [] cs) as [[s L]|] eqn:E; [|contradiction]. intros H. exists s, L. split; [|exact H].
  exact (plays_ok strict devs cs _ _ _ _ (holds_new strict devs) E).
Qed.

Lemma port_exb strict devs cs (f : ports -> list resv -> bool) (P : ports -> list resv -> Prop) :
  (forall s L, f s L = true -> P s L) -> match plays strict devs new_ports [] cs with Some (s, L) => f s L | None => false end = true ->
  exists s L, holds strict devs s L /\ P s L.
Proof.
  intros H E. apply (port_ex strict devs cs P). destruct (plays _ _ _ _ _) as [[s L]|]; [exact (H s L E)|discriminate E].
Qed.

Definition TCP : ptype := (false, true).
Definition UDP : ptype := (false, false).

(** ** C55 *)
(** In any history of reservations and releases, with any device addresses, an
    automatically assigned port is in the ephemeral range. *)
Theorem C55_in_range (strict : bool) (devs : list addr) (s s' : ports) (L : list resv) (a : addr) (pt : ptype) (reuse : bool) (x : Z) :
  holds strict devs s L -> reserve devs s a 0 pt reuse = (s', x) -> 0 <= x -> ephemeral x.
Proof. exact (ephemeral_range strict devs s L a pt reuse s' x). Qed.
Print Assumptions C55_in_range.

(** It is not held on that address, nor on all addresses; a request for all
    addresses gets a port that is held on no address. Partial: fair histories
    only; and a request for one address may get a port in use on another. *)
Theorem C55_unused_partial (devs : list addr) (s s' : ports) (L : list resv) (a : addr) (pt : ptype) (reuse : bool) (x : Z) :
  holds true devs s L -> reserve devs s a 0 pt reuse = (s', x) -> 0 <= x ->
  forall r, r ∈ L -> r_port r = x -> r_pt r = pt -> compatible r (Resv a x pt reuse).
Proof.
  intros H E Hx r Hr _ _. destruct (decide (a ∈ iplist devs)) as [Ha|Ha].
  - destruct (ephemeral_spec devs s L a pt reuse s' x H Ha E) as [[_ K]|[-> _]]; [exact (K r Hr)|unfold err, EADDRINUSE in Hx; lia].
  - destruct (reserve_dev devs s a 0 pt reuse s' x E Ha) as [_ ->]. unfold err, EADDRNOTAVAIL in Hx. lia.
Qed.
Print Assumptions C55_unused_partial.

(** Assignment on a local address fails only with "address in use", and only
    when every ephemeral port is held on that address or on all addresses (or,
    for a request for all addresses, on some address). *)
Theorem C55_fails_only_when_full_partial (devs : list addr) (s s' : ports) (L : list resv) (a : addr) (pt : ptype) (reuse : bool) (x : Z) :
  holds true devs s L -> a ∈ iplist devs -> reserve devs s a 0 pt reuse = (s', x) -> x < 0 ->
  x = err EADDRINUSE /\ forall port, ephemeral port -> exists r, r ∈ L /\ overlap r (Resv a port pt reuse).
Proof.
  intros H Ha E Hx. destruct (ephemeral_spec devs s L a pt reuse s' x H Ha E) as [[K _]|K]; [lia|exact K].
Qed.
Print Assumptions C55_fails_only_when_full_partial.

(** "Not in use on any address" is false: port 60999 held on one address is
    assigned to a request on another address. *)
Theorem C55_any_address_refuted : exists devs s L, holds true devs s L /\
  exists s' x r, reserve devs s (Host 2) 0 TCP false = (s', x) /\ 0 <= x /\ r ∈ L /\ r_port r = x /\ r_pt r = TCP.
Proof.
  exists [Host 1; Host 2]. apply (port_ex true [Host 1; Host 2] [inl (Resv (Host 1) (swap16 60999) TCP false)]).
  vm_compute. do 3 eexists. split; [reflexivity|]. split; [discriminate|]. split; [left|]. split; reflexivity.
Qed.
Print Assumptions C55_any_address_refuted.

(** Three automatic assignments get three different ports; after the release of
    one, and with one port of each range held, the next one still gets another. *)
Example C55_nonvacuous : exists s L, holds true [Host 1; Host 2] s L /\
  map r_port L = map swap16 [60996; 60997; 60999] /\ snd (reserve [Host 1; Host 2] s (Host 1) 0 TCP false) = swap16 60995.
Proof.
  apply (port_ex true [Host 1; Host 2]
    [inl (Resv (Host 1) 0 TCP false); inl (Resv Any4 0 TCP true); inl (Resv (Host 1) 0 TCP false); inr 1%nat; inl (Resv Any4 (swap16 60997) TCP false);
     inl (Resv (Host 1) 0 TCP false)]).
  vm_compute. split; reflexivity.
Qed.

(** ** C56 *)
(** In any fair history, two reservations held at the same time are for
    different ports, protocols or addresses, or both asked for sharing. Partial:
    fair histories only. *)
Theorem C56_exclusive_partial (devs : list addr) (s : ports) (L : list resv) : holds true devs s L ->
  forall (i j : nat) r q, L !! i = Some r -> L !! j = Some q -> i <> j -> compatible r q.
Proof. exact (holds_compatible devs s L). Qed.
Print Assumptions C56_exclusive_partial.

(** The record is exact: a chosen port on a local address is granted if and only
    if it is compatible with every reservation that is held. *)
Theorem C56_recorded_partial (devs : list addr) (s s' : ports) (L : list resv) (q : resv) (x : Z) :
  holds true devs s L -> r_addr q ∈ iplist devs -> 0 < r_port q -> fair L (Reserve q) ->
  reserve devs s (r_addr q) (r_port q) (r_pt q) (r_reuse q) = (s', x) ->
  (x = r_port q \/ x = err EADDRINUSE) /\ (x = r_port q <-> forall r, r ∈ L -> compatible r q).
Proof. exact (reserve_iff devs s L q s' x). Qed.
Print Assumptions C56_recorded_partial.

(** Releasing a held reservation never aborts, returns 0, and leaves exactly the
    other reservations held; with [C56_recorded_partial] the port is available
    again as far as the others allow. *)
Theorem C56_release_partial (devs : list addr) (s : ports) (L1 L2 : list resv) (r : resv) : holds true devs s (L1 ++ r :: L2) ->
  exists s', release devs s (r_addr r) (r_port r) (r_pt r) = Done (s', 0) /\ holds true devs s' (L1 ++ L2).
Proof. exact (release_ok devs s L1 r L2). Qed.
Print Assumptions C56_release_partial.

(** Exclusiveness is false without fairness. A reservation that did not ask for
    sharing is granted on an address whose holder did; *)
Theorem C56_exclusive_refuted : exists s L, holds false [Host 1] s L /\
  exists r q, L = [r; q] /\ r_addr r = Host 1 /\ r_addr q = Host 1 /\ r_port r = r_port q /\ r_pt r = r_pt q /\ r_reuse r = false.
Proof.
  apply (port_ex false [Host 1] [inl (Resv (Host 1) 80 TCP true); inl (Resv (Host 1) 80 TCP false)]).
  vm_compute. do 2 eexists. split; [reflexivity|]. repeat split.
Qed.
Print Assumptions C56_exclusive_refuted.
(** and if the port is held on another address, none asking for sharing. *)
Theorem C56_exclusive_nonsharing_refuted : exists s L, holds false [Host 1; Host 2] s L /\
  exists r q p, L = [r; q; p] /\ r_addr r = Host 2 /\ r_addr q = Host 2 /\ r_port r = r_port q /\ r_pt r = r_pt q /\ r_reuse r = false /\ r_reuse q = false.
Proof.
  apply (port_ex false [Host 1; Host 2] [inl (Resv (Host 1) 80 TCP false); inl (Resv (Host 2) 80 TCP false); inl (Resv (Host 2) 80 TCP false)]).
  vm_compute. do 3 eexists. split; [reflexivity|]. repeat split.
Qed.
Print Assumptions C56_exclusive_nonsharing_refuted.

(** A successful reservation is not always recorded: the second reservation
    succeeds and changes nothing. *)
Theorem C56_recorded_refuted : exists s L, holds false [Host 1; Host 2] s L /\
  snd (reserve [Host 1; Host 2] s (Host 2) 80 TCP false) = 80 /\ p_used (fst (reserve [Host 1; Host 2] s (Host 2) 80 TCP false)) = p_used s.
Proof.
  apply (port_exb false [Host 1; Host 2] [inl (Resv (Host 1) 80 TCP false)]
    (fun s _ => (snd (reserve [Host 1; Host 2] s (Host 2) 80 TCP false) =? 80) &&
       bool_decide (p_used (fst (reserve [Host 1; Host 2] s (Host 2) 80 TCP false)) = p_used s))).
  - intros s L H. apply andb_true_iff in H as [H1 H2]. split; [lia|exact (bool_decide_eq_true_1 _ H2)].
  - vm_compute. reflexivity.
Qed.
Print Assumptions C56_recorded_refuted.

(** Releasing affects others: the release of a shared reservation of all
    addresses drops that of one address, whose own release then aborts, *)
Theorem C56_release_refuted : exists s L, holds false [Host 1] s L /\
  L = [Resv (Host 1) 80 TCP true] /\ release [Host 1] s (Host 1) 80 TCP = Panic.
Proof.
  apply (port_ex false [Host 1] [inl (Resv Any4 80 TCP true); inl (Resv (Host 1) 80 TCP true); inr 1%nat]).
  vm_compute. split; reflexivity.
Qed.
Print Assumptions C56_release_refuted.
(** while the port stays unavailable on all addresses with nothing on it but
    that dropped reservation. An unrecorded reservation aborts on release too. *)
Theorem C56_release_unrecorded_refuted : exists s L, holds false [Host 1; Host 2] s L /\
  Resv (Host 2) 80 TCP false ∈ L /\ release [Host 1; Host 2] s (Host 2) 80 TCP = Panic.
Proof.
  apply (port_ex false [Host 1; Host 2] [inl (Resv (Host 1) 80 TCP false); inl (Resv (Host 2) 80 TCP false)]).
  vm_compute. split; [left|reflexivity].
Qed.
Print Assumptions C56_release_unrecorded_refuted.

(** Sharing on one address, exclusive on another port, the same port for the
    other protocol on all addresses; after two releases the rest is held. *)
Example C56_nonvacuous : exists s L, holds true [Host 1; Host 2] s L /\
  L = [Resv Any4 80 UDP false; Resv (Host 1) 80 TCP true] /\
  snd (reserve [Host 1; Host 2] s (Host 1) 80 TCP true) = 80 /\ snd (reserve [Host 1; Host 2] s (Host 2) 80 UDP true) = -98 /\
  snd (reserve [Host 1; Host 2] s (Host 2) 443 TCP false) = 443.
Proof.
  apply (port_ex true [Host 1; Host 2]
    [inl (Resv (Host 1) 80 TCP true); inl (Resv (Host 1) 80 TCP true); inl (Resv (Host 2) 443 TCP false); inl (Resv Any4 80 UDP false);
     inl (Resv Any4 80 TCP false); inl (Resv (Host 2) 443 TCP true); inr 1%nat; inr 1%nat]).
  vm_compute. repeat split.
Qed.
