(** Running a list of calls, for closed examples. *)
From Verif Require Import Base SemModel IpcModel IpcSpec IpcProofs IpcShm IpcFacts IpcHandles.
Local Open Scope Z_scope.

#[global] Instance mop_eq : EqDecision mop.
Proof. solve_decision. Defined.
#[global] Instance iop_eq : EqDecision iop.
Proof. solve_decision. Defined.
#[global] Instance iev_eq : EqDecision iev.
Proof. solve_decision. Defined.
#[global] Instance sseg_eq : EqDecision sseg.
Proof. solve_decision. Defined.

Definition iokb (x : ipc) (c : Z) (o : iop) : bool :=
  match o with
  | IFork ch => match x_cage x !! ch with None => true | _ => false end
  | IExec nc => (nc =? c) || match x_cage x !! nc with None => true | _ => false end
  | Shmat _ addr _ _ => (0 <=? addr) && (addr <? 2 ^ 32)
  | Shmget _ size _ => (0 <=? size) && (size <? 2 ^ 64)
  | SemInit _ _ v => (0 <=? v) && (v <? 2 ^ 32)
  | CvWait _ _ host => 0 <=? host
  | _ => true
  end.
Lemma iokb_ok x c o : iokb x c o = true -> iok x c o.
Proof.
  destruct o; cbn; intros H; try done; try lia.
  - destruct (x_cage x !! ch); done.
  - apply orb_true_iff in H as [H|H]; [left; lia|right]. destruct (x_cage x !! nc); done.
Qed.

Fixpoint iplay (chk : bool) (tr : list iev) (x : ipc) (l : list (Z * iop)) : option (list iev * ipc) :=
  match l with
  | [] => Some (tr, x)
  | (c, o) :: l =>
      if iokb x c o then
        match istep chk x c o with Done (x', r) => iplay chk (tr ++ [Iev c o r]) x' l | Panic => None end
      else None
  end.
Lemma iplay_run chk l : forall tr x tr' x', irun chk tr x -> iplay chk tr x l = Some (tr', x') -> irun chk tr' x'.
Proof.
  induction l as [|[c o] l IH]; intros tr x tr' x' Hr H; cbn [iplay] in H; [injection H as <- <-; exact Hr|].
  destruct (iokb x c o) eqn:E; [|discriminate H]. destruct (istep chk x c o) as [[x1 r]|] eqn:Es; [|discriminate H].
  refine (IH _ _ _ _ _ H). exact (irun_step chk tr x c o x1 r Hr (iokb_ok _ _ _ E) Es).
Qed.
(** A list of calls all of which return, after which [P] holds. *)
Lemma ipc_ex chk l (P : list iev -> ipc -> bool) :
  match iplay chk [] iboot l with Some (tr, x) => P tr x | None => false end = true ->
  exists tr x, irun chk tr x /\ P tr x = true.
Proof.
  destruct (iplay chk [] iboot l) as [[tr x]|] eqn:E; [|done]. intros H. exists tr, x.
  split; [|exact H]. exact (iplay_run _ _ _ _ _ _ (irun_nil chk) E).
Qed.
(** The results alone. *)
Definition results (tr : list iev) : list iout := map e_out tr.

(** Decidable forms of the side conditions. *)
Definition maps_okb (tr : list iev) : bool :=
  forallb (fun e => match e_op e with Shmat _ a _ bad => negb bad && page_ok a | _ => true end) tr.
Lemma maps_okb_ok tr : maps_okb tr = true -> maps_ok tr.
Proof.
  intros H. apply Forall_forall. intros e He. apply elem_of_list_In in He. unfold maps_okb in H.
  rewrite forallb_forall in H. specialize (H e He). destruct (e_op e); try done.
  destruct bad; [discriminate H|]. done.
Qed.

(** ** The key rules of shmget *)
Lemma land_bit m k : 0 <= k -> Z.land m (2 ^ k) = if Z.testbit m k then 2 ^ k else 0.
Proof.
  intros Hk. apply Z.bits_inj'. intros n Hn. rewrite Z.land_spec, Z.pow2_bits_eqb by done.
  destruct (Z.eqb_spec k n) as [<-|Hne].
  - destruct (Z.testbit m k); [rewrite Z.pow2_bits_eqb, Z.eqb_refl by done; done|rewrite Z.bits_0; done].
  - rewrite andb_false_r. destruct (Z.testbit m k); [rewrite Z.pow2_bits_eqb by done; destruct (Z.eqb_spec k n); done|rewrite Z.bits_0; done].
Qed.
Lemma both_bits f : (Z.lor IPC_CREAT IPC_EXCL =? Z.land f (Z.lor IPC_CREAT IPC_EXCL)) = hasbit f IPC_CREAT && hasbit f IPC_EXCL.
Proof.
  unfold hasbit. rewrite Z.land_lor_distr_r. change IPC_CREAT with (2 ^ 9). change IPC_EXCL with (2 ^ 10).
  rewrite !land_bit by lia. destruct (Z.testbit f 9), (Z.testbit f 10); reflexivity.
Qed.

Lemma f_shmget chk tr x c k n f x' r : irun chk tr x -> maps_ok tr -> istep chk x c (Shmget k n f) = Done (x', r) ->
  (k = IPC_PRIVATE /\ r = IRet (err ENOENT)) \/
  (exists z, In z (existing tr) /\ z_key z = k /\
     r = IRet (if hasbit f IPC_CREAT && hasbit f IPC_EXCL then err EEXIST else z_id z)) \/
  (k <> IPC_PRIVATE /\ (forall z, In z (existing tr) -> z_key z <> k) /\
     (hasbit f IPC_CREAT = false /\ r = IRet (err ENOENT) \/
      hasbit f IPC_CREAT = true /\ (to_u32 n < SHMMIN \/ SHMMAX < to_u32 n) /\ r = IRet (err EINVAL) \/
      hasbit f IPC_CREAT = true /\ SHMMIN <= to_u32 n <= SHMMAX /\ n < 2 ^ 63 /\
        exists id, r = IRet id /\ 0 <= id /\ ~ handed tr id)).
Proof.
  intros Hr Hm H. destruct (step_caged _ _ _ _ _ _ H) as (g & Hg). unfold istep in H. rewrite Hg in H. unfold shmget in H.
  destruct (Z.eqb_spec k IPC_PRIVATE) as [->|Hk]; [injection H as _ <-; left; done|].
  destruct (f_key chk tr x Hr Hm k) as [(z & Hz & Hzk & E)|[Hno E]]; rewrite E in H.
  - right. left. exists z. split; [done|]. split; [done|]. rewrite both_bits in H.
    destruct (hasbit f IPC_CREAT && hasbit f IPC_EXCL); injection H as _ <-; done.
  - right. right. split; [done|]. split; [done|]. unfold hasbit.
    destruct (Z.eqb_spec (Z.land f IPC_CREAT) 0) as [Hf|Hf]; [injection H as _ <-; left; done|].
    right. destruct ((to_u32 n <? SHMMIN) || (SHMMAX <? to_u32 n)) eqn:Es.
    + injection H as _ <-. left. split; [done|]. split; [lia|done].
    + destruct (Z.leb_spec (2 ^ 63) n) as [?|Hn]; [discriminate H|]. injection H as _ <-. right.
      split; [done|]. split; [lia|]. split; [exact Hn|]. exists (x_next x). split; [done|].
      pose proof (h_N _ _ _ _ _ _ (run_inv _ _ _ Hr Hm)). split; [lia|].
      intros HH. apply given_handed in HH as (k' & HG). pose proof (given_inv _ _ _ Hr Hm _ _ HG). lia.
Qed.

(** The counts of [handed] identifiers and of the segments agree. *)
Lemma f_size chk tr x z : irun chk tr x -> maps_ok tr -> In z (existing tr) -> SHMMIN <= to_u32 (z_size z) <= SHMMAX.
Proof.
  intros Hr Hm Hz. destruct (f_existing chk tr x Hr Hm z Hz) as (s & _ & _ & _ & E & H & _). rewrite E in H. exact H.
Qed.

Lemma private_snoc tr e : private tr -> private_at (sems tr) e -> private (tr ++ [e]).
Proof.
  intros H1 H2 t1 e1 t2 E. destruct t2 as [|e2 t2 _] using rev_ind.
  - apply app_inj_tail in E as [<- <-]. exact H2.
  - rewrite app_comm_cons, app_assoc in E. apply app_inj_tail in E as [-> _]. exact (H1 _ _ _ eq_refl).
Qed.
Lemma private_nil : private [].
Proof. intros [|? t1] e t2 E; discriminate E. Qed.

Definition private_atb (m : gmap (Z * Z) Z) (e : iev) : bool :=
  match e_op e with
  | SemInit _ ps _ => ps =? 0
  | IFork _ => forallb (fun p => negb (p.1.1 =? e_c e)) (map_to_list m)
  | _ => true
  end.
Lemma private_atb_ok m e : private_atb m e = true -> private_at m e.
Proof.
  unfold private_atb, private_at. destruct (e_op e); try done; [|lia].
  intros H h. destruct (m !! (e_c e, h)) as [v|] eqn:E; [|done]. exfalso.
  rewrite forallb_forall in H. specialize (H ((e_c e, h), v)). cbn in H. rewrite Z.eqb_refl in H.
  apply elem_of_map_to_list, elem_of_list_In, H in E. discriminate E.
Qed.
Fixpoint privateb (m : gmap (Z * Z) Z) (tr : list iev) : bool :=
  match tr with [] => true | e :: tr => private_atb m e && privateb (sem_step m e) tr end.
Lemma privateb_from t : forall tr, private tr -> privateb (sems tr) t = true -> private (tr ++ t).
Proof.
  induction t as [|e t IH]; intros tr H1 H2; [rewrite app_nil_r; exact H1|]. cbn [privateb] in H2.
  apply andb_true_iff in H2 as [H2 H3]. change (e :: t) with ([e] ++ t). rewrite app_assoc. apply IH.
  - apply private_snoc; [exact H1|]. apply private_atb_ok. exact H2.
  - unfold sems in *. rewrite fold_left_app. exact H3.
Qed.
Lemma privateb_ok tr : privateb ∅ tr = true -> private tr.
Proof. exact (privateb_from tr [] private_nil). Qed.

Definition nosharedb (tr : list iev) : bool :=
  forallb (fun e => match e_op e with SemInit _ ps _ => ps =? 0 | _ => true end) tr.
Lemma nosharedb_ok tr : nosharedb tr = true -> noshared tr.
Proof.
  intros H. apply Forall_forall. intros e He. apply elem_of_list_In in He. unfold nosharedb in H.
  rewrite forallb_forall in H. specialize (H e He). destruct (e_op e); try done. lia.
Qed.

(** A list of calls all of which return, after which [P] holds; then one more call. *)
Lemma ipc_ex_then chk l c o (P : list iev -> ipc -> bool) (Q : outcome (ipc * iout) -> bool) :
  match iplay chk [] iboot l with Some (tr, x) => P tr x && iokb x c o && Q (istep chk x c o) | None => false end = true ->
  exists tr x, irun chk tr x /\ P tr x = true /\ iok x c o /\ Q (istep chk x c o) = true.
Proof.
  destruct (iplay chk [] iboot l) as [[tr x]|] eqn:E; [|done]. intros H. exists tr, x.
  apply andb_true_iff in H as [H H3]. apply andb_true_iff in H as [H1 H2].
  split; [exact (iplay_run _ _ _ _ _ _ (irun_nil chk) E)|]. split; [exact H1|]. split; [exact (iokb_ok _ _ _ H2)|exact H3].
Qed.

(** A call of another process, other than the fork that makes [c2], leaves the
    handles of [c2] alone. *)
Lemma for_child_other {A} (c ch : Z) (v : A -> A) (m : gmap (Z * Z) A) (c2 h : Z) : c2 <> ch -> for_child c ch v m !! (c2, h) = m !! (c2, h).
Proof.
  intros Hne. unfold for_child. rewrite lookup_union.
  assert (E : (list_to_map (map (fun p => ((ch, p.1.2), v p.2)) (List.filter (fun p => p.1.1 =? c) (map_to_list m))) : gmap (Z * Z) A) !! (c2, h) = None).
  { apply not_elem_of_list_to_map_1. rewrite elem_of_list_In, in_map_iff. intros (q & E & Hq).
    rewrite in_map_iff in Hq. destruct Hq as (p & <- & _). cbn in E. congruence. }
  rewrite E. destruct (m !! (c2, h)); done.
Qed.
Lemma sep_mut m e c2 h : e_c e <> c2 -> e_op e <> IFork c2 -> mut_step m e !! (c2, h) = m !! (c2, h).
Proof.
  intros H1 H2. unfold mut_step.
  assert (HN : forall h', (e_c e, h') <> (c2, h)) by congruence.
  destruct (e_op e) as [| | | |ch| | | | | | | | | |hd|hd [| |]| | | |]; try done.
  - apply for_child_other. congruence.
  - destruct (m !! (c2, h)) as [v|] eqn:E; [apply map_filter_lookup_Some; split; [exact E|cbn; congruence]|apply map_filter_lookup_None; left; exact E].
  - destruct (m !! (c2, h)) as [v|] eqn:E; [apply map_filter_lookup_Some; split; [exact E|cbn; congruence]|apply map_filter_lookup_None; left; exact E].
  - destruct (e_out e); try done. apply lookup_insert_ne, HN.
  - destruct (e_out e) as [[| |]| |]; try done. apply lookup_delete_ne, HN.
  - destruct (e_out e) as [[| |]| |]; try done. apply lookup_alter_ne, HN.
  - destruct (e_out e) as [[| |]| |]; try done. apply lookup_alter_ne, HN.
  - destruct (e_out e) as [[| |]| |]; try done. apply lookup_alter_ne, HN.
Qed.
Lemma sep_cv m e c2 h : e_c e <> c2 -> e_op e <> IFork c2 -> cv_step m e !! (c2, h) = m !! (c2, h).
Proof.
  intros H1 H2. unfold cv_step.
  assert (HN : forall h', (e_c e, h') <> (c2, h)) by congruence.
  destruct (e_op e) as [| | | |ch| | | | | | | | | | | | | | |]; try done.
  - apply for_child_other. congruence.
  - destruct (m !! (c2, h)) as [v|] eqn:E; [apply map_filter_lookup_Some; split; [exact E|cbn; congruence]|apply map_filter_lookup_None; left; exact E].
  - destruct (m !! (c2, h)) as [v|] eqn:E; [apply map_filter_lookup_Some; split; [exact E|cbn; congruence]|apply map_filter_lookup_None; left; exact E].
  - destruct (e_out e); try done. apply lookup_insert_ne, HN.
  - destruct (e_out e) as [[| |]| |]; try done. apply lookup_delete_ne, HN.
Qed.
