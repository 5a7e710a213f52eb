(** Playing histories of INET calls, for the examples *)
From Verif Require Import Base PortModel PortSpec InetModel InetSpec.
Local Open Scope list_scope.
Local Open Scope Z_scope.

(** The history that makes these calls with these kernel answers, and what the
    calls answered *)
Definition plays (devs : list addr) (l : list (Z * iop * kans)) (outs : list iout) (evs : list event) (s : ist) : Prop :=
  history devs evs s /\ map (fun e => (e_cage e, e_op e, e_ans e)) evs = l /\ map e_out evs = outs.

Definition validb (s : ist) (o : iop) : bool :=
  match o with
  | Bind _ x => (0 <=? ia_port x) && (ia_port x <=? 65535)
  | Recv _ len _ _ => 0 <=? len
  | Fork c' => forallb (fun e => negb (e.1.1 =? c')) (map_to_list (i_fds s))
  | _ => true
  end.
Lemma validb_ok s o : validb s o = true -> valid s o.
Proof.
  destruct o; try (intros _; exact I); cbn.
  - rewrite andb_true_iff, !Z.leb_le. exact id.
  - rewrite Z.leb_le. exact id.
  - rewrite forallb_forall. intros H fd. destruct (i_fds s !! (c', fd)) as [d|] eqn:E; [|reflexivity].
    apply elem_of_map_to_list, elem_of_list_In, H in E. cbn in E. rewrite Z.eqb_refl in E. discriminate E.
Qed.
Fixpoint play (devs : list addr) (s : ist) (l : list (Z * iop * kans)) : option (list event * ist) :=
  match l with
  | [] => Some ([], s)
  | (c, o, a) :: r =>
      if validb s o then
        match step devs s c o a with
        | IGo s' t out => match play devs s' r with Some (evs, s2) => Some (Ev s c o a t out :: evs, s2) | None => None end
        | _ => None
        end
      else None
  end.
Lemma play_ok devs l : forall ev0 s evs s', history devs ev0 s -> play devs s l = Some (evs, s') ->
  history devs (ev0 ++ evs) s' /\ map (fun e => (e_cage e, e_op e, e_ans e)) evs = l.
Proof.
  induction l as [|[[c o] a] r IH]; intros ev0 s evs s' H E; cbn [play] in E.
  - injection E as <- <-. rewrite app_nil_r. auto.
  - destruct (validb s o) eqn:Ev0; [|discriminate E]. destruct (step devs s c o a) as [s1 t out| |] eqn:Es; [|discriminate E|discriminate E].
    destruct (play devs s1 r) as [[evs1 s2]|] eqn:Ep; [|discriminate E]. injection E as <- <-.
    destruct (IH _ _ _ _ (h_step _ _ _ _ _ _ _ _ _ H (validb_ok _ _ Ev0) Es) Ep) as [A B]. rewrite <- app_assoc in A. split; [exact A|]. cbn. rewrite B. reflexivity.
Qed.
Lemma inet_ex devs l outs (chk : list event -> ist -> bool) (P : list event -> ist -> Prop) :
  (forall evs s, plays devs l outs evs s -> chk evs s = true -> P evs s) ->
  match play devs init_inet l with Some (evs, s) => bool_decide (map e_out evs = outs) && chk evs s | None => false end = true ->
  exists evs s, plays devs l outs evs s /\ P evs s.
Proof.
  intros HP. destruct (play devs init_inet l) as [[evs s]|] eqn:E; [|discriminate 1]. rewrite andb_true_iff, bool_decide_eq_true. intros [Ho Hc].
  destruct (play_ok _ _ [] _ _ _ (h_nil devs) E) as [A B]. exists evs, s. assert (X : plays devs l outs evs s) by (split; [exact A|split; [exact B|exact Ho]]). split; [exact X|exact (HP _ _ X Hc)].
Qed.

(** Answers: everything succeeds, nothing to accept or to receive; and the same
    but for one answer *)
Definition yes : kans := KAns 0 0 0 0 0 0 (inr EAGAIN) 0 (inr EAGAIN) true [] 0.
Definition with_bind e : kans := KAns 0 0 e 0 0 0 (inr EAGAIN) 0 (inr EAGAIN) true [] 0.
Definition with_conn e : kans := KAns 0 0 0 e 0 0 (inr EAGAIN) 0 (inr EAGAIN) true [] 0.
Definition with_acc p : kans := KAns 0 0 0 0 0 0 (inl p) 0 (inr EAGAIN) true [] 0.
Definition with_send r : kans := KAns 0 0 0 0 0 0 (inr EAGAIN) r (inr EAGAIN) true [] 0.
Definition with_recv bs : kans := KAns 0 0 0 0 0 0 (inr EAGAIN) 0 (inl bs) true [] 0.
Definition with_ready l : kans := KAns 0 0 0 0 0 0 (inr EAGAIN) 0 (inr EAGAIN) true l 0.
Definition with_soerr b : kans := KAns 0 0 0 0 0 0 (inr EAGAIN) 0 (inr EAGAIN) b [] 0.
(** the same cage, everything succeeding *)
Definition c1 (l : list iop) : list (Z * iop * kans) := map (fun o => (1, o, yes)) l.

(** Tests *)
Definition noest (tr : list kcall) (k : Z) : bool :=
  forallb (fun e => match e with KAccept _ (inl _) j | KConnect j _ _ => negb (j =? k) | _ => true end) tr.
Lemma noest_ok tr k : noest tr k = true -> ~ established tr k.
Proof.
  unfold noest. rewrite forallb_forall. intros H [(l & p & X)|[(x & X)|(t1 & t2 & x & -> & _)]].
  - apply elem_of_list_In, H in X. cbn in X. rewrite Z.eqb_refl in X. discriminate X.
  - apply elem_of_list_In, H in X. cbn in X. rewrite Z.eqb_refl in X. discriminate X.
  - assert (X : In (KConnect k x EINPROGRESS) (t1 ++ KConnect k x EINPROGRESS :: t2)) by (apply in_or_app; right; left; reflexivity).
    apply H in X. cbn in X. rewrite Z.eqb_refl in X. discriminate X.
Qed.
Definition nocall (p : kcall -> bool) (tr : list kcall) : bool := forallb (fun e => negb (p e)) tr.
Lemma nocall_ok p tr e : nocall p tr = true -> e ∈ tr -> p e = false.
Proof. unfold nocall. rewrite forallb_forall. intros H He. apply negb_true_iff, H, elem_of_list_In, He. Qed.
Definition named_as (s : ist) (i : Z) (y : iaddr) (q : ptype) : bool :=
  match i_h s !! i with Some h => bool_decide (h_loc h = Some y /\ (h_v6 h, h_tcp h) = q) | None => false end.
Lemma named_as_ok s i y q : named_as s i y q = true -> has_name s i y q.
Proof. unfold named_as. destruct (i_h s !! i) as [h|] eqn:E; [|discriminate 1]. rewrite bool_decide_eq_true. intros [A B]. exists h. auto. Qed.
Definition tidyb (evs : list event) : bool :=
  forallb (fun e => match e_op e with
                    | Bind _ x => ((ia_port x =? 0) || unspecified (ia_a x)) && negb (bool_decide (e_out e = IRet (err EADDRINUSE))) && negb (bool_decide (e_out e = IRet (err EADDRNOTAVAIL)))
                    | _ => true end) evs.
Lemma tidyb_ok evs : tidyb evs = true -> tidy evs.
Proof.
  unfold tidyb. rewrite forallb_forall. intros H e fd x He Eo. apply elem_of_list_In, H in He. rewrite Eo in He.
  rewrite !andb_true_iff, orb_true_iff, !negb_true_iff, !bool_decide_eq_false, Z.eqb_eq in He. destruct He as [[A B] C]. auto.
Qed.
Definition noshut (evs : list event) : bool := forallb (fun e => match e_op e with Shutdown _ _ => false | _ => true end) evs.
Lemma noshut_ok evs i : noshut evs = true -> forall e, e ∈ evs -> ~ shut_call e i.
Proof. unfold noshut. rewrite forallb_forall. intros H e He (fd & how & E & _). apply elem_of_list_In, H in He. rewrite E in He. discriminate He. Qed.
Lemma not_eph80 : ~ ephemeral 80.
Proof. intros (q & Hq & E). Z.to_euclidean_division_equations. lia. Qed.
