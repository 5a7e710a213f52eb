(** Concrete histories with mappings, and the claims they refute. *)
From Verif Require Import Base CodecModel PathModel PathSpec FsModel FsBoot FsSpec FsReachSpec MapModel MapSpec MapProofs2 MapProofs3 MapProofs4 MapProofs5.
Local Open Scope list_scope.
Local Open Scope Z_scope.

Definition calm_op (o : op) : bool := match o with Fork _ | Exec _ | Unlink _ | Dup2 _ _ | Pipe2 _ | Rename _ _ => false | _ => true end.
Definition apart (s : mstate) (lo hi : Z) : bool := forallb (fun m => (m_lo m + m_len m <=? lo) || (hi <=? m_lo m)) (s_maps s).
Definition may_b (s : mstate) (addr len flags off : Z) (ans : option Z) : bool :=
  match ans with
  | None => true
  | Some a =>
      (a mod 4096 =? 0) && (0 <? a) && (a + (len + 4095) / 4096 * 4096 <=? 2 ^ 47) && (off mod 4096 =? 0) &&
      if Z.land flags 16 =? 0 then apart s a (a + (len + 4095) / 4096 * 4096) else a =? addr
  end.
Definition calm (s : mstate) (o : mop) : bool :=
  match o with
  | Sys _ k => calm_op k
  | Mmap _ addr len _ flags _ off ans => (0 <=? len) && may_b s addr len flags (if Z.land flags 32 =? 0 then off else 0) ans
  | Munmap _ addr len ans => (0 <=? len) && may_b s addr len 50 0 ans
  | _ => true
  end.
Lemma apart_none s lo hi : apart s lo hi = true -> forall b, lo <= b < hi -> mapping_at s b = None.
Proof.
  intros H b Hb. unfold mapping_at. destruct (find (covers b) (s_maps s)) as [m|] eqn:E; [|reflexivity]. apply find_some in E as [E1 E2].
  unfold apart in H. rewrite forallb_forall in H. specialize (H m E1). unfold covers in E2. lia.
Qed.
Lemma may_ok s addr len flags off ans : may_b s addr len flags off ans = true -> host_may s addr len flags off ans.
Proof.
  destruct ans as [a|]; [|intros _; exact I]. unfold may_b, host_may. intros H. apply andb_true_iff in H as [H H5]. apply andb_true_iff in H as [H H4]. apply andb_true_iff in H as [H H3]. apply andb_true_iff in H as [H1 H2].
  split; [apply Z.mod_divide; lia|]. split; [lia|]. split; [lia|]. split; [apply Z.mod_divide; lia|].
  destruct (Z.eqb_spec (Z.land flags 16) 0) as [E|E]; split; intros Q; try congruence; [apply apart_none; exact H5|lia].
Qed.
Lemma calm_tame s o x s' : mstep s o = Done (s', x) -> calm s o = true -> mtame s o x.
Proof.
  intros Hs H. destruct o as [c k|c addr len prot flags fd off ans|c addr len ans|a|a v]; cbn [calm mtame] in *.
  - destruct x; try exact I. destruct k; try exact I; discriminate H.
  - apply andb_true_iff in H as [H1 H2]. split; [lia|apply may_ok; exact H2].
  - apply andb_true_iff in H as [H1 H2]. split; [lia|apply may_ok; exact H2].
  - exact I.
  - exact I.
Qed.
Fixpoint play (s : mstate) (h : list mop) : option mstate :=
  match h with
  | [] => Some s
  | o :: r => if calm s o then match mstep s o with Done (s1, _) => play s1 r | Panic => None end else None
  end.
Lemma play_reach h : forall past s s', mreach past s -> play s h = Some s' -> exists past', mreach past' s'.
Proof.
  induction h as [|o r IH]; intros past s s' Hr H; cbn [play] in H; [injection H as <-; eauto|].
  destruct (calm s o) eqn:Ec; [|discriminate H]. destruct (mstep s o) as [[s1 x]|] eqn:E; [|discriminate H].
  apply (IH ((s, o) :: past) s1 s'); [|exact H]. eapply mreach_step; [exact Hr|exact E|]. eapply calm_tame; eauto.
Qed.
(** A property of the state that a concrete history leads to *)
Lemma played h (q : mstate -> bool) : match play start h with Some s => q s | None => false end = true -> exists past s, mreach past s /\ q s = true.
Proof.
  destruct (play start h) as [s|] eqn:E; [|discriminate]. intros H. destruct (play_reach _ _ _ _ mreach_start E) as [past Hr]. eauto.
Qed.

(** A file "abc" mapped at 65536, shared and writable, and at 131072, private *)
Definition h_base : list mop :=
  [Sys 1 (Open "/f" 66 438); Sys 1 (Write 3 [97; 98; 99]); Mmap 1 0 3 3 1 3 0 (Some 65536); Mmap 1 0 3 3 2 3 0 (Some 131072)].
Definition fnum (s : mstate) : Z := match w_fds (s_w s) !! (1, 3) with Some (FFile i _ _) => i | _ => -1 end.

Definition bytes_b (s : mstate) (l : list Z) : bool := bool_decide (file_bytes (s_w s) (fnum s) = Some l).
Definition shared_b (s : mstate) (a pos : Z) : bool :=
  match mapping_at s a with Some m => match m_back m with BShared i _ off => (i =? fnum s) && (pos =? off + (a - m_lo m)) | _ => false end | None => false end.
Lemma shared_b_ok s a pos : shared_b s a pos = true -> shared_at s a (fnum s) pos.
Proof.
  unfold shared_b, shared_at. destruct (mapping_at s a) as [m|]; [|discriminate]. destruct (m_back m) as [|i g off|i g off] eqn:E; try discriminate. intros H.
  apply andb_true_iff in H as [H1 H2]. apply Z.eqb_eq in H1, H2. subst i. exists m, g, off. auto.
Qed.
Definition attached_b (s : mstate) (a : Z) : bool :=
  match mapping_at s a with Some m => match m_back m with BShared i g _ | BPriv i g _ => g =? gen s i | BAnon => true end | None => false end.
Lemma attached_b_ok s a : attached_b s a = true <-> attached s a.
Proof.
  unfold attached_b, attached. destruct (mapping_at s a) as [m|]; [|split; [discriminate|intros (m & [=] & _)]].
  split; [intros H; exists m; split; [reflexivity|]|intros (m' & [= <-] & H)]; destruct (m_back m); try exact I; try reflexivity; try (apply Z.eqb_eq; exact H).
Qed.
Definition mout_eqb (x y : mout) : bool :=
  match x, y with MByte a, MByte b => a =? b | MStored, MStored | MSegv, MSegv | MBus, MBus => true | MRet (Ret a), MRet (Ret b) => a =? b | _, _ => false end.
Lemma mout_eqb_ok x y : mout_eqb x y = true -> x = y.
Proof. destruct x as [[]| | | |], y as [[]| | | |]; cbn; try discriminate; try reflexivity; intros H; apply Z.eqb_eq in H; congruence. Qed.
Definition then_b (s : mstate) (o : mop) (q : mstate -> mout -> bool) : bool := match mstep s o with Done (s', x) => q s' x | Panic => false end.
Lemma then_b_ok s o q : then_b s o q = true -> exists s' x, mstep s o = Done (s', x) /\ q s' x = true.
Proof. unfold then_b. destruct (mstep s o) as [[s' x]|]; [eauto|discriminate]. Qed.

Ltac ands H := repeat (let H2 := fresh "K" in apply andb_true_iff in H as [H H2]).

(** Opening with truncation leaves the mapping with the removed host file *)
Definition h_cut : list mop := h_base ++ [Sys 1 (Open "/f" 514 0); Sys 1 (Pwrite 3 [120; 121; 122] 0)].
Lemma cut_apart : exists past s, mreach past s /\ shared_at s 65536 (fnum s) 0 /\ load s 65536 = MByte 97 /\ file_bytes (s_w s) (fnum s) = Some [120; 121; 122] /\
  exists s', mstep s (Store 65536 7) = Done (s', MStored) /\ s_w s' = s_w s /\ load s' 65536 = MByte 7.
Proof.
  destruct (played h_cut (fun s => shared_b s 65536 0 && mout_eqb (load s 65536) (MByte 97) && bytes_b s [120; 121; 122] && negb (attached_b s 65536) &&
     match mapping_at s 65536 with Some _ => true | None => false end &&
     then_b s (Store 65536 7) (fun s' x => mout_eqb x MStored && mout_eqb (load s' 65536) (MByte 7)))) as (past & s & Hr & K); [vm_compute; reflexivity|].
  ands K. apply shared_b_ok in K. apply mout_eqb_ok in K4. apply bool_decide_eq_true in K3. apply then_b_ok in K0 as (s' & x & Hs & K0). ands K0. apply mout_eqb_ok in K0, K5. subst x.
  exists past, s. split; [exact Hr|]. split; [exact K|]. split; [exact K4|]. split; [exact K3|]. exists s'. split; [exact Hs|]. split; [|exact K5].
  eapply detached_store; [exact Hr|exact Hs| |]; [destruct (mapping_at s 65536); [discriminate|discriminate K1]|]. rewrite <- attached_b_ok. intros Q. rewrite Q in K2. discriminate K2.
Qed.

Lemma rights_ex : exists past s s' x, mreach past s /\ mstep s (Store 65536 7) = Done (s', x) /\ file_bytes (s_w s) (fnum s) = Some [97; 98; 99] /\ file_bytes (s_w s') (fnum s) = Some [7; 98; 99].
Proof.
  destruct (played h_base (fun s => bytes_b s [97; 98; 99] && then_b s (Store 65536 7) (fun s' x => bool_decide (file_bytes (s_w s') (fnum s) = Some [7; 98; 99])))) as (past & s & Hr & K); [vm_compute; reflexivity|].
  ands K. apply then_b_ok in K0 as (s' & x & Hs & K0). apply bool_decide_eq_true in K, K0. exists past, s, s', x. auto.
Qed.
Lemma private_ex : exists past s s' x m, mreach past s /\ mstep s (Store 131072 7) = Done (s', x) /\ mapping_at s 131072 = Some m /\ (forall i g off, m_back m <> BShared i g off) /\
  load s' 131072 = MByte 7 /\ load s' 65536 = MByte 97 /\ file_bytes (s_w s') (fnum s') = Some [97; 98; 99].
Proof.
  destruct (played h_base (fun s => match mapping_at s 131072 with Some m => match m_back m with BPriv _ _ _ => true | _ => false end | None => false end &&
    then_b s (Store 131072 7) (fun s' x => mout_eqb (load s' 131072) (MByte 7) && mout_eqb (load s' 65536) (MByte 97) && bytes_b s' [97; 98; 99]))) as (past & s & Hr & K); [vm_compute; reflexivity|].
  ands K. apply then_b_ok in K0 as (s' & x & Hs & K0). ands K0. apply bool_decide_eq_true in K1. apply mout_eqb_ok in K0, K2. destruct (mapping_at s 131072) as [m|] eqn:Em; [|discriminate K].
  exists past, s, s', x, m. split; [exact Hr|]. split; [exact Hs|]. split; [exact Em|]. split; [intros i g off Q; rewrite Q in K; discriminate K|]. auto.
Qed.
Lemma mmap_ex : (exists past s s' x, mreach past s /\ mstep s (Mmap 1 0 5000 1 2 3 0 (Some 200704)) = Done (s', x) /\ x = MRet (Ret 200704) /\ s' <> s) /\
  (exists past s s' x, mreach past s /\ mstep s (Mmap 1 0 5000 3 1 4 0 (Some 200704)) = Done (s', x) /\ x = MRet (Ret (-13)) /\ on_file (s_w s) 1 4 (fnum s) 3 0) /\
  (exists past s, mreach past s /\ mstep s (Mmap 1 0 5000 3 1 1024 0 (Some 200704)) = Panic).
Proof.
  split; [|split].
  - destruct (played h_base (fun s => then_b s (Mmap 1 0 5000 1 2 3 0 (Some 200704)) (fun s' x => mout_eqb x (MRet (Ret 200704)) && negb (s_next s' =? s_next s)))) as (past & s & Hr & K); [vm_compute; reflexivity|].
    apply then_b_ok in K as (s' & x & Hs & K). ands K. apply mout_eqb_ok in K. exists past, s, s', x. split; [exact Hr|]. split; [exact Hs|]. split; [exact K|]. intros ->. rewrite Z.eqb_refl in K0. discriminate K0.
  - destruct (played (h_base ++ [Sys 1 (Open "/f" 0 0)]) (fun s => then_b s (Mmap 1 0 5000 3 1 4 0 (Some 200704)) (fun s' x => mout_eqb x (MRet (Ret (-13)))) &&
      match w_fds (s_w s) !! (1, 4) with Some (FFile i _ fl) => (i =? fnum s) && (fl =? 0) && match w_ino (s_w s) !! i with Some y => match i_kind y with KFile => i_size y =? 3 | _ => false end | None => false end | _ => false end)) as (past & s & Hr & K); [vm_compute; reflexivity|].
    ands K. apply then_b_ok in K as (s' & x & Hs & K). apply mout_eqb_ok in K. exists past, s, s', x. split; [exact Hr|]. split; [exact Hs|]. split; [exact K|].
    destruct (w_fds (s_w s) !! (1, 4)) as [[i p fl| | |]|] eqn:Ef; try discriminate K0. ands K0. apply Z.eqb_eq in K0, K2. subst i fl. destruct (w_ino (s_w s) !! fnum s) as [y|] eqn:Ey; [|discriminate K1].
    destruct (i_kind y) eqn:Ek; try discriminate K1. apply Z.eqb_eq in K1. exists p, y. auto.
  - destruct (played h_base (fun s => match mstep s (Mmap 1 0 5000 3 1 1024 0 (Some 200704)) with Panic => true | _ => false end)) as (past & s & Hr & K); [vm_compute; reflexivity|].
    exists past, s. split; [exact Hr|]. destruct (mstep s _); [discriminate K|reflexivity].
Qed.
Lemma shared_ex : exists past s, mreach past s /\ shared_at s 65537 (fnum s) 1 /\ attached s 65537 /\ load s 65537 = MByte 98 /\ file_bytes (s_w s) (fnum s) = Some [97; 98; 99].
Proof.
  destruct (played h_base (fun s => shared_b s 65537 1 && attached_b s 65537 && mout_eqb (load s 65537) (MByte 98) && bytes_b s [97; 98; 99])) as (past & s & Hr & K); [vm_compute; reflexivity|].
  ands K. apply shared_b_ok in K. apply attached_b_ok in K2. apply mout_eqb_ok in K1. apply bool_decide_eq_true in K0. exists past, s. auto.
Qed.
Lemma unmap_ex : exists past s s', mreach past s /\ load s 65536 = MByte 97 /\ mstep s (Munmap 1 65536 4096 (Some 65536)) = Done (s', MRet (Ret 65536)) /\ load s' 65536 = MSegv /\ load s' 131072 = MByte 97.
Proof.
  destruct (played h_base (fun s => mout_eqb (load s 65536) (MByte 97) && then_b s (Munmap 1 65536 4096 (Some 65536)) (fun s' x => mout_eqb x (MRet (Ret 65536)) && mout_eqb (load s' 65536) MSegv && mout_eqb (load s' 131072) (MByte 97)))) as (past & s & Hr & K); [vm_compute; reflexivity|].
  ands K. apply then_b_ok in K0 as (s' & x & Hs & K0). ands K0. apply mout_eqb_ok in K, K0, K1, K2. subst x. exists past, s, s'. auto.
Qed.
(** The host refuses *)
Lemma refusal_ex : exists past s, mreach past s /\ allowed s 1 5000 3 34 0 0 BAnon /\ calm s (Mmap 1 0 5000 3 34 0 0 None) = true /\ mstep s (Mmap 1 0 5000 3 34 0 0 None) = Done (s, MRet (Ret (-1))) /\
  mstep s (Munmap 1 3 5000 None) = Done (s, MRet (Ret (-1))).
Proof.
  destruct (played h_base (fun s => match w_cwd (s_w s) !! 1 with Some _ => true | None => false end)) as (past & s & Hr & K); [vm_compute; reflexivity|]. exists past, s. split; [exact Hr|].
  destruct (w_cwd (s_w s) !! 1) eqn:Ec; [|discriminate K]. split; [|split; [reflexivity|split; cbn [mstep]; rewrite Ec; reflexivity]].
  split; [split; [discriminate|right; split; [reflexivity|discriminate]]|left; split; [discriminate|reflexivity]].
Qed.
(** Two addresses with one answer *)
Lemma address_ex : exists past s s1 s2 x, mreach past s /\ mstep s (Mmap 1 0 5000 3 34 0 0 (Some 1048576)) = Done (s1, x) /\ mstep s (Mmap 1 0 5000 3 34 0 0 (Some 4296015872)) = Done (s2, x) /\
  mtame s (Mmap 1 0 5000 3 34 0 0 (Some 1048576)) x /\ mtame s (Mmap 1 0 5000 3 34 0 0 (Some 4296015872)) x.
Proof.
  destruct (played h_base (fun s => match w_cwd (s_w s) !! 1 with Some _ => true | None => false end && calm s (Mmap 1 0 5000 3 34 0 0 (Some 1048576)) && calm s (Mmap 1 0 5000 3 34 0 0 (Some 4296015872)))) as (past & s & Hr & K); [vm_compute; reflexivity|].
  ands K. destruct (w_cwd (s_w s) !! 1) eqn:Ec; [|discriminate K].
  assert (E1 : exists s1, mstep s (Mmap 1 0 5000 3 34 0 0 (Some 1048576)) = Done (s1, MRet (Ret 1048576))) by (eexists; cbn [mstep]; rewrite Ec; reflexivity).
  assert (E2 : exists s2, mstep s (Mmap 1 0 5000 3 34 0 0 (Some 4296015872)) = Done (s2, MRet (Ret 1048576))) by (eexists; cbn [mstep]; rewrite Ec; reflexivity).
  destruct E1 as [s1 E1], E2 as [s2 E2]. exists past, s, s1, s2, (MRet (Ret 1048576)). split; [exact Hr|]. split; [exact E1|]. split; [exact E2|]. split; eapply calm_tame; eauto.
Qed.
