(** C117, C118, C119: memory-mapped files. *)
From Verif Require Import Base PathModel PathSpec FsModel FsBoot FsSpec FsReachSpec FsIoSpec MapModel MapSpec MapProofs3 MapProofs4 MapProofs5 MapProofs6.
Local Open Scope list_scope.
Local Open Scope Z_scope.

(** ** C117: a mapping gives no more rights than the descriptor *)

(** A store changes a file only where an earlier mmap put it, shared and
    writable, through a descriptor open for reading and writing; it changes that
    one byte. *)
Theorem C117_store_rights past s a v s' x i :
  mreach past s -> mstep s (Store a v) = Done (s', x) -> file_bytes (s_w s') i <> file_bytes (s_w s) i ->
  exists pos b, granted past a i pos /\ file_bytes (s_w s) i = Some b /\ 0 <= pos < Z.of_nat (length b) /\
    file_bytes (s_w s') i = Some (<[Z.to_nat pos := v]> b).
Proof. exact (store_rights past s a v s' x i). Qed.
Print Assumptions C117_store_rights.

(** A store changes nothing but bytes of at most one file, and no size. *)
Theorem C117_store_frame past s a v s' x :
  mreach past s -> mstep s (Store a v) = Done (s', x) ->
  same_but_bytes (s_w s) (s_w s') /\
  (forall i b, file_bytes (s_w s) i = Some b -> exists b', file_bytes (s_w s') i = Some b' /\ length b' = length b) /\
  (forall i j, file_bytes (s_w s') i <> file_bytes (s_w s) i -> file_bytes (s_w s') j <> file_bytes (s_w s) j -> i = j).
Proof. exact (store_frame past s a v s' x). Qed.
Print Assumptions C117_store_frame.

(** Stores into private and anonymous mappings are seen nowhere else. *)
Theorem C117_private past s a v s' x m :
  mreach past s -> mstep s (Store a v) = Done (s', x) -> mapping_at s a = Some m -> (forall i g off, m_back m <> BShared i g off) ->
  s_w s' = s_w s /\ forall b m', mapping_at s b = Some m' -> m' <> m -> load s' b = load s b.
Proof. exact (store_private past s a v s' x m). Qed.
Print Assumptions C117_private.

(** mmap answers the code of the first rule that the request breaks, and changes
    nothing; if it breaks none, the kernel decides, and exactly the asked
    addresses show what was asked for. *)
Theorem C117_mmap past s c addr len prot flags fd off ans s' x :
  mreach past s -> mstep s (Mmap c addr len prot flags fd off ans) = Done (s', x) ->
  (exists e, refused (s_w s) c len prot flags fd off e /\ s' = s /\ x = MRet (Ret (- e))) \/
  (exists b, allowed s c len prot flags fd off b /\
     ((ans = None /\ s' = s /\ x = MRet (Ret (-1))) \/
      (exists a, ans = Some a /\ x = MRet (Ret (to_i32 a)) /\ s_w s' = s_w s /\ s_gen s' = s_gen s /\ s_old s' = s_old s /\ s_page s' = s_page s /\
         s_next s' = s_next s + 1 /\
         (forall y, mapping_at s' y = if (a <=? y) && (y <? a + (len + 4095) / 4096 * 4096)
            then Some (Mapping a ((len + 4095) / 4096 * 4096) prot (s_next s) b) else mapping_at s y)))).
Proof. exact (mmap_rules past s c addr len prot flags fd off ans s' x). Qed.
Print Assumptions C117_mmap.
Theorem C117_rules_exclusive s c len prot flags fd off b e :
  allowed s c len prot flags fd off b -> refused (s_w s) c len prot flags fd off e -> False.
Proof. exact (rules_exclusive s c len prot flags fd off b e). Qed.
Print Assumptions C117_rules_exclusive.

(** mmap stops the library exactly for a process that has ended and for
    descriptor numbers outside the table *)
Theorem C117_aborts past s c addr len prot flags fd off ans :
  mreach past s ->
  mstep s (Mmap c addr len prot flags fd off ans) = Panic <->
  (w_cwd (s_w s) !! c = None \/ (well_flagged len flags /\ Z.land flags 32 = 0 /\ ~ 0 <= fd < 1024)).
Proof. exact (mmap_aborts past s c addr len prot flags fd off ans). Qed.
Print Assumptions C117_aborts.

Example C117_nonvacuous : exists past s s' x,
  mreach past s /\ mstep s (Store 65536 7) = Done (s', x) /\
  file_bytes (s_w s) (fnum s) = Some [97; 98; 99] /\ file_bytes (s_w s') (fnum s) = Some [7; 98; 99].
Proof. exact rights_ex. Qed.
Example C117_private_nonvacuous : exists past s s' x m,
  mreach past s /\ mstep s (Store 131072 7) = Done (s', x) /\ mapping_at s 131072 = Some m /\ (forall i g off, m_back m <> BShared i g off) /\
  load s' 131072 = MByte 7 /\ load s' 65536 = MByte 97 /\ file_bytes (s_w s') (fnum s') = Some [97; 98; 99].
Proof. exact private_ex. Qed.
Example C117_mmap_nonvacuous :
  (exists past s s' x, mreach past s /\ mstep s (Mmap 1 0 5000 1 2 3 0 (Some 200704)) = Done (s', x) /\ x = MRet (Ret 200704) /\ s' <> s) /\
  (exists past s s' x, mreach past s /\ mstep s (Mmap 1 0 5000 3 1 4 0 (Some 200704)) = Done (s', x) /\ x = MRet (Ret (-13)) /\ on_file (s_w s) 1 4 (fnum s) 3 0) /\
  (exists past s, mreach past s /\ mstep s (Mmap 1 0 5000 3 1 1024 0 (Some 200704)) = Panic).
Proof. exact mmap_ex. Qed.

(** ** C118: memory and file agree *)

(** Loads from a shared mapping, reads and stat see the same array. *)
Theorem C118_load past s a i pos l :
  mreach past s -> shared_at s a i pos -> attached s a -> load s a <> MSegv -> file_bytes (s_w s) i = Some l ->
  seen_as (s_w s) i l /\ file_at l pos (load s a).
Proof. exact (load_shared past s a i pos l). Qed.
Print Assumptions C118_load.
(** A store into the file is seen by all of them. *)
Theorem C118_store past s a v i pos l s' x :
  mreach past s -> shared_at s a i pos -> attached s a -> file_bytes (s_w s) i = Some l -> pos < Z.of_nat (length l) ->
  mstep s (Store a v) = Done (s', x) -> x <> MSegv ->
  x = MStored /\ seen_as (s_w s') i (<[Z.to_nat pos := v]> l) /\ load s' a = MByte v.
Proof. exact (store_shared past s a v i pos l s' x). Qed.
Print Assumptions C118_store.
(** Every mapping gives back what was stored (in a shared one, before the end of
    the file). *)
Theorem C118_store_load past s a v s' :
  mreach past s -> mstep s (Store a v) = Done (s', MStored) ->
  (forall i pos l m g off, mapping_at s a = Some m -> m_back m = BShared i g off -> pos = off + (a - m_lo m) ->
     content s i g = Some l -> pos < Z.of_nat (length l)) ->
  load s' a = MByte v.
Proof. exact (store_load past s a v s'). Qed.
Print Assumptions C118_store_load.
(** A new mapping shows the file as it is, or zeros. *)
Theorem C118_fresh past s c addr len prot flags fd off a s' x :
  mreach past s -> mstep s (Mmap c addr len prot flags fd off (Some a)) = Done (s', x) ->
  mtame s (Mmap c addr len prot flags fd off (Some a)) x -> s' <> s -> Z.land prot 7 <> 0 -> forall y, in_range a len y ->
  attached s' y /\
  (Z.land flags 32 <> 0 -> load s' y = MByte 0) /\
  (Z.land flags 32 = 0 -> exists i size fl l, on_file (s_w s) c fd i size fl /\ file_bytes (s_w s) i = Some l /\ file_at l (off + (y - a)) (load s' y)).
Proof. exact (fresh_shows past s c addr len prot flags fd off a s' x). Qed.
Print Assumptions C118_fresh.
(** It goes on showing the file until it is replaced or removed, the file is
    opened with truncation, or the file is gone. *)
Theorem C118_stays_partial past s o s' x a m :
  mreach past s -> mstep s o = Done (s', x) -> mtame s o x -> mapping_at s a = Some m -> attached s a ->
  (mapping_at s' a = Some m /\ attached s' a) \/
  (exists c addr len prot flags fd off, o = Mmap c addr len prot flags fd off (Some addr) /\ Z.land flags 16 <> 0 /\ in_range addr len a) \/
  (exists c addr len, o = Munmap c addr len (Some addr) /\ in_range addr len a) \/
  (exists c k i, o = Sys c k /\ (exists g off, m_back m = BShared i g off \/ m_back m = BPriv i g off) /\
     (truncating (s_w s) c k i \/ w_ino (s_w s') !! i = None)).
Proof. exact (stays past s o s' x a m). Qed.
Print Assumptions C118_stays_partial.
(** From then on no call is seen through it, and stores through it are lost. *)
Theorem C118_detached past s c k s' x a :
  mreach past s -> mstep s (Sys c k) = Done (s', x) -> mapping_at s a <> None -> ~ attached s a -> load s' a = load s a /\ ~ attached s' a.
Proof. exact (detached_calls past s c k s' x a). Qed.
Print Assumptions C118_detached.
Theorem C118_detached_store past s a v s' x :
  mreach past s -> mstep s (Store a v) = Done (s', x) -> mapping_at s a <> None -> ~ attached s a -> s_w s' = s_w s.
Proof. exact (detached_store past s a v s' x). Qed.
Print Assumptions C118_detached_store.
(** So memory and file do not always agree. *)
Theorem C118_coherent_refuted : ~ (forall past s a i pos l v,
  mreach past s -> shared_at s a i pos -> load s a <> MSegv -> file_bytes (s_w s) i = Some l -> l !! Z.to_nat pos = Some v -> load s a = MByte v).
Proof.
  intros H. destruct cut_apart as (past & s & Hr & Hs & Hl & Hb & _).
  assert (E : load s 65536 = MByte 120) by (eapply H; [exact Hr|exact Hs|rewrite Hl; discriminate|exact Hb|reflexivity]). rewrite Hl in E. discriminate E.
Qed.
Print Assumptions C118_coherent_refuted.
Theorem C118_stores_lost_refuted : ~ (forall past s a i pos l v s',
  mreach past s -> shared_at s a i pos -> file_bytes (s_w s) i = Some l -> 0 <= pos < Z.of_nat (length l) -> mstep s (Store a v) = Done (s', MStored) ->
  file_bytes (s_w s') i = Some (<[Z.to_nat pos := v]> l)).
Proof.
  intros H. destruct cut_apart as (past & s & Hr & Hs & Hl & Hb & s' & Hst & Ew & _).
  pose proof (H _ _ _ _ _ _ _ _ Hr Hs Hb ltac:(cbn; lia) Hst) as E. rewrite Ew, Hb in E. discriminate E.
Qed.
Print Assumptions C118_stores_lost_refuted.
(** munmap: every access to the range faults, nothing else changes *)
Theorem C118_unmap past s c addr len s' x :
  mreach past s -> len <> 0 -> mstep s (Munmap c addr len (Some addr)) = Done (s', x) ->
  s_w s' = s_w s /\
  (forall a, in_range addr len a -> load s' a = MSegv /\ forall v, mstep s' (Store a v) = Done (s', MSegv)) /\
  (forall a, ~ in_range addr len a -> mapping_at s' a = mapping_at s a /\ load s' a = load s a).
Proof. exact (unmapped past s c addr len s' x). Qed.
Print Assumptions C118_unmap.

Example C118_nonvacuous : exists past s,
  mreach past s /\ shared_at s 65537 (fnum s) 1 /\ attached s 65537 /\ load s 65537 = MByte 98 /\ file_bytes (s_w s) (fnum s) = Some [97; 98; 99].
Proof. exact shared_ex. Qed.
Example C118_unmap_nonvacuous : exists past s s',
  mreach past s /\ load s 65536 = MByte 97 /\ mstep s (Munmap 1 65536 4096 (Some 65536)) = Done (s', MRet (Ret 65536)) /\
  load s' 65536 = MSegv /\ load s' 131072 = MByte 97.
Proof. exact unmap_ex. Qed.

(** ** C119: the answers *)

(** A caller that takes answers from -4095 to -1 for errors, as the kernel's
    callers do, knows whether a mapping was made; of the address it learns the
    lower 32 bits. *)
Theorem C119_mmap_told past s c addr len prot flags fd off ans s' x :
  mreach past s -> mstep s (Mmap c addr len prot flags fd off ans) = Done (s', x) -> mtame s (Mmap c addr len prot flags fd off ans) x ->
  exists r, x = MRet (Ret r) /\ (-4095 <= r < 0 <-> s' = s) /\ (s' <> s -> exists a, ans = Some a /\ r mod 2 ^ 32 = a mod 2 ^ 32).
Proof. exact (told past s c addr len prot flags fd off ans s' x). Qed.
Print Assumptions C119_mmap_told.
Theorem C119_munmap_told past s c addr len ans s' x :
  mreach past s -> mstep s (Munmap c addr len ans) = Done (s', x) -> mtame s (Munmap c addr len ans) x ->
  exists r, x = MRet (Ret r) /\ (-4095 <= r < 0 <-> s' = s) /\ (len = 0 -> r = -22) /\ (len <> 0 -> ans = None -> r = -1) /\
    (s' <> s -> r mod 2 ^ 32 = addr mod 2 ^ 32).
Proof. exact (unmap_told past s c addr len ans s' x). Qed.
Print Assumptions C119_munmap_told.

(** The whole address is not told. *)
Theorem C119_address_refuted : ~ (forall past s c addr len prot flags fd off a1 a2 s1 s2 x,
  mreach past s -> mstep s (Mmap c addr len prot flags fd off (Some a1)) = Done (s1, x) -> mstep s (Mmap c addr len prot flags fd off (Some a2)) = Done (s2, x) ->
  mtame s (Mmap c addr len prot flags fd off (Some a1)) x -> mtame s (Mmap c addr len prot flags fd off (Some a2)) x -> s1 <> s -> a1 = a2).
Proof.
  intros H. destruct address_ex as (past & s & s1 & s2 & x & Hr & H1 & H2 & T1 & T2).
  assert (E : 1048576 = 4296015872); [|discriminate E]. eapply H; [exact Hr|exact H1|exact H2|exact T1|exact T2|].
  intros ->. destruct (told _ _ _ _ _ _ _ _ _ _ _ _ Hr H1 T1) as (r & -> & G & _). pose proof (proj2 G eq_refl) as Hneg.
  destruct (mmap_rules _ _ _ _ _ _ _ _ _ _ _ _ Hr H1) as [(e & He & _)|(b & _ & [(Q & _)|(a & [= <-] & [= ->] & _)])]; [|discriminate Q|vm_compute in Hneg; destruct Hneg as [_ Hneg]; discriminate Hneg].
  eapply rules_exclusive; [|exact He]. split; [split; [discriminate|right; split; [reflexivity|discriminate]]|left; split; [discriminate|reflexivity]].
Qed.
Print Assumptions C119_address_refuted.
(** When the kernel refuses, the answer is -1, EPERM, and not a documented code. *)
Theorem C119_errno_refuted : ~ (forall past s c addr len prot flags fd off ans x,
  mreach past s -> mstep s (Mmap c addr len prot flags fd off ans) = Done (s, x) -> mtame s (Mmap c addr len prot flags fd off ans) x ->
  exists e, x = MRet (Ret (- e)) /\ In e [EINVAL; EACCES; ENXIO; EOPNOTSUPP; EBADF]).
Proof.
  intros H. destruct refusal_ex as (past & s & Hr & Ha & Hc & H1 & _). destruct (H _ _ _ _ _ _ _ _ _ _ _ Hr H1 (calm_tame _ _ _ _ H1 Hc)) as (e & E & Hin).
  assert (e = 1) by (injection E as E; lia). subst e. cbn in Hin. unfold EINVAL, EACCES, ENXIO, EOPNOTSUPP, EBADF in Hin. destruct_or! Hin; try discriminate Hin; exact Hin.
Qed.
Print Assumptions C119_errno_refuted.
Theorem C119_munmap_errno_refuted : ~ (forall past s c addr len ans x,
  mreach past s -> mstep s (Munmap c addr len ans) = Done (s, x) -> mtame s (Munmap c addr len ans) x -> x = MRet (Ret (- EINVAL))).
Proof.
  intros H. destruct refusal_ex as (past & s & Hr & _ & _ & _ & H1). assert (T : mtame s (Munmap 1 3 5000 None) (MRet (Ret (-1)))) by (split; [lia|exact I]).
  pose proof (H _ _ _ _ _ _ _ Hr H1 T) as E. discriminate E.
Qed.
Print Assumptions C119_munmap_errno_refuted.
(** munmap does not answer 0 when it succeeds. *)
Theorem C119_munmap_refuted : ~ (forall past s c addr len s' x,
  mreach past s -> mstep s (Munmap c addr len (Some addr)) = Done (s', x) -> mtame s (Munmap c addr len (Some addr)) x -> len <> 0 -> x = MRet (Ret 0)).
Proof.
  intros H. destruct unmap_ex as (past & s & s' & Hr & _ & H1 & _).
  assert (T : mtame s (Munmap 1 65536 4096 (Some 65536)) (MRet (Ret 65536))) by (eapply calm_tame; [exact H1|reflexivity]).
  pose proof (H _ _ _ _ _ _ _ Hr H1 T ltac:(discriminate)) as E. discriminate E.
Qed.
Print Assumptions C119_munmap_refuted.
Example C119_nonvacuous : exists past s s1 s2 x, mreach past s /\
  mstep s (Mmap 1 0 5000 3 34 0 0 (Some 1048576)) = Done (s1, x) /\ mstep s (Mmap 1 0 5000 3 34 0 0 (Some 4296015872)) = Done (s2, x) /\
  mtame s (Mmap 1 0 5000 3 34 0 0 (Some 1048576)) x /\ mtame s (Mmap 1 0 5000 3 34 0 0 (Some 4296015872)) x.
Proof. exact address_ex. Qed.
