(** C37, C73, C74: the log file. *)
From Verif Require Import Base FsModel LogModel LogSpec LogProofs.
Local Open Scope list_scope.
Local Open Scope Z_scope.

(** ** C37 Log appends survive crashes as whole entries *)

(** Reading the log gives back every entry that was appended: all sequences of
    entries, including those that make the file grow. *)
Theorem C37_read_back :
  forall es m, append_all new_log es = Done m -> Forall entry_fits es -> read_log (m_file m) = Done es.
Proof. exact read_after. Qed.
Print Assumptions C37_read_back.

(** The process dies at any point of an append: the log read back has all
    earlier entries, and possibly the new one, whole. Partial: the eight bytes
    of the count are taken to be stored in one piece. *)
Theorem C37_crash_partial :
  forall es e m f,
    append_all new_log es = Done m -> dies m (entry_bytes e) f -> Forall entry_fits es -> entry_fits e ->
    read_log f = Done es \/ read_log f = Done (es ++ [e]).
Proof. exact read_crash. Qed.
Print Assumptions C37_crash_partial.

(** A case: a log with one entry; the first byte of a second entry has been
    written when the process dies. *)
Example C37_nonvacuous :
  exists m f,
    append_all new_log [(9, Some (Inode KFile 0 33206 1 0 ∅))] = Done m /\
    dies m (entry_bytes (10, None)) f /\ f = <[Z.to_nat (8 + m_count m) := 130]> (m_file m) /\
    Forall entry_fits [(9, Some (Inode KFile 0 33206 1 0 ∅))] /\ entry_fits (10, None).
Proof.
  destruct (append_many [(9, Some (Inode KFile 0 33206 1 0 ∅))] new_log [] log_new) as (m & Hm & Hs).
  { cbn [m_count m_size new_log]. vm_compute. discriminate. }
  pose proof (append_all_log _ _ [] _ log_new Hm) as (Hh & _). cbn [app] in Hh. destruct Hh as (Hc & _).
  exists m. eexists. split; [exact Hm|].
  split; [|split; [reflexivity|]].
  - exists (imap (fun k b => WByte (COUNTMAPSIZE + m_count m + Z.of_nat k) b) [130; 10; 246] ++ [WCount (m_count m + 3)]).
    exists [WByte (COUNTMAPSIZE + m_count m + 0) 130].
    eexists. split; [|split; [reflexivity|]].
    + unfold plan. change (entry_bytes (10, None)) with [130; 10; 246]. change (Z.of_nat (length [130; 10; 246])) with 3.
      assert (m_size m <? m_count m + 3 = false) as ->.
      { rewrite Hs, Hc. vm_compute. reflexivity. }
      eexists. split; [reflexivity|]. reflexivity.
    + cbn [fold_left apply_mw]. by rewrite Z.add_0_r.
  - split.
    + constructor; [|constructor]. split; [cbn; unfold u64; lia|]. cbn [snd]. unfold fits. cbn. unfold u64.
      repeat match goal with |- _ /\ _ => split end; try lia; try reflexivity. intros f n H. discriminate H.
    + split; [cbn; unfold u64; lia|exact I].
Qed.

(** With the count stored byte by byte the property is false: after 85 entries
    the count is 255; while it becomes 258 it is 2 for a moment, and a log cut
    there cannot be read at all. *)
Theorem C37_bytewise_refuted :
  exists es e m f,
    append_all new_log es = Done m /\ Forall entry_fits es /\ entry_fits e /\
    dies_bytewise m (entry_bytes e) f /\ read_log f = Panic.
Proof.
  destruct count_torn as (m & Hm & Hr).
  pose proof (append_all_log _ _ [] _ log_new Hm) as (Hh & Hl & _). cbn [app] in Hh.
  assert (Hc : m_count m = 255) by (rewrite (proj1 Hh), nones_data; vm_compute; reflexivity).
  destruct (append_many (nones 85) new_log [] log_new) as (m2 & Hm2 & Hs).
  { rewrite nones_data. cbn [m_count m_size new_log]. vm_compute. discriminate. }
  rewrite Hm in Hm2. injection Hm2 as <-. rewrite Hc in Hh.
  exists (nones 85), (9, None), m, (<[7%nat := 2]> (fold_left apply_mw (stores 255 [130; 9; 246]) (m_file m))).
  split; [exact Hm|]. split; [apply nones_fits|]. split; [split; [cbn; unfold u64; lia|exact I]|]. split.
  - exists (stores 255 [130; 9; 246] ++ [WByte 7 2; WByte 0 0; WByte 1 0; WByte 2 0; WByte 3 0; WByte 4 0; WByte 5 0; WByte 6 1]).
    exists (stores 255 [130; 9; 246] ++ [WByte 7 2]). eexists. split; [|split].
    + unfold plan. rewrite Hc. change (entry_bytes (9, None)) with [130; 9; 246].
      change (Z.of_nat (length [130; 9; 246])) with 3.
      assert (m_size m <? 255 + 3 = false) as -> by (rewrite Hs; vm_compute; reflexivity).
      exists (stores 255 [130; 9; 246]), [WByte 7 2; WByte 0 0; WByte 1 0; WByte 2 0; WByte 3 0; WByte 4 0; WByte 5 0; WByte 6 1].
      split; [reflexivity|]. split; [|reflexivity].
      change (imap (fun k x => WByte (Z.of_nat k) x) (be 8 (255 + 3)))
        with ([WByte 0 0; WByte 1 0; WByte 2 0; WByte 3 0; WByte 4 0; WByte 5 0; WByte 6 1] ++ [WByte 7 2]).
      apply (Permutation_app_comm _ [WByte 7 2]).
    + rewrite <- app_assoc. reflexivity.
    + rewrite fold_left_app. reflexivity.
  - apply Hr. apply holds_all; [exact Hh|]. apply (stores_beyond 255 [130; 9; 246]). reflexivity.
Qed.
Print Assumptions C37_bytewise_refuted.

(** ** C73 A crash during start-up does not prevent the next start *)

(** Once the log file has its size the next start can read it. *)
Theorem C73_created_partial : read_log (m_file new_log) = Done [].
Proof. exact (read_after [] new_log eq_refl (Forall_nil_2 _)). Qed.
Print Assumptions C73_created_partial.

(** The log file is created first and gets its size in a second operation. A
    process that dies in between leaves a log on which every later start
    aborts: reading comes before the log is removed (filesystem.rs 322-368). *)
Theorem C73_empty_log_refuted : exists f, f ∈ creation_files /\ read_log f = Panic.
Proof. exists []. split; [apply elem_of_list_here|reflexivity]. Qed.
Print Assumptions C73_empty_log_refuted.

(** ** C74 Every metadata change can be logged *)

(** An entry of up to 1 MB can always be appended, as long as the file is 1 MB
    away from the largest possible size. *)
Theorem C74_append_partial :
  forall es m e,
    append_all new_log es = Done m -> Z.of_nat (length (entry_bytes e)) <= MAP_1MB ->
    8 + m_size m + MAP_1MB <= MAXOFF ->
    exists m', append m (entry_bytes e) = Done m'.
Proof.
  intros es m e Ha Hb Hm. pose proof (append_all_log es new_log [] m log_new Ha) as Hl.
  destruct (append_fits m es (entry_bytes e) Hl Hb) as (m' & E & _); [unfold COUNTMAPSIZE; lia|]. by exists m'.
Qed.
Print Assumptions C74_append_partial.
Example C74_nonvacuous :
  append_all new_log [] = Done new_log /\ Z.of_nat (length (entry_bytes (9, Some (Inode KFile 5 33206 1 0 ∅)))) <= MAP_1MB /\
  8 + m_size new_log + MAP_1MB <= MAXOFF.
Proof. split; [reflexivity|]. split; vm_compute; discriminate. Qed.

(** The file grows by at most 1 MB per entry: whatever is in the log already,
    there is an entry (a directory with a long enough name in it, or with
    enough names) on which the append aborts the process. *)
Theorem C74_large_entry_refuted :
  forall es m, append_all new_log es = Done m ->
    exists n, append m (entry_bytes (9, Some (long_dir n))) = Panic.
Proof.
  intros es m Ha. pose proof (append_all_log es new_log [] m log_new Ha) as Hl.
  exists (Z.to_nat (m_size m + MAP_1MB + 1)).
  apply (append_long m es); [exact Hl|]. pose proof (long_dir_bytes (Z.to_nat (m_size m + MAP_1MB + 1)) 9) as H.
  destruct Hl as (_ & _ & H0 & _). unfold MAP_1MB in *. lia.
Qed.
Print Assumptions C74_large_entry_refuted.
