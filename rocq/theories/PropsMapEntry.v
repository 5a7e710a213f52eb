(** C136: mmap and munmap by their words. *)
From stdpp Require Import gmap.
From Verif Require Import Base FsModel FsBoot AbiModel AbiSpec EntryModel MapModel MapSpec MapProofs5 MapProofs6 MapEntryModel MapEntrySpec MapEntryProofs.
Local Open Scope list_scope.
Local Open Scope Z_scope.

(** A program whose calls are given by words is the program of the calls that
    the words mean, so C117-C119 hold of it. *)
Theorem C136_program : forall s l l', Forall2 means l l' -> wrun s l = mrun s l'.
Proof. intros s l l' H. exact (means_run l l' H s). Qed.
Print Assumptions C136_program.

(** Words mean exactly one call, or they are senseless, never both. *)
Theorem C136_words : forall x, wordy x ->
  ((exists o, means x o /\ forall o', means x o' -> o' = o) /\ forall r, ~ senseless x r) \/
  ((exists r, senseless x r) /\ forall o, ~ means x o).
Proof.
  intros x W. destruct (sense_or_not x W) as [[o M]|[r S]].
  - left. split; [exists o; split; [exact M|]; intros o' M'; exact (sense_fun x o' o M' M)|]. intros r S. exact (sense_excl x o r M S).
  - right. split; [exists r; exact S|]. intros o M. exact (sense_excl x o r M S).
Qed.
Print Assumptions C136_words.

(** Senseless words: EFAULT for a null address, else EINVAL, and no effect. *)
Theorem C136_senseless : forall s x r c, wordy x -> senseless x r -> caller x = Some c -> is_Some (w_cwd (MapModel.s_w s) !! c) ->
  wstep s x = Done (s, MRet (Ret r)).
Proof. exact senseless_step. Qed.
Print Assumptions C136_senseless.
Theorem C136_ended : forall s x c, caller x = Some c -> w_cwd (MapModel.s_w s) !! c = None -> wstep s x = Panic.
Proof. exact dead_step. Qed.
Print Assumptions C136_ended.

(** Whatever the words are, the two calls leave files, descriptors and processes
    as they are, and the caller can tell a refused call from one that was
    carried out, if the kernel keeps its promise. *)
Theorem C136_files : forall past s x s' y c, mreach past s -> wordy x -> caller x = Some c -> wstep s x = Done (s', y) -> MapModel.s_w s' = MapModel.s_w s.
Proof. exact calls_files. Qed.
Print Assumptions C136_files.
Theorem C136_told : forall past s x s' y c, mreach past s -> wordy x -> caller x = Some c -> wstep s x = Done (s', y) ->
  (forall o, means x o -> mtame s o y) -> exists r, y = MRet (Ret r) /\ (-4095 <= r < 0 <-> s' = s).
Proof.
  intros past s x s' y c R W C H T. destruct (w_cwd (MapModel.s_w s) !! c) eqn:P; [|rewrite (dead_step _ _ _ C P) in H; discriminate H].
  destruct (sense_or_not x W) as [[o M]|[r S]].
  - specialize (T o M). rewrite (means_step _ _ _ M) in H. destruct M; cbn [caller] in C; [| |discriminate C].
    + destruct (told _ _ _ _ _ _ _ _ _ _ _ _ R H T) as (r & -> & G & _). exists r. auto.
    + destruct (unmap_told _ _ _ _ _ _ _ _ R H T) as (r & -> & G & _). exists r. auto.
  - rewrite (senseless_step s x r c W S C ltac:(eauto)) in H. injection H as <- <-. exists r. split; [reflexivity|].
    split; [reflexivity|]. intros _. destruct S; lia.
Qed.
Print Assumptions C136_told.

(** What programs do most, a null address that leaves the place to the system,
    never maps anything. *)
Definition null_words : args := Args 0 5000 3 34 (2 ^ 32 - 1) 0.
Theorem C136_null_refuted : ~ (forall past s c a len prot flags fd off b,
  mreach past s -> is_Some (w_cwd (MapModel.s_w s) !! c) -> allowed s c len prot flags fd off b ->
  a = Args 0 len (prot mod 2 ^ 32) (flags mod 2 ^ 32) (fd mod 2 ^ 32) (off mod 2 ^ 64) ->
  exists ans s' y, wstep s (WMmap c a ans) = Done (s', y) /\ s' <> s).
Proof.
  intros H. destruct refusal_ex as (past & s & Hr & Ha & _ & Hm & _).
  assert (P : is_Some (w_cwd (MapModel.s_w s) !! 1)). { destruct (w_cwd (MapModel.s_w s) !! 1) eqn:E; [eauto|]. rewrite dead_map in Hm by exact E. discriminate Hm. }
  destruct (H past s 1 _ 5000 3 34 0 0 BAnon Hr P Ha eq_refl) as (ans & s' & y & E & N).
  rewrite (senseless_step s _ (-14) 1) in E; [|cbn [wordy]|constructor; reflexivity|reflexivity|exact P].
  - injection E as <- _. exact (N eq_refl).
  - cbn [a1 a2 a3 a4 a5 a6]. repeat constructor; unfold is_word; vm_compute; congruence.
Qed.
Print Assumptions C136_null_refuted.

(** Nor do anonymous mappings with the file number -1, if the caller widens it
    as C does. *)
Theorem C136_minus_one_refuted : forall s c addr len prot flags off ans, is_Some (w_cwd (MapModel.s_w s) !! c) ->
  addr <> 0 -> is_word addr -> is_word len -> is_int prot -> is_int flags -> is_long off ->
  wstep s (WMmap c (Args addr len (prot mod 2 ^ 32) (flags mod 2 ^ 32) (2 ^ 64 - 1) (off mod 2 ^ 64)) ans) = Done (s, MRet (Ret (-22))).
Proof.
  intros s c addr len prot flags off ans P N W1 W2 I1 I2 L. apply (senseless_step s _ (-22) c); [|constructor; [exact N|right; right; cbn [a5]; lia]|reflexivity|exact P].
  cbn [wordy a1 a2 a3 a4 a5 a6]. unfold is_word in *. pose proof (Z.mod_pos_bound prot (2 ^ 32)). pose proof (Z.mod_pos_bound flags (2 ^ 32)). pose proof (Z.mod_pos_bound off (2 ^ 64)).
  repeat (apply Forall_cons; split; [lia|]). apply Forall_nil. exact I.
Qed.
Print Assumptions C136_minus_one_refuted.

(** A file is mapped at 65536 by words, a store goes into the file, munmap by
    words takes the mapping away; a negative number that was padded with zeros
    arrives; a null address is refused. *)
Definition prog : list wact :=
  [WPlain (Sys 1 (Open "/f" 66 438)); WPlain (Sys 1 (Write 3 [97; 98; 99]));
   WMmap 1 (Args 65536 3 3 1 3 0) (Some 65536); WPlain (Store 65537 7); WPlain (Fetch 65537);
   WMmap 1 (Args 131072 3 3 34 (2 ^ 32 - 1) 0) (Some 131072); WMmap 1 (Args 65536 3 3 1 3 (2 ^ 64 - 1)) (Some 65536);
   WMunmap 1 (Args 65536 3 0 0 0 0) (Some 65536); WPlain (Fetch 65537)].
Definition plain_prog : list mop :=
  [Sys 1 (Open "/f" 66 438); Sys 1 (Write 3 [97; 98; 99]);
   Mmap 1 65536 3 3 1 3 0 (Some 65536); Store 65537 7; Fetch 65537;
   Mmap 1 131072 3 3 34 (-1) 0 (Some 131072); Mmap 1 65536 3 3 1 3 (-1) (Some 65536);
   Munmap 1 65536 3 (Some 65536); Fetch 65537].
Example C136_nonvacuous :
  Forall2 means prog plain_prog /\
  match wrun start prog with
  | Some (_, ys) => forallb (fun q => mout_eqb (fst q) (snd q)) (zip ys [MRet (Ret 3); MRet (Ret 3); MRet (Ret 65536); MStored; MByte 7; MRet (Ret 131072); MRet (Ret (-6)); MRet (Ret 65536); MSegv])
  | None => false
  end = true /\
  senseless (WMmap 1 null_words None) (-14) /\ wordy (WMmap 1 null_words None).
Proof.
  split; [|split; [vm_compute; reflexivity|split; [constructor; reflexivity|cbn [wordy null_words a1 a2 a3 a4 a5 a6]; repeat constructor; unfold is_word; vm_compute; congruence]]].
  unfold prog, plain_prog. repeat (apply Forall2_cons; split); [..|apply Forall2_nil; exact I]; constructor;
    unfold mmap_words, munmap_words; cbn [a1 a2 a3 a4 a5 a6]; unfold is_word, is_int, is_long; repeat (split; [solve [lia | vm_compute; reflexivity]|]); vm_compute; reflexivity.
Qed.
