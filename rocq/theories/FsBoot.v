(** Formatting, loading, log replay, start-up and shutdown.

    Modelled source: /repo/src/safeposix/filesystem.rs 142-459 and 617-636,
    /repo/src/safeposix/dispatcher.rs 988-1007 and 1036-1115,
    /repo/src/interface/misc.rs 98-112,
    /repo/src/tools/lib_fs_utils.rs 239-336.

    The on-disk image and the log are modelled after decoding; the byte level
    of the log is in LogModel.v. *)
From Verif Require Import Base CodecModel PathModel FsModel.
Local Open Scope list_scope.

(** filesystem.rs 142-172 [blank_fs_init] and 192-308 [format_fs]: the image
    that is persisted. Object 7 is not entered into the root directory. *)
Definition format_image : image :=
  let dir mode link dict := Inode KDir 0 (Z.lor S_IFDIR mode) link 0 dict in
  let chr minor := Inode (KChr 1 minor) 0 (Z.lor S_IFCHR 438) 1 0 ∅ in
  Image 8
    (<[1 := dir 493 4 (<["dev" := 2]> (new_dict 1 1))]>
    (<[2 := dir 493 7 (<["random" := 6]> (<["urandom" := 5]> (<["zero" := 4]> (<["null" := 3]>
                       (new_dict 2 1)))))]>
    (<[3 := chr 3]> (<[4 := chr 5]> (<[5 := chr 9]> (<[6 := chr 8]>
    (<[7 := dir 493 7 (new_dict 2 1)]> ∅))))))).

(** filesystem.rs 347-362: replay of the log entries over a table *)
Definition replay_one (t : gmap Z inode) (e : Z * option inode) : gmap Z inode :=
  match snd e with Some x => <[fst e := x]> t | None => delete (fst e) t end.
Definition replay (t : gmap Z inode) (l : list (Z * option inode)) : gmap Z inode :=
  fold_left replay_one l t.

(** filesystem.rs 344-346, 352-353: the largest number seen *)
Definition replay_max (m : Z) (l : list (Z * option inode)) : Z :=
  fold_left (fun a e => match snd e with Some _ => Z.max a (fst e) | None => a end) l m.

(** filesystem.rs 377-389 *)
Definition fsck_keep (x : inode) : bool :=
  match i_kind x with
  | KFile | KChr _ _ => negb (i_link x =? 0)
  | KDir => 2 <? i_link x
  | KSock => false
  end.
Definition fsck (t : gmap Z inode) : gmap Z inode := filter (fun e => fsck_keep e.2 = true) t.

(** filesystem.rs 310-375 together with 176-190: the table and the next object
    number after loading, and what happens on disk. The loaded table is not
    written back. *)
Definition load_fs (d : disk) : list peff * image :=
  match d_meta d with
  | Some im =>
      match d_log d with
      | Some l => ([PLogDel; PLogNew],
                   Image (replay_max (im_next im) l + 1) (fsck (replay (im_tab im) l)))
      | None => ([PLogNew], im)
      end
  | None => ([PLogDel; PMetaDel; PMetaPut format_image; PLogNew], format_image)
  end.

(** filesystem.rs 638-648 *)
Definition incref_root (t : gmap Z inode) : outcome (gmap Z inode) :=
  match t !! ROOTINO with
  | Some x => match i_kind x with KDir => Done (<[ROOTINO := set_ref (i_ref x + 1) x]> t) | _ => Panic end
  | None => Panic
  end.

(** The world after [load_fs], two [incref_root] and the creation of the
    utility cage 0 and the first cage 1: dispatcher.rs 1037-1090 *)
Definition boot_core (d : disk) : outcome world :=
  let '(es, im) := load_fs d in
  do t1 <- incref_root (im_tab im);
  do t2 <- incref_root t1;
  Done (fold_left (fun w e => emit e w) es
    (World t2 (im_next im) ∅ d [] (<[0 := []]> (<[1 := []]> ∅))
       (init_fdtable 0 (init_fdtable 1 ∅)) ∅ 0 ∅)).

(** ** Removal of trees, lib_fs_utils.rs 239-336 *)

(** The path of a child as [visit_children] writes it *)
Definition child_path (p f : string) : string := p +:+ "/" +:+ f.

(** The body of the loop of [visit_children] over the entries that one
    [getdents] returned, with the visitor that both callers use: [rm] (which
    is [lind_deltree]) on a directory, [unlink] on anything else. *)
Fixpoint visit_each (rm : string -> world -> outcome world) (path : string) (es : list (string * Z)) (w : world)
  : outcome world :=
  match es with
  | [] => Done w
  | (f, _) :: rest =>
      if String.eqb f "." || String.eqb f ".." then visit_each rm path rest w else
      let cp := child_path path f in
      do s <- stat_syscall w [] cp;
      do w2 <- (match s with
                | RetStat _ mode _ _ _ =>
                    if is_dir mode then rm cp w
                    else (do u <- unlink_syscall w [] cp; Done (fst u))
                | _ => do u <- unlink_syscall w [] cp; Done (fst u)
                end);
      visit_each rm path rest w2
  end.

(** The outer loop. [rounds] bounds the number of [getdents] calls; it is not a
    bound in the code, running out of it is reported as [Panic]. A [getdents]
    that fails is also reported as [Panic]: the code then loops forever,
    because the result is not 0 and the loop over the entries does nothing. *)
Fixpoint visit_rounds (rm : string -> world -> outcome world) (path : string) (fd : Z) (rounds : nat) (w : world)
  : outcome world :=
  match rounds with
  | O => Panic
  | S m =>
      do g <- getdents_syscall w 0 fd 65536;
      match g with
      | (w', RetDents r es) =>
          if r =? 0 then (do q <- close_syscall w' 0 fd; Done (fst q))
          else do w'' <- visit_each rm path es w'; visit_rounds rm path fd m w''
      | (w', _) => Panic
      end
  end.

(** lib_fs_utils.rs 239-300 [visit_children] *)
Definition visit (rm : string -> world -> outcome world) (rounds : nat) (path : string) (w : world) : outcome world :=
  do r <- open_syscall w 0 [] path O_RDONLY 0;
  let '(w1, fd) := r in
  if fd <? 0 then Panic else visit_rounds rm path fd rounds w1.

(** lib_fs_utils.rs 302-336 [lind_deltree]. [fuel] bounds the number of nested
    directories; it is not a bound in the code. *)
Fixpoint deltree (fuel : nat) (path : string) (w : world) {struct fuel} : outcome world :=
  match fuel with
  | O => Panic
  | S k =>
      do s <- stat_syscall w [] path;
      match s with
      | RetStat _ mode _ _ _ =>
          if negb (is_dir mode) then (do r <- unlink_syscall w [] path; Done (fst r))
          else
          do r1 <- chmod_syscall w [] path S_IRWXA;
          do w2 <- visit (deltree k) k path (fst r1);
          do r3 <- rmdir_syscall w2 [] path;
          Done (fst r3)
      | _ => Done w
      end
  end.

(** More than the number of directories and entries: enough for every tree *)
Definition tree_fuel (t : gmap Z inode) : nat := map_fold (fun _ x n => (size (i_dict x) + n)%nat) 3%nat t.

(** dispatcher.rs 988-1007; without cage 0 [cagetable_getref] panics *)
Definition cleartmp (init : bool) (w : world) : outcome world :=
  if bool_decide (w_cwd w !! 0 = None) then Panic else
  let fuel := tree_fuel (w_ino w) in
  do s <- stat_syscall w [] "/tmp";
  match s with
  | RetStat _ _ _ _ _ => visit (deltree fuel) fuel "/tmp" w
  | _ => if init then (do r <- mkdir_syscall w [] "/tmp" S_IRWXA; Done (fst r)) else Done w
  end.

(** dispatcher.rs 1036-1093 *)
Definition boot (d : disk) : outcome world := do w <- boot_core d; cleartmp true w.

(** filesystem.rs 617-636. The result of [remove_from_parent_dir] is ignored. *)
Definition remove_domain_sock (p : list string) (w : world) : outcome world :=
  do r <- metawalkandparent (w_ino w) p;
  match r with
  | (Some i, Some par) =>
      do q <- remove_from_parent par p w;
      Done (with_dsock (fun s => s ∖ {[p]}) (del_ino i (fst q)))
  | _ => Panic
  end.

(** filesystem.rs 419-433 *)
Definition persist (im : image) (w : world) : world := emit (PMetaPut im) (emit PMetaDel w).

(** misc.rs 98-112: every process is taken out of the table and exits *)
Definition exit_all (w : world) : outcome world :=
  fold_left (fun o c => do w <- o; do r <- exit_syscall w c 0; Done (fst r))
    (List.filter (fun c => bool_decide (is_Some (w_cwd w !! c))) (seqZ 0 MAXCAGE)) (Done w).

(** dispatcher.rs 1106-1114: the table is written out, then the log removed *)
Definition save (w : world) : world :=
  let w1 := persist (Image (w_next w) (strip <$> w_ino w)) w in
  match d_log (w_disk w1) with Some _ => emit PLogDel w1 | None => w1 end.

(** dispatcher.rs 1096-1115 *)
Definition finalize (w : world) : outcome world :=
  do w1 <- fold_left (fun o p => do w <- o; remove_domain_sock p w) (elements (w_dsock w)) (Done w);
  do w2 <- cleartmp false w1;
  do w3 <- exit_all w2;
  Done (save w3).

Definition empty_disk : disk := Disk ∅ None None.

(** What a crash leaves: the disk, nothing of the memory. *)
Definition crash (w : world) : disk := w_disk w.

(** The world after start-up on an empty disk. *)
Definition fresh_world : world :=
  match boot empty_disk with
  | Done w => w
  | Panic => World ∅ 0 ∅ empty_disk [] ∅ ∅ ∅ 0 ∅
  end.

Lemma boot_fresh : boot empty_disk = Done fresh_world.
Proof.
  unfold fresh_world. destruct (boot empty_disk) as [w|] eqn:E; [reflexivity|].
  exfalso. assert (H : match boot empty_disk with Done _ => true | Panic => false end = true)
    by (vm_compute; reflexivity).
  rewrite E in H. discriminate.
Qed.
