(** The tools that copy files from the host into the file system:
    tools/lib_fs_utils.rs 17-237, commands [cp] and [update] of
    tools/fs_utils.rs.

    The tools make system calls of one process, here [c].  Simplifications: the
    host file system is given as a tree (symbolic links are followed, so a link
    is what it points to; special files of the host are left out), a read of a
    host file returns all its bytes, and what is printed is left out. *)
From stdpp Require Import gmap.
From Verif Require Import Base PathModel FsModel.
Local Open Scope list_scope.
Local Open Scope Z_scope.

(** A file or directory of the host; the children in the order of [read_dir] *)
Inductive htree :=
  | HFile (bs : list Z)
  | HDir (l : list (string * htree)).

(** lib_fs_utils.rs 12 *)
Definition LINUX_MAX_RW_COUNT : Z := 2147479552.

(** [chunks(LINUX_MAX_RW_COUNT)] *)
Fixpoint cut (n : Z) (l : list Z) : list Z * list Z :=
  match l with
  | [] => ([], [])
  | b :: r => if n <=? 0 then ([], l) else let '(a, z) := cut (n - 1) r in (b :: a, z)
  end.
Fixpoint chunks_of (fuel : nat) (l : list Z) : list (list Z) :=
  match l, fuel with
  | [], _ | _, O => []
  | _, S k => let '(a, z) := cut LINUX_MAX_RW_COUNT l in a :: chunks_of k z
  end.
Definition chunks (l : list Z) : list (list Z) := chunks_of (length l) l.

(** lib_fs_utils.rs 168-202: [anc] is looked at, then its descendants on the way
    [rest].  [true]: all are directories now. *)
Fixpoint make_dirs (c : Z) (create : bool) (anc rest : list string) (w : world) : outcome (world * bool) :=
  do s <- step w c (Stat (render anc));
  match s with
  | (w1, RetStat _ mode _ _ _) =>
      if is_dir mode then
        match rest with [] => Done (w1, true) | f :: r => make_dirs c create (anc ++ [f]) r w1 end
      else Done (w1, false)
  | (w1, Ret e) =>
      if (e =? err ENOENT) && create then
        do m <- step w1 c (Mkdir (render anc) S_IRWXA);
        match m with
        | (w2, Ret z) =>
            if z =? 0 then match rest with [] => Done (w2, true) | f :: r => make_dirs c create (anc ++ [f]) r w2 end
            else Done (w2, false)
        | (w2, _) => Done (w2, false)
        end
      else Done (w1, false)
  | (w1, _) => Done (w1, false)
  end.

(** lib_fs_utils.rs 217-227; the sum of the results is compared with the number
    of bytes, a negative result makes the comparison fail *)
Fixpoint write_all (c fd : Z) (cs : list (list Z)) (sum : Z) (w : world) : outcome (world * Z) :=
  match cs with
  | [] => Done (w, sum)
  | b :: r =>
      do s <- step w c (Write fd b);
      match s with
      | (w1, Ret n) => if n <? 0 then Panic else write_all c fd r (sum + n) w1
      | _ => Panic
      end
  end.

(** lib_fs_utils.rs 150-237 after [normpath].  [false]: the tool says why not,
    and goes on. *)
Definition cp_names (c : Z) (create : bool) (bs : list Z) (ns : list string) (w : world) : outcome (world * bool) :=
  match ns with
  | [] => Panic                                              (* parent().unwrap() *)
  | _ =>
      do d <- make_dirs c create [] (removelast ns) w;
      let '(w1, ok) := d in
      if negb ok then Done (w1, false) else
      do o <- step w1 c (Open (render ns) (Z.lor (Z.lor O_CREAT O_TRUNC) O_WRONLY) S_IRWXA);
      match o with
      | (w2, Ret fd) =>
          if fd <? 0 then Panic else
          do r <- write_all c fd (chunks bs) 0 w2;
          let '(w3, sum) := r in
          if negb (sum =? Z.of_nat (length bs)) then Panic else
          do s <- step w3 c (Fstat fd);
          do e <- step w3 c (Close fd);
          match e with
          | (w4, Ret z) => if z =? 0 then Done (w4, true) else Panic
          | _ => Panic
          end
      | _ => Panic
      end
  end.

Definition cp_file (c : Z) (create : bool) (bs : list Z) (p : string) (w : world) : outcome (world * bool) :=
  match w_cwd w !! c with
  | Some cwd => cp_names c create bs (normpath cwd p) w
  | None => Panic
  end.

(** lib_fs_utils.rs 35-39, 136-140 *)
Definition ends_with_slash (p : string) : bool :=
  match String.length p with O => false | S k => String.eqb (String.substring k 1 p) "/" end.
Definition down (p f : string) : string :=
  if ends_with_slash p then p +:+ f else p +:+ "/" +:+ f.

(** lib_fs_utils.rs 110-148 [cp_dir_into_lind] *)
Fixpoint cp_dir (c : Z) (create : bool) (t : htree) (p : string) (w : world) {struct t} : outcome world :=
  match t with
  | HFile bs => do r <- cp_file c create bs p w; Done (fst r)
  | HDir l =>
      (fix go (l : list (string * htree)) (w : world) : outcome world :=
         match l with
         | [] => Done w
         | (f, u) :: r => do w1 <- cp_dir c create u (down p f) w; go r w1
         end) l w
  end.

(** lib_fs_utils.rs 46-108 [update_into_lind] *)
Definition update_file (c : Z) (bs : list Z) (p : string) (w : world) : outcome world :=
  do s <- step w c (Stat p);
  let w := fst s in
  let old := match snd s with RetStat _ mode _ size _ => Some (mode, size) | _ => None end in
  match old with
  | Some (mode, size) =>
      if negb (Z.land mode S_FILETYPEFLAGS =? S_IFREG) then Done w else
      do q <- (if Z.of_nat (length bs) =? size then
                 do o <- step w c (Open p (Z.lor O_RDONLY O_CREAT) S_IRWXA);
                 match o with
                 | (w1, Ret fd) =>
                     do r <- step w1 c (Read fd size);
                     do e <- step (fst r) c (Close fd);
                     (* what was not read stays zero *)
                     let got := match snd r with RetData _ l => l ++ replicate (length bs - length l) 0 | _ => replicate (length bs) 0 end in
                     Done (fst e, bool_decide (got = bs))
                 | _ => Panic
                 end
               else Done (w, false));
      let '(w2, same) := q in
      if (same : bool) then Done w2
      else
        do u <- step w2 c (Unlink p);
        do r <- cp_file c true bs p (fst u);
        Done (fst r)
  | None =>
      do q <- (if Z.of_nat (length bs) =? 0 then
                 (* both sizes are 0: the empty files are the same, once opened *)
                 do o <- step w c (Open p (Z.lor O_RDONLY O_CREAT) S_IRWXA);
                 match o with
                 | (w1, Ret fd) =>
                     do r <- step w1 c (Read fd 0);
                     do e <- step (fst r) c (Close fd);
                     Done (fst e, true)
                 | _ => Panic
                 end
               else Done (w, false));
      let '(w2, same) := q in
      if (same : bool) then Done w2 else do r <- cp_file c true bs p w2; Done (fst r)
  end.

(** lib_fs_utils.rs 17-44 [update_dir_into_lind] *)
Fixpoint update_dir (c : Z) (t : htree) (p : string) (w : world) {struct t} : outcome world :=
  match t with
  | HFile bs => update_file c bs p w
  | HDir l =>
      (fix go (l : list (string * htree)) (w : world) : outcome world :=
         match l with
         | [] => Done w
         | (f, u) :: r => do w1 <- update_dir c u (down p f) w; go r w1
         end) l w
  end.
