(** Which calls bring the runtime down, in the terms of FsViewSpec. An abort
    ends all processes. *)
From Verif Require Import Base PathSpec FsModel FsViewSpec.
Local Open Scope list_scope.
Local Open Scope Z_scope.

Definition bad_fd (fd : Z) : bool := (fd <? 0) || (1024 <=? fd).
Definition bad_proc (c : Z) : bool := (c <? 0) || (1024 <=? c).
(** [i] is a regular file of some length with the property *)
Definition file_len (a : view) (i : Z) (f : Z -> bool) : bool :=
  match kind_of a i with Some (AFile bs) => f (zlen bs) | _ => false end.
(** [i] is a regular file of some length, or a directory with some number of
    entries, with the property *)
Definition has_len (a : view) (i : Z) (f : Z -> bool) : bool :=
  match kind_of a i, path_of a i with
  | Some (AFile bs), _ => f (zlen bs)
  | Some ADir, Some p => f (Z.of_nat (size (listing a p i)))
  | _, _ => false
  end.
(** The sum of a position and an offset does not fit into 64 bits *)
Definition overflows (n : Z) : bool := (n <? - 9223372036854775808) || (9223372036854775807 <? n).
(** The file type in the mode is that of a directory *)
Definition says_dir (m : Z) : bool := Z.land m 61440 =? 16384.

Definition aborts (a : view) (c : Z) (o : op) : bool :=
  match vw_proc a !! c with
  | None => true                                            (* there is no such process *)
  | Some pr =>
      let file fd f := bad_fd fd || match q_tab pr !! fd with Some (DFile i pos fl) => f i pos fl | _ => false end in
      match o with
      (* a number that no descriptor can have *)
      | Close fd | Fcntl fd _ _ | Fchmod fd _ | Ftruncate fd _ | Fstat fd | Fsync fd | Fchdir fd => bad_fd fd
      (* reading behind the end *)
      | Read fd _ => file fd (fun i pos fl => negb (write_only fl) && file_len a i (fun n => (pos <? 0) || (n <? pos)))
      | Pread fd _ off => file fd (fun i _ fl => negb (write_only fl) && file_len a i (fun n => (off <? 0) || (n <? off)))
      (* writing before the beginning *)
      | Write fd _ | Writev fd _ => file fd (fun i pos fl => negb (read_only fl) && file_len a i (fun _ => pos <? 0))
      | Pwrite fd _ off => file fd (fun i _ fl => negb (read_only fl) && file_len a i (fun _ => off <? 0))
      (* a position that does not fit into 64 bits *)
      | Lseek fd off wh =>
          file fd (fun i pos _ => has_len a i (fun n =>
            if wh =? 1 then overflows (pos + off) else if wh =? 2 then overflows (n + off) else false))
      (* a link called "/" *)
      | Link x y => negb (String.eqb x "") && negb (String.eqb y "") && bool_decide (where_is (q_cwd pr) y = [])
      (* removing an empty directory that was created with another file type in its mode *)
      | Rmdir p =>
          let q := where_is (q_cwd pr) p in
          negb (String.eqb p "") &&
          match vw_at a !! q, up_dir a q with
          | Some i, Some d =>
              may_write a d && match vw_obj a !! i with
                | Some ob => is_adir a i && (o_link ob <=? 3) && negb (says_dir (o_mode ob))
                | None => false end
          | _, _ => false
          end
      (* a process number out of range; a working directory that was removed *)
      | Fork ch =>
          bad_proc ch || negb (match vw_at a !! q_cwd pr with Some i => is_adir a i | None => false end)
      | Exec ch => bad_proc ch
      | _ => false
      end
  end.

(** No call of the history aborts *)
Fixpoint all_fine (a : view) (h : list (Z * op)) : bool :=
  match h with
  | [] => true
  | (c, o) :: r => negb (aborts a c o) && all_fine (fst (aexec a c o)) r
  end.
