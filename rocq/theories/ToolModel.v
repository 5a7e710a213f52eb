(** Programs that choose their calls by the answers to earlier ones, and the
    commands [deltree], [ls], [tree] and [format] of the file-system tool
    (tools/fs_utils.rs, tools/lib_fs_utils.rs 239-336), which are such programs.
    The tool reads names out of the getdents buffer; that the buffer holds the
    listed names is C80. *)
From Verif Require Import Base PathModel FsModel FsCopyModel.
Local Open Scope list_scope.
Local Open Scope Z_scope.

(** [Call o k]: make the call [o] and go on as [k] of its answer says. [Say]:
    print. [Fail]: an [assert!] or [unwrap] of the program fails. [Spin]: the
    program is still running (its loops are given as many iterations as a
    number says). *)
Inductive prog := Stop | Fail | Spin | Call (o : op) (k : out -> prog) | Say (s : string) (p : prog).
Inductive ended := Finished | Failed | Running.

(** The program run by process [c]: the world after it, what it printed, how it
    ended. [Panic]: a call brings the runtime down. *)
Fixpoint wprog (w : world) (c : Z) (p : prog) : outcome (world * list string * ended) :=
  match p with
  | Stop => Done (w, [], Finished)
  | Fail => Done (w, [], Failed)
  | Spin => Done (w, [], Running)
  | Call o k => do r <- step w c o; wprog (fst r) c (k (snd r))
  | Say s q => do r <- wprog w c q; Done (fst (fst r), s :: snd (fst r), snd r)
  end.

(** ** visit_children (lib_fs_utils.rs 239-299) *)

(** 260-294: the entries of one getdents buffer. A failing stat leaves the
    default, which is no directory. *)
Fixpoint entries (path : string) (visitor : string -> bool -> prog -> prog) (l : list (string * Z)) (k : prog) : prog :=
  match l with
  | [] => k
  | (f, _) :: r =>
      if String.eqb f "." || String.eqb f ".." then entries path visitor r k else
      Call (Stat (down path f)) (fun x =>
        visitor (down path f) (match x with RetStat _ m _ _ _ => is_dir m | _ => false end) (entries path visitor r k))
  end.
(** 252-298: buffer after buffer until an empty one; a negative answer is no
    entry and not the end *)
Fixpoint rounds (n : nat) (path : string) (visitor : string -> bool -> prog -> prog) (fd : Z) (k : prog) : prog :=
  match n with
  | O => Spin
  | S n' =>
      Call (Getdents fd 65536) (fun x =>
        match x with
        | RetDents r l =>
            if r =? 0 then Call (Close fd) (fun _ => k) else entries path visitor l (rounds n' path visitor fd k)
        | _ => rounds n' path visitor fd k
        end)
  end.
(** 246-250 *)
Definition visit (n : nat) (path : string) (visitor : string -> bool -> prog -> prog) (k : prog) : prog :=
  Call (Open path O_RDONLY 0) (fun x =>
    match x with Ret fd => if fd <? 0 then Fail else rounds n path visitor fd k | _ => Fail end).

(** ** The commands *)

(** lib_fs_utils.rs 301-336 *)
Fixpoint deltree (n : nat) (path : string) (k : prog) : prog :=
  match n with
  | O => Spin
  | S n' =>
      Call (Stat path) (fun x =>
        match x with
        | RetStat _ m _ _ _ =>
            if negb (is_dir m) then Call (Unlink path) (fun _ => k)
            else Call (Chmod path S_IRWXA) (fun _ =>
                   visit n' path
                     (fun child isdir k' => if isdir then deltree n' child k' else Call (Unlink child) (fun _ => k'))
                     (Call (Rmdir path) (fun _ => k)))
        | _ => k                                          (* "No such directory exists!" *)
        end)
  end.

(** fs_utils.rs 62-86; each [Say] is one print *)
Definition ls (n : nat) (path : string) (k : prog) : prog :=
  Call (Stat path) (fun x =>
    match x with
    | RetStat _ m _ _ _ =>
        let newline := Say (String (Ascii.ascii_of_nat 10) "") k in
        if is_dir m then visit n path (fun child isdir k' => Say (if isdir then child +:+ "/ " else child +:+ " ") k') newline
        else Say (path +:+ " ") newline
    | _ => k                                              (* "No such file exists!" on stderr *)
    end).

(** fs_utils.rs 29-60: the line for one name *)
Fixpoint repeat_str (n : nat) (s : string) : string := match n with O => "" | S k => s +:+ repeat_str k s end.
Definition tree_line (level : nat) (child : string) : string :=
  repeat_str level "|   " +:+ "|---" +:+ child +:+ String (Ascii.ascii_of_nat 10) "".
Fixpoint tree (n : nat) (path : string) (level : nat) (k : prog) : prog :=
  match n with
  | O => Spin
  | S n' =>
      Call (Stat path) (fun x =>
        match x with
        | RetStat _ m _ _ _ =>
            if negb (is_dir m) then k                     (* "Tree must be run on a directory!" on stderr *)
            else visit n' path
                   (fun child isdir k' => Say (tree_line level child) (if isdir then tree n' child (S level) k' else k')) k
        | _ => k
        end)
  end.
