(** What to expect of processes that use the file system at the same time. *)
From stdpp Require Import gmap.
From Verif Require Import Base PathModel PathSpec FsModel FsSpec FsRaceModel.
Local Open Scope list_scope.
Local Open Scope Z_scope.

(** ** Runs *)

(** The processes take any number of steps, in any order. *)
Definition rsteps : rst -> rst -> Prop := rtc (fun s s' => exists i, rgo s i = Some s').

(** Process [i] is between two calls; all processes are. *)
Definition at_rest (i : nat) (s : rst) : Prop := forall t, r_proc s !! i = Some t -> t_pc t = Idle.
Definition all_rest (s : rst) : Prop := forall i, at_rest i s.

(** Process [i] goes on alone until its call has returned (or the runtime has
    aborted). *)
Inductive goes_on (i : nat) : rst -> rst -> Prop :=
  | on_end s : at_rest i s \/ r_dead s = true -> goes_on i s s
  | on_step s s1 s' : ~ at_rest i s -> rgo s i = Some s1 -> goes_on i s1 s' -> goes_on i s s'.

(** Process [i] makes one call; nobody else does anything meanwhile. *)
Definition one_call (i : nat) (s s' : rst) : Prop :=
  at_rest i s /\ exists s1, rgo s i = Some s1 /\ goes_on i s1 s'.

(** The processes make their calls in turn: no call begins before the one
    before has returned. *)
Definition in_turn : rst -> rst -> Prop := rtc (fun s s' => exists i, one_call i s s').

(** ** Who uses which names *)

(** The paths of a call *)
Definition paths (o : rop) : list (list string) :=
  match o with
  | RStat p | RChmod p _ | ROpen p _ _ | RMkdir p _ | RMknod p _ _ | RUnlink p | RRmdir p => [p]
  | RLink a b | RRename a b => [a; b]
  | RClose _ => []
  end.

(** All the paths the program uses are [b] itself or below it. *)
Definition stays_in (b : list string) (l : list rop) : Prop :=
  forall o p, o ∈ l -> p ∈ paths o -> canonical p /\ b `prefix_of` p.

(** [p] is a path on the way to one of the names [bs], or below one. *)
Definition concerns (bs : list (list string)) (p : list string) : Prop :=
  exists b, b ∈ bs /\ (p `prefix_of` b \/ b `prefix_of` p).

(** The names [bs] stand for separate parts of the tree [tab]: none is above
    another, each is in a directory that exists, and no object can be reached
    through two of them: two paths to one object are below the same name.
    [next] is the next free number. *)
Record separate (tab : gmap Z inode) (next : Z) (bs : list (list string)) : Prop := {
  sep_canon : forall b, b ∈ bs -> canonical b /\ b <> [];
  sep_apart : forall i j a b, bs !! i = Some a -> bs !! j = Some b -> i <> j -> ~ a `prefix_of` b;
  sep_above : forall b p f r, b ∈ bs -> b = p ++ f :: r ->
    exists d x, resolves tab p d /\ tab !! d = Some x /\ i_kind x = KDir /\
                Z.of_nat (size (i_dict x)) <= i_link x;
  sep_tree : forall p q i, canonical p -> canonical q -> concerns bs p -> concerns bs q ->
    resolves tab p i -> resolves tab q i ->
    p = q \/ exists b, b ∈ bs /\ b `prefix_of` p /\ b `prefix_of` q;
  sep_next : ROOTINO < next /\ (forall i x, tab !! i = Some x -> i < next) /\
             (forall d f i, entry tab d f i -> i < next)
}.

(** ** Calls as [FsModel.step] makes them *)

(** The call [o] of a cage that works in [cwd], and the same call here. *)
Inductive asks (cwd : list string) : op -> rop -> Prop :=
  | ask_stat p : asks cwd (Stat p) (RStat (normpath cwd p))
  | ask_chmod p m : asks cwd (Chmod p m) (RChmod (normpath cwd p) m)
  | ask_open p fl m : p <> "" -> asks cwd (Open p fl m) (ROpen (normpath cwd p) fl m)
  | ask_creat p m : p <> "" ->
      asks cwd (Creat p m) (ROpen (normpath cwd p) (Z.lor (Z.lor O_CREAT O_TRUNC) O_WRONLY) m)
  | ask_mkdir p m : p <> "" -> asks cwd (Mkdir p m) (RMkdir (normpath cwd p) m)
  | ask_mknod p m d : p <> "" -> asks cwd (Mknod p m d) (RMknod (normpath cwd p) m d)
  | ask_link p q : p <> "" -> q <> "" -> asks cwd (Link p q) (RLink (normpath cwd p) (normpath cwd q))
  | ask_unlink p : p <> "" -> asks cwd (Unlink p) (RUnlink (normpath cwd p))
  | ask_rmdir p : p <> "" -> asks cwd (Rmdir p) (RRmdir (normpath cwd p))
  | ask_rename p q : p <> "" -> q <> "" -> asks cwd (Rename p q) (RRename (normpath cwd p) (normpath cwd q)).

(** The answer [r] of [step], which led to [w'], and what process [t'] got for
    the call.  A descriptor has another number there, but is for the same
    object. *)
Definition same_answer (w' : world) (c : Z) (o : rop) (r : out) (t t' : proc) : Prop :=
  match o, r with
  | ROpen _ _ _, Ret v =>
      if v <? 0 then t_outs t' = r :: t_outs t /\ t_open t' = t_open t
      else exists i pos fl, w_fds w' !! (c, v) = Some (FFile i pos fl) /\ t_open t' = t_open t ++ [Some i] /\
                            t_outs t' = Ret (Z.of_nat (length (t_open t))) :: t_outs t
  | _, _ => t_outs t' = r :: t_outs t /\ t_open t' = t_open t
  end.

(** All processes have made all their calls and have their answers. *)
Definition finished (s : rst) : Prop := forall i t, r_proc s !! i = Some t -> t_pc t = Idle /\ t_todo t = [].

(** The answers process [i] got are the numbers [l] (latest first). *)
Definition answers (s : rst) (i : nat) (l : list Z) : Prop :=
  exists t, r_proc s !! i = Some t /\ t_outs t = map Ret l.
(** The objects of the files process [i] opened and has not closed are [l]. *)
Definition has_open (s : rst) (i : nat) (l : list Z) : Prop :=
  exists t, r_proc s !! i = Some t /\ t_open t = map Some l.

(** The steps a program takes at most: ten for each call, and one for each name
    in its paths. *)
Definition call_steps (o : rop) : nat := (10 + sum_list (length <$> paths o))%nat.
Definition most_steps (progs : list (list rop)) : nat :=
  (1 + sum_list ((fun l => sum_list (call_steps <$> l)) <$> progs))%nat.
