(** Properties C01 and C02: path strings. *)
From Verif Require Import Base PathModel PathSpec PathProofs FsModel FsBoot FsSpec FsWalk.
From Coq Require Import Ascii.
Local Open Scope list_scope.

(** C01: the names looked up are canonical, rendering them gives a path that
    normalises to itself from any directory, and an absolute path does not
    depend on the working directory. *)
Theorem C01_normalisation_canonical : forall cwd p, canonical cwd ->
  canonical (normpath cwd p) /\
  components (render (normpath cwd p)) = RootDir :: map Normal (normpath cwd p) /\
  (forall cwd', normpath cwd' (render (normpath cwd p)) = normpath cwd p) /\
  (absolute p -> forall cwd', normpath cwd' p = normpath cwd p).
Proof. exact normpath_canonical_all. Qed.
Print Assumptions C01_normalisation_canonical.

(** C01, meaning: the result is the lexical reading of the path word by word,
    where going up at the root stays at the root. *)
Theorem C01_normalisation_meaning : forall cwd p r,
  denotes cwd p r <-> r = normpath cwd p.
Proof. exact denotes_normpath. Qed.
Print Assumptions C01_normalisation_meaning.

Example C01_nonvacuous :
  canonical ["home"; "u"] /\ normpath ["home"; "u"] "../..//.././x/./y/../z/" = ["x"; "z"]
  /\ normpath ["home"; "u"] "/../../.." = [] /\ normpath ["home"; "u"] "" = ["home"; "u"].
Proof.
  split; [|vm_compute; auto].
  repeat constructor; try discriminate; vm_compute; reflexivity.
Qed.

(** C02: calls that differ only in how a path is spelled are the same call. *)
Theorem C02_equal_spellings : forall w c cwd o o',
  w_cwd w !! c = Some cwd -> same_call cwd o o' -> step w c o = step w c o'.
Proof. exact step_same_call. Qed.
Print Assumptions C02_equal_spellings.

(** C02: the lookup function finds exactly what following the names one after
    the other finds, and it aborts exactly on a dangling name. *)
Theorem C02_lookup_follows_names : forall t p, is_Some (t !! ROOTINO) ->
  (forall i, metawalk t p = Done (Some i) <-> resolves t p i) /\
  (metawalk t p = Done None -> forall i, ~ resolves t p i) /\
  (metawalk t p = Panic <-> exists a f b d, p = a ++ f :: b /\ resolves t a d /\ t !! d = None).
Proof.
  intros t p Hr. split; [|split].
  - intros i. split; [apply metawalk_resolves|apply resolves_metawalk; exact Hr].
  - apply metawalk_none.
  - rewrite metawalk_panic. split; [|auto]. intros [H|H]; [|exact H].
    rewrite H in Hr. destruct Hr; discriminate.
Qed.
Print Assumptions C02_lookup_follows_names.

(** C02: a directory first and then the last name inside it. *)
Theorem C02_directory_then_name : forall t dir f,
  metawalk t (dir ++ [f]) =
  (do d <- metawalk t dir;
   match d with
   | None => Done None
   | Some d =>
       match t !! d with
       | None => Panic
       | Some x => Done (match i_kind x with KDir => i_dict x !! f | _ => None end)
       end
   end).
Proof. exact metawalk_snoc. Qed.
Print Assumptions C02_directory_then_name.

(** C02 seen by a program: chdir(p) and then stat(q) is stat("p/q"). *)
Theorem C02_chdir_then_relative : forall w c cwd p q w1,
  w_cwd w !! c = Some cwd -> p <> "" -> has_root q = false ->
  step w c (Chdir p) = Done (w1, Ret 0) ->
  forall o, (exists w', step w1 c (Stat q) = Done (w', o)) <->
            (exists w', step w c (Stat (p +:+ String "/" q)) = Done (w', o)).
Proof. exact chdir_then_stat. Qed.
Print Assumptions C02_chdir_then_relative.

Example C02_nonvacuous :
  same_call ["tmp"] (Stat "../dev/./null") (Stat "/dev//null") /\
  exists w1, step fresh_world 1 (Chdir "/tmp") = Done (w1, Ret 0) /\
  exists w2, step w1 1 (Stat "../dev/null") = Done (w2, RetStat 3 8630 1 0 259) /\
  exists w3, step fresh_world 1 (Stat "/tmp/../dev/null") = Done (w3, RetStat 3 8630 1 0 259) /\ 0 = 0.
Proof.
  split; [|run_ex fresh_world (Ret 0)].
  constructor. split; [discriminate|]. split; [discriminate|]. exists ["dev"; "null"].
  split; apply denotes_normpath; vm_compute; reflexivity.
Qed.
