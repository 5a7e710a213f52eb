(** Vocabulary of the pipe properties: streams, calls and what a call put in. *)
From Verif Require Import Base PipeModel.
Local Open Scope Z_scope.

(** All bytes that entered the pipe, in order. *)
Definition accepted (tr : list ev) : list Z :=
  concat (map (fun e => match e with EIns _ d => d | _ => [] end) tr).

(** All bytes handed to readers, in order. *)
Definition delivered (tr : list ev) : list Z :=
  concat (map (fun e => match e with ERet _ _ d => d | _ => [] end) tr).

(** The last call thread [i] made. *)
Definition last_call (i : nat) (tr : list ev) : option pop :=
  fold_left (fun acc e =>
    match e with ECall j o => if decide (i = j) then Some o else acc | _ => acc end) tr None.

(** The pieces that entered the pipe for the last call of thread [i]; each
    piece entered at one instant. *)
Definition pieces (i : nat) (tr : list ev) : list (list Z) :=
  fold_left (fun acc e =>
    match e with
    | ECall j _ => if decide (i = j) then [] else acc
    | EIns j d => if decide (i = j) then acc ++ [d] else acc
    | _ => acc
    end) tr [].

(** The bytes the last call of thread [i] put into the pipe. *)
Definition inserted (i : nat) (tr : list ev) : list Z := concat (pieces i tr).

(** In some run of [k] threads whose events are [tr] and that ends in [s], the
    last event is that thread [i]'s call [o] returned [r] and the bytes [out]. *)
Definition returned (cap : Z) (k : nat) (tr : list ev) (s : pst) (i : nat) (o : pop) (r : Z) (out : list Z) : Prop :=
  prun cap k tr s /\ last_call i tr = Some o /\ exists tr0, tr = tr0 ++ [ERet i r out].

(** A continuation of a run: the events after [s]. *)
Inductive pcont (cap : Z) (s : pst) : list ev -> pst -> Prop :=
| pcont_nil : pcont cap s [] s
| pcont_step tr s1 a s2 es : pcont cap s tr s1 -> pact cap s1 a = Some (s2, es) ->
    pcont cap s (tr ++ es) s2.

(** Open read and write descriptors: one of each at first, one more for each
    duplication, one less for each close. *)
Definition open_readers (tr : list ev) : Z :=
  fold_left (fun n e => match e with ECall _ PDupR => n + 1 | ECall _ PCloseR => n - 1 | _ => n end) tr 1.
Definition open_writers (tr : list ev) : Z :=
  fold_left (fun n e => match e with ECall _ PDupW => n + 1 | ECall _ PCloseW => n - 1 | _ => n end) tr 1.

(** The bytes a call wants to write. *)
Definition offered (o : pop) : list Z :=
  match o with PWrite d _ => d | PWritev ds _ => concat ds | _ => [] end.

(** Pipes and socket buffers have capacity 65536 and 212992 (cage.rs 241,
    fs_calls.rs 5345). *)
Definition capok (cap : Z) : Prop := PIPE_BUF <= cap < 2 ^ 31.

(** A call whose total size fits the return type. *)
Definition fits (o : pop) : Prop :=
  match o with
  | PWrite d _ => len d < 2 ^ 31
  | PWritev ds _ => len (concat ds) < 2 ^ 31
  | _ => True
  end.
