(** One pipe used by any number of threads, at the granularity of the
    shared-memory accesses of interface/pipe.rs: taking a mutex, loading a
    reference count, asking the ring buffer for its free or used space,
    pushing or popping a slice. Every interleaving of these accesses is a run.

    A call holds the write guard of its descriptor from beginning to end
    (fs_calls.rs 1584, 2016, 2520: [checkedfd.write()]; fork and dup take a
    guard too, sys_calls.rs 208, fs_calls.rs 3297), so a descriptor in use by a
    call is neither closed, duplicated nor used by another thread: [t_fr] and
    [t_fw] count the read and write descriptors that are not in use.

    Simplified: sequentially consistent memory (the code loads the reference
    counts with [Relaxed]); [push_slice] and [pop_slice] of the ringbuf crate
    take effect at one instant, push as much as fits and pop as much as is
    there; the cancellation trap (fs_calls.rs 1720-1730) and SIGPIPE are left
    out; a number of bytes is below 2^64. *)
From Verif Require Import Base.
Local Open Scope Z_scope.

(** pipe.rs 45 *)
Definition CANCEL_CHECK_INTERVAL : Z := 1048576.

(** What a thread may ask of the pipe: read, write, writev, or close or
    duplicate an unused descriptor of one of the two ends. *)
Inductive pop :=
| PRead (n : Z) (nb : bool)
| PWrite (d : list Z) (nb : bool)
| PWritev (ds : list (list Z)) (nb : bool)
| PCloseR | PCloseW | PDupR | PDupW.

(** The write in progress: remaining buffers of a vectored write and bytes
    reported so far, or nothing for a plain write. *)
Inductive vec := Plain | Vec (rest : list (list Z)) (total : Z).

(** Where a thread is. [done] is [bytes_written]. *)
Inductive pc :=
| Idle
| WNext (rest : list (list Z)) (total : Z) (nb : bool)       (* 345: next iovec *)
| WWait (d : list Z) (nb : bool) (v : vec)                   (* 223: waits for the mutex *)
| WRef (d : list Z) (nb : bool) (v : vec) (done : Z)         (* 250 *)
| WRoom (d : list Z) (nb : bool) (v : vec) (done : Z)        (* 255 *)
| WPush (d : list Z) (nb : bool) (v : vec) (done room : Z)   (* 282-284 *)
| WRet (v : vec) (nb : bool) (r : Z)                         (* returns r, unlocks *)
| RWait (n : Z) (nb : bool)                                  (* 415 *)
| RLen (n : Z) (nb : bool)                                   (* 416 *)
| RNbRef (n : Z)                                             (* 421 *)
| RRef (n : Z) (count : Z)                                   (* 435 *)
| RLen2 (n : Z) (count : Z)                                  (* 447 *)
| RPop (n len : Z).                                          (* 458-459 *)

Record pst := Pst {
  t_buf : list Z;
  t_nr : Z; t_nw : Z;              (* refcount_read, refcount_write *)
  t_fr : Z; t_fw : Z;              (* descriptors not in use *)
  t_wl : bool; t_rl : bool;        (* the two mutexes are held *)
  t_pcs : list pc }.

(** What happens: a thread calls; bytes enter the pipe on behalf of a thread;
    a call returns a number and, for a read, bytes taken out of the pipe. *)
Inductive ev :=
| ECall (i : nat) (o : pop)
| EIns (i : nat) (d : list Z)
| ERet (i : nat) (r : Z) (d : list Z).

(** pipe.rs 74-84; [k] threads, one descriptor for each end *)
Definition pinit (k : nat) : pst := Pst [] 1 1 1 1 false false (replicate k Idle).

Definition goto (s : pst) (i : nat) (p : pc) : pst :=
  Pst (t_buf s) (t_nr s) (t_nw s) (t_fr s) (t_fw s) (t_wl s) (t_rl s) (<[i := p]> (t_pcs s)).
Definition set_fr (v : Z) (s : pst) : pst :=
  Pst (t_buf s) (t_nr s) (t_nw s) v (t_fw s) (t_wl s) (t_rl s) (t_pcs s).
Definition set_fw (v : Z) (s : pst) : pst :=
  Pst (t_buf s) (t_nr s) (t_nw s) (t_fr s) v (t_wl s) (t_rl s) (t_pcs s).
Definition set_nr (v : Z) (s : pst) : pst :=
  Pst (t_buf s) v (t_nw s) (t_fr s) (t_fw s) (t_wl s) (t_rl s) (t_pcs s).
Definition set_nw (v : Z) (s : pst) : pst :=
  Pst (t_buf s) (t_nr s) v (t_fr s) (t_fw s) (t_wl s) (t_rl s) (t_pcs s).
Definition set_wl (v : bool) (s : pst) : pst :=
  Pst (t_buf s) (t_nr s) (t_nw s) (t_fr s) (t_fw s) v (t_rl s) (t_pcs s).
Definition set_rl (v : bool) (s : pst) : pst :=
  Pst (t_buf s) (t_nr s) (t_nw s) (t_fr s) (t_fw s) (t_wl s) v (t_pcs s).
Definition set_buf (v : list Z) (s : pst) : pst :=
  Pst v (t_nr s) (t_nw s) (t_fr s) (t_fw s) (t_wl s) (t_rl s) (t_pcs s).

Definition len {A} (l : list A) : Z := Z.of_nat (length l).
Definition ztake {A} (n : Z) (l : list A) : list A := take (Z.to_nat n) l.
Definition zdrop {A} (n : Z) (l : list A) : list A := drop (Z.to_nat n) l.

(** A call begins (fs_calls.rs 1580-1711, 2009-2185, 2513-2653). A read or write
    of nothing returns at once (pipe.rs 213-215, 405-407), as does a vectored
    write of no buffer (336-338). Close and dup: pipe.rs 120-145. *)
Definition pcall (s : pst) (i : nat) (o : pop) : option (pst * list ev) :=
  match t_pcs s !! i with
  | Some Idle =>
      match o with
      | PRead n nb =>
          if (0 <? t_fr s) && (0 <=? n) then
            if n =? 0 then Some (s, [ECall i o; ERet i 0 []])
            else Some (set_fr (t_fr s - 1) (goto s i (RWait n nb)), [ECall i o])
          else None
      | PWrite d nb =>
          if 0 <? t_fw s then
            if len d =? 0 then Some (s, [ECall i o; ERet i 0 []])
            else Some (set_fw (t_fw s - 1) (goto s i (WWait d nb Plain)), [ECall i o])
          else None
      | PWritev ds nb =>
          if 0 <? t_fw s then
            Some (set_fw (t_fw s - 1) (goto s i (WNext ds 0 nb)), [ECall i o])
          else None
      | PCloseR =>
          if 0 <? t_fr s then Some (set_nr (t_nr s - 1) (set_fr (t_fr s - 1) s), [ECall i o; ERet i 0 []]) else None
      | PCloseW =>
          if 0 <? t_fw s then Some (set_nw (t_nw s - 1) (set_fw (t_fw s - 1) s), [ECall i o; ERet i 0 []]) else None
      | PDupR =>
          if 0 <? t_fr s then Some (set_nr (t_nr s + 1) (set_fr (t_fr s + 1) s), [ECall i o; ERet i 0 []]) else None
      | PDupW =>
          if 0 <? t_fw s then Some (set_nw (t_nw s + 1) (set_fw (t_fw s + 1) s), [ECall i o; ERet i 0 []]) else None
      end
  | _ => None
  end.

(** The end of a read: the read mutex and the descriptor are released. *)
Definition rdone (s : pst) (i : nat) (r : Z) (d : list Z) : option (pst * list ev) :=
  Some (set_rl false (set_fr (t_fr s + 1) (goto s i Idle)), [ERet i r d]).

(** The end of a write or writev: the descriptor is released. *)
Definition wdone (s : pst) (i : nat) (r : Z) : option (pst * list ev) :=
  Some (set_fw (t_fw s + 1) (goto s i Idle), [ERet i r []]).

(** One access of thread [i] inside its call. [None]: the thread waits for a
    mutex, or is not in a call. A blocked write that yields (274-277) goes
    round its loop. *)
Definition pgo (cap : Z) (s : pst) (i : nat) : option (pst * list ev) :=
  match t_pcs s !! i with
  | None | Some Idle => None
  (* pipe.rs 329-373 *)
  | Some (WNext [] total nb) => wdone s i (to_i32 total)
  | Some (WNext (d :: rest) total nb) =>
      if len d =? 0 then Some (goto s i (WNext rest total nb), [])
      else Some (goto s i (WWait d nb (Vec rest total)), [])
  (* pipe.rs 211-289 *)
  | Some (WWait d nb v) =>
      if t_wl s then None else Some (set_wl true (goto s i (WRef d nb v 0)), [])
  | Some (WRef d nb v done) =>
      if t_nr s =? 0 then Some (goto s i (WRet v nb (err EPIPE)), [])
      else Some (goto s i (WRoom d nb v done), [])
  | Some (WRoom d nb v done) =>
      let room := cap - len (t_buf s) in
      if room <? PIPE_BUF then
        if nb then
          Some (goto s i (WRet v nb (if 0 <? done then to_i32 done else err EAGAIN)), [])
        else Some (goto s i (WRef d nb v done), [])
      else Some (goto s i (WPush d nb v done room), [])
  | Some (WPush d nb v done room) =>
      let upto := Z.min (len d) (done + room) in
      let bs := ztake (cap - len (t_buf s)) (ztake (upto - done) (zdrop done d)) in
      let s' := set_buf (t_buf s ++ bs) s in
      Some (goto s' i (if upto <? len d then WRef d nb v upto else WRet v nb (to_i32 upto)),
            [EIns i bs])
  | Some (WRet v nb r) =>
      let s' := set_wl false s in
      match v with
      | Plain => wdone s' i r
      | Vec rest total =>
          if 0 <? r then Some (goto s' i (WNext rest (total + r) nb), [])
          else if r =? err EPIPE then wdone s' i r
          else if r =? err EAGAIN then wdone s' i (if total =? 0 then r else to_i32 total)
          else Some (goto s' i (WNext rest total nb), [])
      end
  (* pipe.rs 403-463 and the retry of fs_calls.rs 1707-1740 *)
  | Some (RWait n nb) =>
      if t_rl s then None else Some (set_rl true (goto s i (RLen n nb)), [])
  | Some (RLen n nb) =>
      let l := len (t_buf s) in
      if l =? 0 then Some (goto s i (if nb then RNbRef n else RRef n 0), [])
      else Some (goto s i (RPop n l), [])
  | Some (RNbRef n) => rdone s i (if t_nw s =? 0 then 0 else err EAGAIN) []
  | Some (RRef n count) =>
      if t_nw s =? 0 then rdone s i 0 []
      else if count =? CANCEL_CHECK_INTERVAL
      then Some (set_rl false (goto s i (RWait n false)), [])
      else Some (goto s i (RLen2 n count), [])
  | Some (RLen2 n count) =>
      let l := len (t_buf s) in
      if l =? 0 then Some (goto s i (RRef n (count + 1)), [])
      else Some (goto s i (RPop n l), [])
  | Some (RPop n l) =>
      let k := Z.min n l in
      rdone (set_buf (zdrop k (t_buf s)) s) i (to_i32 k) (ztake k (t_buf s))
  end.

(** A scheduling decision: an idle thread calls, or a thread goes on. *)
Inductive act := Start (i : nat) (o : pop) | Go (i : nat).

Definition pact (cap : Z) (s : pst) (a : act) : option (pst * list ev) :=
  match a with Start i o => pcall s i o | Go i => pgo cap s i end.

(** Runs, with what happened so far, oldest first. *)
Inductive prun (cap : Z) (k : nat) : list ev -> pst -> Prop :=
| prun_init : prun cap k [] (pinit k)
| prun_step tr s a s' es : prun cap k tr s -> pact cap s a = Some (s', es) ->
    prun cap k (tr ++ es) s'.

(** A schedule as a function, for concrete examples. *)
Fixpoint psched (cap : Z) (s : pst) (tr : list ev) (l : list act) : option (pst * list ev) :=
  match l with
  | [] => Some (s, tr)
  | a :: l => match pact cap s a with
              | Some (s', es) => psched cap s' (tr ++ es) l
              | None => None
              end
  end.
