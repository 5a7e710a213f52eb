(** The entry point of mmap (21) and munmap (22): six words and a process number
    become a call of MapModel.

    Modelled source: /repo/src/safeposix/dispatcher.rs 151-158, 210-235 and
    319-336; the converters of /repo/src/interface/types.rs 222-237, 251-254,
    266-269 and 283-293. The answer of the host kernel is an argument, as in
    MapModel. *)
From stdpp Require Import gmap.
From Verif Require Import Base FsModel AbiModel EntryModel MapModel.
Local Open Scope list_scope.
Local Open Scope Z_scope.

(** dispatcher.rs 151-158: a conversion that fails is the answer of the call *)
Definition given (s : mstate) (e : AbiModel.res Z) (k : Z -> outcome (mstate * mout)) : outcome (mstate * mout) :=
  match e with Fail r => Done (s, MRet (Ret r)) | Ok v => k v end.
(** dispatcher.rs 319-329 *)
Definition enter_mmap (s : mstate) (c : Z) (a : args) (ans : option Z) : outcome (mstate * mout) :=
  match w_cwd (MapModel.s_w s) !! c with
  | None => Panic
  | Some _ =>
      given s (get_ptr (a1 a)) (fun addr => given s (get_ulong (a2 a)) (fun len =>
      given s (get_int (a3 a)) (fun prot => given s (get_int (a4 a)) (fun flags =>
      given s (get_int (a5 a)) (fun fd => given s (get_long (a6 a)) (fun off =>
        mstep s (Mmap c addr len prot flags fd off ans)))))))
  end.
(** dispatcher.rs 330-336 *)
Definition enter_munmap (s : mstate) (c : Z) (a : args) (ans : option Z) : outcome (mstate * mout) :=
  match w_cwd (MapModel.s_w s) !! c with
  | None => Panic
  | Some _ =>
      given s (get_ptr (a1 a)) (fun addr => given s (get_ulong (a2 a)) (fun len =>
        mstep s (Munmap c addr len ans)))
  end.

(** Programs: these two calls by their words, all else as in MapModel *)
Inductive wact :=
| WMmap (c : Z) (a : args) (ans : option Z)
| WMunmap (c : Z) (a : args) (ans : option Z)
| WPlain (o : mop).
Definition wstep (s : mstate) (x : wact) : outcome (mstate * mout) :=
  match x with
  | WMmap c a ans => enter_mmap s c a ans
  | WMunmap c a ans => enter_munmap s c a ans
  | WPlain o => mstep s o
  end.
Fixpoint wrun (s : mstate) (l : list wact) : option (mstate * list mout) :=
  match l with
  | [] => Some (s, [])
  | x :: r => match wstep s x with
              | Panic => None
              | Done (s1, y) => match wrun s1 r with None => None | Some (s2, ys) => Some (s2, y :: ys) end
              end
  end.
