(** The bytes of shared memory segments: what loads and stores of the processes
    do in memory attached with shmat, beside the tables of IpcModel.

    Models /repo/src/safeposix/shm.rs 76-123 (map_shm, unmap_shm),
    /repo/src/interface/file.rs 448-476 (the file behind a segment),
    /repo/src/interface/misc.rs 335-338 (libc_mmap), and the addresses in
    /repo/src/safeposix/syscalls/fs_calls.rs 5777-5923 (shmat, shmdt) and
    sys_calls.rs 47-70, 372-404 (fork, exec and exit map nothing).

    All processes live in one host address space. The memory of process [c] is
    the region of 2^32 addresses that begins at [c * 2^32] (the loader chooses
    the places; the code relies only on the low 32 bits being the address that
    the process itself uses). The host kernel keeps the map of the address
    space, [t_view]; a mapping replaces whole pages.

    Simplified: bytes in the last page of a segment behind its size are shared
    like the others; the mapping without access that shmdt asks for does not
    fail; ordinary memory has no contents here. What the loader does with the
    memory of a new process is an argument of fork ([keep]: the regions of the
    parent, shared memory included, appear at the same places in the child). *)
From Verif Require Import Base SemModel IpcModel.
Local Open Scope Z_scope.

(** fs_constants.rs 132 *)
Definition SHM_RDONLY : Z := 4096.
Definition REGION : Z := 2 ^ 32.
Definition page_up (n : Z) : Z := (n + 4095) / 4096 * 4096.

(** What lies at an address: memory of the process itself, no accessible
    memory, or a byte of a segment. A segment is the open file behind it, which
    mappings keep alive; identifiers are never used again, so they name it. *)
Inductive cell := Own | Hole | Shows (id pos : Z) (w : bool).
#[global] Instance cell_eq : EqDecision cell.
Proof. solve_decision. Defined.

Record sst := Sst { t_x : ipc; t_view : Z -> cell; t_byte : gmap (Z * Z) Z }.

Inductive sout := Call (r : iout) | Byte (v : Z) | Stored | Segv | Ordinary.
#[global] Instance sout_eq : EqDecision sout.
Proof. solve_decision. Defined.

(** The kernel's mmap with MAP_FIXED: the pages from [p] on *)
Definition map_over (p len : Z) (f : Z -> cell) (v : Z -> cell) : Z -> cell :=
  fun q => if (p <=? q) && (q <? p + page_up len) then f (q - p) else v q.
Definition aligned (p : Z) : bool := p mod 4096 =? 0.

Inductive sop :=
| Sys (o : iop)
| At (id p flg pick : Z) (bad : bool)
| Dt (p : Z)
| Fork (ch : Z) (keep : bool)
| Exec (nc : Z)
| Fetch (p : Z)
| Store (p v : Z).

Definition size_at (x : ipc) (id : Z) : Z := match x_seg x !! id with Some s => g_size s | None => 0 end.

Definition sstep (chk : bool) (s : sst) (c : Z) (o : sop) : outcome (sst * sout) :=
  let x := t_x s in
  match x_cage x !! c with
  | None => Panic
  | Some g =>
      match o with
      | Sys o => obind (istep chk x c o) (fun '(x', r) => Done (Sst x' (t_view s) (t_byte s), Call r))
      | At id p flg pick bad =>
          (* fs_calls.rs 5777-5829, shm.rs 76-97 *)
          obind (istep chk x c (Shmat id (to_u32 p) pick bad)) (fun '(x', r) =>
          let v := match x_seg x !! id with
                   | Some s1 =>
                       if bad || negb (aligned p) then t_view s
                       else map_over p (g_size s1) (fun d => Shows id d (Z.land flg SHM_RDONLY =? 0)) (t_view s)
                   | None => t_view s
                   end in
          Done (Sst x' v (t_byte s), Call r))
      | Dt p =>
          (* fs_calls.rs 5862-5923, shm.rs 101-123 *)
          obind (istep chk x c (Shmdt (to_u32 p))) (fun '(x', r) =>
          let v := match index_of (c_rev g) (to_u32 p) with
                   | Some i => match c_rev g !! i with
                               | Some row => if aligned p then map_over p (size_at x row.2) (fun _ => Hole) (t_view s) else t_view s
                               | None => t_view s
                               end
                   | None => t_view s
                   end in
          Done (Sst x' v (t_byte s), Call r))
      | Fork ch keep =>
          obind (istep chk x c (IFork ch)) (fun '(x', r) =>
          Done (Sst x' (fun q => if q / REGION =? ch then (if keep then t_view s (q + (c - ch) * REGION) else Own) else t_view s q) (t_byte s), Call r))
      | Exec nc =>
          obind (istep chk x c (IExec nc)) (fun '(x', r) =>
          Done (Sst x' (fun q => if q / REGION =? nc then Own else t_view s q) (t_byte s), Call r))
      | Fetch p =>
          Done (s, match t_view s p with
                   | Own => Ordinary
                   | Hole => Segv
                   | Shows id pos _ => Byte (default 0 (t_byte s !! (id, pos)))
                   end)
      | Store p v =>
          Done (match t_view s p with
                | Shows id pos true => (Sst x (t_view s) (<[(id, pos) := v]> (t_byte s)), Stored)
                | Own => (s, Ordinary)
                | _ => (s, Segv)
                end)
      end
  end.

(** The loader gives a process addresses of its own region only, new process
    numbers are free (as in IpcModel), and the calls that have an operation of
    their own are made with it. *)
Definition plain (o : iop) : bool :=
  match o with Shmat _ _ _ _ | Shmdt _ | IFork _ | IExec _ => false | _ => true end.
Definition sok (s : sst) (c : Z) (o : sop) : Prop :=
  match o with
  | Sys o => plain o = true /\ iok (t_x s) c o
  | At _ p _ _ _ | Dt p | Fetch p => p / REGION = c
  | Store p v => p / REGION = c /\ 0 <= v < 256
  | Fork ch _ => iok (t_x s) c (IFork ch)
  | Exec nc => iok (t_x s) c (IExec nc)
  end.

Definition sboot : sst := Sst iboot (fun _ => Own) ∅.
(** A history, the newest event first *)
Record sev := Sev { v_c : Z; v_op : sop; v_out : sout }.
Inductive srun (chk : bool) : list sev -> sst -> Prop :=
| srun_nil : srun chk [] sboot
| srun_step h s c o s' r : srun chk h s -> sok s c o -> sstep chk s c o = Done (s', r) ->
    srun chk (Sev c o r :: h) s'.
