(** Vocabulary for mapped memory. *)
From Verif Require Import Base PathModel PathSpec FsModel FsBoot FsSpec FsReachSpec MapModel.
Local Open Scope list_scope.
Local Open Scope Z_scope.

(** What the host kernel promises about the address it answers to mmap *)
Definition host_may (s : mstate) (addr len flags off : Z) (ans : option Z) : Prop :=
  match ans with
  | None => True
  | Some a =>
      (4096 | a) /\ 0 < a /\ a + (len + 4095) / 4096 * 4096 <= 2 ^ 47 /\ (4096 | off) /\
      (Z.land flags 16 <> 0 -> a = addr) /\
      (Z.land flags 16 = 0 -> forall b, a <= b < a + (len + 4095) / 4096 * 4096 -> mapping_at s b = None)
  end.

(** No operation of [past] did one of the things that [tame] excludes, and the
    kernel kept its promise *)
Definition mtame (s : mstate) (o : mop) (x : mout) : Prop :=
  match o, x with
  | Sys c o, MRet r => tame true (s_w s) c o r
  | Mmap _ addr len _ flags _ off ans, _ => 0 <= len /\ host_may s addr len flags (if Z.land flags 32 =? 0 then off else 0) ans
  | Munmap _ addr len ans, _ => 0 <= len /\ host_may s addr len 50 0 ans
  | _, _ => True
  end.

(** Histories: calls of all processes, mappings, loads and stores in any order.
    [past] has the operations with the states before them, the newest first. *)
Definition start : mstate := MState fresh_world [] ∅ ∅ ∅ 0.
Inductive mreach : list (mstate * mop) -> mstate -> Prop :=
| mreach_start : mreach [] start
| mreach_step past s o s' x : mreach past s -> mstep s o = Done (s', x) -> mtame s o x -> mreach ((s, o) :: past) s'.

(** The bytes of file [i] *)
Definition file_bytes (w : world) (i : Z) : option (list Z) := d_host (w_disk w) !! i.
(** Everything but the bytes of files *)
Definition same_but_bytes (w w' : world) : Prop :=
  w_ino w' = w_ino w /\ w_next w' = w_next w /\ w_fobj w' = w_fobj w /\ w_cwd w' = w_cwd w /\ w_fds w' = w_fds w /\
  w_pipes w' = w_pipes w /\ w_npipe w' = w_npipe w /\ w_dsock w' = w_dsock w.

(** At address [a] the program finds byte [pos] of file [i], shared with all who
    use the file. *)
Definition shared_at (s : mstate) (a i pos : Z) : Prop :=
  exists m g off, mapping_at s a = Some m /\ m_back m = BShared i g off /\ pos = off + (a - m_lo m).
(** The mapping at [a] shows the host file that the runtime now uses for its file *)
Definition attached (s : mstate) (a : Z) : Prop :=
  exists m, mapping_at s a = Some m /\
    match m_back m with BShared i g _ | BPriv i g _ => g = gen s i | BAnon => True end.
(** The call [o] opens file [i] with truncation *)
Definition truncating (w : world) (c : Z) (o : op) (i : Z) : Prop :=
  exists cwd p q, w_cwd w !! c = Some cwd /\ denotes cwd p q /\ resolves (w_ino w) q i /\
    ((exists fl m, o = Open p fl m /\ Z.land fl O_TRUNC = O_TRUNC) \/ exists m, o = Creat p m).

(** An earlier mmap of a writable shared mapping, through a descriptor that was
    open for reading and writing on file [i], that put byte [pos] of the file at
    address [a] *)
Definition granted (past : list (mstate * mop)) (a i pos : Z) : Prop :=
  exists s0 c addr len prot flags fd off lo p fl,
    (s0, Mmap c addr len prot flags fd off (Some lo)) ∈ past /\
    Z.land flags 1 <> 0 /\ Z.land flags 2 = 0 /\ Z.land flags 32 = 0 /\ Z.land prot 2 <> 0 /\
    w_fds (s_w s0) !! (c, fd) = Some (FFile i p fl) /\ Z.land fl 3 = O_RDWR /\
    lo <= a < lo + (len + 4095) / 4096 * 4096 /\ pos = off + (a - lo).

(** ** The rules of mmap *)

(** The length is not 0 and exactly one of MAP_SHARED and MAP_PRIVATE is asked for *)
Definition well_flagged (len flags : Z) : Prop :=
  len <> 0 /\ ((Z.land flags 1 <> 0 /\ Z.land flags 2 = 0) \/ (Z.land flags 1 = 0 /\ Z.land flags 2 <> 0)).
(** The open mode [fl] of a descriptor allows the mapping *)
Definition mode_allows (fl prot flags : Z) : Prop :=
  Z.land fl 1 = 0 /\ (Z.land flags 1 <> 0 -> Z.land prot 2 <> 0 -> Z.land fl 2 = 2).
(** Descriptor [fd] is open on the regular file [i] of size [size], in mode [fl] *)
Definition on_file (w : world) (c fd i size fl : Z) : Prop :=
  exists p x, w_fds w !! (c, fd) = Some (FFile i p fl) /\ w_ino w !! i = Some x /\ i_kind x = KFile /\ i_size x = size.

(** The code of the first rule that a request breaks *)
Inductive refused (w : world) (c len prot flags fd off : Z) : Z -> Prop :=
| ref_flags : ~ well_flagged len flags -> refused w c len prot flags fd off EINVAL
| ref_none : well_flagged len flags -> Z.land flags 32 = 0 -> w_fds w !! (c, fd) = None -> refused w c len prot flags fd off EBADF
| ref_other d : well_flagged len flags -> Z.land flags 32 = 0 -> w_fds w !! (c, fd) = Some d -> (forall i p fl, d <> FFile i p fl) ->
    refused w c len prot flags fd off EACCES
| ref_kind i p fl x : well_flagged len flags -> Z.land flags 32 = 0 -> w_fds w !! (c, fd) = Some (FFile i p fl) -> w_ino w !! i = Some x ->
    i_kind x = KDir \/ i_kind x = KSock -> refused w c len prot flags fd off EACCES
| ref_chr i p fl x a b : well_flagged len flags -> Z.land flags 32 = 0 -> w_fds w !! (c, fd) = Some (FFile i p fl) -> w_ino w !! i = Some x ->
    i_kind x = KChr a b -> refused w c len prot flags fd off EOPNOTSUPP
| ref_mode i size fl : well_flagged len flags -> Z.land flags 32 = 0 -> on_file w c fd i size fl -> ~ mode_allows fl prot flags ->
    refused w c len prot flags fd off EACCES
| ref_off i size fl : well_flagged len flags -> Z.land flags 32 = 0 -> on_file w c fd i size fl -> mode_allows fl prot flags -> ~ 0 <= off <= size ->
    refused w c len prot flags fd off ENXIO.
(** No rule is broken; [b] is what the new mapping shows *)
Definition allowed (s : mstate) (c len prot flags fd off : Z) (b : backing) : Prop :=
  well_flagged len flags /\
  ((Z.land flags 32 <> 0 /\ b = BAnon) \/
   (Z.land flags 32 = 0 /\ exists i size fl, on_file (s_w s) c fd i size fl /\ mode_allows fl prot flags /\ 0 <= off <= size /\
      b = if Z.land flags 1 =? 0 then BPriv i (gen s i) off else BShared i (gen s i) off)).

(** What a mapping shows of a file behind position [pos]: the byte, zeros up to
    the end of the last page, and a bus error behind it *)
Definition file_at (l : list Z) (pos : Z) (x : mout) : Prop :=
  (forall v, l !! Z.to_nat pos = Some v -> x = MByte v) /\
  (Z.of_nat (length l) <= pos -> pos < (Z.of_nat (length l) + 4095) / 4096 * 4096 -> x = MByte 0) /\
  ((Z.of_nat (length l) + 4095) / 4096 * 4096 <= pos -> x = MBus).

(** Address [a] is in the pages of a mapping of [len] bytes at [lo] *)
Definition in_range (lo len a : Z) : Prop := lo <= a < lo + (len + 4095) / 4096 * 4096.
