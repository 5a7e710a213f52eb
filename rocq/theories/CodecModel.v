(** Pure codecs: device numbers, error numbers, permission algebra. *)
From Verif Require Import Base.

(** [makedev], fs_constants.rs 178-183.  [dev.major as u64] widens a [u32];
    the shifts are [u64] shifts, so bits pushed above bit 63 are dropped (none
    are: the operands are 32-bit). *)
Definition makedev (major minor : Z) : Z :=
  Z.lor (Z.lor (Z.lor
    (to_u64 (Z.shiftl (Z.land major 0xfff) 8))
    (to_u64 (Z.shiftl (Z.land major 0xfffff000) 32)))
    (to_u64 (Z.shiftl (Z.land minor 0xff) 0)))
    (to_u64 (Z.shiftl (Z.land minor 0xffffff00) 12)).

(** [major], fs_constants.rs 186-188; the result is truncated by [as u32]. *)
Definition major (devnum : Z) : Z :=
  to_u32 (Z.lor (Z.shiftr (Z.land devnum 0x00000000000fff00) 8)
                (Z.shiftr (Z.land devnum 0xfffff00000000000) 32)).

(** [minor], fs_constants.rs 189-191. *)
Definition minor (devnum : Z) : Z :=
  to_u32 (Z.lor (Z.shiftr (Z.land devnum 0x00000000000000ff) 0)
                (Z.shiftr (Z.land devnum 0x00000ffffff00000) 12)).

(** [devtuple], fs_constants.rs 193-198. *)
Definition devtuple (devnum : Z) : Z * Z := (major devnum, minor devnum).
