(** Properties C64 and C65: device numbers and error numbers. *)
From Verif Require Import Base CodecModel CodecSpec CodecProofs ErrnoModel.

(** C64: makedev / major,minor is a bijection between pairs of 32-bit numbers
    and 64-bit numbers. *)
Theorem C64_device_roundtrip :
  (forall a b, is_u32 a -> is_u32 b -> devtuple (makedev a b) = (a, b)) /\
  (forall a b a' b', is_u32 a -> is_u32 b -> is_u32 a' -> is_u32 b' ->
     makedev a b = makedev a' b' -> a = a' /\ b = b') /\
  (forall a b, 0 <= makedev a b < 2 ^ 64) /\
  (forall d, 0 <= d < 2 ^ 64 -> makedev (fst (devtuple d)) (snd (devtuple d)) = d).
Proof. exact device_roundtrip. Qed.
Print Assumptions C64_device_roundtrip.

Example C64_nonvacuous : is_u32 0x12345678 /\ devtuple (makedev 0x12345678 0x9abcdef0) = (0x12345678, 0x9abcdef0).
Proof. split; [unfold is_u32; lia|vm_compute; reflexivity]. Qed.

(** C65: error numbers convert back to the error they came from. *)
Theorem C65_errno_roundtrip :
  (forall e, from_discriminant (- syscall_error e) = Some e) /\
  (forall e e', syscall_error e = syscall_error e' -> e = e') /\
  (forall e, syscall_error e < 0) /\
  (forall v, from_discriminant v = None <-> forall e, syscall_error e <> - v) /\
  (forall v, ~ (1 <= v <= 131) -> from_discriminant v = None).
Proof. exact errno_roundtrip. Qed.
Print Assumptions C65_errno_roundtrip.

Example C65_nonvacuous :
  syscall_error e_ENOENT = -2 /\ from_discriminant 2 = Some e_ENOENT /\ from_discriminant 41 = None
  /\ from_discriminant 0 = None /\ from_discriminant (-2) = None.
Proof. repeat split. Qed.
