(** Specification vocabulary for the codecs. *)
From Verif Require Import Base.

Definition is_u32 (x : Z) : Prop := 0 <= x < 2 ^ 32.
