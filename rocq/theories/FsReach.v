(** The invariants hold in every reachable world. *)
From Verif Require Import Base PathModel PathSpec PathProofs FsModel FsBoot FsSpec FsWalk Count FsNames FsTr FsInv FsInv2
  FsSteps FsSteps2 FsFrame FsReachSpec FsTmp FsRestart.
From Verif Require Export FsWinv.
Local Open Scope list_scope.
Local Open Scope Z_scope.

Opaque all_fds.

Lemma reach_ok disp w : reach disp w -> okw w.
Proof.
  induction 1 as [|w c o w' r _ IH Hs Ht|w w' _ IH Hst Hr]; [split; [apply fresh_winv|apply fresh_good]|eapply step_ok; eauto|exact (restart_ok _ _ IH Hst Hr)].
Qed.

Lemma reach_winv disp w : reach disp w -> winv w.
Proof. intros H. apply (reach_ok _ _ H). Qed.

Lemma reach_inv2 w : reach false w -> inv2 (w_ino w) (w_next w).
Proof.
  induction 1 as [|w c o w' r Hr IH Hs Ht|w w' Hr IH Hst Hre]; [apply fresh_inv2| |].
  - pose proof (reach_winv _ _ Hr) as Hw. apply (trs_inv2 (core_of w) (core_of w')); [|apply Hw|exact IH].
    eapply step_trs; eauto.
  - pose proof (reach_ok _ _ Hr) as Hok. destruct (restart_shape false w w' Hok Hst Hre) as (w3 & w4 & R).
    pose proof (later_ok _ _ _ (rs_later _ _ _ _ _ R) Hok) as Hok3.
    apply (later_inv2 w4 w' (rs_later2 _ _ _ _ _ R)); [exact (starts_winv _ _ (proj1 Hok3) (rs_fds _ _ _ _ _ R) (rs_starts _ _ _ _ _ R))|].
    apply (starts_inv2 w3 w4); [|exact (rs_starts _ _ _ _ _ R)]. exact (later_inv2 w w3 (rs_later _ _ _ _ _ R) (proj1 Hok) IH).
Qed.
