(** What device discovery should report (C124). *)
From Verif Require Import Base EthAddrModel Dict DiscModel.
#[local] Open Scope Z_scope.
#[local] Open Scope list_scope.

(** An entry describes a device of the system: its name is the device's, its description too (its name when there is none), the
    three states are the three lowest bits of the flags. *)
Definition describes (d : cdev) (p : pcapif) : Prop :=
  pi_name p = cd_name d /\ pi_internal p = cd_name d /\ (match cd_desc d with None => pi_desc p = cd_name d | Some b => pi_desc p = b end) /\
  (pi_loop p = true <-> Z.odd (cd_flags d) = true) /\ (pi_up p = true <-> Z.odd (cd_flags d / 2) = true) /\ (pi_running p = true <-> Z.odd (cd_flags d / 4) = true).
(** ASCII text. *)
Definition plain (b : bytes) : Prop := Forall (fun c => 0 <= c < 128) b.
Definition plain_dev (d : cdev) : Prop := plain (cd_name d) /\ match cd_desc d with None => True | Some b => plain b end.
(** On Windows the names are port0, port1, ... in the order of the system; the name of the system is kept beside it. *)
Definition describes_win (i : Z) (d : cdev) (p : pcapif) : Prop :=
  (exists ds, pi_name p = [112; 111; 114; 116] ++ ds /\ ds <> [] /\ Forall (fun c => 48 <= c <= 57) ds /\ fold_left (fun n c => 10 * n + (c - 48)) ds 0 = i) /\
  pi_internal p = cd_name d /\ (match cd_desc d with None => pi_desc p = pi_name p | Some b => pi_desc p = b end) /\
  (pi_loop p = true <-> Z.odd (cd_flags d) = true) /\ (pi_up p = true <-> Z.odd (cd_flags d / 2) = true) /\ (pi_running p = true <-> Z.odd (cd_flags d / 4) = true).
