(** What users expect of stopping the simulator. *)
From Verif Require Import Base StopModel.
(** stop has returned, and no thread is left. *)
Definition ended (x : nd) : Prop := (n_pc x = ROver \/ n_pc x = RDead) /\ e_pc x = EOver.
Definition stopped (s : sys) : Prop := s_main s = MRun (List.length (s_nodes s)) M0 /\ Forall ended (s_nodes s).
(** A node that is up: its thread is in the loop (or was ended there by an exception), its emulator has been started. *)
Definition up (x : nd) : Prop :=
  (n_pc x = RTop \/ n_pc x = RWait \/ n_pc x = RDead) /\ n_linkem x = ASet /\ n_t x = ASet /\ n_done x = false /\ e_pc x <> EOff /\ e_stop x = false.
(** A schedule in which no node's thread deletes __t while the main thread is about to read it. *)
Definition overtakes (s : sys) (a : act) : Prop :=
  exists i w x, a = ANode i w /\ (s_main s = MRun i M2 \/ s_main s = MRun i M3) /\ nth_error (s_nodes s) i = Some x /\ n_pc x = RDelT.
Fixpoint calm (s : sys) (l : list act) : Prop :=
  match l with [] => True | a :: r => ~ overtakes s a /\ calm (step s a) r end.
(** A round: every thread gets at least one turn. *)
Definition round (n : nat) (l : list act) : Prop :=
  In AMain l /\ forall i, (i < n)%nat -> (exists w, In (ANode i w) l) /\ (exists b, In (AEm i b) l).
