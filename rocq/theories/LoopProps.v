(** C119: handing packets to a callback. *)
From Verif Require Import BaseLemmas LoopModel LoopSpec LoopProofs.
#[local] Open Scope list_scope.

(** Over any calls of dispatch, loop and breakloop, the packets handed over, one call after the other, are the first that
    came, in order, each once, and the rest is waiting for the next call. *)
Theorem C119_once : forall {P U} (cb : U -> P -> U * act) l c u ds c' u', run cb l c u = (ds, c', u') ->
  waiting c = concat ds ++ waiting c' /\ u' = handled cb u (concat ds).
Proof. intros P U cb l c u ds c' u'. apply run_spec. Qed.
Print Assumptions C119_once.
(** A positive count is never exceeded, no packet follows one for which the callback called breakloop, and after a breakloop
    between calls nothing is handed over. *)
Theorem C119_limits : forall {P U} (cb : U -> P -> U * act) cnt c u o d c' u', (loop cb cnt c u = (o, d, c', u') \/ dispatch cb cnt c u = (o, d, c', u')) ->
  (0 < cnt -> zlen d <= cnt) /\ stops_at_break cb u d /\ (c_flag c = true -> d = [] /\ o = Returned).
Proof.
  intros P U cb cnt c u o d c' u' [H|H].
  - unfold loop in H. destruct (loop_bufs cb (c_file c) (c_end c) cnt (c_bufs c) (c_flag c) u) as [[[[o0 d0] l0] f0] u0] eqn:L. injection H as <- <- <- <-. apply loop_spec in L. intuition.
  - apply dispatch_spec in H. intuition.
Qed.
Print Assumptions C119_limits.
(** When breakloop is not called, loop returns only after [count] packets, or, with all packets handed over, at the end of
    the file or after an error; otherwise it waits for more packets. *)
Theorem C119_loop : forall {P U} (cb : U -> P -> U * act) cnt c u o d c' u', loop cb cnt c u = (o, d, c', u') -> c_flag c = false -> ~ breaks cb u d ->
  c_flag c' = false /\ (0 < cnt /\ zlen d = cnt \/ d = waiting c /\ (o = Waits <-> c_end c = Quiet)).
Proof.
  intros P U cb cnt c u o d c' u' H F N. unfold loop in H. destruct (loop_bufs cb (c_file c) (c_end c) cnt (c_bufs c) (c_flag c) u) as [[[[o0 d0] l0] f0] u0] eqn:L. injection H as <- <- <- <-.
  apply loop_spec in L as (E1 & E2 & E3 & E4 & E5 & E6 & E7 & E8 & E9). cbn [c_flag]. split; [destruct f0; [|reflexivity]; destruct (E8 eq_refl) as (_ & _ & _ & X); contradiction|].
  destruct E7 as [X|[X|[X|[X1 X2]]]]; [congruence|contradiction|auto|]. right. unfold waiting. rewrite E1, X1, app_nil_r. split; [reflexivity|]. split; [exact E6|]. intros Q. destruct o0; [|reflexivity]. exfalso. apply X2; auto.
Qed.
Print Assumptions C119_loop.
(** A callback that adds up numbers, calls breakloop at 0 and raises an exception at 13. *)
Definition xcb (u : Z) (p : Z) : Z * act := (u + p, mkAct (p =? 0) (p =? 13)).
Definition xfile (l : list Z) : cap Z := mkCap true [l] false Eof.
Example C119_case : run xcb [Loop 2; Dispatch (-1); Break; Loop (-1); Dispatch 1; Loop (-1)] (xfile [1; 2; 3; 0; 4; 5; 6]) 0 = ([[1; 2]; [3; 0]; []; []; [4]; [5; 6]], mkCap true [] false Eof, 21) /\
  run xcb [Loop 2; Dispatch (-1); Loop (-1)] (mkCap false [[1; 2; 3; 0; 4]; []; [5]] false Quiet) 0 = ([[1; 2]; [3; 0]; [4; 5]], mkCap false [] false Quiet, 15).
Proof. split; vm_compute; reflexivity. Qed.

(** An exception raised by the callback does not reach the caller, and the packets after it are handed over as well. *)
Theorem C119_exception_refuted : exists c d c' u', a_raise (snd (xcb 0 13)) = true /\ loop xcb (-1) c 0 = (Returned, d, c', u') /\ d = [13; 1; 2] /\ c_end c = Eof.
Proof. exists (xfile [13; 1; 2]). do 3 eexists. split; [reflexivity|]. split; [vm_compute; reflexivity|]. auto. Qed.
Print Assumptions C119_exception_refuted.
(** After an error of the device, loop returns as it does at the end of a file. *)
Theorem C119_error_refuted : exists c d c' u', c_end c = Broken /\ loop xcb (-1) c 0 = (Returned, d, c', u') /\ d = [1; 2].
Proof. exists (mkCap false [[1; 2]] false Broken). do 3 eexists. split; [reflexivity|]. split; [vm_compute; reflexivity|]. reflexivity. Qed.
Print Assumptions C119_error_refuted.
(** A breakloop for the last packet of a count also ends the next call, before it has handed over anything. *)
Theorem C119_sticky_refuted : exists c c', run xcb [Loop 2; Loop 2] c 0 = ([[1; 0]; []], c', 1) /\ waiting c' = [2; 3].
Proof. exists (xfile [1; 0; 2; 3]). eexists. split; [vm_compute; reflexivity|]. reflexivity. Qed.
Print Assumptions C119_sticky_refuted.
