(** What users of live capture devices rely on when they receive. *)
From Coq Require Import List ZArith QArith Bool.
From Verif Require Import RdevModel.
Open Scope Q_scope.

(** The packet is there at this moment. *)
Definition there (w : world) (now : Q) : Prop := exists a, w_at w = Some a /\ a <= now.
(** The moment it can be had, for somebody who waits from [now] on. *)
Definition from_now (now a m : Q) : Prop := (m == now /\ a <= now) \/ (m == a /\ now <= a).
(** Neither sleeps nor time limits are negative. *)
Definition sane (w : world) : Prop :=
  (forall n, 0 <= w_late w n) /\ forall d, w_to w = Some d -> 0 <= d.
(** No sleep takes more than this longer than asked. *)
Definition late_by (w : world) (m : Q) : Prop := forall n, w_late w n <= m.
