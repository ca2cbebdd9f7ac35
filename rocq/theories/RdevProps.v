(** C96: receiving on a live capture device, and its blocking property. *)
From Coq Require Import List ZArith QArith Bool Lia Lqa.
From Verif Require Import RdevModel RdevSpec RdevProofs.
Open Scope Q_scope.

(** A device with a descriptor to wait on: a packet that comes within the time given is returned the moment it comes, and
    otherwise None when the time is over; in blocking and nonblocking state alike. *)
Theorem C96_in_time : forall d w t now fd, sane w -> d_fd d = Some fd -> (0 <= fd)%Z -> 0 <= t ->
  (forall a, w_at w = Some a -> a <= now + t -> exists m, recv d w (Some t) now = RPkt m /\ from_now now a m) /\
  (~ there w (now + t) -> recv d w (Some t) now = RNone (now + t)).
Proof. exact rdev_select. Qed.

(** Without a time, or with a negative one, such a device waits until the packet comes. *)
Theorem C96_forever : forall d w timeout now fd, sane w -> d_fd d = Some fd -> (0 <= fd)%Z ->
  match timeout with Some t => t < 0 | None => True end ->
  match w_at w with
  | Some a => exists m, recv d w timeout now = RPkt m /\ from_now now a m
  | None => recv d w timeout now = RWait
  end.
Proof. exact rdev_forever. Qed.

(** A nonblocking device without such a descriptor and without a packet at hand: if sleeps are at most [m] too long, a
    packet is returned at most a tenth of the time given and [m] after it came, None only if none has come by the end of
    the time given, and either at most a tenth of that time and [m] after the end. *)
Theorem C96_polled : forall d w t m now fd, sane w -> late_by w m -> d_fd d = Some fd -> (fd < 0)%Z -> d_rec d = true -> d_nb d = true ->
  0 < t -> ~ there w now ->
  match recv d w (Some t) now with
  | RPkt x => there w x /\ now <= x /\ x < now + t + t / 10 + m /\ forall a, w_at w = Some a -> x <= a + t / 10 + m
  | RNone x => ~ there w x /\ now + t <= x /\ x < now + t + t / 10 + m
  | _ => False
  end.
Proof. exact rdev_poll. Qed.

(** With no time at all it answers at once. *)
Theorem C96_zero : forall d w now fd, d_fd d = Some fd -> (fd < 0)%Z -> d_nb d = true ->
  recv d w (Some 0) now = if arrived w now then RPkt now else RNone now.
Proof. exact rdev_zero. Qed.

Definition calm (a : option Q) : world := mkW a (fun _ => 1 # 1000) (Some (1 # 10)).
Example sane_calm : sane (calm (Some 1)).
Proof. split; [cbn; intros; lra|]. cbn. intros d [= <-]. lra. Qed.
Example recv_select : recv (d_open true 5) (calm (Some (3 # 2))) (Some 2) 1 = RPkt (3 # 2) /\
  recv (d_open true 5) (calm (Some 4)) (Some 2) 1 = RNone (1 + 2).
Proof. split; reflexivity. Qed.
Example recv_poll : match recv (d_open true (-1)) (calm (Some (3 # 2))) (Some 2) 1 with RPkt x => x == 1603 # 1000 | _ => False end.
Proof. vm_compute. reflexivity. Qed.
Example recv_poll_none : match recv (d_open true (-1)) (calm None) (Some 2) 1 with RNone x => x == 301 # 100 | _ => False end.
Proof. vm_compute. reflexivity. Qed.

(** ** Where it does not hold *)
(** Without a descriptor, no time (or a negative one) does not mean waiting: nonblocking devices answer at once. *)
Theorem C96_no_wait_fails : forall d w timeout now fd, d_fd d = Some fd -> (fd < 0)%Z -> d_nb d = true ->
  match timeout with Some t => t < 0 | None => True end -> ~ there w now -> recv d w timeout now = RNone now.
Proof. exact rdev_at_once. Qed.

(** ... and blocking ones take no notice of the time given ... *)
Theorem C96_time_ignored_fails : forall d w t u now fd, d_fd d = Some fd -> (fd < 0)%Z -> d_rec d = false -> recv d w t now = recv d w u now.
Proof. exact rdev_ignored. Qed.
(** ... so that they may never return. *)
Theorem C96_hangs_refuted : exists d w t now fd, sane w /\ d_fd d = Some fd /\ 0 < t /\ recv d w (Some t) now = RWait.
Proof.
  exists (d_open false (-1)), (mkW None (fun _ => 0) None), 1, 0, (-1)%Z. repeat split; cbn; try lra; intros; try lra; discriminate.
Qed.

(** A device made by create and activated: every receive raises TypeError, until fd has been read. *)
Theorem C96_created_fails : exists d, activate d_create = inl d /\
  (forall w timeout now, recv d w timeout now = RRaise RType) /\
  forall fd w timeout now, recv (get_fd d fd) w timeout now = recv (d_open false fd) w timeout now.
Proof. eexists. split; [reflexivity|]. split; intros; reflexivity. Qed.

(** blocking is never True; setting it True makes the device nonblocking and reading it raise. *)
Theorem C96_blocking_fails : forall d,
  get_blocking d <> inl true /\
  (forall v, d_nb (set_blocking d v) = v) /\
  get_blocking (set_blocking d true) = inr RPcap /\ get_blocking (set_blocking d false) = inl false.
Proof.
  intros d. repeat split. unfold get_blocking. destruct (d_nb d); discriminate.
Qed.

(** The state recorded when the device was opened is used afterwards: a device without a descriptor that was opened
    blocking and made nonblocking later does not wait at all, whatever time is given ... *)
Theorem C96_stale_fails : forall fd w timeout now, (fd < 0)%Z -> ~ there w now ->
  recv (set_blocking (d_open false fd) true) w timeout now = RNone now.
Proof. exact rdev_stale. Qed.
(** ... even if a packet comes within that time. *)
Theorem C96_stale_refuted : exists d w t a now, sane w /\ d = set_blocking (d_open false (-1)) true /\ d_nb d = true /\
  w_at w = Some a /\ now < a /\ a < now + t /\ recv d w (Some t) now = RNone now.
Proof.
  exists (set_blocking (d_open false (-1)) true), (calm (Some 2)), 5, 2, 1.
  split; [split; [cbn; intros; lra|cbn; intros d [= <-]; lra]|]. repeat split; cbn; lra.
Qed.

Print Assumptions C96_in_time.
Print Assumptions C96_forever.
Print Assumptions C96_polled.
Print Assumptions C96_zero.
Print Assumptions C96_no_wait_fails.
Print Assumptions C96_time_ignored_fails.
Print Assumptions C96_hangs_refuted.
Print Assumptions C96_created_fails.
Print Assumptions C96_blocking_fails.
Print Assumptions C96_stale_refuted.
Print Assumptions C96_stale_fails.
