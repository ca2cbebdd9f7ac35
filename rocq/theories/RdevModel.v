(** Model of receiving on a live capture device: PcapLiveDevice.recv_packet (632-665), recv_packet_or_none (612-613) and
    the blocking property (479-492) of switchyard/pcapffi.py, with activate (465-476) and the constructor's record of
    the state (424-453).

    Times are rational numbers.  The packet that is next in line arrives at a given moment (or never); reading it and
    reading the clock take no time, sleeping takes at least as long as asked.  libpcap reads as it is in: nonblocking, it
    answers at once; blocking, it waits until a packet comes or its own time limit (to_ms; None: none) is over.  A
    selectable descriptor is readable when the packet has arrived.  Left out: packets that the filter takes away after
    the descriptor became readable, and the failures of libpcap and of select. *)
From Coq Require Import List ZArith QArith Bool.
Import ListNotations.
Open Scope Q_scope.

Inductive rexn := RType | RPcap.                  (* TypeError, PcapException *)
Inductive rres := RPkt (now : Q) | RNone (now : Q) | RWait | RRaise (e : rexn) | RFuel.

(** What there is to receive: when the packet arrives, and how much longer than asked the n-th sleep takes. *)
Record world := mkW { w_at : option Q; w_late : nat -> Q; w_to : option Q }.

(** The device: _fd, the recorded _pcapdev.nonblock, and libpcap's own state. *)
Record rdev := mkD { d_fd : option Z; d_rec : bool; d_nb : bool }.

(** The constructor (424-453): [fd] is pcap_get_selectable_fd. *)
Definition d_open (nonblock : bool) (fd : Z) : rdev := mkD (Some fd) nonblock nonblock.
(** create (424-432) and activate (465-476), which reads self.blocking (479-485). *)
Definition d_create : rdev := mkD None false false.
Definition get_blocking (d : rdev) : bool + rexn := if d_nb d then inr RPcap else inl false.
Definition set_blocking (d : rdev) (v : bool) : rdev := mkD (d_fd d) (d_rec d) v.
Definition activate (d : rdev) : rdev + rexn :=
  match get_blocking d with inl b => inl (mkD (d_fd d) b (d_nb d)) | inr e => inr e end.
(** fd (587-596): asks libpcap the first time. *)
Definition get_fd (d : rdev) (fd : Z) : rdev := match d_fd d with Some _ => d | None => mkD (Some fd) (d_rec d) (d_nb d) end.

Definition arrived (w : world) (now : Q) : bool := match w_at w with Some a => Qle_bool a now | None => false end.
Definition qmax (a b : Q) : Q := if Qle_bool a b then b else a.

(** _recv_packet (268-288) at a moment. *)
Definition next_ex (w : world) (nb : bool) (now : Q) : rres :=
  if nb then (if arrived w now then RPkt now else RNone now)
  else match w_to w, w_at w with
       | Some d, _ => if arrived w (now + d) then match w_at w with Some a => RPkt (qmax now a) | None => RNone (now + d) end
                      else RNone (now + d)
       | None, Some a => RPkt (qmax now a)
       | None, None => RWait
       end.

(** The loop (653-658), on fuel: [n] counts the sleeps. *)
Fixpoint poll (fuel : nat) (w : world) (nb : bool) (timeout expiry now : Q) (n : nat) : rres :=
  match fuel with
  | O => RFuel
  | S k =>
      if negb (Qle_bool expiry now) then
        match next_ex w nb (now + timeout / 10 + w_late w n) with
        | RNone now' => poll k w nb timeout expiry now' (S n)
        | r => r
        end
      else RNone now
  end.

Definition recv (d : rdev) (w : world) (timeout : option Q) (now : Q) : rres :=
  let timeout := match timeout with Some t => if negb (Qle_bool 0 t) then None else Some t | None => None end in
  match d_fd d with
  | None => RRaise RType
  | Some fd =>
      if (0 <=? fd)%Z then
        match timeout, w_at w with
        | Some t, _ => if arrived w (now + t)
                       then match w_at w with Some a => next_ex w (d_nb d) (qmax now a) | None => RNone (now + t) end
                       else RNone (now + t)
        | None, Some a => next_ex w (d_nb d) (qmax now a)
        | None, None => RWait
        end
      else if d_rec d then
        match timeout with
        | Some t => if negb (Qeq_bool t 0) then poll 11 w (d_nb d) t (now + t) now 0 else next_ex w (d_nb d) now
        | None => next_ex w (d_nb d) now
        end
      else next_ex w (d_nb d) now
  end.

(** recv_packet_or_none (612-613). *)
Definition recv_or_none (d : rdev) (w : world) (now : Q) : rres := next_ex w (d_nb d) now.
