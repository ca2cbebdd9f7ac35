(** Handing packets to a callback: dispatch, loop, breakloop and _callback of PcapReader (380-395) and of PcapLiveDevice
    (615-630), and _pcap_callback (697-707) of switchyard/pcapffi.py.

    libpcap is taken to behave as its manual and its sources say.  Packets come in buffers: a file is one buffer, a device
    fills one after the other, and one that stays empty stands for the read timeout.  The flag that pcap_breakloop sets is
    looked at before each packet, and on a device also after the last one.  On a file it stays set when packets have
    already been handed over by this read ([c_file]).  Left out: the number that dispatch returns, the filter (C92), turning
    a record into a packet (C92), a callback that itself calls loop or dispatch, and other threads. *)
From Verif Require Import Base.
#[local] Open Scope list_scope.

Section Loop.
Context {P U : Type}.                            (* packets; what the callback keeps between calls *)
(** What the callback does with a packet: whether it calls breakloop, and whether it raises an exception. *)
Record act := mkAct { a_break : bool; a_raise : bool }.
Context (cb : U -> P -> U * act).
(** What comes after the last buffer: the end of the file, an error, or nothing at all. *)
Inductive ending := Eof | Broken | Quiet.
Record cap := mkCap { c_file : bool; c_bufs : list (list P); c_flag : bool; c_end : ending }.
(** How a read ends: its buffer is used up, the count is reached, or the flag was seen. *)
Inductive stop := Used | Counted | Flagged.
(** One call of the callback through cffi, which prints an exception and goes on (697-707). *)
Definition call (u : U) (p : P) : U * bool := let '(u', a) := cb u p in (u', a_break a).
(** Reading from a buffer: how it ended, packets handed over, the rest of the buffer, the flag, the callback's memory. *)
Fixpoint read (file : bool) (cnt n : Z) (b : list P) (flag : bool) (u : U) : stop * list P * list P * bool * U :=
  if flag then (Flagged, [], b, file && (0 <? n), u)
  else
    match b with
    | [] => (Used, [], [], false, u)
    | p :: t =>
        let '(u1, br) := call u p in
        if (0 <? cnt) && (cnt <=? n + 1) then
          (if br && negb file then (Flagged, [p], t, false, u1) else (Counted, [p], t, br, u1))
        else let '(st, d, t', f, u2) := read file cnt (n + 1) t br u1 in (st, p :: d, t', f, u2)
    end.
Inductive outcome := Returned | Waits.
(** pcap_dispatch: one read (380-384, 615-619). *)
Definition dispatch (cnt : Z) (c : cap) (u : U) : outcome * list P * cap * U :=
  match c_bufs c with
  | [] => (Returned, [], mkCap (c_file c) [] false (c_end c), u)
  | b :: r => let '(_, d, b', f, u') := read (c_file c) cnt 0 b (c_flag c) u in (Returned, d, mkCap (c_file c) (b' :: r) f (c_end c), u')
  end.
(** pcap_loop: reads until one sees the flag or the count is reached or packets end (386-389, 621-624); a read after one
    that left the flag set sees it at once and clears it. *)
Fixpoint loop_bufs (file : bool) (e : ending) (cnt : Z) (l : list (list P)) (flag : bool) (u : U) : outcome * list P * list (list P) * bool * U :=
  match l with
  | [] => (if flag then Returned else match e with Quiet => Waits | _ => Returned end, [], [], false, u)
  | b :: r =>
      let '(st, d, b', f, u') := read file cnt 0 b flag u in
      match st with
      | Flagged => (Returned, d, b' :: r, false, u')
      | Counted => (Returned, d, b' :: r, f, u')
      | Used => if f then (Returned, d, b' :: r, false, u')
                else let '(o, d2, r', f2, u2) := loop_bufs file e (if 0 <? cnt then cnt - zlen d else cnt) r f u' in (o, d ++ d2, r', f2, u2)
      end
  end.
Definition loop (cnt : Z) (c : cap) (u : U) : outcome * list P * cap * U :=
  let '(o, d, l, f, u') := loop_bufs (c_file c) (c_end c) cnt (c_bufs c) (c_flag c) u in (o, d, mkCap (c_file c) l f (c_end c), u').
(** breakloop outside of the callback (394-395, 629-630). *)
Definition breakloop (c : cap) : cap := mkCap (c_file c) (c_bufs c) true (c_end c).

(** ** Histories of calls; the last may wait for ever *)
Inductive op := Dispatch (cnt : Z) | Loop (cnt : Z) | Break.
Fixpoint run (l : list op) (c : cap) (u : U) : list (list P) * cap * U :=
  match l with
  | [] => ([], c, u)
  | x :: t =>
      let '(o, d, c1, u1) := match x with Dispatch n => dispatch n c u | Loop n => loop n c u | Break => (Returned, [], breakloop c, u) end in
      match o with
      | Waits => ([d], c1, u1)
      | Returned => let '(ds, c2, u2) := run t c1 u1 in (d :: ds, c2, u2)
      end
  end.
End Loop.
Arguments cap : clear implicits.
