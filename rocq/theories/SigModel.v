(** A signal during a receive on live devices, step by step: LLNetReal.recv_packet (llnetreal.py:212-240), _sig_handler
    (179-189) and _low_level_dispatch (192-210), with the queue of Python's library (queue.py: Queue.get, put and qsize use
    one lock that is not reentrant, and a condition on it; threading.py: Condition.wait and notify).  LiveModel.v takes the
    operations of the queue as single steps; here the receiving thread is stopped inside Queue.get, since the handler runs in
    that thread (main_real is called by the main thread, syinit.py:133-137), between any two of its steps.

    The other threads and the handler hold the lock only within one step.  Packets are not decoded, they carry a number;
    link types are known. *)
From Coq Require Import List Bool Arith.
Import ListNotations.

(** What is on the queue: a packet, or the dummy of the handler. *)
Definition item := option nat.
(** The receiving thread; [tmo] is whether a timeout was given. *)
Inductive upc :=
| UOut                             (* not in recv_packet *)
| UAcq                             (* about to take the lock *)
| UHas                             (* holding it, before the test of qsize *)
| UWait (woken : bool)             (* in Condition.wait, the lock released *)
| UGot (x : item)                  (* the item is taken, the lock still held *)
| UNone                            (* Empty is raised, the lock still held *)
| UTest (x : option item).         (* the lock released, before the test of running; None after Empty *)
(** A handler: before the lock of qsize, or before the lock of put.  A signal may arrive while one is at work. *)
Inductive hpc := HSize | HPut.
(** A capture thread: at the loop test, waiting for a packet, before the put, finished. *)
Inductive tpc := TTop | TRecv | THas (n : nat) | TDone.
Inductive res := RShutdown | RNoPackets | RPkt (n : nat).
Record st := mkS { s_run : bool; s_q : list item; s_tmo : bool; s_user : upc; s_h : list hpc; s_th : list tpc; s_log : list res }.
Inductive act :=
| ACall (tmo : bool)               (* recv_packet *)
| AUser (exp : bool)               (* next step of the receiving thread; is its time over? *)
| AHandler                         (* next step of the latest handler *)
| ASig                             (* SIGINT *)
| AThread (k : nat) (n : nat) (got : bool).  (* next step of a capture thread; the packet it gets, if any *)

(** Who holds the lock. *)
Definition held (u : upc) : bool := match u with UHas | UGot _ | UNone => true | _ => false end.
(** Condition.notify. *)
Definition notify (u : upc) : upc := match u with UWait _ => UWait true | u => u end.
Definition put (x : item) (s : st) : st := mkS (s_run s) (s_q s ++ [x]) (s_tmo s) (notify (s_user s)) (s_h s) (s_th s) (s_log s).
Definition user (u : upc) (q : list item) (s : st) : st := mkS (s_run s) q (s_tmo s) u (s_h s) (s_th s) (s_log s).
Definition ends (r : res) (s : st) : st := mkS (s_run s) (s_q s) (s_tmo s) UOut (s_h s) (s_th s) (s_log s ++ [r]).
Definition handlers (h : list hpc) (s : st) : st := mkS (s_run s) (s_q s) (s_tmo s) (s_user s) h (s_th s) (s_log s).
Definition threads (l : list tpc) (s : st) : st := mkS (s_run s) (s_q s) (s_tmo s) (s_user s) (s_h s) l (s_log s).
Fixpoint set_nth {A} (k : nat) (x : A) (l : list A) : list A :=
  match l, k with [], _ => [] | _ :: l, O => x :: l | y :: l, S k => y :: set_nth k x l end.

(** Queue.get within recv_packet (llnetreal.py:223-240). *)
Definition user_step (exp : bool) (s : st) : st :=
  match s_user s with
  | UOut => s
  | UAcq => user UHas (s_q s) s
  | UHas =>
      match s_q s with
      | x :: q => user (UGot x) q s
      | [] => if s_tmo s && exp then user UNone [] s else user (UWait false) [] s
      end
  | UWait woken => if woken || (s_tmo s && exp) then user UAcq (s_q s) s else s
  | UGot x => user (UTest (Some x)) (s_q s) s
  | UNone => user (UTest None) (s_q s) s
  | UTest x =>
      if s_run s then
        match x with
        | None => ends RNoPackets s
        | Some (Some n) => ends (RPkt n) s
        | Some None => user UAcq (s_q s) s          (* no decoder for None: the loop goes on *)
        end
      else ends RShutdown s
  end.
(** _sig_handler (llnetreal.py:179-189). *)
Definition handler_step (s : st) : st :=
  if held (s_user s) then s
  else match s_h s with
       | [] => s
       | HSize :: h => match s_q s with [] => handlers (HPut :: h) s | _ => handlers h s end
       | HPut :: h => put None (handlers h s)
       end.
(** _low_level_dispatch (llnetreal.py:192-210). *)
Definition thread_step (k n : nat) (got : bool) (s : st) : st :=
  match nth_error (s_th s) k with
  | Some TTop => threads (set_nth k (if s_run s then TRecv else TDone) (s_th s)) s
  | Some TRecv => threads (set_nth k (if got then THas n else TTop) (s_th s)) s
  | Some (THas m) => if held (s_user s) then s else put (Some m) (threads (set_nth k TTop (s_th s)) s)
  | _ => s
  end.
Definition step (s : st) (a : act) : st :=
  match a with
  | ACall tmo => match s_user s, s_h s with UOut, [] => mkS (s_run s) (s_q s) tmo UAcq [] (s_th s) (s_log s) | _, _ => s end
  | AUser exp => match s_h s with [] => user_step exp s | _ => s end
  | AHandler => handler_step s
  | ASig => mkS false (s_q s) (s_tmo s) (s_user s) (HSize :: s_h s) (s_th s) (s_log s)
  | AThread k n got => thread_step k n got s
  end.
Definition run (s : st) (l : list act) : st := fold_left step l s.
(** __init__ (llnetreal.py:36-61). *)
Definition start (devs : nat) : st := mkS true [] false UOut [] (repeat TTop devs) [].
