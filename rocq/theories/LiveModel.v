(** switchyard/llnetreal.py: live capture.  One thread per device puts frames on a shared queue; user code takes them off;
    a signal handler and shutdown() stop everything.  Each action is atomic; any interleaving is a list of actions.
    The operations of the queue count as single actions; SigModel.v has a signal that arrives within one. *)
From Verif Require Import Base Enums Dict PacketModel.

(** pcap frames: time stamp in microseconds and bytes (PcapPacket). *)
Definition frame := (Z * bytes)%type.
(** What is put on the queue: device name, link type, frame; [None] is the handler's (None, None, None). *)
Definition item := (string * Z * frame)%type.
(** A capture thread (_low_level_dispatch 192-210): at the loop test, in pcapdev.recv_packet, before the put, finished. *)
Inductive tstate := TTop | TRecv | THas (f : frame) | TDone.
Record thread := mkThread { t_name : string; t_dlt : Z; t_st : tstate }.
(** The user's thread: outside, waiting in Queue.get ([true]: with a timeout), after get, after Empty, in shutdown's join. *)
Inductive user := UIdle | UWant (tmo : bool) | UHold (tmo : bool) (x : option item) | UEmpty | UJoin.
Inductive sigst := SigNo | SigCheck | SigPut.
Record lnet := mkLive { v_run : bool; v_th : list thread; v_q : list (option item); v_user : user; v_sig : sigst; v_closed : bool }.

(** _dlt_to_decoder (27-29): DLT_EN10MB 1, DLT_NULL 0. *)
Definition decoder (dlt : Z) : option hcls := if dlt =? 1 then Some CEth else if dlt =? 0 then Some CNull else None.

Inductive lres :=
| LNone                                          (* not possible now *)
| LCap (name : string) (f : frame)               (* a frame was captured *)
| LPkt (name : string) (f : frame) (p : packet)  (* recv_packet returned time stamp [fst f], port [name], packet [p] *)
| LBad (name : string) (f : frame) (e : exn)     (* recv_packet raised the exception of the decoder *)
| LSkip (name : string) (f : frame)              (* unknown link type: dropped, receive goes on *)
| LShutdown (dropped : option item)              (* recv_packet raised Shutdown *)
| LNoPackets
| LDone.
Inductive lact :=
| LThread (d : nat) (o : option frame)  (* next step of thread d; [o] is what pcap has for it *)
| LCall (tmo : bool)                    (* recv_packet, with or without a timeout *)
| LUser                                 (* next step of the user's thread *)
| LShut                                 (* shutdown() *)
| LSignal                               (* SIGINT arrives *)
| LHandler.                             (* next step of the handler *)

Definition set_th (d : nat) (t : thread) (n : lnet) : lnet :=
  mkLive (v_run n) (firstn d (v_th n) ++ t :: skipn (S d) (v_th n)) (v_q n) (v_user n) (v_sig n) (v_closed n).
Definition set_q (q : list (option item)) (n : lnet) : lnet := mkLive (v_run n) (v_th n) q (v_user n) (v_sig n) (v_closed n).
Definition set_user (u : user) (n : lnet) : lnet := mkLive (v_run n) (v_th n) (v_q n) u (v_sig n) (v_closed n).
Definition set_sig (s : sigst) (n : lnet) : lnet := mkLive (v_run n) (v_th n) (v_q n) (v_user n) s (v_closed n).
Definition stop_run (n : lnet) : lnet := mkLive false (v_th n) (v_q n) (v_user n) (v_sig n) (v_closed n).
Definition close_all (n : lnet) : lnet := mkLive (v_run n) (v_th n) (v_q n) (v_user n) (v_sig n) true.

(** _low_level_dispatch (192-210); closing statistics omitted. *)
Definition thread_step (d : nat) (o : option frame) (n : lnet) : lnet * lres :=
  match nth_error (v_th n) d with
  | None => (n, LNone)
  | Some t =>
      match t_st t with
      | TTop => (set_th d (mkThread (t_name t) (t_dlt t) (if v_run n then TRecv else TDone)) n, LDone)
      | TRecv => match o with
                 | None => (set_th d (mkThread (t_name t) (t_dlt t) TTop) n, LDone)
                 | Some f => (set_th d (mkThread (t_name t) (t_dlt t) (THas f)) n, LCap (t_name t) f)
                 end
      | THas f => (set_q (v_q n ++ [Some (t_name t, t_dlt t, f)]) (set_th d (mkThread (t_name t) (t_dlt t) TTop) n), LDone)
      | TDone => (n, LNone)
      end
  end.
Definition done (t : thread) : bool := match t_st t with TDone => true | _ => false end.
(** recv_packet (212-240) and the end of shutdown (82-89). *)
Definition user_step (n : lnet) : lnet * lres :=
  match v_user n with
  | UIdle => (n, LNone)
  | UWant tmo =>
      match v_q n with
      | x :: q => (set_user (UHold tmo x) (set_q q n), LDone)
      | [] => if tmo then (set_user UEmpty n, LDone) else (n, LNone)
      end
  | UHold tmo x =>
      if v_run n then
        match x with
        | Some (name, dlt, f) =>
            match decoder dlt with
            | None => (set_user (UWant tmo) n, LSkip name f)
            | Some c => match pkt_new (snd f) c with
                        | Ok p => (set_user UIdle n, LPkt name f p)
                        | Err e => (set_user UIdle n, LBad name f e)
                        end
            end
        | None => (set_user (UWant tmo) n, LDone)
        end
      else (set_user UIdle n, LShutdown x)
  | UEmpty => (set_user UIdle n, if v_run n then LNoPackets else LShutdown None)
  | UJoin => if forallb done (v_th n) then (close_all (set_user UIdle n), LDone) else (n, LNone)
  end.
Definition l_step (n : lnet) (a : lact) : lnet * lres :=
  match a with
  | LThread d o => thread_step d o n
  | LCall tmo => match v_user n with UIdle => (set_user (UWant tmo) n, LDone) | _ => (n, LNone) end
  | LUser => user_step n
  (** shutdown (71-80) *)
  | LShut => match v_user n with UIdle => if v_run n then (set_user UJoin (stop_run n), LDone) else (n, LDone) | _ => (n, LNone) end
  (** _sig_handler (179-189) *)
  | LSignal => match v_sig n with SigNo => (set_sig SigCheck (stop_run n), LDone) | _ => (n, LNone) end
  | LHandler => match v_sig n with
                | SigNo => (n, LNone)
                | SigCheck => (set_sig (match v_q n with [] => SigPut | _ => SigNo end) n, LDone)
                | SigPut => (set_sig SigNo (set_q (v_q n ++ [None]) n), LDone)
                end
  end.
Fixpoint l_run (n : lnet) (l : list lact) : lnet * list lres :=
  match l with [] => (n, []) | a :: t => let '(n1, r) := l_step n a in let '(n2, log) := l_run n1 t in (n2, r :: log) end.
(** __init__ (36-61): a thread for each device. *)
Definition l_start (devs : list (string * Z)) : lnet := mkLive true (map (fun x => mkThread (fst x) (snd x) TTop) devs) [] UIdle SigNo false.
