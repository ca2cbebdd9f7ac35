(** The programs of the documentation that are meant to fail their tests, as programs of TestModel.v: documentation/code/failhub1.py
    to failhub4.py and failhub6.py to failhub8.py (failhub5.py is fullhub.py, DocNetModel.v); and enterdebugger.py, which only listens.

    Simplified as in DocNetModel.v: the packet is a value, so that the changes the program makes to it are not seen by the event
    that handed it over (the object the code hands over is kept by that event and printed at the end). *)
From Verif Require Import Base Dict EthAddrModel EthModel TransportModel PacketModel NetModel TestModel.
#[local] Open Scope string_scope.
#[local] Open Scope list_scope.

(** Lines 4-5 of all of them: one packet, printed; then what is left to do with it. *)
Definition one_packet (act : packet -> prog) : prog :=
  Call CRecv (fun a =>
    match a with
    | AnsExn e => Raise e
    | AnsSent => Raise EType                     (* not an answer to a receive *)
    | AnsRecv r => if pkt_shows (rv_pkt r) then act (rv_pkt r) else Raise EAttr
    end).
(** A packet is changed, or that raises an exception, and is sent to 'eth0'. *)
Definition change_and_send (f : packet -> res packet) : prog :=
  one_packet (fun p => match f p with Err e => Raise e | Ok q => Call (CSend (DName "eth0") q) (fun b => match b with AnsExn e => Raise e | _ => Return end) end).
(** main (failhub1.py 3-6). *)
Definition fail1 : prog := change_and_send (fun p => Ok p).
(** main (failhub2.py 3-6). *)
Definition fail2 : prog := one_packet (fun _ => Return).
(** main (failhub3.py 3-6): a second packet is asked for. *)
Definition fail3 : prog := one_packet (fun _ => Call CRecv (fun b => match b with AnsExn e => Raise e | _ => Return end)).
(** main (failhub4.py 3-6): net has no such method. *)
Definition fail4 : prog := one_packet (fun _ => Raise EAttr).
(** packet[Ethernet].src = "ba:aa:aa:ba:aa:aa" (failhub6.py 6): KeyError without an Ethernet header (packet.py 194-198). *)
Definition new_source : bytes := [186; 170; 170; 186; 170; 170].
Fixpoint set_source (p : packet) : res packet :=
  match p with
  | [] => Err EKey
  | HEth e :: r => Ok (HEth (mkEth (eth_dst e) new_source (eth_type e)) :: r)
  | h :: r => r' <- set_source r;; Ok (h :: r')
  end.
(** main (failhub6.py 3-7). *)
Definition fail6 : prog := change_and_send set_source.
(** main (failhub7.py 3-7): packet[-1] = TCP(). *)
Definition fail7 : prog := change_and_send (fun p => pkt_set p (-1) (HTcp tcp_new)).
(** main (failhub8.py 3-7): del packet[-1]. *)
Definition fail8 : prog := change_and_send (fun p => pkt_del p (-1)).
(** main (enterdebugger.py 3-21): listens, stops in the debugger at each packet (16; a session that just goes on), counts its headers
    (17), and sends nothing.  net.shutdown() (21) is the end of the program.  The alarm, which the code ignores once the debugger has
    been entered (debugging.py 6-9, testing.py 726-741), can still strike here. *)
Fixpoint watch (n : nat) : prog :=
  match n with
  | O => Raise EFuel
  | S n =>
      Call CRecv (fun a =>
        match a with
        | AnsExn ENoPackets => watch n
        | AnsExn EShutdown => Return
        | AnsExn e => Raise e
        | AnsSent => Raise EType
        | AnsRecv _ => watch n
        end)
  end.
