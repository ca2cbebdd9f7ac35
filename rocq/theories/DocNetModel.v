(** The programs of the documentation that talk to the network object, as programs of TestModel.v: documentation/code/inout1.py,
    inout2.py, intfex.py, inoutloop.py, fullhub.py (failhub5.py is the same file) and baaadhub.py.  (fullhub2.py is examples/myhub.py,
    HubModel.v.)

    Simplified as in HubModel.v and ExModel.v: the text of messages is always put together, a packet object is not changed by
    being sent, the loops have fuel ([EFuel]), and net.shutdown() (fullhub.py 26) is the end of the program. *)
From Verif Require Import Base Dict EthAddrModel EthModel PacketModel NetModel TestModel HubModel ExModel.
#[local] Open Scope list_scope.

(** main (inout1.py 3-6, inout2.py 3-13, intfex.py 3-18, the latter after a message about each interface): one packet; the text
    printed (5; 6-7; 11-12) contains it. *)
Definition echo_once : prog :=
  Call CRecv (fun a =>
    match a with
    | AnsExn e => Raise e
    | AnsSent => Raise EType                     (* not an answer to a receive *)
    | AnsRecv r => if pkt_shows (rv_pkt r) then Call (CSend (DName (rv_dev r)) (rv_pkt r)) (fun b => match b with AnsExn e => Raise e | _ => Return end) else Raise EAttr
    end).
(** main (inoutloop.py 3-16); the message (15) contains the packet. *)
Fixpoint echo (n : nat) : prog :=
  match n with
  | O => Raise EFuel
  | S n =>
      Call CRecv (fun a =>
        match a with
        | AnsExn EShutdown => Return
        | AnsExn ENoPackets => echo n
        | AnsExn e => Raise e
        | AnsSent => Raise EType
        | AnsRecv r => if pkt_shows (rv_pkt r) then Call (CSend (DName (rv_dev r)) (rv_pkt r)) (fun b => match b with AnsExn e => Raise e | _ => echo n end) else Raise EAttr
        end)
  end.
(** main (fullhub.py 3-26): every packet, also one addressed to the hub itself, goes to every other port (21-23), by name. *)
Fixpoint simple_hub (n : nat) (ifs : list iface) : prog :=
  match n with
  | O => Raise EFuel
  | S n =>
      Call CRecv (fun a =>
        match a with
        | AnsExn EShutdown => Return
        | AnsExn ENoPackets => simple_hub n ifs
        | AnsExn e => Raise e
        | AnsSent => Raise EType
        | AnsRecv r => flood_names ifs (rv_dev r) (rv_pkt r) (simple_hub n ifs)
        end)
  end.
(** The source address the wrong hub puts in (baaadhub.py 32), into the first Ethernet header of the packet. *)
Definition sheep : bytes := [186; 186; 186; 186; 186; 186].
Fixpoint with_sheep (p : packet) : packet :=
  match p with
  | [] => []
  | HEth e :: r => HEth (mkEth (eth_dst e) sheep (eth_type e)) :: r
  | h :: r => h :: with_sheep r
  end.
(** main (baaadhub.py 8-33): myhub.py with line 32 added. *)
Fixpoint bad_hub (n : nat) (ifs : list iface) : prog :=
  match n with
  | O => Raise EFuel
  | S n =>
      Call CRecv (fun a =>
        match a with
        | AnsExn ENoPackets => bad_hub n ifs
        | AnsExn EShutdown => Return
        | AnsExn e => Raise e
        | AnsSent => Raise EType
        | AnsRecv r =>
            let p := rv_pkt r in
            if pkt_shows p then
              match pkt_get_header p CEth with
              | Some (HEth e) =>
                  if existsb (fun m => bytes_eqb (eth_dst e) m) (map if_mac ifs) then bad_hub n ifs
                  else flood ifs (rv_dev r) (with_sheep p) (bad_hub n ifs)
              | _ => bad_hub n ifs
              end
            else Raise EAttr
        end)
  end.
