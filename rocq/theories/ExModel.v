(** The remaining example programs that talk to the network object, as programs of TestModel.v: the two-port forwarder
    (examples/exercises/firewall/firewall.py), the sniffer (examples/sniff.py), the switch that does not learn
    (examples/exercises/learning_switch/myswitch.py), the router that does nothing yet (examples/exercises/router/myrouter.py)
    and the packet emitter (examples/sendpkt.py).

    Simplified as in HubModel.v: the text of log messages is always put together, a packet object is not changed by being
    sent, and the loops have fuel ([EFuel]).  net.shutdown() at the end (firewall.py 27, myrouter.py 46, sendpkt.py 28) is the
    end of the program. *)
From Verif Require Import Base Dict EthAddrModel EthModel PacketModel NetModel TestModel HubModel.
#[local] Open Scope list_scope.

(** portpair = dict(zip(portnames, portnames[::-1])) (firewall.py 7). *)
Definition portpair (names : list str) : dict str := fold_left (fun d kv => dset (fst kv) (snd kv) d) (combine names (rev names)) [].
(** main (firewall.py 4-27); [names] are the names of net.ports() (6).  The packet is not printed. *)
Fixpoint forwarder (n : nat) (names : list str) : prog :=
  match n with
  | O => Raise EFuel
  | S n =>
      Call CRecv (fun a =>
        match a with
        | AnsExn ENoPackets => forwarder n names
        | AnsExn EShutdown => Return
        | AnsExn e => Raise e
        | AnsSent => Raise EType                 (* not an answer to a receive *)
        | AnsRecv r =>
            match dget (rv_dev r) (portpair names) with
            | None => Raise EKey
            | Some out => Call (CSend (DName out) (rv_pkt r)) (fun b => match b with AnsExn e => Raise e | _ => forwarder n names end)
            end
        end)
  end.
(** main (sniff.py 9-25); the message of line 21 contains the packet.  Lines 24-25 are never reached.  router_main (myrouter.py
    18-35) makes the same calls: its message (35) contains the packet as well. *)
Fixpoint sniffer (n : nat) : prog :=
  match n with
  | O => Raise EFuel
  | S n =>
      Call CRecv (fun a =>
        match a with
        | AnsExn ENoPackets => sniffer n
        | AnsExn EShutdown => Return
        | AnsExn e => Raise e
        | AnsSent => Raise EType
        | AnsRecv r => if pkt_shows (rv_pkt r) then sniffer n else Raise EAttr
        end)
  end.
(** The inner loop of the switch (myswitch.py 26-29): unlike the hub it names the interface. *)
Fixpoint flood_names (ifs : list iface) (dev : str) (p : packet) (k : prog) : prog :=
  match ifs with
  | [] => k
  | i :: r =>
      if str_eqb dev (if_name i) then flood_names r dev p k
      else Call (CSend (DName (if_name i)) p) (fun a => match a with AnsExn e => Raise e | _ => flood_names r dev p k end)
  end.
(** main (myswitch.py 10-30).  packet[0] (23) raises IndexError on an empty packet.  Simplified: a first header other than
    Ethernet is taken to raise AttributeError; those that have an attribute dst (IPv4, IPv6, UDP, TCP) are not modelled, and
    no frame read from an Ethernet starts with one. *)
Fixpoint switch (n : nat) (ifs : list iface) : prog :=
  match n with
  | O => Raise EFuel
  | S n =>
      Call CRecv (fun a =>
        match a with
        | AnsExn ENoPackets => switch n ifs
        | AnsExn EShutdown => Return
        | AnsExn e => Raise e
        | AnsSent => Raise EType
        | AnsRecv r =>
            if pkt_shows (rv_pkt r) then
              match rv_pkt r with
              | [] => Raise EIndex
              | HEth e :: _ =>
                  if existsb (fun m => bytes_eqb (eth_dst e) m) (map if_mac ifs) then switch n ifs
                  else flood_names ifs (rv_dev r) (rv_pkt r) (switch n ifs)
              | _ => Raise EAttr
              end
            else Raise EAttr
        end)
  end.
(** main (sendpkt.py 9-28).  For each interface the source addresses of the headers are assigned (19, 22), the first IPv4
    address of the interface (21) is asked for its attribute src, which ipaddress.IPv4Interface does not have (22); without an
    IPv4 address there is no element 0.  Either exception leaves the loop before anything is sent: only sending is inside the
    try statement (24-27). *)
Definition emitter (ifs : list iface) : prog :=
  match ifs with
  | [] => Return
  | i :: _ =>
      match filter (fun a => zlen (fst a) =? 4) (if_ips i) with
      | [] => Raise EIndex
      | _ :: _ => Raise EAttr
      end
  end.
