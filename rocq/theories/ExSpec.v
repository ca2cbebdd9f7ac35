(** What the example programs are supposed to do (C123). *)
From Verif Require Import Base Dict EthAddrModel EthModel PacketModel NetModel TestModel TestSpec HubSpec.
#[local] Open Scope list_scope.

(** The packets among those received that came in on a port, in order. *)
Definition packets_from (port : str) (rs : list recvd) : list packet := flat_map (fun r => if String.string_dec (rv_dev r) port then [rv_pkt r] else []) rs.
(** What comes in on one port has gone out, unchanged, once and in order, on the other: at the end, and whenever the program
    asks for the next packet. *)
Definition carried (port other : str) (tr : list (call * answer)) : Prop :=
  sent_to other tr = packets_from port (received_in tr) /\
  forall pre x post, tr = pre ++ (CRecv, x) :: post -> sent_to other pre = packets_from port (received_in pre).
(** The program stops when the network is shut down, and otherwise only by an exception; the only answer it carries on after
    that is an exception is that there are no packets. *)
Definition stops_right (tr : list (call * answer)) (e : ending) : Prop :=
  (e = EndReturn <-> exists pre, tr = pre ++ [(CRecv, AnsExn EShutdown)]) /\
  forall pre c x post, tr = pre ++ (c, AnsExn x) :: post -> c = CRecv /\ x = ENoPackets \/ post = [] /\ (c = CRecv /\ x = EShutdown \/ e = EndRaise x).
(** Scripts that describe a wire between two ports: frames that arrive, each followed by one output event expecting it, as it
    is read when received, on the other port; and timeouts. *)
Inductive wire_script (a b : str) : list event -> Prop :=
| ws_nil : wire_script a b []
| ws_timeout n es : wire_script a b es -> wire_script a b (EvTimeout n :: es)
| ws_pass dev out p q m es : dev = a /\ out = b \/ dev = b /\ out = a -> reads_as p q -> meets m q -> wire_script a b es ->
    wire_script a b (EvIn dev p :: EvOut (mkOut [(out, m)] []) :: es).
(** Scripts in which nothing is expected to be sent. *)
Inductive quiet_script (ports : list str) : list event -> Prop :=
| qs_nil : quiet_script ports []
| qs_timeout n es : quiet_script ports es -> quiet_script ports (EvTimeout n :: es)
| qs_in dev p q es : In dev ports -> reads_as p q -> quiet_script ports es -> quiet_script ports (EvIn dev p :: es).
(** A packet that starts with an Ethernet header. *)
Definition starts_eth (p : packet) : Prop := exists e rest, p = HEth e :: rest.
