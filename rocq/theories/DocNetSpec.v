(** What the programs of the documentation are supposed to do (C127). *)
From Verif Require Import Base Dict EthAddrModel EthModel PacketModel NetModel TestModel TestSpec HubSpec.
#[local] Open Scope list_scope.

(** The packets among those received that came in on another port, in order. *)
Definition from_elsewhere (port : str) (rs : list recvd) : list packet := flat_map (fun r => if String.string_dec (rv_dev r) port then [] else [rv_pkt r]) rs.
(** Whenever the program asks for the next packet, everything that came in elsewhere has gone out of this port, unchanged, once
    and in order. *)
Definition spread (port : str) (tr : list (call * answer)) : Prop :=
  forall pre x post, tr = pre ++ (CRecv, x) :: post -> sent_to port pre = from_elsewhere port (received_in pre).
(** Scripts that describe an echo: frames that arrive, each followed by one output event expecting it, as it is read when
    received, on the same port; and timeouts. *)
Inductive echo_script (ports : list str) : list event -> Prop :=
| es_nil : echo_script ports []
| es_timeout n es : echo_script ports es -> echo_script ports (EvTimeout n :: es)
| es_back dev p q m es : In dev ports -> reads_as p q -> meets m q -> echo_script ports es -> echo_script ports (EvIn dev p :: EvOut (mkOut [(dev, m)] []) :: es).
(** Scripts that describe a hub that passes on everything: frames that arrive, each followed, when there are other ports, by one
    output event expecting it on each of them; and timeouts. *)
Inductive spread_script (ports : list str) : list event -> Prop :=
| ss_nil : spread_script ports []
| ss_timeout n es : spread_script ports es -> spread_script ports (EvTimeout n :: es)
| ss_alone dev p q es : In dev ports -> reads_as p q -> (forall d, In d ports -> d = dev) -> spread_script ports es -> spread_script ports (EvIn dev p :: es)
| ss_pass dev p q o es : In dev ports -> reads_as p q -> oe_wait o <> [] -> NoDup (dkeys (oe_wait o)) ->
    (forall d, In d (dkeys (oe_wait o)) <-> d <> dev /\ In d ports) -> (forall d m, In (d, m) (oe_wait o) -> meets m q) -> oe_got o = [] ->
    spread_script ports es -> spread_script ports (EvIn dev p :: EvOut o :: es).
(** The source address of the first Ethernet header is another one, everything else is the same. *)
Definition source_changed (mac : bytes) (p q : packet) : Prop :=
  exists pre e post, p = pre ++ HEth e :: post /\ (forall x, ~ In (HEth x) pre) /\ q = pre ++ HEth (mkEth (eth_dst e) mac (eth_type e)) :: post.
