(** What a hub does (C120). *)
From Verif Require Import Base Dict EthAddrModel EthModel PacketModel NetModel TestModel TestSpec.
#[local] Open Scope list_scope.

(** Calls made by a program and the answers it got, whatever it was talking to, up to its end. *)
Inductive talk : prog -> list (call * answer) -> ending -> Prop :=
| talk_return : talk Return [] EndReturn
| talk_raise e : talk (Raise e) [] (EndRaise e)
| talk_call c k a tr e : talk (k a) tr e -> talk (Call c k) ((c, a) :: tr) e.
(** The packets received, in order. *)
Definition received_in (tr : list (call * answer)) : list recvd := flat_map (fun x => match x with (CRecv, AnsRecv r) => [r] | _ => [] end) tr.
(** The packets sent to a device, in order. *)
Definition sent_to (name : str) (tr : list (call * answer)) : list packet :=
  flat_map (fun x => match x with (CSend (DIface i) p, _) => if String.string_dec (if_name i) name then [p] else [] | (CSend (DName n) p, _) => if String.string_dec n name then [p] else [] | _ => [] end) tr.
(** Frames a hub with these interfaces passes on: those that are not addressed to one of them. *)
Definition passes_on (ifs : list iface) (p : packet) : Prop :=
  exists pre e post, p = pre ++ HEth e :: post /\ (forall x, ~ In (HEth x) pre) /\ forall i, In i ifs -> eth_dst e <> if_mac i.
(** The packets that should go out of a device: those that came in elsewhere and are passed on. *)
Inductive to_send (ifs : list iface) (name : str) : list recvd -> list packet -> Prop :=
| ts_nil : to_send ifs name [] []
| ts_pass r rs ps : rv_dev r <> name -> passes_on ifs (rv_pkt r) -> to_send ifs name rs ps -> to_send ifs name (r :: rs) (rv_pkt r :: ps)
| ts_not r rs ps : rv_dev r = name \/ ~ passes_on ifs (rv_pkt r) -> to_send ifs name rs ps -> to_send ifs name (r :: rs) ps.
(** Scripts that describe a hub: frames that arrive, each followed, when it is to be passed on and there are other
    interfaces, by one output event expecting it, as it is read when received, on each of them; and timeouts. *)
Inductive hub_script (ifs : list iface) : list event -> Prop :=
| hs_nil : hub_script ifs []
| hs_timeout n es : hub_script ifs es -> hub_script ifs (EvTimeout n :: es)
| hs_keep dev p q es : In dev (map if_name ifs) -> reads_as p q -> ~ passes_on ifs q \/ (forall i, In i ifs -> if_name i = dev) -> hub_script ifs es -> hub_script ifs (EvIn dev p :: es)
| hs_pass dev p q o es : In dev (map if_name ifs) -> reads_as p q -> passes_on ifs q -> oe_wait o <> [] -> NoDup (dkeys (oe_wait o)) ->
    (forall d, In d (dkeys (oe_wait o)) <-> d <> dev /\ In d (map if_name ifs)) -> (forall d m, In (d, m) (oe_wait o) -> meets m q) -> oe_got o = [] ->
    hub_script ifs es -> hub_script ifs (EvIn dev p :: EvOut o :: es).
