(** What a UDP stack does (C121). *)
From Verif Require Import Base Enums EthModel EthAddrModel Ipv4Model TransportModel PacketModel NetModel SendModel TestModel SockModel StackModel.
#[local] Open Scope list_scope.

(** The first element of a list with a property. *)
Definition first_with {A} (P : A -> Prop) (l : list A) (x : A) : Prop := exists a b, l = a ++ x :: b /\ P x /\ forall y, In y a -> ~ P y.
Definition is_ip (h : hdr) : Prop := exists x, h = HIp4 x.
Definition is_udp (h : hdr) : Prop := exists x, h = HUdp x.
(** Packets by what they are for the stack: a UDP datagram over IPv4 with data, *)
Definition datagram (p : packet) (d : delivery) : Prop := exists ip u a data,
  first_with is_ip p (HIp4 ip) /\ ip_proto ip = 17 /\ first_with is_udp p (HUdp u) /\ p = a ++ [HRaw data] /\ d = mkDel 17 (ip_dst ip, udp_dst u) (ip_src ip, udp_src u) data.
(** something to be ignored: no IPv4, or ICMP with contents. *)
Definition ignored (p : packet) : Prop :=
  (forall x, ~ In (HIp4 x) p) \/ exists ip a h b, p = a ++ HIp4 ip :: h :: b /\ (forall x, ~ In (HIp4 x) a) /\ ip_proto ip = 1.

(** The packets sent and the datagrams handed over, in order. *)
Definition sends (o : list outp) : list (iface * packet) := flat_map (fun x => match x with OSend i p => [(i, p)] | _ => [] end) o.
Definition handed (o : list outp) : list delivery := flat_map (fun x => match x with ODeliver d => [d] | _ => [] end) o.
(** A history without trouble up to the shutdown (or without one): applications send [ms], the network brings [ps]. *)
Inductive quiet : list round -> list (flow * bytes) -> list packet -> bool -> Prop :=
| q_nil : quiet [] [] [] false
| q_stop a l : quiet (mkRound a None NShutdown :: l) (match a with Some m => [m] | None => [] end) [] true
| q_none a l ms ps b : quiet l ms ps b -> quiet (mkRound a None NNothing :: l) (match a with Some m => m :: ms | None => ms end) ps b
| q_got a r l ms ps b : quiet l ms ps b -> quiet (mkRound a None (NGot r) :: l) (match a with Some m => m :: ms | None => ms end) (rv_pkt r :: ps) b.
(** The datagrams among packets all of which are understood. *)
Inductive datagrams : list packet -> list delivery -> Prop :=
| dg_nil : datagrams [] []
| dg_one p d ps ds : datagram p d -> datagrams ps ds -> datagrams (p :: ps) (d :: ds)
| dg_skip p ps ds : ignored p -> datagrams ps ds -> datagrams (p :: ps) ds.
