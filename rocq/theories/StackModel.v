(** The UDP stack of the examples, examples/udpstack.py (5-63), on top of packets (PacketModel.v, FieldModel.v), interfaces
    (NetModel.v, SendModel.v) and emulated sockets (SockModel.v).

    Simplified: the addresses of an interface come in the order they were assigned (Python: a set, any order); the data an
    application sends are bytes; log messages are written or not, which makes no difference, but their text is always put
    together.  What the network object and the applications answer in each round of the loop is an input. *)
From Verif Require Import Base Enums EthModel EthAddrModel Ipv4Model TransportModel PacketModel FieldModel NetModel SendModel TestModel SockModel.
#[local] Open Scope list_scope.

(** The first loopback interface (8-13). *)
Fixpoint loop_if (l : list port) : res iface :=
  match l with [] => Err EExc | (i, t) :: r => if is_loop t then Ok i else loop_if r end.
(** Its first IPv4 address (44). *)
Fixpoint src4 (l : list ipif) : res bytes :=
  match l with [] => Err EIndex | a :: r => if Nat.eqb (List.length (fst a)) 4 then Ok (fst a) else src4 r end.
(** The packet handle_app_data makes (38-47). *)
Definition app_packet (i : iface) (f : flow) (d : bytes) : res packet :=
  let '(proto, srcip, srcport, dstip, dstport) := f in
  s <- src4 (if_ips i);;
  ip <- new_kw CIp4 [(FProtocol, AInt proto); (FSrc, AIp s); (FDst, AIp dstip); (FIpid, AInt 0xabcd); (FTtl, AInt 64); (FFlags, AInt 2)];;
  u <- new_kw CUdp [(FSrc, AInt srcport); (FDst, AInt dstport)];;
  Ok [HNull 2; ip; u; HRaw d].
(** What handle_network_data (50-63) hands to send_to_app: local address, remote address, data. *)
Record delivery := mkDel { dl_proto : Z; dl_local : endpoint; dl_remote : endpoint; dl_data : bytes }.
(** handle_network_data: pkt[ipidx+1] (61) raises IndexError when nothing follows; pkt[1:] (63) does always
    (packet.py:187-197); get_header answers None when there is no UDP header (57); only raw contents have [data] (59). *)
Definition net_data (p : packet) : res (option delivery) :=
  if pkt_shows p then
    if pkt_has p CIp4 then
      i <- pkt_index p CIp4 0;;
      h <- pkt_get p i;;
      match h with
      | HIp4 ip =>
          if ip_proto ip =? ipUDP then
            match pkt_get_header p CUdp with
            | Some (HUdp u) =>
                l <- pkt_get p (-1);;
                match l with
                | HRaw d => Ok (Some (mkDel ipUDP (ip_dst ip, udp_dst u) (ip_src ip, udp_src u) d))
                | _ => Err EAttr
                end
            | _ => Err EAttr
            end
          else if ip_proto ip =? ipICMP then _ <- pkt_get p (i + 1);; Ok None
          else Err EIndex
      | _ => Err EAttr
      end
    else Ok None
  else Err EAttr.

(** One round of the loop (15-34): data from an application, whether sending raises an exception, the answer of the network. *)
Inductive netans := NGot (r : recvd) | NNothing | NShutdown | NFail (e : exn).
Record round := mkRound { r_app : option (flow * bytes); r_fail : option exn; r_net : netans }.
Inductive outp := OSend (i : iface) (p : packet) | ODeliver (d : delivery) | OClose.
(** [None]: still running. *)
Fixpoint stack_loop (i : iface) (l : list round) : list outp * option (res unit) :=
  match l with
  | [] => ([], None)
  | r :: l =>
      let net :=
        match r_net r with
        | NGot x =>
            match net_data (rv_pkt x) with
            | Err e => ([], Some (Err e))
            | Ok None => stack_loop i l
            | Ok (Some d) => let '(o, e) := stack_loop i l in (ODeliver d :: o, e)
            end
        | NNothing => stack_loop i l
        | NShutdown => ([OClose], Some (Ok tt))
        | NFail e => ([], Some (Err e))
        end in
      match r_app r with
      | None => net
      | Some (f, d) =>
          match app_packet i f d with
          | Err e => ([], Some (Err e))
          | Ok p => match r_fail r with Some e => ([OSend i p], Some (Err e)) | None => let '(o, e) := net in (OSend i p :: o, e) end
          end
      end
  end.
(** main (5-36). *)
Definition stack (ports : list port) (l : list round) : list outp * option (res unit) :=
  match loop_if ports with Err e => ([], Some (Err e)) | Ok i => stack_loop i l end.
(** The call send_to_app makes of it (58-59). *)
Definition deliver_op (d : delivery) : sop :=
  SDeliver (dl_proto d) (mkAddr (Some (fst (dl_local d))) (PInt (snd (dl_local d)))) (mkAddr (Some (fst (dl_remote d))) (PInt (snd (dl_remote d)))) (dl_data d).
