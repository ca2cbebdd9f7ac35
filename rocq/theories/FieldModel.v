(** Attribute access on header objects: the properties (getters and setters) of Vlan, Ethernet
    (ethernet.py:52-70, 116-140), Arp (arp.py:75-122), IPv4 (ipv4.py:454-560), IPv6 (ipv6.py:549-604), UDP
    (udp.py:53-75) and TCP (tcp.py:148-307), and the keyword constructor PacketHeaderBase.__init__
    (packet.py:252-254).  The classes define __slots__ (and so does their base), so assigning an attribute that is
    not a settable property raises AttributeError. *)
From Verif Require Import Base EthAddrModel Enums EthModel ArpModel Ipv4Model TransportModel Ipv6Model PacketModel.

(** The nine TCP flag properties (tcp.py:237-307), with the TCPFlags values of tcp.py:56-65. *)
Inductive tcpbit := FIN | SYN | RST | PSH | ACK | URG | ECE | CWR | NS.
Definition bit_no (b : tcpbit) : Z :=
  match b with FIN => 0 | SYN => 1 | RST => 2 | PSH => 3 | ACK => 4 | URG => 5 | ECE => 6 | CWR => 7 | NS => 8 end.

(** Attribute names. *)
Inductive fld :=
| FSrc | FDst | FEthertype | FVlanid | FPcp
| FOperation | FSenderHw | FSenderProto | FTargetHw | FTargetProto | FHwType | FProtoType
| FTtl | FTos | FDscp | FEcn | FIpid | FProtocol | FFlags | FFragOff | FTotalLen | FHl
| FTrafficClass | FFlowLabel | FNextHeader | FHopLimit
| FSeq | FAck | FWindow | FUrg | FOffset | FChecksum | FLength
| FBit (b : tcpbit).

(** Values a caller assigns: an integer (or enumeration member), a boolean, an argument of the EthAddr
    constructor, an IP address in packed form (bytes). *)
Inductive aval := AInt (z : Z) | ABool (b : bool) | AHw (x : etharg) | AIp (b : bytes).
(** Values a caller reads. *)
Inductive gval := GInt (z : Z) | GBool (b : bool) | GHw (a : ethaddr) | GIp (a : ipaddr).

(** Reading an attribute; None: the object has no such attribute (AttributeError).  IPv4.checksum is computed from
    the whole header when read and is not part of this table. *)
Definition get (h : hdr) (a : fld) : option gval :=
  match h with
  | HEth e =>
      match a with
      | FSrc => Some (GHw (eth_src e)) | FDst => Some (GHw (eth_dst e)) | FEthertype => Some (GInt (eth_type e))
      | _ => None
      end
  | HVlan v =>
      match a with
      | FVlanid => Some (GInt (vl_id v)) | FPcp => Some (GInt (vl_pcp v)) | FEthertype => Some (GInt (vl_type v))
      | _ => None
      end
  | HArp p =>
      match a with
      | FHwType => Some (GInt (arp_hwtype p)) | FProtoType => Some (GInt (arp_prototype p))
      | FOperation => Some (GInt (arp_op p))
      | FSenderHw => Some (GHw (arp_shw p)) | FSenderProto => Some (GIp (arp_sproto p))
      | FTargetHw => Some (GHw (arp_thw p)) | FTargetProto => Some (GIp (arp_tproto p))
      | _ => None
      end
  | HIp4 i =>
      match a with
      | FTotalLen => Some (GInt (ip_totlen i)) | FTtl => Some (GInt (ip_ttl i)) | FTos => Some (GInt (ip_tos i))
      | FDscp => Some (GInt (ip_dscp i)) | FEcn => Some (GInt (ip_ecn i)) | FIpid => Some (GInt (ip_id i))
      | FProtocol => Some (GInt (ip_proto i)) | FSrc => Some (GIp (ip_src i)) | FDst => Some (GIp (ip_dst i))
      | FFlags => Some (GInt (ip_flags i)) | FFragOff => Some (GInt (ip_frag i))
      | _ => None
      end
  | HIp6 i =>
      match a with
      | FTrafficClass => Some (GInt (v6_tc i)) | FFlowLabel => Some (GInt (v6_flow i))
      | FNextHeader => Some (GInt (v6_nh i)) | FTtl => Some (GInt (v6_ttl i)) | FHopLimit => Some (GInt (v6_ttl i))
      | FSrc => Some (GIp (v6_src i)) | FDst => Some (GIp (v6_dst i))
      | _ => None
      end
  | HUdp u =>
      match a with
      | FSrc => Some (GInt (udp_src u)) | FDst => Some (GInt (udp_dst u))
      | FChecksum => Some (GInt (udp_csum u)) | FLength => Some (GInt (udp_len u))
      | _ => None
      end
  | HTcp t =>
      match a with
      | FOffset => Some (GInt (tcp_offset t)) | FSrc => Some (GInt (tcp_src t)) | FDst => Some (GInt (tcp_dst t))
      | FSeq => Some (GInt (tcp_seq t)) | FAck => Some (GInt (tcp_ack t)) | FWindow => Some (GInt (tcp_window t))
      | FChecksum => Some (GInt (tcp_csum t)) | FFlags => Some (GInt (tcp_flags t))
      | FUrg => Some (GInt (tcp_urg t)) | FBit b => Some (GBool (tcp_isset (tcp_flags t) (bit_no b)))
      | _ => None
      end
  | _ => None
  end.

(** IPv6 setters (ipv6.py:553-604); IPv6Address(b) wants exactly sixteen bytes (AddressValueError, a ValueError). *)
Definition v6_addr (b : bytes) : res bytes := if Nat.eqb (length b) 16 then Ok b else Err EValue.
Definition v6_set_tc (v : Z) (i : ipv6) : ipv6 :=
  mkIp6 v (v6_flow i) (v6_ttl i) (v6_nh i) (v6_plen i) (v6_src i) (v6_dst i).
Definition v6_set_flow (v : Z) (i : ipv6) : ipv6 :=
  mkIp6 (v6_tc i) v (v6_ttl i) (v6_nh i) (v6_plen i) (v6_src i) (v6_dst i).
Definition v6_set_nh (v : Z) (i : ipv6) : res ipv6 :=
  p <- enum_of IPProtocols v;; Ok (mkIp6 (v6_tc i) (v6_flow i) (v6_ttl i) p (v6_plen i) (v6_src i) (v6_dst i)).
Definition v6_set_ttl (v : Z) (i : ipv6) : ipv6 :=
  mkIp6 (v6_tc i) (v6_flow i) v (v6_nh i) (v6_plen i) (v6_src i) (v6_dst i).
Definition v6_set_src (b : bytes) (i : ipv6) : res ipv6 :=
  a <- v6_addr b;; Ok (mkIp6 (v6_tc i) (v6_flow i) (v6_ttl i) (v6_nh i) (v6_plen i) a (v6_dst i)).
Definition v6_set_dst (b : bytes) (i : ipv6) : res ipv6 :=
  a <- v6_addr b;; Ok (mkIp6 (v6_tc i) (v6_flow i) (v6_ttl i) (v6_nh i) (v6_plen i) (v6_src i) a).

(** UDP setters (udp.py:61-67): no checks. *)
Definition udp_set_src (v : Z) (u : udp) : udp := mkUdp v (udp_dst u) (udp_len u) (udp_csum u).
Definition udp_set_dst (v : Z) (u : udp) : udp := mkUdp (udp_src u) v (udp_len u) (udp_csum u).

(** TCP setters (tcp.py:160-218, 230-307): no checks. *)
Definition tcp_set_src (v : Z) (t : tcp) : tcp :=
  mkTcp v (tcp_dst t) (tcp_seq t) (tcp_ack t) (tcp_flags t) (tcp_window t) (tcp_urg t) (tcp_len t) (tcp_csum t).
Definition tcp_set_dst (v : Z) (t : tcp) : tcp :=
  mkTcp (tcp_src t) v (tcp_seq t) (tcp_ack t) (tcp_flags t) (tcp_window t) (tcp_urg t) (tcp_len t) (tcp_csum t).
Definition tcp_set_seq (v : Z) (t : tcp) : tcp :=
  mkTcp (tcp_src t) (tcp_dst t) v (tcp_ack t) (tcp_flags t) (tcp_window t) (tcp_urg t) (tcp_len t) (tcp_csum t).
Definition tcp_set_ack (v : Z) (t : tcp) : tcp :=
  mkTcp (tcp_src t) (tcp_dst t) (tcp_seq t) v (tcp_flags t) (tcp_window t) (tcp_urg t) (tcp_len t) (tcp_csum t).
Definition tcp_set_window (v : Z) (t : tcp) : tcp :=
  mkTcp (tcp_src t) (tcp_dst t) (tcp_seq t) (tcp_ack t) (tcp_flags t) v (tcp_urg t) (tcp_len t) (tcp_csum t).
Definition tcp_set_urg (v : Z) (t : tcp) : tcp :=
  mkTcp (tcp_src t) (tcp_dst t) (tcp_seq t) (tcp_ack t) (tcp_flags t) (tcp_window t) v (tcp_len t) (tcp_csum t).
Definition tcp_set_bit (b : tcpbit) (v : bool) (t : tcp) : tcp :=
  mkTcp (tcp_src t) (tcp_dst t) (tcp_seq t) (tcp_ack t) (tcp_setflag (tcp_flags t) (bit_no b) v) (tcp_window t)
        (tcp_urg t) (tcp_len t) (tcp_csum t).

(** Assigning an attribute.  A settable attribute given a value of a kind it is not meant for gets EType here; the
    Python setters of UDP and TCP would store it, which the claims about [set] never use. *)
Definition set (h : hdr) (a : fld) (v : aval) : res hdr :=
  match h with
  | HEth e =>
      match a, v with
      | FSrc, AHw x => e' <- eth_set_src x e;; Ok (HEth e')
      | FDst, AHw x => e' <- eth_set_dst x e;; Ok (HEth e')
      | FEthertype, AInt z => e' <- eth_set_type z e;; Ok (HEth e')
      | (FSrc | FDst | FEthertype), _ => Err EType
      | _, _ => Err EAttr
      end
  | HVlan l =>
      match a, v with
      | FVlanid, AInt z => Ok (HVlan (vlan_set_id z l))
      | FPcp, AInt z => Ok (HVlan (vlan_set_pcp z l))
      | FEthertype, AInt z => l' <- vlan_set_type z l;; Ok (HVlan l')
      | (FVlanid | FPcp | FEthertype), _ => Err EType
      | _, _ => Err EAttr
      end
  | HArp p =>
      match a, v with
      | FOperation, AInt z => p' <- arp_set_op z p;; Ok (HArp p')
      | FSenderHw, AHw x => p' <- arp_set_sh x p;; Ok (HArp p')
      | FSenderProto, AIp b => p' <- arp_set_sp b p;; Ok (HArp p')
      | FTargetHw, AHw x => p' <- arp_set_th x p;; Ok (HArp p')
      | FTargetProto, AIp b => p' <- arp_set_tp b p;; Ok (HArp p')
      | (FOperation | FSenderHw | FSenderProto | FTargetHw | FTargetProto), _ => Err EType
      | _, _ => Err EAttr
      end
  | HIp4 i =>
      match a, v with
      | FTtl, AInt z => i' <- ip_set_ttl z i;; Ok (HIp4 i')
      | FTos, AInt z => i' <- ip_set_tos z i;; Ok (HIp4 i')
      | FDscp, AInt z => i' <- ip_set_dscp z i;; Ok (HIp4 i')
      | FEcn, AInt z => i' <- ip_set_ecn z i;; Ok (HIp4 i')
      | FIpid, AInt z => i' <- ip_set_id z i;; Ok (HIp4 i')
      | FProtocol, AInt z => i' <- ip_set_proto z i;; Ok (HIp4 i')
      | FSrc, AIp b => x <- ip_of_bytes b;; Ok (HIp4 (ip_set_src x i))
      | FDst, AIp b => x <- ip_of_bytes b;; Ok (HIp4 (ip_set_dst x i))
      | FFlags, AInt z => i' <- ip_set_flags z i;; Ok (HIp4 i')
      | FFragOff, AInt z => i' <- ip_set_frag z i;; Ok (HIp4 i')
      | (FTtl | FTos | FDscp | FEcn | FIpid | FProtocol | FSrc | FDst | FFlags | FFragOff), _ => Err EType
      | _, _ => Err EAttr
      end
  | HIp6 i =>
      match a, v with
      | FTrafficClass, AInt z => Ok (HIp6 (v6_set_tc z i))
      | FFlowLabel, AInt z => Ok (HIp6 (v6_set_flow z i))
      | FNextHeader, AInt z => i' <- v6_set_nh z i;; Ok (HIp6 i')
      | FTtl, AInt z => Ok (HIp6 (v6_set_ttl z i))
      | FHopLimit, AInt z => Ok (HIp6 (v6_set_ttl z i))
      | FSrc, AIp b => i' <- v6_set_src b i;; Ok (HIp6 i')
      | FDst, AIp b => i' <- v6_set_dst b i;; Ok (HIp6 i')
      | (FTrafficClass | FFlowLabel | FNextHeader | FTtl | FHopLimit | FSrc | FDst), _ => Err EType
      | _, _ => Err EAttr
      end
  | HUdp u =>
      match a, v with
      | FSrc, AInt z => Ok (HUdp (udp_set_src z u))
      | FDst, AInt z => Ok (HUdp (udp_set_dst z u))
      | (FSrc | FDst), _ => Err EType
      | _, _ => Err EAttr
      end
  | HTcp t =>
      match a, v with
      | FSrc, AInt z => Ok (HTcp (tcp_set_src z t))
      | FDst, AInt z => Ok (HTcp (tcp_set_dst z t))
      | FSeq, AInt z => Ok (HTcp (tcp_set_seq z t))
      | FAck, AInt z => Ok (HTcp (tcp_set_ack z t))
      | FWindow, AInt z => Ok (HTcp (tcp_set_window z t))
      | FUrg, AInt z => Ok (HTcp (tcp_set_urg z t))
      | FBit b, ABool v => Ok (HTcp (tcp_set_bit b v t))
      | FBit b, AInt z => Ok (HTcp (tcp_set_bit b (negb (z =? 0)) t))
      | (FSrc | FDst | FSeq | FAck | FWindow | FUrg | FBit _), _ => Err EType
      | _, _ => Err EAttr
      end
  | _ => Err EAttr
  end.

(** The object built by a constructor without arguments. *)
Definition new_default (c : hcls) : option hdr :=
  match c with
  | CEth => Some (HEth eth_new) | CVlan => Some (HVlan vlan_new) | CArp => Some (HArp arp_new)
  | CIp4 => Some (HIp4 ip_new) | CIp6 => Some (HIp6 ip6_new) | CUdp => Some (HUdp udp_new)
  | CTcp => Some (HTcp tcp_new) | _ => None
  end.
(** PacketHeaderBase.__init__ (packet.py:252-254): setattr for each keyword argument, in order. *)
Fixpoint set_all (h : hdr) (kw : list (fld * aval)) : res hdr :=
  match kw with
  | [] => Ok h
  | (a, v) :: kw' => h' <- set h a v;; set_all h' kw'
  end.
Definition new_kw (c : hcls) (kw : list (fld * aval)) : res hdr :=
  match new_default c with Some h => set_all h kw | None => Err EAttr end.
