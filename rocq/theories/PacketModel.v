(** Model of switchyard/lib/packet/packet.py (Packet, PacketHeaderBase, NullPacketHeader, RawPacketContents),
    of null.py and of util.py (the ARP helpers). *)
From Verif Require Import Base EthAddrModel Enums EthModel ArpModel ChecksumModel Ipv4Model TransportModel Ipv6Model
  IcmpModel RipModel.

(** ** Header objects and classes
    One constructor per concrete header class of the package.  [HBytes] is a bare [bytes] object, which
    __setitem__, prepend_header and insert_header store without wrapping (packet.py:107, 129, 206-208). *)
Inductive hdr :=
| HEth (h : ethernet) | HVlan (h : vlan) | HArp (h : arp) | HIp4 (h : ipv4) | HIp6 (h : ipv6)
| HRoute (h : v6route) | HFrag (h : v6frag) | HHop (h : v6hop) | HDest (h : v6hop)
| HUdp (h : udp) | HTcp (h : tcp) | HIcmp (h : icmp) | HIcmp6 (h : icmp) | HRip (h : rip)
| HNull (af : Z) | HNullHdr | HRaw (b : bytes) | HBytes (b : bytes).

Inductive hcls :=
| CEth | CVlan | CArp | CIp4 | CIp6 | CRoute | CFrag | CHop | CDest | CUdp | CTcp | CIcmp | CIcmp6 | CRip
| CNull | CNullHdr | CRaw | CBytes.

Definition class_of (h : hdr) : hcls :=
  match h with
  | HEth _ => CEth | HVlan _ => CVlan | HArp _ => CArp | HIp4 _ => CIp4 | HIp6 _ => CIp6 | HRoute _ => CRoute
  | HFrag _ => CFrag | HHop _ => CHop | HDest _ => CDest | HUdp _ => CUdp | HTcp _ => CTcp | HIcmp _ => CIcmp
  | HIcmp6 _ => CIcmp6 | HRip _ => CRip | HNull _ => CNull | HNullHdr => CNullHdr | HRaw _ => CRaw
  | HBytes _ => CBytes
  end.
Definition cls_num (c : hcls) : Z :=
  match c with
  | CEth => 0 | CVlan => 1 | CArp => 2 | CIp4 => 3 | CIp6 => 4 | CRoute => 5 | CFrag => 6 | CHop => 7 | CDest => 8
  | CUdp => 9 | CTcp => 10 | CIcmp => 11 | CIcmp6 => 12 | CRip => 13 | CNull => 14 | CNullHdr => 15 | CRaw => 16
  | CBytes => 17
  end.
Definition cls_eqb (a b : hcls) : bool := cls_num a =? cls_num b.
(** issubclass: ICMPv6 derives from ICMP (icmpv6.py:24), IPv6DestinationOption from IPv6HopOption (ipv6.py:377). *)
Definition subcls (a b : hcls) : bool :=
  cls_eqb a b || (match a, b with CIcmp6, CIcmp => true | CDest, CHop => true | _, _ => false end).
(** isinstance(h, c). *)
Definition isinst (h : hdr) (c : hcls) : bool := subcls (class_of h) c.

(** ** Header methods by class *)
(** get_header_by_name (packet.py:144-152) for the two names the code uses: first header of exactly that class. *)
Fixpoint first_ip4 (hs : list hdr) : option ipv4 :=
  match hs with [] => None | HIp4 h :: _ => Some h | _ :: t => first_ip4 t end.
Fixpoint first_ip6 (hs : list hdr) : option ipv6 :=
  match hs with [] => None | HIp6 h :: _ => Some h | _ :: t => first_ip6 t end.

(** Null ('=I', null.py:37-50): native byte order, taken to be little-endian as in ChecksumModel. *)
Definition null_to_bytes (af : Z) : res bytes := b <- pack [fI] [VI af];; Ok (rev b).
Definition null_from_bytes (raw : bytes) : res (Z * bytes) :=
  if Nat.ltb (length raw) 4 then Err ENotEnough else Ok (unbe (rev (firstn 4 raw)), skipn 4 raw).

(** header.pre_serialize(raw, pkt, i): [raw] the bytes of the headers behind, [pkt] all headers.
    Ethernet and Vlan (packet.py:295-309), Arp arp.py:38-39, ext headers ipv6.py:37-38, ICMP icmp.py:134-135,
    Null null.py:58-59 and RIPv2, raw and null headers (packet.py:295-309) do nothing. *)
Definition pre_ser (raw : bytes) (pkt : list hdr) (h : hdr) : res hdr :=
  match h with
  | HIp4 x => y <- ip_pre_serialize (zlen raw) x;; Ok (HIp4 y)
  | HIp6 x => y <- ip6_pre_serialize (zlen raw) x;; Ok (HIp6 y)
  | HUdp x => y <- udp_pre_serialize raw (first_ip4 pkt) x;; Ok (HUdp y)
  | HTcp x => y <- tcp_pre_serialize raw (first_ip4 pkt) x;; Ok (HTcp y)
  | HIcmp6 x => y <- icmp6_pre_serialize (first_ip6 pkt) x;; Ok (HIcmp6 y)
  | HBytes _ => Err EAttr
  | _ => Ok h
  end.
(** header.to_bytes(). *)
Definition hdr_bytes (h : hdr) : res bytes :=
  match h with
  | HEth x => eth_to_bytes x
  | HVlan x => vlan_to_bytes x
  | HArp x => arp_to_bytes x
  | HIp4 x => ip_to_bytes x
  | HIp6 x => ip6_to_bytes x
  | HRoute x => route_to_bytes x
  | HFrag x => frag_to_bytes x
  | HHop x | HDest x => hop_to_bytes x
  | HUdp x => udp_to_bytes x
  | HTcp x => tcp_to_bytes x
  | HIcmp x => icmp_to_bytes x
  | HIcmp6 x => icmp6_to_bytes x
  | HRip x => rip_to_bytes x
  | HNull af => null_to_bytes af
  | HNullHdr => Ok []
  | HRaw b => Ok b
  | HBytes _ => Err EAttr
  end.
(** The object after to_bytes(): ICMP stores its checksum (icmp.py:58), the option headers their length
    (ipv6.py:330). *)
Definition hop_serialised (x : v6hop) : v6hop :=
  match v6opts_to_bytes (ho_opts x) with
  | Ok b => mkV6hop (ho_nh x) ((zlen b + 2) / 8 - 1) (ho_opts x)
  | Err _ => x
  end.
Definition hdr_after (h : hdr) : hdr :=
  match h with
  | HIcmp x => HIcmp (icmp_serialised x)
  | HHop x => HHop (hop_serialised x)
  | HDest x => HDest (hop_serialised x)
  | _ => h
  end.
(** len(header): size() unless __len__ is overridden (ipv6.py:356 number of options; ripv2.py:147 number of routes);
    extension headers return _optdatalen (ipv6.py:40-41). *)
Definition hdr_len (h : hdr) : res Z :=
  match h with
  | HEth x => Ok (eth_size x)
  | HVlan x => Ok (vlan_size x)
  | HArp x => Ok (arp_size x)
  | HIp4 x => ip_size x
  | HIp6 x => Ok (ip6_size x)
  | HRoute x => Ok (ro_dlen x)
  | HFrag x => Ok (fr_dlen x)
  | HHop x | HDest x => Ok (hop_len x)
  | HUdp x => Ok (udp_size x)
  | HTcp x => Ok (tcp_size x)
  | HIcmp x | HIcmp6 x => icmp_size x
  | HRip x => Ok (zlen (rip_routes x))
  | HNull _ => Ok 4
  | HNullHdr => Ok 0
  | HRaw b | HBytes b => Ok (zlen b)
  end.
(** cls() then obj.from_bytes(raw); RIPv2.from_bytes returns None; RawPacketContents() raises (packet.py:369-376). *)
Definition parse_hdr (c : hcls) (raw : bytes) : res (hdr * option bytes) :=
  let wrap {A} (f : A -> hdr) (r : res (A * bytes)) : res (hdr * option bytes) :=
    ' (x, rest) <- r;; Ok (f x, Some rest) in
  match c with
  | CEth => wrap HEth (eth_from_bytes raw)
  | CVlan => wrap HVlan (vlan_from_bytes raw)
  | CArp => wrap HArp (arp_from_bytes raw)
  | CIp4 => wrap HIp4 (ip_from_bytes raw)
  | CIp6 => wrap HIp6 (ip6_from_bytes raw)
  | CRoute => wrap HRoute (route_from_bytes raw)
  | CFrag => wrap HFrag (frag_from_bytes raw)
  | CHop => wrap HHop (hop_from_bytes raw)
  | CDest => wrap HDest (hop_from_bytes raw)
  | CUdp => wrap HUdp (udp_from_bytes raw)
  | CTcp => wrap HTcp (tcp_from_bytes raw)
  | CIcmp => wrap HIcmp (icmp_from_bytes false raw)
  | CIcmp6 => wrap HIcmp6 (icmp_from_bytes true raw)
  | CRip => h <- rip_from_bytes rip_new raw;; Ok (HRip h, None)
  | CNull => wrap HNull (null_from_bytes raw)
  | CNullHdr => Ok (HNullHdr, Some raw)
  | CRaw => Err EType
  | CBytes => Err EType
  end.
(** next_header_class(): Ethernet/Vlan maps ethernet.py:30-35, 101-107; IPv4 ipv4.py:375-379; IPv6 and extension
    headers ipv6.py:475-486, 59-63; Null null.py:52-56; lookups packet.py:285-293. *)
Definition link_class (t : Z) : option hcls :=
  if t =? etIP then Some CIp4 else if t =? etARP then Some CArp else if t =? etIPv6 then Some CIp6 else None.
Definition ip4_class (p : Z) : option hcls :=
  if p =? ipICMP then Some CIcmp else if p =? ipTCP then Some CTcp else if p =? ipUDP then Some CUdp else None.
Definition ip6_class (p : Z) : option hcls :=
  if p =? ipTCP then Some CTcp else if p =? ipUDP then Some CUdp else if p =? ipICMPv6 then Some CIcmp6
  else if p =? 0 then Some CHop else if p =? 43 then Some CRoute else if p =? 44 then Some CFrag
  else if p =? 60 then Some CDest else None.
Definition ext_class (nh : option Z) : option hcls := match nh with Some p => ip6_class p | None => None end.
Definition next_class (h : hdr) : res (option hcls) :=
  match h with
  | HEth x => Ok (if eth_type x =? etVlan then Some CVlan else link_class (eth_type x))
  | HVlan x => Ok (link_class (vl_type x))
  | HIp4 x => Ok (ip4_class (ip_proto x))
  | HIp6 x => Ok (ip6_class (v6_nh x))
  | HRoute x => Ok (ext_class (ro_nh x))
  | HFrag x => Ok (ext_class (fr_nh x))
  | HHop x | HDest x => Ok (ext_class (ho_nh x))
  | HNull af => if af =? 2 then Ok (Some CIp4) else if af =? 10 then Ok (Some CIp6) else Err EExc
  | _ => Ok None
  end.
(** self[i] == other[i] once isinstance(other[i], self[i].__class__) holds.  When the class of the right operand
    is a proper subclass Python calls its method first, with the operands swapped. *)
Definition bytes_cmp (a b : res bytes) : res bool := x <- a;; y <- b;; Ok (bytes_eqb x y).
Definition hdr_eqb (a b : hdr) : res bool :=
  match a, b with
  | HEth x, HEth y => Ok (eth_eqb x y)
  | HVlan x, HVlan y => Ok (vlan_eqb x y)
  | HArp x, HArp y => Ok (arp_eqb x y)
  | HIp4 x, HIp4 y => Ok (ip_eqb x y)
  | HIp6 x, HIp6 y => Ok (ip6_eqb x y)
  | HRoute x, HRoute y => bytes_cmp (route_to_bytes x) (route_to_bytes y)
  | HFrag x, HFrag y => bytes_cmp (frag_to_bytes x) (frag_to_bytes y)
  | HHop x, HHop y => bytes_cmp (hop_to_bytes x) (hop_to_bytes y)
  | HDest x, HDest y => bytes_cmp (hop_to_bytes x) (hop_to_bytes y)
  | HHop x, HDest y => bytes_cmp (hop_to_bytes y) (hop_to_bytes x)
  | HUdp x, HUdp y => Ok (udp_eqb x y)
  | HTcp x, HTcp y => Ok (tcp_eqb x y)
  | HIcmp x, HIcmp y => icmp_eqb x y
  | HIcmp6 x, HIcmp6 y => icmp_eqb x y
  | HIcmp x, HIcmp6 y => icmp_eqb y x
  | HRip x, HRip y => bytes_cmp (rip_to_bytes x) (rip_to_bytes y)
  | HNull x, HNull y => Ok (x =? y)
  | HNullHdr, HNullHdr => Ok true
  | HRaw x, HRaw y => Ok (bytes_eqb x y)
  | HBytes x, HBytes y => Ok (bytes_eqb x y)
  | _, _ => Ok false
  end.

(** ** Packet *)
Definition packet := list hdr.

(** to_bytes (packet.py:29-40): headers are visited from the last to the first; each is first given the bytes
    behind it and the packet, then serialised.  [pre] are the headers in front of [hs], not yet visited.  The
    result also holds the updated header objects; an exception leaves the packet partly updated (not modelled). *)
Fixpoint ser (pre hs : list hdr) : res (list hdr * bytes) :=
  match hs with
  | [] => Ok ([], [])
  | h :: t =>
      ' (t', raw) <- ser (pre ++ [h]) t;;
      h' <- pre_ser raw (pre ++ h :: t') h;;
      b <- hdr_bytes h';;
      Ok (hdr_after h' :: t', b ++ raw)
  end.
Definition pkt_to_bytes (p : packet) : res (packet * bytes) := ser [] p.

(** size (packet.py:25-27). *)
Fixpoint pkt_len (p : packet) : res Z :=
  match p with [] => Ok 0 | h :: t => n <- hdr_len h;; m <- pkt_len t;; Ok (n + m) end.

(** _parse (packet.py:42-60).  [CBytes] is a class that is not a header class, for which the loop does not run. *)
Fixpoint parse_loop (fuel : nat) (c : hcls) (raw : bytes) : res (list hdr * option bytes) :=
  match fuel with
  | O => Err EFuel
  | S fuel' =>
      match c with
      | CBytes => Ok ([], Some raw)
      | _ =>
          ' (h, rest) <- parse_hdr c raw;;
          nc <- next_class h;;
          match nc with
          | None => Ok ([h], rest)
          | Some c' =>
              match rest with
              | None => Err EType
              | Some r => ' (hs, fin) <- parse_loop fuel' c' r;; Ok (h :: hs, fin)
              end
          end
      end
  end.
Definition with_rest (x : list hdr * option bytes) : packet :=
  fst x ++ match snd x with Some (b :: r) => [HRaw (b :: r)] | _ => [] end.
(** Packet(raw, first_header) (packet.py:13-18): nothing is parsed from an empty byte string. *)
Definition pkt_new (raw : bytes) (first : hcls) : res packet :=
  match raw with
  | [] => Ok []
  | _ => x <- parse_loop (S (S (S (S (length raw))))) first raw;; Ok (with_rest x)
  end.
Definition pkt_parse (raw : bytes) : res packet := pkt_new raw CEth.

(** __eq__ (packet.py:229-238). *)
Fixpoint pkt_eqb_same (a b : packet) : res bool :=
  match a, b with
  | x :: a', y :: b' =>
      if isinst y (class_of x) then
        e <- hdr_eqb x y;;
        if (e : bool) then pkt_eqb_same a' b' else Ok false
      else Ok false
  | _, _ => Ok true
  end.
Definition pkt_eqb (a b : packet) : res bool :=
  if Nat.eqb (length a) (length b) then pkt_eqb_same a b else Ok false.

(** *** Container operations *)
(** _checkidx (packet.py:182-188). *)
Definition checkidx (p : packet) (i : Z) : res nat :=
  let i := if i <? 0 then zlen p + i else i in
  if (0 <=? i) && (i <? zlen p) then Ok (Z.to_nat i) else Err EIndex.
Definition nth_res (p : packet) (n : nat) : res hdr := match nth_error p n with Some h => Ok h | None => Err EIndex end.
(** A stored object: add_header and += wrap bytes (packet.py:109-121, 68-75). *)
Definition wrap_bytes (h : hdr) : hdr := match h with HBytes b => HRaw b | _ => h end.
Definition pkt_add (p : packet) (h : hdr) : packet := p ++ [wrap_bytes h].
(** prepend_header (102-107), insert_header (123-129): list.insert clamps the index. *)
Definition pkt_prepend (p : packet) (h : hdr) : packet := h :: p.
Definition clampidx (p : packet) (i : Z) : nat :=
  let i := if i <? 0 then zlen p + i else i in
  Z.to_nat (Z.min (Z.max i 0) (zlen p)).
Definition pkt_insert (p : packet) (i : Z) (h : hdr) : packet :=
  firstn (clampidx p i) p ++ h :: skipn (clampidx p i) p.
(** __getitem__, __setitem__, __delitem__ with an int (190-193, 202-208, 217-220). *)
Definition pkt_get (p : packet) (i : Z) : res hdr := n <- checkidx p i;; nth_res p n.
Definition pkt_set (p : packet) (i : Z) (h : hdr) : res packet := n <- checkidx p i;; Ok (set_nth n h p).
Definition del_nth {A} (n : nat) (l : list A) : list A := firstn n l ++ skipn (S n) l.
Definition pkt_del (p : packet) (i : Z) : res packet := n <- checkidx p i;; Ok (del_nth n p).
(** get_header_index (168-177): the Python list is indexed with the loop variable, which may be negative. *)
Definition py_get (p : packet) (i : Z) : res hdr :=
  if i <? 0 then (if zlen p + i <? 0 then Err EIndex else nth_res p (Z.to_nat (zlen p + i))) else nth_res p (Z.to_nat i).
Fixpoint index_loop (k : nat) (p : packet) (c : hcls) (i : Z) : res Z :=
  match k with
  | O => Ok (-1)
  | S k' => h <- py_get p i;; if isinst h c then Ok i else index_loop k' p c (i + 1)
  end.
Definition pkt_index (p : packet) (c : hcls) (start : Z) : res Z := index_loop (Z.to_nat (zlen p - start)) p c start.
(** get_header (154-166). *)
Fixpoint pkt_get_header (p : packet) (c : hcls) : option hdr :=
  match p with [] => None | h :: t => if isinst h c then Some h else pkt_get_header t c end.
(** get_header_by_name (144-152). *)
Fixpoint pkt_by_name (p : packet) (c : hcls) : option hdr :=
  match p with [] => None | h :: t => if cls_eqb (class_of h) c then Some h else pkt_by_name t c end.
(** has_header (135-142). *)
Definition pkt_has (p : packet) (c : hcls) : bool := match pkt_get_header p c with Some _ => true | None => false end.
(** __getitem__ and __delitem__ with a header class (194-198, 221-225). *)
Definition pkt_get_cls (p : packet) (c : hcls) : res hdr :=
  i <- pkt_index p c 0;; if i =? -1 then Err EKey else py_get p i.
Definition pkt_del_cls (p : packet) (c : hcls) : res packet :=
  i <- pkt_index p c 0;; if i =? -1 then Err EKey else Ok (del_nth (Z.to_nat i) p).
(** Packet + Packet and Packet + header (77-88). *)
Definition pkt_plus (p q : packet) : packet := fold_left pkt_add q p.
(** A sequence of container operations; an exception leaves the packet as it was (each method raises before it
    changes the list). *)
Inductive pkt_op :=
| PAdd (h : hdr) | PPrepend (h : hdr) | PInsert (i : Z) (h : hdr) | PSet (i : Z) (h : hdr) | PDel (i : Z) | PDelCls (c : hcls)
| PPlus (q : packet) | PGet (i : Z) | PGetCls (c : hcls) | PFind (c : hcls) | PName (c : hcls) | PHas (c : hcls)
| PIndex (c : hcls) (start : Z) | PNum.
Inductive pkt_res := RUnit | RHdr (h : hdr) | ROpt (h : option hdr) | RNum (i : Z) | RBool (b : bool) | RRaise (e : exn).
Definition pkt_step (p : packet) (o : pkt_op) : packet * pkt_res :=
  let upd (r : res packet) := match r with Ok p' => (p', RUnit) | Err e => (p, RRaise e) end in
  let ask (r : res pkt_res) := match r with Ok x => (p, x) | Err e => (p, RRaise e) end in
  match o with
  | PAdd h => (pkt_add p h, RUnit)
  | PPrepend h => (pkt_prepend p h, RUnit)
  | PInsert i h => (pkt_insert p i h, RUnit)
  | PSet i h => upd (pkt_set p i h)
  | PDel i => upd (pkt_del p i)
  | PDelCls c => upd (pkt_del_cls p c)
  | PPlus q => (pkt_plus p q, RUnit)
  | PGet i => ask (h <- pkt_get p i;; Ok (RHdr h))
  | PGetCls c => ask (h <- pkt_get_cls p c;; Ok (RHdr h))
  | PFind c => (p, ROpt (pkt_get_header p c))
  | PName c => (p, ROpt (pkt_by_name p c))
  | PHas c => (p, RBool (pkt_has p c))
  | PIndex c start => ask (i <- pkt_index p c start;; Ok (RNum i))
  | PNum => (p, RNum (zlen p))
  end.
Fixpoint pkt_run (p : packet) (os : list pkt_op) : packet * list pkt_res :=
  match os with
  | [] => (p, [])
  | o :: os' => let '(p1, r) := pkt_step p o in let '(p2, rs) := pkt_run p1 os' in (p2, r :: rs)
  end.

(** ** ARP helpers (util.py:3-29).  The hardware addresses are EthAddr constructor arguments, the protocol
    addresses are given in packed form. *)
Definition arp_set_sp (b : bytes) (h : arp) : res arp :=
  a <- ip_of_bytes b;; Ok (mkArp (arp_hwtype h) (arp_prototype h) (arp_hwlen h) (arp_protolen h) (arp_op h) (arp_shw h) a (arp_thw h) (arp_tproto h)).
Definition arp_set_tp (b : bytes) (h : arp) : res arp :=
  a <- ip_of_bytes b;; Ok (mkArp (arp_hwtype h) (arp_prototype h) (arp_hwlen h) (arp_protolen h) (arp_op h) (arp_shw h) (arp_sproto h) (arp_thw h) a).
Definition arp_set_sh (v : etharg) (h : arp) : res arp :=
  a <- eth_init v;; Ok (mkArp (arp_hwtype h) (arp_prototype h) (arp_hwlen h) (arp_protolen h) (arp_op h) a (arp_sproto h) (arp_thw h) (arp_tproto h)).
Definition arp_set_th (v : etharg) (h : arp) : res arp :=
  a <- eth_init v;; Ok (mkArp (arp_hwtype h) (arp_prototype h) (arp_hwlen h) (arp_protolen h) (arp_op h) (arp_shw h) (arp_sproto h) a (arp_tproto h)).
Definition arp_set_op (v : Z) (h : arp) : res arp :=
  o <- enum_of ArpOperations v;; Ok (mkArp (arp_hwtype h) (arp_prototype h) (arp_hwlen h) (arp_protolen h) o (arp_shw h) (arp_sproto h) (arp_thw h) (arp_tproto h)).
Definition eth_broadcast : bytes := repeat 255 6.
Definition arp_request (srchw : etharg) (srcip targetip : bytes) : res packet :=
  e <- eth_set_src srchw eth_new;;
  e <- eth_set_dst (ABytes eth_broadcast) e;;
  e <- eth_set_type etARP e;;
  a <- arp_set_op arpRequest arp_new;;
  a <- arp_set_sh srchw a;;
  a <- arp_set_sp srcip a;;
  a <- arp_set_th (ABytes eth_broadcast) a;;
  a <- arp_set_tp targetip a;;
  Ok [HEth e; HArp a].
Definition arp_reply (srchw dsthw : etharg) (srcip targetip : bytes) : res packet :=
  p <- arp_request srchw srcip targetip;;
  match p with
  | [HEth e; HArp a] =>
      e <- eth_set_dst dsthw e;;
      a <- arp_set_op arpReply a;;
      a <- arp_set_th dsthw a;;
      Ok [HEth e; HArp a]
  | _ => Err EType
  end.
