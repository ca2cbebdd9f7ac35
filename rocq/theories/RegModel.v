(** Header classes registered by a program: the maps from attribute values to next header classes (packet.py:244-293) and
    parsing with them (packet.py:42-60).  PacketModel.v has the maps as shipped. *)
From Verif Require Import Base Dict Enums EthModel ArpModel Ipv4Model TransportModel Ipv6Model IcmpModel RipModel PacketModel FieldModel.
#[local] Open Scope string_scope.
#[local] Open Scope Z_scope.
#[local] Open Scope list_scope.

(** A header class written by the user, derived from PacketHeaderBase: from_bytes (the new object's state and the bytes
    left, or an exception), to_bytes, and its integer attributes.  It does not override next_header_class. *)
Record uclass := mkU { u_from : bytes -> res (bytes * bytes); u_to : bytes -> res bytes; u_attr : bytes -> str -> option Z }.
Inductive cls := L (c : hcls) | U (n : nat).
(** A header object in a packet: of a class of the library or of user class number [n]. *)
Inductive hd := LH (h : hdr) | UH (n : nat) (v : bytes).
Definition cls_of (h : hd) : cls := match h with LH h => L (class_of h) | UH n _ => U n end.
Definition cls_same (a b : cls) : bool :=
  match a, b with L a, L b => cls_eqb a b | U n, U m => Nat.eqb n m | _, _ => false end.

(** Class attributes _next_header_map and _next_header_class_key.  Maps are dictionary objects, numbered: a class without
    a map of its own uses that of PacketHeaderBase, number 0 (packet.py:249-250).  Maps hold classes or None. *)
Definition hmap := list (Z * option cls).
Record reg := mkReg { g_maps : list hmap; g_map : cls -> option nat; g_key : cls -> option str; g_user : nat -> uclass }.
Definition map_of (g : reg) (c : cls) : nat := match g_map g c with Some m => m | None => O end.
Definition key_of (g : reg) (c : cls) : str := match g_key g c with Some k => k | None => "" end.
Fixpoint hget (m : hmap) (k : Z) : option (option cls) :=
  match m with [] => None | (k', c) :: t => if k =? k' then Some c else hget t k end.

(** As shipped: Ethernet ethernet.py:101-108, Vlan ethernet.py:30-36, IPv4 ipv4.py:375-379, 388-389, IPv6 (and its
    extension headers, which use the same dictionary) ipv6.py:475-486, 495-496, UDP udp.py:18-19, TCP tcp.py:72-73. *)
Definition links : hmap := [(etIP, Some (L CIp4)); (etARP, Some (L CArp)); (etIPv6, Some (L CIp6))].
Definition base_map := 0%nat.
Definition eth_map := 1%nat.
Definition vlan_map := 2%nat.
Definition ip4_map := 3%nat.
Definition ip6_map := 4%nat.
Definition udp_map := 5%nat.
Definition tcp_map := 6%nat.
Definition shipped (us : nat -> uclass) : reg :=
  mkReg
    [ [];
      links ++ [(etVlan, Some (L CVlan)); (etNoType, None)];
      links ++ [(etNoType, None)];
      [(ipICMP, Some (L CIcmp)); (ipTCP, Some (L CTcp)); (ipUDP, Some (L CUdp))];
      [(ipTCP, Some (L CTcp)); (ipUDP, Some (L CUdp)); (ipICMPv6, Some (L CIcmp6)); (0, Some (L CHop)); (43, Some (L CRoute));
       (44, Some (L CFrag)); (60, Some (L CDest)); (59, None)];
      []; [] ]
    (fun c => match c with
              | L CEth => Some eth_map | L CVlan => Some vlan_map | L CIp4 => Some ip4_map | L CIp6 => Some ip6_map
              | L CUdp => Some udp_map | L CTcp => Some tcp_map | _ => None end)
    (fun c => match c with
              | L CEth | L CVlan => Some "_ethertype" | L CIp4 => Some "_protocol" | L CIp6 => Some "_nextheader"
              | L CUdp | L CTcp => Some "" | _ => None end)
    us.

(** set_next_header_class_key (266-271), add_next_header_class (273-277), set_next_header_map (279-283, a new dictionary). *)
Definition set_key (g : reg) (c : cls) (k : str) : reg :=
  mkReg (g_maps g) (g_map g) (fun d => if cls_same d c then Some k else g_key g d) (g_user g).
Fixpoint upd_map (ms : list hmap) (n : nat) (f : hmap -> hmap) : list hmap :=
  match ms, n with [], _ => [] | m :: t, O => f m :: t | m :: t, S n' => m :: upd_map t n' f end.
Definition add_class (g : reg) (c : cls) (k : Z) (d : cls) : reg :=
  mkReg (upd_map (g_maps g) (map_of g c) (fun m => (k, Some d) :: m)) (g_map g) (g_key g) (g_user g).
Definition set_map (g : reg) (c : cls) (m : hmap) : reg :=
  mkReg (g_maps g ++ [m]) (fun d => if cls_same d c then Some (List.length (g_maps g)) else g_map g d) (g_key g) (g_user g).

(** getattr(self, name) for integer attributes of library headers, public and private names (the attributes listed
    here); an address attribute is an object no integer key equals. *)
Definition fld_of (s : str) : option fld :=
  if smem s ["_ethertype"; "ethertype"] then Some FEthertype else if smem s ["_protocol"; "protocol"] then Some FProtocol
  else if smem s ["_nextheader"; "nextheader"] then Some FNextHeader else if smem s ["_src"; "src"] then Some FSrc
  else if smem s ["_dst"; "dst"] then Some FDst else if smem s ["_vlanid"; "vlanid"] then Some FVlanid
  else if smem s ["_ttl"; "ttl"] then Some FTtl else if smem s ["_tos"; "tos"] then Some FTos
  else if smem s ["_window"; "window"] then Some FWindow else if smem s ["_seq"; "seq"] then Some FSeq
  else if smem s ["_ack"; "ack"] then Some FAck else None.
(** None: no such attribute; Some None: a value that is no key of any map. *)
Definition attr_of (g : reg) (h : hd) (s : str) : option (option Z) :=
  match h with
  | LH h =>
      match fld_of s with
      | Some f => match get h f with Some (GInt z) => Some (Some z) | Some (GBool b) => Some (Some (if b then 1 else 0)) | Some _ => Some None | None => None end
      | None => None
      end
  | UH n v => match u_attr (g_user g n) v s with Some z => Some (Some z) | None => None end
  end.
Definition lookup (g : reg) (m : nat) (k : option Z) : option cls :=
  match k with
  | Some z => match hget (nth m (g_maps g) []) z with Some (Some c) => Some c | _ => None end
  | None => None
  end.
(** PacketHeaderBase.next_header_class (285-293). *)
Definition base_next (g : reg) (h : hd) : res (option cls) :=
  if str_eqb (key_of g (cls_of h)) "" then Ok None
  else match attr_of g h (key_of g (cls_of h)) with
       | Some k => Ok (lookup g (map_of g (cls_of h)) k)
       | None => Err EAttr
       end.
(** next_header_class(): overridden to return None in Arp (arp.py:124), ICMP (icmp.py:131), RIPv2 (ripv2.py:185); the IPv6
    extension headers use the dictionary IPTypeClasses of ipv6.py directly (ipv6.py:59-63); Null null.py:52-56. *)
Definition next_cls (g : reg) (h : hd) : res (option cls) :=
  match h with
  | LH (HArp _) | LH (HIcmp _) | LH (HIcmp6 _) | LH (HRip _) => Ok None
  | LH (HRoute x) => Ok (lookup g ip6_map (ro_nh x))
  | LH (HFrag x) => Ok (lookup g ip6_map (fr_nh x))
  | LH (HHop x) | LH (HDest x) => Ok (lookup g ip6_map (ho_nh x))
  | LH (HNull af) => if af =? 2 then Ok (Some (L CIp4)) else if af =? 10 then Ok (Some (L CIp6)) else Err EExc
  | _ => base_next g h
  end.
(** cls() and from_bytes. *)
Definition read_hd (g : reg) (c : cls) (raw : bytes) : res (hd * option bytes) :=
  match c with
  | L c => ' (h, rest) <- parse_hdr c raw;; Ok (LH h, rest)
  | U n => ' (v, rest) <- u_from (g_user g n) raw;; Ok (UH n v, Some rest)
  end.
(** _parse (42-60). *)
Fixpoint reg_loop (g : reg) (fuel : nat) (c : cls) (raw : bytes) : res (list hd * option bytes) :=
  match fuel with
  | O => Err EFuel
  | S fuel' =>
      match c with
      | L CBytes => Ok ([], Some raw)
      | _ =>
          ' (h, rest) <- read_hd g c raw;;
          nc <- next_cls g h;;
          match nc with
          | None => Ok ([h], rest)
          | Some c' =>
              match rest with
              | None => Err EType
              | Some r => ' (hs, fin) <- reg_loop g fuel' c' r;; Ok (h :: hs, fin)
              end
          end
      end
  end.
Definition raw_rest (fin : option bytes) : list hd := match fin with Some (b :: r) => [LH (HRaw (b :: r))] | _ => [] end.
Definition reg_parse (g : reg) (raw : bytes) (c : cls) : res (list hd) :=
  match raw with
  | [] => Ok []
  | _ => ' (hs, fin) <- reg_loop g (S (S (S (S (S (List.length raw)))))) c raw;; Ok (hs ++ raw_rest fin)
  end.
(** to_bytes (29-40): a user header contributes its bytes, and changes nothing when prepared (the default pre_serialize,
    295-309).  User headers are serialised first here, so that of two exceptions another one may be reported. *)
Fixpoint plain (g : reg) (p : list hd) : res packet :=
  match p with
  | [] => Ok []
  | LH h :: t => t' <- plain g t;; Ok (h :: t')
  | UH n v :: t => b <- u_to (g_user g n) v;; t' <- plain g t;; Ok (HRaw b :: t')
  end.
Definition reg_bytes (g : reg) (p : list hd) : res bytes := q <- plain g p;; ' (_, b) <- pkt_to_bytes q;; Ok b.
