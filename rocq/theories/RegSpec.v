(** What registering a header class should do (C108). *)
From Verif Require Import Base Dict EthModel ArpModel Ipv4Model TransportModel Ipv6Model IcmpModel RipModel PacketModel PacketSpec RegModel.
#[local] Open Scope string_scope.
#[local] Open Scope Z_scope.
#[local] Open Scope list_scope.

(** The number in a header that says what comes next, for a registration made with class [c]: the type of an Ethernet
    header or VLAN tag, the protocol of an IPv4 header, the next header of an IPv6 header or of one of its extension
    headers, the destination port of UDP or TCP. *)
Definition number (c : hcls) (h : hdr) : option Z :=
  match c, h with
  | CEth, HEth x => Some (eth_type x)
  | CVlan, HVlan x => Some (vl_type x)
  | CIp4, HIp4 x => Some (ip_proto x)
  | CIp6, HIp6 x => Some (v6_nh x)
  | CIp6, HRoute x => ro_nh x
  | CIp6, HFrag x => fr_nh x
  | CIp6, HHop x | CIp6, HDest x => ho_nh x
  | CUdp, HUdp x => Some (udp_dst x)
  | CTcp, HTcp x => Some (tcp_dst x)
  | _, _ => None
  end.
Definition tells (c : hcls) (v : Z) (h : hdr) : Prop := number c h = Some v.
Definition registrable (c : hcls) : Prop := c = CEth \/ c = CVlan \/ c = CIp4 \/ c = CIp6 \/ c = CUdp \/ c = CTcp.
(** The number is not that of a header class of the library. *)
Definition unused (c : hcls) (v : Z) : Prop := forall h, tells c v h -> says_next h = None.

(** The calls a program makes to register user class [n] for number [v] behind class [c]: for UDP and TCP, which go on to
    no other header as shipped, c.set_next_header_class_key('dst') as well. *)
Definition register (us : nat -> uclass) (c : hcls) (v : Z) (n : nat) : reg :=
  add_class (match c with CUdp | CTcp => set_key (shipped us) (L c) "dst" | _ => shipped us end) (L c) v (U n).

Definition payload (b : bytes) : list hdr := match b with [] => [] | _ => [HRaw b] end.
(** What [p], a packet as the library reads it, should become. *)
Definition continues (us : nat -> uclass) (c : hcls) (v : Z) (n : nat) (p : packet) (r : res (list hd)) : Prop :=
  ((forall h, In h p -> ~ tells c v h) /\ r = Ok (map LH p)) \/
  (exists pre h b, p = pre ++ h :: payload b /\ tells c v h /\
     match u_from (us n) b with
     | Ok (w, rest) => r = Ok (map LH (pre ++ [h]) ++ UH n w :: map LH (payload rest))
     | Err e => r = Err e
     end).

(** Several registrations, in the order made: (class, number, user class). *)
Definition entry := (hcls * Z * nat)%type.
Definition register_one (g : reg) (e : entry) : reg :=
  let '(c, v, n) := e in add_class (match c with CUdp | CTcp => set_key g (L c) "dst" | _ => g end) (L c) v (U n).
Definition register_all (us : nat -> uclass) (es : list entry) : reg := fold_left register_one es (shipped us).
Definition applies (e : entry) (h : hdr) : Prop := let '(c, v, _) := e in tells c v h.
Definition allowed (e : entry) : Prop := let '(c, v, _) := e in registrable c /\ unused c v.
(** The user class of the last registration that applies to a header. *)
Definition latest (es : list entry) (h : hdr) (n : nat) : Prop :=
  exists early c v late, es = early ++ (c, v, n) :: late /\ tells c v h /\ forall e, In e late -> ~ applies e h.
Definition continues_all (us : nat -> uclass) (es : list entry) (p : packet) (r : res (list hd)) : Prop :=
  ((forall h e, In h p -> In e es -> ~ applies e h) /\ r = Ok (map LH p)) \/
  (exists pre h b n, p = pre ++ h :: payload b /\ (forall x e, In x pre -> In e es -> ~ applies e x) /\ latest es h n /\
     match u_from (us n) b with
     | Ok (w, rest) => r = Ok (map LH (pre ++ [h]) ++ UH n w :: map LH (payload rest))
     | Err e => r = Err e
     end).
