(** What a user expects of the OpenFlow switch pieces, independently of the code. *)
From Verif Require Import Base EthAddrModel Enums EthModel ArpModel Ipv4Model TransportModel Ipv6Model IcmpModel PacketModel
  FieldModel OfModel SwModel.

(** ** Packet buffer: a pile of packets numbered from 1, fetched newest first. *)
Section Pile.
Context {P : Type}.
Definition pile_step (size : Z) (s : list P) (o : bop P) : list P * bres P :=
  match o with
  | BAdd v => if zlen s <? size then (s ++ [v], RId (Some (zlen s + 1))) else (s, RId None)
  | BPop id =>
      if (1 <=? id) && (id <=? zlen s)
      then match nth_error s (Z.to_nat (id - 1)) with
           | Some v => (firstn (Z.to_nat (id - 1)) s ++ skipn (Z.to_nat id) s, RPop (Ok v))
           | None => (s, RPop (Err EKey))
           end
      else (s, RPop (Err EKey))
  | BLook id =>
      (s, RLook (if (1 <=? id) && (id <=? zlen s) then nth_error s (Z.to_nat (id - 1)) else None))
  end.
Fixpoint pile_run (size : Z) (s : list P) (os : list (bop P)) : list P * list (bres P) :=
  match os with
  | [] => (s, [])
  | o :: os' => let '(s1, r) := pile_step size s o in let '(s2, rs) := pile_run size s1 os' in (s2, r :: rs)
  end.
(** Fetching is newest first (or asks for a number nobody holds). *)
Fixpoint newest_first (size : Z) (s : list P) (os : list (bop P)) : Prop :=
  match os with
  | [] => True
  | o :: os' =>
      match o with BPop id => id < 1 \/ zlen s <= id | _ => True end /\ newest_first size (fst (pile_step size s o)) os'
  end.
End Pile.

(** ** Matching *)
(** The first header of its kind in a packet. *)
Definition first {A} (p : packet) (mk : A -> hdr) (a : A) : Prop :=
  exists pre post, p = pre ++ mk a :: post /\ forall x, ~ In (mk x) pre.
(** The OpenFlow 1.0 fields a packet shows. *)
Inductive shows (p : packet) : mfld -> gval -> Prop :=
| sh_dlsrc e : first p HEth e -> shows p MDlSrc (GHw (eth_src e))
| sh_dldst e : first p HEth e -> shows p MDlDst (GHw (eth_dst e))
| sh_dltype e : first p HEth e -> shows p MDlType (GInt (eth_type e))
| sh_proto i : first p HIp4 i -> shows p MNwProto (GInt (ip_proto i))
| sh_tos i : first p HIp4 i -> shows p MNwTos (GInt (ip_tos i))
| sh_nwsrc i : first p HIp4 i -> shows p MNwSrc (GIp (ip_src i))
| sh_nwdst i : first p HIp4 i -> shows p MNwDst (GIp (ip_dst i))
| sh_tcpsrc t : first p HTcp t -> shows p MTpSrc (GInt (tcp_src t))
| sh_tcpdst t : first p HTcp t -> shows p MTpDst (GInt (tcp_dst t))
| sh_udpsrc u : first p HUdp u -> shows p MTpSrc (GInt (udp_src u))
| sh_udpdst u : first p HUdp u -> shows p MTpDst (GInt (udp_dst u))
| sh_icmpt c : first p HIcmp c -> shows p MTpSrc (GInt (ic_type c))
| sh_icmpc c : first p HIcmp c -> shows p MTpDst (GInt (ic_code c)).

(** The wildcard bits of ofp_flow_wildcards. *)
Definition wild_no (f : mfld) : Z :=
  match f with
  | MDlVlan => 1 | MDlSrc => 2 | MDlDst => 3 | MDlType => 4 | MNwProto => 5 | MTpSrc => 6 | MTpDst => 7
  | MDlVlanPcp => 20 | MNwTos => 21 | MNwSrc | MNwDst => 0
  end.
Definition agrees (m : ofmatch) (f : mfld) (v : gval) : Prop :=
  match f with
  | MNwSrc => exists a, v = GIp a /\ unbe a / 2 ^ m_srcw m = unbe (m_nwsrc m) / 2 ^ m_srcw m
  | MNwDst => exists a, v = GIp a /\ unbe a / 2 ^ m_dstw m = unbe (m_nwdst m) / 2 ^ m_dstw m
  | _ => Z.testbit (make_bitmap (m_wild m)) (wild_no f) = true \/ v = mval m f
  end.
Definition ip4ok (b : bytes) : Prop := length b = 4%nat /\ wfb b.
Definition wf_m (m : ofmatch) : Prop :=
  ip4ok (m_nwsrc m) /\ ip4ok (m_nwdst m) /\ 0 <= m_srcw m <= 32 /\ 0 <= m_dstw m <= 32.
(** Packets the code can match as expected: no VLAN tag, no ARP, no IPv6, no ICMPv6. *)
Definition plain_hdr (h : hdr) : Prop :=
  match h with
  | HVlan _ | HArp _ | HIp6 _ | HIcmp6 _ => False
  | HIp4 i => ip4ok (ip_src i) /\ ip4ok (ip_dst i)
  | _ => True
  end.
Definition plain (p : packet) : Prop := Forall plain_hdr p.
Definition no_udp (p : packet) : Prop := forall u, ~ In (HUdp u) p.

(** ** Lookup *)
(** The entry a lookup should use: it matches, and no matching entry has a higher priority. *)
Definition best (t : table) (p : packet) (e : tentry) : Prop :=
  In e t /\ matches_packet (te_match e) p = Ok true /\
  forall e', In e' t -> matches_packet (te_match e') p = Ok true -> te_prio e' <= te_prio e.
Fixpoint ascending (t : table) : Prop :=
  match t with
  | [] => True
  | e :: t' => (forall x, In x t' -> te_prio e <= te_prio x) /\ ascending t'
  end.
(** A timeout that has run out: idle since the last match (or since creation), or too old. *)
Definition overdue (now : Z) (e : tentry) : Prop :=
  (0 < te_idle e /\ te_idle e < now - match te_last e with Some l => l | None => te_created e end) \/
  (0 < te_hard e /\ te_hard e < now - te_created e).
(** A lookup that names its input port wants that port or an entry for any port. *)
Definition eligible (p : packet) (inport : option Z) (e : tentry) : Prop :=
  matches_packet (te_match e) p = Ok true /\
  match inport with None => True | Some i => m_inport (te_match e) = ofpNone \/ m_inport (te_match e) = i end.

(** Values an OpenFlow 1.0 match field can hold. *)
Definition settable (f : mfld) (v : gval) : Prop :=
  match f, v with
  | (MDlSrc | MDlDst), GHw a => length a = 6%nat
  | MDlType, GInt z => In z EtherTypes
  | MNwProto, GInt z => In z IPProtocols
  | MNwTos, GInt z => 0 <= z < 256
  | (MTpSrc | MTpDst), GInt z => 0 <= z < 65536
  | (MNwSrc | MNwDst), GIp a => ip4ok a
  | (MDlVlan | MDlVlanPcp), GInt _ => True
  | _, _ => False
  end.
(** No wildcards at all. *)
Definition exact (m : ofmatch) : Prop := m_wild m = [] /\ m_srcw m = 0 /\ m_dstw m = 0.
