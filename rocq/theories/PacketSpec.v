(** Specifications for whole packets: which header a header announces, and what a receiver can expect to read back. *)
From Verif Require Import BaseLemmas CodecLemmas EthAddrModel EthAddrSpec Enums EthModel ArpModel EthProofs ChecksumModel Ipv4Model Ipv4Proofs
  TransportModel TransportProofs Ipv6Model Ipv6Proofs Ipv6ExtProofs IcmpModel IcmpProofs IcmpCodecProofs RipModel PacketModel.

(** The header class announced by the type field, by IEEE/IANA number. *)
Fixpoint assoc (k : Z) (l : list (Z * hcls)) : option hcls :=
  match l with [] => None | (n, c) :: r => if n =? k then Some c else assoc k r end.
Definition ethertype_table : list (Z * hcls) := [(0x0800, CIp4); (0x0806, CArp); (0x86dd, CIp6)].
Definition ip4_table : list (Z * hcls) := [(1, CIcmp); (6, CTcp); (17, CUdp)].
Definition ip6_table : list (Z * hcls) :=
  [(0, CHop); (6, CTcp); (17, CUdp); (43, CRoute); (44, CFrag); (58, CIcmp6); (60, CDest)].
Definition ip6_says (p : option Z) : option hcls := match p with Some p => assoc p ip6_table | None => None end.
Definition says_next (h : hdr) : option hcls :=
  match h with
  | HEth x => assoc (eth_type x) ((0x8100, CVlan) :: ethertype_table)
  | HVlan x => assoc (vl_type x) ethertype_table
  | HIp4 x => assoc (ip_proto x) ip4_table
  | HIp6 x => assoc (v6_nh x) ip6_table
  | HRoute x => ip6_says (ro_nh x)
  | HFrag x => ip6_says (fr_nh x)
  | HHop x | HDest x => ip6_says (ho_nh x)
  | HNull af => assoc af [(2, CIp4); (10, CIp6)]
  | _ => None
  end.

(** A stack of headers, each announcing the next; the last may be followed by a non-empty payload. *)
Definition wire_header (h : hdr) : Prop :=
  match h with HRip _ | HNullHdr | HRaw _ | HBytes _ => False | _ => True end.
Definition is_icmp (h : hdr) : bool := match h with HIcmp _ | HIcmp6 _ => true | _ => false end.
Fixpoint chained (hs : list hdr) : Prop :=
  match hs with
  | [] => False
  | h :: t =>
      wire_header h /\
      match t with
      | [] => says_next h = None
      | [HRaw p] => p <> [] /\ says_next h = None /\ is_icmp h = false
      | h2 :: _ => says_next h = Some (class_of h2) /\ chained t
      end
  end.

(** Header values that fit their wire fields (lengths and checksums are whatever they are). *)
Definition wf_hdr (h : hdr) : Prop :=
  match h with
  | HEth x => wf_eth x /\ eth_type x <> 1500
  | HVlan x => wf_vlan x
  | HArp x => wf_arp x
  | HIp4 x => wf_ip (ip_with_totlen 0 x) /\ exists ob, opts_to_bytes (ip_opts x) = Ok ob /\ zlen ob <= 40
  | HIp6 x => wf_ip6 x
  | HRoute x =>
      exists nh left addr dlen, x = mkV6route (Some nh) dlen 2 left addr /\ In nh IPProtocols /\ 0 <= dlen <= 3 /\
      0 <= left < 256 /\ length addr = 16%nat
  | HFrag x => exists nh, fr_nh x = Some nh /\ In nh IPProtocols /\ fr_dlen x = 0 /\ wf_frag x
  | HHop x | HDest x =>
      exists nh, ho_nh x = Some nh /\ In nh IPProtocols /\ Forall wf_v6opt (ho_opts x) /\
      (zlen (v6opts_layout (ho_opts x)) + 2) mod 8 = 0 /\ zlen (v6opts_layout (ho_opts x)) + 2 <= 2048
  | HUdp x => True
  | HTcp x => wf_tcp x
  | HIcmp x => consistent false x /\ wf_data (ic_data x)
  | HIcmp6 x => consistent true x /\ wf_data (ic_data x)
  | HNull af => af = 2 \/ af = 10
  | _ => True
  end.

(** What the receiver reads: the same header, except that IPv4 options come with their padding, TCP objects do not keep
    length and checksum, and ICMP data is of the class of its type ([received]). *)
Definition read_as (h h' : hdr) : Prop :=
  match h, h' with
  | HIp4 x, HIp4 y =>
      exists k, (k <= 4)%nat /\ (ip_opts x = [] -> k = 0%nat) /\
      y = mkIp4 (ip_tos x) (ip_totlen x) (ip_ttl x) (ip_id x) (ip_flags x) (ip_frag x) (ip_proto x) (ip_src x) (ip_dst x)
                (ip_opts x ++ repeat OEnd k)
  | HTcp x, HTcp y =>
      y = mkTcp (tcp_src x) (tcp_dst x) (tcp_seq x) (tcp_ack x) (tcp_flags x) (tcp_window x) (tcp_urg x) 0 0
  | HIcmp x, HIcmp y | HIcmp6 x, HIcmp6 y =>
      y = mkIcmp (ic_type x) (ic_code x) (received (ic_type x) (ic_data x)) (ic_csum x)
  | _, _ => h' = h
  end.

(** ** The header container as a list *)
(** [h] is of kind [c]: an ICMPv6 header is also an ICMP header, a destination option header also a hop option header. *)
Definition is_a (h : hdr) (c : hcls) : Prop :=
  class_of h = c \/ (class_of h = CIcmp6 /\ c = CIcmp) \/ (class_of h = CDest /\ c = CHop).
(** Position [n] denoted by Python index [i] in a list of length [len]. *)
Definition denotes (len i n : Z) : Prop := 0 <= n < len /\ (i = n \/ i = n - len).
(** Place where list.insert puts an element. *)
Definition insert_place (len i n : Z) : Prop :=
  (0 <= i <= len /\ n = i) \/ (len < i /\ n = len) \/ (- len <= i < 0 /\ n = len + i) \/ (i < - len /\ n = 0).
(** The first header of kind [c] is [h], behind the headers [a]. *)
Definition first_of (P : hdr -> Prop) (p a : list hdr) (h : hdr) : Prop :=
  exists b, p = a ++ h :: b /\ P h /\ Forall (fun x => ~ P x) a.
Definition none_of (P : hdr -> Prop) (p : list hdr) : Prop := Forall (fun x => ~ P x) p.
(** Bytes given to add_header become payload. *)
Definition as_header (h : hdr) : hdr := match h with HBytes b => HRaw b | _ => h end.

Inductive acts (p : list hdr) : pkt_op -> list hdr -> pkt_res -> Prop :=
| a_add h : acts p (PAdd h) (p ++ [as_header h]) RUnit
| a_prepend h : acts p (PPrepend h) ([h] ++ p) RUnit
| a_insert i h a b : p = a ++ b -> insert_place (zlen p) i (zlen a) -> acts p (PInsert i h) (a ++ h :: b) RUnit
| a_set i h a x b : p = a ++ x :: b -> denotes (zlen p) i (zlen a) -> acts p (PSet i h) (a ++ h :: b) RUnit
| a_set_out i h : ~ (- zlen p <= i < zlen p) -> acts p (PSet i h) p (RRaise EIndex)
| a_del i a x b : p = a ++ x :: b -> denotes (zlen p) i (zlen a) -> acts p (PDel i) (a ++ b) RUnit
| a_del_out i : ~ (- zlen p <= i < zlen p) -> acts p (PDel i) p (RRaise EIndex)
| a_delc c a x b : p = a ++ x :: b -> is_a x c -> none_of (fun h => is_a h c) a -> acts p (PDelCls c) (a ++ b) RUnit
| a_delc_no c : none_of (fun h => is_a h c) p -> acts p (PDelCls c) p (RRaise EKey)
| a_plus q : acts p (PPlus q) (p ++ map as_header q) RUnit
| a_get i a x b : p = a ++ x :: b -> denotes (zlen p) i (zlen a) -> acts p (PGet i) p (RHdr x)
| a_get_out i : ~ (- zlen p <= i < zlen p) -> acts p (PGet i) p (RRaise EIndex)
| a_getc c a x : first_of (fun h => is_a h c) p a x -> acts p (PGetCls c) p (RHdr x)
| a_getc_no c : none_of (fun h => is_a h c) p -> acts p (PGetCls c) p (RRaise EKey)
| a_find c a x : first_of (fun h => is_a h c) p a x -> acts p (PFind c) p (ROpt (Some x))
| a_find_no c : none_of (fun h => is_a h c) p -> acts p (PFind c) p (ROpt None)
| a_name c a x : first_of (fun h => class_of h = c) p a x -> acts p (PName c) p (ROpt (Some x))
| a_name_no c : none_of (fun h => class_of h = c) p -> acts p (PName c) p (ROpt None)
| a_has c a x : first_of (fun h => is_a h c) p a x -> acts p (PHas c) p (RBool true)
| a_has_no c : none_of (fun h => is_a h c) p -> acts p (PHas c) p (RBool false)
| a_index c u v a x : p = u ++ v -> first_of (fun h => is_a h c) v a x -> acts p (PIndex c (zlen u)) p (RNum (zlen u + zlen a))
| a_index_no c u v : p = u ++ v -> none_of (fun h => is_a h c) v -> acts p (PIndex c (zlen u)) p (RNum (-1))
| a_index_beyond c s : zlen p < s -> acts p (PIndex c s) p (RNum (-1))
| a_num : acts p PNum p (RNum (zlen p)).
(** A whole sequence of operations. *)
Inductive acts_all : list hdr -> list pkt_op -> list hdr -> list pkt_res -> Prop :=
| aa_nil p : acts_all p [] p []
| aa_cons p o os p1 r p2 rs : acts p o p1 r -> acts_all p1 os p2 rs -> acts_all p (o :: os) p2 (r :: rs).

(** ** Equality *)
(** ICMP messages whose data class fits the message type and has no field that comparison leaves out: no message-specific
    field at all, or (echo) identifier and sequence number. *)
Definition exact_icmp (v6 : bool) (m : icmp) : Prop :=
  zmem (ic_type m) (valid_types v6) = true /\ class_of_type v6 (ic_type m) = Some (data_class (ic_data m)) /\
  match ic_data m with DPlain c _ => data_new c = DPlain c [] | DQuench _ | DEcho _ _ _ _ _ => True | _ => False end.
(** Headers whose comparison looks at everything that is sent. *)
Definition exact_cmp (h : hdr) : Prop :=
  match h with
  | HVlan x => vl_pcp x = 0
  | HArp x => arp_hwlen x = 6 /\ arp_protolen x = 4
  | HIp4 x => ip_opts x = []
  | HIcmp x => exact_icmp false x
  | HIcmp6 x => exact_icmp true x
  | HBytes _ => False
  | _ => True
  end.

(** ** Truncated input *)
Definition min_size (c : hcls) : nat :=
  match c with
  | CEth => 14 | CVlan => 4 | CArp => 28 | CIp4 => 20 | CIp6 => 40 | CUdp => 8 | CTcp => 20 | CIcmp => 4 | CIcmp6 => 4
  | CNull => 4 | CFrag => 8 | CRoute => 24 | CHop => 2 | CDest => 2 | CRip => 4 | _ => 0
  end.
(** The bytes end inside a header of the chain that starts with class [c]. *)
Inductive truncated : hcls -> bytes -> Prop :=
| t_here c raw : (length raw < min_size c)%nat -> truncated c raw
| t_next c raw h rest c' : parse_hdr c raw = Ok (h, Some rest) -> says_next h = Some c' -> truncated c' rest -> truncated c raw.
