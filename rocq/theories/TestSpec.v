(** What it means for a packet to meet an expectation, for a run to follow a script, and for a scenario to survive saving. *)
From Verif Require Import Base Dict EthAddrModel Enums EthModel ArpModel Ipv4Model TransportModel Ipv6Model IcmpModel IcmpProofs IcmpCodecProofs RipModel PacketModel PacketSpec
  NetModel TestModel.
From Coq Require Export Permutation.
#[local] Open Scope string_scope.
#[local] Open Scope Z_scope.
#[local] Open Scope list_scope.

(** ** Packets *)
(** IPv4 options that compare equal: timestamp options without regard to their pointer. *)
Inductive same_option : ipopt -> ipopt -> Prop :=
| so_refl o : same_option o o
| so_ts p p' f l : same_option (OTs p f l) (OTs p' f l).
(** ICMP bodies that compare equal: an echo body against its identifier, sequence and data, another only by its data; an object of the
    base class never equals an echo body. *)
Definition same_body (a b : icmpdata) : Prop :=
  match a with
  | DEcho _ _ i s x =>
      match b with DEcho _ _ i' s' x' | DMask _ i' s' _ x' => i = i' /\ s = s' /\ x = x' | _ => False end
  | DPlain KBase _ => match b with DEcho _ _ _ _ _ => False | _ => data_payload a = data_payload b end
  | _ => data_payload a = data_payload b
  end.
(** [on n P]: P, unless attribute [n] of class [c] is wildcarded. *)
Definition on (wc : list (hcls * str)) (c : hcls) (n : str) (P : Prop) : Prop := In (c, n) wc \/ P.
(** A header that agrees with the reference header as far as an exact match goes. *)
Definition exact_same (wc : list (hcls * str)) (r h : hdr) : Prop :=
  let on := on wc (class_of r) in
  match r, h with
  | HEth a, HEth b => on "src" (eth_src a = eth_src b) /\ on "dst" (eth_dst a = eth_dst b) /\ on "ethertype" (eth_type a = eth_type b)
  | HVlan a, HVlan b => on "vlanid" (vl_id a = vl_id b) /\ on "pcp" (vl_pcp a = vl_pcp b) /\ on "ethertype" (vl_type a = vl_type b)
  | HArp a, HArp b =>
      on "operation" (arp_op a = arp_op b) /\ on "hardwaretype" (arp_hwtype a = arp_hwtype b) /\ on "protocoltype" (arp_prototype a = arp_prototype b) /\
      on "senderhwaddr" (arp_shw a = arp_shw b) /\ on "senderprotoaddr" (arp_sproto a = arp_sproto b) /\
      on "targethwaddr" (arp_thw a = arp_thw b) /\ on "targetprotoaddr" (arp_tproto a = arp_tproto b)
  | HIp4 a, HIp4 b =>
      on "src" (ip_src a = ip_src b) /\ on "dst" (ip_dst a = ip_dst b) /\ on "protocol" (ip_proto a = ip_proto b) /\ on "ttl" (ip_ttl a = ip_ttl b) /\
      on "ipid" (ip_id a = ip_id b) /\ on "flags" (ip_flags a = ip_flags b) /\ on "fragment_offset" (ip_frag a = ip_frag b) /\
      on "tos" (ip_tos a = ip_tos b) /\ on "dscp" (ip_tos a / 4 = ip_tos b / 4) /\ on "ecn" (ip_tos a mod 4 = ip_tos b mod 4) /\
      on "total_length" (ip_totlen a = ip_totlen b) /\ on "options" (Forall2 same_option (ip_opts a) (ip_opts b)) /\
      on "hl" (exists m n, ip_size a = Ok m /\ ip_size b = Ok n /\ m / 4 = n / 4)
  | HIp6 a, HIp6 b =>
      on "src" (v6_src a = v6_src b) /\ on "dst" (v6_dst a = v6_dst b) /\ on "nextheader" (v6_nh a = v6_nh b) /\ on "ttl" (v6_ttl a = v6_ttl b) /\
      on "hoplimit" (v6_ttl a = v6_ttl b) /\ on "trafficclass" (v6_tc a = v6_tc b) /\ on "flowlabel" (v6_flow a = v6_flow b)
  | HRoute a, HRoute b => on "address" (ro_addr a = ro_addr b) /\ on "nextheader" (ro_nh a = ro_nh b) /\ on "protocol" (ro_nh a = ro_nh b)
  | HFrag a, HFrag b =>
      on "id" (fr_id a = fr_id b) /\ on "mf" (fr_mf a = fr_mf b) /\ on "offset" (fr_off a = fr_off b) /\
      on "nextheader" (fr_nh a = fr_nh b) /\ on "protocol" (fr_nh a = fr_nh b)
  | HHop a, HHop b | HDest a, HDest b => on "nextheader" (ho_nh a = ho_nh b) /\ on "protocol" (ho_nh a = ho_nh b)
  | HUdp a, HUdp b => on "src" (udp_src a = udp_src b) /\ on "dst" (udp_dst a = udp_dst b) /\ on "length" (udp_len a = udp_len b)
  | HTcp a, HTcp b =>
      on "src" (tcp_src a = tcp_src b) /\ on "dst" (tcp_dst a = tcp_dst b) /\ on "seq" (tcp_seq a = tcp_seq b) /\ on "ack" (tcp_ack a = tcp_ack b) /\
      on "flags" (tcp_flags a = tcp_flags b) /\ on "window" (tcp_window a = tcp_window b) /\ on "urgent_pointer" (tcp_urg a = tcp_urg b) /\
      on "FIN" (Z.testbit (tcp_flags a) 0 = Z.testbit (tcp_flags b) 0) /\ on "SYN" (Z.testbit (tcp_flags a) 1 = Z.testbit (tcp_flags b) 1) /\
      on "RST" (Z.testbit (tcp_flags a) 2 = Z.testbit (tcp_flags b) 2) /\ on "PSH" (Z.testbit (tcp_flags a) 3 = Z.testbit (tcp_flags b) 3) /\
      on "ACK" (Z.testbit (tcp_flags a) 4 = Z.testbit (tcp_flags b) 4) /\ on "URG" (Z.testbit (tcp_flags a) 5 = Z.testbit (tcp_flags b) 5) /\
      on "ECE" (Z.testbit (tcp_flags a) 6 = Z.testbit (tcp_flags b) 6) /\ on "CWR" (Z.testbit (tcp_flags a) 7 = Z.testbit (tcp_flags b) 7) /\
      on "NS" (Z.testbit (tcp_flags a) 8 = Z.testbit (tcp_flags b) 8) /\
      on "flagstr" (forall k, 0 <= k <= 8 -> Z.testbit (tcp_flags a) k = Z.testbit (tcp_flags b) k)
  | HIcmp a, HIcmp b => on "icmptype" (ic_type a = ic_type b) /\ on "icmpcode" (ic_code a = ic_code b) /\ on "icmpdata" (same_body (ic_data a) (ic_data b))
  | HIcmp6 a, HIcmp6 b =>
      on "icmptype" (ic_type a = ic_type b) /\ on "icmp6type" (ic_type a = ic_type b) /\ on "icmpcode" (ic_code a = ic_code b) /\
      on "icmp6code" (ic_code a = ic_code b) /\ on "icmpdata" (same_body (ic_data a) (ic_data b))
  | HRip a, HRip b => on "command" (rip_cmd a = rip_cmd b)
  | HNull a, HNull b => on "af" (a = b)
  | HRaw a, HRaw b => on "data" (a = b)
  | HNullHdr, HNullHdr => True
  | HBytes _, HBytes _ => True
  | _, _ => False
  end.
(** The same for an inexact match: addresses and demultiplexing fields only. *)
Definition inexact_same (wc : list (hcls * str)) (r h : hdr) : Prop :=
  let on := on wc (class_of r) in
  match r, h with
  | HEth a, HEth b => on "src" (eth_src a = eth_src b) /\ on "dst" (eth_dst a = eth_dst b) /\ on "ethertype" (eth_type a = eth_type b)
  | HVlan a, HVlan b => on "vlanid" (vl_id a = vl_id b) /\ on "ethertype" (vl_type a = vl_type b)
  | HArp a, HArp b =>
      on "senderhwaddr" (arp_shw a = arp_shw b) /\ on "senderprotoaddr" (arp_sproto a = arp_sproto b) /\
      on "targethwaddr" (arp_thw a = arp_thw b) /\ on "targetprotoaddr" (arp_tproto a = arp_tproto b)
  | HIp4 a, HIp4 b => on "src" (ip_src a = ip_src b) /\ on "dst" (ip_dst a = ip_dst b) /\ on "protocol" (ip_proto a = ip_proto b)
  | HIp6 a, HIp6 b => on "src" (v6_src a = v6_src b) /\ on "dst" (v6_dst a = v6_dst b) /\ on "nextheader" (v6_nh a = v6_nh b)
  | HUdp a, HUdp b => on "src" (udp_src a = udp_src b) /\ on "dst" (udp_dst a = udp_dst b)
  | HTcp a, HTcp b => on "src" (tcp_src a = tcp_src b) /\ on "dst" (tcp_dst a = tcp_dst b)
  | HIcmp a, HIcmp b | HIcmp6 a, HIcmp6 b => on "icmptype" (ic_type a = ic_type b) /\ on "icmpcode" (ic_code a = ic_code b)
  | _, _ => class_of r = class_of h
  end.
(** Parts of two headers that are sent but not compared (nor computed from what is compared). *)
Definition echo_body (d : icmpdata) : Prop := match d with DEcho _ _ _ _ _ => True | _ => False end.
Definition no_timestamp (o : ipopt) : Prop := match o with OTs _ _ _ => False | _ => True end.
Definition hidden_same (r h : hdr) : Prop :=
  match r, h with
  | HArp a, HArp b => arp_hwlen a = arp_hwlen b /\ arp_protolen a = arp_protolen b
  | HIp4 a, HIp4 b => Forall no_timestamp (ip_opts a) \/ ip_opts a = ip_opts b
  | HRoute a, HRoute b => ro_dlen a = ro_dlen b /\ ro_type a = ro_type b /\ ro_left a = ro_left b
  | HFrag a, HFrag b => fr_dlen a = fr_dlen b
  | HHop a, HHop b | HDest a, HDest b => ho_opts a = ho_opts b
  | HIcmp a, HIcmp b | HIcmp6 a, HIcmp6 b => (echo_body (ic_data a) /\ echo_body (ic_data b)) \/ ic_data a = ic_data b
  | HRip a, HRip b => rip_routes a = rip_routes b
  | _, _ => True
  end.
(** Headers that reading back gives exactly: options not ending in End-of-list, ICMP bodies of the class of their type. *)
Definition ends_in_end (l : list ipopt) : Prop := exists k, l = k ++ [OEnd].
Definition canonical (h : hdr) : Prop :=
  match h with
  | HIp4 x => ~ ends_in_end (ip_opts x)
  | HIcmp x | HIcmp6 x => received (ic_type x) (ic_data x) = ic_data x
  | _ => True
  end.

(** ** Printing *)
(** Packets that have a text form: without router advertisements and home address options. *)
Definition prints (h : hdr) : Prop :=
  match h with
  | HIcmp x | HIcmp6 x => match ic_data x with DRA _ _ _ _ _ _ _ _ _ => False | _ => True end
  | HHop x | HDest x => forall a, ~ In (VHome a) (ho_opts x)
  | _ => True
  end.
Definition printable (p : packet) : Prop := Forall prints p.
(** What the bytes of a packet are read as. *)
Definition reads_as (p q : packet) : Prop := exists p' b, pkt_to_bytes p = Ok (p', b) /\ pkt_new b (first_cls p) = Ok q.
Definition printable_event (e : event) : Prop :=
  match e with
  | EvIn _ p => printable p /\ forall q, reads_as p q -> printable q
  | EvTimeout _ => True
  | EvOut o => Forall (fun x => printable (m_ref (snd x))) (oe_wait o)
  end.
Definition printable_call (c : call) : Prop := match c with CRecv => True | CSend _ p => printable p end.

(** ** Scripts *)
(** What can be handed over by a receive call. *)
Definition deliverable (ifs : devinfo) (e : event) : Prop :=
  match e with
  | EvIn dev p => In dev (dkeys ifs) /\ exists p' b q, pkt_to_bytes p = Ok (p', b) /\ pkt_new b (first_cls p) = Ok q
  | _ => True
  end.
Definition meets (m : matcher) (p : packet) : Prop := exists p', m_match m p = Ok (true, p').
(** The device a send call goes to. *)
Definition goes_to (ifs : devinfo) (a : devarg) (dev : str) : Prop :=
  match a with DName n => n = dev | DNum k => by_num k ifs = Ok dev | DIface i => if_name i = dev end.
(** One send call for one outstanding expectation. *)
Definition send_for (ifs : devinfo) (x : str * matcher) (c : call) : Prop :=
  exists a p, c = CSend a p /\ goes_to ifs a (fst x) /\ meets (snd x) p.
(** A list of calls that follows a list of events: one receive per input or timeout event, for an output event one
    matching send per expected device, in any order. *)
Inductive follows (ifs : devinfo) : list event -> list call -> Prop :=
| f_nil : follows ifs [] []
| f_in dev p es cs : follows ifs es cs -> follows ifs (EvIn dev p :: es) (CRecv :: cs)
| f_timeout n es cs : follows ifs es cs -> follows ifs (EvTimeout n :: es) (CRecv :: cs)
| f_out o ord sends es cs : Permutation (oe_wait o) ord -> Forall2 (send_for ifs) ord sends -> follows ifs es cs ->
    follows ifs (EvOut o :: es) (sends ++ cs).
(** A freshly made event: output events expect something, each device once, and have seen nothing. *)
Definition fresh_event (e : event) : Prop :=
  match e with EvOut o => oe_wait o <> [] /\ NoDup (dkeys (oe_wait o)) /\ oe_got o = [] | _ => True end.
(** The result of a call is no failure: a packet or (for a timeout event) NoPackets for a receive, nothing for a send. *)
Definition fine (c : call) (a : answer) : Prop :=
  match c, a with
  | CRecv, AnsRecv _ | CRecv, AnsExn ENoPackets | CSend _ _, AnsSent => True
  | _, _ => False
  end.
(** A program that lets failures pass through and does not pretend to have been shut down. *)
Inductive honest : prog -> Prop :=
| h_return : honest Return
| h_raise e : e <> EShutdown -> honest (Raise e)
| h_call c k :
    (forall a, fine c a -> honest (k a)) ->
    (forall e, ~ fine c (AnsExn e) -> e <> EShutdown -> k (AnsExn e) = Raise e) ->
    (c = CRecv -> k (AnsExn EShutdown) = Raise EShutdown \/ honest (k (AnsExn EShutdown))) ->
    honest (Call c k).

(** ** Histories *)
(** The attempts that were accepted. *)
Fixpoint accepted (l : list (str * packet)) (rs : list (res mres)) : list (str * packet) :=
  match l, rs with
  | x :: l', Ok _ :: rs' => x :: accepted l' rs'
  | _ :: l', _ :: rs' => accepted l' rs'
  | _, _ => []
  end.
(** The events written down, with descriptions, numbered from [n]. *)
Fixpoint authored (n : Z) (os : list top) : list sev :=
  match os with
  | [] => []
  | OExpect e d :: r => mkSev e d n :: authored (n + 1) r
  | OCall _ :: r => authored n r
  end.
(** An event as written and the same event later on: part of the expected outputs may have been seen. *)
Definition later (a b : sev) : Prop :=
  sv_desc b = sv_desc a /\ sv_time b = sv_time a /\
  match sv_ev a, sv_ev b with
  | EvOut o, EvOut o' => forall dev m, dget dev (oe_wait o') = Some m -> dget dev (oe_wait o) = Some m
  | x, y => x = y
  end.
(** An event as written and the same event once passed: the packet of an input event has been read from its bytes. *)
Definition passed (a b : sev) : Prop :=
  sv_desc b = sv_desc a /\ sv_time b = sv_time a /\
  match sv_ev a, sv_ev b with
  | EvIn d p, EvIn d' q => d' = d /\ (reads_as p q \/ q = p /\ forall r, ~ reads_as p r)
  | EvOut o, EvOut o' => forall dev m, dget dev (oe_wait o') = Some m -> dget dev (oe_wait o) = Some m
  | x, y => x = y
  end.
(** All that was expected has been seen. *)
Definition complete (a : sev) : Prop := match sv_ev a with EvOut o => oe_wait o = [] | _ => True end.
(** The packet a receive call hands over for an input event: the scripted packet as the wire would show it. *)
Definition hands_over (e : event) (a : answer) : Prop :=
  match e with
  | EvIn dev p => exists p' b q t, pkt_to_bytes p = Ok (p', b) /\ pkt_new b (first_cls p) = Ok q /\ a = AnsRecv (mkRecv t dev q)
  | EvTimeout _ => a = AnsExn ENoPackets
  | EvOut _ => False
  end.
Definition is_input (e : sev) : bool := match sv_ev e with EvOut _ => false | _ => true end.
(** Receive calls that were answered by a packet or, at a timeout event, by NoPackets. *)
Fixpoint took (l : list (call * answer)) : list answer :=
  match l with
  | [] => []
  | (CRecv, AnsRecv r) :: t => AnsRecv r :: took t
  | (CRecv, AnsExn ENoPackets) :: t => AnsExn ENoPackets :: took t
  | _ :: t => took t
  end.
Fixpoint times (l : list (call * answer)) : list Z :=
  match l with [] => [] | (_, AnsRecv r) :: t => rv_time r :: times t | _ :: t => times t end.

(** ** Saving *)
(** Packets the saved form keeps: headers that announce each other, values that fit their fields, canonical, no IPv4 options. *)
Definition no_ip_options (h : hdr) : Prop := match h with HIp4 x => ip_opts x = [] | _ => True end.
Definition storable (p : packet) : Prop := chained p /\ Forall wf_hdr p /\ Forall canonical p /\ Forall no_ip_options p.
Definition storable_event (e : event) : Prop :=
  match e with EvIn _ p => storable p | EvTimeout _ => True | EvOut o => Forall (fun x => storable (m_ref (snd x))) (oe_wait o) end.
(** Packets that compare equal, send the same bytes, start with the same header class and have a text form or not. *)
Definition same_pkt (p q : packet) : Prop := pkt_eqb p q = Ok true /\ pkt_to_bytes q = pkt_to_bytes p /\ first_cls q = first_cls p /\ (printable q <-> printable p).
Definition same_matcher (a b : matcher) : Prop :=
  m_exact b = m_exact a /\ m_wc b = m_wc a /\ m_preds b = m_preds a /\ same_pkt (m_ref a) (m_ref b).
Definition same_event (a b : event) : Prop :=
  match a, b with
  | EvIn d p, EvIn d' q => d' = d /\ same_pkt p q
  | EvTimeout n, EvTimeout m => m = n
  | EvOut o, EvOut o' => Forall2 (fun x y => fst y = fst x /\ same_matcher (snd x) (snd y)) (oe_wait o) (oe_wait o') /\ oe_got o' = oe_got o
  | _, _ => False
  end.
Definition same_sev (a b : sev) : Prop := sv_desc b = sv_desc a /\ sv_time b = sv_time a /\ same_event (sv_ev a) (sv_ev b).
