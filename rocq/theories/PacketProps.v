(** Properties of whole packets (packet.py, util.py, null.py). *)
From Verif Require Import BaseLemmas CodecLemmas EthAddrModel EthAddrSpec EthAddrProofs Enums EthModel ArpModel EthProofs ChecksumModel ChecksumSpec
  ChecksumProofs Ipv4Model Ipv4Proofs Ipv4Proofs2 TransportModel TransportProofs Ipv6Model Ipv6Proofs Ipv6ExtProofs
  IcmpModel IcmpProofs IcmpCodecProofs IcmpFwdProofs RipModel RipProofs PacketModel PacketSpec PacketProofs PacketParse PacketStack PacketOps
  PacketTerm PacketFwd PacketMore.

(** Concrete values used in the examples. *)
Definition xe : ethernet := mkEth [2; 0; 0; 0; 0; 2] [2; 0; 0; 0; 0; 1] 0x800.
Definition xip (proto : Z) : ipv4 := mkIp4 0 999 64 7 0 0 proto [10; 0; 0; 1] [10; 0; 0; 2] [].
Definition xudp : udp := mkUdp 1000 53 0 77.
Definition xtcp : tcp := mkTcp 1000 80 5 6 0x12 100 0 0 0.
Definition xicmp : icmp := mkIcmp 8 0 (DEcho false false 1 2 [9; 9]) 0.
Definition xip6 (nh : Z) : ipv6 := mkIp6 0 0 64 nh 0 (repeat 1 16) (repeat 2 16).

Lemma xe_wf : wf_eth xe.
Proof. split; [|split]; [split; [|reflexivity]; repeat (apply wfb_cons; split; [lia|]); apply wfb_nil| |apply zmem_In; reflexivity].
  split; [|reflexivity]; repeat (apply wfb_cons; split; [lia|]); apply wfb_nil. Qed.
Lemma xip_wf n proto : 0 <= n < 65536 -> In proto IPProtocols -> wf_ip (ip_with_totlen n (xip proto)).
Proof. intros Hn Hp. unfold wf_ip, xip, ip_with_totlen, ip4. cbn [ip_tos ip_totlen ip_ttl ip_id ip_flags ip_frag ip_proto ip_src ip_dst ip_opts].
  assert (W : forall x, wfb [10; 0; 0; x] <-> 0 <= x < 256) by (intros x; rewrite !wfb_cons; split; [tauto|intros; repeat (split; [lia|]); apply wfb_nil]).
  split; [lia|]. split; [lia|]. split; [lia|]. split; [lia|]. split; [apply zmem_In; reflexivity|]. split; [lia|]. split; [exact Hp|].
  split; [split; [apply W; lia|reflexivity]|]. split; [split; [apply W; lia|reflexivity]|]. constructor. Qed.

(** C23.  Whatever lengths and checksums the header objects hold, an Ethernet/IPv4/UDP frame leaves with a right
    total length, header checksum, UDP length and UDP checksum. *)
Theorem C23_udp_stack : forall e ip ob u payload,
  wf_eth e -> wf_ip (ip_with_totlen 0 ip) -> opts_to_bytes (ip_opts ip) = Ok ob -> zlen ob <= 40 ->
  wf_ports (udp_src u) (udp_dst u) -> wfb payload -> 28 + zlen ob + zlen payload <= 65535 ->
  exists p' eb ib ub, pkt_to_bytes [HEth e; HIp4 ip; HUdp u; HRaw payload] = Ok (p', eb ++ ib ++ ub ++ payload) /\
  eth_to_bytes e = Ok eb /\ zlen eb = 14 /\ zlen ib = 20 + zlen ob /\ zlen ub = 8 /\ ip_header_ok ip ib (ub ++ payload) /\
  unbe (firstn 2 (skipn 4 ub)) = zlen (ub ++ payload) /\
  verifies (pseudo (ip_src ip) (ip_dst ip) (ip_proto ip) (zlen (ub ++ payload)) ++ ub ++ payload).
Proof. exact stack_udp. Qed.
Print Assumptions C23_udp_stack.
Theorem C23_tcp_stack : forall e ip ob u payload,
  wf_eth e -> wf_ip (ip_with_totlen 0 ip) -> opts_to_bytes (ip_opts ip) = Ok ob -> zlen ob <= 40 ->
  wf_tcp u -> wfb payload -> 40 + zlen ob + zlen payload <= 65535 ->
  exists p' eb ib ub, pkt_to_bytes [HEth e; HIp4 ip; HTcp u; HRaw payload] = Ok (p', eb ++ ib ++ ub ++ payload) /\
  eth_to_bytes e = Ok eb /\ zlen eb = 14 /\ zlen ib = 20 + zlen ob /\ zlen ub = 20 /\ ip_header_ok ip ib (ub ++ payload) /\
  verifies (pseudo (ip_src ip) (ip_dst ip) (ip_proto ip) (zlen (ub ++ payload)) ++ ub ++ payload).
Proof. exact stack_tcp. Qed.
Print Assumptions C23_tcp_stack.
Theorem C23_icmp_stack : forall e ip ob m,
  wf_eth e -> wf_ip (ip_with_totlen 0 ip) -> opts_to_bytes (ip_opts ip) = Ok ob -> zlen ob <= 40 ->
  consistent false m -> wf_data (ic_data m) -> 24 + zlen ob + zlen (data_layout (ic_data m)) <= 65535 ->
  exists p' eb ib mb, pkt_to_bytes [HEth e; HIp4 ip; HIcmp m] = Ok (p', eb ++ ib ++ mb) /\
  eth_to_bytes e = Ok eb /\ zlen eb = 14 /\ zlen ib = 20 + zlen ob /\ ip_header_ok ip ib mb /\
  firstn 2 mb = [ic_type m; ic_code m] /\ skipn 4 mb = data_layout (ic_data m) /\ verifies mb.
Proof. exact stack_icmp. Qed.
Print Assumptions C23_icmp_stack.
Theorem C23_icmp6_stack : forall e ip m,
  wf_eth e -> wf_ip6 ip -> consistent true m -> wf_data (ic_data m) -> 4 + zlen (data_layout (ic_data m)) <= 65535 ->
  exists p' eb ib mb, pkt_to_bytes [HEth e; HIp6 ip; HIcmp6 m] = Ok (p', eb ++ ib ++ mb) /\
  eth_to_bytes e = Ok eb /\ zlen ib = 40 /\ unbe (firstn 2 (skipn 4 ib)) = zlen mb /\
  firstn 2 mb = [ic_type m; ic_code m] /\ skipn 4 mb = data_layout (ic_data m) /\
  verifies (pseudo6 (v6_src ip) (v6_dst ip) (zlen mb) 58 ++ mb).
Proof. exact stack_icmp6. Qed.
Print Assumptions C23_icmp6_stack.
(** A stale total length (999) and checksum (77) are replaced. *)
Example C23_example : wf_eth xe /\ wf_ip (ip_with_totlen 0 (xip 17)) /\
  exists p', pkt_to_bytes [HEth xe; HIp4 (xip 17); HUdp xudp; HRaw [1; 2; 3]] =
  Ok (p', [2; 0; 0; 0; 0; 2; 2; 0; 0; 0; 0; 1; 8; 0] ++
          [0x45; 0; 0; 31; 0; 7; 0; 0; 64; 17; 0x66; 0xc5; 10; 0; 0; 1; 10; 0; 0; 2] ++ [3; 0xe8; 0; 53; 0; 11; 0xe3; 0xb6; 1; 2; 3]).
Proof. split; [exact xe_wf|]. split; [apply xip_wf; [lia|apply zmem_In; reflexivity]|]. eexists. vm_compute. reflexivity. Qed.
(** Outside the stacks of C23: a payload behind an ICMP header is not covered by the ICMP checksum. *)
Theorem C23_icmp_payload_refuted :
  exists e ip m payload p' eb ib mb, wf_eth e /\ wf_ip ip /\ consistent false m /\
  pkt_to_bytes [HEth e; HIp4 ip; HIcmp m; HRaw payload] = Ok (p', eb ++ ib ++ mb ++ payload) /\ zlen eb = 14 /\ zlen ib = 20 /\
  verifies mb /\ ~ verifies (mb ++ payload).
Proof. exists xe, (xip 1), xicmp, [1; 2]. eexists.
  exists [2; 0; 0; 0; 0; 2; 2; 0; 0; 0; 0; 1; 8; 0], [0x45; 0; 0; 32; 0; 7; 0; 0; 64; 1; 0x66; 0xd4; 10; 0; 0; 1; 10; 0; 0; 2], [8; 0; 0xee; 0xf3; 0; 1; 0; 2; 9; 9].
  split; [exact xe_wf|]. split; [apply (xip_wf 999); [lia|apply zmem_In; reflexivity]|].
  split; [split; [vm_compute; tauto|vm_compute; tauto]|].
  split; [vm_compute; reflexivity|]. split; [reflexivity|]. split; [reflexivity|]. split; [vm_compute; reflexivity|]. vm_compute. discriminate. Qed.
Print Assumptions C23_icmp_payload_refuted.

(** C24.  A packet whose headers announce each other is read back, header by header, from its serialised form, and
    the packet read compares equal to the one that was sent. *)
Theorem C24_packet_round_trip : forall h t p' b, chained (h :: t) -> Forall wf_hdr (h :: t) -> pkt_to_bytes (h :: t) = Ok (p', b) ->
  exists q, pkt_new b (class_of h) = Ok q /\ Forall2 read_as p' q /\ pkt_eqb (h :: t) q = Ok true.
Proof. intros h t p' b Hc Hw H. destruct (packet_round_trip h t p' b Hc Hw H) as (q & Q1 & Q2).
  exists q. split; [exact Q1|]. split; [exact Q2|]. exact (packet_read_equal _ _ _ _ H Q2). Qed.
Print Assumptions C24_packet_round_trip.
Example C24_example :
  let p := [HEth xe; HIp4 (xip 17); HUdp xudp; HRaw [1; 2; 3]] in
  chained p /\ Forall wf_hdr p /\ exists p' b, pkt_to_bytes p = Ok (p', b) /\ pkt_parse b = Ok p'.
Proof. cbv zeta. split; [vm_compute; repeat split; discriminate|]. split.
  - constructor; [split; [exact xe_wf|discriminate]|]. constructor; [|repeat constructor].
    split; [apply xip_wf; [lia|apply zmem_In; reflexivity]|]. exists []. split; [reflexivity|]. change (zlen (@nil Z)) with 0. lia.
  - do 2 eexists. split; [vm_compute; reflexivity|]. vm_compute. reflexivity. Qed.

(** C25.  Serialising is idempotent: any number of serialisations give the same bytes, and only length and checksum
    fields of the header objects are updated. *)
Theorem C25_serialise_repeatable : forall p p' b, pkt_to_bytes p = Ok (p', b) ->
  pkt_to_bytes p' = Ok (p', b) /\ (forall n, serialise_times n p = Ok (repeat b n)) /\ Forall2 only_fixups p p'.
Proof. intros p p' b H. split; [exact (ser_idem _ _ _ _ H)|]. split; [intros n; exact (serialise_times_same n _ _ _ H)|exact (ser_fixups _ _ _ _ H)]. Qed.
Print Assumptions C25_serialise_repeatable.
Example C25_example : exists p' b, pkt_to_bytes [HEth xe; HIp4 (xip 6); HTcp xtcp; HRaw [7]] = Ok (p', b) /\
  p' <> [HEth xe; HIp4 (xip 6); HTcp xtcp; HRaw [7]] /\ pkt_to_bytes p' = Ok (p', b).
Proof. do 2 eexists. split; [vm_compute; reflexivity|]. split; [discriminate|]. vm_compute. reflexivity. Qed.

(** C26.  Every sequence of container operations acts as on a list; the list behaviour is deterministic. *)
Theorem C26_container_is_list : forall os p, Forall op_ok os ->
  acts_all p os (fst (pkt_run p os)) (snd (pkt_run p os)).
Proof. exact run_acts. Qed.
Print Assumptions C26_container_is_list.
Theorem C26_list_behaviour_unique : forall p o p1 r1 p2 r2, acts p o p1 r1 -> acts p o p2 r2 -> p1 = p2 /\ r1 = r2.
Proof. exact acts_det. Qed.
Print Assumptions C26_list_behaviour_unique.
Example C26_example :
  pkt_run [] [PAdd (HEth xe); PAdd (HBytes [1]); PInsert (-1) (HIp4 (xip 17)); PGet (-2); PIndex CRaw 1; PDel 3; PDelCls CIp4; PNum; PHas CIp4] =
  ([HEth xe; HRaw [1]], [RUnit; RUnit; RUnit; RHdr (HIp4 (xip 17)); RNum 2; RRaise EIndex; RUnit; RNum 2; RBool false]).
Proof. vm_compute. reflexivity. Qed.
(** get_header_index accepts a negative start but then returns an index that is off: an absent header and the last
    header are both reported as -1. *)
Theorem C26_negative_start_refuted : exists p,
  pkt_index p CRaw (-1) = Ok (-1) /\ pkt_index p CIp4 (-1) = Ok (-1) /\ pkt_has p CRaw = true /\ pkt_has p CIp4 = false.
Proof. exists [HEth xe; HRaw [1]]. vm_compute. auto. Qed.
Print Assumptions C26_negative_start_refuted.

(** C27.  The length of a packet is the number of bytes it serialises to, unless it holds RIPv2 or IPv6 extension
    headers, before and after serialising. *)
Theorem C27_length_partial : forall p p' b, Forall sized p -> pkt_to_bytes p = Ok (p', b) ->
  pkt_len p = Ok (zlen b) /\ pkt_len p' = Ok (zlen b).
Proof. intros p p' b F H. exact (pkt_len_ok p F [] p' b H). Qed.
Print Assumptions C27_length_partial.
Example C27_example : pkt_len [HEth xe; HIp4 (xip 17); HUdp xudp; HRaw [1; 2; 3]] = Ok 45 /\ Forall sized [HEth xe; HIp4 (xip 17); HUdp xudp; HRaw [1; 2; 3]].
Proof. split; [reflexivity|]. repeat constructor. Qed.
Theorem C27_length_refuted :
  (exists m p' b, pkt_to_bytes [HRip m] = Ok (p', b) /\ pkt_len [HRip m] = Ok 1 /\ zlen b = 24) /\
  (exists h p' b, pkt_to_bytes [HHop h] = Ok (p', b) /\ pkt_len [HHop h] = Ok 1 /\ zlen b = 8) /\
  (exists h p' b, pkt_to_bytes [HFrag h] = Ok (p', b) /\ pkt_len [HFrag h] = Ok 0 /\ zlen b = 8).
Proof. split; [|split].
  - exists (mkRip 1 [mkRipE 2 0 24 0x0a000000 0 1]). do 2 eexists. split; [vm_compute; reflexivity|]. split; reflexivity.
  - exists (mkV6hop (Some 17) 0 [VPadN 4]). do 2 eexists. split; [vm_compute; reflexivity|]. split; reflexivity.
  - exists (mkV6frag (Some 17) 0 5 0 false). do 2 eexists. split; [vm_compute; reflexivity|]. split; reflexivity. Qed.
Print Assumptions C27_length_refuted.

(** C28.  A header is never read from fewer bytes than its minimum size, and a packet that ends inside a header of its
    chain is never accepted. *)
Theorem C28_short_header : forall c raw, (length raw < min_size c)%nat -> exists e, parse_hdr c raw = Err e /\ e <> EFuel.
Proof. exact short_err. Qed.
Print Assumptions C28_short_header.
Theorem C28_truncated_packet : forall c raw, raw <> [] -> truncated c raw -> exists e, pkt_new raw c = Err e /\ e <> EFuel.
Proof. exact truncated_packet. Qed.
Print Assumptions C28_truncated_packet.
Theorem C28_cut_frame : forall e eb rest c, wf_eth e -> eth_type e <> 1500 -> eth_to_bytes e = Ok eb -> says_next (HEth e) = Some c ->
  (length rest < min_size c)%nat -> exists x, pkt_parse (eb ++ rest) = Err x /\ x <> EFuel.
Proof. exact cut_frame. Qed.
Print Assumptions C28_cut_frame.
Example C28_example : eth_to_bytes xe = Ok [2; 0; 0; 0; 0; 2; 2; 0; 0; 0; 0; 1; 8; 0] /\ says_next (HEth xe) = Some CIp4 /\
  pkt_parse ([2; 0; 0; 0; 0; 2; 2; 0; 0; 0; 0; 1; 8; 0] ++ [0x45; 0; 0; 20]) = Err ENotEnough.
Proof. repeat split; vm_compute; reflexivity. Qed.

(** C29.  The ARP helpers put exactly the RFC 826 frame on the wire and it is read back. *)
Theorem C29_arp_request : forall srchw s sip tip, eth_init srchw = Ok s -> addr6 s -> ip4 sip -> ip4 tip ->
  exists p, arp_request srchw sip tip = Ok p /\
  let wire := arp_frame (repeat 255 6) s 1 s sip (repeat 255 6) tip in
  pkt_to_bytes p = Ok (p, wire) /\ pkt_parse wire = Ok p.
Proof. exact arp_request_built. Qed.
Print Assumptions C29_arp_request.
Theorem C29_arp_reply : forall srchw s dsthw d sip tip,
  eth_init srchw = Ok s -> addr6 s -> eth_init dsthw = Ok d -> addr6 d -> ip4 sip -> ip4 tip ->
  exists p, arp_reply srchw dsthw sip tip = Ok p /\
  let wire := arp_frame d s 2 s sip d tip in
  pkt_to_bytes p = Ok (p, wire) /\ pkt_parse wire = Ok p.
Proof. exact arp_reply_built. Qed.
Print Assumptions C29_arp_reply.
(** The owner of [tip] reads the request from the wire, answers from its fields, and the requester reads from the reply
    that [tip] is at the owner's address. *)
Theorem C29_arp_exchange : forall reqhw r owner o rip tip,
  eth_init reqhw = Ok r -> addr6 r -> eth_init owner = Ok o -> addr6 o -> ip4 rip -> ip4 tip ->
  exists req req' wire e a rep rep' wire2 e2 a2,
  arp_request reqhw rip tip = Ok req /\ pkt_to_bytes req = Ok (req', wire) /\ pkt_parse wire = Ok [HEth e; HArp a] /\
  eth_dst e = repeat 255 6 /\ arp_op a = 1 /\ arp_tproto a = tip /\
  arp_reply owner (AEth (arp_shw a)) (arp_tproto a) (arp_sproto a) = Ok rep /\ pkt_to_bytes rep = Ok (rep', wire2) /\
  pkt_parse wire2 = Ok [HEth e2; HArp a2] /\
  eth_dst e2 = r /\ eth_src e2 = o /\ arp_op a2 = 2 /\ arp_shw a2 = o /\ arp_sproto a2 = tip /\ arp_thw a2 = r /\ arp_tproto a2 = rip.
Proof. exact arp_exchange. Qed.
Print Assumptions C29_arp_exchange.
(** "0:0:0:0:0:7" *)
Example C29_example : eth_init (AStr [48; 58; 48; 58; 48; 58; 48; 58; 48; 58; 55]) = Ok [0; 0; 0; 0; 0; 7] /\
  exists p, arp_request (AStr [48; 58; 48; 58; 48; 58; 48; 58; 48; 58; 55]) [10; 0; 0; 1] [10; 0; 0; 2] = Ok p.
Proof. split; [vm_compute; reflexivity|]. eexists. vm_compute. reflexivity. Qed.

(** C57 is false: whatever follows the headers of a frame becomes payload, for every stack without ICMP and every
    non-empty padding; lengths in the headers are not looked at. *)
Theorem C57_padding_becomes_payload : forall pad h t p' b, pad <> [] ->
  chained (h :: t) -> Forall wf_hdr (h :: t) -> Forall (fun h => is_icmp h = false) (h :: t) ->
  pkt_to_bytes (h :: t) = Ok (p', b) ->
  exists q, pkt_new (b ++ pad) (class_of h) = Ok q /\ Forall2 read_as (with_pad pad p') q.
Proof. exact padding_is_payload. Qed.
Print Assumptions C57_padding_becomes_payload.
Theorem C57_padding_refuted :
  exists eb ib ub payload pad e ip u q, pkt_parse (eb ++ ib ++ ub ++ payload ++ pad) = Ok [HEth e; HIp4 ip; HUdp u; HRaw q] /\
  zlen eb = 14 /\ ip_totlen ip = zlen (ib ++ ub ++ payload) /\ udp_len u = zlen (ub ++ payload) /\ q = payload ++ pad /\ pad <> [].
Proof. exists [2; 0; 0; 0; 0; 2; 2; 0; 0; 0; 0; 1; 8; 0], [0x45; 0; 0; 31; 0; 7; 0; 0; 64; 17; 0x66; 0xc5; 10; 0; 0; 1; 10; 0; 0; 2],
    [3; 0xe8; 0; 53; 0; 11; 0xe3; 0xb6], [1; 2; 3], [0; 0; 0; 0]. do 4 eexists. split; [vm_compute; reflexivity|]. repeat split. discriminate. Qed.
Print Assumptions C57_padding_refuted.

(** C63.  Packets that compare equal serialise to the same bytes when every header is of a kind whose comparison looks
    at all that is sent (VLAN without priority, ARP with the standard lengths, IPv4 without options, ICMP and ICMPv6
    echo messages and those without fields of their own). *)
Theorem C63_equal_packets_same_bytes_partial : forall p q p' b, pkt_eqb p q = Ok true -> Forall exact_cmp p -> Forall exact_cmp q ->
  pkt_to_bytes p = Ok (p', b) -> exists q', pkt_to_bytes q = Ok (q', b).
Proof. exact equal_packets_same_bytes. Qed.
Print Assumptions C63_equal_packets_same_bytes_partial.
Example C63_example :
  let p := [HEth xe; HIp4 (xip 17); HUdp xudp; HRaw [1]] in
  let q := [HEth xe; HIp4 (ip_with_totlen 3 (xip 17)); HUdp (mkUdp 1000 53 5 6); HRaw [1]] in
  pkt_eqb p q = Ok true /\ p <> q /\ Forall exact_cmp p /\ Forall exact_cmp q.
Proof. cbv zeta. split; [reflexivity|]. split; [discriminate|]. split; repeat constructor. Qed.
Example C63_icmp_example :
  let p := [HEth xe; HIp4 (xip 1); HIcmp (mkIcmp 8 0 (DEcho false false 5 6 [7]) 0)] in
  let q := [HEth xe; HIp4 (ip_with_totlen 3 (xip 1)); HIcmp (mkIcmp 8 0 (DEcho false false 5 6 [7]) 1234)] in
  pkt_eqb p q = Ok true /\ p <> q /\ Forall exact_cmp p /\ Forall exact_cmp q.
Proof. cbv zeta. split; [reflexivity|]. split; [discriminate|]. split; repeat constructor. Qed.
(** The other kinds: equal packets with different bytes. *)
Theorem C63_equal_not_same_bytes_refuted :
  (exists a b x y u v, pkt_eqb [HVlan a] [HVlan b] = Ok true /\ pkt_to_bytes [HVlan a] = Ok (x, u) /\ pkt_to_bytes [HVlan b] = Ok (y, v) /\ u <> v) /\
  (exists a b x y u v, pkt_eqb [HIp4 a] [HIp4 b] = Ok true /\ pkt_to_bytes [HIp4 a] = Ok (x, u) /\ pkt_to_bytes [HIp4 b] = Ok (y, v) /\ u <> v) /\
  (exists a b x y u v, pkt_eqb [HIcmp a] [HIcmp b] = Ok true /\ pkt_to_bytes [HIcmp a] = Ok (x, u) /\ pkt_to_bytes [HIcmp b] = Ok (y, v) /\ u <> v) /\
  (exists a b x y u v, pkt_eqb [HArp a] [HArp b] = Ok true /\ pkt_to_bytes [HArp a] = Ok (x, u) /\ pkt_to_bytes [HArp b] = Ok (y, v) /\ u <> v).
Proof. repeat split.
  - exists (mkVlan 5 0 0x800), (mkVlan 5 3 0x800). do 4 eexists. split; [reflexivity|]. split; [vm_compute; reflexivity|]. split; [vm_compute; reflexivity|]. discriminate.
  - exists (xip 17), (mkIp4 0 999 64 7 0 0 17 [10; 0; 0; 1] [10; 0; 0; 2] [ONop]). do 4 eexists. split; [reflexivity|]. split; [vm_compute; reflexivity|]. split; [vm_compute; reflexivity|]. discriminate.
  - exists (mkIcmp 5 0 (DRedirect [1; 1; 1; 1] []) 0), (mkIcmp 5 0 (DRedirect [2; 2; 2; 2] []) 0). do 4 eexists. split; [reflexivity|]. split; [vm_compute; reflexivity|]. split; [vm_compute; reflexivity|]. discriminate.
  - exists arp_new, (mkArp 1 etIP 8 4 arpRequest (arp_shw arp_new) (arp_sproto arp_new) (arp_thw arp_new) (arp_tproto arp_new)).
    do 4 eexists. split; [reflexivity|]. split; [vm_compute; reflexivity|]. split; [vm_compute; reflexivity|]. discriminate. Qed.
Print Assumptions C63_equal_not_same_bytes_refuted.

(** C66; symmetry and transitivity are in PacketEqProps.v. *)
(** A packet that can be serialised is equal to itself. *)
Theorem C66_equality_reflexive : forall p p' b, pkt_to_bytes p = Ok (p', b) -> pkt_eqb p p' = Ok true /\ pkt_eqb p' p' = Ok true.
Proof. intros p p' b H. split; [exact (packet_self_equal _ _ _ H)|]. exact (packet_self_equal _ _ _ (ser_idem _ _ _ _ H)). Qed.
Print Assumptions C66_equality_reflexive.
Example C66_example : exists p' b, pkt_to_bytes [HEth xe; HIp4 (xip 17); HUdp xudp] = Ok (p', b) /\ Forall no_icmp p' /\ pkt_eqb p' [HEth xe; HIp4 (xip 17); HUdp xudp] = Ok true.
Proof. do 2 eexists. split; [vm_compute; reflexivity|]. split; [repeat constructor|]. reflexivity. Qed.
Theorem C66_equality_symmetric_refuted : exists p q, pkt_eqb p q = Ok true /\ pkt_eqb q p = Ok false.
Proof. exists [HHop (mkV6hop (Some 17) 0 [VPadN 4])], [HDest (mkV6hop (Some 17) 0 [VPadN 4])]. split; vm_compute; reflexivity. Qed.
Print Assumptions C66_equality_symmetric_refuted.

(** C67.  Bytes given to add_header or + become payload and are sent as they are; bytes assigned, inserted or prepended
    make the packet impossible to serialise. *)
Theorem C67_added_bytes_sent_partial : forall p p' b payload, pkt_to_bytes (p ++ [HRaw payload]) = Ok (p', b) ->
  fst (pkt_run p [PAdd (HBytes payload)]) = p ++ [HRaw payload] /\ fst (pkt_run p [PPlus [HBytes payload]]) = p ++ [HRaw payload] /\
  exists front, b = front ++ payload.
Proof. intros p p' b payload H. split; [reflexivity|]. split; [reflexivity|].
  exact (payload_last _ _ _ _ _ H). Qed.
Print Assumptions C67_added_bytes_sent_partial.
Example C67_example : exists p' b, pkt_to_bytes (fst (pkt_run [HEth xe] [PAdd (HBytes [1; 2])])) = Ok (p', b) /\ skipn 14 b = [1; 2].
Proof. do 2 eexists. split; [vm_compute; reflexivity|]. vm_compute. reflexivity. Qed.
Theorem C67_other_bytes_unserialisable : forall p b i,
  (exists e, pkt_to_bytes (fst (pkt_run p [PPrepend (HBytes b)])) = Err e) /\
  (exists e, pkt_to_bytes (fst (pkt_run p [PInsert i (HBytes b)])) = Err e) /\
  (- zlen p <= i < zlen p -> exists e, pkt_to_bytes (fst (pkt_run p [PSet i (HBytes b)])) = Err e).
Proof. intros p b i.
  assert (R : forall o, fst (pkt_run p [o]) = fst (pkt_step p o)) by (intros o; cbn [pkt_run]; destruct (pkt_step p o); reflexivity).
  rewrite !R. split; [|split].
  - apply (bare_bytes_not_serialisable _ [] b). pose proof (step_acts p (PPrepend (HBytes b)) I) as A. inversion A; subst. left. reflexivity.
  - apply (bare_bytes_not_serialisable _ [] b). pose proof (step_acts p (PInsert i (HBytes b)) I) as A. inversion A; subst. apply in_or_app. right. left. reflexivity.
  - intros Hi. apply (bare_bytes_not_serialisable _ [] b). pose proof (step_acts p (PSet i (HBytes b)) I) as A.
    remember (fst (pkt_step p (PSet i (HBytes b)))) as p1. remember (snd (pkt_step p (PSet i (HBytes b)))) as r1. inversion A.
    + apply in_or_app. right. left. reflexivity.
    + exfalso. apply H3. rewrite <- H0. exact Hi. Qed.
Print Assumptions C67_other_bytes_unserialisable.
Theorem C67_bytes_refuted : exists p b, pkt_to_bytes (fst (pkt_run p [PSet (-1) (HBytes b)])) = Err EAttr.
Proof. exists [HEth xe; HRaw [1]], [2]. vm_compute. reflexivity. Qed.
Print Assumptions C67_bytes_refuted.

(** C68 is false: no checksum is computed for UDP over IPv6, for any packet ... *)
Theorem C68_udp_over_ip6_zero : forall e ip u payload p' b, pkt_to_bytes [HEth e; HIp6 ip; HUdp u; HRaw payload] = Ok (p', b) ->
  exists eb ib ub, b = eb ++ ib ++ ub ++ payload /\ zlen eb = 14 /\ zlen ib = 40 /\ zlen ub = 8 /\ skipn 6 ub = [0; 0].
Proof. exact udp_over_ip6_no_checksum. Qed.
Print Assumptions C68_udp_over_ip6_zero.
(** ... and neither for TCP, so that the segment does not verify. *)
Theorem C68_ip6_checksum_refuted :
  (exists eb ib seg p p', pkt_to_bytes p = Ok (p', eb ++ ib ++ seg) /\ zlen eb = 14 /\ zlen ib = 40 /\ map class_of p = [CEth; CIp6; CTcp] /\
    ~ verifies (pseudo6 (repeat 1 16) (repeat 2 16) (zlen seg) 6 ++ seg)) /\
  (exists eb ib seg p p', pkt_to_bytes p = Ok (p', eb ++ ib ++ seg) /\ zlen eb = 14 /\ zlen ib = 40 /\ map class_of p = [CEth; CIp6; CUdp; CRaw] /\
    ~ verifies (pseudo6 (repeat 1 16) (repeat 2 16) (zlen seg) 17 ++ seg)).
Proof. split.
  - exists [2; 0; 0; 0; 0; 2; 2; 0; 0; 0; 0; 1; 0x86; 0xdd], ([0x60; 0; 0; 0; 0; 20; 6; 64] ++ repeat 1 16 ++ repeat 2 16),
      [3; 0xe8; 0; 80; 0; 0; 0; 5; 0; 0; 0; 6; 0x50; 0x12; 0; 100; 0; 0; 0; 0], [HEth (mkEth [2; 0; 0; 0; 0; 2] [2; 0; 0; 0; 0; 1] 0x86dd); HIp6 (xip6 6); HTcp xtcp].
    eexists. split; [vm_compute; reflexivity|]. repeat split. vm_compute. discriminate.
  - exists [2; 0; 0; 0; 0; 2; 2; 0; 0; 0; 0; 1; 0x86; 0xdd], ([0x60; 0; 0; 0; 0; 9; 17; 64] ++ repeat 1 16 ++ repeat 2 16),
      [3; 0xe8; 0; 53; 0; 9; 0; 0; 1], [HEth (mkEth [2; 0; 0; 0; 0; 2] [2; 0; 0; 0; 0; 1] 0x86dd); HIp6 (xip6 17); HUdp xudp; HRaw [1]].
    eexists. split; [vm_compute; reflexivity|]. repeat split. vm_compute. discriminate. Qed.
Print Assumptions C68_ip6_checksum_refuted.

(** C69.  Parsing a packet finishes, within one round per byte, unless the option loop of an IPv4 or ICMPv6 header inside it
    does not (C16, C21). *)
Theorem C69_packet_parse_terminates_partial : forall raw c, pkt_new raw c = Err EFuel ->
  exists c' sub, parse_hdr c' sub = Err EFuel /\ (c' = CIp4 \/ c' = CIcmp6).
Proof. exact packet_parse_finishes. Qed.
Print Assumptions C69_packet_parse_terminates_partial.
Theorem C69_rounds : forall raw c fuel, raw <> [] -> (length raw + 1 < fuel)%nat ->
  pkt_new raw c = (x <- parse_loop fuel c raw;; Ok (with_rest x)).
Proof. exact packet_parse_rounds. Qed.
Print Assumptions C69_rounds.
(** A stack of VLAN tags as deep as the input allows. *)
Example C69_example : exists p, pkt_parse ([2; 0; 0; 0; 0; 2; 2; 0; 0; 0; 0; 1; 0x81; 0; 0; 5; 8; 6] ++ repeat 0 27) = Err ENotEnough /\
  pkt_parse ([2; 0; 0; 0; 0; 2; 2; 0; 0; 0; 0; 1; 0x81; 0; 0; 5; 0x81; 0; 1; 2]) = Ok p /\ length p = 3%nat.
Proof. eexists. split; [vm_compute; reflexivity|]. split; [vm_compute; reflexivity|]. reflexivity. Qed.

(** C70.  A received Ethernet frame with IPv4 (no options, right length, verifying checksum) and a UDP, TCP (no options) or
    ICMP segment with a verifying checksum, or with ARP and any trailing bytes, is sent on byte for byte. *)
Theorem C70_forward_udp_partial : forall eb ib seg p, wfb (eb ++ ib ++ seg) -> good_eth eb 0x800 -> good_ip ib seg -> nth 9 ib 0 = 17 ->
  good_udp (firstn 4 (skipn 12 ib)) (firstn 4 (skipn 16 ib)) seg ->
  pkt_parse (eb ++ ib ++ seg) = Ok p -> exists p', pkt_to_bytes p = Ok (p', eb ++ ib ++ seg).
Proof. exact forward_udp. Qed.
Print Assumptions C70_forward_udp_partial.
Theorem C70_forward_tcp_partial : forall eb ib seg p, wfb (eb ++ ib ++ seg) -> good_eth eb 0x800 -> good_ip ib seg -> nth 9 ib 0 = 6 ->
  good_tcp (firstn 4 (skipn 12 ib)) (firstn 4 (skipn 16 ib)) seg ->
  pkt_parse (eb ++ ib ++ seg) = Ok p -> exists p', pkt_to_bytes p = Ok (p', eb ++ ib ++ seg).
Proof. exact forward_tcp. Qed.
Print Assumptions C70_forward_tcp_partial.
Theorem C70_forward_icmp_partial : forall eb ib seg p, wfb (eb ++ ib ++ seg) -> good_eth eb 0x800 -> good_ip ib seg -> nth 9 ib 0 = 1 -> good_icmp seg ->
  pkt_parse (eb ++ ib ++ seg) = Ok p -> exists p', pkt_to_bytes p = Ok (p', eb ++ ib ++ seg).
Proof. exact forward_icmp. Qed.
Print Assumptions C70_forward_icmp_partial.
Theorem C70_forward_arp : forall eb ab p, wfb (eb ++ ab) -> good_eth eb 0x806 -> pkt_parse (eb ++ ab) = Ok p ->
  exists p', pkt_to_bytes p = Ok (p', eb ++ ab).
Proof. exact forward_arp. Qed.
Print Assumptions C70_forward_arp.
Example C70_example :
  let eb := [2; 0; 0; 0; 0; 2; 2; 0; 0; 0; 0; 1; 8; 0] in
  let ib := [0x45; 0; 0; 31; 0; 7; 0; 0; 64; 17; 0x66; 0xc5; 10; 0; 0; 1; 10; 0; 0; 2] in
  let seg := [3; 0xe8; 0; 53; 0; 11; 0xe3; 0xb6; 1; 2; 3] in
  good_eth eb 0x800 /\ good_ip ib seg /\ good_udp (firstn 4 (skipn 12 ib)) (firstn 4 (skipn 16 ib)) seg /\ exists p, pkt_parse (eb ++ ib ++ seg) = Ok p.
Proof. cbv zeta. split; [split; reflexivity|]. split; [repeat split; try reflexivity; discriminate|]. split; [repeat split; try reflexivity; discriminate|].
  eexists. vm_compute. reflexivity. Qed.
(** Frames that are changed: a UDP checksum of zero (none) or a wrong one is replaced by a verifying one; link padding makes the
    IPv4 total length grow; TCP options are dropped. *)
Theorem C70_forward_changed_refuted :
  (exists eb ib seg p p' seg2, good_eth eb 0x800 /\ good_ip ib seg /\ seg = [3; 0xe8; 0; 53; 0; 11; 0; 0; 1; 2; 3] /\
     pkt_parse (eb ++ ib ++ seg) = Ok p /\ pkt_to_bytes p = Ok (p', eb ++ ib ++ seg2) /\ seg2 = [3; 0xe8; 0; 53; 0; 11; 0xe3; 0xb6; 1; 2; 3]) /\
  (exists eb ib seg p p' seg2, good_eth eb 0x800 /\ good_ip ib seg /\
     ~ verifies (pseudo [10; 0; 0; 1] [10; 0; 0; 2] 17 (zlen seg) ++ seg) /\
     pkt_parse (eb ++ ib ++ seg) = Ok p /\ pkt_to_bytes p = Ok (p', eb ++ ib ++ seg2) /\
     verifies (pseudo [10; 0; 0; 1] [10; 0; 0; 2] 17 (zlen seg2) ++ seg2)) /\
  (exists eb ib seg pad p p' b, good_eth eb 0x800 /\ good_ip ib seg /\ good_udp (firstn 4 (skipn 12 ib)) (firstn 4 (skipn 16 ib)) seg /\
     pkt_parse (eb ++ ib ++ seg ++ pad) = Ok p /\ pkt_to_bytes p = Ok (p', b) /\ zlen b = zlen (eb ++ ib ++ seg ++ pad) /\
     unbe (firstn 2 (skipn 16 b)) = unbe (firstn 2 (skipn 2 ib)) + zlen pad /\ pad <> []).
Proof. split; [|split].
  - exists [2; 0; 0; 0; 0; 2; 2; 0; 0; 0; 0; 1; 8; 0], [0x45; 0; 0; 31; 0; 7; 0; 0; 64; 17; 0x66; 0xc5; 10; 0; 0; 1; 10; 0; 0; 2],
      [3; 0xe8; 0; 53; 0; 11; 0; 0; 1; 2; 3]. do 2 eexists. exists [3; 0xe8; 0; 53; 0; 11; 0xe3; 0xb6; 1; 2; 3].
    split; [split; reflexivity|]. split; [repeat split; try reflexivity; discriminate|]. split; [reflexivity|].
    split; [vm_compute; reflexivity|]. split; [vm_compute; reflexivity|]. reflexivity.
  - exists [2; 0; 0; 0; 0; 2; 2; 0; 0; 0; 0; 1; 8; 0], [0x45; 0; 0; 31; 0; 7; 0; 0; 64; 17; 0x66; 0xc5; 10; 0; 0; 1; 10; 0; 0; 2],
      [3; 0xe8; 0; 53; 0; 11; 1; 1; 1; 2; 3]. do 2 eexists. exists [3; 0xe8; 0; 53; 0; 11; 0xe3; 0xb6; 1; 2; 3].
    split; [split; reflexivity|]. split; [repeat split; try reflexivity; discriminate|]. split; [vm_compute; discriminate|].
    split; [vm_compute; reflexivity|]. split; [vm_compute; reflexivity|]. vm_compute. reflexivity.
  - exists [2; 0; 0; 0; 0; 2; 2; 0; 0; 0; 0; 1; 8; 0], [0x45; 0; 0; 31; 0; 7; 0; 0; 64; 17; 0x66; 0xc5; 10; 0; 0; 1; 10; 0; 0; 2],
      [3; 0xe8; 0; 53; 0; 11; 0xe3; 0xb6; 1; 2; 3], [0; 0; 0]. do 3 eexists.
    split; [split; reflexivity|]. split; [repeat split; try reflexivity; discriminate|]. split; [repeat split; try reflexivity; discriminate|].
    split; [vm_compute; reflexivity|]. split; [vm_compute; reflexivity|]. split; [reflexivity|]. split; [reflexivity|]. discriminate. Qed.
Print Assumptions C70_forward_changed_refuted.
