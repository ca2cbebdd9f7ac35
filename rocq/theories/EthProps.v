(** Properties C07, C08, C09: Ethernet, 802.1Q and ARP codecs. *)
From Verif Require Import BaseLemmas CodecLemmas EthAddrModel EthAddrSpec Enums EthModel ArpModel EthProofs.

(** C07 (full statement false, see the refutation): every header whose type is not 0x05dc serialises to
    destination, source, type (big endian) and parses back from in front of any data. *)
Theorem C07_round_trip_partial :
  forall h, addr6 (eth_dst h) -> addr6 (eth_src h) -> In (eth_type h) EtherTypes -> eth_type h <> 1500 ->
  exists b, eth_to_bytes h = Ok b /\
    b = eth_dst h ++ eth_src h ++ [eth_type h / 256; eth_type h mod 256] /\
    forall t, eth_from_bytes (b ++ t) = Ok (h, t).
Proof. exact eth_round_trip. Qed.
Print Assumptions C07_round_trip_partial.

(** C07 fails for the EtherType member IEEE8023 = 0x05dc: it reads back as NoType. *)
Theorem C07_round_trip_refuted :
  exists h b, addr6 (eth_dst h) /\ addr6 (eth_src h) /\ In (eth_type h) EtherTypes /\
    eth_to_bytes h = Ok b /\ forall t, eth_from_bytes (b ++ t) <> Ok (h, t).
Proof. exact eth_ieee8023_lost. Qed.
Print Assumptions C07_round_trip_refuted.

(** C07: a parsed frame has at least 14 bytes, the fields are the bytes at their offsets, the rest is handed on
    untouched, and with a type above 1500 re-serialising gives the same 14 bytes. *)
Theorem C07_parse_then_serialise :
  forall raw h rest, wfb raw -> eth_from_bytes raw = Ok (h, rest) ->
  (14 <= length raw)%nat /\ rest = skipn 14 raw /\
  eth_dst h = firstn 6 raw /\ eth_src h = firstn 6 (skipn 6 raw) /\
  (1500 < unbe (firstn 2 (skipn 12 raw)) ->
     eth_type h = unbe (firstn 2 (skipn 12 raw)) /\ eth_to_bytes h = Ok (firstn 14 raw)).
Proof. exact eth_parse_then_serialise. Qed.
Print Assumptions C07_parse_then_serialise.

(** C07: exactly the frames of 14 bytes or more with a known type (or a length up to 1500) are accepted;
    shorter ones raise NotEnoughDataError. *)
Theorem C07_accepts_exactly :
  forall raw, wfb raw ->
  ((length raw < 14)%nat -> eth_from_bytes raw = Err ENotEnough) /\
  ((exists p, eth_from_bytes raw = Ok p) <->
   (14 <= length raw)%nat /\
   (unbe (firstn 2 (skipn 12 raw)) <= 1500 \/ In (unbe (firstn 2 (skipn 12 raw))) EtherTypes)).
Proof. exact eth_accepts. Qed.
Print Assumptions C07_accepts_exactly.

Example C07_example :
  let raw := [1;2;3;4;5;6; 7;8;9;10;11;12; 8;6; 0xaa; 0xbb] in
  wfb raw /\ eth_from_bytes raw = Ok (mkEth [1;2;3;4;5;6] [7;8;9;10;11;12] etARP, [0xaa; 0xbb]) /\
  eth_to_bytes (mkEth [1;2;3;4;5;6] [7;8;9;10;11;12] etARP) = Ok (firstn 14 raw).
Proof. split; [repeat constructor; lia|]. split; vm_compute; reflexivity. Qed.

(** C08 (priorities up to 3 only; see the refutation): a tag round-trips, with id in the low 12 bits. *)
Theorem C08_round_trip_partial :
  forall h, 0 <= vl_id h < 4096 -> 0 <= vl_pcp h <= 3 -> In (vl_type h) EtherTypes ->
  exists b, vlan_to_bytes h = Ok b /\
    b = [16 * vl_pcp h + vl_id h / 256; vl_id h mod 256; vl_type h / 256; vl_type h mod 256] /\
    forall t, vlan_from_bytes (b ++ t) = Ok (h, t).
Proof. exact vlan_round_trip. Qed.
Print Assumptions C08_round_trip_partial.

(** C08: for every tag on the wire, what is and what is not preserved: the 12-bit id and the type are;
    the top four bits (priority and drop-eligible bit) come back as min(bits, 3). *)
Theorem C08_parse_serialise_partial :
  forall a b c d r, wfb [a; b; c; d] -> In (256 * c + d) EtherTypes ->
  exists h, vlan_from_bytes (a :: b :: c :: d :: r) = Ok (h, r) /\
    vl_id h = 256 * (a mod 16) + b /\ vl_type h = 256 * c + d /\
    vlan_to_bytes h = Ok [16 * Z.min (a / 16) 3 + a mod 16; b; c; d].
Proof. exact vlan_parse_serialise. Qed.
Print Assumptions C08_parse_serialise_partial.

(** C08 fails: an 802.1Q tag with priority 5 (0xa0..) is changed by parsing and serialising; assigning
    priority 7 stores 3. *)
Theorem C08_priority_refuted :
  (exists raw h r, wfb raw /\ length raw = 4%nat /\ vlan_from_bytes raw = Ok (h, r) /\ vlan_to_bytes h <> Ok raw) /\
  (exists p h, 0 <= p < 8 /\ vl_pcp (vlan_set_pcp p h) <> p).
Proof. exact vlan_priority_lost. Qed.
Print Assumptions C08_priority_refuted.

Theorem C08_short_rejected :
  forall raw, (length raw < 4)%nat -> vlan_from_bytes raw = Err ENotEnough.
Proof. exact vlan_short. Qed.
Print Assumptions C08_short_rejected.

Example C08_example :
  vlan_from_bytes [0x2f; 0xfe; 0x08; 0x00; 9] = Ok (mkVlan 4094 2 etIP, [9]) /\
  vlan_to_bytes (mkVlan 4094 2 etIP) = Ok [0x2f; 0xfe; 0x08; 0x00] /\ In etIP EtherTypes.
Proof. split; [|split]; try (vm_compute; reflexivity). cbn; auto. Qed.

(** C09: every ARP packet over IPv4 addresses serialises to the RFC 826 layout and parses back. *)
Theorem C09_round_trip :
  forall h, arp_hwtype h = 1 -> In (arp_prototype h) EtherTypes -> 0 <= arp_hwlen h < 256 -> 0 <= arp_protolen h < 256 ->
  In (arp_op h) ArpOperations -> addr6 (arp_shw h) -> ip4 (arp_sproto h) -> addr6 (arp_thw h) -> ip4 (arp_tproto h) ->
  exists b, arp_to_bytes h = Ok b /\
    b = [0; 1; arp_prototype h / 256; arp_prototype h mod 256; arp_hwlen h; arp_protolen h; 0; arp_op h]
        ++ arp_shw h ++ arp_sproto h ++ arp_thw h ++ arp_tproto h /\
    forall t, arp_from_bytes (b ++ t) = Ok (h, t).
Proof. exact arp_round_trip. Qed.
Print Assumptions C09_round_trip.

(** C09: whatever parses had 28 bytes and re-serialises to exactly those; shorter input raises. *)
Theorem C09_parse_then_serialise :
  forall raw, wfb raw ->
  ((length raw < 28)%nat -> arp_from_bytes raw = Err ENotEnough) /\
  forall h rest, arp_from_bytes raw = Ok (h, rest) ->
    (28 <= length raw)%nat /\ rest = skipn 28 raw /\ arp_to_bytes h = Ok (firstn 28 raw).
Proof. exact arp_parse_then_serialise. Qed.
Print Assumptions C09_parse_then_serialise.

(** C09 does not extend to 16-byte protocol addresses, which the setters accept: serialising drops 12 bytes
    without an error. *)
Theorem C09_ipv6_address_refuted :
  exists h b h' t, wfb (arp_sproto h) /\ length (arp_sproto h) = 16%nat /\
    arp_to_bytes h = Ok b /\ arp_from_bytes b = Ok (h', t) /\ h' <> h.
Proof. exact arp_ipv6_truncated. Qed.
Print Assumptions C09_ipv6_address_refuted.

Example C09_example :
  let h := mkArp 1 etIP 6 4 arpReply [2;0;0;0;0;1] [10;0;0;1] [2;0;0;0;0;2] [10;0;0;2] in
  wf_arp h /\
  arp_to_bytes h = Ok [0;1;8;0;6;4;0;2; 2;0;0;0;0;1; 10;0;0;1; 2;0;0;0;0;2; 10;0;0;2].
Proof. split; [|vm_compute; reflexivity].
  unfold wf_arp. cbn. repeat split; auto 10; try lia; repeat constructor; lia. Qed.
