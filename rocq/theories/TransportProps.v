(** Properties C10, C11, C56 (TCP part) and C58: UDP and TCP. *)
From Verif Require Import BaseLemmas CodecLemmas Enums ArpModel EthProofs ChecksumSpec Ipv4Model Ipv4Proofs TransportModel TransportProofs.

(** C10. Serialising inside IPv4: length 8+n, checksum verifying over the RFC 768 pseudo header, and parsing
    gives back ports, length and checksum and leaves what follows. *)
Theorem C10_udp_round_trip :
  forall h ip payload, wf_ports (udp_src h) (udp_dst h) -> wf_pseudo ip -> wfb payload ->
  8 + zlen payload <= 65535 ->
  exists h' c b, udp_pre_serialize payload (Some ip) h = Ok h' /\ 0 <= c < 65536 /\
  h' = mkUdp (udp_src h) (udp_dst h) (8 + zlen payload) c /\
  udp_to_bytes h' = Ok b /\
  b = be 2 (udp_src h) ++ be 2 (udp_dst h) ++ be 2 (8 + zlen payload) ++ be 2 c /\ length b = 8%nat /\ wfb b /\
  verifies ((ip_src ip ++ ip_dst ip ++ [0; ip_proto ip; (8 + zlen payload) / 256; (8 + zlen payload) mod 256]) ++ b ++ payload) /\
  forall t, udp_from_bytes (b ++ t) = Ok (h', t).
Proof. exact udp_serialise. Qed.
Print Assumptions C10_udp_round_trip.

(** C10. Without an IPv4 header in the packet the checksum field is 0 ("no checksum"). *)
Theorem C10_udp_without_ipv4 :
  forall h payload, wf_ports (udp_src h) (udp_dst h) -> 8 + zlen payload <= 65535 ->
  exists h' b, udp_pre_serialize payload None h = Ok h' /\ h' = mkUdp (udp_src h) (udp_dst h) (8 + zlen payload) 0 /\
  udp_to_bytes h' = Ok b /\ b = be 2 (udp_src h) ++ be 2 (udp_dst h) ++ be 2 (8 + zlen payload) ++ [0; 0] /\
  forall t, udp_from_bytes (b ++ t) = Ok (h', t).
Proof. exact udp_serialise_noip. Qed.
Print Assumptions C10_udp_without_ipv4.

(** C10. Over-long payloads raise. *)
Theorem C10_udp_too_long :
  forall h ip payload, 65535 < 8 + zlen payload ->
  (h' <- udp_pre_serialize payload ip h;; udp_to_bytes h') = Err EStruct.
Proof. exact udp_too_long. Qed.
Print Assumptions C10_udp_too_long.

(** C10. Any 8 bytes parse, and re-serialise to themselves; fewer are refused. *)
Theorem C10_udp_parse_then_serialise :
  forall raw, wfb raw ->
  ((length raw < 8)%nat -> udp_from_bytes raw = Err ENotEnough) /\
  forall h rest, udp_from_bytes raw = Ok (h, rest) ->
    (8 <= length raw)%nat /\ rest = skipn 8 raw /\ udp_to_bytes h = Ok (firstn 8 raw).
Proof. exact udp_parse_then_serialise. Qed.
Print Assumptions C10_udp_parse_then_serialise.

Example C10_example :
  let ip := mkIp4 0 20 64 0 0 0 ipUDP [10;0;0;1] [10;0;0;2] [] in
  wf_pseudo ip /\ wf_ports 5000 53 /\
  exists h', udp_pre_serialize [104; 105; 33] (Some ip) (mkUdp 5000 53 8 0) = Ok h' /\
    udp_to_bytes h' = Ok [0x13; 0x88; 0; 0x35; 0; 11; 0x4e; 0xaf].
Proof. split; [repeat split; cbn; auto 10; repeat constructor; lia|]. split; [unfold wf_ports; lia|].
  eexists. split; [vm_compute; reflexivity|]. vm_compute. reflexivity. Qed.

(** C58 fails: RFC 768 transmits a computed zero as 0xffff, since 0 means that the sender made no checksum;
    here a datagram whose checksum computes to zero goes out with 0. *)
Theorem C58_zero_checksum_refuted :
  exists h ip payload h' b, wf_ports (udp_src h) (udp_dst h) /\ wf_pseudo ip /\ wfb payload /\
  udp_pre_serialize payload (Some ip) h = Ok h' /\ udp_to_bytes h' = Ok b /\ skipn 6 b = [0; 0].
Proof. exact udp_zero_checksum. Qed.
Print Assumptions C58_zero_checksum_refuted.

(** C11. Every TCP header, in front of any payload in an IPv4 packet: RFC 793 layout with data offset 5, checksum
    verifying over the pseudo header, and parsing gives all the fields back (the checksum itself is not kept). *)
Theorem C11_tcp_round_trip :
  forall h ip payload, wf_tcp h -> wf_pseudo ip -> wfb payload -> 20 + zlen payload <= 65535 ->
  exists h' c b, tcp_pre_serialize payload (Some ip) h = Ok h' /\ 0 <= c < 65536 /\
  h' = mkTcp (tcp_src h) (tcp_dst h) (tcp_seq h) (tcp_ack h) (tcp_flags h) (tcp_window h) (tcp_urg h) (20 + zlen payload) c /\
  tcp_to_bytes h' = Ok b /\
  b = be 2 (tcp_src h) ++ be 2 (tcp_dst h) ++ be 4 (tcp_seq h) ++ be 4 (tcp_ack h) ++
      [80 + tcp_flags h / 256; tcp_flags h mod 256] ++ be 2 (tcp_window h) ++ be 2 c ++ be 2 (tcp_urg h) /\
  length b = 20%nat /\ wfb b /\
  verifies ((ip_src ip ++ ip_dst ip ++ [0; ip_proto ip; (20 + zlen payload) / 256; (20 + zlen payload) mod 256]) ++ b ++ payload) /\
  forall t, tcp_from_bytes (b ++ t) =
    Ok (mkTcp (tcp_src h) (tcp_dst h) (tcp_seq h) (tcp_ack h) (tcp_flags h) (tcp_window h) (tcp_urg h) 0 0, t).
Proof. exact tcp_serialise. Qed.
Print Assumptions C11_tcp_round_trip.

Theorem C11_tcp_too_long :
  forall h ip payload, 65535 < 20 + zlen payload ->
  (h' <- tcp_pre_serialize payload (Some ip) h;; tcp_to_bytes h') = Err EStruct.
Proof. exact tcp_too_long. Qed.
Print Assumptions C11_tcp_too_long.

(** C11. After any sequence of flag assignments each of the nine flags has the last value assigned to it (or
    its first value), and the flag field stays within nine bits. *)
Theorem C11_flags_independent :
  forall ops, Forall (fun o : Z * bool => 0 <= fst o < 9) ops -> forall fl, 0 <= fl < 512 ->
  let fl' := fold_left (fun acc o => tcp_setflag acc (fst o) (snd o)) ops fl in
  0 <= fl' < 512 /\
  forall g, 0 <= g < 9 -> tcp_isset fl' g =
    fold_left (fun acc (o : Z * bool) => if fst o =? g then snd o else acc) ops (tcp_isset fl g).
Proof. exact flags_sequence. Qed.
Print Assumptions C11_flags_independent.

(** C11. Flag number f is bit f of the 16-bit field. *)
Theorem C11_flag_is_bit :
  forall fl f, 0 <= f -> tcp_isset fl f = Z.testbit fl f.
Proof. exact isset_testbit. Qed.
Print Assumptions C11_flag_is_bit.

Example C11_example :
  let h := mkTcp 4444 80 0xdeadbeef 1 (tcp_setflag (tcp_setflag 0 1 true) 8 true) 8192 0 0 0 in
  wf_tcp h /\ tcp_flags h = 258 /\ tcp_isset (tcp_flags h) 8 = true /\ tcp_isset (tcp_flags h) 4 = false.
Proof. unfold wf_tcp, wf_ports. cbn [tcp_src tcp_dst tcp_seq tcp_ack tcp_flags tcp_window tcp_urg].
  change (tcp_setflag (tcp_setflag 0 1 true) 8 true) with 258. change (2 ^ 32) with 4294967296.
  repeat split; try lia. Qed.

(** C56 fails for TCP: a data offset below 5 is accepted; with 0 the header itself is handed on as payload. *)
Theorem C56_tcp_offset_refuted :
  exists raw h rest, wfb raw /\ nth 12 raw 0 / 16 = 0 /\ tcp_from_bytes raw = Ok (h, rest) /\ rest = raw.
Proof. exact tcp_short_offset. Qed.
Print Assumptions C56_tcp_offset_refuted.
(** C56: the payload starts at four times the data offset. *)
Theorem C56_tcp_offset_partial :
  forall raw h rest, wfb raw -> tcp_from_bytes raw = Ok (h, rest) ->
  (20 <= length raw)%nat /\ rest = skipn (Z.to_nat (4 * (nth 12 raw 0 / 16))) raw.
Proof. exact tcp_offset_parsed. Qed.
Print Assumptions C56_tcp_offset_partial.

(** C60 fails: TCP options of a received segment are dropped when it is serialised again. *)
Theorem C60_tcp_options_refuted :
  exists raw h rest b, wfb raw /\ length raw = 24%nat /\ tcp_from_bytes raw = Ok (h, rest) /\ rest = [] /\
    tcp_to_bytes h = Ok b /\ length b = 20%nat.
Proof. exact tcp_options_dropped. Qed.
Print Assumptions C60_tcp_options_refuted.
