(** Properties C16, C17, C61 (IPv6 part), C62: IPv6 and its extension headers. *)
From Verif Require Import BaseLemmas CodecLemmas Enums Ipv6Model Ipv6Proofs Ipv6ExtProofs.

(** C16. RFC 2460 layout, true payload length, and parsing gives the header back and leaves what follows. *)
Theorem C16_round_trip :
  forall h (payload : bytes), wf_ip6 h -> zlen payload <= 65535 ->
  exists h' b, ip6_pre_serialize (zlen payload) h = Ok h' /\
  h' = mkIp6 (v6_tc h) (v6_flow h) (v6_ttl h) (v6_nh h) (zlen payload) (v6_src h) (v6_dst h) /\
  ip6_to_bytes h' = Ok b /\
  b = be 4 (6 * 2 ^ 28 + v6_tc h * 2 ^ 20 + v6_flow h) ++ be 2 (zlen payload) ++ [v6_nh h; v6_ttl h] ++ v6_src h ++ v6_dst h /\
  length b = 40%nat /\ forall t, ip6_from_bytes (b ++ t) = Ok (h', t).
Proof. exact ip6_serialise. Qed.
Print Assumptions C16_round_trip.

Theorem C16_too_long_raises :
  forall h (payload : bytes), 65535 < zlen payload ->
  (h' <- ip6_pre_serialize (zlen payload) h;; ip6_to_bytes h') = Err EStruct.
Proof. exact ip6_too_long. Qed.
Print Assumptions C16_too_long_raises.

(** C16. The buffers accepted are exactly those of at least 40 bytes with version 6 and a known next header. *)
Theorem C16_accepts_exactly :
  forall raw, wfb raw ->
  ((exists h rest, ip6_from_bytes raw = Ok (h, rest)) <->
   (40 <= length raw)%nat /\ hd 0 raw / 16 = 6 /\ In (nth 6 raw 0) IPProtocols).
Proof. exact ip6_accept_iff. Qed.
Print Assumptions C16_accepts_exactly.

(** C16. Parsing and serialising again gives the same 40 bytes. *)
Theorem C16_parse_then_serialise :
  forall raw h rest, wfb raw -> ip6_from_bytes raw = Ok (h, rest) ->
  (40 <= length raw)%nat /\ hd 0 raw / 16 = 6 /\ wf_ip6 h /\ 0 <= v6_plen h < 65536 /\
  rest = skipn 40 raw /\ ip6_to_bytes h = Ok (firstn 40 raw).
Proof. exact ip6_reserialise. Qed.
Print Assumptions C16_parse_then_serialise.

Definition ip6_ex : ipv6 :=
  mkIp6 0xb8 0x12345 64 ipUDP 0 ([0x20; 1; 0xd; 0xb8] ++ repeat 0 11 ++ [1]) ([0x20; 1; 0xd; 0xb8] ++ repeat 0 11 ++ [2]).
Example C16_example :
  wf_ip6 ip6_ex /\
  exists h' b, ip6_pre_serialize 3 ip6_ex = Ok h' /\ ip6_to_bytes h' = Ok b /\
    firstn 8 b = [0x6b; 0x81; 0x23; 0x45; 0; 3; 17; 64].
Proof. split.
  - repeat split; cbn; try lia; try reflexivity; auto 10; repeat (apply wfb_cons; split; [lia|]); apply wfb_nil.
  - eexists. eexists. split; [vm_compute; reflexivity|]. split; [vm_compute; reflexivity|]. vm_compute. reflexivity. Qed.

(** C61 fails for IPv6: traffic class 256 is written into the version nibble (the packet says version 7), and
    a 21-bit flow label is cut to 20 bits, both without an error. *)
Theorem C61_ipv6_fields_refuted :
  (exists h b, v6_tc h = 256 /\ ip6_to_bytes h = Ok b /\ hd 0 b / 16 = 7 /\ ip6_from_bytes b = Err EValue) /\
  (exists h h' b, v6_flow h = 2 ^ 20 + 5 /\ ip6_to_bytes h = Ok b /\ ip6_from_bytes b = Ok (h', []) /\ v6_flow h' = 5).
Proof. exact (conj ip6_field_corrupted ip6_flow_truncated). Qed.
Print Assumptions C61_ipv6_fields_refuted.

(** C17 (hop-by-hop and destination options): every list of options that fills a multiple of eight bytes
    serialises with the right length field n (8(n+1) bytes) and parses back, leaving what follows. *)
Theorem C17_hop_options_partial :
  forall nh d os, In nh IPProtocols -> Forall wf_v6opt os ->
  (zlen (v6opts_layout os) + 2) mod 8 = 0 -> zlen (v6opts_layout os) + 2 <= 2048 ->
  exists n b, hop_to_bytes (mkV6hop (Some nh) d os) = Ok b /\ 0 <= n < 256 /\
  b = [nh; n] ++ v6opts_layout os /\ zlen b = 8 * (n + 1) /\ wfb b /\
  forall t, hop_from_bytes (b ++ t) = Ok (mkV6hop (Some nh) n os, t).
Proof. exact hop_round_trip. Qed.
Print Assumptions C17_hop_options_partial.

Example C17_hop_example :
  let os := [VAlert 7; VPad1; VPadN 3; VTunnel 4; VPad1] in
  Forall wf_v6opt os /\ (zlen (v6opts_layout os) + 2) mod 8 = 0 /\
  hop_to_bytes (mkV6hop (Some ipUDP) 0 os) = Ok [17; 1; 5; 2; 0; 7; 0; 1; 3; 0; 0; 0; 4; 1; 4; 0].
Proof. split; [repeat constructor; cbn; lia|]. split; vm_compute; reflexivity. Qed.

(** C17 fails without explicit padding: the options are emitted with a length field for fewer bytes, and the
    header cannot be parsed back. *)
Theorem C17_hop_unaligned_refuted :
  exists os b, Forall wf_v6opt os /\ hop_to_bytes (mkV6hop (Some ipUDP) 0 os) = Ok b /\
    length b = 12%nat /\ nth 1 b 99 = 0 /\ hop_from_bytes b = Err ENotEnough.
Proof. exact hop_unaligned. Qed.
Print Assumptions C17_hop_unaligned_refuted.

(** C17 fails for truncated headers: 8 bytes which claim to be 16 are accepted. *)
Theorem C17_hop_truncated_refuted :
  exists raw h, wfb raw /\ nth 1 raw 0 = 1 /\ length raw = 8%nat /\ hop_from_bytes raw = Ok (h, []).
Proof. exact hop_truncated. Qed.
Print Assumptions C17_hop_truncated_refuted.

(** C17: what is left after parsing is what follows the claimed length. *)
Theorem C17_hop_rest_partial :
  forall raw h rest, wfb raw -> hop_from_bytes raw = Ok (h, rest) ->
  rest = skipn (Z.to_nat (8 * (nth 1 raw 0 + 1))) raw /\ ho_nh h = Some (nth 0 raw 0) /\ In (nth 0 raw 0) IPProtocols /\
  8 * nth 1 raw 0 <= zlen raw.
Proof. exact hop_rest. Qed.
Print Assumptions C17_hop_rest_partial.

(** C17 (fragment header): RFC 2460 section 4.5 layout and round trip. *)
Theorem C17_fragment_round_trip :
  forall nh h, In nh IPProtocols -> fr_nh h = Some nh -> fr_dlen h = 0 -> wf_frag h ->
  exists b, frag_to_bytes h = Ok b /\
  b = [nh; 0] ++ be 2 (8 * fr_off h + (if fr_mf h then 1 else 0)) ++ be 4 (fr_id h) /\ length b = 8%nat /\
  forall t, frag_from_bytes (b ++ t) = Ok (h, t).
Proof. exact frag_round_trip. Qed.
Print Assumptions C17_fragment_round_trip.
Theorem C17_fragment_parsed :
  forall raw h rest, wfb raw -> frag_from_bytes raw = Ok (h, rest) ->
  (8 <= length raw)%nat /\ rest = skipn 8 raw /\ fr_nh h = Some (nth 0 raw 0) /\ fr_dlen h = nth 1 raw 0 /\
  fr_off h = unbe (firstn 2 (skipn 2 raw)) / 8 /\ fr_mf h = Z.odd (unbe (firstn 2 (skipn 2 raw))) /\
  fr_id h = unbe (firstn 4 (skipn 4 raw)).
Proof. exact frag_parsed. Qed.
Print Assumptions C17_fragment_parsed.
Example C17_fragment_example :
  let h := mkV6frag (Some ipUDP) 0 77 185 true in
  wf_frag h /\ frag_to_bytes h = Ok [17; 0; 5; 0xc9; 0; 0; 0; 77].
Proof. split; [unfold wf_frag; cbn; lia|vm_compute; reflexivity]. Qed.

(** C17 (routing header): the fields come back, whatever the length field, as long as the length check passes. *)
Theorem C17_route_partial :
  forall nh dlen left addr t, In nh IPProtocols -> 0 <= dlen < 256 -> 0 <= left < 256 -> length addr = 16%nat ->
  dlen * 8 <= 24 + zlen t ->
  exists b, route_to_bytes (mkV6route (Some nh) dlen 2 left addr) = Ok b /\
  b = [nh; dlen; 2; left; 0; 0; 0; 0] ++ addr /\ length b = 24%nat /\
  route_from_bytes (b ++ t) = Ok (mkV6route (Some nh) dlen 2 left addr, t).
Proof. exact route_round_trip. Qed.
Print Assumptions C17_route_partial.
Example C17_route_example :
  is_ok (route_to_bytes (mkV6route (Some ipTCP) 2 2 1 (repeat 9 16))) = true.
Proof. vm_compute. reflexivity. Qed.
(** C17 fails: a routing header made by the constructor is 24 bytes long but its length field says 8. *)
Theorem C17_route_length_refuted :
  exists b, route_to_bytes (mkV6route (Some ipUDP) (ro_dlen route_new) (ro_type route_new) (ro_left route_new) (ro_addr route_new)) = Ok b /\
    zlen b = 24 /\ nth 1 b 99 = 0.
Proof. exact route_new_length. Qed.
Print Assumptions C17_route_length_refuted.
(** What the constructor makes, in full: type 2, one segment left, no address. *)
Theorem C17_route_default : forall nh, In nh IPProtocols ->
  route_to_bytes (mkV6route (Some nh) (ro_dlen route_new) (ro_type route_new) (ro_left route_new) (ro_addr route_new)) =
  Ok ([nh; 0; 2; 1; 0; 0; 0; 0] ++ repeat 0 16) /\ ro_nh route_new = None.
Proof. intros nh H. split; [|reflexivity]. destruct (route_round_trip nh 0 1 (repeat 0 16) [] H ltac:(lia) ltac:(lia) eq_refl ltac:(cbn; lia)) as (b & E & -> & _). exact E. Qed.
Print Assumptions C17_route_default.
Example C17_route_default_case : In ipTCP IPProtocols. Proof. apply zmem_In. reflexivity. Qed.

(** C62. The option loop finishes on every byte string within one step per byte, and the parse of a whole
    header never runs out of the fuel the model gives it. *)
Theorem C62_option_loop_finishes :
  forall raw, exists r, r <> Err EFuel /\ forall fuel, (length raw < fuel)%nat -> parse_tlv fuel raw = r.
Proof. exact tlv_terminates. Qed.
Print Assumptions C62_option_loop_finishes.
Theorem C62_hop_finishes : forall raw, hop_from_bytes raw <> Err EFuel.
Proof. exact hop_no_fuel. Qed.
Print Assumptions C62_hop_finishes.
Example C62_example :
  hop_from_bytes [17; 0; 1; 0; 0; 1; 1; 9; 42] = Ok (mkV6hop (Some 17) 0 [VPadN 0; VPad1; VPadN 1], [42]).
Proof. vm_compute. reflexivity. Qed.
