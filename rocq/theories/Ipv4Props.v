(** Properties C12-C15, C55, C56 (IPv4 part) and C59: the IPv4 header. *)
From Verif Require Import BaseLemmas CodecLemmas Enums ArpModel EthProofs ChecksumSpec Ipv4Model Ipv4Proofs Ipv4Proofs2.

(** C12. Every option-free header serialises, in front of any payload, to the RFC 791 layout with the true
    total length and a checksum that verifies, and parses back to itself leaving the payload. *)
Theorem C12_round_trip_and_checksum :
  forall h payload, wf_ip h -> ip_opts h = [] -> 20 + zlen payload <= 65535 ->
  exists h' b c, ip_pre_serialize (zlen payload) h = Ok h' /\ h' = ip_with_totlen (20 + zlen payload) h /\
  ip_to_bytes h' = Ok b /\
  b = [0x45; ip_tos h; (20 + zlen payload) / 256; (20 + zlen payload) mod 256; ip_id h / 256; ip_id h mod 256;
       32 * ip_flags h + ip_frag h / 256; ip_frag h mod 256; ip_ttl h; ip_proto h] ++ be 2 c ++ ip_src h ++ ip_dst h /\
  0 <= c < 65536 /\ verifies b /\ wfb b /\ ip_from_bytes (b ++ payload) = Ok (h', payload).
Proof. exact ip_fixed_round_trip. Qed.
Print Assumptions C12_round_trip_and_checksum.

(** C12. A packet longer than 65535 bytes is refused, never emitted with a wrong length. *)
Theorem C12_too_long_raises :
  forall h n, 0 <= n -> 65535 < 20 + n -> forall h', ip_pre_serialize n h = Ok h' -> ip_to_bytes h' = Err EStruct.
Proof. exact ip_too_long. Qed.
Print Assumptions C12_too_long_raises.

(** C12. Conversely a received option-free header with a good checksum re-serialises to the same bytes
    (0xffff, the other one's-complement spelling of 0, is normalised). *)
Theorem C12_parse_then_serialise :
  forall raw h rest, wfb raw -> ip_from_bytes raw = Ok (h, rest) ->
  hd 0 raw = 0x45 -> verifies (firstn 20 raw) -> firstn 2 (skipn 10 raw) <> [255; 255] ->
  ip_to_bytes h = Ok (firstn 20 raw) /\ rest = skipn 20 raw.
Proof. exact ip_reserialise. Qed.
Print Assumptions C12_parse_then_serialise.

Example C12_example :
  let h := mkIp4 0x1c 20 64 0xbeef 2 0 ipUDP [10;0;0;1] [192;168;1;255] [] in
  wf_ip h /\
  (let raw := [0x45;0x1c;0;23;0xbe;0xef;0x40;0;64;17; 0xaf;0x22; 10;0;0;1; 192;168;1;255; 7;8;9] in
   verifies (firstn 20 raw) /\ exists h', ip_from_bytes raw = Ok (h', [7;8;9]) /\ ip_to_bytes h' = Ok (firstn 20 raw)).
Proof. split.
  - unfold wf_ip. cbn. repeat split; auto 30; try lia; repeat constructor; lia.
  - split; [vm_compute; reflexivity|]. eexists. split; [vm_compute; reflexivity|]. vm_compute. reflexivity. Qed.

(** C13 (see the refutations for what is excluded by [wf_opt]). A non-empty option list serialises to the
    options' bytes plus one to four zero bytes, a multiple of four in all, and parses back to the same
    options followed only by end-of-list options. *)
Theorem C13_options_round_trip_partial :
  forall os, os <> [] -> Forall wf_opt os ->
  exists body, opts_concat os = Ok body /\ wfb body /\
  let pad := padlen (length body) in
  (1 <= pad <= 4)%nat /\
  opts_to_bytes os = Ok (body ++ repeat 0%Z pad) /\
  (length (body ++ repeat 0%Z pad) mod 4 = 0)%nat /\
  forall fuel, (length (body ++ repeat 0%Z pad) < fuel)%nat ->
    opts_from_bytes fuel (body ++ repeat 0%Z pad) = Ok (os ++ repeat OEnd pad).
Proof. exact opts_round_trip. Qed.
Print Assumptions C13_options_round_trip_partial.

(** C13, in a whole header: options of at most 40 bytes; header length nibble, checksum and payload are right. *)
Theorem C13_header_with_options_partial :
  forall h ob payload, wf_ip h -> opts_to_bytes (ip_opts h) = Ok ob -> zlen ob <= 40 ->
  20 + zlen ob + zlen payload <= 65535 ->
  exists h' b k, ip_pre_serialize (zlen payload) h = Ok h' /\ ip_to_bytes h' = Ok b /\
  zlen b = 20 + zlen ob /\ verifies b /\ (k <= 4)%nat /\ (ip_opts h = [] -> k = O) /\
  hd 0 b = 64 + zlen b / 4 /\
  ip_from_bytes (b ++ payload) =
    Ok (mkIp4 (ip_tos h) (20 + zlen ob + zlen payload) (ip_ttl h) (ip_id h) (ip_flags h) (ip_frag h) (ip_proto h)
              (ip_src h) (ip_dst h) (ip_opts h ++ repeat OEnd k), payload).
Proof. exact ip_options_round_trip. Qed.
Print Assumptions C13_header_with_options_partial.

(** C13. Every option object as constructed by its class is covered. *)
Theorem C13_new_options_covered :
  forall num, In num IPOptionNumbers -> exists o, opt_new num = Ok o /\ wf_opt o.
Proof. exact opt_new_wf. Qed.
Print Assumptions C13_new_options_covered.

(** C13 fails for a fresh timestamp option whose flag is set to 0 (timestamps only): it does not parse back to
    itself; and for a route option from which all addresses were deleted: it does not parse at all. *)
Theorem C13_timestamp_refuted :
  exists os b, os = [OTs 5 0 (repeat (Some (repeat 0 4), 0) 4)] /\ opts_to_bytes os = Ok b /\
  forall fuel os', opts_from_bytes fuel b = Ok os' -> forall k, os' <> os ++ repeat OEnd k.
Proof. exact ts_flag0_lost. Qed.
Print Assumptions C13_timestamp_refuted.
Theorem C13_empty_route_refuted :
  exists b, opts_to_bytes [ORoute 7 4 []] = Ok b /\ forall fuel os, opts_from_bytes fuel b <> Ok os.
Proof. exact route_empty_unparseable. Qed.
Print Assumptions C13_empty_route_refuted.

(** C13 fails for more than 40 bytes of options: the header is emitted, with a wrong header length nibble,
    instead of being refused. *)
Theorem C13_too_many_options_refuted :
  exists h b, wf_ip h /\ ip_to_bytes h = Ok b /\ (60 < length b)%nat /\ hd 0 b mod 16 * 4 < zlen b.
Proof. exact too_many_options. Qed.
Print Assumptions C13_too_many_options_refuted.

Example C13_example :
  let os := [ONop; ORoute 7 4 [[10;0;0;1]; [10;0;0;2]]; O4 20 0 0x80] in
  os <> [] /\ Forall wf_opt os /\
  opts_to_bytes os = Ok [1; 7;11;4;10;0;0;1;10;0;0;2; 0x94;4;0;0; 0;0;0;0] /\
  opts_from_bytes 100 [1; 7;11;4;10;0;0;1;10;0;0;2; 0x94;4;0;0; 0;0;0;0] = Ok (os ++ repeat OEnd 4).
Proof. split; [discriminate|]. split; [|split; vm_compute; reflexivity].
  repeat (apply Forall_cons; [cbn; repeat split; auto; try lia; repeat constructor; lia|]). constructor. Qed.

(** C14 fails: a 24-byte IPv4 packet with a good checksum whose option is a timestamp of length 0 makes
    the parser loop for ever. *)
Theorem C14_termination_refuted :
  exists raw, wfb raw /\ length raw = 24%nat /\ verifies raw /\ ip_from_bytes raw = Err EFuel /\
  forall fuel, opts_from_bytes fuel (skipn 20 raw) = Err EFuel.
Proof. exact ts_length0_loops. Qed.
Print Assumptions C14_termination_refuted.

(** C14: it is the only way. When no byte with low five bits 4 (a timestamp type) is directly followed by a
    zero byte, the loop ends after at most one step per byte, with the same result for any larger fuel. *)
Theorem C14_termination_partial :
  forall raw, wfb raw ->
  (forall p ty r, raw = p ++ ty :: 0 :: r -> ty mod 32 <> 4) ->
  exists r, r <> Err EFuel /\ forall fuel, (length raw < fuel)%nat -> opts_from_bytes fuel raw = r.
Proof. exact opts_terminates. Qed.
Print Assumptions C14_termination_partial.

(** C14: an option that is cut short is refused, whatever well-formed options stand before it: a route option with room for fewer addresses than its length
    octet promises raises ValueError (AddressValueError), a timestamp longer than what is left NotEnoughDataError, and a piece of fewer than four bytes of
    one of the other known options struct.error. *)
Lemma route_addrs_short n : forall i raw, (length raw < 3 + (i + n) * 4)%nat -> (0 < n)%nat -> route_addrs n i raw = Err EValue.
Proof. induction n as [|n IH]; intros i raw H N; [lia|]. cbn [route_addrs]. unfold ip4_of_bytes. destruct (Nat.eqb _ _) eqn:E; [|reflexivity]. cbn [bindr].
  apply Nat.eqb_eq in E. rewrite firstn_length, skipn_length in E. destruct n as [|n]; [lia|]. rewrite IH by lia. reflexivity. Qed.
Theorem C14_truncated :
  forall os b t rest fuel, Forall wf_opt os -> opts_concat os = Ok b -> 0 <= t < 256 ->
  (forall len ptr more, rest = len :: ptr :: more -> In (t mod 32) [3; 7; 9] -> zlen more < 4 * ((len - 3) / 4) ->
     opts_from_bytes (length os + S fuel) (b ++ t :: rest) = Err EValue) /\
  (forall len ptr fl more, rest = len :: ptr :: fl :: more -> t mod 32 = 4 -> 1 + zlen rest < len ->
     opts_from_bytes (length os + S fuel) (b ++ t :: rest) = Err ENotEnough) /\
  (In (t mod 32) [11; 12; 20] -> zlen rest < 3 -> opts_from_bytes (length os + S fuel) (b ++ t :: rest) = Err EStruct).
Proof.
  intros os b t rest fuel W Cb Ht. destruct (opts_concat_ok os W) as (b' & Hb & _ & _ & P). assert (b' = b) by congruence. subst b'.
  assert (L : Z.land t 31 = t mod 32) by (change 31 with (Z.ones 5); rewrite Z.land_ones by lia; reflexivity).
  split; [|split].
  - intros len ptr more -> Hin Hs. rewrite P. cbn [opts_from_bytes]. rewrite L, enum_in by (cbn in *; intuition lia). cbn [bindr].
    assert (E : opt_from_bytes (t mod 32) (t :: len :: ptr :: more) = Err EValue).
    { unfold opt_from_bytes. replace (t mod 32 =? 0) with false by (cbn in Hin; intuition lia). replace (t mod 32 =? 1) with false by (cbn in Hin; intuition lia).
      replace ((t mod 32 =? 3) || (t mod 32 =? 7) || (t mod 32 =? 9)) with true by (cbn in Hin; intuition lia). unfold EthAddrModel.getb. cbn [nth_error bindr].
      rewrite route_addrs_short; [reflexivity| |]; unfold zlen in Hs; cbn [length]; lia. }
    rewrite E. reflexivity.
  - intros len ptr fl more -> Hin Hs. rewrite P. cbn [opts_from_bytes]. rewrite L, enum_in by (rewrite Hin; cbn; tauto). cbn [bindr].
    rewrite Hin. unfold opt_from_bytes. change (4 =? 0) with false. change (4 =? 1) with false. change ((4 =? 3) || (4 =? 7) || (4 =? 9)) with false. change (4 =? 4) with true. cbv iota.
    cbn [firstn]. assert (U : unpack [fB; fB; fB; fB] [t; len; ptr; fl] = Ok [VI (unbe [t]); VI (unbe [len]); VI (unbe [ptr]); VI (unbe [fl])]) by reflexivity.
    rewrite U. cbn [bindr]. assert (E : unbe [len] = len) by (cbn [unbe]; unfold unbe; cbn; lia). rewrite E. assert (E2 : (zlen (t :: len :: ptr :: fl :: more) <? len) = true) by (unfold zlen in *; cbn [length] in *; lia).
    rewrite E2. reflexivity.
  - intros Hin Hs. rewrite P. cbn [opts_from_bytes]. rewrite L, enum_in by (cbn in *; intuition lia). cbn [bindr].
    assert (E : opt_from_bytes (t mod 32) (t :: rest) = Err EStruct).
    { unfold opt_from_bytes. replace (t mod 32 =? 0) with false by (cbn in Hin; intuition lia). replace (t mod 32 =? 1) with false by (cbn in Hin; intuition lia).
      replace ((t mod 32 =? 3) || (t mod 32 =? 7) || (t mod 32 =? 9)) with false by (cbn in Hin; intuition lia). replace (t mod 32 =? 4) with false by (cbn in Hin; intuition lia).
      replace ((t mod 32 =? 11) || (t mod 32 =? 12) || (t mod 32 =? 20)) with true by (cbn in Hin; intuition lia).
      unfold zlen in Hs. destruct rest as [|r1 [|r2 [|r3 rest]]]; [| | |cbn [length] in Hs; lia]; reflexivity. }
    rewrite E. reflexivity.
Qed.
Print Assumptions C14_truncated.
Example C14_truncated_case : Forall wf_opt [ONop] /\ opts_concat [ONop] = Ok [1] /\ opts_from_bytes 10 [1; 7; 11; 4; 10; 0; 0; 1; 10; 0; 0] = Err EValue /\
  opts_from_bytes 10 [1; 0x44; 12; 5; 1; 10; 0; 0; 1] = Err ENotEnough /\ opts_from_bytes 10 [1; 0x94; 4; 0] = Err EStruct.
Proof. split; [repeat constructor|]. repeat split. Qed.

(** C14: fuel above the number of bytes decides: the loop has ended by then or never ends. So the fuel
    in [ip_from_bytes] loses nothing. *)
Theorem C14_fuel_decides :
  forall raw, wfb raw ->
  (exists r, r <> Err EFuel /\ forall fuel, (length raw < fuel)%nat -> opts_from_bytes fuel raw = r) \/
  (forall fuel, opts_from_bytes fuel raw = Err EFuel).
Proof. exact opts_all_or_nothing. Qed.
Print Assumptions C14_fuel_decides.

Example C14_example :
  let raw := [1; 0x44; 12; 5; 1; 10;0;0;1; 0;0;0;0; 0;0;0] in
  (forall p ty r, raw = p ++ ty :: 0 :: r -> ty mod 32 <> 4) /\ is_ok (opts_from_bytes 100 raw) = true.
Proof. split; [|vm_compute; reflexivity]. intros p ty r.
  do 14 (destruct p as [|? p]; [cbn [app]; intros [= ]; subst; cbn; discriminate|cbn [app]; intros E; apply cons_inj in E as [_ E]; revert E]).
  destruct p as [|? p]; [cbn; intros [= ]; subst; cbn; discriminate|]. destruct p as [|? p]; [discriminate|]. destruct p; discriminate. Qed.

(** C15. dscp: assigned value read back, ecn and everything else unchanged, out-of-range refused. *)
Theorem C15_dscp :
  forall h v, 0 <= ip_tos h < 256 ->
  (0 <= v < 64 -> exists h', ip_set_dscp v h = Ok h' /\ ip_dscp h' = v /\ ip_ecn h' = ip_ecn h /\
     0 <= ip_tos h' < 256 /\ same_but_tos h' h) /\
  (~ 0 <= v < 64 -> ip_set_dscp v h = Err EValue).
Proof. exact set_dscp_ok. Qed.
Print Assumptions C15_dscp.

(** C15. ttl, fragment offset, fragment flags. *)
Theorem C15_other_setters :
  forall h v,
  (0 <= v <= 255 -> exists h', ip_set_ttl v h = Ok h' /\ h' =
     mkIp4 (ip_tos h) (ip_totlen h) v (ip_id h) (ip_flags h) (ip_frag h) (ip_proto h) (ip_src h) (ip_dst h) (ip_opts h)) /\
  (~ 0 <= v <= 255 -> ip_set_ttl v h = Err EValue) /\
  (0 <= v < 8192 -> exists h', ip_set_frag v h = Ok h' /\ h' =
     mkIp4 (ip_tos h) (ip_totlen h) (ip_ttl h) (ip_id h) (ip_flags h) v (ip_proto h) (ip_src h) (ip_dst h) (ip_opts h)) /\
  (~ 0 <= v < 8192 -> ip_set_frag v h = Err EValue) /\
  (v = 0 \/ v = 2 \/ v = 4 -> exists h', ip_set_flags v h = Ok h' /\ h' =
     mkIp4 (ip_tos h) (ip_totlen h) (ip_ttl h) (ip_id h) v (ip_frag h) (ip_proto h) (ip_src h) (ip_dst h) (ip_opts h)) /\
  (~ (v = 0 \/ v = 2 \/ v = 4) -> ip_set_flags v h = Err EValue).
Proof. exact ip_setters. Qed.
Print Assumptions C15_other_setters.

(** C15 fails for ecn: assigning it can change the DSCP, and can give back a different value. *)
Theorem C15_ecn_refuted :
  (exists h v h', 0 <= ip_tos h < 256 /\ 0 <= v < 4 /\ ip_set_ecn v h = Ok h' /\ ip_dscp h' <> ip_dscp h) /\
  (exists h v h', 0 <= ip_tos h < 256 /\ 0 <= v < 4 /\ ip_set_ecn v h = Ok h' /\ ip_ecn h' <> v).
Proof. exact ecn_wrong. Qed.
Print Assumptions C15_ecn_refuted.

(** C15: precisely when assigning ecn does work. *)
Theorem C15_ecn_partial :
  forall h v, 0 <= ip_tos h < 256 -> 0 <= v < 4 ->
  exists h', ip_set_ecn v h = Ok h' /\ same_but_tos h' h /\
  ((ip_ecn h' = v /\ ip_dscp h' = ip_dscp h) <-> (ip_dscp h mod 2 = 0 /\ (2 <= ip_ecn h -> 2 <= v))).
Proof. exact set_ecn_exact. Qed.
Print Assumptions C15_ecn_partial.

Example C15_example :
  exists h', ip_set_dscp 46 (ip_with_tos 3 ip_new) = Ok h' /\ ip_tos h' = 187.
Proof. eexists. split; [vm_compute; reflexivity|]. vm_compute. reflexivity. Qed.

(** C55 fails: RFC 791 puts more-fragments at value 1 of the three flag bits; a received first fragment (flags
    byte 0x20, checksum good) is refused with a ValueError, and the library's MoreFragments (4) is sent as
    the reserved bit. *)
Theorem C55_more_fragments_refuted :
  (exists raw, wfb raw /\ length raw = 20%nat /\ verifies raw /\ nth 6 raw 0 / 32 = 1 /\ ip_from_bytes raw = Err EValue) /\
  (exists h b, ip_set_flags 4 ip_new = Ok h /\ ip_to_bytes h = Ok b /\ nth 6 b 0 / 32 = 4).
Proof. exact more_fragments_wrong. Qed.
Print Assumptions C55_more_fragments_refuted.

(** C55: what does hold: exactly the flag values 0, 2 (don't fragment) and 4 are accepted, and kept. *)
Theorem C55_flags_partial :
  forall raw h rest, wfb raw -> ip_from_bytes raw = Ok (h, rest) ->
  ip_flags h = nth 6 raw 0 / 32 /\ In (nth 6 raw 0 / 32) [0; 2; 4] /\
  ip_frag h = 256 * (nth 6 raw 0 mod 32) + nth 7 raw 0.
Proof. exact ip_flags_parsed. Qed.
Print Assumptions C55_flags_partial.

Example C55_example :
  is_ok (ip_from_bytes [0x45;0;0;20;0;0;0x40;0;64;17; 0x26;0xd7; 10;0;0;1; 10;0;0;2]) = true.
Proof. vm_compute. reflexivity. Qed.

(** C56 fails for IPv4: a header length nibble below 5 is accepted; with 0 the whole header is handed on
    as payload. *)
Theorem C56_ipv4_header_length_refuted :
  exists raw h rest, wfb raw /\ hd 0 raw mod 16 = 0 /\ ip_from_bytes raw = Ok (h, rest) /\ rest = raw.
Proof. exact ip_short_ihl. Qed.
Print Assumptions C56_ipv4_header_length_refuted.
(** C56: lengths of five words or more consume exactly that many words, and are refused when the data is shorter. *)
Theorem C56_ipv4_header_length_partial :
  forall raw h rest, wfb raw -> ip_from_bytes raw = Ok (h, rest) ->
  rest = skipn (Z.to_nat (4 * (hd 0 raw mod 16))) raw /\ 4 * (hd 0 raw mod 16) <= zlen raw /\
  (20 <= length raw)%nat /\ hd 0 raw / 16 = 4.
Proof. exact ip_ihl_parsed. Qed.
Print Assumptions C56_ipv4_header_length_partial.

Example C56_ipv4_example :
  exists h, ip_from_bytes [0x46;0;0;24;0;0;0x40;0;64;17; 0x23;0xd2; 10;0;0;1; 10;0;0;2; 1;1;1;0; 5] = Ok (h, [5]).
Proof. eexists. vm_compute. reflexivity. Qed.

(** C59 fails: a received header with one no-op and padding grows by four bytes when forwarded, and a loose
    source route option (type 131, copied flag set) loses its copied flag. *)
Theorem C59_options_growth_refuted :
  (exists raw h rest b, wfb raw /\ length raw = 24%nat /\ verifies raw /\
     ip_from_bytes raw = Ok (h, rest) /\ ip_to_bytes h = Ok b /\ length b = 28%nat) /\
  (exists raw h rest b, wfb raw /\ length raw = 28%nat /\ verifies raw /\ nth 20 raw 0 = 131 /\
     ip_from_bytes raw = Ok (h, rest) /\ ip_to_bytes h = Ok b /\ nth 20 b 0 = 3).
Proof. exact options_change. Qed.
Print Assumptions C59_options_growth_refuted.
(** C59: the growth is exactly one word for every option list that was serialised and parsed once. *)
Theorem C59_growth_is_one_word_partial :
  forall os b fuel os' b', os <> [] -> Forall wf_opt os -> opts_to_bytes os = Ok b -> (length b < fuel)%nat ->
  opts_from_bytes fuel b = Ok os' -> opts_to_bytes os' = Ok b' -> b' = b ++ [0; 0; 0; 0].
Proof. exact options_grow_one_word. Qed.
Print Assumptions C59_growth_is_one_word_partial.
