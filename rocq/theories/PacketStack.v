From Verif Require Import BaseLemmas CodecLemmas EthAddrModel EthAddrSpec Enums EthModel ArpModel EthProofs ChecksumModel ChecksumSpec
  ChecksumProofs Ipv4Model Ipv4Proofs Ipv4Proofs2 TransportModel TransportProofs Ipv6Model Ipv6Proofs Ipv6ExtProofs
  IcmpModel IcmpProofs IcmpCodecProofs RipModel RipProofs PacketModel PacketSpec PacketProofs PacketParse.

(** ** Whole stacks *)
(** An IPv4 header in front of [raw]: version and header length, total length, verifying checksum, addresses. *)
Definition ip_header_ok (ip : ipv4) (ib raw : bytes) : Prop :=
  hd 0 ib = 64 + zlen ib / 4 /\ zlen ib mod 4 = 0 /\
  unbe (firstn 2 (skipn 2 ib)) = zlen (ib ++ raw) /\ verifies ib /\
  nth 9 ib 0 = ip_proto ip /\ firstn 4 (skipn 12 ib) = ip_src ip /\ firstn 4 (skipn 16 ib) = ip_dst ip.

Lemma ip_layer ip ob raw pkt : wf_ip (ip_with_totlen 0 ip) -> opts_to_bytes (ip_opts ip) = Ok ob -> zlen ob <= 40 ->
  20 + zlen ob + zlen raw <= 65535 ->
  exists ib, pre_ser raw pkt (HIp4 ip) = Ok (HIp4 (ip_with_totlen (20 + zlen ob + zlen raw) ip)) /\
  hdr_bytes (HIp4 (ip_with_totlen (20 + zlen ob + zlen raw) ip)) = Ok ib /\ zlen ib = 20 + zlen ob /\ wfb ib /\ ip_header_ok ip ib raw.
Proof. intros Hw Ho H40 Hl. pose proof (zlen_nonneg ob). pose proof (zlen_nonneg raw).
  set (n := 20 + zlen ob + zlen raw) in *. assert (Hn : 0 <= n < 65536) by lia.
  pose proof (wf_ip_totlen n ip Hw Hn) as Hw'. set (h := ip_with_totlen n ip) in *.
  destruct (ip_serialise h ob Hw' Ho H40) as (c & Rc & _ & Hb & Hv & Wb & H4).
  eexists. split; [cbn [pre_ser]; unfold ip_pre_serialize, ip_size; rewrite Ho; reflexivity|]. split; [exact Hb|].
  pose proof Hw as (_ & _ & _ & _ & _ & _ & _ & (_ & L1) & (_ & L2) & _).
  change (ip_src h) with (ip_src ip) in *. change (ip_dst h) with (ip_dst ip) in *. cbn [ip_with_totlen ip_src ip_dst] in L1, L2.
  assert (Hz : zlen (ip_front h (5 + zlen ob / 4) ++ be 2 c ++ ip_src ip ++ ip_dst ip ++ ob) = 20 + zlen ob).
  { assert (E1 : zlen (ip_front h (5 + zlen ob / 4)) = 10) by reflexivity.
    assert (E2 : zlen (be 2 c) = 2) by (unfold zlen; rewrite be_length; reflexivity).
    assert (E3 : zlen (ip_src ip) = 4) by (unfold zlen; rewrite L1; reflexivity).
    assert (E4 : zlen (ip_dst ip) = 4) by (unfold zlen; rewrite L2; reflexivity).
    rewrite !zlen_app, E1, E2, E3, E4. lia. }
  split; [exact Hz|]. split; [exact Wb|]. unfold ip_header_ok. rewrite (zlen_app _ raw), Hz.
  split; [cbn [ip_front app hd]; lia|]. split; [lia|]. split.
  { cbn [ip_front app skipn firstn unbe length]. change (ip_totlen h) with n.
    change (256 ^ Z.of_nat 1) with 256. change (256 ^ Z.of_nat 0) with 1. lia. }
  split; [exact Hv|]. split; [reflexivity|].
  assert (L3 : length (be 2 c) = 2%nat) by apply be_length.
  destruct (be 2 c) as [|x [|y [|]]]; try discriminate L3. clear L3.
  cbn [ip_front app skipn]. split.
  - rewrite firstn_app_exact by auto. reflexivity.
  - destruct (ip_src ip) as [|s1 [|s2 [|s3 [|s4 [|]]]]]; try discriminate L1. cbn [app skipn]. rewrite firstn_app_exact by auto. reflexivity. Qed.

Lemma raw_ser pre p : ser pre [HRaw p] = Ok ([HRaw p], p).
Proof. cbn [ser pre_ser bindr hdr_bytes hdr_after]. rewrite app_nil_r. reflexivity. Qed.

(** One more header in front. *)
Lemma ser_cons pre h t t' raw h1 b : ser (pre ++ [h]) t = Ok (t', raw) -> pre_ser raw (pre ++ h :: t') h = Ok h1 -> hdr_bytes h1 = Ok b ->
  ser pre (h :: t) = Ok (hdr_after h1 :: t', b ++ raw).
Proof. intros E1 E2 E3. cbn [ser]. rewrite E1. cbn [bindr]. rewrite E2. cbn [bindr]. rewrite E3. reflexivity. Qed.

Lemma be2_unbe n : 0 <= n < 65536 -> unbe (be 2 n) = n.
Proof. intros H. apply unbe_be_small. exact H. Qed.

Theorem stack_udp e ip ob u payload : wf_eth e -> wf_ip (ip_with_totlen 0 ip) -> opts_to_bytes (ip_opts ip) = Ok ob -> zlen ob <= 40 ->
  wf_ports (udp_src u) (udp_dst u) -> wfb payload -> 28 + zlen ob + zlen payload <= 65535 ->
  exists p' eb ib ub, pkt_to_bytes [HEth e; HIp4 ip; HUdp u; HRaw payload] = Ok (p', eb ++ ib ++ ub ++ payload) /\
  eth_to_bytes e = Ok eb /\ zlen eb = 14 /\ zlen ib = 20 + zlen ob /\ zlen ub = 8 /\ ip_header_ok ip ib (ub ++ payload) /\
  unbe (firstn 2 (skipn 4 ub)) = zlen (ub ++ payload) /\
  verifies (pseudo (ip_src ip) (ip_dst ip) (ip_proto ip) (zlen (ub ++ payload)) ++ ub ++ payload).
Proof. intros He Hip Ho H40 Hu Hp Hl. pose proof (zlen_nonneg ob). pose proof (zlen_nonneg payload).
  destruct (udp_serialise u ip payload Hu (wf_ip_pseudo _ Hip) Hp ltac:(lia)) as (u' & c & ub & U1 & U2 & U3 & U4 & U5 & U6 & U7 & U8 & _).
  destruct (ip_layer ip ob (ub ++ payload) ([HEth e] ++ HIp4 ip :: [HUdp u'; HRaw payload]) Hip Ho H40) as (ib & I1 & I2 & I3 & I4 & I5).
  { rewrite zlen_app. unfold zlen at 2. rewrite U6. lia. }
  destruct (eth_to_bytes_ok e He) as (eb & B1 & B2 & B3).
  assert (Zu : zlen ub = 8) by (unfold zlen; rewrite U6; reflexivity).
  do 4 eexists. split.
  { unfold pkt_to_bytes. eapply ser_cons; [|reflexivity|exact B1]. eapply ser_cons; [|exact I1|exact I2].
    change (HUdp u') with (hdr_after (HUdp u')). eapply ser_cons; [apply raw_ser| |exact U4].
    cbn [app pre_ser first_ip4]. rewrite U1. reflexivity. }
  split; [exact B1|]. split; [unfold zlen; rewrite B2; reflexivity|]. split; [exact I3|]. split; [exact Zu|]. split; [exact I5|].
  rewrite zlen_app, Zu. split; [|exact U8].
  rewrite U5. rewrite !app_assoc. rewrite <- (app_assoc _ (be 2 (8 + zlen payload))).
  rewrite skipn_app_exact by (rewrite app_length, !be_length; reflexivity). rewrite firstn_app_exact by (rewrite be_length; reflexivity).
  apply be2_unbe. lia. Qed.

Theorem stack_tcp e ip ob u payload : wf_eth e -> wf_ip (ip_with_totlen 0 ip) -> opts_to_bytes (ip_opts ip) = Ok ob -> zlen ob <= 40 ->
  wf_tcp u -> wfb payload -> 40 + zlen ob + zlen payload <= 65535 ->
  exists p' eb ib ub, pkt_to_bytes [HEth e; HIp4 ip; HTcp u; HRaw payload] = Ok (p', eb ++ ib ++ ub ++ payload) /\
  eth_to_bytes e = Ok eb /\ zlen eb = 14 /\ zlen ib = 20 + zlen ob /\ zlen ub = 20 /\ ip_header_ok ip ib (ub ++ payload) /\
  verifies (pseudo (ip_src ip) (ip_dst ip) (ip_proto ip) (zlen (ub ++ payload)) ++ ub ++ payload).
Proof. intros He Hip Ho H40 Hu Hp Hl. pose proof (zlen_nonneg ob). pose proof (zlen_nonneg payload).
  destruct (tcp_serialise u ip payload Hu (wf_ip_pseudo _ Hip) Hp ltac:(lia)) as (u' & c & ub & U1 & U2 & U3 & U4 & U5 & U6 & U7 & U8 & _).
  destruct (ip_layer ip ob (ub ++ payload) ([HEth e] ++ HIp4 ip :: [HTcp u'; HRaw payload]) Hip Ho H40) as (ib & I1 & I2 & I3 & I4 & I5).
  { rewrite zlen_app. unfold zlen at 2. rewrite U6. lia. }
  destruct (eth_to_bytes_ok e He) as (eb & B1 & B2 & B3).
  assert (Zu : zlen ub = 20) by (unfold zlen; rewrite U6; reflexivity).
  do 4 eexists. split.
  { unfold pkt_to_bytes. eapply ser_cons; [|reflexivity|exact B1]. eapply ser_cons; [|exact I1|exact I2].
    change (HTcp u') with (hdr_after (HTcp u')). eapply ser_cons; [apply raw_ser| |exact U4].
    cbn [app pre_ser first_ip4]. rewrite U1. reflexivity. }
  split; [exact B1|]. split; [unfold zlen; rewrite B2; reflexivity|]. split; [exact I3|]. split; [exact Zu|]. split; [exact I5|].
  rewrite zlen_app, Zu. exact U8. Qed.

Theorem stack_icmp e ip ob m : wf_eth e -> wf_ip (ip_with_totlen 0 ip) -> opts_to_bytes (ip_opts ip) = Ok ob -> zlen ob <= 40 ->
  consistent false m -> wf_data (ic_data m) -> 24 + zlen ob + zlen (data_layout (ic_data m)) <= 65535 ->
  exists p' eb ib mb, pkt_to_bytes [HEth e; HIp4 ip; HIcmp m] = Ok (p', eb ++ ib ++ mb) /\
  eth_to_bytes e = Ok eb /\ zlen eb = 14 /\ zlen ib = 20 + zlen ob /\ ip_header_ok ip ib mb /\
  firstn 2 mb = [ic_type m; ic_code m] /\ skipn 4 mb = data_layout (ic_data m) /\ verifies mb.
Proof. intros He Hip Ho H40 Hm Hd Hl. pose proof (zlen_nonneg ob). pose proof (zlen_nonneg (data_layout (ic_data m))).
  destruct (icmp4_serialise m Hm Hd ltac:(lia)) as (c & mb & M1 & M2 & M3 & M4 & _).
  assert (L2 : length (be 2 c) = 2%nat) by apply be_length.
  assert (Zm : zlen mb = 4 + zlen (data_layout (ic_data m))).
  { rewrite M3, !zlen_app. unfold zlen at 2. rewrite L2. change (zlen [ic_type m; ic_code m]) with 2. lia. }
  destruct (ip_layer ip ob mb ([HEth e] ++ HIp4 ip :: [hdr_after (HIcmp m)]) Hip Ho H40) as (ib & I1 & I2 & I3 & I4 & I5); [lia|].
  destruct (eth_to_bytes_ok e He) as (eb & B1 & B2 & B3).
  do 4 eexists. split.
  { unfold pkt_to_bytes. eapply ser_cons; [|reflexivity|exact B1]. eapply ser_cons; [|exact I1|exact I2].
    rewrite <- (app_nil_r mb). eapply ser_cons; [reflexivity|reflexivity|exact M2]. }
  split; [exact B1|]. split; [unfold zlen; rewrite B2; reflexivity|]. split; [exact I3|]. split; [exact I5|].
  rewrite M3 in *. split; [reflexivity|]. split; [|exact M4].
  destruct (be 2 c) as [|x [|y [|]]]; try discriminate L2. reflexivity. Qed.

(** ICMPv6 behind IPv6: both are filled in (a payload added behind the ICMPv6 header is not covered, as for ICMP). *)
Theorem stack_icmp6 e ip m : wf_eth e -> wf_ip6 ip -> consistent true m -> wf_data (ic_data m) ->
  4 + zlen (data_layout (ic_data m)) <= 65535 ->
  exists p' eb ib mb, pkt_to_bytes [HEth e; HIp6 ip; HIcmp6 m] = Ok (p', eb ++ ib ++ mb) /\
  eth_to_bytes e = Ok eb /\ zlen ib = 40 /\ unbe (firstn 2 (skipn 4 ib)) = zlen mb /\
  firstn 2 mb = [ic_type m; ic_code m] /\ skipn 4 mb = data_layout (ic_data m) /\
  verifies (pseudo6 (v6_src ip) (v6_dst ip) (zlen mb) 58 ++ mb).
Proof. intros He Hip Hm Hd Hl. pose proof (zlen_nonneg (data_layout (ic_data m))).
  pose proof Hip as (_ & _ & _ & _ & Ls & Ld & Ws & Wd).
  destruct (icmp6_serialise ip m Hm Hd Hl (conj Ws Ls) (conj Wd Ld)) as (c & m' & mb & M1 & M2 & M3 & M4 & M5 & _).
  assert (L2 : length (be 2 c) = 2%nat) by apply be_length.
  assert (Zm : zlen mb = 4 + zlen (data_layout (ic_data m))).
  { rewrite M4, !zlen_app. unfold zlen at 2. rewrite L2. change (zlen [ic_type m; ic_code m]) with 2. lia. }
  destruct (ip6_serialise ip mb Hip ltac:(lia)) as (ip' & ib & I1 & I2 & I3 & I4 & I5 & _).
  destruct (eth_to_bytes_ok e He) as (eb & B1 & B2 & B3).
  exists [HEth e; HIp6 ip'; HIcmp6 m'], eb, ib, mb. split.
  { unfold pkt_to_bytes. change (HEth e) with (hdr_after (HEth e)) at 2. eapply ser_cons; [|reflexivity|exact B1].
    change (HIp6 ip') with (hdr_after (HIp6 ip')). eapply ser_cons; [|cbn [pre_ser]; rewrite I1; reflexivity|exact I3].
    rewrite <- (app_nil_r mb) at 1. change (HIcmp6 m') with (hdr_after (HIcmp6 m')). eapply ser_cons; [reflexivity| |exact M3].
    cbn [app pre_ser first_ip6]. rewrite M2. reflexivity. }
  split; [exact B1|]. split; [unfold zlen; rewrite I5; reflexivity|]. split.
  { rewrite I4. rewrite skipn_app_exact by (rewrite be_length; reflexivity). rewrite firstn_app_exact by (rewrite be_length; reflexivity). apply be2_unbe. pose proof (zlen_nonneg mb). lia. }
  rewrite M4 in *. split; [reflexivity|]. split; [|exact M5].
  destruct (be 2 c) as [|x [|y [|]]]; try discriminate L2. reflexivity. Qed.
