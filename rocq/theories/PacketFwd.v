From Verif Require Import BaseLemmas CodecLemmas EthAddrModel EthAddrSpec Enums EthModel ArpModel EthProofs ChecksumModel ChecksumSpec
  ChecksumProofs Ipv4Model Ipv4Proofs Ipv4Proofs2 TransportModel TransportProofs Ipv6Model Ipv6Proofs Ipv6ExtProofs
  IcmpModel IcmpProofs IcmpCodecProofs IcmpFwdProofs RipModel RipProofs PacketModel PacketSpec PacketProofs PacketParse PacketStack PacketTerm.

(** ** Forwarding a received frame without changing it *)
Lemma parse_inv f c raw x : c <> CBytes -> parse_loop (S f) c raw = Ok x ->
  exists h r, parse_hdr c raw = Ok (h, r) /\
  ((next_class h = Ok None /\ x = ([h], r)) \/
   exists c' r' hs fin, next_class h = Ok (Some c') /\ r = Some r' /\ parse_loop f c' r' = Ok (hs, fin) /\ x = (h :: hs, fin)).
Proof. intros Hc H. rewrite PL in H. assert (H' : (' (h, rest) <- parse_hdr c raw;; nc <- next_class h;;
    match nc with
    | None => Ok ([h], rest)
    | Some c' => match rest with None => Err EType | Some r => ' (hs, fin) <- parse_loop f c' r;; Ok (h :: hs, fin) end
    end) = Ok x) by (destruct c; try exact H; congruence). clear H. rename H' into H.
  ok_step H. destruct a as [h r]. ok_step H. exists h, r. split; [reflexivity|]. destruct a as [c'|].
  - right. destruct r as [r|]; [|discriminate]. ok_step H. destruct a as [hs fin]. apply ok_inj in H. subst x. do 4 eexists. eauto.
  - left. apply ok_inj in H. auto. Qed.

(** Trailing bytes as a header list. *)
Definition tail_of (b : bytes) : list hdr := match b with [] => [] | _ => [HRaw b] end.
Lemma ser_tail pre b : ser pre (tail_of b) = Ok (tail_of b, b).
Proof. destruct b; [reflexivity|]. apply raw_ser. Qed.
Lemma with_rest_tail hs b : with_rest (hs, Some b) = hs ++ tail_of b.
Proof. destruct b; reflexivity. Qed.

Lemma nth_error_nth0 (l : bytes) n : nth n l 0 = hd 0 (skipn n l).
Proof. revert l. induction n as [|n IH]; intros [|x l]; try reflexivity. apply IH. Qed.

(** A received IPv4 header without options whose length and checksum are right. *)
Definition good_ip (ib rest : bytes) : Prop :=
  length ib = 20%nat /\ hd 0 ib = 0x45 /\ unbe (firstn 2 (skipn 2 ib)) = 20 + zlen rest /\ verifies ib /\
  firstn 2 (skipn 10 ib) <> [255; 255].
Lemma ip_forward ib rest h r pkt : wfb (ib ++ rest) -> good_ip ib rest -> ip_from_bytes (ib ++ rest) = Ok (h, r) ->
  r = rest /\ pre_ser rest pkt (HIp4 h) = Ok (HIp4 h) /\ hdr_bytes (HIp4 h) = Ok ib /\
  ip_proto h = nth 9 ib 0 /\ ip_src h = firstn 4 (skipn 12 ib) /\ ip_dst h = firstn 4 (skipn 16 ib) /\ wf_ip h.
Proof. intros Hw (L & Hh & Ht & Hv & Hff) H.
  assert (F20 : firstn 20 (ib ++ rest) = ib) by (apply firstn_app_exact; auto).
  assert (Hh' : hd 0 (ib ++ rest) = 0x45) by (destruct ib; [discriminate L|exact Hh]).
  assert (S10 : firstn 2 (skipn 10 (ib ++ rest)) = firstn 2 (skipn 10 ib)).
  { do 20 (destruct ib as [|? ib]; [discriminate L|]). reflexivity. }
  destruct (ip_reserialise _ _ _ Hw H Hh' ltac:(rewrite F20; exact Hv) ltac:(rewrite S10; exact Hff)) as [E1 E2].
  rewrite F20 in E1. rewrite skipn_app_exact in E2 by auto. split; [exact E2|].
  destruct (ip_parse_inv _ _ _ Hw H) as (hl & c & Hl & Hc & _ & _ & Er & Ho & Hwf & _ & Ef). rewrite F20 in Ef.
  assert (hl = 5) by (rewrite Ef in Hh; cbn [ip_front app hd] in Hh; lia). subst hl.
  change (Z.to_nat (5 * 4)) with 20%nat in Ho. rewrite F20 in Ho. replace (skipn 20 ib) with (@nil Z) in Ho by (symmetry; apply skipn_all2; lia).
  cbn [length opts_from_bytes] in Ho. apply ok_inj in Ho.
  assert (Wf : wf_ip h) by (apply Hwf; rewrite <- Ho; constructor).
  pose proof Wf as (_ & Rt & _ & _ & _ & _ & _ & (_ & L1) & (_ & L2) & _).
  assert (Et : ip_totlen h = 20 + zlen rest).
  { rewrite Ef in Ht. cbn [ip_front app skipn firstn unbe length] in Ht. change (256 ^ Z.of_nat 1) with 256 in Ht. change (256 ^ Z.of_nat 0) with 1 in Ht. lia. }
  split. { cbn [pre_ser]. unfold ip_pre_serialize, ip_size. rewrite <- Ho. cbn [opts_to_bytes bindr]. 
    do 2 f_equal. change (zlen (@nil Z)) with 0. rewrite Z.add_0_r, <- Et. destruct h; reflexivity. }
  split; [exact E1|]. rewrite Ef.
  assert (L3 : length (be 2 c) = 2%nat) by apply be_length. destruct (be 2 c) as [|b1 [|b2 [|]]]; try discriminate L3.
  destruct (ip_src h) as [|s1 [|s2 [|s3 [|s4 [|]]]]]; try discriminate L1.
  destruct (ip_dst h) as [|d1 [|d2 [|d3 [|d4 [|]]]]]; try discriminate L2.
  cbn [ip_front app nth skipn firstn]. auto. Qed.

(** A received UDP segment with a good length and checksum (neither spelling of zero). *)
Definition good_udp (src dst seg : bytes) : Prop :=
  unbe (firstn 2 (skipn 4 seg)) = zlen seg /\ verifies (pseudo src dst 17 (zlen seg) ++ seg) /\
  unbe (firstn 2 (skipn 6 seg)) <> 0 /\ unbe (firstn 2 (skipn 6 seg)) <> 65535.
Lemma udp_forward ip seg u rest : wfb seg -> wf_pseudo ip -> ip_proto ip = 17 -> zlen seg <= 65535 ->
  good_udp (ip_src ip) (ip_dst ip) seg -> udp_from_bytes seg = Ok (u, rest) ->
  udp_pre_serialize rest (Some ip) u = Ok u /\ exists ub, udp_to_bytes u = Ok ub /\ ub ++ rest = seg.
Proof. intros Hw Hip Hpr Hl (G1 & G2 & G3 & G4) H. destruct (udp_reserialise _ _ _ Hw H) as (L8 & -> & Hb & Hp & Rl & Rc).
  pose proof (udp_to_bytes_ok u Hp Rl Rc) as Hb2. rewrite Hb in Hb2. apply ok_inj in Hb2.
  assert (Hseg : seg = firstn 8 seg ++ skipn 8 seg) by (symmetry; apply firstn_skipn).
  assert (Wr : wfb (skipn 8 seg)) by (apply wfb_skipn; auto).
  assert (Lz : zlen seg = 8 + zlen (skipn 8 seg)) by (unfold zlen; rewrite skipn_length; lia).
  destruct (udp_serialise u ip (skipn 8 seg) Hp Hip Wr ltac:(lia)) as (u' & c & ub & U1 & U2 & U3 & U4 & U5 & U6 & U7 & U8 & _).
  rewrite <- Lz in *. rewrite Hpr in U8.
  set (pay := skipn 8 seg) in *. rewrite Hb2 in Hseg.
  assert (El : udp_len u = zlen seg).
  { rewrite <- G1. rewrite Hseg. rewrite <- !app_assoc. rewrite (app_assoc (be 2 (udp_src u))). rewrite skipn_app_exact by (rewrite app_length, !be_length; reflexivity).
    rewrite firstn_app_exact by (rewrite be_length; reflexivity). symmetry. apply be2_unbe. exact Rl. }
  assert (Ec : unbe (firstn 2 (skipn 6 seg)) = udp_csum u).
  { rewrite Hseg. rewrite <- !app_assoc. rewrite (app_assoc (be 2 (udp_src u))), (app_assoc _ (be 2 (udp_len u))). rewrite skipn_app_exact by (rewrite !app_length, !be_length; reflexivity).
    rewrite firstn_app_exact by (rewrite be_length; reflexivity). apply be2_unbe. exact Rc. }
  rewrite Ec in G3, G4. rewrite Hseg in G2 at 2. rewrite El in G2. rewrite U5 in U8. rewrite !app_assoc in G2, U8. 
  rewrite <- (app_assoc _ _ pay) in G2. rewrite <- (app_assoc _ _ pay) in U8.
  assert (Ecc : c = udp_csum u).
  { match type of G2 with verifies (?A ++ _ ++ _) => 
      pose proof (checksum_unique A pay (be 2 (udp_csum u)) (be 2 c)) as Hu end.
    pose proof Hip as ((Ws & Ls) & (Wd & Ld) & _).
    rewrite !be2_unbe in Hu by auto.
    assert (udp_csum u mod 65535 = c mod 65535); [|lia].
    apply Hu; auto using be_wfb, be_length.
    - unfold pseudo. rewrite !wfb_app. repeat split; auto using be_wfb. repeat constructor; pose proof (zlen_nonneg seg); lia.
    - unfold pseudo. rewrite !app_length, !be_length, Ls, Ld. reflexivity. }
  assert (Eu : u' = u) by (rewrite U3, Ecc, <- El; destruct u; reflexivity). rewrite Eu in *. split; [exact U1|].
  exists ub. split; [exact U4|]. rewrite U5, Ecc, <- El. symmetry. exact Hseg. Qed.

(** A received TCP segment without options and with a good checksum. *)
Definition good_tcp (src dst seg : bytes) : Prop :=
  (nth 12 seg 0 = 0x50 \/ nth 12 seg 0 = 0x51) /\ verifies (pseudo src dst 6 (zlen seg) ++ seg) /\
  unbe (firstn 2 (skipn 16 seg)) <> 0 /\ unbe (firstn 2 (skipn 16 seg)) <> 65535.
Lemma tcp_unpacked seg u rest : wfb seg -> tcp_from_bytes seg = Ok (u, rest) -> (nth 12 seg 0 = 0x50 \/ nth 12 seg 0 = 0x51) ->
  exists c, 0 <= c < 65536 /\ wf_tcp u /\ seg = tcp_bytes u c ++ rest /\ unbe (firstn 2 (skipn 16 seg)) = c /\
  (20 <= length seg)%nat /\ rest = skipn 20 seg.
Proof. intros Hw H Ho. unfold tcp_from_bytes in H.
  destruct (Nat.ltb (length seg) 20) eqn:Hl; [discriminate|]. apply Nat.ltb_ge in Hl.
  destruct (unpack tcp_fmt (firstn 20 seg)) as [vs|] eqn:Hu; [|discriminate].
  pose proof (unpack_shaped _ _ _ (wfb_firstn _ _ Hw) Hu) as Hs.
  pose proof (pack_take tcp_fmt vs seg 20 Hw eq_refl eq_refl Hu) as Hp.
  unfold tcp_fmt in Hs. shape Hs. cbn [bindr] in H. pow256. cbv zeta in H. apply ok_pair_inj in H as [<- <-].
  unfold tcp_fmt in Hp. rewrite !pack_cons_int in Hp by (pow256; lia). rewrite pack_nil in Hp. cbn [bindr] in Hp. apply ok_inj in Hp.
  assert (N : nth 12 seg 0 = z3 / 256).
  { rewrite <- (nth_firstn 20) by lia. rewrite <- Hp.
    rewrite (app_nth2 (be 2 z)) by (rewrite be_length; lia). rewrite be_length.
    rewrite (app_nth2 (be 2 z0)) by (rewrite be_length; lia). rewrite be_length.
    rewrite (app_nth2 (be 4 z1)) by (rewrite be_length; lia). rewrite be_length.
    rewrite (app_nth2 (be 4 z2)) by (rewrite be_length; lia). rewrite be_length. cbn [Nat.sub].
    rewrite (be2 z3) by lia. reflexivity. }
  rewrite N in Ho. rewrite Z.shiftr_div_pow2 by lia. change (2 ^ 12) with 4096. replace (z3 / 4096 * 4) with 20 by lia.
  change (Z.to_nat 20) with 20%nat.
  assert (Fl : Z.land z3 511 = z3 mod 512) by (change 511 with (Z.ones 9); rewrite Z.land_ones by lia; reflexivity).
  assert (Hseg : seg = firstn 20 seg ++ skipn 20 seg) by (symmetry; apply firstn_skipn).
  assert (Eb : firstn 20 seg = tcp_bytes (mkTcp z z0 z1 z2 (Z.land z3 511) z4 z6 (tcp_len tcp_new) (tcp_csum tcp_new)) z5).
  { rewrite <- Hp. unfold tcp_bytes. cbn [tcp_src tcp_dst tcp_seq tcp_ack tcp_flags tcp_window tcp_urg]. rewrite Fl, (be2 z3) by lia.
    replace (80 + z3 mod 512 / 256) with (z3 / 256) by lia. replace ((z3 mod 512) mod 256) with (z3 mod 256) by lia. rewrite app_nil_r. reflexivity. }
  exists z5. split; [lia|]. split. { unfold wf_tcp, wf_ports. cbn [tcp_src tcp_dst tcp_seq tcp_ack tcp_flags tcp_window tcp_urg]. rewrite Fl. lia. }
  split. { rewrite <- Eb. exact Hseg. } split; [|split; [exact Hl|reflexivity]].
  rewrite Hseg at 1. rewrite Eb. unfold tcp_bytes. cbn [tcp_src tcp_dst tcp_seq tcp_ack tcp_flags tcp_window tcp_urg].
  rewrite <- !app_assoc. rewrite (app_assoc (be 2 z)), (app_assoc _ (be 4 z1)), (app_assoc _ (be 4 z2)), (app_assoc _ [_; _]), (app_assoc _ (be 2 z4)).
  rewrite skipn_app_exact by (rewrite !app_length, !be_length; reflexivity). rewrite firstn_app_exact by (rewrite be_length; reflexivity).
  apply be2_unbe. lia. Qed.
Lemma tcp_forward ip seg u rest : wfb seg -> wf_pseudo ip -> ip_proto ip = 6 -> zlen seg <= 65535 ->
  good_tcp (ip_src ip) (ip_dst ip) seg -> tcp_from_bytes seg = Ok (u, rest) ->
  exists u' ub, tcp_pre_serialize rest (Some ip) u = Ok u' /\ tcp_to_bytes u' = Ok ub /\ ub ++ rest = seg.
Proof. intros Hw Hip Hpr Hl (G1 & G2 & G3 & G4) H. destruct (tcp_unpacked _ _ _ Hw H G1) as (c0 & Rc & Wu & Es & Ec & L & Er).
  assert (Wr : wfb rest) by (rewrite Er; apply wfb_skipn; auto).
  assert (Lz : zlen seg = 20 + zlen rest) by (rewrite Er; unfold zlen; rewrite skipn_length; lia).
  destruct (tcp_serialise u ip rest Wu Hip Wr ltac:(lia)) as (u' & c & ub & U1 & U2 & U3 & U4 & U5 & U6 & U7 & U8 & _).
  exists u', ub. split; [exact U1|]. split; [exact U4|]. rewrite U5 in *. rewrite <- Lz, Hpr in U8. rewrite Ec in G3, G4.
  rewrite Es in G2 at 2. unfold tcp_bytes in G2, U8. 
  assert (Ecc : c = c0); [|rewrite Ecc; symmetry; exact Es].
  set (A := pseudo (ip_src ip) (ip_dst ip) 6 (zlen seg) ++ be 2 (tcp_src u) ++ be 2 (tcp_dst u) ++ be 4 (tcp_seq u) ++ be 4 (tcp_ack u) ++
    [80 + tcp_flags u / 256; tcp_flags u mod 256] ++ be 2 (tcp_window u)).
  pose proof (checksum_unique A (be 2 (tcp_urg u) ++ rest) (be 2 c0) (be 2 c)) as Hu. rewrite !be2_unbe in Hu by auto.
  assert (c0 mod 65535 = c mod 65535); [|lia].
  pose proof Hip as ((Ws & Ls) & (Wd & Ld) & _). destruct Wu as (? & ? & ? & ? & ? & ?).
  apply Hu; auto using be_wfb, be_length.
  - unfold A, pseudo. rewrite !wfb_app. repeat split; auto using be_wfb; repeat constructor; pose proof (zlen_nonneg seg); lia.
  - apply wfb_app. auto using be_wfb.
  - unfold A, pseudo. rewrite !app_length, !be_length, Ls, Ld. reflexivity.
  - unfold A. rewrite <- !app_assoc in *. exact G2.
  - unfold A. rewrite <- !app_assoc in *. exact U8. Qed.

(** The frames. *)
Definition good_eth (eb : bytes) (t : Z) : Prop := length eb = 14%nat /\ unbe (skipn 12 eb) = t.
Lemma eth_forward eb rest h r t : wfb (eb ++ rest) -> good_eth eb t -> 1500 < t -> eth_from_bytes (eb ++ rest) = Ok (h, r) ->
  r = rest /\ eth_type h = t /\ eth_to_bytes h = Ok eb.
Proof. intros Hw (L & Ht) H1500 H. destruct (eth_parse_then_serialise _ _ _ Hw H) as (_ & -> & _ & _ & H5).
  rewrite skipn_app_exact by auto. rewrite firstn_app_exact in H5 by auto.
  assert (E : firstn 2 (skipn 12 (eb ++ rest)) = skipn 12 eb).
  { do 14 (destruct eb as [|? eb]; [discriminate L|]). destruct eb; [reflexivity|discriminate L]. }
  rewrite E, Ht in H5. destruct (H5 H1500). auto. Qed.

Lemma fwd_front eb ib seg p pr c : wfb (eb ++ ib ++ seg) -> good_eth eb 0x800 -> good_ip ib seg -> nth 9 ib 0 = pr -> ip4_class pr = Some c ->
  pkt_parse (eb ++ ib ++ seg) = Ok p ->
  exists e ip f hs fin, p = HEth e :: HIp4 ip :: with_rest (hs, fin) /\ parse_loop f c seg = Ok (hs, fin) /\
    wf_pseudo ip /\ ip_proto ip = pr /\ ip_src ip = firstn 4 (skipn 12 ib) /\ ip_dst ip = firstn 4 (skipn 16 ib) /\ wfb seg /\ zlen seg <= 65535 /\
    forall hs', ser ([HEth e] ++ [HIp4 ip]) (with_rest (hs, fin)) = Ok (hs', seg) -> exists p', pkt_to_bytes p = Ok (p', eb ++ ib ++ seg).
Proof. intros Hw He Hi H9 Hc H. pose proof Hw as Hw0. apply wfb_app in Hw0 as [_ Hw1]. pose proof Hw1 as Hw2. apply wfb_app in Hw2 as [Wi Wse].
  unfold pkt_parse, pkt_new in H. destruct (eb ++ ib ++ seg) as [|x0 r0] eqn:Er; [destruct eb; [destruct He; discriminate|discriminate]|]. rewrite <- Er in *. clear Er x0 r0.
  ok_step H. apply ok_inj in H. subst p.
  destruct (parse_inv _ CEth _ _ ltac:(discriminate) E) as (h1 & r1 & P1 & Q1). cbn [parse_hdr] in P1. ok_step P1. destruct a0 as [e re].
  apply ok_pair_inj in P1 as [<- <-]. destruct (eth_forward _ _ _ _ _ Hw He ltac:(lia) E0) as (-> & Et & Eb).
  cbn [next_class] in Q1. rewrite Et in Q1.
  destruct Q1 as [[Q1 _]|(c' & r' & hs & fin & Q1 & Q2 & Q3 & ->)]; [vm_compute in Q1; discriminate|].
  assert (c' = CIp4) by (vm_compute in Q1; congruence). subst c'. assert (r' = ib ++ seg) by congruence. subst r'.
  destruct (parse_inv _ CIp4 _ _ ltac:(discriminate) Q3) as (h2 & r2 & P2 & Q4). cbn [parse_hdr] in P2. ok_step P2. destruct a as [ip ri].
  apply ok_pair_inj in P2 as [<- <-]. destruct (ip_forward _ _ _ _ ([HEth e] ++ [HIp4 ip]) Hw1 Hi E1) as (-> & _ & _ & Ep & Es & Ed & Wip).
  rewrite H9 in Ep. cbn [next_class] in Q4. rewrite Ep, Hc in Q4.
  destruct Q4 as [[Q4 _]|(c' & r' & hs2 & fin2 & Q4 & Q5 & Q6 & Q7)]; [discriminate|]. apply pair_inj in Q7 as [-> ->].
  assert (c' = c) by congruence. subst c'. assert (r' = seg) by congruence. subst r'.
  pose proof Hi as (Li & _ & Ht & _).
  assert (Hl : zlen seg <= 65535).
  { pose proof (unbe_range (firstn 2 (skipn 2 ib)) ltac:(apply wfb_firstn, wfb_skipn; auto)) as R.
    assert (L2 : length (firstn 2 (skipn 2 ib)) = 2%nat) by (rewrite firstn_length, skipn_length; lia). rewrite L2 in R. pow256. lia. }
  exists e, ip, (S (S (length (eb ++ ib ++ seg)))), hs2, fin2. split; [reflexivity|].
  split; [exact Q6|]. repeat split; auto; try apply (wf_ip_pseudo _ Wip).
  intros hs' Hs. eexists. unfold pkt_to_bytes.
  change (with_rest _) with (HEth e :: HIp4 ip :: with_rest (hs2, fin2)).
  eapply ser_cons; [|reflexivity|exact Eb]. eapply ser_cons; [exact Hs| |].
  - destruct (ip_forward _ _ _ _ ([HEth e] ++ HIp4 ip :: hs') Hw1 Hi E1) as (_ & I1 & I2 & _). exact I1.
  - destruct (ip_forward _ _ _ _ [] Hw1 Hi E1) as (_ & I1 & I2 & _). exact I2. Qed.

Theorem forward_udp eb ib seg p : wfb (eb ++ ib ++ seg) -> good_eth eb 0x800 -> good_ip ib seg -> nth 9 ib 0 = 17 ->
  good_udp (firstn 4 (skipn 12 ib)) (firstn 4 (skipn 16 ib)) seg ->
  pkt_parse (eb ++ ib ++ seg) = Ok p -> exists p', pkt_to_bytes p = Ok (p', eb ++ ib ++ seg).
Proof. intros Hw He Hi H9 Hu H.
  destruct (fwd_front _ _ _ _ 17 CUdp Hw He Hi H9 eq_refl H) as (e & ip & f & hs & fin & -> & Q & Wp & Ep & Es & Ed & Wse & Hl & K).
  destruct f as [|f]; [discriminate Q|]. destruct (parse_inv _ CUdp _ _ ltac:(discriminate) Q) as (h3 & r3 & P3 & Q8). cbn [parse_hdr] in P3. ok_step P3. destruct a as [u pay].
  apply ok_pair_inj in P3 as [<- <-]. destruct Q8 as [[_ Q8]|(? & ? & ? & ? & Q8 & _)]; [|discriminate]. apply pair_inj in Q8 as [-> ->].
  rewrite with_rest_tail in *. cbn [app] in *.
  rewrite <- Es, <- Ed in Hu. destruct (udp_forward ip seg u pay Wse Wp Ep Hl Hu E) as (U1 & ub & U2 & U3).
  eapply K. rewrite <- U3 at 1. eapply ser_cons with (h1 := HUdp u); [apply ser_tail| |exact U2]. cbn [app pre_ser first_ip4]. rewrite U1. reflexivity. Qed.

Theorem forward_tcp eb ib seg p : wfb (eb ++ ib ++ seg) -> good_eth eb 0x800 -> good_ip ib seg -> nth 9 ib 0 = 6 ->
  good_tcp (firstn 4 (skipn 12 ib)) (firstn 4 (skipn 16 ib)) seg ->
  pkt_parse (eb ++ ib ++ seg) = Ok p -> exists p', pkt_to_bytes p = Ok (p', eb ++ ib ++ seg).
Proof. intros Hw He Hi H9 Hu H.
  destruct (fwd_front _ _ _ _ 6 CTcp Hw He Hi H9 eq_refl H) as (e & ip & f & hs & fin & -> & Q & Wp & Ep & Es & Ed & Wse & Hl & K).
  destruct f as [|f]; [discriminate Q|]. destruct (parse_inv _ CTcp _ _ ltac:(discriminate) Q) as (h3 & r3 & P3 & Q8). cbn [parse_hdr] in P3. ok_step P3. destruct a as [u pay].
  apply ok_pair_inj in P3 as [<- <-]. destruct Q8 as [[_ Q8]|(? & ? & ? & ? & Q8 & _)]; [|discriminate]. apply pair_inj in Q8 as [-> ->].
  rewrite with_rest_tail in *. cbn [app] in *.
  rewrite <- Es, <- Ed in Hu. destruct (tcp_forward ip seg u pay Wse Wp Ep Hl Hu E) as (u' & ub & U1 & U2 & U3).
  eapply K. rewrite <- U3 at 1. eapply ser_cons with (h1 := HTcp u'); [apply ser_tail| |exact U2]. cbn [app pre_ser first_ip4]. rewrite U1. reflexivity. Qed.

(** A received ICMP message with a good checksum, unused bytes zero, of a kind whose whole body is kept. *)
Definition good_icmp (seg : bytes) : Prop :=
  verifies seg /\ unbe (firstn 2 (skipn 2 seg)) <> 65535 /\ reserved_zero (nth 0 seg 0) (skipn 4 seg) /\ nth 0 seg 0 <> 17 /\ nth 0 seg 0 <> 18.
Theorem forward_icmp eb ib seg p : wfb (eb ++ ib ++ seg) -> good_eth eb 0x800 -> good_ip ib seg -> nth 9 ib 0 = 1 -> good_icmp seg ->
  pkt_parse (eb ++ ib ++ seg) = Ok p -> exists p', pkt_to_bytes p = Ok (p', eb ++ ib ++ seg).
Proof. intros Hw He Hi H9 (G1 & G2 & G3 & G4 & G5) H.
  destruct (fwd_front _ _ _ _ 1 CIcmp Hw He Hi H9 eq_refl H) as (e & ip & f & hs & fin & -> & Q & Wp & Ep & Es & Ed & Wse & Hl & K).
  destruct f as [|f]; [discriminate Q|]. destruct (parse_inv _ CIcmp _ _ ltac:(discriminate) Q) as (h3 & r3 & P3 & Q8). cbn [parse_hdr] in P3. ok_step P3. destruct a as [m pay].
  apply ok_pair_inj in P3 as [<- <-]. destruct Q8 as [[_ Q8]|(? & ? & ? & ? & Q8 & _)]; [|discriminate]. apply pair_inj in Q8 as [-> ->].
  destruct (icmp_parse_inv _ _ _ Wse E) as (body & Eseg & Rc & Wb & _ & _ & _ & Hrest & Hlay).
  assert (N0 : nth 0 seg 0 = ic_type m) by (rewrite Eseg; reflexivity).
  assert (S4 : skipn 4 seg = body) by (rewrite Eseg; apply (skipn_app_exact ([ic_type m; ic_code m] ++ be 2 (ic_csum m)) body 4); reflexivity).
  pose proof G3 as G3'. rewrite N0, S4 in G3'. destruct (Hlay G3') as [L _]. rewrite L in Hrest by lia.
  assert (pay = []) by (rewrite Hrest; apply skipn_all2; lia). clear Hrest. subst pay.
  assert (Ecs : ic_csum m <> 65535).
  { intros X. apply G2. rewrite Eseg. cbn [app skipn]. rewrite firstn_app_exact by (rewrite be_length; reflexivity). rewrite be2_unbe; lia. }
  pose proof (icmp4_forward seg m Wse Hl E G1 Ecs G3) as B.
  eapply K. change (with_rest _) with [HIcmp m]. rewrite <- (app_nil_r seg) at 1. eapply ser_cons; [reflexivity|reflexivity|exact B]. Qed.

(** ARP frames. *)
Theorem forward_arp eb ab p : wfb (eb ++ ab) -> good_eth eb 0x806 -> pkt_parse (eb ++ ab) = Ok p ->
  exists p', pkt_to_bytes p = Ok (p', eb ++ ab).
Proof. intros Hw He H. pose proof Hw as Hw1. apply wfb_app in Hw1 as [_ Wa].
  unfold pkt_parse, pkt_new in H. destruct (eb ++ ab) as [|x0 r0] eqn:Er; [destruct eb; [destruct He; discriminate|discriminate]|]. rewrite <- Er in *. clear Er x0 r0.
  ok_step H. apply ok_inj in H. subst p.
  destruct (parse_inv _ CEth _ _ ltac:(discriminate) E) as (h1 & r1 & P1 & Q1). cbn [parse_hdr] in P1. ok_step P1. destruct a0 as [e re].
  apply ok_pair_inj in P1 as [<- <-]. destruct (eth_forward _ _ _ _ _ Hw He ltac:(lia) E0) as (-> & Et & Eb).
  cbn [next_class] in Q1. rewrite Et in Q1.
  destruct Q1 as [[Q1 _]|(c' & r' & hs & fin & Q1 & Q2 & Q3 & ->)]; [vm_compute in Q1; discriminate|].
  assert (c' = CArp) by (vm_compute in Q1; congruence). subst c'. assert (r' = ab) by congruence. subst r'.
  destruct (parse_inv _ CArp _ _ ltac:(discriminate) Q3) as (h2 & r2 & P2 & Q4). cbn [parse_hdr] in P2. ok_step P2. destruct a as [ar rest].
  apply ok_pair_inj in P2 as [<- <-]. destruct Q4 as [[_ Q4]|(? & ? & ? & ? & Q4 & _)]; [|discriminate]. apply pair_inj in Q4 as [-> ->].
  destruct (proj2 (arp_parse_then_serialise _ Wa) _ _ E1) as (L & -> & B).
  eexists. change (HEth e :: [HArp ar], Some (skipn 28 ab)) with ([HEth e; HArp ar], Some (skipn 28 ab)). rewrite with_rest_tail. cbn [app].
  unfold pkt_to_bytes. replace (eb ++ ab) with (eb ++ firstn 28 ab ++ skipn 28 ab) by (rewrite firstn_skipn; reflexivity).
  eapply ser_cons; [|reflexivity|exact Eb]. eapply ser_cons; [apply ser_tail|reflexivity|exact B]. Qed.
