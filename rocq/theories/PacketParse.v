From Verif Require Import BaseLemmas CodecLemmas EthAddrModel EthAddrSpec Enums EthModel ArpModel EthProofs ChecksumModel ChecksumSpec
  ChecksumProofs Ipv4Model Ipv4Proofs Ipv4Proofs2 TransportModel TransportProofs Ipv6Model Ipv6Proofs Ipv6ExtProofs
  IcmpModel IcmpProofs IcmpCodecProofs RipModel RipProofs PacketModel PacketSpec PacketProofs.

Lemma ip6_class_says p : ip6_class p = assoc p ip6_table.
Proof. unfold ip6_class, assoc, ip6_table, ipTCP, ipUDP, ipICMPv6.
  repeat match goal with |- context [?a =? ?b] => destruct (Z.eqb_spec a b); subst; try lia end; reflexivity. Qed.
Lemma next_says h : (forall af, h = HNull af -> af = 2 \/ af = 10) -> next_class h = Ok (says_next h).
Proof. intros Hn. destruct h; try reflexivity; cbn [next_class says_next]; unfold ext_class, ip6_says; try rewrite ip6_class_says; try reflexivity.
  - unfold link_class, assoc, ethertype_table, etIP, etARP, etIPv6, etVlan.
    repeat match goal with |- context [?a =? ?b] => destruct (Z.eqb_spec a b); subst; try lia end; reflexivity.
  - unfold link_class, assoc, ethertype_table, etIP, etARP, etIPv6, etVlan.
    repeat match goal with |- context [?a =? ?b] => destruct (Z.eqb_spec a b); subst; try lia end; reflexivity.
  - unfold ip4_class, assoc, ip4_table, ipTCP, ipUDP, ipICMP.
    repeat match goal with |- context [?a =? ?b] => destruct (Z.eqb_spec a b); subst; try lia end; reflexivity.
  - destruct (ro_nh h); [rewrite ip6_class_says|]; reflexivity.
  - destruct (fr_nh h); [rewrite ip6_class_says|]; reflexivity.
  - destruct (ho_nh h); [rewrite ip6_class_says|]; reflexivity.
  - destruct (ho_nh h); [rewrite ip6_class_says|]; reflexivity.
  - destruct (Hn af eq_refl) as [-> | ->]; reflexivity. Qed.

Lemma ip_range h b : ip_to_bytes h = Ok b -> 0 <= ip_totlen h < 65536.
Proof. unfold ip_to_bytes. intros H. ok_step H. ok_step H. ok_step H. apply pack_packable in E1. unfold ip_fmt in E1. cbn [packable] in E1.
  change (256 ^ Z.of_nat 2) with 65536 in E1. tauto. Qed.
Lemma ip6_range h b : ip6_to_bytes h = Ok b -> 0 <= v6_plen h < 65536.
Proof. unfold ip6_to_bytes. intros H. apply pack_packable in H. unfold ip6_fmt in H. cbn [packable] in H.
  change (256 ^ Z.of_nat 2) with 65536 in H. tauto. Qed.
Lemma icmp_pack_range m c b : icmp_pack m c = Ok b -> 0 <= c < 65536.
Proof. unfold icmp_pack. intros H. ok_step H. apply pack_packable in E. cbn [packable] in E. change (256 ^ Z.of_nat 2) with 65536 in E. tauto. Qed.

Lemma wf_ip_totlen n h : wf_ip (ip_with_totlen 0 h) -> 0 <= n < 65536 -> wf_ip (ip_with_totlen n h).
Proof. unfold wf_ip, ip_with_totlen. cbn [ip_tos ip_totlen ip_ttl ip_id ip_flags ip_frag ip_proto ip_src ip_dst ip_opts]. tauto. Qed.

Lemma rev4_unbe af b : pack [fI] [VI af] = Ok b -> unbe b = af /\ length b = 4%nat.
Proof. intros H. pose proof (pack_packable _ _ _ H) as Hp. cbn [packable] in Hp. destruct Hp as [Hp _].
  rewrite pack_cons_int in H by auto. cbn [pack bindr] in H. apply ok_inj in H. subst b. rewrite app_nil_r, be_length. split; [|reflexivity].
  apply unbe_be_small; auto. Qed.

Lemma hdr_parse_back raw p h h1 b t : wf_hdr h -> wire_header h -> (is_icmp h = true -> t = []) ->
  pre_ser raw p h = Ok h1 -> hdr_bytes h1 = Ok b ->
  exists h2, parse_hdr (class_of h) (b ++ t) = Ok (h2, Some t) /\ read_as (hdr_after h1) h2 /\ says_next h2 = says_next h /\
  class_of h2 = class_of h /\ (forall af, h2 = HNull af -> af = 2 \/ af = 10) /\ (1 <= length b)%nat.
Proof. intros Hw Hh Hi H Hb. destruct h; cbn [wire_header] in Hh; try contradiction; clear Hh;
    cbn [pre_ser] in H; try (ok_step H); try discriminate; apply ok_inj in H; subst h1;
    cbn [hdr_after hdr_bytes class_of parse_hdr wf_hdr] in *.
  - destruct Hw as [Hw H15]. pose proof (pack_length _ _ _ Hb) as L. rewrite (eth_parse _ _ t Hw Hb). cbn [bindr].
    eexists. split; [reflexivity|]. assert (E : (if eth_type h <=? 1500 then etNoType else eth_type h) = eth_type h).
    { destruct Hw as (_ & _ & Hw). destruct (Z.leb_spec (eth_type h) 1500); auto. exfalso. unfold EtherTypes in Hw. cbn [In] in Hw. lia. }
    rewrite E. destruct h as [xa xb xc]. cbn [eth_dst eth_src eth_type]. split; [reflexivity|]. split; [reflexivity|]. split; [reflexivity|]. split; [discriminate|]. rewrite L; cbn; lia.
  - pose proof (pack_length _ _ _ Hb) as L. rewrite (vlan_parse _ _ t Hw Hb). cbn [bindr]. eexists. split; [reflexivity|].
    repeat (split; [reflexivity|]). split; [discriminate|]. rewrite L; cbn; lia.
  - pose proof (pack_length _ _ _ Hb) as L. rewrite (arp_parse _ _ t Hw Hb). cbn [bindr]. eexists. split; [reflexivity|].
    repeat (split; [reflexivity|]). split; [discriminate|]. rewrite L; cbn; lia.
  - (* ip4 *) destruct Hw as (Hw & ob & Ho & H40). unfold ip_pre_serialize, ip_size in E. rewrite Ho in E. cbn [bindr] in E. apply ok_inj in E. subst a.
    pose proof (ip_range _ _ Hb) as Hr. cbn [ip_with_totlen ip_totlen] in Hr.
    pose proof (wf_ip_totlen _ _ Hw Hr) as Hw'.
    destruct (ip_parse _ ob b t Hw' Ho H40 Hb) as (os' & (k & K1 & K2 & K3) & Hp). rewrite Hp. cbn [bindr].
    eexists. split; [reflexivity|]. split; [exists k; rewrite K3; split; [exact K1|]; split; [exact K2|]; reflexivity|].
    split; [reflexivity|]. split; [reflexivity|]. split; [discriminate|].
    apply ip_to_bytes_len in Hb. unfold ip_size in Hb. cbn [ip_with_totlen ip_opts] in Hb. rewrite Ho in Hb. apply ok_inj in Hb.
    pose proof (zlen_nonneg ob). unfold zlen in *. lia.
  - unfold ip6_pre_serialize in E. apply ok_inj in E. subst a. pose proof (ip6_range _ _ Hb) as Hr. pose proof (pack_length _ _ _ Hb) as L.
    rewrite (fun W => ip6_parse _ t W Hr b Hb) by exact Hw. cbn [bindr]. eexists. split; [reflexivity|]. repeat (split; [reflexivity|]). split; [discriminate|]. rewrite L; cbn; lia.
  - destruct Hw as (nh & left & addr & dlen & -> & Hn & Hd & Hl & Ha).
    destruct (route_round_trip nh dlen left addr t Hn ltac:(lia) Hl Ha) as (b' & E1 & E2 & E3 & E4); [pose proof (zlen_nonneg t); lia|].
    rewrite E1 in Hb. apply ok_inj in Hb. subst b'. rewrite E4. cbn [bindr]. eexists. split; [reflexivity|]. repeat (split; [reflexivity|]). split; [discriminate|]. lia.
  - destruct Hw as (nh & E1 & Hn & Hd & Hf). destruct (frag_round_trip nh h Hn E1 Hd Hf) as (b' & E2 & _ & E3 & E4).
    rewrite E2 in Hb. apply ok_inj in Hb. subst b'. rewrite E4. cbn [bindr]. eexists. split; [reflexivity|]. repeat (split; [reflexivity|]). split; [discriminate|]. lia.
  - destruct Hw as (nh & E1 & Hn & Hf & Hm & Hl). destruct h as [xn xd xo]. cbn [ho_nh ho_opts] in *. subst xn.
    destruct (hop_round_trip nh xd xo Hn Hf Hm Hl) as (n & b' & E2 & Hnn & E3 & Hz & _ & E4). rewrite E2 in Hb. apply ok_inj in Hb. subst b'.
    rewrite E4. cbn [bindr]. eexists. split; [reflexivity|]. split.
    { unfold hop_serialised. cbn [ho_opts ho_nh]. rewrite v6opts_bytes by auto. cbn [read_as].
      assert (Ez : zlen (v6opts_layout xo) + 2 = zlen b) by (rewrite E3, zlen_app; change (zlen [nh; n]) with 2; lia). rewrite Ez, Hz.
      replace (8 * (n + 1) / 8 - 1) with n by lia. reflexivity. }
    repeat (split; [reflexivity|]). split; [discriminate|]. unfold zlen in Hz. lia.
  - destruct Hw as (nh & E1 & Hn & Hf & Hm & Hl). destruct h as [xn xd xo]. cbn [ho_nh ho_opts] in *. subst xn.
    destruct (hop_round_trip nh xd xo Hn Hf Hm Hl) as (n & b' & E2 & Hnn & E3 & Hz & _ & E4). rewrite E2 in Hb. apply ok_inj in Hb. subst b'.
    rewrite E4. cbn [bindr]. eexists. split; [reflexivity|]. split.
    { unfold hop_serialised. cbn [ho_opts ho_nh]. rewrite v6opts_bytes by auto. cbn [read_as].
      assert (Ez : zlen (v6opts_layout xo) + 2 = zlen b) by (rewrite E3, zlen_app; change (zlen [nh; n]) with 2; lia). rewrite Ez, Hz.
      replace (8 * (n + 1) / 8 - 1) with n by lia. reflexivity. }
    repeat (split; [reflexivity|]). split; [discriminate|]. unfold zlen in Hz. lia.
  - pose proof (pack_length _ _ _ Hb) as L. rewrite (udp_parse _ _ t Hb). cbn [bindr]. eexists. split; [reflexivity|].
    repeat (split; [reflexivity|]). split; [discriminate|]. rewrite L; cbn; lia.
  - pose proof (pack_length _ _ _ Hb) as L. unfold tcp_pre_serialize in E. ok_step E. apply ok_inj in E. subst a.
    rewrite (fun W => tcp_parse _ _ t W Hb) by exact Hw. cbn [bindr]. eexists. split; [reflexivity|].
    repeat (split; [reflexivity|]). split; [discriminate|]. rewrite L; cbn; lia.
  - destruct Hw as [Hc Hd]. rewrite (Hi eq_refl), app_nil_r. unfold icmp_to_bytes in Hb. ok_step Hb. pose proof (icmp_pack_range _ _ _ Hb) as Hr.
    rewrite (icmp_parse false h _ b Hc Hd Hr Hb). cbn [bindr]. eexists. split; [reflexivity|]. split; [unfold icmp_serialised; rewrite E; reflexivity|].
    split; [reflexivity|]. split; [reflexivity|]. split; [discriminate|].
    apply icmp_pack_len in Hb. unfold icmp_size in Hb. ok_step Hb. apply ok_inj in Hb. pose proof (zlen_nonneg a0). unfold zlen in *. lia.
  - destruct Hw as [Hc Hd]. rewrite (Hi eq_refl), app_nil_r. unfold icmp6_to_bytes in Hb. pose proof (icmp_pack_range _ _ _ Hb) as Hr.
    unfold icmp6_pre_serialize in E. destruct (first_ip6 p); [|discriminate]. ok_step E. apply ok_inj in E. subst a. cbn [ic_csum] in *.
    rewrite (fun W1 W2 => icmp_parse true _ _ b W1 W2 Hr Hb) by assumption. cbn [bindr]. eexists. split; [reflexivity|]. split; [reflexivity|].
    split; [reflexivity|]. split; [reflexivity|]. split; [discriminate|].
    apply icmp_pack_len in Hb. unfold icmp_size in Hb. ok_step Hb. apply ok_inj in Hb. pose proof (zlen_nonneg a). unfold zlen in *. lia.
  - unfold null_to_bytes in Hb. ok_step Hb. apply ok_inj in Hb. subst b. destruct (rev4_unbe _ _ E) as [U L].
    unfold null_from_bytes. replace (Nat.ltb _ 4) with false by (symmetry; apply Nat.ltb_ge; rewrite app_length, rev_length; lia).
    rewrite firstn_app_exact, skipn_app_exact by (rewrite rev_length; lia). rewrite rev_involutive, U. cbn [bindr].
    eexists. split; [reflexivity|]. repeat (split; [reflexivity|]). split; [intros ? [= <-]; exact Hw|]. rewrite rev_length. lia. Qed.

Lemma chained_parse hs : forall pre hs' b, chained hs -> Forall wf_hdr hs -> ser pre hs = Ok (hs', b) ->
  (length hs <= S (length b))%nat /\ (1 <= length b)%nat /\
  exists h0 t0, hs = h0 :: t0 /\
  forall fuel, (length hs <= fuel)%nat -> exists x, parse_loop fuel (class_of h0) b = Ok x /\ Forall2 read_as hs' (with_rest x).
Proof. induction hs as [|h hs IH]; intros pre hs' b Hc Hw H; [contradiction|].
  cbn [chained] in Hc. destruct Hc as [Hh Hc]. inversion Hw as [|? ? Wh Wt]; subst.
  cbn [ser] in H. ok_step H. destruct a as [t' raw]. ok_step H. ok_step H. apply ok_pair_inj in H as [<- <-].
  assert (PL : forall f c r, c <> CBytes -> parse_loop (S f) c r =
    (' (h, rest) <- parse_hdr c r;; nc <- next_class h;;
     match nc with None => Ok ([h], rest) | Some c' => match rest with None => Err EType | Some r0 => ' (hs, fin) <- parse_loop f c' r0;; Ok (h :: hs, fin) end end)).
  { intros f c r Hne. destruct c; try reflexivity. congruence. }
  assert (Hcb : class_of h <> CBytes) by (destruct h; try discriminate; contradiction).
  assert (Hcase : (says_next h = None /\ ((hs = [] /\ t' = [] /\ raw = []) \/
       (is_icmp h = false /\ exists pl, pl <> [] /\ hs = [HRaw pl] /\ t' = [HRaw pl] /\ raw = pl))) \/
     (exists h2 t2, hs = h2 :: t2 /\ says_next h = Some (class_of h2) /\ chained hs)).
  { destruct hs as [|h2 t2].
    - left. split; [exact Hc|]. left. cbn [ser] in E. apply ok_pair_inj in E as [<- <-]. auto.
    - assert (D : (exists pl, h2 = HRaw pl /\ t2 = []) \/ ~ (exists pl, h2 = HRaw pl /\ t2 = [])).
      { destruct h2; try (right; intros (pl & ? & ?); congruence). destruct t2; [left; eauto|right; intros (pl & ? & ?); congruence]. }
      destruct D as [(pl & -> & ->)|D].
      + left. destruct Hc as (Hp & Hs & Hic). split; [exact Hs|]. right. split; [exact Hic|]. exists pl. split; [exact Hp|]. split; [reflexivity|].
        cbn [ser pre_ser bindr hdr_bytes hdr_after] in E. apply ok_pair_inj in E as [<- <-]. rewrite app_nil_r. auto.
      + right. exists h2, t2. split; [reflexivity|]. destruct h2; try exact Hc. destruct t2; [exfalso; apply D; eauto|exact Hc]. }
  destruct Hcase as [(Hs & Hr)|(h2 & t2 & -> & Hs & Hct)].
  - assert (Hic : is_icmp h = true -> raw = []) by (destruct Hr as [(_ & _ & ->)|(Hi & _)]; auto; rewrite Hi; discriminate).
    destruct (hdr_parse_back _ _ _ _ _ raw Wh Hh Hic E0 E1) as (hr & P1 & P2 & P3 & P4 & P5 & P6).
    split; [destruct Hr as [(-> & _)|(_ & pl & Hne & -> & _)]; rewrite app_length; cbn [length]; lia|].
    split; [rewrite app_length; lia|]. exists h, hs. split; [reflexivity|].
    intros [|fuel] Hf; [cbn in Hf; lia|]. rewrite PL by auto. rewrite P1. cbn [bindr]. rewrite next_says by exact P5. cbn [bindr].
    rewrite P3, Hs. eexists. split; [reflexivity|]. unfold with_rest. cbn [fst snd].
    destruct Hr as [(-> & -> & ->)|(_ & pl & Hne & -> & -> & ->)].
    + constructor; [exact P2|constructor].
    + destruct pl as [|x pl]; [congruence|]. constructor; [exact P2|]. constructor; [reflexivity|constructor].
  - destruct (IH _ _ _ Hct Wt E) as (I1 & I2 & h0 & t0 & Eh & I3). assert (h0 = h2) by congruence. subst h0. clear Eh.
    assert (Hic : is_icmp h = true -> raw = []) by (intros Hi; destruct h; cbn [is_icmp says_next] in *; discriminate).
    destruct (hdr_parse_back _ _ _ _ _ raw Wh Hh Hic E0 E1) as (hr & P1 & P2 & P3 & P4 & P5 & P6).
    split; [rewrite app_length; cbn [length] in *; lia|]. split; [rewrite app_length; lia|].
    exists h, (h2 :: t2). split; [reflexivity|]. intros [|fuel] Hf; [cbn in Hf; lia|].
    rewrite PL by auto. rewrite P1. cbn [bindr]. rewrite next_says by exact P5. cbn [bindr]. rewrite P3, Hs.
    destruct (I3 fuel ltac:(cbn [length] in *; lia)) as (x & X1 & X2). rewrite X1. destruct x as [xh xr]. cbn [bindr].
    eexists. split; [reflexivity|]. unfold with_rest in *. cbn [fst snd] in *. cbn [app]. constructor; auto. Qed.

Theorem packet_round_trip h t hs' b : chained (h :: t) -> Forall wf_hdr (h :: t) -> pkt_to_bytes (h :: t) = Ok (hs', b) ->
  exists q, pkt_new b (class_of h) = Ok q /\ Forall2 read_as hs' q.
Proof. intros Hc Hw H. destruct (chained_parse _ _ _ _ Hc Hw H) as (L1 & L2 & h0 & t0 & E & P). assert (h0 = h) by congruence. subst h0.
  destruct (P (S (S (S (S (length b)))))) as (x & X1 & X2); [lia|]. unfold pkt_new. destruct b as [|b0 b]; [cbn in L2; lia|].
  rewrite X1. cbn [bindr]. eauto. Qed.

(** ** The packet read back compares equal to the one sent *)
Ltac eqb_refl := repeat rewrite Z.eqb_refl; repeat rewrite bytes_eqb_refl; cbn [andb negb].
Lemma data_eqb_received t d : data_eqb d (received t d) = Ok true.
Proof. destruct d as [c x|x|a x|v odl mtu x|v r i s x|odl x|r i s m x|os|hl m o h p lt re rt os|tg os|r s o tg os|tg de os];
  cbn [received data_eqb data_payload]; try (destruct v); try (destruct c); eqb_refl; reflexivity. Qed.
Lemma icmp_eqb_received m c : icmp_eqb m (mkIcmp (ic_type m) (ic_code m) (received (ic_type m) (ic_data m)) c) = Ok true.
Proof. unfold icmp_eqb. cbn [ic_type ic_code ic_data]. eqb_refl. apply data_eqb_received. Qed.
Lemma subcls_refl c : subcls c c = true.
Proof. unfold subcls, cls_eqb. rewrite Z.eqb_refl. reflexivity. Qed.
Lemma hop_bytes_same nh d d' os : hop_to_bytes (mkV6hop nh d os) = hop_to_bytes (mkV6hop nh d' os).
Proof. reflexivity. Qed.

Lemma hdr_eqb_read raw p h h1 b h2 : pre_ser raw p h = Ok h1 -> hdr_bytes h1 = Ok b -> read_as (hdr_after h1) h2 ->
  isinst h2 (class_of h) = true /\ hdr_eqb h h2 = Ok true.
Proof. intros H Hb Hr. pose proof (pre_ser_fixups _ _ _ _ H) as F. pose proof (pre_ser_keeps _ _ _ _ H) as [_ K].
  unfold isinst. assert (C2 : class_of h2 = class_of h).
  { rewrite <- K. destruct (hdr_after h1), h2; cbn [read_as] in Hr; try discriminate; reflexivity. }
  rewrite C2, subcls_refl. split; [reflexivity|].
  destruct h; destruct (hdr_after h1) eqn:Ea; try discriminate K; cbn [only_fixups] in F; destruct h2; try discriminate C2; cbn [read_as] in Hr;
    try (injection F as F; subst); try (injection Hr as Hr; subst); cbn [hdr_eqb].
  - unfold eth_eqb. eqb_refl. reflexivity.
  - unfold vlan_eqb. eqb_refl. reflexivity.
  - unfold arp_eqb. eqb_refl. reflexivity.
  - destruct F as [n ->]. destruct Hr as (k & _ & _ & ->). unfold ip_eqb, ip_with_totlen.
    cbn [ip_tos ip_totlen ip_ttl ip_id ip_flags ip_frag ip_proto ip_src ip_dst ip_opts]. eqb_refl. reflexivity.
  - destruct F as [n ->]. unfold ip6_eqb. cbn [v6_tc v6_flow v6_ttl v6_nh v6_src v6_dst]. eqb_refl. reflexivity.
  - cbn [pre_ser] in H. apply ok_inj in H. subst h1. cbn [hdr_bytes] in Hb. unfold bytes_cmp. rewrite Hb. cbn [bindr]. eqb_refl. reflexivity.
  - cbn [pre_ser] in H. apply ok_inj in H. subst h1. cbn [hdr_bytes] in Hb. unfold bytes_cmp. rewrite Hb. cbn [bindr]. eqb_refl. reflexivity.
  - cbn [pre_ser] in H. apply ok_inj in H. subst h1. cbn [hdr_bytes] in Hb. destruct F as [n ->].
    unfold bytes_cmp. destruct h as [xa xb xc]. cbn [ho_nh ho_opts]. rewrite (hop_bytes_same xa n xb xc), Hb. cbn [bindr]. eqb_refl. reflexivity.
  - cbn [pre_ser] in H. apply ok_inj in H. subst h1. cbn [hdr_bytes] in Hb. destruct F as [n ->].
    unfold bytes_cmp. destruct h as [xa xb xc]. cbn [ho_nh ho_opts]. rewrite (hop_bytes_same xa n xb xc), Hb. cbn [bindr]. eqb_refl. reflexivity.
  - destruct F as (n & c & ->). unfold udp_eqb. cbn [udp_src udp_dst]. eqb_refl. reflexivity.
  - destruct F as (n & c & ->). subst. unfold tcp_eqb, tcp_offset. cbn [tcp_src tcp_dst tcp_seq tcp_ack tcp_flags tcp_window tcp_urg]. eqb_refl. reflexivity.
  - destruct F as (c & ->). subst. cbn [ic_type ic_code ic_data ic_csum]. apply icmp_eqb_received.
  - destruct F as (c & ->). subst. cbn [ic_type ic_code ic_data ic_csum]. apply icmp_eqb_received.
  - cbn [pre_ser] in H. apply ok_inj in H. subst h1. cbn [hdr_bytes] in Hb. unfold bytes_cmp. rewrite Hb. cbn [bindr]. eqb_refl. reflexivity.
  - eqb_refl. reflexivity.
  - reflexivity.
  - eqb_refl. reflexivity.
  - discriminate. Qed.

Lemma pkt_eqb_read hs : forall pre hs' b q, ser pre hs = Ok (hs', b) -> Forall2 read_as hs' q ->
  length q = length hs /\ pkt_eqb_same hs q = Ok true.
Proof. induction hs as [|h hs IH]; intros pre hs' b q H Hq; cbn [ser] in H.
  - apply ok_pair_inj in H as [<- _]. inversion Hq. subst. split; reflexivity.
  - ok_step H. destruct a as [t' raw]. ok_step H. ok_step H. apply ok_pair_inj in H as [<- _].
    inversion Hq as [|? h2 ? q2 Hr Hq2]; subst. destruct (IH _ _ _ _ E Hq2) as [L I].
    destruct (hdr_eqb_read _ _ _ _ _ _ E0 E1 Hr) as [I1 I2].
    cbn [length pkt_eqb_same]. rewrite I1, I2. cbn [bindr]. rewrite I. split; [lia|reflexivity]. Qed.
Lemma packet_read_equal hs hs' b q : pkt_to_bytes hs = Ok (hs', b) -> Forall2 read_as hs' q -> pkt_eqb hs q = Ok true.
Proof. intros H Hq. destruct (pkt_eqb_read _ _ _ _ _ H Hq) as [L E]. unfold pkt_eqb. rewrite L, Nat.eqb_refl. exact E. Qed.
Lemma Forall2_len {A B} (R : A -> B -> Prop) a b : Forall2 R a b -> length a = length b.
Proof. induction 1; cbn [length]; lia. Qed.
Lemma packet_self_equal hs hs' b : pkt_to_bytes hs = Ok (hs', b) -> pkt_eqb hs hs' = Ok true.
Proof. intros H. unfold pkt_eqb. assert (Forall2 only_fixups hs hs') as F by (eapply ser_fixups; eauto).
  rewrite (Forall2_len _ _ _ F), Nat.eqb_refl. unfold pkt_to_bytes in H.
  assert (G : forall hs pre hs' b, ser pre hs = Ok (hs', b) -> pkt_eqb_same hs hs' = Ok true).
  2: { eapply G; eauto. }
  clear. induction hs as [|h hs IH]; intros pre hs' b H; cbn [ser] in H.
  - apply ok_pair_inj in H as [<- _]. reflexivity.
  - ok_step H. destruct a as [t' raw]. ok_step H. ok_step H. apply ok_pair_inj in H as [<- _].
    cbn [pkt_eqb_same]. pose proof (pre_ser_keeps _ _ _ _ E0) as [_ K]. unfold isinst. rewrite K, subcls_refl. rewrite (IH _ _ _ E).
    assert (G : hdr_eqb h (hdr_after a) = Ok true); [|rewrite G; reflexivity].
    pose proof (pre_ser_fixups _ _ _ _ E0) as F.
    assert (Hx : exists h2, read_as (hdr_after a) h2 /\ (h2 = hdr_after a \/ (exists x y, hdr_after a = HTcp x /\ h2 = HTcp y) \/ is_icmp h = true)).
    { destruct (hdr_after a) eqn:Ea; try (eexists; split; [cbn [read_as]; reflexivity|auto]; fail).
      - eexists (HIp4 _). split; [exists 0%nat; split; [lia|]; split; [reflexivity|]; cbn [repeat]; rewrite app_nil_r; reflexivity|]. left. destruct h0; reflexivity.
      - eexists (HTcp _). split; [cbn [read_as]; reflexivity|]. right. left. eauto.
      - eexists (HIcmp _). split; [cbn [read_as]; reflexivity|]. right. right. destruct h; try discriminate K; reflexivity.
      - eexists (HIcmp6 _). split; [cbn [read_as]; reflexivity|]. right. right. destruct h; try discriminate K; reflexivity. }
    destruct Hx as (h2 & R1 & R2). destruct (hdr_eqb_read _ _ _ _ _ _ E0 E1 R1) as [_ Q].
    destruct R2 as [->|[(x & y & Ex & ->)|R2]]; [exact Q| |].
    + rewrite Ex in *. destruct h; try discriminate K. cbn [only_fixups] in F. destruct F as (n & c & ->). cbn [hdr_eqb].
      unfold tcp_eqb, tcp_offset. cbn [tcp_src tcp_dst tcp_seq tcp_ack tcp_flags tcp_window tcp_urg]. eqb_refl. reflexivity.
    + destruct h; try discriminate R2; destruct (hdr_after a); try discriminate K; cbn [only_fixups] in F; destruct F as (c & ->); cbn [hdr_eqb];
        unfold icmp_eqb; cbn [ic_type ic_code ic_data]; eqb_refl.
      * destruct (ic_data h) as [cc xx|xx|aa xx|vv oo mm xx|vv rr ii ss xx|oo xx|rr ii ss mm xx|oo|hh mm oo h' pp ll re rt os|tg os|rr ss oo tg os|tg de os]; cbn [data_eqb data_payload]; try (destruct cc); eqb_refl; reflexivity.
      * destruct (ic_data h) as [cc xx|xx|aa xx|vv oo mm xx|vv rr ii ss xx|oo xx|rr ii ss mm xx|oo|hh mm oo h' pp ll re rt os|tg os|rr ss oo tg os|tg de os]; cbn [data_eqb data_payload]; try (destruct cc); eqb_refl; reflexivity. Qed.
