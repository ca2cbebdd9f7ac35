From Verif Require Import BaseLemmas CodecLemmas Enums ArpModel EthProofs ChecksumModel ChecksumSpec ChecksumProofs
  Ipv4Model Ipv4Proofs Ipv4Proofs2 TransportModel.

(** What the transport headers use of the enclosing IPv4 header. *)
Definition wf_pseudo (ip : ipv4) : Prop := ip4 (ip_src ip) /\ ip4 (ip_dst ip) /\ In (ip_proto ip) IPProtocols.
Lemma wf_ip_pseudo ip : wf_ip ip -> wf_pseudo ip.
Proof. unfold wf_ip, wf_pseudo. tauto. Qed.

Lemma unbe4_range a : ip4 a -> 0 <= unbe a < 4294967296.
Proof. intros (W & L). pose proof (unbe_range a W) as H. rewrite L in H. pow256. lia. Qed.
Lemma be4_unbe a : ip4 a -> be 4 (unbe a) = a.
Proof. intros (W & L). rewrite <- L. apply be_unbe; auto. Qed.

(** Pseudo header of RFC 768 / 793. *)
Definition pseudo (src dst : bytes) (proto len : Z) : bytes := src ++ dst ++ [0; proto; len / 256; len mod 256].

(** ** UDP *)
Definition wf_ports (s d : Z) : Prop := 0 <= s < 65536 /\ 0 <= d < 65536.

Lemma udp_to_bytes_ok h : wf_ports (udp_src h) (udp_dst h) -> 0 <= udp_len h < 65536 -> 0 <= udp_csum h < 65536 ->
  udp_to_bytes h = Ok (be 2 (udp_src h) ++ be 2 (udp_dst h) ++ be 2 (udp_len h) ++ be 2 (udp_csum h)).
Proof. intros (H1 & H2) H3 H4. unfold udp_to_bytes, udp_fmt.
  rewrite !pack_cons_int by (pow256; lia). rewrite pack_nil. cbn [bindr]. rewrite app_nil_r. reflexivity. Qed.

Lemma udp_parse h b t : udp_to_bytes h = Ok b -> udp_from_bytes (b ++ t) = Ok (h, t).
Proof. intros Hb. destruct (take_pack udp_fmt _ b t 8 eq_refl Hb) as (H1 & H2 & H3).
  unfold udp_from_bytes. rewrite H1, H2. cbn [norm udp_fmt bindr]. rewrite H3. destruct h; reflexivity. Qed.

Lemma udp_short raw : (length raw < 8)%nat -> udp_from_bytes raw = Err ENotEnough.
Proof. intros H. unfold udp_from_bytes. replace (Nat.ltb (length raw) 8) with true; auto.
  symmetry. apply Nat.ltb_lt. exact H. Qed.

Lemma udp_reserialise raw h rest : wfb raw -> udp_from_bytes raw = Ok (h, rest) ->
  (8 <= length raw)%nat /\ rest = skipn 8 raw /\ udp_to_bytes h = Ok (firstn 8 raw) /\
  wf_ports (udp_src h) (udp_dst h) /\ 0 <= udp_len h < 65536 /\ 0 <= udp_csum h < 65536.
Proof. intros Hw H. unfold udp_from_bytes in H.
  destruct (Nat.ltb (length raw) 8) eqn:Hl; [discriminate|].
  destruct (unpack udp_fmt (firstn 8 raw)) as [vs|] eqn:Hu; [|discriminate].
  pose proof (unpack_shaped _ _ _ (wfb_firstn _ _ Hw) Hu) as Hs.
  pose proof (pack_take udp_fmt vs raw 8 Hw eq_refl eq_refl Hu) as Hp.
  unfold udp_fmt in Hs. shape Hs. cbn [bindr] in H. pow256.
  apply ok_inj in H. inversion H; subst. apply Nat.ltb_ge in Hl. unfold wf_ports. cbn [udp_src udp_dst udp_len udp_csum].
  repeat split; auto; lia. Qed.

Lemma udp_checksum_ok h len ip xdata : wf_ports (udp_src h) (udp_dst h) -> 0 <= len < 65536 -> wf_pseudo ip ->
  udp_checksum h len (Some ip) xdata =
  Ok (cksum ((pseudo (ip_src ip) (ip_dst ip) (ip_proto ip) len ++ be 2 (udp_src h) ++ be 2 (udp_dst h) ++ be 2 len) ++ [0; 0] ++ xdata)).
Proof. intros (H1 & H2) Hlen (Hs & Hd & Hp). apply proto_range in Hp.
  pose proof (unbe4_range _ Hs). pose proof (unbe4_range _ Hd).
  unfold udp_checksum. rewrite !pack_cons_int by (pow256; lia). rewrite pack_cons_pad.
  rewrite !pack_cons_int by (pow256; lia). rewrite pack_nil. cbn [bindr].
  rewrite !be4_unbe by auto. unfold pseudo. rewrite (be1 (ip_proto ip)), (be2 len) by lia.
  rewrite <- !app_assoc. reflexivity. Qed.

(** Serialising a datagram inside an IPv4 packet: the whole verifies. *)
Theorem udp_serialise h ip payload : wf_ports (udp_src h) (udp_dst h) -> wf_pseudo ip -> wfb payload ->
  8 + zlen payload <= 65535 ->
  exists h' c b, udp_pre_serialize payload (Some ip) h = Ok h' /\ 0 <= c < 65536 /\
  h' = mkUdp (udp_src h) (udp_dst h) (8 + zlen payload) c /\
  udp_to_bytes h' = Ok b /\
  b = be 2 (udp_src h) ++ be 2 (udp_dst h) ++ be 2 (8 + zlen payload) ++ be 2 c /\ length b = 8%nat /\ wfb b /\
  verifies (pseudo (ip_src ip) (ip_dst ip) (ip_proto ip) (8 + zlen payload) ++ b ++ payload) /\
  forall t, udp_from_bytes (b ++ t) = Ok (h', t).
Proof. intros Hp Hip Hw Hl. pose proof (zlen_nonneg payload) as Hz. set (len := 8 + zlen payload) in *.
  pose proof Hip as ((Ws & Ls) & (Wd & Ld) & Hpr). apply proto_range in Hpr.
  set (A := pseudo (ip_src ip) (ip_dst ip) (ip_proto ip) len ++ be 2 (udp_src h) ++ be 2 (udp_dst h) ++ be 2 len).
  assert (WA : wfb A).
  { unfold A, pseudo. rewrite !wfb_app. repeat split; auto using be_wfb. repeat constructor; lia. }
  assert (LA : length A = 18%nat).
  { unfold A, pseudo. rewrite !app_length, Ls, Ld, !be_length. reflexivity. }
  assert (LZ : zlen (A ++ [0; 0] ++ payload) <= 131072).
  { rewrite !zlen_app. unfold zlen at 1. rewrite LA. change (zlen [0; 0]) with 2. lia. }
  destruct (stored_checksum_ok true A payload WA Hw ltac:(rewrite LA; reflexivity) LZ) as (Rc & Hv & _).
  set (c := checksum true (A ++ [0; 0] ++ payload) 0 None) in *.
  set (h' := mkUdp (udp_src h) (udp_dst h) len c).
  assert (Hlen : 0 <= len < 65536) by lia. assert (Hc : 0 <= c < 65536) by lia.
  pose proof (udp_to_bytes_ok h' Hp Hlen Hc) as Hb.
  exists h', c, (be 2 (udp_src h) ++ be 2 (udp_dst h) ++ be 2 len ++ be 2 c).
  split. { unfold udp_pre_serialize, udp_size. fold len. rewrite udp_checksum_ok by (auto; lia). reflexivity. }
  split; [lia|]. split; [reflexivity|]. split; [exact Hb|]. split; [reflexivity|].
  split; [rewrite !app_length, !be_length; reflexivity|].
  split; [rewrite !wfb_app; auto using be_wfb|].
  split.
  - replace (pseudo (ip_src ip) (ip_dst ip) (ip_proto ip) len ++ (be 2 (udp_src h) ++ be 2 (udp_dst h) ++ be 2 len ++ be 2 c) ++ payload)
      with (A ++ be 2 c ++ payload); auto.
    unfold A. rewrite <- !app_assoc. reflexivity.
  - intros t. apply udp_parse. exact Hb. Qed.

(** Outside IPv4 the checksum field is zero. *)
Lemma udp_serialise_noip h payload : wf_ports (udp_src h) (udp_dst h) -> 8 + zlen payload <= 65535 ->
  exists h' b, udp_pre_serialize payload None h = Ok h' /\ h' = mkUdp (udp_src h) (udp_dst h) (8 + zlen payload) 0 /\
  udp_to_bytes h' = Ok b /\ b = be 2 (udp_src h) ++ be 2 (udp_dst h) ++ be 2 (8 + zlen payload) ++ [0; 0] /\
  forall t, udp_from_bytes (b ++ t) = Ok (h', t).
Proof. intros Hp Hl. pose proof (zlen_nonneg payload).
  pose proof (udp_to_bytes_ok (mkUdp (udp_src h) (udp_dst h) (8 + zlen payload) 0) Hp ltac:(cbn [udp_len]; lia) ltac:(cbn [udp_csum]; lia)) as Hb.
  do 2 eexists. split; [reflexivity|]. split; [reflexivity|]. split; [exact Hb|]. split; [reflexivity|].
  intros t. apply udp_parse. exact Hb. Qed.

(** Too long a datagram is never serialised. *)
Lemma pack_int_big n f z v : 256 ^ Z.of_nat n <= z -> pack (FInt n :: f) (VI z :: v) = Err EStruct.
Proof. intros H. cbn [pack]. replace (_ && _) with false by lia. reflexivity. Qed.
Lemma pack_cons_int_err n f z v : pack f v = Err EStruct -> pack (FInt n :: f) (VI z :: v) = Err EStruct.
Proof. intros H. cbn [pack]. rewrite H. destruct (_ && _); reflexivity. Qed.
Lemma pack_cons_pad_err n f v : pack f v = Err EStruct -> pack (FX n :: f) v = Err EStruct.
Proof. intros H. cbn [pack]. rewrite H. reflexivity. Qed.

Lemma udp_too_long h ip payload : 65535 < 8 + zlen payload ->
  (h' <- udp_pre_serialize payload ip h;; udp_to_bytes h') = Err EStruct.
Proof. intros Hl. unfold udp_pre_serialize, udp_size, udp_checksum. destruct ip as [ip|].
  - rewrite pack_cons_int_err; [reflexivity|]. repeat (solve [apply pack_int_big; pow256; lia] || apply pack_cons_int_err || apply pack_cons_pad_err).
  - cbn [bindr]. unfold udp_to_bytes, udp_fmt. cbn [udp_src udp_dst udp_len udp_csum].
    do 2 apply pack_cons_int_err. apply pack_int_big. pow256. lia. Qed.

(** ** TCP *)
Definition wf_tcp (h : tcp) : Prop :=
  wf_ports (tcp_src h) (tcp_dst h) /\ 0 <= tcp_seq h < 2 ^ 32 /\ 0 <= tcp_ack h < 2 ^ 32 /\
  0 <= tcp_flags h < 512 /\ 0 <= tcp_window h < 65536 /\ 0 <= tcp_urg h < 65536.

Lemma tcp_make_header_ok h c : wf_tcp h -> 0 <= c < 65536 ->
  tcp_make_header h c =
  Ok (be 2 (tcp_src h) ++ be 2 (tcp_dst h) ++ be 4 (tcp_seq h) ++ be 4 (tcp_ack h) ++
      [80 + tcp_flags h / 256; tcp_flags h mod 256] ++ be 2 (tcp_window h) ++ be 2 c ++ be 2 (tcp_urg h)).
Proof. intros ((H1 & H2) & H3 & H4 & H5 & H6 & H7) Hc. change (2 ^ 32) with 4294967296 in *.
  unfold tcp_make_header, tcp_fmt. change (tcp_offset h) with 5.
  rewrite lor_add_disjoint by (change (2 ^ 12) with 4096; lia). change (2 ^ 12) with 4096.
  rewrite !pack_cons_int by (pow256; lia). rewrite pack_nil. cbn [bindr]. rewrite app_nil_r.
  rewrite (be2 (5 * 4096 + tcp_flags h)) by lia.
  replace ((5 * 4096 + tcp_flags h) / 256) with (80 + tcp_flags h / 256) by lia.
  replace ((5 * 4096 + tcp_flags h) mod 256) with (tcp_flags h mod 256) by lia. reflexivity. Qed.

Lemma tcp_parse h b t : wf_tcp h -> tcp_to_bytes h = Ok b ->
  tcp_from_bytes (b ++ t) =
  Ok (mkTcp (tcp_src h) (tcp_dst h) (tcp_seq h) (tcp_ack h) (tcp_flags h) (tcp_window h) (tcp_urg h) 0 0, t).
Proof. intros ((H1 & H2) & H3 & H4 & H5 & H6 & H7) Hb. unfold tcp_to_bytes, tcp_make_header in Hb.
  destruct (take_pack tcp_fmt _ b t 20 eq_refl Hb) as (E1 & E2 & E3).
  unfold tcp_from_bytes. rewrite E1, E2. cbn [norm tcp_fmt bindr].
  change (tcp_offset h) with 5.
  rewrite (shiftr_lor_low _ _ 12) by (change (2 ^ 12) with 4096; lia).
  change 0x1ff with (2 ^ 9 - 1). rewrite land_ones_mod by lia.
  rewrite lor_add_disjoint by (change (2 ^ 12) with 4096; lia).
  change (2 ^ 12) with 4096. change (2 ^ 9) with 512.
  replace ((5 * 4096 + tcp_flags h) mod 512) with (tcp_flags h) by lia.
  change (Z.to_nat (5 * 4)) with 20%nat. rewrite E3. reflexivity. Qed.

Lemma tcp_short raw : (length raw < 20)%nat -> tcp_from_bytes raw = Err ENotEnough.
Proof. intros H. unfold tcp_from_bytes. replace (Nat.ltb (length raw) 20) with true; auto.
  symmetry. apply Nat.ltb_lt. exact H. Qed.

Lemma tcp_checksum_ok h len ip xdata : wf_tcp h -> 0 <= len < 65536 -> wf_pseudo ip ->
  tcp_checksum h len (Some ip) xdata =
  Ok (cksum ((pseudo (ip_src ip) (ip_dst ip) (ip_proto ip) len ++
     be 2 (tcp_src h) ++ be 2 (tcp_dst h) ++ be 4 (tcp_seq h) ++ be 4 (tcp_ack h) ++
      [80 + tcp_flags h / 256; tcp_flags h mod 256] ++ be 2 (tcp_window h)) ++ [0; 0] ++ be 2 (tcp_urg h) ++ xdata)).
Proof. intros Hh Hlen (Hs & Hd & Hp). apply proto_range in Hp.
  pose proof (unbe4_range _ Hs). pose proof (unbe4_range _ Hd).
  unfold tcp_checksum. rewrite !pack_cons_int by (pow256; lia). rewrite pack_cons_pad.
  rewrite !pack_cons_int by (pow256; lia). rewrite pack_nil. cbn [bindr].
  rewrite tcp_make_header_ok by (auto; lia). cbn [bindr].
  rewrite !be4_unbe by auto. unfold pseudo. rewrite (be1 (ip_proto ip)), (be2 len) by lia.
  rewrite <- !app_assoc. reflexivity. Qed.

Definition tcp_bytes (h : tcp) (c : Z) : bytes :=
  be 2 (tcp_src h) ++ be 2 (tcp_dst h) ++ be 4 (tcp_seq h) ++ be 4 (tcp_ack h) ++
  [80 + tcp_flags h / 256; tcp_flags h mod 256] ++ be 2 (tcp_window h) ++ be 2 c ++ be 2 (tcp_urg h).

Theorem tcp_serialise h ip payload : wf_tcp h -> wf_pseudo ip -> wfb payload -> 20 + zlen payload <= 65535 ->
  exists h' c b, tcp_pre_serialize payload (Some ip) h = Ok h' /\ 0 <= c < 65536 /\
  h' = mkTcp (tcp_src h) (tcp_dst h) (tcp_seq h) (tcp_ack h) (tcp_flags h) (tcp_window h) (tcp_urg h) (20 + zlen payload) c /\
  tcp_to_bytes h' = Ok b /\ b = tcp_bytes h c /\ length b = 20%nat /\ wfb b /\
  verifies (pseudo (ip_src ip) (ip_dst ip) (ip_proto ip) (20 + zlen payload) ++ b ++ payload) /\
  forall t, tcp_from_bytes (b ++ t) =
    Ok (mkTcp (tcp_src h) (tcp_dst h) (tcp_seq h) (tcp_ack h) (tcp_flags h) (tcp_window h) (tcp_urg h) 0 0, t).
Proof. intros Hh Hip Hw Hl. pose proof (zlen_nonneg payload) as Hz. set (len := 20 + zlen payload) in *.
  pose proof Hip as ((Ws & Ls) & (Wd & Ld) & Hpr). apply proto_range in Hpr.
  pose proof Hh as ((H1 & H2) & H3 & H4 & H5 & H6 & H7).
  set (A := pseudo (ip_src ip) (ip_dst ip) (ip_proto ip) len ++
     be 2 (tcp_src h) ++ be 2 (tcp_dst h) ++ be 4 (tcp_seq h) ++ be 4 (tcp_ack h) ++
      [80 + tcp_flags h / 256; tcp_flags h mod 256] ++ be 2 (tcp_window h)).
  assert (WF : wfb [80 + tcp_flags h / 256; tcp_flags h mod 256]) by (repeat constructor; lia).
  assert (WA : wfb A).
  { unfold A, pseudo. rewrite !wfb_app. repeat split; auto using be_wfb. repeat constructor; lia. }
  assert (LA : length A = 28%nat).
  { unfold A, pseudo. rewrite !app_length, Ls, Ld, !be_length. reflexivity. }
  assert (WB : wfb (be 2 (tcp_urg h) ++ payload)) by (apply wfb_app; auto using be_wfb).
  assert (LZ : zlen (A ++ [0; 0] ++ be 2 (tcp_urg h) ++ payload) <= 131072).
  { rewrite !zlen_app. unfold zlen at 1 3. rewrite LA, be_length. change (zlen [0; 0]) with 2. lia. }
  destruct (stored_checksum_ok true A _ WA WB ltac:(rewrite LA; reflexivity) LZ) as (Rc & Hv & _).
  set (c := checksum true (A ++ [0; 0] ++ be 2 (tcp_urg h) ++ payload) 0 None) in *.
  set (h' := mkTcp (tcp_src h) (tcp_dst h) (tcp_seq h) (tcp_ack h) (tcp_flags h) (tcp_window h) (tcp_urg h) len c).
  assert (Hh' : wf_tcp h') by exact Hh.
  assert (Hb : tcp_to_bytes h' = Ok (tcp_bytes h c)).
  { unfold tcp_to_bytes. assert (Hc : 0 <= tcp_csum h' < 65536) by (unfold h'; cbn [tcp_csum]; lia). rewrite tcp_make_header_ok by auto. reflexivity. }
  exists h', c, (tcp_bytes h c).
  split. { unfold tcp_pre_serialize, tcp_size. fold len. rewrite tcp_checksum_ok by (auto; lia). reflexivity. }
  split; [lia|]. split; [reflexivity|]. split; [exact Hb|]. split; [reflexivity|].
  split; [unfold tcp_bytes; rewrite !app_length, !be_length; reflexivity|].
  split; [unfold tcp_bytes; rewrite !wfb_app; auto 10 using be_wfb|].
  split.
  - replace (pseudo (ip_src ip) (ip_dst ip) (ip_proto ip) len ++ tcp_bytes h c ++ payload)
      with (A ++ be 2 c ++ be 2 (tcp_urg h) ++ payload); auto.
    unfold A, tcp_bytes. rewrite <- !app_assoc. reflexivity.
  - intros t. apply (tcp_parse h' _ _ Hh' Hb). Qed.

Lemma tcp_too_long h ip payload : 65535 < 20 + zlen payload ->
  (h' <- tcp_pre_serialize payload (Some ip) h;; tcp_to_bytes h') = Err EStruct.
Proof. intros Hl. unfold tcp_pre_serialize, tcp_size, tcp_checksum.
  rewrite pack_cons_int_err; [reflexivity|].
  repeat (solve [apply pack_int_big; pow256; lia] || apply pack_cons_int_err || apply pack_cons_pad_err). Qed.

Lemma setflag_range fl f v : 0 <= f < 9 -> 0 <= fl < 512 -> 0 <= tcp_setflag fl f v < 512.
Proof. intros Hf Hfl. unfold tcp_setflag. rewrite Z.shiftl_mul_pow2, Z.mul_1_l by lia.
  assert (Hp : 0 < 2 ^ f <= 256).
  { split; [apply Z.pow_pos_nonneg; lia|]. change 256 with (2 ^ 8). apply Z.pow_le_mono_r; lia. }
  change 512 with (2 ^ 9) in *. destruct v.
  - assert (Z.lor fl (2 ^ f) = Z.lor fl (2 ^ f) mod 2 ^ 9).
    { rewrite <- Z.land_ones by lia. apply Z.bits_inj'. intros n Hn. rewrite (Z.land_spec _ (Z.ones 9)).
      destruct (Z.lt_ge_cases n 9).
      - rewrite Z.ones_spec_low by lia. rewrite andb_true_r. reflexivity.
      - rewrite Z.ones_spec_high by lia. rewrite andb_false_r, Z.lor_spec.
        rewrite <- (Z.mod_small fl (2 ^ 9)) by lia. rewrite Z.mod_pow2_bits_high by lia.
        rewrite <- (Z.mod_small (2 ^ f) (2 ^ 9)) by lia. rewrite Z.mod_pow2_bits_high by lia. reflexivity. }
    rewrite H. apply Z.mod_pos_bound. lia.
  - assert (Z.land fl (Z.lnot (2 ^ f)) = Z.land fl (Z.lnot (2 ^ f)) mod 2 ^ 9).
    { rewrite <- Z.land_ones by lia. apply Z.bits_inj'. intros n Hn. rewrite (Z.land_spec _ (Z.ones 9)).
      destruct (Z.lt_ge_cases n 9).
      - rewrite Z.ones_spec_low by lia. rewrite andb_true_r. reflexivity.
      - rewrite Z.ones_spec_high by lia. rewrite andb_false_r, Z.land_spec.
        rewrite <- (Z.mod_small fl (2 ^ 9)) by lia. rewrite Z.mod_pow2_bits_high by lia. reflexivity. }
    rewrite H. apply Z.mod_pos_bound. lia. Qed.

Lemma isset_testbit fl f : 0 <= f -> tcp_isset fl f = Z.testbit fl f.
Proof. intros Hf. unfold tcp_isset. rewrite Z.shiftl_mul_pow2, Z.mul_1_l by lia.
  destruct (Z.testbit fl f) eqn:E.
  - apply Z.eqb_eq. apply Z.bits_inj'. intros n Hn. rewrite Z.land_spec, Z.pow2_bits_eqb by lia.
    destruct (Z.eqb_spec f n) as [<-|]; [rewrite E; reflexivity|apply andb_false_r].
  - apply Z.eqb_neq. intros C. assert (Ht : Z.testbit (Z.land fl (2 ^ f)) f = true).
    { rewrite C. apply Z.pow2_bits_true; lia. }
    rewrite Z.land_spec, E in Ht. discriminate. Qed.

Lemma setflag_testbit fl f v g : 0 <= f -> 0 <= g ->
  Z.testbit (tcp_setflag fl f v) g = if f =? g then v else Z.testbit fl g.
Proof. intros Hf Hg. unfold tcp_setflag. rewrite Z.shiftl_mul_pow2, Z.mul_1_l by lia. destruct v.
  - rewrite Z.lor_spec, Z.pow2_bits_eqb by lia. destruct (Z.eqb_spec f g); [apply orb_true_r|apply orb_false_r].
  - rewrite Z.land_spec, Z.lnot_spec, Z.pow2_bits_eqb by lia.
    destruct (Z.eqb_spec f g); cbn [negb]; [apply andb_false_r|apply andb_true_r]. Qed.

Lemma setflag_isset fl f v g : 0 <= f -> 0 <= g ->
  tcp_isset (tcp_setflag fl f v) g = if f =? g then v else tcp_isset fl g.
Proof. intros Hf Hg. rewrite !isset_testbit, setflag_testbit by auto. reflexivity. Qed.

(** ** Property-level statements *)
Lemma udp_zero_checksum :
  exists h ip payload h' b, wf_ports (udp_src h) (udp_dst h) /\ wf_pseudo ip /\ wfb payload /\
  udp_pre_serialize payload (Some ip) h = Ok h' /\ udp_to_bytes h' = Ok b /\ skipn 6 b = [0; 0].
Proof. exists (mkUdp 5000 53 8 0), (mkIp4 0 20 64 0 0 0 ipUDP [10;0;0;1] [10;0;0;2] []), [0xd8; 0x1a]. eexists. eexists.
  split; [unfold wf_ports; cbn; lia|]. split; [repeat split; cbn; auto 10; repeat constructor; lia|].
  split; [repeat constructor; lia|].
  split; [vm_compute; reflexivity|]. split; [vm_compute; reflexivity|]. reflexivity. Qed.

Lemma tcp_offset_parsed raw h rest : wfb raw -> tcp_from_bytes raw = Ok (h, rest) ->
  (20 <= length raw)%nat /\ rest = skipn (Z.to_nat (4 * (nth 12 raw 0 / 16))) raw.
Proof. intros Hw H. unfold tcp_from_bytes in H.
  destruct (Nat.ltb (length raw) 20) eqn:Hl; [discriminate|]. apply Nat.ltb_ge in Hl.
  destruct (unpack tcp_fmt (firstn 20 raw)) as [vs|] eqn:Hu; [|discriminate].
  pose proof (unpack_shaped _ _ _ (wfb_firstn _ _ Hw) Hu) as Hs.
  pose proof (pack_take tcp_fmt vs raw 20 Hw eq_refl eq_refl Hu) as Hp.
  unfold tcp_fmt in Hs. shape Hs. cbn [bindr] in H. pow256.
  apply ok_inj in H. inversion H as [[Hh Hr]]. split; auto.
  assert (N : nth 12 raw 0 = z3 / 256).
  { rewrite <- (nth_firstn 20) by lia. fold tcp_fmt in Hp. unfold tcp_fmt in Hp.
    rewrite !pack_cons_int in Hp by (pow256; lia). rewrite pack_nil in Hp. cbn [bindr] in Hp. apply ok_inj in Hp. rewrite <- Hp.
    rewrite (app_nth2 (be 2 z)) by (rewrite be_length; lia). rewrite be_length.
    rewrite (app_nth2 (be 2 z0)) by (rewrite be_length; lia). rewrite be_length.
    rewrite (app_nth2 (be 4 z1)) by (rewrite be_length; lia). rewrite be_length.
    rewrite (app_nth2 (be 4 z2)) by (rewrite be_length; lia). rewrite be_length. cbn [Nat.sub].
    rewrite (be2 z3) by lia. reflexivity. }
  rewrite N. f_equal. rewrite Z.shiftr_div_pow2 by lia. change (2 ^ 12) with 4096. lia. Qed.

Lemma tcp_short_offset :
  exists raw h rest, wfb raw /\ nth 12 raw 0 / 16 = 0 /\ tcp_from_bytes raw = Ok (h, rest) /\ rest = raw.
Proof. exists (repeat 0 20). eexists. eexists. split; [auto with wfb|]. split; [reflexivity|].
  split; [vm_compute; reflexivity|reflexivity]. Qed.

Lemma tcp_options_dropped :
  exists raw h rest b, wfb raw /\ length raw = 24%nat /\ tcp_from_bytes raw = Ok (h, rest) /\ rest = [] /\
    tcp_to_bytes h = Ok b /\ length b = 20%nat.
Proof. exists (repeat 0 12 ++ [0x60; 2; 0;0; 0;0; 0;0; 2;4;5;0xb4]). eexists. eexists. eexists.
  split; [repeat constructor; lia|]. split; [reflexivity|]. split; [vm_compute; reflexivity|]. split; [reflexivity|].
  split; [vm_compute; reflexivity|reflexivity]. Qed.

(** Every sequence of flag assignments. *)
Lemma flags_sequence ops : Forall (fun o => 0 <= fst o < 9) ops -> forall fl, 0 <= fl < 512 ->
  let fl' := fold_left (fun acc o => tcp_setflag acc (fst o) (snd o)) ops fl in
  0 <= fl' < 512 /\
  forall g, 0 <= g < 9 -> tcp_isset fl' g =
    fold_left (fun acc (o : Z * bool) => if fst o =? g then snd o else acc) ops (tcp_isset fl g).
Proof. intros Hf. induction ops as [|o ops IH]; intros fl Hfl; cbn [fold_left]; auto.
  apply Forall_cons_iff in Hf as [Ho Hf]. pose proof (setflag_range fl (fst o) (snd o) Ho Hfl) as Hr.
  destruct (IH Hf _ Hr) as [H1 H2]. split; auto. intros g Hg. rewrite (H2 g Hg).
  rewrite setflag_isset by lia. reflexivity. Qed.

Lemma udp_parse_then_serialise raw : wfb raw ->
  ((length raw < 8)%nat -> udp_from_bytes raw = Err ENotEnough) /\
  forall h rest, udp_from_bytes raw = Ok (h, rest) ->
    (8 <= length raw)%nat /\ rest = skipn 8 raw /\ udp_to_bytes h = Ok (firstn 8 raw).
Proof. intros Hw. split; [apply udp_short|]. intros h rest H. destruct (udp_reserialise raw h rest Hw H) as (H1 & H2 & H3 & _). auto. Qed.
