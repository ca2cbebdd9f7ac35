(** C61: field values that do not fit the wire format are refused, or what happens instead (UDP, TCP, IPv6). *)
From Verif Require Import Base BaseLemmas CodecLemmas Enums Ipv4Model TransportModel TransportProofs Ipv6Model Ipv6Proofs.
#[local] Open Scope Z_scope.

Definition u16 (z : Z) : Prop := 0 <= z < 2 ^ 16.
Definition u32 (z : Z) : Prop := 0 <= z < 2 ^ 32.

Lemma pack_or f vs (P : Prop) : (packable f vs <-> P) ->
  (P -> exists b, pack f vs = Ok b) /\ (~ P -> pack f vs = Err EStruct).
Proof.
  intros [H K]. split.
  - intros p. apply pack_ok. auto.
  - intros n. destruct (pack f vs) as [b|e] eqn:E; [|f_equal; eapply pack_err; eauto].
    destruct n. eauto using pack_packable.
Qed.
Ltac both := cbn [packable]; pow256; unfold u16, u32; change (2 ^ 16) with 65536; change (2 ^ 32) with 4294967296; split; intros; intuition lia.

(** UDP: bytes exactly if every field fits, else struct.error; and the bytes are read back as the very header. *)
Theorem C61_udp :
  forall h, let fit := u16 (udp_src h) /\ u16 (udp_dst h) /\ u16 (udp_len h) /\ u16 (udp_csum h) in
  (fit -> exists b, udp_to_bytes h = Ok b) /\ (~ fit -> udp_to_bytes h = Err EStruct) /\
  (forall b t, udp_to_bytes h = Ok b -> udp_from_bytes (b ++ t) = Ok (h, t)).
Proof.
  intros h fit. assert (A := pack_or udp_fmt [VI (udp_src h); VI (udp_dst h); VI (udp_len h); VI (udp_csum h)] fit).
  destruct A as [A B]; [unfold fit, udp_fmt; both|]. split; [exact A|]. split; [exact B|]. intros b t. apply udp_parse.
Qed.
Print Assumptions C61_udp.

(** TCP, whose nine flags can only be set one by one: the same for the fields a receiver reads. *)
Theorem C61_tcp :
  forall h, 0 <= tcp_flags h < 2 ^ 9 ->
  let fit := u16 (tcp_src h) /\ u16 (tcp_dst h) /\ u32 (tcp_seq h) /\ u32 (tcp_ack h) /\ u16 (tcp_window h) /\ u16 (tcp_urg h) /\ u16 (tcp_csum h) in
  (fit -> exists b, tcp_to_bytes h = Ok b) /\ (~ fit -> tcp_to_bytes h = Err EStruct) /\
  (forall b t, tcp_to_bytes h = Ok b -> exists h', tcp_from_bytes (b ++ t) = Ok (h', t) /\
     tcp_src h' = tcp_src h /\ tcp_dst h' = tcp_dst h /\ tcp_seq h' = tcp_seq h /\ tcp_ack h' = tcp_ack h /\
     tcp_flags h' = tcp_flags h /\ tcp_window h' = tcp_window h /\ tcp_urg h' = tcp_urg h).
Proof.
  intros h F fit. change (2 ^ 9) with 512 in F.
  assert (E : Z.lor (Z.shiftl (tcp_offset h) 12) (tcp_flags h) = 20480 + tcp_flags h).
  { change (tcp_offset h) with 5. rewrite lor_add_disjoint by (change (2 ^ 12) with 4096; lia). change (5 * 2 ^ 12) with 20480. reflexivity. }
  assert (A := pack_or tcp_fmt [VI (tcp_src h); VI (tcp_dst h); VI (tcp_seq h); VI (tcp_ack h);
     VI (Z.lor (Z.shiftl (tcp_offset h) 12) (tcp_flags h)); VI (tcp_window h); VI (tcp_csum h); VI (tcp_urg h)] fit).
  destruct A as [A B]; [rewrite E; unfold fit, tcp_fmt; both|]. split; [exact A|]. split; [exact B|].
  intros b t Hb. eexists. split; [apply tcp_parse; [|exact Hb]|cbn; auto 10].
  pose proof (pack_packable _ _ _ Hb) as K. rewrite E in K. unfold tcp_fmt in K. cbn [packable] in K. pow256.
  unfold wf_tcp, wf_ports. intuition lia.
Qed.
Print Assumptions C61_tcp.

(** The flags stay within nine bits whatever is assigned. *)
Theorem C61_tcp_flags :
  forall ops, 0 <= fold_left (fun fl (o : Z * bool) => tcp_setflag fl (fst o) (snd o)) (filter (fun o => (0 <=? fst o) && (fst o <? 9)) ops) 0 < 2 ^ 9.
Proof.
  intros ops. assert (G : forall l fl, (forall o, In o l -> 0 <= fst o < 9) -> 0 <= fl < 2 ^ 9 ->
    0 <= fold_left (fun fl (o : Z * bool) => tcp_setflag fl (fst o) (snd o)) l fl < 2 ^ 9).
  { induction l as [|[f v] l IH]; intros fl H I; [exact I|]. cbn [fold_left fst snd]. apply IH; [intros; apply H; now right|].
    pose proof (H _ (or_introl eq_refl)) as R. cbn [fst] in R. unfold tcp_setflag. destruct v.
    - assert (0 <= Z.shiftl 1 f < 2 ^ 9).
      { rewrite Z.shiftl_1_l. split; [apply Z.pow_nonneg; lia|]. apply Z.pow_lt_mono_r; lia. }
      split; [apply Z.lor_nonneg; lia|]. destruct (Z.eq_dec (Z.lor fl (Z.shiftl 1 f)) 0) as [->|N]; [lia|].
      apply Z.log2_lt_pow2; [pose proof (proj2 (Z.lor_nonneg fl (Z.shiftl 1 f))); lia|]. rewrite Z.log2_lor by lia. apply Z.max_lub_lt.
      + destruct (Z.eq_dec fl 0) as [->|]; [reflexivity|]. apply Z.log2_lt_pow2; lia.
      + destruct (Z.eq_dec (Z.shiftl 1 f) 0) as [->|]; [reflexivity|]. apply Z.log2_lt_pow2; lia.
    - assert (K : 0 <= Z.land fl (Z.lnot (Z.shiftl 1 f)) <= fl).
      { split; [apply Z.land_nonneg; lia|]. apply Z.ldiff_le; [lia|].
        apply Z.bits_inj'. intros n Hn. rewrite Z.ldiff_spec, Z.land_spec, Z.bits_0.
        destruct (Z.testbit fl n); [apply andb_false_r|reflexivity]. }
      lia. }
  apply G; [|lia]. intros o H. apply filter_In in H as [_ H]. lia.
Qed.
Print Assumptions C61_tcp_flags.

(** IPv6 with traffic class and flow label in range. *)
Theorem C61_ipv6_partial :
  forall h, 0 <= v6_tc h < 2 ^ 8 -> 0 <= v6_flow h < 2 ^ 20 -> In (v6_nh h) IPProtocols ->
  length (v6_src h) = 16%nat -> length (v6_dst h) = 16%nat -> wfb (v6_src h) -> wfb (v6_dst h) ->
  let fit := u16 (v6_plen h) /\ 0 <= v6_ttl h < 256 in
  (fit -> exists b, ip6_to_bytes h = Ok b) /\ (~ fit -> ip6_to_bytes h = Err EStruct) /\
  (forall b t, ip6_to_bytes h = Ok b -> ip6_from_bytes (b ++ t) = Ok (h, t)).
Proof.
  intros h T F N L1 L2 W1 W2 fit. change (2 ^ 8) with 256 in T. pose proof (proto_range _ N) as R.
  assert (A := pack_or ip6_fmt [VI (Z.lor (Z.shiftl 6 4) (Z.shiftr (v6_tc h) 4));
     VI (Z.lor (Z.shiftl (Z.land (v6_tc h) 0x0f) 4) (Z.shiftr (Z.land (v6_flow h) 0xf0000) 16));
     VI (Z.land (v6_flow h) 0x0ffff); VI (v6_plen h); VI (v6_nh h); VI (v6_ttl h); VB (v6_src h); VB (v6_dst h)] fit).
  rewrite byte0, byte1, word1 in A by auto. change (2 ^ 20) with 1048576 in F.
  destruct A as [A B]; [unfold fit, ip6_fmt; both|].
  assert (E : ip6_to_bytes h = pack ip6_fmt [VI (96 + v6_tc h / 16); VI (v6_tc h mod 16 * 16 + v6_flow h / 65536);
     VI (v6_flow h mod 65536); VI (v6_plen h); VI (v6_nh h); VI (v6_ttl h); VB (v6_src h); VB (v6_dst h)]).
  { unfold ip6_to_bytes. rewrite byte0, byte1, word1; auto. }
  rewrite E. split; [exact A|]. split; [exact B|].
  intros b t Hb. pose proof (pack_packable _ _ _ Hb) as K. unfold ip6_fmt in K. cbn [packable] in K. pow256.
  apply ip6_parse; try rewrite E; auto; [|lia]. unfold wf_ip6. change (2 ^ 20) with 1048576. intuition lia.
Qed.
Print Assumptions C61_ipv6_partial.

Lemma lor_byte x : 0 <= x < 256 -> 0 <= Z.lor (Z.shiftl 6 4) x < 256.
Proof.
  intros H. change (Z.shiftl 6 4) with 96. assert (0 <= Z.lor 96 x) by (apply Z.lor_nonneg; lia). split; [lia|].
  destruct (Z.eq_dec (Z.lor 96 x) 0) as [->|]; [lia|]. change 256 with (2 ^ 8). apply Z.log2_lt_pow2; [lia|].
  rewrite Z.log2_lor by lia. apply Z.max_lub_lt; [reflexivity|].
  destruct (Z.eq_dec x 0) as [->|]; [reflexivity|]. apply Z.log2_lt_pow2; lia.
Qed.
Lemma byte1_any tc fl : Z.lor (Z.shiftl (Z.land tc 15) 4) (Z.shiftr (Z.land fl 0xf0000) 16) = tc mod 16 * 16 + fl / 65536 mod 16.
Proof.
  rewrite Z.shiftr_land. change (Z.shiftr 0xf0000 16) with (2 ^ 4 - 1). change 15 with (2 ^ 4 - 1).
  rewrite !land_ones_mod by lia. rewrite Z.shiftr_div_pow2 by lia. change (2 ^ 16) with 65536. change (2 ^ 4) with 16.
  rewrite lor_add_disjoint by (change (2 ^ 4) with 16; lia). change (2 ^ 4) with 16. lia.
Qed.

(** Otherwise: a flow label that does not fit is cut without any error, negative ones included. *)
Theorem C61_ipv6_flow_fails :
  forall h, 0 <= v6_tc h < 2 ^ 8 -> In (v6_nh h) IPProtocols -> u16 (v6_plen h) -> 0 <= v6_ttl h < 256 ->
  length (v6_src h) = 16%nat -> length (v6_dst h) = 16%nat -> wfb (v6_src h) -> wfb (v6_dst h) ->
  exists b, ip6_to_bytes h = Ok b /\ forall t,
  ip6_from_bytes (b ++ t) = Ok (mkIp6 (v6_tc h) (v6_flow h mod 2 ^ 20) (v6_ttl h) (v6_nh h) (v6_plen h) (v6_src h) (v6_dst h), t).
Proof.
  intros h T N P L S1 S2 W1 W2.
  set (g := mkIp6 (v6_tc h) (v6_flow h mod 2 ^ 20) (v6_ttl h) (v6_nh h) (v6_plen h) (v6_src h) (v6_dst h)).
  assert (E : ip6_to_bytes h = ip6_to_bytes g).
  { unfold ip6_to_bytes. rewrite !byte1_any, !word1. unfold g. cbn [v6_tc v6_flow v6_ttl v6_nh v6_plen v6_src v6_dst].
    change (2 ^ 20) with 1048576.
    replace (v6_flow h mod 1048576 mod 65536) with (v6_flow h mod 65536) by lia.
    replace (v6_flow h mod 1048576 / 65536 mod 16) with (v6_flow h / 65536 mod 16) by lia. reflexivity. }
  destruct (C61_ipv6_partial g) as (A & _ & B); auto.
  { unfold g. cbn [v6_flow]. apply Z.mod_pos_bound. lia. }
  destruct A as [b Hb]; [split; auto|]. exists b. split; [now rewrite E|]. intros t. now apply B.
Qed.
Print Assumptions C61_ipv6_flow_fails.

(** A traffic class that does not fit: up to 4095 it is sent, and no receiver reads it back; other values are refused. *)
Theorem C61_ipv6_class_fails :
  forall h, In (v6_nh h) IPProtocols -> u16 (v6_plen h) -> 0 <= v6_ttl h < 256 -> ~ 0 <= v6_tc h < 2 ^ 8 ->
  wfb (v6_src h) -> wfb (v6_dst h) ->
  (0 <= v6_tc h < 2 ^ 12 -> exists b, ip6_to_bytes h = Ok b /\
     forall t h' rest, wfb t -> ip6_from_bytes (b ++ t) = Ok (h', rest) -> v6_tc h' <> v6_tc h) /\
  (~ 0 <= v6_tc h < 2 ^ 12 -> ip6_to_bytes h = Err EStruct).
Proof.
  intros h N P L T W1 W2. pose proof (proto_range _ N) as R. change (2 ^ 8) with 256 in T. change (2 ^ 12) with 4096.
  unfold ip6_to_bytes. rewrite byte1_any, word1. unfold u16 in P. change (2 ^ 16) with 65536 in P.
  rewrite Z.shiftr_div_pow2 by lia. change (2 ^ 4) with 16. split.
  - intros U. pose proof (lor_byte (v6_tc h / 16)) as B.
    destruct (pack_ok ip6_fmt [VI (Z.lor (Z.shiftl 6 4) (v6_tc h / 16)); VI (v6_tc h mod 16 * 16 + v6_flow h / 65536 mod 16);
      VI (v6_flow h mod 65536); VI (v6_plen h); VI (v6_nh h); VI (v6_ttl h); VB (v6_src h); VB (v6_dst h)]) as [b Hb].
    { unfold ip6_fmt. cbn [packable]. pow256. intuition lia. }
    exists b. split; [exact Hb|]. intros t h' rest Wt H.
    assert (Wb : wfb b). { eapply pack_wfb; [|exact Hb]. repeat constructor; auto. }
    apply ip6_reserialise in H as (_ & _ & (K & _) & _); [lia|]. apply wfb_app; auto.
  - intros U. destruct (pack ip6_fmt _) as [b|e] eqn:E; [|f_equal; eapply pack_err; eauto].
    apply pack_packable in E. unfold ip6_fmt in E. cbn [packable] in E. pow256. destruct E as [E _].
    exfalso. apply U. assert (0 <= v6_tc h / 16 < 256); [|lia]. clear -E.
    pose proof (proj1 (Z.lor_nonneg (Z.shiftl 6 4) (v6_tc h / 16)) (proj1 E)) as [_ K]. split; [exact K|].
    destruct (Z_lt_le_dec (v6_tc h / 16) 256) as [|G]; [assumption|exfalso].
    assert (M : Z.log2 256 <= Z.log2 (Z.lor (Z.shiftl 6 4) (v6_tc h / 16))).
    { rewrite Z.log2_lor by (change (Z.shiftl 6 4) with 96; lia). etransitivity; [apply Z.log2_le_mono; exact G|]. apply Z.le_max_r. }
    assert (V : Z.lor (Z.shiftl 6 4) (v6_tc h / 16) = 0 \/ 0 < Z.lor (Z.shiftl 6 4) (v6_tc h / 16)) by lia.
    destruct V as [V|V]; [rewrite V in M; cbn in M; lia|].
    assert (Z.log2 (Z.lor (Z.shiftl 6 4) (v6_tc h / 16)) < 8) by (apply Z.log2_lt_pow2; [exact V|]; change (2 ^ 8) with 256; lia).
    change (Z.log2 256) with 8 in M. lia.
Qed.
Print Assumptions C61_ipv6_class_fails.

Example C61_ex :
  udp_to_bytes (mkUdp 65536 53 8 0) = Err EStruct /\ udp_to_bytes (mkUdp (-1) 53 8 0) = Err EStruct /\
  udp_to_bytes (mkUdp 5353 53 8 0) = Ok [20; 233; 0; 53; 0; 8; 0; 0] /\
  tcp_to_bytes (mkTcp 80 99 (2 ^ 32) 0 2 0 0 0 0) = Err EStruct /\
  (exists b, ip6_to_bytes (mkIp6 0x212 5 64 17 0 (repeat 1 16) (repeat 2 16)) = Ok b /\
     exists h, ip6_from_bytes b = Ok (h, []) /\ v6_tc h = 0x12).
Proof. repeat split. eexists. split; [vm_compute; reflexivity|]. eexists. split; [vm_compute; reflexivity|reflexivity]. Qed.
