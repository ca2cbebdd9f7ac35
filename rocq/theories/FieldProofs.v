(** Proofs about header attributes. *)
From Verif Require Import Base BaseLemmas EthAddrModel Enums EthModel ArpModel Ipv4Model TransportModel Ipv6Model PacketModel
  CodecLemmas FieldModel FieldSpec.

Lemma isset_testbit : forall f k, 0 <= k -> tcp_isset f k = Z.testbit f k.
Proof.
  intros f k Hk. unfold tcp_isset. rewrite Z.shiftl_1_l.
  destruct (Z.testbit f k) eqn:E.
  - apply Z.eqb_eq. apply Z.bits_inj'. intros n Hn. rewrite Z.land_spec.
    destruct (Z.eq_dec n k) as [->|Hne].
    + rewrite E, Z.pow2_bits_true by lia. reflexivity.
    + rewrite Z.pow2_bits_false by lia. apply andb_false_r.
  - apply Z.eqb_neq. intros H.
    assert (Ht : Z.testbit (Z.land f (2 ^ k)) k = Z.testbit (2 ^ k) k) by (rewrite H; reflexivity).
    rewrite Z.land_spec, E, Z.pow2_bits_true in Ht by lia. discriminate.
Qed.
Lemma setflag_testbit : forall f k v n, 0 <= k -> 0 <= n ->
  Z.testbit (tcp_setflag f k v) n = if n =? k then v else Z.testbit f n.
Proof.
  intros f k v n Hk Hn. unfold tcp_setflag. rewrite Z.shiftl_1_l.
  destruct v.
  - rewrite Z.lor_spec. destruct (Z.eqb_spec n k) as [->|Hne].
    + rewrite Z.pow2_bits_true by lia. apply orb_true_r.
    + rewrite Z.pow2_bits_false by lia. apply orb_false_r.
  - rewrite Z.land_spec, Z.lnot_spec by lia. destruct (Z.eqb_spec n k) as [->|Hne].
    + rewrite Z.pow2_bits_true by lia. apply andb_false_r.
    + rewrite Z.pow2_bits_false by lia. apply andb_true_r.
Qed.
Lemma bit_no_nonneg : forall b, 0 <= bit_no b.
Proof. intros []; cbn; lia. Qed.
Lemma bit_no_inj : forall a b, bit_no a = bit_no b -> a = b.
Proof. intros [] []; cbn; intros; try reflexivity; lia. Qed.
Lemma dscp_set : forall t v, 0 <= v < 64 -> Z.shiftr (Z.lor (Z.land t 3) (Z.shiftl v 2)) 2 = v.
Proof.
  intros t v Hv. apply Z.bits_inj'. intros n Hn.
  rewrite Z.shiftr_spec, Z.lor_spec, Z.land_spec, Z.shiftl_spec by lia.
  replace (n + 2 - 2) with n by lia.
  assert (E : Z.testbit 3 (n + 2) = false).
  { apply Z.bits_above_log2; [lia|]. change (Z.log2 3) with 1. lia. }
  rewrite E, andb_false_r. reflexivity.
Qed.
Lemma mask_small : forall v, 0 <= v <= 4095 -> Z.land v 0x0fff = v.
Proof.
  intros v Hv. change 0x0fff with (Z.ones 12). rewrite Z.land_ones by lia. apply Z.mod_small. change (2^12) with 4096. lia.
Qed.

Lemma rng_inv : forall lo hi z g, rng lo hi z = Some g -> lo <= z <= hi /\ g = GInt z.
Proof.
  intros lo hi z g. unfold rng. destruct ((lo <=? z) && (z <=? hi)) eqn:E; [|discriminate].
  intros H; injection H as <-. apply andb_true_iff in E. split; [lia|reflexivity].
Qed.
Lemma mem_inv : forall l z g, mem l z = Some g -> enum_of l z = Ok z /\ g = GInt z.
Proof.
  intros l z g. unfold mem, enum_of. destruct (zmem z l); [|discriminate]. intros H; injection H as <-. auto.
Qed.
Lemma hw_inv : forall x g, hw x = Some g -> exists a, eth_init x = Ok a /\ g = GHw a.
Proof. intros x g. unfold hw. destruct (eth_init x) as [a|e]; [|discriminate]. intros H; injection H as <-. eauto. Qed.
Lemma ip46_inv : forall b g, ip [4%nat; 16%nat] b = Some g -> ip_of_bytes b = Ok b /\ g = GIp b.
Proof.
  intros b g. unfold ip, ip_of_bytes. cbn [existsb]. rewrite orb_false_r.
  destruct (Nat.eqb (length b) 4 || Nat.eqb (length b) 16); [|discriminate]. intros H; injection H as <-. auto.
Qed.
Lemma ip6_inv : forall b g, ip [16%nat] b = Some g -> v6_addr b = Ok b /\ g = GIp b.
Proof.
  intros b g. unfold ip, v6_addr. cbn [existsb]. rewrite orb_false_r.
  destruct (Nat.eqb (length b) 16); [|discriminate]. intros H; injection H as <-. auto.
Qed.

Ltac ino :=
  match goal with
  | H : rng _ _ _ = Some _ |- _ => apply rng_inv in H; destruct H as [? ->]
  | H : mem _ _ = Some _ |- _ => apply mem_inv in H; destruct H as [? ->]
  | H : hw _ = Some _ |- _ => apply hw_inv in H; destruct H as [? [? ->]]
  | H : ip [4%nat; 16%nat] _ = Some _ |- _ => apply ip46_inv in H; destruct H as [? ->]
  | H : ip [16%nat] _ = Some _ |- _ => apply ip6_inv in H; destruct H as [? ->]
  | H : Some _ = Some _ |- _ => injection H as <-
  end.

(** Two attributes that do not overlap: what is left to check after each assignment. *)
Ltac others :=
  let b := fresh "b" in let Hb := fresh "Hb" in
  intros b Hb; destruct b; try reflexivity;
  try (exfalso; apply Hb; left; reflexivity);
  try (exfalso; apply Hb; right; left; split; [discriminate|reflexivity]).

Lemma setter_run : forall c h a v g, class_of h = c -> ideal c a v = Some g -> faithful c a v ->
  exists h', set h a v = Ok h' /\ class_of h' = c /\ get h' a = Some g /\
    forall b, ~ overlaps c a b -> get h' b = get h b.
Proof.
  intros c h a v g <- Hi Hf.
  destruct h as [e|l|p|i|i| | | | |u|t| | | | | | |]; cbn [class_of] in *; destruct a; try discriminate Hi;
    destruct v; try discriminate Hi; cbn [ideal] in Hi; ino; cbn [set].
  (* Ethernet *)
  - unfold eth_set_src. rewrite H. cbn [bindr]. eexists. split; [reflexivity|]. split; [reflexivity|].
    split; [reflexivity|others].
  - unfold eth_set_dst. rewrite H. cbn [bindr]. eexists. split; [reflexivity|]. split; [reflexivity|].
    split; [reflexivity|others].
  - unfold eth_set_type. rewrite H. cbn [bindr]. eexists. split; [reflexivity|]. split; [reflexivity|].
    split; [reflexivity|others].
  (* Vlan *)
  - unfold vlan_set_type. rewrite H. cbn [bindr]. eexists. split; [reflexivity|]. split; [reflexivity|].
    split; [reflexivity|others].
  - eexists. split; [reflexivity|]. split; [reflexivity|].
    split; [cbn [get]; unfold vlan_set_id; cbn [vl_id]; rewrite mask_small by lia; reflexivity|others].
  - eexists. split; [reflexivity|]. split; [reflexivity|].
    cbn [faithful] in Hf.
    split; [cbn [get]; unfold vlan_set_pcp; cbn [vl_pcp]; do 2 f_equal; lia|others].
  (* Arp *)
  - unfold arp_set_op. rewrite H. cbn [bindr]. eexists. split; [reflexivity|]. split; [reflexivity|].
    split; [reflexivity|others].
  - unfold arp_set_sh. rewrite H. cbn [bindr]. eexists. split; [reflexivity|]. split; [reflexivity|].
    split; [reflexivity|others].
  - unfold arp_set_sp. rewrite H. cbn [bindr]. eexists. split; [reflexivity|]. split; [reflexivity|].
    split; [reflexivity|others].
  - unfold arp_set_th. rewrite H. cbn [bindr]. eexists. split; [reflexivity|]. split; [reflexivity|].
    split; [reflexivity|others].
  - unfold arp_set_tp. rewrite H. cbn [bindr]. eexists. split; [reflexivity|]. split; [reflexivity|].
    split; [reflexivity|others].
  (* IPv4 *)
  - rewrite H. cbn [bindr]. eexists. split; [reflexivity|]. split; [reflexivity|]. split; [reflexivity|others].
  - rewrite H. cbn [bindr]. eexists. split; [reflexivity|]. split; [reflexivity|]. split; [reflexivity|others].
  - unfold ip_set_ttl. replace ((0 <=? z) && (z <=? 255)) with true by (symmetry; apply andb_true_iff; lia).
    cbn [bindr]. eexists. split; [reflexivity|]. split; [reflexivity|]. split; [reflexivity|others].
  - unfold ip_set_tos. replace ((0 <=? z) && (z <? 256)) with true by (symmetry; apply andb_true_iff; lia).
    cbn [bindr]. eexists. split; [reflexivity|]. split; [reflexivity|]. split; [reflexivity|others].
  - unfold ip_set_dscp. replace ((0 <=? z) && (z <? 64)) with true by (symmetry; apply andb_true_iff; lia).
    cbn [bindr]. eexists. split; [reflexivity|]. split; [reflexivity|].
    split; [cbn [get]; unfold ip_dscp, ip_with_tos; cbn [ip_tos]; rewrite dscp_set by lia; reflexivity|others].
  - destruct Hf.
  - unfold ip_set_id. replace ((0 <=? z) && (z <? 65536)) with true by (symmetry; apply andb_true_iff; lia).
    cbn [bindr]. eexists. split; [reflexivity|]. split; [reflexivity|]. split; [reflexivity|others].
  - unfold ip_set_proto. rewrite H. cbn [bindr]. eexists. split; [reflexivity|]. split; [reflexivity|].
    split; [reflexivity|others].
  - unfold ip_set_flags. rewrite H. cbn [bindr]. eexists. split; [reflexivity|]. split; [reflexivity|].
    split; [reflexivity|others].
  - unfold ip_set_frag. change (2 ^ 13) with 8192.
    replace ((0 <=? z) && (z <? 8192)) with true by (symmetry; apply andb_true_iff; lia).
    cbn [bindr]. eexists. split; [reflexivity|]. split; [reflexivity|]. split; [reflexivity|others].
  (* IPv6 *)
  - unfold v6_set_src. rewrite H. cbn [bindr]. eexists. split; [reflexivity|]. split; [reflexivity|].
    split; [reflexivity|others].
  - unfold v6_set_dst. rewrite H. cbn [bindr]. eexists. split; [reflexivity|]. split; [reflexivity|].
    split; [reflexivity|others].
  - eexists. split; [reflexivity|]. split; [reflexivity|]. split; [reflexivity|others].
  - eexists. split; [reflexivity|]. split; [reflexivity|]. split; [reflexivity|others].
  - eexists. split; [reflexivity|]. split; [reflexivity|]. split; [reflexivity|others].
  - unfold v6_set_nh. rewrite H. cbn [bindr]. eexists. split; [reflexivity|]. split; [reflexivity|].
    split; [reflexivity|others].
  - eexists. split; [reflexivity|]. split; [reflexivity|]. split; [reflexivity|others].
  (* UDP *)
  - eexists. split; [reflexivity|]. split; [reflexivity|]. split; [reflexivity|others].
  - eexists. split; [reflexivity|]. split; [reflexivity|]. split; [reflexivity|others].
  (* TCP *)
  - eexists. split; [reflexivity|]. split; [reflexivity|]. split; [reflexivity|others].
  - eexists. split; [reflexivity|]. split; [reflexivity|]. split; [reflexivity|others].
  - eexists. split; [reflexivity|]. split; [reflexivity|]. split; [reflexivity|others].
  - eexists. split; [reflexivity|]. split; [reflexivity|]. split; [reflexivity|others].
  - eexists. split; [reflexivity|]. split; [reflexivity|]. split; [reflexivity|others].
  - eexists. split; [reflexivity|]. split; [reflexivity|]. split; [reflexivity|others].
  - eexists. split; [reflexivity|]. split; [reflexivity|]. split.
    + cbn [get tcp_set_bit tcp_flags]. rewrite isset_testbit, setflag_testbit, Z.eqb_refl by apply bit_no_nonneg. reflexivity.
    + others.
      * exfalso. apply Hb. right. right. split; [reflexivity|]. right. eauto.
      * cbn [get tcp_set_bit tcp_flags]. rewrite !isset_testbit, setflag_testbit by apply bit_no_nonneg.
        match goal with |- context [bit_no ?x =? bit_no ?y] => destruct (Z.eqb_spec (bit_no x) (bit_no y)) as [E|E]; [|reflexivity] end.
        apply bit_no_inj in E. subst. exfalso. apply Hb. left. reflexivity.
  - eexists. split; [reflexivity|]. split; [reflexivity|]. split.
    + cbn [get tcp_set_bit tcp_flags]. rewrite isset_testbit, setflag_testbit, Z.eqb_refl by apply bit_no_nonneg. reflexivity.
    + others.
      * exfalso. apply Hb. right. right. split; [reflexivity|]. right. eauto.
      * cbn [get tcp_set_bit tcp_flags]. rewrite !isset_testbit, setflag_testbit by apply bit_no_nonneg.
        match goal with |- context [bit_no ?x =? bit_no ?y] => destruct (Z.eqb_spec (bit_no x) (bit_no y)) as [E|E]; [|reflexivity] end.
        apply bit_no_inj in E. subst. exfalso. apply Hb. left. reflexivity.
Qed.

(** ** Refusals *)
Lemma rng_none : forall lo hi z, rng lo hi z = None -> (lo <=? z) && (z <=? hi) = false.
Proof. intros lo hi z. unfold rng. destruct ((lo <=? z) && (z <=? hi)); [discriminate|reflexivity]. Qed.
Lemma mem_none : forall l z, mem l z = None -> enum_of l z = Err EValue.
Proof. intros l z. unfold mem, enum_of. destruct (zmem z l); [discriminate|reflexivity]. Qed.
Lemma ip46_none : forall b, ip [4%nat; 16%nat] b = None -> ip_of_bytes b = Err EValue.
Proof.
  intros b. unfold ip, ip_of_bytes. cbn [existsb]. rewrite orb_false_r.
  destruct (Nat.eqb (length b) 4 || Nat.eqb (length b) 16); [discriminate|reflexivity].
Qed.
Lemma ip6_none : forall b, ip [16%nat] b = None -> v6_addr b = Err EValue.
Proof.
  intros b. unfold ip, v6_addr. cbn [existsb]. rewrite orb_false_r.
  destruct (Nat.eqb (length b) 16); [discriminate|reflexivity].
Qed.
Lemma hw_none : forall x, hw x = None -> exists e, eth_init x = Err e.
Proof. intros x. unfold hw. destruct (eth_init x) as [a|e]; [discriminate|eauto]. Qed.

Ltac rangefalse :=
  match goal with |- context [if ?b then _ else Err EValue] =>
    replace b with false by (symmetry; apply andb_false_iff;
      match goal with H : (_ && _) = false |- _ => apply andb_false_iff in H; lia end)
  end.
Lemma setter_refuses : forall c h a v, class_of h = c -> kind_ok c a v -> validated c a -> ideal c a v = None ->
  exists e, set h a v = Err e /\ ((forall x, v <> AHw x) -> e = EValue).
Proof.
  intros c h a v <- Hk Hv Hi.
  destruct h as [e|l|p|i|i| | | | |u|t| | | | | | |]; cbn [class_of] in *; destruct a; try (destruct Hk; fail);
    destruct v; try (destruct Hk; fail); try (destruct Hv; fail); cbn [ideal] in Hi; cbn [set];
    try (apply rng_none in Hi); try (apply mem_none in Hi); try (apply ip46_none in Hi); try (apply ip6_none in Hi);
    try (apply hw_none in Hi; destruct Hi as [er Hi]).
  all: unfold eth_set_src, eth_set_dst, eth_set_type, vlan_set_type, arp_set_op, arp_set_sh, arp_set_sp, arp_set_th,
    arp_set_tp, ip_set_ttl, ip_set_tos, ip_set_dscp, ip_set_ecn, ip_set_id, ip_set_proto, ip_set_flags, ip_set_frag,
    v6_set_nh, v6_set_src, v6_set_dst; try rewrite Hi; cbn [bindr]; change (2 ^ 13) with 8192; try rangefalse; cbn [bindr];
    eexists; split; try reflexivity; intros Hx; try reflexivity; exfalso; eapply Hx; reflexivity.
Qed.

(** Attributes that do not exist on a header, and read-only ones. *)
Definition known (c : hcls) : Prop := In c [CEth; CVlan; CArp; CIp4; CIp6; CUdp; CTcp].
Lemma setter_unknown : forall h a v, get h a = None -> set h a v = Err EAttr.
Proof. intros [] []; intros v H; try discriminate H; try reflexivity; destruct v; reflexivity. Qed.
Lemma setter_readonly : forall h a v,
  In (class_of h, a) [(CArp, FHwType); (CArp, FProtoType); (CIp4, FTotalLen); (CUdp, FChecksum); (CUdp, FLength);
                      (CTcp, FOffset); (CTcp, FChecksum); (CTcp, FFlags)] ->
  set h a v = Err EAttr.
Proof.
  intros h a v H. cbn [In] in H.
  repeat match goal with H : _ \/ _ |- _ => destruct H as [H|H] end; try (destruct H; fail);
    injection H as Hc <-; destruct h; try discriminate Hc; destruct v; reflexivity.
Qed.

Lemma set_class : forall h a v h', set h a v = Ok h' -> class_of h' = class_of h.
Proof.
  intros h a v h' H.
  destruct h; destruct a; try discriminate H; destruct v; try discriminate H; cbn [set] in H;
    try (injection H as <-; reflexivity);
    apply bindr_ok in H; let y := fresh "y" in destruct H as [y [_ H]]; injection H as <-; reflexivity.
Qed.

Lemma overlaps_sym : forall c a b, overlaps c a b -> overlaps c b a.
Proof.
  intros c a b [->|[[H1 H2]|[Hc [[H1 H2]|[H1 H2]]]]]; [left; reflexivity|right; left|right; right..].
  - split; congruence.
  - split; [exact Hc|right; auto].
  - split; [exact Hc|left; auto].
Qed.

(** Keyword arguments that do not compete for the same information. *)
Definition indep (c : hcls) (kw : list (fld * aval)) : Prop :=
  ForallOrdPairs (fun p q => ~ overlaps c (fst p) (fst q)) kw.

Lemma set_all_run : forall c kw h, class_of h = c -> indep c kw ->
  (forall a v, In (a, v) kw -> ideal c a v <> None /\ faithful c a v) ->
  exists h', set_all h kw = Ok h' /\ class_of h' = c /\
    (forall a v, In (a, v) kw -> get h' a = ideal c a v) /\
    (forall b, (forall a v, In (a, v) kw -> ~ overlaps c a b) -> get h' b = get h b).
Proof.
  intros c kw. induction kw as [|[a v] kw IH]; intros h Hc Hi Hok.
  - exists h. cbn [set_all]. split; [reflexivity|]. split; [exact Hc|]. split; [intros a v []|]. reflexivity.
  - destruct (Hok a v (or_introl eq_refl)) as [Hg Hf].
    destruct (ideal c a v) as [g|] eqn:Eg; [|contradiction].
    destruct (setter_run c h a v g Hc Eg Hf) as [h1 [Es [Hc1 [Hg1 Ho1]]]].
    inversion Hi as [|x l Hall Hi']; subst x l.
    destruct (IH h1 Hc1 Hi') as [h' [Er [Hc' [Hget Hoth]]]].
    { intros a' v' Hin. apply Hok. right. exact Hin. }
    exists h'. cbn [set_all]. rewrite Es. cbn [bindr]. split; [exact Er|]. split; [exact Hc'|]. split.
    + intros a' v' [E|Hin].
      * injection E as <- <-. rewrite Eg, <- Hg1. apply Hoth. intros a2 v2 Hin2 Hov.
        rewrite Forall_forall in Hall. apply (Hall (a2, v2) Hin2). apply overlaps_sym. exact Hov.
      * apply Hget. exact Hin.
    + intros b Hb. rewrite Hoth.
      * apply Ho1. apply (Hb a v). left. reflexivity.
      * intros a' v' Hin. apply (Hb a' v'). right. exact Hin.
Qed.

Lemma set_all_err : forall c kw h a v, class_of h = c -> In (a, v) kw -> kind_ok c a v -> validated c a ->
  ideal c a v = None -> exists e, set_all h kw = Err e.
Proof.
  intros c kw. induction kw as [|[a0 v0] kw IH]; intros h a v Hc Hin Hk Hv Hi; [destruct Hin|].
  cbn [set_all]. destruct Hin as [E|Hin].
  - injection E as -> ->. destruct (setter_refuses c h a v Hc Hk Hv Hi) as [e [E _]]. rewrite E. cbn [bindr]. eauto.
  - destruct (set h a0 v0) as [h1|e] eqn:E; cbn [bindr]; [|eauto].
    apply (IH h1 a v); auto. rewrite (set_class _ _ _ _ E). exact Hc.
Qed.
Lemma set_all_unknown : forall c kw h a v, class_of h = c -> In (a, v) kw ->
  (forall h', class_of h' = c -> get h' a = None) -> exists e, set_all h kw = Err e.
Proof.
  intros c kw. induction kw as [|[a0 v0] kw IH]; intros h a v Hc Hin Hn; [destruct Hin|].
  cbn [set_all]. destruct Hin as [E|Hin].
  - injection E as -> ->. rewrite (setter_unknown h a v (Hn h Hc)). cbn [bindr]. eauto.
  - destruct (set h a0 v0) as [h1|e] eqn:E; cbn [bindr]; [|eauto].
    apply (IH h1 a v); auto. rewrite (set_class _ _ _ _ E). exact Hc.
Qed.

Lemma default_class : forall c h, new_default c = Some h -> class_of h = c.
Proof. intros [] h H; try discriminate H; injection H as <-; reflexivity. Qed.
Lemma default_get : forall c h a, new_default c = Some h -> get h a = documented_default c a.
Proof.
  intros c h a H. destruct c; try discriminate H; injection H as <-; destruct a; try reflexivity.
  destruct b; reflexivity.
Qed.

(** ECN on a header whose bits 1 and 2 of the type of service are clear. *)
Lemma ecn_run : forall i v, 0 <= v <= 3 -> 0 <= ip_tos i <= 255 -> Z.testbit (ip_tos i) 1 = false -> Z.testbit (ip_tos i) 2 = false ->
  exists i', set (HIp4 i) FEcn (AInt v) = Ok (HIp4 i') /\ get (HIp4 i') FEcn = Some (GInt v) /\
    get (HIp4 i') FDscp = get (HIp4 i) FDscp.
Proof.
  intros i v Hv Ht H1 H2. cbn [set]. unfold ip_set_ecn.
  replace ((0 <=? v) && (v <? 4)) with true by (symmetry; apply andb_true_iff; lia). cbn [bindr].
  eexists. split; [reflexivity|]. cbn [get]. unfold ip_ecn, ip_dscp, ip_with_tos. cbn [ip_tos].
  remember (ip_tos i) as t eqn:Et. clear Et.
  assert (Hb : forall n, 8 <= n -> Z.testbit t n = false).
  { intros n Hn. destruct (Z.eq_dec t 0) as [->|]; [apply Z.bits_0|]. apply Z.bits_above_log2; [lia|].
    apply Z.log2_lt_pow2; [lia|]. apply Z.lt_le_trans with (2 ^ 8); [change (2^8) with 256; lia|].
    apply Z.pow_le_mono_r; lia. }
  assert (Hvb : forall n, 2 <= n -> Z.testbit v n = false).
  { intros n Hn. destruct (Z.eq_dec v 0) as [->|]; [apply Z.bits_0|]. apply Z.bits_above_log2; [lia|].
    apply Z.log2_lt_pow2; [lia|]. apply Z.lt_le_trans with (2 ^ 2); [change (2^2) with 4; lia|].
    apply Z.pow_le_mono_r; lia. }
  split; do 2 f_equal; apply Z.bits_inj'; intros n Hn.
  - rewrite Z.land_spec, Z.lor_spec, Z.land_spec.
    destruct (Z_lt_ge_dec n 2) as [Hlt|Hge].
    + assert (n = 0 \/ n = 1) as [-> | ->] by lia.
      * change (Z.testbit 0xfa 0) with false. change (Z.testbit 3 0) with true. rewrite andb_false_r, andb_true_r. reflexivity.
      * rewrite H1. change (Z.testbit 3 1) with true. rewrite andb_true_r. reflexivity.
    + rewrite (Hvb n) by lia.
      replace (Z.testbit 3 n) with false; [apply andb_false_r|]. symmetry. apply Z.bits_above_log2; [lia|].
      change (Z.log2 3) with 1. lia.
  - rewrite !Z.shiftr_spec, Z.lor_spec, Z.land_spec by lia. rewrite (Hvb (n + 2)) by lia. rewrite orb_false_r.
    destruct (Z_lt_ge_dec n 6) as [Hlt|Hge].
    + assert (n = 0 \/ n = 1 \/ n = 2 \/ n = 3 \/ n = 4 \/ n = 5) as [-> | [-> | [-> | [-> | [-> | ->]]]]] by lia;
        cbn [Z.add Pos.add Pos.succ]; try rewrite H2;
        match goal with |- _ && ?x = _ => first [change x with true; apply andb_true_r|change x with false] end.
      reflexivity.
    + rewrite (Hb (n + 2)) by lia. reflexivity.
Qed.
