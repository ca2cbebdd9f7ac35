From Verif Require Import BaseLemmas CodecLemmas EthAddrModel EthAddrSpec EthAddrProofs Enums EthModel ArpModel.

(** ** Ethernet *)
Definition wf_eth (h : ethernet) : Prop := addr6 (eth_dst h) /\ addr6 (eth_src h) /\ In (eth_type h) EtherTypes.

Lemma eth_to_bytes_ok h : wf_eth h -> exists b, eth_to_bytes h = Ok b /\ length b = 14%nat /\ wfb b.
Proof. intros ((Wd & Ld) & (Ws & Ls) & Ht). apply ethertype_range in Ht.
  destruct (pack_ok eth_fmt [VB (eth_dst h); VB (eth_src h); VI (eth_type h)]) as [b Hb].
  { packable. }
  exists b. unfold eth_to_bytes. rewrite Hb. split; auto. split.
  - apply (pack_length _ _ _ Hb).
  - eapply pack_wfb; [|exact Hb]. repeat constructor; auto. Qed.

Lemma eth_parse h b t : wf_eth h -> eth_to_bytes h = Ok b ->
  eth_from_bytes (b ++ t) = Ok (mkEth (eth_dst h) (eth_src h) (if eth_type h <=? 1500 then etNoType else eth_type h), t).
Proof. intros ((Wd & Ld) & (Ws & Ls) & Ht) Hb.
  destruct (take_pack eth_fmt _ b t eth_minlen eq_refl Hb) as (H1 & H2 & H3).
  unfold eth_from_bytes. rewrite H1, H2. cbn [norm eth_fmt bindr].
  rewrite !fits_exact by auto. rewrite !eth_init_bytes6 by auto. cbn [bindr].
  rewrite H3. destruct (eth_type h <=? 1500); [reflexivity|].
  rewrite enum_in by auto. reflexivity. Qed.

Lemma eth_reserialise raw h rest : wfb raw -> eth_from_bytes raw = Ok (h, rest) ->
  (14 <= length raw)%nat /\ wf_eth h /\ rest = skipn 14 raw /\
  eth_dst h = firstn 6 raw /\ eth_src h = firstn 6 (skipn 6 raw) /\
  (1500 < unbe (firstn 2 (skipn 12 raw)) -> eth_type h = unbe (firstn 2 (skipn 12 raw)) /\ eth_to_bytes h = Ok (firstn 14 raw)) /\
  (unbe (firstn 2 (skipn 12 raw)) <= 1500 -> eth_type h = etNoType).
Proof. intros Hw H. unfold eth_from_bytes in H.
  destruct (Nat.ltb (length raw) eth_minlen) eqn:Hl; [discriminate|].
  destruct (unpack eth_fmt (firstn eth_minlen raw)) as [vs|] eqn:Hu; [|discriminate].
  pose proof (unpack_shaped _ _ _ (wfb_firstn _ _ Hw) Hu) as Hs.
  pose proof (pack_take eth_fmt vs raw eth_minlen Hw eq_refl eq_refl Hu) as Hp.
  unfold eth_fmt in Hs. shape Hs. cbn [bindr] in H.
  rewrite !eth_init_bytes6 in H by auto. cbn [bindr] in H. apply bindr_ok in H as (t & Ht & H).
  injection H as <- <-. cbn [eth_dst eth_src eth_type].
  cbn [unpack eth_fmt] in Hu. rewrite !skipn_skipn_add in Hu.
  repeat match type of Hu with (if ?c then _ else _) = _ => destruct c; [discriminate Hu|] | context [if ?c then _ else _] => destruct c; [discriminate Hu|] end.
  match type of Hu with context [match ?l with [] => _ | _ => _ end] => destruct l; [|discriminate Hu] end. cbn [bindr] in Hu. apply ok_inj in Hu.
  apply cons_inj in Hu as [E1 Hu]. apply cons_inj in Hu as [E2 Hu]. apply cons_inj in Hu as [E3 _].
  apply VB_inj in E1, E2. apply VI_inj in E3.
  unfold eth_minlen in *. rewrite !slice_firstn in E2, E3 by lia. rewrite firstn_firstn in E1.
  cbn [Nat.min plus] in *. rewrite E1, E2, E3.
  apply Nat.ltb_ge in Hl. split; [auto|]. split.
  { repeat split; auto. cbn [eth_type]. destruct (z <=? 1500).
    - injection Ht as <-. left; reflexivity.
    - apply enum_of_ok in Ht as [-> Ht]. auto. }
  split; [reflexivity|]. split; [reflexivity|]. split; [reflexivity|]. split; intros Hc.
  - replace (z <=? 1500) with false in Ht by lia. apply enum_of_ok in Ht as [-> Ht]. split; auto.
  - replace (z <=? 1500) with true in Ht by lia. congruence. Qed.

Lemma eth_short raw : (length raw < 14)%nat -> eth_from_bytes raw = Err ENotEnough.
Proof. intros H. unfold eth_from_bytes. replace (Nat.ltb (length raw) eth_minlen) with true; auto.
  symmetry. apply Nat.ltb_lt. exact H. Qed.

(** ** Vlan *)
Definition wf_vlan (h : vlan) : Prop :=
  0 <= vl_id h < 4096 /\ 0 <= vl_pcp h <= 3 /\ In (vl_type h) EtherTypes.

Lemma vlan_set_wf v p t h : wf_vlan h ->
  wf_vlan (vlan_set_id v h) /\ wf_vlan (vlan_set_pcp p h) /\ (forall h', vlan_set_type t h = Ok h' -> wf_vlan h').
Proof. intros (Hi & Hp & Ht). unfold wf_vlan. repeat split; cbn [vlan_set_id vlan_set_pcp vl_id vl_pcp vl_type]; auto; try lia.
  - change 0xfff with (2 ^ 12 - 1). rewrite land_ones_mod by lia. apply Z.mod_pos_bound; lia.
  - change 0xfff with (2 ^ 12 - 1). rewrite land_ones_mod by lia. apply Z.mod_pos_bound; lia.
  - apply bindr_ok in H as (x & Hx & H). inversion H; subst. cbn. lia.
  - apply bindr_ok in H as (x & Hx & H). inversion H; subst. cbn. lia.
  - apply bindr_ok in H as (x & Hx & H). inversion H; subst. cbn. lia.
  - apply bindr_ok in H as (x & Hx & H). inversion H; subst. cbn. lia.
  - apply bindr_ok in H as (x & Hx & H). inversion H; subst. cbn. apply enum_of_ok in Hx as [-> Hx]; auto. Qed.

Lemma vlan_tci h : wf_vlan h -> 0 <= Z.lor (Z.shiftl (vl_pcp h) 12) (vl_id h) < 65536 /\
  Z.lor (Z.shiftl (vl_pcp h) 12) (vl_id h) = vl_pcp h * 4096 + vl_id h.
Proof. intros (Hi & Hp & _). rewrite lor_add_disjoint by (change (2 ^ 12) with 4096; lia).
  change (2 ^ 12) with 4096. lia. Qed.

Lemma land_f000 tci : 0 <= tci < 65536 -> Z.shiftr (Z.land tci 0xf000) 12 = tci / 4096.
Proof. intros H. rewrite Z.shiftr_land. change (Z.shiftr 0xf000 12) with (2 ^ 4 - 1).
  rewrite Z.shiftr_div_pow2, land_ones_mod by lia. change (2 ^ 12) with 4096. change (2 ^ 4) with 16.
  apply Z.mod_small. lia. Qed.

Lemma vlan_to_bytes_ok h : wf_vlan h -> exists b, vlan_to_bytes h = Ok b /\ length b = 4%nat /\ wfb b.
Proof. intros H. destruct (vlan_tci h H) as [Hr _]. destruct H as (_ & _ & Ht). apply ethertype_range in Ht.
  destruct (pack_ok vlan_fmt [VI (Z.lor (Z.shiftl (vl_pcp h) 12) (vl_id h)); VI (vl_type h)]) as [b Hb].
  { packable. }
  exists b. unfold vlan_to_bytes. rewrite Hb. split; auto. split.
  - apply (pack_length _ _ _ Hb).
  - eapply pack_wfb; [|exact Hb]. repeat constructor; auto. Qed.

Lemma vlan_parse h b t : wf_vlan h -> vlan_to_bytes h = Ok b -> vlan_from_bytes (b ++ t) = Ok (h, t).
Proof. intros Hwf Hb. destruct (vlan_tci h Hwf) as [Hr He]. destruct Hwf as (Hi & Hp & Ht).
  destruct (take_pack vlan_fmt _ b t vlan_minlen eq_refl Hb) as (H1 & H2 & H3).
  unfold vlan_from_bytes. rewrite H1, H2. cbn [norm vlan_fmt bindr].
  rewrite land_f000 by auto. rewrite He in *. rewrite H3.
  unfold vlan_set_type, vlan_set_pcp, vlan_set_id. cbn [vl_id vl_pcp vl_type vlan_new].
  rewrite enum_in by auto. cbn [bindr]. f_equal. f_equal. destruct h as [i p ty]. cbn [vl_id vl_pcp vl_type] in *. f_equal.
  - change 0xfff with (2 ^ 12 - 1). rewrite land_ones_mod by lia. change (2 ^ 12) with 4096.
    rewrite Z.add_comm, Z.mod_add, Z.mod_small by lia. lia.
  - rewrite Z.div_add_l, Z.div_small by lia. lia. Qed.

(** What parsing a tag gives, in terms of its four bytes. *)
Lemma vlan_parse_bytes a b c d r : wfb [a; b; c; d] -> In (256 * c + d) EtherTypes ->
  vlan_from_bytes (a :: b :: c :: d :: r) =
  Ok (mkVlan (256 * (a mod 16) + b) (Z.min (a / 16) 3) (256 * c + d), r).
Proof. intros Hw Ht. repeat (apply wfb_cons in Hw as [? Hw]).
  unfold vlan_from_bytes. change (Nat.ltb (length (a :: b :: c :: d :: r)) vlan_minlen) with false.
  cbn [vlan_minlen firstn skipn vlan_fmt unpack length Nat.ltb Nat.leb bindr].
  assert (E1 : unbe [a; b] = 256 * a + b) by (cbn [unbe length]; change (256 ^ Z.of_nat 1) with 256; change (256 ^ Z.of_nat 0) with 1; ring).
  assert (E2 : unbe [c; d] = 256 * c + d) by (cbn [unbe length]; change (256 ^ Z.of_nat 1) with 256; change (256 ^ Z.of_nat 0) with 1; ring).
  rewrite E1, E2. rewrite land_f000 by lia.
  unfold vlan_set_type, vlan_set_pcp, vlan_set_id. cbn [vl_id vl_pcp vl_type vlan_new].
  rewrite enum_in by auto. cbn [bindr]. f_equal. f_equal. f_equal.
  - change 0xfff with (2 ^ 12 - 1). rewrite land_ones_mod by lia. change (2 ^ 12) with 4096. lia.
  - lia. Qed.

Lemma vlan_bytes h : wf_vlan h ->
  vlan_to_bytes h = Ok [16 * vl_pcp h + vl_id h / 256; vl_id h mod 256; vl_type h / 256; vl_type h mod 256].
Proof. intros Hwf. destruct (vlan_tci h Hwf) as [Hr He]. destruct Hwf as (Hi & Hp & Ht). apply ethertype_range in Ht.
  unfold vlan_to_bytes, vlan_fmt. rewrite He. cbn [pack]. pow256.
  replace ((0 <=? vl_pcp h * 4096 + vl_id h) && (vl_pcp h * 4096 + vl_id h <? 65536)) with true by lia.
  replace ((0 <=? vl_type h) && (vl_type h <? 65536)) with true by lia.
  cbn [bindr be app Z.of_nat]. change (256 ^ Z.of_nat 1) with 256. change (256 ^ 0) with 1. rewrite !Z.div_1_r.
  f_equal. f_equal; [lia|]. f_equal; [lia|]. f_equal. lia. Qed.

(** ** ARP *)
Definition ip4 (a : bytes) : Prop := wfb a /\ length a = 4%nat.
Definition wf_arp (h : arp) : Prop :=
  arp_hwtype h = 1 /\ In (arp_prototype h) EtherTypes /\ 0 <= arp_hwlen h < 256 /\ 0 <= arp_protolen h < 256 /\
  In (arp_op h) ArpOperations /\ addr6 (arp_shw h) /\ ip4 (arp_sproto h) /\ addr6 (arp_thw h) /\ ip4 (arp_tproto h).

Lemma arpop_range z : In z ArpOperations -> 0 <= z < 65536.
Proof. intros H. apply (enum_forall ArpOperations (fun z => (0 <=? z) && (z <? 65536)) eq_refl) in H. lia. Qed.

Lemma arp_to_bytes_ok h : wf_arp h -> exists b, arp_to_bytes h = Ok b /\ length b = 28%nat /\ wfb b.
Proof. intros (H1 & H2 & H3 & H4 & H5 & (W6 & L6) & (W7 & L7) & (W8 & L8) & (W9 & L9)).
  apply ethertype_range in H2. apply arpop_range in H5.
  destruct (pack_ok arp_fmt [VI (arp_hwtype h); VI (arp_prototype h); VI (arp_hwlen h); VI (arp_protolen h);
                VI (arp_op h); VB (arp_shw h); VB (arp_sproto h); VB (arp_thw h); VB (arp_tproto h)]) as [b Hb].
  { unfold arp_fmt. packable. }
  exists b. unfold arp_to_bytes. rewrite Hb. split; auto. split.
  - apply (pack_length _ _ _ Hb).
  - eapply pack_wfb; [|exact Hb]. repeat constructor; auto. Qed.

Lemma ip_of_bytes4 b : length b = 4%nat -> ip_of_bytes b = Ok b.
Proof. intros H. unfold ip_of_bytes. rewrite H. reflexivity. Qed.

Lemma arp_parse h b t : wf_arp h -> arp_to_bytes h = Ok b -> arp_from_bytes (b ++ t) = Ok (h, t).
Proof. intros (H1 & H2 & H3 & H4 & H5 & (W6 & L6) & (W7 & L7) & (W8 & L8) & (W9 & L9)) Hb.
  destruct (take_pack arp_fmt _ b t arp_minlen eq_refl Hb) as (E1 & E2 & E3).
  unfold arp_from_bytes. rewrite E1, E2. cbn [norm arp_fmt bindr].
  rewrite !fits_exact by auto.
  rewrite (enum_in ArpHwTypes), (enum_in EtherTypes), (enum_in ArpOperations) by (auto; rewrite H1; left; auto).
  cbn [bindr]. rewrite !eth_init_bytes6, !ip_of_bytes4 by auto. cbn [bindr].
  cbn [bindr]. rewrite E3. destruct h; reflexivity. Qed.

Lemma arp_reserialise raw h rest : wfb raw -> arp_from_bytes raw = Ok (h, rest) ->
  (28 <= length raw)%nat /\ wf_arp h /\ rest = skipn 28 raw /\ arp_to_bytes h = Ok (firstn 28 raw).
Proof. intros Hw H. unfold arp_from_bytes in H.
  destruct (Nat.ltb (length raw) arp_minlen) eqn:Hl; [discriminate|].
  destruct (unpack arp_fmt (firstn arp_minlen raw)) as [vs|] eqn:Hu; [|discriminate].
  pose proof (unpack_shaped _ _ _ (wfb_firstn _ _ Hw) Hu) as Hs.
  pose proof (pack_take arp_fmt vs raw arp_minlen Hw eq_refl eq_refl Hu) as Hp.
  unfold arp_fmt in Hs. shape Hs. cbn [bindr] in H.
  pow256.
  destruct (enum_of ArpHwTypes z) as [x0|] eqn:G0; [|discriminate]. apply enum_of_ok in G0 as [-> G0].
  cbn [bindr] in H.
  destruct (enum_of EtherTypes z0) as [x1|] eqn:G1; [|discriminate]. apply enum_of_ok in G1 as [-> G1].
  cbn [bindr] in H.
  destruct (enum_of ArpOperations z3) as [x2|] eqn:G2; [|discriminate]. apply enum_of_ok in G2 as [-> G2].
  cbn [bindr] in H. rewrite !eth_init_bytes6, !ip_of_bytes4 in H by auto. cbn [bindr] in H.
  inversion H; subst. apply Nat.ltb_ge in Hl. split; [exact Hl|]. split.
  - unfold wf_arp. cbn. destruct G0 as [<-|[]]. repeat split; auto; lia.
  - split; auto. Qed.

Lemma arp_short raw : (length raw < 28)%nat -> arp_from_bytes raw = Err ENotEnough.
Proof. intros H. unfold arp_from_bytes. replace (Nat.ltb (length raw) arp_minlen) with true; auto.
  symmetry. apply Nat.ltb_lt. exact H. Qed.
Lemma vlan_short raw : (length raw < 4)%nat -> vlan_from_bytes raw = Err ENotEnough.
Proof. intros H. unfold vlan_from_bytes. replace (Nat.ltb (length raw) vlan_minlen) with true; auto.
  symmetry. apply Nat.ltb_lt. exact H. Qed.

(** ** Property-level statements *)
Lemma eth_round_trip h : addr6 (eth_dst h) -> addr6 (eth_src h) -> In (eth_type h) EtherTypes -> eth_type h <> 1500 ->
  exists b, eth_to_bytes h = Ok b /\
    b = eth_dst h ++ eth_src h ++ [eth_type h / 256; eth_type h mod 256] /\
    forall t, eth_from_bytes (b ++ t) = Ok (h, t).
Proof. intros Hd Hs Ht Hn. pose proof (ethertype_range _ Ht) as Hr.
  assert (Hb : eth_to_bytes h = Ok (eth_dst h ++ eth_src h ++ [eth_type h / 256; eth_type h mod 256])).
  { unfold eth_to_bytes, eth_fmt. rewrite !pack_cons_s by (apply Hd || apply Hs).
    rewrite pack_cons_int by (pow256; lia). rewrite pack_nil, be2 by lia. reflexivity. }
  eexists. split; [exact Hb|]. split; [reflexivity|]. intros t.
  rewrite (eth_parse h _ t (conj Hd (conj Hs Ht)) Hb).
  assert (He : (eth_type h <=? 1500) = false).
  { apply (enum_forall EtherTypes (fun z => (z =? 1500) || negb (z <=? 1500)) eq_refl) in Ht. lia. }
  rewrite He. destruct h; reflexivity. Qed.

Lemma eth_ieee8023_lost :
  exists h b, addr6 (eth_dst h) /\ addr6 (eth_src h) /\ In (eth_type h) EtherTypes /\
    eth_to_bytes h = Ok b /\ forall t, eth_from_bytes (b ++ t) <> Ok (h, t).
Proof. exists (mkEth [1;2;3;4;5;6] [1;2;3;4;5;7] 1500), [1;2;3;4;5;6; 1;2;3;4;5;7; 5; 220].
  split; [split; [repeat constructor; lia|reflexivity]|]. split; [split; [repeat constructor; lia|reflexivity]|].
  split; [cbn; auto|]. split; [vm_compute; reflexivity|]. intros t.
  rewrite (eth_parse (mkEth [1;2;3;4;5;6] [1;2;3;4;5;7] 1500) _ t); [|split; [|split]|vm_compute; reflexivity].
  - cbn. discriminate.
  - split; [repeat constructor; lia|reflexivity].
  - split; [repeat constructor; lia|reflexivity].
  - cbn; auto. Qed.

Lemma eth_parse_then_serialise raw h rest : wfb raw -> eth_from_bytes raw = Ok (h, rest) ->
  (14 <= length raw)%nat /\ rest = skipn 14 raw /\
  eth_dst h = firstn 6 raw /\ eth_src h = firstn 6 (skipn 6 raw) /\
  (1500 < unbe (firstn 2 (skipn 12 raw)) ->
     eth_type h = unbe (firstn 2 (skipn 12 raw)) /\ eth_to_bytes h = Ok (firstn 14 raw)).
Proof. intros Hw H. destruct (eth_reserialise raw h rest Hw H) as (H1 & H2 & H3 & H4 & H5 & H6 & _). auto. Qed.

Lemma eth_accepts raw : wfb raw ->
  ((length raw < 14)%nat -> eth_from_bytes raw = Err ENotEnough) /\
  ((exists p, eth_from_bytes raw = Ok p) <->
   (14 <= length raw)%nat /\
   (unbe (firstn 2 (skipn 12 raw)) <= 1500 \/ In (unbe (firstn 2 (skipn 12 raw))) EtherTypes)).
Proof. intros Hw. split; [apply eth_short|]. split.
  - intros ([h rest] & H). destruct (eth_reserialise raw h rest Hw H) as (H1 & (_ & _ & H2) & H3 & H4 & H5 & H6 & _).
    split; auto. destruct (Z.le_gt_cases (unbe (firstn 2 (skipn 12 raw))) 1500) as [|Hg]; auto.
    right. destruct (H6 Hg) as [<- _]. auto.
  - intros (Hl & Hc).
    assert (Hsplit : raw = firstn 6 raw ++ firstn 6 (skipn 6 raw) ++ firstn 2 (skipn 12 raw) ++ skipn 14 raw).
    { rewrite <- (firstn_skipn 6 raw) at 1. f_equal. rewrite <- (firstn_skipn 6 (skipn 6 raw)) at 1. f_equal.
      rewrite skipn_skipn_add. cbn [plus]. rewrite <- (firstn_skipn 2 (skipn 12 raw)) at 1. f_equal.
      rewrite skipn_skipn_add. reflexivity. }
    set (d := firstn 6 raw) in *. set (s := firstn 6 (skipn 6 raw)) in *. set (y := firstn 2 (skipn 12 raw)) in *.
    assert (Ld : length d = 6%nat) by (unfold d; rewrite firstn_length; lia).
    assert (Ls : length s = 6%nat) by (unfold s; rewrite firstn_length, skipn_length; lia).
    assert (Ly : length y = 2%nat) by (unfold y; rewrite firstn_length, skipn_length; lia).
    assert (Wy : wfb y) by (unfold y; apply wfb_firstn, wfb_skipn; auto).
    pose proof (unbe_range y Wy) as Hr. rewrite Ly in Hr. pow256.
    assert (Hp : pack eth_fmt [VB d; VB s; VI (unbe y)] = Ok (d ++ s ++ y)).
    { unfold eth_fmt. rewrite !pack_cons_s by auto. rewrite pack_cons_int by (pow256; lia). rewrite pack_nil. cbn [bindr].
      rewrite <- Ly at 1. rewrite be_unbe by auto. rewrite app_nil_r. reflexivity. }
    destruct (take_pack eth_fmt _ _ (skipn 14 raw) eth_minlen eq_refl Hp) as (E1 & E2 & E3).
    rewrite <- !app_assoc, <- Hsplit in E1, E2, E3.
    unfold eth_from_bytes. rewrite E1, E2. cbn [norm eth_fmt bindr].
    rewrite !fits_exact by auto. rewrite !eth_init_bytes6 by auto. cbn [bindr].
    destruct (unbe y <=? 1500) eqn:Ey; [eexists; reflexivity|].
    rewrite enum_in by (destruct Hc; [lia|auto]). eexists; reflexivity. Qed.

Lemma vlan_round_trip h : 0 <= vl_id h < 4096 -> 0 <= vl_pcp h <= 3 -> In (vl_type h) EtherTypes ->
  exists b, vlan_to_bytes h = Ok b /\
    b = [16 * vl_pcp h + vl_id h / 256; vl_id h mod 256; vl_type h / 256; vl_type h mod 256] /\
    forall t, vlan_from_bytes (b ++ t) = Ok (h, t).
Proof. intros H1 H2 H3. assert (Hw : wf_vlan h) by (repeat split; auto; lia).
  eexists. split; [apply vlan_bytes; auto|]. split; [reflexivity|]. intros t. apply vlan_parse; auto. apply vlan_bytes; auto. Qed.

Lemma vlan_parse_serialise a b c d r : wfb [a; b; c; d] -> In (256 * c + d) EtherTypes ->
  exists h, vlan_from_bytes (a :: b :: c :: d :: r) = Ok (h, r) /\
    vl_id h = 256 * (a mod 16) + b /\ vl_type h = 256 * c + d /\
    vlan_to_bytes h = Ok [16 * Z.min (a / 16) 3 + a mod 16; b; c; d].
Proof. intros Hw Ht. eexists. split; [apply vlan_parse_bytes; auto|]. cbn [vl_id vl_type].
  repeat (apply wfb_cons in Hw as [? Hw]).
  split; [reflexivity|]. split; [reflexivity|]. rewrite vlan_bytes by (unfold wf_vlan; cbn [vl_id vl_type vl_pcp]; repeat split; auto; lia).
  cbn [vl_id vl_type vl_pcp]. f_equal. f_equal; [lia|]. f_equal; [lia|]. f_equal; [lia|]. f_equal. lia. Qed.

Lemma vlan_priority_lost :
  (exists raw h r, wfb raw /\ length raw = 4%nat /\ vlan_from_bytes raw = Ok (h, r) /\ vlan_to_bytes h <> Ok raw) /\
  (exists p h, 0 <= p < 8 /\ vl_pcp (vlan_set_pcp p h) <> p).
Proof. split.
  - exists [0xa0; 0x64; 0x08; 0x00], (mkVlan 100 3 etIP), []. split; [repeat constructor; lia|].
    split; [reflexivity|]. split; [vm_compute; reflexivity|]. vm_compute. discriminate.
  - exists 7, vlan_new. split; [lia|]. vm_compute. discriminate. Qed.

Lemma arp_round_trip h : arp_hwtype h = 1 -> In (arp_prototype h) EtherTypes -> 0 <= arp_hwlen h < 256 -> 0 <= arp_protolen h < 256 ->
  In (arp_op h) ArpOperations -> addr6 (arp_shw h) -> ip4 (arp_sproto h) -> addr6 (arp_thw h) -> ip4 (arp_tproto h) ->
  exists b, arp_to_bytes h = Ok b /\
    b = [0; 1; arp_prototype h / 256; arp_prototype h mod 256; arp_hwlen h; arp_protolen h; 0; arp_op h]
        ++ arp_shw h ++ arp_sproto h ++ arp_thw h ++ arp_tproto h /\
    forall t, arp_from_bytes (b ++ t) = Ok (h, t).
Proof. intros H1 H2 H3 H4 H5 H6 H7 H8 H9.
  assert (Hw : wf_arp h) by (unfold wf_arp; tauto).
  pose proof (ethertype_range _ H2).
  assert (Hop : 1 <= arp_op h <= 4).
  { apply (enum_forall ArpOperations (fun z => (1 <=? z) && (z <=? 4)) eq_refl) in H5. lia. }
  assert (Hb : arp_to_bytes h = Ok ([0; 1; arp_prototype h / 256; arp_prototype h mod 256; arp_hwlen h; arp_protolen h; 0; arp_op h]
        ++ arp_shw h ++ arp_sproto h ++ arp_thw h ++ arp_tproto h)).
  { unfold arp_to_bytes, arp_fmt. rewrite !pack_cons_int by (pow256; lia).
    rewrite !pack_cons_s by (apply H6 || apply H7 || apply H8 || apply H9). rewrite pack_nil. cbn [bindr].
    rewrite !be1, !be2 by lia. rewrite app_nil_r, H1.
    replace (arp_op h / 256) with 0 by lia. replace (arp_op h mod 256) with (arp_op h) by lia. reflexivity. }
  eexists. split; [exact Hb|]. split; [reflexivity|]. intros t. apply arp_parse; auto. Qed.

Lemma arp_parse_then_serialise raw : wfb raw ->
  ((length raw < 28)%nat -> arp_from_bytes raw = Err ENotEnough) /\
  forall h rest, arp_from_bytes raw = Ok (h, rest) ->
    (28 <= length raw)%nat /\ rest = skipn 28 raw /\ arp_to_bytes h = Ok (firstn 28 raw).
Proof. intros Hw. split; [apply arp_short|]. intros h rest H.
  destruct (arp_reserialise raw h rest Hw H) as (H1 & _ & H2 & H3). auto. Qed.

Lemma arp_ipv6_truncated :
  exists h b h' t, wfb (arp_sproto h) /\ length (arp_sproto h) = 16%nat /\
    arp_to_bytes h = Ok b /\ arp_from_bytes b = Ok (h', t) /\ h' <> h.
Proof. exists (mkArp 1 etIP 6 4 arpRequest (repeat 0 6) (0x20 :: 1 :: 0xd :: 0xb8 :: repeat 0 11 ++ [1]) (repeat 255 6) (repeat 0 4)).
  eexists. exists (mkArp 1 etIP 6 4 arpRequest (repeat 0 6) [0x20; 1; 0xd; 0xb8] (repeat 255 6) (repeat 0 4)), [].
  split; [repeat constructor; lia|]. split; [reflexivity|]. split; [vm_compute; reflexivity|]. split; [vm_compute; reflexivity|].
  discriminate. Qed.
