(** ARP helpers, link padding, equality and other properties of whole packets. *)
From Verif Require Import BaseLemmas CodecLemmas EthAddrModel EthAddrSpec EthAddrProofs Enums EthModel ArpModel EthProofs ChecksumModel ChecksumSpec
  ChecksumProofs Ipv4Model Ipv4Proofs Ipv4Proofs2 TransportModel TransportProofs Ipv6Model Ipv6Proofs Ipv6ExtProofs
  IcmpModel IcmpProofs IcmpCodecProofs RipModel RipProofs PacketModel PacketSpec PacketProofs PacketParse PacketStack PacketTerm.

(** ** ARP helpers *)
(** The frame RFC 826 prescribes on Ethernet/IPv4: operation, sender and target pairs. *)
Definition arp_frame (dst src : bytes) (op : Z) (shw sip thw tip : bytes) : bytes :=
  dst ++ src ++ [0x08; 0x06] ++ [0; 1] ++ [0x08; 0] ++ [6] ++ [4] ++ [0; op] ++ shw ++ sip ++ thw ++ tip.
Lemma arp_packet_wire d s op shw sip thw tip : addr6 d -> addr6 s -> In op ArpOperations -> addr6 shw -> ip4 sip -> addr6 thw -> ip4 tip -> op < 256 ->
  let p := [HEth (mkEth d s etARP); HArp (mkArp 1 etIP 6 4 op shw sip thw tip)] in
  pkt_to_bytes p = Ok (p, arp_frame d s op shw sip thw tip) /\ pkt_parse (arp_frame d s op shw sip thw tip) = Ok p.
Proof. intros Hd Hs Ho A1 A2 A3 A4 Hop p.
  assert (Ro : 0 <= op < 256) by (apply arpop_range in Ho; lia).
  set (a := mkArp 1 etIP 6 4 op shw sip thw tip).
  assert (Wa : wf_arp a). { unfold wf_arp, a. cbn [arp_hwtype arp_prototype arp_hwlen arp_protolen arp_op arp_shw arp_sproto arp_thw arp_tproto].
    split; [reflexivity|]. split; [apply zmem_In; reflexivity|]. repeat split; try lia; auto; try apply A1; try apply A2; try apply A3; apply A4. }
  assert (Ba : arp_to_bytes a = Ok ([0; 1] ++ [0x08; 0] ++ [6] ++ [4] ++ [0; op] ++ shw ++ sip ++ thw ++ tip)).
  { unfold arp_to_bytes, arp_fmt, a. cbn [arp_hwtype arp_prototype arp_hwlen arp_protolen arp_op arp_shw arp_sproto arp_thw arp_tproto].
    rewrite !pack_cons_int by (unfold etIP; pow256; lia).
    rewrite !pack_cons_s by (apply A1 || apply A2 || apply A3 || apply A4). rewrite pack_nil. cbn [bindr]. rewrite !app_nil_r, (be2 op) by lia.
    replace (op / 256) with 0 by lia. replace (op mod 256) with op by lia. reflexivity. }
  set (e := mkEth d s etARP).
  assert (Te : In (eth_type e) EtherTypes) by (apply zmem_In; reflexivity).
  destruct (eth_round_trip e Hd Hs Te ltac:(discriminate)) as (eb & E1 & E2 & E3).
  assert (Ef : arp_frame d s op shw sip thw tip = eb ++ ([0; 1] ++ [0x08; 0] ++ [6] ++ [4] ++ [0; op] ++ shw ++ sip ++ thw ++ tip)).
  { rewrite E2. unfold arp_frame. rewrite <- !app_assoc. reflexivity. }
  rewrite Ef. set (ab := [0; 1] ++ _) in *. split.
  - change (pkt_to_bytes p) with (ser [] (HEth e :: [HArp a])). replace (eb ++ ab) with (eb ++ ab ++ []) by (rewrite app_nil_r; reflexivity).
    refine (ser_cons [] (HEth e) [HArp a] [HArp a] (ab ++ []) (HEth e) eb _ _ E1); [|reflexivity]. refine (ser_cons [HEth e] (HArp a) [] [] [] (HArp a) ab _ _ Ba); reflexivity.
  - unfold pkt_parse, pkt_new. destruct (eb ++ ab) as [|x0 r0] eqn:Er; [exfalso; revert Er; unfold ab; destruct eb; discriminate|]. rewrite <- Er.
    rewrite PL. cbn [parse_hdr]. rewrite E3. cbn [bindr].
    change (next_class (HEth e)) with (@Ok (option hcls) (Some CArp)). cbn [bindr]. rewrite PL. cbn [parse_hdr].
    pose proof (arp_parse a ab [] Wa Ba) as Pa. rewrite app_nil_r in Pa. rewrite Pa. reflexivity. Qed.

Lemma bcast6 : addr6 eth_broadcast.
Proof. split; [|reflexivity]. unfold eth_broadcast, wfb. cbn [repeat]. repeat constructor; lia. Qed.
Theorem arp_request_built srchw s sip tip : eth_init srchw = Ok s -> addr6 s -> ip4 sip -> ip4 tip ->
  exists p, arp_request srchw sip tip = Ok p /\
  let wire := arp_frame (repeat 255 6) s 1 s sip (repeat 255 6) tip in
  pkt_to_bytes p = Ok (p, wire) /\ pkt_parse wire = Ok p.
Proof. intros E As I1 I2. exists [HEth (mkEth eth_broadcast s etARP); HArp (mkArp 1 etIP 6 4 1 s sip eth_broadcast tip)]. split.
  - unfold arp_request, eth_set_src, arp_set_sh. rewrite !E. cbn [bindr]. unfold eth_set_dst, arp_set_th, arp_set_sp, arp_set_tp.
    rewrite !ip_of_bytes4 by (apply I1 || apply I2). reflexivity.
  - apply arp_packet_wire; auto using bcast6; try lia; left; reflexivity. Qed.
Theorem arp_reply_built srchw s dsthw d sip tip : eth_init srchw = Ok s -> addr6 s -> eth_init dsthw = Ok d -> addr6 d -> ip4 sip -> ip4 tip ->
  exists p, arp_reply srchw dsthw sip tip = Ok p /\
  let wire := arp_frame d s 2 s sip d tip in
  pkt_to_bytes p = Ok (p, wire) /\ pkt_parse wire = Ok p.
Proof. intros E As Ed Ad I1 I2. exists [HEth (mkEth d s etARP); HArp (mkArp 1 etIP 6 4 2 s sip d tip)]. split.
  - unfold arp_reply, arp_request, eth_set_src, arp_set_sh. rewrite !E. cbn [bindr]. unfold eth_set_dst, arp_set_th, arp_set_sp, arp_set_tp.
    rewrite !ip_of_bytes4 by (apply I1 || apply I2). cbn [bindr]. rewrite Ed. reflexivity.
  - apply arp_packet_wire; auto; try lia; right; left; reflexivity. Qed.
Lemma arp_request_val srchw s sip tip : eth_init srchw = Ok s -> ip4 sip -> ip4 tip ->
  arp_request srchw sip tip = Ok [HEth (mkEth eth_broadcast s etARP); HArp (mkArp 1 etIP 6 4 1 s sip eth_broadcast tip)].
Proof. intros E I1 I2. unfold arp_request, eth_set_src, arp_set_sh. rewrite !E. cbn [bindr]. unfold eth_set_dst, arp_set_th, arp_set_sp, arp_set_tp.
  rewrite !ip_of_bytes4 by (apply I1 || apply I2). reflexivity. Qed.
Lemma arp_reply_val srchw s dsthw d sip tip : eth_init srchw = Ok s -> eth_init dsthw = Ok d -> ip4 sip -> ip4 tip ->
  arp_reply srchw dsthw sip tip = Ok [HEth (mkEth d s etARP); HArp (mkArp 1 etIP 6 4 2 s sip d tip)].
Proof. intros E Ed I1 I2. unfold arp_reply, arp_request, eth_set_src, arp_set_sh. rewrite !E. cbn [bindr]. unfold eth_set_dst, arp_set_th, arp_set_sp, arp_set_tp.
  rewrite !ip_of_bytes4 by (apply I1 || apply I2). cbn [bindr]. rewrite Ed. reflexivity. Qed.
Lemma arp_chain reqhw owner r o rip tip bc w1 w2 :
  let e := mkEth bc r etARP in let a := mkArp 1 etIP 6 4 1 r rip bc tip in
  let e2 := mkEth r o etARP in let a2 := mkArp 1 etIP 6 4 2 o tip r rip in
  arp_request reqhw rip tip = Ok [HEth e; HArp a] -> pkt_to_bytes [HEth e; HArp a] = Ok ([HEth e; HArp a], w1) -> pkt_parse w1 = Ok [HEth e; HArp a] ->
  arp_reply owner (AEth r) tip rip = Ok [HEth e2; HArp a2] -> pkt_to_bytes [HEth e2; HArp a2] = Ok ([HEth e2; HArp a2], w2) -> pkt_parse w2 = Ok [HEth e2; HArp a2] ->
  bc = repeat 255 6 ->
  exists req req' wire e a rep rep' wire2 e2 a2,
  arp_request reqhw rip tip = Ok req /\ pkt_to_bytes req = Ok (req', wire) /\ pkt_parse wire = Ok [HEth e; HArp a] /\
  eth_dst e = repeat 255 6 /\ arp_op a = 1 /\ arp_tproto a = tip /\
  arp_reply owner (AEth (arp_shw a)) (arp_tproto a) (arp_sproto a) = Ok rep /\ pkt_to_bytes rep = Ok (rep', wire2) /\
  pkt_parse wire2 = Ok [HEth e2; HArp a2] /\
  eth_dst e2 = r /\ eth_src e2 = o /\ arp_op a2 = 2 /\ arp_shw a2 = o /\ arp_sproto a2 = tip /\ arp_thw a2 = r /\ arp_tproto a2 = rip.
Proof. intros e a e2 a2 H1 H2 H3 H4 H5 H6 Hb.
  exists [HEth e; HArp a], [HEth e; HArp a], w1, e, a, [HEth e2; HArp a2], [HEth e2; HArp a2], w2, e2, a2.
  split; [exact H1|]. split; [exact H2|]. split; [exact H3|]. split; [exact Hb|]. split; [reflexivity|]. split; [reflexivity|].
  split; [exact H4|]. split; [exact H5|]. split; [exact H6|]. repeat split. Qed.
(** The exchange: the owner of [tip] reads the request and answers with what it finds in it. *)
Theorem arp_exchange reqhw r owner o rip tip : eth_init reqhw = Ok r -> addr6 r -> eth_init owner = Ok o -> addr6 o -> ip4 rip -> ip4 tip ->
  exists req req' wire e a rep rep' wire2 e2 a2,
  arp_request reqhw rip tip = Ok req /\ pkt_to_bytes req = Ok (req', wire) /\ pkt_parse wire = Ok [HEth e; HArp a] /\
  eth_dst e = repeat 255 6 /\ arp_op a = 1 /\ arp_tproto a = tip /\
  arp_reply owner (AEth (arp_shw a)) (arp_tproto a) (arp_sproto a) = Ok rep /\ pkt_to_bytes rep = Ok (rep', wire2) /\
  pkt_parse wire2 = Ok [HEth e2; HArp a2] /\
  eth_dst e2 = r /\ eth_src e2 = o /\ arp_op a2 = 2 /\ arp_shw a2 = o /\ arp_sproto a2 = tip /\ arp_thw a2 = r /\ arp_tproto a2 = rip.
Proof. intros E1 A1 E2 A2 I1 I2.
  assert (O1 : In 1 ArpOperations) by (apply zmem_In; reflexivity). assert (O2 : In 2 ArpOperations) by (apply zmem_In; reflexivity).
  destruct (arp_packet_wire eth_broadcast r 1 r rip eth_broadcast tip bcast6 A1 O1 A1 I1 bcast6 I2 ltac:(lia)) as [P1 P2].
  destruct (arp_packet_wire r o 2 o tip r rip A1 A2 O2 A2 I2 A1 I1 ltac:(lia)) as [P3 P4].
  pose proof (arp_request_val reqhw r rip tip E1 I1 I2) as V1.
  pose proof (arp_reply_val owner o (AEth r) r tip rip E2 (eth_of_addr r A1) I2 I1) as V2.
  eapply arp_chain; [exact V1|exact P1|exact P2|exact V2|exact P3|exact P4|reflexivity]. Qed.

(** ** Link padding *)
(** The packet with [pad] behind its payload. *)
Fixpoint with_pad (pad : bytes) (hs : list hdr) : list hdr :=
  match hs with
  | [] => [HRaw pad]
  | [HRaw pl] => [HRaw (pl ++ pad)]
  | h :: t => h :: with_pad pad t
  end.
Lemma padded_parse pad : pad <> [] -> forall hs pre hs' b, chained hs -> Forall wf_hdr hs -> Forall (fun h => is_icmp h = false) hs ->
  ser pre hs = Ok (hs', b) ->
  (length hs <= S (length b))%nat /\
  exists h0 t0, hs = h0 :: t0 /\
  forall fuel, (length hs <= fuel)%nat -> exists x, parse_loop fuel (class_of h0) (b ++ pad) = Ok x /\ Forall2 read_as (with_pad pad hs') (with_rest x).
Proof. intros Hpad. induction hs as [|h hs IH]; intros pre hs' b Hc Hw Hni H; [contradiction|].
  cbn [chained] in Hc. destruct Hc as [Hh Hc]. inversion Hw as [|? ? Wh Wt]; subst. inversion Hni as [|? ? Nh Nt]; subst.
  cbn [ser] in H. ok_step H. destruct a as [t' raw]. ok_step H. ok_step H. apply ok_pair_inj in H as [<- <-].
  assert (Hcb : class_of h <> CBytes) by (destruct h; try discriminate; contradiction).
  assert (Hra : forall x l, hdr_after a = HRaw x -> l = 0 -> False).
  { intros x l Hx _. destruct (pre_ser_keeps _ _ _ _ E0) as [_ K]. rewrite Hx in K. destruct h; try discriminate K; contradiction. }
  assert (Wp : forall t, with_pad pad (hdr_after a :: t) = hdr_after a :: with_pad pad t).
  { intros t. destruct t as [|y t]; cbn [with_pad]; destruct (hdr_after a) eqn:Ea; try reflexivity; try (exfalso; eapply Hra; eauto; fail). }
  assert (PLh : forall f r, parse_loop (S f) (class_of h) r =
    (' (h, rest) <- parse_hdr (class_of h) r;; nc <- next_class h;;
     match nc with None => Ok ([h], rest) | Some c' => match rest with None => Err EType | Some r0 => ' (hs, fin) <- parse_loop f c' r0;; Ok (h :: hs, fin) end end)).
  { intros f r. rewrite PL. destruct (class_of h); try reflexivity. congruence. }
  assert (Hic : forall t : bytes, is_icmp h = true -> t = []) by (intros t; rewrite Nh; discriminate).
  assert (Hcase : (says_next h = None /\ ((hs = [] /\ t' = [] /\ raw = []) \/
       (exists pl, pl <> [] /\ hs = [HRaw pl] /\ t' = [HRaw pl] /\ raw = pl))) \/
     (exists h2 t2, hs = h2 :: t2 /\ says_next h = Some (class_of h2) /\ chained hs)).
  { destruct hs as [|h2 t2].
    - left. split; [exact Hc|]. left. cbn [ser] in E. apply ok_pair_inj in E as [<- <-]. auto.
    - assert (D : (exists pl, h2 = HRaw pl /\ t2 = []) \/ ~ (exists pl, h2 = HRaw pl /\ t2 = [])).
      { destruct h2; try (right; intros (pl & ? & ?); congruence). destruct t2; [left; eauto|right; intros (pl & ? & ?); congruence]. }
      destruct D as [(pl & -> & ->)|D].
      + left. destruct Hc as (Hp & Hs & _). split; [exact Hs|]. right. exists pl. split; [exact Hp|]. split; [reflexivity|].
        cbn [ser pre_ser bindr hdr_bytes hdr_after] in E. apply ok_pair_inj in E as [<- <-]. rewrite app_nil_r. auto.
      + right. exists h2, t2. split; [reflexivity|]. destruct h2; try exact Hc. destruct t2; [exfalso; apply D; eauto|exact Hc]. }
  rewrite <- app_assoc, Wp.
  destruct (hdr_parse_back _ _ _ _ _ (raw ++ pad) Wh Hh (Hic _) E0 E1) as (hr & P1 & P2 & P3 & P4 & P5 & P6).
  destruct Hcase as [(Hs & Hr)|(h2 & t2 & -> & Hs & Hct)].
  - split; [destruct Hr as [(-> & _)|(pl & Hne & -> & _)]; rewrite app_length; cbn [length]; lia|].
    exists h, hs. split; [reflexivity|].
    intros [|fuel] Hf; [cbn in Hf; lia|]. rewrite PLh. rewrite P1. cbn [bindr]. rewrite next_says by exact P5. cbn [bindr].
    rewrite P3, Hs. eexists. split; [reflexivity|]. unfold with_rest. cbn [fst snd app]. constructor; [exact P2|].
    destruct Hr as [(-> & -> & ->)|(pl & Hne & -> & -> & ->)]; cbn [with_pad app].
    + destruct pad; [congruence|]. constructor; [reflexivity|constructor].
    + destruct pl as [|x pl]; [congruence|]. constructor; [reflexivity|constructor].
  - destruct (IH _ _ _ Hct Wt Nt E) as (I1 & h0 & t0 & Eh & I3). assert (h0 = h2) by congruence. subst h0. clear Eh.
    split; [rewrite app_length; cbn [length] in *; lia|].
    exists h, (h2 :: t2). split; [reflexivity|]. intros [|fuel] Hf; [cbn in Hf; lia|].
    rewrite PLh. rewrite P1. cbn [bindr]. rewrite next_says by exact P5. cbn [bindr]. rewrite P3, Hs.
    destruct (I3 fuel ltac:(cbn [length] in *; lia)) as (x & X1 & X2). rewrite X1. destruct x as [xh xr]. cbn [bindr].
    eexists. split; [reflexivity|]. unfold with_rest in *. cbn [fst snd] in *. cbn [app]. constructor; auto. Qed.
Theorem padding_is_payload pad h t hs' b : pad <> [] -> chained (h :: t) -> Forall wf_hdr (h :: t) -> Forall (fun h => is_icmp h = false) (h :: t) ->
  pkt_to_bytes (h :: t) = Ok (hs', b) ->
  exists q, pkt_new (b ++ pad) (class_of h) = Ok q /\ Forall2 read_as (with_pad pad hs') q.
Proof. intros Hp Hc Hw Hn H. destruct (padded_parse pad Hp _ _ _ _ Hc Hw Hn H) as (L1 & h0 & t0 & E & P). assert (h0 = h) by congruence. subst h0.
  destruct (P (S (S (S (S (length (b ++ pad))))))) as (x & X1 & X2); [rewrite app_length; lia|]. unfold pkt_new.
  destruct (b ++ pad) as [|b0 b1] eqn:Eb; [destruct b; [destruct pad; [congruence|discriminate]|discriminate]|].
  rewrite X1. cbn [bindr]. eauto. Qed.

(** ** Packets that compare equal send the same bytes *)
Ltac eqbs H := repeat match type of H with (_ && _)%bool = true => let H2 := fresh H in apply andb_prop in H as [H H2]; eqbs H2 end.
Lemma bytes_cmp_true a b : bytes_cmp a b = Ok true -> exists x, a = Ok x /\ b = Ok x.
Proof. unfold bytes_cmp. intros H. ok_step H. ok_step H. apply ok_inj in H. apply bytes_eqb_eq in H. subst. eauto. Qed.
Lemma icmp_types_apart : forallb (fun t => negb (zmem t ICMPTypes)) icmp6_classes = true.
Proof. vm_compute. reflexivity. Qed.
Lemma exact_icmp_eqb v6 a b : exact_icmp v6 a -> exact_icmp v6 b -> icmp_eqb a b = Ok true -> ic_type a = ic_type b /\ ic_code a = ic_code b /\ ic_data a = ic_data b.
Proof. intros (Va & Ca & Da) (Vb & Cb & Db) H. unfold icmp_eqb in H. destruct (Z.eqb_spec (ic_type a) (ic_type b)) as [T|]; [|discriminate H].
  destruct (Z.eqb_spec (ic_code a) (ic_code b)) as [C|]; [|discriminate H]. cbn [negb] in H. split; [exact T|]. split; [exact C|].
  assert (K : data_class (ic_data a) = data_class (ic_data b)) by congruence. clear Va Vb Ca Cb T C. destruct a as [ta ca da sa], b as [tb cb db sb]. cbn [ic_data] in *.
  destruct da as [k x|x| | |v r i q x| | | | | | |]; try contradiction; destruct db as [k' x'|x'| | |v' r' i' q' x'| | | | | | |]; try contradiction; cbn [data_eqb data_payload data_class] in *; try discriminate H.
  - destruct k; apply ok_inj in H; apply bytes_eqb_eq in H; congruence.
  - subst k. discriminate Da.
  - subst k. destruct v', r'; discriminate Da.
  - subst k'. discriminate Db.
  - apply ok_inj in H. apply bytes_eqb_eq in H. congruence.
  - destruct v', r'; discriminate K.
  - apply ok_inj in H. apply andb_prop in H as [H H3]. apply andb_prop in H as [H1 H2]. apply bytes_eqb_eq in H3. apply Z.eqb_eq in H1, H2. subst. destruct v, r, v', r'; congruence || discriminate K. Qed.
Lemma exact_icmp4 a b : exact_icmp false a -> exact_icmp false b -> icmp_eqb a b = Ok true -> icmp_to_bytes a = icmp_to_bytes b.
Proof. intros Xa Xb H. destruct (exact_icmp_eqb _ _ _ Xa Xb H) as (T & C & D). unfold icmp_to_bytes, icmp_pack. rewrite T, C, D. reflexivity. Qed.
Lemma exact_icmp6 a b ip : exact_icmp true a -> exact_icmp true b -> icmp_eqb a b = Ok true -> icmp6_pre_serialize ip a = icmp6_pre_serialize ip b.
Proof. intros Xa Xb H. destruct (exact_icmp_eqb _ _ _ Xa Xb H) as (T & C & D). unfold icmp6_pre_serialize, icmp6_checksum. rewrite T, C, D. reflexivity. Qed.
Lemma exact_icmp46 a b : exact_icmp false a -> exact_icmp true b -> icmp_eqb b a = Ok true -> False.
Proof. intros (Va & _ & _) (_ & Cb & _) H. unfold icmp_eqb in H. destruct (Z.eqb_spec (ic_type b) (ic_type a)) as [T|]; [|discriminate H].
  cbn [class_of_type] in Cb. destruct (zmem (ic_type b) icmp6_classes) eqn:Z0; [|discriminate Cb]. apply zmem_In in Z0.
  pose proof (proj1 (forallb_forall _ _) icmp_types_apart _ Z0) as Z1. cbv beta in Z1. cbn [valid_types] in Va. rewrite T, Va in Z1. discriminate Z1. Qed.
Lemma exact_bytes raw p a b : exact_cmp a -> exact_cmp b -> hdr_eqb a b = Ok true ->
  ctx a = ctx b /\ (h <- pre_ser raw p a;; hdr_bytes h) = (h <- pre_ser raw p b;; hdr_bytes h).
Proof. intros Xa Xb H. destruct a, b; cbn [hdr_eqb exact_cmp] in *; try discriminate H; try contradiction;
    try match goal with
        | Xa : exact_icmp false _, Xb : exact_icmp true _ |- _ => exfalso; exact (exact_icmp46 _ _ Xa Xb H)
        | Xa : exact_icmp false ?x, Xb : exact_icmp false ?y |- _ => lazymatch x with y => fail | _ => idtac end; lazymatch type of H with icmp_eqb x y = _ => idtac end;
            split; [reflexivity|]; cbn [pre_ser bindr hdr_bytes]; exact (exact_icmp4 _ _ Xa Xb H)
        | Xa : exact_icmp true ?x, Xb : exact_icmp true ?y |- _ => lazymatch x with y => fail | _ => idtac end; lazymatch type of H with icmp_eqb x y = _ => idtac end;
            split; [reflexivity|]; cbn [pre_ser bindr hdr_bytes]; rewrite (exact_icmp6 _ _ (first_ip6 p) Xa Xb H); reflexivity
        end;
    try (apply bytes_cmp_true in H as (x & H1 & H2); cbn [pre_ser bindr hdr_bytes]; split; [reflexivity|congruence]);
    apply ok_inj in H.
  - unfold eth_eqb in H. apply andb_prop in H as [H H3]. apply andb_prop in H as [H1 H2]. apply bytes_eqb_eq in H1, H2. apply Z.eqb_eq in H3.
    destruct h, h0. cbn in H1, H2, H3. subst. split; reflexivity.
  - unfold vlan_eqb in H. apply andb_prop in H as [H1 H2]. apply Z.eqb_eq in H1, H2. destruct h, h0. cbn in *. subst. split; reflexivity.
  - unfold arp_eqb in H. repeat (match type of H with (_ && _)%bool = true => let Y := fresh "Y" in apply andb_prop in H as [H Y] end).
    rewrite bytes_eqb_eq in Y, Y0, Y1, Y2. apply Z.eqb_eq in H, Y3, Y4. destruct Xa, Xb. destruct h, h0. cbn in *. subst. split; reflexivity.
  - unfold ip_eqb in H. repeat (match type of H with (_ && _)%bool = true => let Y := fresh "Y" in apply andb_prop in H as [H Y] end).
    rewrite bytes_eqb_eq in Y, Y0. apply Z.eqb_eq in H, Y1, Y2, Y3, Y4, Y5. destruct h as [a1 a2 a3 a4 a5 a6 a7 a8 a9 a10], h0 as [b1 b2 b3 b4 b5 b6 b7 b8 b9 b10].
    cbn in H, Y, Y0, Y1, Y2, Y3, Y4, Y5, Xa, Xb. subst. split; reflexivity.
  - unfold ip6_eqb in H. repeat (match type of H with (_ && _)%bool = true => let Y := fresh "Y" in apply andb_prop in H as [H Y] end).
    rewrite bytes_eqb_eq in Y, Y0. apply Z.eqb_eq in H, Y1, Y2, Y3. destruct h as [a1 a2 a3 a4 a5 a6 a7], h0 as [b1 b2 b3 b4 b5 b6 b7].
    cbn in H, Y, Y0, Y1, Y2, Y3. subst. split; reflexivity.
  - unfold udp_eqb in H. apply andb_prop in H as [H1 H2]. apply Z.eqb_eq in H1, H2. destruct h as [a1 a2 a3 a4], h0 as [b1 b2 b3 b4]. cbn in H1, H2. subst.
    split; reflexivity.
  - unfold tcp_eqb in H. repeat (match type of H with (_ && _)%bool = true => let Y := fresh "Y" in apply andb_prop in H as [H Y] end).
    rewrite Z.eqb_eq in *. destruct h as [a1 a2 a3 a4 a5 a6 a7 a8 a9], h0 as [b1 b2 b3 b4 b5 b6 b7 b8 b9]. cbn [tcp_src tcp_dst tcp_seq tcp_ack tcp_flags tcp_window tcp_urg] in *. subst.
    split; reflexivity.
  - apply Z.eqb_eq in H. subst. split; reflexivity.
  - split; reflexivity.
  - apply bytes_eqb_eq in H. subst. split; reflexivity. Qed.
Lemma equal_ser p : forall q pre pre2 p' b, map ctx pre = map ctx pre2 -> length p = length q -> pkt_eqb_same p q = Ok true ->
  Forall exact_cmp p -> Forall exact_cmp q -> ser pre p = Ok (p', b) -> exists q', ser pre2 q = Ok (q', b) /\ map ctx q' = map ctx p'.
Proof. induction p as [|x p IH]; intros [|y q] pre pre2 p' b Hc Hl H Fp Fq Hs; try discriminate Hl.
  - apply ok_pair_inj in Hs as [<- <-]. exists []. split; reflexivity.
  - cbn [pkt_eqb_same] in H. destruct (isinst y (class_of x)); [|discriminate]. ok_step H. destruct a; [|discriminate].
    inversion Fp; inversion Fq; subst. injection Hl as Hl.
    cbn [ser] in Hs. ok_step Hs. destruct a as [t' raw]. ok_step Hs. ok_step Hs. apply ok_pair_inj in Hs as [<- <-].
    destruct (exact_bytes raw (pre ++ x :: t') x y ltac:(auto) ltac:(auto) E) as [Ec Eb]. rewrite E1 in Eb. cbn [bindr] in Eb. rewrite E2 in Eb. symmetry in Eb.
    destruct (IH q (pre ++ [x]) (pre2 ++ [y]) t' raw) as (q' & Q1 & Q2); auto.
    { rewrite !map_app. cbn [map]. rewrite Hc, Ec. reflexivity. }
    ok_step Eb. cbn [ser]. rewrite Q1. cbn [bindr].
    rewrite (pre_ser_ctx raw (pre2 ++ y :: q') (pre ++ x :: t')) by (rewrite !map_app; cbn [map]; rewrite Hc, Ec, Q2; reflexivity).
    rewrite E3. cbn [bindr]. rewrite Eb. cbn [bindr]. eexists. split; [reflexivity|]. cbn [map]. rewrite Q2.
    destruct (pre_ser_keeps _ _ _ _ E1) as [-> _]. destruct (pre_ser_keeps _ _ _ _ E3) as [-> _]. rewrite Ec. reflexivity. Qed.
Theorem equal_packets_same_bytes p q p' b : pkt_eqb p q = Ok true -> Forall exact_cmp p -> Forall exact_cmp q ->
  pkt_to_bytes p = Ok (p', b) -> exists q', pkt_to_bytes q = Ok (q', b).
Proof. unfold pkt_eqb. destruct (Nat.eqb_spec (length p) (length q)) as [Hl|]; [|discriminate]. intros H Fp Fq Hs.
  destruct (equal_ser p q [] [] p' b eq_refl Hl H Fp Fq Hs) as (q' & Q & _). eauto. Qed.

(** ** Equality is symmetric and transitive between packets with the same header classes *)
Definition no_icmp (h : hdr) : Prop := match h with HIcmp _ | HIcmp6 _ => False | _ => True end.
Lemma bytes_cmp_intro a b x : a = Ok x -> b = Ok x -> bytes_cmp a b = Ok true.
Proof. intros -> ->. unfold bytes_cmp. cbn [bindr]. rewrite bytes_eqb_refl. reflexivity. Qed.
Ltac split_eqb H := repeat (match type of H with (_ && _)%bool = true => let Y := fresh "Y" in apply andb_prop in H as [H Y] end).
Lemma bytes_eqb_sym a b : bytes_eqb a b = bytes_eqb b a.
Proof. destruct (bytes_eqb a b) eqn:E.
  - apply bytes_eqb_eq in E. subst. symmetry. apply bytes_eqb_refl.
  - destruct (bytes_eqb b a) eqn:F; [|reflexivity]. apply bytes_eqb_eq in F. subst. rewrite bytes_eqb_refl in E. discriminate. Qed.
Lemma hdr_eqb_sym a b : no_icmp a -> class_of a = class_of b -> hdr_eqb a b = Ok true -> hdr_eqb b a = Ok true.
Proof. intros Xa Hc H. destruct a, b; try discriminate Hc; cbn [no_icmp hdr_eqb] in *; try contradiction;
    try (apply bytes_cmp_true in H as (x & H1 & H2); apply (bytes_cmp_intro _ _ x); assumption);
    try reflexivity; apply ok_inj in H; f_equal.
  - unfold eth_eqb in *. rewrite (bytes_eqb_sym (eth_src h0)), (bytes_eqb_sym (eth_dst h0)), (Z.eqb_sym (eth_type h0)). exact H.
  - unfold vlan_eqb in *. lia.
  - unfold arp_eqb in *. rewrite (bytes_eqb_sym (arp_shw h0)), (bytes_eqb_sym (arp_sproto h0)), (bytes_eqb_sym (arp_thw h0)), (bytes_eqb_sym (arp_tproto h0)),
      (Z.eqb_sym (arp_hwtype h0)), (Z.eqb_sym (arp_prototype h0)), (Z.eqb_sym (arp_op h0)). exact H.
  - unfold ip_eqb in *. rewrite (bytes_eqb_sym (ip_src h0)), (bytes_eqb_sym (ip_dst h0)), (Z.eqb_sym (ip_tos h0)), (Z.eqb_sym (ip_id h0)),
      (Z.eqb_sym (ip_flags h0)), (Z.eqb_sym (ip_frag h0)), (Z.eqb_sym (ip_ttl h0)), (Z.eqb_sym (ip_proto h0)). exact H.
  - unfold ip6_eqb in *. rewrite (bytes_eqb_sym (v6_src h0)), (bytes_eqb_sym (v6_dst h0)), (Z.eqb_sym (v6_tc h0)), (Z.eqb_sym (v6_flow h0)),
      (Z.eqb_sym (v6_ttl h0)), (Z.eqb_sym (v6_nh h0)). exact H.
  - unfold udp_eqb in *. rewrite (Z.eqb_sym (udp_src h0)), (Z.eqb_sym (udp_dst h0)). exact H.
  - unfold tcp_eqb in *. rewrite (Z.eqb_sym (tcp_src h0)), (Z.eqb_sym (tcp_dst h0)), (Z.eqb_sym (tcp_seq h0)), (Z.eqb_sym (tcp_ack h0)),
      (Z.eqb_sym (tcp_offset h0)), (Z.eqb_sym (tcp_flags h0)), (Z.eqb_sym (tcp_window h0)), (Z.eqb_sym (tcp_urg h0)). exact H.
  - lia.
  - rewrite bytes_eqb_sym. exact H.
  - rewrite bytes_eqb_sym. exact H. Qed.
Lemma isinst_same a b : class_of a = class_of b -> isinst a (class_of b) = true.
Proof. intros E. unfold isinst, subcls, cls_eqb. rewrite E, Z.eqb_refl. reflexivity. Qed.
Theorem packet_equality_symmetric p q : Forall no_icmp p -> map class_of p = map class_of q -> pkt_eqb p q = Ok true -> pkt_eqb q p = Ok true.
Proof. intros F Hc. unfold pkt_eqb. rewrite (Nat.eqb_sym (length q)). destruct (Nat.eqb (length p) (length q)); [|discriminate].
  revert q Hc. induction F as [|x p Hx Hp IH]; intros [|y q] Hc H; try discriminate Hc; [reflexivity|].
  cbn [map] in Hc. apply cons_inj in Hc as [C1 C2]. cbn [pkt_eqb_same] in *. rewrite isinst_same in * by auto.
  ok_step H. destruct a; [|discriminate]. rewrite (hdr_eqb_sym _ _ Hx C1 E). cbn [bindr]. apply IH; auto. Qed.

(** ** Bare byte strings inside a packet *)
Theorem bare_bytes_not_serialisable hs : forall pre b, In (HBytes b) hs -> exists e, ser pre hs = Err e.
Proof. induction hs as [|h hs IH]; intros pre b Hi; [destruct Hi|destruct Hi as [->|Hi]]; cbn [ser].
  - destruct (ser _ hs) as [[t' raw]|e]; cbn [bindr pre_ser]; eauto.
  - destruct (IH (pre ++ [h]) b Hi) as [e ->]. cbn [bindr]. eauto. Qed.

(** ** UDP and TCP over IPv6 *)
Lemma ser_inv pre h t p' b : ser pre (h :: t) = Ok (p', b) ->
  exists t' raw h1 hb, ser (pre ++ [h]) t = Ok (t', raw) /\ pre_ser raw (pre ++ h :: t') h = Ok h1 /\ hdr_bytes h1 = Ok hb /\ b = hb ++ raw /\ p' = hdr_after h1 :: t'.
Proof. intros H. cbn [ser] in H. ok_step H. destruct a as [t' raw]. ok_step H. ok_step H. apply ok_pair_inj in H as [<- <-]. do 4 eexists. eauto 6. Qed.
Theorem udp_over_ip6_no_checksum e ip u payload p' b : pkt_to_bytes [HEth e; HIp6 ip; HUdp u; HRaw payload] = Ok (p', b) ->
  exists eb ib ub, b = eb ++ ib ++ ub ++ payload /\ zlen eb = 14 /\ zlen ib = 40 /\ zlen ub = 8 /\ skipn 6 ub = [0; 0].
Proof. intros H. unfold pkt_to_bytes in H.
  apply ser_inv in H as (t1 & r1 & h1 & eb & H & P1 & B1 & -> & ->). apply ser_inv in H as (t2 & r2 & h2 & ib & H & P2 & B2 & -> & ->).
  apply ser_inv in H as (t3 & r3 & h3 & ub & H & P3 & B3 & -> & ->). rewrite raw_ser in H. apply ok_pair_inj in H as [<- <-].
  exists eb, ib, ub. split; [reflexivity|].
  cbn [pre_ser] in P1. apply ok_inj in P1. subst h1. cbn [hdr_bytes] in B1. split; [apply zlen_pack in B1; exact B1|].
  cbn [pre_ser] in P2. ok_step P2. apply ok_inj in P2. subst h2. cbn [hdr_bytes] in B2. split; [unfold ip6_to_bytes in B2; apply zlen_pack in B2; exact B2|].
  cbn [pre_ser app first_ip4] in P3. unfold udp_pre_serialize, udp_checksum in P3. cbn [bindr] in P3. apply ok_inj in P3. subst h3. cbn [hdr_bytes] in B3.
  split; [apply zlen_pack in B3; exact B3|].
  unfold udp_to_bytes, udp_fmt in B3. cbn [udp_src udp_dst udp_len udp_csum] in B3.
  pose proof (pack_packable _ _ _ B3) as Pk. cbn [packable] in Pk. pow256. rewrite !pack_cons_int in B3 by (pow256; lia). rewrite pack_nil in B3. cbn [bindr] in B3. apply ok_inj in B3. subst ub.
  rewrite app_nil_r. rewrite (app_assoc (be 2 _)), app_assoc. rewrite skipn_app_exact by (rewrite !app_length, !be_length; reflexivity). reflexivity. Qed.
Lemma payload_last payload p : forall pre p' b, ser pre (p ++ [HRaw payload]) = Ok (p', b) -> exists front, b = front ++ payload.
Proof. induction p as [|h p IH]; intros pre p' b H.
  - cbn [app] in H. rewrite raw_ser in H. apply ok_pair_inj in H as [_ <-]. exists []. reflexivity.
  - cbn [app] in H. apply ser_inv in H as (t & raw & h1 & hb & H & _ & _ & -> & _). destruct (IH _ _ _ H) as (f & ->). exists (hb ++ f). rewrite app_assoc. reflexivity. Qed.
