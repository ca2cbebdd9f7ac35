From Verif Require Import BaseLemmas CodecLemmas EthAddrModel EthAddrSpec Enums EthModel ArpModel EthProofs ChecksumModel ChecksumSpec
  ChecksumProofs Ipv4Model Ipv4Proofs Ipv4Proofs2 TransportModel TransportProofs Ipv6Model Ipv6Proofs Ipv6ExtProofs
  IcmpModel IcmpProofs IcmpCodecProofs IcmpFwdProofs RipModel RipProofs PacketModel PacketSpec PacketProofs PacketParse.

(** ** Parsing finishes *)
Ltac crunch H := repeat (match type of H with context [match ?x with _ => _ end] => destruct x eqn:?; try discriminate H end).
Lemma skipn_le {A} n (l : list A) : (length (skipn n l) <= length l)%nat.
Proof. rewrite skipn_length. lia. Qed.
Lemma skipn_lt {A} n (l : list A) : (0 < n)%nat -> (0 < length l)%nat -> (length (skipn n l) < length l)%nat.
Proof. rewrite skipn_length. lia. Qed.

Lemma ext_rest m raw nh d rest : ext_from_bytes m raw = Ok (nh, d, rest) -> length raw = S (S (length rest)).
Proof. unfold ext_from_bytes. intros H. destruct raw as [|x [|y r]]; try discriminate. ok_step H. destruct (_ <? _); [discriminate|].
  apply ok_pair_inj in H as [_ ->]. reflexivity. Qed.
Lemma ip_rest raw h rest : ip_from_bytes raw = Ok (h, rest) -> exists n, rest = skipn n raw.
Proof. unfold ip_from_bytes, bindr. intros H. crunch H. apply ok_pair_inj in H as [_ <-]. eexists. reflexivity. Qed.

(** A header that announces another one consumes at least one byte, except that IPv4 may consume none. *)
Lemma parse_consumes c raw h rest c' : parse_hdr c raw = Ok (h, Some rest) -> next_class h = Ok (Some c') ->
  (length rest + (if cls_eqb c' CIp4 then 1 else 0) < length raw + (if cls_eqb c CIp4 then 1 else 0))%nat.
Proof. intros H Hn. destruct c; cbn [parse_hdr] in H; try discriminate H; try (ok_step H); try discriminate H;
    try (destruct a as [x r]; apply ok_pair_inj in H as [<- H]; assert (r = rest) by congruence; subst r).
  - unfold eth_from_bytes, bindr in E. destruct (Nat.ltb_spec (length raw) eth_minlen); [discriminate|]. crunch E. apply ok_pair_inj in E as [_ <-].
    rewrite skipn_length. unfold eth_minlen in *. destruct (cls_eqb c' _); cbn; lia.
  - unfold vlan_from_bytes, bindr in E. destruct (Nat.ltb_spec (length raw) vlan_minlen); [discriminate|]. crunch E. apply ok_pair_inj in E as [_ <-].
    rewrite skipn_length. unfold vlan_minlen in *. destruct (cls_eqb c' _); cbn; lia.
  - discriminate Hn.
  - destruct (ip_rest _ _ _ E) as (n & ->). pose proof (skipn_le n raw). cbn [next_class] in Hn. unfold ip4_class in Hn.
    assert (cls_eqb c' CIp4 = false).
    { destruct (ip_proto x =? ipICMP); [injection Hn as <-; reflexivity|]. destruct (ip_proto x =? ipTCP); [injection Hn as <-; reflexivity|].
      destruct (ip_proto x =? ipUDP); [injection Hn as <-; reflexivity|discriminate]. }
    rewrite H1. cbn. lia.
  - unfold ip6_from_bytes, bindr in E. destruct (Nat.ltb_spec (length raw) ip6_minlen); [discriminate|]. crunch E. apply ok_pair_inj in E as [_ <-].
    rewrite skipn_length. unfold ip6_minlen in *. destruct (cls_eqb c' _); cbn; lia.
  - unfold route_from_bytes in E. ok_step E. destruct a as [[nh d] remain]. apply ext_rest in E0. unfold bindr in E. crunch E.
    apply ok_pair_inj in E as [_ <-]. match goal with |- context [skipn ?n ?l] => pose proof (skipn_le n l) end. destruct (cls_eqb c' _); cbn [cls_eqb cls_num Z.eqb]; lia.
  - unfold frag_from_bytes in E. ok_step E. destruct a as [[nh d] remain]. apply ext_rest in E0. unfold bindr in E. crunch E.
    apply ok_pair_inj in E as [_ <-]. match goal with |- context [skipn ?n ?l] => pose proof (skipn_le n l) end. destruct (cls_eqb c' _); cbn [cls_eqb cls_num Z.eqb]; lia.
  - unfold hop_from_bytes in E. ok_step E. destruct a as [[nh d] remain]. apply ext_rest in E0. ok_step E.
    apply ok_pair_inj in E as [_ <-]. match goal with |- context [skipn ?n ?l] => pose proof (skipn_le n l) end. destruct (cls_eqb c' _); cbn [cls_eqb cls_num Z.eqb]; lia.
  - unfold hop_from_bytes in E. ok_step E. destruct a as [[nh d] remain]. apply ext_rest in E0. ok_step E.
    apply ok_pair_inj in E as [_ <-]. match goal with |- context [skipn ?n ?l] => pose proof (skipn_le n l) end. destruct (cls_eqb c' _); cbn [cls_eqb cls_num Z.eqb]; lia.
  - discriminate Hn.
  - discriminate Hn.
  - discriminate Hn.
  - discriminate Hn.
  - unfold null_from_bytes in E. destruct (Nat.ltb_spec (length raw) 4); [discriminate|]. apply ok_pair_inj in E as [_ <-].
    rewrite skipn_length. destruct (cls_eqb c' _); cbn; lia.
  - apply ok_pair_inj in H as [<- _]. discriminate Hn.
Qed.

Lemma PL fuel c raw : parse_loop (S fuel) c raw =
  match c with
  | CBytes => Ok ([], Some raw)
  | _ => ' (h, rest) <- parse_hdr c raw;; nc <- next_class h;;
    match nc with
    | None => Ok ([h], rest)
    | Some c' => match rest with None => Err EType | Some r => ' (hs, fin) <- parse_loop fuel c' r;; Ok (h :: hs, fin) end
    end
  end.
Proof. reflexivity. Qed.

(** Enough rounds: the result does not depend on how many are allowed. *)
Definition mes (c : hcls) (raw : bytes) : nat := length raw + (if cls_eqb c CIp4 then 1 else 0).
Lemma parse_fuel n : forall c raw f1 f2, (mes c raw < n)%nat -> (mes c raw < f1)%nat -> (mes c raw < f2)%nat ->
  parse_loop f1 c raw = parse_loop f2 c raw.
Proof. induction n as [|n IH]; intros c raw f1 f2 Hn H1 H2; [lia|].
  destruct f1 as [|f1]; [lia|]. destruct f2 as [|f2]; [lia|]. rewrite !PL.
  assert (G : forall h r nc, parse_hdr c raw = Ok (h, Some r) -> next_class h = Ok (Some nc) -> parse_loop f1 nc r = parse_loop f2 nc r).
  { intros h r nc E1 E2. pose proof (parse_consumes _ _ _ _ _ E1 E2). apply IH; unfold mes in *; lia. }
  destruct (parse_hdr c raw) as [[h [r|]]|]; try reflexivity. cbn [bindr].
  destruct (next_class h) as [[nc|]|] eqn:E2; try reflexivity. cbn [bindr]. rewrite (G h r nc eq_refl E2). reflexivity. Qed.
Lemma parse_loop_fuel n : forall c raw f, (mes c raw < n)%nat -> (mes c raw < f)%nat -> parse_loop f c raw = Err EFuel ->
  exists c' sub, parse_hdr c' sub = Err EFuel.
Proof. induction n as [|n IH]; intros c raw f Hn Hf; [lia|]. destruct f as [|f]; [lia|]. rewrite PL.
  intros H. assert (Hc : (parse_hdr c raw = Err EFuel) \/ exists h r nc, parse_hdr c raw = Ok (h, Some r) /\ next_class h = Ok (Some nc) /\ parse_loop f nc r = Err EFuel).
  { destruct c; try discriminate H;
    (destruct (parse_hdr _ raw) as [[h r]|e] eqn:E1; cbn [bindr] in H; [|left; congruence];
     right; destruct (next_class h) as [[nc|]|e] eqn:E2; cbn [bindr] in H;
     [ destruct r as [r|]; [|discriminate]; exists h, r, nc; repeat split; auto; destruct (parse_loop f nc r) as [[hs fin]|e]; cbn [bindr] in H; congruence
     | discriminate
     | exfalso; apply (f_equal (fun x => match x with Err e => Some e | _ => None end)) in H; injection H as ->;
       destruct h; cbn [next_class] in E2; try discriminate E2;
       repeat match type of E2 with (if ?b then _ else _) = _ => destruct b end; discriminate E2 ]). }
  destruct Hc as [Hc|(h & r & nc & E1 & E2 & E3)].
  - exists c, raw. exact Hc.
  - pose proof (parse_consumes _ _ _ _ _ E1 E2). apply (IH nc r f); auto; unfold mes in *; lia. Qed.

(** The only header loops that can fail to finish are those of C14 and C21. *)
Lemma enum_no_fuel l z : enum_of l z <> Err EFuel.
Proof. unfold enum_of. destruct (zmem _ _); discriminate. Qed.
Lemma v6addr_no_fuel b : v6addr_of b <> Err EFuel.
Proof. unfold v6addr_of. destruct (Nat.eqb _ _); discriminate. Qed.
Lemma eth_init_no_fuel b : eth_init (ABytes b) <> Err EFuel.
Proof. unfold eth_init. cbn [bindr]. destruct (firstn 6 b); discriminate. Qed.
Ltac nofuel_step :=
  match goal with
  | |- bindr _ _ <> Err EFuel => apply bindr_err_ne; [|intros ?]
  | |- pack _ _ <> _ => apply pack_no_fuel
  | |- unpack _ _ <> _ => apply unpack_no_fuel
  | |- enum_of _ _ <> _ => apply enum_no_fuel
  | |- v6addr_of _ <> _ => apply v6addr_no_fuel
  | |- eth_init (ABytes _) <> _ => apply eth_init_no_fuel
  | |- Err _ <> Err _ => discriminate
  | |- Ok _ <> Err _ => discriminate
  | |- (if ?c then _ else _) <> _ => destruct c
  | |- match ?x with _ => _ end <> _ => destruct x
  end.
Ltac nofuel := repeat nofuel_step.
Lemma ndopts_to_no_fuel os : ndopts_to_bytes os <> Err EFuel.
Proof. induction os as [|o os IH]; cbn [ndopts_to_bytes]; [discriminate|]. apply bindr_err_ne; [destruct o; unfold nd_to_bytes; nofuel|intros ?].
  apply bindr_err_ne; [exact IH|intros; discriminate]. Qed.
Lemma data_to_no_fuel d : data_to_bytes d <> Err EFuel.
Proof. destruct d; unfold data_to_bytes; nofuel; apply ndopts_to_no_fuel. Qed.
Lemma data_from_no_fuel t raw : data_from_bytes (K4 t) raw <> Err EFuel.
Proof. unfold data_from_bytes, data_new. repeat match goal with |- context [if t =? ?k then _ else _] => destruct (t =? k) end; nofuel. Qed.
Lemma rip_no_fuel raw : rip_from_bytes rip_new raw <> Err EFuel.
Proof. assert (E : forall n i r, rip_entries n i r <> Err EFuel).
  { induction n as [|n IH]; intros i r; cbn [rip_entries]; [discriminate|].
    apply bindr_err_ne; [unfold rip_entry_from_bytes, rip_entry_new; nofuel|intros ?]. apply bindr_err_ne; [apply IH|discriminate]. }
  unfold rip_from_bytes. nofuel. apply E. Qed.
Lemma ext_no_fuel m raw : ext_from_bytes m raw <> Err EFuel.
Proof. unfold ext_from_bytes. nofuel. Qed.
Lemma hdr_fuel_only c raw : parse_hdr c raw = Err EFuel -> c = CIp4 \/ c = CIcmp6.
Proof. intros H. destruct c; auto; exfalso; revert H; cbn [parse_hdr];
    try (apply bindr_err_ne; [|intros []; discriminate]); try discriminate.
  - unfold eth_from_bytes. nofuel.
  - unfold vlan_from_bytes, vlan_set_type. nofuel.
  - unfold arp_from_bytes. nofuel.
  - unfold ip6_from_bytes. nofuel.
  - unfold route_from_bytes, ext_from_bytes. nofuel.
  - unfold frag_from_bytes, ext_from_bytes. nofuel.
  - apply hop_no_fuel.
  - apply hop_no_fuel.
  - unfold udp_from_bytes. nofuel.
  - unfold tcp_from_bytes. nofuel.
  - unfold icmp_from_bytes. cbn [class_of_type]. unfold class_of_type, icmp_size. nofuel; first [apply data_from_no_fuel | apply data_to_no_fuel].
  - apply rip_no_fuel.
  - unfold null_from_bytes. nofuel. Qed.

Theorem packet_parse_finishes raw c : pkt_new raw c = Err EFuel ->
  exists c' sub, parse_hdr c' sub = Err EFuel /\ (c' = CIp4 \/ c' = CIcmp6).
Proof. unfold pkt_new. destruct raw as [|x r] eqn:Er; [discriminate|]. rewrite <- Er. intros H.
  destruct (parse_loop _ _ _) as [l|e] eqn:E; cbn [bindr] in H; [discriminate|]. assert (e = EFuel) by congruence. subst e.
  destruct (parse_loop_fuel (S (S (length raw))) c raw (S (S (S (S (length raw))))) ltac:(unfold mes; destruct (cls_eqb _ _); lia) ltac:(unfold mes; destruct (cls_eqb _ _); lia) E) as (c' & sub & Hs).
  exists c', sub. split; auto. eapply hdr_fuel_only; eauto. Qed.
(** Allowing more rounds changes nothing. *)
Theorem packet_parse_rounds raw c fuel : raw <> [] -> (length raw + 1 < fuel)%nat ->
  pkt_new raw c = (x <- parse_loop fuel c raw;; Ok (with_rest x)).
Proof. intros Hr Hf. unfold pkt_new. destruct raw as [|x r] eqn:Er; [contradiction|]. rewrite <- Er in *.
  rewrite (parse_fuel (S (S (length raw))) c raw _ fuel); auto; unfold mes; destruct (cls_eqb _ _); lia. Qed.

(** ** Truncated frames *)
Lemma short_err c raw : (length raw < min_size c)%nat -> exists e, parse_hdr c raw = Err e /\ e <> EFuel.
Proof. intros H.
  assert (L : forall n (l : bytes), (length l < n)%nat -> Nat.ltb (length l) n = true) by (intros; apply Nat.ltb_lt; auto).
  destruct c; cbn [min_size] in H; try lia; cbn [parse_hdr].
  - rewrite eth_short by auto. eexists; split; [reflexivity|discriminate].
  - rewrite vlan_short by auto. eexists; split; [reflexivity|discriminate].
  - rewrite arp_short by auto. eexists; split; [reflexivity|discriminate].
  - rewrite ip_short by auto. eexists; split; [reflexivity|discriminate].
  - rewrite ip6_short by auto. eexists; split; [reflexivity|discriminate].
  - unfold route_from_bytes. destruct (ext_from_bytes 8 raw) as [[[nh d] remain]|e] eqn:E; cbn [bindr].
    + apply ext_rest in E. destruct remain as [|t [|l r]] eqn:Er; try (eexists; split; [reflexivity|discriminate]).
      destruct (t =? 2); [|eexists; split; [reflexivity|discriminate]].
      unfold v6addr_of. replace (Nat.eqb _ 16) with false; [eexists; split; [reflexivity|discriminate]|].
      symmetry. apply Nat.eqb_neq. rewrite firstn_length, skipn_length. cbn [length] in *. lia.
    + exists e. split; auto. intros ->. exact (ext_no_fuel _ _ E).
  - unfold frag_from_bytes. destruct (ext_from_bytes 1 raw) as [[[nh d] remain]|e] eqn:E; cbn [bindr].
    + apply ext_rest in E. rewrite (L 6%nat remain) by lia. eexists; split; [reflexivity|discriminate].
    + exists e. split; auto. intros ->. exact (ext_no_fuel _ _ E).
  - unfold hop_from_bytes. destruct raw as [|x [|y r]]; cbn [length] in H; try lia; eexists; split; try reflexivity; discriminate.
  - unfold hop_from_bytes. destruct raw as [|x [|y r]]; cbn [length] in H; try lia; eexists; split; try reflexivity; discriminate.
  - rewrite udp_short by auto. eexists; split; [reflexivity|discriminate].
  - rewrite tcp_short by auto. eexists; split; [reflexivity|discriminate].
  - unfold icmp_from_bytes. rewrite L by auto. eexists; split; [reflexivity|discriminate].
  - unfold icmp_from_bytes. rewrite L by auto. eexists; split; [reflexivity|discriminate].
  - unfold rip_from_bytes. rewrite L by auto. eexists; split; [reflexivity|discriminate].
  - unfold null_from_bytes. rewrite L by auto. eexists; split; [reflexivity|discriminate]. Qed.
Lemma says_next_class h c : says_next h = Some c -> next_class h = Ok (Some c).
Proof. intros H. rewrite next_says; [rewrite H; reflexivity|]. intros af ->. cbn [says_next assoc] in H.
  destruct (2 =? af) eqn:E1; [left; lia|]. destruct (10 =? af) eqn:E2; [right; lia|discriminate]. Qed.
Lemma truncated_loop c raw : truncated c raw -> forall fuel, (mes c raw < fuel)%nat -> exists e, parse_loop fuel c raw = Err e /\ e <> EFuel.
Proof. induction 1 as [c raw Hs|c raw h rest c' Hp Hn Ht IH]; intros [|fuel] Hf; try lia; rewrite PL.
  - destruct (short_err c raw Hs) as (e & -> & He). exists e. split; auto. destruct c; try reflexivity. cbn [min_size] in Hs. lia.
  - apply says_next_class in Hn. pose proof (parse_consumes _ _ _ _ _ Hp Hn). destruct (IH fuel ltac:(unfold mes in *; lia)) as (e & E & He).
    exists e. split; auto. rewrite Hp. cbn [bindr]. rewrite Hn. cbn [bindr]. rewrite E. destruct c; try reflexivity. discriminate Hp. Qed.
Theorem truncated_packet c raw : raw <> [] -> truncated c raw -> exists e, pkt_new raw c = Err e /\ e <> EFuel.
Proof. intros Hr Ht. destruct (truncated_loop c raw Ht (S (S (length raw)))) as (e & E & He).
  { unfold mes. destruct (cls_eqb _ _); lia. }
  exists e. split; auto. rewrite (packet_parse_rounds raw c (S (S (length raw)))) by (auto; lia). rewrite E. reflexivity. Qed.
(** In particular, an Ethernet frame cut inside the header that its type field announces. *)
Lemma cut_frame e eb rest c : wf_eth e -> eth_type e <> 1500 -> eth_to_bytes e = Ok eb -> says_next (HEth e) = Some c ->
  (length rest < min_size c)%nat -> exists x, pkt_parse (eb ++ rest) = Err x /\ x <> EFuel.
Proof. intros He H1 Hb Hs Hl. destruct (eth_to_bytes_ok e He) as (b & Hb' & Lb & _). assert (b = eb) by congruence. subst b.
  apply truncated_packet; [destruct eb; discriminate|]. eapply t_next; [|exact Hs|apply t_here; exact Hl].
  destruct He as (A1 & A2 & A3). destruct (eth_round_trip e A1 A2 A3 H1) as (b & B1 & _ & B2). assert (b = eb) by congruence. subst b.
  cbn [parse_hdr]. rewrite B2. reflexivity. Qed.
