(** Proofs about the UDP stack. *)
From Verif Require Import BaseLemmas CodecLemmas Dict DictLemmas EthAddrModel Enums EthModel EthAddrSpec EthProofs ArpModel Ipv4Model Ipv4Proofs Ipv4Proofs2 TransportModel TransportProofs PacketModel PacketSpec PacketProofs PacketParse FieldModel NetModel SendModel SendProofs
  TestModel TestSpec TestRun SockModel StackModel StackSpec.
#[local] Open Scope list_scope.

(** ** Receiving *)
Lemma ip_inst h : isinst h CIp4 = false <-> forall x, h <> HIp4 x. Proof. destruct h; split; intros H; try discriminate; try reflexivity; try (intros x; discriminate). exfalso. eapply H. reflexivity. Qed.
Lemma has_ip p : (exists l u r, p = l ++ HIp4 u :: r /\ (forall u', ~ In (HIp4 u') l)) \/ (forall u, ~ In (HIp4 u) p).
Proof.
  induction p as [|h p IH]; [right; intros u []|]. assert (D : (exists u, h = HIp4 u) \/ forall u, h <> HIp4 u) by (destruct h; try (right; discriminate); left; eauto).
  destruct D as [[u ->]|D]; [left; exists [], u, p; split; [reflexivity|intros u' []]|]. destruct IH as [(l & u & r & -> & N)|N].
  - left. exists (h :: l), u, r. split; [reflexivity|]. intros u' [E|I]; [exact (D u' E)|exact (N u' I)].
  - right. intros u [E|I]; [exact (D u E)|exact (N u I)].
Qed.
Lemma ip_first : forall m l u r k, (forall u', ~ In (HIp4 u') m) -> (List.length m < k)%nat -> index_loop k (l ++ m ++ HIp4 u :: r) CIp4 (zlen l) = Ok (zlen (l ++ m)).
Proof.
  induction m as [|h m IH]; intros l u r k N K; (destruct k as [|k]; [cbn [List.length] in K; lia|]); cbn [index_loop app].
  - rewrite py_app. cbn [bindr]. rewrite app_nil_r. reflexivity.
  - rewrite py_app. cbn [bindr]. assert (C : isinst h CIp4 = false) by (apply ip_inst; intros x ->; apply (N x); left; reflexivity). rewrite C.
    specialize (IH (l ++ [h]) u r k). rewrite <- !app_assoc in IH. cbn [app] in IH. replace (zlen l + 1) with (zlen (l ++ [h])) by (unfold zlen; rewrite app_length; cbn [List.length]; lia).
    apply IH; [intros u' I; exact (N u' (or_intror I))|cbn [List.length] in K; lia].
Qed.
Lemma get_ip p : pkt_has p CIp4 = true <-> exists x, In (HIp4 x) p.
Proof.
  unfold pkt_has. induction p as [|h p IH]; cbn [pkt_get_header]; [split; [discriminate|intros (x & [])]|]. destruct (isinst h CIp4) eqn:E.
  - split; [|reflexivity]. intros _. destruct h; try discriminate. eexists. left. reflexivity.
  - rewrite IH. pose proof (proj1 (ip_inst h) E) as E2. split; [intros (x & H); exists x; right; exact H|]. intros (x & [H|H]); [exfalso; exact (E2 x H)|eauto].
Qed.
Lemma get_at l h r : pkt_get (l ++ h :: r) (zlen l) = Ok h.
Proof.
  unfold pkt_get, checkidx. assert (0 <= zlen l) by (unfold zlen; lia). destruct (Z.ltb_spec (zlen l) 0); [lia|]. assert (L : zlen (l ++ h :: r) = zlen l + 1 + zlen r) by (unfold zlen; rewrite app_length; cbn [List.length]; lia).
  rewrite L. assert (0 <= zlen r) by (unfold zlen; lia). destruct (Z.leb_spec 0 (zlen l)); [|lia]. destruct (Z.ltb_spec (zlen l) (zlen l + 1 + zlen r)); [|lia]. cbn [andb bindr]. unfold nth_res, zlen. rewrite Nat2Z.id, nth_error_app2, Nat.sub_diag by lia. reflexivity.
Qed.
Lemma get_past p i : zlen p <= i -> pkt_get p i = Err EIndex.
Proof. intros H. unfold pkt_get, checkidx. assert (0 <= zlen p) by (unfold zlen; lia). destruct (Z.ltb_spec i 0); [lia|]. destruct (Z.ltb_spec i (zlen p)); [lia|]. rewrite andb_false_r. reflexivity. Qed.
Lemma get_last l h : pkt_get (l ++ [h]) (-1) = Ok h.
Proof.
  rewrite <- (get_at l h []). unfold pkt_get, checkidx. assert (0 <= zlen l) by (unfold zlen; lia). assert (L : zlen (l ++ [h]) = zlen l + 1) by (unfold zlen; rewrite app_length; cbn [List.length]; lia). rewrite L.
  destruct (Z.ltb_spec (-1) 0); [|lia]. destruct (Z.ltb_spec (zlen l) 0); [lia|]. replace (zlen l + 1 + -1) with (zlen l) by lia. reflexivity.
Qed.
Lemma split_at_first {A} (P : A -> Prop) a x b a2 x2 b2 : a ++ x :: b = a2 ++ x2 :: b2 -> P x -> P x2 -> (forall y, In y a -> ~ P y) -> (forall y, In y a2 -> ~ P y) -> a = a2 /\ x = x2 /\ b = b2.
Proof.
  revert a2. induction a as [|y a IH]; intros [|y2 a2] E Px Px2 Na Na2; cbn [app] in E; injection E as E1 E2.
  - subst. auto.
  - subst. exfalso. apply (Na2 y2); [left; reflexivity|exact Px].
  - subst. exfalso. apply (Na x2); [left; reflexivity|exact Px2].
  - subst. destruct (IH a2 E2 Px Px2) as (-> & -> & ->); auto; intros z Hz; [apply Na|apply Na2]; right; exact Hz.
Qed.
Lemma not_in_ip a : (forall x, ~ In (HIp4 x) a) <-> forall y, In y a -> ~ is_ip y.
Proof. split; [intros H y Hy (x & ->); exact (H x Hy)|intros H x Hx; exact (H _ Hx (ex_intro _ x eq_refl))]. Qed.
Lemma not_in_udp a : (forall x, ~ In (HUdp x) a) <-> forall y, In y a -> ~ is_udp y.
Proof. split; [intros H y Hy (x & ->); exact (H x Hy)|intros H x Hx; exact (H _ Hx (ex_intro _ x eq_refl))]. Qed.
(** What is done with a packet that has an IPv4 header. *)
Lemma net_ip a ip b : pkt_shows (a ++ HIp4 ip :: b) = true -> (forall x, ~ In (HIp4 x) a) -> net_data (a ++ HIp4 ip :: b) =
  if ip_proto ip =? 17 then
    match pkt_get_header (a ++ HIp4 ip :: b) CUdp with
    | Some (HUdp u) => l <- pkt_get (a ++ HIp4 ip :: b) (-1);; match l with HRaw d => Ok (Some (mkDel 17 (ip_dst ip, udp_dst u) (ip_src ip, udp_src u) d)) | _ => Err EAttr end
    | _ => Err EAttr
    end
  else if ip_proto ip =? 1 then match b with [] => Err EIndex | _ => Ok None end
  else Err EIndex.
Proof.
  intros S N. unfold net_data. rewrite S. assert (H : pkt_has (a ++ HIp4 ip :: b) CIp4 = true) by (apply get_ip; exists ip; apply in_or_app; right; left; reflexivity). rewrite H. unfold pkt_index. rewrite Z.sub_0_r.
  rewrite (ip_first a [] ip b) by (auto; unfold zlen; rewrite Nat2Z.id, app_length; cbn [List.length]; lia). cbn [bindr app]. rewrite get_at. cbn [bindr].
  change ipUDP with 17. change ipICMP with 1. destruct (ip_proto ip =? 17); [reflexivity|]. destruct (ip_proto ip =? 1); [|reflexivity]. destruct b as [|h b].
  - rewrite get_past; [reflexivity|]. unfold zlen. rewrite app_length. cbn [List.length]. lia.
  - replace (zlen a + 1) with (zlen (a ++ [HIp4 ip])) by (unfold zlen; rewrite app_length; cbn [List.length]; lia). replace (a ++ HIp4 ip :: h :: b) with ((a ++ [HIp4 ip]) ++ h :: b) by (rewrite <- app_assoc; reflexivity). rewrite get_at. reflexivity.
Qed.
Lemma net_datagram p d : printable p -> (net_data p = Ok (Some d) <-> datagram p d).
Proof.
  intros P. apply pkt_prints in P. destruct (has_ip p) as [(a & ip & b & -> & N)|N].
  - rewrite (net_ip a ip b P N). split.
    + intros H. destruct (Z.eqb_spec (ip_proto ip) 17) as [E|E]; [|destruct (ip_proto ip =? 1), b; discriminate]. destruct (has_udp (a ++ HIp4 ip :: b)) as [(l & u & r & Eu & Nu)|Nu]; [|rewrite (get_header_none _ Nu) in H; discriminate].
      assert (G : pkt_get_header (a ++ HIp4 ip :: b) CUdp = Some (HUdp u)) by (rewrite Eu; apply get_header_udp; exact Nu). rewrite G in H.
      assert (L : exists q h, a ++ HIp4 ip :: b = q ++ [h]) by (destruct (exists_last (l := a ++ HIp4 ip :: b)) as (q & h & Q); [destruct a; discriminate|eauto]). destruct L as (q & h & L). rewrite L, get_last in H. cbn [bindr] in H.
      destruct h; try discriminate H. injection H as <-. exists ip, u, q. eexists. split; [exists a, b; split; [reflexivity|]; split; [exists ip; reflexivity|apply not_in_ip; exact N]|]. split; [exact E|].
      split; [exists l, r; split; [exact Eu|]; split; [exists u; reflexivity|apply not_in_udp; exact Nu]|]. split; [exact L|reflexivity].
    + intros (ip2 & u & q & data & (a2 & b2 & E2 & _ & N2) & E & (l & r & Eu & _ & Nu) & Q & ->). destruct (split_at_first is_ip a _ b a2 _ b2 E2) as (-> & K & ->); [eexists; reflexivity|eexists; reflexivity|apply not_in_ip; exact N|exact N2|].
      injection K as ->. rewrite E. cbn [Z.eqb Pos.eqb]. rewrite Eu, get_header_udp by (apply not_in_udp; exact Nu). rewrite <- Eu, Q, get_last. reflexivity.
  - split; [|intros (ip & u & q & data & (a2 & b2 & E2 & _) & _); exfalso; apply (N ip); rewrite E2; apply in_or_app; right; left; reflexivity].
    unfold net_data. rewrite P. destruct (pkt_has p CIp4) eqn:H; [|discriminate]. apply get_ip in H as (x & H). exfalso. exact (N x H).
Qed.
Lemma net_ignored p : printable p -> (net_data p = Ok None <-> ignored p).
Proof.
  intros P. apply pkt_prints in P. destruct (has_ip p) as [(a & ip & b & -> & N)|N].
  - rewrite (net_ip a ip b P N). split.
    + intros H. destruct (Z.eqb_spec (ip_proto ip) 17) as [E|E].
      * destruct (pkt_get_header _ CUdp) as [h|]; [|discriminate]. destruct h; try discriminate. destruct (pkt_get _ _) as [l|]; [|discriminate]. cbn [bindr] in H. destruct l; discriminate.
      * destruct (Z.eqb_spec (ip_proto ip) 1) as [E1|E1]; [|discriminate]. destruct b as [|h b]; [discriminate|]. right. exists ip, a, h, b. auto.
    + intros [K|(ip2 & a2 & h & b2 & E & N2 & E1)]; [exfalso; apply (K ip); apply in_or_app; right; left; reflexivity|].
      destruct (split_at_first is_ip a _ b a2 _ _ E) as (-> & K & ->); [eexists; reflexivity|eexists; reflexivity|apply not_in_ip; exact N|apply not_in_ip; exact N2|]. injection K as ->. rewrite E1. reflexivity.
  - split; [intros _; left; exact N|]. intros _. unfold net_data. rewrite P. destruct (pkt_has p CIp4) eqn:H; [|reflexivity]. apply get_ip in H as (x & H). exfalso. exact (N x H).
Qed.

(** ** The loop *)
Lemma loop_quiet i l ms ps b : quiet l ms ps b -> forall sent ds, Forall2 (fun m p => app_packet i (fst m) (snd m) = Ok p) ms sent -> Forall printable ps -> datagrams ps ds ->
  exists o, stack_loop i l = (o ++ (if b then [OClose] else []), if b then Some (Ok tt) else None) /\ sends o = map (pair i) sent /\ handed o = ds /\ ~ In OClose o.
Proof.
  induction 1 as [|a l|a l ms ps b H IH|a r l ms ps b H IH]; intros sent ds F P D; cbn [stack_loop r_app r_net r_fail].
  - inversion F; subst. inversion D; subst. exists []. auto.
  - inversion D; subst. destruct a as [[f d]|].
    + inversion F as [|? p ? ? E F2]; subst. inversion F2; subst. cbn [fst snd] in E. rewrite E. exists [OSend i p]. repeat split. intros [K|[]]; discriminate.
    + inversion F; subst. exists []. auto.
  - destruct a as [[f d]|].
    + inversion F as [|? p ? ? E F2]; subst. cbn [fst snd] in E. rewrite E. destruct (IH _ _ F2 P D) as (o & E1 & E2 & E3 & E4). rewrite E1. exists (OSend i p :: o). split; [reflexivity|]. cbn [sends handed flat_map app]. fold (sends o) (handed o). rewrite E2, E3. repeat split; auto. intros [K|K]; [discriminate|contradiction].
    + apply IH; assumption.
  - inversion P as [|? ? Pr P2]; subst.
    assert (K : forall sent0 ds0, Forall2 (fun m p => app_packet i (fst m) (snd m) = Ok p) ms sent0 -> datagrams (rv_pkt r :: ps) ds0 ->
      exists o, match net_data (rv_pkt r) with Err e => ([], Some (Err e)) | Ok None => stack_loop i l | Ok (Some d) => let '(o, e) := stack_loop i l in (ODeliver d :: o, e) end
        = (o ++ (if b then [OClose] else []), if b then Some (Ok tt) else None) /\ sends o = map (pair i) sent0 /\ handed o = ds0 /\ ~ In OClose o).
    { intros sent0 ds0 F0 D0. inversion D0 as [|? d ? ds1 G D1|? ? ? G D1]; subst.
      - apply (net_datagram _ _ Pr) in G. rewrite G. destruct (IH _ _ F0 P2 D1) as (o & E1 & E2 & E3 & E4). rewrite E1. exists (ODeliver d :: o). split; [reflexivity|]. cbn [sends handed flat_map app]. fold (sends o) (handed o). rewrite E2, E3. repeat split; auto. intros [Q|Q]; [discriminate|contradiction].
      - apply (net_ignored _ Pr) in G. rewrite G. apply IH; assumption. }
    destruct a as [[f d]|]; [|apply K; assumption].
    inversion F as [|? p ? ? E F2]; subst. cbn [fst snd] in E. rewrite E. destruct (K _ _ F2 D) as (o & E1 & E2 & E3 & E4). rewrite E1. exists (OSend i p :: o). split; [reflexivity|]. cbn [sends handed flat_map app]. fold (sends o) (handed o). rewrite E2, E3. repeat split; auto. intros [Q|Q]; [discriminate|contradiction].
Qed.

(** ** Sending *)
Lemma src4_first l a b s k : l = a ++ (s, k) :: b -> List.length s = 4%nat -> (forall x, In x a -> List.length (fst x) <> 4%nat) -> src4 l = Ok s.
Proof.
  intros -> L. induction a as [|x a IH]; intros H; cbn [app src4]; [cbn [fst]; rewrite L; reflexivity|].
  assert (E : Nat.eqb (List.length (fst x)) 4 = false) by (apply Nat.eqb_neq; apply H; left; reflexivity). fold bytes in *. rewrite E. apply IH. intros y Hy. apply H. right. exact Hy.
Qed.
Lemma app_packet_ok i sip sport dip dport d s : src4 (if_ips i) = Ok s -> List.length s = 4%nat -> List.length dip = 4%nat ->
  app_packet i (17, sip, sport, dip, dport) d = Ok [HNull 2; HIp4 (mkIp4 0 20 64 0xabcd 2 0 17 s dip []); HUdp (mkUdp sport dport 8 0); HRaw d].
Proof.
  intros S L1 L2. unfold app_packet. rewrite S. cbn [bindr]. unfold new_kw. cbn [new_default set_all]. cbn [set]. replace (ip_set_proto 17 ip_new) with (Ok (mkIp4 0 20 0 0 0 0 17 (repeat 0 4) (repeat 0 4) [])) by reflexivity. cbn [bindr set]. assert (K : forall x : list Z, List.length x = 4%nat -> ip_of_bytes x = Ok x) by (intros x Lx; unfold ip_of_bytes; rewrite Lx; reflexivity). rewrite (K s L1). cbn [bindr set]. rewrite (K dip L2). reflexivity.
Qed.
Definition udp_frame (s dip : bytes) (sport dport : Z) (d : bytes) : packet := [HNull 2; HIp4 (mkIp4 0 20 64 0xabcd 2 0 17 s dip []); HUdp (mkUdp sport dport 8 0); HRaw d].
Lemma frame_ser s dip sport dport d : ip4 s -> ip4 dip -> wf_ports sport dport -> wfb d -> zlen d <= 65507 -> exists c p' b ic,
  pkt_to_bytes (udp_frame s dip sport dport d) = Ok (p', b) /\ p' = [HNull 2; HIp4 (mkIp4 0 (28 + zlen d) 64 0xabcd 2 0 17 s dip []); HUdp (mkUdp sport dport (8 + zlen d) c); HRaw d] /\
  b = [2; 0; 0; 0] ++ ([0x45; 0; (28 + zlen d) / 256; (28 + zlen d) mod 256; 0xab; 0xcd; 0x40; 0; 64; 17] ++ be 2 ic ++ s ++ dip) ++ (be 2 sport ++ be 2 dport ++ be 2 (8 + zlen d) ++ be 2 c) ++ d.
Proof.
  intros Hs Hd Hp Wd L. pose proof (zlen_nonneg d) as Hz. unfold udp_frame, pkt_to_bytes. cbn [ser app]. cbn [pre_ser hdr_bytes bindr hdr_after first_ip4]. rewrite app_nil_r.
  destruct (udp_serialise (mkUdp sport dport 8 0) (mkIp4 0 20 64 0xabcd 2 0 17 s dip []) d) as (h' & c & b & U1 & U2 & -> & U3 & U4 & U5 & _); [exact Hp|split; [exact Hs|]; split; [exact Hd|]; apply zmem_In; reflexivity|exact Wd|lia|]. cbn [udp_src udp_dst] in *.
  rewrite U1. cbn [bindr]. cbn [hdr_bytes bindr]. rewrite U3. cbn [bindr hdr_after].
  assert (W : wf_ip (mkIp4 0 20 64 0xabcd 2 0 17 s dip [])).
  { unfold wf_ip. cbn [ip_tos ip_totlen ip_ttl ip_id ip_flags ip_frag ip_proto ip_src ip_dst ip_opts]. repeat (split; [first [lia|exact Hs|exact Hd|apply zmem_In; reflexivity]|]). constructor. }
  assert (Lb : zlen b = 8) by (unfold zlen; rewrite U5; reflexivity).
  destruct (ip_fixed_round_trip (mkIp4 0 20 64 0xabcd 2 0 17 s dip []) (b ++ d)) as (i' & ib & ic & I1 & -> & I3 & I4 & _); [exact W|reflexivity|rewrite zlen_app, Lb; lia|].
  rewrite zlen_app, Lb in *. replace (20 + (8 + zlen d)) with (28 + zlen d) in * by lia. cbn [ip_tos ip_totlen ip_ttl ip_id ip_flags ip_frag ip_proto ip_src ip_dst ip_opts ip_with_totlen] in *. unfold ip_with_totlen in *. cbn [ip_tos ip_totlen ip_ttl ip_id ip_flags ip_frag ip_proto ip_src ip_dst ip_opts] in *.
  rewrite I1. cbn [bindr hdr_bytes]. rewrite I3. cbn [bindr hdr_after]. change (null_to_bytes 2) with (Ok [2; 0; 0; 0]). cbn [bindr]. exists c. do 2 eexists. exists ic. split; [reflexivity|]. split; [reflexivity|]. rewrite U4, I4. reflexivity.
Qed.
Lemma frame_wf s dip sport dport : ip4 s -> ip4 dip -> Forall wf_hdr [HNull 2; HIp4 (mkIp4 0 20 64 0xabcd 2 0 17 s dip []); HUdp (mkUdp sport dport 8 0)].
Proof.
  intros Hs Hd. constructor; [left; reflexivity|]. constructor; [|repeat constructor]. split.
  - unfold wf_ip, ip_with_totlen. cbn [ip_tos ip_totlen ip_ttl ip_id ip_flags ip_frag ip_proto ip_src ip_dst ip_opts]. repeat (split; [first [lia|exact Hs|exact Hd|apply zmem_In; reflexivity]|]). constructor.
  - exists []. split; [reflexivity|]. change (zlen (@nil Z)) with 0. lia.
Qed.
Lemma read_frame p' q s dip sport dport n m c (d : list hdr) : p' = [HNull 2; HIp4 (mkIp4 0 n 64 0xabcd 2 0 17 s dip []); HUdp (mkUdp sport dport m c)] ++ d -> (d = [] \/ exists x, d = [HRaw x]) -> Forall2 read_as p' q -> q = p'.
Proof.
  intros -> Hd F. inversion F as [|a1 b1 l1 m1 R1 F1]; subst. inversion F1 as [|a2 b2 l2 m2 R2 F2]; subst. inversion F2 as [|a3 b3 l3 m3 R3 F3]; subst.
  assert (E4 : m3 = d) by (destruct Hd as [->|[x ->]]; inversion F3 as [|a4 b4 l4 m4 R4 F4]; subst; [reflexivity|]; inversion F4; subst; cbn [read_as] in R4; rewrite R4; reflexivity). subst m3.
  cbn [read_as] in R1, R3. rewrite R1, R3. destruct b2; try (cbn [read_as] in R2; discriminate R2). cbn [read_as ip_opts ip_tos ip_totlen ip_ttl ip_id ip_flags ip_frag ip_proto ip_src ip_dst] in R2. destruct R2 as (k & _ & K & ->). rewrite (K eq_refl). reflexivity.
Qed.
Lemma frame_back s dip sport dport d : ip4 s -> ip4 dip -> wf_ports sport dport -> wfb d -> zlen d <= 65507 -> d <> [] -> exists p' b q,
  pkt_to_bytes (udp_frame s dip sport dport d) = Ok (p', b) /\ pkt_new b CNull = Ok q /\ net_data q = Ok (Some (mkDel 17 (dip, dport) (s, sport) d)).
Proof.
  intros Hs Hd Hp Wd L Ne. destruct (frame_ser s dip sport dport d Hs Hd Hp Wd L) as (c & p' & b & ic & S & P & _). exists p', b.
  destruct (packet_round_trip (HNull 2) [HIp4 (mkIp4 0 20 64 0xabcd 2 0 17 s dip []); HUdp (mkUdp sport dport 8 0); HRaw d] p' b) as (q & Q1 & Q2).
  - cbn [chained wire_header says_next assoc class_of is_icmp]. repeat split; auto.
  - pose proof (frame_wf s dip sport dport Hs Hd) as F. inversion F as [|? ? F1 F']; subst. inversion F' as [|? ? F2 F'']; subst. inversion F'' as [|? ? F3 _]; subst. repeat (constructor; [assumption|]). repeat constructor.
  - exact S.
  - exists q. split; [exact S|]. split; [exact Q1|]. assert (E : q = p') by (eapply read_frame; [exact P|right; eauto|exact Q2]). subst q. rewrite P. reflexivity.
Qed.
Lemma ser_empty s dip sport dport : pkt_to_bytes [HNull 2; HIp4 (mkIp4 0 20 64 0xabcd 2 0 17 s dip []); HUdp (mkUdp sport dport 8 0)] =
  match pkt_to_bytes (udp_frame s dip sport dport []) with Ok (p', b) => Ok (firstn 3 p', b) | Err e => Err e end.
Proof.
  unfold pkt_to_bytes, udp_frame. cbn [ser app pre_ser hdr_bytes bindr hdr_after first_ip4]. destruct (udp_pre_serialize _ _ _) as [u|]; [|reflexivity]. cbn [bindr]. cbn [hdr_bytes]. destruct (udp_to_bytes u) as [ub|]; [|reflexivity]. cbn [bindr hdr_after]. rewrite app_nil_r.
  destruct (ip_pre_serialize _ _) as [i|]; [|reflexivity]. cbn [bindr hdr_bytes]. destruct (ip_to_bytes i) as [ib|]; [|reflexivity]. cbn [bindr hdr_after]. destruct (null_to_bytes 2); reflexivity.
Qed.
Lemma frame_back_empty s dip sport dport : ip4 s -> ip4 dip -> wf_ports sport dport -> exists p' b q,
  pkt_to_bytes (udp_frame s dip sport dport []) = Ok (p', b) /\ pkt_new b CNull = Ok q /\ net_data q = Err EAttr.
Proof.
  intros Hs Hd Hp. destruct (frame_ser s dip sport dport [] Hs Hd Hp ltac:(apply wfb_nil) ltac:(change (zlen (@nil Z)) with 0; lia)) as (c & p' & b & ic & S & P & _). exists p', b.
  pose proof (ser_empty s dip sport dport) as E. rewrite S in E.
  destruct (packet_round_trip (HNull 2) [HIp4 (mkIp4 0 20 64 0xabcd 2 0 17 s dip []); HUdp (mkUdp sport dport 8 0)] (firstn 3 p') b) as (q & Q1 & Q2); [cbn [chained wire_header says_next assoc class_of is_icmp]; repeat split; auto|apply frame_wf; assumption|exact E|].
  exists q. split; [exact S|]. split; [exact Q1|]. assert (K : q = firstn 3 p'); [|subst q; rewrite P; reflexivity].
  eapply read_frame with (d := []); [rewrite P; reflexivity|left; reflexivity|exact Q2].
Qed.
Lemma frame_long s dip sport dport d : ip4 s -> ip4 dip -> wf_ports sport dport -> wfb d -> 65507 < zlen d -> pkt_to_bytes (udp_frame s dip sport dport d) = Err EStruct.
Proof.
  intros Hs Hd Hp Wd L. unfold udp_frame, pkt_to_bytes. cbn [ser app]. cbn [pre_ser hdr_bytes bindr hdr_after first_ip4]. rewrite app_nil_r.
  destruct (Z_le_gt_dec (8 + zlen d) 65535) as [K|K].
  - destruct (udp_serialise (mkUdp sport dport 8 0) (mkIp4 0 20 64 0xabcd 2 0 17 s dip []) d) as (h' & c & b & U1 & U2 & -> & U3 & U4 & U5 & _); [exact Hp|split; [exact Hs|]; split; [exact Hd|]; apply zmem_In; reflexivity|exact Wd|lia|]. cbn [udp_src udp_dst] in *.
    rewrite U1. cbn [bindr hdr_bytes]. rewrite U3. cbn [bindr hdr_after]. assert (Lb : zlen b = 8) by (unfold zlen; rewrite U5; reflexivity).
    destruct (ip_pre_serialize (zlen (b ++ d)) (mkIp4 0 20 64 0xabcd 2 0 17 s dip [])) as [i|e] eqn:I; [|exfalso; unfold ip_pre_serialize, ip_size in I; cbn in I; discriminate]. cbn [bindr hdr_bytes].
    rewrite (ip_too_long _ _ (zlen_nonneg (b ++ d)) ltac:(rewrite zlen_app, Lb; lia) _ I). reflexivity.
  - pose proof (udp_too_long (mkUdp sport dport 8 0) (Some (mkIp4 0 20 64 0xabcd 2 0 17 s dip [])) d ltac:(lia)) as U. destruct (udp_pre_serialize _ _ _) as [u|e]; cbn [bindr] in U |- *; [|injection U as ->; reflexivity]. cbn [hdr_bytes]. rewrite U. reflexivity.
Qed.
