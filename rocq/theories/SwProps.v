(** Properties C50, C51, C79-C83: the OpenFlow switch pieces. *)
From Verif Require Import Base BaseLemmas EthAddrModel Enums EthModel ArpModel Ipv4Model TransportModel Ipv6Model IcmpModel PacketModel
  CodecLemmas FieldModel FieldProofs OfModel SwModel SwSpec SwProofs SwMatch SwTable.

(** ** C50. The packet buffer *)
(** After any history of a buffer of capacity [size]: at most [size] packets are held, under distinct ids between 1 and
    [size], and storing is refused exactly when [size] packets are held. *)
Theorem C50_capacity : forall (P : Type) size (os : list (bop P)), 0 <= size ->
  let b := fst (buf_run size [] os) in
  zlen b <= size /\ NoDup (map fst b) /\ (forall id, buf_lookup b id <> None -> 1 <= id <= size) /\
  forall v, snd (buf_step size b (BAdd v)) = RId None <-> zlen b = size.
Proof.
  intros P size os Hs b. assert (Hb : buf_ok size b).
  { apply buf_run_ok. split; [constructor|]. split; [constructor|exact Hs]. }
  destruct Hb as [H1 [H2 H3]]. split; [exact H3|]. split; [exact H1|]. split.
  - intros id Hid. rewrite Forall_forall in H2. apply H2. unfold buf_lookup in Hid.
    destruct (in_dec Z.eq_dec id (keys b)) as [Hin|Hn]; [exact Hin|]. apply bget_none in Hn. contradiction.
  - intros v. cbn [buf_step]. unfold buf_add. destruct (Z.ltb_spec size (zlen b + 1)); cbn [snd]; split; intros H0; try reflexivity; try discriminate; lia.
Qed.
Print Assumptions C50_capacity.
(** Fetching returns what looking at the id shows, removes that id, and touches no other; looking changes nothing. *)
Theorem C50_fetch : forall (P : Type) size (os : list (bop P)) id, 0 <= size ->
  let b := fst (buf_run size [] os) in
  snd (buf_step size b (BPop id)) = RPop (match buf_lookup b id with Some v => Ok v | None => Err EKey end) /\
  buf_lookup (fst (buf_step size b (BPop id))) id = None /\
  (forall id', id' <> id -> buf_lookup (fst (buf_step size b (BPop id))) id' = buf_lookup b id') /\
  fst (buf_step size b (BLook id)) = b.
Proof.
  intros P size os id Hs b. assert (Hb : buf_ok size b).
  { apply buf_run_ok. split; [constructor|]. split; [constructor|exact Hs]. }
  destruct Hb as [H1 _]. cbn [buf_step]. unfold buf_pop, buf_lookup. destruct (bget b id) as [v|] eqn:E; cbn [fst snd].
  - split; [reflexivity|]. split; [rewrite bget_del, Z.eqb_refl by exact H1; reflexivity|]. split; [|reflexivity].
    intros id' Hne. rewrite bget_del by exact H1. destruct (Z.eqb_spec id id'); [congruence|reflexivity].
  - split; [reflexivity|]. split; [exact E|]. split; reflexivity.
Qed.
Print Assumptions C50_fetch.
(** As long as packets are fetched newest first the buffer is exactly a pile: every stored packet keeps its id until
    fetched.  Missing for the full statement: fetches in another order (see the refutation). *)
Theorem C50_pile_partial : forall (P : Type) size (os : list (bop P)), newest_first size [] os ->
  snd (buf_run size [] os) = snd (pile_run size [] os).
Proof. intros P size os H. change (@nil (Z * P)) with (@number P 1 []). rewrite (pile_run_sim size os [] H). reflexivity. Qed.
Print Assumptions C50_pile_partial.
Example C50_pile_example :
  newest_first 2 [] [BAdd 10; BAdd 11; BAdd 12; BPop 2; BLook 1; BAdd 13; BPop 7; BLook 2] /\
  snd (buf_run 2 [] [BAdd 10; BAdd 11; BAdd 12; BPop 2; BLook 1; BAdd 13; BPop 7; BLook 2]) =
    [RId (Some 1); RId (Some 2); RId None; RPop (Ok 11); RLook (Some 10); RId (Some 2); RPop (Err EKey); RLook (Some 13)].
Proof. split; [repeat (split; [first [exact I|right; vm_compute; discriminate]|]); exact I|vm_compute; reflexivity]. Qed.
(** Full statement: storing never changes what another id shows.  False: after fetching packet 1 of two, the next packet
    stored takes id 2 and the packet there is lost, with room to spare. *)
Theorem C50_keep_refuted : exists (os : list (bop Z)) v id,
  let b := fst (buf_run 10 [] os) in
  buf_lookup b id = Some 11 /\ snd (buf_step 10 b (BAdd v)) = RId (Some id) /\
  buf_lookup (fst (buf_step 10 b (BAdd v))) id = Some v /\ v <> 11 /\
  forall id', buf_lookup (fst (buf_step 10 b (BAdd v))) id' <> Some 11.
Proof.
  exists [BAdd 10; BAdd 11; BPop 1], 12, 2. cbn. repeat (split; [first [reflexivity|lia]|]).
  intros id'. destruct id' as [|[[|[]|]|[|[]|]|]|]; discriminate.
Qed.

(** ** C79. Matching packets *)
(** A match (OpenFlow 1.0) matches a packet without VLAN tag, ARP, IPv6 or UDP exactly if every field the packet shows is
    wildcarded or equal to the match's (for IP addresses: equal in the bits not wildcarded).  Missing for the full
    statement: those packets, see the refutations. *)
Theorem C79_match_partial : forall m p, wf_m m -> plain p -> no_udp p ->
  exists b, matches_packet m p = Ok b /\ (b = true <-> forall f v, shows p f v -> agrees m f v).
Proof. exact match_right. Qed.
Print Assumptions C79_match_partial.
(** For UDP packets everything but the destination port is compared as it should. *)
Theorem C79_udp_partial : forall m p, wf_m m -> plain p ->
  exists b, matches_packet m p = Ok b /\
    (b = false -> exists f v, shows p f v /\ ~ agrees m f v) /\
    (b = true -> forall f v, shows p f v -> f <> MTpDst -> agrees m f v).
Proof.
  intros m p Hm Hp. destruct (match_iff m p Hm Hp) as [b [E H]]. exists b. split; [exact E|]. split.
  - intros ->. destruct (cmp_fields_spec m p field_map (looked_total p Hp)) as [bs [Eb Hb]].
    unfold matches_packet in E. rewrite Eb in E. cbn [bindr] in E. injection E as E.
    assert (D : forall f v, looked p f v -> agrees m f v \/ ~ agrees m f v).
    { intros f v Hl. pose proof (shows_kind p f v Hp (looked_shows p f v Hp Hl)) as Hk.
      destruct (demand m f v) eqn:Ed; [left; apply (demand_iff m f v Hm Hk); exact Ed|right; intros C; apply (demand_iff m f v Hm Hk) in C; congruence]. }
    clear - H D Hp.
    assert (Fin : (forall f cs c a h v, In (f, cs) field_map -> In (c, a) cs -> pkt_get_header p c = Some h -> pget h a = Ok v -> agrees m f v)
                  \/ exists f v, looked p f v /\ ~ agrees m f v).
    { assert (G : forall l, (forall x, In x l -> In x field_map) ->
        (forall f cs c a h v, In (f, cs) l -> In (c, a) cs -> pkt_get_header p c = Some h -> pget h a = Ok v -> agrees m f v)
        \/ exists f v, looked p f v /\ ~ agrees m f v).
      { induction l as [|[f cs] l IH]; intros Hsub; [left; intros f cs c a h v []|].
        destruct IH as [IH|IH]; [intros x Hx; apply Hsub; right; exact Hx| |right; exact IH].
        assert (K : forall k, (forall x, In x k -> In x cs) ->
          (forall c a h v, In (c, a) k -> pkt_get_header p c = Some h -> pget h a = Ok v -> agrees m f v)
          \/ exists f v, looked p f v /\ ~ agrees m f v).
        { induction k as [|[c a] k IHk]; intros Hk; [left; intros c a h v []|].
          destruct IHk as [IHk|IHk]; [intros x Hx; apply Hk; right; exact Hx| |right; exact IHk].
          destruct (pkt_get_header p c) as [h|] eqn:Eh.
          - destruct (pget h a) as [v|x] eqn:Ev.
            + assert (Hl : looked p f v) by (exists cs, c, a, h; split; [apply Hsub; left; reflexivity|split; [apply Hk; left; reflexivity|auto]]).
              destruct (D f v Hl) as [Y|N]; [|right; exists f, v; auto].
              left. intros c' a' h' v' [Eq|Hin] Hg Hv; [injection Eq as <- <-; assert (h' = h) by congruence; subst; assert (v' = v) by congruence; subst; exact Y|].
              apply (IHk c' a' h' v' Hin Hg Hv).
            + left. intros c' a' h' v' [Eq|Hin] Hg Hv; [injection Eq as <- <-; congruence|]. apply (IHk c' a' h' v' Hin Hg Hv).
          - left. intros c' a' h' v' [Eq|Hin] Hg Hv; [injection Eq as <- <-; congruence|]. apply (IHk c' a' h' v' Hin Hg Hv). }
        destruct (K cs (fun x Hx => Hx)) as [K1|K1]; [|right; exact K1].
        left. intros f' cs' c a h v [Eq|Hin]; [injection Eq as <- <-; apply K1|apply (IH f' cs'); exact Hin]. }
      apply (G field_map). auto. }
    destruct Fin as [Fin|(f & v & Hl & Hn)].
    + exfalso. assert (C : false = true); [|discriminate]. apply H. intros f v (cs & c & a & h & H1 & H2 & H3 & H4). apply (Fin f cs c a h v); assumption.
    + exists f, v. split; [apply looked_shows; assumption|exact Hn].
  - intros -> f v Hs Hne. apply (proj1 H eq_refl). apply shows_looked; auto.
Qed.
Print Assumptions C79_udp_partial.

Definition hwA : bytes := [2; 0; 0; 0; 0; 1].
Definition hwB : bytes := [2; 0; 0; 0; 0; 2].
Definition ex_ip (proto : Z) : ipv4 := mkIp4 0 20 64 7 0 0 proto [10; 0; 0; 1] [10; 0; 1; 2] [].
Definition ex_tcp_pkt : packet := [HEth (mkEth hwB hwA etIP); HIp4 (ex_ip ipTCP); HTcp (mkTcp 1024 80 0 0 0 0 0 0 0)].
Definition ex_udp_pkt : packet := [HEth (mkEth hwB hwA etIP); HIp4 (ex_ip ipUDP); HUdp (mkUdp 1024 53 8 0)].
(** 10.0.0.0/16, port 80, source port and Ethernet addresses wildcarded. *)
Definition ex_m : ofmatch :=
  mkMatch [wcDlSrc; wcDlDst; wcTpSrc] 16 16 0 (repeat 0 6) (repeat 0 6) 0 0 etIP 0 ipTCP [10; 0; 9; 9] [10; 0; 8; 8] 0 80.
Lemma ex_wf : wf_m ex_m.
Proof. unfold wf_m, ip4ok. cbn. split; [|split; [|lia]]; (split; [reflexivity|]); repeat constructor; lia. Qed.
Lemma ex_plain : plain ex_tcp_pkt /\ no_udp ex_tcp_pkt /\ plain ex_udp_pkt.
Proof.
  split; [|split]; [|intros u [C|[C|[C|[]]]]; discriminate|];
    repeat constructor; cbn; try lia.
Qed.
Example C79_example : wf_m ex_m /\ plain ex_tcp_pkt /\ no_udp ex_tcp_pkt /\ matches_packet ex_m ex_tcp_pkt = Ok true /\
  matches_packet ex_m [HEth (mkEth hwB hwA etIP); HIp4 (ex_ip ipTCP); HTcp (mkTcp 1024 81 0 0 0 0 0 0 0)] = Ok false.
Proof. split; [exact ex_wf|]. split; [apply ex_plain|]. split; [apply ex_plain|]. split; vm_compute; reflexivity. Qed.

(** A match built from such a packet (showing one value per field, each storable in a match) has no wildcards, records
    every field the packet shows (the UDP destination port excepted) and matches the packet. *)
Theorem C79_build_partial : forall p, plain p -> (forall f v, shows p f v -> settable f v) ->
  (forall f v w, shows p f v -> shows p f w -> v = w) ->
  exists m, build_from_packet p = Ok m /\ exact m /\ matches_packet m p = Ok true /\
    (forall f v, shows p f v -> no_udp p \/ f <> MTpDst -> mval m f = v).
Proof. exact build_ok. Qed.
Print Assumptions C79_build_partial.
Lemma first_one : forall {A} (p : packet) (mk : A -> hdr) a, first p mk a -> In (mk a) p.
Proof. intros A p mk a (pre & post & -> & _). apply in_or_app. right. left. reflexivity. Qed.
Example C79_build_example : (forall f v, shows ex_tcp_pkt f v -> settable f v) /\
  (forall f v w, shows ex_tcp_pkt f v -> shows ex_tcp_pkt f w -> v = w) /\
  exists m, build_from_packet ex_tcp_pkt = Ok m /\ m_tpdst m = 80 /\ m_nwsrc m = [10; 0; 0; 1].
Proof.
  assert (Sh : forall f v, shows ex_tcp_pkt f v -> In (f, v)
     [(MDlSrc, GHw hwA); (MDlDst, GHw hwB); (MDlType, GInt etIP); (MNwProto, GInt ipTCP); (MNwTos, GInt 0);
      (MNwSrc, GIp [10; 0; 0; 1]); (MNwDst, GIp [10; 0; 1; 2]); (MTpSrc, GInt 1024); (MTpDst, GInt 80)]).
  { intros f v H. destruct H as [e H|e H|e H|i H|i H|i H|i H|t H|t H|u H|u H|c H|c H]; apply first_one in H; cbn [ex_tcp_pkt In] in H;
      repeat (destruct H as [H|H]; [try discriminate; injection H as <-; cbn; tauto|]); destruct H. }
  split; [|split].
  - intros f v H. apply Sh in H. cbn [In] in H.
    repeat (destruct H as [H|H]; [injection H as <- <-; cbn [settable]; first [reflexivity|lia|apply zmem_In; reflexivity|split; [reflexivity|repeat constructor; lia]]|]).
    destruct H.
  - intros f v w H1 H2. apply Sh in H1. apply Sh in H2. cbn [In] in H1, H2.
    repeat (destruct H1 as [H1|H1]; [injection H1 as <- <-;
      repeat (destruct H2 as [H2|H2]; [try discriminate; injection H2 as <-; reflexivity|]); destruct H2|]). destruct H1.
  - eexists. split; [vm_compute; reflexivity|]. split; reflexivity.
Qed.
(** UDP destination ports are not compared, and are not put into a match built from a packet: the table names TCP twice. *)
Theorem C79_udp_refuted : exists m p,
  wf_m m /\ plain p /\ matches_packet m p = Ok true /\ shows p MTpDst (GInt 53) /\ ~ agrees m MTpDst (GInt 53) /\
  exists m', build_from_packet p = Ok m' /\ mval m' MTpDst <> GInt 53.
Proof.
  exists (mkMatch [] 0 0 0 hwA hwB 0 0 etIP 0 ipUDP [10; 0; 0; 1] [10; 0; 1; 2] 1024 80), ex_udp_pkt.
  split; [unfold wf_m, ip4ok; cbn; split; [|split; [|lia]]; (split; [reflexivity|]); repeat constructor; lia|].
  split; [apply ex_plain|]. split; [vm_compute; reflexivity|]. split.
  - apply (sh_udpdst ex_udp_pkt (mkUdp 1024 53 8 0)).
    exists [HEth (mkEth hwB hwA etIP); HIp4 (ex_ip ipUDP)], []. split; [reflexivity|]. intros x [C|[C|[]]]; discriminate.
  - split; [cbn; intros [C|C]; discriminate|]. eexists. split; [vm_compute; reflexivity|]. discriminate.
Qed.
(** Packets with a VLAN tag cannot be matched (unless dl_vlan is wildcarded) nor turned into a match. *)
Theorem C79_vlan_fails : forall m p h, pkt_get_header p CVlan = Some h -> Z.testbit (make_bitmap (m_wild m)) 1 = false ->
  (exists x, matches_packet m p = Err x) /\ (exists x, build_from_packet p = Err x).
Proof.
  intros m p h Hv Hw. split.
  - unfold matches_packet. cbn [field_map cmp_fields].
    destruct (cmp_field m p MDlSrc _) as [l1|x1]; cbn [bindr]; [|eauto]. destruct (cmp_field m p MDlDst _) as [l2|x2]; cbn [bindr]; [|eauto].
    assert (E : cmp_field m p MDlVlan [(CVlan, PVlanName)] = Err EAttr).
    { unfold cmp_field. change (wild_bit MDlVlan) with (2 ^ 1). rewrite land_bit, Hw by lia. cbn [cmp_each]. rewrite Hv. reflexivity. }
    rewrite E. cbn [bindr]. eauto.
  - unfold build_from_packet. cbn [field_map build_fields].
    destruct (build_each match_new p MDlSrc _) as [m1|x1]; cbn [bindr]; [|eauto]. destruct (build_each m1 p MDlDst _) as [m2|x2]; cbn [bindr]; [|eauto].
    cbn [build_each]. rewrite Hv. cbn [pget bindr]. eauto.
Qed.
Print Assumptions C79_vlan_fails.
Theorem C79_vlan_refuted : exists m p, wf_m m /\ m_vlan m = 5 /\ matches_packet m p = Err EAttr /\ build_from_packet p = Err EAttr /\
  p = [HEth (mkEth hwB hwA etVlan); HVlan (mkVlan 5 0 etIP); HIp4 (ex_ip ipTCP); HTcp (mkTcp 1024 80 0 0 0 0 0 0 0)].
Proof.
  exists (mkMatch [] 0 0 0 hwA hwB 5 0 etIP 0 ipTCP [10; 0; 0; 1] [10; 0; 1; 2] 1024 80), [HEth (mkEth hwB hwA etVlan); HVlan (mkVlan 5 0 etIP); HIp4 (ex_ip ipTCP); HTcp (mkTcp 1024 80 0 0 0 0 0 0 0)].
  split; [unfold wf_m, ip4ok; cbn; split; [|split; [|lia]]; (split; [reflexivity|]); repeat constructor; lia|].
  split; [reflexivity|]. split; [vm_compute; reflexivity|]. split; [vm_compute; reflexivity|reflexivity].
Qed.
(** A match with everything wildcarded does not match an IPv6 packet; the match built from an ARP packet is an error; the input port is not looked at. *)
Theorem C79_other_refuted :
  (exists m p, wf_m m /\ m_wild m = [wcAll] /\ m_srcw m = 32 /\ m_dstw m = 32 /\ matches_packet m p = Ok false) /\
  (exists p e, build_from_packet p = Err e) /\
  (exists m p, wf_m m /\ m_inport m = 7 /\ m_wild m = [] /\ matches_packet m p = Ok true).
Proof.
  split; [|split].
  - exists (mkMatch [wcAll] 32 32 0 (repeat 0 6) (repeat 0 6) 0 0 etIP 0 ipTCP [0; 0; 0; 0] [0; 0; 0; 0] 0 0),
      [HEth (mkEth hwB hwA etIPv6); HIp6 ip6_new].
    split; [unfold wf_m, ip4ok; cbn; split; [|split; [|lia]]; (split; [reflexivity|]); repeat constructor; lia|].
    repeat (split; [reflexivity|]). vm_compute. reflexivity.
  - exists [HEth (mkEth hwB hwA etARP); HArp arp_new], EValue. vm_compute. reflexivity.
  - exists (mkMatch [] 0 0 7 hwA hwB 0 0 etIP 0 ipTCP [10; 0; 0; 1] [10; 0; 1; 2] 1024 80), ex_tcp_pkt.
    split; [unfold wf_m, ip4ok; cbn; split; [|split; [|lia]]; (split; [reflexivity|]); repeat constructor; lia|].
    split; [reflexivity|]. split; [reflexivity|vm_compute; reflexivity].
Qed.

(** ** C80. Comparing matches *)
(** If an exact match is reported to match an entry then every (plain) packet it matches is matched by the entry.
    Missing for the full statement: matches with wildcards, see the refutation. *)
Theorem C80_cover_partial : forall m o p, exact m -> wf_m m -> wf_m o -> plain p ->
  matches_entry m o false = Ok true -> matches_packet m p = Ok true -> matches_packet o p = Ok true.
Proof. exact entry_cover. Qed.
Print Assumptions C80_cover_partial.
Example C80_example : let m := mkMatch [] 0 0 0 hwA hwB 0 0 etIP 0 ipTCP [10; 0; 0; 1] [10; 0; 1; 2] 1024 80 in
  exact m /\ matches_entry m ex_m false = Ok true /\ matches_packet m ex_tcp_pkt = Ok true /\ matches_packet ex_m ex_tcp_pkt = Ok true.
Proof. split; [repeat split|]. split; [|split]; vm_compute; reflexivity. Qed.
(** With wildcards of its own a match is still reported to match a narrower entry. *)
Theorem C80_cover_refuted : exists m o p, wf_m m /\ wf_m o /\ plain p /\ matches_entry m o false = Ok true /\
  matches_packet m p = Ok true /\ matches_packet o p = Ok false.
Proof.
  exists (mkMatch [wcTpDst] 0 0 0 hwA hwB 0 0 etIP 0 ipTCP [10; 0; 0; 1] [10; 0; 1; 2] 1024 22),
    (mkMatch [] 0 0 0 hwA hwB 0 0 etIP 0 ipTCP [10; 0; 0; 1] [10; 0; 1; 2] 1024 22), ex_tcp_pkt.
  split; [unfold wf_m, ip4ok; cbn; split; [|split; [|lia]]; (split; [reflexivity|]); repeat constructor; lia|].
  split; [unfold wf_m, ip4ok; cbn; split; [|split; [|lia]]; (split; [reflexivity|]); repeat constructor; lia|].
  split; [apply ex_plain|]. split; [vm_compute; reflexivity|]. split; vm_compute; reflexivity.
Qed.
(** The wildcard "everything" is not recognised when comparing: an exact match is not covered by match-all, although match-all
    matches its packets. *)
Theorem C80_all_refuted : exists m o p, exact m /\ m_wild o = [wcAll] /\ m_srcw o = 32 /\ m_dstw o = 32 /\
  matches_packet m p = Ok true /\ matches_packet o p = Ok true /\ matches_entry m o false = Ok false.
Proof.
  exists (mkMatch [] 0 0 0 hwA hwB 0 0 etIP 0 ipTCP [10; 0; 0; 1] [10; 0; 1; 2] 1024 80),
    (mkMatch [wcAll] 32 32 0 (repeat 0 6) (repeat 0 6) 0 0 etIP 0 ipTCP [0; 0; 0; 0] [0; 0; 0; 0] 0 0), ex_tcp_pkt.
  split; [repeat split|]. split; [reflexivity|]. split; [reflexivity|]. split; [reflexivity|]. split; [|split]; vm_compute; reflexivity.
Qed.
(** Strict comparison ignores the prefix lengths: two matches for different networks compare equal. *)
Theorem C80_strict_refuted : exists m o p, wf_m m /\ wf_m o /\ plain p /\ matches_entry m o true = Ok true /\
  matches_packet m p = Ok true /\ matches_packet o p = Ok false.
Proof.
  exists (mkMatch [wcDlSrc; wcDlDst; wcTpSrc] 16 16 0 (repeat 0 6) (repeat 0 6) 0 0 etIP 0 ipTCP [10; 0; 9; 9] [10; 0; 8; 8] 0 80),
    (mkMatch [wcDlSrc; wcDlDst; wcTpSrc] 0 16 0 (repeat 0 6) (repeat 0 6) 0 0 etIP 0 ipTCP [10; 0; 9; 9] [10; 0; 8; 8] 0 80), ex_tcp_pkt.
  split; [exact ex_wf|].
  split; [unfold wf_m, ip4ok; cbn; split; [|split; [|lia]]; (split; [reflexivity|]); repeat constructor; lia|].
  split; [apply ex_plain|]. split; [|split]; vm_compute; reflexivity.
Qed.

(** ** C51. The flow table *)
(** Lookup without naming an input port, after any history of the code as it stands: it returns the actions of a matching
    entry of highest priority and counts the packet on that entry only, or nothing if no entry matches.  Missing for the
    full statement: lookups that name a port and tables of more than one entry (see below). *)
Theorem C51_lookup_partial : forall os now p t' r, let t := ft_run false [] os in
  ft_match false now t None p = (t', Ok r) ->
  match r with
  | Some l => exists e n, best t p e /\ l = te_acts e /\ pkt_len p = Ok n /\
              t' = map (fun _ => te_update now n e) t
  | None => t' = t /\ forall e, In e t -> matches_packet (te_match e) p <> Ok true
  end.
Proof.
  intros os now p t' r t H. assert (L : (length t <= 1)%nat) by (apply run_small; cbn; lia).
  destruct r as [l|].
  - destruct (match_first false now t None p t' l (or_intror eq_refl) H) as (pre & e & post & n & E & He & Hl & Hn & Ht & Hp).
    rewrite E, app_length in L. cbn [length] in L. assert (pre = []) by (destruct pre; [reflexivity|cbn [length] in L; lia]).
    assert (post = []) by (destruct post; [reflexivity|cbn [length] in L; lia]). subst pre post. cbn [app] in *.
    exists e, n. rewrite E. split; [|split; [exact Hl|split; [exact Hn|exact Ht]]].
    split; [left; reflexivity|]. split; [apply He|]. intros e' [<-|[]] _. lia.
  - destruct (match_none false now t None p t' (or_intror eq_refl) H) as [H1 H2]. split; [exact H1|].
    intros e Hin C. apply (H2 e Hin). split; [exact C|exact I].
Qed.
Print Assumptions C51_lookup_partial.
Definition ex_fm1 : flowmod := mkFm ex_m 1 0 0 0 5 0 0 [] [act_output 3].
Example C51_lookup_example : exists t', ft_match false 9 (ft_run false [] [FAdd 1 ex_fm1; FModify 2 ex_fm1]) None ex_tcp_pkt = (t', Ok (Some [act_output 3])).
Proof. eexists. vm_compute. reflexivity. Qed.
(** As the code stands: adding always fails (NameError) and leaves the table alone, no history gives a table of two
    entries, and no lookup naming an input port ever returns actions. *)
Theorem C51_stands :
  (forall now t f, ft_add false now t f = (t, Err EName)) /\
  (forall os, (length (ft_run false [] os) <= 1)%nat) /\
  (forall now t i p t' l, ft_match false now t (Some i) p <> (t', Ok (Some l))).
Proof.
  split; [reflexivity|]. split; [intros os; apply run_small; cbn; lia|].
  intros now t i p t' l H. exact (match_port_false now t i p t' l H).
Qed.
Print Assumptions C51_stands.
Theorem C51_lookup_refuted : exists os now i p, let t := ft_run false [] os in
  (exists e, best t p e /\ m_inport (te_match e) = i) /\ snd (ft_match false now t (Some i) p) = Err EName.
Proof.
  exists [FModify 2 ex_fm1], 3, 0, ex_tcp_pkt. split; [|vm_compute; reflexivity].
  exists (te_new 2 ex_fm1). split; [|reflexivity]. split; [left; reflexivity|]. split; [vm_compute; reflexivity|].
  intros e' [<-|[]] _. lia.
Qed.
(** Nothing is ever deleted, with or without the missing names; an error is raised whenever something should be. *)
Theorem C51_delete_fails : forall g t m s, fst (ft_delete g t m s) = t /\
  (forall e, In e t -> overlaps_with (te_match e) m s = Ok true -> exists x, snd (ft_delete g t m s) = Err x).
Proof.
  intros g t m s. split; [apply delete_keeps|]. intros e Hin Ho. unfold ft_delete.
  destruct (ft_tbd t m s) as [l|x] eqn:E; [|cbn [snd]; eauto]. assert (Hl : l <> []).
  { revert l E. induction t as [|y t IH]; intros l E; [destruct Hin|]. cbn [ft_tbd] in E.
    apply bindr_ok in E. destruct E as [o [Eo E]]. apply bindr_ok in E. destruct E as [r [Er E]]. injection E as <-.
    destruct Hin as [->|Hin]; [rewrite Ho in Eo; injection Eo as <-; discriminate|]. specialize (IH Hin r Er). destruct o; [discriminate|exact IH]. }
  destruct l; [contradiction|]. cbn [snd]. eauto.
Qed.
Print Assumptions C51_delete_fails.
Theorem C51_delete_refuted : exists os m e, let t := ft_run false [] os in
  In e t /\ te_match e = m /\ ft_delete false t m true = (t, Err EName).
Proof.
  exists [FModify 2 ex_fm1], ex_m, (te_new 2 ex_fm1). split; [left; reflexivity|]. split; [reflexivity|vm_compute; reflexivity].
Qed.
(** With the names imported: a lookup returns the actions of the first eligible entry in table order, which after every
    history is one of LOWEST priority among the eligible ones. *)
Theorem C51_order : forall os now i p t' l, let t := ft_run true [] os in
  ft_match true now t i p = (t', Ok (Some l)) ->
  exists e, In e t /\ eligible p i e /\ l = te_acts e /\ forall e', In e' t -> eligible p i e' -> te_prio e <= te_prio e'.
Proof.
  intros os now i p t' l t H. assert (A : ascending t) by (apply run_asc; exact I).
  destruct (match_first true now t i p t' l (or_introl eq_refl) H) as (pre & e & post & n & E & He & Hl & _ & _ & Hp).
  exists e. split; [rewrite E; apply in_or_app; right; left; reflexivity|]. split; [exact He|]. split; [exact Hl|].
  intros e' Hin He'. rewrite E in Hin, A. apply in_app_or in Hin. destruct Hin as [Hin|[<-|Hin]]; [destruct (Hp e' Hin He')|lia|].
  clear - A Hin. induction pre as [|y pre IH]; cbn [app ascending] in A; [apply A; exact Hin|apply IH; apply A].
Qed.
Print Assumptions C51_order.
Theorem C51_miss : forall now t i p t', ft_match true now t i p = (t', Ok None) -> t' = t /\ forall e, In e t -> ~ eligible p i e.
Proof. intros now t i p t'. apply match_none. left. reflexivity. Qed.
Print Assumptions C51_miss.
(** So the lookup is not of highest priority: two entries match, the one of priority 1 wins over that of priority 9. *)
Theorem C51_priority_refuted : exists os now i p l, let t := ft_run true [] os in
  snd (ft_match true now t i p) = Ok (Some l) /\ ~ exists e, best t p e /\ te_acts e = l.
Proof.
  exists [FAdd 1 (mkFm ex_m 1 0 0 0 9 0 0 [] [act_output 9]); FAdd 2 (mkFm ex_m 2 0 0 0 1 0 0 [] [act_output 1])], 3, None, ex_tcp_pkt, [act_output 1].
  split; [vm_compute; reflexivity|]. intros (e & (Hin & _ & Hb) & Ha).
  set (t := ft_run true [] _) in *. vm_compute in t. subst t. destruct Hin as [<-|[<-|[]]].
  - assert (C : 9 <= 1); [|lia].
    match goal with H : forall e', In e' [?a; ?b] -> _ |- _ => specialize (H b (or_intror (or_introl eq_refl)) eq_refl) end. exact Hb.
  - discriminate.
Qed.
(** With the names imported, adding keeps every entry and adds the new one. *)
Theorem C51_add : forall now t f, snd (ft_add true now t f) = Ok false ->
  forall x, In x (fst (ft_add true now t f)) <-> x = te_new now f \/ In x t.
Proof. exact add_in. Qed.
Print Assumptions C51_add.
Example C51_order_example : exists t', ft_match true 3 (ft_run true []
   [FAdd 1 (mkFm ex_m 1 0 0 0 9 0 0 [] [act_output 9]); FAdd 2 (mkFm ex_m 2 0 0 0 1 0 0 [] [act_output 1])]) (Some 0) ex_tcp_pkt
   = (t', Ok (Some [act_output 1])) /\ map te_pkts t' = [1; 0] /\
   snd (ft_add true 4 t' ex_fm1) = Ok false.
Proof. eexists. split; [vm_compute; reflexivity|]. split; vm_compute; reflexivity. Qed.

(** ** C81. Expiry *)
(** An entry that has matched before, or has no idle timeout, is reported expired exactly when one of its timeouts ran out. *)
Theorem C81_expired_partial : forall now e, te_last e <> Some 0 -> (te_last e = None -> te_idle e <= 0) ->
  (te_expired now e = true <-> overdue now e).
Proof. exact expired_iff. Qed.
Print Assumptions C81_expired_partial.
(** With the names imported, an expiry run removes and reports, in order, exactly the expired entries that ask for a
    notification. *)
Theorem C81_removed : forall now t, let gone := filter (fun e => te_expired now e && Z.testbit (te_flags e) 0) t in
  let kept := filter (fun e => negb (te_expired now e && Z.testbit (te_flags e) 0)) t in
  ft_expire true now t = (kept, Ok gone).
Proof.
  intros now t gone0 kept. rewrite expire_spec. unfold gone0, kept, gone.
  assert (B : forall z, negb (Z.land z 1 =? 0) = Z.testbit z 0).
  { intros z. rewrite Z.land_comm. change 1 with (2 ^ 0). apply land_bit. lia. }
  f_equal; [|f_equal]; apply filter_ext; intros e; rewrite B; reflexivity.
Qed.
Print Assumptions C81_removed.
(** An entry with an idle timeout that has not matched yet expires at the first check, however young; entries that do not
    ask for a notification are never removed; as the code stands, the first expired entry makes the check fail. *)
Theorem C81_idle_refuted : exists f created now, now = created + 1 /\ ~ overdue now (te_new created f) /\ te_expired now (te_new created f) = true.
Proof. exists (mkFm ex_m 1 0 60 0 5 0 0 [] []), 1000, 1001. split; [reflexivity|]. split; [unfold overdue; cbn; lia|reflexivity]. Qed.
Theorem C81_keep_refuted : exists now e, overdue now e /\ te_expired now e = true /\ ft_expire true now [e] = ([e], Ok []).
Proof. exists 2000, (te_new 1000 (mkFm ex_m 1 0 0 60 5 0 0 [] [])). split; [right; cbn; lia|]. split; reflexivity. Qed.
Theorem C81_stands : forall now t e, In e t -> te_expired now e = true -> ft_expire false now t = (t, Err EName).
Proof. intros now t e H1 H2. destruct (expire_false now t) as [t' [E ->]]; [eauto|exact E]. Qed.
Theorem C81_stands_refuted : exists now t e, In e t /\ overdue now e /\ ft_expire false now t = (t, Err EName).
Proof.
  exists 2000, [te_new 1000 (mkFm ex_m 1 0 0 60 5 0 0 [1] [])], (te_new 1000 (mkFm ex_m 1 0 0 60 5 0 0 [1] [])).
  split; [left; reflexivity|]. split; [right; cbn; lia|reflexivity].
Qed.
Example C81_example : let e := te_update 1500 64 (te_new 1000 (mkFm ex_m 1 0 60 0 5 0 0 [1] [])) in
  te_expired 1561 e = true /\ te_expired 1560 e = false /\ ft_expire true 1561 [e] = ([], Ok [e]).
Proof. split; [reflexivity|]. split; reflexivity. Qed.

(** ** C82. The controller connection *)
(** Sending: whatever amounts the socket accepts, what was handed over is a prefix of the message, in order, without gaps or
    repeats; if it accepts at least one byte each time, the whole message. *)
Theorem C82_send : forall raw rvs,
  (exists rest, raw = List.concat (cc_send true raw rvs) ++ rest) /\
  (Forall (fun n => (0 < n)%nat) rvs -> (length raw <= length rvs)%nat -> List.concat (cc_send true raw rvs) = raw).
Proof.
  intros raw rvs. unfold cc_send. cbn [negb]. destruct (cc_send_loop raw (length raw) rvs) as [l r] eqn:E. cbn [fst].
  destruct (send_prefix rvs raw (length raw) l r (le_n _) E) as [H1 H2]. rewrite Nat.sub_diag in H2. cbn [skipn] in H2. split.
  - eexists. symmetry. exact H2.
  - intros Hp Hl. pose proof (send_enough rvs raw (length raw) (le_n _) Hp Hl) as H0. rewrite E in H0. cbn [snd] in H0. subst r.
    rewrite Nat.sub_0_r, skipn_all, app_nil_r in H2. exact H2.
Qed.
Print Assumptions C82_send.
Example C82_send_example : cc_send true [1; 2; 3; 4; 5] [2; 1; 9; 1; 1]%nat = [[1; 2]; [3]; [4; 5]].
Proof. reflexivity. Qed.
(** Receiving: if the eight header bytes arrive in one piece, then however the rest is cut into segments the bytes collected
    are exactly one message, as its length field says, and what follows is left in the stream.  Missing for the full
    statement: headers that arrive in pieces, and a peer that closes within a message. *)
Theorem C82_frame_partial : forall fuel h body seg segs rest v r,
  length h = 8%nat -> hdr_from h = Ok (v, r) -> oh_len v = 8 + zlen body -> (8 <= length seg)%nat ->
  List.concat (seg :: segs) = h ++ body ++ rest -> (length body <= fuel)%nat ->
  exists s', cc_collect fuel true (seg :: segs) = Ok (Some (h ++ body), s') /\ List.concat s' = rest.
Proof. exact collect_ok. Qed.
Print Assumptions C82_frame_partial.
Example C82_frame_example :
  cc_collect 10 true [[1; 2; 0; 12; 0; 0; 0; 9; 65]; [66]; []; [67; 68; 1; 0]; [0; 8]] =
    Ok (Some [1; 2; 0; 12; 0; 0; 0; 9; 65; 66; 67; 68], [[1; 0]; [0; 8]]).
Proof. vm_compute. reflexivity. Qed.
(** A header cut in two is an error although the whole message is on its way. *)
Theorem C82_split_refuted : exists s h body, List.concat s = h ++ body /\ length h = 8%nat /\
  (exists v r, hdr_from h = Ok (v, r) /\ oh_len v = 8 + zlen body) /\ forall fuel, cc_collect fuel true s = Err EExc.
Proof.
  exists [[1; 0; 0]; [8; 0; 0; 0; 9]], [1; 0; 0; 8; 0; 0; 0; 9], []. split; [reflexivity|]. split; [reflexivity|].
  split; [eexists; eexists; split; [vm_compute; reflexivity|reflexivity]|]. intros fuel. reflexivity.
Qed.
(** A connection closed within a message: the receiver loops for ever. *)
Theorem C82_eof_refuted : exists s, forall fuel, cc_collect fuel true s = Err EFuel.
Proof.
  exists [[1; 2; 0; 12; 0; 0; 0; 9; 65]]. intros fuel. unfold cc_collect. cbn [negb].
  change (recv 8 [[1; 2; 0; 12; 0; 0; 0; 9; 65]]) with ([1; 2; 0; 12; 0; 0; 0; 9], [[65]]). cbv iota zeta.
  assert (E : hdr_from [1; 2; 0; 12; 0; 0; 0; 9] = Ok (mkOh 1 2 12 9 None, [])) by (vm_compute; reflexivity).
  rewrite E. cbn [bindr fst oh_len]. change (12 - 8) with 4.
  destruct fuel as [|fuel]; [reflexivity|]. cbn [recv_rest].
  change (4 <=? 0) with false. cbv iota. change (recv (Z.to_nat 4) [[65]]) with ([65], @nil bytes). cbv iota beta.
  rewrite recv_rest_eof; [reflexivity|vm_compute; reflexivity|reflexivity].
Qed.
(** As the code stands it never connects, so nothing is sent and nothing received. *)
Theorem C82_connect_fails : forall reach raw rvs fuel s,
  cc_connect false reach false = false /\ cc_send (cc_connect false reach false) raw rvs = [] /\
  cc_receive fuel (cc_connect false reach false) s = Ok (None, s).
Proof. intros reach raw rvs fuel s. repeat split. Qed.
Theorem C82_connect_refuted : exists raw rvs s, raw <> [] /\ List.concat s <> [] /\
  cc_send (cc_connect false true false) raw rvs = [] /\ cc_receive 100 (cc_connect false true false) s = Ok (None, s).
Proof. exists [1; 0; 0; 8; 0; 0; 0; 9], [8%nat], [[1; 0; 0; 8; 0; 0; 0; 9]]. split; [discriminate|]. split; [discriminate|]. split; reflexivity. Qed.

(** ** C83. Applying actions *)
(** Flooding sends once out of every interface except the one the packet came in by. *)
Theorem C83_flood : forall ifs nc i, NoDup ifs -> exists out,
  process_actions ifs nc i [act_output 0xfffb] = (map SIntf out, None) /\ NoDup out /\
  forall x, In x out <-> In x ifs /\ fst x <> i.
Proof.
  intros ifs nc i Hn. exists (filter (fun x => negb (fst x =? i)) ifs). split; [apply flood_sends|].
  split; [apply NoDup_filter; exact Hn|]. intros x. rewrite filter_In, negb_true_iff, Z.eqb_neq. reflexivity.
Qed.
Print Assumptions C83_flood.
Example C83_flood_example : process_actions [(0, [97]); (1, [98]); (2, [99])] 0 1 [act_output 0xfffb] = ([SIntf (0, [97]); SIntf (2, [99])], None).
Proof. reflexivity. Qed.
(** Output actions to ordinary ports are carried out one by one in order; lists of actions run in order, the first one that
    raises ends the run. *)
Theorem C83_order : forall ifs nc i ports l2, Forall (fun z => 0 <= z < 0xff00) ports ->
  process_actions ifs nc i (map act_output ports ++ l2) =
    (map SPort ports ++ fst (process_actions ifs nc i l2), snd (process_actions ifs nc i l2)).
Proof.
  intros ifs nc i ports l2 H. rewrite actions_app; rewrite (ports_sends ifs nc i ports H); reflexivity.
Qed.
Print Assumptions C83_order.
(** Set-field actions are not carried out: any of them raises, and what follows is dropped; removing a VLAN tag does nothing. *)
Theorem C83_setfield_fails : forall ifs nc i ports a l2, Forall (fun z => 0 <= z < 0xff00) ports ->
  match a_body a with AOutput _ _ => False | AStripVlan => False | _ => True end ->
  process_actions ifs nc i (map act_output ports ++ a :: l2) = (map SPort ports, Some EExc).
Proof.
  intros ifs nc i ports a l2 H Ha. rewrite (C83_order ifs nc i ports (a :: l2) H). cbn [process_actions].
  assert (E : act_call ifs nc i a = ([], Some EExc)) by (unfold act_call; destruct (a_body a); try reflexivity; destruct Ha).
  rewrite E. cbn [fst snd]. rewrite app_nil_r. reflexivity.
Qed.
Print Assumptions C83_setfield_fails.
Theorem C83_setfield_refuted : exists ifs i l, l = [mkAct 5 16 (ADlAddr hwA); act_output 2] /\ process_actions ifs 0 i l = ([], Some EExc).
Proof. exists [(0, [97]); (1, [98])], 0. eexists. split; [reflexivity|]. apply (C83_setfield_fails _ 0 0 []); [constructor|exact I]. Qed.

(** C83. The port an action names: the input port by its alias; the other reserved ports are not implemented, and sending to
    the controller fails as soon as there is one. *)
Theorem C83_inport : forall ifs nc i l, process_actions ifs nc i (act_output 0xfff8 :: l) =
  (SPort i :: fst (process_actions ifs nc i l), snd (process_actions ifs nc i l)).
Proof. intros. cbn [process_actions act_call a_body act_output Z.eqb Pos.eqb]. destruct (process_actions ifs nc i l). reflexivity. Qed.
Theorem C83_reserved_fails : forall ifs nc i p l, In p [0xfff9; 0xfffa; 0xfffc; 0xfffe; 0xffff] -> process_actions ifs nc i (act_output p :: l) = ([], Some EExc).
Proof. intros ifs nc i p l H. cbn [In] in H. repeat (destruct H as [<-|H]; [reflexivity|]). contradiction. Qed.
Theorem C83_controller_refuted : exists ifs i l, process_actions ifs 1 i (act_output 0xfffd :: l) = ([], Some EAttr) /\ l = [act_output 1].
Proof. exists [], 0. eexists. split; [|reflexivity]. reflexivity. Qed.
(** C51. With overlap checking asked for, an entry is refused exactly when one of the same priority and the same match is
    there; without it never. *)
Theorem C51_overlap : forall now t f b, match_to (fm_match f) = Ok b -> (forall e, In e t -> exists c, match_to (te_match e) = Ok c) ->
  (In 2 (fm_flags f) -> ((ft_add true now t f = (t, Ok true)) <-> exists e, In e t /\ te_prio e = fm_prio f /\ match_to (te_match e) = Ok b)) /\
  (~ In 2 (fm_flags f) -> snd (ft_add true now t f) = Ok false).
Proof.
  intros now t f b Hb Ht. split.
  - intros H2. apply zmem_In in H2. unfold ft_add. cbn [negb]. rewrite H2. cbv zeta.
    match goal with |- (match ?c t with _ => _ end = _) <-> _ => set (clash := c) end.
    assert (C : forall l, (forall e, In e l -> exists c, match_to (te_match e) = Ok c) ->
      exists r, clash l = Ok r /\ (r = true <-> exists e, In e l /\ te_prio e = fm_prio f /\ match_to (te_match e) = Ok b)).
    { induction l as [|e l IH]; intros Hl; [exists false; split; [reflexivity|]; split; [discriminate|intros (e & [] & _)]|].
      destruct (Hl e (or_introl eq_refl)) as [c Hc]. destruct (IH (fun x Hx => Hl x (or_intror Hx))) as (r & Hr & Hi).
      cbn [clash]. fold clash. unfold overlaps_with, matches_entry. cbn [te_new te_match te_prio]. rewrite Hb, Hc. cbn [bindr].
      destruct (bytes_eqb b c) eqn:Eb; cbn [andb].
      - apply bytes_eqb_eq in Eb. subst c. destruct (Z.eqb_spec (te_prio e) (fm_prio f)) as [Ep|Np].
        + exists true. split; [reflexivity|]. split; [|reflexivity]. intros _. exists e. split; [left; reflexivity|]. auto.
        + exists r. split; [exact Hr|]. rewrite Hi. split; intros (x & Hx & H3 & H4); [exists x; split; [right; exact Hx|]; auto|].
          destruct Hx as [<-|Hx]; [congruence|]. exists x. auto.
      - exists r. split; [exact Hr|]. rewrite Hi. split; intros (x & Hx & H3 & H4); [exists x; split; [right; exact Hx|]; auto|].
        destruct Hx as [<-|Hx]; [|exists x; auto]. rewrite Hc in H4. injection H4 as ->. exfalso. rewrite (proj2 (bytes_eqb_eq b b) eq_refl) in Eb. discriminate. }
    destruct (C t Ht) as (r & Hr & Hi). rewrite Hr. rewrite <- Hi. destruct r; split; intros X; try reflexivity; try discriminate X.
  - intros H2. unfold ft_add. cbn [negb]. destruct (zmem 2 (fm_flags f)) eqn:E; [apply zmem_In in E; contradiction|]. reflexivity.
Qed.
Print Assumptions C51_overlap.
Example C51_overlap_example : ft_add true 5 [te_new 2 ex_fm1] (mkFm (fm_match ex_fm1) 7 0 0 0 (fm_prio ex_fm1) 0 0 [2] []) = ([te_new 2 ex_fm1], Ok true) /\
  snd (ft_add true 5 [te_new 2 ex_fm1] (mkFm (fm_match ex_fm1) 7 0 0 0 (fm_prio ex_fm1 + 1) 0 0 [2] [])) = Ok false.
Proof. split; vm_compute; reflexivity. Qed.
(** C79. The type of a tagged frame: both the type after the tag and the tag's own have to be the one asked for. *)
Lemma cmp_fields_in : forall m p l f cs, In (f, cs) l -> forall bs, cmp_fields m p l = Ok bs -> forallb (fun x => x) bs = true ->
  exists cs', cmp_field m p f cs = Ok cs' /\ forallb (fun x => x) cs' = true.
Proof.
  intros m p. induction l as [|[g ds] l IH]; intros f cs Hin bs H Hb; [destruct Hin|]. cbn [cmp_fields] in H. apply bindr_ok in H. destruct H as (a & Ha & H).
  apply bindr_ok in H. destruct H as (b & Hb2 & H). injection H as <-. rewrite forallb_app in Hb. apply andb_true_iff in Hb. destruct Hb as [B1 B2].
  destruct Hin as [E|Hin]; [injection E as -> ->; eauto|eapply IH; eauto].
Qed.
Theorem C79_tagged_fails : forall m p v e, pkt_get_header p CVlan = Some (HVlan v) -> pkt_get_header p CEth = Some (HEth e) ->
  Z.testbit (make_bitmap (m_wild m)) 4 = false -> matches_packet m p = Ok true -> vl_type v = m_dltype m /\ eth_type e = m_dltype m.
Proof.
  intros m p v e Hv He Hw H. unfold matches_packet in H. apply bindr_ok in H. destruct H as (bs & Hb & H). injection H as H.
  destruct (cmp_fields_in m p field_map MDlType [(CVlan, PA FEthertype); (CEth, PA FEthertype)] ltac:(cbn; tauto) bs Hb H) as (l & Hl & Fl).
  unfold cmp_field in Hl. change (wild_bit MDlType) with (2 ^ 4) in Hl. rewrite land_bit, Hw in Hl by lia. cbn [negb cmp_each] in Hl. rewrite Hv, He in Hl.
  cbn [pget get bindr mval gval_eqb] in Hl. injection Hl as <-. cbn [forallb] in Fl. lia.
Qed.
Print Assumptions C79_tagged_fails.
Theorem C79_tagged_refuted : exists m p v, pkt_get_header p CVlan = Some (HVlan v) /\ vl_type v = etIP /\ m_dltype m = etIP /\ m_wild m = [wcDlVlan; wcDlVlanPcp] /\ m_srcw m = 32 /\ m_dstw m = 32 /\ matches_packet m p = Ok false.
Proof.
  exists (mkMatch [wcDlVlan; wcDlVlanPcp] 32 32 0 hwA hwB 0 0 etIP 0 ipTCP [10; 0; 0; 1] [10; 0; 1; 2] 1024 80), [HEth (mkEth hwB hwA etVlan); HVlan (mkVlan 5 0 etIP); HIp4 (ex_ip ipTCP); HTcp (mkTcp 1024 80 0 0 0 0 0 0 0)].
  eexists. split; [vm_compute; reflexivity|]. repeat (split; [reflexivity|]). vm_compute. reflexivity.
Qed.

(** C82.  So a message that was sent is what the receiver reads, however the bytes after the header were cut. *)
Theorem C82_received_partial : forall fuel h body seg segs rest v r p, length h = 8%nat -> hdr_from h = Ok (v, r) -> oh_len v = 8 + zlen body -> (8 <= length seg)%nat ->
  List.concat (seg :: segs) = h ++ body ++ rest -> (length body <= fuel)%nat -> of_parse (h ++ body) = Ok p ->
  exists s', cc_receive fuel true (seg :: segs) = Ok (Some p, s') /\ List.concat s' = rest.
Proof.
  intros fuel h body seg segs rest v r p H1 H2 H3 H4 H5 H6 P. destruct (collect_ok fuel h body seg segs rest v r H1 H2 H3 H4 H5 H6) as (s' & C & E). exists s'. split; [|exact E].
  unfold cc_receive. rewrite C. cbn [bindr fst snd]. rewrite P. reflexivity.
Qed.
Print Assumptions C82_received_partial.
Example C82_received_example : cc_receive 10 true [[1; 2; 0; 12; 0; 0; 0; 9; 65]; [66]; []; [67; 68; 1; 0]; [0; 8]] = Ok (Some [PHdr (mkOh 1 2 12 9 None); PBody (BEchoReq [65; 66; 67; 68])], [[1; 0]; [0; 8]]).
Proof. vm_compute. reflexivity. Qed.
