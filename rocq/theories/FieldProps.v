(** C78: header attributes.  Reading gives what was assigned, assignments do not disturb other attributes, constructor
    keywords are assignments over the documented defaults, and impossible values are refused. *)
From Verif Require Import Base BaseLemmas EthAddrModel Enums EthModel ArpModel Ipv4Model TransportModel Ipv6Model PacketModel
  CodecLemmas FieldModel FieldSpec FieldProofs.

(** Assigning a value the field can hold succeeds, the attribute then reads that value, and every attribute that does
    not show the same information reads as before.  Missing: IPv4.ecn, and Vlan.pcp above 3 (refuted below). *)
Theorem C78_assign_partial :
  forall h a v g, ideal (class_of h) a v = Some g -> faithful (class_of h) a v ->
  exists h', set h a v = Ok h' /\ class_of h' = class_of h /\ get h' a = Some g /\
    forall b, ~ overlaps (class_of h) a b -> get h' b = get h b.
Proof. intros h a v g Hi Hf. exact (setter_run (class_of h) h a v g eq_refl Hi Hf). Qed.
Print Assumptions C78_assign_partial.

(** IPv4.ecn does what it should when the old ECN and the lowest DSCP bit are clear. *)
Theorem C78_ecn_partial :
  forall i v, 0 <= v <= 3 -> 0 <= ip_tos i <= 255 -> Z.testbit (ip_tos i) 1 = false -> Z.testbit (ip_tos i) 2 = false ->
  exists i', set (HIp4 i) FEcn (AInt v) = Ok (HIp4 i') /\ get (HIp4 i') FEcn = Some (GInt v) /\
    get (HIp4 i') FDscp = get (HIp4 i) FDscp.
Proof. exact ecn_run. Qed.
Print Assumptions C78_ecn_partial.

(** A value the field cannot hold is refused; the exception is ValueError except possibly for Ethernet addresses.
    Missing: the attributes without validation (refuted below). *)
Theorem C78_refuse_partial :
  forall h a v, kind_ok (class_of h) a v -> validated (class_of h) a -> ideal (class_of h) a v = None ->
  exists e, set h a v = Err e /\ ((forall x, v <> AHw x) -> e = EValue).
Proof. intros h a v. exact (setter_refuses (class_of h) h a v eq_refl). Qed.
Print Assumptions C78_refuse_partial.

(** An attribute a header does not have cannot be assigned. *)
Theorem C78_unknown :
  forall h a v, get h a = None -> set h a v = Err EAttr.
Proof. exact setter_unknown. Qed.
Print Assumptions C78_unknown.
(** Nor can a computed or fixed one. *)
Theorem C78_readonly :
  forall h a v,
  In (class_of h, a) [(CArp, FHwType); (CArp, FProtoType); (CIp4, FTotalLen); (CUdp, FChecksum); (CUdp, FLength);
                      (CTcp, FOffset); (CTcp, FChecksum); (CTcp, FFlags)] ->
  set h a v = Err EAttr.
Proof. exact setter_readonly. Qed.
Print Assumptions C78_readonly.

(** Every attribute of a fresh header reads its documented default. *)
Theorem C78_defaults :
  forall c h a, new_default c = Some h -> class_of h = c /\ get h a = documented_default c a.
Proof. intros c h a H. split; [exact (default_class c h H)|exact (default_get c h a H)]. Qed.
Print Assumptions C78_defaults.

(** A constructor called with keyword arguments builds a header that reads each given value, and the default
    everywhere else. *)
Theorem C78_keywords_partial :
  forall c kw, known c -> indep c kw ->
  (forall a v, In (a, v) kw -> ideal c a v <> None /\ faithful c a v) ->
  exists h, new_kw c kw = Ok h /\ class_of h = c /\
    (forall a v, In (a, v) kw -> get h a = ideal c a v) /\
    (forall b, (forall a v, In (a, v) kw -> ~ overlaps c a b) -> get h b = documented_default c b).
Proof.
  intros c kw Hk Hi Hok. unfold new_kw. destruct (new_default c) as [h|] eqn:E.
  - destruct (set_all_run c kw h (default_class c h E) Hi Hok) as [h' [Er [Hc [Hg Ho]]]].
    exists h'. split; [exact Er|]. split; [exact Hc|]. split; [exact Hg|].
    intros b Hb. rewrite (Ho b Hb). exact (default_get c h b E).
  - exfalso. cbn [known In] in Hk. unfold known in Hk. cbn [In] in Hk.
    repeat match goal with H : _ \/ _ |- _ => destruct H as [H|H] end; subst; try discriminate E. destruct Hk.
Qed.
Print Assumptions C78_keywords_partial.
(** One bad keyword argument (an impossible value of a validated attribute, or an unknown name) and there is no
    object, wherever it stands among the others. *)
Theorem C78_keywords_refuse_partial :
  forall c kw a v, In (a, v) kw ->
  (kind_ok c a v /\ validated c a /\ ideal c a v = None) \/ (forall h, class_of h = c -> get h a = None) ->
  exists e, new_kw c kw = Err e.
Proof.
  intros c kw a v Hin H. unfold new_kw. destruct (new_default c) as [h|] eqn:E; [|eauto].
  pose proof (default_class c h E) as Hc. destruct H as [[Hk [Hv Hi]]|Hn].
  - exact (set_all_err c kw h a v Hc Hin Hk Hv Hi).
  - exact (set_all_unknown c kw h a v Hc Hin Hn).
Qed.
Print Assumptions C78_keywords_refuse_partial.

(** C78 fails: a VLAN priority of 5 is stored as 3; VLAN identifier 4097 becomes 1; UDP and TCP ports, IPv6 hop limit
    and flow label accept numbers that do not fit (and serialising the header then fails or, for IPv6, sends another
    number); assigning IPv4.ecn keeps old ECN bits and changes the DSCP. *)
Theorem C78_pcp_refuted :
  exists h h', ideal (class_of h) FPcp (AInt 5) = Some (GInt 5) /\ set h FPcp (AInt 5) = Ok h' /\ get h' FPcp = Some (GInt 3).
Proof. exists (HVlan vlan_new). eexists. split; [reflexivity|]. split; reflexivity. Qed.
Print Assumptions C78_pcp_refuted.
Theorem C78_vlanid_refuted :
  exists h h', ideal (class_of h) FVlanid (AInt 4097) = None /\ set h FVlanid (AInt 4097) = Ok h' /\ get h' FVlanid = Some (GInt 1).
Proof. exists (HVlan vlan_new). eexists. split; [reflexivity|]. split; reflexivity. Qed.
Print Assumptions C78_vlanid_refuted.
Theorem C78_unchecked_refuted :
  (forall u z, exists h, set (HUdp u) FSrc (AInt z) = Ok h /\ get h FSrc = Some (GInt z)) /\
  (forall t z, exists h, set (HTcp t) FSeq (AInt z) = Ok h /\ get h FSeq = Some (GInt z)) /\
  (forall i z, exists h, set (HIp6 i) FHopLimit (AInt z) = Ok h /\ get h FTtl = Some (GInt z)) /\
  (exists u, set (HUdp udp_new) FSrc (AInt 70000) = Ok (HUdp u) /\ udp_to_bytes u = Err EStruct).
Proof.
  split; [intros; eexists; split; reflexivity|]. split; [intros; eexists; split; reflexivity|].
  split; [intros; eexists; split; reflexivity|]. eexists. split; [reflexivity|vm_compute; reflexivity].
Qed.
Print Assumptions C78_unchecked_refuted.
Theorem C78_ecn_refuted :
  (exists i h', get (HIp4 i) FEcn = Some (GInt 2) /\ set (HIp4 i) FEcn (AInt 1) = Ok h' /\ get h' FEcn = Some (GInt 3)) /\
  (exists i h', get (HIp4 i) FDscp = Some (GInt 1) /\ set (HIp4 i) FEcn (AInt 1) = Ok h' /\ get h' FDscp = Some (GInt 0)).
Proof.
  split.
  - exists (ip_with_tos 2 ip_new). eexists. split; [reflexivity|]. split; [reflexivity|vm_compute; reflexivity].
  - exists (ip_with_tos 4 ip_new). eexists. split; [reflexivity|]. split; [reflexivity|vm_compute; reflexivity].
Qed.
Print Assumptions C78_ecn_refuted.

(** A case: IPv4(ttl=64, dscp=10, src=10.0.0.1), and a TCP segment with SYN and ECE. *)
Definition ex_kw : list (fld * aval) := [(FTtl, AInt 64); (FDscp, AInt 10); (FSrc, AIp [10; 0; 0; 1])].
Definition ex_tkw : list (fld * aval) := [(FBit SYN, ABool true); (FSeq, AInt 4294967295); (FBit ECE, AInt 7); (FDst, AInt 80)].
Ltac novl := intros [H|[[H1 H2]|[H [[H1 [x Hx]]|[H1 [x Hx]]]]]]; try discriminate; try (apply H1; reflexivity).
Example C78_example :
  known CIp4 /\ indep CIp4 ex_kw /\ (forall a v, In (a, v) ex_kw -> ideal CIp4 a v <> None /\ faithful CIp4 a v) /\
  known CTcp /\ indep CTcp ex_tkw /\ (forall a v, In (a, v) ex_tkw -> ideal CTcp a v <> None /\ faithful CTcp a v) /\
  (exists h, new_kw CIp4 ex_kw = Ok h /\ get h FTos = Some (GInt 40) /\ get h FProtocol = Some (GInt 1)) /\
  (exists h, new_kw CTcp ex_tkw = Ok h /\ get h FFlags = Some (GInt 66) /\ get h (FBit ECE) = Some (GBool true)) /\
  (exists e, new_kw CIp4 [(FTtl, AInt 3); (FTtl, AInt 256)] = Err e).
Proof.
  split; [unfold known; cbn; auto|]. split; [repeat constructor; novl|].
  split. { intros a v H. cbn [ex_kw In] in H. repeat destruct H as [H|H]; try (destruct H; fail); injection H as <- <-; split; try exact I; discriminate. }
  split; [unfold known; cbn; tauto|]. split; [repeat constructor; novl|].
  split. { intros a v H. cbn [ex_tkw In] in H. repeat destruct H as [H|H]; try (destruct H; fail); injection H as <- <-; split; try exact I; discriminate. }
  split; [eexists; split; [vm_compute; reflexivity|split; vm_compute; reflexivity]|].
  split; [eexists; split; [vm_compute; reflexivity|split; vm_compute; reflexivity]|].
  eexists. vm_compute. reflexivity.
Qed.

(** C78. The flag properties are the bits RFC 793, RFC 3168 and RFC 3540 put them at, in the flags field that is sent. *)
Theorem C78_flag_bits : forall t b n, In (b, n) [(FIN, 0); (SYN, 1); (RST, 2); (PSH, 3); (ACK, 4); (URG, 5); (ECE, 6); (CWR, 7); (NS, 8)] ->
  get (HTcp t) (FBit b) = Some (GBool (Z.testbit (tcp_flags t) n)) /\ get (HTcp t) FFlags = Some (GInt (tcp_flags t)).
Proof.
  intros t b n H. split; [|reflexivity]. cbn [get]. rewrite isset_testbit by apply bit_no_nonneg. cbn [In] in H.
  repeat (destruct H as [H|H]; [injection H as <- <-; reflexivity|]). contradiction.
Qed.
Print Assumptions C78_flag_bits.
