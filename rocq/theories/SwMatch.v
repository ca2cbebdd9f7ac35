(** Proofs about OpenflowMatch.matches_packet, build_from_packet and matches_entry. *)
From Verif Require Import Base BaseLemmas EthAddrModel Enums EthModel ArpModel Ipv4Model TransportModel Ipv6Model IcmpModel PacketModel
  CodecLemmas FieldModel FieldProofs OfModel SwModel SwSpec.

(** ** Header lookup *)
Lemma get_header_none : forall p c, pkt_get_header p c = None <-> forall h, In h p -> isinst h c = false.
Proof.
  induction p as [|h p IH]; intros c; cbn [pkt_get_header].
  - split; [intros _ h []|reflexivity].
  - destruct (isinst h c) eqn:E.
    + split; [discriminate|]. intros H. rewrite (H h) in E by (left; reflexivity). discriminate.
    + rewrite IH. split; intros H x.
      * intros [<-|Hx]; auto.
      * intros Hx. apply H. right. exact Hx.
Qed.
Lemma get_header_some : forall p c h, pkt_get_header p c = Some h <->
  exists pre post, p = pre ++ h :: post /\ isinst h c = true /\ forall x, In x pre -> isinst x c = false.
Proof.
  induction p as [|h0 p IH]; intros c h; cbn [pkt_get_header].
  - split; [discriminate|]. intros (pre & post & E & _). destruct pre; discriminate.
  - destruct (isinst h0 c) eqn:E0.
    + split.
      * intros H; injection H as <-. exists [], p. split; [reflexivity|]. split; [exact E0|intros x []].
      * intros (pre & post & E & Hi & Hp). destruct pre as [|y pre]; cbn [app] in E; injection E as -> ->; [reflexivity|].
        rewrite (Hp y) in E0 by (left; reflexivity). discriminate.
    + rewrite IH. split.
      * intros (pre & post & -> & Hi & Hp). exists (h0 :: pre), post. split; [reflexivity|]. split; [exact Hi|].
        intros x [<-|Hx]; auto.
      * intros (pre & post & E & Hi & Hp). destruct pre as [|y pre]; cbn [app] in E; injection E as -> ->.
        -- congruence.
        -- exists pre, post. split; [reflexivity|]. split; [exact Hi|]. intros x Hx. apply Hp. right. exact Hx.
Qed.

(** A class with a single constructor. *)
Definition single {A} (c : hcls) (mk : A -> hdr) : Prop := forall h, isinst h c = true <-> exists a, h = mk a.
Lemma first_iff : forall {A} c (mk : A -> hdr) p a, single c mk -> (first p mk a <-> pkt_get_header p c = Some (mk a)).
Proof.
  intros A c mk p a Hs. rewrite get_header_some. unfold first. split.
  - intros (pre & post & E & Hn). exists pre, post. split; [exact E|]. split; [apply Hs; eauto|].
    intros x Hx. destruct (isinst x c) eqn:Ei; [|reflexivity]. apply Hs in Ei. destruct Ei as [y ->]. destruct (Hn y Hx).
  - intros (pre & post & E & _ & Hp). exists pre, post. split; [exact E|]. intros x Hx.
    assert (Hi : isinst (mk x) c = true) by (apply Hs; eauto). rewrite (Hp _ Hx) in Hi. discriminate.
Qed.
Lemma single_eth : single CEth HEth. Proof. intros []; cbn; split; intros H; eauto; try discriminate; destruct H; discriminate. Qed.
Lemma single_ip4 : single CIp4 HIp4. Proof. intros []; cbn; split; intros H; eauto; try discriminate; destruct H; discriminate. Qed.
Lemma single_tcp : single CTcp HTcp. Proof. intros []; cbn; split; intros H; eauto; try discriminate; destruct H; discriminate. Qed.
Lemma single_udp : single CUdp HUdp. Proof. intros []; cbn; split; intros H; eauto; try discriminate; destruct H; discriminate. Qed.
Lemma get_kind : forall {A} c (mk : A -> hdr) p h, single c mk -> pkt_get_header p c = Some h -> exists a, h = mk a.
Proof.
  intros A c mk p h Hs H. apply get_header_some in H. destruct H as (_ & _ & _ & Hi & _). apply Hs. exact Hi.
Qed.
(** ICMPv6 counts as ICMP; plain packets have none. *)
Lemma plain_in : forall p h, plain p -> In h p -> plain_hdr h.
Proof. intros p h Hp Hin. unfold plain in Hp. rewrite Forall_forall in Hp. auto. Qed.
Lemma get_in : forall p c h, pkt_get_header p c = Some h -> In h p.
Proof. intros p c h H. apply get_header_some in H. destruct H as (pre & post & -> & _). apply in_or_app. right. left. reflexivity. Qed.
Lemma plain_none : forall p c, plain p -> In c [CVlan; CArp; CIp6; CIcmp6] -> pkt_get_header p c = None.
Proof.
  intros p c Hp Hc. apply get_header_none. intros h Hh. apply (plain_in p h Hp) in Hh. cbn [In] in Hc.
  repeat match goal with H : _ \/ _ |- _ => destruct H as [H|H] end; try (destruct Hc; fail); subst c; destruct h; try reflexivity; destruct Hh.
Qed.
Lemma plain_icmp : forall p h, plain p -> pkt_get_header p CIcmp = Some h -> exists c, h = HIcmp c.
Proof.
  intros p h Hp H. pose proof (plain_in p h Hp (get_in _ _ _ H)) as Hh. apply get_header_some in H.
  destruct H as (_ & _ & _ & Hi & _). destruct h; cbn in Hi; try discriminate; eauto. destruct Hh.
Qed.
Lemma first_icmp : forall p c, plain p -> (first p HIcmp c <-> pkt_get_header p CIcmp = Some (HIcmp c)).
Proof.
  intros p c Hp. rewrite get_header_some. unfold first. split.
  - intros (pre & post & E & Hn). exists pre, post. split; [exact E|]. split; [reflexivity|].
    intros x Hx. assert (Hpl : plain_hdr x) by (apply (plain_in p); [exact Hp|rewrite E; apply in_or_app; left; exact Hx]).
    destruct x; cbn; try reflexivity; [destruct (Hn _ Hx)|destruct Hpl].
  - intros (pre & post & E & _ & Hf). exists pre, post. split; [exact E|]. intros x Hx. pose proof (Hf _ Hx) as C. discriminate C.
Qed.

(** ** Comparisons *)
Lemma cmp_each_spec : forall test p cs,
  (forall c a h, In (c, a) cs -> pkt_get_header p c = Some h -> exists v, pget h a = Ok v) ->
  exists l, cmp_each test p cs = Ok l /\
    (forallb (fun x => x) l = true <-> forall c a h v, In (c, a) cs -> pkt_get_header p c = Some h -> pget h a = Ok v -> test v = true).
Proof.
  intros test p cs. induction cs as [|[c a] cs IH]; intros H; cbn [cmp_each].
  - exists []. split; [reflexivity|]. split; [intros _ c a h v []|reflexivity].
  - destruct IH as [l [El Hl]]. { intros c' a' h' Hin. apply (H c' a' h'). right. exact Hin. }
    destruct (pkt_get_header p c) as [h|] eqn:E.
    + destruct (H c a h (or_introl eq_refl) E) as [v Ev]. rewrite Ev. cbn [bindr]. rewrite El. cbn [bindr].
      exists (test v :: l). split; [reflexivity|]. cbn [forallb]. rewrite andb_true_iff, Hl. split.
      * intros [Ht Hr] c' a' h' v' [Eq|Hin] Hg Hv; [injection Eq as <- <-; rewrite E in Hg; injection Hg as <-; congruence|].
        apply (Hr c' a' h' v' Hin Hg Hv).
      * intros Hall. split; [apply (Hall c a h v (or_introl eq_refl) E Ev)|]. intros c' a' h' v' Hin. apply Hall. right. exact Hin.
    + rewrite El. exists l. split; [reflexivity|]. rewrite Hl. split.
      * intros Hr c' a' h' v' [Eq|Hin] Hg Hv; [injection Eq as <- <-; congruence|]. apply (Hr c' a' h' v' Hin Hg Hv).
      * intros Hall c' a' h' v' Hin. apply Hall. right. exact Hin.
Qed.
(** What one field demands of one value. *)
Definition demand (m : ofmatch) (f : mfld) (v : gval) : bool :=
  match f with
  | MNwSrc => if 32 - m_srcw m <? 32 then in_net (m_nwsrc m) (m_srcw m) v else gval_eqb v (mval m f)
  | MNwDst => if 32 - m_dstw m <? 32 then in_net (m_nwdst m) (m_dstw m) v else gval_eqb v (mval m f)
  | _ => negb (Z.land (wild_bit f) (make_bitmap (m_wild m)) =? 0) || gval_eqb v (mval m f)
  end.
Lemma cmp_each_ext : forall t1 t2 p cs, (forall v, t1 v = t2 v) -> cmp_each t1 p cs = cmp_each t2 p cs.
Proof.
  intros t1 t2 p cs H. induction cs as [|[c a] cs IH]; cbn [cmp_each]; [reflexivity|].
  rewrite IH. destruct (pkt_get_header p c); [|reflexivity]. destruct (pget h a); cbn [bindr]; [|reflexivity]. rewrite H. reflexivity.
Qed.
Lemma cmp_field_spec : forall m p f cs,
  (forall c a h, In (c, a) cs -> pkt_get_header p c = Some h -> exists v, pget h a = Ok v) ->
  exists l, cmp_field m p f cs = Ok l /\
    (forallb (fun x => x) l = true <-> forall c a h v, In (c, a) cs -> pkt_get_header p c = Some h -> pget h a = Ok v -> demand m f v = true).
Proof.
  intros m p f cs H.
  assert (W : forall b, (forall v, demand m f v = b || gval_eqb v (mval m f)) ->
    exists l, (if b then Ok [] else cmp_each (fun v => gval_eqb v (mval m f)) p cs) = Ok l /\
    (forallb (fun x => x) l = true <-> forall c a h v, In (c, a) cs -> pkt_get_header p c = Some h -> pget h a = Ok v -> demand m f v = true)).
  { intros b Hb. destruct b.
    - exists []. split; [reflexivity|]. split; [intros _ c a h v _ _ _; rewrite Hb; reflexivity|reflexivity].
    - destruct (cmp_each_spec (demand m f) p cs H) as [l [El Hl]]. exists l. split; [|exact Hl].
      rewrite <- El. apply cmp_each_ext. intros v. rewrite Hb. reflexivity. }
  destruct f; cbn [cmp_field]; try (apply W; intros v; reflexivity).
  - destruct (cmp_each_spec (demand m MNwSrc) p cs H) as [l [El Hl]]. exists l. split; [|exact Hl].
    rewrite <- El. unfold demand. destruct (32 - m_srcw m <? 32); reflexivity.
  - destruct (cmp_each_spec (demand m MNwDst) p cs H) as [l [El Hl]]. exists l. split; [|exact Hl].
    rewrite <- El. unfold demand. destruct (32 - m_dstw m <? 32); reflexivity.
Qed.
Lemma cmp_fields_spec : forall m p l,
  (forall f cs c a h, In (f, cs) l -> In (c, a) cs -> pkt_get_header p c = Some h -> exists v, pget h a = Ok v) ->
  exists bs, cmp_fields m p l = Ok bs /\
    (forallb (fun x => x) bs = true <->
     forall f cs c a h v, In (f, cs) l -> In (c, a) cs -> pkt_get_header p c = Some h -> pget h a = Ok v -> demand m f v = true).
Proof.
  intros m p l. induction l as [|[f cs] l IH]; intros H; cbn [cmp_fields].
  - exists []. split; [reflexivity|]. split; [intros _ f cs c a h v []|reflexivity].
  - destruct IH as [bs [Eb Hb]]. { intros f' cs' c a h Hin. apply (H f' cs'). right. exact Hin. }
    destruct (cmp_field_spec m p f cs) as [l1 [E1 H1]]. { intros c a h. apply (H f cs). left. reflexivity. }
    rewrite E1, Eb. cbn [bindr]. exists (l1 ++ bs). split; [reflexivity|]. rewrite forallb_app, andb_true_iff, H1, Hb. split.
    + intros [Ha Hr] f' cs' c a h v [Eq|Hin]; [injection Eq as <- <-; apply Ha|apply (Hr f' cs'); exact Hin].
    + intros Hall. split; [intros c a h v; apply (Hall f cs); left; reflexivity|].
      intros f' cs' c a h v Hin. apply (Hall f' cs'). right. exact Hin.
Qed.

(** ** Demands against the specification *)
Lemma land_bit : forall k w, 0 <= k -> negb (Z.land (2 ^ k) w =? 0) = Z.testbit w k.
Proof.
  intros k w Hk. destruct (Z.testbit w k) eqn:E.
  - apply negb_true_iff, Z.eqb_neq. intros C.
    assert (Ht : Z.testbit (Z.land (2 ^ k) w) k = false) by (rewrite C; apply Z.bits_0).
    rewrite Z.land_spec, E, Z.pow2_bits_true in Ht by lia. discriminate.
  - apply negb_false_iff, Z.eqb_eq. apply Z.bits_inj'. intros n Hn. rewrite Z.land_spec, Z.bits_0.
    destruct (Z.eq_dec n k) as [->|Hne]; [rewrite E; apply andb_false_r|]. rewrite Z.pow2_bits_false by lia. reflexivity.
Qed.
Lemma wild_bit_no : forall f, f <> MNwSrc -> f <> MNwDst -> wild_bit f = 2 ^ wild_no f /\ 0 <= wild_no f.
Proof. intros [] H1 H2; try contradiction; split; cbn; try reflexivity; lia. Qed.
Definition intlike (f : mfld) (v : gval) : Prop :=
  match f, v with
  | (MDlSrc | MDlDst), GHw _ => True
  | (MNwSrc | MNwDst), GIp a => ip4ok a
  | (MDlVlan | MDlVlanPcp | MDlType | MNwProto | MNwTos | MTpSrc | MTpDst), GInt _ => True
  | _, _ => False
  end.
Lemma gval_eqb_eq : forall f m v, intlike f v -> (gval_eqb v (mval m f) = true <-> v = mval m f).
Proof.
  intros f m v H. destruct f; destruct v; try (destruct H; fail); cbn [mval gval_eqb];
    rewrite ?Z.eqb_eq, ?bytes_eqb_eq; split; congruence.
Qed.
Lemma net_iff : forall net w a, ip4ok net -> ip4ok a -> 0 <= w <= 32 ->
  (in_net net w (GIp a) = true <-> unbe a / 2 ^ w = unbe net / 2 ^ w).
Proof.
  intros net w a [Ln _] [La _] Hw. unfold in_net. rewrite La, Ln. cbn [Nat.eqb andb].
  replace (8 * zlen net - (32 - w)) with w by (unfold zlen; rewrite Ln; lia).
  rewrite !Z.shiftr_div_pow2 by lia. apply Z.eqb_eq.
Qed.
Lemma addr_iff : forall net w a, ip4ok net -> ip4ok a -> 0 <= w <= 32 ->
  ((if 32 - w <? 32 then in_net net w (GIp a) else bytes_eqb a net) = true <-> unbe a / 2 ^ w = unbe net / 2 ^ w).
Proof.
  intros net w a Hn Ha Hw. destruct (Z.ltb_spec (32 - w) 32).
  - apply net_iff; assumption.
  - assert (w = 0) by lia. subst w. change (2 ^ 0) with 1. rewrite !Z.div_1_r, bytes_eqb_eq. split; [congruence|].
    destruct Hn, Ha. apply unbe_inj; try assumption. congruence.
Qed.
Lemma demand_iff : forall m f v, wf_m m -> intlike f v -> (demand m f v = true <-> agrees m f v).
Proof.
  intros m f v (Hs & Hd & Hsw & Hdw) Hv.
  destruct f; cbn [demand agrees];
    try (rewrite orb_true_iff, gval_eqb_eq by exact Hv;
         match goal with |- context [wild_bit ?g] =>
           destruct (wild_bit_no g) as [Eb Hb]; [discriminate|discriminate|]; rewrite Eb, land_bit by exact Hb end; reflexivity).
  - destruct v as [| | |a]; try (destruct Hv; fail). cbn [intlike] in Hv. cbn [mval gval_eqb].
    rewrite (addr_iff _ _ _ Hs Hv Hsw). split; [intros E; exists a; auto|]. intros [b [E1 E2]]. injection E1 as <-. exact E2.
  - destruct v as [| | |a]; try (destruct Hv; fail). cbn [intlike] in Hv. cbn [mval gval_eqb].
    rewrite (addr_iff _ _ _ Hd Hv Hdw). split; [intros E; exists a; auto|]. intros [b [E1 E2]]. injection E1 as <-. exact E2.
Qed.

(** What a plain packet without UDP shows is what the table of the code looks at. *)
Definition looked (p : packet) (f : mfld) (v : gval) : Prop :=
  exists cs c a h, In (f, cs) field_map /\ In (c, a) cs /\ pkt_get_header p c = Some h /\ pget h a = Ok v.
Lemma looked_total : forall p, plain p -> forall f cs c a h, In (f, cs) field_map -> In (c, a) cs ->
  pkt_get_header p c = Some h -> exists v, pget h a = Ok v.
Proof.
  intros p Hp f cs c a h Hf Hc Hg.
  assert (HV := plain_none p CVlan Hp ltac:(cbn; tauto)). assert (HA := plain_none p CArp Hp ltac:(cbn; tauto)).
  assert (H6 := plain_none p CIp6 Hp ltac:(cbn; tauto)). assert (HI := plain_none p CIcmp6 Hp ltac:(cbn; tauto)).
  cbn [field_map In] in Hf.
  repeat match goal with H : _ \/ _ |- _ => destruct H as [H|H] | H : False |- _ => destruct H end;
    try (injection Hf as <- <-); cbn [In] in Hc;
    repeat match goal with H : _ \/ _ |- _ => destruct H as [H|H] | H : False |- _ => destruct H end;
    injection Hc as <- <-; try congruence;
    try (apply (get_kind _ _ _ _ single_eth) in Hg; destruct Hg as [x ->]; eexists; reflexivity);
    try (apply (get_kind _ _ _ _ single_ip4) in Hg; destruct Hg as [x ->]; eexists; reflexivity);
    try (apply (get_kind _ _ _ _ single_tcp) in Hg; destruct Hg as [x ->]; eexists; reflexivity);
    try (apply (get_kind _ _ _ _ single_udp) in Hg; destruct Hg as [x ->]; eexists; reflexivity);
    try (apply (plain_icmp _ _ Hp) in Hg; destruct Hg as [x ->]; eexists; reflexivity).
Qed.
Lemma looked_shows : forall p f v, plain p -> looked p f v -> shows p f v.
Proof.
  intros p f v Hp (cs & c & a & h & Hf & Hc & Hg & Hv).
  assert (HV := plain_none p CVlan Hp ltac:(cbn; tauto)). assert (HA := plain_none p CArp Hp ltac:(cbn; tauto)).
  assert (H6 := plain_none p CIp6 Hp ltac:(cbn; tauto)). assert (HI := plain_none p CIcmp6 Hp ltac:(cbn; tauto)).
  cbn [field_map In] in Hf.
  repeat match goal with H : _ \/ _ |- _ => destruct H as [H|H] | H : False |- _ => destruct H end;
    try (injection Hf as <- <-); cbn [In] in Hc;
    repeat match goal with H : _ \/ _ |- _ => destruct H as [H|H] | H : False |- _ => destruct H end;
    injection Hc as <- <-; try congruence;
    try (pose proof (get_kind _ _ _ _ single_eth Hg) as [x ->]; cbn in Hv; injection Hv as <-;
         apply (first_iff _ _ _ _ single_eth) in Hg; constructor; exact Hg);
    try (pose proof (get_kind _ _ _ _ single_ip4 Hg) as [x ->]; cbn in Hv; injection Hv as <-;
         apply (first_iff _ _ _ _ single_ip4) in Hg; constructor; exact Hg);
    try (pose proof (get_kind _ _ _ _ single_tcp Hg) as [x ->]; cbn in Hv; injection Hv as <-;
         apply (first_iff _ _ _ _ single_tcp) in Hg; constructor; exact Hg);
    try (pose proof (get_kind _ _ _ _ single_udp Hg) as [x ->]; cbn in Hv; injection Hv as <-;
         apply (first_iff _ _ _ _ single_udp) in Hg; constructor; exact Hg);
    try (pose proof (plain_icmp _ _ Hp Hg) as [x ->]; cbn in Hv; injection Hv as <-;
         apply (first_icmp _ _ Hp) in Hg; constructor; exact Hg).
Qed.
Ltac look c a h := eexists; exists c, a, h; split; [cbn [field_map In]; repeat (try (left; reflexivity); right)|
  split; [cbn [In]; repeat (try (left; reflexivity); right)|split; [|reflexivity]]].
Lemma shows_looked : forall p f v, plain p -> no_udp p \/ f <> MTpDst -> shows p f v -> looked p f v.
Proof.
  intros p f v Hp Hu H. destruct H as [e H|e H|e H|i H|i H|i H|i H|t H|t H|u H|u H|c H|c H].
  - apply (first_iff _ _ _ _ single_eth) in H. exists [(CEth, PA FSrc)], CEth, (PA FSrc), (HEth e). cbn. tauto.
  - apply (first_iff _ _ _ _ single_eth) in H. exists [(CEth, PA FDst)], CEth, (PA FDst), (HEth e). cbn. tauto.
  - apply (first_iff _ _ _ _ single_eth) in H. eexists. exists CEth, (PA FEthertype), (HEth e).
    split; [cbn [field_map In]; do 4 right; left; reflexivity|]. cbn. tauto.
  - apply (first_iff _ _ _ _ single_ip4) in H. eexists. exists CIp4, (PA FProtocol), (HIp4 i).
    split; [cbn [field_map In]; do 5 right; left; reflexivity|]. cbn. tauto.
  - apply (first_iff _ _ _ _ single_ip4) in H. eexists. exists CIp4, (PA FTos), (HIp4 i).
    split; [cbn [field_map In]; do 6 right; left; reflexivity|]. cbn. tauto.
  - apply (first_iff _ _ _ _ single_ip4) in H. eexists. exists CIp4, (PA FSrc), (HIp4 i).
    split; [cbn [field_map In]; do 7 right; left; reflexivity|]. cbn. tauto.
  - apply (first_iff _ _ _ _ single_ip4) in H. eexists. exists CIp4, (PA FDst), (HIp4 i).
    split; [cbn [field_map In]; do 8 right; left; reflexivity|]. cbn. tauto.
  - apply (first_iff _ _ _ _ single_tcp) in H. eexists. exists CTcp, (PA FSrc), (HTcp t).
    split; [cbn [field_map In]; do 9 right; left; reflexivity|]. cbn. tauto.
  - apply (first_iff _ _ _ _ single_tcp) in H. eexists. exists CTcp, (PA FDst), (HTcp t).
    split; [cbn [field_map In]; do 10 right; left; reflexivity|]. cbn. tauto.
  - apply (first_iff _ _ _ _ single_udp) in H. eexists. exists CUdp, (PA FSrc), (HUdp u).
    split; [cbn [field_map In]; do 9 right; left; reflexivity|]. cbn. tauto.
  - exfalso. destruct Hu as [Hu|Hu]; [|contradiction]. destruct H as (pre & post & -> & _). apply (Hu u). apply in_or_app. right. left. reflexivity.
  - apply (first_icmp _ _ Hp) in H. eexists. exists CIcmp, PIcmpType, (HIcmp c).
    split; [cbn [field_map In]; do 9 right; left; reflexivity|]. cbn. tauto.
  - apply (first_icmp _ _ Hp) in H. eexists. exists CIcmp, PIcmpCode, (HIcmp c).
    split; [cbn [field_map In]; do 10 right; left; reflexivity|]. cbn. tauto.
Qed.
Lemma shows_kind : forall p f v, plain p -> shows p f v -> intlike f v.
Proof.
  intros p f v Hp H. destruct H as [e H|e H|e H|i H|i H|i H|i H|t H|t H|u H|u H|c H|c H]; cbn [intlike]; try exact I;
    destruct H as (pre & post & -> & _); unfold plain in Hp; apply Forall_app in Hp; destruct Hp as [_ Hp]; inversion Hp as [|x l H1 H2]; subst;
    destruct H1; assumption.
Qed.

Lemma match_iff : forall m p, wf_m m -> plain p ->
  exists b, matches_packet m p = Ok b /\
    (b = true <-> forall f v, looked p f v -> agrees m f v).
Proof.
  intros m p Hm Hp. destruct (cmp_fields_spec m p field_map (looked_total p Hp)) as [bs [E H]].
  unfold matches_packet. rewrite E. cbn [bindr]. eexists. split; [reflexivity|]. rewrite H. split.
  - intros Hall f v Hl. pose proof (shows_kind p f v Hp (looked_shows p f v Hp Hl)) as Hk.
    destruct Hl as (cs & c & a & h & Hf & Hc & Hg & Hv). apply (demand_iff m f v Hm Hk). apply (Hall f cs c a h v Hf Hc Hg Hv).
  - intros Hall f cs c a h v Hf Hc Hg Hv. assert (Hl : looked p f v) by (exists cs, c, a, h; auto).
    apply (demand_iff m f v Hm); [|apply Hall; exact Hl]. apply (shows_kind p f v Hp). apply looked_shows; assumption.
Qed.
Lemma match_right : forall m p, wf_m m -> plain p -> no_udp p ->
  exists b, matches_packet m p = Ok b /\ (b = true <-> forall f v, shows p f v -> agrees m f v).
Proof.
  intros m p Hm Hp Hu. destruct (match_iff m p Hm Hp) as [b [E H]]. exists b. split; [exact E|]. rewrite H. split; intros Hall f v Hs; apply Hall.
  - apply shows_looked; auto.
  - apply looked_shows; assumption.
Qed.
