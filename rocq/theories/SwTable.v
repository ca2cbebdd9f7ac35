(** Proofs about building matches, comparing entries, the flow table, expiry, the controller connection and actions. *)
From Verif Require Import Base BaseLemmas EthAddrModel EthAddrProofs Enums EthModel ArpModel Ipv4Model TransportModel Ipv6Model IcmpModel PacketModel
  CodecLemmas FieldModel FieldProofs OfModel SwModel SwSpec SwMatch.

(** ** build_from_packet *)
Definition same_rest (f : mfld) (m m' : ofmatch) : Prop :=
  m_wild m' = m_wild m /\ m_srcw m' = m_srcw m /\ m_dstw m' = m_dstw m /\ m_inport m' = m_inport m /\
  forall g, g <> f -> mval m' g = mval m g.
Lemma mset_ok : forall m f v, settable f v -> exists m', mset m f v = Ok m' /\ mval m' f = v /\ same_rest f m m'.
Proof.
  intros [ws sw dw ip ds dd vl pc dt ts pr ns nd sp dp] f v H.
  assert (Six : forall a : bytes, length a = 6%nat -> eth_init (AEth a) = Ok a).
  { intros [|x a] Ha; [discriminate|reflexivity]. }
  destruct f; destruct v; try (destruct H; fail); cbn [settable] in H; cbn [mset];
    try (rewrite Six by exact H; cbn [bindr]);
    try (match type of H with ip4ok _ => destruct H as [? ?] end; unfold ip_of_bytes, ipv4_of_bytes; match goal with L : length _ = 4%nat |- _ => rewrite L end; cbn [Nat.eqb orb bindr]);
    try (unfold tos_of; replace ((_ <? 0) || (255 <? _)) with false by (symmetry; apply orb_false_iff; lia); cbn [bindr]);
    try (unfold tp_of; replace ((_ <? 0) || (65536 <=? _)) with false by (symmetry; apply orb_false_iff; lia); cbn [bindr]);
    try (eexists; split; [reflexivity|]; split; [reflexivity|]; unfold same_rest; cbn;
         split; [reflexivity|]; split; [reflexivity|]; split; [reflexivity|]; split; [reflexivity|];
         intros [] Hg; try reflexivity; destruct (Hg eq_refl)).
  - unfold dltype_of. assert (z <> 0) by (intros ->; cbn in H; repeat (destruct H as [H|H]; [discriminate|]); destruct H).
    destruct (Z.eqb_spec z 0); [contradiction|].
    unfold enum_of. rewrite (proj2 (zmem_In z EtherTypes) H). cbn [bindr]. eexists. split; [reflexivity|]. split; [reflexivity|].
    unfold same_rest; cbn. split; [reflexivity|]. split; [reflexivity|]. split; [reflexivity|]. split; [reflexivity|].
    intros [] Hg; try reflexivity; destruct (Hg eq_refl).
  - unfold enum_of. rewrite (proj2 (zmem_In z IPProtocols) H). cbn [bindr]. eexists. split; [reflexivity|]. split; [reflexivity|].
    unfold same_rest; cbn. split; [reflexivity|]. split; [reflexivity|]. split; [reflexivity|]. split; [reflexivity|].
    intros [] Hg; try reflexivity; destruct (Hg eq_refl).
Qed.

Lemma build_each_ok : forall p f cs m,
  (forall c a h, In (c, a) cs -> pkt_get_header p c = Some h -> exists v, pget h a = Ok v /\ settable f v) ->
  (forall c a h v c' a' h' v', In (c, a) cs -> pkt_get_header p c = Some h -> pget h a = Ok v ->
     In (c', a') cs -> pkt_get_header p c' = Some h' -> pget h' a' = Ok v' -> v = v') ->
  exists m', build_each m p f cs = Ok m' /\ same_rest f m m' /\
    (forall c a h v, In (c, a) cs -> pkt_get_header p c = Some h -> pget h a = Ok v -> mval m' f = v) /\
    ((forall c a, In (c, a) cs -> pkt_get_header p c = None) -> mval m' f = mval m f).
Proof.
  intros p f cs. induction cs as [|[c a] cs IH]; intros m Ht Hu; cbn [build_each].
  - exists m. split; [reflexivity|]. split; [repeat split|]. split; [intros c a h v []|reflexivity].
  - assert (Ht' : forall c0 a0 h, In (c0, a0) cs -> pkt_get_header p c0 = Some h -> exists v, pget h a0 = Ok v /\ settable f v).
    { intros c0 a0 h Hin. apply Ht. right. exact Hin. }
    assert (Hu' : forall c a h v c' a' h' v', In (c, a) cs -> pkt_get_header p c = Some h -> pget h a = Ok v ->
      In (c', a') cs -> pkt_get_header p c' = Some h' -> pget h' a' = Ok v' -> v = v').
    { intros c1 a1 h1 v1 c2 a2 h2 v2 H1 E1 G1 H2 E2 G2. apply (Hu c1 a1 h1 v1 c2 a2 h2 v2); try assumption; right; assumption. }
    destruct (pkt_get_header p c) as [h|] eqn:E.
    + destruct (Ht c a h (or_introl eq_refl) E) as [v [Ev Hs]]. rewrite Ev. cbn [bindr].
      destruct (mset_ok m f v Hs) as [m1 [E1 [V1 (R1 & R2 & R3 & R4 & R5)]]]. rewrite E1. cbn [bindr].
      destruct (IH m1 Ht' Hu') as [m2 [E2 [(S1 & S2 & S3 & S4 & S5) [A2 N2]]]]. exists m2. split; [exact E2|]. split.
      * unfold same_rest. split; [congruence|]. split; [congruence|]. split; [congruence|]. split; [congruence|].
        intros g Hg. rewrite (S5 g Hg). apply R5. exact Hg.
      * split.
        -- intros c' a' h' v' [Eq|Hin] Hg Hv.
           ++ injection Eq as <- <-. rewrite E in Hg. injection Hg as <-. assert (v' = v) by congruence. subst v'.
              assert (D : (forall c0 a0, In (c0, a0) cs -> pkt_get_header p c0 = None) \/
                          exists c0 a0 h0, In (c0, a0) cs /\ pkt_get_header p c0 = Some h0).
              { clear. induction cs as [|[c0 a0] cs IH]; [left; intros c0 a0 []|].
                destruct (pkt_get_header p c0) as [h0|] eqn:E0; [right; exists c0, a0, h0; split; [left; reflexivity|exact E0]|].
                destruct IH as [IH|(c1 & a1 & h1 & H1 & H2)].
                - left. intros c1 a1 [Eq|Hin]; [injection Eq as <- <-; exact E0|apply (IH c1 a1 Hin)].
                - right. exists c1, a1, h1. split; [right; exact H1|exact H2]. }
              destruct D as [D|(c0 & a0 & hh & D1 & D2)].
              ** rewrite N2 by exact D. exact V1.
              ** destruct (Ht' c0 a0 hh D1 D2) as [v0 [Ev0 _]]. rewrite (A2 c0 a0 hh v0 D1 D2 Ev0).
                 symmetry. apply (Hu c a h v c0 a0 hh v0); try assumption; [left; reflexivity|right; exact D1].
           ++ apply (A2 c' a' h' v' Hin Hg Hv).
        -- intros Hn. rewrite (Hn c a) in E by (left; reflexivity). discriminate.
    + destruct (IH m Ht' Hu') as [m2 [E2 [S2 [A2 N2]]]]. exists m2. split; [exact E2|]. split; [exact S2|]. split.
      * intros c' a' h' v' [Eq|Hin] Hg Hv; [injection Eq as <- <-; congruence|]. apply (A2 c' a' h' v' Hin Hg Hv).
      * intros Hn. apply N2. intros c0 a0 Hin. apply (Hn c0 a0). right. exact Hin.
Qed.
Definition mfld_dec : forall a b : mfld, {a = b} + {a <> b}.
Proof. decide equality. Defined.
Lemma build_fields_ok : forall p l m, NoDup (map fst l) ->
  (forall f cs c a h, In (f, cs) l -> In (c, a) cs -> pkt_get_header p c = Some h -> exists v, pget h a = Ok v /\ settable f v) ->
  (forall f cs c a h v c' a' h' v', In (f, cs) l -> In (c, a) cs -> pkt_get_header p c = Some h -> pget h a = Ok v ->
     In (c', a') cs -> pkt_get_header p c' = Some h' -> pget h' a' = Ok v' -> v = v') ->
  exists m', build_fields m p l = Ok m' /\ m_wild m' = m_wild m /\ m_srcw m' = m_srcw m /\ m_dstw m' = m_dstw m /\ m_inport m' = m_inport m /\
    (forall f cs c a h v, In (f, cs) l -> In (c, a) cs -> pkt_get_header p c = Some h -> pget h a = Ok v -> mval m' f = v) /\
    (forall f, (forall cs c a, In (f, cs) l -> In (c, a) cs -> pkt_get_header p c = None) -> mval m' f = mval m f).
Proof.
  intros p l. induction l as [|[f cs] l IH]; intros m Hd Ht Hu; cbn [build_fields].
  - exists m. repeat split. intros f cs c a h v [].
  - cbn [map fst] in Hd. inversion Hd as [|x y Hn Hd']; subst.
    destruct (build_each_ok p f cs m) as [m1 [E1 [(R1 & R2 & R3 & R4 & R5) [A1 N1]]]].
    { intros c a h. apply (Ht f cs). left. reflexivity. }
    { intros c a h v c' a' h' v'. apply (Hu f cs). left. reflexivity. }
    rewrite E1. cbn [bindr].
    destruct (IH m1 Hd') as [m2 [E2 [S1 [S2 [S3 [S4 [A2 N2]]]]]]].
    { intros f' cs' c a h Hin. apply (Ht f' cs'). right. exact Hin. }
    { intros f' cs' c a h v c' a' h' v' Hin. apply (Hu f' cs'). right. exact Hin. }
    assert (Keep : mval m2 f = mval m1 f).
    { apply N2. intros cs' c a Hin. exfalso. apply Hn. apply in_map_iff. exists (f, cs'). split; [reflexivity|exact Hin]. }
    exists m2. split; [exact E2|]. split; [congruence|]. split; [congruence|]. split; [congruence|]. split; [congruence|]. split.
    + intros f' cs' c a h v [Eq|Hin] Hc Hg Hv; [injection Eq as <- <-; rewrite Keep; apply (A1 c a h v Hc Hg Hv)|].
      apply (A2 f' cs' c a h v Hin Hc Hg Hv).
    + intros g Hg. destruct (mfld_dec g f) as [->|Hne].
      * rewrite Keep. apply N1. intros c a. apply (Hg cs). left. reflexivity.
      * rewrite N2; [apply R5; exact Hne|]. intros cs' c a Hin. apply (Hg cs'). right. exact Hin.
Qed.
Lemma field_map_nodup : NoDup (map fst field_map).
Proof. cbn. repeat constructor; cbn; intuition discriminate. Qed.
Lemma build_ok : forall p, plain p -> (forall f v, shows p f v -> settable f v) -> (forall f v w, shows p f v -> shows p f w -> v = w) ->
  exists m, build_from_packet p = Ok m /\ exact m /\ matches_packet m p = Ok true /\
    (forall f v, shows p f v -> no_udp p \/ f <> MTpDst -> mval m f = v).
Proof.
  intros p Hp Hs Hu.
  assert (Look : forall f cs c a h v, In (f, cs) field_map -> In (c, a) cs -> pkt_get_header p c = Some h -> pget h a = Ok v -> shows p f v).
  { intros f cs c a h v Hf Hc Hg Hv. apply looked_shows; [exact Hp|]. exists cs, c, a, h. auto. }
  destruct (build_fields_ok p field_map match_new field_map_nodup) as (m & E & W & Sw & Dw & Ip & A & N).
  - intros f cs c a h Hf Hc Hg. destruct (looked_total p Hp f cs c a h Hf Hc Hg) as [v Hv]. exists v. split; [exact Hv|].
    apply Hs. apply (Look f cs c a h v); assumption.
  - intros f cs c a h v c' a' h' v' Hf Hc Hg Hv Hc' Hg' Hv'. apply (Hu f); [apply (Look f cs c a h v)|apply (Look f cs c' a' h' v')]; assumption.
  - exists m. split; [exact E|]. split; [repeat split; assumption|].
    assert (Mv : forall f v, looked p f v -> mval m f = v).
    { intros f v (cs & c & a & h & Hf & Hc & Hg & Hv). apply (A f cs c a h v); assumption. }
    split.
    + destruct (cmp_fields_spec m p field_map (looked_total p Hp)) as [bs [Eb Hb]]. unfold matches_packet. rewrite Eb. cbn [bindr].
      f_equal. apply Hb. intros f cs c a h v Hf Hc Hg Hv.
      pose proof (Look f cs c a h v Hf Hc Hg Hv) as Hsh. pose proof (shows_kind p f v Hp Hsh) as Hk.
      assert (Hmv : mval m f = v) by (apply Mv; exists cs, c, a, h; auto).
      assert (Eq : gval_eqb v (mval m f) = true) by (apply gval_eqb_eq; [exact Hk|congruence]).
      unfold demand. rewrite Sw, Dw. cbn [match_new m_srcw m_dstw]. change (32 - 0 <? 32) with false. cbv iota.
      destruct f; rewrite Eq; try reflexivity; apply orb_true_r.
    + intros f v Hsh Hud. apply Mv. apply shows_looked; assumption.
Qed.

(** ** matches_entry: an exact match that matches an entry is covered by it. *)
Lemma zmem_bitmap : forall l acc x i, zmem x l = true -> 0 <= i -> Z.testbit x i = true -> Z.testbit (fold_left Z.lor l acc) i = true.
Proof.
  assert (K : forall l acc i, 0 <= i -> Z.testbit acc i = true -> Z.testbit (fold_left Z.lor l acc) i = true).
  { induction l as [|y l IH]; intros acc i Hi H; cbn [fold_left]; [exact H|]. apply IH; [exact Hi|]. rewrite Z.lor_spec, H. reflexivity. }
  induction l as [|y l IH]; intros acc x i H Hi Ht; [discriminate|]. cbn [fold_left].
  apply zmem_In in H. destruct H as [->|H].
  - apply K; [exact Hi|]. rewrite Z.lor_spec, Ht. apply orb_true_r.
  - apply (IH _ x i); [apply zmem_In; exact H|exact Hi|exact Ht].
Qed.
Lemma entry_cover : forall m o p, exact m -> wf_m m -> wf_m o -> plain p ->
  matches_entry m o false = Ok true -> matches_packet m p = Ok true -> matches_packet o p = Ok true.
Proof.
  intros m o p (Xw & Xs & Xd) Wm Wo Hp He Hm.
  assert (Hf : forallb (fun x => x) (entry_tests m o) = true) by (unfold matches_entry in He; congruence).
  clear He. rename Hf into He. unfold entry_tests in He. cbn [forallb] in He.
  repeat (apply andb_true_iff in He; destruct He as [? He]).
  destruct (match_iff m p Wm Hp) as [b [EM1 HM1]]. rewrite Hm in EM1. injection EM1 as <-.
  destruct (match_iff o p Wo Hp) as [b [EM2 HM2]]. rewrite EM2. f_equal. apply HM2.
  intros f v Hl. pose proof (proj1 HM1 eq_refl f v Hl) as Ha. clear HM1 HM2 EM2 Hm.
  assert (Bits : forall x i, zmem x (m_wild o) = true -> 0 <= i -> Z.testbit x i = true -> Z.testbit (make_bitmap (m_wild o)) i = true).
  { intros x i. apply zmem_bitmap. }
  destruct f; cbn [agrees mval] in *; rewrite ?Xw in Ha; unfold make_bitmap in Ha; cbn [fold_left] in Ha; rewrite ?Z.bits_0 in Ha;
    try (destruct Ha as [Ha|Ha]; [discriminate|];
         match goal with
         | Hx : zmem wcDlSrc _ || _ = true |- context [wild_no MDlSrc] => apply orb_true_iff in Hx; destruct Hx as [Hz|Hz]
         | Hx : zmem wcDlDst _ || _ = true |- context [wild_no MDlDst] => apply orb_true_iff in Hx; destruct Hx as [Hz|Hz]
         | Hx : zmem wcDlVlan _ || _ = true |- context [wild_no MDlVlan] => apply orb_true_iff in Hx; destruct Hx as [Hz|Hz]
         | Hx : zmem wcDlVlanPcp _ || _ = true |- context [wild_no MDlVlanPcp] => apply orb_true_iff in Hx; destruct Hx as [Hz|Hz]
         | Hx : zmem wcDlType _ || _ = true |- context [wild_no MDlType] => apply orb_true_iff in Hx; destruct Hx as [Hz|Hz]
         | Hx : zmem wcNwTos _ || _ = true |- context [wild_no MNwTos] => apply orb_true_iff in Hx; destruct Hx as [Hz|Hz]
         | Hx : zmem wcNwProto _ || _ = true |- context [wild_no MNwProto] => apply orb_true_iff in Hx; destruct Hx as [Hz|Hz]
         | Hx : zmem wcTpSrc _ || _ = true |- context [wild_no MTpSrc] => apply orb_true_iff in Hx; destruct Hx as [Hz|Hz]
         | Hx : zmem wcTpDst _ || _ = true |- context [wild_no MTpDst] => apply orb_true_iff in Hx; destruct Hx as [Hz|Hz]
         end;
         [left; eapply Bits; [eassumption|cbn; lia|reflexivity]
         |right; try apply Z.eqb_eq in Hz; try apply bytes_eqb_eq in Hz; congruence]).
  - destruct Ha as [a [Ev Ha]]. exists a. split; [exact Ev|]. rewrite Xs in Ha. change (2 ^ 0) with 1 in Ha. rewrite !Z.div_1_r in Ha.
    rewrite Ha. destruct Wm as (M1 & M2 & M3 & M4), Wo as (O1 & O2 & O3 & O4).
    match goal with Hx : in_net (m_nwsrc o) _ _ || _ = true |- _ => apply orb_true_iff in Hx; destruct Hx as [Hz|Hz] end.
    + apply net_iff in Hz; assumption.
    + apply bytes_eqb_eq in Hz. rewrite Hz. reflexivity.
  - destruct Ha as [a [Ev Ha]]. exists a. split; [exact Ev|]. rewrite Xd in Ha. change (2 ^ 0) with 1 in Ha. rewrite !Z.div_1_r in Ha.
    rewrite Ha. destruct Wm as (M1 & M2 & M3 & M4), Wo as (O1 & O2 & O3 & O4).
    match goal with Hx : in_net (m_nwdst o) _ _ || _ = true |- _ => apply orb_true_iff in Hx; destruct Hx as [Hz|Hz] end.
    + apply net_iff in Hz; assumption.
    + apply bytes_eqb_eq in Hz. rewrite Hz. reflexivity.
Qed.

(** ** Lookup *)
Lemma match_first : forall g now t i p t' l, g = true \/ i = None -> ft_match g now t i p = (t', Ok (Some l)) ->
  exists pre e post n, t = pre ++ e :: post /\ eligible p i e /\ l = te_acts e /\ pkt_len p = Ok n /\
    t' = pre ++ te_update now n e :: post /\ forall x, In x pre -> ~ eligible p i x.
Proof.
  intros g now t i p t' l Hg. revert t'. induction t as [|e t IH]; intros t' H; cbn [ft_match] in H; [discriminate|].
  destruct (matches_packet (te_match e) p) as [b|x] eqn:Em; [|discriminate].
  assert (Step : (let '(t2, r) := ft_match g now t i p in (e :: t2, r)) = (t', Ok (Some l)) -> ~ eligible p i e ->
    exists pre e0 post n, e :: t = pre ++ e0 :: post /\ eligible p i e0 /\ l = te_acts e0 /\ pkt_len p = Ok n /\
      t' = pre ++ te_update now n e0 :: post /\ forall x, In x pre -> ~ eligible p i x).
  { destruct (ft_match g now t i p) as [t2 r] eqn:E2. intros Eq Hne. injection Eq as <- ->.
    destruct (IH t2 eq_refl) as (pre & e0 & post & n & -> & H1 & H2 & H3 & -> & H5).
    exists (e :: pre), e0, post, n. repeat (split; [first [reflexivity|assumption]|]). intros x [<-|Hx]; auto. }
  assert (Hit : (match pkt_len p with Ok n => (te_update now n e :: t, Ok (Some (te_acts e))) | Err x => (te_update now 0 e :: t, Err x) end)
      = (t', Ok (Some l)) -> eligible p i e ->
    exists pre e0 post n, e :: t = pre ++ e0 :: post /\ eligible p i e0 /\ l = te_acts e0 /\ pkt_len p = Ok n /\
      t' = pre ++ te_update now n e0 :: post /\ forall x, In x pre -> ~ eligible p i x).
  { destruct (pkt_len p) as [n|x] eqn:En; [|discriminate]. intros Eq He. injection Eq as <- <-.
    exists [], e, t, n. repeat (split; [first [reflexivity|assumption]|]). intros x []. }
  destruct b.
  - destruct i as [i|].
    + destruct Hg as [->|Hg]; [|discriminate]. cbn [negb] in H.
      destruct ((m_inport (te_match e) =? ofpNone) || (m_inport (te_match e) =? i)) eqn:Ei.
      * apply Hit; [exact H|]. split; [exact Em|]. apply orb_true_iff in Ei. rewrite !Z.eqb_eq in Ei. exact Ei.
      * apply Step; [exact H|]. intros [_ C]. apply orb_false_iff in Ei. rewrite !Z.eqb_neq in Ei. tauto.
    + apply Hit; [exact H|]. split; [exact Em|exact I].
  - apply Step; [exact H|]. intros [C _]. congruence.
Qed.
Lemma match_none : forall g now t i p t', g = true \/ i = None -> ft_match g now t i p = (t', Ok None) ->
  t' = t /\ forall x, In x t -> ~ eligible p i x.
Proof.
  intros g now t i p t' Hg. revert t'. induction t as [|e t IH]; intros t' H; cbn [ft_match] in H.
  - injection H as <-. split; [reflexivity|intros x []].
  - destruct (matches_packet (te_match e) p) as [b|x] eqn:Em; [|discriminate].
    assert (Step : (let '(t2, r) := ft_match g now t i p in (e :: t2, r)) = (t', Ok None) -> ~ eligible p i e ->
       t' = e :: t /\ forall x, In x (e :: t) -> ~ eligible p i x).
    { destruct (ft_match g now t i p) as [t2 r] eqn:E2. intros Eq Hne. injection Eq as <- ->.
      destruct (IH t2 eq_refl) as [-> H2]. split; [reflexivity|]. intros x [<-|Hx]; auto. }
    destruct b.
    + destruct i as [i|].
      * destruct Hg as [->|Hg]; [|discriminate]. cbn [negb] in H.
        destruct ((m_inport (te_match e) =? ofpNone) || (m_inport (te_match e) =? i)) eqn:Ei.
        -- destruct (pkt_len p); discriminate.
        -- apply Step; [exact H|]. intros [_ C]. apply orb_false_iff in Ei. rewrite !Z.eqb_neq in Ei. tauto.
      * destruct (pkt_len p); discriminate.
    + apply Step; [exact H|]. intros [C _]. congruence.
Qed.
(** As the code stands a lookup naming a port never finds anything. *)
Lemma match_port_false : forall now t i p t' l, ft_match false now t (Some i) p = (t', Ok (Some l)) -> False.
Proof.
  intros now t i p. induction t as [|e t IH]; intros t' l H; cbn [ft_match] in H; [discriminate|].
  destruct (matches_packet (te_match e) p) as [[|]|x]; cbn [negb] in H; try discriminate.
  destruct (ft_match false now t (Some i) p) as [t2 r] eqn:E. injection H as <- ->. apply (IH t2 l). reflexivity.
Qed.

(** ** Order *)
Definition prios (t : table) := map te_prio t.
Lemma asc_app : forall a e, ascending a -> (forall x, In x a -> te_prio x <= te_prio e) -> ascending (a ++ [e]).
Proof.
  induction a as [|y a IH]; intros e H Hx; cbn [app ascending] in *.
  - split; [intros x []|exact I].
  - destruct H as [H1 H2]. split; [|apply IH; [exact H2|intros x Hin; apply Hx; right; exact Hin]].
    intros x Hin. apply in_app_or in Hin. destruct Hin as [Hin|[<-|[]]]; [auto|]. apply Hx. left. reflexivity.
Qed.
Lemma insert_in : forall e t x, In x (insert_by_prio e t) <-> x = e \/ In x t.
Proof.
  intros e t. induction t as [|y t IH]; intros x; cbn [insert_by_prio].
  - cbn [In]. intuition congruence.
  - destruct (te_prio e <? te_prio y); cbn [In]; [intuition congruence|]. rewrite IH. intuition congruence.
Qed.
Lemma insert_asc : forall e t, ascending t -> ascending (insert_by_prio e t).
Proof.
  intros e t. induction t as [|y t IH]; cbn [insert_by_prio ascending]; [intros _; split; [intros x []|exact I]|].
  intros [H1 H2]. destruct (Z.ltb_spec (te_prio e) (te_prio y)); cbn [ascending].
  - split; [|split; assumption]. intros x [<-|Hx]; [lia|]. specialize (H1 x Hx). lia.
  - split; [|apply IH; exact H2]. intros x Hx. apply insert_in in Hx. destruct Hx as [->|Hx]; [lia|auto].
Qed.
Lemma sort_spec : forall t acc, ascending acc ->
  ascending (fold_left (fun a e => insert_by_prio e a) t acc) /\
  forall x, In x (fold_left (fun a e => insert_by_prio e a) t acc) <-> In x acc \/ In x t.
Proof.
  induction t as [|e t IH]; intros acc H; cbn [fold_left].
  - split; [exact H|]. intros x. cbn [In]. tauto.
  - destruct (IH (insert_by_prio e acc) (insert_asc e acc H)) as [H1 H2]. split; [exact H1|].
    intros x. rewrite H2, insert_in. cbn [In]. intuition congruence.
Qed.
Lemma sort_asc : forall t, ascending (sort_table t).
Proof. intros t. apply sort_spec. exact I. Qed.
Lemma sort_in : forall t x, In x (sort_table t) <-> In x t.
Proof. intros t x. unfold sort_table. rewrite (proj2 (sort_spec t [] I) x). cbn [In]. tauto. Qed.
Lemma asc_prios : forall t t', prios t' = prios t -> ascending t -> ascending t'.
Proof.
  induction t as [|e t IH]; intros [|e' t'] H Ha; cbn [prios map] in H; try discriminate; [exact I|].
  injection H as H1 H2. destruct Ha as [Ha1 Ha2]. split; [|apply IH; assumption].
  intros x Hx. assert (Hp : In (te_prio x) (prios t)) by (unfold prios; rewrite <- H2; apply in_map; exact Hx).
  apply in_map_iff in Hp. destruct Hp as [y [Ey Hy]]. specialize (Ha1 y Hy). lia.
Qed.
Lemma match_prios : forall g now t i p, prios (fst (ft_match g now t i p)) = prios t.
Proof.
  intros g now t i p. induction t as [|e t IH]; cbn [ft_match]; [reflexivity|].
  destruct (ft_match g now t i p) as [t2 r]. cbn [fst] in IH.
  destruct (matches_packet (te_match e) p) as [[|]|x]; [|cbn [fst prios map]; f_equal; exact IH|reflexivity].
  destruct i as [i|].
  - destruct (negb g); [reflexivity|]. destruct (_ || _).
    + destruct (pkt_len p); reflexivity.
    + cbn [fst prios map]. f_equal. exact IH.
  - destruct (pkt_len p); reflexivity.
Qed.
Lemma expire_sub : forall g now t x, In x (fst (ft_expire g now t)) -> In x t.
Proof.
  intros g now t. induction t as [|e t IH]; intros x; cbn [ft_expire]; [intros []|].
  destruct (ft_expire g now t) as [t2 r]. cbn [fst] in IH.
  destruct (te_expired now e); [destruct (negb g); [cbn [fst]; auto|destruct (negb (Z.land (te_flags e) 1 =? 0))]|]; cbn [fst In];
    intuition.
Qed.
Lemma expire_asc : forall g now t, ascending t -> ascending (fst (ft_expire g now t)).
Proof.
  intros g now t. induction t as [|e t IH]; [intros _; exact I|]. intros [H1 H2]. cbn [ft_expire].
  specialize (IH H2). pose proof (expire_sub g now t) as Hs. destruct (ft_expire g now t) as [t2 r]. cbn [fst] in *.
  assert (Hk : ascending (e :: t2)) by (split; [intros x Hx; apply H1, Hs, Hx|exact IH]).
  destruct (te_expired now e); [destruct (negb g); [split; assumption|destruct (negb (Z.land (te_flags e) 1 =? 0)); [exact IH|exact Hk]]|exact Hk].
Qed.
Lemma delete_keeps : forall g t m s, fst (ft_delete g t m s) = t.
Proof. intros g t m s. unfold ft_delete. destruct (ft_tbd t m s) as [[|]|]; reflexivity. Qed.
Lemma step_asc : forall g t o, ascending t -> ascending (ft_step g t o).
Proof.
  intros g t o H. destruct o as [now f|now f|m s|now i p|now]; cbn [ft_step].
  - unfold ft_add. destruct g; cbn [negb fst]; [|exact H]. destruct (if zmem 2 (fm_flags f) then _ else _) as [[|]|]; cbn [fst]; try exact H.
    apply sort_asc.
  - unfold ft_modify. destruct t; cbn [fst]; [split; [intros x []|exact I]|exact H].
  - rewrite delete_keeps. exact H.
  - apply (asc_prios t); [apply match_prios|exact H].
  - apply expire_asc. exact H.
Qed.
Lemma run_asc : forall g os t, ascending t -> ascending (ft_run g t os).
Proof. intros g os. induction os as [|o os IH]; intros t H; [exact H|]. apply (IH (ft_step g t o)). apply step_asc. exact H. Qed.

(** As the code stands a table never holds two entries. *)
Lemma expire_len : forall g now t, (length (fst (ft_expire g now t)) <= length t)%nat.
Proof.
  intros g now t. induction t as [|e t IH]; cbn [ft_expire]; [apply Nat.le_refl|].
  destruct (ft_expire g now t) as [t2 r]. cbn [fst] in IH.
  destruct (te_expired now e); [destruct (negb g); [|destruct (negb (Z.land (te_flags e) 1 =? 0))]|]; cbn [fst length]; lia.
Qed.
Lemma step_small : forall t o, (length t <= 1)%nat -> (length (ft_step false t o) <= 1)%nat.
Proof.
  intros t o H. destruct o as [now f|now f|m s|now i p|now]; cbn [ft_step].
  - exact H.
  - unfold ft_modify. destruct t; cbn [fst length] in *; lia.
  - rewrite delete_keeps. exact H.
  - assert (L : length (prios (fst (ft_match false now t i p))) = length (prios t)) by (rewrite match_prios; reflexivity).
    unfold prios in L. rewrite !map_length in L. lia.
  - pose proof (expire_len false now t). lia.
Qed.
Lemma run_small : forall os t, (length t <= 1)%nat -> (length (ft_run false t os) <= 1)%nat.
Proof. induction os as [|o os IH]; intros t H; [exact H|]. apply (IH (ft_step false t o)). apply step_small. exact H. Qed.

(** With the names imported, adding keeps every entry there was. *)
Lemma add_in : forall now t f, snd (ft_add true now t f) = Ok false ->
  forall x, In x (fst (ft_add true now t f)) <-> x = te_new now f \/ In x t.
Proof.
  intros now t f. unfold ft_add. cbn [negb]. destruct (if zmem 2 (fm_flags f) then _ else _) as [[|]|]; cbn [fst snd]; try discriminate.
  intros _ x. rewrite sort_in, in_app_iff. cbn [In]. intuition congruence.
Qed.

(** ** Expiry *)
Lemma expired_iff : forall now e, te_last e <> Some 0 -> (te_last e = None -> te_idle e <= 0) ->
  (te_expired now e = true <-> overdue now e).
Proof.
  intros now e H0 Hn. unfold te_expired, overdue. destruct (te_last e) as [l|].
  - destruct (Z.eqb_spec l 0) as [->|Hl]; [contradiction|].
    destruct ((0 <? te_idle e) && (te_idle e <? now - l)) eqn:E1.
    + apply andb_true_iff in E1. split; [left; lia|reflexivity].
    + apply andb_false_iff in E1. destruct ((0 <? te_hard e) && (te_hard e <? now - te_created e)) eqn:E2.
      * apply andb_true_iff in E2. split; [right; lia|reflexivity].
      * apply andb_false_iff in E2. split; [discriminate|]. lia.
  - specialize (Hn eq_refl).
    replace (0 <? te_idle e) with false by lia. cbn [andb].
    destruct ((0 <? te_hard e) && (te_hard e <? now - te_created e)) eqn:E2.
    + apply andb_true_iff in E2. split; [right; lia|reflexivity].
    + apply andb_false_iff in E2. split; [discriminate|]. lia.
Qed.
Definition gone (now : Z) (e : tentry) : bool := te_expired now e && negb (Z.land (te_flags e) 1 =? 0).
Lemma expire_spec : forall now t,
  ft_expire true now t = (filter (fun e => negb (gone now e)) t, Ok (filter (gone now) t)).
Proof.
  intros now t. induction t as [|e t IH]; [reflexivity|]. cbn [ft_expire filter]. rewrite IH. unfold gone.
  destruct (te_expired now e); cbn [negb andb]; [|reflexivity].
  destruct (negb (Z.land (te_flags e) 1 =? 0)); cbn [negb bindr]; reflexivity.
Qed.
Lemma expire_false : forall now t, (exists e, In e t /\ te_expired now e = true) -> exists t', ft_expire false now t = (t', Err EName) /\ t' = t.
Proof.
  intros now t. induction t as [|e t IH]; intros [x [Hin Hx]]; [destruct Hin|]. cbn [ft_expire negb].
  destruct (te_expired now e) eqn:E; [exists (e :: t); split; reflexivity|].
  destruct Hin as [->|Hin]; [congruence|]. destruct (IH (ex_intro _ x (conj Hin Hx))) as [t' [E2 ->]]. rewrite E2. eauto.
Qed.

(** ** Controller connection *)
Lemma skip_skip : forall {A} n m (l : list A), skipn n (skipn m l) = skipn (n + m) l.
Proof.
  intros A n m. revert n. induction m as [|m IH]; intros n l; [rewrite Nat.add_0_r; reflexivity|].
  rewrite Nat.add_succ_r. destruct l as [|x l]; [rewrite !skipn_nil; reflexivity|]. cbn [skipn]. apply IH.
Qed.
Lemma send_prefix : forall rvs raw remain l r, (remain <= length raw)%nat -> cc_send_loop raw remain rvs = (l, r) ->
  (r <= remain)%nat /\ List.concat l ++ skipn (length raw - r) raw = skipn (length raw - remain) raw.
Proof.
  induction rvs as [|rv rvs IH]; intros raw remain l r Hr H; destruct remain as [|k]; cbn [cc_send_loop] in H.
  - injection H as <- <-. split; [lia|reflexivity].
  - injection H as <- <-. split; [lia|reflexivity].
  - injection H as <- <-. split; [lia|reflexivity].
  - set (chunk := skipn (length raw - S k) raw) in *. set (n := Nat.min rv (length chunk)) in *.
    assert (Lc : length chunk = S k) by (unfold chunk; rewrite skipn_length; lia).
    destruct (cc_send_loop raw (S k - n) rvs) as [l' r'] eqn:E. injection H as <- <-.
    apply IH in E; [|lia]. destruct E as [E1 E2]. split; [lia|]. cbn [List.concat]. rewrite <- app_assoc, E2.
    replace (length raw - (S k - n))%nat with (n + (length raw - S k))%nat by lia.
    rewrite <- skip_skip. fold chunk. apply firstn_skipn.
Qed.
Lemma send_enough : forall rvs raw remain, (remain <= length raw)%nat -> Forall (fun n => (0 < n)%nat) rvs -> (remain <= length rvs)%nat ->
  snd (cc_send_loop raw remain rvs) = O.
Proof.
  induction rvs as [|rv rvs IH]; intros raw remain Hr Hp Hl; destruct remain as [|k]; cbn [cc_send_loop]; try reflexivity.
  - cbn [length] in Hl. lia.
  - inversion Hp as [|x y Hx Hy]; subst. set (chunk := skipn (length raw - S k) raw).
    assert (Lc : length chunk = S k) by (unfold chunk; rewrite skipn_length; lia).
    specialize (IH raw (S k - Nat.min rv (length chunk))%nat ltac:(lia) Hy).
    destruct (cc_send_loop raw _ rvs) as [l' r'] eqn:E. cbn [snd] in *. apply IH. cbn [length] in Hl. lia.
Qed.
(** recv takes a non-empty prefix of what is left, of at most [n] bytes. *)
Lemma recv_spec : forall n s d s', (0 < n)%nat -> recv n s = (d, s') ->
  List.concat s = d ++ List.concat s' /\ (length d <= n)%nat /\ (d = [] -> List.concat s = []).
Proof.
  intros n s. induction s as [|c s IH]; intros d s' Hn H; cbn [recv] in H.
  - injection H as <- <-. split; [reflexivity|]. split; [cbn; lia|reflexivity].
  - destruct c as [|x c].
    + cbn [List.concat app]. apply IH; assumption.
    + injection H as <- <-. split; [|split].
      * destruct (skipn n (x :: c)) as [|y r] eqn:E.
        -- cbn [List.concat]. rewrite <- (firstn_skipn n (x :: c)) at 1. rewrite E, app_nil_r. reflexivity.
        -- cbn [List.concat]. rewrite <- (firstn_skipn n (x :: c)) at 1. rewrite E, <- app_assoc. reflexivity.
      * rewrite firstn_length. lia.
      * destruct n; [lia|]. discriminate.
Qed.
Lemma recv_rest_ok : forall fuel body s acc rest, List.concat s = body ++ rest -> (length body <= fuel)%nat ->
  exists s', recv_rest fuel (zlen body) acc s = Ok (acc ++ body, s') /\ List.concat s' = rest.
Proof.
  induction fuel as [|fuel IH]; intros body s acc rest Hs Hf.
  - destruct body; [|cbn [length] in Hf; lia]. exists s. cbn [recv_rest]. change (zlen [] <=? 0) with true. cbv iota.
    rewrite app_nil_r. split; [reflexivity|exact Hs].
  - cbn [recv_rest]. destruct body as [|x body].
    + change (zlen [] <=? 0) with true. cbv iota. exists s. rewrite app_nil_r. split; [reflexivity|exact Hs].
    + assert (L : zlen (x :: body) = zlen body + 1) by (unfold zlen; cbn [length]; lia).
      assert (0 <= zlen body) by (unfold zlen; lia).
      replace (zlen (x :: body) <=? 0) with false by lia.
      destruct (recv (Z.to_nat (zlen (x :: body))) s) as [d s1] eqn:E.
      destruct (recv_spec (Z.to_nat (zlen (x :: body))) s d s1 ltac:(lia) E) as [H1 [H2 H3]].
      assert (Hd : d <> []). { intros ->. rewrite H3 in Hs by reflexivity. discriminate. }
      assert (Ld : (length d <= length (x :: body))%nat) by (unfold zlen in H2; lia).
      rewrite Hs in H1.
      assert (Eb : x :: body = d ++ skipn (length d) (x :: body) /\ skipn (length d) (x :: body) ++ rest = List.concat s1).
      { assert (Ef : firstn (length d) ((x :: body) ++ rest) = firstn (length d) (d ++ List.concat s1)) by (rewrite H1; reflexivity).
        rewrite !firstn_app, Nat.sub_diag, firstn_O, firstn_all, app_nil_r in Ef.
        replace (length d - length (x :: body))%nat with O in Ef by lia. rewrite firstn_O, app_nil_r in Ef.
        assert (Es : skipn (length d) ((x :: body) ++ rest) = skipn (length d) (d ++ List.concat s1)) by (rewrite H1; reflexivity).
        rewrite !skipn_app, Nat.sub_diag, skipn_all in Es. cbn [app skipn] in Es.
        replace (length d - length (x :: body))%nat with O in Es by (cbn [length] in *; lia). cbn [skipn] in Es.
        split; [rewrite <- Ef at 1; symmetry; apply firstn_skipn|exact Es]. }
      destruct Eb as [Eb1 Eb2]. set (b2 := skipn (length d) (x :: body)) in *.
      assert (Lb : length (x :: body) = (length d + length b2)%nat) by (rewrite Eb1 at 1; apply app_length).
      assert (0 < length d)%nat by (destruct d; [contradiction|cbn [length]; lia]).
      replace (zlen (x :: body) - zlen d) with (zlen b2) by (unfold zlen; lia).
      destruct (IH b2 s1 (acc ++ d) rest (eq_sym Eb2) ltac:(lia)) as [s' [E2 E3]].
      exists s'. rewrite E2. split; [|exact E3]. rewrite <- app_assoc, <- Eb1. reflexivity.
Qed.
Lemma hdr_from_len : forall h v r, length h = 8%nat -> hdr_from h = Ok (v, r) -> r = [].
Proof.
  intros h v r L H. unfold hdr_from in H. rewrite L in H. cbn [Nat.ltb Nat.leb] in H.
  apply bindr_ok in H. destruct H as [fs [_ H]].
  destruct fs as [|[a|] [|[b|] [|[c|] [|[d|] [|]]]]]; try discriminate.
  assert (Es : skipn 8 h = []) by (apply skipn_all2; lia). rewrite Es in H.
  change (Nat.leb 2 (length (@nil Z))) with false in H. rewrite andb_false_r in H. injection H as _ <-. reflexivity.
Qed.
Lemma collect_ok : forall fuel h body seg segs rest v r,
  length h = 8%nat -> hdr_from h = Ok (v, r) -> oh_len v = 8 + zlen body -> (8 <= length seg)%nat ->
  List.concat (seg :: segs) = h ++ body ++ rest -> (length body <= fuel)%nat ->
  exists s', cc_collect fuel true (seg :: segs) = Ok (Some (h ++ body), s') /\ List.concat s' = rest.
Proof.
  intros fuel h body seg segs rest v r Lh Hh Hl Ls Hc Hf. unfold cc_collect. cbn [negb].
  destruct (recv 8 (seg :: segs)) as [d s1] eqn:E.
  destruct (recv_spec 8 (seg :: segs) d s1 ltac:(lia) E) as [H1 [H2 H3]].
  assert (Ld : d = firstn 8 seg).
  { destruct seg; [cbn [length] in Ls; lia|]. cbn [recv] in E. injection E as <- _. reflexivity. }
  assert (Ld8 : length d = 8%nat) by (rewrite Ld, firstn_length; lia).
  assert (Ed : d = h /\ body ++ rest = List.concat s1).
  { rewrite Hc in H1. split.
    - assert (Ef : firstn 8 (h ++ body ++ rest) = firstn 8 (d ++ List.concat s1)) by (rewrite H1; reflexivity).
      rewrite !firstn_app, Lh, Ld8, Nat.sub_diag, !firstn_O, !app_nil_r in Ef. rewrite !firstn_all2 in Ef by lia. congruence.
    - assert (Es : skipn 8 (h ++ body ++ rest) = skipn 8 (d ++ List.concat s1)) by (rewrite H1; reflexivity).
      rewrite (skipn_app_exact h _ 8) in Es by lia. rewrite (skipn_app_exact d _ 8) in Es by lia. exact Es. }
  destruct Ed as [-> Ec]. destruct h as [|x h']; [discriminate|]. rewrite Hh. cbn [bindr fst].
  replace (oh_len v - 8) with (zlen body) by lia.
  destruct (recv_rest_ok fuel body s1 (x :: h') rest (eq_sym Ec) Hf) as [s' [E2 E3]]. rewrite E2. cbn [bindr fst snd]. eauto.
Qed.
Lemma recv_nil : forall n s, List.concat s = [] -> recv n s = ([], []).
Proof.
  intros n s. induction s as [|c s IH]; intros H; [reflexivity|]. cbn [List.concat] in H. apply app_eq_nil in H. destruct H as [-> H].
  cbn [recv]. apply IH. exact H.
Qed.
Lemma recv_rest_eof : forall fuel remain acc s, 0 < remain -> List.concat s = [] -> recv_rest fuel remain acc s = Err EFuel.
Proof.
  induction fuel as [|fuel IH]; intros remain acc s Hr Hs; cbn [recv_rest]; replace (remain <=? 0) with false by lia; [reflexivity|].
  rewrite (recv_nil _ _ Hs). apply IH; [unfold zlen; cbn [length]; lia|reflexivity].
Qed.

(** ** Actions *)
Lemma flood_sends : forall ifs nc i, process_actions ifs nc i [act_output 0xfffb] = (map SIntf (filter (fun x => negb (fst x =? i)) ifs), None).
Proof. intros ifs nc i. cbn. rewrite app_nil_r. reflexivity. Qed.
Lemma ports_sends : forall ifs nc i ports, Forall (fun z => 0 <= z < 0xff00) ports ->
  process_actions ifs nc i (map act_output ports) = (map SPort ports, None).
Proof.
  intros ifs nc i ports H. induction H as [|z l Hz _ IH]; [reflexivity|].
  cbn [map process_actions act_output act_call a_body].
  repeat match goal with |- context [?a =? ?b] => replace (a =? b) with false by lia end. rewrite IH. reflexivity.
Qed.
Lemma actions_app : forall ifs nc i l1 l2, snd (process_actions ifs nc i l1) = None ->
  process_actions ifs nc i (l1 ++ l2) =
  (fst (process_actions ifs nc i l1) ++ fst (process_actions ifs nc i l2), snd (process_actions ifs nc i l2)).
Proof.
  intros ifs nc i l1 l2. induction l1 as [|a l1 IH]; intros H; cbn [app process_actions] in *.
  - destruct (process_actions ifs nc i l2); reflexivity.
  - destruct (act_call ifs nc i a) as [s [e|]]; [discriminate|].
    destruct (process_actions ifs nc i l1) as [s1 e1]. cbn [snd] in H. subst e1. rewrite (IH eq_refl). cbn [fst snd].
    destruct (process_actions ifs nc i l2). cbn [fst snd]. rewrite app_assoc. reflexivity.
Qed.
Lemma actions_stop : forall ifs nc i l1 a l2 e, snd (process_actions ifs nc i l1) = None -> snd (act_call ifs nc i a) = Some e ->
  fst (act_call ifs nc i a) = [] ->
  process_actions ifs nc i (l1 ++ a :: l2) = (fst (process_actions ifs nc i l1), Some e).
Proof.
  intros ifs nc i l1 a l2 e H1 H2 H3. rewrite actions_app by exact H1. cbn [process_actions].
  destruct (act_call ifs nc i a) as [s x]. cbn [fst snd] in *. subst x s. cbn [fst snd]. rewrite app_nil_r. reflexivity.
Qed.
