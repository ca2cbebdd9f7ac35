(** OpenFlow 1.0 message bodies and whole messages: what is read back from serialised bytes. *)
From Verif Require Import Base BaseLemmas EthAddrModel EthAddrSpec EthAddrProofs ArpModel Enums CodecLemmas OfModel OfSpec OfProofs.

Definition flowmod_canon (f : flowmod) : flowmod :=
  mkFm (match_canon (fm_match f)) (fm_cookie f) (fm_command f) (fm_idle f) (fm_hard f) (fm_prio f) (fm_buffer f)
    (fm_outport f) (unpack_bitmap (make_bitmap (fm_flags f)) FlowModFlagss) (map action_canon (fm_actions f)).
Definition flowrem_canon (r : flowrem) : flowrem :=
  mkFr (match_canon (fr_match r)) (fr_cookie r) (fr_prio r) (fr_reason r) (fr_sec r) (fr_nsec r) (fr_idle r)
    (fr_pkts r) (fr_bytes r).
Definition req_canon (r : statsreq) : statsreq :=
  match r with
  | SQFlow m t o => SQFlow (match_canon m) t o
  | SQAggr m t o => SQAggr (match_canon m) t o
  | _ => r
  end.
Definition flowstat_canon (f : flowstat) : flowstat :=
  mkFs (fs_table f) (match_canon (fs_match f)) (fs_sec f) (fs_nsec f) (fs_prio f) (fs_idle f) (fs_hard f)
    (fs_cookie f) (fs_pkts f) (fs_bytes f) (map action_canon (fs_actions f)).
Definition tablestat_canon (t : tablestat) : tablestat :=
  let w := make_bitmap (ts_wild t) in
  mkTs (ts_table t) (fits 32 (ts_name t)) (unpack_bitmap w PlainWildcards)
    (Some (Z.shiftr (Z.land w wcNwSrcMask) 8)) (Some (Z.shiftr (Z.land w wcNwDstMask) 14))
    (ts_max t) (ts_active t) (ts_lookup t) (ts_matched t).
Definition rep_canon (r : statsrep) : statsrep :=
  match r with
  | SPDesc a b c d e => SPDesc (fits 256 a) (fits 256 b) (fits 256 c) (fits 32 d) (fits 256 e)
  | SPFlow f => SPFlow (flowstat_canon f)
  | SPTable t => SPTable (tablestat_canon t)
  | _ => r
  end.
Definition body_canon (b : ofbody) : ofbody :=
  match b with
  | BFeatures dp nb nt cs acts ports =>
      BFeatures dp nb nt (unpack_bitmap (make_bitmap cs) Capabilities) (unpack_bitmap (make_bitmap acts) ActionTypes)
        (map pport_canon ports)
  | BFlowRemoved r => BFlowRemoved (flowrem_canon r)
  | BPortStatus re p => BPortStatus re (pport_canon p)
  | BPacketOut bu ip acts d => BPacketOut bu ip (map action_canon acts) d
  | BFlowMod f => BFlowMod (flowmod_canon f)
  | BPortMod p hw c m ad =>
      BPortMod p hw (unpack_bitmap (make_bitmap c) PortConfigs) (unpack_bitmap (make_bitmap m) PortConfigs)
        (unpack_bitmap (make_bitmap ad) PortFeatures)
  | BStatsReq ty r => BStatsReq ty (req_canon r)
  | BStatsRep ty r => BStatsRep ty (rep_canon r)
  | _ => b
  end.
Definition class_of (b : ofbody) : ofclass :=
  match b with
  | BError _ _ _ => CError | BEchoReq _ => CEchoReq | BEchoRep _ => CEchoRep | BVendor _ _ => CVendor
  | BFeatures _ _ _ _ _ _ => CFeatures | BGetConfig _ _ => CGetConfig | BSetConfig _ _ => CSetConfig
  | BPacketIn _ _ _ _ => CPacketIn | BFlowRemoved _ => CFlowRemoved | BPortStatus _ _ => CPortStatus
  | BPacketOut _ _ _ _ => CPacketOut | BFlowMod _ => CFlowMod | BPortMod _ _ _ _ _ => CPortMod
  | BStatsReq ty _ => CStatsReq ty | BStatsRep ty _ => CStatsRep ty
  | BQueueReq _ => CQueueReq | BQueueRep _ _ => CQueueRep
  end.
Definition left_of (b : ofbody) : option bytes :=
  match b with BFeatures _ _ _ _ _ _ | BGetConfig _ _ | BSetConfig _ _ => Some [] | _ => None end.

Ltac bok H x Hx := apply bindr_ok in H; destruct H as (x & Hx & H).

Lemma match_parse1 m b : match_fields_ok m -> match_to m = Ok b -> match_from b = Ok (match_canon m).
Proof. intros H1 H2. rewrite <- (app_nil_r b). apply match_parse; auto. Qed.
Lemma cut_match m b t : match_to m = Ok b -> firstn 40 (b ++ t) = b /\ skipn 40 (b ++ t) = t.
Proof. intros H. apply match_to_length in H. split; [apply firstn_app_exact|apply skipn_app_exact]; auto. Qed.
Lemma unp1 f vs b : pack f vs = Ok b -> unpack f b = Ok (norm f vs).
Proof. apply unpack_pack. Qed.
Lemma len_ltb f vs b t n : pack f vs = Ok b -> (n <= calcsize f)%nat -> Nat.ltb (length (b ++ t)) n = false.
Proof. intros H Hn. apply pack_length in H. rewrite app_length. apply Nat.ltb_ge. lia. Qed.

Lemma flowmod_parse f b : match_ok (fm_match f) -> In (fm_command f) FlowModCommands ->
  Forall action_ok (fm_actions f) -> flowmod_to f = Ok b -> flowmod_from b = Ok (flowmod_canon f).
Proof.
  intros [Hm _] Hc Ha H. unfold flowmod_to in H. bok H m Hmb. bok H h Hh. bok H a Hab. apply ok_inj in H. subst b.
  destruct (cut_match _ _ (h ++ a) Hmb) as [C1 C2]. pose proof (match_to_length _ _ Hmb) as L1.
  pose proof (pack_length _ _ _ Hh) as L2. change (calcsize flowmod_fmt) with 24%nat in L2.
  unfold flowmod_from. rewrite !app_length. replace (Nat.ltb _ 64) with false by (symmetry; apply Nat.ltb_ge; lia).
  rewrite C1, C2, (match_parse1 _ _ Hm Hmb). cbn [bindr].
  rewrite (unp _ _ _ a 24 Hh eq_refl), (skp _ _ _ a 24 Hh eq_refl). cbn [norm flowmod_fmt bindr].
  rewrite enum_in by auto. cbn [bindr]. rewrite (actions_round _ _ Ha Hab). reflexivity.
Qed.
Lemma flowrem_parse r b : match_ok (fr_match r) -> In (fr_reason r) FlowRemReasons ->
  flowrem_to r = Ok b -> flowrem_from b = Ok (flowrem_canon r).
Proof.
  intros [Hm _] Hc H. unfold flowrem_to in H. bok H m Hmb. bok H h Hh. apply ok_inj in H. subst b.
  destruct (cut_match _ _ h Hmb) as [C1 C2]. pose proof (match_to_length _ _ Hmb) as L1.
  pose proof (pack_length _ _ _ Hh) as L2. change (calcsize flowrem_fmt) with 40%nat in L2.
  unfold flowrem_from. rewrite (firstn_all2 (n:=80)) by (rewrite app_length; lia). rewrite !app_length.
  replace (Nat.ltb _ 80) with false by (symmetry; apply Nat.ltb_ge; lia).
  rewrite C1, C2, (match_parse1 _ _ Hm Hmb). cbn [bindr]. rewrite (unp1 _ _ _ Hh). cbn [norm flowrem_fmt bindr].
  rewrite enum_in by auto. reflexivity.
Qed.
Lemma head_parse ty h t : stats_head ty = Ok h -> In ty StatsTypes ->
  firstn 4 (h ++ t) = h /\ skipn 4 (h ++ t) = t /\ length h = 4%nat /\ stats_from h = Ok ty /\ stats_from (h ++ t) = Ok ty.
Proof.
  intros H Ht. unfold stats_head in H. split; [exact (frs _ _ _ _ 4 H eq_refl)|]. split; [exact (skp _ _ _ _ 4 H eq_refl)|].
  split; [exact (pack_length _ _ _ H)|].
  assert (G : forall t, stats_from (h ++ t) = Ok ty).
  { intros t'. unfold stats_from. rewrite (ltb0 _ _ _ t' 4 H eq_refl), (unp _ _ _ t' 4 H eq_refl). cbn [norm bindr]. apply enum_in; auto. }
  split; [|auto]. rewrite <- (app_nil_r h). auto.
Qed.
Lemma req_type_in r : In (req_type r) StatsTypes.
Proof. apply zmem_In. destruct r; reflexivity. Qed.
Lemma rep_type_in r : In (rep_type r) StatsTypes.
Proof. apply zmem_In. destruct r; reflexivity. Qed.
Lemma statsreq_parse r b : req_ok r -> statsreq_to (req_type r) r = Ok b ->
  statsreq_from (req_type r) b = Ok (BStatsReq (req_type r) (req_canon r)).
Proof.
  intros Hr H. unfold statsreq_to in H. bok H h Hh.
  destruct r; cbn [req_ok req_type req_canon] in *.
  1,4: apply ok_inj in H; subst b; destruct (head_parse _ _ [] Hh) as (_ & _ & _ & E & _); [apply zmem_In; reflexivity|];
     unfold statsreq_from; cbn [Z.eqb Pos.eqb]; rewrite E; reflexivity.
  1,2: destruct Hr as [[Hm _] Hp]; bok H m' Hm'; bok H x Hx; apply ok_inj in H; subst b;
     destruct (head_parse _ _ (m' ++ x) Hh) as (E1 & E2 & E3 & E4 & _); [apply zmem_In; reflexivity|];
     destruct (cut_match _ _ x Hm') as [C1 C2]; pose proof (match_to_length _ _ Hm') as L1;
     pose proof (pack_length _ _ _ Hx) as L2; change (calcsize [fB; FX 1; fH]) with 4%nat in L2;
     unfold statsreq_from; cbn [Z.eqb Pos.eqb zmem existsb orb]; rewrite !app_length;
     (replace (Nat.ltb _ 48) with false by (symmetry; apply Nat.ltb_ge; lia));
     rewrite E1, E2, E4; cbn [bindr]; rewrite C1, C2, (match_parse1 _ _ Hm Hm'); cbn [bindr];
     rewrite (unp1 _ _ _ Hx); cbn [norm bindr]; rewrite get_port_ok by auto; reflexivity.
  1,2,3: bok H x Hx; apply ok_inj in H; subst b; pose proof (pack_length _ _ _ Hx) as L2.
  - destruct (head_parse _ _ x Hh) as (E1 & E2 & E3 & E4 & _); [apply zmem_In; reflexivity|].
    unfold statsreq_from; cbn [Z.eqb Pos.eqb zmem existsb orb]; rewrite !app_length.
    replace (Nat.ltb _ 12) with false by (symmetry; apply Nat.ltb_ge; change (calcsize _) with 8%nat in L2 || change (calcsize _) with 4%nat in L2; lia).
    rewrite E1, E2, E4; cbn [bindr]. rewrite (unp1 _ _ _ Hx); cbn [norm bindr]; rewrite get_port_ok by auto; reflexivity.
  - destruct (head_parse _ _ x Hh) as (E1 & E2 & E3 & E4 & _); [apply zmem_In; reflexivity|].
    unfold statsreq_from; cbn [Z.eqb Pos.eqb zmem existsb orb]; rewrite !app_length.
    replace (Nat.ltb _ 12) with false by (symmetry; apply Nat.ltb_ge; change (calcsize _) with 8%nat in L2 || change (calcsize _) with 4%nat in L2; lia).
    rewrite E1, E2, E4; cbn [bindr]. rewrite (unp1 _ _ _ Hx); cbn [norm bindr]; rewrite get_port_ok by auto; reflexivity.
  - destruct (head_parse _ _ (x ++ data) Hh) as (E1 & E2 & E3 & E4 & _); [apply zmem_In; reflexivity|].
    unfold statsreq_from; cbn [Z.eqb Pos.eqb zmem existsb orb]; rewrite !app_length.
    replace (Nat.ltb _ 8) with false by (symmetry; apply Nat.ltb_ge; change (calcsize _) with 8%nat in L2 || change (calcsize _) with 4%nat in L2; lia).
    rewrite E1, E2, E4; cbn [bindr]. rewrite (unp _ _ _ data 4 Hx eq_refl), (skp _ _ _ data 4 Hx eq_refl). reflexivity.
Qed.
Lemma statsrep_parse r b : rep_ok r -> statsrep_to (rep_type r) r = Ok b ->
  statsrep_from (rep_type r) b = Ok (BStatsRep (rep_type r) (rep_canon r)).
Proof.
  intros Hr H. unfold statsrep_to in H. bok H h Hh.
  destruct r; cbn [rep_ok rep_type rep_canon] in *.
  - destruct Hr as (T1 & T2 & T3 & T4 & T5). bok H x Hx; apply ok_inj in H; subst b; pose proof (pack_length _ _ _ Hx) as L2.
    change (calcsize desc_fmt) with 1056%nat in L2.
    destruct (head_parse _ _ x Hh) as (E1 & E2 & E3 & E4 & _); [apply zmem_In; reflexivity|].
    unfold statsrep_from; cbn [Z.eqb Pos.eqb]; rewrite !app_length.
    replace (Nat.ltb _ 1060) with false by (symmetry; apply Nat.ltb_ge; lia).
    rewrite E1, E2, E4; cbn [bindr]. rewrite (unp1 _ _ _ Hx). cbn [norm desc_fmt bindr].
    rewrite (proj1 (text_fits _ _ T1)), (proj1 (text_fits _ _ T2)), (proj1 (text_fits _ _ T3)), (proj1 (text_fits _ _ T4)),
      (proj1 (text_fits _ _ T5)). reflexivity.
  - destruct Hr as [[Hm _] Ha]. bok H m Hm'. bok H x Hx. bok H a Hab. bok H p Hp. apply ok_inj in H; subst b.
    destruct (head_parse _ _ (p ++ m ++ x ++ a) Hh) as (E1 & E2 & E3 & E4 & _); [apply zmem_In; reflexivity|].
    destruct (cut_match _ _ (x ++ a) Hm') as [C1 C2]; pose proof (match_to_length _ _ Hm') as L1.
    pose proof (pack_length _ _ _ Hx) as L2. change (calcsize fstat2_fmt) with 44%nat in L2.
    pose proof (pack_length _ _ _ Hp) as L3. change (calcsize fstat1_fmt) with 4%nat in L3.
    unfold statsrep_from; cbn [Z.eqb Pos.eqb]; rewrite !app_length.
    replace (Nat.ltb _ 92) with false by (symmetry; apply Nat.ltb_ge; lia).
    rewrite E1, E2, E4; cbn [bindr]. rewrite (unp _ _ _ _ 4 Hp eq_refl), (skp _ _ _ _ 4 Hp eq_refl). cbn [norm fstat1_fmt bindr].
    rewrite C1, C2, (match_parse1 _ _ Hm Hm'). cbn [bindr]. rewrite (unp _ _ _ a 44 Hx eq_refl), (skp _ _ _ a 44 Hx eq_refl).
    cbn [norm fstat2_fmt bindr]. rewrite (actions_round _ _ Ha Hab). reflexivity.
  - bok H x Hx; apply ok_inj in H; subst b; pose proof (pack_length _ _ _ Hx) as L2. change (calcsize _) with 20%nat in L2.
    destruct (head_parse _ _ x Hh) as (E1 & E2 & E3 & E4 & _); [apply zmem_In; reflexivity|].
    unfold statsrep_from; cbn [Z.eqb Pos.eqb]; rewrite !app_length.
    replace (Nat.ltb _ 24) with false by (symmetry; apply Nat.ltb_ge; lia).
    rewrite E1, E2, E4; cbn [bindr]. rewrite (unp1 _ _ _ Hx). reflexivity.
  - destruct Hr as [T1 T2]. bok H x Hx; apply ok_inj in H; subst b; pose proof (pack_length _ _ _ Hx) as L2. change (calcsize _) with 64%nat in L2.
    destruct (head_parse _ _ x Hh) as (E1 & E2 & E3 & E4 & _); [apply zmem_In; reflexivity|].
    unfold statsrep_from; cbn [Z.eqb Pos.eqb]; rewrite !app_length.
    replace (Nat.ltb _ 68) with false by (symmetry; apply Nat.ltb_ge; lia).
    rewrite E1, E2, E4; cbn [bindr]. rewrite (unp1 _ _ _ Hx). cbn [norm table_fmt bindr].
    rewrite (proj1 (text_fits _ _ T1)). reflexivity.
  - bok H x Hx; apply ok_inj in H; subst b; pose proof (pack_length _ _ _ Hx) as L2. change (calcsize _) with 104%nat in L2.
    destruct (head_parse _ _ x Hh) as (E1 & E2 & E3 & E4 & _); [apply zmem_In; reflexivity|].
    unfold statsrep_from; cbn [Z.eqb Pos.eqb]; rewrite !app_length.
    replace (Nat.ltb _ 108) with false by (symmetry; apply Nat.ltb_ge; lia).
    rewrite E1, E2, E4; cbn [bindr]. rewrite (unp1 _ _ _ Hx). cbn [norm portstat_fmt bindr].
    destruct Hr as [R1 R2]. destruct p as [q1 q2 q3 q4 q5 q6 q7 q8 q9 q10 q11 q12 q13]. cbn [ps_over ps_crc] in *. subst. reflexivity.
  - bok H x Hx; apply ok_inj in H; subst b; pose proof (pack_length _ _ _ Hx) as L2. change (calcsize _) with 32%nat in L2.
    destruct (head_parse _ _ x Hh) as (E1 & E2 & E3 & E4 & _); [apply zmem_In; reflexivity|].
    unfold statsrep_from; cbn [Z.eqb Pos.eqb]; rewrite !app_length.
    replace (Nat.ltb _ 36) with false by (symmetry; apply Nat.ltb_ge; lia).
    rewrite E1, E2, E4; cbn [bindr]. rewrite (unp1 _ _ _ Hx). reflexivity.
  - bok H x Hx; apply ok_inj in H; subst b; pose proof (pack_length _ _ _ Hx) as L2. change (calcsize _) with 4%nat in L2.
    destruct (head_parse _ _ (x ++ data) Hh) as (E1 & E2 & E3 & E4 & _); [apply zmem_In; reflexivity|].
    unfold statsrep_from; cbn [Z.eqb Pos.eqb]; rewrite !app_length.
    replace (Nat.ltb _ 8) with false by (symmetry; apply Nat.ltb_ge; lia).
    rewrite E1, E2, E4; cbn [bindr]. rewrite (unp _ _ _ data 4 Hx eq_refl), (skp _ _ _ data 4 Hx eq_refl). reflexivity.
Qed.

Lemma error_code_in t c : In t ErrorTypes -> 0 <= c < (if (t =? 0) || (t =? 4) then 2 else if (t =? 1) || (t =? 2) then 9 else if t =? 3 then 6 else 3) -> In c (error_codes t).
Proof. intros [<-|[<-|[<-|[<-|[<-|[<-|[]]]]]]] H; unfold error_codes; cbn [Z.eqb Pos.eqb orb In] in *; lia. Qed.
(** Reading a serialised body. *)
Lemma body_parse b raw : body_ok b -> body_to b = Ok raw -> body_from (class_of b) raw = Ok (body_canon b, left_of b).
Proof.
  intros Hok H. destruct b; cbn [body_ok body_to class_of body_canon left_of] in *.
  - destruct Hok as (t & c & -> & -> & Ht & Hc). bok H h Hh. apply ok_inj in H. subst raw.
    unfold body_from, noret. rewrite (unp _ _ _ data 4 Hh eq_refl), (skp _ _ _ data 4 Hh eq_refl). cbn [norm bindr].
    rewrite enum_in by auto. cbn [bindr]. rewrite enum_in by (apply error_code_in; auto). reflexivity.
  - apply ok_inj in H. subst. reflexivity.
  - apply ok_inj in H. subst. reflexivity.
  - bok H h Hh. apply ok_inj in H. subst raw. unfold body_from, noret.
    rewrite (unp _ _ _ data 4 Hh eq_refl), (skp _ _ _ data 4 Hh eq_refl). reflexivity.
  - destruct Hok as (D & N & Hc & Ha & Hp). bok H h Hh. bok H ps Hps. apply ok_inj in H. subst raw.
    unfold body_from. rewrite (ltb0 _ _ _ _ 24 Hh eq_refl), (unp _ _ _ _ 24 Hh eq_refl), (skp _ _ _ _ 24 Hh eq_refl).
    pose proof (pack_length _ _ _ Hh) as L. change (calcsize features_fmt) with 24%nat in L.
    apply pack_packable in Hh. unfold features_fmt in Hh. cbn [packable] in Hh. pow256.
    cbn [norm features_fmt bindr]. rewrite fits_exact by auto. unfold dpid_of. rewrite D. cbn [Nat.ltb Nat.leb Nat.sub repeat app bindr].
    unfold nbuf_of. replace ((0 <=? nbuf) && (nbuf <? 4294967296)) with true by lia. cbn [bindr].
    unfold ntab_of. replace ((0 <? ntab) && (ntab <? 256)) with true by lia. cbn [bindr].
    rewrite (ports_parse ports) by (auto; rewrite app_length; lia). reflexivity.
  - rewrite <- (app_nil_r raw). unfold body_from.
    rewrite (ltb0 _ _ _ _ 4 H eq_refl), (unp _ _ _ _ 4 H eq_refl), (skp _ _ _ _ 4 H eq_refl). cbn [norm bindr]. rewrite enum_in by auto. reflexivity.
  - rewrite <- (app_nil_r raw). unfold body_from.
    rewrite (ltb0 _ _ _ _ 4 H eq_refl), (unp _ _ _ _ 4 H eq_refl), (skp _ _ _ _ 4 H eq_refl). cbn [norm bindr]. rewrite enum_in by auto. reflexivity.
  - destruct Hok as [Hp Hr]. bok H h Hh. apply ok_inj in H. subst raw. unfold body_from, noret.
    rewrite (ltb0 _ _ _ _ 10 Hh eq_refl), (unp _ _ _ _ 10 Hh eq_refl), (skp _ _ _ _ 10 Hh eq_refl). cbn [norm packetin_fmt bindr].
    rewrite get_port_ok by auto. cbn [bindr]. rewrite enum_in by auto. reflexivity.
  - destruct Hok as [Hm Hr]. unfold body_from, noret. rewrite (flowrem_parse _ _ Hm Hr H). reflexivity.
  - destruct Hok as [Hr Hp]. bok H h Hh. bok H x Hx. apply ok_inj in H. subst raw. unfold body_from, noret.
    pose proof (pack_length _ _ _ Hh) as L. change (calcsize _) with 8%nat in L. pose proof (pport_to_length _ _ Hx) as L2.
    rewrite app_length. replace (Nat.ltb _ 56) with false by (symmetry; apply Nat.ltb_ge; lia).
    rewrite (unp _ _ _ _ 8 Hh eq_refl), (skp _ _ _ _ 8 Hh eq_refl). cbn [norm bindr]. rewrite enum_in by auto. cbn [bindr].
    rewrite <- (app_nil_r x), (pport_parse _ _ _ Hp Hx). reflexivity.
  - destruct Hok as (Hp & Ha & Hd). bok H a Hab. bok H h Hh. destruct data as [d|]; [|congruence]. apply ok_inj in H. subst raw.
    unfold body_from, noret. rewrite (ltb0 _ _ _ _ 8 Hh eq_refl), (unp _ _ _ _ 8 Hh eq_refl), (skp _ _ _ _ 8 Hh eq_refl).
    cbn [norm packetout_fmt bindr]. rewrite get_port_ok by auto. cbn [bindr].
    unfold zlen. rewrite Nat2Z.id, firstn_app_exact, skipn_app_exact by auto. rewrite (actions_round _ _ Ha Hab). reflexivity.
  - destruct Hok as (Hm & Hc & Hf & Ha). unfold body_from, noret. rewrite (flowmod_parse _ _ Hm Hc Ha H). reflexivity.
  - destruct Hok as (Hh & _ & _ & _). unfold body_from, noret. pose proof (pack_length _ _ _ H) as L.
    change (calcsize portmod_fmt) with 24%nat in L. rewrite L. cbn [Nat.ltb Nat.leb]. rewrite (unp1 _ _ _ H).
    cbn [norm portmod_fmt bindr]. rewrite fits_hw, decode_hw by auto. reflexivity.
  - destruct Hok as [-> Hr]. unfold body_from, noret. rewrite (statsreq_parse _ _ Hr H). reflexivity.
  - destruct Hok as [-> Hr]. unfold body_from, noret. rewrite (statsrep_parse _ _ Hr H). reflexivity.
  - unfold body_from, noret. pose proof (pack_length _ _ _ H) as L. change (calcsize _) with 4%nat in L. rewrite L.
    cbn [Nat.ltb Nat.leb]. rewrite (unp1 _ _ _ H). cbn [norm bindr]. rewrite get_port_ok by auto. reflexivity.
  - bok H h Hh. bok H l Hl. apply ok_inj in H. subst raw. unfold body_from, noret.
    pose proof (pack_length _ _ _ Hh) as L. change (calcsize _) with 8%nat in L.
    rewrite (ltb0 _ _ _ _ 8 Hh eq_refl), (unp _ _ _ _ 8 Hh eq_refl), (skp _ _ _ _ 8 Hh eq_refl). cbn [norm bindr].
    rewrite get_port_ok by auto. cbn [bindr]. rewrite (queues_parse queues) by (auto; rewrite app_length; lia). reflexivity.
Qed.

Lemma body_canon_same b : body_ok b -> body_same b (body_canon b).
Proof.
  intros Hok. destruct b; cbn [body_ok body_canon body_same] in *; auto.
  - decompose [and] Hok. repeat match goal with |- _ /\ _ => split end; auto using unpack_has, ports_canon_same.
  - split; [reflexivity|]. cbn [flowrem_canon fr_match]. apply match_canon_same; tauto.
  - split; auto. apply pport_canon_same; tauto.
  - decompose [and] Hok. repeat match goal with |- _ /\ _ => split end; auto using actions_canon_same.
  - decompose [and] Hok. unfold flowmod_canon. cbn [fm_match fm_flags fm_actions].
    repeat match goal with |- _ /\ _ => split end; auto using actions_canon_same, match_canon_same, unpack_has.
  - decompose [and] Hok. repeat match goal with |- _ /\ _ => split end; auto using unpack_has.
  - destruct Hok as [_ Hr]. split; auto. destruct r; cbn [req_ok req_canon req_same] in *; auto;
      repeat match goal with |- _ /\ _ => split end; auto; apply match_canon_same; tauto.
  - destruct Hok as [_ Hr]. split; auto. destruct r; cbn [rep_ok rep_canon rep_same] in *; auto.
    + decompose [and] Hr. repeat match goal with |- _ /\ _ => split end; apply text_fits; auto.
    + split; [reflexivity|]. unfold flowstat_canon. cbn [fs_match fs_actions]. split; [apply match_canon_same|apply actions_canon_same]; tauto.
    + unfold tablestat_canon. cbn [ts_table ts_max ts_active ts_lookup ts_matched ts_name ts_wild]. split; auto.
      split; [apply text_fits|apply unpack_has]; tauto.
Qed.

Lemma body_canon_to b : body_ok b -> body_to (body_canon b) = body_to b.
Proof.
  intros Hok. destruct b; cbn [body_ok body_canon body_to] in *; auto.
  - decompose [and] Hok. rewrite !bitmap_again, ports_canon_to by auto. reflexivity.
  - unfold flowrem_to, flowrem_canon. cbn [fr_match fr_cookie fr_prio fr_reason fr_sec fr_nsec fr_idle fr_pkts fr_bytes].
    rewrite match_canon_to by tauto. reflexivity.
  - rewrite pport_canon_to by tauto. reflexivity.
  - rewrite actions_canon_to by tauto. reflexivity.
  - decompose [and] Hok. unfold flowmod_to, flowmod_canon.
    cbn [fm_match fm_cookie fm_command fm_idle fm_hard fm_prio fm_buffer fm_outport fm_flags fm_actions].
    rewrite match_canon_to, bitmap_again, actions_canon_to by auto. reflexivity.
  - decompose [and] Hok. rewrite !bitmap_again by auto. reflexivity.
  - destruct Hok as [_ Hr]. destruct r; cbn [req_ok req_canon] in *; auto; unfold statsreq_to;
      rewrite match_canon_to by tauto; reflexivity.
  - destruct Hok as [_ Hr]. destruct r; cbn [rep_ok rep_canon] in *; auto; unfold statsrep_to.
    + unfold desc_fmt. cbn [pack]. rewrite !fits_idem. reflexivity.
    + unfold flowstat_canon. cbn [fs_match fs_actions fs_table fs_sec fs_nsec fs_prio fs_idle fs_hard fs_cookie fs_pkts fs_bytes].
      rewrite match_canon_to, actions_canon_to by tauto. reflexivity.
    + unfold tablestat_canon. cbn [ts_table ts_max ts_active ts_lookup ts_matched ts_name ts_wild].
      rewrite bitmap_again by tauto. unfold table_fmt. cbn [pack]. rewrite !fits_idem. reflexivity.
Qed.

(** ** Whole messages. *)
Lemma stats_sub ty b : (match b with BStatsReq t _ | BStatsRep t _ => t = ty | _ => False end) -> body_ok b ->
  forall raw, body_to b = Ok raw -> (2 <= length raw)%nat /\ unpack [fH] (firstn 2 raw) = Ok [VI ty] /\ In ty StatsTypes.
Proof.
  intros Hb Hok raw H.
  assert (G : exists h t, stats_head ty = Ok h /\ raw = h ++ t).
  { destruct b; try contradiction; cbn [body_to] in H; subst ty0; [unfold statsreq_to in H|unfold statsrep_to in H];
      bok H h Hh; destruct r; repeat match type of H with bindr _ _ = _ => let z := fresh in let Hz := fresh in bok H z Hz end;
      apply ok_inj in H; subst raw; exists h; eexists; split; try exact Hh; try reflexivity; symmetry; apply app_nil_r. }
  destruct G as (h & t & Hh & ->). unfold stats_head in Hh.
  change [fH; fH] with ([fH] ++ [fH]) in Hh. change [VI ty; VI 0] with ([VI ty] ++ [VI 0]) in Hh.
  rewrite pack_app in Hh by reflexivity. bok Hh h1 H1. bok Hh h2 H2. apply ok_inj in Hh. subst h.
  pose proof (pack_length _ _ _ H1) as L. change (calcsize _) with 2%nat in L. split; [rewrite !app_length; lia|]. split.
  - rewrite <- app_assoc. rewrite (unp _ _ _ _ 2 H1 eq_refl). reflexivity.
  - destruct b; try contradiction; subst ty0; destruct Hok as [-> _]; [apply req_type_in|apply rep_type_in].
Qed.
Definition sub_of (b : ofbody) : option Z := match b with BStatsReq t _ | BStatsRep t _ => Some t | _ => None end.
Lemma hdr_parse h b raw hb : body_ok b -> oh_type h = msg_type b -> body_to b = Ok raw -> hdr_to h = Ok hb ->
  hdr_from (hb ++ raw) = Ok (mkOh (oh_ver h) (oh_type h) (oh_len h) (oh_xid h) (sub_of b), raw).
Proof.
  intros Hok Ht Hb Hh. unfold hdr_to in Hh. unfold hdr_from.
  rewrite (ltb0 _ _ _ _ 8 Hh eq_refl), (unp _ _ _ _ 8 Hh eq_refl), (skp _ _ _ _ 8 Hh eq_refl). cbn [norm hdr_fmt bindr].
  rewrite Ht. destruct b; cbn [msg_type sub_of zmem existsb Z.eqb Pos.eqb orb andb]; try reflexivity.
  - destruct (stats_sub ty (BStatsReq ty r) eq_refl Hok _ Hb) as (L & U & I).
    replace (Nat.leb 2 (length raw)) with true by (symmetry; apply Nat.leb_le; auto). rewrite U. cbn [bindr]. rewrite enum_in by auto. reflexivity.
  - destruct (stats_sub ty (BStatsRep ty r) eq_refl Hok _ Hb) as (L & U & I).
    replace (Nat.leb 2 (length raw)) with true by (symmetry; apply Nat.leb_le; auto). rewrite U. cbn [bindr]. rewrite enum_in by auto. reflexivity.
Qed.
Lemma next_class h b : body_ok b -> oh_type h = msg_type b -> oh_sub h = sub_of b -> hdr_next h = Ok (Some (class_of b)).
Proof.
  intros Hok Ht Hs. unfold hdr_next. rewrite Ht, Hs. destruct b; cbn [msg_type sub_of class_of Z.eqb Pos.eqb]; try reflexivity.
  - destruct Hok as [-> _]. destruct r; reflexivity.
  - destruct Hok as [-> _]. destruct r; reflexivity.
Qed.

Lemma message_round h b l raw : body_ok b -> oh_type h = msg_type b -> of_ser [PHdr h; PBody b] = Ok (l, raw) ->
  exists h' b', of_parse raw = Ok [PHdr h'; PBody b'] /\
    oh_ver h' = oh_ver h /\ oh_type h' = oh_type h /\ oh_xid h' = oh_xid h /\ oh_len h' = zlen raw /\
    body_same b b' /\ of_ser [PHdr h'; PBody b'] = Ok ([PHdr h'; PBody b'], raw).
Proof.
  intros Hok Ht H. cbn [of_ser bindr fst snd] in H. bok H r Hr. bok Hr bb Hb. apply ok_inj in Hr. subst r.
  cbn [fst snd] in H. rewrite app_nil_r in H. bok H hb Hh. apply ok_pair_inj in H. destruct H as [_ <-].
  set (h1 := mkOh (oh_ver h) (oh_type h) (zlen bb + 8) (oh_xid h) (oh_sub h)) in *.
  pose proof (hdr_parse h1 b bb hb Hok Ht Hb Hh) as P. cbn [h1 oh_ver oh_type oh_len oh_xid] in P.
  exists (mkOh (oh_ver h) (oh_type h) (zlen bb + 8) (oh_xid h) (sub_of b)), (body_canon b).
  cbn [oh_ver oh_type oh_len oh_xid].
  assert (L : zlen (hb ++ bb) = zlen bb + 8).
  { rewrite zlen_app. unfold hdr_to in Hh. rewrite (zlen_pack _ _ _ Hh). change (Z.of_nat (calcsize hdr_fmt)) with 8. lia. }
  split; [|split; [|split; [|split; [|split; [|split]]]]]; auto using body_canon_same.
  - unfold of_parse. rewrite P. cbn [bindr fst snd]. rewrite (next_class _ b) by auto. cbn [bindr].
    rewrite (body_parse _ _ Hok Hb). cbn [bindr fst snd]. destruct b; reflexivity.
  - cbn [of_ser bindr fst snd oh_ver oh_type oh_xid oh_sub]. rewrite body_canon_to, Hb by auto. cbn [bindr fst snd]. rewrite app_nil_r.
    unfold h1, hdr_to in Hh. unfold hdr_to. cbn [oh_ver oh_type oh_xid oh_len] in Hh |- *. rewrite Hh. reflexivity.
Qed.

(** Messages without a body, and unknown types: the bytes after the header are kept. *)
Lemma bare_next h : bare_type (oh_type h) -> hdr_next h = Ok None.
Proof.
  intros Hb. unfold hdr_next, bare_type in *. cbn [In] in Hb.
  repeat match goal with |- context[oh_type h =? ?n] => destruct (Z.eqb_spec (oh_type h) n) as [E|E]; [exfalso; lia|clear E] end.
  reflexivity.
Qed.
Lemma bare_round h d l raw : bare_type (oh_type h) -> of_ser [PHdr h; PRaw d] = Ok (l, raw) ->
  of_parse raw = Ok (PHdr (mkOh (oh_ver h) (oh_type h) (zlen raw) (oh_xid h) None)
                      :: match d with [] => [] | _ => [PRaw d] end).
Proof.
  intros Hb H. cbn [of_ser bindr fst snd] in H. rewrite app_nil_r in H. bok H hb Hh. apply ok_pair_inj in H. destruct H as [_ <-].
  assert (L : zlen (hb ++ d) = zlen d + 8).
  { rewrite zlen_app. unfold hdr_to in Hh. rewrite (zlen_pack _ _ _ Hh). change (Z.of_nat (calcsize hdr_fmt)) with 8. lia. }
  rewrite L. unfold hdr_to in Hh. cbn [oh_ver oh_type oh_len oh_xid] in Hh. unfold of_parse, hdr_from.
  rewrite (ltb0 _ _ _ _ 8 Hh eq_refl), (unp _ _ _ _ 8 Hh eq_refl), (skp _ _ _ _ 8 Hh eq_refl). cbn [norm hdr_fmt bindr].
  replace (zmem (oh_type h) [16; 17]) with false.
  2: { symmetry. cbn [zmem existsb]. unfold bare_type in Hb. cbn [In] in Hb. lia. }
  cbn [andb bindr fst snd]. rewrite bare_next by auto. cbn [bindr]. destruct d; reflexivity.
Qed.

(** ** Every reading finishes: the loops never run out of their bound. *)
Definition tame {A} (r : res A) := r <> Err EFuel.
Lemma tame_bind {A C} (r : res A) (k : A -> res C) : tame r -> (forall a, r = Ok a -> tame (k a)) -> tame (bindr r k).
Proof. intros H1 H2. unfold tame in *. destruct r as [x|e]; cbn [bindr]; [apply H2; auto|congruence]. Qed.
Lemma tame_unpack f r : tame (unpack f r).
Proof. intros E; apply unpack_err in E; discriminate. Qed.
Lemma tame_enum m z : tame (enum_of m z).
Proof. intros G; apply enum_err in G; discriminate. Qed.
Lemma tame_ok {A} (x : A) : tame (Ok x).
Proof. discriminate. Qed.
Lemma tame_decode b : tame (decode b).
Proof. unfold tame, decode. destruct (utf8_ok b); discriminate. Qed.
Lemma tame_port p : tame (get_port p).
Proof. unfold tame, get_port. destruct (zmem p OfPorts); [discriminate|]. destruct (_ && _); discriminate. Qed.
Lemma tame_hw b : tame (eth_init (ABytes b)).
Proof. apply eth_init_fuel. Qed.
Lemma tame_ip b : tame (ip_of_bytes b).
Proof. unfold tame, ip_of_bytes. destruct (_ || _); discriminate. Qed.
Lemma tame_ip4 b : tame (ipv4_of_bytes b).
Proof. unfold tame, ipv4_of_bytes. destruct (Nat.eqb _ _); discriminate. Qed.
Lemma tame_err {A} e : e <> EFuel -> tame (Err e : res A).
Proof. intros H. unfold tame. congruence. Qed.
Ltac tm := repeat (match goal with
  | |- tame (Ok _) => apply tame_ok
  | |- tame (Err _) => apply tame_err; discriminate
  | |- tame (unpack _ _) => apply tame_unpack
  | |- tame (enum_of _ _) => apply tame_enum
  | |- tame (decode _) => apply tame_decode
  | |- tame (get_port _) => apply tame_port
  | |- tame (eth_init _) => apply tame_hw
  | |- tame (ip_of_bytes _) => apply tame_ip
  | |- tame (ipv4_of_bytes _) => apply tame_ip4
  | |- tame (bindr _ _) => apply tame_bind; [|intros ? _]
  | |- tame (if ?c then _ else _) => destruct c
  | |- tame (match ?v with _ => _ end) => destruct v
  | |- tame (let _ := _ in _) => cbv zeta
  end).
Lemma pport_tame raw : tame (pport_from raw).
Proof. unfold pport_from. tm. Qed.
Lemma match_tame raw : tame (match_from raw).
Proof. unfold match_from, inport_of, dltype_of, tos_of, tp_of. tm. Qed.
Lemma minrate_tame raw : tame (minrate_from raw).
Proof. unfold minrate_from. tm. Qed.
Lemma actions_tame raw : tame (unpack_actions raw).
Proof. apply actions_finish. Qed.
Lemma minrate_from_len raw r : minrate_from raw = Ok r -> (16 <= length raw)%nat.
Proof. unfold minrate_from. destruct (Nat.ltb_spec (length raw) 16) as [L|L]; [discriminate|auto]. Qed.
Lemma props_tame f : forall raw, (length raw < f)%nat -> tame (props_from f raw).
Proof.
  induction f as [|f IH]; intros raw Hl; [lia|]. destruct raw as [|x raw]; [apply tame_ok|].
  rewrite props_step by discriminate. set (r := x :: raw) in *. clearbody r.
  apply tame_bind; [apply tame_unpack|]. intros fs _. destruct fs as [|[t|t] [|[ln|ln] [|z fs]]]; try (apply tame_err; discriminate).
  apply tame_bind; [apply tame_enum|]. intros t' _. destruct (t' =? 1); [|apply tame_err; discriminate].
  apply tame_bind; [apply minrate_tame|]. intros m Hm. apply minrate_from_len in Hm. rewrite firstn_length in Hm.
  apply tame_bind; [|intros; apply tame_ok]. apply IH. rewrite skipn_length. lia.
Qed.
Lemma queue_tame raw : tame (queue_from raw).
Proof.
  unfold queue_from. destruct (Nat.ltb_spec (length raw) 8) as [L|L]; [apply tame_err; discriminate|].
  apply tame_bind; [apply tame_unpack|]. intros fs _. destruct fs as [|[t|t] [|[ln|ln] [|z fs]]]; try (apply tame_err; discriminate).
  apply tame_bind; [|intros; apply tame_ok]. apply props_tame. rewrite skipn_length. lia.
Qed.
Lemma queue_from_len raw r : queue_from raw = Ok r -> (8 <= length raw)%nat.
Proof. unfold queue_from. destruct (Nat.ltb_spec (length raw) 8) as [L|L]; [discriminate|auto]. Qed.
Lemma queues_tame f : forall raw, (length raw < f)%nat -> tame (queues_from f raw).
Proof.
  induction f as [|f IH]; intros raw Hl; [lia|]. destruct raw as [|x raw]; [apply tame_ok|].
  rewrite queues_step by discriminate. set (r := x :: raw) in *. clearbody r.
  apply tame_bind; [apply tame_unpack|]. intros fs _. destruct fs as [|[t|t] [|[ln|ln] [|z fs]]]; try (apply tame_err; discriminate).
  apply tame_bind; [apply queue_tame|]. intros m Hm. apply queue_from_len in Hm. rewrite firstn_length in Hm.
  apply tame_bind; [|intros; apply tame_ok]. apply IH. rewrite skipn_length. lia.
Qed.
Lemma pport_from_rest raw p r : pport_from raw = Ok (p, r) -> r = skipn 48 raw /\ (48 <= length raw)%nat.
Proof.
  unfold pport_from. destruct (Nat.ltb_spec (length raw) 48) as [L|L]; [discriminate|]. intros H. bok H fs Hf.
  repeat match type of H with (match ?v with _ => _ end) = _ => destruct v; try discriminate end.
  bok H x1 Ha. bok H x2 Hb. apply ok_pair_inj in H. destruct H as [_ <-]. auto.
Qed.
Lemma ports_tame f : forall raw, (length raw < f)%nat -> tame (ports_from f raw).
Proof.
  induction f as [|f IH]; intros raw Hl; [lia|]. cbn [ports_from].
  destruct (Nat.ltb_spec (length raw) 48) as [L|L]; [apply tame_ok|].
  apply tame_bind; [apply pport_tame|]. intros [p r] Hp. apply pport_from_rest in Hp. destruct Hp as [-> _].
  apply tame_bind; [|intros; apply tame_ok]. apply IH. cbn [snd]. rewrite skipn_length. lia.
Qed.
Lemma body_tame c raw : tame (body_from c raw).
Proof.
  destruct c; unfold body_from, noret; try apply tame_ok;
  try (unfold flowrem_from, flowmod_from, statsreq_from, statsrep_from, stats_from, dpid_of, nbuf_of, ntab_of;
       tm; try apply match_tame; try apply actions_tame; try apply pport_tame).
  - apply ports_tame. rewrite skipn_length. lia.
  - apply queues_tame. rewrite skipn_length. lia.
Qed.
Lemma hdr_tame raw : tame (hdr_from raw).
Proof. unfold hdr_from. tm. Qed.
Lemma next_tame h : tame (hdr_next h).
Proof. unfold hdr_next. destruct (_ =? 16); [tm|]. destruct (_ =? 17); [tm|]. apply tame_ok. Qed.
Lemma parse_finishes raw : of_parse raw <> Err EFuel.
Proof.
  apply tame_bind; [apply hdr_tame|]. intros hr _. apply tame_bind; [apply next_tame|]. intros [c|] _; [|apply tame_ok].
  apply tame_bind; [apply body_tame|]. intros; apply tame_ok.
Qed.

(** ** Sizes: len() of a message is the number of bytes it serialises to, two classes excepted. *)
Definition size_right (b : ofbody) : Prop :=
  match b with BStatsReq _ (SQVendor _ _) | BStatsRep _ (SPQueue _ _ _ _ _) => False | _ => True end.
Lemma zlen_match m b : match_to m = Ok b -> zlen b = 40.
Proof. intros H. apply match_to_length in H. unfold zlen. lia. Qed.
Lemma zlen_pport p b : pport_to p = Ok b -> zlen b = 48.
Proof. intros H. apply pport_to_length in H. unfold zlen. lia. Qed.
Ltac sizes := repeat match goal with
  | P : pack _ _ = Ok ?x |- _ => apply zlen_pack in P;
      match type of P with _ = ?n => let v := eval vm_compute in n in change n with v in P end
  | P : match_to _ = Ok ?x |- _ => apply zlen_match in P
  | P : pport_to _ = Ok ?x |- _ => apply zlen_pport in P
  end.
Lemma body_size_right b raw : size_right b -> body_to b = Ok raw -> body_size b = Ok (zlen raw).
Proof.
  intros Hs H. destruct b; cbn [body_size body_to size_right] in *; auto.
  1: destruct ty as [t|]; [|discriminate H]; destruct code as [c|]; [|discriminate H].
  all: try (unfold lenr; cbn [body_to]; rewrite H; reflexivity).
  all: try match goal with r : statsreq |- _ => destruct r; try contradiction; unfold statsreq_to in H end.
  all: try match goal with r : statsrep |- _ => destruct r; try contradiction; unfold statsrep_to in H end.
  all: unfold flowrem_to, stats_head in H.
  all: repeat match type of H with
       | bindr _ _ = _ => let z := fresh "z" in let Hz := fresh "Hz" in bok H z Hz
       | match ?dd with Some _ => _ | None => _ end = _ => destruct dd; [|discriminate H]
       end.
  all: try (apply ok_inj in H; subst raw).
  all: repeat match goal with P : actions_to _ = Ok _ |- _ => rewrite P; clear P | P : mapr _ _ = Ok _ |- _ => rewrite P; clear P end.
  all: cbn [bindr]; sizes; rewrite ?zlen_app; f_equal; try lia.
  all: try (unfold lenr; cbn [bindr]; rewrite ?zlen_app; lia).
  all: unfold fstat_minlen; lia.
Qed.

(** ** The bytes written. *)
From Verif Require Import OfLayout.
Fixpoint enc (f : list fmt) (vs : list sval) : bytes :=
  match f, vs with
  | FInt n :: f', VI z :: vs' => be n z ++ enc f' vs'
  | FS n :: f', VB x :: vs' => fits n x ++ enc f' vs'
  | FX n :: f', _ => repeat 0 n ++ enc f' vs
  | _, _ => []
  end.
Lemma pack_enc f : forall vs b, pack f vs = Ok b -> b = enc f vs.
Proof.
  induction f as [|[n|n|n] f IH]; intros vs b H; cbn [pack enc] in *.
  - destruct vs; [|discriminate]. congruence.
  - destruct vs as [|[z|x] vs]; try discriminate. destruct (_ && _); [|discriminate].
    bok H y Hy. apply ok_inj in H. subst. f_equal. auto.
  - destruct vs as [|[z|x] vs]; try discriminate. bok H y Hy. apply ok_inj in H. subst. f_equal. auto.
  - bok H y Hy. apply ok_inj in H. subst. f_equal. auto.
Qed.
Lemma bor_map s : make_bitmap s = bor s.
Proof.
  apply Z.bits_inj'. intros n _. rewrite bitmap_bit. induction s as [|v s IH]; cbn [existsb bor].
  - rewrite Z.testbit_0_l. reflexivity.
  - rewrite Z.lor_spec, IH. reflexivity.
Qed.
Lemma fits_txt n t : (length t <= n)%nat -> fits n t = txt n t.
Proof. intros H. unfold fits, txt, pad. rewrite firstn_all2 by auto. reflexivity. Qed.
Ltac ex6 := repeat match goal with H : hw6 ?x |- context[fits 6 ?x] => rewrite (fits_hw _ H) end.
Lemma port_layout p b : pport_ok p -> pport_to p = Ok b -> b = lay_port p.
Proof.
  intros (H1 & (_ & H2) & _) H. apply pack_enc in H. subst b. unfold pport_fmt, lay_port, u16, u32. cbn [enc].
  rewrite fits_hw, fits_txt, !bor_map by auto. rewrite app_nil_r. reflexivity.
Qed.
Lemma wild_layout m : wild_ok m -> make_bitmap (m_wild m) = lay_wild m.
Proof. unfold lay_wild. intros [(_ & -> & ->)|(-> & -> & ->)]; rewrite bor_map; [|reflexivity]. rewrite Z.lor_0_r. reflexivity. Qed.
Lemma match_layout m b : match_ok m -> match_to m = Ok b -> b = lay_match m.
Proof.
  intros [(H1 & H2 & _ & _ & H3 & H4) Hw] H. unfold match_to in H. apply pack_enc in H. subst b.
  unfold match_fmt, lay_match, u8, u16, u32, pad. cbn [enc]. rewrite !fits_hw by auto.
  rewrite (fits_exact 4 (m_nwsrc m)), (fits_exact 4 (m_nwdst m)), wild_layout by auto. rewrite app_nil_r. reflexivity.
Qed.
Lemma ceil8_pad n : 0 <= n -> ceil8 n - n = (- n) mod 8.
Proof.
  intros H. destruct (ceil8_bounds n H) as [H1 H2].
  apply Z.mod_divide in H2; [|lia]. destruct H2 as [k Hk]. apply (Z.mod_unique_pos _ _ (- k)); lia.
Qed.
Lemma action_layout a b : action_ok a -> action_to a = Ok b -> b = lay_action a.
Proof.
  intros Ha H. unfold action_to in H. bok H h Hh. bok H x Hx. apply ok_inj in H. subst b.
  apply pack_enc in Hh. subst h. unfold lay_action, u8, u16, u32, pad. cbn [enc]. rewrite <- !app_assoc. do 2 f_equal.
  cbn [app]. unfold action_ok in Ha. destruct (a_body a); cbn [abody_to] in Hx.
  all: try (apply ok_inj in Hx; subst x; reflexivity).
  all: try (apply pack_enc in Hx; subst x; cbn [enc]; rewrite ?app_nil_r; reflexivity).
  - apply pack_enc in Hx; subst x; cbn [enc]; rewrite ?app_nil_r, fits_hw by tauto. reflexivity.
  - apply pack_enc in Hx; subst x; cbn [enc]; rewrite ?app_nil_r. apply fits_exact. tauto.
  - bok Hx h Hh. apply ok_inj in Hx. subst x. apply pack_enc in Hh. subst h. cbn [enc]. rewrite app_nil_r.
    rewrite ceil8_pad by apply zlen_nonneg. reflexivity.
Qed.
Lemma mapr_layout {A} (f : A -> res bytes) (g : A -> bytes) l : forall bs,
  (forall a b, In a l -> f a = Ok b -> b = g a) -> mapr f l = Ok bs -> bs = map g l.
Proof.
  induction l as [|a l IH]; intros bs H Hm; cbn [mapr] in Hm; [apply ok_inj in Hm; auto|].
  bok Hm x Hx. bok Hm xs Hxs. apply ok_inj in Hm. subst. cbn [map]. f_equal; [apply H; cbn; auto|].
  apply IH; auto. intros; apply H; cbn; auto.
Qed.
Lemma actions_layout l b : Forall action_ok l -> actions_to l = Ok b -> b = lay_actions l.
Proof.
  intros Ha H. unfold actions_to in H. bok H bs Hbs. apply ok_inj in H. subst b. unfold joinb, lay_actions. f_equal.
  rewrite Forall_forall in Ha. eapply mapr_layout; [|exact Hbs]. intros a b Hin. apply action_layout; auto.
Qed.
Lemma queue_layout q b : queue_to q = Ok b -> b = lay_queue q.
Proof.
  intros H. unfold queue_to in H. bok H ps Hps. bok H h Hh. apply ok_inj in H. subst b. apply pack_enc in Hh. subst h.
  assert (E : ps = map (fun r => u16 1 ++ u16 16 ++ pad 4 ++ u16 r ++ pad 6) (q_props q)).
  { eapply mapr_layout; [|exact Hps]. intros a b _ Hb. apply pack_enc in Hb. subst b. unfold minrate_fmt, u16, pad. cbn [enc].
    rewrite app_nil_r. reflexivity. }
  assert (L : zlen (joinb ps) = 16 * zlen (q_props q)).
  { rewrite E. clear. unfold joinb. induction (q_props q) as [|r l IH]; [reflexivity|]. cbn [map concat].
    rewrite zlen_app, IH. unfold zlen. cbn [length]. rewrite !app_length. unfold u16, pad. rewrite !be_length, !repeat_length. lia. }
  unfold lay_queue, queue_fmt, u32, u16, pad. cbn [enc]. rewrite L, <- !app_assoc. cbn [app].
  rewrite (Z.add_comm _ 8). do 4 f_equal. unfold joinb. rewrite E. reflexivity.
Qed.
Lemma body_layout_gen b raw : body_ok b -> body_to b = Ok raw ->
  raw = lay_gen (fun d => zlen d + 10) (fun f => 92 + zlen (lay_actions (fs_actions f)))
          (fun nb np nf => u64 nb ++ u64 np ++ u32 nf) b.
Proof.
  intros Hok H. destruct b; cbn [body_ok body_to lay_gen] in *.
  - destruct Hok as (t & c & -> & -> & _). bok H h Hh. apply ok_inj in H. subst. apply pack_enc in Hh. subst h. cbn [enc].
    rewrite <- !app_assoc. reflexivity.
  - congruence.
  - congruence.
  - bok H h Hh. apply ok_inj in H. subst. apply pack_enc in Hh. subst h. cbn [enc]. rewrite <- !app_assoc. reflexivity.
  - destruct Hok as (D & _ & _ & _ & Hp). bok H h Hh. bok H ps Hps. apply ok_inj in H. subst. apply pack_enc in Hh. subst h.
    unfold features_fmt, u32, u8, pad. cbn [enc]. rewrite fits_exact, !bor_map by auto. rewrite <- !app_assoc. cbn [app].
    do 6 f_equal. unfold joinb. f_equal. rewrite Forall_forall in Hp. eapply mapr_layout; [|exact Hps].
    intros a b Hin. apply port_layout; auto.
  - apply pack_enc in H. subst. cbn [enc]. rewrite app_nil_r. reflexivity.
  - apply pack_enc in H. subst. cbn [enc]. rewrite app_nil_r. reflexivity.
  - bok H h Hh. apply ok_inj in H. subst. apply pack_enc in Hh. subst h. unfold packetin_fmt, u32, u16, u8, pad. cbn [enc].
    rewrite <- !app_assoc. reflexivity.
  - destruct Hok as [Hm _]. unfold flowrem_to in H. bok H m Hmb. bok H h Hh. apply ok_inj in H. subst.
    apply match_layout in Hmb; auto. apply pack_enc in Hh. subst. unfold flowrem_fmt, u64, u32, u16, u8, pad. cbn [enc].
    rewrite app_nil_r. reflexivity.
  - destruct Hok as [_ Hp]. bok H h Hh. bok H x Hx. apply ok_inj in H. subst. apply port_layout in Hx; auto.
    apply pack_enc in Hh. subst. cbn [enc]. rewrite <- !app_assoc. reflexivity.
  - destruct Hok as (_ & Ha & Hd). bok H a Hab. bok H h Hh. destruct data as [d|]; [|congruence]. apply ok_inj in H. subst.
    apply actions_layout in Hab; auto. apply pack_enc in Hh. subst. unfold packetout_fmt. cbn [enc]. rewrite <- !app_assoc. reflexivity.
  - destruct Hok as (Hm & _ & _ & Ha). unfold flowmod_to in H. bok H m Hmb. bok H h Hh. bok H a Hab. apply ok_inj in H. subst.
    apply match_layout in Hmb; auto. apply actions_layout in Hab; auto. apply pack_enc in Hh. subst.
    unfold flowmod_fmt, u64, u32, u16, u8, pad. cbn [enc]. rewrite bor_map, <- !app_assoc. reflexivity.
  - destruct Hok as (Hh & _). apply pack_enc in H. subst. unfold portmod_fmt. cbn [enc]. rewrite fits_hw, !bor_map by auto.
    rewrite app_nil_r. reflexivity.
  - destruct Hok as [-> Hr]. unfold statsreq_to in H. bok H h Hh. unfold stats_head in Hh. apply pack_enc in Hh. subst h.
    destruct r; cbn [req_ok lay_req] in *;
      repeat match type of H with bindr _ _ = _ => let z := fresh "z" in let Hz := fresh "Hz" in bok H z Hz end;
      apply ok_inj in H; subst raw;
      repeat match goal with P : pack _ _ = Ok _ |- _ => apply pack_enc in P; subst
             | P : match_to _ = Ok _ |- _ => apply match_layout in P; [subst|apply Hr] end;
      cbn [enc]; rewrite ?app_nil_r, <- ?app_assoc; reflexivity.
  - destruct Hok as [-> Hr]. unfold statsrep_to in H. bok H h Hh. unfold stats_head in Hh. apply pack_enc in Hh. subst h.
    destruct r; cbn [rep_ok lay_rep] in *;
      repeat match type of H with bindr _ _ = _ => let z := fresh "z" in let Hz := fresh "Hz" in bok H z Hz end;
      apply ok_inj in H; subst raw;
      repeat match goal with P : pack _ _ = Ok _ |- _ => apply pack_enc in P; subst
             | P : match_to _ = Ok _ |- _ => apply match_layout in P; [subst|apply Hr]
             | P : actions_to _ = Ok _ |- _ => apply actions_layout in P; [subst|apply Hr] end;
      unfold desc_fmt, fstat1_fmt, fstat2_fmt, table_fmt, portstat_fmt, queuestat_fmt;
      cbn [enc]; rewrite ?app_nil_r, <- ?app_assoc, ?bor_map; try reflexivity.
    + destruct Hr as ([_ T1] & [_ T2] & [_ T3] & [_ T4] & [_ T5]). rewrite !fits_txt by auto. reflexivity.
    + destruct Hr as [[_ T1] _]. rewrite !fits_txt by auto. reflexivity.
  - apply pack_enc in H. subst. cbn [enc]. rewrite app_nil_r. reflexivity.
  - bok H h Hh. bok H l Hl. apply ok_inj in H. subst. apply pack_enc in Hh. subst. cbn [enc]. rewrite <- !app_assoc. cbn [app].
    do 2 f_equal. unfold joinb. f_equal. eapply mapr_layout; [|exact Hl]. intros a b _. apply queue_layout.
Qed.
Lemma body_layout b raw : body_ok b -> laid_out b -> body_to b = Ok raw -> raw = lay_body b.
Proof.
  intros Hok Hl H. apply body_layout_gen in H; auto. rewrite H. unfold lay_body.
  destruct b; cbn [laid_out lay_gen] in *; try reflexivity; try contradiction.
  destruct r; cbn [lay_rep] in *; try reflexivity; contradiction.
Qed.
Lemma message_layout h b l raw : body_ok b -> laid_out b -> oh_type h = msg_type b ->
  of_ser [PHdr h; PBody b] = Ok (l, raw) ->
  raw = lay_hdr (oh_ver h) (msg_type b) (8 + zlen (lay_body b)) (oh_xid h) ++ lay_body b.
Proof.
  intros Hok Hl Ht H. cbn [of_ser bindr fst snd] in H. bok H r Hr. bok Hr bb Hb. apply ok_inj in Hr. subst r.
  cbn [fst snd] in H. rewrite app_nil_r in H. bok H hb Hh. apply ok_pair_inj in H. destruct H as [_ <-].
  apply body_layout in Hb; auto. subst bb. unfold hdr_to in Hh. apply pack_enc in Hh. subst hb.
  unfold hdr_fmt. cbn [enc oh_ver oh_type oh_len oh_xid]. rewrite Ht, app_nil_r, (Z.add_comm _ 8). reflexivity.
Qed.
