(** OpenFlow 1.0 structures: what parsing gives back after serialising. *)
From Verif Require Import BaseLemmas EthAddrModel EthAddrSpec EthAddrProofs ArpModel Enums CodecLemmas OfModel OfSpec.

(** ** Text. *)
Lemma utf8_run_nuls n : utf8_run [] (repeat 0 n) = true.
Proof. induction n; [reflexivity|]. cbn [repeat utf8_run]. exact IHn. Qed.
Lemma utf8_run_pad b : forall p n, utf8_run p b = true -> utf8_run p (b ++ repeat 0 n) = true.
Proof.
  induction b as [|x b IH]; intros p n H.
  - destruct p; [|discriminate]. apply utf8_run_nuls.
  - cbn [app utf8_run] in *. destruct p as [|[lo hi] p].
    + destruct (utf8_lead x); [|discriminate]. auto.
    + destruct (_ && _); [|discriminate]. auto.
Qed.
Lemma text_fits n t : text_ok n t -> decode (fits n t) = Ok (fits n t) /\ nul_padded n t (fits n t).
Proof.
  intros [H1 H2]. assert (E : fits n t = t ++ repeat 0 (n - length t)).
  { unfold fits. rewrite firstn_all2 by lia. reflexivity. }
  split.
  - unfold decode, utf8_ok in *. rewrite E, utf8_run_pad by auto. reflexivity.
  - split; [apply fits_length|]. rewrite E. eauto.
Qed.

(** ** Bitmaps. *)
Lemma fold_lor_acc s : forall a n, Z.testbit (fold_left Z.lor s a) n = Z.testbit a n || existsb (fun v => Z.testbit v n) s.
Proof. induction s as [|v s IH]; intros a n; cbn [fold_left existsb]; [rewrite orb_false_r; reflexivity|].
  rewrite IH, Z.lor_spec, orb_assoc. reflexivity. Qed.
Lemma bitmap_bit s n : Z.testbit (make_bitmap s) n = existsb (fun v => Z.testbit v n) s.
Proof. unfold make_bitmap. rewrite fold_lor_acc, Z.testbit_0_l. reflexivity. Qed.
Lemma bitmap_has s n : Z.testbit (make_bitmap s) n = true <-> has_bit s n.
Proof. rewrite bitmap_bit, existsb_exists. unfold has_bit. tauto. Qed.
Lemma same_bits_map s t : same_bits s t <-> make_bitmap s = make_bitmap t.
Proof. split.
  - intros H. apply Z.bits_inj'. intros n _. specialize (H n). rewrite <- !bitmap_has in H.
    destruct (Z.testbit (make_bitmap s) n), (Z.testbit (make_bitmap t) n); intuition congruence.
  - intros H n. rewrite <- !bitmap_has, H. tauto. Qed.
Lemma sub_mask v b : Z.land v b = v <-> (forall n, Z.testbit v n = true -> Z.testbit b n = true).
Proof. split.
  - intros H n Hn. rewrite <- H, Z.land_spec in Hn. apply andb_prop in Hn. tauto.
  - intros H. apply Z.bits_inj'. intros n _. rewrite Z.land_spec.
    destruct (Z.testbit v n) eqn:E; [rewrite H by auto; reflexivity|reflexivity]. Qed.
Lemma member_sub v s : In v s -> Z.land v (make_bitmap s) = v.
Proof. intros H. apply sub_mask. intros n Hn. apply bitmap_has. exists v; auto. Qed.
Lemma unpack_has members s : of_enum members s -> same_bits s (unpack_bitmap (make_bitmap s) members).
Proof.
  intros H n. unfold of_enum in H. rewrite Forall_forall in H. split.
  - intros (v & Hv & Hb). exists v. split; [|auto]. unfold unpack_bitmap. apply filter_In. split; auto.
    apply Z.eqb_eq. apply member_sub; auto.
  - intros (v & Hv & Hb). unfold unpack_bitmap in Hv. apply filter_In in Hv. destruct Hv as [_ Hv].
    apply Z.eqb_eq in Hv. apply bitmap_has. rewrite sub_mask in Hv. auto.
Qed.
Lemma bitmap_again members s : of_enum members s -> make_bitmap (unpack_bitmap (make_bitmap s) members) = make_bitmap s.
Proof. intros H. symmetry. apply same_bits_map. apply unpack_has; auto. Qed.
Lemma same_bits_sym s t : same_bits s t -> same_bits t s.
Proof. intros H n. rewrite (H n). tauto. Qed.
Lemma same_bits_refl s : same_bits s s.
Proof. intros n. tauto. Qed.
Lemma bitmap_mask0 k s : Forall (fun v => Z.land v k = 0) s -> Z.land (make_bitmap s) k = 0.
Proof.
  intros H. apply Z.bits_inj'. intros n _. rewrite Z.land_spec, Z.testbit_0_l, bitmap_bit.
  destruct (existsb _ s) eqn:E; [|reflexivity]. apply existsb_exists in E. destruct E as (v & Hv & Hb).
  rewrite Forall_forall in H. specialize (H _ Hv). cbn [andb].
  assert (G : Z.testbit (Z.land v k) n = false) by (rewrite H; apply Z.testbit_0_l).
  rewrite Z.land_spec, Hb in G. exact G.
Qed.

(** ** Helpers for parsing what was packed. *)
Lemma unp f vs b t n : pack f vs = Ok b -> n = calcsize f -> unpack f (firstn n (b ++ t)) = Ok (norm f vs).
Proof. intros H E. apply (take_pack f vs b t n E H). Qed.
Lemma skp f vs b t n : pack f vs = Ok b -> n = calcsize f -> skipn n (b ++ t) = t.
Proof. intros H E. apply (take_pack f vs b t n E H). Qed.
Lemma ltb0 f vs b t n : pack f vs = Ok b -> n = calcsize f -> Nat.ltb (length (b ++ t)) n = false.
Proof. intros H E. apply (take_pack f vs b t n E H). Qed.
Lemma frs f vs b t n : pack f vs = Ok b -> n = calcsize f -> firstn n (b ++ t) = b.
Proof. intros H ->. apply firstn_app_exact. symmetry. eapply pack_length; eauto. Qed.

Lemma decode_hw h : hw6 h -> eth_init (ABytes h) = Ok h.
Proof. apply eth_init_bytes6. Qed.
Lemma fits_hw h : hw6 h -> fits 6 h = h.
Proof. intros. apply fits_exact; auto. Qed.
Lemma get_port_ok p : port_ok p -> get_port p = Ok p.
Proof. unfold port_ok, get_port. intros [H|H].
  - destruct (zmem p OfPorts); [reflexivity|]. replace (_ && _) with true by lia. reflexivity.
  - change (In p OfPorts) in H. apply zmem_In in H. rewrite H. reflexivity. Qed.

(** ** Physical ports. *)
Definition pport_canon (p : pport) : pport :=
  mkPport (pp_num p) (pp_hw p) (fits 16 (pp_name p))
    (unpack_bitmap (make_bitmap (pp_config p)) PortConfigs) (unpack_bitmap (make_bitmap (pp_state p)) PortStates)
    (unpack_bitmap (make_bitmap (pp_curr p)) PortFeatures) (unpack_bitmap (make_bitmap (pp_adv p)) PortFeatures)
    (unpack_bitmap (make_bitmap (pp_supp p)) PortFeatures) (unpack_bitmap (make_bitmap (pp_peer p)) PortFeatures).
Lemma pport_to_length p b : pport_to p = Ok b -> length b = 48%nat.
Proof. intros H. apply pack_length in H. exact H. Qed.
Lemma pport_parse p b t : pport_ok p -> pport_to p = Ok b -> pport_from (b ++ t) = Ok (pport_canon p, t).
Proof.
  intros (H1 & H2 & _) Hb. unfold pport_to in Hb. unfold pport_from.
  rewrite (ltb0 _ _ _ t 48 Hb eq_refl), (unp _ _ _ t 48 Hb eq_refl), (skp _ _ _ t 48 Hb eq_refl).
  cbn [norm pport_fmt bindr]. rewrite fits_hw by auto. rewrite decode_hw by auto. cbn [bindr].
  destruct (text_fits _ _ H2) as [-> _]. cbn [bindr]. reflexivity.
Qed.
Lemma pport_canon_same p : pport_ok p -> pport_same p (pport_canon p).
Proof.
  intros (H1 & H2 & H3 & H4 & H5 & H6 & H7 & H8). unfold pport_same, pport_canon.
  cbn [pp_num pp_hw pp_name pp_config pp_state pp_curr pp_adv pp_supp pp_peer].
  destruct (text_fits _ _ H2) as [_ G].
  repeat match goal with |- _ /\ _ => split end; try assumption; try reflexivity; apply unpack_has; assumption.
Qed.
Lemma pport_canon_to p : pport_ok p -> pport_to (pport_canon p) = pport_to p.
Proof.
  intros (H1 & H2 & H3 & H4 & H5 & H6 & H7 & H8). unfold pport_to, pport_canon, pport_fmt.
  cbn [pp_num pp_hw pp_name pp_config pp_state pp_curr pp_adv pp_supp pp_peer].
  rewrite !bitmap_again by auto. cbn [pack]. rewrite fits_idem. reflexivity.
Qed.

(** ** Matches. *)
Lemma plain_bits s : of_enum PlainWildcards s ->
  Z.land (make_bitmap s) wcNwSrcMask = 0 /\ Z.land (make_bitmap s) wcNwDstMask = 0.
Proof.
  intros H. split; apply bitmap_mask0; eapply Forall_impl; try exact H; cbv beta; intros v Hv.
  - apply Z.eqb_eq. apply (enum_forall PlainWildcards (fun v => Z.land v wcNwSrcMask =? 0) eq_refl); auto.
  - apply Z.eqb_eq. apply (enum_forall PlainWildcards (fun v => Z.land v wcNwDstMask =? 0) eq_refl); auto.
Qed.
Lemma plain_not_all s : of_enum PlainWildcards s -> (make_bitmap s =? wcAll) = false.
Proof. intros H. apply Z.eqb_neq. intros E. apply plain_bits in H. rewrite E in H. destruct H as [H _]. discriminate H. Qed.

Definition match_canon (m : ofmatch) : ofmatch :=
  let '(ws, sw, dw) := wild_from (make_bitmap (m_wild m)) in
  mkMatch ws sw dw (m_inport m) (m_dlsrc m) (m_dldst m) (m_vlan m) (m_pcp m) (m_dltype m) (m_tos m)
    (m_proto m) (m_nwsrc m) (m_nwdst m) (m_tpsrc m) (m_tpdst m).
Lemma match_to_length m b : match_to m = Ok b -> length b = 40%nat.
Proof. intros H. apply pack_length in H. exact H. Qed.
Lemma dltype_in v : In v EtherTypes -> dltype_of v = Ok v.
Proof. intros H. unfold dltype_of. destruct (Z.eqb_spec v 0) as [->|_].
  - exfalso. apply zmem_In in H. discriminate H.
  - apply enum_in; auto. Qed.
Lemma match_parse m b t : match_fields_ok m -> match_to m = Ok b -> match_from (b ++ t) = Ok (match_canon m).
Proof.
  intros (H1 & H2 & H3 & H4 & H5 & H6) Hb. unfold match_to in Hb. unfold match_from.
  rewrite (ltb0 _ _ _ t 40 Hb eq_refl), (unp _ _ _ t 40 Hb eq_refl).
  apply pack_packable in Hb. unfold match_fmt in *. cbn [packable] in Hb. pow256.
  cbn [norm bindr]. unfold match_canon. destruct (wild_from (make_bitmap (m_wild m))) as [[ws sw] dw].
  rewrite !fits_hw by auto. rewrite (fits_exact 4 (m_nwsrc m)), (fits_exact 4 (m_nwdst m)) by auto.
  unfold inport_of. replace (m_inport m <? 0) with false by lia. cbn [bindr].
  rewrite !decode_hw by auto. cbn [bindr]. rewrite dltype_in by auto. cbn [bindr].
  unfold tos_of. replace (_ || _) with false by lia. cbn [bindr]. rewrite enum_in by auto. cbn [bindr].
  unfold ipv4_of_bytes, ip_of_bytes. unfold ip4b in *. rewrite H5, H6. cbn [Nat.eqb orb bindr].
  unfold tp_of. replace ((m_tpsrc m <? 0) || (65536 <=? m_tpsrc m)) with false by lia. cbn [bindr].
  replace ((m_tpdst m <? 0) || (65536 <=? m_tpdst m)) with false by lia. reflexivity.
Qed.
Lemma match_canon_fields m : match_fields (match_canon m) = match_fields m.
Proof. unfold match_canon. destruct (wild_from _) as [[ws sw] dw]. reflexivity. Qed.
Lemma match_canon_same m : match_ok m -> match_same m (match_canon m).
Proof.
  intros [Hf Hw]. split; [apply match_canon_fields|]. unfold match_canon, wild_from.
  destruct Hw as [(Hw & Hs & Hd)|(Hw & Hs & Hd)].
  - rewrite plain_not_all by auto. destruct (plain_bits _ Hw) as [-> ->]. cbn [m_srcw m_dstw m_wild].
    rewrite Hs, Hd. repeat split; try apply (proj1 (unpack_has _ _ Hw n)); try apply (proj2 (unpack_has _ _ Hw n)).
  - rewrite Hw, Hs, Hd. cbn [make_bitmap fold_left]. rewrite Z.lor_0_l. rewrite Z.eqb_refl. cbn [m_srcw m_dstw m_wild].
    repeat split; auto.
Qed.
Lemma match_canon_to m : match_ok m -> match_to (match_canon m) = match_to m.
Proof.
  intros Hm. pose proof (match_canon_same m Hm) as (E & _ & _ & W). apply same_bits_map in W.
  unfold match_fields in E. unfold match_to. rewrite <- W. inversion E. congruence.
Qed.

(** ** Actions. *)
Definition action_canon (a : ofaction) : ofaction :=
  match a_body a with
  | AVendor v d => mkAct (a_type a) (a_len a) (AVendor v (d ++ repeat 0 (Z.to_nat (ceil8 (zlen d) - zlen d))))
  | _ => a
  end.
Lemma ceil8_bounds n : 0 <= n -> n <= ceil8 n < n + 8 /\ ceil8 n mod 8 = 0.
Proof. intros H. unfold ceil8. split.
  - pose proof (Z.div_mod (n + 7) 8 ltac:(lia)). pose proof (Z.mod_pos_bound (n + 7) 8 ltac:(lia)). lia.
  - apply Z.mod_mul. lia. Qed.
Lemma zlen_repeat {A} (x : A) n : zlen (repeat x n) = Z.of_nat n.
Proof. unfold zlen. rewrite repeat_length. reflexivity. Qed.
Lemma pad8_ceil d : pad8 d (d ++ repeat 0 (Z.to_nat (ceil8 (zlen d) - zlen d))).
Proof. destruct (ceil8_bounds (zlen d) (zlen_nonneg d)) as [H1 H2]. eexists. split; [|split; [reflexivity|]].
  - lia.
  - rewrite zlen_app, zlen_repeat. rewrite Z2Nat.id by lia. rewrite <- H2. f_equal. lia. Qed.
Lemma zlen_pack f vs b : pack f vs = Ok b -> zlen b = Z.of_nat (calcsize f).
Proof. intros H. unfold zlen. f_equal. eapply pack_length; eauto. Qed.
Lemma action_length a b : action_ok a -> action_to a = Ok b -> zlen b = a_len a.
Proof.
  intros Ha H. unfold action_to in H. apply bindr_ok in H. destruct H as (h & Hh & H).
  apply bindr_ok in H. destruct H as (x & Hx & H). apply ok_inj in H. subst b.
  rewrite zlen_app, (zlen_pack _ _ _ Hh). unfold action_ok in Ha.
  destruct (a_body a) as [p m|p q|v|v| |x6|x4|t|p|v d]; cbn [abody_to] in Hx;
    try (rewrite (zlen_pack _ _ _ Hx); decompose [and] Ha; cbn [calcsize list_sum fmt_size map fold_right Nat.add]; lia).
  - apply ok_inj in Hx. subst. decompose [and] Ha. cbn. lia.
  - apply bindr_ok in Hx. destruct Hx as (w & Hw & Hx). apply ok_inj in Hx. subst.
    rewrite !zlen_app, (zlen_pack _ _ _ Hw), zlen_repeat. destruct Ha as [_ Ha].
    destruct (ceil8_bounds (zlen d) (zlen_nonneg d)) as [H1 H2].
    rewrite Z2Nat.id by lia. change (Z.of_nat (calcsize [fH; fH])) with 4. change (Z.of_nat (calcsize [fI])) with 4.
    unfold ceil8 in *. lia.
Qed.
Lemma action_parse a b : action_ok a -> action_to a = Ok b -> action_from (a_type a) b = Ok (action_canon a).
Proof.
  intros Ha H. pose proof (action_length a b Ha H) as HL. unfold action_to in H. apply bindr_ok in H. destruct H as (h & Hh & H).
  apply bindr_ok in H. destruct H as (x & Hx & H). apply ok_inj in H. subst b.
  unfold action_from. rewrite (unp _ _ _ x 4 Hh eq_refl), (skp _ _ _ x 4 Hh eq_refl). cbn [norm bindr].
  destruct a as [ty ln bd]. unfold action_ok in Ha. cbn [a_type a_len a_body] in *. unfold action_canon. cbn [a_type a_len a_body].
  destruct bd as [p m|p q|v|v| |x6|x4|t|p|v d]; cbn [abody_to] in Hx; revert HL; decompose [and or] Ha; subst ty; subst ln; intros HL;
    cbn [enum_of zmem existsb ActionTypes Z.eqb Pos.eqb orb bindr];
    try (match type of Hx with pack ?f _ = _ =>
      replace (firstn (calcsize f) x) with x in * by (rewrite <- (pack_length _ _ _ Hx), firstn_all; reflexivity) end);
    try (rewrite <- (app_nil_r x); erewrite unp by (try exact Hx; reflexivity); cbn [norm bindr];
         rewrite ?fits_hw by auto; rewrite ?decode_hw by auto; reflexivity).
  - reflexivity.
  - rewrite <- (app_nil_r x). erewrite unp by (try exact Hx; reflexivity). cbn [norm bindr].
    unfold ip4b in *. rewrite fits_exact by auto. unfold ip_of_bytes. replace (length x4) with 4%nat by auto. reflexivity.
  - rewrite <- (app_nil_r x). erewrite unp by (try exact Hx; reflexivity). cbn [norm bindr].
    unfold ip4b in *. rewrite fits_exact by auto. unfold ip_of_bytes. replace (length x4) with 4%nat by auto. reflexivity.
  - apply bindr_ok in Hx. destruct Hx as (w & Hw & Hx). apply ok_inj in Hx. subst x.
    erewrite unp by (try exact Hw; reflexivity). cbn [norm bindr]. rewrite (skp _ _ _ _ 4 Hw eq_refl).
    do 2 f_equal. rewrite !zlen_app, (zlen_pack _ _ _ Hh), (zlen_pack _ _ _ Hw) in HL.
    rewrite zlen_app. fold (ceil8 (zlen d)) in *.
    pose proof (proj2 (ceil8_bounds (zlen d) (zlen_nonneg d))) as H2.
    assert (E : zlen d + zlen (repeat 0 (Z.to_nat (ceil8 (zlen d) - zlen d))) = ceil8 (zlen d)).
    { cbn [calcsize list_sum fmt_size map fold_right Nat.add] in HL. unfold ceil8 in *. lia. }
    rewrite E. f_equal. unfold ceil8 at 1. apply Z.mod_divide in H2; [|lia]. destruct H2 as [k ->].
    rewrite Z.add_comm, Z.div_add by lia. change (7 / 8) with 0. lia.
Qed.
Lemma action_canon_same a : action_ok a -> action_same a (action_canon a).
Proof. intros _. unfold action_same, action_canon. destruct (a_body a) eqn:E; cbn [a_type a_len a_body]; rewrite ?E;
  repeat match goal with |- _ /\ _ => split end; auto using pad8_ceil. Qed.
Lemma action_canon_to a : action_ok a -> action_to (action_canon a) = action_to a.
Proof.
  intros Ha. unfold action_canon. destruct (a_body a) eqn:E; try reflexivity.
  unfold action_to. cbn [a_type a_len a_body]. rewrite E. cbn [abody_to].
  destruct (pack [fH; fH] _); [|reflexivity]. cbn [bindr]. destruct (pack [fI] _); [|reflexivity]. cbn [bindr].
  destruct (ceil8_bounds (zlen data) (zlen_nonneg data)) as [H1 H2].
  rewrite zlen_app, zlen_repeat, Z2Nat.id by lia.
  replace (zlen data + (ceil8 (zlen data) - zlen data)) with (ceil8 (zlen data)) by lia.
  replace (ceil8 (ceil8 (zlen data))) with (ceil8 (zlen data)).
  - rewrite Z.sub_diag. cbn [Z.to_nat repeat]. rewrite app_nil_r. reflexivity.
  - apply Z.mod_divide in H2; [|lia]. destruct H2 as [k ->]. unfold ceil8.
    rewrite (Z.add_comm (k * 8)), Z.div_add by lia. change (7 / 8) with 0. lia.
Qed.
Lemma a_type_in a : action_ok a -> In (a_type a) ActionTypes.
Proof. unfold action_ok. intros H. apply zmem_In. destruct (a_body a); decompose [and or] H;
  match goal with E : a_type a = _ |- _ => rewrite E; reflexivity end. Qed.
Lemma a_len_ge a : action_ok a -> 4 <= a_len a.
Proof. unfold action_ok. intros H. destruct (a_body a); decompose [and or] H; try lia.
  destruct (ceil8_bounds (zlen data) (zlen_nonneg data)) as [G1 G2]. unfold ceil8 in *. pose proof (zlen_nonneg data). lia. Qed.

Lemma actions_loop_step fuel raw : raw <> [] -> actions_loop (S fuel) raw =
  (fs <- unpack [fH; fH] (firstn 4 raw);;
   match fs with
   | [VI t; VI ln] =>
       t' <- enum_of ActionTypes t;; a <- action_from t' (firstn (Z.to_nat ln) raw);;
       l <- actions_loop fuel (skipn (Z.to_nat ln) raw);; Ok (a :: l)
   | _ => Err EStruct
   end).
Proof. destruct raw; [congruence|reflexivity]. Qed.
Lemma actions_parse l : forall bs fuel, Forall action_ok l -> mapr action_to l = Ok bs ->
  (length (joinb bs) < fuel)%nat -> actions_loop fuel (joinb bs) = Ok (map action_canon l).
Proof.
  induction l as [|a l IH]; intros bs fuel Hf Hm Hl; cbn [mapr] in Hm.
  - apply ok_inj in Hm. subst bs. destruct fuel; [lia|]. reflexivity.
  - apply bindr_ok in Hm. destruct Hm as (x & Hx & Hm). apply bindr_ok in Hm. destruct Hm as (xs & Hxs & Hm).
    apply ok_inj in Hm. subst bs. inversion Hf as [|? ? Ha Hr]; subst.
    unfold joinb in *. cbn [concat] in *. rewrite app_length in Hl.
    pose proof (action_length _ _ Ha Hx) as HL. pose proof (a_len_ge _ Ha). unfold zlen in HL.
    destruct fuel as [|fuel]; [lia|].
    rewrite actions_loop_step by (destruct x; [cbn in HL; lia|discriminate]).
    pose proof Hx as Hx'. unfold action_to in Hx'. apply bindr_ok in Hx'. destruct Hx' as (h & Hh & Hx').
    apply bindr_ok in Hx'. destruct Hx' as (y & Hy & Hx'). apply ok_inj in Hx'.
    replace (firstn 4 (x ++ concat xs)) with (firstn 4 (h ++ (y ++ concat xs))) by (subst x; rewrite app_assoc; reflexivity).
    rewrite (unp _ _ _ _ 4 Hh eq_refl). cbn [norm bindr]. rewrite enum_in by (apply a_type_in; auto). cbn [bindr].
    rewrite <- HL, Nat2Z.id, firstn_app_exact, skipn_app_exact by auto.
    rewrite (action_parse _ _ Ha Hx). cbn [bindr]. rewrite IH by (auto; lia). reflexivity.
Qed.
Lemma actions_round l b : Forall action_ok l -> actions_to l = Ok b -> unpack_actions b = Ok (map action_canon l).
Proof. intros Hf H. unfold actions_to in H. apply bindr_ok in H. destruct H as (bs & Hb & H). apply ok_inj in H. subst b.
  unfold unpack_actions. apply actions_parse; auto. Qed.
Lemma actions_canon_to l : Forall action_ok l -> actions_to (map action_canon l) = actions_to l.
Proof. intros H. unfold actions_to. replace (mapr action_to (map action_canon l)) with (mapr action_to l); [reflexivity|].
  induction H as [|a l Ha Hl IH]; [reflexivity|]. cbn [mapr map]. rewrite action_canon_to by auto. rewrite IH. reflexivity. Qed.
Lemma actions_canon_same l : Forall action_ok l -> Forall2 action_same l (map action_canon l).
Proof. induction 1; cbn [map]; constructor; auto using action_canon_same. Qed.

(** Parsing a list of actions never runs out of fuel, whatever the bytes. *)
Lemma action_from_len t raw a : action_from t raw = Ok a -> (4 <= length raw)%nat.
Proof. unfold action_from. intros H. apply bindr_ok in H. destruct H as (fs & Hu & _).
  apply unpack_length in Hu. rewrite firstn_length in Hu. change (calcsize [fH; fH]) with 4%nat in Hu. lia. Qed.
Lemma enum_err m z e : enum_of m z = Err e -> e = EValue.
Proof. unfold enum_of. destruct (zmem z m); congruence. Qed.
Lemma eth_init_fuel b : eth_init (ABytes b) <> Err EFuel.
Proof. unfold eth_init. cbn [bindr]. destruct (firstn 6 b); discriminate. Qed.
Lemma action_from_fuel t raw : action_from t raw <> Err EFuel.
Proof.
  unfold action_from.
  assert (U : forall f r, unpack f r <> Err EFuel) by (intros f r E; apply unpack_err in E; discriminate).
  assert (E : forall m z, enum_of m z <> Err EFuel) by (intros m z G; apply enum_err in G; discriminate).
  assert (B : forall A C (r : res A) (k : A -> res C), r <> Err EFuel -> (forall a, k a <> Err EFuel) -> bindr r k <> Err EFuel)
    by (intros A C [x|e] k H1 H2; cbn [bindr]; [apply H2|congruence]).
  apply B; [apply U|]. intros [|[x|x] [|[y|y] [|z fs]]]; try discriminate.
  apply B; [apply E|]. intros ty. cbv zeta.
  repeat match goal with |- (if ?c then _ else _) <> _ => destruct c end; try discriminate;
    (apply B; [apply U|]); intros v; destruct v as [|[v1|v1] [|[v2|v2] [|v3 v]]]; try discriminate.
  - apply B; [apply eth_init_fuel|discriminate].
  - apply B; [unfold ip_of_bytes; destruct (_ || _); discriminate|discriminate].
Qed.
Lemma actions_loop_fuel fuel : forall raw, (length raw < fuel)%nat -> actions_loop fuel raw <> Err EFuel.
Proof.
  induction fuel as [|f IH]; intros raw Hl; [lia|]. destruct raw as [|x raw]; [discriminate|].
  rewrite actions_loop_step by discriminate. set (r := x :: raw) in *. clearbody r.
  destruct (unpack [fH; fH] (firstn 4 r)) as [fs|e] eqn:Hu; cbn [bindr].
  2: { apply unpack_err in Hu. congruence. }
  destruct fs as [|[t|t] [|[ln|ln] [|z fs]]]; try discriminate.
  destruct (enum_of ActionTypes t) as [t'|e] eqn:He; cbn [bindr]; [|apply enum_err in He; congruence].
  destruct (action_from t' (firstn (Z.to_nat ln) r)) as [a|e] eqn:Ha; cbn [bindr].
  2: { intros E. injection E as ->. exact (action_from_fuel _ _ Ha). }
  apply action_from_len in Ha. rewrite firstn_length in Ha.
  specialize (IH (skipn (Z.to_nat ln) r)). rewrite skipn_length in IH.
  destruct (actions_loop f (skipn (Z.to_nat ln) r)) as [l|e]; cbn [bindr]; [discriminate|].
  intros E. injection E as ->. apply IH; [lia|reflexivity].
Qed.
Lemma actions_finish raw : unpack_actions raw <> Err EFuel.
Proof. apply actions_loop_fuel. lia. Qed.

(** ** Queues. *)
Lemma minrate_length r b : minrate_to r = Ok b -> length b = 16%nat.
Proof. intros H. apply pack_length in H. exact H. Qed.
Lemma minrate_parse r b t : minrate_to r = Ok b -> minrate_from (b ++ t) = Ok r.
Proof. intros H. unfold minrate_to in H. unfold minrate_from.
  rewrite (ltb0 _ _ _ t 16 H eq_refl), (unp _ _ _ t 16 H eq_refl). reflexivity. Qed.
Lemma props_step f raw : raw <> [] -> props_from (S f) raw =
  (fs <- unpack [fH; fH] (firstn 4 raw);;
   match fs with
   | [VI pt; VI pl] =>
       pt' <- enum_of [0; 1] pt;;
       if pt' =? 1
       then r <- minrate_from (firstn (Z.to_nat pl) raw);; rs <- props_from f (skipn (Z.to_nat pl) raw);; Ok (r :: rs)
       else Err EType
   | _ => Err EStruct
   end).
Proof. destruct raw; [congruence|reflexivity]. Qed.
Lemma minrate_head r b t : minrate_to r = Ok b -> unpack [fH; fH] (firstn 4 (b ++ t)) = Ok [VI 1; VI 16].
Proof.
  intros H. unfold minrate_to in H. change minrate_fmt with ([fH; fH] ++ [FX 4; fH; FX 6]) in H.
  change [VI 1; VI 16; VI r] with ([VI 1; VI 16] ++ [VI r]) in H. rewrite pack_app in H by reflexivity.
  apply bindr_ok in H. destruct H as (h & Hh & H). apply bindr_ok in H. destruct H as (x & Hx & H). apply ok_inj in H. subst b.
  rewrite <- app_assoc. rewrite (unp _ _ _ _ 4 Hh eq_refl). reflexivity.
Qed.
Lemma props_parse l : forall bs fuel, mapr minrate_to l = Ok bs -> (length (joinb bs) < fuel)%nat ->
  props_from fuel (joinb bs) = Ok l.
Proof.
  induction l as [|a l IH]; intros bs fuel Hm Hl; cbn [mapr] in Hm.
  - apply ok_inj in Hm. subst bs. destruct fuel; [lia|]. reflexivity.
  - apply bindr_ok in Hm. destruct Hm as (x & Hx & Hm). apply bindr_ok in Hm. destruct Hm as (xs & Hxs & Hm).
    apply ok_inj in Hm. subst bs. unfold joinb in *. cbn [concat] in *. rewrite app_length in Hl.
    pose proof (minrate_length _ _ Hx) as HL. destruct fuel as [|fuel]; [lia|].
    rewrite props_step by (destruct x; [discriminate HL|discriminate]).
    rewrite (minrate_head _ _ _ Hx). cbn [bindr enum_of zmem existsb Z.eqb Pos.eqb orb].
    change (Z.to_nat 16) with 16%nat. rewrite firstn_app_exact, skipn_app_exact by auto.
    rewrite <- (app_nil_r x), (minrate_parse _ _ _ Hx). cbn [bindr]. rewrite IH by (auto; lia). reflexivity.
Qed.
Lemma queue_parse q b : queue_to q = Ok b -> queue_from b = Ok q /\ (8 <= length b)%nat /\
  exists z, unpack [fI; fH] (firstn 6 b) = Ok [VI z; VI (zlen b)].
Proof.
  intros H. unfold queue_to in H. apply bindr_ok in H. destruct H as (ps & Hp & H).
  apply bindr_ok in H. destruct H as (h & Hh & H). apply ok_inj in H. subst b.
  pose proof (pack_length _ _ _ Hh) as HL. change (calcsize queue_fmt) with 8%nat in HL. split; [|split].
  - unfold queue_from. rewrite (ltb0 _ _ _ _ 8 Hh eq_refl), (unp _ _ _ _ 8 Hh eq_refl), (skp _ _ _ _ 8 Hh eq_refl).
    cbn [norm queue_fmt bindr]. rewrite (props_parse (q_props q)) by (auto; rewrite app_length; lia).
    destruct q; reflexivity.
  - rewrite app_length. lia.
  - exists (q_id q). change queue_fmt with ([fI; fH] ++ [FX 2]) in Hh.
    change [VI (q_id q); VI (zlen (joinb ps) + 8)] with ([VI (q_id q); VI (zlen (joinb ps) + 8)] ++ []) in Hh.
    rewrite pack_app in Hh by reflexivity. apply bindr_ok in Hh. destruct Hh as (h1 & Hh1 & Hh).
    apply bindr_ok in Hh. destruct Hh as (h2 & Hh2 & Hh). apply ok_inj in Hh. subst h.
    rewrite <- app_assoc. rewrite (unp _ _ _ _ 6 Hh1 eq_refl). cbn [norm]. do 4 f_equal. rewrite !zlen_app.
    rewrite (zlen_pack _ _ _ Hh1), (zlen_pack _ _ _ Hh2). change (Z.of_nat (calcsize [fI; fH])) with 6.
    change (Z.of_nat (calcsize [FX 2])) with 2. lia.
Qed.
Lemma queues_step f raw : raw <> [] -> queues_from (S f) raw =
  (fs <- unpack [fI; fH] (firstn 6 raw);;
   match fs with
   | [VI _; VI ln] =>
       q <- queue_from (firstn (Z.to_nat ln) raw);; l <- queues_from f (skipn (Z.to_nat ln) raw);; Ok (q :: l)
   | _ => Err EStruct
   end).
Proof. destruct raw; [congruence|reflexivity]. Qed.
Lemma queues_parse l : forall bs fuel, mapr queue_to l = Ok bs -> (length (joinb bs) < fuel)%nat ->
  queues_from fuel (joinb bs) = Ok l.
Proof.
  induction l as [|a l IH]; intros bs fuel Hm Hl; cbn [mapr] in Hm.
  - apply ok_inj in Hm. subst bs. destruct fuel; [lia|]. reflexivity.
  - apply bindr_ok in Hm. destruct Hm as (x & Hx & Hm). apply bindr_ok in Hm. destruct Hm as (xs & Hxs & Hm).
    apply ok_inj in Hm. subst bs. unfold joinb in *. cbn [concat] in *. rewrite app_length in Hl.
    destruct (queue_parse _ _ Hx) as (G1 & G2 & z & G3). destruct fuel as [|fuel]; [lia|].
    rewrite queues_step by (destruct x; [cbn in G2; lia|discriminate]).
    rewrite firstn_app. replace (6 - length x)%nat with 0%nat by lia. rewrite firstn_O, app_nil_r, G3. cbn [bindr].
    unfold zlen. rewrite Nat2Z.id, firstn_app_exact, skipn_app_exact by auto. rewrite G1. cbn [bindr].
    rewrite IH by (auto; lia). reflexivity.
Qed.

(** ** Lists of ports. *)
Lemma ports_parse l : forall bs fuel, Forall pport_ok l -> mapr pport_to l = Ok bs -> (length (joinb bs) < fuel)%nat ->
  ports_from fuel (joinb bs) = Ok (map pport_canon l, []).
Proof.
  induction l as [|a l IH]; intros bs fuel Hf Hm Hl; cbn [mapr] in Hm.
  - apply ok_inj in Hm. subst bs. destruct fuel; reflexivity.
  - apply bindr_ok in Hm. destruct Hm as (x & Hx & Hm). apply bindr_ok in Hm. destruct Hm as (xs & Hxs & Hm).
    apply ok_inj in Hm. subst bs. inversion Hf as [|? ? Ha Hr]; subst.
    unfold joinb in *. cbn [concat] in *. pose proof (pport_to_length _ _ Hx) as HL. rewrite app_length in Hl.
    destruct fuel as [|fuel]; [lia|]. cbn [ports_from]. rewrite ltb_app_false by auto.
    rewrite (pport_parse _ _ _ Ha Hx). cbn [bindr fst snd]. rewrite IH by (auto; lia). reflexivity.
Qed.
Lemma ports_canon_same l : Forall pport_ok l -> Forall2 pport_same l (map pport_canon l).
Proof. induction 1; cbn [map]; constructor; auto using pport_canon_same. Qed.
Lemma ports_canon_to l : Forall pport_ok l -> mapr pport_to (map pport_canon l) = mapr pport_to l.
Proof. induction 1 as [|a l Ha Hl IH]; [reflexivity|]. cbn [mapr map]. rewrite pport_canon_to by auto. rewrite IH. reflexivity. Qed.
