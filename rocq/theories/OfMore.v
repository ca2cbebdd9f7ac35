(** Reading matches with address prefixes, action constructors, and UTF-8. *)
From Verif Require Import Base BaseLemmas EthAddrModel EthAddrSpec ArpModel Enums CodecLemmas OfModel OfSpec OfLayout OfProofs OfMsg.

(** ** Matches with address prefixes *)
Definition plain_bit (n : Z) : Prop := In n [0; 1; 2; 3; 4; 5; 6; 7; 20; 21].
Lemma plain_bit_plain : forall v, In v PlainWildcards -> exists n, plain_bit n /\ v = 2 ^ n.
Proof.
  intros v H. unfold PlainWildcards in H. cbn [In] in H.
  repeat (destruct H as [<-|H]; [first [exists 0; split; [cbn; tauto|reflexivity]|exists 1; split; [cbn; tauto|reflexivity]|exists 2; split; [cbn; tauto|reflexivity]
    |exists 3; split; [cbn; tauto|reflexivity]|exists 4; split; [cbn; tauto|reflexivity]|exists 5; split; [cbn; tauto|reflexivity]|exists 6; split; [cbn; tauto|reflexivity]
    |exists 7; split; [cbn; tauto|reflexivity]|exists 20; split; [cbn; tauto|reflexivity]|exists 21; split; [cbn; tauto|reflexivity]]|]). contradiction.
Qed.
Lemma plain_bit_in : forall n, plain_bit n -> In (2 ^ n) PlainWildcards.
Proof. intros n H. unfold plain_bit in H. cbn [In] in H. repeat (destruct H as [<-|H]; [apply zmem_In; reflexivity|]). contradiction. Qed.
Lemma small_bit : forall s n, 0 <= s < 64 -> 6 <= n -> Z.testbit s n = false.
Proof.
  intros s n H Hn. destruct (Z.eq_dec s 0) as [->|N]; [apply Z.testbit_0_l|]. apply Z.bits_above_log2; [lia|].
  assert (Z.log2 s < 6) by (apply Z.log2_lt_pow2; lia). lia.
Qed.
Lemma lay_bit : forall m n, 0 <= m_srcw m < 64 -> 0 <= m_dstw m < 64 -> 0 <= n ->
  Z.testbit (lay_wild m) n = Z.testbit (bor (m_wild m)) n || (if n <? 8 then false else if n <? 14 then Z.testbit (m_srcw m) (n - 8) else if n <? 20 then Z.testbit (m_dstw m) (n - 14) else false).
Proof.
  intros m n Hs Hd Hn. unfold lay_wild. rewrite !Z.lor_spec, !Z.shiftl_spec by lia. f_equal.
  destruct (Z.ltb_spec n 8); [rewrite !Z.testbit_neg_r by lia; reflexivity|].
  destruct (Z.ltb_spec n 14); [rewrite (Z.testbit_neg_r _ (n - 14)) by lia; apply orb_false_r|].
  rewrite (small_bit (m_srcw m)) by lia. destruct (Z.ltb_spec n 20); [reflexivity|]. apply small_bit; lia.
Qed.
Lemma plain_high : forall s n, of_enum PlainWildcards s -> 8 <= n < 20 -> Z.testbit (bor s) n = false.
Proof.
  intros s n H Hn. rewrite <- bor_map, bitmap_bit. apply not_true_is_false. intros E. apply existsb_exists in E. destruct E as (v & Hv & Hb).
  unfold of_enum in H. rewrite Forall_forall in H. destruct (plain_bit_plain v (H v Hv)) as (k & Hk & ->).
  destruct (Z.eq_dec k n) as [->|N]; [unfold plain_bit in Hk; cbn [In] in Hk; lia|].
  assert (0 <= k) by (unfold plain_bit in Hk; cbn [In] in Hk; lia). rewrite Z.pow2_bits_false in Hb by lia. discriminate.
Qed.
Lemma wild_prefix : forall m, of_enum PlainWildcards (m_wild m) -> 0 <= m_srcw m < 64 -> 0 <= m_dstw m < 64 ->
  Z.shiftr (Z.land (lay_wild m) wcNwSrcMask) 8 = m_srcw m /\ Z.shiftr (Z.land (lay_wild m) wcNwDstMask) 14 = m_dstw m.
Proof.
  intros m Hw Hs Hd. split; apply Z.bits_inj'; intros n Hn; rewrite Z.shiftr_spec, Z.land_spec by lia; rewrite lay_bit by lia.
  - destruct (Z.ltb_spec (n + 8) 8); [lia|]. destruct (Z.ltb_spec (n + 8) 14).
    + rewrite plain_high by (auto; lia). replace (n + 8 - 8) with n by lia. cbn [orb]. assert (C : n = 0 \/ n = 1 \/ n = 2 \/ n = 3 \/ n = 4 \/ n = 5) by lia.
      destruct C as [->|[->|[->|[->|[->| ->]]]]]; apply andb_true_r.
    + rewrite (small_bit (m_srcw m) n) by lia. apply andb_false_intro2. change wcNwSrcMask with (Z.ones 6 * 2 ^ 8). rewrite Z.mul_pow2_bits by lia. apply Z.ones_spec_high. lia.
  - destruct (Z.ltb_spec (n + 14) 8); [lia|]. destruct (Z.ltb_spec (n + 14) 14); [lia|]. destruct (Z.ltb_spec (n + 14) 20).
    + rewrite plain_high by (auto; lia). replace (n + 14 - 14) with n by lia. cbn [orb]. assert (C : n = 0 \/ n = 1 \/ n = 2 \/ n = 3 \/ n = 4 \/ n = 5) by lia.
      destruct C as [->|[->|[->|[->|[->| ->]]]]]; apply andb_true_r.
    + rewrite (small_bit (m_dstw m) n) by lia. apply andb_false_intro2. change wcNwDstMask with (Z.ones 6 * 2 ^ 14). rewrite Z.mul_pow2_bits by lia. apply Z.ones_spec_high. lia.
Qed.
Lemma lay_plain : forall m n, 0 <= m_srcw m < 64 -> 0 <= m_dstw m < 64 -> plain_bit n -> Z.testbit (lay_wild m) n = Z.testbit (bor (m_wild m)) n.
Proof.
  intros m n Hs Hd Hn. unfold plain_bit in Hn. cbn [In] in Hn. rewrite lay_bit by lia.
  destruct (Z.ltb_spec n 8); [apply orb_false_r|]. destruct (Z.ltb_spec n 14); [lia|]. destruct (Z.ltb_spec n 20); [lia|]. apply orb_false_r.
Qed.
Lemma wild_read : forall m ws sw dw, of_enum PlainWildcards (m_wild m) -> 0 <= m_srcw m < 64 -> 0 <= m_dstw m < 64 -> wild_from (lay_wild m) = (ws, sw, dw) ->
  sw = Z.min 32 (m_srcw m) /\ dw = Z.min 32 (m_dstw m) /\ forall n, plain_bit n -> (has_bit (m_wild m) n <-> has_bit ws n).
Proof.
  intros m ws sw dw Hw Hs Hd H. destruct (wild_prefix m Hw Hs Hd) as [W1 W2].
  assert (Hb : forall n, plain_bit n -> (has_bit (m_wild m) n <-> Z.testbit (lay_wild m) n = true)).
  { intros n Hn. rewrite lay_plain by auto. rewrite <- bor_map. symmetry. apply bitmap_has. }
  unfold wild_from in H. destruct (Z.eqb_spec (lay_wild m) wcAll) as [E|E].
  - injection H as <- <- <-. rewrite E in W1, W2. change (Z.shiftr (Z.land wcAll wcNwSrcMask) 8) with 63 in W1. change (Z.shiftr (Z.land wcAll wcNwDstMask) 14) with 63 in W2.
    split; [lia|]. split; [lia|]. intros n Hn. rewrite (Hb n Hn), E. split; intros X; [exists wcAll; split; [left; reflexivity|exact X]|].
    destruct X as (v & [<-|[]] & X). exact X.
  - apply pair_equal_spec in H. destruct H as [H <-]. apply pair_equal_spec in H. destruct H as [<- <-]. rewrite W1, W2. unfold clamp32. split; [lia|]. split; [lia|]. intros n Hn. rewrite (Hb n Hn).
    assert (Nn : 0 <= n) by (unfold plain_bit in Hn; cbn [In] in Hn; lia). split.
    + intros X. exists (2 ^ n). split; [|apply Z.pow2_bits_true; lia]. apply filter_In. split; [apply plain_bit_in; exact Hn|]. apply Z.eqb_eq. apply sub_mask.
      intros k Hk. destruct (Z.eq_dec n k) as [<-|N]; [exact X|]. rewrite Z.pow2_bits_false in Hk by lia. discriminate.
    + intros (v & Hv & Hbv). apply filter_In in Hv. destruct Hv as [_ Hv]. apply Z.eqb_eq in Hv. rewrite sub_mask in Hv. apply Hv. exact Hbv.
Qed.
(** Values the fields of the published structure have room for. *)
Definition match_room (m : ofmatch) : Prop :=
  hw6 (m_dlsrc m) /\ hw6 (m_dldst m) /\ ip4b (m_nwsrc m) /\ ip4b (m_nwdst m) /\ (In (m_dltype m) EtherTypes \/ m_dltype m = 0) /\ In (m_proto m) IPProtocols /\
  0 <= m_inport m < 65536 /\ 0 <= m_vlan m < 65536 /\ 0 <= m_pcp m < 256 /\ 0 <= m_tos m < 256 /\ 0 <= m_tpsrc m < 65536 /\ 0 <= m_tpdst m < 65536.
Lemma lay_wild_range : forall m, of_enum PlainWildcards (m_wild m) -> 0 <= m_srcw m < 64 -> 0 <= m_dstw m < 64 -> 0 <= lay_wild m < 2 ^ 22.
Proof.
  intros m Hw Hs Hd.
  assert (Hb : forall n, 22 <= n -> Z.testbit (lay_wild m) n = false).
  { intros n Hn. rewrite lay_bit by lia. destruct (Z.ltb_spec n 8); [lia|]. destruct (Z.ltb_spec n 14); [lia|]. destruct (Z.ltb_spec n 20); [lia|]. rewrite orb_false_r.
    rewrite <- bor_map, bitmap_bit. apply not_true_is_false. intros E. apply existsb_exists in E. destruct E as (v & Hv & X).
    unfold of_enum in Hw. rewrite Forall_forall in Hw. destruct (plain_bit_plain v (Hw v Hv)) as (k & Hk & ->). unfold plain_bit in Hk. cbn [In] in Hk. rewrite Z.pow2_bits_false in X by lia. discriminate. }
  assert (E : lay_wild m = Z.land (lay_wild m) (Z.ones 22)).
  { apply Z.bits_inj'. intros n Hn. rewrite Z.land_spec. destruct (Z.ltb_spec n 22); [rewrite Z.ones_spec_low by lia; rewrite andb_true_r; reflexivity|].
    rewrite Hb by lia. reflexivity. }
  rewrite E, Z.land_ones by lia. apply Z.mod_pos_bound. lia.
Qed.
Definition with_wild (m : ofmatch) (w : Z) : list sval :=
  [VI w; VI (m_inport m); VB (m_dlsrc m); VB (m_dldst m); VI (m_vlan m); VI (m_pcp m); VI (m_dltype m); VI (m_tos m); VI (m_proto m); VB (m_nwsrc m);
    VB (m_nwdst m); VI (m_tpsrc m); VI (m_tpdst m)].
Lemma lay_match_pack : forall m, match_room m -> of_enum PlainWildcards (m_wild m) -> 0 <= m_srcw m < 64 -> 0 <= m_dstw m < 64 -> pack match_fmt (with_wild m (lay_wild m)) = Ok (lay_match m).
Proof.
  intros m (H1 & H2 & H3 & H4 & H5 & H6 & R1 & R2 & R3 & R4 & R5 & R6) Hw Hs Hd. pose proof (lay_wild_range m Hw Hs Hd) as Rw.
  assert (R7 : 0 <= m_dltype m < 65536).
  { destruct H5 as [H5| ->]; [|lia]. pose proof (enum_forall EtherTypes (fun v => (0 <=? v) && (v <? 65536)) eq_refl _ H5) as X. cbv beta in X. lia. }
  assert (R8 : 0 <= m_proto m < 256).
  { pose proof (enum_forall IPProtocols (fun v => (0 <=? v) && (v <? 256)) eq_refl _ H6) as X. cbv beta in X. lia. }
  destruct (pack_ok match_fmt (with_wild m (lay_wild m))) as [b Hb].
  { unfold match_fmt, with_wild. cbn [packable]. change (256 ^ Z.of_nat 1) with 256. change (256 ^ Z.of_nat 2) with 65536. change (256 ^ Z.of_nat 4) with (2 ^ 32).
    repeat split; try lia. }
  rewrite Hb. f_equal. apply pack_enc in Hb. subst b. unfold match_fmt, with_wild, lay_match, u8, u16, u32, pad. cbn [enc]. rewrite !fits_hw by auto.
  rewrite (fits_exact 4 (m_nwsrc m)), (fits_exact 4 (m_nwdst m)) by auto. rewrite app_nil_r. reflexivity.
Qed.
Lemma read_match : forall m t, match_room m -> of_enum PlainWildcards (m_wild m) -> 0 <= m_srcw m < 64 -> 0 <= m_dstw m < 64 ->
  exists m', match_from (lay_match m ++ t) = Ok m' /\
    (m_inport m', m_dlsrc m', m_dldst m', m_vlan m', m_pcp m', m_tos m', m_proto m', m_nwsrc m', m_nwdst m', m_tpsrc m', m_tpdst m') =
    (m_inport m, m_dlsrc m, m_dldst m, m_vlan m, m_pcp m, m_tos m, m_proto m, m_nwsrc m, m_nwdst m, m_tpsrc m, m_tpdst m) /\
    m_dltype m' = (if m_dltype m =? 0 then 0xffff else m_dltype m) /\
    m_srcw m' = Z.min 32 (m_srcw m) /\ m_dstw m' = Z.min 32 (m_dstw m) /\ forall n, plain_bit n -> (has_bit (m_wild m) n <-> has_bit (m_wild m') n).
Proof.
  intros m t Hm Hw Hs Hd. pose proof (lay_match_pack m Hm Hw Hs Hd) as Hb. destruct Hm as (H1 & H2 & H3 & H4 & H5 & H6 & R1 & R2 & R3 & R4 & R5 & R6).
  unfold match_from. rewrite (ltb0 _ _ _ t 40 Hb eq_refl), (unp _ _ _ t 40 Hb eq_refl). unfold match_fmt, with_wild. cbn [norm bindr].
  destruct (wild_from (lay_wild m)) as [[ws sw] dw] eqn:Ew.
  rewrite !fits_hw by auto. rewrite (fits_exact 4 (m_nwsrc m)), (fits_exact 4 (m_nwdst m)) by auto.
  unfold inport_of. replace (m_inport m <? 0) with false by lia. cbn [bindr]. rewrite !decode_hw by auto. cbn [bindr].
  assert (Ed : dltype_of (m_dltype m) = Ok (if m_dltype m =? 0 then 0xffff else m_dltype m)).
  { destruct H5 as [H5|H5]; [rewrite dltype_in by auto; destruct (Z.eqb_spec (m_dltype m) 0) as [E|_]; [|reflexivity]; exfalso; rewrite E in H5; apply zmem_In in H5; discriminate H5|].
    rewrite H5. reflexivity. }
  rewrite Ed. cbn [bindr]. unfold tos_of. replace (_ || _) with false by lia. cbn [bindr]. rewrite enum_in by auto. cbn [bindr].
  unfold ipv4_of_bytes, ip_of_bytes. unfold ip4b in *. rewrite H3, H4. cbn [Nat.eqb orb bindr].
  unfold tp_of. replace ((m_tpsrc m <? 0) || (65536 <=? m_tpsrc m)) with false by lia. cbn [bindr].
  replace ((m_tpdst m <? 0) || (65536 <=? m_tpdst m)) with false by lia. cbn [bindr].
  eexists. split; [reflexivity|]. cbn [m_inport m_dlsrc m_dldst m_vlan m_pcp m_tos m_proto m_nwsrc m_nwdst m_tpsrc m_tpdst m_dltype m_srcw m_dstw m_wild].
  split; [reflexivity|]. split; [reflexivity|]. apply wild_read; auto.
Qed.

(** ** Constructors *)
Lemma constructors_ok : forall p q v t a d x s,
  action_ok (act_output p) /\ action_ok (act_enqueue p q) /\ action_ok (act_vlanvid v) /\ action_ok (act_vlanpcp v) /\ action_ok act_stripvlan /\ action_ok (act_nwtos t) /\
  action_ok (act_vendor v d) /\ (hw6 a -> act_dladdr s a = Ok x -> action_ok x /\ a_type x = s /\ a_body x = ADlAddr a) /\
  (ip4b a -> act_nwaddr s a = Ok x -> action_ok x /\ a_type x = s /\ a_body x = ANwAddr a) /\ (act_tpport s p = Ok x -> action_ok x /\ a_type x = s /\ a_body x = ATpPort p).
Proof.
  intros. do 6 (split; [cbn; auto|]). split; [split; reflexivity|].
  unfold act_dladdr, act_nwaddr, act_tpport, enum_of. split; [|split]; intros; (destruct (zmem s ActionTypes); [cbn [bindr] in *|discriminate]);
      (destruct (zmem s _) eqn:E in *; [|discriminate]); apply zmem_In in E; cbn [In] in E;
      match goal with H : Ok _ = Ok _ |- _ => injection H as <- end; cbn; (split; [|auto]); repeat split; auto; lia.
Qed.

(** ** UTF-8 (RFC 3629) *)
Definition scalar (c : Z) : Prop := 0 <= c < 0xD800 \/ 0xE000 <= c < 0x110000.
Definition utf8 (c : Z) : bytes :=
  if c <? 0x80 then [c]
  else if c <? 0x800 then [0xC0 + c / 64; 0x80 + c mod 64]
  else if c <? 0x10000 then [0xE0 + c / 4096; 0x80 + c / 64 mod 64; 0x80 + c mod 64]
  else [0xF0 + c / 262144; 0x80 + c / 4096 mod 64; 0x80 + c / 64 mod 64; 0x80 + c mod 64].
Lemma step_in : forall lo hi p x b, lo <= x <= hi -> utf8_run ((lo, hi) :: p) (x :: b) = utf8_run p b.
Proof. intros. cbn [utf8_run]. replace (_ && _) with true by lia. reflexivity. Qed.
Lemma lead_step : forall p x b, utf8_lead x = Some p -> utf8_run [] (x :: b) = utf8_run p b.
Proof. intros p x b H. cbn [utf8_run]. rewrite H. reflexivity. Qed.
Ltac lead := unfold utf8_lead; repeat match goal with |- context[if ?b then _ else _] => first [replace b with true by lia|replace b with false by lia] end; reflexivity.
Lemma utf8_step : forall c b, scalar c -> utf8_run [] (utf8 c ++ b) = utf8_run [] b.
Proof.
  intros c b H. unfold scalar in H. unfold utf8.
  destruct (Z.ltb_spec c 0x80); [cbn [app]; rewrite (lead_step []) by lead; reflexivity|].
  destruct (Z.ltb_spec c 0x800).
  { cbn [app]. rewrite (lead_step [(0x80, 0xBF)]) by (Z.to_euclidean_division_equations; lead). rewrite step_in by (Z.to_euclidean_division_equations; lia). reflexivity. }
  assert (M : forall a, 0 <= a mod 64 < 64) by (intros; apply Z.mod_pos_bound; lia).
  destruct (Z.ltb_spec c 0x10000).
  { cbn [app]. pose proof (M c). pose proof (M (c / 64)).
    destruct (Z.eq_dec (c / 4096) 0) as [E|N].
    { rewrite E. rewrite (lead_step [(0xA0, 0xBF); (0x80, 0xBF)]) by lead. rewrite step_in by (Z.to_euclidean_division_equations; lia). rewrite step_in by lia. reflexivity. }
    destruct (Z.eq_dec (c / 4096) 13) as [E|N2].
    { rewrite E. rewrite (lead_step [(0x80, 0x9F); (0x80, 0xBF)]) by lead. rewrite step_in by (Z.to_euclidean_division_equations; lia). rewrite step_in by lia. reflexivity. }
    assert (B : 1 <= c / 4096 <= 15) by (Z.to_euclidean_division_equations; lia). set (q := c / 4096) in *. clearbody q.
    rewrite (lead_step [(0x80, 0xBF); (0x80, 0xBF)]) by lead. rewrite !step_in by lia. reflexivity. }
  cbn [app]. pose proof (M c). pose proof (M (c / 64)). pose proof (M (c / 4096)).
  destruct (Z.eq_dec (c / 262144) 0) as [E|N].
  { rewrite E. rewrite (lead_step [(0x90, 0xBF); (0x80, 0xBF); (0x80, 0xBF)]) by lead. rewrite step_in by (Z.to_euclidean_division_equations; lia). rewrite !step_in by lia. reflexivity. }
  destruct (Z.eq_dec (c / 262144) 4) as [E|N2].
  { rewrite E. rewrite (lead_step [(0x80, 0x8F); (0x80, 0xBF); (0x80, 0xBF)]) by lead. rewrite step_in by (Z.to_euclidean_division_equations; lia). rewrite !step_in by lia. reflexivity. }
  assert (B : 1 <= c / 262144 <= 3) by (Z.to_euclidean_division_equations; lia). set (q := c / 262144) in *. clearbody q.
  rewrite (lead_step [(0x80, 0xBF); (0x80, 0xBF); (0x80, 0xBF)]) by lead. rewrite !step_in by lia. reflexivity.
Qed.
Lemma cons_step : forall lo hi p b, utf8_run ((lo, hi) :: p) b = true -> exists x b', b = x :: b' /\ lo <= x <= hi /\ utf8_run p b' = true.
Proof. intros lo hi p [|x b] H; cbn [utf8_run] in H; [discriminate|]. destruct (_ && _) eqn:E; [|discriminate]. exists x, b. repeat split; auto; lia. Qed.
Lemma utf8_decode : forall n b, (length b <= n)%nat -> utf8_run [] b = true -> exists cs, Forall scalar cs /\ b = concat (map utf8 cs).
Proof.
  induction n as [|n IH]; intros b L H.
  { destruct b; [|cbn [length] in L; lia]. exists []. split; [constructor|reflexivity]. }
  destruct b as [|x b]; [exists []; split; [constructor|reflexivity]|]. cbn [length] in L. cbn [utf8_run] in H. destruct (utf8_lead x) as [p|] eqn:E; [|discriminate].
  assert (Fin : forall c b', scalar c -> x :: b = utf8 c ++ b' -> (length b' <= n)%nat -> utf8_run [] b' = true -> exists cs, Forall scalar cs /\ x :: b = concat (map utf8 cs)).
  { intros c b' Hc Eb Lb Hb. destruct (IH b' Lb Hb) as (cs & Hcs & ->). exists (c :: cs). split; [constructor; auto|exact Eb]. }
  unfold utf8_lead in E.
  repeat match type of E with context[if ?b then _ else _] => let X := fresh "X" in destruct b eqn:X in E end; try discriminate E; injection E as <-;
  repeat match goal with H : utf8_run (_ :: _) _ = true |- _ => apply cons_step in H; let y := fresh "y" in let b' := fresh "b" in let R := fresh "R" in destruct H as (y & b' & -> & R & H) end;
  cbn [length] in L.
  - apply (Fin x b); auto; [left; lia| |lia]. unfold utf8. replace (x <? 128) with true by lia. reflexivity.
  - set (c := (x - 192) * 64 + (y - 128)). eapply (Fin c); [left; unfold c; lia| | |eassumption]; [|lia]. unfold utf8.
    replace (c <? 128) with false by (unfold c; lia). replace (c <? 2048) with true by (unfold c; lia). cbn [app]. repeat f_equal; unfold c; Z.to_euclidean_division_equations; lia.
  - set (c := (y - 128) * 64 + (y0 - 128)). eapply (Fin c); [left; unfold c; lia| | |eassumption]; [|lia]. unfold utf8.
    replace (c <? 128) with false by (unfold c; lia). replace (c <? 2048) with false by (unfold c; lia). replace (c <? 65536) with true by (unfold c; lia). cbn [app].
    repeat f_equal; unfold c; Z.to_euclidean_division_equations; lia.
  - set (c := (x - 224) * 4096 + (y - 128) * 64 + (y0 - 128)). eapply (Fin c); [left; unfold c; lia| | |eassumption]; [|lia]. unfold utf8.
    replace (c <? 128) with false by (unfold c; lia). replace (c <? 2048) with false by (unfold c; lia). replace (c <? 65536) with true by (unfold c; lia). cbn [app].
    repeat f_equal; unfold c; Z.to_euclidean_division_equations; lia.
  - set (c := (x - 224) * 4096 + (y - 128) * 64 + (y0 - 128)). eapply (Fin c); [unfold c, scalar; lia| | |eassumption]; [|lia]. unfold utf8.
    replace (c <? 128) with false by (unfold c; lia). replace (c <? 2048) with false by (unfold c; lia). replace (c <? 65536) with true by (unfold c; lia). cbn [app].
    repeat f_equal; unfold c; Z.to_euclidean_division_equations; lia.
  - set (c := (x - 240) * 262144 + (y - 128) * 4096 + (y0 - 128) * 64 + (y1 - 128)). eapply (Fin c); [right; unfold c; lia| | |eassumption]; [|lia]. unfold utf8.
    replace (c <? 128) with false by (unfold c; lia). replace (c <? 2048) with false by (unfold c; lia). replace (c <? 65536) with false by (unfold c; lia). cbn [app].
    repeat f_equal; unfold c; Z.to_euclidean_division_equations; lia.
  - set (c := (x - 240) * 262144 + (y - 128) * 4096 + (y0 - 128) * 64 + (y1 - 128)). eapply (Fin c); [right; unfold c; lia| | |eassumption]; [|lia]. unfold utf8.
    replace (c <? 128) with false by (unfold c; lia). replace (c <? 2048) with false by (unfold c; lia). replace (c <? 65536) with false by (unfold c; lia). cbn [app].
    repeat f_equal; unfold c; Z.to_euclidean_division_equations; lia.
  - set (c := (x - 240) * 262144 + (y - 128) * 4096 + (y0 - 128) * 64 + (y1 - 128)). eapply (Fin c); [right; unfold c; lia| | |eassumption]; [|lia]. unfold utf8.
    replace (c <? 128) with false by (unfold c; lia). replace (c <? 2048) with false by (unfold c; lia). replace (c <? 65536) with false by (unfold c; lia). cbn [app].
    repeat f_equal; unfold c; Z.to_euclidean_division_equations; lia.
Qed.
Lemma utf8_iff : forall b, utf8_ok b = true <-> exists cs, Forall scalar cs /\ b = concat (map utf8 cs).
Proof.
  intros b. unfold utf8_ok. split; [apply (utf8_decode (length b)); lia|]. intros (cs & F & ->). induction F as [|c cs Hc F IH]; [reflexivity|].
  cbn [map concat]. rewrite utf8_step by exact Hc. exact IH.
Qed.

(** ** Flags that are single bits *)
Lemma bits_single n : 0 <= n -> single_bits (0 :: map (fun k => 2 ^ Z.of_nat k) (seq 0 (Z.to_nat n))) n.
Proof.
  intros Hn v. cbn [In]. rewrite in_map_iff. split.
  - intros [<-|(k & <- & K)]; [auto|]. apply in_seq in K. right. exists (Z.of_nat k). split; [lia|reflexivity].
  - intros [->|(k & K & ->)]; [auto|]. right. exists (Z.to_nat k). split; [f_equal; lia|]. apply in_seq. lia.
Qed.
Lemma single_members members n s t : single_bits members n -> of_enum members s -> of_enum members t -> same_bits s t ->
  forall v, v <> 0 -> (In v s <-> In v t).
Proof.
  intros S. assert (G : forall s t, of_enum members s -> of_enum members t -> same_bits s t -> forall v, v <> 0 -> In v s -> In v t); [|intros; split; apply G; auto; intros j; symmetry; auto].
  clear s t. intros s t Hs Ht B v Hv Hi. unfold of_enum in *. rewrite Forall_forall in Hs, Ht. destruct (proj1 (S v) (Hs v Hi)) as [->|(k & K & ->)]; [contradiction|].
  destruct (proj1 (B k)) as (w & Hw & Hb); [exists (2 ^ k); split; [exact Hi|apply Z.pow2_bits_true; lia]|].
  destruct (proj1 (S w) (Ht w Hw)) as [->|(j & J & ->)]; [now rewrite Z.testbit_0_l in Hb|]. destruct (Z.eq_dec j k) as [->|N]; [exact Hw|].
  rewrite Z.pow2_bits_false in Hb by lia. discriminate.
Qed.
