(** Proofs about the OpenFlow 1.3 message classes. *)
From Verif Require Import Base BaseLemmas CodecLemmas EthAddrModel ArpModel OfModel OfSpec OfLayout OfProofs OfMsg Of13Model Of13Spec.

(** ** No message is parsed *)
Lemma parse_fails : forall raw, wfb raw -> exists e, parse13 raw = Err e /\ (e = EExc \/ e = EValue \/ e = EAttr).
Proof.
  intros raw W. unfold parse13, hdr13_from. destruct (Nat.ltb_spec (length raw) 8) as [|H]; [exists EExc; auto|].
  assert (L : length (firstn 8 raw) = calcsize hdr_fmt) by (rewrite firstn_length_le by lia; reflexivity).
  destruct (unpack_total _ _ L) as (fs & E). rewrite E. cbn [bindr].
  apply unpack_shaped in E; [|auto with wfb]. unfold hdr_fmt in E. shape E.
  unfold enum_of. destruct (zmem _ Types13); cbn [bindr]; eauto.
Qed.

(** ** What assignments preserve *)
Definition kept (b0 b : body13) : Prop :=
  match b0, b with
  | XError _ _ _, XError ty c _ => (forall t, ty = Some t -> In t ErrorTypes) /\ (forall x, c = Some x -> 0 <= x <= 8)
  | XEcho _, XEcho _ | XExp _ _, XExp _ _ => True
  | XConfig _ _, XConfig f _ => In f ConfigFlags
  | XPacketIn _ _ _ _, XPacketIn _ ip _ _ => ip = portAny
  | XPacketOut _ _ _ _, XPacketOut _ ip _ _ => ip = portAny
  | XFlowMod _, XFlowMod _ | XFlowRemoved _, XFlowRemoved _ | XPortMod _ _ _ _ _, XPortMod _ _ _ _ _
  | XPortStatus _ _, XPortStatus _ _ | XFeatures _ _ _ _ _ _ _, XFeatures _ _ _ _ _ _ _ => True
  | XQueueReq p, XQueueReq q => q = p
  | XQueueRep p _, XQueueRep q _ => q = p
  | _, _ => False
  end.
Lemma code_range : forall t c, In c (error_codes t) -> 0 <= c <= 8.
Proof.
  intros t c H. unfold error_codes in H.
  repeat match type of H with context [if ?x then _ else _] => destruct x end; cbn [In] in H; lia.
Qed.
Lemma kept_step : forall b0 b a, kept b0 b -> kept b0 (fst (set13 b a)).
Proof.
  intros b0 b a K. destruct b0, b; try contradiction; destruct a; try exact K; cbn [set13 kept fst] in *; auto;
    unfold setr; try (cbn [get_port13 fst]; exact K); try exact I.
  - destruct (enum_of ErrorTypes v) as [t|e] eqn:E; [|exact K]. apply enum_of_ok in E. destruct E as [-> E]. cbn [fst].
    destruct K as [K1 K2]. split; [|exact K2]. intros t H. injection H as <-. exact E.
  - match goal with |- context [enum_of ?l v] => destruct (enum_of l v) as [c|e] eqn:E end; [|exact K]. apply enum_of_ok in E. destruct E as [-> E].
    cbn [fst]. destruct K as [K1 K2]. split; [exact K1|]. intros x H. injection H as <-. eapply code_range; eauto.
  - destruct (enum_of ConfigFlags v) as [f|e] eqn:E; [|exact K]. apply enum_of_ok in E. destruct E as [-> E]. exact E.
  - destruct (enum_of PacketInReasons v); exact K.
Qed.
Lemma kept_edit : forall l b0 b, kept b0 b -> kept b0 (edit13 b l).
Proof. induction l as [|a l IH]; intros b0 b K; cbn [edit13]; auto. apply IH, kept_step, K. Qed.
Lemma kept_new : forall ty b, body13_new ty = Some b -> kept b b.
Proof.
  intros ty b H. unfold body13_new in H.
  repeat match type of H with (if ?x then _ else _) = _ => destruct x end; try discriminate; injection H as <-; cbn [kept]; auto; try (split; congruence).
  all: left; reflexivity.
Qed.

(** ** Layout *)
Lemma hdr_wire : forall ver ty len xid, 0 <= ver < 256 -> 0 <= ty < 256 -> 0 <= len < 65536 -> 0 <= xid < 2 ^ 32 ->
  hdr13_to (mkH13 ver (TEnum ty) len xid) = Ok (u8 ver ++ u8 ty ++ u16 len ++ u32 xid).
Proof.
  intros ver ty len xid H1 H2 H3 H4. unfold hdr13_to. cbn [h_type h_ver h_len h_xid].
  destruct (pack_ok hdr_fmt [VI ver; VI ty; VI len; VI xid]) as [b E]; [unfold hdr_fmt; packable|].
  rewrite E. apply pack_enc in E. subst b. unfold hdr_fmt. cbn [enc]. rewrite app_nil_r. reflexivity.
Qed.
Lemma ser_wire : forall ver ty xid ob raw, (match ob with Some b => body13_to b | None => Ok [] end) = Ok raw ->
  0 <= ver < 256 -> 0 <= ty < 256 -> 0 <= xid < 2 ^ 32 -> 8 + zlen raw < 65536 ->
  ser13 (hdr13_new (TEnum ty) xid ver, ob) = Ok (message13 ver ty xid raw).
Proof.
  intros ver ty xid ob raw E H1 H2 H3 H4. unfold ser13, hdr13_new. cbn [fst snd h_ver h_type h_xid]. rewrite E. cbn [bindr].
  pose proof (zlen_nonneg raw). rewrite hdr_wire by lia. cbn [bindr]. unfold message13. rewrite <- !app_assoc, (Z.add_comm 8). reflexivity.
Qed.
Lemma bare_wire : forall ver ty xid, bare13 ty -> 0 <= ver < 256 -> 0 <= xid < 2 ^ 32 ->
  ser13 (build13 (TEnum ty) xid ver) = Ok (message13 ver ty xid []).
Proof.
  intros ver ty xid B H1 H2. unfold build13. cbn [type_val].
  assert (E : body13_new ty = None /\ 0 <= ty < 256).
  { unfold bare13 in B. cbn [In] in B. repeat (destruct B as [<-|B]; [split; [reflexivity|lia]|]). contradiction. }
  destruct E as [-> R]. apply ser_wire; auto. cbn. lia.
Qed.
Lemma types_range : forall t, In t ErrorTypes -> 0 <= t < 65536.
Proof. intros t H. cbn [In ErrorTypes] in H. lia. Qed.
Lemma flags_range : forall t, In t ConfigFlags -> 0 <= t < 65536.
Proof. intros t H. cbn [In ConfigFlags] in H. lia. Qed.
Lemma body_wire : forall b0 b w, kept b0 b -> room13 b -> wire13 b = Some w -> body13_to b = Ok w.
Proof.
  intros b0 b w K R W. destruct b as [[t|] [c|] d|d|v d| |f m| | | | | | | |]; try discriminate W; injection W as <-.
  - destruct b0; try contradiction. destruct K as [K1 K2]. specialize (K1 _ eq_refl). specialize (K2 _ eq_refl). apply types_range in K1.
    cbn [body13_to]. destruct (pack_ok [fH; fH] [VI t; VI c]) as [x E]; [packable|]. rewrite E. apply pack_enc in E. subst x.
    cbn [bindr enc]. rewrite app_nil_r, <- app_assoc. reflexivity.
  - reflexivity.
  - cbn [room13] in R. cbn [body13_to]. destruct (pack_ok [fI] [VI v]) as [x E]; [packable|]. rewrite E. apply pack_enc in E. subst x.
    cbn [bindr enc]. rewrite app_nil_r. reflexivity.
  - destruct b0; try contradiction. cbn [kept room13] in *. apply flags_range in K. cbn [body13_to].
    destruct (pack_ok [fH; fH] [VI f; VI m]) as [x E]; [packable|]. rewrite E. apply pack_enc in E. subst x.
    cbn [enc]. rewrite app_nil_r. reflexivity.
Qed.
Lemma new_range : forall ty b, body13_new ty = Some b -> 0 <= ty < 256.
Proof.
  intros ty b H. unfold body13_new in H.
  repeat match type of H with (if ?x then _ else _) = _ => destruct x eqn:?; [lia|] end. discriminate.
Qed.
Lemma layout : forall ver ty xid b0 l w, body13_new ty = Some b0 -> wire13 (edit13 b0 l) = Some w -> room13 (edit13 b0 l) ->
  0 <= ver < 256 -> 0 <= xid < 2 ^ 32 -> 8 + zlen w < 65536 ->
  ser13 (hdr13_new (TEnum ty) xid ver, Some (edit13 b0 l)) = Ok (message13 ver ty xid w).
Proof.
  intros ver ty xid b0 l w N W R H1 H2 H3. apply ser_wire; auto; [|eapply new_range; eauto].
  eapply body_wire; eauto. apply kept_edit, kept_new with ty, N.
Qed.

(** ** Assignments *)
Lemma edit_app : forall l b m, edit13 b (l ++ m) = edit13 (edit13 b l) m.
Proof. induction l as [|a l IH]; intros; cbn [edit13 app]; auto. Qed.
Lemma assign_echo : forall l x, edit13 (XEcho x) l = XEcho (last_of to_data l x).
Proof. induction l as [|a l IH]; intros x; [reflexivity|]. destruct a; cbn [edit13 set13 fst]; rewrite IH; reflexivity. Qed.
Lemma assign_exp : forall l v x, edit13 (XExp v x) l = XExp (last_of to_vendor l v) (last_of to_data l x).
Proof. induction l as [|a l IH]; intros v x; [reflexivity|]. destruct a; cbn [edit13 set13 fst]; rewrite IH; reflexivity. Qed.
Lemma assign_config : forall l f m, edit13 (XConfig f m) l = XConfig (last_of to_flags l f) (last_of to_miss l m).
Proof.
  induction l as [|a l IH]; intros f m; [reflexivity|]. destruct a; cbn [edit13 set13 fst]; try (rewrite IH; reflexivity).
  unfold enum_of, last_of. cbn [fold_left to_flags to_miss]. destruct (zmem v ConfigFlags); cbn [setr fst]; rewrite IH; reflexivity.
Qed.
Lemma assign_error : forall l t c x, exists c', edit13 (XError t c x) l = XError (last_of to_type l t) c' (last_of to_data l x).
Proof.
  induction l as [|a l IH]; intros t c x; [exists c; reflexivity|]. destruct a; cbn [edit13 set13 fst]; try apply IH.
  - unfold enum_of, last_of. cbn [fold_left to_type to_data]. destruct (zmem v ErrorTypes); cbn [setr fst]; apply IH.
  - unfold last_of. cbn [fold_left to_type to_data]. unfold setr. destruct (enum_of _ v); cbn [fst]; apply IH.
Qed.
Lemma code_stays : forall l t c x, no_code l -> exists t' x', edit13 (XError t c x) l = XError t' c x'.
Proof.
  induction l as [|a l IH]; intros t c x N; [exists t, x; reflexivity|].
  assert (N' : no_code l) by (intros k Hk; apply (N k); right; exact Hk).
  destruct a; cbn [edit13 set13 fst]; try (apply IH; exact N').
  - unfold setr. destruct (enum_of _ v); cbn [fst]; apply IH; exact N'.
  - exfalso. apply (N v). left. reflexivity.
Qed.
Lemma assign_code : forall l t c m, last_of to_type l None = Some t -> In c (error_codes t) -> no_code m ->
  exists t' x', edit13 (XError None None []) (l ++ AErrCode c :: m) = XError t' (Some c) x'.
Proof.
  intros l t c m Ht Hc N. rewrite edit_app. destruct (assign_error l None None []) as [c0 ->]. rewrite Ht.
  cbn [edit13 set13]. rewrite (enum_in _ _ Hc). cbn [setr fst]. apply code_stays, N.
Qed.

(** ** Reading a body back *)
Lemma read_back : forall ty b0 l w, body13_new ty = Some b0 -> wire13 (edit13 b0 l) = Some w -> room13 (edit13 b0 l) ->
  paired (edit13 b0 l) -> body13_from b0 w = Ok (edit13 b0 l).
Proof.
  intros ty b0 l w N W R P. pose proof (kept_edit l _ _ (kept_new _ _ N)) as K. set (b := edit13 b0 l) in *.
  pose proof (body_wire _ _ _ K R W) as E.
  destruct b as [[t|] [c|] d|d|v d| |f m| | | | | | | |]; try discriminate W; destruct b0; try contradiction; cbn [body13_to body13_from] in *.
  - cbn [paired] in P. destruct K as [K _]. specialize (K _ eq_refl). destruct (pack _ _) as [h|] eqn:Eh; [|discriminate E]. cbn [bindr] in E.
    apply ok_inj in E. subst w. rewrite (unp _ _ _ d 4 Eh eq_refl), (skp _ _ _ d 4 Eh eq_refl). cbn [norm bindr].
    rewrite (enum_in _ t) by auto. cbn [bindr]. rewrite enum_in by auto. reflexivity.
  - apply ok_inj in E. congruence.
  - destruct (pack _ _) as [h|] eqn:Eh; [|discriminate E]. cbn [bindr] in E.
    apply ok_inj in E. subst w. rewrite (unp _ _ _ d 4 Eh eq_refl), (skp _ _ _ d 4 Eh eq_refl). reflexivity.
  - cbn [kept] in K. rewrite <- (app_nil_r w). rewrite (ltb0 _ _ _ [] 4 E eq_refl), (unp _ _ _ [] 4 E eq_refl). cbn [norm bindr].
    rewrite enum_in by auto. reflexivity.
Qed.

(** ** Messages that never reach the wire *)
Lemma body_broken : forall ty b0 l, broken13 ty -> body13_new ty = Some b0 -> raises (body13_to (edit13 b0 l)).
Proof.
  intros ty b0 l B N. pose proof (kept_edit l _ _ (kept_new _ _ N)) as K.
  assert (C : match b0 with XError _ _ _ | XEcho _ | XExp _ _ | XConfig _ _ | XQueueReq _ | XQueueRep _ _ => False | _ => True end).
  { unfold broken13 in B. cbn [In] in B. repeat (destruct B as [<-|B]; [injection N as <-; exact I|]). contradiction. }
  destruct b0; try contradiction; destruct (edit13 _ l); try contradiction; cbn [body13_to]; unfold raises.
  - cbn [make_bitmap13 bindr]. eauto.
  - cbn [kept] in K. subst. unfold packetin_fmt, portAny. cbn [pack].
    change ((0 <=? 4294967295) && (4294967295 <? 256 ^ Z.of_nat 2)) with false. cbn iota.
    destruct (_ && _); cbn [bindr]; [|eauto]. destruct (_ && _); cbn [bindr]; eauto.
  - cbn. eauto.
  - destruct (pack _ _); cbn [bindr]; [|eauto]. cbn. eauto.
  - cbn [kept] in K. subst. destruct (join_acts _); cbn [bindr]; [|eauto]. unfold packetout_fmt, portAny. cbn [pack].
    change ((0 <=? 4294967295) && (4294967295 <? 256 ^ Z.of_nat 2)) with false. cbn iota.
    destruct (_ && _); cbn [bindr]; eauto.
  - cbn. eauto.
  - cbn. eauto.
Qed.
Lemma ser_broken : forall ty b0 l h, broken13 ty -> body13_new ty = Some b0 -> raises (ser13 (h, Some (edit13 b0 l))).
Proof.
  intros ty b0 l h B N. destruct (body_broken ty b0 l B N) as [e E]. unfold ser13. cbn [snd]. rewrite E. exists e. reflexivity.
Qed.
Lemma broken_has_body : forall ty, broken13 ty -> exists b, body13_new ty = Some b.
Proof.
  intros ty B. unfold broken13 in B. cbn [In] in B. repeat (destruct B as [<-|B]; [eexists; reflexivity|]). contradiction.
Qed.
Ltac rs0 := unfold raises; repeat match goal with
  | |- exists e, (if ?x then _ else _) = _ => destruct x; [eauto|]
  | |- exists e, bindr ?r _ = _ => destruct r; cbn [bindr]; [|eauto]
  | |- exists e, match ?x with _ => _ end = _ => destruct x; eauto
  end; eauto.
Lemma port_broken : forall raw, exists e, port13_from raw = Err e.
Proof. intros raw. unfold port13_from. cbn [unpack_bitmap13 bindr]. rs0. Qed.
Ltac rs := unfold raises; repeat match goal with
  | |- exists e, (if ?x then _ else _) = _ => destruct x; [eauto|]
  | |- exists e, bindr (port13_from ?x) _ = _ => let E := fresh in destruct (port_broken x) as [? E]; rewrite E; cbn [bindr]; eauto
  | |- exists e, bindr ?r _ = _ => destruct r; cbn [bindr]; [|eauto]
  | |- exists e, match ?x with _ => _ end = _ => destruct x; eauto
  end; eauto.
Lemma read_broken : forall ty b0 raw, broken13 ty -> ty <> 11 -> body13_new ty = Some b0 -> raises (body13_from b0 raw).
Proof.
  intros ty b0 raw B T N.
  unfold broken13 in B. cbn [In] in B. repeat (destruct B as [<-|B]; [injection N as <-|]); try contradiction; try (exfalso; apply T; reflexivity); cbn [body13_from];
    cbn [unpack_bitmap13 get_port13 bindr]; rs.
Qed.
Lemma int_type : forall t xid ver ob, raises (ser13 (hdr13_new (TInt t) xid ver, ob)).
Proof.
  intros t xid ver ob. unfold ser13, raises. destruct (match snd _ with Some b => _ | None => _ end); cbn [bindr]; eauto.
  cbn. eauto.
Qed.

(** ** Queue requests *)
Lemma queue_short : forall p l xid ver, ser13 (hdr13_new (TEnum 22) xid ver, Some (edit13 (XQueueReq p) l)) <> Ok (message13 ver 22 xid (queue_request13 p)).
Proof.
  intros p l xid ver. assert (K : kept (XQueueReq p) (edit13 (XQueueReq p) l)) by (apply kept_edit; reflexivity).
  destruct (edit13 (XQueueReq p) l); try contradiction. cbn [kept] in K. subst. unfold ser13. cbn [snd fst body13_to].
  destruct (pack [fH; FX 2] [VI p]) as [h|] eqn:E; cbn [bindr]; [|discriminate]. apply pack_enc in E.
  unfold hdr13_to. cbn [h_type hdr13_new h_ver h_len h_xid]. destruct (pack hdr_fmt _) as [x|] eqn:Ex; cbn [bindr]; [|discriminate].
  apply pack_enc in Ex. intros H. apply ok_inj in H. apply (f_equal (@length Z)) in H. subst h x. unfold message13, queue_request13, hdr_fmt, u8, u16, u32, pad in H.
  cbn [enc] in H. rewrite !app_length, !be_length, !repeat_length in H. cbn in H. lia.
Qed.
