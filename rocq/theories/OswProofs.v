(** Proofs about the OpenflowSwitch model: what single messages do. *)
From Verif Require Import Base BaseLemmas CodecLemmas EthAddrModel PacketModel OfModel OfSpec OfProofs OfMsg SwModel OswModel OswSpec.

(** *** Bytes *)
Lemma be1 v : 0 <= v < 256 -> be 1 v = [v].
Proof. intros H. cbn [be]. change (256 ^ Z.of_nat 0) with 1. rewrite Z.div_1_r, Z.mod_small by lia. reflexivity. Qed.
Lemma is_msg_split m : is_msg m -> exists v t a b x1 x2 x3 x4 r,
  m = v :: t :: a :: b :: x1 :: x2 :: x3 :: x4 :: r /\ 0 <= v < 256 /\ 0 <= t < 256 /\ wfb [x1; x2; x3; x4] /\ wfb r.
Proof.
  intros [W L]. do 8 (destruct m as [|? m]; [cbn [length] in L; lia|]).
  repeat match goal with H : wfb (_ :: _) |- _ => apply wfb_cons in H; destruct H end.
  do 9 eexists. split; [reflexivity|]. repeat split; try lia; auto. repeat (constructor; try lia).
Qed.
Lemma xid_range m : is_msg m -> 0 <= unbe (xid_of m) < 4294967296 /\ be 4 (unbe (xid_of m)) = xid_of m.
Proof.
  intros H. destruct (is_msg_split m H) as (v & t & a & b & x1 & x2 & x3 & x4 & r & -> & _ & _ & W & _).
  change (xid_of _) with [x1; x2; x3; x4]. split.
  - pose proof (unbe_range _ W) as R. exact R.
  - exact (be_unbe [x1; x2; x3; x4] W).
Qed.
Lemma ty_range m : is_msg m -> 0 <= ty_of m < 256.
Proof. intros H. destruct (is_msg_split m H) as (v & t & a & b & x1 & x2 & x3 & x4 & r & -> & ? & ? & _). exact H1. Qed.
Lemma hdr_of_msg m : is_msg m -> ty_of m <> 16 -> ty_of m <> 17 ->
  exists len, hdr_from m = Ok (mkOh (ver_of m) (ty_of m) len (unbe (xid_of m)) None, body_of m).
Proof.
  intros H N1 N2. destruct (is_msg_split m H) as (v & t & a & b & x1 & x2 & x3 & x4 & r & -> & Hv & Ht & _ & _).
  change (ty_of _) with t in *. change (ver_of _) with v. change (xid_of _) with [x1; x2; x3; x4]. change (body_of _) with r.
  exists (unbe [a; b]).
  assert (E1 : unbe [v] = v) by (cbn [unbe length]; change (256 ^ Z.of_nat 0) with 1; lia).
  assert (E2 : unbe [t] = t) by (cbn [unbe length]; change (256 ^ Z.of_nat 0) with 1; lia).
  assert (E : unpack hdr_fmt [v; t; a; b; x1; x2; x3; x4] = Ok [VI v; VI t; VI (unbe [a; b]); VI (unbe [x1; x2; x3; x4])]).
  { unfold hdr_fmt. cbn [unpack length Nat.ltb Nat.leb firstn skipn bindr]. rewrite E1, E2. reflexivity. }
  unfold hdr_from. cbn [length Nat.ltb Nat.leb firstn skipn]. rewrite E. cbn [bindr].
  replace (zmem t [16; 17]) with false by (symmetry; cbn [zmem existsb]; lia). reflexivity.
Qed.

Lemma ser_hdr ty xid : 0 <= ty < 256 -> 0 <= xid < 4294967296 ->
  exists l, of_ser [PHdr (hdr_new ty xid 1)] = Ok (l, wire ty (be 4 xid) []).
Proof.
  intros Ht Hx. cbn [of_ser bindr fst snd hdr_new oh_ver oh_type oh_xid oh_sub].
  unfold hdr_to. cbn [oh_ver oh_type oh_len oh_xid]. change (zlen (@nil Z) + 8) with 8.
  unfold hdr_fmt. cbn [pack]. change (256 ^ Z.of_nat 1) with 256. change (256 ^ Z.of_nat 2) with 65536. change (256 ^ Z.of_nat 4) with 4294967296.
  change ((0 <=? 1) && (1 <? 256)) with true. change ((0 <=? 8) && (8 <? 65536)) with true.
  replace ((0 <=? ty) && (ty <? 256)) with true by lia. replace ((0 <=? xid) && (xid <? 4294967296)) with true by lia.
  cbn [bindr fst snd]. eexists. f_equal. f_equal. rewrite !be1 by lia. unfold wire. change (8 + zlen (@nil Z)) with 8.
  rewrite !app_nil_r. reflexivity.
Qed.
Lemma ser_body ty xid b bb : 0 <= ty < 256 -> 0 <= xid < 4294967296 -> body_to b = Ok bb -> 8 + zlen bb < 65536 ->
  exists l, of_ser [PHdr (hdr_new ty xid 1); PBody b] = Ok (l, wire ty (be 4 xid) bb).
Proof.
  intros Ht Hx Hb Hl. pose proof (zlen_nonneg bb) as N. cbn [of_ser bindr fst snd hdr_new oh_ver oh_type oh_xid oh_sub]. rewrite Hb.
  cbn [bindr fst snd]. rewrite app_nil_r.
  unfold hdr_to. cbn [oh_ver oh_type oh_len oh_xid].
  unfold hdr_fmt. cbn [pack]. change (256 ^ Z.of_nat 1) with 256. change (256 ^ Z.of_nat 2) with 65536. change (256 ^ Z.of_nat 4) with 4294967296.
  change ((0 <=? 1) && (1 <? 256)) with true. replace ((0 <=? zlen bb + 8) && (zlen bb + 8 <? 65536)) with true by lia.
  replace ((0 <=? ty) && (ty <? 256)) with true by lia. replace ((0 <=? xid) && (xid <? 4294967296)) with true by lia.
  cbn [bindr fst snd]. eexists. f_equal. f_equal. rewrite !be1 by lia. unfold wire. rewrite (Z.add_comm (zlen bb) 8).
  rewrite !app_nil_r. cbn [app]. rewrite <- !app_assoc. reflexivity.
Qed.

(** *** Bodies *)
Lemma body_getconfig f k : 0 <= f < 65536 -> 0 <= k < 65536 -> body_to (BGetConfig f k) = Ok (be 2 f ++ be 2 k).
Proof.
  intros Hf Hk. cbn [body_to pack]. change (256 ^ Z.of_nat 2) with 65536.
  replace ((0 <=? f) && (f <? 65536)) with true by lia. replace ((0 <=? k) && (k <? 65536)) with true by lia.
  cbn [bindr]. rewrite app_nil_r. reflexivity.
Qed.
Lemma body_error : body_to (BError (Some 1) (Some 1) []) = Ok [0; 1; 0; 1].
Proof. reflexivity. Qed.
Lemma port_wire k x : 0 <= k < 65536 -> length (oi_hw x) = 6%nat -> (length (oi_name x) <= 16)%nat ->
  pport_to (pport_new k (oi_hw x) (oi_name x)) = Ok (wire_port k x).
Proof.
  intros Hk Hh Hn. unfold pport_to, pport_new, pport_fmt.
  cbn [pp_num pp_hw pp_name pp_config pp_state pp_curr pp_adv pp_supp pp_peer]. change (make_bitmap []) with 0.
  cbn [pack]. change (256 ^ Z.of_nat 2) with 65536. change (256 ^ Z.of_nat 4) with 4294967296.
  change ((0 <=? 0) && (0 <? 4294967296)) with true. replace ((0 <=? k) && (k <? 65536)) with true by lia. cbn [bindr].
  f_equal. unfold wire_port. rewrite (fits_exact 6 (oi_hw x)) by auto. unfold fits. rewrite (firstn_all2 (n := 16) (oi_name x)) by lia.
  rewrite <- !app_assoc. do 4 f_equal.
Qed.
Lemma ports_wire l : forall k, 0 <= k -> k + zlen l < 65536 ->
  (forall x, In x l -> length (oi_hw x) = 6%nat /\ (length (oi_name x) <= 16)%nat) ->
  exists ps, mapr pport_to (number_ports k l) = Ok ps /\ joinb ps = wire_ports k l.
Proof.
  induction l as [|x l IH]; intros k Hk Hl H.
  - exists []. split; reflexivity.
  - cbn [number_ports mapr wire_ports]. unfold zlen in Hl. cbn [length] in Hl.
    destruct (H x (or_introl eq_refl)) as [H1 H2].
    rewrite port_wire by (auto; lia). cbn [bindr].
    destruct (IH (k + 1)) as (ps & -> & E); [lia|unfold zlen; lia|intros; apply H; right; auto|].
    cbn [bindr]. exists (wire_port k x :: ps). split; [reflexivity|]. unfold joinb in *. cbn [concat]. rewrite E. reflexivity.
Qed.
Lemma wire_port_len k x : length (oi_hw x) = 6%nat -> (length (oi_name x) <= 16)%nat -> length (wire_port k x) = 48%nat.
Proof. intros H1 H2. unfold wire_port. rewrite !app_length, !repeat_length, be_length, H1. lia. Qed.
Lemma wire_ports_len l : forall k, (forall x, In x l -> length (oi_hw x) = 6%nat /\ (length (oi_name x) <= 16)%nat) ->
  zlen (wire_ports k l) = 48 * zlen l.
Proof.
  induction l as [|x l IH]; intros k H; [reflexivity|]. cbn [wire_ports]. destruct (H x (or_introl eq_refl)) as [H1 H2].
  rewrite zlen_app. rewrite IH by (intros; apply H; right; auto). unfold zlen at 1. rewrite wire_port_len by auto.
  unfold zlen. cbn [length]. lia.
Qed.
Lemma features_wire sid l : describable sid l ->
  exists dp, dpid_of sid = Ok dp /\ body_to (BFeatures dp 0 1 [] [] (number_ports 0 l)) = Ok (wire_features sid l) /\
    8 + zlen (wire_features sid l) < 65536.
Proof.
  intros (H1 & H2 & H3). exists (repeat 0 (8 - length sid) ++ sid). split.
  - unfold dpid_of. replace (Nat.ltb 8 (length sid)) with false; [reflexivity|]. symmetry. apply Nat.ltb_ge. lia.
  - split.
    + cbn [body_to]. change (make_bitmap []) with 0. unfold features_fmt. cbn [pack].
      change (256 ^ Z.of_nat 1) with 256. change (256 ^ Z.of_nat 4) with 4294967296.
      change ((0 <=? 0) && (0 <? 4294967296)) with true. change ((0 <=? 1) && (1 <? 256)) with true. cbn [bindr].
      destruct (ports_wire l 0) as (ps & -> & E); [lia|unfold zlen in *; lia|auto|]. cbn [bindr]. rewrite E. f_equal.
      rewrite fits_exact by (rewrite app_length, repeat_length; lia). unfold wire_features.
      rewrite <- !app_assoc. do 2 f_equal.
    + unfold wire_features. rewrite !zlen_app. rewrite wire_ports_len by auto. unfold zlen. rewrite !repeat_length.
      cbn [length]. unfold zlen in H3. lia.
Qed.

(** *** Parsing the messages a switch gets *)
Definition mk_hdr (m : bytes) (len : Z) : ofhdr := mkOh (ver_of m) (ty_of m) len (unbe (xid_of m)) None.
Lemma parse_bare m : is_msg m -> bare_type (ty_of m) ->
  exists len b, of_parse m = Ok (PHdr (mk_hdr m len) :: b).
Proof.
  intros H B. assert (ty_of m <> 16 /\ ty_of m <> 17) as [N1 N2] by (unfold bare_type in B; cbn [In] in B; lia).
  destruct (hdr_of_msg m H N1 N2) as (len & E). exists len. unfold of_parse. rewrite E. cbn [bindr fst snd].
  rewrite bare_next by exact B. cbn [bindr]. eexists. reflexivity.
Qed.
Lemma parse_echo_reply m : is_msg m -> ty_of m = 3 -> exists len b, of_parse m = Ok (PHdr (mk_hdr m len) :: b).
Proof.
  intros H B. destruct (hdr_of_msg m H) as (len & E); [lia|lia|]. exists len. unfold of_parse. rewrite E. cbn [bindr fst snd].
  unfold hdr_next. cbn [oh_type]. rewrite B. cbn [Z.eqb Pos.eqb bindr body_from fst snd]. eexists. unfold mk_hdr. rewrite B. reflexivity.
Qed.
Lemma parse_set_config m f k rest : is_msg m -> ty_of m = 9 -> body_of m = be 2 f ++ be 2 k ++ rest -> 0 <= f <= 3 -> 0 <= k < 65536 ->
  exists len b, of_parse m = Ok (PHdr (mk_hdr m len) :: PBody (BSetConfig f k) :: b).
Proof.
  intros H B D Hf Hk. destruct (hdr_of_msg m H) as (len & E); [lia|lia|]. exists len. unfold of_parse. rewrite E. cbn [bindr fst snd].
  unfold hdr_next. cbn [oh_type]. rewrite B. cbn [Z.eqb Pos.eqb bindr]. rewrite D, app_assoc.
  assert (P : pack [fH; fH] [VI f; VI k] = Ok (be 2 f ++ be 2 k)) by (apply (body_getconfig f k); lia).
  cbn [body_from]. rewrite (ltb0 _ _ _ _ 4 P eq_refl), (unp _ _ _ _ 4 P eq_refl). cbn [norm bindr].
  unfold enum_of. replace (zmem f ConfigFlags) with true; [|symmetry; apply zmem_In; unfold ConfigFlags; cbn [In]; lia].
  cbn [bindr fst snd]. eexists. unfold mk_hdr. rewrite B. reflexivity.
Qed.
(** What a configuration message says, when it is accepted. *)
Lemma set_config_conv m r : is_msg m -> ty_of m = 9 -> of_parse m = Ok r ->
  exists len b, r = PHdr (mk_hdr m len) :: PBody (BSetConfig (unbe (firstn 2 (body_of m))) (unbe (firstn 2 (skipn 2 (body_of m))))) :: b /\
    0 <= unbe (firstn 2 (body_of m)) <= 3 /\ 0 <= unbe (firstn 2 (skipn 2 (body_of m))) < 65536.
Proof.
  intros H B P. assert (W : wfb (body_of m)) by (apply wfb_skipn, H).
  destruct (hdr_of_msg m H) as (len & E); [lia|lia|]. unfold of_parse in P. rewrite E in P. cbn [bindr fst snd] in P.
  unfold hdr_next in P. cbn [oh_type] in P. rewrite B in P. cbn [Z.eqb Pos.eqb bindr body_from] in P.
  destruct (body_of m) as [|a [|b [|c [|d t]]]]; cbn [length Nat.ltb Nat.leb bindr] in P; try discriminate.
  cbn [firstn skipn unpack length Nat.ltb Nat.leb bindr] in P. unfold enum_of in P.
  destruct (zmem (unbe [a; b]) ConfigFlags) eqn:Z; cbn [bindr] in P; [|discriminate].
  cbn [fst snd firstn skipn] in *. apply ok_inj in P. rewrite <- P. clear P E. exists len. eexists. split; [unfold mk_hdr; rewrite B; reflexivity|].
  apply zmem_In in Z. unfold ConfigFlags in Z. cbn [In] in Z. split; [lia|].
  repeat match goal with H : wfb (_ :: _) |- _ => apply wfb_cons in H; destruct H end.
  assert (W2 : wfb [c; d]) by (repeat (constructor; try lia)). exact (unbe_range _ W2).
Qed.

Section Single.
Variables (sid : bytes) (ifs : list oif) (net_send : send -> payload -> option exn).
#[local] Notation handle := (handle sid ifs net_send).
#[local] Notation serve := (serve sid ifs net_send).

Definition up (i : nat) (s : osw) : Prop := exists c, nth_error (o_ctls s) i = Some c /\ c_up c = true.
Lemma tell_ok i m s l raw : up i s -> of_ser m = Ok (l, raw) -> tell i m s = (s, [Tell i raw], None).
Proof. intros (c & E & U) H. unfold tell. rewrite E, U, H. reflexivity. Qed.
Lemma answer_hdr i s h ty : o_lib10 s = true -> up i s -> 0 <= ty < 256 -> 0 <= oh_xid h < 4294967296 ->
  answer i h ty [] s = (s, [Tell i (wire ty (be 4 (oh_xid h)) [])], None).
Proof.
  intros L U Ht Hx. unfold answer. rewrite L. destruct (ser_hdr ty (oh_xid h) Ht Hx) as (l & E). eapply tell_ok; eauto.
Qed.
Lemma answer_body i s h ty b bb : o_lib10 s = true -> up i s -> 0 <= ty < 256 -> 0 <= oh_xid h < 4294967296 ->
  body_to b = Ok bb -> 8 + zlen bb < 65536 ->
  answer i h ty [PBody b] s = (s, [Tell i (wire ty (be 4 (oh_xid h)) bb)], None).
Proof.
  intros L U Ht Hx Hb Hl. unfold answer. rewrite L. destruct (ser_body ty (oh_xid h) b bb Ht Hx Hb Hl) as (l & E). eapply tell_ok; eauto.
Qed.
Lemma expire_nil now s : o_tab s = [] -> expire now s = (s, None).
Proof. intros H. unfold expire. rewrite H. cbn [ft_expire]. unfold set_tab. rewrite <- H. destruct s; reflexivity. Qed.
Lemma set_lib_same s : o_ver s = 1 -> o_lib10 s = true -> set_lib 1 true s = s.
Proof. intros H1 H2. unfold set_lib. rewrite <- H1, <- H2. destruct s; reflexivity. Qed.

(** One supported message, in a 1.0 switch without flow entries. *)
Lemma serve_answered i now m s outs : describable sid ifs -> is_msg m ->
  o_tab s = [] -> o_ver s = 1 -> o_lib10 s = true -> up i s -> 0 <= o_flags s < 65536 -> 0 <= o_miss s < 65536 ->
  answered sid ifs (o_flags s, o_miss s) m outs ->
  serve i true now m s = (set_conf (fst (conf_after (o_flags s, o_miss s) (EMsg i now m))) (snd (conf_after (o_flags s, o_miss s) (EMsg i now m))) s,
    map (Tell i) outs, None).
Proof.
  intros D H T V L U F1 F2 A. destruct (xid_range m H) as [X1 X2].
  assert (NS : ty_of m <> 9 -> set_conf (fst (conf_after (o_flags s, o_miss s) (EMsg i now m))) (snd (conf_after (o_flags s, o_miss s) (EMsg i now m))) s = s).
  { intros N. cbn [conf_after]. replace (ty_of m =? 9) with false by lia. cbn [fst snd]. unfold set_conf. destruct s; reflexivity. }
  unfold OswModel.serve.
  assert (B : forall outs', bare_type (ty_of m) \/ ty_of m = 3 ->
    (forall len b, handle i (handler true (ty_of m)) (mk_hdr m len) b s = (s, map (Tell i) outs', None)) ->
    match of_parse m with
    | Ok l => match expire now s with
              | (s1, Some e) => (s1, [], Some e)
              | (s1, None) => match parsed l with
                              | Some (h, b) => handle i (handler true (oh_type h)) h b s1
                              | None => (s1, [], None) end
              end
    | Err e => (s, [], Some e) end = (s, map (Tell i) outs', None)).
  { intros outs' Hb Hh. assert (P : exists len b, of_parse m = Ok (PHdr (mk_hdr m len) :: b)).
    { destruct Hb; [apply parse_bare|apply parse_echo_reply]; auto. }
    destruct P as (len & b & P). rewrite P, expire_nil by auto. cbn [parsed]. unfold mk_hdr at 1. cbn [oh_type]. apply Hh. }
  destruct A as [A1 A2|A1 A2 A3|A1|A1|f k rest A1 A2 A3 A4|A1|A1].
  - rewrite NS by lia. apply B; [left; left; cbn [In]; lia|]. intros len b. rewrite A1. change (handler true 0) with HHello.
    cbn [OswModel.handle]. unfold mk_hdr at 1. cbn [oh_ver]. rewrite A2. cbn [Z.eqb Pos.eqb]. rewrite set_lib_same by auto.
    rewrite answer_hdr by (auto; cbn [mk_hdr oh_xid]; lia). cbn [mk_hdr oh_xid]. rewrite X2. reflexivity.
  - rewrite NS by lia. apply B; [left; left; cbn [In]; lia|]. intros len b. rewrite A1. change (handler true 0) with HHello.
    cbn [OswModel.handle mk_hdr oh_ver]. replace (ver_of m =? 1) with false by lia. replace (ver_of m =? 4) with false by lia. reflexivity.
  - rewrite NS by lia. apply B; [left; left; cbn [In]; lia|]. intros len b. rewrite A1. change (handler true 5) with HFeatures.
    cbn [OswModel.handle]. rewrite L. destruct (features_wire sid ifs D) as (dp & -> & Hb & Hl).
    rewrite (answer_body i s (mk_hdr m len) 6 _ _ L U ltac:(lia) X1 Hb Hl). cbn [mk_hdr oh_xid]. rewrite X2. reflexivity.
  - rewrite NS by lia. apply B; [left; left; cbn [In]; lia|]. intros len b. rewrite A1. change (handler true 7) with HGetConfig.
    cbn [OswModel.handle]. pose proof (body_getconfig _ _ F1 F2) as Hb.
    rewrite (answer_body i s (mk_hdr m len) 8 _ _ L U ltac:(lia) X1 Hb); [|rewrite zlen_app; unfold zlen; rewrite !be_length; lia].
    cbn [mk_hdr oh_xid fst snd]. rewrite X2. reflexivity.
  - destruct (parse_set_config m f k rest H A1 A2 A3 A4) as (len & b & P). rewrite P, expire_nil by auto. cbn [parsed nth_error]. unfold mk_hdr at 1.
    cbn [oh_type]. rewrite A1. change (handler true 9) with HSetConfig. cbn [OswModel.handle map]. cbn [conf_after]. rewrite A1. cbn [Z.eqb Pos.eqb].
    rewrite A2. rewrite (firstn_app_exact (be 2 f)) by (rewrite be_length; reflexivity). rewrite (skipn_app_exact (be 2 f)) by (rewrite be_length; reflexivity).
    rewrite (firstn_app_exact (be 2 k)) by (rewrite be_length; reflexivity). rewrite !unbe_be_small by (change (256 ^ Z.of_nat 2) with 65536; lia). reflexivity.
  - rewrite NS by lia. apply B; [left; left; cbn [In]; lia|]. intros len b. rewrite A1. change (handler true 18) with HBarrier.
    cbn [OswModel.handle]. rewrite answer_hdr by (auto; cbn [mk_hdr oh_xid]; lia). cbn [mk_hdr oh_xid]. rewrite X2. reflexivity.
  - rewrite NS by lia. apply B; [unfold bare_type; cbn [In]; lia|]. intros len b.
    assert (K : handler true (ty_of m) = HUnknown).
    { unfold handler. repeat match goal with |- context[?a =? ?n] => destruct (Z.eqb_spec a n); [exfalso; lia|] end. reflexivity. }
    rewrite K. cbn [OswModel.handle].
    rewrite (answer_body i s (mk_hdr m len) 1 _ _ L U ltac:(lia) X1 body_error); [|cbn [length]; unfold zlen; cbn [length]; lia].
    cbn [mk_hdr oh_xid]. rewrite X2. reflexivity.
Qed.
End Single.
