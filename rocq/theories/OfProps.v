(** Properties C48, C49, C77: OpenFlow 1.0 messages. *)
From Verif Require Import Base BaseLemmas EthAddrModel EthAddrSpec ArpModel Enums CodecLemmas OfModel OfSpec OfLayout OfProofs OfMsg OfMore.

(** C48. A message with a body, serialised and parsed again: the same version, type, transaction
    id and contents, a length field equal to the number of bytes, and the same bytes when
    serialised once more.  "The same contents" is [body_same] of OfSpec.v: equal in every field,
    where strings come back NUL-padded to their width and sets of flags are compared by their bits. *)
Theorem C48_message_partial : forall h b l raw, body_ok b -> oh_type h = msg_type b ->
  of_ser [PHdr h; PBody b] = Ok (l, raw) ->
  exists h' b', of_parse raw = Ok [PHdr h'; PBody b'] /\
    oh_ver h' = oh_ver h /\ oh_type h' = oh_type h /\ oh_xid h' = oh_xid h /\ oh_len h' = zlen raw /\
    body_same b b' /\ of_ser [PHdr h'; PBody b'] = Ok ([PHdr h'; PBody b'], raw).
Proof. exact message_round. Qed.
Print Assumptions C48_message_partial.

Definition ex_match : ofmatch :=
  mkMatch [wcDlVlan; wcTpSrc] 0 0 3 [2; 0; 0; 0; 0; 1] [2; 0; 0; 0; 0; 2] 7 1 etIP 4 ipTCP [10; 0; 0; 1] [10; 0; 0; 2] 1024 80.
Definition ex_acts : list ofaction :=
  [act_output 0xfffb; mkAct 5 16 (ADlAddr [1; 2; 3; 4; 5; 6]); act_stripvlan; act_vendor 99 [1; 2; 3]; act_enqueue 2 5].
Definition ex_fm : ofbody := BFlowMod (mkFm ex_match 0x1122334455667788 1 10 20 0x8000 0xffffffff 0xfffc [1; 4] ex_acts).
Lemma ex_match_ok : match_ok ex_match.
Proof. repeat split; try reflexivity; try (apply zmem_In; reflexivity). left. repeat split; repeat constructor; apply zmem_In; reflexivity. Qed.
Lemma ex_acts_ok : Forall action_ok ex_acts.
Proof. repeat constructor; cbn; auto; unfold hw6; reflexivity. Qed.
Example C48_message_case : body_ok ex_fm /\ exists raw h' b',
  of_ser [PHdr (hdr_new 14 77 1); PBody ex_fm] = Ok ([PHdr (mkOh 1 14 132 77 None); PBody ex_fm], raw) /\
  of_parse raw = Ok [PHdr h'; PBody b'] /\ zlen raw = 132 /\ b' <> ex_fm.
Proof.
  split. { split; [exact ex_match_ok|]. split; [apply zmem_In; reflexivity|]. split; [repeat constructor; apply zmem_In; reflexivity|exact ex_acts_ok]. }
  eexists _, _, _. split; [vm_compute; reflexivity|]. split; [vm_compute; reflexivity|]. split; [reflexivity|]. discriminate.
Qed.

(** C48. A message that is only a header, possibly of an unknown type, keeps any bytes after it. *)
Theorem C48_bare : forall h d l raw, bare_type (oh_type h) -> of_ser [PHdr h; PRaw d] = Ok (l, raw) ->
  of_parse raw = Ok (PHdr (mkOh (oh_ver h) (oh_type h) (zlen raw) (oh_xid h) None) :: match d with [] => [] | _ => [PRaw d] end).
Proof. exact bare_round. Qed.
Print Assumptions C48_bare.
Example C48_bare_case : bare_type 0 /\ bare_type 200 /\
  (exists raw, of_ser [PHdr (hdr_new 0 5 1); PRaw [9; 9]] = Ok ([PHdr (mkOh 1 0 10 5 None); PRaw [9; 9]], raw) /\
   of_parse raw = Ok [PHdr (mkOh 1 0 10 5 None); PRaw [9; 9]]).
Proof. split; [left; cbn; auto|]. split; [right; lia|]. eexists. split; [vm_compute; reflexivity|vm_compute; reflexivity]. Qed.

(** C48. Lists of actions, of any length, on their own. *)
Theorem C48_actions : forall l b, Forall action_ok l -> actions_to l = Ok b ->
  exists l', unpack_actions b = Ok l' /\ Forall2 action_same l l' /\ actions_to l' = Ok b.
Proof. intros l b Hl H. exists (map action_canon l). split; [apply actions_round; auto|].
  split; [apply actions_canon_same; auto|]. rewrite actions_canon_to; auto. Qed.
Print Assumptions C48_actions.
Example C48_actions_case : Forall action_ok ex_acts /\ exists b, actions_to ex_acts = Ok b /\ zlen b = 60.
Proof. split; [exact ex_acts_ok|]. eexists. split; [vm_compute; reflexivity|vm_compute; reflexivity]. Qed.

(** C48. len(body) is the number of bytes it serialises to, for every class but two. *)
Theorem C48_size : forall b raw, size_right b -> body_to b = Ok raw -> body_size b = Ok (zlen raw).
Proof. exact body_size_right. Qed.
Print Assumptions C48_size.
Example C48_size_case : size_right ex_fm /\ exists raw, body_to ex_fm = Ok raw /\ body_size ex_fm = Ok 124.
Proof. split; [exact I|]. eexists. split; [vm_compute; reflexivity|vm_compute; reflexivity]. Qed.
Theorem C48_size_refuted :
  (exists b raw, body_to b = Ok raw /\ body_size b = Ok 108 /\ zlen raw = 36) /\
  (exists b raw, body_to b = Ok raw /\ body_size b = Ok 7 /\ zlen raw = 11).
Proof. split.
  - exists (statsrep_new (SPQueue 1 2 3 4 5)). eexists. split; [vm_compute; reflexivity|split; [vm_compute; reflexivity|vm_compute; reflexivity]].
  - exists (statsreq_new (SQVendor 1 [1; 2; 3])). eexists. split; [vm_compute; reflexivity|split; [vm_compute; reflexivity|vm_compute; reflexivity]]. Qed.
Print Assumptions C48_size_refuted.

(** C48, where equality fails.  [back b b']: b is sent in a message of its own type and b' is read. *)
Definition back (b b' : ofbody) : Prop := exists l raw h',
  of_ser [PHdr (hdr_new (msg_type b) 1 1); PBody b] = Ok (l, raw) /\ of_parse raw = Ok [PHdr h'; PBody b'].
Definition lost (b : ofbody) (e : exn) : Prop := exists l raw,
  of_ser [PHdr (hdr_new (msg_type b) 1 1); PBody b] = Ok (l, raw) /\ of_parse raw = Err e.
(** A port reported only as blocked comes back also as learning and forwarding (256, 512), and in
    the state of value zero; a switch offering actions 1 and 2 comes back offering 0 and 3 too. *)
Theorem C48_flags_refuted : exists p p' dp acts', pport_ok p /\
  back (BPortStatus 0 p) (BPortStatus 0 p') /\ pp_state p = [768] /\ pp_state p' = [0; 256; 512; 768] /\
  back (BFeatures dp 1 1 [] [1; 2] []) (BFeatures dp 1 1 [0] acts' []) /\ acts' = [0; 1; 2; 3].
Proof. exists (mkPport 1 [1; 2; 3; 4; 5; 6] [101; 49] [] [768] [] [] [] []). eexists _, (repeat 0 8), _.
  split; [|split; [eexists _, _, _; split; [vm_compute; reflexivity|vm_compute; reflexivity]|split; [reflexivity|split; [reflexivity|
    split; [eexists _, _, _; split; [vm_compute; reflexivity|vm_compute; reflexivity]|reflexivity]]]]].
  repeat split; try apply Nat.leb_le; try reflexivity; repeat constructor; apply zmem_In; reflexivity. Qed.
Print Assumptions C48_flags_refuted.
(** A port name comes back with NUL characters appended, and a name of nine characters that
    needs seventeen bytes is cut inside a character: the message cannot be parsed. *)
Theorem C48_name_refuted :
  (exists p p', pport_ok p /\ back (BPortStatus 0 p) (BPortStatus 0 p') /\ pp_name p = [101; 49] /\ pp_name p' = [101; 49] ++ repeat 0 14) /\
  (exists p, utf8_ok (pp_name p) = true /\ length (filter (fun b => negb ((128 <=? b) && (b <? 192))) (pp_name p)) = 9%nat /\
     lost (BPortStatus 0 p) EValue).
Proof. split.
  - exists (mkPport 1 [1; 2; 3; 4; 5; 6] [101; 49] [] [] [] [] [] []). eexists.
    split; [|split; [eexists _, _, _; split; [vm_compute; reflexivity|vm_compute; reflexivity]|split; reflexivity]].
    repeat split; try apply Nat.leb_le; try reflexivity; repeat constructor.
  - exists (pport_new 1 [1; 2; 3; 4; 5; 6] (97 :: concat (repeat [195; 169] 8))). split; [reflexivity|]. split; [reflexivity|].
    eexists _, _. split; [vm_compute; reflexivity|vm_compute; reflexivity]. Qed.
Print Assumptions C48_name_refuted.
(** Freshly built packet-out and error messages cannot be serialised at all. *)
Theorem C48_default_refuted : forall h,
  of_ser [PHdr h; PBody packetout_new] = Err EAttr /\ of_ser [PHdr h; PBody error_new] = Err EAttr.
Proof. intros h. split; reflexivity. Qed.
Print Assumptions C48_default_refuted.
(** An error whose type was changed after its code serialises to bytes that do not parse. *)
Theorem C48_error_refuted : exists t c, In t ErrorTypes /\ In c (error_codes 1) /\ lost (BError (Some t) (Some c) []) EValue.
Proof. exists 5, 8. split; [apply zmem_In; reflexivity|]. split; [apply zmem_In; reflexivity|]. eexists _, _. split; [vm_compute; reflexivity|vm_compute; reflexivity]. Qed.
Print Assumptions C48_error_refuted.
(** Port statistics: the overrun count is lost, the CRC error count appears in its place. *)
Theorem C48_portstats_refuted : forall a b c d e f g h i j over crc k b',
  back (statsrep_new (SPPort (mkPs a b c d e f g h i j over crc k))) b' ->
  b' = statsrep_new (SPPort (mkPs a b c d e f g h i j crc 0 k)).
Proof.
  intros a b c d e f g h i j over crc k b' (l & raw & h' & H & P). cbn [statsrep_new msg_type] in *.
  cbn [of_ser body_to statsrep_to bindr] in H. apply bindr_ok in H. destruct H as (r & Hr & H).
  apply bindr_ok in Hr. destruct Hr as (bb & Hb & Hr). apply ok_inj in Hr. subst r. cbn [fst snd] in H.
  apply bindr_ok in H. destruct H as (hb & Hh & H). apply ok_pair_inj in H. destruct H as [_ <-]. rewrite app_nil_r in *.
  apply bindr_ok in Hb. destruct Hb as (sh & Hs & Hb). apply bindr_ok in Hb. destruct Hb as (x & Hx & Hb). apply ok_inj in Hb. subst bb.
  destruct (head_parse _ _ x Hs) as (E1 & E2 & E3 & E4 & _); [apply zmem_In; reflexivity|].
  unfold of_parse, hdr_from, hdr_to in *. cbn [oh_ver oh_type oh_len oh_xid hdr_new] in Hh.
  rewrite (ltb0 _ _ _ _ 8 Hh eq_refl), (unp _ _ _ _ 8 Hh eq_refl), (skp _ _ _ _ 8 Hh eq_refl) in P. cbn [norm hdr_fmt bindr] in P.
  rewrite app_length, E3 in P. cbn [zmem existsb Z.eqb Pos.eqb orb andb Nat.add Nat.leb] in P.
  assert (U : unpack [fH] (firstn 2 (sh ++ x)) = Ok [VI 4]).
  { unfold stats_head in Hs. vm_compute in Hs. apply ok_inj in Hs. subst sh. reflexivity. }
  rewrite U in P. cbn [bindr enum_of zmem existsb StatsTypes Z.eqb Pos.eqb orb] in P. cbn [fst snd hdr_next oh_type oh_sub Z.eqb Pos.eqb bindr body_from noret statsrep_from] in P.
  pose proof (pack_length _ _ _ Hx) as L2. change (calcsize _) with 104%nat in L2.
  rewrite app_length, E3, L2, E1, E2, E4 in P. change (Nat.ltb (4 + 104) 108) with false in P. cbn [bindr] in P.
  rewrite (unp1 _ _ _ Hx) in P. cbn [norm portstat_fmt bindr] in P. injection P. auto.
Qed.
Print Assumptions C48_portstats_refuted.
Example C48_portstats_case : back (statsrep_new (SPPort (mkPs 1 2 3 4 5 6 7 8 9 10 11 12 13)))
  (statsrep_new (SPPort (mkPs 1 2 3 4 5 6 7 8 9 10 12 0 13))).
Proof. eexists _, _, _. split; [vm_compute; reflexivity|vm_compute; reflexivity]. Qed.
(** Matches: address prefixes set by the program are not written; those received are not written
    back; an IPv6 destination is cut to four bytes; reading the destination's prefix gives the source's. *)
Theorem C48_prefix_refuted :
  (exists m m' b, match_fields_ok m /\ match_to m = Ok b /\ match_from b = Ok m' /\ get_srcw m = 8 /\ get_srcw m' = 0) /\
  (exists b m b', match_from b = Ok m /\ m_srcw m = 8 /\ match_to m = Ok b' /\ length b = 40%nat /\ b' <> b) /\
  (exists m b m', match_to m = Ok b /\ match_from b = Ok m' /\ m_nwdst m = repeat 1 16 /\ m_nwdst m' = repeat 1 4) /\
  (exists m, m_srcw m = 8 /\ m_dstw m = 24 /\ get_dstw m = 8).
Proof.
  set (m8 := mkMatch [] 8 24 3 [2; 0; 0; 0; 0; 1] [2; 0; 0; 0; 0; 2] 7 1 etIP 4 ipTCP [10; 0; 0; 1] [10; 0; 0; 2] 1024 80).
  split; [|split; [|split]].
  - exists m8. eexists _, _. split; [repeat split; try reflexivity; apply zmem_In; reflexivity|].
    split; [vm_compute; reflexivity|]. split; [vm_compute; reflexivity|]. split; reflexivity.
  - exists ([0; 0; 8; 0] ++ repeat 0 18 ++ [8; 0; 0; 1] ++ repeat 0 14). eexists _, _.
    split; [vm_compute; reflexivity|]. split; [reflexivity|]. split; [vm_compute; reflexivity|]. split; [reflexivity|discriminate].
  - exists (mkMatch [] 0 0 3 [2; 0; 0; 0; 0; 1] [2; 0; 0; 0; 0; 2] 7 1 etIP 4 ipTCP [10; 0; 0; 1] (repeat 1 16) 1024 80). eexists _, _.
    split; [vm_compute; reflexivity|]. split; [vm_compute; reflexivity|]. split; reflexivity.
  - exists m8. repeat split.
Qed.
Print Assumptions C48_prefix_refuted.
(** An aggregate flow statistics request is written with the type of a per-flow request, and
    read as one; a table's "all" wildcard is not read back. *)
Theorem C48_stats_refuted :
  (forall m t o, exists b, statsreq_new (SQAggr m t o) = BStatsReq 1 b) /\
  back (statsreq_new (SQAggr match_new 1 2)) (statsreq_new (SQFlow match_new 1 2)) /\
  (exists t u, ts_wild t = [wcAll] /\ back (statsrep_new (SPTable t)) (statsrep_new (SPTable u)) /\ ~ In wcAll (ts_wild u) /\
     make_bitmap (ts_wild u) <> make_bitmap (ts_wild t)).
Proof. split; [intros; eexists; reflexivity|]. split; [eexists _, _, _; split; [vm_compute; reflexivity|vm_compute; reflexivity]|].
  exists (mkTs 1 [65] [wcAll] None None 1 2 3 4). eexists. split; [reflexivity|].
  split; [eexists _, _, _; split; [vm_compute; reflexivity|vm_compute; reflexivity]|]. split; [|vm_compute; discriminate].
  intros H. apply zmem_In in H. vm_compute in H. discriminate H. Qed.
Print Assumptions C48_stats_refuted.
(** A statistics request without a body, and one of the made-up type 0xdead, raise errors other
    than the parsing error of a truncated message. *)
Theorem C48_statsreq_refuted :
  (forall v l x b, hdr_to (mkOh v 16 l x None) = Ok b -> of_parse b = Err EAttr) /\
  (exists raw, of_parse raw = Err EKey).
Proof. split.
  - intros v l x b H. unfold of_parse, hdr_from. unfold hdr_to in H. rewrite <- (app_nil_r b).
    rewrite (ltb0 _ _ _ _ 8 H eq_refl), (unp _ _ _ _ 8 H eq_refl), (skp _ _ _ _ 8 H eq_refl). reflexivity.
  - exists [1; 16; 0; 12; 0; 0; 0; 1; 222; 173; 0; 0]. vm_compute. reflexivity. Qed.
Print Assumptions C48_statsreq_refuted.
(** A strip-VLAN action of the published eight bytes is read, but written back as four bytes
    still announcing eight: what follows it is then lost or misread. *)
Theorem C48_strip_refuted : exists raw acts raw', unpack_actions raw = Ok acts /\ actions_to acts = Ok raw' /\
  raw = [0; 3; 0; 8; 0; 0; 0; 0; 0; 8; 0; 8; 1; 0; 0; 0] /\ unpack_actions raw' <> Ok acts.
Proof. eexists _, _, _. split; [|split; [|split; [reflexivity|]]]; try (vm_compute; reflexivity). vm_compute. discriminate. Qed.
Print Assumptions C48_strip_refuted.

(** C49. Reading any bytes as a list of actions, or as a whole message with its ports, queues,
    properties and actions, finishes: the fuel of the model's loops is never used up. *)
Theorem C49_actions_finish : forall raw, unpack_actions raw <> Err EFuel.
Proof. exact actions_finish. Qed.
Print Assumptions C49_actions_finish.
Theorem C49_message_finish : forall raw, of_parse raw <> Err EFuel.
Proof. exact parse_finishes. Qed.
Print Assumptions C49_message_finish.
(** A zero-length action is refused, not skipped. *)
Example C49_case : unpack_actions [0; 0; 0; 0; 0; 1; 5; 220] = Err EStruct /\
  unpack_actions ([0; 0; 0; 8; 0; 1; 5; 220] ++ [0; 3; 0; 4]) = Ok [act_output 1; act_stripvlan].
Proof. split; [vm_compute; reflexivity|vm_compute; reflexivity]. Qed.

(** C77. The bytes of a message are those of the published structures, written out in OfLayout.v. *)
Theorem C77_layout_partial : forall h b l raw, body_ok b -> laid_out b -> oh_type h = msg_type b ->
  of_ser [PHdr h; PBody b] = Ok (l, raw) ->
  raw = lay_hdr (oh_ver h) (msg_type b) (8 + zlen (lay_body b)) (oh_xid h) ++ lay_body b.
Proof. exact message_layout. Qed.
Print Assumptions C77_layout_partial.
Example C77_layout_case : body_ok ex_fm /\ laid_out ex_fm /\
  lay_hdr 1 14 (8 + zlen (lay_body ex_fm)) 77 = [1; 14; 0; 132; 0; 0; 0; 77] /\
  firstn 12 (lay_body ex_fm) = [0; 0; 0; 66; 0; 3; 2; 0; 0; 0; 0; 1].
Proof. split; [apply C48_message_case|]. split; [exact I|]. split; [vm_compute; reflexivity|vm_compute; reflexivity]. Qed.
(** Matches and actions on their own. *)
Theorem C77_match : forall m b, match_ok m -> match_to m = Ok b -> b = lay_match m.
Proof. exact match_layout. Qed.
Print Assumptions C77_match.
Theorem C77_actions : forall l b, Forall action_ok l -> actions_to l = Ok b -> b = lay_actions l.
Proof. exact actions_layout. Qed.
Print Assumptions C77_actions.
(** C77 fails for packet-in (total length is ten too large), flow statistics replies (entry length
    four too large), aggregate statistics (counters swapped, padding missing), and the
    supported-actions field, which is not one bit per action. *)
Theorem C77_layout_refuted :
  (forall bu ip re d b, body_to (BPacketIn bu ip re d) = Ok b -> exists r, b = u32 bu ++ u16 (zlen d + 10) ++ r) /\
  (exists b raw, body_ok b /\ body_to b = Ok raw /\ raw <> lay_body b) /\
  (exists f raw, body_ok (BStatsRep 1 (SPFlow f)) /\ body_to (BStatsRep 1 (SPFlow f)) = Ok raw /\ raw <> lay_body (BStatsRep 1 (SPFlow f))) /\
  (forall nb np nf b, body_to (BStatsRep 2 (SPAggr nb np nf)) = Ok b -> zlen b = 24 /\ zlen (lay_body (BStatsRep 2 (SPAggr nb np nf))) = 28) /\
  (forall dp nb nt cs ports, body_to (BFeatures dp nb nt cs [1; 2] ports) = body_to (BFeatures dp nb nt cs [3] ports)).
Proof. split; [|split; [|split; [|split]]].
  - intros bu ip re d b H. cbn [body_to] in H. apply bindr_ok in H. destruct H as (h & Hh & H). apply ok_inj in H. subst b.
    apply pack_enc in Hh. subst h. unfold packetin_fmt. cbn [enc]. rewrite <- !app_assoc. eexists. reflexivity.
  - exists (BPacketIn 1 2 1 [1; 2; 3]). eexists. split; [|split; [vm_compute; reflexivity|vm_compute; discriminate]].
    split; [left; lia|apply zmem_In; reflexivity].
  - exists (mkFs 1 ex_match 1 2 3 4 5 6 7 8 ex_acts). eexists. split; [|split; [vm_compute; reflexivity|vm_compute; discriminate]].
    split; [reflexivity|]. split; [exact ex_match_ok|exact ex_acts_ok].
  - intros nb np nf b H. split.
    + assert (S : body_size (BStatsRep 2 (SPAggr nb np nf)) = Ok (zlen b)) by (apply body_size_right; [exact I|exact H]).
      cbn [body_size] in S. congruence.
    + unfold lay_body. cbn [lay_gen lay_rep]. unfold zlen. rewrite !app_length. unfold u64, u32, u16, pad.
      rewrite !be_length, repeat_length. reflexivity.
  - intros. reflexivity.
Qed.
Print Assumptions C77_layout_refuted.

(** C77. Reading a match that another implementation wrote: any wildcard bits and any address prefixes (six-bit counts, 32
    and more mean everything).  The type 0 becomes 0xffff. *)
Theorem C77_read_match : forall m t, match_room m -> of_enum PlainWildcards (m_wild m) -> 0 <= m_srcw m < 64 -> 0 <= m_dstw m < 64 ->
  exists m', match_from (lay_match m ++ t) = Ok m' /\
    (m_inport m', m_dlsrc m', m_dldst m', m_vlan m', m_pcp m', m_tos m', m_proto m', m_nwsrc m', m_nwdst m', m_tpsrc m', m_tpdst m') =
    (m_inport m, m_dlsrc m, m_dldst m, m_vlan m, m_pcp m, m_tos m, m_proto m, m_nwsrc m, m_nwdst m, m_tpsrc m, m_tpdst m) /\
    m_dltype m' = (if m_dltype m =? 0 then 0xffff else m_dltype m) /\
    m_srcw m' = Z.min 32 (m_srcw m) /\ m_dstw m' = Z.min 32 (m_dstw m) /\ forall n, plain_bit n -> (has_bit (m_wild m) n <-> has_bit (m_wild m') n).
Proof. exact read_match. Qed.
Print Assumptions C77_read_match.
Example C77_read_match_case : exists m', match_from (lay_match (mkMatch [wcTpSrc] 8 40 3 [2; 0; 0; 0; 0; 1] [2; 0; 0; 0; 0; 2] 7 1 0 4 ipTCP [10; 0; 0; 1] [10; 0; 0; 2] 1024 80)) = Ok m' /\
  m_srcw m' = 8 /\ m_dstw m' = 32 /\ m_wild m' = [wcTpSrc] /\ m_dltype m' = 0xffff.
Proof. eexists. split; [vm_compute; reflexivity|]. repeat split. Qed.
(** C48. What the action constructors make is what the theorems above are about. *)
Theorem C48_constructors : forall p q v t a d x s,
  action_ok (act_output p) /\ action_ok (act_enqueue p q) /\ action_ok (act_vlanvid v) /\ action_ok (act_vlanpcp v) /\ action_ok act_stripvlan /\ action_ok (act_nwtos t) /\
  action_ok (act_vendor v d) /\ (hw6 a -> act_dladdr s a = Ok x -> action_ok x /\ a_type x = s /\ a_body x = ADlAddr a) /\
  (ip4b a -> act_nwaddr s a = Ok x -> action_ok x /\ a_type x = s /\ a_body x = ANwAddr a) /\ (act_tpport s p = Ok x -> action_ok x /\ a_type x = s /\ a_body x = ATpPort p).
Proof. exact constructors_ok. Qed.
Print Assumptions C48_constructors.
Example C48_constructors_case : (exists x, act_dladdr 5 [1; 2; 3; 4; 5; 6] = Ok x) /\ act_dladdr 6 [1; 2; 3; 4; 5; 6] = Err EValue /\ (exists x, act_tpport 9 80 = Ok x).
Proof. split; [eexists; reflexivity|]. split; [reflexivity|eexists; reflexivity]. Qed.
(** C48. Names are accepted exactly when they are the UTF-8 encoding of some Unicode text. *)
Theorem C48_text : forall b, utf8_ok b = true <-> exists cs, Forall scalar cs /\ b = concat (map utf8 cs).
Proof. exact utf8_iff. Qed.
Print Assumptions C48_text.
Example C48_text_case : utf8_ok [226; 130; 172; 240; 159; 152; 128] = true /\ concat (map utf8 [0x20AC; 0x1F600]) = [226; 130; 172; 240; 159; 152; 128] /\ utf8_ok [192; 128] = false /\ utf8_ok [237; 160; 128] = false.
Proof. repeat split. Qed.

(** C77. The flags are the published ones: one bit each. *)
Theorem C77_flag_values : single_bits PortConfigs 7 /\ single_bits PortFeatures 12 /\ single_bits Capabilities 8 /\ single_bits FlowModFlagss 3.
Proof. repeat apply conj; [exact (bits_single 7 ltac:(lia))|exact (bits_single 12 ltac:(lia))|exact (bits_single 8 ltac:(lia))|exact (bits_single 3 ltac:(lia))]. Qed.
Print Assumptions C77_flag_values.
(** C48. So where C48_message_partial says that two sets of such flags have the same bits, they have the same members (but
    for the member of value zero, which comes back whether it was there or not). *)
Theorem C48_flag_members : forall members s t, In members [PortConfigs; PortFeatures; Capabilities; FlowModFlagss] ->
  of_enum members s -> of_enum members t -> same_bits s t -> forall v, v <> 0 -> (In v s <-> In v t).
Proof.
  intros members s t H Hs Ht B. destruct C77_flag_values as (A1 & A2 & A3 & A4).
  destruct H as [<-|[<-|[<-|[<-|[]]]]]; eauto using single_members.
Qed.
Print Assumptions C48_flag_members.
Example C48_flag_members_case : of_enum PortConfigs [1; 64] /\ of_enum PortConfigs [0; 64; 1] /\ same_bits [1; 64] [0; 64; 1].
Proof. split; [repeat constructor; apply zmem_In; reflexivity|]. split; [repeat constructor; apply zmem_In; reflexivity|]. apply same_bits_map. reflexivity. Qed.

(** C49. A message whose body is shorter than the published structure raises an exception that says so (a plain Exception),
    whatever the bytes. *)
Theorem C49_short : forall v t l1 l2 x1 x2 x3 x4 raw n,
  In (t, n) [(6, 24); (8, 4); (9, 4); (10, 10); (11, 80); (12, 56); (13, 8); (14, 64); (15, 24); (20, 4); (21, 8)] -> zlen raw < n ->
  of_parse ([v; t; l1; l2; x1; x2; x3; x4] ++ raw) = Err EExc.
Proof.
  intros v t l1 l2 x1 x2 x3 x4 raw n H L. assert (E : exists w s l x, unpack hdr_fmt [v; t; l1; l2; x1; x2; x3; x4] = Ok [VI w; VI s; VI l; VI x] /\ s = t) by (do 4 eexists; split; [reflexivity|]; change (t * 1 + 0 = t); lia).
  destruct E as (w & s & l & x & E & ->). unfold of_parse, hdr_from. cbn [app List.length Nat.ltb Nat.leb firstn skipn]. rewrite E. cbn [bindr].
  unfold zlen in L. repeat (destruct H as [H|H]; [injection H as <- <-; cbn [zmem existsb Z.eqb Pos.eqb orb andb bindr fst snd hdr_next oh_type oh_sub body_from]; unfold flowrem_from, flowmod_from, noret;
    match goal with |- context [Nat.ltb ?a ?b] => replace (Nat.ltb a b) with true by (symmetry; apply Nat.ltb_lt; lia) end; reflexivity|]). contradiction.
Qed.
Print Assumptions C49_short.
Example C49_short_case : of_parse ([1; 14; 0; 20; 0; 0; 0; 9] ++ [1; 2; 3; 4; 5; 6; 7; 8; 9; 10; 11; 12]) = Err EExc.
Proof. apply (C49_short _ _ _ _ _ _ _ _ _ 64); [cbn; tauto|reflexivity]. Qed.

(** C48. Adding a flag to one of the sets of a port, a flow-mod or a table: only known flags; afterwards it is there, once, and nothing
    else changed. *)
Theorem C48_add_flag : forall members v s, NoDup s ->
  (In v members -> exists s', add_member members v s = Ok s' /\ NoDup s' /\ forall x, In x s' <-> x = v \/ In x s) /\ (~ In v members -> add_member members v s = Err EValue).
Proof.
  intros members v s N. unfold add_member, enum_of. split; intros H.
  - apply zmem_In in H. rewrite H. cbn [bindr]. unfold set_add. destruct (zmem v s) eqn:E; eexists; (split; [reflexivity|]).
    + split; [exact N|]. intros x. apply zmem_In in E. split; [auto|intros [->|K]; auto].
    + assert (E2 : ~ In v s) by (rewrite <- zmem_In; congruence). split.
      * apply NoDup_rev in N. rewrite <- (rev_involutive (s ++ [v])). apply NoDup_rev. rewrite rev_app_distr. cbn [rev app]. constructor; [|exact N]. intros J. apply E2. apply in_rev. exact J.
      * intros x. rewrite in_app_iff. cbn [In]. split; [intros [K|[K|[]]]; auto|intros [K|K]; auto].
  - destruct (zmem v members) eqn:E; [apply zmem_In in E; contradiction|reflexivity].
Qed.
Print Assumptions C48_add_flag.
Example C48_add_flag_case : add_member PortConfigs 4 [1] = Ok [1; 4] /\ add_member PortConfigs 4 [4] = Ok [4] /\ add_member PortConfigs 3 [1] = Err EValue.
Proof. repeat split. Qed.

(** C77. Messages as their constructors make them, before any field is assigned: a header of eight bytes of length eight; no buffer, no
    port and an unknown reason in a packet-in; in a flow-mod, an entry that is added, for ICMP over IPv4 with every field zero. *)
Theorem C77_defaults : forall ver ty xid, 0 <= ver < 256 -> 0 <= ty < 256 -> 0 <= xid < 4294967296 ->
  hdr_to (hdr_new ty xid ver) = Ok ([ver; ty; 0; 8] ++ be 4 xid) /\
  body_to packetin_new = Ok [255; 255; 255; 255; 0; 10; 255; 255; 255; 0] /\
  body_to (BFlowMod (flowmod_new match_new)) = Ok (repeat 0 22 ++ [8; 0; 0; 1] ++ repeat 0 38).
Proof.
  intros ver ty xid Hv Ht Hx. split; [|split; reflexivity]. unfold hdr_to, hdr_new. cbn [oh_ver oh_type oh_len oh_xid].
  unfold hdr_fmt. rewrite !pack_cons_int by (pow256; lia). rewrite pack_nil. cbn [bindr]. rewrite app_nil_r.
  assert (B1 : forall z, 0 <= z < 256 -> be 1 z = [z]) by (intros z Hz; cbn [be]; change (256 ^ Z.of_nat 0) with 1; rewrite Z.div_1_r, Z.mod_small by lia; reflexivity).
  rewrite !B1 by lia. reflexivity.
Qed.
Print Assumptions C77_defaults.
Example C77_defaults_case : hdr_to (hdr_new 14 77 1) = Ok [1; 14; 0; 8; 0; 0; 0; 77].
Proof. reflexivity. Qed.
