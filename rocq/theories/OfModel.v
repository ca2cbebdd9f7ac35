(** Model of switchyard/lib/openflow/openflow10.py: the OpenFlow 1.0 structures and messages,
    serialising ([..._to]) and parsing into a fresh object ([..._from]).
    Simplified: sets of enum members are lists of member values (only membership and the OR of the
    values are ever used); text is its UTF-8 encoding; the action [__call__] methods and the
    [__str__] methods are left out; [from_bytes] is only ever applied to a new object, as
    Packet._parse and the containers in this file do. *)
From Verif Require Import Base EthAddrModel ArpModel Enums.

(** ** UTF-8 (bytes.decode('utf8'), strict): the ranges of the bytes still expected. *)
Definition utf8_lead (b : Z) : option (list (Z * Z)) :=
  if (0 <=? b) && (b <? 128) then Some []
  else if (0xC2 <=? b) && (b <=? 0xDF) then Some [(0x80, 0xBF)]
  else if b =? 0xE0 then Some [(0xA0, 0xBF); (0x80, 0xBF)]
  else if b =? 0xED then Some [(0x80, 0x9F); (0x80, 0xBF)]
  else if (0xE1 <=? b) && (b <=? 0xEF) then Some [(0x80, 0xBF); (0x80, 0xBF)]
  else if b =? 0xF0 then Some [(0x90, 0xBF); (0x80, 0xBF); (0x80, 0xBF)]
  else if (0xF1 <=? b) && (b <=? 0xF3) then Some [(0x80, 0xBF); (0x80, 0xBF); (0x80, 0xBF)]
  else if b =? 0xF4 then Some [(0x80, 0x8F); (0x80, 0xBF); (0x80, 0xBF)]
  else None.
Fixpoint utf8_run (pend : list (Z * Z)) (b : bytes) : bool :=
  match b with
  | [] => match pend with [] => true | _ => false end
  | x :: b' =>
      match pend with
      | (lo, hi) :: p => if (lo <=? x) && (x <=? hi) then utf8_run p b' else false
      | [] => match utf8_lead x with Some p => utf8_run p b' | None => false end
      end
  end.
Definition utf8_ok (b : bytes) : bool := utf8_run [] b.
(** UnicodeDecodeError is a ValueError. *)
Definition decode (b : bytes) : res bytes := if utf8_ok b then Ok b else Err EValue.

(** ** Bitmaps of enum members. *)
(** _make_bitmap (openflow10.py:11-19). *)
Definition make_bitmap (s : list Z) : Z := fold_left Z.lor s 0.
(** _unpack_bitmap (21-31). *)
Definition unpack_bitmap (b : Z) (members : list Z) : list Z :=
  filter (fun v => Z.land v b =? v) members.
(** set.add. *)
Definition set_add (v : Z) (s : list Z) : list Z := if zmem v s then s else s ++ [v].
(** e.g. add_config (231-232): enum conversion, then set.add. *)
Definition add_member (members : list Z) (v : Z) (s : list Z) : res (list Z) :=
  x <- enum_of members v;; Ok (set_add x s).

(** OpenflowPort (59-68) and _get_port (71-80). *)
Definition OfPorts : list Z := [0xff00; 0xfff8; 0xfff9; 0xfffa; 0xfffb; 0xfffc; 0xfffd; 0xfffe; 0xffff].
Definition ofpNone := 0xffff.
Definition get_port (v : Z) : res Z :=
  if zmem v OfPorts then Ok v
  else if (0 <=? v) && (v <? 0xff00) then Ok v else Err EValue.
(** OpenflowPortState (83-90): StpListen and StpMask are aliases, so iteration skips them. *)
Definition PortStates : list Z := [0; 1; 256; 512; 768].
(** OpenflowPortConfig (93-101), OpenflowPortFeatures (104-117), OpenflowCapabilities (120-129). *)
Definition PortConfigs : list Z := [0; 1; 2; 4; 8; 16; 32; 64].
Definition PortFeatures : list Z := [0; 1; 2; 4; 8; 16; 32; 64; 128; 256; 512; 1024; 2048].
Definition Capabilities : list Z := [0; 1; 2; 4; 8; 16; 32; 64; 128].

(** ** OpenflowPhysicalPort (147-300). *)
Record pport := mkPport {
  pp_num : Z; pp_hw : ethaddr; pp_name : bytes; pp_config : list Z; pp_state : list Z;
  pp_curr : list Z; pp_adv : list Z; pp_supp : list Z; pp_peer : list Z }.
(** __init__ (153-166). *)
Definition pport_new (num : Z) (hw : ethaddr) (name : bytes) : pport :=
  mkPport num hw name [] [] [] [] [] [].
(** _PACKFMT (150). *)
Definition pport_fmt := [fH; FS 6; FS 16; fI; fI; fI; fI; fI; fI].
(** to_bytes (168-174). *)
Definition pport_to (p : pport) : res bytes :=
  pack pport_fmt [VI (pp_num p); VB (pp_hw p); VB (pp_name p); VI (make_bitmap (pp_config p));
    VI (make_bitmap (pp_state p)); VI (make_bitmap (pp_curr p)); VI (make_bitmap (pp_adv p));
    VI (make_bitmap (pp_supp p)); VI (make_bitmap (pp_peer p))].
(** from_bytes (176-193); sixteen bytes decode to at most sixteen characters, so the name
    setter (218-221) never refuses. *)
Definition pport_from (raw : bytes) : res (pport * bytes) :=
  if Nat.ltb (length raw) 48 then Err EExc
  else
    fs <- unpack pport_fmt (firstn 48 raw);;
    match fs with
    | [VI n; VB hw; VB nm; VI c; VI s; VI cu; VI ad; VI su; VI pe] =>
        hw' <- eth_init (ABytes hw);;
        nm' <- decode nm;;
        Ok (mkPport n hw' nm' (unpack_bitmap c PortConfigs) (unpack_bitmap s PortStates)
              (unpack_bitmap cu PortFeatures) (unpack_bitmap ad PortFeatures)
              (unpack_bitmap su PortFeatures) (unpack_bitmap pe PortFeatures), skipn 48 raw)
    | _ => Err EStruct
    end.

(** ** Queues. *)
(** OpenflowQueueMinRateProperty (308-340): the only property class; an object is its rate. *)
Definition minrate_fmt := [fH; fH; FX 4; fH; FX 6].
Definition minrate_to (rate : Z) : res bytes := pack minrate_fmt [VI 1; VI 16; VI rate].
Definition minrate_from (raw : bytes) : res Z :=
  if Nat.ltb (length raw) 16 then Err EExc
  else
    fs <- unpack minrate_fmt (firstn 16 raw);;
    match fs with
    | [VI t; VI l; VI r] => if negb (t =? 1) then Err EAssert else if negb (l =? 16) then Err EAssert else Ok r
    | _ => Err EStruct
    end.
(** OpenflowPacketQueue (347-390). *)
Record ofqueue := mkQueue { q_id : Z; q_props : list Z }.
Definition joinb (l : list bytes) : bytes := concat l.
Definition queue_fmt := [fI; fH; FX 2].
(** to_bytes (372-375). *)
Definition queue_to (q : ofqueue) : res bytes :=
  ps <- mapr minrate_to (q_props q);;
  h <- pack queue_fmt [VI (q_id q); VI (zlen (joinb ps) + 8)];;
  Ok (h ++ joinb ps).
(** The property loop of from_bytes (384-390). *)
Fixpoint props_from (fuel : nat) (raw : bytes) : res (list Z) :=
  match raw with
  | [] => Ok []
  | _ =>
      match fuel with
      | O => Err EFuel
      | S f =>
          fs <- unpack [fH; fH] (firstn 4 raw);;
          match fs with
          | [VI pt; VI pl] =>
              pt' <- enum_of [0; 1] pt;;
              if pt' =? 1
              then
                r <- minrate_from (firstn (Z.to_nat pl) raw);;
                rs <- props_from f (skipn (Z.to_nat pl) raw);;
                Ok (r :: rs)
              else Err EType        (* _QueuePropertyTypeClassMap.get(NoProperty) is None: None() *)
          | _ => Err EStruct
          end
      end
  end.
(** from_bytes (377-390). *)
Definition queue_from (raw : bytes) : res ofqueue :=
  if Nat.ltb (length raw) 8 then Err EExc
  else
    fs <- unpack queue_fmt (firstn 8 raw);;
    match fs with
    | [VI id; VI _] =>
        ps <- props_from (S (length raw)) (skipn 8 raw);;
        Ok (mkQueue id ps)
    | _ => Err EStruct
    end.

(** ** OpenflowMatch (393-734). *)
(** OpenflowWildcard (737-758). *)
Definition wcInPort := 0x1.
Definition wcDlVlan := 0x2.
Definition wcDlSrc := 0x4.
Definition wcDlDst := 0x8.
Definition wcDlType := 0x10.
Definition wcNwProto := 0x20.
Definition wcTpSrc := 0x40.
Definition wcTpDst := 0x80.
Definition wcNwSrcMask := 0x3f00.
Definition wcNwDstMask := 0xfc000.
Definition wcDlVlanPcp := 0x100000.
Definition wcNwTos := 0x200000.
Definition wcAll := 0x3fffff.
(** The members whose names end neither in "All" nor in "Mask" (e.g. 458-462). *)
Definition PlainWildcards : list Z :=
  [wcInPort; wcDlVlan; wcDlSrc; wcDlDst; wcDlType; wcNwProto; wcTpSrc; wcTpDst; wcDlVlanPcp; wcNwTos].

Record ofmatch := mkMatch {
  m_wild : list Z; m_srcw : Z; m_dstw : Z; m_inport : Z; m_dlsrc : ethaddr; m_dldst : ethaddr;
  m_vlan : Z; m_pcp : Z; m_dltype : Z; m_tos : Z; m_proto : Z; m_nwsrc : ipaddr; m_nwdst : ipaddr;
  m_tpsrc : Z; m_tpdst : Z }.
(** __init__ (416-432). *)
Definition match_new : ofmatch :=
  mkMatch [] 0 0 0 (repeat 0 6) (repeat 0 6) 0 0 etIP 0 ipICMP (repeat 0 4) (repeat 0 4) 0 0.
(** _PACKFMT (399). *)
Definition match_fmt := [fI; fH; FS 6; FS 6; fH; fB; FX 1; fH; fB; fB; FX 2; FS 4; FS 4; fH; fH].
(** to_bytes (438-444). *)
Definition match_to (m : ofmatch) : res bytes :=
  pack match_fmt [VI (make_bitmap (m_wild m)); VI (m_inport m); VB (m_dlsrc m); VB (m_dldst m);
    VI (m_vlan m); VI (m_pcp m); VI (m_dltype m); VI (m_tos m); VI (m_proto m); VB (m_nwsrc m);
    VB (m_nwdst m); VI (m_tpsrc m); VI (m_tpdst m)].
(** nwsrc_wildcard and nwdst_wildcard setters (611-625). *)
Definition clamp32 (v : Z) : Z := Z.min 32 (Z.max 0 v).
(** nwsrc_wildcard and nwdst_wildcard getters (607-609, 617-619): both return the source's. *)
Definition get_srcw (m : ofmatch) : Z := m_srcw m.
Definition get_dstw (m : ofmatch) : Z := m_srcw m.
(** IPv4Address(b) of a byte string. *)
Definition ipv4_of_bytes (b : bytes) : res ipaddr := if Nat.eqb (length b) 4 then Ok b else Err EValue.
(** dl_type setter (673-677). *)
Definition dltype_of (v : Z) : res Z := enum_of EtherTypes (if v =? 0 then etNoType else v).
(** tp_src and tp_dst setters (718-734), nw_tos setter (683-688), in_port setter (631-635). *)
Definition tp_of (v : Z) : res Z := if (v <? 0) || (65536 <=? v) then Err EValue else Ok v.
Definition tos_of (v : Z) : res Z := if (v <? 0) || (255 <? v) then Err EValue else Ok v.
Definition inport_of (v : Z) : res Z := if v <? 0 then Err EValue else Ok v.
(** The wildcard part of from_bytes (451-467): the set and the two prefix lengths. *)
Definition wild_from (w : Z) : list Z * Z * Z :=
  if w =? wcAll then ([wcAll], 32, 32)
  else (filter (fun v => Z.land v w =? v) PlainWildcards,
        clamp32 (Z.shiftr (Z.land w wcNwSrcMask) 8), clamp32 (Z.shiftr (Z.land w wcNwDstMask) 14)).
(** from_bytes (446-480). *)
Definition match_from (raw : bytes) : res ofmatch :=
  if Nat.ltb (length raw) 40 then Err EExc
  else
    fs <- unpack match_fmt (firstn 40 raw);;
    match fs with
    | [VI w; VI ip; VB ds; VB dd; VI vl; VI pc; VI dt; VI ts; VI pr; VB ns; VB nd; VI sp; VI dp] =>
        let '(ws, sw, dw) := wild_from w in
        ip' <- inport_of ip;;
        ds' <- eth_init (ABytes ds);;
        dd' <- eth_init (ABytes dd);;
        dt' <- dltype_of dt;;
        ts' <- tos_of ts;;
        pr' <- enum_of IPProtocols pr;;
        ns' <- ipv4_of_bytes ns;;
        nd' <- ip_of_bytes nd;;
        sp' <- tp_of sp;;
        dp' <- tp_of dp;;
        Ok (mkMatch ws sw dw ip' ds' dd' vl pc dt' ts' pr' ns' nd' sp' dp')
    | _ => Err EStruct
    end.

(** ** Actions (783-1192). *)
Definition ActionTypes : list Z := [0; 1; 2; 3; 4; 5; 6; 7; 8; 9; 10; 11; 0xffff].
Inductive abody :=
| AOutput (port maxlen : Z)           (* ActionOutput 848-909 *)
| AEnqueue (port queue : Z)           (* ActionEnqueue 912-949 *)
| AVlanVid (vid : Z)                  (* ActionVlanVid 952-981 *)
| AVlanPcp (pcp : Z)                  (* ActionVlanPcp 984-1012 *)
| AStripVlan                          (* ActionStripVlan 838-845 *)
| ADlAddr (a : ethaddr)               (* ActionDlAddr 1015-1045 *)
| ANwAddr (a : ipaddr)                (* ActionNwAddr 1048-1079 *)
| ANwTos (tos : Z)                    (* ActionNwTos 1082-1110 *)
| ATpPort (port : Z)                  (* ActionTpPort 1113-1142 *)
| AVendor (vendor : Z) (data : bytes) (* ActionVendorHeader 1145-1192 *).
(** OpenflowAction._type, _len (799-836) and the fields of the subclass. *)
Record ofaction := mkAct { a_type : Z; a_len : Z; a_body : abody }.
(** _calcdatalen (1188-1189). *)
Definition ceil8 (n : Z) : Z := (n + 7) / 8 * 8.
(** Constructors: type and len they set. *)
Definition act_output (port : Z) : ofaction := mkAct 0 8 (AOutput port 1500).
Definition act_enqueue (port q : Z) : ofaction := mkAct 11 16 (AEnqueue port q).
Definition act_vlanvid (v : Z) : ofaction := mkAct 1 8 (AVlanVid v).
Definition act_vlanpcp (v : Z) : ofaction := mkAct 2 8 (AVlanPcp v).
Definition act_stripvlan : ofaction := mkAct 3 4 AStripVlan.
Definition act_dladdr (srcdst : Z) (a : ethaddr) : res ofaction :=
  t <- enum_of ActionTypes srcdst;; if zmem t [4; 5] then Ok (mkAct t 16 (ADlAddr a)) else Err EValue.
Definition act_nwaddr (srcdst : Z) (a : ipaddr) : res ofaction :=
  t <- enum_of ActionTypes srcdst;; if zmem t [6; 7] then Ok (mkAct t 8 (ANwAddr a)) else Err EValue.
Definition act_nwtos (t : Z) : ofaction := mkAct 8 8 (ANwTos t).
Definition act_tpport (srcdst port : Z) : res ofaction :=
  t <- enum_of ActionTypes srcdst;; if zmem t [9; 10] then Ok (mkAct t 8 (ATpPort port)) else Err EValue.
Definition act_vendor (v : Z) (d : bytes) : ofaction := mkAct 0xffff (8 + ceil8 (zlen d)) (AVendor v d).

(** to_bytes of the subclass fields. *)
Definition abody_to (b : abody) : res bytes :=
  match b with
  | AOutput p m => pack [fH; fH] [VI p; VI m]
  | AEnqueue p q => pack [fH; FX 6; fI] [VI p; VI q]
  | AVlanVid v => pack [fH; FX 2] [VI v]
  | AVlanPcp v => pack [fB; FX 3] [VI v]
  | AStripVlan => Ok []
  | ADlAddr a => pack [FS 6; FX 6] [VB a]
  | ANwAddr a => pack [FS 4] [VB a]
  | ANwTos t => pack [fB; FX 3] [VI t]
  | ATpPort p => pack [fH; FX 2] [VI p]
  | AVendor v d => h <- pack [fI] [VI v];; Ok (h ++ d ++ repeat 0 (Z.to_nat (ceil8 (zlen d) - zlen d)))
  end.
(** OpenflowAction.to_bytes (830-832) and the subclasses' to_bytes. *)
Definition action_to (a : ofaction) : res bytes :=
  h <- pack [fH; fH] [VI (a_type a); VI (a_len a)];;
  b <- abody_to (a_body a);;
  Ok (h ++ b).
(** from_bytes of a new object of the class registered for type [t] (_ActionClassMap 1195-1209):
    OpenflowAction.from_bytes (825-828), then the subclass fields. *)
Definition action_from (t : Z) (raw : bytes) : res ofaction :=
  fs <- unpack [fH; fH] (firstn 4 raw);;
  match fs with
  | [VI ty; VI ln] =>
      ty' <- enum_of ActionTypes ty;;
      let rest := skipn 4 raw in
      let one (f : list fmt) (n : nat) (k : Z -> abody) :=
        v <- unpack f (firstn n rest);;
        match v with [VI x] => Ok (mkAct ty' ln (k x)) | _ => Err EStruct end in
      if t =? 0 then
        v <- unpack [fH; fH] (firstn 4 rest);;
        match v with [VI p; VI m] => Ok (mkAct ty' ln (AOutput p m)) | _ => Err EStruct end
      else if t =? 1 then one [fH; FX 2] 4%nat AVlanVid
      else if t =? 2 then one [fB; FX 3] 4%nat AVlanPcp
      else if t =? 3 then Ok (mkAct ty' ln AStripVlan)
      else if zmem t [4; 5] then
        v <- unpack [FS 6; FX 6] (firstn 12 rest);;
        match v with [VB x] => a <- eth_init (ABytes x);; Ok (mkAct ty' ln (ADlAddr a)) | _ => Err EStruct end
      else if zmem t [6; 7] then
        v <- unpack [FS 4] (firstn 4 rest);;
        match v with [VB x] => a <- ip_of_bytes x;; Ok (mkAct ty' ln (ANwAddr a)) | _ => Err EStruct end
      else if t =? 8 then one [fB; FX 3] 4%nat ANwTos
      else if zmem t [9; 10] then one [fH; FX 2] 4%nat ATpPort
      else if t =? 11 then
        v <- unpack [fH; FX 6; fI] (firstn 12 rest);;
        match v with [VI p; VI q] => Ok (mkAct ty' ln (AEnqueue p q)) | _ => Err EStruct end
      else
        v <- unpack [fI] (firstn 4 rest);;
        match v with
        | [VI x] => let d := skipn 4 rest in Ok (mkAct ty' (8 + ceil8 (zlen d)) (AVendor x d))
        | _ => Err EStruct end
  | _ => Err EStruct
  end.
(** b''.join(a.to_bytes() for a in actions), as in 1364. *)
Definition actions_to (l : list ofaction) : res bytes := bs <- mapr action_to l;; Ok (joinb bs).
(** _unpack_actions (1212-1226). *)
Fixpoint actions_loop (fuel : nat) (raw : bytes) : res (list ofaction) :=
  match raw with
  | [] => Ok []
  | _ =>
      match fuel with
      | O => Err EFuel
      | S f =>
          fs <- unpack [fH; fH] (firstn 4 raw);;
          match fs with
          | [VI t; VI ln] =>
              t' <- enum_of ActionTypes t;;
              a <- action_from t' (firstn (Z.to_nat ln) raw);;
              l <- actions_loop f (skipn (Z.to_nat ln) raw);;
              Ok (a :: l)
          | _ => Err EStruct
          end
      end
  end.
Definition unpack_actions (raw : bytes) : res (list ofaction) := actions_loop (S (length raw)) raw.

(** ** Message bodies. *)
(** OpenflowConfigFlags (1261-1265), FlowModCommand (1317-1322), FlowModFlags (1325-1329). *)
Definition ConfigFlags : list Z := [0; 1; 2; 3].
Definition FlowModCommands : list Z := [0; 1; 2; 3; 4].
Definition FlowModFlagss : list Z := [0; 1; 2; 4].
(** OpenflowErrorType (1633-1639) and OpenflowErrorTypeCodes (1642-1702). *)
Definition ErrorTypes : list Z := [0; 1; 2; 3; 4; 5].
Definition error_codes (t : Z) : list Z :=
  if t =? 0 then [0; 1]
  else if t =? 1 then [0; 1; 2; 3; 4; 5; 6; 7; 8]
  else if t =? 2 then [0; 1; 2; 3; 4; 5; 6; 7; 8]
  else if t =? 3 then [0; 1; 2; 3; 4; 5]
  else if t =? 4 then [0; 1]
  else [0; 1; 2].
(** PortStatusReason (1899-1902), OpenflowStatsType (1943-1951), OpenflowPacketInReason (2964-2967),
    FlowRemovedReason (3101-3105). *)
Definition PortReasons : list Z := [0; 1; 2].
Definition StatsTypes : list Z := [0; 1; 2; 3; 4; 5; 0xffff; 0xdead].
Definition PacketInReasons : list Z := [0; 1; 0xff].
Definition FlowRemReasons : list Z := [0; 1; 2; 0xff].

(** OpenflowFlowMod (1332-1461). *)
Record flowmod := mkFm {
  fm_match : ofmatch; fm_cookie : Z; fm_command : Z; fm_idle : Z; fm_hard : Z; fm_prio : Z;
  fm_buffer : Z; fm_outport : Z; fm_flags : list Z; fm_actions : list ofaction }.
(** OpenflowFlowRemoved (3108-3234). *)
Record flowrem := mkFr {
  fr_match : ofmatch; fr_cookie : Z; fr_prio : Z; fr_reason : Z; fr_sec : Z; fr_nsec : Z; fr_idle : Z;
  fr_pkts : Z; fr_bytes : Z }.
(** The flow statistics of IndividualFlowStatsReply (2267-2420). *)
Record flowstat := mkFs {
  fs_table : Z; fs_match : ofmatch; fs_sec : Z; fs_nsec : Z; fs_prio : Z; fs_idle : Z; fs_hard : Z;
  fs_cookie : Z; fs_pkts : Z; fs_bytes : Z; fs_actions : list ofaction }.
(** TableStatsReply (2474-2597); the two prefix attributes exist only after parsing. *)
Record tablestat := mkTs {
  ts_table : Z; ts_name : bytes; ts_wild : list Z; ts_srcw : option Z; ts_dstw : option Z;
  ts_max : Z; ts_active : Z; ts_lookup : Z; ts_matched : Z }.
(** PortStatsReply (2600-2749). *)
Record portstat := mkPs {
  ps_port : Z; ps_rxp : Z; ps_txp : Z; ps_rxb : Z; ps_txb : Z; ps_rxd : Z; ps_txd : Z; ps_rxe : Z;
  ps_txe : Z; ps_frame : Z; ps_over : Z; ps_crc : Z; ps_coll : Z }.

Inductive statsreq :=
| SQDesc                                      (* SwitchDescriptionStatsRequest 1985-1988 *)
| SQFlow (m : ofmatch) (table outport : Z)    (* IndividualFlowStatsRequest 1991-2038 *)
| SQAggr (m : ofmatch) (table outport : Z)    (* AggregateFlowStatsRequest 2041-2043 *)
| SQTable                                     (* TableStatsRequest 2046-2049 *)
| SQPort (port : Z)                           (* PortStatsRequest 2052-2089 *)
| SQQueue (port queue : Z)                    (* QueueStatsRequest 2092-2140 *)
| SQVendor (id : Z) (data : bytes)            (* VendorStatsRequest 2143-2183 *).
Inductive statsrep :=
| SPDesc (mfr hw sw ser dp : bytes)           (* SwitchDescriptionStatsReply 2191-2264 *)
| SPFlow (f : flowstat)
| SPAggr (nbytes npkts nflows : Z)            (* AggregateFlowStatsReply 2423-2471 *)
| SPTable (t : tablestat)
| SPPort (p : portstat)
| SPQueue (port queue txb txp txe : Z)        (* QueueStatsReply 2752-2819 *)
| SPVendor (id : Z) (data : bytes)            (* VendorStatsReply 2822-2863 *).

Inductive ofbody :=
| BError (ty code : option Z) (data : bytes)  (* OpenflowError 1705-1755; None: still the int 0 *)
| BEchoReq (data : bytes)                     (* OpenflowEchoRequest 1229-1253 *)
| BEchoRep (data : bytes)                     (* OpenflowEchoReply 1256-1258 *)
| BVendor (vendor : Z) (data : bytes)         (* OpenflowVendor 1758-1794 *)
| BFeatures (dpid : bytes) (nbuf ntab : Z) (caps acts : list Z) (ports : list pport) (* OpenflowSwitchFeaturesReply 1464-1630 *)
| BGetConfig (flags misslen : Z)              (* OpenflowGetConfigReply 1311-1314 *)
| BSetConfig (flags misslen : Z)              (* OpenflowSetConfig 1268-1309 *)
| BPacketIn (buffer inport reason : Z) (data : bytes)                  (* OpenflowPacketIn 2970-3034 *)
| BFlowRemoved (r : flowrem)
| BPortStatus (reason : Z) (p : pport)        (* OpenflowPortStatus 1905-1940 *)
| BPacketOut (buffer inport : Z) (acts : list ofaction) (data : option bytes)
      (* OpenflowPacketOut 3037-3098; None: _packet_data was never assigned *)
| BFlowMod (f : flowmod)
| BPortMod (port : Z) (hw : ethaddr) (config mask adv : list Z)        (* OpenflowPortMod 1797-1896 *)
| BStatsReq (ty : Z) (r : statsreq)           (* _OpenflowStatsRequest._type 1954-1982 *)
| BStatsRep (ty : Z) (r : statsrep)
| BQueueReq (port : Z)                        (* OpenflowQueueGetConfigRequest 2886-2914 *)
| BQueueRep (port : Z) (queues : list ofqueue) (* OpenflowQueueGetConfigReply 2917-2961 *).

(** Constructors with default field values. *)
Definition flowmod_new (m : ofmatch) : flowmod := mkFm m 0 0 0 0 0 0 0 [] [].
Definition packetin_new : ofbody := BPacketIn 0xffffffff ofpNone 0xff [].
(** __init__ assigns _packet, not _packet_data (3042-3047). *)
Definition packetout_new : ofbody := BPacketOut 0xffffffff ofpNone [] None.
Definition error_new : ofbody := BError None None [].
(** AggregateFlowStatsRequest inherits the constructor of IndividualFlowStatsRequest (2041-2043). *)
Definition statsreq_new (r : statsreq) : ofbody :=
  BStatsReq (match r with
             | SQDesc => 0 | SQFlow _ _ _ => 1 | SQAggr _ _ _ => 1 | SQTable => 3 | SQPort _ => 4
             | SQQueue _ _ => 5 | SQVendor _ _ => 0xffff end) r.
Definition statsrep_new (r : statsrep) : ofbody :=
  BStatsRep (match r with
             | SPDesc _ _ _ _ _ => 0 | SPFlow _ => 1 | SPAggr _ _ _ => 2 | SPTable _ => 3 | SPPort _ => 4
             | SPQueue _ _ _ _ _ => 5 | SPVendor _ _ => 0xffff end) r.
(** rx_over_errors and rx_crc_errors setters (2731-2741): the latter writes the former's attribute. *)
Definition set_rx_over (v : Z) (p : portstat) : portstat :=
  mkPs (ps_port p) (ps_rxp p) (ps_txp p) (ps_rxb p) (ps_txb p) (ps_rxd p) (ps_txd p) (ps_rxe p) (ps_txe p)
    (ps_frame p) v (ps_crc p) (ps_coll p).
Definition set_rx_crc (v : Z) (p : portstat) : portstat := set_rx_over v p.

(** Formats. *)
Definition flowmod_fmt := [fQ; fH; fH; fH; fH; fI; fH; fH].           (* 1341 *)
Definition features_fmt := [FS 8; fI; fB; FX 3; fI; fI].               (* 1471 *)
Definition portmod_fmt := [fH; FS 6; fI; fI; fI; FX 4].                (* 1799 *)
Definition flowrem_fmt := [fQ; fH; fB; FX 1; fI; fI; fH; FX 2; fQ; fQ]. (* 3112 *)
Definition desc_fmt := [FS 256; FS 256; FS 256; FS 32; FS 256].        (* 2193 *)
Definition fstat1_fmt := [fH; fB; FX 1].                               (* 2271 *)
Definition fstat2_fmt := [fI; fI; fH; fH; fH; FX 6; fQ; fQ; fQ].       (* 2272 *)
Definition table_fmt := [fB; FX 3; FS 32; fI; fI; fI; fQ; fQ].         (* 2477 *)
Definition portstat_fmt := [fH; FX 6; fQ; fQ; fQ; fQ; fQ; fQ; fQ; fQ; fQ; fQ; fQ; fQ]. (* 2604 *)
Definition queuestat_fmt := [fH; FX 2; fI; fQ; fQ; fQ].                (* 2754 *)
Definition packetin_fmt := [fI; fH; fH; fB; FX 1].                     (* 2972 *)
Definition packetout_fmt := [fI; fH; fH].                              (* 3039 *)

(** *** to_bytes *)
Definition flowmod_to (f : flowmod) : res bytes :=                     (* 1359-1364 *)
  m <- match_to (fm_match f);;
  h <- pack flowmod_fmt [VI (fm_cookie f); VI (fm_command f); VI (fm_idle f); VI (fm_hard f); VI (fm_prio f);
         VI (fm_buffer f); VI (fm_outport f); VI (make_bitmap (fm_flags f))];;
  a <- actions_to (fm_actions f);;
  Ok (m ++ h ++ a).
Definition flowrem_to (r : flowrem) : res bytes :=                     (* 3131-3135 *)
  m <- match_to (fr_match r);;
  h <- pack flowrem_fmt [VI (fr_cookie r); VI (fr_prio r); VI (fr_reason r); VI (fr_sec r); VI (fr_nsec r);
         VI (fr_idle r); VI (fr_pkts r); VI (fr_bytes r)];;
  Ok (m ++ h).
(** _OpenflowStatsRequest.to_bytes (1975-1976). *)
Definition stats_head (ty : Z) : res bytes := pack [fH; fH] [VI ty; VI 0].
Definition statsreq_to (ty : Z) (r : statsreq) : res bytes :=
  h <- stats_head ty;;
  match r with
  | SQDesc | SQTable => Ok h
  | SQFlow m t o | SQAggr m t o =>                                     (* 2025-2027 *)
      mb <- match_to m;; x <- pack [fB; FX 1; fH] [VI t; VI o];; Ok (h ++ mb ++ x)
  | SQPort p => x <- pack [fH; FX 6] [VI p];; Ok (h ++ x)              (* 2080-2081 *)
  | SQQueue p q => x <- pack [fH; FX 2; fI] [VI p; VI q];; Ok (h ++ x) (* 2129-2131 *)
  | SQVendor i d => x <- pack [fI] [VI i];; Ok (h ++ x ++ d)           (* 2172-2174 *)
  end.
(** IndividualFlowStatsReply._MINLEN = 4 + 44 + 40 + 4 (2273-2274). *)
Definition fstat_minlen : Z := 92.
Definition statsrep_to (ty : Z) (r : statsrep) : res bytes :=
  h <- stats_head ty;;
  match r with
  | SPDesc a b c d e => x <- pack desc_fmt [VB a; VB b; VB c; VB d; VB e];; Ok (h ++ x)   (* 2247-2252 *)
  | SPFlow f =>                                                        (* 2291-2300 *)
      m <- match_to (fs_match f);;
      x <- pack fstat2_fmt [VI (fs_sec f); VI (fs_nsec f); VI (fs_prio f); VI (fs_idle f); VI (fs_hard f);
             VI (fs_cookie f); VI (fs_pkts f); VI (fs_bytes f)];;
      a <- actions_to (fs_actions f);;
      p <- pack fstat1_fmt [VI (fstat_minlen + zlen a); VI (fs_table f)];;
      Ok (h ++ p ++ m ++ x ++ a)
  | SPAggr b p f => x <- pack [fQ; fQ; fI] [VI b; VI p; VI f];; Ok (h ++ x)               (* 2435-2437 *)
  | SPTable t =>                                                       (* 2491-2496 *)
      x <- pack table_fmt [VI (ts_table t); VB (ts_name t); VI (make_bitmap (ts_wild t)); VI (ts_max t);
             VI (ts_active t); VI (ts_lookup t); VI (ts_matched t)];; Ok (h ++ x)
  | SPPort p =>                                                        (* 2620-2625 *)
      x <- pack portstat_fmt [VI (ps_port p); VI (ps_rxp p); VI (ps_txp p); VI (ps_rxb p); VI (ps_txb p);
             VI (ps_rxd p); VI (ps_txd p); VI (ps_rxe p); VI (ps_txe p); VI (ps_frame p); VI (ps_over p);
             VI (ps_crc p); VI (ps_coll p)];; Ok (h ++ x)
  | SPQueue p q tb tp te => x <- pack queuestat_fmt [VI p; VI q; VI tb; VI tp; VI te];; Ok (h ++ x)
  | SPVendor i d => x <- pack [fI] [VI i];; Ok (h ++ x ++ d)
  end.
Definition body_to (b : ofbody) : res bytes :=
  match b with
  | BError ty code d =>                                                (* 1719-1721 *)
      match ty, code with
      | Some t, Some c => h <- pack [fH; fH] [VI t; VI c];; Ok (h ++ d)
      | _, _ => Err EAttr                                              (* int has no attribute value *)
      end
  | BEchoReq d | BEchoRep d => Ok d
  | BVendor v d => h <- pack [fI] [VI v];; Ok (h ++ d)                 (* 1771-1772 *)
  | BFeatures dp nb nt cs acts ports =>                                (* 1483-1489 *)
      h <- pack features_fmt [VB dp; VI nb; VI nt; VI (make_bitmap cs); VI (make_bitmap acts)];;
      ps <- mapr pport_to ports;;
      Ok (h ++ joinb ps)
  | BGetConfig f l | BSetConfig f l => pack [fH; fH] [VI f; VI l]      (* 1278-1279 *)
  | BPacketIn bu ip re d =>                                            (* 2985-2989 *)
      h <- pack packetin_fmt [VI bu; VI (zlen d + 10); VI ip; VI re];; Ok (h ++ d)
  | BFlowRemoved r => flowrem_to r
  | BPortStatus re p =>                                                (* 1918-1920 *)
      h <- pack [fB; FX 7] [VI re];; x <- pport_to p;; Ok (h ++ x)
  | BPacketOut bu ip acts d =>                                         (* 3083-3086 *)
      a <- actions_to acts;;
      h <- pack packetout_fmt [VI bu; VI ip; VI (zlen a)];;
      match d with Some d' => Ok (h ++ a ++ d') | None => Err EAttr end
  | BFlowMod f => flowmod_to f
  | BPortMod p hw c m ad =>                                            (* 1813-1815 *)
      pack portmod_fmt [VI p; VB hw; VI (make_bitmap c); VI (make_bitmap m); VI (make_bitmap ad)]
  | BStatsReq ty r => statsreq_to ty r
  | BStatsRep ty r => statsrep_to ty r
  | BQueueReq p => pack [fH; FX 2] [VI p]                              (* 2906-2908 *)
  | BQueueRep p qs =>                                                  (* 2943-2946 *)
      h <- pack [fH; FX 6] [VI p];; l <- mapr queue_to qs;; Ok (h ++ joinb l)
  end.

(** *** size(), the value of len(message) *)
Definition lenr (r : res bytes) : res Z := b <- r;; Ok (zlen b).
Definition body_size (b : ofbody) : res Z :=
  match b with
  | BError _ _ d => Ok (4 + zlen d)
  | BEchoReq d | BEchoRep d => Ok (zlen d)
  | BVendor _ d => Ok (4 + zlen d)
  | BFeatures _ _ _ _ _ _ | BFlowMod _ => lenr (body_to b)
  | BGetConfig _ _ | BSetConfig _ _ => Ok 4
  | BPacketIn _ _ _ d => Ok (10 + zlen d)
  | BFlowRemoved _ => Ok 80
  | BPortStatus _ _ => Ok 56
  | BPacketOut _ _ acts d =>
      a <- actions_to acts;;
      match d with Some d' => Ok (8 + zlen d' + zlen a) | None => Err EAttr end
  | BPortMod _ _ _ _ _ => Ok 24
  | BStatsReq _ r =>
      match r with
      | SQDesc | SQTable => Ok 4
      | SQFlow _ _ _ | SQAggr _ _ _ => Ok 48
      | SQPort _ => Ok 12
      | SQQueue _ _ => Ok 12
      | SQVendor _ d => Ok (4 + zlen d)                                (* 2169-2170 *)
      end
  | BStatsRep _ r =>
      match r with
      | SPDesc _ _ _ _ _ => Ok 1060
      | SPFlow f => a <- actions_to (fs_actions f);; Ok (fstat_minlen + zlen a)
      | SPAggr _ _ _ => Ok 24
      | SPTable _ => Ok 68
      | SPPort _ => Ok 108
      | SPQueue _ _ _ _ _ => Ok 108                                    (* returns PortStatsReply._MINLEN, 2762-2763 *)
      | SPVendor _ d => Ok (8 + zlen d)
      end
  | BQueueReq _ => Ok 4
  | BQueueRep _ qs => l <- mapr queue_to qs;; Ok (8 + zlen (joinb l))
  end.

(** *** from_bytes.  The second component is the value returned: None, or the remaining bytes. *)
Inductive ofclass :=
| CError | CEchoReq | CEchoRep | CVendor | CFeatures | CGetConfig | CSetConfig | CPacketIn | CFlowRemoved
| CPortStatus | CPacketOut | CFlowMod | CPortMod | CStatsBase | CStatsReq (sub : Z) | CStatsRep (sub : Z)
| CQueueReq | CQueueRep.

Fixpoint ports_from (fuel : nat) (raw : bytes) : res (list pport * bytes) :=   (* 1503-1508 *)
  if Nat.ltb (length raw) 48 then Ok ([], raw)
  else
    match fuel with
    | O => Err EFuel
    | S f =>
        pr <- pport_from raw;;
        l <- ports_from f (snd pr);;
        Ok (fst pr :: fst l, snd l)
    end.
Fixpoint queues_from (fuel : nat) (raw : bytes) : res (list ofqueue) :=        (* 2953-2961 *)
  match raw with
  | [] => Ok []
  | _ =>
      match fuel with
      | O => Err EFuel
      | S f =>
          fs <- unpack [fI; fH] (firstn 6 raw);;
          match fs with
          | [VI _; VI ln] =>
              q <- queue_from (firstn (Z.to_nat ln) raw);;
              l <- queues_from f (skipn (Z.to_nat ln) raw);;
              Ok (q :: l)
          | _ => Err EStruct
          end
      end
  end.
Definition flowmod_from (raw : bytes) : res flowmod :=                 (* 1366-1381 *)
  if Nat.ltb (length raw) 64 then Err EExc
  else
    m <- match_from (firstn 40 raw);;
    let raw1 := skipn 40 raw in
    fs <- unpack flowmod_fmt (firstn 24 raw1);;
    match fs with
    | [VI ck; VI cm; VI id; VI hd; VI pr; VI bu; VI op; VI fl] =>
        cm' <- enum_of FlowModCommands cm;;
        acts <- unpack_actions (skipn 24 raw1);;
        Ok (mkFm m ck cm' id hd pr bu op (unpack_bitmap fl FlowModFlagss) acts)
    | _ => Err EStruct
    end.
Definition flowrem_from (raw : bytes) : res flowrem :=                 (* 3137-3150 *)
  if Nat.ltb (length raw) 80 then Err EExc
  else
    m <- match_from (firstn 40 raw);;
    fs <- unpack flowrem_fmt (skipn 40 (firstn 80 raw));;
    match fs with
    | [VI ck; VI pr; VI re; VI se; VI ns; VI id; VI pk; VI by_] =>
        re' <- enum_of FlowRemReasons re;;
        Ok (mkFr m ck pr re' se ns id pk by_)
    | _ => Err EStruct
    end.
(** _OpenflowStatsRequest.from_bytes (1978-1982). *)
Definition stats_from (raw : bytes) : res Z :=
  if Nat.ltb (length raw) 4 then Err EExc
  else
    fs <- unpack [fH; fH] (firstn 4 raw);;
    match fs with [VI t; VI _] => enum_of StatsTypes t | _ => Err EStruct end.
Definition statsreq_from (sub : Z) (raw : bytes) : res ofbody :=
  if sub =? 0 then t <- stats_from raw;; Ok (BStatsReq t SQDesc)
  else if sub =? 3 then t <- stats_from raw;; Ok (BStatsReq t SQTable)
  else if zmem sub [1; 2] then                                         (* 2029-2038 *)
    if Nat.ltb (length raw) 48 then Err EExc
    else
      t <- stats_from (firstn 4 raw);;
      let raw1 := skipn 4 raw in
      m <- match_from (firstn 40 raw1);;
      fs <- unpack [fB; FX 1; fH] (skipn 40 raw1);;
      match fs with
      | [VI ti; VI op] =>
          op' <- get_port op;;
          Ok (BStatsReq t (if sub =? 1 then SQFlow m ti op' else SQAggr m ti op'))
      | _ => Err EStruct
      end
  else if sub =? 4 then                                                (* 2083-2089 *)
    if Nat.ltb (length raw) 12 then Err EExc
    else
      t <- stats_from (firstn 4 raw);;
      fs <- unpack [fH; FX 6] (skipn 4 raw);;
      match fs with [VI p] => p' <- get_port p;; Ok (BStatsReq t (SQPort p')) | _ => Err EStruct end
  else if sub =? 5 then                                                (* 2133-2140 *)
    if Nat.ltb (length raw) 12 then Err EExc
    else
      t <- stats_from (firstn 4 raw);;
      fs <- unpack [fH; FX 2; fI] (skipn 4 raw);;
      match fs with [VI p; VI q] => p' <- get_port p;; Ok (BStatsReq t (SQQueue p' q)) | _ => Err EStruct end
  else if sub =? 0xffff then                                           (* 2176-2183 *)
    if Nat.ltb (length raw) 8 then Err EExc
    else
      t <- stats_from (firstn 4 raw);;
      let raw1 := skipn 4 raw in
      fs <- unpack [fI] (firstn 4 raw1);;
      match fs with [VI i] => Ok (BStatsReq t (SQVendor i (skipn 4 raw1))) | _ => Err EStruct end
  else Err EKey.                                                       (* globals()['NoStatsTypeStatsRequest'], 3366-3374 *)
Definition statsrep_from (sub : Z) (raw : bytes) : res ofbody :=
  if sub =? 0 then                                                     (* 2254-2264 *)
    if Nat.ltb (length raw) 1060 then Err EExc
    else
      t <- stats_from (firstn 4 raw);;
      fs <- unpack desc_fmt (skipn 4 raw);;
      match fs with
      | [VB a; VB b; VB c; VB d; VB e] =>
          a' <- decode a;; b' <- decode b;; c' <- decode c;; d' <- decode d;; e' <- decode e;;
          Ok (BStatsRep t (SPDesc a' b' c' d' e'))
      | _ => Err EStruct
      end
  else if sub =? 1 then                                                (* 2302-2328 *)
    if Nat.ltb (length raw) 92 then Err EExc
    else
      t <- stats_from (firstn 4 raw);;
      let raw1 := skipn 4 raw in
      f0 <- unpack fstat1_fmt (firstn 4 raw1);;
      match f0 with
      | [VI _; VI ti] =>
          let raw2 := skipn 4 raw1 in
          m <- match_from (firstn 40 raw2);;
          let raw3 := skipn 40 raw2 in
          f1 <- unpack fstat2_fmt (firstn 44 raw3);;
          match f1 with
          | [VI se; VI ns; VI pr; VI id; VI hd; VI ck; VI pk; VI by_] =>
              acts <- unpack_actions (skipn 44 raw3);;
              Ok (BStatsRep t (SPFlow (mkFs ti m se ns pr id hd ck pk by_ acts)))
          | _ => Err EStruct
          end
      | _ => Err EStruct
      end
  else if sub =? 2 then                                                (* 2439-2449 *)
    if Nat.ltb (length raw) 24 then Err EExc
    else
      t <- stats_from (firstn 4 raw);;
      fs <- unpack [fQ; fQ; fI] (skipn 4 raw);;
      match fs with [VI b; VI p; VI f] => Ok (BStatsRep t (SPAggr b p f)) | _ => Err EStruct end
  else if sub =? 3 then                                                (* 2498-2529 *)
    if Nat.ltb (length raw) 68 then Err EExc
    else
      t <- stats_from (firstn 4 raw);;
      fs <- unpack table_fmt (skipn 4 raw);;
      match fs with
      | [VI ti; VB nm; VI w; VI mx; VI ac; VI lk; VI mt] =>
          (* [fields[1] == OpenflowWildcard.All.value] compares bytes with an int: never true *)
          nm' <- decode nm;;
          Ok (BStatsRep t (SPTable (mkTs ti nm' (filter (fun v => Z.land v w =? v) PlainWildcards)
                (Some (Z.shiftr (Z.land w wcNwSrcMask) 8)) (Some (Z.shiftr (Z.land w wcNwDstMask) 14)) mx ac lk mt)))
      | _ => Err EStruct
      end
  else if sub =? 4 then                                                (* 2627-2645 *)
    if Nat.ltb (length raw) 108 then Err EExc
    else
      t <- stats_from (firstn 4 raw);;
      fs <- unpack portstat_fmt (skipn 4 raw);;
      match fs with
      | [VI po; VI v1; VI v2; VI v3; VI v4; VI v5; VI v6; VI v7; VI v8; VI v9; VI v10; VI v11; VI v12] =>
          let p0 := mkPs po v1 v2 v3 v4 v5 v6 v7 v8 v9 0 0 v12 in
          Ok (BStatsRep t (SPPort (set_rx_crc v11 (set_rx_over v10 p0))))
      | _ => Err EStruct
      end
  else if sub =? 5 then                                                (* 2769-2779 *)
    if Nat.ltb (length raw) 36 then Err EExc
    else
      t <- stats_from (firstn 4 raw);;
      fs <- unpack queuestat_fmt (skipn 4 raw);;
      match fs with
      | [VI p; VI q; VI b; VI k; VI e] => Ok (BStatsRep t (SPQueue p q b k e))
      | _ => Err EStruct
      end
  else if sub =? 0xffff then                                           (* 2839-2847 *)
    if Nat.ltb (length raw) 8 then Err EExc
    else
      t <- stats_from (firstn 4 raw);;
      let raw1 := skipn 4 raw in
      fs <- unpack [fI] (firstn 4 raw1);;
      match fs with [VI i] => Ok (BStatsRep t (SPVendor i (skipn 4 raw1))) | _ => Err EStruct end
  else Err EKey.

Definition noret (r : res ofbody) : res (ofbody * option bytes) := b <- r;; Ok (b, None).
(** dpid, nbuffers and ntables setters (1517-1524, 1560-1578). *)
Definition dpid_of (v : bytes) : res bytes :=
  if Nat.ltb 8 (length v) then Err EValue else Ok (repeat 0 (8 - length v) ++ v).
Definition nbuf_of (v : Z) : res Z := if (0 <=? v) && (v <? 4294967296) then Ok v else Err EValue.
Definition ntab_of (v : Z) : res Z := if (0 <? v) && (v <? 256) then Ok v else Err EValue.
Definition body_from (c : ofclass) (raw : bytes) : res (ofbody * option bytes) :=
  match c with
  | CError => noret (                                                  (* 1723-1728 *)
      fs <- unpack [fH; fH] (firstn 4 raw);;
      match fs with
      | [VI t; VI c] =>
          t' <- enum_of ErrorTypes t;;
          c' <- enum_of (error_codes t') c;;
          Ok (BError (Some t') (Some c') (skipn 4 raw))
      | _ => Err EStruct
      end)
  | CEchoReq => Ok (BEchoReq raw, None)                                (* 1252-1253 *)
  | CEchoRep => Ok (BEchoRep raw, None)
  | CVendor => noret (                                                 (* 1774-1778 *)
      fs <- unpack [fI] (firstn 4 raw);;
      match fs with [VI v] => Ok (BVendor v (skipn 4 raw)) | _ => Err EStruct end)
  | CFeatures =>                                                       (* 1491-1508 *)
      if Nat.ltb (length raw) 24 then Err EExc
      else
        fs <- unpack features_fmt (firstn 24 raw);;
        match fs with
        | [VB dp; VI nb; VI nt; VI cs; VI ac] =>
            dp' <- dpid_of dp;;
            nb' <- nbuf_of nb;;
            nt' <- ntab_of nt;;
            pr <- ports_from (S (length raw)) (skipn 24 raw);;
            Ok (BFeatures dp' nb' nt' (unpack_bitmap cs Capabilities) (unpack_bitmap ac ActionTypes) (fst pr),
                Some (snd pr))
        | _ => Err EStruct
        end
  | CGetConfig | CSetConfig =>                                         (* 1281-1290 *)
      if Nat.ltb (length raw) 4 then Err EExc
      else
        fs <- unpack [fH; fH] (firstn 4 raw);;
        match fs with
        | [VI f; VI l] =>
            f' <- enum_of ConfigFlags f;;
            Ok (match c with CGetConfig => BGetConfig f' l | _ => BSetConfig f' l end, Some (skipn 4 raw))
        | _ => Err EStruct
        end
  | CPacketIn => noret (                                               (* 2991-3000 *)
      if Nat.ltb (length raw) 10 then Err EExc
      else
        fs <- unpack packetin_fmt (firstn 10 raw);;
        match fs with
        | [VI bu; VI _; VI ip; VI re] =>
            ip' <- get_port ip;;
            re' <- enum_of PacketInReasons re;;
            Ok (BPacketIn bu ip' re' (skipn 10 raw))
        | _ => Err EStruct
        end)
  | CFlowRemoved => noret (r <- flowrem_from raw;; Ok (BFlowRemoved r))
  | CPortStatus => noret (                                             (* 1922-1928 *)
      if Nat.ltb (length raw) 56 then Err EExc
      else
        fs <- unpack [fB; FX 7] (firstn 8 raw);;
        match fs with
        | [VI re] =>
            re' <- enum_of PortReasons re;;
            p <- pport_from (skipn 8 raw);;
            Ok (BPortStatus re' (fst p))
        | _ => Err EStruct
        end)
  | CPacketOut => noret (                                              (* 3088-3098 *)
      if Nat.ltb (length raw) 8 then Err EExc
      else
        fs <- unpack packetout_fmt (firstn 8 raw);;
        match fs with
        | [VI bu; VI ip; VI al] =>
            ip' <- get_port ip;;
            let raw1 := skipn 8 raw in
            acts <- unpack_actions (firstn (Z.to_nat al) raw1);;
            Ok (BPacketOut bu ip' acts (Some (skipn (Z.to_nat al) raw1)))
        | _ => Err EStruct
        end)
  | CFlowMod => noret (f <- flowmod_from raw;; Ok (BFlowMod f))
  | CPortMod => noret (                                                (* 1817-1825 *)
      if Nat.ltb (length raw) 24 then Err EExc
      else
        fs <- unpack portmod_fmt raw;;
        match fs with
        | [VI p; VB hw; VI c; VI m; VI ad] =>
            hw' <- eth_init (ABytes hw);;
            Ok (BPortMod p hw' (unpack_bitmap c PortConfigs) (unpack_bitmap m PortConfigs) (unpack_bitmap ad PortFeatures))
        | _ => Err EStruct
        end)
  | CStatsBase => noret (t <- stats_from raw;; Ok (BStatsReq t SQDesc))
  | CStatsReq sub => noret (statsreq_from sub raw)
  | CStatsRep sub => noret (statsrep_from sub raw)
  | CQueueReq => noret (                                               (* 2910-2914 *)
      if Nat.ltb (length raw) 4 then Err EExc
      else
        fs <- unpack [fH; FX 2] raw;;
        match fs with [VI p] => p' <- get_port p;; Ok (BQueueReq p') | _ => Err EStruct end)
  | CQueueRep => noret (                                               (* 2948-2961 *)
      if Nat.ltb (length raw) 8 then Err EExc
      else
        fs <- unpack [fH; FX 6] (firstn 8 raw);;
        match fs with
        | [VI p] =>
            p' <- get_port p;;
            qs <- queues_from (S (length raw)) (skipn 8 raw);;
            Ok (BQueueRep p' qs)
        | _ => Err EStruct
        end)
  end.

(** ** OpenflowHeader (3250-3388). *)
(** A type outside OpenflowType is kept as an InvalidOpenflowType with the same value (3325-3331). *)
Record ofhdr := mkOh { oh_ver : Z; oh_type : Z; oh_len : Z; oh_xid : Z; oh_sub : option Z }.
(** __init__ (3285-3294). *)
Definition hdr_new (ty xid ver : Z) : ofhdr := mkOh ver ty 8 xid None.
Definition hdr_fmt := [fB; fB; fH; fI].
(** to_bytes (3359-3361). *)
Definition hdr_to (h : ofhdr) : res bytes :=
  pack hdr_fmt [VI (oh_ver h); VI (oh_type h); VI (oh_len h); VI (oh_xid h)].
(** from_bytes (3341-3357). *)
Definition hdr_from (raw : bytes) : res (ofhdr * bytes) :=
  if Nat.ltb (length raw) 8 then Err EExc
  else
    fs <- unpack hdr_fmt (firstn 8 raw);;
    match fs with
    | [VI v; VI t; VI l; VI x] =>
        let rest := skipn 8 raw in
        if zmem t [16; 17] && Nat.leb 2 (length rest)
        then
          ss <- unpack [fH] (firstn 2 rest);;
          match ss with
          | [VI s] => s' <- enum_of StatsTypes s;; Ok (mkOh v t l x (Some s'), rest)
          | _ => Err EStruct
          end
        else Ok (mkOh v t l x None, rest)
    | _ => Err EStruct
    end.
(** _OpenflowTypeClasses (3260-3283) and next_header_class (3366-3374).  The condition reads
    [A or (B and subtype is not None)], so a request without subtype evaluates None.name. *)
Definition hdr_next (h : ofhdr) : res (option ofclass) :=
  let t := oh_type h in
  if t =? 16 then
    match oh_sub h with
    | Some s => if s =? 0xdead then Err EKey else Ok (Some (CStatsReq s))
    | None => Err EAttr
    end
  else if t =? 17 then
    match oh_sub h with
    | Some s => if s =? 0xdead then Err EKey else Ok (Some (CStatsRep s))
    | None => Ok (Some CStatsBase)
    end
  else
    Ok (if t =? 1 then Some CError else if t =? 2 then Some CEchoReq else if t =? 3 then Some CEchoRep
        else if t =? 4 then Some CVendor else if t =? 6 then Some CFeatures else if t =? 8 then Some CGetConfig
        else if t =? 9 then Some CSetConfig else if t =? 10 then Some CPacketIn
        else if t =? 11 then Some CFlowRemoved else if t =? 12 then Some CPortStatus
        else if t =? 13 then Some CPacketOut else if t =? 14 then Some CFlowMod else if t =? 15 then Some CPortMod
        else if t =? 20 then Some CQueueReq else if t =? 21 then Some CQueueRep else None).

(** ** Packets whose first header is an OpenflowHeader. *)
Inductive ofph := PHdr (h : ofhdr) | PBody (b : ofbody) | PRaw (d : bytes).
(** Packet._parse with first_header=OpenflowHeader (packet.py:42-60). *)
Definition of_parse (raw : bytes) : res (list ofph) :=
  let tail (r : option bytes) := match r with Some (x :: d) => [PRaw (x :: d)] | _ => [] end in
  hr <- hdr_from raw;;
  nc <- hdr_next (fst hr);;
  match nc with
  | None => Ok (PHdr (fst hr) :: tail (Some (snd hr)))
  | Some c => br <- body_from c (snd hr);; Ok (PHdr (fst hr) :: PBody (fst br) :: tail (snd br))
  end.
(** Packet.to_bytes (packet.py:29-40): headers are serialised from the last to the first;
    OpenflowHeader.pre_serialize (3378-3382) stores the total length in the object. *)
Fixpoint of_ser (l : list ofph) : res (list ofph * bytes) :=
  match l with
  | [] => Ok ([], [])
  | x :: r =>
      tl <- of_ser r;;
      match x with
      | PHdr h =>
          let h' := mkOh (oh_ver h) (oh_type h) (zlen (snd tl) + 8) (oh_xid h) (oh_sub h) in
          b <- hdr_to h';; Ok (PHdr h' :: fst tl, b ++ snd tl)
      | PBody y => b <- body_to y;; Ok (PBody y :: fst tl, b ++ snd tl)
      | PRaw d => Ok (PRaw d :: fst tl, d ++ snd tl)
      end
  end.
